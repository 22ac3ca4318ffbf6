(** A validator that starts in the middle of a signed stream: lemmas. *)
From Verif Require Import Base BaseProofs Epb EpbProofs Nalu NaluSpec NaluProofs Crypto Types Hash Tlv TlvProofs EncProofs CodecSpec CodecProofs
  SeiSpec SeiProofs GenProofs SessProofs Signer SignSpec GopSpec GopProofs VTypes NaluList Validator SeiHashProofs VListProofs VUnsigned
  E2eSpec DamageSpec E2eDec E2eList E2eVal E2eAny E2eStep E2eSei E2eRaw E2eMain.
Local Open Scope N_scope.

(** ** Lists in which nothing is used *)
Lemma hl_unused l : Forall (fun it => i_used it = false) l -> forall hs exp pos ps se s, hl_loop hs exp pos ps se s l = Def (s, l).
Proof.
  induction 1 as [|it l U _ IH]; intros hs exp pos ps se s; [reflexivity|]. cbn [hl_loop]. cbv zeta. rewrite U, orb_true_r, IH. reflexivity.
Qed.

Lemma first_used_none l : Forall (fun it => i_used it = false) l -> first_used l = None.
Proof. induction 1 as [|it l U _ IH]; [reflexivity|]. cbn [first_used]. rewrite U, IH. reflexivity. Qed.

Lemma find_link_none l : Forall (fun it => i_used it = false) l -> find_link l = Def None.
Proof. induction 1 as [|it l U _ IH]; [reflexivity|]. cbn [find_link]. rewrite U, IH. reflexivity. Qed.

(** Removing the missing items when no NALU of the GOP is there. *)
Lemma rm_calms l it : Forall calm l -> pending it = true -> forall front fp fs, (l = [] -> fp = true) ->
  fs = true \/ Exists (fun x => i_decoded x = true /\ i_status x = SValid) l ->
  exists l', Forall calm l' /\ remove_missing front fp fs (l ++ [it]) = l' ++ [it].
Proof.
  intros F P. induction F as [|x l Q F IH]; intros front fp fs HP HE.
  - rewrite (HP eq_refl). destruct HE as [-> |HE]; [|inversion HE]. exists []. split; [constructor|reflexivity].
  - cbn [app remove_missing]. destruct (fp && fs) eqn:EB; [exists (x :: l); split; [constructor; assumption|reflexivity]|]. clear HP.
    pose proof Q as (Q1 & Q2 & Q3).
    assert (NM : vstat_eqb (i_status x) SMiss = false) by (destruct Q3 as [<- | [<- | [<- | []]]]; reflexivity).
    rewrite NM. cbn [andb]. cbv zeta.
    set (mk := i_decoded x && negb (vstat_eqb (i_status x) SUnknown)).
    set (x1 := if mk then set_i_status SUnknown x else x).
    assert (C1 : calm x1) by (unfold x1; destruct mk; [split; [exact Q1|split; [exact Q2|cbn; auto]]|exact Q]).
    assert (N1 : vstat_eqb (i_status x1) SInvalid = false) by (destruct C1 as (_ & _ & [<- | [<- | [<- | []]]]); reflexivity).
    rewrite N1.
    destruct (IH false (fp || match l ++ [it] with nx :: _ => pending nx | [] => false end) (fs || mk)) as (l' & F' & E').
    + intros ->. cbn [app]. rewrite P. apply orb_true_r.
    + destruct HE as [-> |HE]; [left; reflexivity|]. inversion HE as [? ? (D1 & D2)|? ? HE']; subst; [|right; exact HE'].
      left. unfold mk. rewrite D1, D2. apply orb_true_r.
    + rewrite E'. exists (x1 :: l'). split; [constructor; assumption|reflexivity].
Qed.
Lemma rm_front ms l : Forall (fun it => i_status it = SMiss) ms -> remove_missing true false false (ms ++ l) = remove_missing true false false l.
Proof. induction 1 as [|x ms E _ IH]; [reflexivity|]. cbn [app remove_missing andb]. rewrite E. exact IH. Qed.

Lemma stats_missing n l i m : get_stats l = (i, m, false) -> exists m', get_stats (repeat missing_item n ++ l) = (i, m', false).
Proof.
  intros E. induction n as [|n (m' & IH)]; [exists m; exact E|]. cbn [repeat app get_stats]. rewrite IH.
  exists (1 + m')%Z. reflexivity.
Qed.

(** The copy of a SEI keeps what validation needs. *)
Lemma copy_sei l it n : i_nalu it = Some n -> n_tlv_size n <= nlen (n_tlv_mem n) -> n_tlv_size n < 2 ^ 63 ->
  exists m, copy_last true (l ++ [it]) = Def (l ++ [set_i_nalu (Some m) it], SV_OK) /\
    n_gop_sei m = n_gop_sei n /\ n_first_in_gop m = n_first_in_gop n /\ n_hashable m = n_hashable n /\ n_valid m = n_valid n /\
    n_golden m = n_golden n /\ n_tlv_size m = n_tlv_size n /\ n_tlv_mem m = firstn (N.to_nat (n_tlv_size n)) (n_tlv_mem n).
Proof.
  intros E S1 S2. change (2 ^ 63) with 9223372036854775808 in S2. unfold copy_last. rewrite rev_app_distr. cbn [rev app copy_rev]. rewrite E. unfold copy_nalu.
  destruct (N.leb_spec 9223372036854775808 (n_tlv_size n)); [lia|]. destruct (N.ltb_spec (nlen (n_tlv_mem n)) (n_tlv_size n)); [lia|].
  cbn [negb andb obind rev]. rewrite rev_involutive. eexists. split; [reflexivity|]. repeat split.
Qed.

Section Seg.
Context {SGop : start_gop}.
Variable C : crypto.
Hypothesis HC : crypto_ok C.
Hypothesis HKW : keys_work C.
Variable Ov : ovf.
Hypothesis HOv : Ov <> OvfUndef.
Variable c : codec.
Variable w : settings.
Variable hs : nat.
Hypothesis HO : c_oid C (w_oid w) = OidDigest hs.
Hypothesis HW0 : w_oid w <> [].
Hypothesis HWl : nlen (w_oid w) < 254.
Hypothesis HP0 : w_pub w <> [].
Hypothesis HPl : nlen (w_pub w) < 65535.
Hypothesis HPk : c_pub_ok C (w_pub w) = true.
Hypothesis HR5 : length (w_prod w) = 5%nat.
Hypothesis HRb : Forall (Forall (fun b => 0 < b < 256)) (w_prod w).
Hypothesis HMx : N.of_nat (w_max_sig w) + 5 < 65536.
Variable f : nat.

Let H := c_hash C (w_oid w).
Let Hhs : (0 < hs <= 64)%nat := hs_small C HC w hs HO.
Let HL : forall x, length (H x) = hs := H_len C HC w hs HO.
Notation gdec := (gdec w hs).
Notation its_h := (its (first_hash H hs) (other_hash H hs)).
Notation links_ok := (links_ok C w hs).
Notation vgood b P v k prev x := (vgoodo C Ov c w hs b P v k prev (Some x)).
Notation vraw := (vraw C c w hs).
Notation refs := (refs C w hs).
Notation sei_item := (sei_item C w hs).

(** After a SEI that came first. *)
Record vhalf (v : valid) (q : list item) (it : item) (fs : list (N * list N)) (sig sp : list N) : Prop := mkVhalf {
  vh_codec : v_codec v = c;
  vh_dec : gdec (v_dec v);
  vh_legacy : v_legacy v = false;
  vh_report : v_report v = true;
  vh_signing : v_signing v = true;
  vh_refs : length (v_buddies v) = 128%nat;
  vh_synced : v_synced v = false;
  vh_links : links_ok (v_links v) None;
  vh_computed : length (v_computed v) = 64%nat;
  vh_hash : length (v_hash v) = 64%nat;
  vh_acc : a_auth (v_acc v) = NotSigned;
  vh_changed : a_changed (v_acc v) = false;
  vh_first : v_first v = true;
  vh_items : v_items v = q ++ [it];
  vh_calm : Forall calm q;
  vh_sei : sei_item it fs sig sp;
  vh_second : Forall (fun it => i_second it = None) (v_items v)
}.

Lemma sei_copied it n m fs sig sp : sei_item it fs sig sp -> i_nalu it = Some n -> 
  n_gop_sei m = n_gop_sei n -> n_first_in_gop m = n_first_in_gop n -> n_hashable m = n_hashable n -> n_valid m = n_valid n ->
  n_golden m = n_golden n -> n_tlv_size m = n_tlv_size n -> n_tlv_mem m = firstn (N.to_nat (n_tlv_size n)) (n_tlv_mem n) ->
  sei_item (set_i_nalu (Some m) it) fs sig sp.
Proof.
  intros ((A1 & A2 & A3 & n1 & A4 & A5 & A6 & A7 & A8) & B & D & n2 & r & E1 & E2 & E3 & E4) EN M1 M2 M3 M4 M5 M6 M7.
  assert (n1 = n) as -> by congruence. assert (n2 = n) as -> by congruence.
  split; [|split; [exact B|split; [exact D|]]].
  - repeat (split; [assumption|]). exists m. split; [reflexivity|]. rewrite M1, M2, M3, M4. auto.
  - exists m, []. split; [reflexivity|]. rewrite M5, M6, M7. split; [exact E2|]. split; [|exact E4].
    rewrite app_nil_r, E2, E3. unfold nlen. rewrite Nat2N.id. apply firstn_app_len. reflexivity.
Qed.

Lemma rehash_calm l : Forall calm l -> Forall idle l -> forall v st rest, exists st2,
  rehash C v (l ++ rest) st = (do (v3, r3, st3) <- rehash C v rest st2; Def (v3, l ++ r3, st3)).
Proof.
  induction 1 as [|it l Q F IH]; intros J v st rest.
  - exists st. cbn [app]. destruct (rehash C v rest st) as [[[? ?] ?]|]; reflexivity.
  - apply Forall_cons_iff in J as [J0 J]. destruct (J0 (calm_pending _ Q)) as (n & E1 & E2). cbn [app rehash]. rewrite E1.
    assert (HI : hash_item C v it = Def (v, it, SV_OK)) by (unfold hash_item; rewrite E1, E2; reflexivity).
    destruct (n_valid n <=? 0)%Z.
    + destruct (IH J v st rest) as (st2 & ->). exists st2. destruct (rehash C v rest st2) as [[[? ?] ?]|]; reflexivity.
    + rewrite HI. cbn [obind is_ok svrc_eqb negb]. destruct (IH J v SV_OK rest) as (st2 & ->). exists st2. destruct (rehash C v rest st2) as [[[? ?] ?]|]; reflexivity.
Qed.

Lemma lead_sei v k so sxs ts sx y : vraw v -> Forall calm (v_items v) -> w_using w = false ->
  sei_with C c w (gop_fields C w k true so sxs ts) sx -> delivered (w_epb w) sx y ->
  few_escapes (w_epb w) (gop_fields C w k true so sxs ts) (w_max_sig w) ->
  exists v' q it sig sp, add_nalu C Ov (S f) v y true = Def (v', VRes SV_OK None) /\ vhalf v' q it (gop_fields C w k true so sxs ts) sig sp /\
    sig <> [] /\ (length sig <= w_max_sig w)%nat /\ c_verify C (w_pub w) sig (H sp) = 1%Z /\
    Forall wire_ok (gop_fields C w k true so sxs ts ++ [(5, sig_value (w_max_sig w) sig)]).
Proof.
  intros G0 QC HU SW HD HF.
  destruct (sei_parse C HC HKW c w hs HO HWl HPl HR5 HMx _ _ _ SW HD HF)
    as (n & n2 & sig & sp & E1 & E2 & E3 & E4 & E5 & E6 & E7 & E8 & E9 & E10 & E11 & E12 & E13 & E14 & E15).
  unfold add_nalu. destruct y as [|d0 dr] eqn:ED; [congruence|]. rewrite <- ED in *. clear ED d0 dr.
  cbv zeta. destruct (started C c w hs v G0) as (G & R1 & I1). rewrite <- I1 in QC. set (vs := create_report (set_v_started true v)) in *. clearbody vs. clear G0 I1 v.
  rewrite (vr_legacy _ _ _ _ _ G). unfold add_h26x. rewrite (vr_codec _ _ _ _ _ G), E1. cbn [obind]. unfold add_body. cbv zeta.
  rewrite E2. change (1 <? 0)%Z with false. cbn iota. rewrite E3, orb_true_r, andb_true_r.
  match goal with |- context [register C ?y n] => set (v1 := y) end.
  destruct (vr_dec _ _ _ _ _ G) as (AK & DR). pose proof E9 as (S1 & S2 & S3 & S4 & S5 & S6 & S7 & S8 & S9 & S10 & S11).
  unfold register. rewrite E2. change (1 =? 0)%Z with false. cbn iota. rewrite E6. cbn [obind].
  set (it := set_i_nalu (Some n2) (item_create n)).
  assert (EHI : hash_item C v1 it = Def (v1, it, SV_OK)).
  { unfold hash_item. cbn [it i_nalu set_i_nalu]. change (v_dec v1) with (v_dec vs). rewrite AK. cbn [negb]. rewrite orb_true_r. reflexivity. }
  rewrite EHI. cbn [obind is_ok svrc_eqb negb].
  change (v_items (on_acc _ (set_v_result false vs))) with (v_items vs).
  set (v2 := set_v_items (v_items vs ++ [it]) v1).
  change (v_dec v2) with (v_dec vs) at 1. rewrite AK. change (v_signing v2) with true. cbn [negb andb].
  destruct (vr_items _ _ _ _ _ G) as (F1 & F2 & F3 & F4).
  assert (ST : i_status it = SPend) by (cbn; unfold status_of; rewrite E2, E10; reflexivity).
  destruct (recurrent_first C w hs HO HW0 HWl HP0 HPl HPk HR5 HRb HMx v2 n2 it k so sxs (H (concat (hashes H sxs))) ts sig (v_items vs) (vr_dec _ _ _ _ _ G) eq_refl eq_refl F1 F2 eq_refl) as (d & RD & GD);
    [unfold pending; rewrite ST; reflexivity|exact E9|exact E14|exact HU|].
  rewrite RD. cbn [obind negb]. rewrite E5. cbn [obind is_ok svrc_eqb negb andb]. destruct (N.eqb_spec (N.land (n_reserved n) 48) 0) as [X|_]; [congruence|]. cbn [andb].
  unfold reregister. set (v3 := on_dec (set_d_algo_known true) (set_v_dec d v2)).
  change (v_items v3) with (v_items vs ++ [it]).
  destruct (rehash_calm (v_items vs) QC F3 v3 SV_UNKNOWN_FAILURE [it]) as (st2 & RH).
  rewrite RH. cbn [rehash]. change (i_nalu it) with (Some n2). cbn iota. rewrite S4. change (1 <=? 0)%Z with false. cbn iota.
  destruct (sei_hashed C HC w hs HO HWl HPl HR5 HMx v3 it n2 sp GD eq_refl E7 E8 eq_refl S3 S1 S6 S7 S5) as (h & EH & H1 & H2). rewrite EH. cbn [obind is_ok svrc_eqb negb orb].
  set (it2 := set_i_hash h it). set (v5 := set_v_items (v_items vs ++ [it2]) v3).
  assert (SI : sei_item it2 (gop_fields C w k true so sxs ts) sig sp).
  { apply (sei_fresh C w hs _ _ _ E9); try reflexivity; try assumption. }
  change (v_legacy v5) with (v_legacy vs). rewrite (vr_legacy _ _ _ _ _ G). cbn [orb].
  (* nothing to validate *)
  assert (MV : exists g, maybe_validate C Ov (S f) v5 n = Def (set_v_gs g v5, SV_OK)).
  { unfold maybe_validate. cbv zeta. change (v_items v5) with (v_items vs ++ [it2]). rewrite rev_app_distr. cbn [rev app].
    assert (EP : pending it2 = true) by (unfold pending; change (i_status it2) with (i_status it); rewrite ST; reflexivity).
    assert (EF : feasible it2 = true) by (unfold feasible; change (i_nalu it2) with (Some n2); cbn iota; rewrite EP, S3, S2, S1; reflexivity).
    rewrite EF. unfold recurrent_decoded. change (v_dec v5) with (set_d_algo_known true d). rewrite (gd_has _ _ _ GD). cbn [orb obind andb negb].
    unfold validate_loop. fold (validate_loop C Ov). unfold has_pending. change (v_signing v5) with true. change (v_items v5) with (v_items vs ++ [it2]).
    assert (FS : Forall stream_item (v_items vs)) by (eapply Forall_impl; [|exact QC]; intros z; left; assumption).
    destruct (pending_stream (first_hash H hs) true (v_items vs) FS pg0 [it2]) as (s' & P1 & (P2 & P3 & P4) & P5); [repeat split; discriminate|discriminate|].
    unfold pg0 in P1. rewrite P1. cbn [pending_loop]. cbv zeta. change (i_nalu it2) with (Some n2). cbn iota.
    rewrite EP, S3, S5. cbn [andb g_ends g_sei g_after].
    assert (N0 : nfirst (v_items vs) = 0%nat).
    { clear - QC. induction QC as [|z l Q F IH]; [reflexivity|]. unfold nfirst in *. cbn [filter]. rewrite (calm_pending _ Q). exact IH. }
    rewrite P5, N0, P3. change (g_ends pg0 + 0)%nat with 0%nat. cbn [Nat.ltb Nat.leb andb orb].
    assert (GL : match g_last s' with Some z => z | None => false end = false) by (destruct (g_last s') as [[|]|]; [congruence|reflexivity|reflexivity]).
    rewrite GL. cbn [negb orb]. eexists. reflexivity. }
  destruct MV as (g & ->). cbn [obind].
  change (v_legacy (set_v_gs g v5)) with (v_legacy vs). rewrite (vr_legacy _ _ _ _ _ G).
  change (d_algo_known (v_dec (set_v_gs g v5))) with true. change (v_items (set_v_gs g v5)) with (v_items vs ++ [it2]).
  destruct S10 as (rr & S10).
  destruct (copy_sei (v_items vs) it2 n2 eq_refl) as (m & EC & M1 & M2 & M3 & M4 & M5 & M6 & M7); [rewrite S9, S10, nlen_app'; lia|rewrite S9; exact S11|].
  rewrite EC. cbn [obind is_ok svrc_eqb negb].
  match goal with |- context [v_legacy ?y] => change (v_legacy y) with (v_legacy vs) end. rewrite (vr_legacy _ _ _ _ _ G).
  match goal with |- context [v_result ?y] => change (v_result y) with false end. cbn iota.
  eexists _, (v_items vs), (set_i_nalu (Some m) it2), sig, sp. split; [reflexivity|]. split; [|auto].
  pose proof (sei_copied it2 n2 m _ _ _ SI eq_refl M1 M2 M3 M4 M5 M6 M7) as SC.
  destruct G. constructor; try assumption; try reflexivity.
  cbn. apply Forall_app. split; [exact F4|]. constructor; [reflexivity|constructor].
Qed.

(** ** The first NALU of a GOP after a SEI that came first *)
Section Alone.
Variables (k : N) (rec : bool) (so : option (list N)) (sxs : list (list N)) (ts : option Z) (sig sp : list N).
Hypothesis HT : match ts with Some t => (-9223372036854775808 <= t < 9223372036854775808)%Z | None => True end.
Hypothesis HS0 : sig <> [].
Hypothesis HSl : (length sig <= w_max_sig w)%nat.
Hypothesis HV : c_verify C (w_pub w) sig (H sp) = 1%Z.
Let fs := gop_fields C w k rec so sxs ts.
Hypothesis HWO : Forall wire_ok (fs ++ [(5, sig_value (w_max_sig w) sig)]).
Variables (q : list item) (it i0 : item).
Hypothesis Q : Forall calm q.
Hypothesis SI : sei_item it fs sig sp.
Hypothesis W0 : waits true i0.

Lemma q_str : Forall stream_item q.
Proof. eapply Forall_impl; [|exact Q]. intros b; left; assumption. Qed.
Lemma unused_all it' : i_used it' = false -> Forall (fun x => i_used x = false) (q ++ it' :: [i0]).
Proof.
  intros U. apply Forall_app. split; [eapply Forall_impl; [|exact Q]; intros b (X & _); exact X|].
  constructor; [exact U|]. constructor; [|constructor]. apply W0.
Qed.

Lemma prepare_alone v : gdec (v_dec v) -> v_items v = q ++ it :: [i0] -> v_signing v = true -> gs_sei (v_gs v) = true ->
  v_synced v = false -> length (v_computed v) = 64%nat -> length (v_hash v) = 64%nat ->
  exists u, prepare C Ov v = Def (u, SV_OK) /\ keeps v u /\ gdec (v_dec u) /\ says_gop C w hs k so sxs (H (concat (hashes H sxs))) (v_dec u) /\
    v_items u = q ++ set_i_decoded true it :: [i0] /\ v_verified u = 1%Z /\ gs_lost (v_gs u) = false /\ gs_after (v_gs u) = gs_after (v_gs v) /\
    length (v_computed u) = 64%nat /\ length (v_hash u) = 64%nat /\ v_links u = v_links v /\ v_first u = v_first v /\
    v_latest u = v_latest v /\ v_result u = v_result v.
Proof.
  intros G EI ES EG EK LC LH. destruct SI as (SW & SH & SHl & n & r & N1 & N2 & N3 & N4).
  pose proof SW as (W1 & W2 & W3 & n' & M1 & M2 & M3 & M4 & M5). assert (n' = n) as -> by congruence.
  unfold prepare. cbv zeta. unfold vhs. rewrite (gd_vhs _ _ _ G), EI, next_calm by exact q_str.
  unfold next_sei at 1. cbn [find]. unfold item_sei, pending. rewrite N1, M2, W1. cbn [vstat_eqb andb]. rewrite N1, W3.
  unfold decode_sei.
  set (d0 := set_d_l_changed false (v_dec v)).
  assert (G0 : gdec d0) by (destruct G; constructor; assumption || reflexivity).
  destruct (dec_gop C HC w hs HO HW0 HWl HP0 HPl HPk HR5 HRb HMx d0 k rec so sxs (H (concat (hashes H sxs))) ts sig (HL _) G0 HSl HT) as (d1 & D1 & G1 & S1 & G2 & G3 & _).
  change (v_dec (on_dec (set_d_l_changed false) v)) with d0.
  assert (NE : fs ++ [(5, sig_value (w_max_sig w) sig)] <> []) by (destruct fs; discriminate).
  rewrite N2, N3, (decode_wires C d0 _ r (d1, SV_OK) NE HWO D1). cbn [obind is_ok svrc_eqb negb].
  pose proof S1 as (S1a & S1b & S1c & S1d).
  rewrite detect_none by (right; split; [exact EK|left; exact HOv]). cbn [obind].
  match goal with |- context [if ?b then on_gs _ _ else _] => change b with (gs_no_end (v_gs v) && false) end. rewrite andb_false_r.
  cbn [is_ok svrc_eqb negb].
  rewrite (read_firstn hs _ _ SH (HL _)). cbn [obind]. change (c_hash C (w_oid w) sp) with (H sp).
  match goal with |- context [put_at 0 ?h (H sp)] => change h with (v_hash v) end.
  destruct (firstn_put (v_hash v) (H sp) hs (HL _)) as (y & Y1 & Y2 & Y3); [lia|]. rewrite Y1. cbn [obind is_ok svrc_eqb negb].
  rewrite detect_none by (right; split; [exact EK|left; exact HOv]). cbn [obind].
  match goal with |- context [prepare_gop C ?x] => set (v1 := x) end.
  assert (I1 : v_items v1 = q ++ set_i_decoded true it :: [i0]).
  { change (v_items v1) with (on_next_sei (set_i_decoded true) (v_items v)). rewrite EI, on_next_calm by exact q_str.
    cbn [on_next_sei]. unfold item_sei, pending. rewrite N1, M2, W1. reflexivity. }
  assert (D : v_dec v1 = d1) by reflexivity.
  unfold prepare_gop. unfold vhs. rewrite D, (gd_vhs _ _ _ G1), (init_ctx _ _ (gd_prim _ _ _ G1) (gd_type _ _ _ G1)), I1.
  rewrite (loop_calm _ Q). cbn [gop_loop]. unfold pending. change (i_status (set_i_decoded true it)) with (i_status it). change (i_nalu (set_i_decoded true it)) with (i_nalu it).
  rewrite W1, N1, M3, M2. cbn [vstat_eqb negb Nat.ltb Nat.leb andb].
  cbn [obind is_ok svrc_eqb negb]. unfold finalize_hash. cbn [get_ctx ctx_with h_prim x_final x_oid x_data]. cbn [is_ok svrc_eqb negb].
  match goal with |- context [put_at 0 (v_computed ?x) _] => change (v_computed x) with (v_computed v) end.
  change (c_hash C (w_oid w)) with H.
  destruct (firstn_put (v_computed v) (H []) hs (HL _)) as (z & Z1 & Z2 & Z3); [lia|].
  rewrite Z1. cbn [obind is_ok svrc_eqb negb].
  match goal with |- context [v_signing ?x && _] => set (v2 := x) end.
  assert (G4 : gdec (v_dec v2)).
  { destruct G1. constructor; try assumption. reflexivity. }
  rewrite (gd_has _ _ _ G4), andb_false_r.
  change (gs_sei (v_gs v2)) with (gs_sei (v_gs v)). rewrite EG.
  unfold verify_hash. change (d_sig (v_dec v2)) with (d_sig d1). change (d_vkey (v_dec v2)) with (d_vkey d1).
  change (d_sig_size (v_dec v2)) with (d_sig_size d1). rewrite G2, (gd_vkey _ _ _ G1), G3.
  destruct (N.eqb_spec (nlen sig) 0) as [E|_]; [destruct sig; [congruence|discriminate E]|].
  assert (EP : firstn (N.to_nat (nlen sig)) (padded (w_max_sig w) sig) = sig).
  { unfold padded, nlen. rewrite Nat2N.id. apply firstn_app_len. reflexivity. }
  unfold vhs. rewrite EP, (gd_vhs _ _ _ G4). change (v_hash v2) with y. rewrite Y2, HV.
  eexists. split; [reflexivity|]. split; [repeat split|]. split; [exact G4|]. split; [exact S1|].
  split; [reflexivity|]. split; [reflexivity|]. split; [reflexivity|]. split; [reflexivity|]. split; [exact (eq_trans Z3 LC)|]. split; [exact (eq_trans Y3 LH)|]. repeat split.
Qed.

Lemma validate_alone v : gdec (v_dec v) -> v_items v = q ++ set_i_decoded true it :: [i0] -> Forall (fun x => i_second x = None) (q ++ [it]) ->
  v_verified v = 1%Z -> gs_lost (v_gs v) = false -> v_first v = true -> l_auth (v_latest v) = SigPresent ->
  exists u, validate v = Def u /\ keeps v u /\ v_dec u = v_dec v /\ v_gs u = v_gs v /\ v_gop u = d_counter (v_dec v) /\ l_auth (v_latest u) = SigPresent /\
    v_links u = v_links v /\ v_computed u = v_computed v /\ v_hash u = v_hash v /\
    exists q', v_items u = q' ++ [i0] /\ Forall calm q'.
Proof.
  intros G EI SN EV EL EF LA. unfold validate. rewrite EL. cbn [andb].
  pose proof SI as ((W1 & W2 & W3 & n & M1 & M2 & M3 & M4 & M5) & _).
  set (sd := set_i_decoded true it) in *. set (sv := set_i_status SValid sd).
  assert (NX : next_sei (q ++ sd :: [i0]) = Some sd).
  { rewrite next_calm by exact q_str. unfold next_sei. cbn [find]. unfold item_sei, pending. change (i_nalu sd) with (i_nalu it). change (i_status sd) with (i_status it).
    rewrite M1, M2, W1. reflexivity. }
  assert (NY : forall ms, Forall (fun x => item_sei x && pending x = false) ms -> on_next_sei (set_i_status SValid) (ms ++ q ++ sd :: [i0]) = ms ++ q ++ sv :: [i0]).
  { intros ms FM. induction FM as [|x ms X FM IH]; [|cbn [app on_next_sei]; rewrite X, IH; reflexivity]. cbn [app].
    rewrite on_next_calm by exact q_str. cbn [on_next_sei]. unfold item_sei, pending. change (i_nalu sd) with (i_nalu it). change (i_status sd) with (i_status it).
    rewrite M1, M2, W1. reflexivity. }
  pose proof (unused_all sd W2) as U1. pose proof (unused_all sv W2) as U2.
  assert (X : exists b e r ms, verify_with v = Def (set_v_items (ms ++ q ++ sv :: [i0]) v, b, e, r) /\ Forall (fun x => i_status x = SMiss) ms /\ exists m, ms = repeat missing_item m).
  { unfold verify_with. rewrite EV. cbv zeta. change (1 =? 1)%Z with true. cbn iota.
    destruct (negb (gop_ok v && linked_ok v) && (0 <? nlen (d_list (v_dec v)))).
    - unfold verify_list, vhs. rewrite (gd_vhs _ _ _ G). destruct (Nat.eqb_spec hs 0) as [Z|_]; [lia|]. rewrite EI, NX, (hl_unused _ U1). cbn [obind h_latest Z.eqb Z.opp Pos.eqb].
      assert (HD : exists x l, q ++ sd :: [i0] = x :: l /\ i_second x = None).
      { destruct q as [|x q']; cbn [app] in *; do 2 eexists; (split; [reflexivity|]).
        - apply Forall_cons_iff in SN as [SN _]. exact SN.
        - apply Forall_cons_iff in SN as [SN _]. exact SN. }
      destruct HD as (x & l & EX & SX). 
      assert (MT : forall num : Z, match q ++ sd :: [i0] with [] => Undef NullDeref | z :: _ =>
        Def (add_missing num (match i_second z with Some _ => true | None => false end) 0 (q ++ sd :: [i0])) end = Def (add_missing num false 0 (q ++ sd :: [i0]))).
      { intros num. rewrite EX. rewrite SX. reflexivity. }
      rewrite MT. cbn [obind h_compare h_latest h_inv h_num].
      unfold add_missing. cbn [firstn skipn app].
      assert (FM : forall k, Forall (fun x => item_sei x && pending x = false) (repeat missing_item k)) by (induction k0; constructor; auto).
      rewrite NY by apply FM. do 4 eexists. split; [reflexivity|]. split; [|eexists; reflexivity].
      match goal with |- Forall _ (repeat _ ?k) => generalize k end. induction n0; constructor; auto.
    - rewrite EI, NX, (first_used_none _ U1), (mark_used_unused _ U1). cbn [obind]. pose proof (NY [] (Forall_nil _)) as Y. cbn [app] in Y. rewrite Y.
      exists false. do 2 eexists. exists []. split; [reflexivity|]. split; [constructor|exists 0%nat; reflexivity]. }
  destruct X as (b & e & r & ms & -> & FM & m & EM). cbn [obind].
  match goal with |- context [get_stats (v_items ?x)] => change (v_items x) with (ms ++ q ++ sv :: [i0]) end.
  destruct (stats_missing m (q ++ sv :: [i0]) 0 0 (stats_unused _ U2)) as (m' & ST). rewrite <- EM in ST. rewrite ST. clear ST.
  cbv zeta. change (0 <? 0)%Z with false. cbn [negb andb].
  match goal with |- context [v_first (on_items remove_used ?x)] => set (v1 := x) end.
  change (v_first (on_items remove_used v1)) with (v_first v). rewrite EF. cbn [negb andb].
  change (v_first (on_items remove_used v1)) with (v_first v). rewrite EF.
  assert (RM : exists q', Forall calm q' /\ remove_missing_items (remove_used (ms ++ q ++ sv :: [i0])) = q' ++ [i0]).
  { unfold remove_missing_items, remove_used. rewrite map_app, (unused_same _ U2). rewrite rm_front.
    - change (q ++ sv :: [i0]) with (q ++ [sv] ++ [i0]). rewrite app_assoc.
      destruct (rm_calms (q ++ [sv]) i0) with (front := true) (fp := false) (fs := false) as (l' & F' & E').
      + apply Forall_app. split; [exact Q|]. constructor; [|constructor]. split; [exact W2|]. split; [cbn; congruence|]. cbn; auto.
      + exact (waits_pending _ _ W0).
      + intros Z. apply app_eq_nil in Z as [_ Z]. discriminate.
      + right. apply Exists_app. right. constructor. split; reflexivity.
      + exists l'. split; [exact F'|exact E'].
    - clear - FM. induction FM; constructor; auto. }
  destruct RM as (q' & F' & RM).
  destruct ((0 <? m')%Z && b); cbv beta iota zeta;
   (match goal with |- context [d_l_changed (v_dec ?x)] => change (d_l_changed (v_dec x)) with (d_l_changed (v_dec v)) end;
    rewrite (gd_changed _ _ _ G);
    match goal with |- context [l_auth (v_latest ?x)] => change (v_latest x) with (v_latest v) end;
    rewrite LA; cbn [ar_n N.leb N.compare Pos.compare Pos.compare_cont orb];
    eexists; split; [reflexivity|]; split; [repeat split|]; split; [reflexivity|]; split; [reflexivity|]; split; [reflexivity|]; split; [reflexivity|];
    split; [reflexivity|]; split; [reflexivity|]; split; [reflexivity|];
    exists q'; split; [exact RM|exact F']).
Qed.

End Alone.

Lemma half_first v q it k rec so sxs ts sig sp p : vhalf v q it (gop_fields C w k rec so sxs ts) sig sp ->
  match ts with Some t => (-9223372036854775808 <= t < 9223372036854775808)%Z | None => True end ->
  sig <> [] -> (length sig <= w_max_sig w)%nat -> c_verify C (w_pub w) sig (H sp) = 1%Z ->
  Forall wire_ok (gop_fields C w k rec so sxs ts ++ [(5, sig_value (w_max_sig w) sig)]) ->
  seen c p -> legal c p -> p_first p = true ->
  exists v' rep x, add_nalu C Ov (S f) v (p_data p) true = Def (v', VRes SV_OK (Some rep)) /\ l_auth (p_latest rep) = SigPresent /\ p_changed rep = false /\
    vgood false True v' k None x /\ its_h None [p] (v_items v') (Some x).
Proof.
  intros G HT HS0 HSl HV HWO SN LG PF. destruct (pic_parse c p SN LG) as (n & EP & PN). destruct LG as (D0 & _ & _).
  unfold add_nalu. destruct (p_data p) as [|d0 dr] eqn:ED; [congruence|]. rewrite <- ED in *. clear ED d0 dr.
  cbv zeta. unfold create_report. change (v_report (set_v_started true v)) with (v_report v). rewrite (vh_report _ _ _ _ _ _ G).
  change (v_legacy (set_v_started true v)) with (v_legacy v). rewrite (vh_legacy _ _ _ _ _ _ G).
  unfold add_h26x. change (v_codec (set_v_started true v)) with (v_codec v). rewrite (vh_codec _ _ _ _ _ _ G), EP. cbn [obind].
  unfold add_body. cbv zeta.
  destruct PN as (S1 & S2 & S3 & S4 & S5 & S6 & [(S7 & S8 & y & S9 & S10 & S11)|(_ & _ & _ & X)]); [|congruence].
  rewrite S8. change (1 <? 0)%Z with false. cbn iota. rewrite PF in S6.
  match goal with |- context [register C ?y n] => set (v1 := y) end.
  assert (ESI : v_signing v1 = true) by (unfold v1; cbn; rewrite (vh_signing _ _ _ _ _ _ G); reflexivity).
  unfold register. rewrite S8. change (1 =? 0)%Z with false. cbn iota. unfold update_hashable. rewrite S7, S1. cbn [negb orb obind].
  set (ic := set_i_nalu (Some n) (item_create n)).
  destruct (hash_first C HC w hs HO HWl HPl HR5 HMx v1 ic n y None) as (b & i0 & ER & B1 & B2 & B3 & B4);
    [exact (vh_dec _ _ _ _ _ _ G)|split; [exact (vh_refs _ _ _ _ _ _ G)|exact Logic.I]|reflexivity|reflexivity|exact S1|exact S4|exact S5|exact S7|exact S10|exact S11|exact S6|].
  rewrite ER. cbn [obind is_ok svrc_eqb negb].
  assert (ST : i_status ic = SPend) by (cbn; unfold status_of; rewrite S8, S7; reflexivity).
  assert (EN : i_nalu i0 = Some n) by (rewrite (proj1 B3); reflexivity).
  assert (W0 : waits true i0).
  { destruct B3 as (L1 & L2 & L3 & L4 & L5). split; [congruence|]. split; [rewrite L3; reflexivity|]. split; [rewrite L4; reflexivity|].
    exists n. auto. }
  change (v_items (on_acc _ (set_v_result false (set_v_started true v)))) with (v_items v). rewrite (vh_items _ _ _ _ _ _ G), <- app_assoc. cbn [app].
  match goal with |- context [d_algo_known (v_dec ?y)] => set (v2 := y) end.
  change (v_dec v2) with (v_dec v). rewrite (gd_known _ _ _ (vh_dec _ _ _ _ _ _ G)). cbn [negb andb obind is_ok svrc_eqb orb].
  change (v_legacy v2) with (v_legacy v). rewrite (vh_legacy _ _ _ _ _ _ G). cbn [orb].
  pose proof (vh_sei _ _ _ _ _ _ G) as SI. pose proof SI as ((W1 & W2 & W3 & ns & M1 & M2 & M3 & M4 & M5) & _).
  pose proof (vh_calm _ _ _ _ _ _ G) as QC.
  assert (FS : Forall stream_item q) by (eapply Forall_impl; [|exact QC]; intros z; left; assumption).
  (* the validation *)
  assert (MV : exists u q', maybe_validate C Ov (S f) v2 n = Def (u, SV_OK) /\ keeps v2 u /\ gdec (v_dec u) /\ gs_after (v_gs u) = false /\
    v_gop u = k mod 2 ^ 32 /\ l_auth (v_latest u) = SigPresent /\ v_links u = v_links v2 /\ length (v_computed u) = 64%nat /\ length (v_hash u) = 64%nat /\
    v_items u = q' ++ [i0] /\ Forall calm q' /\ v_first u = false /\ v_result u = true).
  { unfold maybe_validate. cbv zeta. change (v_items v2) with (q ++ [it; i0]). change (q ++ [it; i0]) with (q ++ [it] ++ [i0]). rewrite app_assoc, rev_app_distr. cbn [rev app].
    assert (EF : feasible i0 = true) by (unfold feasible; rewrite EN, (waits_pending _ _ W0), S7, S6, S2, S1; reflexivity).
    rewrite EF. unfold recurrent_decoded. change (v_dec v2) with (v_dec v). rewrite (gd_has _ _ _ (vh_dec _ _ _ _ _ _ G)). cbn [orb obind andb negb].
    cbn [validate_loop].
    assert (HP : exists g, has_pending v2 = (set_v_gs g v2, true) /\ gs_sei g = true /\ gs_after g = false).
    { unfold has_pending. change (v_signing v2) with (v_signing v1). rewrite ESI. change (v_items v2) with (q ++ [it; i0]).
      destruct (pending_stream (first_hash H hs) true q FS pg0 [it; i0]) as (s' & P1 & (P2 & P3 & P4) & P5); [repeat split; discriminate|discriminate|].
      unfold pg0 in P1. rewrite P1. cbn [pending_loop]. cbv zeta. unfold pending. rewrite M1, M2, M3, M4, M5, W1. destruct W0 as (Z1 & _). rewrite EN, Z1, S1, S6, S7.
      cbn [vstat_eqb andb g_ends g_sei g_after g_last g_has].
      assert (N0 : nfirst q = 0%nat).
      { clear - QC. induction QC as [|z l Q F IH]; [reflexivity|]. unfold nfirst in *. cbn [filter]. rewrite (calm_pending _ Q). exact IH. }
      rewrite P5, N0, P3. change (g_ends pg0 + 0)%nat with 0%nat. cbn [Nat.ltb Nat.leb andb orb].
      assert (GL : match g_last s' with Some z => z | None => false end = false) by (destruct (g_last s') as [[|]|]; [congruence|reflexivity|reflexivity]).
      rewrite GL, !orb_true_r. cbn [orb andb negb]. eexists. split; [reflexivity|]. split; [|reflexivity]. cbn. rewrite ?orb_true_r. reflexivity. }
    destruct HP as (g & -> & GS & GA). cbn [negb orb]. change (v_result (set_v_gs g v2)) with false. cbn iota.
    match goal with |- context [prepare C Ov ?y] => set (v3 := y) end.
    destruct (prepare_alone k rec so sxs ts sig sp HT HS0 HSl HV HWO q it i0 QC SI v3) as (u & EU & KU & GU & SU & IU & VU & LU & AU & CU & HU & LKU & FU & LTU & RU);
      [exact (vh_dec _ _ _ _ _ _ G)|reflexivity|exact ESI|exact GS|exact (vh_synced _ _ _ _ _ _ G)|exact (vh_computed _ _ _ _ _ _ G)|exact (vh_hash _ _ _ _ _ _ G)|].
    rewrite EU. cbn [obind is_ok svrc_eqb negb].
    assert (LK : update_link u = Def u).
    { unfold update_link. rewrite IU, find_link_none; [reflexivity|]. exact (unused_all q i0 QC W0 (set_i_decoded true it) W2). }
    rewrite LK. cbn [obind]. pose proof KU as (K1 & K2 & K3 & K4 & K5 & K6 & K7).
    assert (ES : v_signing u = true) by (rewrite K4; exact ESI). rewrite ES.
    destruct (validate_alone k rec so sxs ts sig sp HSl q it i0 QC SI W0 u GU IU) as (u2 & EU2 & KU2 & DU2 & GU2 & CU2 & LAU2 & LKU2 & CO2 & HA2 & q' & IU2 & QU2);
      [rewrite <- (vh_items _ _ _ _ _ _ G); exact (vh_second _ _ _ _ _ _ G)|exact VU|exact LU|rewrite FU; exact (vh_first _ _ _ _ _ _ G)|rewrite LTU; reflexivity|].
    rewrite EU2. cbn [obind]. pose proof KU2 as (J1 & J2 & J3 & J4 & J5 & J6 & J7).
    assert (ES2 : v_signing u2 = true) by (rewrite J4; exact ES). rewrite ES2. cbn [negb].
    match goal with |- context [validate_loop C Ov f ?y false] => set (v4 := y) end.
    assert (HP4 : exists g4, has_pending v4 = (set_v_gs g4 v4, false) /\ gs_after g4 = false).
    { apply (has_pending_none C w hs v4); [exact ES2|]. change (v_items v4) with (v_items u2). rewrite IU2. apply Forall_app.
      split; [eapply Forall_impl; [|exact QU2]; intros z; left; assumption|]. constructor; [right; eexists; exact W0|constructor]. }
    destruct HP4 as (g4 & EH4 & GA4).
    assert (VL : validate_loop C Ov f v4 false = Def (set_v_gs g4 v4, SV_OK)) by (destruct f; cbn [validate_loop]; rewrite EH4; reflexivity).
    rewrite VL. exists (set_v_gs g4 v4), q'. split; [reflexivity|].
    split; [unfold keeps; cbn; rewrite J1, J2, J3, J4, J5, J6, J7, K1, K2, K3, K4, K5, K6, K7; repeat split|].
    split; [cbn; rewrite DU2; exact GU|]. split; [exact GA4|]. split; [cbn; rewrite CU2; apply SU|]. split; [exact LAU2|].
    split; [cbn; rewrite LKU2, LKU; reflexivity|]. split; [cbn; rewrite CO2; exact CU|]. split; [cbn; rewrite HA2; exact HU|].
    split; [exact IU2|]. split; [exact QU2|]. split; reflexivity. }
  destruct MV as (u & q' & -> & KU & GU & GA & CU & LA & LK & LC & LH & IU & QU & FU & RU). cbn [obind].
  pose proof KU as (K1 & K2 & K3 & K4 & K5 & K6 & K7).
  change (v_legacy v2) with (v_legacy v) in K2. rewrite K2, (vh_legacy _ _ _ _ _ _ G), IU, (gd_known _ _ _ GU).
  destruct (copy_last_ok true q' i0 n EN) as (m & EC & Q1 & Q2 & Q3 & _); [rewrite S3; lia|rewrite S3; reflexivity|left; reflexivity|].
  rewrite EC. cbn [obind is_ok svrc_eqb negb].
  set (v5 := set_v_items (q' ++ [set_i_nalu (Some m) i0]) u).
  change (v_legacy v5) with (v_legacy u). rewrite K2, (vh_legacy _ _ _ _ _ _ G). change (v_result v5) with (v_result u). rewrite RU.
  unfold update_report. cbv zeta. cbn [compare_versions].
  match goal with |- context [clean_up (v_items ?y)] => change (v_items y) with (q' ++ [set_i_nalu (Some m) i0]); set (v6 := y) end.
  pose proof (waits_copy _ _ _ _ W0 EN Q1 Q2 Q3) as W1'.
  pose proof (clean_calm q' [set_i_nalu (Some m) i0] QU) as CL. rewrite (clean_waits _ _ [] W1') in CL.
  destruct (clean_up (q' ++ [set_i_nalu (Some m) i0])) as [l3 nv]. cbn [fst] in CL. subst l3.
  unfold get_report. cbn [v_report set_v_acc set_v_items]. change (v_report v6) with (v_report u).
  rewrite K3. change (v_report v2) with (v_report v). rewrite (vh_report _ _ _ _ _ _ G). cbn [negb].
  set (acc := accumulate (v_latest v6) (v_dec v6) (v_acc v6)).
  assert (A0 : a_auth (v_acc u) = NotSigned) by (rewrite K7; exact (vh_acc _ _ _ _ _ _ G)).
  assert (A0' : a_changed (v_acc u) = false) by (rewrite K7; exact (vh_changed _ _ _ _ _ _ G)).
  assert (A1 : a_auth acc = SigPresent).
  { unfold acc, accumulate. cbn [a_auth]. change (l_auth (v_latest v6)) with (l_auth (v_latest u)). change (v_acc v6) with (v_acc u). rewrite A0, LA. reflexivity. }
  assert (A2 : a_changed acc = false).
  { unfold acc, accumulate. cbn [a_changed]. change (v_acc v6) with (v_acc u). change (v_dec v6) with (v_dec u). rewrite A0', (gd_changed _ _ _ GU). reflexivity. }
  rewrite A1.
  match goal with |- context [set_v_acc ?z (set_v_items [set_i_nalu (Some m) i0] v6)] => set (acc2 := z) end.
  assert (A3 : a_auth acc2 = SigPresent) by exact A1.
  assert (A4 : a_changed acc2 = false) by exact A2.
  clearbody acc2.
  eexists _, _, y. split; [reflexivity|]. split; [exact LA|]. split; [exact (gd_changed _ _ _ GU)|]. split.
  - constructor; cbn.
    + rewrite K1. exact (vh_codec _ _ _ _ _ _ G).
    + destruct GU. constructor; assumption.
    + rewrite K2. exact (vh_legacy _ _ _ _ _ _ G).
    + rewrite K3. exact (vh_report _ _ _ _ _ _ G).
    + rewrite K4. exact ESI.
    + exact GA.
    + split; cbn; rewrite K5; [exact B1|exact B2].
    + left. exact CU.
    + rewrite LK. exact (vh_links _ _ _ _ _ _ G).
    + exact LC.
    + exact LH.
    + intros _. right. left. symmetry. exact A3.
    + exact FU.
    + exact A4.
  - cbn. replace (Some y) with (after p None) by (unfold after; rewrite S9, PF; reflexivity).
    apply (its_snoc _ _ None [] [] None p (set_i_nalu (Some m) i0)); [constructor|]. right. exists y. rewrite PF. split; [exact S9|]. split; [exact W1'|exact B4].
Qed.

End Seg.

(** ** The fields of the SEIs of a part of the stream *)
Definition head_frame (g : list piece) : N := match g with p :: _ => if p_frame p then 1 else 0 | [] => 0 end.
Lemma head_frames g : head_frame g <= frames g.
Proof. destruct g as [|p g]; [cbn; lia|]. unfold head_frame, frames. cbn [filter]. destruct (p_frame p); unfold nlen; cbn [length]; lia. Qed.

Lemma fields_split C w g gs : g <> [] -> forall gs0 k lo fr prev, gs0 <> [] -> Forall (fun g => g <> []) gs0 -> lo <= fr + head_frame (hd [] gs0) ->
  exists A lo0 fr' so gs1 gl p, gs0 = gs1 ++ [gl] /\ length A = length gs1 /\ lo0 <= fr' /\ hd_error g = Some p /\
    gops_fields C w k lo fr prev (gs0 ++ g :: gs) =
      A ++ gop_fields C w (k + nlen gs1) (due (w_rec w) lo0 (fr' + head_frame g)) so (hashed gl) (GopSpec.p_ts p) ::
      gops_fields C w (k + nlen gs0) (fr' + head_frame g) fr' (hd_error (hashed gl)) (g :: gs).
Proof.
  intros G0 gs0. destruct g as [|p g]; [congruence|]. induction gs0 as [|h gs0 IH]; intros k lo fr prev N0 F HL; [congruence|].
  apply Forall_cons_iff in F as [H0 F]. cbn [hd] in HL. pose proof (head_frames h) as HF. destruct gs0 as [|h2 gs0].
  - exists [], lo, (fr + frames h), prev, [], h, p. split; [reflexivity|]. split; [reflexivity|]. split; [lia|]. split; [reflexivity|].
    cbn [app]. rewrite gops_next. cbn [head_frame]. change (nlen (@nil (list piece))) with 0. change (nlen [h]) with 1. rewrite N.add_0_r. reflexivity.
  - pose proof F as F'. apply Forall_cons_iff in F' as [H2 _]. destruct h2 as [|p2 h2]; [congruence|].
    destruct (IH (k + 1) (fr + frames h + (if p_frame p2 then 1 else 0)) (fr + frames h) (hd_error (hashed h))) as (A & lo0 & fr' & so & gs1 & gl & p' & E1 & E2 & E3 & E4 & E5);
      [discriminate|exact F|cbn [hd head_frame]; lia|].
    cbn [app]. rewrite gops_next. cbn [app] in E5. rewrite E5.
    eexists (_ :: A), lo0, fr', so, (h :: gs1), gl, p'. split; [rewrite E1; reflexivity|]. split; [cbn; congruence|]. split; [exact E3|]. split; [exact E4|].
    cbn [app]. do 3 f_equal.
    + f_equal. unfold nlen. cbn [length]. lia.
    + f_equal. unfold nlen. cbn [length]. lia.
Qed.

Lemma due_one lo hi : lo < hi -> due 1 lo hi = true.
Proof. intros L. apply due_spec; [discriminate|]. exists lo. lia. Qed.

Lemma in_order_tail epb g p b gs xs r : in_order epb g (p :: b) gs xs r -> exists l, r = Pic p :: l /\ in_order epb g b gs xs l.
Proof.
  intros I. inversion I as [g1 b1 X1 X2 X3 X4 X5|g1 b1 a b' gs1 x y xs1 r1 D I1 X1 X2 X3 X4 X5]; subst; cbn [map app]; eexists; (split; [reflexivity|]).
  - constructor.
  - econstructor; eassumption.
Qed.

Lemma forall2_app {A B} (P : A -> B -> Prop) l1 l2 m : Forall2 P (l1 ++ l2) m -> Forall2 P l1 (firstn (length l1) m) /\ Forall2 P l2 (skipn (length l1) m).
Proof.
  revert m. induction l1 as [|x l1 IH]; intros m F; [split; [constructor|exact F]|]. destruct m as [|y m]; cbn [app] in F; [inversion F|].
  apply f2_cons in F as [F1 F2]. destruct (IH m F2) as [I1 I2]. cbn [length firstn skipn]. split; [constructor; assumption|exact I2].
Qed.

Section Two.
Context {SGop : start_gop}.
Variables (C : crypto) (Ov : ovf) (f : nat) (c : codec) (coin : N) (setup : list sop) (before : list piece) (gs0 : list (list piece)) (g : list piece) (gs : list (list piece)) (rs : list sres).
Hypothesis HC : crypto_ok C.
Hypothesis HKW : keys_work C.
Hypothesis SG : signs C c coin setup before (gs0 ++ g :: gs) rs.
Hypothesis N0 : gs0 <> [].
Let w := fold_left (ask C) setup defaults.
Hypothesis HU : w_using w = false.
Hypothesis HR1 : w_rec w = 1.
Variable bh : list piece.
Hypothesis LG : Forall (legal c) (bh ++ concat (g :: gs)).
Hypothesis SB : Forall (seen c) bh.
Hypothesis FB : Forall (fun p => p_first p = false /\ p_bytes p = None) bh.
Hypothesis FE : Forall (fun fs => few_escapes (w_epb w) fs (w_max_sig w)) (gops_fields C w 1 0 (frames before) None (gs0 ++ g :: gs)).

Lemma seg_gop_raw hs l v0 : c_oid C (w_oid w) = OidDigest hs -> apart Ov ((1 + nlen gs0) mod 2 ^ 32) first_gop -> transmits (w_epb w) bh (g :: gs) (skipn (length gs0) (returned rs)) l ->
  vraw C c w hs v0 -> v_items v0 = [] -> exists v res, vrun C Ov (S f) v0 (map sends l) = Def (v, res) /\ answers false l res.
Proof.
  intros HO HAp TR.
  destruct (signs_settings C HC _ _ _ _ _ _ SG) as (hs' & HO' & HRc & HMx). fold w in HO', HRc, HMx. assert (hs' = hs) as -> by congruence. clear HO'.
  pose proof (session_gops C HC c coin setup before (gs0 ++ g :: gs)) as SE.
  destruct SG as (S1 & S2 & S3 & S4 & S5 & S6 & (s & S7) & S8).
  destruct (asks_good C HC setup defaults S1) as (HW0 & HWl & HR5 & HRb).
  { repeat split; try discriminate; repeat constructor. }
  fold w in HW0, HWl, HR5, HRb.
  destruct (asks_key C setup defaults S1 (or_intror S3)) as [key HK]. fold w in HK.
  destruct (ok_priv C HC _ _ _ HK) as (HP0 & HPl & _ & _). destruct (HKW _ _ _ HK) as [HPk _].
  assert (F2 : Forall2 (sei_with C c w) (gops_fields C w 1 0 (frames before) None (gs0 ++ g :: gs)) (returned rs)) by exact (proj1 (SE s rs S1 S2 S3 S4 S5 S6 S7 S8)).
  assert (HL : (hs <= 64)%nat) by (pose proof (ok_size C HC _ _ HO) as X; unfold max_hash_size in X; lia).
  apply Forall_app in S6 as [S60 S6]. pose proof S6 as S6'. apply Forall_cons_iff in S6' as [IG _].
  assert (G0 : g <> []) by (destruct IG as (p & r & -> & _); discriminate).
  assert (NE : Forall (fun g => g <> []) gs0) by (eapply Forall_impl; [|exact S60]; intros z (p & r & -> & _); discriminate).
  destruct (fields_split C w g gs G0 gs0 1 0 (frames before) None N0 NE) as (A & lo0 & fr' & so & gs1 & gl & p & E1 & E2 & E3 & E4 & E5); [lia|].
  rewrite E5 in F2, FE.
  assert (EA : length gs0 = length (A ++ [gop_fields C w (1 + nlen gs1) (due (w_rec w) lo0 (fr' + head_frame g)) so (hashed gl) (GopSpec.p_ts p)])) by (rewrite E1, !app_length, E2; reflexivity).
  change (A ++ ?x :: ?r) with (A ++ [x] ++ r) in F2, FE. rewrite app_assoc in F2, FE.
  apply forall2_app in F2 as [_ F2]. rewrite <- EA in F2. apply Forall_app in FE as [_ FE'].
  rewrite concat_app in S4. apply Forall_app in S4 as [_ S4]. apply Forall_app in S4 as [_ S4].
  destruct TR as (r & -> & IO). destruct (same_order _ _ _ _ _ _ IO (hd_error (hashed gl)) None (or_intror eq_refl)) as (ev & AR & M & T).
  assert (TA : forall res, told false True (map Seen bh ++ ev) res -> answers false (map Pic bh ++ r) res).
  { clear - T. induction bh as [|p b IH]; intros res; [apply T; exact I|]. cbn [map app]. destruct res as [|r0 res]; cbn [told answers]; [auto|].
    intros [T1 T2]. split; [exact T1|apply IH, T2]. }
  assert (HF : forall p' r', g = p' :: r' -> p_frame p' = true).
  { intros p' r' E. destruct IG as (p1 & r1 & EG & PF & _). rewrite EG in E. injection E as <- <-. apply (first_frame c p1); [| |exact PF].
    - apply (proj1 (Forall_forall _ _) S4). cbn [concat]. rewrite EG. left. reflexivity.
    - apply (proj1 (Forall_forall _ _) LG). apply in_or_app. right. cbn [concat]. rewrite EG. left. reflexivity. }
  intros G I0.
    destruct (main0 C HC HKW Ov c w hs HO HW0 HWl HP0 HPl HPk HR5 HRb HMx HU HRc f (hd_error (hashed gl)) (1 + nlen gs0) (fr' + head_frame g) fr' bh g g gs gs _ ev v0 AR G I0 S6 S6 eq_refl FB S4)
      as (v & res & E & (TD & _) & _); [apply Forall_app; split; [exact SB|exact S4]|exact LG|split; [lia|exact HAp]| |exact F2|exact FE'|].
    - intros nx r' HN. rewrite HR1. apply due_one.
      assert (FR : head_frame g <= frames g) by apply head_frames.
      assert (FN : p_frame nx = true).
      { destruct gs as [|g2 gs']; [discriminate|]. cbn [hd_error] in HN. injection HN as ->. apply Forall_cons_iff in S6 as [_ S6]. apply Forall_cons_iff in S6 as [(p1 & r1 & EG & PF & _) _].
        injection EG as <- <-. apply (first_frame c nx); [| |exact PF].
        - apply (proj1 (Forall_forall _ _) S4). cbn [concat]. apply in_or_app. right. left. reflexivity.
        - apply (proj1 (Forall_forall _ _) LG). apply in_or_app. right. cbn [concat]. apply in_or_app. right. left. reflexivity. }
      rewrite FN. lia.
    - exists v, res. split; [|apply TA, TD]. rewrite <- E, !map_app, M, feeds_pics. reflexivity.
Qed.

Lemma seg_sei_raw hs x y p l v0 : c_oid C (w_oid w) = OidDigest hs -> Ov <> OvfUndef -> nth_error (returned rs) (length gs0 - 1) = Some x -> delivered (w_epb w) x y ->
  transmits (w_epb w) [] (g :: gs) (skipn (length gs0) (returned rs)) (Pic p :: l) ->
  vraw C c w hs v0 -> v_items v0 = [] -> exists v q res,
    vrun C Ov (S f) v0 (map sends (map Pic bh) ++ VAdd y true :: sends (Pic p) :: map sends l) =
      Def (v, map (fun _ => VRes SV_OK None) bh ++ VRes SV_OK None :: VRes SV_OK (Some q) :: res) /\
    l_auth (p_latest q) = SigPresent /\ p_changed q = false /\ answers true l res.
Proof.
  intros HO HOv NX HD TR.
  destruct (signs_settings C HC _ _ _ _ _ _ SG) as (hs' & HO' & HRc & HMx). fold w in HO', HRc, HMx. assert (hs' = hs) as -> by congruence. clear HO'.
  pose proof (session_gops C HC c coin setup before (gs0 ++ g :: gs)) as SE.
  destruct SG as (S1 & S2 & S3 & S4 & S5 & S6 & (s & S7) & S8).
  destruct (asks_good C HC setup defaults S1) as (HW0 & HWl & HR5 & HRb).
  { repeat split; try discriminate; repeat constructor. }
  fold w in HW0, HWl, HR5, HRb.
  destruct (asks_key C setup defaults S1 (or_intror S3)) as [key HK]. fold w in HK.
  destruct (ok_priv C HC _ _ _ HK) as (HP0 & HPl & _ & _). destruct (HKW _ _ _ HK) as [HPk _].
  assert (F2 : Forall2 (sei_with C c w) (gops_fields C w 1 0 (frames before) None (gs0 ++ g :: gs)) (returned rs)) by exact (proj1 (SE s rs S1 S2 S3 S4 S5 S6 S7 S8)).
  assert (HL : (hs <= 64)%nat) by (pose proof (ok_size C HC _ _ HO) as X; unfold max_hash_size in X; lia).
  apply Forall_app in S6 as [S60 S6]. pose proof S6 as S6'. apply Forall_cons_iff in S6' as [IG _].
  destruct IG as (p1 & r1 & EG & PF & PB & PR).
  assert (G0 : g <> []) by (rewrite EG; discriminate).
  assert (NE : Forall (fun g => g <> []) gs0) by (eapply Forall_impl; [|exact S60]; intros z (p' & r & -> & _); discriminate).
  destruct (fields_split C w g gs G0 gs0 1 0 (frames before) None N0 NE) as (A & lo0 & fr' & so & gs1 & gl & p0 & E1 & E2 & E3 & E4 & E5); [lia|].
  rewrite E5 in F2, FE. rewrite EG in E4. cbn [hd_error] in E4. injection E4 as <-.
  rewrite concat_app in S4. apply Forall_app in S4 as [_ S4]. apply Forall_app in S4 as [_ S4].
  assert (SP : seen c p1) by (apply (proj1 (Forall_forall _ _) S4); cbn [concat]; rewrite EG; left; reflexivity).
  assert (LP : legal c p1) by (apply (proj1 (Forall_forall _ _) LG); apply in_or_app; right; cbn [concat]; rewrite EG; left; reflexivity).
  assert (DU : due (w_rec w) lo0 (fr' + head_frame g) = true).
  { rewrite HR1. apply due_one. rewrite EG. cbn [head_frame]. rewrite (first_frame c p1 SP LP PF). lia. }
  rewrite DU in F2, FE.
  apply forall2_app in F2 as [_ F2]. apply Forall_app in FE as [_ FE']. apply Forall_cons_iff in FE' as [FE0 FE'].
  assert (EL : length gs0 = S (length A)) by (rewrite E1, app_length, E2; cbn; lia).
  rewrite EL in NX, TR. cbn [Nat.sub] in NX. rewrite Nat.sub_0_r in NX.
  assert (SX : exists m, skipn (length A) (returned rs) = x :: m /\ skipn (S (length A)) (returned rs) = m).
  { clear - NX. revert NX. generalize (returned rs). induction (length A) as [|n IH]; intros [|z t] E; try discriminate.
    - injection E as ->. eexists. split; reflexivity.
    - cbn [nth_error] in E. exact (IH _ E). }
  destruct SX as (m & SX1 & SX2). rewrite SX1 in F2. rewrite SX2 in TR. apply f2_cons in F2 as [SW F2].
  destruct TR as (r & ER & IO). cbn [map app] in ER. subst r. rewrite EG in IO at 2. apply in_order_tail in IO as (l' & EQ & IO). injection EQ as -> <-.
  destruct (same_order _ _ _ _ _ _ IO (hd_error (hashed gl)) None (or_intror eq_refl)) as (ev & AR & M & T).
  assert (TS : match GopSpec.p_ts p1 with Some t => (-9223372036854775808 <= t < 9223372036854775808)%Z | None => True end) by (destruct SP as (X & _); exact X).
  pose proof LG as LG'. apply Forall_app in LG' as [LG0 LG1].
  assert (S4' : Forall (seen c) (r1 ++ concat gs)) by (cbn [concat] in S4; rewrite EG in S4; cbn [app] in S4; apply Forall_cons_iff in S4; tauto).
  assert (LG' : Forall (legal c) (r1 ++ concat gs)) by (cbn [concat] in LG1; rewrite EG in LG1; cbn [app] in LG1; apply Forall_cons_iff in LG1; tauto).
  intros G I0.
    destruct (before_run C HC Ov c w hs HO HWl HPl HR5 HMx f bh v0 G) as (v1 & B1 & G1 & Q1); [rewrite I0; constructor|exact SB|exact LG0|exact FB|].
    destruct (lead_sei C HC HKW Ov c w hs HO HW0 HWl HP0 HPl HPk HR5 HRb HMx f v1 _ _ _ _ x y G1 Q1 HU SW HD FE0) as (v2 & q0 & it & sig & sp & L1 & GH & L2 & L3 & L4 & L5).
    destruct (half_first C HC Ov HOv c w hs HO HW0 HWl HP0 HPl HPk HR5 HRb HMx f v2 q0 it _ _ _ _ _ sig sp p1 GH TS L2 L3 L4 L5 SP LP PF) as (v3 & q & x1 & P1 & P2 & P3 & GG & IT).
    replace (1 + nlen gs1) with (1 + nlen gs0 - 1) in GG by (rewrite E1; unfold nlen; rewrite app_length; cbn [length]; lia).
    destruct (main2 C HC HKW Ov c w hs HO HW0 HWl HP0 HPl HPk HR5 HRb HMx HRc f _ _ _ _ _ _ _ _ _ AR True [p1] v3 (1 + nlen gs0) (fr' + head_frame g) fr' x1 EG S6 S6 S4 S4' LG')
      as (v4 & res & E & (TD & _) & _); [lia|exact GG|exact IT|exact F2|exact FE'|].
    exists v4, q, res. split; [|split; [exact P2|split; [exact P3|exact (T True true res Logic.I TD)]]].
    apply (run_all _ _ _ _ _ _ _ _ B1). cbn [map sends vrun vexec]. rewrite L1. cbn [obind]. rewrite P1. cbn [obind]. rewrite <- M, E. reflexivity.
Qed.

End Two.
Local Existing Instance zero_gop.

(** A new validator, or one that was given the key. *)
Section New.
Variables (C : crypto) (Ov : ovf) (f : nat) (c : codec) (coin : N) (setup : list sop) (before : list piece) (gs0 : list (list piece)) (g : list piece) (gs : list (list piece)) (rs : list sres).
Hypothesis HC : crypto_ok C.
Hypothesis HKW : keys_work C.
Hypothesis HOv : Ov <> OvfUndef.
Hypothesis SG : signs C c coin setup before (gs0 ++ g :: gs) rs.
Hypothesis N0 : gs0 <> [].
Let w := fold_left (ask C) setup defaults.
Hypothesis HU : w_using w = false.
Hypothesis HR1 : w_rec w = 1.
Variable bh : list piece.
Hypothesis LG : Forall (legal c) (bh ++ concat (g :: gs)).
Hypothesis SB : Forall (seen c) bh.
Hypothesis FB : Forall (fun p => p_first p = false /\ p_bytes p = None) bh.
Hypothesis FE : Forall (fun fs => few_escapes (w_epb w) fs (w_max_sig w)) (gops_fields C w 1 0 (frames before) None (gs0 ++ g :: gs)).

Lemma new_raw ops : (ops = [] /\ w_add_pub w = true) \/ (ops = [VSetKey (w_pub w)] /\ w_oid w = sha256_der) ->
  exists hs v0, c_oid C (w_oid w) = OidDigest hs /\ vrun C Ov (S f) (vcreate C c) ops = Def (v0, map (fun _ => VRes SV_OK None) ops) /\ vraw C c w hs v0 /\ v_items v0 = [].
Proof.
  intros HOp. destruct (signs_settings C HC _ _ _ _ _ _ SG) as (hs & HO & HRc & HMx). fold w in HO, HRc, HMx. exists hs.
  destruct SG as (S1 & S2 & S3 & _).
  destruct (asks_key C setup defaults S1 (or_intror S3)) as [key HK]. fold w in HK.
  destruct (ok_priv C HC _ _ _ HK) as (HP0 & HPl & _ & _). destruct (HKW _ _ _ HK) as [HPk _].
  assert (HL : (hs <= 64)%nat) by (pose proof (ok_size C HC _ _ HO) as X; unfold max_hash_size in X; lia).
  destruct HOp as [(-> & HA)|(-> & HA)].
  - exists (vcreate C c). split; [exact HO|]. split; [reflexivity|]. split; [apply create_raw; assumption|reflexivity].
  - destruct (setkey_raw C c w hs HL HP0 HPk) as (v0 & E0 & G1 & I0); [rewrite <- HA; exact HO|exact HA|]. exists v0. split; [exact HO|]. split; [cbn [vrun vexec]; rewrite E0; reflexivity|]. auto.
Qed.

Lemma seg_gop l ops : transmits (w_epb w) bh (g :: gs) (skipn (length gs0) (returned rs)) l ->
  (ops = [] /\ w_add_pub w = true) \/ (ops = [VSetKey (w_pub w)] /\ w_oid w = sha256_der) ->
  exists v res, vrun C Ov (S f) (vcreate C c) (ops ++ map sends l) = Def (v, map (fun _ => VRes SV_OK None) ops ++ res) /\ answers false l res.
Proof.
  intros TR HOp. destruct (new_raw ops HOp) as (hs & v0 & HO & E0 & G & I0).
  destruct (seg_gop_raw C Ov f c coin setup before gs0 g gs rs HC HKW SG N0 HU HR1 bh LG SB FB FE hs l v0 HO (or_introl HOv) TR G I0) as (v & res & E & A).
  exists v, res. split; [|exact A]. exact (run_all C Ov f _ _ _ _ _ E0 _ _ E).
Qed.

Lemma seg_sei x y p l ops : nth_error (returned rs) (length gs0 - 1) = Some x -> delivered (w_epb w) x y ->
  transmits (w_epb w) [] (g :: gs) (skipn (length gs0) (returned rs)) (Pic p :: l) ->
  (ops = [] /\ w_add_pub w = true) \/ (ops = [VSetKey (w_pub w)] /\ w_oid w = sha256_der) ->
  exists v q res, vrun C Ov (S f) (vcreate C c) (ops ++ map sends (map Pic bh) ++ VAdd y true :: sends (Pic p) :: map sends l) =
      Def (v, map (fun _ => VRes SV_OK None) ops ++ map (fun _ => VRes SV_OK None) bh ++ VRes SV_OK None :: VRes SV_OK (Some q) :: res) /\
    l_auth (p_latest q) = SigPresent /\ p_changed q = false /\ answers true l res.
Proof.
  intros NX HD TR HOp. destruct (new_raw ops HOp) as (hs & v0 & HO & E0 & G & I0).
  destruct (seg_sei_raw C Ov f c coin setup before gs0 g gs rs HC HKW SG N0 HU HR1 bh LG SB FB FE hs x y p l v0 HO HOv NX HD TR G I0) as (v & q & res & E & A).
  exists v, q, res. split; [|exact A]. exact (run_all C Ov f _ _ _ _ _ E0 _ _ E).
Qed.
End New.

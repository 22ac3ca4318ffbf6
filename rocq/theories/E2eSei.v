(** The validator on an untampered stream when a SEI arrives: lemmas. *)
From Verif Require Import Base BaseProofs Epb EpbProofs Nalu NaluSpec NaluProofs Crypto Types Hash Tlv TlvProofs EncProofs CodecSpec CodecProofs
  SeiSpec SeiProofs GenProofs SessProofs Signer SignSpec GopSpec GopProofs EosSpec VTypes NaluList Validator SeiHashProofs VListProofs VUnsigned MatchSpec E2eSpec DamageSpec LossSpec E2eDec E2eList E2eVal E2eAny E2eLoss E2eStep.
Local Open Scope N_scope.

(** What parsing tells of a SEI of the signer. *)
Definition sei_nalu (n : nalu) (l : list N) : Prop :=
  n_gop_sei n = true /\ n_golden n = false /\ n_hashable n = true /\ n_valid n = 1%Z /\ n_first_in_gop n = false /\
  n_first_part n = true /\ n_last_part n = true /\ N.land (n_reserved n) 48 <> 0 /\
  n_tlv_size n = nlen l /\ (exists r, n_tlv_mem n = l ++ r) /\ nlen l < 2 ^ 63.

Section Sei.
Variable C : crypto.
Hypothesis HC : crypto_ok C.
Hypothesis HKW : keys_work C.
Variable Ov : ovf.
Variable c : codec.
Variable w : settings.
Variable hs : nat.
Hypothesis HO : c_oid C (w_oid w) = OidDigest hs.
Hypothesis HW0 : w_oid w <> [].
Hypothesis HWl : nlen (w_oid w) < 254.
Hypothesis HP0 : w_pub w <> [].
Hypothesis HPl : nlen (w_pub w) < 65535.
Hypothesis HPk : c_pub_ok C (w_pub w) = true.
Hypothesis HR5 : length (w_prod w) = 5%nat.
Hypothesis HRb : Forall (Forall (fun b => 0 < b < 256)) (w_prod w).
Hypothesis HMx : N.of_nat (w_max_sig w) + 5 < 65536.
Variable f : nat.

Let H := c_hash C (w_oid w).
Let Hhs : (0 < hs <= 64)%nat := hs_small C HC w hs HO.
Let HL : forall x, length (H x) = hs := H_len C HC w hs HO.
Notation gdec := (gdec w hs).
Notation its_h := (its (first_hash H hs) (other_hash H hs)).
Notation links_ok := (links_ok C w hs).
Notation vgood b P v k prev x := (vgoodo C Ov c w hs b P v k prev (Some x)).
Notation refs := (refs C w hs).

(** A SEI has been found and validated. [ok] says that its GOP arrived as it was signed, [P] that everything before did. *)
Record vdone (ok P : Prop) (v : valid) (k : N) (x0 x : list N) (xs : list (list N)) (npend : nat) : Prop := mkVdone {
  vd_codec : v_codec v = c;
  vd_dec : gdec (v_dec v);
  vd_legacy : v_legacy v = false;
  vd_report : v_report v = true;
  vd_signing : v_signing v = true;
  vd_after : gs_after (v_gs v) = false;
  vd_refs : refs v (Some x);
  vd_gop : v_gop v = k mod 2 ^ 32;
  vd_links : links_ok (v_links v) (Some x0);
  vd_computed : length (v_computed v) = 64%nat;
  vd_hash : length (v_hash v) = 64%nat;
  vd_acc : P -> In (a_auth (v_acc v)) [NotSigned; SigPresent; AuthOk];
  vd_changed : a_changed (v_acc v) = false;
  vd_first : v_first v = false;
  vd_result : v_result v = true;
  vd_some : In (l_auth (v_latest v)) [NotOk; OkMissing; AuthOk];
  vd_auth : ok -> l_auth (v_latest v) = AuthOk;
  vd_exp : ok -> l_exp (v_latest v) = Z.of_N (nlen xs mod 2 ^ 16);
  vd_recv : ok -> l_recv (v_latest v) = Z.of_nat (length xs);
  vd_pend : l_pend (v_latest v) = Z.of_nat npend
}.

(** The list afterwards. *)
Definition ldone (ok : Prop) (o : option (list N)) (a : list piece) (o' : option (list N)) (xs : list (list N)) (n : nalu) (l : list item) : Prop :=
  exists head la sei, l = head ++ la ++ [sei] /\ Forall rests head /\ its_h o a la o' /\ calm sei /\ stat_char (i_status sei) = 46 /\
    i_nalu sei = Some n /\ (ok -> Forall (fun s => In s [46; 95; 85; 80]) (validation_str head) /\ (length xs <= times 46 (validation_str head))%nat).

(** A SEI with the fields of GOP [sg], the hash [gh] and the link [so], and what was received: the GOP [got], after [o]. *)
Definition linked_by (so o : option (list N)) : Prop := so = o \/ o = None.
Definition fine (fs : list (N * list N)) (so : option (list N)) (sg : list (list N)) (gh : list N) (o : option (list N)) (got : list (list N)) : Prop :=
  linked_by so o /\ sg = got /\ (gh = H (concat (hashes H sg)) \/ In (4, 1 :: concat (hashes H sg)) fs).
Definition lossy (fs : list (N * list N)) (so : option (list N)) (sg : list (list N)) (gh : list N) (o : option (list N)) (got : list (list N)) : Prop :=
  linked_by so o /\ hd_error sg = hd_error got /\ gh <> H (concat (hashes H got)) /\ In (4, 1 :: concat (hashes H sg)) fs.
(** What is said then. *)
Definition heard_as (sg got : list (list N)) (l : latest) (s : list N) : Prop :=
  exists bs m, told_apart (hashes H sg) (hashes H got) bs /\ (wrong bs = O -> m + length got = length sg)%nat /\
    l_auth l = (if (wrong bs =? 0)%nat then if (m =? 0)%nat then AuthOk else OkMissing else NotOk) /\
    l_recv l = Z.of_nat (length got) /\ l_exp l = Z.of_nat (length sg) /\
    subseq (map shown_as bs) s /\ times 78 s = wrong bs /\ times 77 s = m.

Definition link_dec (so o : option (list N)) : {linked_by so o} + {~ linked_by so o}.
Proof.
  unfold linked_by. destruct o as [b|]; [|left; auto]. assert (D : {so = Some b} + {so <> Some b}) by (decide equality; apply list_eq_dec, N.eq_dec).
  destruct D as [E|E]; [left; auto|right]. intros [X|X]; [auto|discriminate].
Defined.
Definition field_dec (x y : N * list N) : {x = y} + {x <> y}.
Proof. decide equality; [apply list_eq_dec, N.eq_dec|apply N.eq_dec]. Defined.
Lemma cases fs so sg gh o got : (linked_by so o /\ sg = got /\ gh = H (concat (hashes H sg))) \/ lossy fs so sg gh o got \/ (~ fine fs so sg gh o got /\ ~ lossy fs so sg gh o got).
Proof.
  destruct (link_dec so o) as [L|L]; [|right; right; split; intros (X & _); contradiction].
  destruct (list_eq_dec N.eq_dec gh (H (concat (hashes H got)))) as [G|G].
  - destruct (list_eq_dec (list_eq_dec N.eq_dec) sg got) as [E|E]; [left; subst; auto|]. right. right. split; [intros (_ & X & _); contradiction|intros (_ & _ & X & _); contradiction].
  - assert (D : {hd_error sg = hd_error got} + {hd_error sg <> hd_error got}) by (decide equality; apply list_eq_dec, N.eq_dec). destruct D as [D|D].
    2:{ right. right. split; [intros (_ & X & _); subst; contradiction|intros (_ & X & _); contradiction]. }
    destruct (in_dec field_dec (4, 1 :: concat (hashes H sg)) fs) as [I|I]; [right; left; repeat (split; [assumption|]); assumption|].
    right. right. split; [intros (_ & X & [Y|Y]); [subst sg; contradiction|contradiction]|intros (_ & _ & _ & X); contradiction].
Qed.

Lemma subseq_app_r {A} (l m k : list A) : subseq l m -> subseq l (m ++ k).
Proof. induction 1; cbn [app]; constructor; assumption. Qed.
Lemma no_times z s (L : list N) : Forall (fun x => In x L) s -> ~ In z L -> times z s = O.
Proof.
  intros F N0. unfold times. induction F as [|x s I F IH]; [reflexivity|]. cbn [filter]. destruct (N.eqb_spec z x) as [->|_]; [contradiction|exact IH].
Qed.
Lemma times_none z s : times z s = O -> Forall (fun x => x <> z) s.
Proof.
  unfold times. induction s as [|x s IH]; [constructor|]. cbn [filter]. destruct (N.eqb_spec z x) as [->|NE]; [discriminate|]. intros E. constructor; [congruence|apply IH, E].
Qed.
Lemma hashes_length xs : length (hashes H xs) = length xs.
Proof. destruct xs as [|x xs]; [reflexivity|]. cbn [hashes length]. rewrite map_length. reflexivity. Qed.
Lemma hashes_sizes xs : Forall (fun e => length e = hs) (hashes H xs).
Proof. destruct xs as [|x xs]; constructor; [apply HL|]. apply Forall_map, Forall_forall. intros y _. apply HL. Qed.
Lemma listed_short k rec so sg gh ts : In (4, 1 :: concat (hashes H sg)) (gop_fields_with C w k rec so sg gh ts) -> nlen sg < 65536.
Proof.
  unfold gop_fields_with. cbv zeta. intros I.
  assert (K : nlen (concat (hashes H sg)) <= 19200).
  { rewrite !in_app_iff in I. destruct I as [[I|[I|[]]]|I]; [|discriminate|].
    - destruct (rec && negb (w_using w)); [|destruct I]. unfold recurrent_fields in I. apply in_app_iff in I as [I|[I|[I|[]]]]; try discriminate.
      destruct (w_add_pub w); [destruct I as [I|[]]; discriminate|destruct I].
    - unfold list_field in I. cbv zeta in I. destruct (_ && _ && _) eqn:EB; [|destruct I]. apply andb_prop in EB as [EB _]. apply andb_prop in EB as [_ EB]. apply N.leb_le in EB. exact EB. }
  assert (L : length (concat (hashes H sg)) = (hs * length sg)%nat).
  { rewrite <- (hashes_length sg). pose proof (hashes_sizes sg) as F. clear - F. induction F as [|e l E F IH]; [cbn; lia|]. cbn [concat length]. rewrite app_length, IH, E. lia. }
  unfold nlen in *. rewrite L in K. nia.
Qed.
Lemma all_right {A} (l : list A) : length (filter (fun b : bool => b) (map (fun _ => true) l)) = length l.
Proof. induction l; [reflexivity|]. cbn [map filter length]. congruence. Qed.
Lemma own_rest x0 xs t : rest_of (other_hash H hs) x0 xs t -> map (own_hash hs) (filter i_used (map mark t)) = map (fun x => H (H x0 ++ H x)) xs.
Proof.
  induction 1 as [|ys it l Q R IH|y ys it l W E R IH]; cbn [map filter]; [reflexivity|..].
  - assert (EM : mark it = it) by (unfold mark; rewrite (calm_pending _ Q); reflexivity). rewrite EM. destruct Q as (U & Q). rewrite U. exact IH.
  - assert (EM : mark it = set_i_used true it) by (unfold mark; rewrite (waits_pending _ _ W); reflexivity). rewrite EM. cbn [set_i_used i_used map]. f_equal; [|exact IH].
    destruct W as (_ & _ & _ & n & E1 & E2 & E3 & _). unfold own_hash. cbn [set_i_used i_nalu i_hash]. rewrite E1, E3. exact E.
Qed.

Lemma rest_chosen x0 xs t : rest_of (other_hash H hs) x0 xs t -> Forall (chosen hs) (map mark t).
Proof.
  induction 1 as [|ys it l Q R IH|y ys it l W E R IH]; cbn [map]; constructor; auto; unfold chosen, mark.
  - rewrite (calm_pending _ Q). destruct Q as (U & Q). rewrite U. apply calm_pending. split; [exact U|exact Q].
  - rewrite (waits_pending _ _ W). cbn [set_i_used i_used]. split; [exact (waits_pending _ _ W)|].
    destruct W as (_ & _ & _ & n & E1 & E2 & E3 & _). exists n, (i_hash it). cbn [set_i_used i_nalu i_hash i_linked i_second]. rewrite E3.
    split; [exact E1|]. split; [exact E2|]. split; [discriminate|]. split; [reflexivity|].
    apply (f_equal (@length N)) in E. rewrite firstn_length, HL in E. lia.
Qed.

(** A session that waits for SEI number [k]. *)
Lemma core b0 P v k rec so sg gh x ts sig sp lg la it n n1 o g a : let fs := gop_fields_with C w k rec so sg gh ts in
  vgood b0 P v (k - 1) o x -> length gh = hs -> fine fs so sg gh o (hashed g) \/ b0 = false -> 1 <= k ->
  match ts with Some t => (-9223372036854775808 <= t < 9223372036854775808)%Z | None => True end ->
  sig <> [] -> (length sig <= w_max_sig w)%nat -> c_verify C (w_pub w) sig (H sp) = 1%Z ->
  Forall wire_ok (fs ++ [(5, sig_value (w_max_sig w) sig)]) ->
  v_items v = lg ++ la ++ [it] -> is_gop g -> its_h o g lg (hd_error (hashed g)) -> starts a -> its_h (hd_error (hashed g)) a la (Some x) ->
  sei_item C w hs it fs sig sp -> i_nalu it = Some n -> n_golden n = false -> v_result v = false ->
  exists v' x0, maybe_validate C Ov (S f) v n1 = Def (v', SV_OK) /\ hd_error (hashed g) = Some x0 /\
    vdone (fine fs so sg gh o (hashed g)) P v' k x0 x (hashed g) (length (hashed a)) /\ ldone (fine fs so sg gh o (hashed g)) (Some x0) a (Some x) (hashed g) n (v_items v') /\
    (lossy fs so sg gh o (hashed g) -> heard_as sg (hashed g) (v_latest v') (validation_str (v_items v'))).
Proof.
  intros fs G HG FI K1 HT HS0 HSl HV HWO EI IG IL SA IA SI EN NG ER.
  destruct (its_gop _ _ _ _ _ _ IL IG) as (q & it0 & t & x0 & xs & L1 & Q & W0 & F0 & EH & R & E1).
  rewrite EH in *. cbn [hd_error] in *. destruct F0 as (s0 & S0 & E0).
  pose proof SI as (SW & _ & _ & n' & r' & N1 & N2 & N3 & N4). pose proof SW as (W1 & W2 & W3 & n'' & M1 & M2 & M3 & M4 & M5).
  assert (n' = n) as -> by congruence. assert (n'' = n) as -> by congruence. clear N1 M1.
  assert (EI2 : v_items v = q ++ it0 :: t ++ la ++ [it]) by (rewrite EI, L1, <- app_assoc; reflexivity).
  assert (BS : Forall stream_item (q ++ it0 :: t ++ la)).
  { apply Forall_app. split; [eapply Forall_impl; [|exact Q]; intros b; left; assumption|].
    constructor; [right; eexists; exact W0|]. apply Forall_app. split; [|eapply its_stream, IA].
    clear - R. induction R; constructor; auto; [left; assumption|right; eexists; eassumption]. }
  assert (EI3 : v_items v = (q ++ it0 :: t ++ la) ++ [it]) by (rewrite EI2, <- app_assoc; cbn [app]; rewrite <- app_assoc; reflexivity).
  unfold maybe_validate. cbv zeta. rewrite EI3, rev_app_distr. cbn [rev app]. unfold recurrent_decoded.
  rewrite (gd_has _ _ _ (vg_dec _ _ _ _ _ _ _ _ _ _ _ G)). cbn [orb obind].
  assert (EF : feasible it = true) by (unfold feasible, pending; rewrite EN, NG, M4, W1, M2; reflexivity).
  rewrite EF. cbn [andb negb]. cbn [validate_loop].
  unfold has_pending at 1. rewrite (vg_signing _ _ _ _ _ _ _ _ _ _ _ G), EI3.
  destruct (sei_pending (first_hash H hs) _ it BS (nfirst_pos (first_hash H hs) _ _ _ W0) SW) as (s1 & P1 & P2 & P3).
  fold pg0. rewrite P1. cbn [negb orb]. rewrite P2, P3. cbn [andb].
  match goal with |- context [v_result (set_v_gs ?g0 v)] => change (v_result (set_v_gs g0 v)) with (v_result v); set (gs1 := g0) end.
  rewrite ER.
  match goal with |- context [prepare C Ov ?y] => set (v1 := y) end.
  assert (K32 : k mod 2 ^ 32 = u32 (v_gop v1 + 1) \/ (v_synced v1 = false /\ apart Ov (k mod 2 ^ 32) (v_gop v1))).
  { change (v_gop v1) with (v_gop v). change (v_synced v1) with (v_synced v). destruct (vg_gop _ _ _ _ _ _ _ _ _ _ _ G) as [-> |X]; [left|right; replace (k - 1 + 1) with k in X by lia; exact X]. unfold u32. rewrite N.add_mod_idemp_l by discriminate. f_equal. lia. }
  destruct (prepare_ok C HC Ov w hs HO HW0 HWl HP0 HPl HPk HR5 HRb HMx k rec so sg gh x0 xs ts sig sp HG HT HS0 HSl HV HWO q t la it0 it s0 Q W0 S0 E0 R SI _ _ _ IA SA v1)
    as (u & U1 & (U2 & U3 & U4 & U5 & U6 & U7 & U8) & U9 & U10 & U11 & U12 & U13 & U14 & U15 & U16 & U17 & U18 & U19 & U20 & U21).
  1:{ exact (vg_dec _ _ _ _ _ _ _ _ _ _ _ G). } 1:{ exact EI2. } 1:{ exact (vg_signing _ _ _ _ _ _ _ _ _ _ _ G). } 1:{ reflexivity. } 1:{ reflexivity. } 1:{ exact K32. }
  1:{ exact (vg_computed _ _ _ _ _ _ _ _ _ _ _ G). } 1:{ exact (vg_hash _ _ _ _ _ _ _ _ _ _ _ G). }
  rewrite U1. cbn [obind is_ok svrc_eqb negb].
  destruct (update_link_ok C HC w hs HO HWl HPl HR5 HMx gh o x0 sig HG HSl q t la it0 it s0 Q W0 S0 E0 u U9 U11) as (l2 & X1 & X2 & X3).
  { rewrite U17. exact (vg_links _ _ _ _ _ _ _ _ _ _ _ G). }
  rewrite X1. cbn [obind].
  match goal with |- context [validate ?y] => set (v2 := y) end.
  change (v_signing v2) with (v_signing u). rewrite U5. change (v_signing v1) with (v_signing v). rewrite (vg_signing _ _ _ _ _ _ _ _ _ _ _ G).
  assert (LV2 : v_latest v2 = v_latest v1) by (change (v_latest v2) with (v_latest u); exact U19).
  set (ok := fine fs so sg gh o (x0 :: xs)) in *. set (lst := lossy fs so sg gh o (x0 :: xs)) in *.
  assert (VA : exists v3 head sei, validate v2 = Def v3 /\ keeps v2 v3 /\ v_dec v3 = v_dec v2 /\ v_items v3 = head ++ la ++ [sei] /\ v_gop v3 = k mod 2 ^ 32 /\
    v_links v3 = v_links v2 /\ v_computed v3 = v_computed v2 /\ v_hash v3 = v_hash v2 /\ In (l_auth (v_latest v3)) [NotOk; OkMissing; AuthOk] /\
    Forall rests head /\ calm sei /\ stat_char (i_status sei) = 46 /\ i_nalu sei = i_nalu it /\
    (ok -> Forall (fun s => In s [46; 95; 85; 80]) (validation_str head) /\ (length (x0 :: xs) <= times 46 (validation_str head))%nat /\ l_auth (v_latest v3) = AuthOk /\
       l_exp (v_latest v3) = Z.of_N (nlen (x0 :: xs) mod 2 ^ 16) /\ l_recv (v_latest v3) = Z.of_nat (length (x0 :: xs))) /\
    (lst -> heard_as sg (x0 :: xs) (v_latest v3) (validation_str head))).
  { destruct (cases fs so sg gh o (x0 :: xs)) as [(Eo & Eg & Egh)|NE].
    - destruct (validate_ok C HC w hs HO HWl HPl HR5 HMx k rec so sg gh o x0 xs ts sig sp HG HSl q t la it0 it s0 Q W0 R SI _ _ _ IA v2 Eo Eg Egh)
        as (v3 & Y1 & Y2 & Y9 & Y10 & Y11 & Y12 & Y13 & Y14 & Y15 & Y16 & Y17).
      1:{ exact U9. } 1:{ exact U10. } 1:{ reflexivity. } 1:{ exact U12. } 1:{ exact U13. } 1:{ exact U14. } 1:{ exact X3. }
      1:{ rewrite LV2. reflexivity. } 1:{ rewrite LV2. reflexivity. } 1:{ rewrite LV2. reflexivity. }
      destruct (final_ok C HC w hs HO HWl HPl HR5 HMx k rec so sg gh x0 xs ts sig sp HG HSl q t la it0 it s0 Q W0 R SI _ _ _ IA) as (head & sei & Z1 & Z2 & Z3 & Z4 & Z5 & Z6).
      exists v3, head, sei. rewrite Y10, Y12. split; [exact Y1|]. split; [exact Y2|]. split; [exact Y9|]. split; [exact Z1|]. split; [exact Y11|].
      split; [exact Y15|]. split; [exact Y16|]. split; [exact Y17|]. split; [cbn; auto|]. split; [apply calm_rests, Z2|].
      split; [exact Z3|]. split; [exact Z4|]. split; [exact Z5|]. split.
      + intros _. split; [exact (proj1 (shown_calm _ Z2))|]. split; [exact Z6|]. split; [reflexivity|]. split; assumption.
      + intros (_ & _ & X & _). rewrite Eg in Egh. contradiction.
    - set (ha := q ++ set_i_linked true (set_i_used true it0) :: map mark t).
      assert (IT : v_items v2 = ha ++ la ++ [set_i_decoded true it]) by (unfold ha; rewrite <- app_assoc; reflexivity).
      assert (CA : Forall (chosen hs) ha).
      { unfold ha. apply Forall_app. split.
        - eapply Forall_impl; [|exact Q]. intros z Z. unfold chosen. rewrite (proj1 Z). exact (calm_pending _ Z).
        - constructor; [|exact (rest_chosen _ _ _ R)]. unfold chosen. cbn [set_i_linked set_i_used i_used]. split; [exact (waits_pending _ _ W0)|].
          destruct W0 as (_ & _ & _ & n0 & A1 & A2 & A3 & _). exists n0, s0. cbn [set_i_linked set_i_used i_nalu i_linked i_second i_hash]. rewrite A3.
          split; [exact A1|]. split; [exact A2|]. split; [reflexivity|]. split; [exact S0|].
          pose proof (f_equal (@length N) E0) as LE. rewrite firstn_length, HL in LE. lia. }
      assert (UA : existsb i_used ha = true) by (unfold ha; rewrite existsb_app; cbn [existsb set_i_linked set_i_used i_used orb]; apply orb_true_r).
      assert (SL : Forall stream_item la) by (eapply its_stream, IA).
      assert (UL : Forall (fun it => i_used it = false) la) by exact (la_unused C w hs la _ _ _ IA).
      assert (SP : item_sei (set_i_decoded true it) && pending (set_i_decoded true it) = true) by (unfold item_sei, pending; cbn; rewrite EN, W1, M2; reflexivity).
      assert (VH : vhs v2 = hs) by (unfold vhs; exact (gd_vhs _ _ _ U9)).
      assert (CS : calm (set_i_used false (set_i_status SValid (set_i_decoded true it)))) by (split; [reflexivity|]; split; [cbn; rewrite EN; discriminate|cbn; auto]).
      assert (F2 : v_first v2 = b0) by (change (v_first v2) with (v_first u); rewrite U18; exact (vg_first _ _ _ _ _ _ _ _ _ _ _ G)).
      destruct NE as [LS|[NF NL]].
      + pose proof LS as (LS1 & LS2 & LS3 & LS4).
        assert (ESG : exists ys, sg = x0 :: ys).
        { clear - LS2. destruct sg as [|y0 ys]; [discriminate LS2|]. cbn [hd_error] in LS2. injection LS2 as ->. exists ys. reflexivity. }
        destruct ESG as (ys & ESG).
        assert (OW : map (own_hash hs) (filter i_used ha) = hashes H (x0 :: xs)).
        { unfold ha. rewrite filter_app. assert (QF : filter i_used q = []).
          { clear - Q. induction Q as [|z q0 Z _ IH]; [reflexivity|]. cbn [filter]. rewrite (proj1 Z). exact IH. }
          rewrite QF. cbn [app filter set_i_linked set_i_used i_used map hashes]. f_equal; [|exact (own_rest _ _ _ R)].
          destruct W0 as (_ & _ & _ & n0 & A1 & A2 & A3 & _). unfold own_hash. cbn [set_i_linked set_i_used i_nalu i_second]. rewrite A1, A3, S0. exact E0. }
        destruct (validate_list hs (proj1 Hhs) ha la (set_i_decoded true it)) with (E := hashes H sg) (v := v2)
          as (v3 & a2 & Y1 & Y2 & Y3 & Y4 & Y5 & Y6 & Y7 & Y8 & Y9 & bs & m & B1 & B2 & B3 & B4 & B5 & B6 & B7 & B8 & B9 & B10); try assumption.
        { unfold ha. apply Forall_app. split; [eapply Forall_impl; [|exact Q]; intros z Z _; exact (proj2 (proj2 Z))|].
          constructor; [discriminate|]. destruct (rest_marked _ _ _ _ R) as (RM & _). eapply Forall_impl; [|exact RM]. intros z Z UZ. exact (proj2 (proj2 (Z UZ))). }
        { apply hashes_sizes. }
        { change (v_dec v2) with (v_dec u). exact (U21 _ LS4). }
        { rewrite hashes_length, ESG. cbn [length]. lia. }
        { unfold gop_ok. rewrite VH. change (v_computed v2) with (v_computed u). change (v_dec v2) with (v_dec u). rewrite U14, (proj2 (proj2 (proj2 U10))).
          destruct (bytes_eqb _ gh) eqn:EB; [|reflexivity]. apply bytes_eqb_eq in EB. exfalso. apply LS3. symmetry. exact EB. }
        { unfold linked_ok. rewrite VH. change (v_links v2) with l2. change (v_dec v2) with (v_dec u). rewrite X3, (proj1 (proj2 (proj2 U10))).
          apply orb_true_iff. destruct LS1 as [-> | ->]; [right|left]; apply bytes_eqb_eq; reflexivity. }
        { exact (gd_changed _ _ _ U9). }
        { rewrite LV2. reflexivity. } { rewrite LV2. reflexivity. } { rewrite LV2. reflexivity. }
        { rewrite F2, OW. destruct FI as [(_ & FI & _)|FI]; [right|left; exact FI]. rewrite FI. reflexivity. }
        rewrite OW, hashes_length in *.
        exists v3, a2, (set_i_used false (set_i_status SValid (set_i_decoded true it))).
        split; [exact Y1|]. split; [exact Y2|]. split; [exact Y3|]. split; [exact Y5|]. split; [rewrite Y6; exact (proj1 U10)|].
        split; [exact Y7|]. split; [exact Y8|]. split; [exact Y9|].
        split; [rewrite B3; destruct (wrong bs =? 0)%nat; [destruct (m =? 0)%nat|]; cbn; auto|].
        split; [exact Y4|]. split; [exact CS|]. split; [reflexivity|]. split; [reflexivity|]. split.
        * intros (_ & Ex & _). rewrite <- Ex in B1. pose proof (apart_fun _ _ _ B1 _ (apart_same _)) as EB.
          assert (W0' : wrong bs = O) by (rewrite EB; apply wrong_none). specialize (B2 W0'). rewrite <- Ex in B2.
          rewrite hashes_length in B2. assert (M0 : m = O) by lia. rewrite W0', M0 in *. split; [|split; [|split; [|split]]].
          -- pose proof (times_none _ _ B7) as N7. pose proof (times_none _ _ B8) as N8. clear - B9 N7 N8. rewrite Forall_forall in *. intros z Z.
             specialize (B9 z Z). specialize (N7 z Z). specialize (N8 z Z). cbn [In] in *. intuition congruence.
          -- eapply Nat.le_trans; [|exact B10]. rewrite EB, <- Ex. rewrite all_right, hashes_length. lia.
          -- exact B3.
          -- rewrite B5, <- Ex. rewrite N.mod_small by exact (listed_short _ _ _ _ _ _ LS4). unfold nlen. lia.
          -- exact B4.
        * intros _. exists bs, m. rewrite hashes_length in *. repeat (split; [assumption|]). assumption.
      + assert (B0 : b0 = false) by (destruct FI as [FI|FI]; [contradiction|exact FI]). rewrite B0 in G. clear FI.
        destruct (validate_any hs (proj1 Hhs) ha la (set_i_decoded true it)) with (v := v2) as (v3 & a2 & Y1 & Y2 & Y3 & Y4 & Y5 & Y6 & Y7 & Y8 & Y9 & Y10); try assumption.
        { rewrite F2. exact B0. } { rewrite LV2. reflexivity. }
        exists v3, a2, (set_i_used false (set_i_status SValid (set_i_decoded true it))).
        split; [exact Y1|]. split; [exact Y2|]. split; [exact Y3|]. split; [exact Y5|]. split; [rewrite Y6; exact (proj1 U10)|].
        split; [exact Y7|]. split; [exact Y8|]. split; [exact Y9|]. split; [exact Y10|]. split; [exact Y4|]. split; [exact CS|].
        split; [reflexivity|]. split; [reflexivity|]. split; intros X; contradiction. }
  destruct VA as (v3 & head & sei & Y1 & (Y2 & Y3 & Y4 & Y5 & Y6 & Y7 & Y8) & Y9 & Y10 & Y11 & Y15 & Y16 & Y17 & Y18 & Z2 & Z3 & Z4 & Z5 & ZO & ZL).
  rewrite Y1. cbn [obind].
  change (v_signing v2) with (v_signing u) in Y5. rewrite U5 in Y5. change (v_signing v1) with (v_signing v) in Y5. rewrite (vg_signing _ _ _ _ _ _ _ _ _ _ _ G) in Y5.
  rewrite Y5. cbn [negb].
  assert (FS : Forall stream_item (la ++ [sei])).
  { apply Forall_app. split; [eapply its_stream, IA|]. constructor; [left; exact Z3|constructor]. }
  assert (NP : num_pending (head ++ la ++ [sei]) = Z.of_nat (length (hashed a))).
  { unfold num_pending. rewrite !filter_app, !app_length. destruct (its_hashed _ _ _ _ _ _ IA) as [-> _].
    rewrite (rests_none _ Z2). cbn [filter]. rewrite (calm_pending _ Z3). cbn [length]. rewrite Nat.add_0_r. reflexivity. }
  match goal with |- context [validate_loop C Ov f ?y false] => set (v4 := y) end.
  assert (I4 : v_items v4 = head ++ la ++ [sei]) by (change (v_items v4) with (v_items v3); exact Y10).
  assert (P4 : exists g4, has_pending v4 = (set_v_gs g4 v4, false) /\ gs_after g4 = false).
  { unfold has_pending. change (v_signing v4) with (v_signing v3). rewrite Y5. destruct (none_pending (la ++ [sei]) head Z2 FS) as (s & E & Q1 & Q2 & Q3).
    fold pg0. rewrite I4, E. eexists. split; [reflexivity|]. cbn [gs_after negb andb]. destruct (g_last s) as [[|]|]; [congruence|reflexivity|reflexivity]. }
  destruct P4 as (g4 & P4 & P5).
  assert (VL : validate_loop C Ov f v4 false = Def (set_v_gs g4 v4, SV_OK)) by (destruct f; cbn [validate_loop]; rewrite P4; reflexivity).
  rewrite VL. exists (set_v_gs g4 v4), x0. split; [reflexivity|]. split; [reflexivity|].
  change (v_codec v2) with (v_codec u) in Y2. change (v_legacy v2) with (v_legacy u) in Y3. change (v_report v2) with (v_report u) in Y4.
  change (v_buddies v2) with (v_buddies u) in Y6. change (v_acc v2) with (v_acc u) in Y8. change (v_dec v2) with (v_dec u) in Y9.
  change (v_links v2) with l2 in Y15. change (v_computed v2) with (v_computed u) in Y16. change (v_hash v2) with (v_hash u) in Y17.
  assert (AC : v_acc v3 = v_acc v) by (rewrite Y8, U8; reflexivity).
  assert (LV : l_pend (v_latest v4) = Z.of_nat (length (hashed a))) by (change (l_pend (v_latest v4)) with (num_pending (v_items v3)); rewrite Y10; exact NP).
  split; [|split].
  - constructor.
    + change (v_codec v3 = c). rewrite Y2, U2. apply G.
    + change (gdec (v_dec v3)). rewrite Y9. exact U9.
    + change (v_legacy v3 = false). rewrite Y3, U3. apply G.
    + change (v_report v3 = true). rewrite Y4, U4. apply G.
    + exact Y5.
    + exact P5.
    + unfold E2eStep.refs. change (v_buddies (set_v_gs g4 v4)) with (v_buddies v3). rewrite Y6, U6. apply (vg_refs _ _ _ _ _ _ _ _ _ _ _ G).
    + exact Y11.
    + change (links_ok (v_links v3) (Some x0)). rewrite Y15. exact X2.
    + change (length (v_computed v3) = 64%nat). rewrite Y16. exact U15.
    + change (length (v_hash v3) = 64%nat). rewrite Y17. exact U16.
    + change (v_acc (set_v_gs g4 v4)) with (v_acc v3). rewrite AC. apply G.
    + change (v_acc (set_v_gs g4 v4)) with (v_acc v3). rewrite AC. apply G.
    + reflexivity.
    + reflexivity.
    + exact Y18.
    + intros X. exact (proj1 (proj2 (proj2 (ZO X)))).
    + intros X. exact (proj1 (proj2 (proj2 (proj2 (ZO X))))).
    + intros X. exact (proj2 (proj2 (proj2 (proj2 (ZO X))))).
    + exact LV.
  - exists head, la, sei. change (v_items (set_v_gs g4 v4)) with (v_items v4). repeat (split; [assumption|]). split; [rewrite Z5; exact EN|]. intros X. destruct (ZO X) as (X1' & X2' & _). split; assumption.
  - intros X. destruct (ZL X) as (bs & m & B1 & B2 & B3 & B4 & B5 & B6 & B7 & B8).
    change (v_items (set_v_gs g4 v4)) with (v_items v4). rewrite I4. unfold validation_str in *. rewrite !map_app. cbn [map]. rewrite Z4.
    destruct (its_hashed _ _ _ _ _ _ IA) as (_ & _ & NLa). unfold validation_str in NLa.
    exists bs, m. repeat (split; [assumption|]). split; [apply subseq_app_r, B6|].
    rewrite !times_app, B7, B8, !(no_times _ _ _ NLa) by (cbn; intuition discriminate). change (times 78 [46]) with O. change (times 77 [46]) with O. split; lia.
Qed.

(** The report, and the session afterwards. *)
Lemma closing (ok P : Prop) v k x0 x xs a n l : vdone ok P v k x0 x xs (length (hashed a)) -> ldone ok (Some x0) a (Some x) xs n (v_items v) -> starts a -> sei_nalu n l -> forall lst sg, (lst -> heard_as sg xs (v_latest v) (validation_str (v_items v))) ->
  exists l2 v' rep, copy_last (d_algo_known (v_dec v)) (v_items v) = Def (l2, SV_OK) /\
    (let '(u, r) := get_report (update_report (set_v_items l2 v)) in (on_dec (set_d_l_has_ts false) u, r)) = (v', Some rep) /\
    vgood false (P /\ ok) v' k (Some x0) x /\ keeps_book (hashed a) rep /\ (ok -> finds_ok xs rep) /\ (P -> ok -> a_auth (p_acc rep) = AuthOk) /\ its_h (Some x0) a (v_items v') (Some x) /\ (lst -> heard_as sg xs (p_latest rep) (l_vstr (p_latest rep))).
Proof.
  intros D (head & la & sei & I1 & I2 & I3 & I4 & I5 & I6 & I7) SA (S1 & S2 & S3 & S4 & S5 & S6 & S7 & S8 & S9 & (r & S10) & S11) lst sg HLs.
  rewrite (gd_known _ _ _ (vd_dec _ _ _ _ _ _ _ _ D)), I1, app_assoc.
  destruct (copy_last_ok true (head ++ la) sei n I6) as (m & E & M1 & M2 & M3 & M4 & _);
    [rewrite S9, S10, nlen_app'; lia|rewrite S9; exact S11|left; reflexivity|].
  rewrite E. set (sei2 := set_i_nalu (Some m) sei). exists ((head ++ la) ++ [sei2]).
  unfold update_report. cbv zeta. cbn [compare_versions].
  assert (CS : calm sei2) by (apply calm_copy, I4).
  set (l2 := (head ++ la) ++ [sei2]).
  match goal with |- context [clean_up (v_items ?y)] => change (v_items y) with l2; set (v1 := y) end.
  destruct (clean_up l2) as [l3 nv] eqn:ECL.
  assert (CL : its_h (Some x0) a l3 (Some x)).
  { destruct (clean_starts _ _ _ _ _ _ [sei2] I3 SA) as [X _]; [constructor; [exact CS|constructor]|].
    assert (EL : l3 = fst (clean_up (la ++ [sei2]))).
    { change l3 with (fst (l3, nv)). rewrite <- ECL. unfold l2. rewrite <- app_assoc. apply clean_rests, I2. }
    rewrite EL. exact X. }
  unfold get_report. cbn [v_report set_v_acc set_v_items]. change (v_report v1) with (v_report v). rewrite (vd_report _ _ _ _ _ _ _ _ D). cbn [negb].
  eexists _, _. split; [reflexivity|]. split; [reflexivity|].
  set (acc := accumulate (v_latest v1) (v_dec v1) (v_acc v1)).
  assert (A1 : P -> ok -> a_auth acc = AuthOk).
  { intros HP HOk. unfold acc, accumulate. cbn [a_auth]. change (l_auth (v_latest v1)) with (l_auth (v_latest v)). change (v_acc v1) with (v_acc v).
    rewrite (vd_auth _ _ _ _ _ _ _ _ D HOk). destruct (vd_acc _ _ _ _ _ _ _ _ D HP) as [<- | [<- | [<- | []]]]; reflexivity. }
  assert (A2 : a_changed acc = false).
  { unfold acc, accumulate. cbn [a_changed]. change (v_acc v1) with (v_acc v). change (v_dec v1) with (v_dec v).
    rewrite (vd_changed _ _ _ _ _ _ _ _ D), (gd_changed _ _ _ (vd_dec _ _ _ _ _ _ _ _ D)). reflexivity. }
  match goal with |- context [set_v_acc ?z (set_v_items l3 v1)] => set (acc2 := z) end.
  assert (A3 : a_auth acc2 = a_auth acc) by (unfold acc2; destruct (a_auth acc) eqn:EA; exact EA).
  assert (A4 : a_changed acc2 = false) by (unfold acc2; destruct (a_auth acc); exact A2).
  rewrite <- A3 in A1. clearbody acc2.
  assert (G4 : gdec (set_d_l_has_ts false (v_dec v))).
  { destruct (vd_dec _ _ _ _ _ _ _ _ D). constructor; assumption. }
  assert (LV : l_vstr (v_latest v1) = validation_str head ++ validation_str la ++ [46]).
  { change (l_vstr (v_latest v1)) with (validation_str l2).
    unfold l2, validation_str. rewrite !map_app, <- app_assoc. cbn [map]. change (i_status sei2) with (i_status sei). rewrite I5. reflexivity. }
  destruct (its_hashed _ _ _ _ _ _ I3) as (_ & H3 & H4).
  split; [|split; [|split; [|split; [|split]]]].
  - destruct D. constructor; try assumption.
    + left. exact vd_gop0.
    + intros [HP HOk]. right. right. left. symmetry. exact (A1 HP HOk).
  - unfold keeps_book. cbn [p_latest p_acc p_changed].
    match goal with |- context [l_auth (v_latest ?y)] => change (v_latest y) with (v_latest v1) end.
    split; [exact (vd_some _ _ _ _ _ _ _ _ D)|]. split; [exact (vd_pend _ _ _ _ _ _ _ _ D)|].
    split; [|split; [exact (gd_changed _ _ _ (vd_dec _ _ _ _ _ _ _ _ D))|exact A4]].
    rewrite LV, !times_app. change (times 80 [46]) with 0%nat. rewrite (rests_shown _ I2), H3. lia.
  - intros HOk. unfold finds_ok. cbn [p_latest p_acc p_changed].
    match goal with |- context [l_auth (v_latest ?y)] => change (v_latest y) with (v_latest v1) end.
    split; [exact (vd_auth _ _ _ _ _ _ _ _ D HOk)|]. split; [exact (vd_recv _ _ _ _ _ _ _ _ D HOk)|]. split; [exact (vd_exp _ _ _ _ _ _ _ _ D HOk)|].
    destruct (I7 HOk) as (I8 & I9). rewrite LV. split.
    + apply Forall_app. split; [exact I8|]. apply Forall_app. split; [exact H4|]. constructor; [left; reflexivity|constructor].
    + rewrite !times_app. change (times 46 [46]) with 1%nat. lia.
  - exact A1.
  - exact CL.
  - intros X. specialize (HLs X). cbn [p_latest].
    match goal with |- context [v_latest ?y] => change (v_latest y) with (v_latest v1) end.
    assert (EV : l_vstr (v_latest v1) = validation_str (v_items v)).
    { rewrite LV, I1. unfold validation_str. rewrite !map_app. cbn [map]. rewrite I5. reflexivity. }
    rewrite EV. exact HLs.
Qed.

(** What the validator makes of a SEI. *)
Lemma sei_parse fs x y : sei_with C c w fs x -> delivered (w_epb w) x y -> few_escapes (w_epb w) fs (w_max_sig w) ->
  exists n n2 sig sp, parse_nalu y c true true = Def n /\ n_valid n = 1%Z /\ n_gop_sei n = true /\ N.land (n_reserved n) 48 <> 0 /\ n_golden n = false /\
    update_hashable n = Def n2 /\ hash_input n2 = Def sp /\ sp <> [] /\ sei_nalu n2 (wires (fs ++ [(5, sig_value (w_max_sig w) sig)])) /\
    n_hashable n = true /\ sig <> [] /\ (length sig <= w_max_sig w)%nat /\ c_verify C (w_pub w) sig (H sp) = 1%Z /\
    Forall wire_ok (fs ++ [(5, sig_value (w_max_sig w) sig)]) /\ y <> [].
Proof.
  intros (sig & key & KP & HS) HD HF. destruct (parse_delivered C c x y _ _ _ _ _ _ _ HS HD) as (n & E & P).
  pose proof HS as (EX & HM & HLn & _ & HX & HB & HN & HSL & coin & HSg).
  assert (HX2 : N.of_nat (w_max_sig w) + 5 < 65536) by exact HX.
  destruct (sig_wire _ sig HSL HX2) as [W WL].
  destruct (update_signed c (w_epb w) false fs _ n _ _ HM W (sig_value_ok _ sig HB) (few_found _ _ _ _ HSL HX HF) P eq_refl)
    as (n2 & E2 & E3 & E4).
  destruct P as (P1 & P2 & P3 & P4 & P5 & P6 & P7 & P8 & P9 & P10 & P11 & P12 & P13 & P14 & P15 & P16).
  exists n, n2, sig, (signed_part c (w_epb w) false fs (5, sig_value (w_max_sig w) sig)).
  assert (PR : N.land (n_reserved n) 48 <> 0) by (rewrite P12; destruct (w_epb w); discriminate).
  repeat (split; [assumption|]).
  split; [unfold signed_part, sei_front; destruct c; discriminate|].
  split.
  { rewrite E4. unfold sei_nalu. cbn [n_gop_sei n_golden n_hashable n_valid n_first_in_gop n_first_part n_last_part n_reserved n_tlv_size n_tlv_mem].
    repeat (split; [assumption|]). change (2 ^ 20) with 1048576 in HLn. change (2 ^ 63) with 9223372036854775808.
    rewrite wires_app, nlen_app'. unfold wires at 2. cbn [flat_map]. rewrite app_nil_r, WL. lia. }
  repeat (split; [assumption|]). destruct (HKW _ _ _ KP) as [_ V]. split; [exact (V _ _ _ HSg)|].
  split; [apply Forall_app; split; [apply HM|constructor; [exact W|constructor]]|].
  destruct HD as [->|[_ ->]]; rewrite EX; unfold sei; destruct c; discriminate.
Qed.

Lemma sei_hashed v it n sp : gdec (v_dec v) -> i_nalu it = Some n -> hash_input n = Def sp -> sp <> [] -> length (i_hash it) = 64%nat ->
  n_hashable n = true -> n_gop_sei n = true -> n_first_part n = true -> n_last_part n = true -> n_first_in_gop n = false ->
  exists h, hash_item C v it = Def (v, set_i_hash h it, SV_OK) /\ length h = 64%nat /\ firstn hs h = H sp.
Proof.
  intros G EN E1 E2 LH S1 S2 S3 S4 S5.
  rewrite (hash_item_sei C HC v it n sp hs); try assumption; [|apply G|rewrite (gd_type _ _ _ G); exact HO].
  eexists. split; [reflexivity|]. rewrite (gd_type _ _ _ G). split.
  - rewrite app_length, skipn_length. change (c_hash C (w_oid w) sp) with (H sp). rewrite HL. lia.
  - apply firstn_app_len, HL.
Qed.

Lemma sei_fresh fs sig n2 : sei_nalu n2 (wires (fs ++ [(5, sig_value (w_max_sig w) sig)])) ->
  forall it sp, i_nalu it = Some n2 -> i_status it = SPend -> i_used it = false -> i_decoded it = false -> length (i_hash it) = 64%nat ->
  firstn hs (i_hash it) = H sp -> sei_item C w hs it fs sig sp.
Proof.
  intros (S1 & S2 & S3 & S4 & S5 & S6 & S7 & S8 & S9 & (r & S10) & S11) it sp EN ES EU ED LH EH.
  split; [repeat (split; [assumption|]); exists n2; repeat (split; [assumption|]); assumption|].
  split; [exact EH|]. split; [exact LH|]. exists n2, r. repeat (split; [assumption|]). assumption.
Qed.

(** Arrival of a SEI in a stream known to be signed. *)
Lemma sei_step b0 P v k rec ts so sg gh x o g a sx y : let fs := gop_fields_with C w k rec so sg gh ts in
  vgood b0 P v (k - 1) o x -> length gh = hs -> fine fs so sg gh o (hashed g) \/ b0 = false -> 1 <= k ->
  match ts with Some t => (-9223372036854775808 <= t < 9223372036854775808)%Z | None => True end ->
  is_gop g -> starts a -> its_h o (g ++ a) (v_items v) (Some x) ->
  sei_with C c w fs sx -> delivered (w_epb w) sx y -> few_escapes (w_epb w) fs (w_max_sig w) ->
  exists v' rep x0, add_nalu C Ov (S f) v y true = Def (v', VRes SV_OK (Some rep)) /\ keeps_book (hashed a) rep /\
    (fine fs so sg gh o (hashed g) -> finds_ok (hashed g) rep) /\ (P -> fine fs so sg gh o (hashed g) -> a_auth (p_acc rep) = AuthOk) /\
    (lossy fs so sg gh o (hashed g) -> heard_as sg (hashed g) (p_latest rep) (l_vstr (p_latest rep))) /\
    hd_error (hashed g) = Some x0 /\ vgood false (P /\ fine fs so sg gh o (hashed g)) v' k (Some x0) x /\ its_h (Some x0) a (v_items v') (Some x).
Proof.
  intros fs G HG FI K1 HT IG SA I SW HD HF.
  destruct (sei_parse _ _ _ SW HD HF) as (n & n2 & sig & sp & E1 & E2 & E3 & E4 & E5 & E6 & E7 & E8 & E9 & E10 & E11 & E12 & E13 & E14 & E15).
  unfold add_nalu. destruct y as [|d0 dr] eqn:ED; [congruence|]. rewrite <- ED in *. clear ED d0 dr.
  cbv zeta. unfold create_report. change (v_report (set_v_started true v)) with (v_report v). rewrite (vg_report _ _ _ _ _ _ _ _ _ _ _ G).
  change (v_legacy (set_v_started true v)) with (v_legacy v). rewrite (vg_legacy _ _ _ _ _ _ _ _ _ _ _ G).
  unfold add_h26x. change (v_codec (set_v_started true v)) with (v_codec v). rewrite (vg_codec _ _ _ _ _ _ _ _ _ _ _ G), E1. cbn [obind].
  unfold add_body. cbv zeta. rewrite E2. change (1 <? 0)%Z with false. cbn iota.
  match goal with |- context [register C ?y n] => set (v1 := y) end.
  assert (G1 : gdec (v_dec v1)) by exact (vg_dec _ _ _ _ _ _ _ _ _ _ _ G).
  unfold register. rewrite E2. change (1 =? 0)%Z with false. cbn iota. rewrite E6. cbn [obind].
  set (it := set_i_nalu (Some n2) (item_create n)).
  pose proof E9 as (S1 & S2 & S3 & S4 & S5 & S6 & S7 & S8 & S9 & S10 & S11).
  destruct (sei_hashed v1 it n2 sp G1 eq_refl E7 E8 eq_refl S3 S1 S6 S7 S5) as (h & EH & H1 & H2). rewrite EH. cbn [obind is_ok svrc_eqb negb].
  set (it2 := set_i_hash h it).
  assert (SI : sei_item C w hs it2 fs sig sp).
  { apply (sei_fresh _ _ _ E9); try reflexivity; try assumption. cbn. unfold status_of. rewrite E2, E10. reflexivity. }
  match goal with |- context [d_algo_known (v_dec ?y)] => set (v2 := y) end.
  change (v_dec v2) with (v_dec v) at 1. rewrite (gd_known _ _ _ (vg_dec _ _ _ _ _ _ _ _ _ _ _ G)). cbn [negb andb obind is_ok svrc_eqb orb].
  change (v_legacy v2) with (v_legacy v). rewrite (vg_legacy _ _ _ _ _ _ _ _ _ _ _ G). cbn [orb].
  destruct (its_split _ _ _ _ _ _ _ I) as (lg & la & o1 & EL & IL & IA).
  assert (EO : o1 = hd_error (hashed g)).
  { destruct (its_gop _ _ _ _ _ _ IL IG) as (q & it0 & t & x0 & xs & _ & _ & _ & _ & EHg & _ & E0). rewrite EHg. exact E0. }
  subst o1.
  assert (G2 : vgood b0 P v2 (k - 1) o x).
  { destruct G. constructor; try assumption. unfold v2, v1. cbn. rewrite vg_signing. reflexivity. }
  destruct (core b0 P v2 k rec so sg gh x ts sig sp lg la it2 n2 n o g a G2 HG FI K1 HT E11 E12 E13 E14) as (v3 & x0 & M1 & M2 & M3 & M4 & M5);
    [cbn; rewrite EL, <- app_assoc; reflexivity|exact IG|exact IL|exact SA|exact IA|exact SI|reflexivity|exact S2|reflexivity|].
  rewrite M1. cbn [obind]. rewrite (vd_legacy _ _ _ _ _ _ _ _ M3).
  destruct (closing _ P v3 k x0 x (hashed g) a n2 _ M3 M4 SA E9 _ _ M5) as (l2 & v4 & rep & C1 & C2 & C3 & C4 & C5 & C6 & C7 & C8).
  rewrite C1. cbn [obind is_ok svrc_eqb negb].
  change (v_legacy (set_v_items l2 v3)) with (v_legacy v3). rewrite (vd_legacy _ _ _ _ _ _ _ _ M3).
  change (v_result (set_v_items l2 v3)) with (v_result v3). rewrite (vd_result _ _ _ _ _ _ _ _ M3).
  destruct (get_report (update_report (set_v_items l2 v3))) as [u r]. injection C2 as C2a C2b. subst v4 r.
  do 3 eexists. split; [reflexivity|]. split; [exact C4|]. split; [exact C5|]. split; [exact C6|]. split; [exact C8|]. split; [exact M2|]. split; [exact C3|exact C7].
Qed.

End Sei.

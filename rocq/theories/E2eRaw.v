(** The validator on an untampered stream before and at the first SEI: lemmas. *)
From Verif Require Import Base BaseProofs Epb EpbProofs Nalu NaluSpec NaluProofs Crypto Types Hash Tlv TlvProofs EncProofs CodecSpec CodecProofs
  SeiSpec SeiProofs GenProofs SessProofs Signer SignSpec GopSpec GopProofs EosSpec VTypes NaluList Validator SeiHashProofs VListProofs VUnsigned
  E2eSpec DamageSpec LossSpec E2eDec E2eList E2eVal E2eAny E2eStep E2eSei.
Local Open Scope N_scope.

(** A NALU that waits until the hash algorithm is known. *)
Definition raw (x : list N) (it : item) : Prop :=
  length (i_hash it) = 64%nat /\ x <> [] /\
  exists n, i_nalu it = Some n /\ n_valid n = 1%Z /\ n_first_part n = true /\ n_last_part n = true /\ hash_input n = Def x.
(** A NALU that is not hashed. *)
Definition idle (it : item) : Prop := pending it = false -> exists n, i_nalu it = Some n /\ n_hashable n = false.
Notation its_r := (its raw (fun _ => raw)).

(** The item made for a NALU of the stream. *)
Definition item_of (p : piece) (it : item) : Prop :=
  idle it /\
  ((calm it /\ p_bytes p = None /\ p_first p = false) \/
   exists y, p_bytes p = Some y /\ waits (p_first p) it /\ raw y it).

Lemma item_stream p it : item_of p it -> stream_item it.
Proof. intros (_ & [(Q & _)|(y & _ & W & _)]); [left; exact Q|right; eexists; exact W]. Qed.
Lemma stream_plain l : Forall stream_item l -> Forall (fun it => item_sei it = false \/ pending it = false) l.
Proof.
  apply Forall_impl. intros it [Q|(b & W)]; [right; exact (calm_pending _ Q)|left].
  destruct W as (_ & _ & _ & n & E1 & E2 & _). unfold item_sei. rewrite E1. exact E2.
Qed.

Lemma last_quiet sg l : Forall stream_item l -> forall s, g_last s <> Some true -> g_has s = g_has s -> g_last (fst (pending_loop sg s l)) <> Some true.
Proof.
  induction 1 as [|it l S _ IH]; intros s QL _; [exact QL|]. cbn [pending_loop]. cbv zeta.
  match goal with |- context [if _ then (?a, true) else pending_loop sg ?b l] => set (s1 := a) end.
  assert (Q1 : g_last s1 <> Some true).
  { unfold s1. destruct S as [S|(b & S)].
    - rewrite (calm_pending _ S). cbn [andb]. destruct (i_nalu it); exact QL.
    - destruct S as (S1 & _ & _ & n & E1 & E2 & _ & E4). rewrite E1. unfold pending. rewrite S1, E4, E2. discriminate. }
  match goal with |- context [if ?b then _ else _] => destruct b end; [exact Q1|]. apply IH; [exact Q1|reflexivity].
Qed.
Lemma has_pending_after v : Forall stream_item (v_items v) -> exists g b, has_pending v = (set_v_gs g v, b) /\ gs_after g = false.
Proof.
  intros F. unfold has_pending. pose proof (last_quiet (v_signing v) _ F (mkPg 0 false false None false)) as Q.
  destruct (pending_loop (v_signing v) _ (v_items v)) as [s found]. do 2 eexists. split; [reflexivity|]. cbn [gs_after].
  destruct found; [reflexivity|]. cbn [negb andb]. cbn [fst] in Q. destruct (g_last s) as [[|]|]; [|reflexivity|reflexivity].
  exfalso. apply Q; [discriminate|reflexivity|reflexivity].
Qed.

Lemma stream_next l : Forall stream_item l -> next_sei l = None.
Proof.
  intros F. apply stream_plain in F. induction F as [|it l X _ IH]; [reflexivity|]. unfold next_sei in *. cbn [find].
  destruct X as [->| ->]; [|rewrite andb_false_r]; exact IH.
Qed.
Lemma stream_link l : Forall stream_item l -> find_link l = Def None.
Proof.
  induction 1 as [|it l S _ IH]; [reflexivity|]. cbn [find_link].
  assert (U : i_used it = false) by (destruct S as [(U & _)|(b & _ & U & _)]; exact U). rewrite U, IH. reflexivity.
Qed.
Lemma gs_sei_stream sg l : Forall stream_item l -> Forall (fun it => item_sei it = false) l -> forall s, g_has s = false -> g_has (fst (pending_loop sg s l)) = false.
Proof.
  intros F. induction 1 as [|it l S _ IH]; intros s HS; [exact HS|]. apply Forall_cons_iff in F as [F0 F].
  cbn [pending_loop]. cbv zeta. unfold item_sei in S.
  assert (NN : exists n, i_nalu it = Some n).
  { destruct F0 as [(_ & X & _)|(b & _ & _ & _ & n & X & _)]; [destruct (i_nalu it); [eauto|congruence]|eauto]. }
  destruct NN as [n EN]. rewrite EN in *. rewrite S, HS, !andb_false_r. cbn [orb].
  match goal with |- context [if ?b then (?a, true) else _] => destruct b end.
  - destruct (pending it && n_hashable n); reflexivity.
  - apply IH; [exact F|]. destruct (pending it && n_hashable n); reflexivity.
Qed.

(** The last counter before the first SEI. *)
Class start_gop := first_gop : N.
Definition zero_gop : start_gop := 0.

Section Raw.
Context {SGop : start_gop}.
Variable C : crypto.
Hypothesis HC : crypto_ok C.
Hypothesis HKW : keys_work C.
Variable Ov : ovf.
Variable c : codec.
Variable w : settings.
Variable hs : nat.
Hypothesis HO : c_oid C (w_oid w) = OidDigest hs.
Hypothesis HW0 : w_oid w <> [].
Hypothesis HWl : nlen (w_oid w) < 254.
Hypothesis HP0 : w_pub w <> [].
Hypothesis HPl : nlen (w_pub w) < 65535.
Hypothesis HPk : c_pub_ok C (w_pub w) = true.
Hypothesis HR5 : length (w_prod w) = 5%nat.
Hypothesis HRb : Forall (Forall (fun b => 0 < b < 256)) (w_prod w).
Hypothesis HMx : N.of_nat (w_max_sig w) + 5 < 65536.
Variable f : nat.

Let H := c_hash C (w_oid w).
Let Hhs : (0 < hs <= 64)%nat := hs_small C HC w hs HO.
Let HL : forall x, length (H x) = hs := H_len C HC w hs HO.
Notation gdec := (gdec w hs).
Notation its_h := (its (first_hash H hs) (other_hash H hs)).
Notation links_ok := (links_ok C w hs).
Notation vgood b P v k prev x := (vgoodo C Ov c w hs b P v k prev (Some x)).
Notation refs := (refs C w hs).

(** The decoder before the first SEI: the key will come with it, or it was set by hand and the hash algorithm is the
    one a session starts with. *)
Definition pre_dec (d : dec) : Prop :=
  d_algo_known d = false /\ match d_sig d with Some s => length s = w_max_sig w | None => True end /\ length (d_linked d) = 64%nat /\ length (d_gop d) = 64%nat /\ d_l_changed d = false /\
  h_type (d_handle d) = h_oid (d_handle d) /\ match h_prim (d_handle d) with Some x => x_oid x = w_oid w | None => True end /\
  ((w_add_pub w = true /\ d_has_pub d = false) \/
   (d_has_pub d = true /\ d_pub d = w_pub w /\ d_vkey d = Some (w_pub w) /\ h_oid (d_handle d) = w_oid w /\ d_vhs d = hs)).

Record vraw (v : valid) : Prop := mkVraw {
  vr_codec : v_codec v = c;
  vr_dec : pre_dec (v_dec v);
  vr_legacy : v_legacy v = false;
  vr_signing : v_signing v = false;
  vr_after : gs_after (v_gs v) = false;
  vr_refs : length (v_buddies v) = 128%nat;
  vr_gop : v_gop v = first_gop;
  vr_synced : v_synced v = false;
  vr_first : v_first v = true;
  vr_links : links_ok (v_links v) None;
  vr_computed : length (v_computed v) = 64%nat;
  vr_hash : length (v_hash v) = 64%nat;
  vr_acc : a_auth (v_acc v) = NotSigned;
  vr_changed : a_changed (v_acc v) = false;
  vr_items : Forall stream_item (v_items v) /\ Forall (fun it => item_sei it = false) (v_items v) /\ Forall idle (v_items v) /\
    Forall (fun it => i_second it = None) (v_items v)
}.

Lemma started v : vraw v -> vraw (create_report (set_v_started true v)) /\ v_report (create_report (set_v_started true v)) = true /\
  v_items (create_report (set_v_started true v)) = v_items v.
Proof.
  intros G. unfold create_report. change (v_report (set_v_started true v)) with (v_report v). destruct (v_report v) eqn:E.
  - split; [|split; [exact E|reflexivity]]. destruct G; constructor; assumption.
  - split; [|split; reflexivity]. destruct G; constructor; try assumption; try reflexivity.
    destruct vr_dec0 as (A1 & A2 & A3 & A4 & A5 & A6 & A7 & A8). repeat (split; [assumption || reflexivity|]). exact A8.
Qed.

Definition same (v u : valid) : Prop :=
  v_codec u = v_codec v /\ v_dec u = v_dec v /\ v_legacy u = v_legacy v /\ v_report u = v_report v /\ v_signing u = v_signing v /\
  v_buddies u = v_buddies v /\ v_gop u = v_gop v /\ v_links u = v_links v /\ v_computed u = v_computed v /\ v_hash u = v_hash v /\
  v_acc u = v_acc v /\ v_items u = v_items v /\ v_synced u = v_synced v /\ (v_first v = true -> v_first u = true).

Lemma loop_raw v : v_signing v = false -> Forall stream_item (v_items v) -> Forall (fun it => item_sei it = false) (v_items v) -> v_result v = false ->
  exists u, validate_loop C Ov (S f) v false = Def (u, SV_OK) /\ same v u /\ gs_after (v_gs u) = false /\
    (v_result u = false \/ (v_result u = true /\ l_auth (v_latest u) = NotSigned)).
Proof.
  intros ES F NS ER. cbn [validate_loop].
  destruct (has_pending_after v F) as (g & b & EH & GA). rewrite EH. destruct b; cbn [negb orb]; [|exists (set_v_gs g v); split; [reflexivity|]; split; [repeat split; auto|]; split; [exact GA|left; exact ER]].
  cbv zeta. change (v_result (set_v_gs g v)) with (v_result v). rewrite ER.
  assert (GS : gs_sei g = false).
  { unfold has_pending in EH. pose proof (gs_sei_stream (v_signing v) _ F NS (mkPg 0 false false None false) eq_refl) as X.
    destruct (pending_loop (v_signing v) _ (v_items v)) as [s found]. cbn [fst] in X.
    pose proof (f_equal (fun x => gs_sei (v_gs (fst x))) EH) as Y. cbn in Y. congruence. }
  match goal with |- context [prepare C Ov ?y] => set (v1 := y) end.
  assert (EP : prepare C Ov v1 = Def (v1, SV_OK)).
  { unfold prepare. change (v_items v1) with (v_items v). rewrite (stream_next _ F). cbn [obind is_ok svrc_eqb negb].
    change (v_signing v1) with (v_signing v). rewrite ES. cbn [andb]. change (gs_sei (v_gs v1)) with (gs_sei g). rewrite GS. reflexivity. }
  rewrite EP. cbn [obind is_ok svrc_eqb negb].
  assert (EU : update_link v1 = Def v1) by (unfold update_link; change (v_items v1) with (v_items v); rewrite (stream_link _ F); reflexivity).
  rewrite EU. cbn [obind]. change (v_signing v1) with (v_signing v). rewrite ES. cbn [obind].
  change (v_signing (on_latest (set_l_auth NotSigned) v1)) with (v_signing v). rewrite ES. cbn [negb].
  match goal with |- context [validate_loop C Ov f ?y true] => set (v2 := y) end.
  destruct (has_pending_after v2 F) as (g2 & b2 & EH2 & GA2).
  assert (VL : validate_loop C Ov f v2 true = Def (set_v_gs g2 v2, SV_OK)).
  { destruct f; cbn [validate_loop]; rewrite EH2, orb_true_r; reflexivity. }
  rewrite VL. exists (set_v_gs g2 v2). split; [reflexivity|]. split; [repeat split; intros _; change (negb (v_signing v) = true); rewrite ES; reflexivity|]. split; [exact GA2|]. right. split; reflexivity.
Qed.

Lemma register_raw v p n : d_algo_known (v_dec v) = false -> pic_nalu p n ->
  register C v n = Def (v, item_create n, SV_OK) /\ item_of p (item_create n).
Proof.
  intros AK (S1 & S2 & S3 & S4 & S5 & S6 & S7). split.
  - unfold register. destruct (n_valid n =? 0)%Z; [reflexivity|]. unfold update_hashable. rewrite S1. cbn [negb]. rewrite orb_true_r. cbn [obind].
    unfold hash_item. cbn [i_nalu set_i_nalu item_create]. rewrite AK. cbn [negb]. rewrite orb_true_r. reflexivity.
  - destruct S7 as [(S7 & S8 & y & S9 & S10 & S11)|(S7 & S8 & S9 & S10)].
    + assert (ST : i_status (item_create n) = SPend) by (cbn; unfold status_of; rewrite S8, S7; reflexivity).
      split; [intros X; unfold pending in X; rewrite ST in X; discriminate|].
      right. exists y. split; [exact S9|]. split.
      * split; [exact ST|]. split; [reflexivity|]. split; [reflexivity|]. exists n. repeat (split; [assumption || reflexivity|]). exact S7.
      * split; [reflexivity|]. split; [exact S11|]. exists n. repeat (split; [assumption || reflexivity|]). exact S10.
    + split; [intros _; exists n; split; [reflexivity|exact S7]|]. left. split; [|split; assumption].
      split; [reflexivity|]. split; [discriminate|]. cbn [item_create i_status]. unfold status_of.
      destruct S8 as [-> | ->]; cbn [Z.ltb Z.compare Z.eqb]; rewrite ?S7; cbn; auto.
Qed.

Lemma item_copied p n m : pic_nalu p n -> item_of p (item_create n) -> n_gop_sei m = n_gop_sei n -> n_first_in_gop m = n_first_in_gop n ->
  n_hashable m = n_hashable n -> n_valid m = n_valid n -> n_first_part m = n_first_part n -> n_last_part m = n_last_part n ->
  (n_hashable n = true -> hash_input m = hash_input n) -> item_of p (set_i_nalu (Some m) (item_create n)).
Proof.
  intros PN (I & X) M1 M2 M3 M4 M5 M6 M7. split.
  - intros P. exists m. split; [reflexivity|]. rewrite M3. destruct (I P) as (n' & E1 & E2). cbn in E1. congruence.
  - destruct X as [(Q & B & F)|(y & B & W & (R1 & R2 & n' & R3 & R4 & R5 & R6 & R7))].
    + left. split; [apply calm_copy, Q|split; assumption].
    + right. exists y. split; [exact B|]. split; [exact (waits_copy _ _ _ n W eq_refl M1 M2 M3)|].
      cbn in R3. assert (n' = n) as -> by congruence.
      split; [exact R1|]. split; [exact R2|]. exists m. destruct W as (_ & _ & _ & n'' & W1 & _ & _ & W4). cbn in W1. assert (n'' = n) as -> by congruence.
      split; [reflexivity|]. rewrite M4, M5, M6, (M7 W4). repeat (split; [assumption|]). assumption.
Qed.

(** Arrival of a NALU before any SEI. *)
Lemma raw_step v p : vraw v -> seen c p -> legal c p ->
  exists v' r it, add_nalu C Ov (S f) v (p_data p) true = Def (v', VRes SV_OK r) /\ vraw v' /\ item_of p it /\
    ((r = None /\ v_items v' = v_items v ++ [it] /\ d_counter (v_dec v') = d_counter (v_dec v)) \/
     (p_first p = true /\ (exists q, r = Some q /\ l_auth (p_latest q) = NotSigned) /\ v_items v' = fst (clean_up (v_items v ++ [it])))).
Proof.
  intros G0 SN LG. destruct (pic_parse c p SN LG) as (n & EP & PN). destruct LG as (D0 & _ & _).
  unfold add_nalu. destruct (p_data p) as [|d0 dr] eqn:ED; [congruence|]. rewrite <- ED in *. clear ED d0 dr.
  assert (DC : d_counter (v_dec (create_report (set_v_started true v))) = d_counter (v_dec v)) by (unfold create_report; destruct (v_report (set_v_started true v)); reflexivity).
  cbv zeta. destruct (started v G0) as (G & R1 & I1). rewrite <- I1, <- DC. set (vs := create_report (set_v_started true v)) in *. clearbody vs. clear G0 I1 DC v.
  rewrite (vr_legacy _ G). unfold add_h26x. rewrite (vr_codec _ G), EP. cbn [obind]. unfold add_body. cbv zeta.
  assert (NV : (n_valid n <? 0)%Z = false).
  { destruct PN as (_ & _ & _ & _ & _ & _ & [(_ & -> & _)|(_ & [-> | ->] & _)]); reflexivity. }
  rewrite NV. pose proof PN as (P1 & P2 & P3 & P4 & P5 & P6 & P7). rewrite P1.
  match goal with |- context [register C ?y n] => set (v1 := y) end.
  assert (ES1 : v_signing v1 = false) by (unfold v1; cbn; rewrite (vr_signing _ G); reflexivity).
  assert (ES2 : v_first_sei v1 = false) by (unfold v1; cbn; rewrite (vr_signing _ G); reflexivity).
  destruct (vr_dec _ G) as (AK & DR). 
  destruct (register_raw v1 p n AK PN) as (ER & IO). rewrite ER. cbn [obind is_ok svrc_eqb negb].
  change (v_items (on_acc _ (set_v_result false vs))) with (v_items vs).
  match goal with |- context [d_algo_known (v_dec ?y)] => set (v2 := y) end.
  change (v_signing v2) with (v_signing v1). rewrite ES1, andb_false_r. cbn [obind is_ok svrc_eqb negb orb].
  change (v_legacy v2) with (v_legacy vs). rewrite (vr_legacy _ G). cbn [orb].
  destruct (vr_items _ G) as (F1 & F2 & F3 & F4).
  assert (FS : Forall stream_item (v_items vs ++ [item_create n])) by (apply Forall_app; split; [exact F1|constructor; [eapply item_stream, IO|constructor]]).
  assert (FN : Forall (fun it => item_sei it = false) (v_items vs ++ [item_create n])) by (apply Forall_app; split; [exact F2|constructor; [exact P1|constructor]]).
  (* the outcome of maybe_validate *)
  assert (MV : exists u, maybe_validate C Ov (S f) v2 n = Def (u, SV_OK) /\ same v2 u /\ gs_after (v_gs u) = false /\
    (v_result u = false \/ (v_result u = true /\ l_auth (v_latest u) = NotSigned /\ p_first p = true))).
  { unfold maybe_validate. cbv zeta. change (v_items v2) with (v_items vs ++ [item_create n]). rewrite rev_app_distr. cbn [rev app].
    unfold recurrent_decoded. change (v_signing v2) with (v_signing v1). rewrite ES1. cbn [negb]. rewrite orb_true_r. cbn [obind]. rewrite andb_true_r.
    destruct (feasible (item_create n)) eqn:EF; cbn [negb].
    - destruct (loop_raw v2 ES1 FS FN eq_refl) as (u & X1 & X2 & X3 & X4). exists u. split; [exact X1|]. split; [exact X2|]. split; [exact X3|].
      destruct X4 as [X4|(X4 & X5)]; [left; exact X4|right]. split; [exact X4|]. split; [exact X5|].
      unfold feasible in EF. cbn [item_create i_nalu] in EF. rewrite P1, P6 in EF. cbn [orb] in EF. apply andb_prop in EF. apply EF.
    - change (v_first_sei v2) with (v_first_sei v1). rewrite ES2. exists v2. split; [reflexivity|]. split; [repeat split; auto|].
      split; [exact (vr_after _ G)|]. left. reflexivity. }
  destruct MV as (u & MV & (V1 & V2 & V3 & V4 & V5 & V6 & V7 & V8 & V9 & V10 & V11 & V12 & V13 & V14) & GA & RS).
  change (v_codec v2) with (v_codec vs) in V1. change (v_dec v2) with (v_dec vs) in V2. change (v_legacy v2) with (v_legacy vs) in V3.
  change (v_report v2) with (v_report vs) in V4. change (v_signing v2) with (v_signing v1) in V5. change (v_buddies v2) with (v_buddies vs) in V6.
  change (v_gop v2) with (v_gop vs) in V7. change (v_links v2) with (v_links vs) in V8. change (v_computed v2) with (v_computed vs) in V9.
  change (v_hash v2) with (v_hash vs) in V10. change (v_items v2) with (v_items vs ++ [item_create n]) in V12. change (v_synced v2) with (v_synced vs) in V13.
  assert (A1 : a_auth (v_acc u) = NotSigned) by (rewrite V11; exact (vr_acc _ G)).
  assert (A2 : a_changed (v_acc u) = false) by (rewrite V11; exact (vr_changed _ G)).
  destruct (copy_last_ok false (v_items vs) (item_create n) n eq_refl) as (m & EC & M1 & M2 & M3 & M4 & M5 & M6 & M7);
    [rewrite P3; lia|rewrite P3; reflexivity|right; exact P1|].
  pose proof (item_copied p n m PN IO M1 M2 M3 M4 M5 M6 (M7 eq_refl)) as IC.
  set (it := set_i_nalu (Some m) (item_create n)) in *.
  assert (FS2 : Forall stream_item (v_items vs ++ [it])) by (apply Forall_app; split; [exact F1|constructor; [eapply item_stream, IC|constructor]]).
  assert (FN2 : Forall (fun it => item_sei it = false) (v_items vs ++ [it])) by (apply Forall_app; split; [exact F2|constructor; [unfold item_sei; cbn; rewrite M1; exact P1|constructor]]).
  assert (FI2 : Forall idle (v_items vs ++ [it])) by (apply Forall_app; split; [exact F3|constructor; [apply IC|constructor]]).
  assert (FD2 : Forall (fun it => i_second it = None) (v_items vs ++ [it])) by (apply Forall_app; split; [exact F4|constructor; [reflexivity|constructor]]).
  rewrite MV. cbn [obind]. rewrite V3, (vr_legacy _ G), V2, V12, AK, EC. cbn [obind is_ok svrc_eqb negb].
  set (v3 := set_v_items (v_items vs ++ [it]) u).
  change (v_legacy v3) with (v_legacy u). rewrite V3, (vr_legacy _ G). change (v_result v3) with (v_result u).
  assert (G3 : vraw v3).
  { constructor; try assumption; cbn.
    - rewrite V1. apply G.
    - rewrite V2. apply G.
    - rewrite V3. apply G.
    - rewrite V5. exact ES1.
    - rewrite V6. apply G.
    - rewrite V7. apply G.
    - rewrite V13. apply G.
    - apply V14. exact (vr_first _ G).
    - rewrite V8. apply G.
    - rewrite V9. apply G.
    - rewrite V10. apply G.
    - split; [exact FS2|split; [assumption|split; assumption]]. }
  destruct RS as [RS|(RS & LT & PF)]; rewrite RS.
  - exists v3, None, it. split; [reflexivity|]. split; [exact G3|]. split; [exact IC|left]. split; [reflexivity|]. split; [reflexivity|]. cbn. rewrite V2. reflexivity.
  - unfold update_report. cbv zeta. cbn [compare_versions].
    match goal with |- context [clean_up (v_items ?y)] => change (v_items y) with (v_items vs ++ [it]); set (v4 := y) end.
    destruct (clean_up (v_items vs ++ [it])) as [l3 nv] eqn:ECL.
    assert (FC : forall P : item -> Prop, Forall P (v_items vs ++ [it]) -> Forall P l3).
    { intros P FP. assert (EL : l3 = fst (clean_up (v_items vs ++ [it]))) by (rewrite ECL; reflexivity). rewrite EL. clear - FP.
      induction FP as [|x l X FP IH]; [constructor|]. cbn [clean_up]. destruct (pending x); [constructor; assumption|]. destruct (clean_up l). exact IH. }
    unfold get_report. cbn [v_report set_v_acc set_v_items]. change (v_report v4) with (v_report u). rewrite V4, R1. cbn [negb].
    set (acc := accumulate (v_latest v4) (v_dec v4) (v_acc v4)).
    assert (B1 : a_auth acc = NotSigned).
    { unfold acc, accumulate. cbn [a_auth]. change (l_auth (v_latest v4)) with (l_auth (v_latest u)). change (v_acc v4) with (v_acc u).
      rewrite A1, LT. reflexivity. }
    assert (B2 : a_changed acc = false).
    { unfold acc, accumulate. cbn [a_changed]. change (v_acc v4) with (v_acc u). change (v_dec v4) with (v_dec u).
      rewrite A2, V2. apply DR. }
    rewrite B1. eexists _, (Some _), it. split; [reflexivity|]. split; [|split; [exact IC|right]].
    + destruct G3. constructor; try assumption. split; [apply FC, FS2|split; [|split]; apply FC; assumption].
    + split; [exact PF|]. split; [eexists; split; [reflexivity|exact LT]|]. rewrite ECL. reflexivity.
Qed.

(** The NALUs before the first GOP. *)
Lemma before_run : forall b v, vraw v -> Forall calm (v_items v) -> Forall (seen c) b -> Forall (legal c) b ->
  Forall (fun p => p_first p = false /\ p_bytes p = None) b ->
  exists v', vrun C Ov (S f) v (map sends (map Pic b)) = Def (v', map (fun _ => VRes SV_OK None) b) /\ vraw v' /\ Forall calm (v_items v').
Proof.
  induction b as [|p b IH]; intros v G Q SN LG FB; cbn [map vrun].
  - exists v. split; [reflexivity|split; assumption].
  - apply Forall_cons_iff in SN as [S1 SN]. apply Forall_cons_iff in LG as [L1 LG]. apply Forall_cons_iff in FB as [(B1 & B2) FB].
    destruct (raw_step v p G S1 L1) as (v1 & r & it & E & G1 & (_ & IO) & X). destruct X as [(-> & EI & _)|(X & _)]; [|congruence].
    destruct (IH v1 G1) as (v2 & E2 & G2 & Q2); [|assumption|assumption|assumption|].
    { rewrite EI. apply Forall_app. split; [exact Q|]. constructor; [|constructor]. destruct IO as [(X & _)|(y & X & _)]; [exact X|congruence]. }
    cbn [sends vexec]. rewrite E. cbn [obind]. rewrite E2. cbn [obind]. exists v2. split; [reflexivity|split; assumption].
Qed.

(** What may be answered to a NALU before the first SEI. *)
Definition early (p : piece) (r : vres) : Prop :=
  r = VRes SV_OK None \/ (p_first p = true /\ exists q, r = VRes SV_OK (Some q) /\ l_auth (p_latest q) = NotSigned).

Lemma raw_run : forall b v ps o1, vraw v -> its_r None ps (v_items v) o1 -> (ps = [] \/ exists x0, o1 = Some x0) -> starts (ps ++ b) ->
  Forall (seen c) b -> Forall (legal c) b ->
  exists v' rs o2, vrun C Ov (S f) v (map sends (map Pic b)) = Def (v', rs) /\ vraw v' /\ its_r None (ps ++ b) (v_items v') o2 /\ Forall2 early b rs /\
    (ps ++ b = [] \/ exists x0, o2 = Some x0).
Proof.
  induction b as [|p b IH]; intros v ps o1 G I O SA SN LG; cbn [map vrun].
  - exists v, [], o1. rewrite app_nil_r. split; [reflexivity|split; [assumption|split; [assumption|split; [constructor|exact O]]]].
  - apply Forall_cons_iff in SN as [S1 SN]. apply Forall_cons_iff in LG as [L1 LG].
    destruct (raw_step v p G S1 L1) as (v1 & r & it & E & G1 & (_ & IO) & X).
    assert (SP : starts (ps ++ [p])).
    { destruct SA as [SA|(p0 & r0 & SA & SF)]; [destruct ps; discriminate|]. right. destruct ps as [|p1 ps]; cbn [app] in *; injection SA as <- SA;
        do 2 eexists; (split; [reflexivity|exact SF]). }
    assert (I2 : its_r None (ps ++ [p]) (v_items v ++ [it]) (after p o1)).
    { apply its_snoc; [exact I|]. destruct IO as [(Q & B & F)|(y & B & W & R)]; [left; auto|right]. exists y. split; [exact B|]. split; [exact W|].
      destruct (p_first p) eqn:EF; [exact R|]. destruct O as [O|(x0 & O)]; [|exists x0; split; [exact O|exact R]].
      subst ps. destruct SA as [SA|(p0 & r0 & SA & SF)]; [discriminate|]. cbn [app] in SA. injection SA as <- _. congruence. }
    assert (O2 : ps ++ [p] = [] \/ exists x0, after p o1 = Some x0).
    { right. unfold after. destruct IO as [(Q & B & F)|(y & B & W & R)]; rewrite B.
      - destruct O as [O|O]; [|exact O]. subst ps. destruct SA as [SA|(p0 & r0 & SA & SF)]; [discriminate|]. cbn [app] in SA. injection SA as <- _. congruence.
      - destruct (p_first p) eqn:EF; [eauto|]. destruct O as [O|O]; [|exact O].
        subst ps. destruct SA as [SA|(p0 & r0 & SA & SF)]; [discriminate|]. cbn [app] in SA. injection SA as <- _. congruence. }
    assert (I3 : its_r None (ps ++ [p]) (v_items v1) (after p o1)).
    { destruct X as [(_ & -> & _)|(_ & _ & ->)]; [exact I2|]. destruct (clean_starts _ _ _ _ _ _ [] I2 SP) as [Y _]; [constructor|]. rewrite app_nil_r in Y. exact Y. }
    destruct (IH v1 (ps ++ [p]) (after p o1) G1 I3 O2) as (v2 & rs & o2 & E2 & G2 & I4 & R2 & O4); [rewrite <- app_assoc; exact SA|assumption|assumption|].
    cbn [sends vexec]. rewrite E. cbn [obind]. rewrite E2. cbn [obind]. rewrite <- app_assoc in I4, O4.
    exists v2, (VRes SV_OK r :: rs), o2. split; [reflexivity|]. split; [exact G2|]. split; [exact I4|]. split; [constructor; [|exact R2]|exact O4].
    destruct X as [(-> & _)|(PF & (q & -> & LQ) & _)]; [left; reflexivity|right]. split; [exact PF|]. exists q. split; [reflexivity|exact LQ].
Qed.

(** ** The first SEI *)

(** Hashing the NALUs that waited. *)
Lemma like_waits b it it2 : waits b it -> like it it2 -> waits b it2.
Proof. intros (W1 & W2 & W3 & n & W4 & W5) (L1 & L2 & L3 & L4 & L5). split; [congruence|]. split; [congruence|]. split; [congruence|]. exists n. split; [congruence|exact W5]. Qed.

Lemma same_hst (v : valid) r b r2 b2 : set_v_has_ref r2 (set_v_buddies b2 (set_v_has_ref r (set_v_buddies b v))) = set_v_has_ref r2 (set_v_buddies b2 v).
Proof. destruct v; reflexivity. Qed.

Lemma rehash_its : forall o ps l o1, its_r o ps l o1 -> Forall idle l -> forall v st rest, gdec (v_dec v) -> gs_after (v_gs v) = false -> refs v o ->
  exists b r l2 st2, rehash C v (l ++ rest) st =
      (do (v3, r3, st3) <- rehash C (set_v_has_ref r (set_v_buddies b v)) rest st2; Def (v3, l2 ++ r3, st3)) /\
    refs (set_v_has_ref r (set_v_buddies b v)) o1 /\ its_h o ps l2 o1.
Proof.
  assert (IDLE : forall it l v st, calm it -> idle it -> exists st2,
    rehash C v (it :: l) st = (do (v3, r3, st3) <- rehash C v l st2; Def (v3, it :: r3, st3))).
  { intros it l v st Q J. destruct (J (calm_pending _ Q)) as (n & E1 & E2). cbn [rehash]. rewrite E1. destruct (n_valid n <=? 0)%Z; [exists st; reflexivity|].
    unfold hash_item. rewrite E1, E2. cbn [negb orb obind is_ok svrc_eqb]. exists SV_OK. reflexivity. }
  induction 1 as [o|o ps it l o1 Q I IH|o p ps it l o1 B F Q I IH|o p x ps it l o1 B F W R I IH|x0 p x ps it l o1 B F W R I IH];
    intros J v st rest G GA RF.
  - exists (v_buddies v), (v_has_ref v), [], st. split; [|split; [exact RF|constructor]]. replace (set_v_has_ref (v_has_ref v) (set_v_buddies (v_buddies v) v)) with v by (destruct v; reflexivity).
    cbn [app]. destruct (rehash C v rest st) as [[[? ?] ?]|]; reflexivity.
  - apply Forall_cons_iff in J as [J0 J]. destruct (IDLE it (l ++ rest) v st Q J0) as (st1 & E).
    destruct (IH J v st1 rest G GA RF) as (b & r & l2 & st2 & E2 & R2 & I2). cbn [app]. rewrite E, E2.
    exists b, r, (it :: l2), st2. split; [|split; [exact R2|apply its_skip; assumption]].
    destruct (rehash C _ rest st2) as [[[? ?] ?]|]; reflexivity.
  - apply Forall_cons_iff in J as [J0 J]. destruct (IDLE it (l ++ rest) v st Q J0) as (st1 & E).
    destruct (IH J v st1 rest G GA RF) as (b & r & l2 & st2 & E2 & R2 & I2). cbn [app]. rewrite E, E2.
    exists b, r, (it :: l2), st2. split; [|split; [exact R2|apply its_plain; assumption]].
    destruct (rehash C _ rest st2) as [[[? ?] ?]|]; reflexivity.
  - apply Forall_cons_iff in J as [_ J]. destruct R as (R1 & R2 & n & N1 & N2 & N3 & N4 & N5). pose proof W as (_ & _ & _ & n' & M1 & M2 & M3 & M4).
    assert (n' = n) as -> by congruence.
    destruct (hash_first C HC w hs HO HWl HPl HR5 HMx v it n x o G RF R1 N1 M2 N3 N4 M4 N5 R2 M3) as (b & it2 & E & B1 & B2 & B3 & B4).
    cbn [app rehash]. rewrite N1, N2. change (1 <=? 0)%Z with false. cbn iota. rewrite E. cbn [obind is_ok svrc_eqb negb].
    destruct (IH J (set_v_has_ref true (set_v_buddies b v)) SV_OK rest G GA) as (b' & r' & l2 & st2 & E2 & R3 & I2); [split; [exact B1|exact B2]|].
    rewrite E2. rewrite same_hst in *. exists b', r', (it2 :: l2), st2. split; [|split; [exact R3|]].
    + destruct (rehash C _ rest st2) as [[[? ?] ?]|]; reflexivity.
    + eapply its_first; eauto. exact (like_waits _ _ _ W B3).
  - apply Forall_cons_iff in J as [_ J]. destruct R as (R1 & R2 & n & N1 & N2 & N3 & N4 & N5). pose proof W as (_ & _ & _ & n' & M1 & M2 & M3 & M4).
    assert (n' = n) as -> by congruence.
    destruct (hash_other C HC w hs HO HWl HPl HR5 HMx v it n x (Some x0) x0 G RF eq_refl GA R1 N1 M2 N3 N4 M4 N5 R2 M3) as (b & it2 & E & B1 & B2 & B3 & B4).
    cbn [app rehash]. rewrite N1, N2. change (1 <=? 0)%Z with false. cbn iota. rewrite E. cbn [obind is_ok svrc_eqb negb].
    destruct (IH J (set_v_has_ref (v_has_ref v) (set_v_buddies b v)) SV_OK rest G GA) as (b' & r' & l2 & st2 & E2 & R3 & I2); [split; [exact B1|exact B2]|].
    rewrite E2. rewrite same_hst in *. exists b', r', (it2 :: l2), st2. split; [|split; [exact R3|]].
    + destruct (rehash C _ rest st2) as [[[? ?] ?]|]; reflexivity.
    + eapply its_other; eauto. exact (like_waits _ _ _ W B3).
Qed.

(** The decoder after the first SEI was read for the data that is not in every SEI. *)
Lemma recurrent_first v n2 it k prev xs gh ts sig l : pre_dec (v_dec v) -> v_signing v = true -> v_items v = l ++ [it] ->
  Forall stream_item l -> Forall (fun it => item_sei it = false) l ->
  i_nalu it = Some n2 -> pending it = true -> sei_nalu n2 (wires (gop_fields_with C w k true prev xs gh ts ++ [(5, sig_value (w_max_sig w) sig)])) ->
  Forall wire_ok (gop_fields_with C w k true prev xs gh ts ++ [(5, sig_value (w_max_sig w) sig)]) -> w_using w = false ->
  exists d, recurrent_decoded C v = Def (set_v_dec d v, true) /\ gdec (set_d_algo_known true d).
Proof.
  intros (A1 & A2 & A3 & A4 & A5 & A6 & A7 & A8) ES EI FS FN EN EP (S1 & S2 & S3 & S4 & S5 & S6 & S7 & S8 & S9 & (r & S10) & S11) HWO HU.
  unfold recurrent_decoded. rewrite ES. cbn [negb]. rewrite orb_false_r. destruct A8 as [(B1 & B2)|(B1 & B2 & B3 & B4 & B5)].
  - rewrite B2.
    assert (LP : forall q d, Forall (fun it => item_sei it = false) q -> recurrent_loop C d (q ++ [it]) = recurrent_loop C d [it]).
    { intros q d F. induction F as [|x q X F IH]; [reflexivity|]. cbn [app recurrent_loop] in *. unfold item_sei in X.
      destruct (i_nalu x) as [m|]; [rewrite X; cbn [andb]|]; exact IH. }
    rewrite EI, (LP l (v_dec v) FN). cbn [recurrent_loop]. rewrite EN, S1, EP. cbn [andb].
    destruct (dec_first C w hs HO HW0 HWl HP0 HPl HPk HR5 HRb HMx (v_dec v) B1 A6 A7 B2 A2 A3 A4 A5 k prev xs gh ts sig HU) as (d & D1 & D2).
    rewrite S9, S10, (dec_optional C w hs HWl HPl HR5 HMx _ _ r (d, true)); [|intros X; apply app_eq_nil in X as [_ X]; discriminate|exact HWO|apply opt_tags_ok; assumption|exact D2].
    cbn [obind]. exists d. split; [reflexivity|]. destruct D1. constructor; try assumption. reflexivity.
  - rewrite B1. exists (v_dec v). split; [destruct v; reflexivity|]. constructor; cbn; try assumption; try congruence; try reflexivity.
Qed.

Lemma first_sei_step v k so gh ts x g a sx y : let fs := gop_fields_with C w k true so (hashed g) gh ts in
  vraw v -> length gh = hs -> fine C w fs so (hashed g) gh None (hashed g) -> 1 <= k /\ apart Ov (k mod 2 ^ 32) first_gop -> its_r None (g ++ a) (v_items v) (Some x) -> is_gop g -> starts a -> w_using w = false ->
  match ts with Some t => (-9223372036854775808 <= t < 9223372036854775808)%Z | None => True end ->
  sei_with C c w fs sx -> delivered (w_epb w) sx y -> few_escapes (w_epb w) fs (w_max_sig w) ->
  exists v' rep x0, add_nalu C Ov (S f) v y true = Def (v', VRes SV_OK (Some rep)) /\ keeps_book (hashed a) rep /\
    finds_ok (hashed g) rep /\ a_auth (p_acc rep) = AuthOk /\ hd_error (hashed g) = Some x0 /\ vgood false True v' k (Some x0) x /\ its_h (Some x0) a (v_items v') (Some x).
Proof.
  intros fs G0 HG FN HK I IG SA HU HT SW HD HF.
  destruct (sei_parse C HC HKW c w hs HO HWl HPl HR5 HMx _ _ _ SW HD HF)
    as (n & n2 & sig & sp & E1 & E2 & E3 & E4 & E5 & E6 & E7 & E8 & E9 & E10 & E11 & E12 & E13 & E14 & E15).
  unfold add_nalu. destruct y as [|d0 dr] eqn:ED; [congruence|]. rewrite <- ED in *. clear ED d0 dr.
  cbv zeta. destruct (started v G0) as (G & R1 & I1). rewrite <- I1 in I. set (vs := create_report (set_v_started true v)) in *. clearbody vs. clear G0 I1 v.
  rewrite (vr_legacy _ G). unfold add_h26x. rewrite (vr_codec _ G), E1. cbn [obind]. unfold add_body. cbv zeta.
  rewrite E2. change (1 <? 0)%Z with false. cbn iota. rewrite E3, orb_true_r, andb_true_r.
  match goal with |- context [register C ?y n] => set (v1 := y) end.
  destruct (vr_dec _ G) as (AK & DR). pose proof E9 as (S1 & S2 & S3 & S4 & S5 & S6 & S7 & S8 & S9 & S10 & S11).
  unfold register. rewrite E2. change (1 =? 0)%Z with false. cbn iota. rewrite E6. cbn [obind].
  set (it := set_i_nalu (Some n2) (item_create n)).
  assert (EHI : hash_item C v1 it = Def (v1, it, SV_OK)).
  { unfold hash_item. cbn [it i_nalu set_i_nalu]. change (v_dec v1) with (v_dec vs). rewrite AK. cbn [negb]. rewrite orb_true_r. reflexivity. }
  rewrite EHI. cbn [obind is_ok svrc_eqb negb].
  change (v_items (on_acc _ (set_v_result false vs))) with (v_items vs).
  set (v2 := set_v_items (v_items vs ++ [it]) v1).
  change (v_dec v2) with (v_dec vs) at 1. rewrite AK. change (v_signing v2) with true. cbn [negb andb].
  destruct (vr_items _ G) as (F1 & F2 & F3 & F4).
  assert (ST : i_status it = SPend) by (cbn; unfold status_of; rewrite E2, E10; reflexivity).
  destruct (recurrent_first v2 n2 it k so (hashed g) gh ts sig (v_items vs) (vr_dec _ G) eq_refl eq_refl F1 F2 eq_refl) as (d & RD & GD);
    [unfold pending; rewrite ST; reflexivity|exact E9|exact E14|exact HU|].
  rewrite RD. cbn [obind negb]. rewrite E5. cbn [obind is_ok svrc_eqb negb andb]. destruct (N.eqb_spec (N.land (n_reserved n) 48) 0) as [X|_]; [congruence|]. cbn [andb].
  unfold reregister. set (v3 := on_dec (set_d_algo_known true) (set_v_dec d v2)).
  change (v_items v3) with (v_items vs ++ [it]).
  destruct (rehash_its _ _ _ _ I F3 v3 SV_UNKNOWN_FAILURE [it] GD (vr_after _ G)) as (b & r & l2 & st2 & RH & RR & RI); [split; [exact (vr_refs _ G)|exact Logic.I]|].
  rewrite RH. cbn [rehash]. change (i_nalu it) with (Some n2). cbn iota. rewrite S4. change (1 <=? 0)%Z with false. cbn iota.
  set (v4 := set_v_has_ref r (set_v_buddies b v3)) in *.
  destruct (sei_hashed C HC w hs HO HWl HPl HR5 HMx v4 it n2 sp GD eq_refl E7 E8 eq_refl S3 S1 S6 S7 S5) as (h & EH & H1 & H2). rewrite EH. cbn [obind is_ok svrc_eqb negb orb].
  set (it2 := set_i_hash h it). set (v5 := set_v_items (l2 ++ [it2]) v4).
  assert (SI : sei_item C w hs it2 fs sig sp).
  { apply (sei_fresh C w hs _ _ _ E9); try reflexivity; try assumption. }
  change (v_legacy v5) with (v_legacy vs). rewrite (vr_legacy _ G).
  destruct (its_split _ _ _ _ _ _ _ RI) as (lg & la & o1 & EL & IL & IA).
  assert (EO : o1 = hd_error (hashed g)).
  { destruct (its_gop _ _ _ _ _ _ IL IG) as (q & it0 & t & x0 & xs & _ & _ & _ & _ & EHg & _ & E0). rewrite EHg. exact E0. }
  subst o1.
  assert (G5 : vgood (v_first v5) True v5 (k - 1) None x).
  { destruct G. constructor; try assumption; try reflexivity.
    - right. split; [exact vr_synced0|]. replace (k - 1 + 1) with k by lia. change (apart Ov (k mod 2 ^ 32) (v_gop vs)). rewrite vr_gop0. apply HK.
    - intros _. left. symmetry. exact vr_acc0. }
  destruct (core C HC Ov c w hs HO HW0 HWl HP0 HPl HPk HR5 HRb HMx f _ True v5 k true so (hashed g) gh x ts sig sp lg la it2 n2 n None g a G5 HG (or_introl FN)) as (v6 & x0 & M1 & M2 & M3 & M4 & M5);
    [lia|exact HT|exact E11|exact E12|exact E13|exact E14|cbn; rewrite EL, <- app_assoc; reflexivity|exact IG|exact IL|exact SA|exact IA|exact SI|reflexivity|exact S2|reflexivity|].
  rewrite M1. cbn [obind]. rewrite (vd_legacy _ _ _ _ _ _ _ _ _ _ _ _ M3).
  destruct (closing C HC Ov c w hs HO HWl HPl HR5 HMx _ True v6 k x0 x (hashed g) a n2 _ M3 M4 SA E9 _ _ M5) as (l3 & v7 & rep & C1 & C2 & C3 & C4 & C5 & C6 & C7 & _).
  rewrite C1. cbn [obind is_ok svrc_eqb negb].
  change (v_legacy (set_v_items l3 v6)) with (v_legacy v6). rewrite (vd_legacy _ _ _ _ _ _ _ _ _ _ _ _ M3).
  change (v_result (set_v_items l3 v6)) with (v_result v6). rewrite (vd_result _ _ _ _ _ _ _ _ _ _ _ _ M3).
  destruct (get_report (update_report (set_v_items l3 v6))) as [u rp]. injection C2 as C2a C2b. subst v7 rp.
  do 3 eexists. split; [reflexivity|]. split; [exact C4|]. split; [apply C5; auto|]. split; [apply C6; auto|]. split; [exact M2|]. split; [|exact C7].
  destruct C3. constructor; try assumption. intros _. apply vg_acc. auto.
Qed.

End Raw.

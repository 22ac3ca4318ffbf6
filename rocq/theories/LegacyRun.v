(** A whole recording of an older version: lemmas. *)
From Verif Require Import Base BaseProofs Epb EpbProofs Nalu NaluSpec NaluProofs Crypto Types Hash Tlv TlvProofs EncProofs CodecSpec CodecProofs
  SeiSpec SeiProofs Signer SignSpec GopSpec GopProofs VTypes NaluList Validator SeiHashProofs VListProofs VUnsigned E2eSpec E2eDec E2eList E2eVal E2eStep E2eRaw E2eMain MatchProofs
  LegacyTypes Legacy LegacySpec LegacyDec LegacyList LegacyVal LegacyStep LegacyGop.
Local Open Scope N_scope.

Section LRun.
Variable C : crypto.
Hypothesis HC : crypto_ok C.
Variable Ov : ovf.
Variable c : codec.
Variable w : settings.
Variable hs : nat.
Hypothesis OS : old_settings C w hs.
Hypothesis FR : w_frame w = true \/ hs = 32%nat.
Variable f : nat.

Let H := c_hash C (w_oid w).
Let Hhs : (0 < hs <= 64)%nat := o_small C HC w hs OS.
Let HL : forall x, length (H x) = hs := o_len C HC w hs OS.
Notation gdec := (gdec w hs).
Notation lst := (lst c w hs).
Notation refd := (refd C w hs).
Notation run := (wrun C Ov (S f)).

Lemma leg_add v raw q data q2 st r : l_add_nalu C (S f) q data true = Def (q2, st, r) -> data <> [] -> forall ops,
  run (mkWs v raw (Some q)) (VAdd data true :: ops) = do (w2, rs) <- run (mkWs v raw (Some q2)) ops; Def (w2, (st, r) :: rs).
Proof. intros E NE ops. cbn [wrun wexec]. unfold w_add. destruct data as [|d0 dr]; [congruence|]. cbn [w_leg]. rewrite E. reflexivity. Qed.

(** NALUs that are not hashed, once the session is handed over. *)
Lemma calm_run v raw b k : forall un q, lst b k q -> Forall (fun it => x_own it = true) (q_items q) -> Forall (seen c) un -> Forall (legal c) un ->
  Forall (fun p => p_bytes p = None /\ p_first p = false) un -> forall ops,
  exists q2 l, run (mkWs v raw (Some q)) (map sends (map Pic un) ++ ops) = (do (w2, rs) <- run (mkWs v raw (Some q2)) ops; Def (w2, map (fun _ => (SV_OK, None)) un ++ rs)) /\
    lst b k q2 /\ q_signing q2 = q_signing q /\ q_gs q2 = q_gs q /\ q_buddies q2 = q_buddies q /\ q_has_ref q2 = q_has_ref q /\ q_items q2 = q_items q ++ l /\ Forall lcalm l.
Proof.
  induction un as [|p un IH]; intros q L FO SN LG FU ops.
  - exists q, []. cbn [map app]. rewrite app_nil_r. split; [destruct (run _ ops) as [[? ?]|]; reflexivity|]. repeat (split; [assumption || reflexivity|]). constructor.
  - apply Forall_cons_iff in SN as [S1 SN]. apply Forall_cons_iff in LG as [L1 LG]. apply Forall_cons_iff in FU as [(U1 & U2) FU].
    destruct (calm_step C HC c w hs OS f b k q p true L FO S1 L1 U1) as (it & CI & E).
    cbn [map sends app]. rewrite (leg_add v raw _ _ _ _ _ E (pic_ne c p S1 L1)).
    destruct (IH (set_q_items (q_items q ++ [it]) (entered (q_signing q) false q))) with (ops := ops) as (q2 & l & E2 & G1 & G2 & G3 & G4 & G5 & G6 & G7); try assumption.
    + apply lst_items, lst_entered. exact L.
    + apply Forall_app. split; [exact FO|]. constructor; [|constructor]. destruct CI as (n & X). apply X.
    + exists q2, (it :: l). rewrite E2. split; [destruct (run _ ops) as [[? ?]|]; reflexivity|]. split; [exact G1|]. split; [exact G2|]. split; [exact G3|]. split; [exact G4|]. split; [exact G5|].
      split; [rewrite G6; cbn; rewrite <- app_assoc; reflexivity|]. constructor; assumption.
Qed.

(** The rest of a GOP. *)
Lemma rest_run v raw k : forall r xs q, lst false k q -> q_signing q = true -> gs_after (q_gs q) = false -> refd xs q -> xs <> [] -> uses hs (hashes H xs) (q_items q) ->
  Forall (seen c) r -> Forall (legal c) r -> Forall (fun p => p_first p = false) r -> forall ops,
  exists q2, run (mkWs v raw (Some q)) (map sends (map Pic r) ++ ops) = (do (w2, rs) <- run (mkWs v raw (Some q2)) ops; Def (w2, map (fun _ => (SV_OK, None)) r ++ rs)) /\
    lst false k q2 /\ q_signing q2 = true /\ gs_after (q_gs q2) = false /\ refd (xs ++ hashed r) q2 /\ uses hs (hashes H (xs ++ hashed r)) (q_items q2).
Proof.
  induction r as [|p r IH]; intros xs q L SG GA RF XS U SN LG FU ops.
  - exists q. cbn [map app hashed flat_map]. rewrite app_nil_r. split; [destruct (run _ ops) as [[? ?]|]; reflexivity|]. repeat (split; [assumption|]). exact U.
  - apply Forall_cons_iff in SN as [S1 SN]. apply Forall_cons_iff in LG as [L1 LG]. apply Forall_cons_iff in FU as [U1 FU].
    assert (X : exists q1, l_add_nalu C (S f) q (p_data p) true = Def (q1, SV_OK, None) /\ lst false k q1 /\ q_signing q1 = true /\ gs_after (q_gs q1) = false /\
      refd (xs ++ hashed [p]) q1 /\ uses hs (hashes H (xs ++ hashed [p])) (q_items q1)).
    { unfold hashed. cbn [flat_map]. destruct (p_bytes p) as [x|] eqn:EB.
      - exact (hash_step C HC c w hs OS f k q p x xs true L SG GA RF XS U S1 L1 EB U1).
      - destruct (calm_step C HC c w hs OS f false k q p true L (uses_own _ _ _ U) S1 L1 EB) as (it & CI & E). rewrite !app_nil_r.
        eexists. split; [exact E|]. split; [apply lst_items, lst_entered; exact L|]. split; [exact SG|]. split; [exact GA|]. split; [exact RF|].
        cbn [set_q_items q_items]. rewrite <- (app_nil_r (hashes H xs)). apply uses_app; [exact U|]. apply uses_calm; [exact CI|constructor]. }
    destruct X as (q1 & E & L2 & SG2 & GA2 & RF2 & U2).
    cbn [map sends app]. rewrite (leg_add v raw _ _ _ _ _ E (pic_ne c p S1 L1)).
    destruct (IH (xs ++ hashed [p]) q1 L2 SG2 GA2 RF2) with (ops := ops) as (q2 & E2 & G1 & G2 & G3 & G4 & G5); try assumption.
    { destruct xs; [congruence|discriminate]. }
    exists q2. rewrite E2. split; [destruct (run _ ops) as [[? ?]|]; reflexivity|].
    assert (EX : xs ++ hashed (p :: r) = (xs ++ hashed [p]) ++ hashed r).
    { rewrite <- app_assoc. f_equal. unfold hashed. cbn [flat_map]. rewrite app_nil_r. reflexivity. }
    rewrite EX. repeat (split; [assumption|]). exact G5.
Qed.

Lemma answers_quiet xs un l rs : Forall (fun p => p_first p = false) un -> old_answers xs l rs ->
  old_answers xs (map Pic un ++ l) (map (fun _ => (SV_OK, None)) un ++ rs).
Proof. intros F A. induction F as [|p un E _ IH]; [exact A|]. cbn [map app old_answers]. rewrite E. split; [reflexivity|exact IH]. Qed.

(** A session that was handed over and has seen nothing but such recordings. *)
Definition over (ws : wsess) : Prop := exists v raw q b k, ws = mkWs v raw (Some q) /\ lst b k q.

(** From a SEI to the next. *)
Lemma gop_run v raw b k q xs x s un p r l : lst b k q -> q_signing q = true -> refd xs q -> (exists pre, q_items q = pre ++ [s] /\ uses hs (hashes H xs) pre) -> has_sei C w hs k (xs ++ [x]) s ->
  Forall (seen c) (un ++ p :: r) -> Forall (legal c) (un ++ p :: r) ->
  Forall (fun q => p_bytes q = None /\ p_first q = false) un -> p_first p = true -> p_bytes p = Some x -> Forall (fun q => p_first q = false) r ->
  (forall q2, lst false (k + 1) q2 -> q_signing q2 = true -> gs_after (q_gs q2) = false -> refd (x :: hashed r) q2 -> uses hs (hashes H (x :: hashed r)) (q_items q2) ->
    exists w2 rs, run (mkWs v raw (Some q2)) (map sends l) = Def (w2, rs) /\ old_answers (x :: hashed r) l rs /\ over w2) ->
  (forall rs, old_answers (x :: hashed r) l rs -> old_answers (xs ++ [x]) l rs) ->
  exists w2 rs, run (mkWs v raw (Some q)) (map sends (map Pic un ++ map Pic (p :: r) ++ l)) = Def (w2, rs) /\ old_answers (xs ++ [x]) (map Pic un ++ map Pic (p :: r) ++ l) rs /\ over w2.
Proof.
  intros L SG RF (pre & EI & U) HSE SN LG FU PF PB FRr IH ANS.
  apply Forall_app in SN as [SN1 SN2]. apply Forall_cons_iff in SN2 as [SN2 SN3]. apply Forall_app in LG as [LG1 LG2]. apply Forall_cons_iff in LG2 as [LG2 LG3].
  rewrite !map_app. pose proof HSE as (_ & SO & _).
  assert (FO : Forall (fun it => x_own it = true) (q_items q)).
  { rewrite EI. apply Forall_app. split; [exact (uses_own _ _ _ U)|]. constructor; [exact SO|constructor]. }
  destruct (calm_run v raw b k un q L FO SN1 LG1 FU (map sends (map Pic (p :: r)) ++ map sends l)) as (q1 & u & E1 & L1 & SG1 & GS1 & B1 & R1 & I1 & CU). rewrite E1. clear E1.
  cbn [map app]. change (sends (Pic p)) with (VAdd (p_data p) true).
  assert (RF1 : refd xs q1) by (unfold LegacyStep.refd in *; rewrite R1, B1; exact RF).
  destruct (first_step C HC c w hs OS FR f b k q1 p x xs pre s u L1) as (q2 & rep & E2 & F2 & L2 & SG2 & GA2 & RF2 & U2); try assumption; [congruence|rewrite I1, EI, <- app_assoc; reflexivity|].
  rewrite (leg_add v raw _ _ _ _ _ E2 (pic_ne c p SN2 LG2)). clear E2.
  destruct (rest_run v raw (k + 1) r [x] q2 L2 SG2 GA2 RF2) with (ops := map sends l) as (q3 & E3 & L3 & SG3 & GA3 & RF3 & U3); try assumption; [discriminate|].
  rewrite E3. clear E3.
  destruct (IH q3 L3 SG3 GA3 RF3 U3) as (w2 & rs & E4 & A4 & O4). rewrite E4. cbn [obind].
  do 2 eexists. split; [reflexivity|]. split; [|exact O4]. apply answers_quiet; [eapply Forall_impl; [|exact FU]; intros a (_ & Y); exact Y|]. cbn [old_answers]. rewrite PF. split.
  - exists rep. split; [reflexivity|exact F2].
  - apply answers_quiet; [exact FRr|]. apply ANS, A4.
Qed.

(** The recorded hashes that [old_answers] carries along matter only up to the next SEI. *)
Lemma answers_any k xs ys l : old_stream C c w k xs l -> forall zs rs, old_answers ys l rs -> old_answers zs l rs.
Proof. intros S. destruct S; intros zs rs A; [exact A|]. destruct rs as [|r0 rs]; exact A. Qed.

Lemma stream_run k xs l : old_stream C c w k xs l -> forall v raw q, xs <> [] -> lst false k q -> q_signing q = true -> gs_after (q_gs q) = false -> refd xs q -> uses hs (hashes H xs) (q_items q) ->
  exists w2 rs, run (mkWs v raw (Some q)) (map sends l) = Def (w2, rs) /\ old_answers xs l rs /\ over w2.
Proof.
  induction 1 as [k xs|k xs y un p x r l SN LG FU PF PB FRr SF ST IH]; intros v raw q XS L SG GA RF U.
  - do 2 eexists. split; [reflexivity|]. split; [exact Logic.I|]. exists v, raw, q, false, k. split; [reflexivity|exact L].
  - destruct (sei_step C HC c w hs OS f false k q y xs x true L RF U SF) as (q1 & s & E1 & L1 & SG1 & RF1 & I1 & HSE).
    assert (NE : y <> []).
    { destruct (old_parse C HC w hs OS c k _ y SF) as (? & ? & ? & ? & ? & X). apply X. }
    change (map sends (Sei y (xs ++ [x]) [] :: map Pic un ++ map Pic (p :: r) ++ l)) with (VAdd y true :: map sends (map Pic un ++ map Pic (p :: r) ++ l)). rewrite (leg_add v raw _ _ _ _ _ E1 NE). clear E1.
    destruct (gop_run v raw false k q1 xs x s un p r l) as (w2 & rs & E2 & A2 & O2); try assumption.
    + exists (q_items q). split; assumption.
    + intros q2 L2 SG2 GA2 RF2 U2. apply (IH v raw q2); try assumption. discriminate.
    + intros rs. apply (answers_any _ _ _ _ ST).
    + rewrite E2. cbn [obind]. do 2 eexists. split; [reflexivity|]. split; [split; [reflexivity|exact A2]|exact O2].
Qed.

(** ** Handing the session over *)

Lemma create_ok v : gdec (v_dec v) -> v_codec v = c -> length (v_hash v) = 64%nat -> v_acc v = accum_init ->
  forall k, exists q, l_create C v = Def (q, SV_OK) /\ lst true k q /\ q_items q = [] /\ q_has_ref q = false.
Proof.
  intros G EC EH EA k. pose proof OS as [_ _ _ (O7 & _) _ _]. unfold l_create. rewrite (gd_has _ _ _ G), (gd_pub _ _ _ G).
  assert (K : true && match w_pub w with [] => false | _ :: _ => true end = true) by (destruct (w_pub w); [congruence|reflexivity]). rewrite K. cbv zeta.
  match goal with |- context [gop_hash_reset C ?z] => set (q0 := z) end.
  assert (G0 : gdec (q_dec q0)) by (destruct G; constructor; assumption || reflexivity).
  unfold gop_hash_reset. rewrite (o_hash C w hs _ _ G0) by discriminate. cbn [is_ok svrc_eqb].
  rewrite put_at_0 by (change (q_hashes q0) with (zeros 128); rewrite (o_len C HC w hs OS); change (length (zeros 128)) with 128%nat; lia). cbn [obind]. eexists. split; [reflexivity|].
  split; [|split; reflexivity]. constructor; try reflexivity; try assumption.
  - cbn [q_hashes set_q_hashes]. change (q_hashes q0) with (zeros 128). rewrite app_length, skipn_length, (o_len C HC w hs OS). change (length (zeros 128)) with 128%nat. lia.
  - change (a_auth (v_acc v) = NotSigned). rewrite EA. reflexivity.
  - change (a_changed (v_acc v) = false). rewrite EA. reflexivity.
  - discriminate.
Qed.

Lemma feed_ok k : forall un its rest q, length its = length un -> Forall (fun it => i_nalu it <> None) its -> lst true k q -> q_has_ref q = false -> Forall lcalm (q_items q) ->
  Forall (seen c) un -> Forall (legal c) un -> Forall (fun p => p_bytes p = None /\ p_first p = false) un ->
  exists q2, l_feed C (S f) q (combine (its ++ rest) (map p_data un)) = Def (q2, SV_OK) /\ lst true k q2 /\ q_has_ref q2 = false /\ Forall lcalm (q_items q2).
Proof.
  induction un as [|p un IH]; intros its rest q EL FN L HR CU SN LG FU.
  - exists q. cbn [map]. destruct (its ++ rest); cbn [combine l_feed]; repeat (split; [assumption || reflexivity|]); exact CU.
  - destruct its as [|it its]; [discriminate|]. apply Forall_cons_iff in FN as [N1 FN]. apply Forall_cons_iff in SN as [S1 SN]. apply Forall_cons_iff in LG as [L1 LG]. apply Forall_cons_iff in FU as [(U1 & U2) FU].
    cbn [app map combine l_feed]. destruct (i_nalu it) as [n|]; [|congruence].
    assert (FO : Forall (fun it => x_own it = true) (q_items q)) by (eapply Forall_impl; [|exact CU]; intros a (m & Y); apply Y).
    destruct (calm_step C HC c w hs OS f true k q p false L FO S1 L1 U1) as (lit & CI & E). rewrite E. cbn [obind is_ok svrc_eqb].
    apply IH; try assumption.
    + injection EL. auto.
    + apply lst_items, lst_entered. exact L.
    + cbn [set_q_items q_items]. apply Forall_app. split; [exact CU|]. constructor; [exact CI|constructor].
Qed.

Local Existing Instance zero_gop.
Notation vraw := (vraw C c w hs).

(** NALUs that are not hashed, in front of the first SEI. *)
Lemma front_run : forall un v raw, vraw v -> Forall calm (v_items v) -> length raw = length (v_items v) -> Forall (seen c) un -> Forall (legal c) un ->
  Forall (fun p => p_bytes p = None /\ p_first p = false) un -> forall ops,
  exists v2, run (mkWs v raw None) (map sends (map Pic un) ++ ops) = (do (w2, rs) <- run (mkWs v2 (raw ++ map p_data un) None) ops; Def (w2, map (fun _ => (SV_OK, None)) un ++ rs)) /\
    vraw v2 /\ Forall calm (v_items v2) /\ length (v_items v2) = (length raw + length un)%nat.
Proof.
  pose proof OS as [O1 (_ & O2 & _) _ (_ & O3 & _) (O4 & _) O5].
  induction un as [|p un IH]; intros v raw G Q LR SN LG FU ops.
  - exists v. cbn [map app]. rewrite app_nil_r, Nat.add_0_r. split; [destruct (run _ ops) as [[? ?]|]; reflexivity|]. repeat (split; [assumption|]). symmetry. exact LR.
  - apply Forall_cons_iff in SN as [S1 SN]. apply Forall_cons_iff in LG as [L1 LG]. apply Forall_cons_iff in FU as [(U1 & U2) FU].
    destruct (raw_step C HC Ov c w hs O1 O2 O3 O4 O5 f v p G S1 L1) as (v1 & r & it & E & G1 & (_ & IO) & X). destruct X as [(-> & EI & _)|(X & _)]; [|congruence].
    assert (CI : calm it) by (destruct IO as [(X & _)|(y & X & _)]; [exact X|congruence]).
    cbn [map app wrun]. change (sends (Pic p)) with (VAdd (p_data p) true). cbn [wexec].
    assert (EW : w_add C Ov (S f) (mkWs v raw None) (p_data p) true = Def (mkWs v1 (raw ++ [p_data p]) None, SV_OK, None)).
    { unfold w_add. destruct (p_data p) as [|d0 dr] eqn:ED; [destruct (pic_ne c p S1 L1 ED)|]. rewrite <- ED in *. cbn [w_leg w_v]. rewrite E. cbn [obind w_raw].
      rewrite EI. unfold lastn. rewrite !app_length, LR. cbn [length]. rewrite Nat.sub_diag. reflexivity. }
    rewrite EW. cbn [obind].
    destruct (IH v1 (raw ++ [p_data p]) G1) with (ops := ops) as (v2 & E2 & G2 & Q2 & L2); try assumption.
    { rewrite EI. apply Forall_app. split; [exact Q|]. constructor; [exact CI|constructor]. }
    { rewrite EI, !app_length, LR. reflexivity. }
    exists v2. rewrite E2, <- app_assoc. clear E2. cbn [app]. split; [destruct (run _ ops) as [[? ?]|]; reflexivity|]. split; [exact G2|]. split; [exact Q2|]. rewrite L2, app_length. cbn [length]. lia.
Qed.

(** The first SEI. *)
Lemma hand_over v k un x y : vraw v -> Forall calm (v_items v) -> length (v_items v) = length un -> Forall (seen c) un -> Forall (legal c) un ->
  Forall (fun p => p_bytes p = None /\ p_first p = false) un -> old_sei_for C c w k [x] y ->
  exists v2 q s, w_add C Ov (S f) (mkWs v (map p_data un) None) y true = Def (mkWs v2 [] (Some q), SV_OK, None) /\ lst true k q /\ q_signing q = true /\ q_has_ref q = false /\
    (exists pre, q_items q = pre ++ [s] /\ Forall lcalm pre) /\ has_sei C w hs k [x] s.
Proof.
  intros G0 Q LI SN LG FU SF.
  pose proof OS as [O1 (_ & O2 & _) (O6 & _) (_ & O3 & _) (O4 & _) O5].
  destruct (old_parse C HC w hs OS c k _ y SF) as (n & n2 & sig & ts & sp & E1 & E2 & E3 & E4 & E5 & E6 & E7 & E8 & E9 & E10 & E11 & E12 & E13 & E14 & E15 & E16).
  unfold w_add. destruct y as [|d0 dr] eqn:ED; [congruence|]. rewrite <- ED in *. cbn [w_leg w_v].
  assert (A : exists v2, add_nalu C Ov (S f) v y true = Def (v2, VLegacy) /\ gdec (v_dec v2) /\ v_codec v2 = c /\ length (v_hash v2) = 64%nat /\ v_acc v2 = accum_init /\
    exists it, v_items v2 = v_items v ++ [it] /\ i_nalu it = Some n2).
  { unfold add_nalu. rewrite ED. rewrite <- ED in *. cbv zeta. destruct (started C c w hs v G0) as (G & R1 & I1). rewrite <- I1. rewrite <- I1 in Q. set (vs := create_report (set_v_started true v)) in *. clearbody vs. clear G0 I1 LI v ED d0 dr.
    rewrite (vr_legacy _ _ _ _ _ G). unfold add_h26x. rewrite (vr_codec _ _ _ _ _ G), E1. cbn [obind]. unfold add_body. cbv zeta.
    rewrite E2. change (1 <? 0)%Z with false. cbn iota. rewrite E3, orb_true_r, andb_true_r.
    match goal with |- context [register C ?y n] => set (v1 := y) end.
    destruct (vr_dec _ _ _ _ _ G) as (AK & A2 & A3 & A4 & A5 & A6 & A7 & A8). pose proof E10 as (S1 & S2 & S3 & S4 & S5 & S6 & S7 & S8 & S9 & (r & S10) & S11).
    unfold register. rewrite E2. change (1 =? 0)%Z with false. cbn iota. rewrite E7. cbn [obind].
    set (it := set_i_nalu (Some n2) (item_create n)).
    assert (EHI : hash_item C v1 it = Def (v1, it, SV_OK)).
    { unfold hash_item. cbn [it i_nalu set_i_nalu]. change (v_dec v1) with (v_dec vs). rewrite AK. cbn [negb]. rewrite orb_true_r. reflexivity. }
    rewrite EHI. cbn [obind is_ok svrc_eqb negb].
    change (v_items (on_acc _ (set_v_result false vs))) with (v_items vs).
    set (v2 := set_v_items (v_items vs ++ [it]) v1). change (d_algo_known (v_dec v2)) with (d_algo_known (v_dec vs)). rewrite AK. change (v_signing v2) with true. cbn [negb andb].
    destruct (vr_items _ _ _ _ _ G) as (F1 & F2 & F3 & _).
    assert (RD : exists d, recurrent_decoded C v2 = Def (set_v_dec d v2, true) /\ gdec (set_d_algo_known true d)).
    { unfold recurrent_decoded. change (v_signing v2) with true. cbn [negb]. rewrite orb_false_r. destruct A8 as [(B1 & B2)|(B1 & B2 & B3 & B4 & B5)].
      - change (v_dec v2) with (v_dec vs). rewrite B2.
        assert (LP : forall q d, Forall (fun it => item_sei it = false) q -> recurrent_loop C d (q ++ [it]) = recurrent_loop C d [it]).
        { intros q d F. induction F as [|z q X F IH]; [reflexivity|]. cbn [app recurrent_loop] in *. unfold item_sei in X.
          destruct (i_nalu z) as [m|]; [rewrite X; cbn [andb]|]; exact IH. }
        change (v_items v2) with (v_items vs ++ [it]). rewrite (LP _ _ F2). cbn [recurrent_loop]. change (i_nalu it) with (Some n2). cbn iota. rewrite S1.
        assert (PI : pending it = true) by (unfold pending; cbn; unfold status_of; rewrite E2, E6; reflexivity). rewrite PI. cbn [andb].
        destruct (old_first C w hs OS (v_dec vs) k [x] ts sig A6 A7 B2 A2 A3 A4 A5) as (d & D1 & D2).
        rewrite S9, S10, (dec_optional C w hs O2 O3 O4 O5 _ _ r (d, true)); [|intros X; apply app_eq_nil in X as [_ X]; discriminate|exact E15|apply (old_opt_tags C w hs OS)|exact D2].
        cbn [obind]. exists d. split; [reflexivity|]. destruct D1. constructor; try assumption. reflexivity.
      - change (v_dec v2) with (v_dec vs). rewrite B1. exists (v_dec vs). split; [unfold v2, v1; destruct vs; reflexivity|]. constructor; cbn; try assumption; try congruence; try reflexivity. }
    destruct RD as (d & RD & GD). rewrite RD. cbn [obind negb]. rewrite E5. cbn [obind is_ok svrc_eqb negb andb]. rewrite E4. cbn [N.eqb andb obind is_ok svrc_eqb negb orb].
    set (v4 := set_v_legacy true _). change (v_legacy v4) with true. cbn iota. cbn [obind]. change (v_legacy v4) with true. cbn iota.
    exists v4. split; [reflexivity|]. split; [exact GD|]. split; [exact (vr_codec _ _ _ _ _ G)|]. split; [exact (vr_hash _ _ _ _ _ G)|]. split; [reflexivity|]. exists it. split; reflexivity. }
  destruct A as (v2 & EA & A1 & A2 & A3 & A4 & it & A5 & A6). rewrite EA. cbn [obind]. clear EA.
  destruct (create_ok v2 A1 A2 A3 A4 k) as (q & EC & L & EI & HR). rewrite EC. cbn [obind is_ok svrc_eqb negb w_raw]. clear EC.
  rewrite A5. destruct (feed_ok k un (v_items v) [it] q LI) as (q2 & EF & L2 & HR2 & CU); try assumption.
  { eapply Forall_impl; [|exact Q]. intros a Y. apply Y. }
  { rewrite EI. constructor. }
  rewrite EF. cbn [obind]. clear EF. pose proof E10 as (S1 & S2 & S3 & S4 & S5 & S6 & S7 & S8 & S9 & (r & S10) & S11).
  destruct (copy_last_ok true (v_items v) it n2 A6) as (m & EM & _); [rewrite S9, S10; unfold nlen; rewrite app_length; lia|rewrite S9; eapply N.lt_trans; [exact S11|reflexivity]|left; reflexivity|].
  rewrite EM. cbn [obind is_ok svrc_eqb negb].
  destruct (sei_step C HC c w hs OS f true k q2 y [] x true L2 HR2 (uses_calms _ _ CU) SF) as (q3 & s & E & L3 & SG3 & RF3 & I3 & HSE). rewrite E. cbn [obind].
  do 3 eexists. split; [reflexivity|]. split; [exact L3|]. split; [exact SG3|]. split; [exact RF3|]. split; [|exact HSE]. eexists. split; [exact I3|exact CU].
Qed.

(** A recording from its beginning. *)
Theorem old_run un k l : Forall (seen c) un -> Forall (legal c) un -> Forall (fun p => p_bytes p = None /\ p_first p = false) un -> old_stream C c w k [] l ->
  exists w2 rs, run (wcreate C c) (map sends (map Pic un ++ l)) = Def (w2, rs) /\ old_answers [] (map Pic un ++ l) rs /\ (l <> [] -> over w2).
Proof.
  intros SN LG FU ST. rewrite map_app. unfold wcreate.
  assert (CR : vraw (vcreate C c)) by (apply create_raw; [lia|]; pose proof OS as [_ _ (O6 & _) _ _ _]; exact O6).
  assert (QF : Forall (fun p => p_first p = false) un) by (eapply Forall_impl; [|exact FU]; intros a (_ & Y); exact Y).
  destruct (front_run un (vcreate C c) [] CR (Forall_nil _) eq_refl SN LG FU (map sends l)) as (v2 & E & G & Q & EL). rewrite E. clear E. cbn [app].
  inversion ST as [|k' xs y un2 p x r l2 SN2 LG2 FU2 PF PB FRr SF ST2 E1 E2 E3]; subst.
  - cbn [map wrun obind]. do 2 eexists. split; [reflexivity|]. split; [|congruence]. apply answers_quiet; [exact QF|exact Logic.I].
  - cbn [app] in SF. destruct (hand_over v2 k un x y G Q EL SN LG FU SF) as (v3 & q & s & E & L & SG & HR & (pre & EI & CU) & HSE).
    change (map sends (Sei y ([] ++ [x]) [] :: map Pic un2 ++ map Pic (p :: r) ++ l2)) with (VAdd y true :: map sends (map Pic un2 ++ map Pic (p :: r) ++ l2)). cbn [wrun wexec]. rewrite E. cbn [obind].
    destruct (gop_run v3 [] true k q [] x s un2 p r l2) as (w2 & rs & E4 & A4 & O4); try assumption.
    + exists pre. split; [exact EI|]. apply uses_calms. exact CU.
    + intros q2 L2 SG2 GA2 RF2 U2. apply (stream_run _ _ _ ST2); try assumption. discriminate.
    + intros rs. apply (answers_any _ _ _ _ ST2).
    + rewrite E4. cbn [obind]. do 2 eexists. split; [reflexivity|]. split; [|intros _; exact O4]. apply answers_quiet; [exact QF|]. cbn [old_answers app]. split; [reflexivity|exact A4].
Qed.

(** ** A reset *)

Lemma lst_hashes b k q y : length y = 128%nat -> lst b k q -> lst b k (set_q_hashes y q).
Proof. intros E L. destruct L. constructor; assumption. Qed.
Definition cleared (d : dec) : dec :=
  set_d_l_ts 0%Z (set_d_l_has_ts false (set_d_l_changed false (set_d_list [] (set_d_handle (init_hash false (d_handle d)) d)))).
Lemma gdec_cleared d : gdec d -> gdec (cleared d).
Proof. intros G. unfold cleared, init_hash. destruct (get_ctx false (d_handle d)); destruct G; constructor; try assumption; reflexivity. Qed.
Definition emptied (q : lsv) : lsv :=
  set_q_verified (-1)%Z (set_q_has_ref false (set_q_synced false
      (set_q_gs gstate_init (set_q_result false (set_q_first true (set_q_reset false (set_q_signing false
        (set_q_first_sei false (set_q_items [] (set_q_latest latest_init (set_q_acc accum_init
          (q_on_dec cleared q)))))))))))).
Lemma emptied_ok b k q k2 : lst b k q -> lst true k2 (emptied q) /\ q_items (emptied q) = [] /\ q_has_ref (emptied q) = false.
Proof.
  intros L. split; [|split; reflexivity]. destruct L. constructor; try assumption; try reflexivity; [|discriminate].
  change (gdec (cleared (q_dec q))). apply gdec_cleared. assumption.
Qed.

Lemma reset_ok b k q : lst b k q -> forall k2, exists q2, l_reset C q = Def (q2, SV_OK) /\ lst true k2 q2 /\ q_items q2 = [] /\ q_has_ref q2 = false.
Proof.
  intros L k2. change (l_reset C q) with (gop_hash_reset C (emptied q)). destruct (emptied_ok _ _ _ k2 L) as (L2 & EI & HR). revert L2 EI HR. generalize (emptied q). intros q0 L2 EI HR.
  pose proof (s_hashes _ _ _ _ _ _ L2) as LH.
  unfold gop_hash_reset. rewrite (o_hash C w hs _ _ (s_dec _ _ _ _ _ _ L2)) by discriminate. cbn [is_ok svrc_eqb].
  rewrite put_at_0 by (rewrite (o_len C HC w hs OS); lia). cbn [obind]. eexists. split; [reflexivity|].
  split; [|split; [exact EI|exact HR]]. apply lst_hashes; [|exact L2]. rewrite app_length, skipn_length, (o_len C HC w hs OS). lia.
Qed.

Lemma again_run ws un k l : over ws -> Forall (seen c) un -> Forall (legal c) un -> Forall (fun p => p_bytes p = None /\ p_first p = false) un -> old_stream C c w k [] l ->
  exists w2 rs, run ws (VReset :: map sends (map Pic un ++ l)) = Def (w2, (SV_OK, None) :: rs) /\ old_answers [] (map Pic un ++ l) rs /\ over w2.
Proof.
  intros (v & raw & q & b & k0 & -> & L0) SN LG FU ST. rewrite map_app. cbn [wrun wexec]. unfold w_reset. cbn [w_leg].
  destruct (reset_ok _ _ _ L0 k) as (q0 & E & L & EI & HR). rewrite E. cbn [obind is_ok svrc_eqb w_v]. clear E.
  assert (QF : Forall (fun p => p_first p = false) un) by (eapply Forall_impl; [|exact FU]; intros a (_ & Y); exact Y).
  assert (FO : Forall (fun it => x_own it = true) (q_items q0)) by (rewrite EI; constructor).
  destruct (calm_run (vreset v) [] true k un q0 L FO SN LG FU (map sends l)) as (q1 & u & E1 & L1 & SG1 & GS1 & B1 & R1 & I1 & CU). rewrite E1. clear E1.
  rewrite EI in I1. cbn [app] in I1. rewrite <- I1 in CU. clear I1.
  inversion ST as [|k' xs y un2 p x r l2 SN2 LG2 FU2 PF PB FRr SF ST2 E1 E2 E3]; subst.
  - cbn [map wrun obind]. do 2 eexists. split; [reflexivity|]. split; [apply answers_quiet; [exact QF|exact Logic.I]|]. do 5 eexists. split; [reflexivity|exact L1].
  - assert (RF1 : refd [] q1) by (cbn; congruence). assert (U1 : uses hs (hashes H []) (q_items q1)) by (apply uses_calms; exact CU).
    destruct (sei_step C HC c w hs OS f true k q1 y [] x true L1 RF1 U1 SF) as (q2 & s & E2 & L2 & SG2 & RF2 & I2 & HSE).
    assert (NE : y <> []).
    { destruct (old_parse C HC w hs OS c k _ y SF) as (? & ? & ? & ? & ? & X). apply X. }
    change (map sends (Sei y ([] ++ [x]) [] :: map Pic un2 ++ map Pic (p :: r) ++ l2)) with (VAdd y true :: map sends (map Pic un2 ++ map Pic (p :: r) ++ l2)).
    rewrite (leg_add (vreset v) [] _ _ _ _ _ E2 NE). clear E2.
    destruct (gop_run (vreset v) [] true k q2 [] x s un2 p r l2) as (w2 & rs & E4 & A4 & O4); try assumption.
    + exists (q_items q1). split; [exact I2|exact U1].
    + intros q3 L3 SG3 GA3 RF3 U3. apply (stream_run _ _ _ ST2); try assumption. discriminate.
    + intros rs. apply (answers_any _ _ _ _ ST2).
    + rewrite E4. cbn [obind]. do 2 eexists. split; [reflexivity|]. split; [|exact O4]. apply answers_quiet; [exact QF|]. cbn [old_answers app]. split; [reflexivity|exact A4].
Qed.

Lemma run_app ops1 : forall ws w1 rs1, run ws ops1 = Def (w1, rs1) -> forall ops2,
  run ws (ops1 ++ ops2) = do (w2, rs2) <- run w1 ops2; Def (w2, rs1 ++ rs2).
Proof.
  induction ops1 as [|o ops IH]; intros ws w1 rs1 E ops2; cbn [wrun app] in *.
  - injection E as <- <-. destruct (run ws ops2) as [[? ?]|]; reflexivity.
  - destruct (wexec C Ov (S f) ws o) as [[[w0 st] x]|]; [|discriminate]. cbn [obind] in *. destruct (run w0 ops) as [[w3 rs3]|] eqn:E3; [|discriminate]. cbn [obind] in E. injection E as <- <-.
    rewrite (IH _ _ _ E3). destruct (run w3 ops2) as [[? ?]|]; reflexivity.
Qed.

Theorem old_twice un1 k1 l1 un2 k2 l2 : let fine un := Forall (seen c) un /\ Forall (legal c) un /\ Forall (fun p => p_bytes p = None /\ p_first p = false) un in
  fine un1 -> fine un2 -> old_stream C c w k1 [] l1 -> l1 <> [] -> old_stream C c w k2 [] l2 ->
  exists w2 rs1 rs2, run (wcreate C c) (map sends (map Pic un1 ++ l1) ++ VReset :: map sends (map Pic un2 ++ l2)) = Def (w2, rs1 ++ (SV_OK, None) :: rs2) /\
    old_answers [] (map Pic un1 ++ l1) rs1 /\ old_answers [] (map Pic un2 ++ l2) rs2.
Proof.
  intros fine (A1 & A2 & A3) (B1 & B2 & B3) S1 NE S2. destruct (old_run un1 k1 l1 A1 A2 A3 S1) as (w1 & rs1 & E1 & R1 & O1).
  destruct (again_run w1 un2 k2 l2 (O1 NE) B1 B2 B3 S2) as (w2 & rs2 & E2 & R2 & _).
  exists w2, rs1, rs2. rewrite (run_app _ _ _ _ E1), E2. split; [reflexivity|]. split; assumption.
Qed.

End LRun.

Theorem old_run_answers C Ov c w hs f un k l : crypto_ok C -> old_settings C w hs -> w_frame w = true \/ hs = 32%nat ->
  Forall (seen c) un -> Forall (legal c) un -> Forall (fun p => p_bytes p = None /\ p_first p = false) un -> old_stream C c w k [] l ->
  exists w2 rs, wrun C Ov (S f) (wcreate C c) (map sends (map Pic un ++ l)) = Def (w2, rs) /\ old_answers [] (map Pic un ++ l) rs.
Proof.
  intros HC OS FR A1 A2 A3 ST. destruct (old_run C HC Ov c w hs OS FR f un k l A1 A2 A3 ST) as (w2 & rs & E & A & _). exists w2, rs. split; assumption.
Qed.
Theorem old_run_twice C Ov c w hs f un1 k1 l1 un2 k2 l2 : crypto_ok C -> old_settings C w hs -> w_frame w = true \/ hs = 32%nat ->
  let fine un := Forall (seen c) un /\ Forall (legal c) un /\ Forall (fun p => p_bytes p = None /\ p_first p = false) un in
  fine un1 -> fine un2 -> old_stream C c w k1 [] l1 -> l1 <> [] -> old_stream C c w k2 [] l2 ->
  exists w2 rs1 rs2, wrun C Ov (S f) (wcreate C c) (map sends (map Pic un1 ++ l1) ++ VReset :: map sends (map Pic un2 ++ l2)) =
      Def (w2, rs1 ++ (SV_OK, None) :: rs2) /\
    old_answers [] (map Pic un1 ++ l1) rs1 /\ old_answers [] (map Pic un2 ++ l2) rs2.
Proof. intros HC OS FR. exact (old_twice C HC Ov c w hs OS FR f un1 k1 l1 un2 k2 l2). Qed.

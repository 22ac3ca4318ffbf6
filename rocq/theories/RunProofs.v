(** Whole signing sessions: lemmas. *)
From Verif Require Import Base BaseProofs Epb EpbProofs Nalu Crypto Types Hash Tlv EncProofs CodecSpec
  CodecProofs SeiSpec SeiProofs Signer GenProofs SignerProofs SessProofs SignSpec StepProofs.
Local Open Scope N_scope.

Fixpoint somes {A} (l : list (option A)) : list A :=
  match l with [] => [] | Some x :: r => x :: somes r | None :: r => somes r end.
Lemma somes_app {A} (a b : list (option A)) : somes (a ++ b) = somes a ++ somes b.
Proof. induction a as [|[x|] a IH]; cbn; rewrite ?IH; reflexivity. Qed.

(** [n] values counting up from [c], wrapping at 2^32. *)
Fixpoint count_up (n : nat) (c : N) : list N :=
  match n with O => [] | S m => u32 (c + 1) :: count_up m (u32 (c + 1)) end.
Lemma count_up_seq n : forall c, count_up n c = map (fun i => u32 (c + 1 + N.of_nat i)) (seq 0 n).
Proof.
  induction n as [|n IH]; intros c; [reflexivity|]. cbn [count_up seq map]. f_equal.
  - rewrite N.add_0_r. reflexivity.
  - rewrite IH, <- seq_shift, map_map. apply map_ext. intros i. unfold u32.
    rewrite <- N.add_assoc, N.add_mod_idemp_l by discriminate. f_equal. lia.
Qed.
Lemma count_up_add n m : forall c, count_up (n + m) c =
  count_up n c ++ count_up m (if (n =? 0)%nat then c else u32 (c + N.of_nat n)).
Proof.
  induction n as [|n IH]; intros c; [reflexivity|]. cbn [Nat.add count_up app Nat.eqb]. f_equal. rewrite IH.
  f_equal. f_equal. destruct (Nat.eqb_spec n 0) as [->|Hn]; [reflexivity|].
  unfold u32. rewrite N.add_mod_idemp_l by discriminate. f_equal. lia.
Qed.

Section Run.
Variable C : crypto.
Hypothesis HC : crypto_ok C.

Definition no_prepend (o : sop) : Prop := o <> OPrepend.

(** What a session did to the SEI buffer. *)
Record track (c : codec) (s : signer) (L : list gen) (s' : signer) (rs : list sres) (L' : list gen) : Prop := mkTrack {
  tr_ret : Forall (fun x => exists q, gen_ok C c q /\ x = fin c q) (returned rs);
  tr_pending : Forall (fun r => rs_pending r <= 60) rs
}.

Definition fifo (c : codec) (s : signer) (L : list gen) (s' : signer) (rs : list sres) (L' : list gen) : Prop :=
  exists F G n, L ++ G = F ++ L' /\ returned rs = map (fin c) F /\
    Forall (fun q => if q_golden q then sei_counter (q_fs q) = None else sei_counter (q_fs q) <> None) G /\
    somes (map (fun q => sei_counter (q_fs q)) G) = count_up n (g_counter (s_gop s)) /\
    g_counter (s_gop s') = (if (n =? 0)%nat then g_counter (s_gop s) else u32 (g_counter (s_gop s) + N.of_nat n)).

Lemma fin_cons c q : exists x r, fin c q = x :: r.
Proof. unfold fin, sei. cbn [app]. eauto. Qed.

Lemma returned_nil r rs : rs_sei r = [] -> returned (r :: rs) = returned rs.
Proof. intros E. unfold returned. cbn [map filter]. rewrite E. reflexivity. Qed.
Lemma returned_fin c q r rs : rs_sei r = fin c q -> returned (r :: rs) = fin c q :: returned rs.
Proof.
  intros E. unfold returned. cbn [map filter]. rewrite E. destruct (fin_cons c q) as (x & l & ->). reflexivity.
Qed.

Lemma run_track ops : forall clean c s L, sinv C clean c s L -> Forall (op_ok C) ops -> settled clean ops ->
  holds (run C ops s) (fun '(s', rs) => exists clean' L', sinv C clean' c s' L' /\
    track c s L s' rs L' /\ (Forall no_prepend ops -> ~ sign_fails C -> fifo c s L s' rs L'))
  (fun u => u = OobWrite -> Exists (fun o => o = OEpb true) ops \/ sc_epb (s_cfg s) = true).
Proof.
  induction ops as [|o ops IH]; intros clean c s L HI HO HSE.
  - cbn. exists clean, L. split; [exact HI|]. split; [split; constructor|]. intros _ _.
    exists [], [], 0%nat. rewrite app_nil_r. repeat split. constructor.
  - apply settled_cons in HSE as [HSE1 HSE2]. apply Forall_cons_iff in HO as [HO1 HO2].
    cbn [run]. apply holds_bind.
    eapply holds_impl; [apply (exec_ok C HC clean c s o L HI HO1 HSE1)| |].
    2:{ intros u Hu E. right. apply Hu, E. }
    intros [s1 r] (L1 & I1 & E1 & P1 & EP). apply holds_bind.
    eapply holds_impl; [apply (IH _ c s1 L1 I1 HO2 HSE2)| |].
    2:{ intros u Hu E. destruct (Hu E) as [H|H]; [left; right; exact H|].
        destruct o; try (right; congruence). left. left. congruence. }
    intros [s2 rs] (clean2 & L2 & I2 & [T1 T2] & F2). cbn [holds]. exists clean2, L2. split; [exact I2|].
    assert (GL : Forall (gen_ok C c) L).
    { destruct HI as [HG _ HCD _]. rewrite <- HCD. apply HG. }
    split.
    + split; [|constructor; assumption].
      destruct E1 as [A1 A2 A3|A1 A2 A3|q A1 A2 A3 A4 A5 A6 A7|q peek A1 A2 A3 A4|q A1 A2 A3 A4].
      1-3: rewrite returned_nil by exact A3; exact T1.
      * rewrite (returned_fin c q) by exact A3. constructor; [|exact T1]. exists q. split; [|reflexivity].
        rewrite A2 in GL. apply Forall_cons_iff in GL. tauto.
      * rewrite (returned_fin c q) by exact A3. constructor; [|exact T1]. exists q. split; [|reflexivity].
        rewrite A2 in GL. apply Forall_app in GL as [_ GL]. apply Forall_cons_iff in GL. tauto.
    + intros HN HF. apply Forall_cons_iff in HN as [HN1 HN2].
      destruct (F2 HN2 HF) as (F & G & n & B1 & B2 & B3 & B4 & B5).
      destruct E1 as [A1 A2 A3|A1 A2 A3|q A1 A2 A3 A4 A5 A6 A7|q peek A1 A2 A3 A4|q A1 A2 A3 A4].
      * subst L1. exists F, G, n. rewrite returned_nil, <- A2 by exact A3. auto.
      * contradiction.
      * exists F, (q :: G). rewrite returned_nil by exact A3. subst L1. rewrite <- app_assoc in B1.
        destruct (is_golden o) eqn:EG.
        -- exists n. split; [exact B1|]. split; [exact B2|]. split.
           { constructor; [|exact B3]. rewrite A2. exact A6. }
           cbn [map somes]. rewrite A6, <- A7. auto.
        -- exists (S n). split; [exact B1|]. split; [exact B2|]. split.
           { constructor; [|exact B3]. rewrite A2. congruence. }
           cbn [map somes]. rewrite A6. cbn [somes count_up Nat.eqb]. rewrite <- A7, B4. split; [reflexivity|].
           rewrite B5, A7. destruct (Nat.eqb_spec n 0) as [->|Hn]; [reflexivity|].
           unfold u32. rewrite N.add_mod_idemp_l by discriminate. f_equal. lia.
      * exists (q :: F), G, n. rewrite (returned_fin c q) by exact A3. rewrite <- A4, B2, A2.
        cbn [app map]. rewrite B1. auto.
      * exfalso. apply HN1, A1.
Qed.

Lemma create_good c coin : sinv C true c (create c coin) [].
Proof.
  constructor; [|reflexivity|reflexivity|reflexivity].
  assert (B0 : forall n, bytes_ok (zeros n)) by (intros; apply bytes_ok_zeros).
  constructor; try (constructor; fail); try reflexivity; try (cbn; lia); [|intros []; reflexivity].
  constructor.
  - constructor; try reflexivity; try (apply B0); try exact I; cbn; try lia; try (repeat constructor). all: lia.
  - cbn. unfold handle_ok. cbn. repeat split; try discriminate; [apply (ok_sha256 C HC)|eauto].
  - reflexivity.
  - reflexivity.
  - apply B0.
Qed.

(** All SEIs of a session with a fixed emulation prevention setting have it. *)
Lemma run_epb ops b : forall clean c s L, sinv C clean c s L -> Forall (op_ok C) ops -> settled clean ops ->
  sc_epb (s_cfg s) = b -> Forall (fun q => q_epb q = b) L -> Forall (fun o => o <> OEpb (negb b)) ops ->
  holds (run C ops s) (fun '(s', rs) =>
    Forall (fun x => exists q, gen_ok C c q /\ x = fin c q /\ q_epb q = b) (returned rs)) (fun _ => True).
Proof.
  induction ops as [|o ops IH]; intros clean c s L HI HO HSE HB HLB HN.
  - constructor.
  - apply settled_cons in HSE as [HSE1 HSE2]. apply Forall_cons_iff in HO as [HO1 HO2].
    apply Forall_cons_iff in HN as [HN1 HN2]. cbn [run]. apply holds_bind.
    eapply holds_impl; [apply (exec_ok C HC clean c s o L HI HO1 HSE1)| |auto].
    intros [s1 r] (L1 & I1 & E1 & P1 & EP). apply holds_bind.
    assert (GL : Forall (gen_ok C c) L).
    { destruct HI as [HG _ HCD _]. rewrite <- HCD. apply HG. }
    assert (B1 : sc_epb (s_cfg s1) = b).
    { destruct o as [| | | | | | | | | | |b1| | |]; try congruence. rewrite EP.
      destruct b1, b; cbn in HN1; congruence. }
    assert (BL : Forall (fun q => q_epb q = b) L1).
    { destruct E1 as [A1 A2 A3|A1 A2 A3|q A1 A2 A3 A4 A5 A6 A7|q peek A1 A2 A3 A4|q A1 A2 A3 A4]; subst; try assumption.
      - apply Forall_app. split; [assumption|]. constructor; [assumption|constructor].
      - apply Forall_cons_iff in HLB. tauto.
      - apply Forall_app in HLB. tauto. }
    eapply holds_impl; [apply (IH _ c s1 L1 I1 HO2 HSE2 B1 BL HN2)| |auto].
    intros [s2 rs] T1. cbn [holds].
    destruct E1 as [A1 A2 A3|A1 A2 A3|q A1 A2 A3 A4 A5 A6 A7|q peek A1 A2 A3 A4|q A1 A2 A3 A4].
    1-3: rewrite returned_nil by exact A3; exact T1.
    + rewrite (returned_fin c q) by exact A3. constructor; [|exact T1]. exists q.
      rewrite A2 in GL, HLB. apply Forall_cons_iff in GL, HLB. tauto.
    + rewrite (returned_fin c q) by exact A3. constructor; [|exact T1]. exists q.
      rewrite A2 in GL, HLB. apply Forall_app in GL as [_ GL], HLB as [_ HLB]. apply Forall_cons_iff in GL, HLB. tauto.
Qed.

Lemma fin_signed c q : gen_ok C c q -> signed_sei C c (fin c q) (q_epb q) (q_golden q) (q_fs q) (q_max q) (q_key q) (q_oid q) (q_sig q).
Proof.
  intros [M1 M2 M3 M4 M5 M6 M7 M8 [pub M9]].
  split; [reflexivity|]. split; [exact M1|]. split; [change (2 ^ 20) with 1048576; lia|]. split; [exists pub; exact M9|].
  split; [change (2 ^ 16) with 65536; lia|]. split; [assumption|].
  split; [assumption|]. split; [assumption|]. exists (q_coin q).
  unfold signed_part. fold (q_field q). rewrite (q_size_eq q M5 M6). exact M8.
Qed.
Lemma fin_well_signed c q : gen_ok C c q -> well_signed C c (fin c q).
Proof.
  intros H. exists (q_epb q), (q_golden q), (q_fs q), (q_max q), (q_key q), (q_oid q), (q_sig q). apply fin_signed, H.
Qed.

Lemma works_no_fail : signing_works C -> ~ sign_fails C.
Proof.
  intros HW (key & pub & max & coin & oid & n & d & H1 & H2 & H3).
  destruct (HW key pub max coin oid n d H1 H2) as (b & sig & E & HL). rewrite E in H3. lia.
Qed.

(** ** Statements for whole sessions *)

Lemma session_signed c coin ops s' rs : Forall (op_ok C) ops -> settled true ops ->
  run C ops (create c coin) = Def (s', rs) -> Forall (well_signed C c) (returned rs).
Proof.
  intros HO HS E. pose proof (run_track ops true c _ [] (create_good c coin) HO HS) as H. rewrite E in H.
  destruct H as (cl & L & _ & [T _] & _). eapply Forall_impl; [|exact T]. intros x (q & G & ->).
  apply fin_well_signed, G.
Qed.

Lemma session_counters c coin ops s' rs : signing_works C -> Forall (op_ok C) ops -> settled true ops ->
  Forall (fun o => o <> OPrepend) ops -> run C ops (create c coin) = Def (s', rs) ->
  exists l n, returned rs = map (fun '(epb, golden, fs) => sei c epb golden fs) l /\
    Forall (fun '(epb, golden, fs) => sei_counter fs = None <-> golden = true) l /\
    somes (map (fun '(epb, golden, fs) => sei_counter fs) l) = map (fun i => N.of_nat i mod 2 ^ 32) (seq 1 n).
Proof.
  intros HW HO HS HN E. pose proof (run_track ops true c _ [] (create_good c coin) HO HS) as H. rewrite E in H.
  destruct H as (cl & L & HI & _ & F). destruct (F HN (works_no_fail HW)) as (F1 & G & n & B1 & B2 & B3 & B4 & B5).
  cbn [app] in B1. subst G.
  assert (FC : forall q, sei_counter (q_fs q ++ [q_field q]) = sei_counter (q_fs q)).
  { intros q. unfold sei_counter.
    assert (X : forall l : list (N * list N), find (fun f => fst f =? 1) (l ++ [q_field q]) = find (fun f => fst f =? 1) l).
    { induction l as [|f l IH]; [reflexivity|]. cbn [app find]. rewrite IH. reflexivity. }
    rewrite X. reflexivity. }
  set (d := fun q => (q_epb q, q_golden q, q_fs q ++ [q_field q])).
  exists (map d F1). rewrite map_app, somes_app in B4.
  assert (PRE : exists k, somes (map (fun q => sei_counter (q_fs q)) F1) = count_up k 0).
  { clear - B4. change (g_counter (s_gop (create c coin))) with 0 in B4. revert B4.
    generalize (somes (map (fun q => sei_counter (q_fs q)) F1)) (somes (map (fun q => sei_counter (q_fs q)) L)).
    intros a b. generalize 0 as k. revert n. induction a as [|x a IH]; intros n k HE.
    - exists 0%nat. reflexivity.
    - destruct n as [|n]; [discriminate|]. cbn [app count_up] in HE. injection HE as E1 E2. subst x.
      destruct (IH _ _ E2) as [m Hm]. exists (S m). cbn [count_up]. rewrite Hm. reflexivity. }
  destruct PRE as [k PRE]. exists k. split; [rewrite B2, map_map; reflexivity|]. split.
  - apply Forall_app in B3 as [B3 _]. apply Forall_map. eapply Forall_impl; [|exact B3].
    intros q. cbn. rewrite FC. destruct (q_golden q); intros Hq; split; intros; congruence || contradiction.
  - rewrite map_map. replace (map (fun q => let '(_, _, fs) := d q in sei_counter fs) F1)
      with (map (fun q => sei_counter (q_fs q)) F1) by (apply map_ext; intros q; cbn; rewrite FC; reflexivity).
    rewrite PRE, count_up_seq, <- seq_shift, map_map. apply map_ext. intros i. unfold u32.
    change (2 ^ 32) with 4294967296. f_equal. lia.
Qed.

(** A later call never returns less than was generated: completed SEIs come out in order. *)
Lemma session_pending c coin ops s' rs : Forall (op_ok C) ops -> settled true ops ->
  run C ops (create c coin) = Def (s', rs) -> Forall (fun r => rs_pending r <= 60) rs.
Proof.
  intros HO HS E. pose proof (run_track ops true c _ [] (create_good c coin) HO HS) as H. rewrite E in H.
  destruct H as (cl & L & _ & [_ T] & _). exact T.
Qed.

Lemma sei_no_emulation c golden fs : bytes_ok (wires fs) -> no_emulation (skipn 4 (sei c true golden fs)).
Proof.
  intros HB. unfold sei. cbn [app skipn wrapped].
  assert (FL : 3 < sei_flags true golden) by (destruct golden; cbn; lia).
  rewrite <- esc_app_stop, <- (esc_front c _ _ _ FL).
  assert (HW : bytes_ok (sei_front c (17 + nlen (wires fs)) (sei_flags true golden) ++ wires fs ++ [128])).
  { apply bytes_ok_app. split; [|apply bytes_ok_app; split; [exact HB|repeat constructor]].
    unfold sei_front. apply bytes_ok_app. split; [destruct c; repeat constructor|]. apply bytes_ok_app. split.
    - unfold ff_size. apply bytes_ok_app. split.
      + apply Forall_forall. intros x Hx. apply repeat_spec in Hx. subst x. reflexivity.
      + constructor; [|constructor]. unfold byte_ok. pose proof (N.mod_lt (17 + nlen (wires fs)) 255). lia.
    - apply bytes_ok_app. split; [repeat constructor|]. constructor; [destruct golden; reflexivity|constructor]. }
  rewrite <- (proj1 (esc_write _ lt_init 0 HW (hz_init lt_init eq_refl ltac:(discriminate)))).
  eapply ok_from_no_emulation, write_bytes_ok_from, HW.
Qed.

Lemma session_no_emulation c coin ops s' rs : Forall (op_ok C) ops -> settled true ops ->
  Forall (fun o => o <> OEpb false) ops -> run C ops (create c coin) = Def (s', rs) ->
  Forall (fun x => exists body, x = [0; 0; 0; 1] ++ body /\ no_emulation body /\ last body 0 = 128) (returned rs).
Proof.
  intros HO HS HN E.
  pose proof (run_epb ops true true c _ [] (create_good c coin) HO HS eq_refl (Forall_nil _) HN) as H. rewrite E in H.
  eapply Forall_impl; [|exact H]. intros x (q & G & -> & QE).
  exists (skipn 4 (fin c q)). split; [reflexivity|]. unfold fin. rewrite QE. split.
  - apply sei_no_emulation. destruct G as [M1 M2 M3 M4 M5 M6 M7 M8 M9]. rewrite wires_app. apply bytes_ok_app.
    split; [apply wires_ok, M1|]. destruct (sig_wire _ _ M5 M6) as [W _]. fold (q_field q) in W.
    rewrite wires_fields by (constructor; [exact W|constructor]).
    apply fields_bytes_ok; (constructor; [|constructor]); [apply wire_ok_fits, W|apply sig_value_ok, M3].
  - unfold sei. cbn [app skipn]. rewrite !app_assoc. apply last_last.
Qed.

Lemma session_plain_safe c coin ops : Forall (op_ok C) ops -> settled true (OEpb false :: ops) ->
  Forall (fun o => o <> OEpb true) ops -> run C (OEpb false :: ops) (create c coin) <> Undef OobWrite.
Proof.
  intros HO HS HN. cbn [run exec obind].
  assert (HI : sinv C true c (on_cfg (set_sc_epb false) (create c coin)) []).
  { destruct (create_good c coin). constructor; try assumption. apply epb_good; [reflexivity|assumption]. }
  pose proof (run_track ops true c _ [] HI HO (proj2 HS)) as H.
  destruct (run C ops (on_cfg (set_sc_epb false) (create c coin))) as [[s2 l]|u]; cbn [obind]; [discriminate|].
  intros E. injection E as ->. destruct (H eq_refl) as [HX|HX]; [|discriminate].
  apply Exists_exists in HX as (o & HI2 & ->). rewrite Forall_forall in HN. exact (HN _ HI2 eq_refl).
Qed.

End Run.

(** ** The size of the allocation *)

Definition zero_count (l : list N) : N := nlen (filter (N.eqb 0) l).

Lemma esc_count l : forall z, (2 <= z -> True)%nat ->
  2 * nlen (esc z l) <= 2 * nlen l + zero_count l + N.of_nat z.
Proof.
  assert (G : forall l z, 2 * nlen (esc z l) <= 2 * nlen l + zero_count l + N.of_nat z).
  { clear. induction l as [|b r IH]; intros z; [unfold nlen; cbn; lia|].
    unfold zero_count, nlen in *. cbn [esc filter].
    destruct (Nat.leb_spec 2 z), (N.leb_spec b 3); cbn [andb length];
      destruct (N.eqb_spec b 0) as [->|Hb]; cbn [N.eqb length];
      try (replace (0 =? b) with false by (symmetry; apply N.eqb_neq; congruence)); cbn [length].
    all: match goal with |- context [esc ?k _] => pose proof (IH k) end; try lia.
    all: destruct b; [congruence|]; lia. }
  intros z _. apply G.
Qed.

(** A SEI fits the memory allocated for it unless more than two thirds of its metadata is zeros. *)
Lemma alloc_fits c golden fs : 3 * zero_count (wires fs) <= 2 * nlen (wires fs) ->
  nlen (sei c true golden fs) <= sei_alloc c (17 + nlen (wires fs)).
Proof.
  intros H. pose proof (esc_count (wires fs) 0 (fun _ => I)) as E.
  unfold sei. cbn [wrapped]. rewrite !nlen_app'. unfold nlen at 2. rewrite sei_front_len. unfold sei_poff, ff_size.
  rewrite app_length, repeat_length. unfold sei_alloc. unfold nlen in *.
  destruct c; cbn [length sei_type_bytes app]; lia.
Qed.


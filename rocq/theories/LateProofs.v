(** Signing sessions with signatures that come late: lemmas. *)
From Verif Require Import Base BaseProofs Epb EpbProofs Nalu Crypto Types Hash Tlv EncProofs CodecSpec
  CodecProofs SeiSpec SeiProofs Signer GenProofs SignerProofs SessProofs SignSpec StepProofs RunProofs DrainProofs
  Late LateSpec.
Local Open Scope N_scope.

Section LateP.
Variable C : crypto.
Hypothesis HC : crypto_ok C.

(** ** Completion *)

Lemma complete_late_ok L k : forall s, sgood C s L ->
  holds (complete_late k false s) (fun '(s', st) => st = SV_OK /\ sgood C s' L /\ s_cfg s' = s_cfg s /\
    s_gop s' = s_gop s /\ (r_done (s_run s) <= r_done (s_run s'))%nat /\
    ((length L <= r_done (s_run s) + k)%nat -> r_done (s_run s') = length L) /\
    same_run (s_run s) (s_run s')) (nowrite (sc_epb (s_cfg s))).
Proof.
  induction k as [|k IH]; intros s HS; pose proof HS as [SG SA SK SD S6 SS SQ SLL SW ST].
  - cbn [complete_late holds]. split; [reflexivity|]. split; [exact HS|]. do 2 (split; [reflexivity|]).
    split; [lia|]. split; [intros; lia|]. repeat split.
  - cbn [complete_late]. unfold plugin_get.
    assert (STAY : r_done (s_run s) = length L -> holds (Def (s, SV_OK)) (fun '(s', st) => st = SV_OK /\ sgood C s' L /\ s_cfg s' = s_cfg s /\
      s_gop s' = s_gop s /\ (r_done (s_run s) <= r_done (s_run s'))%nat /\
      ((length L <= r_done (s_run s) + S k)%nat -> r_done (s_run s') = length L) /\
      same_run (s_run s) (s_run s')) (nowrite (sc_epb (s_cfg s)))).
    { intros HD. cbn [holds]. split; [reflexivity|]. split; [exact HS|]. do 2 (split; [reflexivity|]).
      split; [lia|]. split; [intros; lia|]. repeat split. }
    destruct (_ || _) eqn:EO; cbn [negb].
    { apply STAY. destruct (sc_key (s_cfg s)) as [key|]; [|subst L; cbn in *; lia].
      destruct SK as [_ SK]. rewrite SK in EO. discriminate. }
    destruct (skipn (r_done (s_run s)) L) as [|q r] eqn:ER.
    + assert (r_queue (s_run s) = []) as -> by (rewrite SQ; reflexivity).
      cbn [negb]. apply STAY.
      assert (LS : length (skipn (r_done (s_run s)) L) = 0%nat) by (rewrite ER; reflexivity).
      rewrite skipn_length in LS. lia.
    + assert (EQ : r_queue (s_run s) = q_sig q :: map q_sig r) by (rewrite SQ; reflexivity).
      rewrite EQ.
      assert (GQ : gen_ok C (sc_codec (s_cfg s)) q).
      { assert (IN : In q L).
        { rewrite <- (firstn_skipn (r_done (s_run s)) L). apply in_or_app. right. rewrite ER. left. reflexivity. }
        rewrite Forall_forall in SLL. auto. }
      apply Forall_cons_iff in SW as [[W1 W2] _].
      assert ((sc_max_sig (s_cfg s) <? length (q_sig q))%nat = false) as ->.
      { apply Nat.ltb_ge. rewrite <- W2. apply GQ. }
      cbn [negb]. apply holds_bind.
      eapply holds_impl; [apply (complete_one C s L q r HS ER)| |auto].
      intros [s2 st] (E1 & E2 & E3 & E4 & E5 & E6 & E7). subst st. cbn [is_ok svrc_eqb].
      rewrite <- E3. eapply holds_impl; [apply IH; exact E2| |auto].
      intros [s3 st3] (G1 & G2 & G3 & G4 & G5 & G6 & G7). subst st3.
      split; [reflexivity|]. split; [exact G2|]. split; [congruence|]. split; [congruence|].
      split; [lia|]. split; [intros; apply G6; lia|]. eapply same_run_trans; eassumption.
Qed.

(** ** Fetching with unfinished SEIs behind *)

Lemma cut_mid {A} n (a b : list A) q : (length a < n)%nat ->
  firstn n (a ++ q :: b) = a ++ q :: firstn (n - 1 - length a) b /\
  skipn n (a ++ q :: b) = skipn (n - 1 - length a) b /\
  firstn (n - 1) (a ++ b) = a ++ firstn (n - 1 - length a) b /\
  skipn (n - 1) (a ++ b) = skipn (n - 1 - length a) b.
Proof.
  intros H. rewrite !firstn_app, !skipn_app.
  replace (n - length a)%nat with (S (n - 1 - length a)) by lia. cbn [firstn skipn].
  assert (X : forall m, (length a <= m)%nat -> firstn m a = a /\ skipn m a = []).
  { intros m Hm. split; [apply firstn_all2|apply skipn_all2]; exact Hm. }
  destruct (X n ltac:(lia)) as [-> ->]. destruct (X (n - 1)%nat ltac:(lia)) as [-> ->]. auto.
Qed.

Lemma fetch_any s a q b : sgood C s (a ++ q :: b) -> (length a < r_done (s_run s))%nat -> forall want,
  exists s', fetch s (length a) want = Def (s', if want then fin (sc_codec (s_cfg s)) q else [],
                                            nlen (fin (sc_codec (s_cfg s)) q)) /\
    s_cfg s' = s_cfg s /\ s_gop s' = s_gop s /\ same_run (s_run s) (s_run s') /\
    sgood C s' (if want then a ++ b else a ++ q :: b) /\
    r_done (s_run s') = (if want then r_done (s_run s) - 1 else r_done (s_run s))%nat.
Proof.
  intros HS HD want. pose proof HS as [SG SA SK SD S6 SS SQ SLL SW ST].
  destruct (cut_mid (r_done (s_run s)) a b q HD) as (K1 & K2 & K3 & K4).
  assert (LA : length (map (fin_slot (sc_codec (s_cfg s))) a) = length a) by apply map_length.
  rewrite K1, K2, map_app, <- app_assoc in SS. cbn [map app] in SS.
  assert (NE : nth_error (r_slots (s_run s)) (length a) = Some (fin_slot (sc_codec (s_cfg s)) q)).
  { rewrite SS. rewrite <- LA. apply nth_error_mid. }
  unfold fetch. rewrite NE. cbn [sl_done fin_slot sl_sei].
  destruct want; cbn [negb].
  2:{ exists s. split; [reflexivity|]. split; [reflexivity|]. split; [reflexivity|].
      split; [repeat split|]. split; [exact HS|reflexivity]. }
  assert (take_mem (N.to_nat (nlen (fin (sc_codec (s_cfg s)) q))) (fin (sc_codec (s_cfg s)) q) =
    Def (fin (sc_codec (s_cfg s)) q, [])) as -> by apply take_mem_exact.
  cbn [obind]. eexists. split; [reflexivity|]. unfold on_run. cbn [s_cfg s_gop set_s_run s_run].
  split; [reflexivity|]. split; [reflexivity|]. split; [repeat split|]. split; [|reflexivity].
  rewrite K2 in SQ, SW.
  constructor; cbn [s_cfg s_gop set_s_run s_run r_done set_r_done r_slots set_r_slots r_queue]; rewrite ?K3, ?K4;
    try assumption.
  - destruct (sc_key (s_cfg s)); [exact SK|]. destruct a; discriminate.
  - clear - SD HD. rewrite app_length in *. cbn [length] in *. lia.
  - clear - S6. rewrite app_length in *. cbn [length] in *. lia.
  - rewrite SS. rewrite <- LA at 1. rewrite remove_mid, map_app, <- app_assoc. reflexivity.
  - apply Forall_app in SLL as [F1 F2]. apply Forall_cons_iff in F2 as [_ F2]. apply Forall_app. auto.
  - intros _. apply ST. destruct a; discriminate.
Qed.

(** ** One call *)

Definition clean_late (clean : bool) (o : sop) : bool :=
  match o with OAdd _ _ _ | OGolden | OEos => false | _ => clean end.

Definition step_late (clean : bool) (c : codec) (s : signer) (o : sop) (L : list gen) (s' : signer) (r : sres) : Prop :=
  exists L', sinv C (clean_late clean o) c s' L' /\ seff C c s o r L s' L' /\ rs_pending r <= 60 /\
    (match o with OEpb b => sc_epb (s_cfg s') = b | _ => sc_epb (s_cfg s') = sc_epb (s_cfg s) end).

Lemma sinv_weak clean c s L : sinv C clean c s L -> sinv C false c s L.
Proof. intros []. constructor; try assumption. discriminate. Qed.

Theorem exec_late_ok clean c s o p q L : sinv C clean c s L -> op_ok C o -> clean_ok clean o ->
  no_prepend o -> po_fails p = false ->
  holds (exec_late C o p q s) (fun '(s', r) => step_late clean c s o L s' r) (nowrite (sc_epb (s_cfg s))).
Proof.
  intros HI HO HCO HNP HP0. pose proof HI as [HS HG HCD HCL].
  assert (SAME : clean_after clean o = clean_late clean o -> exec_late C o p q s = exec C o s ->
    holds (exec_late C o p q s) (fun '(s', r) => step_late clean c s o L s' r) (nowrite (sc_epb (s_cfg s)))).
  { intros EC ->. eapply holds_impl; [apply (exec_ok C HC clean c s o L HI HO HCO)| |auto].
    intros [s' r]. unfold step_ok, step_late. rewrite EC. auto. }
  destruct o; try (apply SAME; reflexivity); clear SAME.
  - (* OGet *)
    cbn [exec_late]. unfold get_sei_late, complete_poll. cbv zeta. rewrite HP0. set (pending := nlen (r_slots (s_run s))).
    assert (HP : pending <= 60) by (apply (pending_bound C s L HS)).
    clearbody pending. apply holds_bind.
    eapply holds_impl; [apply (complete_late_ok L (po_ready p) s HS)| |auto].
    intros [s1 st] (-> & C1 & C2 & C3 & C4 & _ & C5). cbn [is_ok svrc_eqb negb].
    assert (I1 : sinv C clean c s1 L).
    { constructor; [exact C1|rewrite <- HG; apply C5|rewrite C2; exact HCD|].
      intros E. specialize (HCL E). pose proof (sg_done _ _ _ C1). lia. }
    destruct (Nat.ltb_spec (r_done (s_run s1)) 1) as [HZ|HZ].
    { cbn [holds]. exists L. split; [exact I1|]. split; [apply SKeep; rewrite ?C3; reflexivity|].
      split; [exact HP|rewrite C2; reflexivity]. }
    apply holds_bind.
    assert (HSHOW : holds (match peek with
       | [] => Def true
       | _ => do n <- parse_nalu peek (sc_codec (s_cfg s1)) false false;
              Def ((ntype_eqb (n_type n) TI || ntype_eqb (n_type n) TP) && n_primary n)
       end) (fun _ => True) noW).
    { destruct peek; [exact I|]. apply holds_bind. eapply holds_impl; [apply parse_noW| |auto]. intros; exact I. }
    eapply holds_impl; [exact HSHOW| |apply noW_nowrite]. intros show _.
    destruct show; cbn [negb].
    2:{ cbn [holds]. exists L. split; [|split; [|split; [exact HP|cbn; rewrite C2; reflexivity]]].
        - destruct I1. constructor; try assumption. apply (sgood_frame C s1); try reflexivity; try assumption. apply C1.
        - apply SKeep; try reflexivity. cbn. rewrite C3. reflexivity. }
    pose proof (sg_done _ _ _ C1) as HD1.
    destruct L as [|g L']; [cbn in HD1; lia|].
    destruct (fetch_any s1 [] g L' C1 HZ want) as (s2 & F1 & F2 & F3 & F4 & F6 & F7).
    cbn [length app] in F1, F6, F7. rewrite F1. cbn [obind holds].
    assert (FG : r_golden (s_run s2) = false).
    { destruct F4 as (_ & _ & _ & -> & _). apply I1. }
    assert (FC : sc_codec (s_cfg s2) = c) by congruence.
    assert (CL1 : clean = true -> r_done (s_run s1) = length (g :: L')) by apply I1.
    destruct want.
    + exists L'. split; [constructor; auto; intros E; rewrite F7, (CL1 E); cbn [length]; lia|]. split; [|split].
      * apply (SGet _ _ _ _ _ _ _ _ g peek); try reflexivity; cbn [rs_sei]; rewrite ?F3, ?C3, ?C2, ?HCD; reflexivity.
      * apply (pending_bound C s2 L' F6).
      * rewrite F2, C2. reflexivity.
    + exists (g :: L'). split; [constructor; auto; intros E; rewrite F7; auto|]. split; [|split].
      * apply SKeep; cbn [rs_sei]; rewrite ?F3, ?C3; reflexivity.
      * exact HP.
      * rewrite F2, C2. reflexivity.
  - (* OPrepend *) contradiction HNP; reflexivity.
  - (* OEos *)
    cbn [exec_late]. apply holds_bind. unfold end_of_stream_late, complete_poll. rewrite HP0.
    destruct (prepare s) as [s1 st] eqn:EP.
    destruct (prepare_ok C s L s1 st HS EP) as (P1 & P2 & P3 & P4 & P5).
    assert (I1 : sinv C clean c s1 L).
    { constructor; [exact P1|rewrite (proj2 P2); exact HG|rewrite (proj1 P2); exact HCD|rewrite P4; exact HCL]. }
    assert (KP : forall st, step_late clean c s OEos L s1 (code st)).
    { intros st'. exists L. split; [exact (sinv_weak _ _ _ _ I1)|]. split; [apply SKeep; rewrite ?P3; reflexivity|].
      split; [cbn; lia|]. rewrite (proj1 P2). reflexivity. }
    destruct (is_ok st) eqn:ES; cbn [negb]; [|cbn [holds]; apply KP].
    apply is_ok_eq in ES. subst st. destruct (P5 eq_refl) as [key HK].
    rewrite <- (proj1 P2) in HK.
    assert (HE1 : sc_epb (s_cfg s) = sc_epb (s_cfg s1)) by (rewrite (proj1 P2); reflexivity).
    apply holds_bind. rewrite HE1.
    eapply holds_impl; [apply (generate_step C HC s1 L key P1 HK)| |auto].
    intros [[s2 st] x] (L' & G1 & G2 & G3 & G4 & G5 & G6 & G7 & G8).
    assert (GE : geff C s L s2 L').
    { apply (geff_pre C s L s1); [exact P2|rewrite P3; reflexivity|rewrite P3; reflexivity|exact G3]. }
    destruct (is_ok st) eqn:EST; cbn [negb].
    + rewrite <- (proj1 G6). eapply holds_impl; [apply (complete_late_ok L' (po_ready p) _ G1)| |auto].
      intros [s3 st3] (-> & K1 & K2 & K3 & K4 & _ & K5). cbn [holds fst snd]. exists L'. split; [|split; [|split]].
      * constructor; [exact K1| |rewrite K2, (proj1 G6); apply I1|discriminate].
        destruct K5 as (_ & _ & _ & -> & _). rewrite (proj2 G6). apply I1.
      * apply geff_seff; [|cbn; congruence|reflexivity]. eapply geff_post; [|exact GE]. rewrite K3, G7. reflexivity.
      * cbn. lia.
      * rewrite K2, (proj1 G6), (proj1 P2). reflexivity.
    + cbn [holds fst snd]. exists L'. split; [|split; [|split]].
      * constructor; [exact G1|rewrite (proj2 G2); apply I1|rewrite (proj1 G2); apply I1|discriminate].
      * apply geff_seff; [exact GE|cbn; congruence|reflexivity].
      * cbn. lia.
      * rewrite (proj1 G2), (proj1 P2). reflexivity.
Qed.

(** ** Whole sessions *)

Fixpoint settled_late (clean : bool) (ops : list sop) : Prop :=
  match ops with [] => True | o :: r => clean_ok clean o /\ settled_late (clean_late clean o) r end.

Lemma set_never ops : Forall (fun o => match o with OKey _ | OEpb _ => False | _ => True end) ops ->
  forall clean, settled_late clean ops.
Proof.
  induction 1 as [|o ops H _ IH]; intros clean; [exact I|]. cbn [settled_late]. split; [|apply IH].
  destruct o; try exact I; contradiction.
Qed.
Lemma set_first_settled ops : set_first ops -> settled_late true ops.
Proof.
  induction ops as [|o ops IH]; [auto|]. cbn [set_first settled_late].
  destruct o; cbn [clean_ok clean_late]; intros H; (split; [try exact I; try reflexivity|]); try (apply IH, H);
    apply set_never, H.
Qed.

Lemma run_late_track ops : forall clean c s L, sinv C clean c s L -> Forall (op_ok C) (ops_of ops) ->
  settled_late clean (ops_of ops) -> Forall no_prepend (ops_of ops) -> Forall no_failure ops ->
  holds (run_late C ops s) (fun '(s', rs) => exists clean' L', sinv C clean' c s' L' /\
    track C c s L s' rs L' /\ (~ sign_fails C -> fifo c s L s' rs L'))
  (fun u => u = OobWrite -> Exists (fun o => o = OEpb true) (ops_of ops) \/ sc_epb (s_cfg s) = true).
Proof.
  induction ops as [|[o [p q]] ops IH]; intros clean c s L HI HO HSE HNP HNF.
  - cbn. exists clean, L. split; [exact HI|]. split; [split; constructor|]. intros _.
    exists [], [], 0%nat. rewrite app_nil_r. repeat split. constructor.
  - cbn [ops_of map fst] in *. fold (ops_of ops) in *.
    destruct HSE as [HSE1 HSE2]. apply Forall_cons_iff in HO as [HO1 HO2].
    apply Forall_cons_iff in HNP as [HN1 HN2]. apply Forall_cons_iff in HNF as [[HF1 _] HF2]. cbn [fst snd] in HF1.
    cbn [run_late]. apply holds_bind.
    eapply holds_impl; [apply (exec_late_ok clean c s o p q L HI HO1 HSE1 HN1 HF1)| |].
    2:{ intros u Hu E. right. apply Hu, E. }
    intros [s1 r] (L1 & I1 & E1 & P1 & EP). apply holds_bind.
    eapply holds_impl; [apply (IH _ c s1 L1 I1 HO2 HSE2 HN2 HF2)| |].
    2:{ intros u Hu E. destruct (Hu E) as [H|H]; [left; right; exact H|].
        destruct o; try (right; congruence). left. left. congruence. }
    intros [s2 rs] (clean2 & L2 & I2 & [T1 T2] & F2). cbn [holds]. exists clean2, L2. split; [exact I2|].
    assert (GL : Forall (gen_ok C c) L).
    { destruct HI as [HG _ HCD _]. rewrite <- HCD. apply HG. }
    split.
    + split; [|constructor; assumption].
      destruct E1 as [A1 A2 A3|A1 A2 A3|g A1 A2 A3 A4 A5 A6 A7|g peek A1 A2 A3 A4|g A1 A2 A3 A4].
      1-3: rewrite returned_nil by exact A3; exact T1.
      * rewrite (returned_fin c g) by exact A3. constructor; [|exact T1]. exists g. split; [|reflexivity].
        rewrite A2 in GL. apply Forall_cons_iff in GL. tauto.
      * exfalso. apply HN1, A1.
    + intros HF. destruct (F2 HF) as (F & G & n & B1 & B2 & B3 & B4 & B5).
      destruct E1 as [A1 A2 A3|A1 A2 A3|g A1 A2 A3 A4 A5 A6 A7|g peek A1 A2 A3 A4|g A1 A2 A3 A4].
      * subst L1. exists F, G, n. rewrite returned_nil, <- A2 by exact A3. auto.
      * contradiction.
      * exists F, (g :: G). rewrite returned_nil by exact A3. subst L1. rewrite <- app_assoc in B1.
        destruct (is_golden o) eqn:EG.
        -- exists n. split; [exact B1|]. split; [exact B2|]. split.
           { constructor; [|exact B3]. rewrite A2. exact A6. }
           cbn [map somes]. rewrite A6, <- A7. auto.
        -- exists (S n). split; [exact B1|]. split; [exact B2|]. split.
           { constructor; [|exact B3]. rewrite A2. congruence. }
           cbn [map somes]. rewrite A6. cbn [somes count_up Nat.eqb]. rewrite <- A7, B4. split; [reflexivity|].
           rewrite B5, A7. destruct (Nat.eqb_spec n 0) as [->|Hn]; [reflexivity|].
           unfold u32. rewrite N.add_mod_idemp_l by discriminate. f_equal. lia.
      * exists (g :: F), G, n. rewrite (returned_fin c g) by exact A3. rewrite <- A4, B2, A2.
        cbn [app map]. rewrite B1. auto.
      * exfalso. apply HN1, A1.
Qed.

Lemma run_late_app a : forall b s, run_late C (a ++ b) s =
  do (s1, x) <- run_late C a s; do (s2, y) <- run_late C b s1; Def (s2, x ++ y).
Proof.
  induction a as [|[o [p q]] a IH]; intros b s.
  - cbn [app run_late obind]. destruct (run_late C b s) as [[s2 y]|u]; reflexivity.
  - cbn [app run_late]. destruct (exec_late C o p q s) as [[s1 x]|u]; [|reflexivity]. cbn [obind]. rewrite IH.
    destruct (run_late C a s1) as [[s2 y]|u]; [|reflexivity]. cbn [obind].
    destruct (run_late C b s2) as [[s3 z]|u]; reflexivity.
Qed.

(** What pulling gives. *)
Lemma get_late_exact clean c s L p want peek : sinv C clean c s L -> po_fails p = false ->
  holds (get_sei_late p s want peek) (fun '(s', r) => rs_code r = SV_OK /\
    (rs_size r = 0 /\ rs_sei r = [] /\ sinv C clean c s' L \/
     exists g L', L = g :: L' /\ rs_size r = nlen (fin c g) /\ rs_sei r = (if want then fin c g else []) /\
       sinv C clean c s' (if want then L' else L)) /\
    (peek = [] -> (length L <= po_ready p)%nat -> L <> [] -> rs_size r <> 0) /\
    (want = true -> rs_size r <> 0 -> rs_pending r = nlen (tl L)) /\ (rs_size r = 0 -> rs_pending r = nlen L) /\
    g_counter (s_gop s') = g_counter (s_gop s)) (fun _ => True).
Proof.
  intros HI HP0. pose proof HI as [HS HG HCD HCL]. unfold get_sei_late, complete_poll. cbv zeta. rewrite HP0.
  assert (SL : nlen (r_slots (s_run s)) = nlen L) by (unfold nlen; rewrite (slots_len C s L HS); reflexivity).
  rewrite SL. apply holds_bind.
  eapply holds_impl; [apply (complete_late_ok L (po_ready p) s HS)| |auto].
  intros [s1 st] (-> & C1 & C2 & C3 & C4 & CF & C5). cbn [is_ok svrc_eqb negb].
  assert (I1 : sinv C clean c s1 L).
  { constructor; [exact C1|rewrite <- HG; apply C5|rewrite C2; exact HCD|].
    intros E. specialize (HCL E). pose proof (sg_done _ _ _ C1). lia. }
  assert (NZ : forall g, nlen (fin c g) <> 0).
  { intros g. destruct (fin_cons c g) as (x & l & ->). unfold nlen. cbn [length]. lia. }
  destruct (Nat.ltb_spec (r_done (s_run s1)) 1) as [HZ|HZ].
  { cbn [holds rs_code rs_size rs_sei rs_pending]. split; [reflexivity|]. split; [left; auto|].
    split; [|split; [congruence|split; [reflexivity|congruence]]].
    intros _ HL HN. exfalso. rewrite CF in HZ by lia. destruct L; [congruence|cbn in HZ; lia]. }
  apply holds_bind.
  assert (HSHOW : holds (match peek with
     | [] => Def true
     | _ => do n <- parse_nalu peek (sc_codec (s_cfg s1)) false false;
            Def ((ntype_eqb (n_type n) TI || ntype_eqb (n_type n) TP) && n_primary n)
     end) (fun show => peek = [] -> show = true) (fun _ => True)).
  { destruct peek; [cbn; auto|]. apply holds_bind. eapply holds_impl; [apply parse_noW| |auto]. intros; discriminate. }
  eapply holds_impl; [exact HSHOW| |auto]. intros show Hshow.
  destruct show; cbn [negb].
  2:{ cbn [holds rs_code rs_size rs_sei rs_pending]. split; [reflexivity|]. split.
      - left. split; [reflexivity|]. split; [reflexivity|].
        destruct I1. constructor; try assumption. apply (sgood_frame C s1); try reflexivity; try assumption. apply C1.
      - split; [intros E; specialize (Hshow E); discriminate|]. split; [congruence|]. split; [reflexivity|].
        cbn. congruence. }
  pose proof (sg_done _ _ _ C1) as HD1.
  destruct L as [|g L']; [cbn in HD1; lia|].
  destruct (fetch_any s1 [] g L' C1 HZ want) as (s2 & F1 & F2 & F3 & F4 & F6 & F7).
  cbn [length app] in F1, F6, F7. rewrite F1. cbn [obind holds rs_code rs_size rs_sei rs_pending].
  assert (FG : r_golden (s_run s2) = false).
  { destruct F4 as (_ & _ & _ & -> & _). apply I1. }
  assert (FC : sc_codec (s_cfg s2) = c) by congruence.
  assert (CL1 : clean = true -> r_done (s_run s1) = length (g :: L')) by apply I1.
  assert (F8 : fin (sc_codec (s_cfg s1)) g = fin c g) by (rewrite C2, HCD; reflexivity). rewrite F8.
  split; [reflexivity|]. split; [|split; [|split; [|split]]].
  - right. exists g, L'. split; [reflexivity|]. split; [reflexivity|]. split; [reflexivity|].
    destruct want; constructor; auto; intros E; rewrite F7, (CL1 E); cbn [length]; lia.
  - intros _ _ _. apply NZ.
  - intros -> _. cbn [tl]. unfold nlen. rewrite (slots_len C s2 L' F6). reflexivity.
  - intros E. exfalso. exact (NZ g E).
  - congruence.
Qed.

Lemma drain_late n : forall clean c s L, sinv C clean c s L -> (length L <= n)%nat ->
  holds (run_late C (repeat pull_all n) s) (fun '(s', rs) => returned rs = map (fin c) L /\
    g_counter (s_gop s') = g_counter (s_gop s) /\
    map rs_pending rs = map (fun i => nlen L - 1 - N.of_nat i) (seq 0 n)) (fun _ => True).
Proof.
  induction n as [|n IH]; intros clean c s L HI HL.
  - destruct L; [|cbn in HL; lia]. cbn. auto.
  - cbn [repeat run_late pull_all exec_late]. apply holds_bind.
    pose proof (sg_60 _ _ _ (si_good _ _ _ _ _ HI)) as L60.
    eapply holds_impl; [apply (get_late_exact _ c s L (mkPoll 60 false) true [] HI eq_refl)| |auto].
    intros [s1 r] (E0 & EX & NE & PW & PZ & G1). cbn [po_ready] in NE. apply holds_bind.
    assert (X : sinv C clean c s1 (tl L) /\ rs_sei r = (match L with [] => [] | q :: _ => fin c q end) /\
      rs_pending r = nlen (tl L)).
    { destruct L as [|g0 L0].
      - destruct EX as [(A1 & A2 & A3)|(g & L' & A1 & _)]; [|discriminate].
        split; [exact A3|]. split; [exact A2|]. apply (PZ A1).
      - assert (NZ : rs_size r <> 0) by (apply NE; [reflexivity|exact L60|discriminate]).
        destruct EX as [(A1 & _)|(g & L' & A1 & A2 & A3 & A4)]; [contradiction|].
        injection A1 as <- <-. split; [exact A4|]. split; [exact A3|]. apply PW; auto. }
    destruct X as (I1 & S1 & P1).
    eapply holds_impl; [apply (IH clean c s1 (tl L) I1)| |auto].
    { destruct L; cbn [length tl] in *; lia. }
    intros [s2 rs] (R2 & G2 & P2). cbn [holds]. split; [|split; [congruence|]].
    + destruct L as [|q L'].
      * rewrite returned_nil by exact S1. exact R2.
      * rewrite (returned_fin c q) by exact S1. rewrite R2. reflexivity.
    + cbn [map seq]. rewrite P1, P2. f_equal.
      * rewrite N.sub_0_r. destruct L; unfold nlen; cbn [length tl]; lia.
      * rewrite <- seq_shift, map_map. apply map_ext. intros i.
        destruct L; unfold nlen; cbn [length tl]; lia.
Qed.

(** ** Statements for whole sessions *)

Lemma late_signed c coin ops s' rs : Forall (op_ok C) (ops_of ops) -> set_first (ops_of ops) ->
  Forall no_prepend (ops_of ops) -> Forall no_failure ops ->
  run_late C ops (create c coin) = Def (s', rs) -> Forall (well_signed C c) (returned rs).
Proof.
  intros HO HS HN HF E.
  pose proof (run_late_track ops true c _ [] (create_good C HC c coin) HO (set_first_settled _ HS) HN HF) as H. rewrite E in H.
  destruct H as (cl & L & _ & [T _] & _). eapply Forall_impl; [|exact T]. intros x (q & G & ->).
  apply fin_well_signed, G.
Qed.

Lemma late_pending c coin ops s' rs : Forall (op_ok C) (ops_of ops) -> set_first (ops_of ops) ->
  Forall no_prepend (ops_of ops) -> Forall no_failure ops ->
  run_late C ops (create c coin) = Def (s', rs) -> Forall (fun r => rs_pending r <= 60) rs.
Proof.
  intros HO HS HN HF E.
  pose proof (run_late_track ops true c _ [] (create_good C HC c coin) HO (set_first_settled _ HS) HN HF) as H. rewrite E in H.
  destruct H as (cl & L & _ & [_ T] & _). exact T.
Qed.

Lemma late_drained c coin ops s' rs : signing_works C -> Forall (op_ok C) (ops_of ops) -> set_first (ops_of ops) ->
  Forall no_prepend (ops_of ops) -> Forall no_failure ops ->
  run_late C (ops ++ repeat pull_all 60) (create c coin) = Def (s', rs) ->
  exists l n, returned rs = map (fun '(epb, golden, fs) => sei c epb golden fs) l /\
    Forall (fun '(epb, golden, fs) => sei_counter fs = None <-> golden = true) l /\
    somes (map (fun '(epb, golden, fs) => sei_counter fs) l) = map (fun i => N.of_nat i mod 2 ^ 32) (seq 1 n) /\
    g_counter (s_gop s') = N.of_nat n mod 2 ^ 32 /\ rs_pending (last rs (code SV_OK)) = 0.
Proof.
  intros HW HO HS HN HF E. rewrite run_late_app in E.
  pose proof (run_late_track ops true c _ [] (create_good C HC c coin) HO (set_first_settled _ HS) HN HF) as H.
  destruct (run_late C ops (create c coin)) as [[s1 x]|u]; [|discriminate]. cbn [obind] in E.
  destruct H as (cl & L & HI & _ & F). destruct (F (works_no_fail C HW)) as (F1 & G & n & B1 & B2 & B3 & B4 & B5).
  cbn [app] in B1. subst G.
  pose proof (drain_late 60 cl c s1 L HI (sg_60 _ _ _ (si_good _ _ _ _ _ HI))) as D.
  destruct (run_late C (repeat pull_all 60) s1) as [[s2 y]|u]; [|discriminate].
  cbn [obind] in E. injection E as <- <-. destruct D as (D1 & D2 & D3).
  assert (FC : forall q, sei_counter (q_fs q ++ [q_field q]) = sei_counter (q_fs q)).
  { intros q. unfold sei_counter.
    assert (X : forall l : list (N * list N), find (fun f => fst f =? 1) (l ++ [q_field q]) = find (fun f => fst f =? 1) l).
    { induction l as [|f l IH]; [reflexivity|]. cbn [app find]. rewrite IH. reflexivity. }
    rewrite X. reflexivity. }
  set (d := fun q => (q_epb q, q_golden q, q_fs q ++ [q_field q])).
  exists (map d (F1 ++ L)), n. split; [|split; [|split; [|split]]].
  - unfold returned. rewrite map_app, filter_app. fold (returned x) (returned y).
    rewrite B2, D1, <- map_app, map_map. reflexivity.
  - apply Forall_map. eapply Forall_impl; [|exact B3].
    intros q. cbn. rewrite FC. destruct (q_golden q); intros Hq; split; intros; congruence || contradiction.
  - rewrite map_map. replace (map (fun q => let '(_, _, fs) := d q in sei_counter fs) (F1 ++ L))
      with (map (fun q => sei_counter (q_fs q)) (F1 ++ L)) by (apply map_ext; intros q; cbn; rewrite FC; reflexivity).
    rewrite B4. change (g_counter (s_gop (create c coin))) with 0.
    rewrite count_up_seq, <- seq_shift, map_map. apply map_ext. intros i. unfold u32.
    change (2 ^ 32) with 4294967296. f_equal. lia.
  - rewrite D2, B5. change (g_counter (s_gop (create c coin))) with 0.
    destruct (Nat.eqb_spec n 0) as [->|]; reflexivity.
  - assert (LY : length y = 60%nat).
    { rewrite <- (map_length rs_pending), D3, map_length, seq_length. reflexivity. }
    destruct y as [|y0 y'] using rev_ind; [discriminate|]. clear IHy'.
    rewrite app_assoc, last_last. rewrite map_app in D3. cbn [map] in D3.
    rewrite app_length in LY. cbn [length] in LY. assert (length y' = 59%nat) as L59 by lia.
    change (seq 0 60) with (seq 0 (59 + 1)) in D3. rewrite seq_app, map_app in D3.
    apply app_inj_tail in D3 as [_ D3]. cbn [seq map Nat.add] in D3. rewrite D3.
    pose proof (sg_60 _ _ _ (si_good _ _ _ _ _ HI)) as L60. unfold nlen. lia.
Qed.

Lemma late_plain_safe c coin p q ops : Forall (op_ok C) (ops_of ops) -> set_first (ops_of ops) ->
  Forall no_prepend (ops_of ops) -> Forall no_failure ops -> Forall (fun o => o <> OEpb true) (ops_of ops) ->
  run_late C ((OEpb false, (p, q)) :: ops) (create c coin) <> Undef OobWrite.
Proof.
  intros HO HS HN HF HE. cbn [run_late exec_late exec obind].
  assert (HI : sinv C true c (on_cfg (set_sc_epb false) (create c coin)) []).
  { destruct (create_good C HC c coin). constructor; try assumption. apply epb_good; [reflexivity|assumption]. }
  pose proof (run_late_track ops true c _ [] HI HO (set_first_settled _ HS) HN HF) as H.
  destruct (run_late C ops (on_cfg (set_sc_epb false) (create c coin))) as [[s2 l]|u]; cbn [obind]; [discriminate|].
  intros E. injection E as ->. destruct (H eq_refl) as [HX|HX]; [|discriminate].
  apply Exists_exists in HX as (o & HI2 & ->). rewrite Forall_forall in HE. exact (HE _ HI2 eq_refl).
Qed.

(** ** Asking for the size first *)

Lemma seff_head c s o r L s' L' g R : seff C c s o r L s' L' -> L = g :: R -> rs_sei r = [] ->
  exists R', L' = g :: R'.
Proof.
  intros E HL HR.
  destruct E as [A1 A2 A3|A1 A2 A3|x A1 A2 A3 A4 A5 A6 A7|x peek A1 A2 A3 A4|x A1 A2 A3 A4]; subst L.
  - subst L'. eauto.
  - subst L'. eauto.
  - subst L'. cbn [app]. eauto.
  - destruct (fin_cons c x) as (y & l & E). congruence.
  - destruct (fin_cons c x) as (y & l & E). congruence.
Qed.

Lemma run_late_head ops : forall clean c s L s' rs g R, sinv C clean c s L -> Forall (op_ok C) (ops_of ops) ->
  settled_late clean (ops_of ops) -> Forall no_prepend (ops_of ops) -> Forall no_failure ops ->
  run_late C ops s = Def (s', rs) -> returned rs = [] -> L = g :: R ->
  exists clean' R', sinv C clean' c s' (g :: R').
Proof.
  induction ops as [|[o [p q]] ops IH]; intros clean c s L s' rs g R HI HO HSE HNP HNF E HR HL.
  - cbn in E. injection E as <- <-. subst L. eauto.
  - cbn [ops_of map fst] in *. fold (ops_of ops) in *.
    destruct HSE as [HSE1 HSE2]. apply Forall_cons_iff in HO as [HO1 HO2].
    apply Forall_cons_iff in HNP as [HN1 HN2]. apply Forall_cons_iff in HNF as [[HF1 _] HF2]. cbn [fst snd] in HF1.
    cbn [run_late] in E. pose proof (exec_late_ok clean c s o p q L HI HO1 HSE1 HN1 HF1) as X.
    destruct (exec_late C o p q s) as [[s1 r]|u]; [|discriminate]. cbn [obind holds] in *.
    destruct (run_late C ops s1) as [[s2 rs2]|u] eqn:E2; [|discriminate]. cbn [obind] in E. injection E as <- <-.
    destruct X as (L1 & I1 & E1 & _ & _).
    assert (R1 : rs_sei r = [] /\ returned rs2 = []).
    { unfold returned in *. cbn [map filter] in HR. destruct (rs_sei r); [auto|discriminate]. }
    destruct (seff_head c s o r L s1 L1 g R E1 HL (proj1 R1)) as [R' HR'].
    eapply (IH _ c s1 L1); try eassumption. apply R1.
Qed.

Lemma settled_late_app a : forall clean b, settled_late clean (a ++ b) <->
  settled_late clean a /\ settled_late (fold_left clean_late a clean) b.
Proof.
  induction a as [|o a IH]; intros clean b; cbn [app settled_late fold_left]; [tauto|]. rewrite IH. tauto.
Qed.

Lemma run_late_inv ops : forall clean c s L s' rs, sinv C clean c s L -> Forall (op_ok C) (ops_of ops) ->
  settled_late clean (ops_of ops) -> Forall no_prepend (ops_of ops) -> Forall no_failure ops ->
  run_late C ops s = Def (s', rs) -> exists L', sinv C (fold_left clean_late (ops_of ops) clean) c s' L'.
Proof.
  induction ops as [|[o [p q]] ops IH]; intros clean c s L s' rs HI HO HSE HNP HNF E.
  - cbn in *. injection E as <- <-. eauto.
  - cbn [ops_of map fst fold_left] in *. fold (ops_of ops) in *.
    destruct HSE as [HSE1 HSE2]. apply Forall_cons_iff in HO as [HO1 HO2].
    apply Forall_cons_iff in HNP as [HN1 HN2]. apply Forall_cons_iff in HNF as [[HF1 _] HF2]. cbn [fst snd] in HF1.
    cbn [run_late] in E. pose proof (exec_late_ok clean c s o p q L HI HO1 HSE1 HN1 HF1) as X.
    destruct (exec_late C o p q s) as [[s1 r]|u]; [|discriminate]. cbn [obind holds] in *.
    destruct (run_late C ops s1) as [[s2 rs2]|u] eqn:E2; [|discriminate]. cbn [obind] in E. injection E as <- <-.
    destruct X as (L1 & I1 & E1 & _ & _). eauto.
Qed.

Lemma late_size c coin pre mid p1 q1 p2 q2 k1 k2 s0 rs0 s1 r1 s2 rs2 s3 r3 :
  let ops := pre ++ [(OGet false k1, (p1, q1))] ++ mid ++ [(OGet true k2, (p2, q2))] in
  Forall (op_ok C) (ops_of ops) -> set_first (ops_of ops) ->
  Forall no_prepend (ops_of ops) -> Forall no_failure ops ->
  run_late C pre (create c coin) = Def (s0, rs0) ->
  exec_late C (OGet false k1) p1 q1 s0 = Def (s1, r1) -> rs_size r1 <> 0 ->
  run_late C mid s1 = Def (s2, rs2) -> returned rs2 = [] ->
  exec_late C (OGet true k2) p2 q2 s2 = Def (s3, r3) ->
  nlen (rs_sei r3) = rs_size r3 /\ (rs_size r3 = 0 \/ rs_size r3 = rs_size r1).
Proof.
  intros ops HO HS HN HF E0 E1 HZ E2 HR E3. unfold ops in *. clear ops.
  apply set_first_settled in HS.
  unfold ops_of in *. rewrite !map_app in *. cbn [map fst] in *. fold (ops_of pre) (ops_of mid) in *.
  rewrite !Forall_app in HO, HN, HF. destruct HO as (O1 & _ & O3 & _). destruct HN as (N1 & _ & N3 & _).
  destruct HF as (F1 & F2 & F3 & F4). apply Forall_inv in F2 as [F2 _]. apply Forall_inv in F4 as [F4 _]. cbn [fst snd] in F2, F4.
  apply settled_late_app in HS as [S1 HS]. cbn [app settled_late clean_late] in HS. destruct HS as [_ HS].
  apply settled_late_app in HS as [S3 _].
  destruct (run_late_inv pre true c _ [] s0 rs0 (create_good C HC c coin) O1 S1 N1 F1 E0) as [L0 I0].
  cbn [exec_late] in E1, E3.
  pose proof (get_late_exact _ c s0 L0 p1 false k1 I0 F2) as X. rewrite E1 in X. cbn [holds] in X.
  destruct X as (_ & [(A1 & _)|(g & R & A1 & A2 & A3 & A4)] & _); [contradiction|].
  destruct (run_late_head mid _ c s1 L0 s2 rs2 g R A4 O3 S3 N3 F3 E2 HR A1) as (cl & R' & I2).
  pose proof (get_late_exact _ c s2 _ p2 true k2 I2 F4) as X. rewrite E3 in X. cbn [holds] in X.
  destruct X as (_ & [(B1 & B2 & _)|(g' & R2 & B1 & B2 & B3 & B4)] & _).
  - rewrite B1, B2. auto.
  - injection B1 as <- _. rewrite B2, B3. auto.
Qed.

(** ** All signatures there *)

Lemma complete_sei_queue s : holds (complete_sei s) (fun '(s', _) => r_queue (s_run s') = r_queue (s_run s)) (fun _ => True).
Proof.
  unfold complete_sei. destruct (r_slots (s_run s)) as [|x l]; [reflexivity|].
  destruct (nth_error _ _) as [sl|]; [|destruct (_ <=? _)%nat; cbn; auto].
  destruct (r_sig (s_run s)), (sl_sei sl); try exact I; try (cbn [holds]; auto; fail).
  destruct (tlv_write_list _ _ _ _ _ _ _) as [[lt o] g].
  destruct (sl_alloc sl <? _); cbn; auto.
Qed.

Lemma complete_late_all f : forall k s, (length (r_queue (s_run s)) <= f)%nat -> (length (r_queue (s_run s)) <= k)%nat ->
  complete_late k false s = complete_loop f s.
Proof.
  assert (NG : forall s, r_queue (s_run s) = [] -> plugin_get s = (s, false)).
  { intros s E. unfold plugin_get. rewrite E. destruct (_ || _); reflexivity. }
  induction f as [|f IH]; intros k s HF HK.
  - assert (E : r_queue (s_run s) = []) by (destruct (r_queue (s_run s)); [reflexivity|cbn in HF; lia]).
    cbn [complete_loop]. rewrite NG by exact E. cbn [negb].
    destruct k; cbn [complete_late]; [reflexivity|]. rewrite NG by exact E. reflexivity.
  - destruct k as [|k].
    + assert (E : r_queue (s_run s) = []) by (destruct (r_queue (s_run s)); [reflexivity|cbn in HK; lia]).
      cbn [complete_loop complete_late]. rewrite NG by exact E. reflexivity.
    + cbn [complete_loop complete_late]. destruct (plugin_get s) as [s1 b] eqn:EG.
      destruct b; cbn [negb]; [|reflexivity].
      assert (HQ : (length (r_queue (s_run s1)) <= f)%nat /\ (length (r_queue (s_run s1)) <= k)%nat).
      { unfold plugin_get in EG. destruct (_ || _); [discriminate|].
        destruct (r_queue (s_run s)) as [|x q] eqn:EQ; [discriminate|]. cbn [length] in HF, HK.
        destruct (_ <? _)%nat; [discriminate|]. injection EG as <-. cbn. lia. }
      pose proof (complete_sei_queue s1) as X. destruct (complete_sei s1) as [[s2 st]|u]; [|reflexivity].
      cbn [obind holds] in *. destruct (is_ok st); [|reflexivity]. apply IH; rewrite X; apply HQ.
Qed.

Lemma at_once_poll s L : sgood C s L -> complete_poll (mkPoll 60 false) s = complete_all s.
Proof.
  intros HS. unfold complete_poll, complete_all. cbn [po_ready po_fails]. apply complete_late_all; [lia|].
  rewrite (sg_queue _ _ _ HS), map_length, skipn_length. pose proof (sg_60 _ _ _ HS). lia.
Qed.

Lemma latest_once s L : sgood C s L -> forall want, get_latest_late (mkPoll 60 false) s want = get_latest s want.
Proof. intros HS want. unfold get_latest_late, get_latest. rewrite (at_once_poll s L HS). reflexivity. Qed.

Lemma exec_once clean c s o L : sinv C clean c s L -> exec_late C o (mkPoll 60 false) (mkPoll 60 false) s = exec C o s.
Proof.
  intros HI. pose proof HI as [HS HG HCD HCL]. destruct o; try reflexivity; cbn [exec_late exec].
  - unfold get_sei_late, get_sei. rewrite (at_once_poll s L HS). reflexivity.
  - unfold get_prepend_late, get_prepend. rewrite (latest_once s L HS).
    assert (X : holds (get_latest s false) (fun '(s1, r) => exists L1, sgood C s1 L1 /\
      (is_ok (rs_code r) && negb (rs_size r =? 0) = true ->
        holds (get_latest s1 true) (fun '(_, r2) => rs_size r2 = rs_size r) (fun _ => True))) (fun _ => True)).
    { unfold get_latest at 1. apply holds_bind.
      eapply holds_impl; [apply (complete_all_ok C s L HS)| |auto].
      intros [s1 st] (-> & C1 & C2 & C3 & C4 & _ & C5). cbn [is_ok svrc_eqb negb].
      destruct (Nat.ltb_spec (r_done (s_run s1)) 1) as [HZ|HZ].
      { cbn [holds rs_code rs_size is_ok svrc_eqb N.eqb negb andb]. exists L. split; [exact C1|]. discriminate. }
      destruct L as [|q0 L0] using rev_ind; [cbn in C4; lia|]. clear IHL0. set (a := L0) in *. set (q := q0) in *. clearbody a q.
      assert (LA : (r_done (s_run s1) - 1)%nat = length a) by (rewrite C4, app_length; cbn [length]; lia).
      rewrite LA.
      destruct (fetch_ok C s1 a q [] C1 C4 false) as (s2 & F1 & F2 & F3 & F4 & F5 & F6 & F7).
      rewrite F1. cbn [obind holds rs_code rs_size is_ok svrc_eqb andb]. exists (a ++ [q]). split; [exact F6|]. intros _.
      unfold get_latest. apply holds_bind. eapply holds_impl; [apply (complete_all_ok C s2 (a ++ [q]) F6)| |auto].
      intros [s3 st] (-> & K1 & K2 & K3 & K4 & _ & K5). cbn [is_ok svrc_eqb negb].
      assert ((r_done (s_run s3) <? 1)%nat = false) as ->.
      { rewrite K4, app_length. cbn [length]. apply Nat.ltb_ge. lia. }
      assert (LA3 : (r_done (s_run s3) - 1)%nat = length a) by (rewrite K4, app_length; cbn [length]; lia).
      rewrite LA3.
      destruct (fetch_ok C s3 a q [] K1 K4 true) as (s4 & W1 & _). rewrite W1. cbn. rewrite K2, F2. reflexivity. }
    destruct (get_latest s false) as [[s1 r]|u]; [|reflexivity]. cbn [obind holds] in *.
    destruct X as (L1 & G1 & X). destruct (is_ok (rs_code r) && negb (rs_size r =? 0)); [|reflexivity].
    specialize (X eq_refl). rewrite (latest_once s1 L1 G1).
    destruct (get_latest s1 true) as [[s2 r2]|u]; [|reflexivity]. cbn [obind holds] in *. rewrite X.
    rewrite N.ltb_irrefl. reflexivity.
  - unfold end_of_stream_late, end_of_stream. destruct (prepare s) as [s1 st] eqn:EP.
    destruct (prepare_ok C s L s1 st HS EP) as (P1 & P2 & P3 & P4 & P5).
    destruct (is_ok st) eqn:ES; cbn [negb]; [|reflexivity].
    apply is_ok_eq in ES. subst st. destruct (P5 eq_refl) as [key HK]. rewrite <- (proj1 P2) in HK.
    pose proof (generate_step C HC s1 L key P1 HK) as X.
    destruct (generate_sei C s1) as [[[s2 st] x]|u]; [|reflexivity]. cbn [obind holds] in *.
    destruct X as (L' & G1 & _). destruct (is_ok st); cbn [negb]; [|reflexivity].
    rewrite (at_once_poll _ L' G1). reflexivity.
Qed.

Lemma run_once ops : forall clean c s L, sinv C clean c s L -> Forall (op_ok C) ops -> settled clean ops ->
  run_late C (map at_once ops) s = run C ops s.
Proof.
  induction ops as [|o ops IH]; intros clean c s L HI HO HSE; [reflexivity|].
  apply settled_cons in HSE as [HSE1 HSE2]. apply Forall_cons_iff in HO as [HO1 HO2].
  cbn [map at_once run_late run]. rewrite (exec_once clean c s o L HI).
  pose proof (exec_ok C HC clean c s o L HI HO1 HSE1) as X.
  destruct (exec C o s) as [[s1 r]|u]; [|reflexivity]. cbn [obind holds] in *.
  destruct X as (L1 & I1 & _). rewrite (IH _ c s1 L1 I1 HO2 HSE2). reflexivity.
Qed.

Lemma late_at_once c coin ops : Forall (op_ok C) ops -> settled true ops ->
  run_late C (map at_once ops) (create c coin) = run C ops (create c coin).
Proof. apply (run_once ops true c _ [] (create_good C HC c coin)). Qed.

Lemma run_late_len ops : forall s s' rs, run_late C ops s = Def (s', rs) -> length rs = length ops.
Proof.
  induction ops as [|[o [p q]] ops IH]; intros s s' rs E; cbn [run_late] in E.
  - injection E as <- <-. reflexivity.
  - destruct (exec_late C o p q s) as [[s1 x]|]; [|discriminate]. cbn [obind] in E.
    destruct (run_late C ops s1) as [[s2 l]|] eqn:E2; [|discriminate]. injection E as <- <-. cbn [length]. f_equal. eauto.
Qed.

Lemma late_before c coin ops more s' rs : Forall (op_ok C) (ops_of ops) -> set_first (ops_of ops) ->
  Forall no_prepend (ops_of ops) -> Forall no_failure ops ->
  run_late C (ops ++ more) (create c coin) = Def (s', rs) ->
  Forall (well_signed C c) (returned (firstn (length ops) rs)).
Proof.
  intros HO HS HN HF E. rewrite run_late_app in E.
  destruct (run_late C ops (create c coin)) as [[s1 x]|u] eqn:E1; [|discriminate]. cbn [obind] in E.
  destruct (run_late C more s1) as [[s2 y]|u]; [|discriminate]. injection E as <- <-.
  rewrite <- (run_late_len ops _ _ _ E1), firstn_app, firstn_all, Nat.sub_diag. cbn [firstn]. rewrite app_nil_r.
  eapply late_signed; eassumption.
Qed.
End LateP.

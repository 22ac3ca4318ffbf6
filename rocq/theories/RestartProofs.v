(** What a session signs after it was reset. *)
From Verif Require Import Base BaseProofs Epb EpbProofs Nalu NaluSpec NaluProofs Crypto Types Hash Tlv
  TlvProofs EncProofs CodecSpec CodecProofs SeiSpec SeiProofs Signer GenProofs SignerProofs SessProofs SignSpec
  StepProofs RunProofs DrainProofs GopSpec EosSpec GoldSpec GopProofs GoldProofs RestartSpec.
Local Open Scope N_scope.

Section Restart.
Variable C : crypto.
Hypothesis HC : crypto_ok C.

Lemma reset_base c w k lo f s : base C c w k lo f [] s ->
  base C c w k lo f [] (reset s) /\ startg (g_computed (s_gop s)) (reset s).
Proof.
  intros B. destruct B. split; [|repeat split; reflexivity].
  constructor; try assumption; try reflexivity.
  - apply reset_good; assumption.
  - apply (agrees_same C c w s); try reflexivity; try assumption. cbn. unfold init_hash. destruct (get_ctx _ _); [|destruct (h_type _)]; reflexivity.
Qed.

Lemma run_gops_end c w : forall gs k lo f prev cg p r x s s' rs,
  base C c w k lo (f + b1 (p_frame p)) [] s -> midg C w prev cg [x] s -> p_bytes p = Some x ->
  Forall (seen c) r -> Forall (fun q => p_first q = false) r -> Forall is_gop gs -> Forall (seen c) (concat gs) ->
  run C (flat_map feed (r ++ concat gs)) s = Def (s', rs) -> Forall (fun r => rs_code r = SV_OK) rs ->
  base C c w (k + nlen gs) (sei_made_at lo f ((p :: r) :: gs)) (f + frames (concat ((p :: r) :: gs))) [] s'.
Proof.
  induction gs as [|g gs IH]; intros k lo f prev cg p r x s s' rs B M PB HS HF HG HSG E OK;
    rewrite flat_map_app, run_app in E;
    destruct (run C (flat_map feed r) s) as [[s1 a]|u] eqn:E1; try discriminate; cbn [obind] in E.
  - cbn in E. injection E as <- <-. rewrite app_nil_r in *.
    destruct (run_tail C HC c w k lo prev cg r _ _ _ _ _ B M HS HF E1 OK) as (K1 & K2 & K3).
    rewrite <- N.add_assoc, <- frames_cons in K2. cbn [concat sei_made_at]. rewrite app_nil_r, N.add_0_r. exact K2.
  - destruct (run C (flat_map feed (concat (g :: gs))) s1) as [[s2 b]|u] eqn:E2; [|discriminate]. cbn [obind] in E.
    injection E as <- <-. apply Forall_app in OK as [O1 O2].
    destruct (run_tail C HC c w k lo prev cg r _ _ _ _ _ B M HS HF E1 O1) as (K1 & K2 & K3).
    apply Forall_cons_iff in HG as [(p2 & r2 & -> & G1 & G2 & G3) HG].
    cbn [concat] in E2, HSG. apply Forall_app in HSG as [HSG1 HSG2]. apply Forall_cons_iff in HSG1 as [HSP HSR].
    cbn [app] in E2. destruct (run_cons_feed C _ _ _ _ _ E2 O2) as (s3 & d & e & E3 & E4 & -> & O3 & O4).
    destruct (p_bytes p2) as [y|] eqn:PB2; [|contradiction].
    assert (EX : [x] ++ hashed r = hashed (p :: r)) by (cbn [hashed flat_map]; rewrite PB; reflexivity).
    rewrite EX in K3. rewrite <- N.add_assoc, <- frames_cons in K2.
    destruct (step_open C HC c w k lo _ prev cg _ s1 p2 y s3 d K2 K3 HSP (feed_data C _ _ _ _ E3 O3) G1 PB2 E3 O3)
      as (z & Z1 & Z2 & Z3 & Z4).
    pose proof (IH (k + 1) _ _ _ _ p2 r2 y s3 s2 e Z3 Z4 PB2 HSR G3 HG HSG2 E4 O4) as L.
    replace (k + nlen ((p2 :: r2) :: gs)) with (k + 1 + nlen gs) by (unfold nlen; cbn [length]; lia).
    replace (f + frames (concat ((p :: r) :: (p2 :: r2) :: gs))) with (f + frames (p :: r) + frames (concat ((p2 :: r2) :: gs))).
    + exact L.
    + change (concat ((p :: r) :: (p2 :: r2) :: gs)) with ((p :: r) ++ concat ((p2 :: r2) :: gs)). unfold frames, nlen. rewrite filter_app, app_length. lia.
Qed.

(** One stream. *)
Lemma stream_ends gc c w k lo f before gs s0 s' rs : base C c w k lo f [] s0 -> startg gc s0 ->
  Forall (seen c) (before ++ concat gs) -> Forall (fun p => p_first p = false /\ p_bytes p = None) before -> Forall is_gop gs ->
  run C (flat_map feed (before ++ concat gs)) s0 = Def (s', rs) -> Forall (fun r => rs_code r = SV_OK) rs ->
  base C c w (k + (nlen gs - 1)) (sei_made_at lo (f + frames before) gs) (f + frames (before ++ concat gs)) [] s'.
Proof.
  intros B P3 HS HB HG E1 O1. apply Forall_app in HS as [HS1 HS2].
  rewrite flat_map_app, run_app in E1.
  destruct (run C (flat_map feed before) s0) as [[s2 d]|u] eqn:E2; [|discriminate]. cbn [obind] in E1.
  destruct (run C (flat_map feed (concat gs)) s2) as [[s3 e]|u] eqn:E3; [|discriminate]. cbn [obind] in E1.
  injection E1 as <- <-. apply Forall_app in O1 as [O1 O2].
  destruct (run_before C _ c w k lo before _ _ _ _ B P3 HS1 HB E2 O1) as (K1 & K2 & K3).
  replace (f + frames (before ++ concat gs)) with (f + frames before + frames (concat gs)) by (unfold frames, nlen; rewrite filter_app, app_length; lia).
  destruct gs as [|g gs].
  - cbn in E3. injection E3 as <- <-. cbn [concat sei_made_at]. change (frames []) with 0. change (nlen (@nil (list piece)) - 1) with 0. rewrite !N.add_0_r. exact K2.
  - apply Forall_cons_iff in HG as [(p & r & -> & G1 & G2 & G3) HG].
    cbn [concat] in E3, HS2. apply Forall_app in HS2 as [HS2 HS3]. apply Forall_cons_iff in HS2 as [HSP HSR].
    cbn [app] in E3. destruct (run_cons_feed C _ _ _ _ _ E3 O2) as (s4 & x & y & E4 & E5 & -> & O3 & O4).
    destruct (p_bytes p) as [bs|] eqn:PB; [|contradiction].
    destruct (step_first C HC _ c w k lo _ s2 p bs s4 x K2 K3 HSP (feed_data C _ _ _ _ E4 O3) G1 PB E4 O3) as (L1 & L2 & L3).
    replace (k + (nlen ((p :: r) :: gs) - 1)) with (k + nlen gs) by (unfold nlen; cbn [length]; lia).
    eapply run_gops_end; eassumption.
Qed.

(** The fields of the SEIs of all streams. *)
Fixpoint streams_fields (w : settings) (k lo f : N) (ss : list stream) : list (list (N * list N)) :=
  match ss with
  | [] => []
  | (b, gs) :: r => gops_fields C w k lo (f + frames b) None gs ++
      streams_fields w (k + (nlen gs - 1)) (sei_made_at lo (f + frames b) gs) (f + frames (b ++ concat gs)) r
  end.

Lemma streams_run c w : forall ss gc k lo f s0 s' rs, base C c w k lo f [] s0 -> startg gc s0 ->
  Forall (fun x : stream => Forall (seen c) (fst x ++ concat (snd x)) /\
    Forall (fun p => p_first p = false /\ p_bytes p = None) (fst x) /\ Forall is_gop (snd x)) ss ->
  run C (streams_ops ss) s0 = Def (s', rs) -> Forall (fun r => rs_code r = SV_OK) rs ->
  Forall2 (sei_with C c w) (streams_fields w k lo f ss) (returned rs).
Proof.
  induction ss as [|[b gs] ss IH]; intros gc k lo f s0 s' rs B P HS E OK.
  - cbn in E. injection E as <- <-. constructor.
  - apply Forall_cons_iff in HS as [(H1 & H2 & H3) HS]. cbn [fst snd] in *. cbn [streams_ops] in E. rewrite run_app in E. unfold stream_ops in E. cbn [fst snd] in E.
    destruct (run C (flat_map feed (b ++ concat gs)) s0) as [[s1 a]|u] eqn:E1; [|discriminate]. cbn [obind] in E. cbn [streams_fields].
    destruct ss as [|y ss].
    + cbn in E. injection E as <- <-. rewrite !app_nil_r in *. eapply gops_from; eassumption.
    + cbn [run exec obind] in E.
      destruct (run C (streams_ops (y :: ss)) (reset s1)) as [[s2 l]|u] eqn:E2; [|discriminate]. cbn [obind] in E. injection E as <- <-.
      apply Forall_app in OK as [O1 O2]. apply Forall_cons_iff in O2 as [_ O2].
      rewrite returned_app. apply Forall2_app; [eapply gops_from; eassumption|].
      destruct (reset_base _ _ _ _ _ _ (stream_ends _ _ _ _ _ _ _ _ _ _ _ B P H1 H2 H3 E1 O1)) as [B2 P2].
      rewrite returned_nil by reflexivity. eapply IH; eassumption.
Qed.

Lemma streams_session c coin setup ss rs : signs_each C c coin setup ss rs ->
  Forall2 (sei_with C c (fold_left (ask C) setup defaults)) (streams_fields (fold_left (ask C) setup defaults) 1 0 0 ss) (returned rs).
Proof.
  intros (HO & HI & HK & HS & (s & E) & OK). rewrite run_app in E.
  destruct (run C setup (create c coin)) as [[s0 a]|u] eqn:E0; [|discriminate]. cbn [obind] in E.
  destruct (run C (streams_ops ss) s0) as [[s1 b]|u] eqn:E1; [|discriminate]. cbn [obind] in E.
  injection E as <- <-. apply Forall_app in OK as [O0 O1].
  destruct (setup_base C HC c coin setup s0 a HO HI HK E0 O0) as (B & S & R0).
  rewrite returned_app, R0. eapply streams_run; eassumption.
Qed.

Lemma frames_app a b : frames (a ++ b) = frames a + frames b.
Proof. unfold frames, nlen. rewrite filter_app, app_length. lia. Qed.

Lemma fields_len w : forall gs k lo f prev, Forall is_gop gs -> length (gops_fields C w k lo f prev gs) = (length gs - 1)%nat.
Proof.
  induction gs as [|g gs IH]; intros k lo f prev HG; [reflexivity|]. apply Forall_cons_iff in HG as [_ HG].
  destruct gs as [|g2 gs]; [reflexivity|]. pose proof HG as HG2. apply Forall_cons_iff in HG2 as [(p & r & -> & _) _].
  change (S (length (gops_fields C w (k + 1) (f + frames g + (if p_frame p then 1 else 0)) (f + frames g) (hd_error (hashed g)) ((p :: r) :: gs))) = (length (g :: (p :: r) :: gs) - 1)%nat).
  rewrite IH by exact HG. cbn [length]. lia.
Qed.

Lemma streams_split w x ss2 : forall ss1 k lo f, Forall (fun y : stream => Forall is_gop (snd y)) ss1 ->
  exists A B, streams_fields w k lo f (ss1 ++ x :: ss2) =
    A ++ gops_fields C w (k + N.of_nat (seis_made ss1)) (last_made_at lo f ss1) (f + pictures_in ss1 + frames (fst x)) None (snd x) ++ B /\
    length A = seis_made ss1.
Proof.
  induction ss1 as [|[b gs] ss1 IH]; intros k lo f HG.
  - destruct x as [b gs]. eexists [], _. cbn [app streams_fields fst snd last_made_at]. change (seis_made []) with 0%nat. change (pictures_in []) with 0.
    rewrite !N.add_0_r. split; reflexivity.
  - apply Forall_cons_iff in HG as [H1 HG]. cbn [snd] in H1. cbn [app streams_fields last_made_at fst snd].
    destruct (IH (k + (nlen gs - 1)) (sei_made_at lo (f + frames b) gs) (f + frames (b ++ concat gs)) HG) as (A & B & E & L).
    rewrite E. eexists (_ ++ A), B. rewrite <- app_assoc. split.
    + f_equal. f_equal. f_equal. f_equal.
      * change (seis_made ((b, gs) :: ss1)) with ((length gs - 1) + seis_made ss1)%nat. unfold nlen. lia.
      * unfold pictures_in. cbn [flat_map fst snd]. rewrite !frames_app. lia.
    + rewrite app_length, fields_len, L by exact H1. reflexivity.
Qed.

Lemma f2_len {A B} (R : A -> B -> Prop) l m : Forall2 R l m -> length l = length m.
Proof. induction 1; cbn [length]; congruence. Qed.
Lemma f2_part {A B} (R : A -> B -> Prop) l1 l2 l3 m : Forall2 R (l1 ++ l2 ++ l3) m -> Forall2 R l2 (firstn (length l2) (skipn (length l1) m)).
Proof.
  intros F. apply Forall2_app_inv_l in F as (m1 & m' & F1 & F & ->). apply Forall2_app_inv_l in F as (m2 & m3 & F2 & _ & ->).
  rewrite (f2_len _ _ _ F1), skipn_app, skipn_all, Nat.sub_diag. cbn [skipn app].
  rewrite (f2_len _ _ _ F2), firstn_app, firstn_all, Nat.sub_diag. cbn [firstn]. rewrite app_nil_r. exact F2.
Qed.

Theorem each_stream c coin setup ss1 b gs ss2 rs : signs_each C c coin setup (ss1 ++ (b, gs) :: ss2) rs ->
  let w := fold_left (ask C) setup defaults in
  Forall2 (sei_with C c w)
    (gops_fields C w (1 + N.of_nat (seis_made ss1)) (last_made_at 0 0 ss1) (pictures_in ss1 + frames b) None gs)
    (firstn (length gs - 1) (skipn (seis_made ss1) (returned rs))).
Proof.
  intros S w. pose proof (streams_session _ _ _ _ _ S) as F. change (fold_left (ask C) setup defaults) with w in F. destruct S as (_ & _ & _ & HS & _).
  apply Forall_app in HS as [HS1 HS2]. apply Forall_cons_iff in HS2 as [(_ & _ & HG) _]. cbn [snd] in HG.
  destruct (streams_split w (b, gs) ss2 ss1 1 0 0) as (A & B & E & L); [eapply Forall_impl; [|exact HS1]; intros y H; apply H|].
  apply (eq_ind _ (fun l => Forall2 (sei_with C c w) l (returned rs)) F) in E. clear F. rename E into F. apply f2_part in F. rewrite L in F. cbn [fst snd] in F. rewrite fields_len in F by exact HG. exact F.
Qed.

Theorem all_streams c coin setup ss rs : signs_each C c coin setup ss rs -> length (returned rs) = seis_made ss.
Proof.
  intros S. pose proof (streams_session _ _ _ _ _ S) as F. destruct S as (_ & _ & _ & HS & _).
  rewrite <- (f2_len _ _ _ F). clear F. generalize (fold_left (ask C) setup defaults) as w. intros w.
  enough (X : forall k lo f, length (streams_fields w k lo f ss) = seis_made ss) by apply X. clear rs.
  induction ss as [|[b gs] ss IH]; intros k lo f; [reflexivity|]. apply Forall_cons_iff in HS as [(_ & _ & HG) HS]. cbn [snd] in HG.
  cbn [streams_fields]. rewrite app_length, fields_len, IH by assumption. reflexivity.
Qed.

(** The pictures at which SEIs are made come one after the other. *)
Lemma made_le gs : forall lo f, Forall is_gop gs -> lo <= f + frames (firstn 1 (hd [] gs)) -> sei_made_at lo f gs <= f + frames (concat gs).
Proof.
  induction gs as [|g gs IH]; intros lo f HG H; [cbn in *; lia|]. apply Forall_cons_iff in HG as [(p & r & -> & _) HG]. cbn [hd firstn] in H.
  rewrite frames_cons in H. change (frames []) with 0 in H. destruct gs as [|g2 gs].
  - cbn [sei_made_at concat]. rewrite app_nil_r, frames_cons. lia.
  - pose proof HG as HG2. apply Forall_cons_iff in HG2 as [(nx & r2 & -> & _) _].
    change (sei_made_at lo f ((p :: r) :: (nx :: r2) :: gs)) with (sei_made_at (f + frames (p :: r) + b1 (p_frame nx)) (f + frames (p :: r)) ((nx :: r2) :: gs)).
    change (concat ((p :: r) :: (nx :: r2) :: gs)) with ((p :: r) ++ concat ((nx :: r2) :: gs)). rewrite frames_app.
    pose proof (IH (f + frames (p :: r) + b1 (p_frame nx)) (f + frames (p :: r)) HG) as X. cbn [hd firstn] in X. rewrite (frames_cons nx []) in X.
    change (frames []) with 0 in X. specialize (X ltac:(lia)). lia.
Qed.
Lemma last_made_le ss : forall lo f, Forall (fun y : stream => Forall is_gop (snd y)) ss -> lo <= f -> last_made_at lo f ss <= f + pictures_in ss.
Proof.
  induction ss as [|[b gs] ss IH]; intros lo f HG H; [cbn; lia|]. apply Forall_cons_iff in HG as [H1 HG]. cbn [snd] in H1.
  cbn [last_made_at fst snd]. unfold pictures_in. cbn [flat_map fst snd]. rewrite !frames_app, !N.add_assoc.
  apply IH; [exact HG|]. apply made_le; [exact H1|]. lia.
Qed.

End Restart.

(** C55: signing one stream after another. *)
From Verif Require Import Base BaseProofs Nalu NaluSpec Crypto Types CodecSpec SeiSpec Signer SignSpec RunProofs GopSpec GopProofs Toy
  PropsSigner PropsGop VTypes NaluList Validator VToy PropsSei E2eSpec DamageSpec PropsE2e E2eMain E2eSeg PropsDamage RestartSpec RestartProofs RestartMain.
Local Open Scope N_scope.

(** A session signs streams one after another and is reset between them, with every call answered OK. Then the SEIs of each
    stream are those of its GOPs, as in C18: what was signed before leaves no trace in them. The first GOP is not linked to
    a GOP, and every hash is one of a NALU of the stream. Only the numbering goes on: of the SEIs, and of the pictures, by which the recurrence is counted. *)
Theorem C55_each_stream C c coin setup ss1 before gs ss2 rs : crypto_ok C ->
  signs_each C c coin setup (ss1 ++ (before, gs) :: ss2) rs ->
  let w := fold_left (ask C) setup defaults in
  Forall2 (sei_with C c w)
    (gops_fields C w (1 + N.of_nat (seis_made ss1)) (last_made_at 0 0 ss1) (pictures_in ss1 + frames before) None gs)
    (firstn (length gs - 1) (skipn (seis_made ss1) (returned rs))).
Proof. exact (fun HC => each_stream C HC c coin setup ss1 before gs ss2 rs). Qed.
(** There are no other SEIs. In particular none is for the GOP that was open when the session was reset. *)
Theorem C55_no_more C c coin setup ss rs : crypto_ok C -> signs_each C c coin setup ss rs -> length (returned rs) = seis_made ss.
Proof. exact (fun HC => all_streams C HC c coin setup ss rs). Qed.

(** A new validator finds each of these streams authentic, as in C27.

    Partial: as in C50. *)
Theorem C55_valid_partial C Ov f c coin setup ss1 before g gs ss2 rs l ops : crypto_ok C -> keys_work C -> Ov <> OvfUndef ->
  signs_each C c coin setup (ss1 ++ (before, g :: gs) :: ss2) rs ->
  let w := fold_left (ask C) setup defaults in
  w_using w = false -> w_rec w = 1 -> Forall (legal c) (before ++ concat (g :: gs)) ->
  Forall (fun fs => few_escapes (w_epb w) fs (w_max_sig w))
    (gops_fields C w (1 + N.of_nat (seis_made ss1)) (last_made_at 0 0 ss1) (pictures_in ss1 + frames before) None (g :: gs)) ->
  transmits (w_epb w) before (g :: gs) (firstn (length gs) (skipn (seis_made ss1) (returned rs))) l ->
  (ops = [] /\ w_add_pub w = true) \/ (ops = [VSetKey (w_pub w)] /\ w_oid w = sha256_der) ->
  exists v res,
    vrun C Ov (S f) (vcreate C c) (ops ++ map sends l) = Def (v, map (fun _ => VRes SV_OK None) ops ++ res) /\
    answers false l res.
Proof.
  intros HC HK HO SG w HU HR LG FE TR HP. exact (each_valid C Ov f c coin setup ss1 ss2 before g gs rs HC HK HO SG HU HR LG FE l ops TR HP).
Qed.

(** Five GOPs, three GOPs, and the five again. *)
Definition three_streams : list stream := [([], long_gops); (demo_before, firstn 3 long_gops); ([], long_gops)].
Definition three_results : list sres := results_of (run toy (gop_setup ++ streams_ops three_streams) (create H264 0)).
Definition three_seis : list (list N) := Eval vm_compute in returned three_results.
Lemma three_signs : signs_each toy H264 0 gop_setup three_streams three_results.
Proof.
  split; [repeat constructor; try discriminate; eexists _, _; reflexivity|]. split; [repeat constructor|]. split; [left; eexists; reflexivity|]. split.
  { unfold three_streams. repeat (apply Forall_cons; [cbn [fst snd firstn long_gops]; split; [unfold demo_before; seen_tac|split; [repeat constructor|gops_tac]]|]). constructor. }
  split; [|apply sign_all_fine; vm_compute; reflexivity].
  unfold three_results. assert (D : match run toy (gop_setup ++ streams_ops three_streams) (create H264 0) with Def _ => true | _ => false end = true) by (vm_compute; reflexivity).
  destruct (run toy (gop_setup ++ streams_ops three_streams) (create H264 0)) as [[s rs]|u]; [|discriminate]. exists s. reflexivity.
Qed.
Example C55_case : Forall2 (sei_with toy H264 (fold_left (ask toy) gop_setup defaults))
    (gops_fields toy (fold_left (ask toy) gop_setup defaults) 5 9 11 None (firstn 3 long_gops)) (firstn 2 (skipn 4 (returned three_results))) /\
  length (returned three_results) = 10%nat.
Proof.
  split; [|vm_compute; reflexivity].
  exact (C55_each_stream toy H264 0 gop_setup [([], long_gops)] demo_before (firstn 3 long_gops) [([], long_gops)] _ toy_ok three_signs).
Qed.

(** The second stream as it was signed. *)
Definition three_middle : list arrival :=
  match long_gops, skipn 4 three_seis with
  | g1 :: g2 :: g3 :: _, y1 :: y2 :: _ =>
      map Pic g1 ++ map Pic (firstn 1 g2) ++ Sei y1 (hashed g1) (hashed (firstn 1 g2)) :: map Pic (skipn 1 g2) ++ map Pic [] ++ Sei y2 (hashed g2) (hashed []) :: map Pic g3
  | _, _ => []
  end.
Lemma three_middle_sent : transmits true demo_before (firstn 3 long_gops) (firstn 2 (skipn 4 three_seis)) (map Pic demo_before ++ three_middle).
Proof.
  exists three_middle. split; [reflexivity|]. unfold long_gops, three_seis. cbn [nth skipn firstn].
  apply (next_gop true _ _ [_] _); [left; reflexivity|].
  apply (next_gop true _ _ [] _); [left; reflexivity|]. apply last_gop.
Qed.
Lemma middle_escapes : Forall (fun fs => few_escapes true fs (w_max_sig (fold_left (ask toy) gop_setup defaults)))
  (gops_fields toy (fold_left (ask toy) gop_setup defaults) 5 9 11 None (firstn 3 long_gops)).
Proof.
  apply Forall_forall. intros fs Hfs.
  assert (K : forallb (fun fs => nlen (esc 0 (wires fs)) <? nlen (wires fs) + 8 + 65) (gops_fields toy (fold_left (ask toy) gop_setup defaults) 5 9 11 None (firstn 3 long_gops)) = true) by (vm_compute; reflexivity).
  rewrite forallb_forall in K. intros _. apply N.ltb_lt. exact (K fs Hfs).
Qed.
Example C55_valid_case : exists v res,
  vrun toy OvfWrap 1 (vcreate toy H264) (map sends (map Pic demo_before ++ three_middle)) = Def (v, res) /\ answers false (map Pic demo_before ++ three_middle) res /\
  (length three_middle = 10)%nat.
Proof.
  destruct (C55_valid_partial toy OvfWrap 0 H264 0 gop_setup [([], long_gops)] demo_before (nth 0 long_gops []) [nth 1 long_gops []; nth 2 long_gops []] [([], long_gops)] _
    (map Pic demo_before ++ three_middle) [] toy_ok (toy_keys _) ltac:(discriminate) three_signs) as (v & res & E & A).
  - reflexivity.
  - reflexivity.
  - unfold long_gops, demo_before. cbn [app concat nth]. legal_tac.
  - exact middle_escapes.
  - replace (returned three_results) with three_seis by (vm_compute; reflexivity). apply three_middle_sent.
  - left. split; reflexivity.
  - exists v, res. split; [exact E|]. split; [exact A|vm_compute; reflexivity].
Qed.

(** A validator compiled so that overflow of an int is harmless is needed: the numbering goes on, so that the first SEI of the second
    stream meets the overflow of C50. A validator that is reset between the streams, and not a new one, does not. *)
Theorem C55_overflow_refuted : exists C c setup ss1 before g gs ss2 rs l,
  crypto_ok C /\ keys_work C /\ signs_each C c 0 setup (ss1 ++ (before, g :: gs) :: ss2) rs /\
  transmits true before (g :: gs) (firstn (length gs) (skipn (seis_made ss1) (returned rs))) l /\
  vrun C OvfUndef 9 (vcreate C c) (map sends l) = Undef SignedOverflow.
Proof.
  exists toy, H264, gop_setup, [([], long_gops)], demo_before, (nth 0 long_gops []), [nth 1 long_gops []; nth 2 long_gops []], [([], long_gops)], three_results, (map Pic demo_before ++ three_middle).
  split; [exact toy_ok|]. split; [apply toy_keys|]. split; [exact three_signs|].
  split; [replace (returned three_results) with three_seis by (vm_compute; reflexivity); apply three_middle_sent|].
  vm_compute. reflexivity.
Qed.

(** A validator that simply goes on, and is not reset, finds the second stream not authentic: the last GOP of the first stream has no SEI. *)
Definition three_first : list arrival :=
  match long_gops, three_seis with
  | [g1; g2; g3; g4; g5], y1 :: y2 :: y3 :: y4 :: _ =>
      map Pic g1 ++ map Pic [] ++ Sei y1 (hashed g1) (hashed []) :: map Pic g2 ++ map Pic [] ++ Sei y2 (hashed g2) (hashed []) ::
      map Pic g3 ++ map Pic [] ++ Sei y3 (hashed g3) (hashed []) :: map Pic g4 ++ map Pic [] ++ Sei y4 (hashed g4) (hashed []) :: map Pic g5
  | _, _ => []
  end.
Lemma three_first_sent : transmits true [] long_gops (firstn 4 three_seis) three_first.
Proof.
  exists three_first. split; [reflexivity|]. unfold long_gops, three_seis. cbn [nth skipn firstn].
  repeat (apply (next_gop true _ _ [] _); [left; reflexivity|]). apply last_gop.
Qed.
Theorem C55_goes_on_refuted : exists C c setup g1 gs1 before g2 gs2 ss rs l1 l2,
  crypto_ok C /\ keys_work C /\ signs_each C c 0 setup (([], g1 :: gs1) :: (before, g2 :: gs2) :: ss) rs /\
  transmits true [] (g1 :: gs1) (firstn (length gs1) (returned rs)) l1 /\
  transmits true before (g2 :: gs2) (firstn (length gs2) (skipn (length gs1) (returned rs))) l2 /\
  verdicts (vrun C OvfUndef 9 (vcreate C c) (map sends l1)) = [AuthOk; AuthOk; AuthOk; AuthOk] /\
  verdicts (vrun C OvfUndef 9 (vcreate C c) (map sends (l1 ++ l2))) = [AuthOk; AuthOk; AuthOk; AuthOk; NotOk; NotOk].
Proof.
  exists toy, H264, gop_setup, (nth 0 long_gops []), (tl long_gops), demo_before, (nth 0 long_gops []), [nth 1 long_gops []; nth 2 long_gops []], [([], long_gops)], three_results, three_first, (map Pic demo_before ++ three_middle).
  split; [exact toy_ok|]. split; [apply toy_keys|]. split; [exact three_signs|].
  split; [replace (returned three_results) with three_seis by (vm_compute; reflexivity); apply three_first_sent|].
  split; [replace (returned three_results) with three_seis by (vm_compute; reflexivity); apply three_middle_sent|].
  split; vm_compute; reflexivity.
Qed.

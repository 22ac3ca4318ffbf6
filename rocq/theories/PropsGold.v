(** C53: a golden SEI. *)
From Verif Require Import Base BaseProofs Nalu NaluSpec Crypto Types CodecSpec SeiSpec Signer SignSpec RunProofs GopSpec GoldSpec GopProofs GoldProofs Toy
  PropsSigner PropsGop VTypes NaluList Validator VToy PropsSei E2eSpec DamageSpec LossSpec StartSpec PropsE2e E2eMain E2eGoldMain PropsDamage PropsLoss.
Local Open Scope N_scope.

(** ** What is signed *)
(** A session made to get a golden SEI gives exactly one SEI: it carries the public key and all else that is needed once, and is
    signed with the private key of the session. See [golden_with] in GoldSpec.v. *)
Theorem C53_golden_sei C c coin setup rs : crypto_ok C -> makes_golden C c coin setup rs ->
  exists z, returned rs = [z] /\ golden_with C c (fold_left (ask C) setup defaults) z.
Proof. exact (fun HC => golden_made C HC c coin setup rs). Qed.

(** A session that starts with a golden SEI gives it first, and then one SEI for each GOP with another GOP after it, as a session with
    frame level authenticity does: the counters and links are those of a session without a golden SEI. *)
Theorem C53_golden_session C c coin setup before gs rs : crypto_ok C -> signs_golden C c coin setup before gs rs ->
  let w := fold_left (ask C) setup defaults in
  exists z xs, returned rs = z :: xs /\ golden_with C c w z /\
    Forall2 (sei_with C c (framed w)) (gops_fields C (framed w) 1 0 (frames before) None gs) xs.
Proof. exact (fun HC => golden_session C HC c coin setup before gs rs). Qed.

(** ** What is validated *)
(** A session signs the GOPs [gs0], [g] and [gs]. It may have been told that a golden SEI is used, and then no SEI of
    it has the public key. The golden SEI [z] was made in another session with the same key and product information.
    A new validator gets NALUs that are not hashed, [z], and then GOPs [h :: hss] that stand for [g :: gs], and their
    SEIs. Then the report at [z] says that the stream is signed, and the later reports are as in C49 and C52:
    every GOP that arrived as it was signed is found authentic.

    Partial: as in C49. If the stream does not start at its beginning, a difference of ints that overflows is not undefined (see
    C50). *)
Theorem C53_stored_partial C Ov f c coin setup before gs0 g gs rs coin2 setup2 rs2 pre z y bh h hss r ops : crypto_ok C -> keys_work C ->
  gs0 = [] \/ Ov <> OvfUndef ->
  signs C c coin setup before (gs0 ++ g :: gs) rs -> makes_golden C c coin2 setup2 rs2 -> In z (returned rs2) ->
  let w := fold_left (ask C) setup defaults in
  same_start (fold_left (ask C) setup2 defaults) w -> delivered (w_epb w) z y -> few_escapes (w_epb w) (recurrent_fields w) (w_max_sig w) ->
  plain_nalus c pre ->
  Forall is_gop (h :: hss) -> hashed h = hashed g -> Forall (fun p => p_first p = false /\ p_bytes p = None) bh ->
  Forall (seen c) (bh ++ concat (h :: hss)) -> Forall (legal c) (bh ++ concat (h :: hss)) ->
  Forall (fun fs => few_escapes (w_epb w) fs (w_max_sig w)) (gops_fields C w 1 0 (frames before) None (gs0 ++ g :: gs)) ->
  arrives (w_epb w) (hd_error (hashed (last gs0 []))) None g h h gs hss (skipn (length gs0) (returned rs)) r ->
  (ops = [] /\ w_add_pub w = true) \/ (ops = [VSetKey (w_pub w)] /\ w_oid w = sha256_der) ->
  exists v q res,
    vrun C Ov (S f) (vcreate C c) (ops ++ map sends (map Pic pre) ++ VAdd y true :: map feeds (map Seen bh ++ r)) =
      Def (v, map (fun _ => VRes SV_OK None) ops ++ map (fun _ => VRes SV_OK None) pre ++ VRes SV_OK (Some q) :: res) /\
    greets (length pre) q /\ told true True (map Seen bh ++ r) res /\ closes (hears C w) (map Seen bh ++ r) res.
Proof. exact (gold_stored C Ov f c coin setup before gs0 g gs rs coin2 setup2 rs2 pre z y bh h hss r ops). Qed.

(** The same for a golden SEI that the session itself made at its start. *)
Theorem C53_session_partial C Ov f c coin setup before g gs rs pre z xs y bh h hss r ops : crypto_ok C -> keys_work C ->
  signs_golden C c coin setup before (g :: gs) rs -> returned rs = z :: xs ->
  let w := framed (fold_left (ask C) setup defaults) in
  delivered (w_epb w) z y -> few_escapes (w_epb w) (recurrent_fields w) (w_max_sig w) -> plain_nalus c pre ->
  Forall is_gop (h :: hss) -> hashed h = hashed g -> Forall (fun p => p_first p = false /\ p_bytes p = None) bh ->
  Forall (seen c) (bh ++ concat (h :: hss)) -> Forall (legal c) (bh ++ concat (h :: hss)) ->
  Forall (fun fs => few_escapes (w_epb w) fs (w_max_sig w)) (gops_fields C w 1 0 (frames before) None (g :: gs)) ->
  arrives (w_epb w) None None g h h gs hss xs r ->
  (ops = [] /\ w_add_pub w = true) \/ (ops = [VSetKey (w_pub w)] /\ w_oid w = sha256_der) ->
  exists v q res,
    vrun C Ov (S f) (vcreate C c) (ops ++ map sends (map Pic pre) ++ VAdd y true :: map feeds (map Seen bh ++ r)) =
      Def (v, map (fun _ => VRes SV_OK None) ops ++ map (fun _ => VRes SV_OK None) pre ++ VRes SV_OK (Some q) :: res) /\
    greets (length pre) q /\ told true True (map Seen bh ++ r) res /\ closes (hears C w) (map Seen bh ++ r) res.
Proof. exact (gold_first C Ov f c coin setup before g gs rs pre z xs y bh h hss r ops). Qed.

(** ** Cases *)
(** A session that is told to use a golden SEI, at GOP level, and one that makes the golden SEI. *)
Definition lean_setup : list sop := [OKey key1; OLevel LGop; OUsingGolden true].
Definition lean_seis : list (list N) := Eval vm_compute in returned (sign_all toy lean_setup long_gops).
Definition gold_setup : list sop := [OKey key1].
Definition gold_all (setup : list sop) : list sres := results_of (run toy (setup ++ [OGolden; OGet true []]) (create H264 7)).
Definition gold_sei : list N := Eval vm_compute in hd [] (returned (gold_all gold_setup)).
Lemma lean_signs : signs toy H264 0 lean_setup [] long_gops (sign_all toy lean_setup long_gops).
Proof.
  signs_tac.
  - apply sign_all_runs. vm_compute. reflexivity.
  - apply sign_all_fine. vm_compute. reflexivity.
Qed.
Lemma gold_runs setup : match run toy (setup ++ [OGolden; OGet true []]) (create H264 7) with Def _ => true | _ => false end = true ->
  exists s, run toy (setup ++ [OGolden; OGet true []]) (create H264 7) = Def (s, gold_all setup).
Proof. unfold gold_all. destruct (run _ _ _) as [[s rs]|u]; [|discriminate]. intros _. exists s. reflexivity. Qed.
Lemma gold_makes : makes_golden toy H264 7 gold_setup (gold_all gold_setup).
Proof.
  split; [repeat (apply Forall_cons; [first [exact key1_ok|exact I]|]); apply Forall_nil|]. split; [repeat constructor|].
  split; [apply Exists_cons_hd; exists key1; reflexivity|]. split; [apply gold_runs; vm_compute; reflexivity|].
  apply sign_all_fine. vm_compute. reflexivity.
Qed.
Lemma lean_escapes : Forall (fun fs => few_escapes true fs (w_max_sig (fold_left (ask toy) lean_setup defaults)))
  (gops_fields toy (fold_left (ask toy) lean_setup defaults) 1 0 0 None long_gops).
Proof.
  apply Forall_forall. intros fs Hfs.
  assert (K : forallb (fun fs => nlen (esc 0 (wires fs)) <? nlen (wires fs) + 8 + 65) (gops_fields toy (fold_left (ask toy) lean_setup defaults) 1 0 0 None long_gops) = true) by (vm_compute; reflexivity).
  rewrite forallb_forall in K. intros _. apply N.ltb_lt. exact (K fs Hfs).
Qed.
(** The last three of the five GOPs with their SEIs. In the fourth a P slice is changed, in the third nothing. *)
Definition lean_hurt : list (list piece) := [[pcs (idr [4]) None true; pcs (pic [4; 77]) None false]; [pcs (idr [5]) None true]].
Definition lean_tail : list event :=
  match skipn 1 long_gops, lean_hurt, lean_seis with
  | [g2; g3; g4; g5], [h4; h5], [_; _; y3; y4] =>
      let f g := hd_error (hashed g) in
      map Seen g3 ++ map Seen [] ++ Closed y3 (hashed g3) (hashed g3) (f g2) None (hashed []) ::
      map Seen h4 ++ map Seen [] ++ Closed y4 (hashed g4) (hashed h4) (f g3) (f g3) (hashed []) :: map Seen h5
  | _, _, _ => []
  end.
Lemma lean_arrives : arrives true (hd_error (hashed (last (firstn 2 long_gops) []))) None (nth 2 long_gops []) (nth 2 long_gops []) (nth 2 long_gops [])
  [nth 3 long_gops []; nth 4 long_gops []] lean_hurt (skipn 2 lean_seis) lean_tail.
Proof.
  unfold lean_hurt, lean_seis. cbn [skipn]. unfold lean_tail.
  eapply (next_at _ _ _ _ _ _ _ _ []); [reflexivity|]. eapply (next_at _ _ _ _ _ _ _ _ []); [reflexivity|]. apply arrives_last.
Qed.
Example C53_stored_case : exists v q res,
  vrun toy OvfWrap 1 (vcreate toy H264) (map sends (map Pic demo_before) ++ VAdd gold_sei true :: map feeds lean_tail) =
    Def (v, VRes SV_OK None :: VRes SV_OK (Some q) :: res) /\
  greets 1 q /\ told true True lean_tail res /\ map fst (shown res) = [AuthOk; NotOk].
Proof.
  destruct (C53_stored_partial toy OvfWrap 0 H264 0 lean_setup [] (firstn 2 long_gops) (nth 2 long_gops []) [nth 3 long_gops []; nth 4 long_gops []] (sign_all toy lean_setup long_gops)
    7 gold_setup (gold_all gold_setup) demo_before gold_sei gold_sei [] (nth 2 long_gops []) lean_hurt lean_tail [] toy_ok (toy_keys _)) as (v & q & res & E & G & A & _).
  - right. discriminate.
  - exact lean_signs.
  - exact gold_makes.
  - vm_compute. left. reflexivity.
  - repeat split.
  - left. reflexivity.
  - intros _. apply N.ltb_lt. vm_compute. reflexivity.
  - split; [unfold demo_before; seen_tac|]. split; [unfold demo_before; legal_tac|repeat constructor].
  - gops_tac.
  - reflexivity.
  - constructor.
  - unfold long_gops, lean_hurt. cbn [nth]. seen_tac.
  - unfold long_gops, lean_hurt. cbn [app concat nth]. legal_tac.
  - exact lean_escapes.
  - replace (returned (sign_all toy lean_setup long_gops)) with lean_seis by (vm_compute; reflexivity). exact lean_arrives.
  - left. split; reflexivity.
  - exists v, q, res. split; [exact E|]. split; [exact G|]. split; [exact A|].
    assert (K : match vrun toy OvfWrap 1 (vcreate toy H264) (map sends (map Pic demo_before) ++ VAdd gold_sei true :: map feeds lean_tail) with
                | Def (_, res) => map fst (shown res) = [SigPresent; AuthOk; NotOk]
                | Undef _ => False end) by (vm_compute; reflexivity).
    change (map Seen [] ++ lean_tail) with lean_tail in E. cbn [app] in E. rewrite E in K. unfold shown in K. cbn [flat_map app map fst] in K. injection K as _ K. exact K.
Qed.

(** A session that makes its golden SEI itself. *)
Definition self_all (setup : list sop) (gs : list (list piece)) : list sres :=
  results_of (run toy (setup ++ [OGolden; OGet true []] ++ flat_map feed ([] ++ concat gs)) (create H264 0)).
Lemma self_runs setup gs :
  match run toy (setup ++ [OGolden; OGet true []] ++ flat_map feed ([] ++ concat gs)) (create H264 0) with Def _ => true | _ => false end = true ->
  exists s, run toy (setup ++ [OGolden; OGet true []] ++ flat_map feed ([] ++ concat gs)) (create H264 0) = Def (s, self_all setup gs).
Proof. unfold self_all. destruct (run _ _ _) as [[s rs]|u]; [|discriminate]. intros _. exists s. reflexivity. Qed.
Definition self_gops : list (list piece) := firstn 3 long_gops.
Lemma self_signs : signs_golden toy H264 0 lean_setup [] self_gops (self_all lean_setup self_gops).
Proof. unfold self_gops, long_gops. cbn [firstn]. signs_tac; [apply self_runs; vm_compute; reflexivity|apply sign_all_fine; vm_compute; reflexivity]. Qed.
Definition self_seis : list (list N) := Eval vm_compute in returned (self_all lean_setup self_gops).
Definition self_events : list event :=
  match self_gops, self_seis with
  | [g1; g2; g3], [_; y1; y2] =>
      let f g := hd_error (hashed g) in
      map Seen g1 ++ map Seen (firstn 1 g2) ++ Closed y1 (hashed g1) (hashed g1) None None (hashed (firstn 1 g2)) ::
      map Seen (skipn 1 g2) ++ map Seen [] ++ Closed y2 (hashed g2) (hashed g2) (f g1) (f g1) (hashed []) :: map Seen g3
  | _, _ => []
  end.
Example C53_session_case : exists v q res,
  vrun toy OvfUndef 1 (vcreate toy H264) (VAdd (hd [] self_seis) true :: map feeds self_events) = Def (v, VRes SV_OK (Some q) :: res) /\
  greets 0 q /\ told true True self_events res /\ map fst (shown res) = [AuthOk; AuthOk].
Proof.
  destruct (C53_session_partial toy OvfUndef 0 H264 0 lean_setup [] (nth 0 long_gops []) [nth 1 long_gops []; nth 2 long_gops []] (self_all lean_setup self_gops)
    [] (hd [] self_seis) (tl self_seis) (hd [] self_seis) [] (nth 0 long_gops []) [nth 1 long_gops []; nth 2 long_gops []] self_events [] toy_ok (toy_keys _)) as (v & q & res & E & G & A & _).
  - exact self_signs.
  - vm_compute. reflexivity.
  - left. reflexivity.
  - intros _. apply N.ltb_lt. vm_compute. reflexivity.
  - repeat constructor.
  - gops_tac.
  - reflexivity.
  - constructor.
  - unfold long_gops. cbn [nth]. seen_tac.
  - unfold long_gops. cbn [app concat nth]. legal_tac.
  - apply Forall_forall. intros fs Hfs.
    assert (K : forallb (fun fs => nlen (esc 0 (wires fs)) <? nlen (wires fs) + 8 + 65) (gops_fields toy (framed (fold_left (ask toy) lean_setup defaults)) 1 0 0 None self_gops) = true) by (vm_compute; reflexivity).
    rewrite forallb_forall in K. intros _. apply N.ltb_lt. exact (K fs Hfs).
  - unfold self_events, self_seis. cbn [self_gops firstn long_gops nth tl].
    eapply (next_at _ _ _ _ _ _ _ _ [_]); [reflexivity|]. eapply (next_at _ _ _ _ _ _ _ _ []); [reflexivity|]. apply arrives_last.
  - left. split; reflexivity.
  - exists v, q, res. split; [exact E|]. split; [exact G|]. split; [exact A|].
    assert (K : match vrun toy OvfUndef 1 (vcreate toy H264) (VAdd (hd [] self_seis) true :: map feeds self_events) with
                | Def (_, res) => map fst (shown res) = [SigPresent; AuthOk; AuthOk]
                | Undef _ => False end) by (vm_compute; reflexivity).
    cbn [app map] in E. rewrite E in K. unfold shown in K. cbn [flat_map app map fst] in K. injection K as _ K. exact K.
Qed.

(** ** A golden SEI that comes later *)
(** signed_video_sign.h:520-522: the golden SEI must be the first SEI but need not be at the beginning of the stream. Here the
    stream is complete and in order and the golden SEI comes right after its first I-frame, before every other SEI. It is refused with an error, and
    so is every SEI after it: no report is ever made. *)
Definition lean_events : list event :=
  match long_gops, lean_seis with
  | [g1; g2; g3; g4; g5], [y1; y2; y3; y4] =>
      let f g := hd_error (hashed g) in
      map Seen g1 ++ map Seen [] ++ Closed y1 (hashed g1) (hashed g1) None None (hashed []) ::
      map Seen g2 ++ map Seen [] ++ Closed y2 (hashed g2) (hashed g2) (f g1) (f g1) (hashed []) ::
      map Seen g3 ++ map Seen [] ++ Closed y3 (hashed g3) (hashed g3) (f g2) (f g2) (hashed []) ::
      map Seen g4 ++ map Seen [] ++ Closed y4 (hashed g4) (hashed g4) (f g3) (f g3) (hashed []) :: map Seen g5
  | _, _ => []
  end.
Lemma lean_comes : comes true [] long_gops long_gops lean_seis lean_events.
Proof.
  eexists. split.
  2:{ do 4 (eapply (next_at _ _ _ _ _ _ _ _ []); [reflexivity|]). apply arrives_last. }
  reflexivity.
Qed.
Theorem C53_later_refuted : exists C c setup gs rs setup2 rs2 z p l,
  crypto_ok C /\ keys_work C /\ signs C c 0 setup [] gs rs /\ makes_golden C c 7 setup2 rs2 /\ returned rs2 = [z] /\
  let w := fold_left (ask C) setup defaults in
  same_start (fold_left (ask C) setup2 defaults) w /\ few_escapes true (recurrent_fields w) (w_max_sig w) /\
  Forall (legal c) (concat gs) /\ comes true [] gs gs (returned rs) (Seen p :: l) /\
  exists v, vrun C OvfIdeal 9 (vcreate C c) (feeds (Seen p) :: VAdd z true :: map feeds l) =
    Def (v, VRes SV_OK None :: VRes SV_INVALID_PARAMETER None ::
      map (fun e => match e with Seen _ => VRes SV_OK None | Closed _ _ _ _ _ _ => VRes SV_INVALID_PARAMETER None end) l).
Proof.
  exists toy, H264, lean_setup, long_gops, (sign_all toy lean_setup long_gops), gold_setup, (gold_all gold_setup), gold_sei.
  exists (pcs (idr [1]) None true), (tl lean_events).
  split; [exact toy_ok|]. split; [apply toy_keys|]. split; [exact lean_signs|]. split; [exact gold_makes|]. split; [vm_compute; reflexivity|]. cbv zeta.
  split; [repeat split|]. split; [intros _; apply N.ltb_lt; vm_compute; reflexivity|].
  split; [unfold long_gops; cbn [app concat]; legal_tac|].
  split; [replace (returned (sign_all toy lean_setup long_gops)) with lean_seis by (vm_compute; reflexivity); exact lean_comes|].
  eexists. vm_compute. reflexivity.
Qed.

(** ** Asking for a golden SEI changes the level *)
(** GOP level was set. After [signed_video_generate_golden_sei] the session goes on with frame level: the SEI for the first GOP is the one that a session
    with frame level makes, not the one that was asked for. *)
Theorem C53_level_refuted : exists C c setup gs rs z x rs1 rs2,
  crypto_ok C /\ w_frame (fold_left (ask C) setup defaults) = false /\
  signs_golden C c 0 setup [] gs rs /\ returned rs = [z; x] /\
  signs C c 0 setup [] gs rs1 /\ signs C c 0 (setup ++ [OLevel LFrame]) [] gs rs2 /\
  returned rs2 = [x] /\ returned rs1 <> [x].
Proof.
  exists toy, H264, lean_setup, (firstn 2 long_gops), (self_all lean_setup (firstn 2 long_gops)).
  do 2 eexists. exists (sign_all toy lean_setup (firstn 2 long_gops)), (sign_all toy (lean_setup ++ [OLevel LFrame]) (firstn 2 long_gops)).
  unfold long_gops. cbn [firstn]. split; [exact toy_ok|]. split; [reflexivity|].
  split; [signs_tac; [apply self_runs; vm_compute; reflexivity|apply sign_all_fine; vm_compute; reflexivity]|].
  split; [vm_compute; reflexivity|].
  split; [signs_tac; [apply sign_all_runs; vm_compute; reflexivity|apply sign_all_fine; vm_compute; reflexivity]|].
  split; [unfold lean_setup; cbn [app]; signs_tac; [apply (sign_all_runs toy [OKey key1; OLevel LGop; OUsingGolden true; OLevel LFrame]); vm_compute; reflexivity|apply sign_all_fine; vm_compute; reflexivity]|].
  split; [vm_compute; reflexivity|]. vm_compute. discriminate.
Qed.

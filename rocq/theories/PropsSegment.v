(** C50: a part of a signed stream can be validated on its own. *)
From Verif Require Import Base BaseProofs Nalu NaluSpec Crypto Types CodecSpec SeiSpec Signer SignSpec RunProofs GopSpec GopProofs Toy
  PropsSigner PropsGop VTypes NaluList Validator VToy PropsSei E2eSpec DamageSpec PropsE2e E2eMain E2eSeg PropsDamage.
Local Open Scope N_scope.

(** A session signs the GOPs [gs0], at least one, and then the GOPs [g] and [gs], with every call answered OK. A new
    validator gets only [g] and [gs], with their SEIs, in order. [bh] are NALUs that are not hashed (parameter sets, say) and come first.
    Then every GOP is found authentic as in C27, the first one too: that it is linked to a GOP that never arrived does no harm.

    Partial: as in C27; every SEI has the public key or it is known from elsewhere ([w_rec] is 1); and a difference of ints
    that overflows is not undefined (see below). *)
Theorem C50_from_gop_partial C Ov f c coin setup before gs0 g gs rs bh l ops : crypto_ok C -> keys_work C -> Ov <> OvfUndef ->
  signs C c coin setup before (gs0 ++ g :: gs) rs -> gs0 <> [] ->
  let w := fold_left (ask C) setup defaults in
  w_using w = false -> w_rec w = 1 ->
  Forall (legal c) (bh ++ concat (g :: gs)) -> Forall (seen c) bh -> Forall (fun p => p_first p = false /\ p_bytes p = None) bh ->
  Forall (fun fs => few_escapes (w_epb w) fs (w_max_sig w)) (gops_fields C w 1 0 (frames before) None (gs0 ++ g :: gs)) ->
  transmits (w_epb w) bh (g :: gs) (skipn (length gs0) (returned rs)) l ->
  (ops = [] /\ w_add_pub w = true) \/ (ops = [VSetKey (w_pub w)] /\ w_oid w = sha256_der) ->
  exists v res,
    vrun C Ov (S f) (vcreate C c) (ops ++ map sends l) = Def (v, map (fun _ => VRes SV_OK None) ops ++ res) /\
    answers false l res.
Proof. intros HC HK HO SG N0 w HU HR LG SB FB FE TR HP. exact (seg_gop C Ov f c coin setup before gs0 g gs rs HC HK HO SG N0 HU HR bh LG SB FB FE l ops TR HP). Qed.

(** The same when the part begins with the SEI of the last GOP before it, as a recording does that begins at an I-frame (the SEI is
    written in front of it). Nothing is reported for this SEI; when the first NALU of [g] arrives, the report says that
    the stream is signed. From then on every GOP is found authentic. *)
Theorem C50_from_sei_partial C Ov f c coin setup before gs0 g gs rs bh x y p l ops : crypto_ok C -> keys_work C -> Ov <> OvfUndef ->
  signs C c coin setup before (gs0 ++ g :: gs) rs -> gs0 <> [] ->
  let w := fold_left (ask C) setup defaults in
  w_using w = false -> w_rec w = 1 ->
  Forall (legal c) (bh ++ concat (g :: gs)) -> Forall (seen c) bh -> Forall (fun p => p_first p = false /\ p_bytes p = None) bh ->
  Forall (fun fs => few_escapes (w_epb w) fs (w_max_sig w)) (gops_fields C w 1 0 (frames before) None (gs0 ++ g :: gs)) ->
  nth_error (returned rs) (length gs0 - 1) = Some x -> delivered (w_epb w) x y ->
  transmits (w_epb w) [] (g :: gs) (skipn (length gs0) (returned rs)) (Pic p :: l) ->
  (ops = [] /\ w_add_pub w = true) \/ (ops = [VSetKey (w_pub w)] /\ w_oid w = sha256_der) ->
  exists v q res,
    vrun C Ov (S f) (vcreate C c) (ops ++ map sends (map Pic bh) ++ VAdd y true :: sends (Pic p) :: map sends l) =
      Def (v, map (fun _ => VRes SV_OK None) ops ++ map (fun _ => VRes SV_OK None) bh ++ VRes SV_OK None :: VRes SV_OK (Some q) :: res) /\
    l_auth (p_latest q) = SigPresent /\ p_changed q = false /\ answers true l res.
Proof. intros HC HK HO SG N0 w HU HR LG SB FB FE NX HD TR HP. exact (seg_sei C Ov f c coin setup before gs0 g gs rs HC HK HO SG N0 HU HR bh LG SB FB FE x y p l ops NX HD TR HP). Qed.

(** The last three of five GOPs, as they were signed. *)
Definition long_tail : list arrival :=
  match long_gops, long_seis with
  | [_; _; g3; g4; g5], [_; _; y3; y4] =>
      map Pic [] ++ map Pic g3 ++ map Pic (firstn 1 g4) ++ Sei y3 (hashed g3) (hashed (firstn 1 g4)) :: map Pic (skipn 1 g4) ++ map Pic [] ++ Sei y4 (hashed g4) (hashed []) :: map Pic g5
  | _, _ => []
  end.
Lemma long_tail_sent : transmits true demo_before [nth 2 long_gops []; nth 3 long_gops []; nth 4 long_gops []] (skipn 2 long_seis) (map Pic demo_before ++ long_tail).
Proof.
  exists long_tail. split; [reflexivity|]. unfold long_gops, long_seis. cbn [nth skipn].
  apply (next_gop true _ _ [_] _); [left; reflexivity|].
  apply (next_gop true _ _ [] _); [left; reflexivity|]. apply last_gop.
Qed.
Lemma long_split : long_gops = firstn 2 long_gops ++ nth 2 long_gops [] :: [nth 3 long_gops []; nth 4 long_gops []].
Proof. reflexivity. Qed.
Example C50_case : exists v res,
  vrun toy OvfWrap 1 (vcreate toy H264) (map sends (map Pic demo_before ++ long_tail)) = Def (v, res) /\ answers false (map Pic demo_before ++ long_tail) res /\
  (length long_tail = 7)%nat.
Proof.
  destruct (C50_from_gop_partial toy OvfWrap 0 H264 0 gop_setup [] (firstn 2 long_gops) (nth 2 long_gops []) [nth 3 long_gops []; nth 4 long_gops []] _
    demo_before (map Pic demo_before ++ long_tail) [] toy_ok (toy_keys _) ltac:(discriminate) long_signs) as (v & res & E & A).
  - discriminate.
  - reflexivity.
  - reflexivity.
  - unfold long_gops, demo_before. cbn [app concat nth]. legal_tac.
  - unfold demo_before. seen_tac.
  - repeat constructor.
  - exact long_escapes.
  - replace (returned (sign_all toy gop_setup long_gops)) with long_seis by (vm_compute; reflexivity). apply long_tail_sent.
  - left. split; reflexivity.
  - exists v, res. split; [exact E|]. split; [exact A|reflexivity].
Qed.
Definition long_first : piece := Eval vm_compute in nth 0 (nth 2 long_gops []) (pcs [] None false).
Example C50_sei_case : exists v q res,
  vrun toy OvfWrap 1 (vcreate toy H264) (VAdd (nth 1 long_seis []) true :: map sends long_tail) =
    Def (v, VRes SV_OK None :: VRes SV_OK (Some q) :: res) /\ l_auth (p_latest q) = SigPresent /\ answers true (tl long_tail) res /\
  (length (filter (fun a => match a with Sei _ _ _ => true | _ => false end) long_tail) = 2)%nat.
Proof.
  destruct (C50_from_sei_partial toy OvfWrap 0 H264 0 gop_setup [] (firstn 2 long_gops) (nth 2 long_gops []) [nth 3 long_gops []; nth 4 long_gops []] _
    [] (nth 1 long_seis []) (nth 1 long_seis []) long_first (tl long_tail) [] toy_ok (toy_keys _) ltac:(discriminate) long_signs) as (v & q & res & E & A & _ & B).
  - discriminate.
  - reflexivity.
  - reflexivity.
  - unfold long_gops. cbn [app concat nth]. legal_tac.
  - constructor.
  - constructor.
  - exact long_escapes.
  - vm_compute. reflexivity.
  - left. reflexivity.
  - replace (returned (sign_all toy gop_setup long_gops)) with long_seis by (vm_compute; reflexivity).
    destruct long_tail_sent as (r & E & IO). exists r. split; [|exact IO]. apply app_inv_head in E. exact E.
  - left. split; reflexivity.
  - exists v, q, res. split; [exact E|]. split; [exact A|]. split; [exact B|reflexivity].
Qed.

(** ** The conditions are needed *)
(** In C the first validation subtracts the initial value of the last counter, INT_MIN, from the counter of the SEI. For the first
    SEI of a stream the difference still fits in an int. For every later one the behaviour is undefined. *)
Theorem C50_overflow_refuted : exists C c setup gs0 g gs rs l,
  crypto_ok C /\ keys_work C /\ signs C c 0 setup [] (gs0 ++ g :: gs) rs /\
  transmits true [] (g :: gs) (skipn (length gs0) (returned rs)) l /\
  vrun C OvfUndef 9 (vcreate C c) (map sends l) = Undef SignedOverflow.
Proof.
  exists toy, H264, gop_setup, (firstn 2 long_gops), (nth 2 long_gops []), [nth 3 long_gops []; nth 4 long_gops []], (sign_all toy gop_setup long_gops), long_tail.
  split; [exact toy_ok|]. split; [apply toy_keys|]. split; [exact long_signs|].
  replace (returned (sign_all toy gop_setup long_gops)) with long_seis by (vm_compute; reflexivity).
  split; [destruct long_tail_sent as (r & E & IO); exists r; split; [apply app_inv_head in E; exact E|exact IO]|].
  vm_compute. reflexivity.
Qed.

(** A part that begins in the middle of a GOP (the first NALU of the GOP is missing) is not found authentic, not even the GOP after it
    that is complete. *)
Theorem C50_middle_refuted : exists C c setup gs0 g gs rs p l,
  crypto_ok C /\ keys_work C /\ signs C c 0 setup [] (gs0 ++ g :: gs) rs /\
  transmits true [] (g :: gs) (skipn (length gs0) (returned rs)) (Pic p :: l) /\
  (length (filter (fun a => match a with Sei _ _ _ => true | _ => false end) l) = 2)%nat /\
  verdicts (vrun C OvfIdeal 9 (vcreate C c) (map sends l)) = [SigPresent; NotOk].
Proof.
  exists toy, H264, gop_setup, (firstn 2 long_gops), (nth 2 long_gops []), [nth 3 long_gops []; nth 4 long_gops []], (sign_all toy gop_setup long_gops), long_first, (tl long_tail).
  split; [exact toy_ok|]. split; [apply toy_keys|]. split; [exact long_signs|].
  replace (returned (sign_all toy gop_setup long_gops)) with long_seis by (vm_compute; reflexivity).
  split; [destruct long_tail_sent as (r & E & IO); exists r; split; [apply app_inv_head in E; exact E|exact IO]|].
  split; vm_compute; reflexivity.
Qed.

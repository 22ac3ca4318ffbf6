(** C59, C60: signing with the threaded plugin, whose signatures come late. *)
From Verif Require Import Base EpbProofs Nalu Crypto Types Hash Tlv CodecSpec CodecProofs SeiSpec Signer SignSpec
  RunProofs Toy PropsSigner Late LateSpec LateProofs.
Local Open Scope N_scope.

(** C59. However late the signatures come, every SEI handed out carries a signature made of its own
    content. *)
Theorem C59_own_signature C c coin ops s rs : crypto_ok C -> Forall (op_ok C) (ops_of ops) ->
  set_first (ops_of ops) -> Forall (fun o => o <> OPrepend) (ops_of ops) -> Forall no_failure ops ->
  run_late C ops (create c coin) = Def (s, rs) -> Forall (well_signed C c) (returned rs).
Proof. exact (fun HC => late_signed C HC c coin ops s rs). Qed.

(** C59. Once all signatures are there, pulling until nothing is left has returned every SEI that was
    generated, once and in the order of generation. *)
Theorem C59_all_in_order C c coin ops s rs : crypto_ok C -> signing_works C -> Forall (op_ok C) (ops_of ops) ->
  set_first (ops_of ops) -> Forall (fun o => o <> OPrepend) (ops_of ops) -> Forall no_failure ops ->
  run_late C (ops ++ repeat pull_all 60) (create c coin) = Def (s, rs) ->
  exists l n, returned rs = map (fun '(epb, golden, fs) => sei c epb golden fs) l /\
    Forall (fun '(epb, golden, fs) => sei_counter fs = None <-> golden = true) l /\
    somes (map (fun '(epb, golden, fs) => sei_counter fs) l) = map (fun i => N.of_nat i mod 2 ^ 32) (seq 1 n) /\
    g_counter (s_gop s) = N.of_nat n mod 2 ^ 32 /\ rs_pending (last rs (code SV_OK)) = 0.
Proof. exact (fun HC => late_drained C HC c coin ops s rs). Qed.

(** C59. However late the signatures come, never more than 60 SEIs are pending. *)
Theorem C59_bounded C c coin ops s rs : crypto_ok C -> Forall (op_ok C) (ops_of ops) ->
  set_first (ops_of ops) -> Forall (fun o => o <> OPrepend) (ops_of ops) -> Forall no_failure ops ->
  run_late C ops (create c coin) = Def (s, rs) -> Forall (fun r => rs_pending r <= 60) rs.
Proof. exact (fun HC => late_pending C HC c coin ops s rs). Qed.

(** C59. However late the signatures come, no memory of a SEI is overrun without emulation prevention. *)
Theorem C59_memory C c coin p q ops : crypto_ok C -> Forall (op_ok C) (ops_of ops) ->
  set_first (ops_of ops) -> Forall (fun o => o <> OPrepend) (ops_of ops) -> Forall no_failure ops ->
  Forall (fun o => o <> OEpb true) (ops_of ops) ->
  run_late C ((OEpb false, (p, q)) :: ops) (create c coin) <> Undef OobWrite.
Proof. exact (fun HC => late_plain_safe C HC c coin p q ops). Qed.

(** C59. Who asks signed_video_get_sei for the size of the next SEI, and later for the SEI itself, gets
    one of exactly that size or none, whatever signatures come and whatever else is called in between,
    as long as no other SEI is pulled. *)
Theorem C59_size_kept C c coin pre mid p1 q1 p2 q2 k1 k2 s0 rs0 s1 r1 s2 rs2 s3 r3 : crypto_ok C ->
  let ops := pre ++ [(OGet false k1, (p1, q1))] ++ mid ++ [(OGet true k2, (p2, q2))] in
  Forall (op_ok C) (ops_of ops) -> set_first (ops_of ops) ->
  Forall (fun o => o <> OPrepend) (ops_of ops) -> Forall no_failure ops ->
  run_late C pre (create c coin) = Def (s0, rs0) ->
  exec_late C (OGet false k1) p1 q1 s0 = Def (s1, r1) -> rs_size r1 <> 0 ->
  run_late C mid s1 = Def (s2, rs2) -> returned rs2 = [] ->
  exec_late C (OGet true k2) p2 q2 s2 = Def (s3, r3) ->
  nlen (rs_sei r3) = rs_size r3 /\ (rs_size r3 = 0 \/ rs_size r3 = rs_size r1).
Proof. exact (fun HC => late_size C HC c coin pre mid p1 q1 p2 q2 k1 k2 s0 rs0 s1 r1 s2 rs2 s3 r3). Qed.

(** C59. If every signature is there when it is asked for, a session does what it does with the plugin
    that signs at once: all other theorems about signing sessions are then about this plugin, too. *)
Theorem C59_as_at_once C c coin ops : crypto_ok C -> Forall (op_ok C) ops -> settled true ops ->
  run_late C (map at_once ops) (create c coin) = run C ops (create c coin).
Proof. exact (fun HC => late_at_once C HC c coin ops). Qed.

(** Four GOPs; the first signature comes when the third GOP is complete, the other two one by one. The
    second pull asks for the size only, then a NALU is added. *)
Definition at_ (k : nat) : poll * poll := (mkPoll k false, mkPoll 0 false).
Definition late_demo : list (sop * (poll * poll)) :=
  [(OKey key1, at_ 0); (OAdd (idr [1; 2]) None true, at_ 0); (OAdd (idr [3]) None true, at_ 0);
   (OGet true [], at_ 0); (OAdd (idr [4]) None true, at_ 0); (OGet true [], at_ 1);
   (OAdd (idr [5]) None true, at_ 0); (OGet false [], at_ 1)].
Example C59_case : exists s rs, run_late toy (late_demo ++ repeat pull_all 60) (create H264 0) = Def (s, rs) /\
  map (fun r => (rs_size r, rs_pending r)) (firstn 11 rs) =
    [(0, 0); (0, 0); (0, 0); (0, 1); (0, 0); (265, 1); (0, 0); (249, 2); (249, 1); (249, 0); (0, 0)] /\
  g_counter (s_gop s) = 3 /\
  Forall (op_ok toy) (ops_of late_demo) /\ set_first (ops_of late_demo) /\
  Forall (fun o => o <> OPrepend) (ops_of late_demo) /\ Forall no_failure late_demo /\ signing_works toy.
Proof.
  eexists _, _. split; [vm_compute; reflexivity|]. split; [vm_compute; reflexivity|]. split; [reflexivity|].
  split; [unfold late_demo; cbn [ops_of map fst]; ops_ok|]. split; [repeat constructor|].
  split; [repeat constructor; discriminate|]. split; [repeat constructor|exact toy_works].
Qed.

Example C59_size_case :
  let pre := firstn 7 late_demo in
  let mid := [(OAdd (pic [6]) None true, at_ 0); (OGet false [], at_ 1)] in
  let ops := pre ++ [(OGet false [], at_ 1)] ++ mid ++ [(OGet true (pic [7]), at_ 1)] in
  exists s0 rs0 s1 r1 s2 rs2 s3 r3,
    run_late toy pre (create H264 0) = Def (s0, rs0) /\
    exec_late toy (OGet false []) (mkPoll 1 false) (mkPoll 0 false) s0 = Def (s1, r1) /\ rs_size r1 = 249 /\
    run_late toy mid s1 = Def (s2, rs2) /\ returned rs2 = [] /\
    exec_late toy (OGet true (pic [7])) (mkPoll 1 false) (mkPoll 0 false) s2 = Def (s3, r3) /\ rs_size r3 = 249 /\
    Forall (op_ok toy) (ops_of ops) /\ set_first (ops_of ops) /\ Forall (fun o => o <> OPrepend) (ops_of ops) /\
    Forall no_failure ops.
Proof.
  eexists _, _, _, _, _, _, _, _. split; [vm_compute; reflexivity|]. split; [vm_compute; reflexivity|].
  split; [reflexivity|]. split; [vm_compute; reflexivity|]. split; [reflexivity|]. split; [vm_compute; reflexivity|].
  split; [reflexivity|]. cbn [firstn late_demo app ops_of map fst].
  split; [ops_ok|]. split; [repeat constructor|]. split; [repeat constructor; discriminate|repeat constructor].
Qed.

(** C59. The deprecated signed_video_get_nalu_to_prepend is not safe with this plugin, not even without
    emulation prevention: it asks the plugin twice, and if another signature comes in between, it copies
    a SEI into memory that was made for a smaller one. *)
Theorem C59_prepend_refuted : exists C c coin p q ops, crypto_ok C /\ Forall (op_ok C) (ops_of ops) /\
  set_first (ops_of ops) /\ Forall no_failure ops /\ Forall (fun o => o <> OEpb true) (ops_of ops) /\
  run_late C ((OEpb false, (p, q)) :: ops) (create c coin) = Undef OobWrite.
Proof.
  exists toy, H264, 0, (mkPoll 0 false), (mkPoll 0 false),
    [(OKey key1, at_ 0); (OLevel LFrame, at_ 0); (OAdd (idr [1; 2]) None true, at_ 0); (OAdd (idr [3]) None true, at_ 0);
     (OAdd (pic [4]) None true, at_ 0); (OAdd (idr [5]) None true, at_ 0); (OPrepend, (mkPoll 1 false, mkPoll 1 false))].
  split; [exact toy_ok|]. split; [cbn [ops_of map fst]; ops_ok|]. split; [repeat constructor|].
  split; [repeat constructor|]. split; [repeat constructor; discriminate|]. vm_compute. reflexivity.
Qed.

(** C60. Full statement: C59_own_signature without the condition that the worker thread never fails. It
    is false: the failure is not reported to anyone, and the SEI that waited for the signature gets the
    one of the SEI behind it. The SEI handed out has a signature no key can have made of its content. *)
Theorem C60_failure_refuted : exists C c coin ops s rs epb golden fs max sig, crypto_ok C /\
  Forall (op_ok C) (ops_of ops) /\ set_first (ops_of ops) /\ Forall (fun o => o <> OPrepend) (ops_of ops) /\
  run_late C ops (create c coin) = Def (s, rs) /\
  length (filter (fun x => po_fails (fst (snd x)) || po_fails (snd (snd x))) ops) = 1%nat /\
  Forall (fun r => rs_code r = SV_OK) rs /\
  returned rs = [sei c epb golden (fs ++ [(5, sig_value max sig)])] /\
  forall key coin oid, In oid [sha256_der; toy_der] ->
    c_sign C key coin (c_hash C oid (signed_part c epb golden fs (5, sig_value max sig))) <> Some sig.
Proof.
  pose (ops := [(OEpb false, at_ 0); (OKey key1, at_ 0); (OAdd (idr [1; 2]) None true, at_ 0);
    (OAdd (idr [3]) None true, at_ 0); (OGet true [], (mkPoll 0 true, mkPoll 0 false));
    (OAdd (idr [4]) None true, at_ 0); (OGet true [], at_ 1)]).
  destruct (run_late toy ops (create H264 0)) as [[s rs]|] eqn:E; [|vm_compute in E; discriminate].
  pose (split_tlv := fix go (f : nat) (l : list N) : list (N * list N) :=
    match f, l with
    | S f, t :: r => let k := len_bytes t in let n := N.to_nat (value_of (firstn k r)) in
        let r := skipn k r in (t, firstn n r) :: go f (skipn n r)
    | _, _ => [] end).
  pose (fs := removelast (split_tlv 9%nat (removelast (skipn 24 (nth 0 (returned rs) []))))).
  pose (sig := firstn 33 (skipn 5 (snd (last (split_tlv 9%nat (removelast (skipn 24 (nth 0 (returned rs) [])))) (0, []))))).
  exists toy, H264, 0, ops, s, rs, false, false, fs, 65%nat, sig.
  split; [exact toy_ok|]. split; [unfold ops; cbn [ops_of map fst]; ops_ok|]. split; [repeat constructor|].
  split; [repeat constructor; discriminate|]. split; [exact E|]. split; [reflexivity|].
  unfold fs, sig. clear fs sig. vm_compute in E. injection E as <- <-. split; [repeat constructor|].
  split; [vm_compute; reflexivity|].
  intros key coin oid HO HF.
  assert (HS : forall (k : list N) h x, c_sign toy k coin h = Some x -> tl x = h).
  { clear. intros k h x. cbn [c_sign toy toy_with]. destruct (forallb _ h); [|discriminate].
    intros E. injection E as <-. reflexivity. }
  apply HS in HF. destruct HO as [<-|[<-|[]]]; vm_compute in HF; discriminate.
Qed.

(** C60, partial: the SEIs handed out before the worker thread fails for the first time carry signatures of
    their own content, whatever comes after. *)
Theorem C60_before_partial C c coin ops more s rs : crypto_ok C -> Forall (op_ok C) (ops_of ops) ->
  set_first (ops_of ops) -> Forall (fun o => o <> OPrepend) (ops_of ops) -> Forall no_failure ops ->
  run_late C (ops ++ more) (create c coin) = Def (s, rs) ->
  Forall (well_signed C c) (returned (firstn (length ops) rs)).
Proof. exact (fun HC => late_before C HC c coin ops more s rs). Qed.

Example C60_case : exists s rs,
  run_late toy (late_demo ++ [(OGet true [], (mkPoll 0 true, mkPoll 0 false)); (OGet true [], at_ 1)]) (create H264 0) = Def (s, rs) /\
  length (returned (firstn (length late_demo) rs)) = 1%nat /\ length (returned rs) = 2%nat.
Proof. eexists _, _. split; [vm_compute; reflexivity|]. split; reflexivity. Qed.

Print Assumptions C59_own_signature.
Print Assumptions C59_all_in_order.
Print Assumptions C59_bounded.
Print Assumptions C59_memory.
Print Assumptions C59_size_kept.
Print Assumptions C59_as_at_once.
Print Assumptions C59_prepend_refuted.
Print Assumptions C60_failure_refuted.
Print Assumptions C60_before_partial.

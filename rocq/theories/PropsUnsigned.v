(** C30, C34: video without signatures, and when the user may set the public key. *)
From Verif Require Import Base Nalu Crypto Types SignSpec Toy VTypes NaluList Validator ValidSpec VUnsigned VKeyProofs VToy.
Local Open Scope N_scope.

(** C30. In a session to which no Signed Video SEI is added, every call returns and has a defined
    outcome, and every report says: not signed, nothing validated, all NALUs pending, none found wrong or
    missing. Any other calls may be mixed in, and the stream may be of any kind and length. *)
Theorem C30_unsigned C Ov fuel c ops :
  Forall (adds_unsigned c) ops -> (1 <= fuel)%nat ->
  exists v res, vrun C Ov fuel (vcreate C c) ops = Def (v, res) /\ ~ In VLegacy res /\ Forall says_unsigned (all_reports res).
Proof.
  intros H HF. destruct fuel as [|f]; [inversion HF|]. exact (run_uns C Ov f ops (vcreate C c) (create_uns C c) H).
Qed.
Definition unsigned_video : list vop := adds (gop_i 1 ++ gop_i 2 ++ [[0; 0; 0; 1; 6; 1] ++ [20] ++ repeat 7 20 ++ [128]] ++ gop_i 3) ++ [VGetReport; VReset] ++ adds (gop_i 4).
(** A report comes with each new GOP and on request. *)
Example C30_case : Forall (adds_unsigned H264) unsigned_video /\
  match vrun toy OvfUndef 1 (vcreate toy H264) unsigned_video with
  | Def (_, res) => map (fun p => (l_auth (p_latest p), a_recv (p_acc p), l_vstr (p_latest p))) (all_reports res)
  | Undef _ => []
  end = [(NotSigned, 4, [80; 80; 80; 80]); (NotSigned, 8, [80; 80; 80; 80; 80; 80; 95; 80]);
         (NotSigned, 10, [80; 80; 80; 80; 80; 80; 95; 80])].
Proof.
  split; [|vm_compute; reflexivity].
  repeat (apply Forall_cons; [first [exact I | right; eexists; split; [vm_compute; reflexivity|reflexivity]]|]); apply Forall_nil.
Qed.

(** C34. Setting the public key succeeds at most once in a session, and never after a NALU has been added
    (a reset does not change that). *)
Theorem C34_key_set_once C Ov fuel c ops v res : vrun C Ov fuel (vcreate C c) ops = Def (v, res) ->
  ForallOrdPairs (fun x y => key_set x \/ nalu_added x -> ~ key_set y) (combine ops res).
Proof. exact (run_once C Ov fuel ops (vcreate C c) v res). Qed.
(** A call refused with SV_NOT_SUPPORTED or SV_INVALID_PARAMETER changes nothing: leave it out, and all
    other calls give the same results. Partial: not if it fails with SV_EXTERNAL_ERROR, see below. *)
Theorem C34_refused_partial C Ov fuel c a k b v ra st rb :
  vrun C Ov fuel (vcreate C c) (a ++ VSetKey k :: b) = Def (v, ra ++ VRes st None :: rb) -> length ra = length a ->
  st = SV_NOT_SUPPORTED \/ st = SV_INVALID_PARAMETER ->
  vrun C Ov fuel (vcreate C c) (a ++ b) = Def (v, ra ++ rb).
Proof. exact (run_refused C Ov fuel a k b (vcreate C c) v ra st rb). Qed.
Definition statuses (x : out (valid * list vres)) : list svrc :=
  match x with Def (_, rs) => flat_map (fun r => match r with VRes st _ => [st] | VLegacy => [] end) rs | Undef _ => [] end.
Definition key_ops : list vop := [VSetKey [75; 88]; VSetKey [75; 89]] ++ adds (gop_i 1) ++ [VReset; VSetKey [75; 90]].
Example C34_case : statuses (vrun toy OvfUndef 9 (vcreate toy H264) key_ops) =
  [SV_OK; SV_NOT_SUPPORTED; SV_OK; SV_OK; SV_OK; SV_OK; SV_NOT_SUPPORTED].
Proof. vm_compute. reflexivity. Qed.
(** C34 in full is false: a call that fails because the key cannot be read does change something. A good
    key is refused after it. *)
Theorem C34_refused_refuted : exists C k1 k2,
  statuses (vrun C OvfUndef 9 (vcreate C H264) [VSetKey k1; VSetKey k2]) = [SV_EXTERNAL_ERROR; SV_NOT_SUPPORTED] /\
  statuses (vrun C OvfUndef 9 (vcreate C H264) [VSetKey k2]) = [SV_OK].
Proof. exists toy, [1; 2], [75; 88]. split; vm_compute; reflexivity. Qed.

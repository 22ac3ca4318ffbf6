(** C36: malformed NALUs. C37: reset. *)
From Verif Require Import Base BaseProofs Nalu Crypto Types Signer SignSpec Toy VTypes NaluList Validator ValidSpec VUnsigned VReset VToy PropsKey.
Local Open Scope N_scope.

(** C36. In a session to which only NALUs are added that are no Signed Video SEIs, start with a start code and have a
    byte after the header, every call has a defined outcome, whatever other bytes the NALUs have and whatever calls are
    mixed in. A SEI with user data must be long enough for the size and the identifier in it.
    Partial: nothing is said of Signed Video SEIs and of NALUs that are too short; with those the full statement is
    false, see below. *)
Theorem C36_other_nalus_partial C overflow fuel c ops :
  Forall (fun o => match o with VAdd d _ => other_nalu c d | _ => True end) ops -> (1 <= fuel)%nat ->
  exists v res, vrun C overflow fuel (vcreate C c) ops = Def (v, res).
Proof. exact (other_defined C overflow fuel c ops). Qed.
(** Pictures with any content, and SEIs with user data of others. *)
Example C36_case : forall x y, bytes_ok x -> bytes_ok y ->
  other_nalu H264 ([0; 0; 0; 1; 0x65; 7] ++ x) /\ other_nalu H265 ([0; 0; 1; 0x26; 1; 9] ++ x) /\
  other_nalu H264 ([0; 0; 1; 0x06; 5; 255; 255; 3; 9; 9; 9; 9; 9; 9; 9; 9; 9; 9; 9; 9; 9; 9; 9; 9] ++ y).
Proof.
  intros x y HX HY. split; [|split].
  - exists [0; 0; 0; 1], [0x65], 7, x. repeat split; [auto|apply Forall_app; split; [repeat constructor|exact HX]|cbn; discriminate].
  - exists [0; 0; 1], [0x26; 1], 9, x. repeat split; [auto|apply Forall_app; split; [repeat constructor|exact HX]|cbn; intros [H|H]; discriminate].
  - exists [0; 0; 1], [0x06], 5, ([255; 255; 3; 9; 9; 9; 9; 9; 9; 9; 9; 9; 9; 9; 9; 9; 9; 9; 9] ++ y).
    repeat split; [auto|apply Forall_app; split; [repeat constructor|exact HY]|]. intros _ _. exists 2%nat, 3, (repeat 9 16), y. repeat split; [discriminate|vm_compute; discriminate].
Qed.

(** C36 in full is false. A NALU that is too short; one of zeros only; a SEI with user data that is too short; a SEI with
    a size that does not end; a public key longer than the SEI; a tag without a decoder, after a SEI with the key; a
    vendor tag in a first SEI; hashes longer than the memory for them; a general tag too short for its version; a
    lost SEI. *)
Definition sei (tlv : list N) : list N :=
  [0; 0; 0; 1; 6; 5; N.of_nat (17 + length tlv)] ++ uuid_sv ++ [176] ++ tlv ++ [128].
Definition outcome (l : list (list N)) : option ub :=
  match vrun toy OvfUndef 9 (vcreate toy H264) (adds l) with Def _ => None | Undef u => Some u end.
Theorem C36_malformed_refuted :
  outcome [[0]] = Some OobRead /\
  outcome [[0; 0; 0; 0; 0; 0]] = Some OobRead /\
  outcome [[0; 0; 0; 1; 6; 5; 4; 1; 2; 3; 4; 128]] = Some OobRead /\
  outcome [[0; 0; 0; 1; 6; 5; 255; 255; 255]] = Some OobRead /\
  outcome [idr [1]; sei [2; 0; 200; 2; 75]] = Some OobRead /\
  outcome (gop_i 1 ++ [gsei 1; idr [2]; sei [0; 2; 1; 2]]) = Some NullDeref /\
  outcome [idr [1]; sei [129; 2; 1; 2]] = Some OobRead /\
  outcome (gop_i 1 ++ [gsei 1; idr [2]; sei ([1; 141; 3] ++ zeros 140)]) = Some OobWrite /\
  outcome (gop_i 1 ++ [gsei 1; idr [2]; sei ([1; 4; 3] ++ zeros 40)]) = Some OobRead /\
  outcome (gop_i 1 ++ [gsei 1] ++ gop_i 2 ++ gop_i 3 ++ [gsei 3]) = Some SignedOverflow.
Proof. vm_compute. auto 12. Qed.

(** C37. After a reset a session reports video without signatures as a new one does, whatever happened before: not
    signed, nothing validated, all NALUs pending. Partial: nothing is said of signed video after the reset, for which
    the full statement is false, see below; the session is not one handed to the legacy code. *)
Theorem C37_reset_partial C overflow fuel c a b v ra :
  vrun C overflow (S fuel) (vcreate C c) a = Def (v, ra) -> v_legacy v = false -> Forall (adds_unsigned c) b ->
  exists v2 rb, vrun C overflow (S fuel) v (VReset :: b) = Def (v2, VRes SV_OK None :: rb) /\
    ~ In VLegacy rb /\ Forall says_unsigned (all_reports rb).
Proof. exact (after_reset C overflow fuel c a b v ra). Qed.
(** Signed video with a forged GOP, then a reset and video without signatures. *)
Example C37_case : match vrun toy OvfUndef 9 (vcreate toy H264) (forged_ops ++ [VReset] ++ adds (gop_i 1 ++ gop_i 2)) with
  | Def (_, res) => map (fun p => (l_auth (p_latest p), a_auth (p_acc p), a_recv (p_acc p))) (all_reports res)
  | Undef _ => []
  end = [(AuthOk, AuthOk, 4); (NotOk, NotOk, 8); (NotSigned, NotSigned, 4)].
Proof. vm_compute. reflexivity. Qed.

(** C37 in full is false: the public key survives the reset. Video signed with another key is reported OK by a new
    session, but not OK by one that validated another video before the reset. *)
Theorem C37_reset_refuted : exists C c a b,
  (exists v res, vrun C OvfUndef 9 (vcreate C c) b = Def (v, res) /\
     map (fun p => (l_auth (p_latest p), p_changed p)) (all_reports res) = [(AuthOk, false)]) /\
  (exists v res, vrun C OvfUndef 9 (vcreate C c) (a ++ VReset :: b) = Def (v, res) /\
     map (fun p => (l_auth (p_latest p), p_changed p)) (all_reports res) = [(AuthOk, false); (NotOk, true)]).
Proof.
  exists toy, H264, (adds (gop_i 1 ++ [gsei 1])), (adds (gop_i 1 ++ [nth 0 forged_seis []])).
  split; do 2 eexists; (split; [vm_compute; reflexivity|reflexivity]).
Qed.

(** C47: a GOP is authentic only after the GOP it was signed after. *)
From Verif Require Import Base BaseProofs Nalu Crypto Types Signer SignSpec Toy VTypes NaluList Validator ValidSpec MatchSpec VToy PropsKey AuthSpec AuthProofs AuthBytes PropsAuth
  LinkSpec LinkProofs.
Local Open Scope N_scope.

(** C47. In every session, whatever NALUs are added: if the first NALU [d] of a GOP is shown authentic ('.'), and [q] is the
    first NALU of the GOP added before, then the signature of some SEI was verified that vouches for [d] and whose linked
    hash is the hash of [q]. So GOPs are not shown authentic in another order, with one left out, or with one put in between.
    Partial: all digests have the same size, checking a signature never fails with an error, sessions without golden SEIs, up to
    the first NALU that is refused. *)
Theorem C47_gop_order_partial C Ov K fuel c ops v res : crypto_ok C -> (forall oid n, c_oid C oid = OidDigest n -> n = K) -> Ov <> OvfIdeal ->
  (forall k s h, c_verify C k s h = 0%Z \/ c_verify C k s h = 1%Z) -> Forall asking ops -> Forall of_bytes ops -> Forall (not_golden c) ops ->
  vrun C Ov fuel (vcreate C c) ops = Def (v, res) -> ~ In VLegacy res -> ordered c (follows C c K) [] None [] ops res.
Proof. exact (fun HC HK HO HV => session_ordered C c K Ov HC HK HO HV fuel ops v res). Qed.

(** C47. If there is only one digest and the linked hash is that of the NALU [q0], then [q] consists of the bytes of [q0],
    or hits its hash, or the hash of something hashed for [q] is zero. *)
Theorem C47_same_bytes C c oid n q q0 x0 : crypto_ok C -> (forall o m, c_oid C o = OidDigest m -> o = oid /\ m = n) ->
  picture_hash C c q0 x0 -> unlike c n q -> unlike c n q0 -> (exists x, picture_hash C c q x /\ (agree n x0 x \/ x = zeros n)) ->
  same_bytes c q q0 \/ hit C c n oid q q0 x0 \/ exists y, fed C c n oid q y /\ c_hash C oid y = zeros n.
Proof. exact (fun HC H1 => link_same C c n oid HC H1 q q0 x0). Qed.

(** Three GOPs as they were signed: all authentic. *)
Definition as_signed : list vop := adds (gop_i 1 ++ [gsei 1] ++ gop_i 2 ++ [gsei 2] ++ gop_i 3 ++ [gsei 3]).
Definition good_gop (a : authres) : option (authres * authres * list N * list N) := Some (AuthOk, a, [46; 46; 46; 46], [73; 80; 80; 83]).
Definition bad_gop : option (authres * authres * list N * list N) := Some (NotOk, NotOk, [78; 78; 78; 46], [73; 80; 80; 83]).
Example C47_as_signed : says (vrun toy1 OvfUndef 9 (vcreate toy1 H264) as_signed) =
  [None; None; None; good_gop AuthOk; None; None; None; good_gop AuthOk; None; None; None; good_gop AuthOk].
Proof. vm_compute. reflexivity. Qed.

(** The third GOP is left out with its SEI: the fourth is shown invalid. *)
Definition left_out : list vop := adds (gop_i 1 ++ [gsei 1] ++ gop_i 2 ++ [gsei 2] ++ gop_i 4 ++ [gsei 4] ++ gop_i 5 ++ [gsei 5]).
Example C47_left_out : says (vrun toy1 OvfWrap 9 (vcreate toy1 H264) left_out) =
  [None; None; None; good_gop AuthOk; None; None; None; good_gop AuthOk; None; None; None; bad_gop; None; None; None; good_gop NotOk].
Proof. vm_compute. reflexivity. Qed.

(** Two GOPs are swapped with their SEIs: both are shown invalid, and the one after them. *)
Definition swapped : list vop := adds (gop_i 1 ++ [gsei 1] ++ gop_i 3 ++ [gsei 3] ++ gop_i 2 ++ [gsei 2] ++ gop_i 4 ++ [gsei 4] ++ gop_i 5 ++ [gsei 5]).
Example C47_swapped : says (vrun toy1 OvfWrap 9 (vcreate toy1 H264) swapped) =
  [None; None; None; good_gop AuthOk; None; None; None; bad_gop; None; None; None; bad_gop; None; None; None; bad_gop; None; None; None; good_gop NotOk].
Proof. vm_compute. reflexivity. Qed.

(** The hypotheses of the theorem hold of these sessions. *)
Definition in_order_case (ops : list vop) : Prop :=
  Forall asking ops /\ Forall of_bytes ops /\ Forall (not_golden H264) ops /\
  (exists v res, vrun toy1 OvfWrap 9 (vcreate toy1 H264) ops = Def (v, res) /\ ~ In VLegacy res).
Ltac case_of :=
  unfold in_order_case; split; [repeat (apply Forall_cons; [reflexivity|]); apply Forall_nil|];
  split; [repeat (apply Forall_cons; [repeat (apply Forall_cons; [reflexivity|]); apply Forall_nil|]); apply Forall_nil|];
  split; [repeat (apply Forall_cons; [vm_compute; reflexivity|]); apply Forall_nil|];
  do 2 eexists; split; [vm_compute; reflexivity|]; cbn [In]; intuition congruence.
Example C47_case : in_order_case left_out /\ in_order_case swapped.
Proof. split; case_of. Qed.
Example C47_case_crypto : crypto_ok toy1 /\ (forall oid n, c_oid toy1 oid = OidDigest n -> n = 32%nat) /\
  (forall k s h, c_verify toy1 k s h = 0%Z \/ c_verify toy1 k s h = 1%Z).
Proof.
  split; [exact toy1_ok|]. split; [intros oid n H; exact (proj2 (toy1_one oid n H))|].
  intros k s h. cbn. destruct (bytes_eqb _ _); auto.
Qed.

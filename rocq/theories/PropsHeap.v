(** C57, C58: the memory of the list of NALUs that wait for validation. *)
From Verif Require Import Base Nalu Crypto Types Signer SignSpec Toy VTypes NaluList Validator ValidSpec VToy PropsBooks NaluHeap HeapSpec HeapProofs HeapLink.
Local Open Scope N_scope.

(** C57. The list of NALUs is a linked list on the heap. Wherever malloc puts the items, and however NALUs, missing ones and
    removals come in turn: every step gives what it gives for a plain sequence, all pointers between the items are right, nothing that was freed
    is used, every loop over the list ends, every item that is left is in the list, every NALU that is left belongs to the list, and no copy is lost.
    If a step has no result for a plain sequence (an operation on an item or a SEI that is not there), it has none in memory for the same reason. *)
Theorem C57_list_in_memory alloc vs : (forall t used, ~ In (alloc t used) used) -> Forall proper vs ->
  match lrun [] (flat vs) with
  | Def (l, r) => exists m, hrun alloc hcreate (flat vs) = Def (m, r) /\ stored m l /\ owned m /\ m_lost m = 0%nat
  | Undef u => hrun alloc hcreate (flat vs) = Undef u
  end.
Proof. exact (fun fresh P => all_ok alloc fresh vs P). Qed.

(** Freeing the list frees all items and all NALUs in them, whatever was done before. *)
Theorem C57_all_freed alloc vs m r : (forall t used, ~ In (alloc t used) used) -> Forall proper vs ->
  hrun alloc hcreate (flat vs) = Def (m, r) ->
  exists m', hexec alloc m LFreeItems = Def (m', RDone) /\ m_heap m' = [] /\ m_lost m' = 0%nat.
Proof. exact (fun fresh P E => emptied alloc fresh vs P m r E). Qed.

(** C58. Whatever is done with a validating session: the NALUs it keeps are what is left of a series of list operations that begins, for every NALU
    that was handed over, with adding it. In memory, wherever malloc puts the items, these operations use a NALU of the user only in the
    call that handed it over. At the end, the NALUs that the session keeps are its own copies; the user can reuse or free
    the memory of every NALU right after the call. No copy is lost, and closing the session frees them all. Not for a session that was handed over to
    the legacy code. *)
Theorem C58_own_copies C Ov fuel c ops v res : vrun C Ov fuel (vcreate C c) ops = Def (v, res) -> v_legacy v = false ->
  exists vs xs, Forall proper vs /\ Forall2 (fun n d => parse_nalu d c true true = Def n) (fed vs) (flat_map given ops) /\
    forall alloc, (forall t used, ~ In (alloc t used) used) ->
    exists m, hrun alloc hcreate (flat vs) = Def (m, xs) /\ stored m (v_items v) /\ owned m /\ m_lost m = 0%nat /\
    exists m', hexec alloc m LFreeItems = Def (m', RDone) /\ m_heap m' = [] /\ m_lost m' = 0%nat.
Proof. exact (own_copies C Ov fuel c ops v res). Qed.

(** Two allocators: one never uses an address twice, the other takes the lowest free one. *)
Definition above (t : nat) (used : list N) : N := 4096 + 32 * fold_right N.max 0 used.
Definition lowest (t : nat) (used : list N) : N := match find (fun a => negb (existsb (N.eqb a) used)) (map N.of_nat (seq 1 (S (length used)))) with Some a => a | None => above t used end.
Lemma above_fresh t used : ~ In (above t used) used.
Proof. apply top_fresh. Qed.
Lemma lowest_fresh t used : ~ In (lowest t used) used.
Proof. apply low_fresh. intros _. apply top_fresh. Qed.

(** A history: two NALUs, with two missing ones between them; the first is found valid; the string shows that, and the missing ones in front are removed. *)
Definition one_nalu (d : list N) : nalu := match parse_nalu d H264 true true with Def n => n | Undef _ => nalu_init end.
Definition history : list visit :=
  [Feed (one_nalu (idr [1])) [LCounts] true []; Feed (one_nalu (pic [1; 1])) [LMissing 2 false 1; LSet 0 (set_i_status SValid); LSet 3 (set_i_used true); LCounts] true [LStrings; LCleanUp; LStrings];
   Clear; Feed (one_nalu (idr [2])) [] true [LStrings]].
Lemma history_proper : Forall proper history.
Proof.
  unfold history. repeat (apply Forall_cons || apply Forall_nil); cbn [proper]; auto; split; repeat (apply Forall_cons || apply Forall_nil); cbn [tidy edit]; auto.
  - apply keeps_status. discriminate.
  - apply keeps_used.
Qed.
Example C57_case : forall alloc, alloc = above \/ alloc = lowest ->
  match hrun alloc hcreate (flat history) with
  | Def (m, r) => (length (m_heap m), h_num (m_list m), r) = (1%nat, 1%nat,
      [RDone; RCounts (0, 0, false)%Z 1%Z; RCode SV_OK; RDone;
       RDone; RCode SV_OK; RDone; RDone; RCounts (0, 2, false)%Z 1%Z; RCode SV_OK; RDone; RStrings [46; 77; 77; 80; 0] [73; 32; 32; 80; 0]; RNum 1; RStrings [80; 0] [80; 0];
       RDone; RDone; RCode SV_OK; RDone; RStrings [80; 0] [73; 0]])
  | Undef _ => False
  end.
Proof. intros alloc [-> | ->]; vm_compute; reflexivity. Qed.
(** The model tells wrong uses of the list from right ones: a NALU that is not copied before the caller returns, a second copy, an item that is not there. *)
Example C57_dangling : hrun lowest hcreate [LAppend (one_nalu (idr [1])); LReturn; LStrings] = Undef UseAfterFree.
Proof. vm_compute. reflexivity. Qed.
Example C57_leak : match hrun lowest hcreate [LAppend (one_nalu (idr [1])); LCopy true; LCopy true] with Def (m, _) => m_lost m | Undef _ => 0%nat end = 1%nat.
Proof. vm_compute. reflexivity. Qed.
Example C57_beyond : hrun lowest hcreate [LAppend (one_nalu (idr [1])); LSet 1 (set_i_used true)] = Undef NullDeref.
Proof. vm_compute. reflexivity. Qed.

(** A session that meets C58: the stream of C42_case, with a lost NALU; two NALUs are left waiting. *)
Example C58_case : match vrun toy OvfUndef 9 (vcreate toy H264) (adds lossy) with
  | Def (v, _) => (v_legacy v, nalu_str (v_items v), length (flat_map given (adds lossy))) = (false, [73; 83; 80], 9%nat)
  | Undef _ => False
  end.
Proof. vm_compute. reflexivity. Qed.

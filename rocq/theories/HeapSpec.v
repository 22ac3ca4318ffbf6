(** The list of NALUs in memory: vocabulary. *)
From Verif Require Import Base Nalu Crypto Types Hash VTypes NaluList Validator NaluHeap.
Local Open Scope N_scope.

(** The address of the first item of a list, and of the last one; [e] and [p] if there is none. *)
Definition first_of (l : list (N * slot)) (e : option N) : option N := match l with [] => e | x :: _ => Some (fst x) end.
Fixpoint last_of (l : list (N * slot)) (p : option N) : option N := match l with [] => p | x :: r => last_of r (Some (fst x)) end.
(** The items [l] at these addresses are in the memory, one after the other: the pointers to the next one and to the one
    before are right. Before the first one comes [p], after the last one [e]. *)
Fixpoint seg (h : heap) (p : option N) (l : list (N * slot)) (e : option N) : Prop :=
  match l with
  | [] => True
  | x :: r => get h (fst x) = Some (mkCell p (first_of r e) (snd x)) /\ seg h (Some (fst x)) r e
  end.
(** The list in memory has the items [l], at addresses that are all different; the first, the last and the number are known; no other address is in use. *)
Definition stored (m : mem) (l : list item) : Prop := exists al,
  map (fun x => s_item (snd x)) al = l /\ NoDup (map fst al) /\ seg (m_heap m) None al None /\
  h_first (m_list m) = first_of al None /\ h_last (m_list m) = last_of al None /\ h_num (m_list m) = length l /\
  NoDup (map fst (m_heap m)) /\ (forall a, In a (map fst (m_heap m)) -> In a (map fst al)).

(** Every item that has a NALU has a copy of its own: nothing in the list points to memory of a caller. *)
Definition owned (m : mem) : Prop := forall a c, get (m_heap m) a = Some c -> i_nalu (c_item c) <> None -> s_from (c_slot c) = None.

(** The same operations on a list that is just a sequence (NaluList.v). *)
Definition in_place (pos : nat) (f : item -> item) (l : list item) : list item := firstn pos l ++ map f (firstn 1 (skipn pos l)) ++ skipn (S pos) l.
Definition lexec (l : list item) (o : lop) : out (list item * lres) :=
  match o with
  | LAppend n => Def (list_append l n, RDone)
  | LMissing num append pos =>
      if (length l <=? pos)%nat || (num <? 0)%Z then Def (l, RCode SV_INVALID_PARAMETER) else Def (add_missing num append pos l, RCode SV_OK)
  | LRemoveMissing => Def (remove_missing_items l, RDone)
  | LCleanUp => let '(l, k) := clean_up l in Def (l, RNum k)
  | LFreeItems => Def ([], RDone)
  | LCopy known => do (l, st) <- copy_last known l; Def (l, RCode st)
  | LReturn => Def (l, RDone)
  | LSet pos f => if (length l <=? pos)%nat then Undef NullDeref else Def (in_place pos f l, RDone)
  | LSetSei f => match next_sei l with None => Undef NullDeref | Some _ => Def (on_next_sei f l, RDone) end
  | LCounts => Def (l, RCounts (get_stats l) (num_pending l))
  | LStrings => Def (l, RStrings (validation_str l ++ [0]) (nalu_str l ++ [0]))
  end.
Fixpoint lrun (l : list item) (ops : list lop) : out (list item * list lres) :=
  match ops with
  | [] => Def (l, [])
  | o :: r => do (l, x) <- lexec l o; do (l, xs) <- lrun l r; Def (l, x :: xs)
  end.

(** ** How the validator uses the list *)
(** Assignments that neither give an item a NALU nor take it away, nor mark an item as missing. *)
Definition keeps (f : item -> item) : Prop := forall it,
  (i_nalu (f it) = None <-> i_nalu it = None) /\ (i_status (f it) = SMiss -> i_status it = SMiss).
Definition edit (o : lop) : Prop :=
  match o with
  | LMissing _ _ _ | LRemoveMissing | LCounts => True
  | LSet _ f | LSetSei f => keeps f
  | _ => False
  end.
Definition tidy (o : lop) : Prop := match o with LCleanUp | LStrings => True | _ => edit o end.
(** A NALU is added, the list is worked on, the last NALU is copied and the function that has the NALU returns; after that there is more work
    on the list, and validated items are removed. Or the list is emptied. *)
Inductive visit := Feed (n : nalu) (work : list lop) (known : bool) (after : list lop) | Clear.
Definition proper (v : visit) : Prop := match v with Feed _ work _ after => Forall edit work /\ Forall tidy after | Clear => True end.
Definition flat1 (v : visit) : list lop :=
  match v with Feed n work known after => LAppend n :: work ++ LCopy known :: LReturn :: after | Clear => [LFreeItems] end.
Definition flat (vs : list visit) : list lop := flat_map flat1 vs.
Definition fed (vs : list visit) : list nalu := flat_map (fun v => match v with Feed n _ _ _ => [n] | Clear => [] end) vs.

(** The NALUs a call hands over. *)
Definition given (o : vop) : list (list N) := match o with VAdd (b :: r) _ => [b :: r] | _ => [] end.

(** Vocabulary for the comparison of received NALUs with a list of signed hashes. *)
From Verif Require Import Base Nalu VTypes NaluList Validator.
Local Open Scope N_scope.

(** [l] can be obtained from [m] by leaving out elements. *)
Inductive subseq {A} : list A -> list A -> Prop :=
| subseq_nil m : subseq [] m
| subseq_take a l m : subseq l m -> subseq (a :: l) (a :: m)
| subseq_skip a l m : subseq l m -> subseq l (a :: m).

(** The hash by which a received NALU is compared: the plain hash for the first NALU of a GOP, otherwise the
    hash with the reference. *)
Definition own_hash (hs : nat) (it : item) : list N :=
  firstn hs (match i_nalu it with
             | Some n => if n_first_in_gop n then match i_second it with Some x => x | None => [] end else i_hash it
             | None => []
             end).
(** An item standing for a NALU that was found missing just now. *)
Definition new_missing (it : item) : bool := match i_nalu it with None => i_used it | Some _ => false end.
Definition is_valid (it : item) : bool := vstat_eqb (i_status it) SValid.
Definition is_invalid (it : item) : bool := vstat_eqb (i_status it) SInvalid.

(** The NALUs to compare: those marked, before the SEI. They are pending pictures; the one that starts the GOP
    has already been used for the linked hash. *)
Definition to_compare (it : item) : Prop :=
  i_used it = true ->
  pending it = true /\ exists n, i_nalu it = Some n /\ n_gop_sei n = false /\ (n_first_in_gop n = true -> i_linked it = true).
Definition ready (l : list item) : Prop :=
  exists a b, l = a ++ b /\ Forall to_compare a /\
    Forall (fun it => item_sei it && pending it = false) a /\ Forall (fun it => i_used it = false) b.

(** The first NALU found authentic is taken as not authentic. *)
Fixpoint spoil (l : list item) : list item :=
  match l with
  | [] => []
  | it :: r => if i_used it && is_valid it then set_i_status SInvalid it :: r else it :: spoil r
  end.

(** After a comparison: the items without those for NALUs found missing; the NALUs compared; the number of NALUs
    found missing. *)
Definition kept (m : list item) : list item := filter (fun it => negb (new_missing it)) m.
Definition cmp (m : list item) : list item := filter i_used (filter (fun it => negb (new_missing it)) m).
Definition fresh (m : list item) : nat := length (filter new_missing m).
(** What a comparison may do to an item: a NALU to compare is judged; a pending SEI may become authentic; nothing else
    changes. *)
Definition was_sei (a b : item) : Prop := b = a \/ (item_sei a = true /\ pending a = true /\ b = set_i_status SValid a).
Definition verdict_of (x y : item) : Prop :=
  if i_used x then y = set_i_status SValid x \/ y = set_i_status SInvalid x else was_sei x y.


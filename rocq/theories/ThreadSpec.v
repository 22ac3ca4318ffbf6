(** What users rely on from the central signing thread: vocabulary. A history is a list of events, see [tev], with the list of
    their results. *)
From Verif Require Import Base Crypto Signer PlugTypes Plugin Threaded PlugSpec.

(** The hashes accepted from the session with the given id. *)
Fixpoint accepted (id : N) (evs : list tev) (rs : list tres) : list (list N) :=
  match evs, rs with
  | TSign i h :: evs, RSign SV_OK :: rs => if (i =? id)%N then h :: accepted id evs rs else accepted id evs rs
  | _ :: evs, _ :: rs => accepted id evs rs
  | _, _ => []
  end.

(** What the session was given: the room it offered, the signature if there is one, and the return code. Calls that left the
    caller's size variable untouched gave nothing. *)
Record given := mkGiven { gv_room : nat; gv_sig : option (list N); gv_st : svrc }.
Fixpoint received (id : N) (evs : list tev) (rs : list tres) : list given :=
  match evs, rs with
  | TGet i room :: evs, RGet (mkGres (Some _) sig st) :: rs =>
      if (i =? id)%N then mkGiven room sig st :: received id evs rs else received id evs rs
  | _ :: evs, _ :: rs => received id evs rs
  | _, _ => []
  end.

(** [g] is the outcome of signing the hash [h]: a signature of it, or the message that there is none, or that it did not fit. *)
Definition outcome_of (C : crypto) (key : list N) (max : nat) (h : list N) (g : given) : Prop :=
  match gv_sig g with
  | Some sig => gv_st g = SV_OK /\ signature_of C key h sig /\ (length sig <= gv_room g)%nat
  | None =>
      (gv_st g = SV_EXTERNAL_ERROR /\ not_signed C key max h) \/
      (gv_st g = SV_INVALID_PARAMETER /\ exists sig, signature_of C key h sig /\ (gv_room g < length sig)%nat)
  end.

(** [a] is [b] with some elements left out. *)
Inductive sub {A} : list A -> list A -> Prop :=
| sub_nil : sub [] []
| sub_keep x a b : sub a b -> sub (x :: a) (x :: b)
| sub_skip x a b : sub a b -> sub a (x :: b).

(** One lifetime of the plugin: it is not initialised again and stopped at most once. Ids are not zero, which is what
    C26 shows of those handed out. All hashes have the same size. *)
Definition in_lifetime (size : nat) (e : tev) : Prop :=
  match e with
  | TInit _ => False
  | TTeardown id => id <> 0%N
  | TSign id h => id <> 0%N /\ (h = [] \/ length h = size)
  | TGet id _ => id <> 0%N
  | _ => True
  end.
Fixpoint exits (evs : list tev) : nat :=
  match evs with [] => 0 | TExit :: evs => S (exits evs) | _ :: evs => exits evs end.
Definition lifetime (size : nat) (evs : list tev) : Prop := Forall (in_lifetime size) evs /\ (exits evs <= 1)%nat.

(** The plugin right after initialisation, whatever ids have been handed out before. *)
Definition started (C : crypto) (key : list N) (last coin : N) : cdata := fst (central_init C (set_cd_last last (central_zero coin)) key).

(** All accepted hashes whose outcome nobody has been given. *)
Fixpoint waiting (evs : list tev) (rs : list tres) : nat -> nat :=
  match evs, rs with
  | TSign _ _ :: evs, RSign SV_OK :: rs => fun n => waiting evs rs (S n)
  | TGet _ _ :: evs, RGet (mkGres (Some _) _ _) :: rs => fun n => waiting evs rs (n - 1)
  | _ :: evs, _ :: rs => waiting evs rs
  | _, _ => fun n => n
  end.

(** ** Ids *)

(** The ids of the open sessions after a history. Stopping the plugin ends all sessions. *)
Fixpoint open_ids (o : list N) (evs : list tev) (rs : list tres) : list N :=
  match evs, rs with
  | TSetup :: evs, RSetup (Some i) :: rs => open_ids (o ++ [i]) evs rs
  | TTeardown i :: evs, _ :: rs => open_ids (filter (fun j => negb (j =? i)%N) o) evs rs
  | TExit :: evs, _ :: rs => open_ids [] evs rs
  | _ :: evs, _ :: rs => open_ids o evs rs
  | _, _ => o
  end.

(** The plugin has been initialised and not stopped. *)
Fixpoint is_up (u : bool) (evs : list tev) (rs : list tres) : bool :=
  match evs, rs with
  | TInit _ :: evs, RInit true :: rs => is_up true evs rs
  | TExit :: evs, _ :: rs => is_up false evs rs
  | _ :: evs, _ :: rs => is_up u evs rs
  | _, _ => u
  end.

(** Events that are not calls of the session with the given id. *)
Definition of_others (id : N) (e : tev) : Prop :=
  match e with TSign i _ | TGet i _ | TTeardown i => i <> id | _ => True end.

(** Two sessions; both submit a hash and both hashes are signed. *)
Definition two_sessions : list tev := [TSetup; TSetup; TSign 1 [10]; TSign 2 [20]; TTake; TFinish; TTake; TFinish]%N.

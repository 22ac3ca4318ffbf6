(** Vocabulary for: the verdict of a report fits the statuses of the NALUs it shows. *)
From Verif Require Import Base Crypto Types VTypes Validator ValidSpec.
Local Open Scope N_scope.

(** The NALUs a report shows: the character of the type of each (nalu_str) with the character of its status
    (validation_str). *)
Definition shown_as (p : report) : list (N * N) := combine (l_nstr (p_latest p)) (l_vstr (p_latest p)).

(** Some NALU is shown as not authentic ('N'), missing ('M') or in error ('E'). *)
Definition shows_damage (p : report) : Prop := exists t s, In (t, s) (shown_as p) /\ (s = 78 \/ s = 77 \/ s = 69).
(** Every NALU shown as not authentic is a SEI ('S'). *)
Definition only_seis_bad (p : report) : Prop := forall t, In (t, 78) (shown_as p) -> t = 83.
(** Some NALU is shown as missing. *)
Definition shows_missing (p : report) : Prop := exists t, In (t, 77) (shown_as p).

(** Call [i] of a session adds a NALU and returns the report [p]. *)
Definition gives (ops : list vop) (res : list vres) (i : nat) (p : report) : Prop :=
  exists d w st, nth_error ops i = Some (VAdd d w) /\ nth_error res i = Some (VRes st (Some p)).
(** Every NALU added is accepted. *)
Definition all_accepted (ops : list vop) (res : list vres) : Prop :=
  forall i d w x, nth_error ops i = Some (VAdd d w) -> nth_error res i = Some x -> exists r, x = VRes SV_OK r.
(** There is no reset after call [i] and before call [j]. *)
Definition no_reset_between (ops : list vop) (i j : nat) : Prop :=
  forall k, (i < k)%nat -> (k < j)%nat -> nth_error ops k <> Some VReset.

(** Conditions on signing sessions with signatures that come late. *)
From Verif Require Import Base Crypto Types Signer Late SignSpec.

(** The private key and the emulation prevention setting are only changed before anything is signed. *)
Fixpoint set_first (ops : list sop) : Prop :=
  match ops with
  | [] => True
  | o :: r =>
      match o with
      | OAdd _ _ _ | OGolden | OEos => Forall (fun o => match o with OKey _ | OEpb _ => False | _ => True end) r
      | _ => set_first r
      end
  end.

(** The calls of a session. *)
Definition ops_of (l : list (sop * (poll * poll))) : list sop := map fst l.

(** The worker thread could make every signature. *)
Definition no_failure (x : sop * (poll * poll)) : Prop :=
  po_fails (fst (snd x)) = false /\ po_fails (snd (snd x)) = false.

(** A pull that finds every signature there. *)
Definition pull_all : sop * (poll * poll) := (OGet true [], (mkPoll 60 false, mkPoll 60 false)).

(** Every call finds all signatures there, as with the plugin that signs at once. *)
Definition at_once (o : sop) : sop * (poll * poll) := (o, (mkPoll 60 false, mkPoll 60 false)).

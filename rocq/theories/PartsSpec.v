(** Sessions in which NALUs are handed over in parts. *)
From Verif Require Import Base Nalu Crypto Types Signer SignSpec.
Local Open Scope N_scope.

(** A call of the user: a NALU with the parts it is cut into, or any other call. *)
Inductive call := Nalu (parts : list (list N)) (ts : option Z) | Other (o : sop).

(** The calls actually made: every NALU as a whole, or part by part. *)
Definition as_whole (e : call) : list sop :=
  match e with Nalu ps ts => [OAdd (concat ps) ts true] | Other o => [o] end.
Definition in_parts (e : call) : list sop :=
  match e with
  | Nalu ps ts => map (fun p => OAdd p ts false) (removelast ps) ++ [OAdd (last ps []) ts true]
  | Other o => [o]
  end.

(** Sensible cuts of a NALU: no part is empty; the first part contains all the framework reads in order
    to recognise the NALU; the last part is more than trailing zeros. *)
Definition cut_ok (c : codec) (ps : list (list N)) : Prop :=
  match ps with
  | [] => False
  | [_] => True
  | p :: _ =>
      (exists n, parse_nalu p c false false = Def n) /\ Forall (fun q => q <> []) ps /\
      (exists b, In b (last ps []) /\ b <> 0) /\ nlen (concat ps) < 2 ^ 64
  end.
Definition call_ok (C : crypto) (c : codec) (e : call) : Prop :=
  match e with
  | Nalu ps ts => cut_ok c ps /\ op_ok C (OAdd (concat ps) ts true)
  | Other o => op_ok C o /\ match o with OAdd _ _ _ => False | _ => True end
  end.

(** How the answers relate: every call gets the answer it got before; the parts before the last one
    are answered with SV_OK, or all parts are refused like the whole NALU. *)
Inductive same_answers : list call -> list sres -> list sres -> Prop :=
| SameNil : same_answers [] [] []
| SameOther o es r rs rs' : same_answers es rs rs' -> same_answers (Other o :: es) (r :: rs) (r :: rs')
| SameNalu ps ts es st r rs rs' : same_answers es rs rs' ->
    st = SV_OK \/ (st = SV_NOT_SUPPORTED /\ rs_code r = SV_NOT_SUPPORTED) ->
    same_answers (Nalu ps ts :: es) (r :: rs) (repeat (code st) (length ps - 1) ++ r :: rs').

(** No NALU is left unfinished by a list of calls: its last added part is marked as the last one. *)
Fixpoint finished (done : bool) (ops : list sop) : bool :=
  match ops with
  | [] => done
  | OAdd (_ :: _) _ l :: r => finished l r
  | OReset :: r => finished true r
  | _ :: r => finished done r
  end.

(** Calls that fetch SEIs, and fetches that peek at the next NALU. *)
Definition is_pull (o : sop) : Prop := match o with OGet _ _ | OPrepend => True | _ => False end.
Definition peeks (o : sop) : Prop := match o with OGet _ (_ :: _) => True | _ => False end.

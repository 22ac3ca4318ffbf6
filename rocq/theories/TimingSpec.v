(** Conditions on signing sessions in which SEIs are pulled at any time. *)
From Verif Require Import Base Nalu Crypto Types Signer SignSpec GopSpec Late LateSpec.
Local Open Scope N_scope.

(** A NALU is added, and then the user asks for SEIs any number of times, in any way. *)
Record turn := mkTurn { tu_piece : piece; tu_poll : poll * poll; tu_gets : list (bool * list N * (poll * poll)) }.
Definition turn_ops (t : turn) : list (sop * (poll * poll)) :=
  (OAdd (p_data (tu_piece t)) (p_ts (tu_piece t)) true, tu_poll t) ::
  map (fun x => (OGet (fst (fst x)) (snd (fst x)), snd x)) (tu_gets t).

(** A session as [signs] in GopSpec.v, but the signatures come late, and the SEIs are asked for at any
    time. In the end they are pulled until none is left. *)
Definition signs_anytime (C : crypto) (c : codec) (coin : N) (setup : list sop) (polls : list (poll * poll))
    (before : list piece) (gs : list (list piece)) (turns : list turn) (rs : list sres) : Prop :=
  length polls = length setup /\ map tu_piece turns = before ++ concat gs /\
  Forall no_failure (flat_map turn_ops turns) /\
  Forall (op_ok C) setup /\ Forall (fun o => is_setting o = true) setup /\
  Exists (fun o => exists pem, o = OKey pem) setup /\
  Forall (seen c) (before ++ concat gs) /\
  Forall (fun p => p_first p = false /\ p_bytes p = None) before /\ Forall is_gop gs /\
  (exists s, run_late C (combine setup polls ++ flat_map turn_ops turns ++ repeat pull_all 60) (create c coin) = Def (s, rs)) /\
  Forall (fun r => rs_code r = SV_OK) rs.

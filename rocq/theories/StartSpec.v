(** What the report for a golden SEI says: vocabulary. *)
From Verif Require Import Base Nalu GopSpec VTypes NaluList Validator E2eSpec.
Local Open Scope N_scope.

(** The report for a golden SEI that comes after [k] NALUs, none of them hashed: the stream is signed, the SEI itself is authentic
    ('.'), the NALUs before it are not found bad ('_' and 'U' say that a NALU is not hashed), and no other public key was seen before. *)
Definition greets (k : nat) (q : report) : Prop :=
  l_auth (p_latest q) = SigPresent /\ a_auth (p_acc q) = SigPresent /\ p_changed q = false /\
  exists s, l_vstr (p_latest q) = s ++ [46] /\ length s = k /\ Forall (fun x => In x [46; 95; 85]) s.

(** NALUs that are not hashed, parameter sets say. *)
Definition plain_nalus (c : codec) (ps : list piece) : Prop :=
  Forall (seen c) ps /\ Forall (legal c) ps /\ Forall (fun p => p_first p = false /\ p_bytes p = None) ps.

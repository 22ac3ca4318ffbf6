(** Signing one stream after another with one session. *)
From Verif Require Import Base Nalu NaluSpec Crypto Types Signer SignSpec GopSpec.
Local Open Scope N_scope.

(** A stream: NALUs before the first GOP, then GOPs. Between two streams the session is reset. *)
Definition stream := (list piece * list (list piece))%type.
Definition stream_ops (x : stream) : list sop := flat_map feed (fst x ++ concat (snd x)).
Fixpoint streams_ops (ss : list stream) : list sop :=
  match ss with
  | [] => []
  | x :: r => stream_ops x ++ match r with [] => [] | _ => OReset :: streams_ops r end
  end.

(** A session in which everything works, as in [signs], for any number of streams. *)
Definition signs_each (C : crypto) (c : codec) (coin : N) (setup : list sop) (ss : list stream) (rs : list sres) : Prop :=
  Forall (op_ok C) setup /\ Forall (fun o => is_setting o = true) setup /\
  Exists (fun o => exists pem, o = OKey pem) setup /\
  Forall (fun x : stream => Forall (seen c) (fst x ++ concat (snd x)) /\
    Forall (fun p => p_first p = false /\ p_bytes p = None) (fst x) /\ Forall is_gop (snd x)) ss /\
  (exists s, run C (setup ++ streams_ops ss) (create c coin) = Def (s, rs)) /\
  Forall (fun r => rs_code r = SV_OK) rs.

(** The number of SEIs for the GOPs of these streams: the last GOP of a stream gets none. *)
Definition seis_made (ss : list stream) : nat := list_sum (map (fun x : stream => length (snd x) - 1)%nat ss).
(** The number of pictures in these streams. *)
Definition pictures_in (ss : list stream) : N := frames (flat_map (fun x : stream => fst x ++ concat (snd x)) ss).

(** The number of pictures seen when the last SEI was made. [lo] is that number before these GOPs, [f] the number of pictures
    before them. The SEI of a GOP is made when the next GOP begins. *)
Fixpoint sei_made_at (lo f : N) (gs : list (list piece)) : N :=
  match gs with
  | g :: (((nx :: _) :: _) as rest) => sei_made_at (f + frames g + (if p_frame nx then 1 else 0)) (f + frames g) rest
  | _ => lo
  end.
Fixpoint last_made_at (lo f : N) (ss : list stream) : N :=
  match ss with
  | [] => lo
  | x :: r => last_made_at (sei_made_at lo (f + frames (fst x)) (snd x)) (f + frames (fst x ++ concat (snd x))) r
  end.

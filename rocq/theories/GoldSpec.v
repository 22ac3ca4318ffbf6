(** Golden SEIs: vocabulary. *)
From Verif Require Import Base Nalu Crypto Types CodecSpec SeiSpec SignSpec Signer GopSpec.
Local Open Scope N_scope.

(** The settings [w] with frame level authenticity. *)
Definition framed (w : settings) : settings :=
  let '(mkSettings pub ms prod ap fr rec epb us mx oid) := w in mkSettings pub ms prod ap true rec epb us mx oid.

(** [x] is a golden SEI for the settings [w]: it carries the data a validator needs to start, the public key, the information
    about the product and the hash algorithm, and is signed on its own. It describes no GOP and has no counter. *)
Definition golden_with (C : crypto) (c : codec) (w : settings) (x : list N) : Prop :=
  exists sig key, c_priv C key = Some (w_pub w, w_max_sig w) /\
    signed_sei C c x (w_epb w) true (recurrent_fields w) (w_max_sig w) key (w_oid w) sig.

(** A session made to get a golden SEI for later use: settings, among them a private key, then
    [signed_video_generate_golden_sei] and [signed_video_get_sei]. Everything works. *)
Definition makes_golden (C : crypto) (c : codec) (coin : N) (setup : list sop) (rs : list sres) : Prop :=
  Forall (op_ok C) setup /\ Forall (fun o => is_setting o = true) setup /\
  Exists (fun o => exists pem, o = OKey pem) setup /\
  (exists s, run C (setup ++ [OGolden; OGet true []]) (create c coin) = Def (s, rs)) /\
  Forall (fun r => rs_code r = SV_OK) rs.

(** A session as [signs] of GopSpec.v that starts with a golden SEI. *)
Definition signs_golden (C : crypto) (c : codec) (coin : N) (setup : list sop) (before : list piece)
    (gs : list (list piece)) (rs : list sres) : Prop :=
  Forall (op_ok C) setup /\ Forall (fun o => is_setting o = true) setup /\
  Exists (fun o => exists pem, o = OKey pem) setup /\
  Forall (seen c) (before ++ concat gs) /\
  Forall (fun p => p_first p = false /\ p_bytes p = None) before /\ Forall is_gop gs /\
  (exists s, run C (setup ++ [OGolden; OGet true []] ++ flat_map feed (before ++ concat gs)) (create c coin) = Def (s, rs)) /\
  Forall (fun r => rs_code r = SV_OK) rs.

(** The settings [w] and [w2] agree on what a golden SEI carries and how it is signed and written. *)
Definition same_start (w w2 : settings) : Prop :=
  w_pub w = w_pub w2 /\ w_max_sig w = w_max_sig w2 /\ w_prod w = w_prod w2 /\ w_add_pub w = w_add_pub w2 /\
  w_epb w = w_epb w2 /\ w_oid w = w_oid w2.

(** A stream on its way from the signer to the validator: vocabulary. *)
From Verif Require Import Base Nalu Crypto Types CodecSpec SeiSpec Signer SignSpec GopSpec VTypes NaluList Validator.
Local Open Scope N_scope.

(** Key pairs work: the public key that belongs to a private key is accepted, and signatures made with the private key
    are good for it. *)
Definition keys_work (C : crypto) : Prop :=
  forall key pub max, c_priv C key = Some (pub, max) ->
    c_pub_ok C pub = true /\ forall coin h sig, c_sign C key coin h = Some sig -> c_verify C pub sig h = 1%Z.

(** A NALU of the stream is no Signed Video SEI, and if it is hashed its header is legal. (Its size fits in memory.) *)
Definition legal (c : codec) (p : piece) : Prop :=
  p_data p <> [] /\ nlen (p_data p) < 2 ^ 63 /\
  forall n, parse_nalu (p_data p) c true false = Def n ->
    n_gop_sei n = false /\ (n_hashable n = true -> n_valid n = 1%Z).

(** What arrives at the validator: NALUs of the stream and SEIs. A SEI comes with the hashed NALUs [xs] of the GOP
    it closes and those of the next GOP that have already arrived. *)
Inductive arrival := Pic (p : piece) | Sei (y : list N) (xs later : list (list N)).
Definition sends (a : arrival) : vop := match a with Pic p => VAdd (p_data p) true | Sei y _ _ => VAdd y true end.

(** Arrival in order. [g] is the current GOP, [b] the part of it still to come, [gs] the GOPs after it and [xs] the
    SEIs still to come. The SEI of a GOP follows it after some NALUs of the next GOP, none or all of them. *)
Inductive in_order (epb : bool) : list piece -> list piece -> list (list piece) -> list (list N) -> list arrival -> Prop :=
| last_gop g b : in_order epb g b [] [] (map Pic b)
| next_gop g b a b' gs x y xs r :
    delivered epb x y -> in_order epb (a ++ b') b' gs xs r ->
    in_order epb g b ((a ++ b') :: gs) (x :: xs) (map Pic b ++ map Pic a ++ Sei y (hashed g) (hashed a) :: r).
(** The whole stream: NALUs before the first GOP, and the GOPs. *)
Definition transmits (epb : bool) (before : list piece) (gs : list (list piece)) (xs : list (list N)) (l : list arrival) : Prop :=
  match gs with
  | [] => l = map Pic before
  | g :: gs => exists r, l = map Pic before ++ r /\ in_order epb g g gs xs r
  end.

(** How many characters of a string are [x]. *)
Definition times (x : N) (s : list N) : nat := length (filter (N.eqb x) s).

(** A report that finds the GOP with the hashed NALUs [xs] authentic while [later] hashed NALUs wait: all that were
    sent were received (the SEI has 16 bits for their number), the key is the same as before, and no NALU is
    missing ('M'), not authentic ('N') or in error ('E'): they are authentic ('.'), not hashed ('_', 'U') or wait
    ('P'). *)
Definition reports_ok (xs later : list (list N)) (p : report) : Prop :=
  l_auth (p_latest p) = AuthOk /\ a_auth (p_acc p) = AuthOk /\
  l_recv (p_latest p) = Z.of_nat (length xs) /\ l_exp (p_latest p) = Z.of_N (nlen xs mod 2 ^ 16) /\
  l_pend (p_latest p) = Z.of_nat (length later) /\
  p_changed p = false /\ a_changed (p_acc p) = false /\
  Forall (fun s => In s [46; 95; 85; 80]) (l_vstr (p_latest p)) /\
  (length xs < times 46 (l_vstr (p_latest p)))%nat /\ times 80 (l_vstr (p_latest p)) = length later.

(** The answers to what arrives: nothing to report for the NALUs of the stream, except that before the first SEI
    the beginning of a GOP may be answered with "not signed"; a report as above for every SEI. *)
Fixpoint answers (seen_sei : bool) (l : list arrival) (rs : list vres) : Prop :=
  match l, rs with
  | [], [] => True
  | Pic p :: l, r :: rs =>
      (r = VRes SV_OK None \/
       (seen_sei = false /\ p_first p = true /\
        exists q, r = VRes SV_OK (Some q) /\ l_auth (p_latest q) = NotSigned)) /\
      answers seen_sei l rs
  | Sei _ xs later :: l, r :: rs =>
      (exists q, r = VRes SV_OK (Some q) /\ reports_ok xs later q) /\ answers true l rs
  | _, _ => False
  end.

(** A signed stream that is damaged on its way to the validator: vocabulary. *)
From Verif Require Import Base Nalu Crypto Types CodecSpec SeiSpec Signer SignSpec GopSpec VTypes NaluList Validator E2eSpec.
Local Open Scope N_scope.

(** What happens at the validator: a NALU of the stream arrives, or the SEI [y] that closes a GOP. [sent] are the
    hashed NALUs of that GOP as they were signed and [got] those that arrived; [sent_before] and [got_before] are the
    first ones of the GOP before it (none for the first GOP), and [later] the hashed NALUs of the next GOP that have
    already arrived. *)
Inductive event :=
| Seen (p : piece)
| Closed (y : list N) (sent got : list (list N)) (sent_before got_before : option (list N)) (later : list (list N)).
Definition feeds (e : event) : vop := match e with Seen p => VAdd (p_data p) true | Closed y _ _ _ _ _ => VAdd y true end.

(** The GOP arrived as it was signed, and so did the first NALU of the GOP before it, if one arrived. *)
Definition intact (sent got : list (list N)) (sent_before got_before : option (list N)) : Prop :=
  got = sent /\ (got_before = sent_before \/ got_before = None).

(** Arrival in order. [g] is the current GOP as it was signed and [h] what arrives of it, [b] the part of [h] still to
    come; [gs] and [hs] are the GOPs after it, signed and arriving, [xs] the SEIs still to come, [sp] and [hp] the first
    hashed NALU of the GOP before, signed and arrived. Nothing is said on what [h] has to do with [g]. *)
Inductive arrives (epb : bool) : option (list N) -> option (list N) -> list piece -> list piece -> list piece ->
  list (list piece) -> list (list piece) -> list (list N) -> list event -> Prop :=
| arrives_last sp hp g h b : arrives epb sp hp g h b [] [] [] (map Seen b)
| arrives_next sp hp g h b g' a b' gs hs x y xs r :
    delivered epb x y -> arrives epb (hd_error (hashed g)) (hd_error (hashed h)) g' (a ++ b') b' gs hs xs r ->
    arrives epb sp hp g h b (g' :: gs) ((a ++ b') :: hs) (x :: xs)
      (map Seen b ++ map Seen a ++ Closed y (hashed g) (hashed h) sp hp (hashed a) :: r).
(** The whole stream: NALUs before the first GOP, and the GOPs. *)
Definition comes (epb : bool) (before : list piece) (gs hs : list (list piece)) (xs : list (list N)) (l : list event) : Prop :=
  match gs, hs with
  | [], [] => l = map Seen before
  | g :: gs, h :: hs => exists r, l = map Seen before ++ r /\ arrives epb None None g h h gs hs xs r
  | _, _ => False
  end.

(** What every report at a SEI says, damage or not: there is a verdict, [later] hashed NALUs wait, and the public key
    is the same as before. *)
Definition keeps_book (later : list (list N)) (p : report) : Prop :=
  In (l_auth (p_latest p)) [NotOk; OkMissing; AuthOk] /\
  l_pend (p_latest p) = Z.of_nat (length later) /\ times 80 (l_vstr (p_latest p)) = length later /\
  p_changed p = false /\ a_changed (p_acc p) = false.
(** The GOP with the hashed NALUs [xs] is found authentic: see [reports_ok] in E2eSpec.v. *)
Definition finds_ok (xs : list (list N)) (p : report) : Prop :=
  l_auth (p_latest p) = AuthOk /\
  l_recv (p_latest p) = Z.of_nat (length xs) /\ l_exp (p_latest p) = Z.of_N (nlen xs mod 2 ^ 16) /\
  Forall (fun s => In s [46; 95; 85; 80]) (l_vstr (p_latest p)) /\
  (length xs < times 46 (l_vstr (p_latest p)))%nat.

(** The answers to what happens. [clean] says that everything so far was intact. *)
Fixpoint told (seen_sei : bool) (clean : Prop) (l : list event) (rs : list vres) : Prop :=
  match l, rs with
  | [], [] => True
  | Seen p :: l, r :: rs =>
      (r = VRes SV_OK None \/
       (seen_sei = false /\ p_first p = true /\
        exists q, r = VRes SV_OK (Some q) /\ l_auth (p_latest q) = NotSigned)) /\
      told seen_sei clean l rs
  | Closed _ sent got sb gb later :: l, r :: rs =>
      (exists q, r = VRes SV_OK (Some q) /\ keeps_book later q /\
         (intact sent got sb gb -> finds_ok got q) /\
         (clean -> intact sent got sb gb -> a_auth (p_acc q) = AuthOk)) /\
      told true (clean /\ intact sent got sb gb) l rs
  | _, _ => False
  end.

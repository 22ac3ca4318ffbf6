(** The end of a signed stream at the validator: vocabulary. *)
From Verif Require Import Base Nalu Crypto Types CodecSpec SeiSpec Signer SignSpec GopSpec VTypes NaluList Validator MatchSpec E2eSpec DamageSpec LossSpec.
Local Open Scope N_scope.

(** The GOP before the last one; empty if there is none. *)
Fixpoint before_last (gs : list (list piece)) : list piece :=
  match gs with [] => [] | g :: rest => match rest with [_] => g | _ => before_last rest end end.

(** What the report [q] at the last SEI says when the GOPs [gs] were signed and the GOPs [hss] arrived. No NALU waits. If the
    last GOP arrived as it was signed, as did the first NALU of the one before, it is found authentic. If all GOPs arrived
    as they were signed the accumulated verdict says so too. And the report tells which NALUs of the last GOP were lost, changed
    or added, as in LossSpec.v, but there is one more way out: what arrived for the last GOP has the same hash as the GOP
    before it. *)
Definition ends_with (C : crypto) (w : settings) (gs hss : list (list piece)) (q : report) : Prop :=
  let H := c_hash C (w_oid w) in
  let sent := hashed (last gs []) in
  let got := hashed (last hss []) in
  let sb := hd_error (hashed (before_last gs)) in
  let gb := hd_error (hashed (before_last hss)) in
  keeps_book [] q /\ (intact sent got sb gb -> finds_ok got q) /\
  (Forall2 (fun g h => hashed h = hashed g) gs hss -> a_auth (p_acc q) = AuthOk) /\
  (hd_error got = hd_error sent -> gb = sb \/ gb = None ->
   tells sent got q \/ clash H sent got \/
   H (concat (hashes H got)) = H (concat (hashes H (hashed (before_last gs))))).

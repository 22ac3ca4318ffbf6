(** The format in which older versions of the signer wrote their SEIs, written down independently of the
    validator. It differs from SeiSpec.v and GopSpec.v in four things: two bits of the reserved byte are not
    set; the general information ends after the timestamp; the hashes of a GOP include that of the first
    NALU of the next GOP; and without a list of hashes what is signed is a hash chained over the hashes of
    the GOP and that of the SEI. *)
From Verif Require Import Base Nalu Crypto Types CodecSpec SeiSpec SignSpec GopSpec VTypes NaluList Validator E2eSpec.
Local Open Scope N_scope.

Definition old_flags (epb : bool) : N := if epb then 128 else 0.
Definition old_sei (c : codec) (epb : bool) (fs : list (N * list N)) : list N :=
  [0; 0; 0; 1] ++ sei_front c (17 + nlen (wires fs)) (old_flags epb) ++ wrapped epb (wires fs) ++ [0x80].
Definition old_part (c : codec) (epb : bool) (fs : list (N * list N)) (f : N * list N) : list N :=
  sei_front c (17 + nlen (wires (fs ++ [f]))) (old_flags epb) ++ wrapped epb (wires fs).

(** General information: version of the format, GOP counter, number of hashes, version of the library
    (1.1.0), timestamp. *)
Definition old_general (k n : N) (ts : option Z) : list N :=
  [2] ++ digits 4 (k mod 2 ^ 32) ++ digits 2 (n mod 2 ^ 16) ++ [1; 1; 0] ++
  (match ts with Some t => 1 :: digits 8 (Z.to_N (t mod 2 ^ 64)) | None => [0] end).

(** The hashes a SEI stands for: those of the NALUs [xs], the first of which starts a GOP and the last of
    which, unless it is the only one, starts the next GOP. *)
Definition old_list (C : crypto) (w : settings) (xs : list (list N)) : list N :=
  concat (hashes (c_hash C (w_oid w)) xs).

(** The fields in front of the signature. *)
Definition old_fields (C : crypto) (w : settings) (k : N) (xs : list (list N)) (ts : option Z) : list (N * list N) :=
  recurrent_fields w ++ [(1, old_general k (nlen xs) ts)] ++
  (if w_frame w then [(4, 1 :: old_list C w xs)] else []).

(** The hash chained over hashes, from a fixed beginning. *)
Definition chained (H : list N -> list N) (hs : list (list N)) : list N :=
  fold_left (fun g h => H (g ++ h)) hs (H [1]).

(** What is signed: with a list the hash of the SEI, without a list the chained hash. [d] are the bytes of
    the SEI in front of the signature. *)
Definition old_digest (C : crypto) (w : settings) (xs : list (list N)) (d : list N) : list N :=
  let H := c_hash C (w_oid w) in
  if w_frame w then H d else chained H (hashes H xs ++ [H d]).

(** The signature field; its third byte tells which of the two was signed. *)
Definition old_sig (w : settings) (sig : list N) : N * list N :=
  (5, [1; 0; if w_frame w then 1 else 0] ++ digits 2 (nlen sig) ++ padded (w_max_sig w) sig).

(** [y] is a SEI of an older version for the hashed NALUs [xs], with counter [k] and a signature that
    verifies with the public key of the settings. Its escapes are few (see C27) and its list is within
    19200 bytes. *)
Definition old_sei_for (C : crypto) (c : codec) (w : settings) (k : N) (xs : list (list N)) (y : list N) : Prop :=
  exists sig ts, (0 < length sig <= w_max_sig w)%nat /\ bytes_ok sig /\
    match ts with Some t => (-9223372036854775808 <= t < 9223372036854775808)%Z | None => True end /\
    (w_frame w = true -> nlen (old_list C w xs) <= 19200) /\
    let fs := old_fields C w k xs ts in
    few_escapes (w_epb w) fs (w_max_sig w) /\
    y = old_sei c (w_epb w) (fs ++ [old_sig w sig]) /\
    c_verify C (w_pub w) sig (old_digest C w xs (old_part c (w_epb w) fs (old_sig w sig))) = 1%Z.

(** Settings a signer can have: a digest the library knows, a usable public key, five strings of product
    information. *)
Record old_settings (C : crypto) (w : settings) (hs : nat) : Prop := mkOld {
  os_oid : c_oid C (w_oid w) = OidDigest hs;
  os_oid_bytes : w_oid w <> [] /\ nlen (w_oid w) < 254 /\ bytes_ok (w_oid w);
  os_pub : w_add_pub w = true /\ c_pub_ok C (w_pub w) = true;
  os_pub_bytes : w_pub w <> [] /\ nlen (w_pub w) < 65535 /\ bytes_ok (w_pub w);
  os_prod : length (w_prod w) = 5%nat /\ Forall (Forall (fun b => 0 < b < 256)) (w_prod w);
  os_sig : N.of_nat (w_max_sig w) + 5 < 65536 }.

(** A recording of an older version: for each GOP a SEI, perhaps some NALUs that are not hashed, and the NALUs
    of the GOP. The SEI has the counter [k] and stands for the hashed NALUs [xs] of the GOP before, if there
    is one, and the first NALU of its own. *)
Inductive old_stream (C : crypto) (c : codec) (w : settings) : N -> list (list N) -> list arrival -> Prop :=
| old_end k xs : old_stream C c w k xs []
| old_gop k xs y un p x r l :
    Forall (seen c) (un ++ p :: r) -> Forall (legal c) (un ++ p :: r) ->
    Forall (fun q => p_bytes q = None /\ p_first q = false) un -> p_first p = true -> p_bytes p = Some x ->
    Forall (fun q => p_first q = false) r ->
    old_sei_for C c w k (xs ++ [x]) y ->
    old_stream C c w (k + 1) (x :: hashed r) l ->
    old_stream C c w k xs (Sei y (xs ++ [x]) [] :: map Pic un ++ map Pic (p :: r) ++ l).

(** The answers to such a recording: every call succeeds, and with the first NALU of each GOP comes a report
    that finds the NALUs before it authentic. [xs] are the hashed NALUs of the SEI that was last. *)
Fixpoint old_answers (xs : list (list N)) (l : list arrival) (rs : list (svrc * option report)) : Prop :=
  match l, rs with
  | [], [] => True
  | Sei _ xs _ :: l, r :: rs => r = (SV_OK, None) /\ old_answers xs l rs
  | Pic p :: l, r :: rs =>
      (if p_first p then exists q, r = (SV_OK, Some q) /\
         l_auth (p_latest q) = AuthOk /\ a_auth (p_acc q) = AuthOk /\
         l_recv (p_latest q) = Z.of_nat (length xs) /\ l_pend (p_latest q) = 1%Z /\
         p_changed q = false /\ Forall (fun s => In s [46; 95; 85; 80]) (l_vstr (p_latest q)) /\
         times 46 (l_vstr (p_latest q)) = length xs /\ times 80 (l_vstr (p_latest q)) = 1%nat
       else r = (SV_OK, None)) /\
      old_answers xs l rs
  | _, _ => False
  end.

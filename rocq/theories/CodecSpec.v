(** Specification vocabulary for the codec properties, independent of the encoders and decoders. *)
From Verif Require Import Base Nalu Crypto Types.
Local Open Scope N_scope.

(** The big-endian digits of [v] in base 256, [n] of them. *)
Fixpoint digits (n : nat) (v : N) : list N :=
  match n with
  | O => []
  | S k => digits k (v / 256) ++ [v mod 256]
  end.

(** The value of a big-endian byte string. *)
Definition value_of (l : list N) : N := fold_left (fun a b => a * 256 + b) l 0.

(** Wire format of one field: tag byte, big-endian length (one byte for GENERAL = 1 and
    CRYPTO_INFO = 7, two bytes for all other tags), value. *)
Definition wire_width (tag : N) : nat := if (tag =? 1) || (tag =? 7) then 1%nat else 2%nat.
Definition wire (f : N * list N) : list N :=
  fst f :: digits (wire_width (fst f)) (nlen (snd f)) ++ snd f.
Definition wires (fs : list (N * list N)) : list N := flat_map wire fs.

(** Tags a validator knows, and the values that can be represented. *)
Definition wire_ok (f : N * list N) : Prop :=
  In (fst f) [1; 2; 3; 4; 5; 6; 7; 129] /\
  nlen (snd f) < 256 ^ N.of_nat (wire_width (fst f)).

(** Padding written after a signature that is shorter than the maximum. *)
Definition padded (max : nat) (sig : list N) : list N := sig ++ repeat 1 (max - length sig).

(** What the report shows for a product information string: at most 254 characters; empty if not
    set. *)
Definition shown (o : option (list N)) : list N :=
  match o with None => [] | Some s => firstn 254 s end.

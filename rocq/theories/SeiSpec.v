(** The format of a Signed Video SEI, written down independently of the signer and the validator. *)
From Verif Require Import Base Nalu CodecSpec.
Local Open Scope N_scope.

(** Emulation prevention of the H.26x standards: after two zero bytes a byte 0..3 is preceded by an
    inserted 3. [z] is the number of zero bytes just before. *)
Fixpoint esc (z : nat) (l : list N) : list N :=
  match l with
  | [] => []
  | b :: r =>
      if (2 <=? z)%nat && (b <=? 3)
      then 3 :: b :: esc (if b =? 0 then 1 else 0) r
      else b :: esc (if b =? 0 then S z else 0) r
  end.

(** Number of zero bytes at the end of [l], given [z] before it. *)
Fixpoint zeros_after (z : nat) (l : list N) : nat :=
  match l with
  | [] => z
  | b :: r =>
      if (2 <=? z)%nat && (b <=? 3) then zeros_after (if b =? 0 then 1 else 0) r
      else zeros_after (if b =? 0 then S z else 0) r
  end.

(** The payload size in the SEI header: bytes 255 and a last byte below 255 that add up to it. *)
Definition ff_size (n : N) : list N := repeat 255 (N.to_nat (n / 255)) ++ [n mod 255].

(** NAL unit header and SEI payload type 5 (user data unregistered). *)
Definition sei_type_bytes (c : codec) : list N :=
  match c with H264 => [0x06; 0x05] | H265 => [0x4e; 0x01; 0x05] end.

(** UUID of Signed Video: "Signed Video...." 5369676e-6564-2056-6964-656f2e2e2e30. *)
Definition sv_uuid : list N :=
  [0x53; 0x69; 0x67; 0x6e; 0x65; 0x64; 0x20; 0x56; 0x69; 0x64; 0x65; 0x6f; 0x2e; 0x2e; 0x2e; 0x30].

(** Everything before the metadata. [size] is the payload size, [res] the reserved byte. *)
Definition sei_front (c : codec) (size res : N) : list N :=
  sei_type_bytes c ++ ff_size size ++ sv_uuid ++ [res].

(** The reserved byte of this version. *)
Definition sei_flags (epb golden : bool) : N :=
  (if epb then 128 else 0) + (if golden then 64 else 0) + 48.

(** Metadata with or without escapes; the byte before them is not zero. *)
Definition wrapped (epb : bool) (l : list N) : list N := if epb then esc 0 l else l.

(** A SEI with the given fields (the signature being the last one): start code, front, metadata,
    stop bit. *)
Definition sei (c : codec) (epb golden : bool) (fs : list (N * list N)) : list N :=
  [0; 0; 0; 1] ++ sei_front c (17 + nlen (wires fs)) (sei_flags epb golden)
  ++ wrapped epb (wires fs) ++ [0x80].

(** The bytes of that SEI that are signed: from the NAL unit header up to the last field. *)
Definition signed_part (c : codec) (epb golden : bool) (fs : list (N * list N)) (f : N * list N) : list N :=
  sei_front c (17 + nlen (wires (fs ++ [f]))) (sei_flags epb golden) ++ wrapped epb (wires fs).

(** The value of the signature field: version, encoding status, hash type, the size of the signature
    and the signature padded to the maximum size. *)
Definition sig_value (max : nat) (sig : list N) : list N :=
  [1; 0; 1] ++ digits 2 (nlen sig) ++ padded max sig.

(** Fields that can stand before the signature. *)
Definition meta_ok (fs : list (N * list N)) : Prop :=
  Forall wire_ok fs /\ Forall (fun f => bytes_ok (snd f)) fs /\ Forall (fun f => fst f <> 5) fs.

(** Base layer: outcomes, bytes and big-endian integers.
    Models shared conventions of /repo/lib/src; cites the C text it stands for. *)
From Coq Require Export List NArith ZArith Lia Bool Arith.
From Coq Require Export ZifyBool ZifyNat ZifyN.
Export ListNotations.
Ltac Zify.zify_post_hook ::= Z.div_mod_to_equations.

(** Kinds of undefined behaviour that the modelled C code can run into. [Uninit] is a read
    of allocated memory that was never written, [Diverges] is used for a loop that never ends. *)
Inductive ub := OobRead | Uninit | OobWrite | NullDeref | SignedOverflow | UseAfterFree | AssertFail | Diverges.

(** Outcome of a C function: a defined result or undefined behaviour. *)
Inductive out (A : Type) : Type :=
| Def (a : A)
| Undef (u : ub).
Arguments Def {A} a.
Arguments Undef {A} u.

Definition obind {A B} (x : out A) (f : A -> out B) : out B :=
  match x with Def a => f a | Undef u => Undef u end.
Notation "'do' x <- e ; k" := (obind e (fun x => k))
  (at level 200, x pattern, e at level 100, k at level 200, right associativity).

Definition is_def {A} (x : out A) : Prop := exists a, x = Def a.
Definition is_undef {A} (x : out A) : Prop := exists u, x = Undef u.

(** SignedVideoReturnCode: lib/src/includes/signed_video_common.h. *)
Inductive svrc :=
| SV_OK | SV_MEMORY | SV_INVALID_PARAMETER | SV_NOT_SUPPORTED | SV_INCOMPATIBLE_VERSION
| SV_EXTERNAL_ERROR | SV_VENDOR_ERROR | SV_AUTHENTICATION_ERROR | SV_UNKNOWN_FAILURE.

Definition svrc_eqb (a b : svrc) : bool :=
  match a, b with
  | SV_OK, SV_OK | SV_MEMORY, SV_MEMORY | SV_INVALID_PARAMETER, SV_INVALID_PARAMETER
  | SV_NOT_SUPPORTED, SV_NOT_SUPPORTED | SV_INCOMPATIBLE_VERSION, SV_INCOMPATIBLE_VERSION
  | SV_EXTERNAL_ERROR, SV_EXTERNAL_ERROR | SV_VENDOR_ERROR, SV_VENDOR_ERROR
  | SV_AUTHENTICATION_ERROR, SV_AUTHENTICATION_ERROR | SV_UNKNOWN_FAILURE, SV_UNKNOWN_FAILURE => true
  | _, _ => false
  end.
Definition is_ok (r : svrc) : bool := svrc_eqb r SV_OK.

(** Bytes. *)
Definition byte_ok (b : N) : Prop := (b < 256)%N.
Definition bytes_ok (l : list N) : Prop := Forall byte_ok l.

Fixpoint bytes_eqb (a b : list N) : bool :=
  match a, b with
  | [], [] => true
  | x :: a', y :: b' => (x =? y)%N && bytes_eqb a' b'
  | _, _ => false
  end.

Definition zeros (n : nat) : list N := repeat 0%N n.
(** Length of a list as a size_t. *)
Definition nlen {A} (l : list A) : N := N.of_nat (length l).

(** Casts to unsigned C integers. *)
Definition u8 (x : N) : N := (x mod 256)%N.
Definition u16 (x : N) : N := (x mod 65536)%N.
Definition u32 (x : N) : N := (x mod 4294967296)%N.
Definition u64 (x : N) : N := (x mod 18446744073709551616)%N.
(** Unsigned subtraction on size_t (64 bits), wrapping below zero. *)
Definition sub64 (a b : N) : N := u64 (a + 18446744073709551616 - u64 b)%N.

(** Big-endian byte sequences written by encoders, e.g. signed_video_tlv.c:261-264
    ((uint8_t)((v >> 24) & 0xff) and so on). *)
Definition be16 (v : N) : list N := [u8 (v / 256); u8 v]%N.
Definition be32 (v : N) : list N :=
  [u8 (v / 16777216); u8 (v / 65536); u8 (v / 256); u8 v]%N.
Definition be64 (v : N) : list N :=
  (be32 (v / 4294967296) ++ be32 v)%N.

(** read_8bits, read_16bits, read_32bits, read_64bits: signed_video_tlv.c:1295-1349. The pointer is
    the list of bytes from the pointer to the end of the allocation; a read past it is undefined. *)
Definition read_8bits (p : list N) : out (N * list N) :=
  match p with
  | a :: r => Def (a, r)
  | _ => Undef OobRead
  end.
Definition read_16bits (p : list N) : out (N * list N) :=
  match p with
  | a :: b :: r => Def ((a * 256 + b)%N, r)
  | _ => Undef OobRead
  end.
Definition read_32bits (p : list N) : out (N * list N) :=
  match p with
  | a :: b :: c :: d :: r => Def ((a * 16777216 + b * 65536 + c * 256 + d)%N, r)
  | _ => Undef OobRead
  end.
Definition read_64bits (p : list N) : out (N * list N) :=
  do (hi, p1) <- read_32bits p;
  do (lo, p2) <- read_32bits p1;
  Def ((hi * 4294967296 + lo)%N, p2).

(** int64_t timestamp <-> its two's complement 64 bits: signed_video_tlv.c:277-286 and
    read_64bits_signed, signed_video_tlv.c:1311-1318. *)
Definition z_to_u64 (z : Z) : N := Z.to_N (z mod 18446744073709551616)%Z.
Definition u64_to_z (n : N) : Z :=
  if (n <? 9223372036854775808)%N then Z.of_N n else (Z.of_N n - 18446744073709551616)%Z.

(** Reading [n] bytes from memory (memcpy source). *)
Definition take_mem (n : nat) (p : list N) : out (list N * list N) :=
  if (n <=? length p)%nat then Def (firstn n p, skipn n p) else Undef OobRead.

(** memcpy of [src] to the start of a fixed array [dst]: bytes beyond keep their value; writing
    beyond the end of the array is undefined. *)
Definition put_mem (dst src : list N) : out (list N) :=
  if (length src <=? length dst)%nat then Def (src ++ skipn (length src) dst) else Undef OobWrite.

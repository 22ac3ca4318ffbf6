(** Emulation prevention: the byte writer and reader used for SEIs.
    Models signed_video_tlv.c:1351-1403. *)
From Verif Require Import Base.

(** [*last_two_bytes <<= 8; *last_two_bytes |= b] on a uint16_t: signed_video_tlv.c:1363-1364. *)
Definition lt_push (lt b : N) : N := ((lt * 256 + b) mod 65536)%N.

(** LAST_TWO_BYTES_INIT_VALUE: signed_video_internal.h. *)
Definition lt_init : N := 257%N. (* 0x0101 *)

(** write_byte: signed_video_tlv.c:1370-1388. Returns the new history and the bytes written. The
    test [(curr_byte & (~0x03)) == 0] on a byte is [curr_byte < 4]. Simplification: writing never
    fails here; the available space is accounted for where the buffer is allocated. *)
Definition write_byte (epb : bool) (lt b : N) : N * list N :=
  if epb && (b <? 4)%N && (lt =? 0)%N
  then (lt_push (lt_push lt 3) b, [3%N; b])
  else (lt_push lt b, [b]).

(** write_byte_many, and in general any sequence of write_byte calls with the same history:
    signed_video_tlv.c:1390-1403. *)
Fixpoint write_bytes (epb : bool) (lt : N) (l : list N) : N * list N :=
  match l with
  | [] => (lt, [])
  | b :: r =>
      let '(lt1, o1) := write_byte epb lt b in
      let '(lt2, o2) := write_bytes epb lt1 r in
      (lt2, o1 ++ o2)
  end.

(** read_byte: signed_video_tlv.c:1351-1368. Returns byte, new history and remaining memory. *)
Definition read_byte (epb : bool) (lt : N) (p : list N) : out (N * N * list N) :=
  match p with
  | [] => Undef OobRead
  | c :: r =>
      if epb && (c =? 3)%N && (lt =? 0)%N then
        match r with
        | [] => Undef OobRead
        | c2 :: r2 => Def (c2, lt_push (lt_push lt c) c2, r2)
        end
      else Def (c, lt_push lt c, r)
  end.

(** [n] consecutive read_byte calls, e.g. signed_video_h26x_common.c:551-555 and
    signed_video_tlv.c:1236-1238. *)
Fixpoint read_bytes (epb : bool) (n : nat) (lt : N) (p : list N) : out (list N * N * list N) :=
  match n with
  | O => Def ([], lt, p)
  | S n' =>
      do (c, lt1, p1) <- read_byte epb lt p;
      do (l, lt2, p2) <- read_bytes epb n' lt1 p1;
      Def (c :: l, lt2, p2)
  end.

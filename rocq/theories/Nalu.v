(** Parsing of H.264/H.265 NALUs.
    Models signed_video_h26x_common.c:305-691 (header tables, payload size, UUID, emulation
    prevention removal and parse_nalu_info). *)
From Verif Require Import Base Epb.
Local Open Scope N_scope.

(** SignedVideoCodec: includes/signed_video_common.h. Other values are refused by
    signed_video_create, so the bad-codec branch of parse_nalu_info is not reachable. *)
Inductive codec := H264 | H265.

(** SignedVideoFrameType: signed_video_h26x_internal.h:31-39. *)
Inductive ntype := TUndef | TSei | TI | TP | TPs | TAud | TOther.

Definition ntype_eqb (a b : ntype) : bool :=
  match a, b with
  | TUndef, TUndef | TSei, TSei | TI, TI | TP, TP | TPs, TPs | TAud, TAud | TOther, TOther => true
  | _, _ => false
  end.

(** h26x_nalu_t: signed_video_h26x_internal.h:119-145. Pointers are replaced by the memory they
    point at: [n_hash_mem] is the memory from hashable_data to the end of its allocation and
    [n_tlv_mem] from tlv_data. [n_tlv_off] is tlv_start_in_nalu_data - hashable_data.
    Omitted: start_code, uuid_type (equal to is_gop_sei), payload (only used inside parsing). *)
Record nalu := mkNalu {
  n_data_size : N;        (* nalu_data_size *)
  n_hash_mem : list N;    (* hashable_data *)
  n_hash_size : N;        (* hashable_data_size *)
  n_type : ntype;         (* nalu_type *)
  n_valid : Z;            (* is_valid: 1 valid, 0 invalid, -1 error *)
  n_hashable : bool;      (* is_hashable *)
  n_payload_size : N;     (* payload_size *)
  n_reserved : N;         (* reserved_byte *)
  n_tlv_off : nat;        (* tlv_start_in_nalu_data - hashable_data *)
  n_tlv_mem : list N;     (* tlv_data *)
  n_tlv_size : N;         (* tlv_size *)
  n_epb : Z;              (* emulation_prevention_bytes *)
  n_primary : bool;       (* is_primary_slice *)
  n_first_in_gop : bool;  (* is_first_nalu_in_gop *)
  n_gop_sei : bool;       (* is_gop_sei *)
  n_first_part : bool;    (* is_first_nalu_part *)
  n_last_part : bool;     (* is_last_nalu_part *)
  n_with_epb : bool;      (* with_epb *)
  n_golden : bool         (* is_golden_sei *)
}.

(** The initialisation at signed_video_h26x_common.c:589-600; also the result for a NULL pointer or
    size 0 (line 602). *)
Definition nalu_init : nalu :=
  mkNalu 0 [] 0 TUndef (-1) false 0 0 0 [] 0 0 false false false true true false false.

(** kUuidSignedVideo: signed_video_h26x_common.c:136-137. *)
Definition uuid_sv : list N :=
  [0x53; 0x69; 0x67; 0x6e; 0x65; 0x64; 0x20; 0x56; 0x69; 0x64; 0x65; 0x6f; 0x2e; 0x2e; 0x2e; 0x30].

(** parse_h264_nalu_header: signed_video_h26x_common.c:341-403. Returns type, primary-slice flag and
    header validity. Masks on the header byte are written with div/mod: bit 7 is [b / 128], bits 5-6
    are [(b / 32) mod 4], bits 0-4 are [b mod 32]. *)
Definition parse_h264_header (hd : list N) : out (ntype * bool * bool) :=
  match hd with
  | b0 :: b1 :: _ =>
      let forbidden := 128 <=? b0 in
      let ref := (b0 / 32) mod 4 in
      let ty := b0 mod 32 in
      let primary := 128 <=? b1 in
      let '(t, v) :=
        match ty with
        | 1 => (TP, true)
        | 2 | 3 | 4 => (TOther, true)
        | 5 => (TI, 0 <? ref)
        | 6 => (TSei, ref =? 0)
        | 7 | 8 | 13 | 15 => (TPs, 0 <? ref)
        | 9 => (TAud, true)
        | 10 | 11 | 12 => (TOther, ref =? 0)
        | _ => (TUndef, false)
        end in
      Def (t, primary, v && negb forbidden)
  | _ => Undef OobRead
  end.

(** parse_h265_nalu_header: signed_video_h26x_common.c:405-517. The third byte is only read if the
    temporal id is legal (early return at lines 418-421). *)
Definition parse_h265_header (hd : list N) : out (ntype * bool * bool) :=
  match hd with
  | b0 :: b1 :: r =>
      let forbidden := 128 <=? b0 in
      let ty := (b0 / 2) mod 64 in
      let layer := (b0 mod 2) * 32 + b1 / 8 in
      let tid1 := b1 mod 8 in
      let tid := tid1 - 1 in
      if (tid1 =? 0) || (63 <? layer) then Def (TUndef, false, false)
      else
        match r with
        | [] => Undef OobRead
        | b2 :: _ =>
            let primary := 128 <=? b2 in
            let '(t, v) :=
              match ty with
              | 0 | 1 => (TP, true)
              | 2 | 3 => (TOther, negb (tid =? 0))
              | 4 | 5 => (TOther, if layer =? 0 then negb (tid =? 0) else true)
              | 6 | 7 | 8 | 9 => (TOther, negb (tid =? 0))
              | 16 | 17 | 18 | 19 | 20 | 21 => (TI, tid =? 0)
              | 32 | 33 => (TPs, tid =? 0)
              | 34 => (TPs, true)
              | 35 => (TAud, true)
              | 36 | 37 => (TOther, (tid =? 0) && (layer =? 0))
              | 38 => (TOther, true)
              | 39 | 40 => (TSei, true)
              | _ => (TUndef, false)
              end in
            Def (t, primary, v && negb forbidden)
        end
  | _ => Undef OobRead
  end.

Definition parse_header (c : codec) (hd : list N) : out (ntype * bool * bool) :=
  match c with H264 => parse_h264_header hd | H265 => parse_h265_header hd end.

(** H264_NALU_HEADER_LEN, H265_NALU_HEADER_LEN: signed_video_h26x_common.c. *)
Definition header_len (c : codec) : nat := match c with H264 => 1%nat | H265 => 2%nat end.

(** h264_get_payload_size: signed_video_h26x_common.c:315-327. Returns the payload size, the number
    of size bytes and the remaining memory. *)
Fixpoint get_payload_size (p : list N) : out (N * nat * list N) :=
  match p with
  | [] => Undef OobRead
  | b :: r =>
      if b =? 255 then
        do (s, k, r2) <- get_payload_size r;
        Def (255 + s, S k, r2)
      else Def (b, 1%nat, r)
  end.

(** The trailing-zero loop at signed_video_h26x_common.c:640-643. Result: the data without trailing
    zero bytes; undefined (read before the start of the buffer) if there is nothing but zeros. *)
Fixpoint drop_zeros (l : list N) : list N :=
  match l with
  | 0 :: r => drop_zeros r
  | _ => l
  end.
Definition strip_trailing (data : list N) : out (list N) :=
  match drop_zeros (rev data) with
  | [] => Undef OobRead
  | l => Def (rev l)
  end.

(** Start code detection: signed_video_h26x_common.c:606-621. Returns the number of bytes to skip. *)
Definition start_code_len (data : list N) : out nat :=
  do (v, _) <- read_32bits data;
  if v =? 1 then Def 4%nat
  else if v / 256 =? 1 then Def 3%nat
  else Def 0%nat.

(** remove_epb_from_sei_payload: signed_video_h26x_common.c:524-570. [payload_off] is
    payload - hashable_data. The C [malloc] failure branch is not modelled. *)
Definition remove_epb (n : nalu) (payload_off : nat) : out nalu :=
  if negb (n_hashable n) || negb (n_gop_sei n) || (n_valid n <=? 0)%Z then Def n
  else
    let off := (payload_off + 16)%nat in
    match skipn off (n_hash_mem n) with
    | [] => Undef OobRead
    | res :: tlv =>
        let with_epb := 128 <=? res in
        let golden := 64 <=? res mod 128 in
        let tlv_size := sub64 (sub64 (n_payload_size n) 16) 1 in
        let n1 := mkNalu (n_data_size n) (n_hash_mem n) (n_hash_size n) (n_type n) (n_valid n)
                    (n_hashable n) (n_payload_size n) res (off + 1) tlv tlv_size (n_epb n)
                    (n_primary n) (n_first_in_gop n) (n_gop_sei n) (n_first_part n) (n_last_part n)
                    with_epb golden in
        if (n_epb n <=? 0)%Z then Def n1
        else
          let data_size := (payload_off + N.to_nat (n_payload_size n) + 1)%nat in
          do (wo, _, _) <- read_bytes true data_size lt_init (n_hash_mem n);
          let tlv_off := (data_size - N.to_nat (n_payload_size n) + 16)%nat in
          if (length wo <? tlv_off)%nat then Undef OobRead else
          let tlv_wo := skipn tlv_off wo in
          Def (if with_epb
               then mkNalu (n_data_size n) (n_hash_mem n) (n_hash_size n) (n_type n) (n_valid n)
                      (n_hashable n) (n_payload_size n) res (off + 1) tlv_wo tlv_size (n_epb n)
                      (n_primary n) (n_first_in_gop n) (n_gop_sei n) (n_first_part n)
                      (n_last_part n) with_epb golden
               else mkNalu (n_data_size n) wo (N.of_nat data_size) (n_type n) (n_valid n)
                      (n_hashable n) (n_payload_size n) res tlv_off tlv_wo tlv_size (n_epb n)
                      (n_primary n) (n_first_in_gop n) (n_gop_sei n) (n_first_part n)
                      (n_last_part n) with_epb golden)
    end.

(** parse_nalu_info: signed_video_h26x_common.c:582-691. [data] is exactly the buffer of
    [nalu_data_size] bytes given by the user; anything beyond it is out of bounds. Casts to [int] in
    the emulation prevention count are taken as exact (sizes below 2^31). *)
Definition parse_nalu (data : list N) (c : codec) (check_trailing is_auth : bool) : out nalu :=
  match data with
  | [] => Def nalu_init
  | _ =>
      do skip <- start_code_len data;
      let hd := skipn skip data in
      do (ty, primary, valid) <- parse_header c hd;
      let hashable := ntype_eqb ty TI || ntype_eqb ty TP in
      let first := ntype_eqb ty TI && primary in
      do trimmed <- (if check_trailing then strip_trailing data else Def data);
      let hash_size := sub64 (nlen trimmed) (N.of_nat skip) in
      let n := mkNalu (nlen data) hd hash_size ty (if valid then 1 else 0)%Z hashable
                 0 0 0 [] 0 0 primary first false true true false false in
      if negb (ntype_eqb ty TSei) then Def n
      else
        match skipn (header_len c) hd with
        | [] => Undef OobRead
        | ud :: p1 =>
            if ud =? 5 then
              do (psize, k, p2) <- get_payload_size p1;
              let poff := (header_len c + 1 + k)%nat in
              let stop := if last trimmed 0 =? 128 then 1%Z else 0%Z in
              let epb := (Z.of_N hash_size - Z.of_nat poff - Z.of_N psize - stop)%Z in
              if (length p2 <? 16)%nat then Undef OobRead
              else
                let is_sv := bytes_eqb (firstn 16 p2) uuid_sv in
                remove_epb
                  (mkNalu (nlen data) hd hash_size ty (if valid then 1 else 0)%Z (is_sv && is_auth)
                     psize 0 0 [] 0 epb primary first is_sv true true false false) poff
            else Def (mkNalu (nlen data) hd hash_size ty (if valid then 1 else 0)%Z false
                        0 0 0 [] 0 0 primary first false true true false false)
        end
  end.

(** The bytes that a hash function is given for this NALU: [n_hash_size] bytes from
    [n_hash_mem]. *)
Definition hash_input (n : nalu) : out (list N) :=
  if n_hash_size n <=? nlen (n_hash_mem n)
  then Def (firstn (N.to_nat (n_hash_size n)) (n_hash_mem n))
  else Undef OobRead.

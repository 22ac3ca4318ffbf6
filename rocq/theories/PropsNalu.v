(** C11, C12, C45: what the parser says about a NALU. *)
From Verif Require Import Base Nalu NaluSpec NaluProofs.
Local Open Scope N_scope.

(** The accepted start codes, including none. *)
Definition start_codes : list (list N) := [[]; [0; 0; 1]; [0; 0; 0; 1]].

(** C11. The same NALU body with any start code, and with any number of zero bytes appended, is seen
    as the same NALU: same kind, flags, hashed bytes and SEI metadata. The body is not all zeros and
    does not itself begin with a start code. *)
Theorem C11_start_code_and_trailing_zeros c is_auth pre pre' body k n :
  In pre start_codes -> In pre' start_codes ->
  bytes_ok body -> no_start_code body -> (exists b, In b body /\ b <> 0) ->
  nlen (pre ++ body) < 2 ^ 64 -> nlen (pre' ++ body ++ zeros k) < 2 ^ 64 ->
  parse_nalu (pre ++ body) c true is_auth = Def n ->
  exists n', parse_nalu (pre' ++ body ++ zeros k) c true is_auth = Def n' /\ same_nalu n n'.
Proof. exact (start_and_trailing c is_auth pre pre' body k n). Qed.

(** C11, for parts of NALUs, where trailing zeros are kept. *)
Theorem C11_start_code_of_parts c is_auth pre pre' body n :
  In pre start_codes -> In pre' start_codes -> bytes_ok body -> no_start_code body ->
  nlen (pre ++ body) < 2 ^ 64 -> nlen (pre' ++ body) < 2 ^ 64 ->
  parse_nalu (pre ++ body) c false is_auth = Def n ->
  exists n', parse_nalu (pre' ++ body) c false is_auth = Def n' /\ same_nalu n n'.
Proof. exact (start_codes_untrimmed c is_auth pre pre' body n). Qed.

(** C11: the hashed bytes are the body without start code and without trailing zeros. *)
Theorem C11_hashed_bytes c is_auth pre body n :
  In pre start_codes -> bytes_ok body -> no_start_code body ->
  (exists b, In b body /\ b <> 0) -> nlen (pre ++ body) < 2 ^ 64 ->
  parse_nalu (pre ++ body) c true is_auth = Def n -> n_type n <> TSei ->
  exists t k, hash_input n = Def t /\ body = t ++ zeros k /\ last t 0 <> 0.
Proof. exact (hashed_bytes c is_auth pre body n). Qed.

Example C11_case : exists n,
  parse_nalu ([0; 0; 0; 1] ++ [101; 136; 1; 2; 0; 7]) H264 true true = Def n /\
  hash_input n = Def [101; 136; 1; 2; 0; 7] /\ n_first_in_gop n = true /\
  no_start_code [101; 136; 1; 2; 0; 7] /\ bytes_ok [101; 136; 1; 2; 0; 7].
Proof.
  eexists. split; [vm_compute; reflexivity|]. split; [vm_compute; reflexivity|].
  split; [reflexivity|]. split; [cbn; lia|]. repeat constructor.
Qed.

(** C12. Every H.264 header is classified as in the table of the standard: kind, whether it is legal
    (including the forbidden bit and nal_ref_idc), whether it starts a GOP (an I slice with
    first_mb_in_slice = 0, coded as the bit 1), and whether it is hashed. *)
Theorem C12_h264_header f ref ty b1 rest pre check is_auth n : f < 2 -> ref < 4 -> ty < 32 ->
  In pre [[0; 0; 1]; [0; 0; 0; 1]] ->
  parse_nalu (pre ++ h264_bits f ref ty :: b1 :: rest) H264 check is_auth = Def n ->
  n_type n = fst (lookup h264_table ty ref 0) /\
  n_valid n = (if snd (lookup h264_table ty ref 0) && (f =? 0)%N then 1 else 0)%Z /\
  n_first_in_gop n = (ntype_eqb (n_type n) TI && (128 <=? b1)) /\
  (n_type n <> TSei -> n_hashable n = (ntype_eqb (n_type n) TI || ntype_eqb (n_type n) TP)).
Proof. exact (h264_parse f ref ty b1 rest pre check is_auth n). Qed.

(** C12 for H.265; TemporalId is nuh_temporal_id_plus1 - 1. *)
Theorem C12_h265_header f ty layer tid1 b2 rest pre check is_auth n :
  f < 2 -> ty < 64 -> layer < 64 -> 0 < tid1 < 8 -> In pre [[0; 0; 1]; [0; 0; 0; 1]] ->
  let h := h265_bits f ty layer tid1 in
  parse_nalu (pre ++ h / 256 :: h mod 256 :: b2 :: rest) H265 check is_auth = Def n ->
  n_type n = fst (lookup h265_table ty (tid1 - 1) layer) /\
  n_valid n = (if snd (lookup h265_table ty (tid1 - 1) layer) && (f =? 0)%N then 1 else 0)%Z /\
  n_first_in_gop n = (ntype_eqb (n_type n) TI && (128 <=? b2)) /\
  (n_type n <> TSei -> n_hashable n = (ntype_eqb (n_type n) TI || ntype_eqb (n_type n) TP)).
Proof. exact (h265_parse f ty layer tid1 b2 rest pre check is_auth n). Qed.

Example C12_case : exists n,
  parse_nalu ([0; 0; 1] ++ h265_bits 0 19 0 1 / 256 :: h265_bits 0 19 0 1 mod 256 :: 200 :: [1; 2])
    H265 true false = Def n /\ n_type n = TI /\ n_valid n = 1%Z /\ n_first_in_gop n = true.
Proof. eexists. split; [vm_compute; reflexivity|]. repeat split. Qed.

(** C12, the deviations from the standard: leading pictures (RADL_N .. RASL_R) with TemporalId 0 are
    legal, but are taken as invalid; an H.264 access unit delimiter with nal_ref_idc 1 is illegal,
    but is taken as valid. *)
Theorem C12_standard_refuted :
  (exists n, parse_nalu ([0; 0; 1] ++ h265_bits 0 7 0 1 / 256 :: h265_bits 0 7 0 1 mod 256 :: 128 :: [1])
      H265 true true = Def n /\ n_valid n = 0%Z) /\
  (exists n, parse_nalu ([0; 0; 1] ++ h264_bits 0 1 9 :: 128 :: [1]) H264 true true = Def n /\ n_valid n = 1%Z).
Proof. split; eexists; (split; [vm_compute; reflexivity|reflexivity]). Qed.

(** C45. The full claim, that every legal coded slice is hashed, is false: a legal slice of a
    temporal sub-layer picture (TSA_N, H.265) and a data partitioned slice (H.264) are not. *)
Theorem C45_slices_hashed_refuted :
  (exists n, parse_nalu ([0; 0; 1] ++ h265_bits 0 2 0 2 / 256 :: h265_bits 0 2 0 2 mod 256 :: 128 :: [1])
      H265 true true = Def n /\ n_valid n = 1%Z /\ n_hashable n = false) /\
  (exists n, parse_nalu ([0; 0; 1] ++ h264_bits 0 1 2 :: 128 :: [1]) H264 true true = Def n /\
     n_valid n = 1%Z /\ n_hashable n = false).
Proof. split; eexists; (split; [vm_compute; reflexivity|split; reflexivity]). Qed.

(** C45, what does hold: all slices of IDR and non-IDR pictures that are not data partitioned (H.264
    types 1 and 5) and all slices of TRAIL and IRAP pictures (H.265 types 0, 1, 16 to 21) are hashed,
    legal or not. *)
Theorem C45_slices_hashed_partial pre check is_auth n :
  In pre [[0; 0; 1]; [0; 0; 0; 1]] ->
  (forall f ref ty b1 rest, f < 2 -> ref < 4 -> In ty [1; 5] ->
     parse_nalu (pre ++ h264_bits f ref ty :: b1 :: rest) H264 check is_auth = Def n -> n_hashable n = true) /\
  (forall f ty layer tid1 b2 rest, f < 2 -> In ty [0; 1; 16; 17; 18; 19; 20; 21] -> layer < 64 ->
     0 < tid1 < 8 -> let h := h265_bits f ty layer tid1 in
     parse_nalu (pre ++ h / 256 :: h mod 256 :: b2 :: rest) H265 check is_auth = Def n ->
     n_hashable n = true).
Proof. exact (slices_hashed pre check is_auth n). Qed.

Print Assumptions C11_start_code_and_trailing_zeros.
Print Assumptions C11_start_code_of_parts.
Print Assumptions C11_hashed_bytes.
Print Assumptions C12_h264_header.
Print Assumptions C12_h265_header.
Print Assumptions C12_standard_refuted.
Print Assumptions C45_slices_hashed_refuted.
Print Assumptions C45_slices_hashed_partial.

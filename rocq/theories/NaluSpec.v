(** Tables of NAL unit types, written down from the standards (ITU-T H.264 table 7-1, ITU-T H.265
    table 7-1), independently of the parser. *)
From Verif Require Import Base Nalu.
Local Open Scope N_scope.

(** One row: first and last nal_unit_type, kind of NALU, and the condition on the header. For H.264
    the condition is on nal_ref_idc, for H.265 on (TemporalId, nuh_layer_id). *)
Definition row : Type := N * N * ntype * (N -> N -> bool).

Definition any (_ _ : N) : bool := true.
Definition zero (x _ : N) : bool := x =? 0.
Definition nonzero (x _ : N) : bool := negb (x =? 0).
Definition zero_both (x y : N) : bool := (x =? 0) && (y =? 0).
(** TemporalId must not be 0 in the base layer. *)
Definition nonzero_base (x y : N) : bool := negb ((x =? 0) && (y =? 0)).

(** H.264. I: IDR slices. P: other slices. *)
Definition h264_table : list row :=
  [ (1, 1, TP, any);          (* coded slice of a non-IDR picture *)
    (2, 4, TOther, any);      (* data partitions A, B, C *)
    (5, 5, TI, nonzero);      (* coded slice of an IDR picture *)
    (6, 6, TSei, zero);       (* SEI *)
    (7, 8, TPs, nonzero);     (* SPS, PPS *)
    (9, 9, TAud, any);        (* access unit delimiter *)
    (10, 12, TOther, zero);   (* end of sequence, end of stream, filler *)
    (13, 13, TPs, nonzero);   (* SPS extension *)
    (15, 15, TPs, nonzero)    (* subset SPS *)
  ].

(** H.265. *)
Definition h265_table : list row :=
  [ (0, 1, TP, any);              (* TRAIL_N, TRAIL_R *)
    (2, 3, TOther, nonzero);      (* TSA_N, TSA_R *)
    (4, 5, TOther, nonzero_base); (* STSA_N, STSA_R *)
    (6, 9, TOther, nonzero);      (* RADL_N, RADL_R, RASL_N, RASL_R *)
    (16, 21, TI, zero);           (* BLA_*, IDR_*, CRA *)
    (32, 33, TPs, zero);          (* VPS, SPS *)
    (34, 34, TPs, any);           (* PPS *)
    (35, 35, TAud, any);          (* AUD *)
    (36, 37, TOther, zero_both);  (* EOS, EOB *)
    (38, 38, TOther, any);        (* filler *)
    (39, 40, TSei, any)           (* prefix SEI, suffix SEI *)
  ].

(** Kind and legality of a nal_unit_type with header values [x], [y]; unlisted types are undefined
    and illegal. *)
Fixpoint lookup (tab : list row) (ty x y : N) : ntype * bool :=
  match tab with
  | [] => (TUndef, false)
  | (lo, hi, t, cond) :: r => if (lo <=? ty) && (ty <=? hi) then (t, cond x y) else lookup r ty x y
  end.

(** The 8 bits of an H.264 NAL unit header: forbidden_zero_bit, nal_ref_idc, nal_unit_type; and the
    16 bits of an H.265 one: forbidden_zero_bit, nal_unit_type, nuh_layer_id,
    nuh_temporal_id_plus1. *)
Definition h264_bits (f ref ty : N) : N := f * 128 + ref * 32 + ty.
Definition h265_bits (f ty layer tid1 : N) : N := f * 32768 + ty * 512 + layer * 8 + tid1.

(** What a user can see of a parsed NALU, apart from its size: kind, validity, flags, the bytes that
    are hashed and the metadata found in a SEI. *)
Definition view (n : nalu) :=
  (n_type n, n_valid n, n_hashable n, n_primary n, n_first_in_gop n, n_gop_sei n,
   (n_reserved n, n_with_epb n, n_golden n, n_epb n, n_payload_size n, n_tlv_size n, n_tlv_off n)).
Definition same_nalu (n n' : nalu) : Prop :=
  view n = view n' /\ hash_input n = hash_input n' /\
  forall m, take_mem (N.to_nat (n_tlv_size n)) (n_tlv_mem n) = Def m ->
    exists m', take_mem (N.to_nat (n_tlv_size n')) (n_tlv_mem n') = Def m' /\ fst m = fst m'.

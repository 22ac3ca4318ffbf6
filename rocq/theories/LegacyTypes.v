(** State records of the validation of recordings signed by older versions (the directory legacy).
    Models legacy/legacy_internal.h:35-150 and legacy/legacy_h26x_internal.h:100-137.
    Every record comes with one setter per field.
    Generated by a script from a field table; the field comments name the C members. *)
From Verif Require Import Base Nalu Crypto Types VTypes.

(** A pointer to a parsed NALU: NULL, a valid one, or one to a variable of a function that has
    returned (legacy_h26x_auth.c:998-999 puts the address of a local variable in the list). *)
Inductive nptr := NNull | NOk (n : nalu) | NDang.

(** legacy_h26x_nalu_list_item_t: legacy/legacy_h26x_internal.h:87-137. Omitted: hash_size (never used), prev and next (the list is a Coq list). *)
Record litem := mkLitem {
  x_nalu : nptr;  (* nalu *)
  x_own : bool;  (* taken_ownership_of_nalu *)
  x_status : vstat;  (* validation_status *)
  x_hash : list N;  (* hash[64] *)
  x_second : option (list N);  (* second_hash: the hash written to it; None is NULL *)
  x_need : bool;  (* need_second_verification *)
  x_bad : bool;  (* first_verification_not_authentic *)
  x_decoded : bool;  (* has_been_decoded *)
  x_used : bool  (* used_in_gop_hash *)
}.
Definition set_x_nalu (v : nptr) (r : litem) : litem := mkLitem v (x_own r) (x_status r) (x_hash r) (x_second r) (x_need r) (x_bad r) (x_decoded r) (x_used r).
Definition set_x_own (v : bool) (r : litem) : litem := mkLitem (x_nalu r) v (x_status r) (x_hash r) (x_second r) (x_need r) (x_bad r) (x_decoded r) (x_used r).
Definition set_x_status (v : vstat) (r : litem) : litem := mkLitem (x_nalu r) (x_own r) v (x_hash r) (x_second r) (x_need r) (x_bad r) (x_decoded r) (x_used r).
Definition set_x_hash (v : list N) (r : litem) : litem := mkLitem (x_nalu r) (x_own r) (x_status r) v (x_second r) (x_need r) (x_bad r) (x_decoded r) (x_used r).
Definition set_x_second (v : option (list N)) (r : litem) : litem := mkLitem (x_nalu r) (x_own r) (x_status r) (x_hash r) v (x_need r) (x_bad r) (x_decoded r) (x_used r).
Definition set_x_need (v : bool) (r : litem) : litem := mkLitem (x_nalu r) (x_own r) (x_status r) (x_hash r) (x_second r) v (x_bad r) (x_decoded r) (x_used r).
Definition set_x_bad (v : bool) (r : litem) : litem := mkLitem (x_nalu r) (x_own r) (x_status r) (x_hash r) (x_second r) (x_need r) v (x_decoded r) (x_used r).
Definition set_x_decoded (v : bool) (r : litem) : litem := mkLitem (x_nalu r) (x_own r) (x_status r) (x_hash r) (x_second r) (x_need r) (x_bad r) v (x_used r).
Definition set_x_used (v : bool) (r : litem) : litem := mkLitem (x_nalu r) (x_own r) (x_status r) (x_hash r) (x_second r) (x_need r) (x_bad r) (x_decoded r) v.

(** legacy_sv_t with legacy_gop_info_t and legacy_validation_flags_t: legacy/legacy_internal.h:35-150. The parts borrowed from the parent are kept here from the moment on which the session is handed over: after that the parent uses none of them. Omitted: document_hash, tmp_hash, num_nalus_in_gop_hash, hash_list_size, gop_hash_init (a constant). *)
Record lsv := mkLsv {
  q_codec : codec;  (* codec *)
  q_dec : dec;  (* what the TLV decoders touch *)
  q_buddies : list N;  (* gop_info->hash_buddies[128] *)
  q_has_ref : bool;  (* gop_info->has_reference_hash *)
  q_hashes : list N;  (* gop_info->hashes[128]: gop_hash at 0, nalu_hash at DEFAULT_HASH_SIZE *)
  q_items : list litem;  (* nalu_list *)
  q_result : bool;  (* validation_flags.has_auth_result *)
  q_first : bool;  (* validation_flags.is_first_validation *)
  q_reset : bool;  (* validation_flags.reset_first_validation *)
  q_signing : bool;  (* validation_flags.signing_present *)
  q_first_sei : bool;  (* validation_flags.is_first_sei *)
  q_verified : Z;  (* gop_info->verified_signature_hash *)
  q_synced : bool;  (* gop_info->global_gop_counter_is_synced *)
  q_hash : list N;  (* verify_data->hash[64] *)
  q_gs : gstate;  (* gop_state *)
  q_latest : latest;  (* latest_validation of the report of the parent *)
  q_acc : accum  (* accumulated_validation of the report of the parent *)
}.
Definition set_q_codec (v : codec) (r : lsv) : lsv := mkLsv v (q_dec r) (q_buddies r) (q_has_ref r) (q_hashes r) (q_items r) (q_result r) (q_first r) (q_reset r) (q_signing r) (q_first_sei r) (q_verified r) (q_synced r) (q_hash r) (q_gs r) (q_latest r) (q_acc r).
Definition set_q_dec (v : dec) (r : lsv) : lsv := mkLsv (q_codec r) v (q_buddies r) (q_has_ref r) (q_hashes r) (q_items r) (q_result r) (q_first r) (q_reset r) (q_signing r) (q_first_sei r) (q_verified r) (q_synced r) (q_hash r) (q_gs r) (q_latest r) (q_acc r).
Definition set_q_buddies (v : list N) (r : lsv) : lsv := mkLsv (q_codec r) (q_dec r) v (q_has_ref r) (q_hashes r) (q_items r) (q_result r) (q_first r) (q_reset r) (q_signing r) (q_first_sei r) (q_verified r) (q_synced r) (q_hash r) (q_gs r) (q_latest r) (q_acc r).
Definition set_q_has_ref (v : bool) (r : lsv) : lsv := mkLsv (q_codec r) (q_dec r) (q_buddies r) v (q_hashes r) (q_items r) (q_result r) (q_first r) (q_reset r) (q_signing r) (q_first_sei r) (q_verified r) (q_synced r) (q_hash r) (q_gs r) (q_latest r) (q_acc r).
Definition set_q_hashes (v : list N) (r : lsv) : lsv := mkLsv (q_codec r) (q_dec r) (q_buddies r) (q_has_ref r) v (q_items r) (q_result r) (q_first r) (q_reset r) (q_signing r) (q_first_sei r) (q_verified r) (q_synced r) (q_hash r) (q_gs r) (q_latest r) (q_acc r).
Definition set_q_items (v : list litem) (r : lsv) : lsv := mkLsv (q_codec r) (q_dec r) (q_buddies r) (q_has_ref r) (q_hashes r) v (q_result r) (q_first r) (q_reset r) (q_signing r) (q_first_sei r) (q_verified r) (q_synced r) (q_hash r) (q_gs r) (q_latest r) (q_acc r).
Definition set_q_result (v : bool) (r : lsv) : lsv := mkLsv (q_codec r) (q_dec r) (q_buddies r) (q_has_ref r) (q_hashes r) (q_items r) v (q_first r) (q_reset r) (q_signing r) (q_first_sei r) (q_verified r) (q_synced r) (q_hash r) (q_gs r) (q_latest r) (q_acc r).
Definition set_q_first (v : bool) (r : lsv) : lsv := mkLsv (q_codec r) (q_dec r) (q_buddies r) (q_has_ref r) (q_hashes r) (q_items r) (q_result r) v (q_reset r) (q_signing r) (q_first_sei r) (q_verified r) (q_synced r) (q_hash r) (q_gs r) (q_latest r) (q_acc r).
Definition set_q_reset (v : bool) (r : lsv) : lsv := mkLsv (q_codec r) (q_dec r) (q_buddies r) (q_has_ref r) (q_hashes r) (q_items r) (q_result r) (q_first r) v (q_signing r) (q_first_sei r) (q_verified r) (q_synced r) (q_hash r) (q_gs r) (q_latest r) (q_acc r).
Definition set_q_signing (v : bool) (r : lsv) : lsv := mkLsv (q_codec r) (q_dec r) (q_buddies r) (q_has_ref r) (q_hashes r) (q_items r) (q_result r) (q_first r) (q_reset r) v (q_first_sei r) (q_verified r) (q_synced r) (q_hash r) (q_gs r) (q_latest r) (q_acc r).
Definition set_q_first_sei (v : bool) (r : lsv) : lsv := mkLsv (q_codec r) (q_dec r) (q_buddies r) (q_has_ref r) (q_hashes r) (q_items r) (q_result r) (q_first r) (q_reset r) (q_signing r) v (q_verified r) (q_synced r) (q_hash r) (q_gs r) (q_latest r) (q_acc r).
Definition set_q_verified (v : Z) (r : lsv) : lsv := mkLsv (q_codec r) (q_dec r) (q_buddies r) (q_has_ref r) (q_hashes r) (q_items r) (q_result r) (q_first r) (q_reset r) (q_signing r) (q_first_sei r) v (q_synced r) (q_hash r) (q_gs r) (q_latest r) (q_acc r).
Definition set_q_synced (v : bool) (r : lsv) : lsv := mkLsv (q_codec r) (q_dec r) (q_buddies r) (q_has_ref r) (q_hashes r) (q_items r) (q_result r) (q_first r) (q_reset r) (q_signing r) (q_first_sei r) (q_verified r) v (q_hash r) (q_gs r) (q_latest r) (q_acc r).
Definition set_q_hash (v : list N) (r : lsv) : lsv := mkLsv (q_codec r) (q_dec r) (q_buddies r) (q_has_ref r) (q_hashes r) (q_items r) (q_result r) (q_first r) (q_reset r) (q_signing r) (q_first_sei r) (q_verified r) (q_synced r) v (q_gs r) (q_latest r) (q_acc r).
Definition set_q_gs (v : gstate) (r : lsv) : lsv := mkLsv (q_codec r) (q_dec r) (q_buddies r) (q_has_ref r) (q_hashes r) (q_items r) (q_result r) (q_first r) (q_reset r) (q_signing r) (q_first_sei r) (q_verified r) (q_synced r) (q_hash r) v (q_latest r) (q_acc r).
Definition set_q_latest (v : latest) (r : lsv) : lsv := mkLsv (q_codec r) (q_dec r) (q_buddies r) (q_has_ref r) (q_hashes r) (q_items r) (q_result r) (q_first r) (q_reset r) (q_signing r) (q_first_sei r) (q_verified r) (q_synced r) (q_hash r) (q_gs r) v (q_acc r).
Definition set_q_acc (v : accum) (r : lsv) : lsv := mkLsv (q_codec r) (q_dec r) (q_buddies r) (q_has_ref r) (q_hashes r) (q_items r) (q_result r) (q_first r) (q_reset r) (q_signing r) (q_first_sei r) (q_verified r) (q_synced r) (q_hash r) (q_gs r) (q_latest r) v.

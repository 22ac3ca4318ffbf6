(** State records of a validating session. Models signed_video_internal.h:115-256,
    signed_video_h26x_internal.h:55-100 and the report structs of includes/signed_video_auth.h.
    Every record comes with one setter per field.
    Generated by a script from a field table; the field comments name the C members. *)
From Verif Require Import Base Nalu Crypto Types.

(** validation_status of a list item: signed_video_h26x_nalu_list.c:58-78 and
    includes/signed_video_auth.h:101-115. *)
Inductive vstat := SPend | SUnknown | SIgn | SValid | SInvalid | SMiss | SErr.
Definition vstat_eqb (a b : vstat) : bool :=
  match a, b with
  | SPend, SPend | SUnknown, SUnknown | SIgn, SIgn | SValid, SValid | SInvalid, SInvalid
  | SMiss, SMiss | SErr, SErr => true
  | _, _ => false
  end.

(** SignedVideoAuthenticityResult: includes/signed_video_auth.h:39-58. *)
Inductive authres := NotSigned | SigPresent | NotOk | OkMissing | AuthOk | VersionMismatch.
Definition ar_n (a : authres) : N :=
  match a with
  | NotSigned => 0 | SigPresent => 1 | NotOk => 2 | OkMissing => 3 | AuthOk => 4 | VersionMismatch => 5
  end%N.

(** SignedVideoPublicKeyValidation: includes/signed_video_auth.h:63-73. *)
Inductive pkval := PkNotFeasible | PkNotOk | PkOk.

(** h26x_nalu_list_item_t: signed_video_h26x_internal.h:75-98.  Omitted: hash_size (only printed), taken_ownership_of_nalu, prev and next (the list is a Coq list). *)
Record item := mkItem {
  i_nalu : option nalu;  (* nalu; None is NULL *)
  i_status : vstat;  (* validation_status *)
  i_hash : list N;  (* hash[64] *)
  i_second : option (list N);  (* second_hash: the hash written to it; None is NULL *)
  i_decoded : bool;  (* has_been_decoded *)
  i_used : bool;  (* used_in_gop_hash *)
  i_linked : bool  (* used_for_linked_hash *)
}.
Definition set_i_nalu (v : option nalu) (r : item) : item := mkItem v (i_status r) (i_hash r) (i_second r) (i_decoded r) (i_used r) (i_linked r).
Definition set_i_status (v : vstat) (r : item) : item := mkItem (i_nalu r) v (i_hash r) (i_second r) (i_decoded r) (i_used r) (i_linked r).
Definition set_i_hash (v : list N) (r : item) : item := mkItem (i_nalu r) (i_status r) v (i_second r) (i_decoded r) (i_used r) (i_linked r).
Definition set_i_second (v : option (list N)) (r : item) : item := mkItem (i_nalu r) (i_status r) (i_hash r) v (i_decoded r) (i_used r) (i_linked r).
Definition set_i_decoded (v : bool) (r : item) : item := mkItem (i_nalu r) (i_status r) (i_hash r) (i_second r) v (i_used r) (i_linked r).
Definition set_i_used (v : bool) (r : item) : item := mkItem (i_nalu r) (i_status r) (i_hash r) (i_second r) (i_decoded r) v (i_linked r).
Definition set_i_linked (v : bool) (r : item) : item := mkItem (i_nalu r) (i_status r) (i_hash r) (i_second r) (i_decoded r) (i_used r) v.

(** gop_state_t: signed_video_internal.h.  *)
Record gstate := mkGst {
  gs_sei : bool;  (* has_sei *)
  gs_lost : bool;  (* has_lost_sei *)
  gs_no_end : bool;  (* no_gop_end_before_sei *)
  gs_trans : bool;  (* gop_transition_is_lost *)
  gs_after : bool  (* validate_after_next_nalu *)
}.
Definition set_gs_sei (v : bool) (r : gstate) : gstate := mkGst v (gs_lost r) (gs_no_end r) (gs_trans r) (gs_after r).
Definition set_gs_lost (v : bool) (r : gstate) : gstate := mkGst (gs_sei r) v (gs_no_end r) (gs_trans r) (gs_after r).
Definition set_gs_no_end (v : bool) (r : gstate) : gstate := mkGst (gs_sei r) (gs_lost r) v (gs_trans r) (gs_after r).
Definition set_gs_trans (v : bool) (r : gstate) : gstate := mkGst (gs_sei r) (gs_lost r) (gs_no_end r) v (gs_after r).
Definition set_gs_after (v : bool) (r : gstate) : gstate := mkGst (gs_sei r) (gs_lost r) (gs_no_end r) (gs_trans r) v.

(** signed_video_latest_validation_t: includes/signed_video_auth.h:79-147. The members public_key_has_changed, has_timestamp and timestamp are d_l_changed, d_l_has_ts and d_l_ts of [dec]. *)
Record latest := mkLatest {
  l_auth : authres;  (* authenticity *)
  l_exp : Z;  (* number_of_expected_picture_nalus *)
  l_recv : Z;  (* number_of_received_picture_nalus *)
  l_pend : Z;  (* number_of_pending_picture_nalus *)
  l_pkv : pkval;  (* public_key_validation *)
  l_vstr : list N;  (* validation_str; [] is NULL or empty *)
  l_nstr : list N  (* nalu_str; [] is NULL or empty *)
}.
Definition set_l_auth (v : authres) (r : latest) : latest := mkLatest v (l_exp r) (l_recv r) (l_pend r) (l_pkv r) (l_vstr r) (l_nstr r).
Definition set_l_exp (v : Z) (r : latest) : latest := mkLatest (l_auth r) v (l_recv r) (l_pend r) (l_pkv r) (l_vstr r) (l_nstr r).
Definition set_l_recv (v : Z) (r : latest) : latest := mkLatest (l_auth r) (l_exp r) v (l_pend r) (l_pkv r) (l_vstr r) (l_nstr r).
Definition set_l_pend (v : Z) (r : latest) : latest := mkLatest (l_auth r) (l_exp r) (l_recv r) v (l_pkv r) (l_vstr r) (l_nstr r).
Definition set_l_pkv (v : pkval) (r : latest) : latest := mkLatest (l_auth r) (l_exp r) (l_recv r) (l_pend r) v (l_vstr r) (l_nstr r).
Definition set_l_vstr (v : list N) (r : latest) : latest := mkLatest (l_auth r) (l_exp r) (l_recv r) (l_pend r) (l_pkv r) v (l_nstr r).
Definition set_l_nstr (v : list N) (r : latest) : latest := mkLatest (l_auth r) (l_exp r) (l_recv r) (l_pend r) (l_pkv r) (l_vstr r) v.

(** signed_video_accumulated_validation_t: includes/signed_video_auth.h:153-182. *)
Record accum := mkAccum {
  a_auth : authres;  (* authenticity *)
  a_changed : bool;  (* public_key_has_changed *)
  a_recv : N;  (* number_of_received_nalus (unsigned int) *)
  a_val : N;  (* number_of_validated_nalus (unsigned int) *)
  a_pend : N;  (* number_of_pending_nalus (unsigned int) *)
  a_pkv : pkval;  (* public_key_validation *)
  a_has_ts : bool;  (* has_timestamp *)
  a_first : Z;  (* first_timestamp *)
  a_last : Z  (* last_timestamp *)
}.
Definition set_a_auth (v : authres) (r : accum) : accum := mkAccum v (a_changed r) (a_recv r) (a_val r) (a_pend r) (a_pkv r) (a_has_ts r) (a_first r) (a_last r).
Definition set_a_changed (v : bool) (r : accum) : accum := mkAccum (a_auth r) v (a_recv r) (a_val r) (a_pend r) (a_pkv r) (a_has_ts r) (a_first r) (a_last r).
Definition set_a_recv (v : N) (r : accum) : accum := mkAccum (a_auth r) (a_changed r) v (a_val r) (a_pend r) (a_pkv r) (a_has_ts r) (a_first r) (a_last r).
Definition set_a_val (v : N) (r : accum) : accum := mkAccum (a_auth r) (a_changed r) (a_recv r) v (a_pend r) (a_pkv r) (a_has_ts r) (a_first r) (a_last r).
Definition set_a_pend (v : N) (r : accum) : accum := mkAccum (a_auth r) (a_changed r) (a_recv r) (a_val r) v (a_pkv r) (a_has_ts r) (a_first r) (a_last r).
Definition set_a_pkv (v : pkval) (r : accum) : accum := mkAccum (a_auth r) (a_changed r) (a_recv r) (a_val r) (a_pend r) v (a_has_ts r) (a_first r) (a_last r).
Definition set_a_has_ts (v : bool) (r : accum) : accum := mkAccum (a_auth r) (a_changed r) (a_recv r) (a_val r) (a_pend r) (a_pkv r) v (a_first r) (a_last r).
Definition set_a_first (v : Z) (r : accum) : accum := mkAccum (a_auth r) (a_changed r) (a_recv r) (a_val r) (a_pend r) (a_pkv r) (a_has_ts r) v (a_last r).
Definition set_a_last (v : Z) (r : accum) : accum := mkAccum (a_auth r) (a_changed r) (a_recv r) (a_val r) (a_pend r) (a_pkv r) (a_has_ts r) (a_first r) v.

(** A validating session: signed_video_internal.h:115-256. Omitted: validation_flags.reset_first_validation, which is never read. *)
Record valid := mkValid {
  v_codec : codec;  (* codec *)
  v_dec : dec;  (* what the TLV decoders touch *)
  v_buddies : list N;  (* gop_info->hash_buddies[128] *)
  v_has_ref : bool;  (* gop_info->has_reference_hash *)
  v_items : list item;  (* nalu_list *)
  v_result : bool;  (* validation_flags.has_auth_result *)
  v_first : bool;  (* validation_flags.is_first_validation *)
  v_signing : bool;  (* validation_flags.signing_present *)
  v_first_sei : bool;  (* validation_flags.is_first_sei *)
  v_verified : Z;  (* gop_info->verified_signature_hash *)
  v_gop : N;  (* gop_info->latest_validated_gop (uint32_t) *)
  v_synced : bool;  (* gop_info->global_gop_counter_is_synced *)
  v_computed : list N;  (* gop_info->computed_gop_hash[64] *)
  v_links : list N;  (* gop_info->linked_hashes[128] *)
  v_hash : list N;  (* verify_data->hash[64] *)
  v_gs : gstate;  (* gop_state *)
  v_started : bool;  (* authentication_started *)
  v_report : bool;  (* authenticity is not NULL *)
  v_latest : latest;  (* authenticity->latest_validation *)
  v_acc : accum;  (* authenticity->accumulated_validation *)
  v_legacy : bool  (* legacy_sv is not NULL *)
}.
Definition set_v_codec (v : codec) (r : valid) : valid := mkValid v (v_dec r) (v_buddies r) (v_has_ref r) (v_items r) (v_result r) (v_first r) (v_signing r) (v_first_sei r) (v_verified r) (v_gop r) (v_synced r) (v_computed r) (v_links r) (v_hash r) (v_gs r) (v_started r) (v_report r) (v_latest r) (v_acc r) (v_legacy r).
Definition set_v_dec (v : dec) (r : valid) : valid := mkValid (v_codec r) v (v_buddies r) (v_has_ref r) (v_items r) (v_result r) (v_first r) (v_signing r) (v_first_sei r) (v_verified r) (v_gop r) (v_synced r) (v_computed r) (v_links r) (v_hash r) (v_gs r) (v_started r) (v_report r) (v_latest r) (v_acc r) (v_legacy r).
Definition set_v_buddies (v : list N) (r : valid) : valid := mkValid (v_codec r) (v_dec r) v (v_has_ref r) (v_items r) (v_result r) (v_first r) (v_signing r) (v_first_sei r) (v_verified r) (v_gop r) (v_synced r) (v_computed r) (v_links r) (v_hash r) (v_gs r) (v_started r) (v_report r) (v_latest r) (v_acc r) (v_legacy r).
Definition set_v_has_ref (v : bool) (r : valid) : valid := mkValid (v_codec r) (v_dec r) (v_buddies r) v (v_items r) (v_result r) (v_first r) (v_signing r) (v_first_sei r) (v_verified r) (v_gop r) (v_synced r) (v_computed r) (v_links r) (v_hash r) (v_gs r) (v_started r) (v_report r) (v_latest r) (v_acc r) (v_legacy r).
Definition set_v_items (v : list item) (r : valid) : valid := mkValid (v_codec r) (v_dec r) (v_buddies r) (v_has_ref r) v (v_result r) (v_first r) (v_signing r) (v_first_sei r) (v_verified r) (v_gop r) (v_synced r) (v_computed r) (v_links r) (v_hash r) (v_gs r) (v_started r) (v_report r) (v_latest r) (v_acc r) (v_legacy r).
Definition set_v_result (v : bool) (r : valid) : valid := mkValid (v_codec r) (v_dec r) (v_buddies r) (v_has_ref r) (v_items r) v (v_first r) (v_signing r) (v_first_sei r) (v_verified r) (v_gop r) (v_synced r) (v_computed r) (v_links r) (v_hash r) (v_gs r) (v_started r) (v_report r) (v_latest r) (v_acc r) (v_legacy r).
Definition set_v_first (v : bool) (r : valid) : valid := mkValid (v_codec r) (v_dec r) (v_buddies r) (v_has_ref r) (v_items r) (v_result r) v (v_signing r) (v_first_sei r) (v_verified r) (v_gop r) (v_synced r) (v_computed r) (v_links r) (v_hash r) (v_gs r) (v_started r) (v_report r) (v_latest r) (v_acc r) (v_legacy r).
Definition set_v_signing (v : bool) (r : valid) : valid := mkValid (v_codec r) (v_dec r) (v_buddies r) (v_has_ref r) (v_items r) (v_result r) (v_first r) v (v_first_sei r) (v_verified r) (v_gop r) (v_synced r) (v_computed r) (v_links r) (v_hash r) (v_gs r) (v_started r) (v_report r) (v_latest r) (v_acc r) (v_legacy r).
Definition set_v_first_sei (v : bool) (r : valid) : valid := mkValid (v_codec r) (v_dec r) (v_buddies r) (v_has_ref r) (v_items r) (v_result r) (v_first r) (v_signing r) v (v_verified r) (v_gop r) (v_synced r) (v_computed r) (v_links r) (v_hash r) (v_gs r) (v_started r) (v_report r) (v_latest r) (v_acc r) (v_legacy r).
Definition set_v_verified (v : Z) (r : valid) : valid := mkValid (v_codec r) (v_dec r) (v_buddies r) (v_has_ref r) (v_items r) (v_result r) (v_first r) (v_signing r) (v_first_sei r) v (v_gop r) (v_synced r) (v_computed r) (v_links r) (v_hash r) (v_gs r) (v_started r) (v_report r) (v_latest r) (v_acc r) (v_legacy r).
Definition set_v_gop (v : N) (r : valid) : valid := mkValid (v_codec r) (v_dec r) (v_buddies r) (v_has_ref r) (v_items r) (v_result r) (v_first r) (v_signing r) (v_first_sei r) (v_verified r) v (v_synced r) (v_computed r) (v_links r) (v_hash r) (v_gs r) (v_started r) (v_report r) (v_latest r) (v_acc r) (v_legacy r).
Definition set_v_synced (v : bool) (r : valid) : valid := mkValid (v_codec r) (v_dec r) (v_buddies r) (v_has_ref r) (v_items r) (v_result r) (v_first r) (v_signing r) (v_first_sei r) (v_verified r) (v_gop r) v (v_computed r) (v_links r) (v_hash r) (v_gs r) (v_started r) (v_report r) (v_latest r) (v_acc r) (v_legacy r).
Definition set_v_computed (v : list N) (r : valid) : valid := mkValid (v_codec r) (v_dec r) (v_buddies r) (v_has_ref r) (v_items r) (v_result r) (v_first r) (v_signing r) (v_first_sei r) (v_verified r) (v_gop r) (v_synced r) v (v_links r) (v_hash r) (v_gs r) (v_started r) (v_report r) (v_latest r) (v_acc r) (v_legacy r).
Definition set_v_links (v : list N) (r : valid) : valid := mkValid (v_codec r) (v_dec r) (v_buddies r) (v_has_ref r) (v_items r) (v_result r) (v_first r) (v_signing r) (v_first_sei r) (v_verified r) (v_gop r) (v_synced r) (v_computed r) v (v_hash r) (v_gs r) (v_started r) (v_report r) (v_latest r) (v_acc r) (v_legacy r).
Definition set_v_hash (v : list N) (r : valid) : valid := mkValid (v_codec r) (v_dec r) (v_buddies r) (v_has_ref r) (v_items r) (v_result r) (v_first r) (v_signing r) (v_first_sei r) (v_verified r) (v_gop r) (v_synced r) (v_computed r) (v_links r) v (v_gs r) (v_started r) (v_report r) (v_latest r) (v_acc r) (v_legacy r).
Definition set_v_gs (v : gstate) (r : valid) : valid := mkValid (v_codec r) (v_dec r) (v_buddies r) (v_has_ref r) (v_items r) (v_result r) (v_first r) (v_signing r) (v_first_sei r) (v_verified r) (v_gop r) (v_synced r) (v_computed r) (v_links r) (v_hash r) v (v_started r) (v_report r) (v_latest r) (v_acc r) (v_legacy r).
Definition set_v_started (v : bool) (r : valid) : valid := mkValid (v_codec r) (v_dec r) (v_buddies r) (v_has_ref r) (v_items r) (v_result r) (v_first r) (v_signing r) (v_first_sei r) (v_verified r) (v_gop r) (v_synced r) (v_computed r) (v_links r) (v_hash r) (v_gs r) v (v_report r) (v_latest r) (v_acc r) (v_legacy r).
Definition set_v_report (v : bool) (r : valid) : valid := mkValid (v_codec r) (v_dec r) (v_buddies r) (v_has_ref r) (v_items r) (v_result r) (v_first r) (v_signing r) (v_first_sei r) (v_verified r) (v_gop r) (v_synced r) (v_computed r) (v_links r) (v_hash r) (v_gs r) (v_started r) v (v_latest r) (v_acc r) (v_legacy r).
Definition set_v_latest (v : latest) (r : valid) : valid := mkValid (v_codec r) (v_dec r) (v_buddies r) (v_has_ref r) (v_items r) (v_result r) (v_first r) (v_signing r) (v_first_sei r) (v_verified r) (v_gop r) (v_synced r) (v_computed r) (v_links r) (v_hash r) (v_gs r) (v_started r) (v_report r) v (v_acc r) (v_legacy r).
Definition set_v_acc (v : accum) (r : valid) : valid := mkValid (v_codec r) (v_dec r) (v_buddies r) (v_has_ref r) (v_items r) (v_result r) (v_first r) (v_signing r) (v_first_sei r) (v_verified r) (v_gop r) (v_synced r) (v_computed r) (v_links r) (v_hash r) (v_gs r) (v_started r) (v_report r) (v_latest r) v (v_legacy r).
Definition set_v_legacy (v : bool) (r : valid) : valid := mkValid (v_codec r) (v_dec r) (v_buddies r) (v_has_ref r) (v_items r) (v_result r) (v_first r) (v_signing r) (v_first_sei r) (v_verified r) (v_gop r) (v_synced r) (v_computed r) (v_links r) (v_hash r) (v_gs r) (v_started r) (v_report r) (v_latest r) (v_acc r) v.

{
 "claims": [
  {
   "property": "C01",
   "status": "proved",
   "theorems": [
    "C01_epb_lossless",
    "C01_no_emulation"
   ],
   "note": ""
  },
  {
   "property": "C02",
   "status": "proved",
   "theorems": [
    "C02_no_start_code_in_sei"
   ],
   "note": ""
  },
  {
   "property": "C03",
   "status": "partial",
   "theorems": [
    "C03_buffer_refuted",
    "C03_plain_partial",
    "C03_zeros_partial"
   ],
   "note": "The full statement is refuted (C03_buffer_refuted): escapes can need more than the third that is reserved. Proved: sessions without emulation prevention never overflow; with it a SEI fits if at most two thirds of its metadata bytes are zero."
  },
  {
   "property": "C04",
   "status": "proved",
   "theorems": [
    "C04_integers_survive",
    "C04_readers",
    "C04_counter_on_the_wire"
   ],
   "note": ""
  },
  {
   "property": "C05",
   "status": "proved",
   "theorems": [
    "C05_general",
    "C05_public_key",
    "C05_hash_list",
    "C05_signature",
    "C05_crypto_info",
    "C05_arbitrary_data",
    "C41_product_info"
   ],
   "note": ""
  },
  {
   "property": "C06",
   "status": "proved",
   "theorems": [
    "C06_sizes_exact",
    "C06_escaped_same_bytes"
   ],
   "note": ""
  },
  {
   "property": "C07",
   "status": "proved",
   "theorems": [
    "C07_list_decodes"
   ],
   "note": ""
  },
  {
   "property": "C08",
   "status": "partial",
   "theorems": [
    "C08_signature_found_partial",
    "C08_signature_found_refuted"
   ],
   "note": "The full statement is refuted (C08_signature_found_refuted): with as many escapes as the signature field has bytes the tag is missed. Proved for every SEI with fewer escapes before the signature, and without condition if the signer adds no emulation prevention."
  },
  {
   "property": "C09",
   "status": "proved",
   "theorems": [
    "C09_parsed"
   ],
   "note": ""
  },
  {
   "property": "C10",
   "status": "partial",
   "theorems": [
    "C10_same_hash_partial",
    "C10_same_hash_refuted"
   ],
   "note": "The full statement is refuted (C10_same_hash_refuted) for the same reason as C08; proved for every SEI with few escapes before the signature."
  },
  {
   "property": "C11",
   "status": "proved",
   "theorems": [
    "C11_start_code_and_trailing_zeros",
    "C11_start_code_of_parts",
    "C11_hashed_bytes"
   ],
   "note": ""
  },
  {
   "property": "C12",
   "status": "partial",
   "theorems": [
    "C12_h264_header",
    "C12_h265_header",
    "C12_standard_refuted"
   ],
   "note": "Both header parsers are proved equal to an explicit table for every header; C12_standard_refuted lists where that table differs from the standard."
  },
  {
   "property": "C13",
   "status": "partial",
   "theorems": [
    "C13_parts_partial",
    "C13_any_cut_refuted"
   ],
   "note": "Proved for all sessions and all cuts except those with an empty part, a first part ending within start code or header, or a last part of zeros only; C13_any_cut_refuted shows that the code misbehaves for the last kind."
  },
  {
   "property": "C14",
   "status": "partial",
   "theorems": [
    "C14_refused",
    "C14_retry_partial",
    "C14_parts_refuted",
    "C14_full_refuted"
   ],
   "note": "C14_refused: a NALU is refused while a SEI is known to wait. C14_retry_partial: the repeated call has the documented effect for NALUs added as a whole. The full statement is false for parts (C14_parts_refuted) and for refusals caused by a full SEI buffer (C14_full_refuted)."
  },
  {
   "property": "C15",
   "status": "proved",
   "theorems": [
    "C15_all_in_order",
    "C15_bounded",
    "C15_prepend_order_refuted"
   ],
   "note": "C15_prepend_order_refuted: the deprecated pull function is last in first out."
  },
  {
   "property": "C16",
   "status": "proved",
   "theorems": [
    "C16_own_signature",
    "C16_new_key_refuted"
   ],
   "note": "C16_new_key_refuted shows that the condition on key changes is needed."
  },
  {
   "property": "C17",
   "status": "proved",
   "theorems": [
    "C17_counters"
   ],
   "note": ""
  },
  {
   "property": "C18",
   "status": "proved",
   "theorems": [
    "C18_sei_describes_gop"
   ],
   "note": ""
  },
  {
   "property": "C19",
   "status": "proved",
   "theorems": [
    "C19_linked_hash"
   ],
   "note": ""
  },
  {
   "property": "C20",
   "status": "proved",
   "theorems": [
    "C20_hash_list"
   ],
   "note": ""
  },
  {
   "property": "C21",
   "status": "proved",
   "theorems": [
    "C21_max_payload"
   ],
   "note": ""
  },
  {
   "property": "C22",
   "status": "proved",
   "theorems": [
    "C22_recurrence",
    "C22_pulled_late_refuted"
   ],
   "note": "For sessions that ask for a SEI after each NALU; the condition is needed (C22_pulled_late_refuted)."
  },
  {
   "property": "C23",
   "status": "proved",
   "theorems": [
    "C23_settings_locked"
   ],
   "note": ""
  },
  {
   "property": "C24",
   "status": "proved",
   "theorems": [
    "C24_queue",
    "C24_in_order",
    "C24_signer_queue"
   ],
   "note": "The queue of the unthreaded plugin for every sequence of calls; C24_signer_queue ties it to the queue used in the model of the signing side."
  },
  {
   "property": "C25",
   "status": "partial",
   "theorems": [
    "C25_sessions_partial",
    "C25_paired",
    "C25_head_blocks",
    "C25_full_refuted",
    "C25_two_sizes_refuted",
    "C25_second_exit_refuted",
    "C25_own_thread_refuted"
   ],
   "note": "C25_sessions_partial and C25_paired hold for every interleaving of calls of any number of sessions with the central thread, in one lifetime of the plugin with one hash size. The full statement is refuted: more than 60 outstanding signatures mispair (C25_full_refuted), two hash sizes (C25_two_sizes_refuted), a second stop (C25_second_exit_refuted), a full input buffer of a session with its own thread (C25_own_thread_refuted). C25_head_blocks: a session that does not fetch its signature blocks all others for ever."
  },
  {
   "property": "C26",
   "status": "proved",
   "theorems": [
    "C26_unique",
    "C26_free_id"
   ],
   "note": "For every history with any number of initialisations and stops and any value of the counter."
  },
  {
   "property": "C27",
   "status": "partial",
   "theorems": [
    "C27_untampered_partial",
    "C27_illegal_header_refuted",
    "C27_escapes_refuted",
    "C27_key_by_hand_refuted"
   ],
   "note": "C27_untampered_partial: for every signed session without golden SEIs, every stream of GOPs of any length with both codecs and any content, and SEIs arriving any number of NALUs late within the next GOP. Conditions: hashed NALUs have legal headers, few escapes in the SEIs, SHA-256 if the key is set by hand. Each condition is needed (C27_illegal_header_refuted, C27_escapes_refuted, C27_key_by_hand_refuted). Golden SEIs are treated in C53 and the end of a stream in C51."
  },
  {
   "property": "C28",
   "status": "partial",
   "theorems": [
    "C28_authentic_partial",
    "C28_gop_same_bytes",
    "C28_list_same_bytes",
    "C28_failed_refuted",
    "C28_verdict_refuted",
    "C28_list_refuted"
   ],
   "note": "C28_authentic_partial: for every session without golden SEIs, every NALU shown authentic has its evidence (verified signature over a SEI that was added, and a GOP hash or hash list covering the picture). C28_gop_same_bytes and C28_list_same_bytes: other bytes with the same evidence exhibit a collision. The full statement is refuted in three ways: a signature check that fails with an error (C28_failed_refuted), a SEI with a bad signature between GOPs (C28_verdict_refuted), and a hash list kept from a badly signed SEI (C28_list_refuted). Missing: golden SEIs, NALUs after the first refused one, and the verdict of the report."
  },
  {
   "property": "C29",
   "status": "partial",
   "theorems": [
    "C29_hash_list_partial",
    "C29_broken_link",
    "C29_missing_count_refuted"
   ],
   "note": "Exact characterisation of the NALUs marked authentic (C29_hash_list_partial, C29_broken_link) for every list of received NALUs and every signed list. The count of missing plus authentic NALUs is only an upper bound when some NALU is not authentic; equality is refuted (C29_missing_count_refuted)."
  },
  {
   "property": "C30",
   "status": "proved",
   "theorems": [
    "C30_unsigned"
   ],
   "note": "For all streams, calls and codecs; also shows that such sessions have a defined outcome and terminate."
  },
  {
   "property": "C31",
   "status": "partial",
   "theorems": [
    "C31_received_partial",
    "C31_counted_partial",
    "C31_received_refuted"
   ],
   "note": "C31_counted_partial: while every report finds the video signed, received NALUs and missing ones still waiting are the validated and pending ones; missing NALUs never count as received or validated. C31_received_partial: without missing NALUs the plain sum. The full statement is refuted for unsigned video and for missing NALUs that wait (C31_received_refuted)."
  },
  {
   "property": "C32",
   "status": "partial",
   "theorems": [
    "C32_never_improves_partial",
    "C32_not_ok_stays_partial",
    "C32_never_improves_refuted",
    "C32_old_partial"
   ],
   "note": "Proved for sessions without reset and without golden SEIs; with a golden SEI the full statement is refuted (C32_never_improves_refuted). C32_old_partial: for recordings of older versions, from one report to the next."
  },
  {
   "property": "C33",
   "status": "partial",
   "theorems": [
    "C33_key_change_partial",
    "C33_reported_partial",
    "C33_key_change_refuted",
    "C33_old_refuted",
    "C33_old_told"
   ],
   "note": "Proved for sessions without reset and golden SEIs in which every call succeeds: the key in use stays, or the report of the call that changes it and the overall result are NOT_OK. The flag public_key_has_changed itself is only shown in the example. The full statement is refuted (C33_key_change_refuted): a SEI that fails to decode after its public key replaces the key unnoticed. For recordings of older versions it is refuted too (C33_old_refuted). There, public_key_has_changed of the accumulated result stays set (C33_old_told)."
  },
  {
   "property": "C34",
   "status": "partial",
   "theorems": [
    "C34_key_set_once",
    "C34_refused_partial",
    "C34_refused_refuted"
   ],
   "note": "Setting the key succeeds at most once and never after a NALU (C34_key_set_once). A call refused with NOT_SUPPORTED or INVALID_PARAMETER changes nothing; a call failing with EXTERNAL_ERROR does (C34_refused_refuted)."
  },
  {
   "property": "C35",
   "status": "partial",
   "theorems": [
    "C35_calls_end_partial",
    "C35_calls_end_refuted"
   ],
   "note": "Proved for every session and every input with the arithmetic that detect_lost_sei has in C (overflow undefined or wrapping): the number of rounds of the validation loop is bounded by the number of NALUs added. With the arithmetic that is meant (integers) the full statement is refuted (C35_calls_end_refuted): after two lost GOPs a call never returns."
  },
  {
   "property": "C36",
   "status": "partial",
   "theorems": [
    "C36_other_nalus_partial",
    "C36_malformed_refuted"
   ],
   "note": "Proved for sessions of NALUs that are not Signed Video SEIs and have a start code, a header and one more byte. For others the full statement is refuted (C36_malformed_refuted): ten crafted inputs that make the code read or write outside of memory, call a null pointer or overflow."
  },
  {
   "property": "C37",
   "status": "partial",
   "theorems": [
    "C37_reset_partial",
    "C37_reset_refuted"
   ],
   "note": "Proved for unsigned video after the reset. For signed video the full statement is refuted (C37_reset_refuted): the public key survives the reset."
  },
  {
   "property": "C38",
   "status": "partial",
   "theorems": [
    "C38_lost_sei_partial",
    "C38_lost_sei_refuted",
    "C38_wraparound_refuted"
   ],
   "note": "Proved for all states and counters larger than the expected one if the arithmetic of detect_lost_sei is that of integers. With the int64_t arithmetic of the code the full statement is refuted: undefined behaviour, or with wrapping never detected (C38_lost_sei_refuted); the loss of the last SEI before the counter wraps is never seen (C38_wraparound_refuted)."
  },
  {
   "property": "C39",
   "status": "proved",
   "theorems": [
    "C39_strings_line_up"
   ],
   "note": ""
  },
  {
   "property": "C40",
   "status": "partial",
   "theorems": [
    "C40_version_order",
    "C40_never_mismatch",
    "C40_mismatch_refuted",
    "C40_old_never_mismatch"
   ],
   "note": "The order of versions is proved for all version numbers. The second half is false: C40_never_mismatch shows that no session ever reports VERSION_MISMATCH, C40_mismatch_refuted is an example; C40_old_never_mismatch is the same for recordings of older versions."
  },
  {
   "property": "C41",
   "status": "proved",
   "theorems": [
    "C41_product_info"
   ],
   "note": ""
  },
  {
   "property": "C42",
   "status": "proved",
   "theorems": [
    "C42_removed_when_validated"
   ],
   "note": "The bookkeeping law covers every session in which the user asks for a report with every NALU and adds no Signed Video SEI with a payload shorter than 17 bytes; sessions handed to the legacy code are covered up to that point."
  },
  {
   "property": "C43",
   "status": "partial",
   "theorems": [
    "C43_round_trip",
    "C43_other_refused_partial",
    "C43_cut_off_refuted",
    "C43_longer_refuted",
    "C43_without_chain_refuted",
    "C43_few_certificates_refuted",
    "C43_refused_report_refuted"
   ],
   "note": "C43_round_trip: for every attestation of 1 to 255 bytes and every chain of three certificates, through the byte writer. C43_other_refused_partial: other data is refused, unless the certificates are longer than the ones held or just cut off; both cases are refuted (C43_longer_refuted, C43_cut_off_refuted). Also refuted: C43_without_chain_refuted, C43_few_certificates_refuted, C43_refused_report_refuted."
  },
  {
   "property": "C44",
   "status": "partial",
   "theorems": [
    "C44_final",
    "C44_key_change",
    "C44_accumulated",
    "C44_serial_refuted",
    "C44_key_again_refuted"
   ],
   "note": "C44_final: a check that fails for lack of an attestation that fits is never followed by a positive one; C44_key_change: the same after a change of the key; C44_accumulated: the accumulated report keeps the failure until a reset. The full statement is refuted: a wrong serial number is forgotten (C44_serial_refuted), and after a failure the next public key leads to a use after free (C44_key_again_refuted)."
  },
  {
   "property": "C45",
   "status": "partial",
   "theorems": [
    "C45_slices_hashed_refuted",
    "C45_slices_hashed_partial"
   ],
   "note": "Refuted for slice data partitions and other slice types (C45_slices_hashed_refuted); proved for the slice types the framework knows."
  },
  {
   "property": "C46",
   "status": "proved",
   "theorems": [
    "C46_attested",
    "C46_origin"
   ],
   "note": "For every history of the vendor code and every answer of OpenSSL. What X509_verify_cert and EVP_DigestVerify guarantee is outside of the model."
  },
  {
   "property": "C47",
   "status": "partial",
   "theorems": [
    "C47_gop_order_partial",
    "C47_same_bytes"
   ],
   "note": "C47_gop_order_partial: for every session, every first NALU of a GOP shown authentic is vouched for by a signed SEI whose linked hash is that of the first NALU of the GOP before; C47_same_bytes: other bytes with that hash exhibit a collision. Missing: golden SEIs, NALUs after the first refused one, digests of different sizes, signature checks that fail with an error. A hash never computed counts as zero."
  },
  {
   "property": "C48",
   "status": "partial",
   "theorems": [
    "C48_bad_pictures_partial",
    "C48_missing_shown_partial",
    "C48_not_ok_shown_partial",
    "C48_sei_refuted"
   ],
   "note": "Three theorems, one for each of NOT_OK, OK_WITH_MISSING_INFO and the other verdicts, for every session in which no NALU is refused, without golden SEIs and errors of the signature check. The full statement is refuted: a forged SEI is shown as not authentic while the report says OK (C48_sei_refuted). Missing for NOT_OK: the first verdict of a session."
  },
  {
   "property": "C49",
   "status": "partial",
   "theorems": [
    "C49_damage_stays_partial",
    "C49_first_nalu_refuted",
    "C49_first_gop_refuted",
    "C49_lost_sei_refuted"
   ],
   "note": "For every signing session and any damage to the NALUs of GOPs after the first one, as long as every GOP still begins with a NALU that begins a GOP and all SEIs arrive; conditions of C27. The conditions are needed: a changed first NALU of a GOP makes the next GOP not authentic (C49_first_nalu_refuted), damage to the first GOP of a session all later GOPs (C49_first_gop_refuted), and so does one lost SEI when the GOP counter difference wraps (C49_lost_sei_refuted)."
  },
  {
   "property": "C50",
   "status": "partial",
   "theorems": [
    "C50_from_gop_partial",
    "C50_from_sei_partial",
    "C50_overflow_refuted",
    "C50_middle_refuted"
   ],
   "note": "For every signing session and every part that begins with a GOP (C50_from_gop_partial) or with the SEI before it (C50_from_sei_partial), conditions of C27, every SEI with the public key or the key set by hand, and int arithmetic that does not overflow into undefined behaviour. The last is needed: C50_overflow_refuted; so is the start at a GOP: C50_middle_refuted. Missing: parts whose first SEI arrives after some NALUs of the first GOP."
  },
  {
   "property": "C51",
   "status": "partial",
   "theorems": [
    "C51_stream_end_partial",
    "C51_last_sei",
    "C51_gop_level_refuted",
    "C51_one_gop_refuted",
    "C51_replay_refuted"
   ],
   "note": "C51_stream_end_partial: for every session that is ended, and any damage to its stream as in C49, the report at the last SEI is about the last GOP, provided the SEI lists its hashes; C51_last_sei says what the last SEI carries. The if-and-only-if claim is false: C51_gop_level_refuted, C51_one_gop_refuted (the SEI carries the GOP hash of the GOP before) and C51_replay_refuted (a copy of the GOP before the last one is accepted instead of it)."
  },
  {
   "property": "C52",
   "status": "partial",
   "theorems": [
    "C52_losses_told_partial",
    "C52_only_lost"
   ],
   "note": "C52_losses_told_partial: for every signing session and any damage to the NALUs of GOPs after the first one, for every GOP whose SEI lists its hashes, with the conditions of C49; C52_only_lost says in other words when no NALU counts as wrong. Missing: damage to the first GOP and to first NALUs of GOPs, SEIs that are lost (see the refutations of C49)."
  },
  {
   "property": "C53",
   "status": "partial",
   "theorems": [
    "C53_golden_sei",
    "C53_golden_session",
    "C53_stored_partial",
    "C53_session_partial",
    "C53_later_refuted",
    "C53_level_refuted"
   ],
   "note": "C53_stored_partial and C53_session_partial: a golden SEI from another session or from the same one, in front of the first hashed NALU of any stream or part of a stream with the same key and settings, with the conditions of C49; no condition on recurrence or on the golden SEI principle. C53_golden_sei and C53_golden_session say what is signed. The full statement is refuted: a golden SEI that is the first SEI but comes after a hashed NALU is refused, with every SEI after it (C53_later_refuted); making one changes the level to frame level (C53_level_refuted)."
  },
  {
   "property": "C54",
   "status": "partial",
   "theorems": [
    "C54_defined_partial",
    "C54_only_overflow",
    "C54_signed_seis",
    "C54_overflow_refuted",
    "C54_failing_refuted",
    "C54_key_refuted"
   ],
   "note": "C54_defined_partial: for every sequence of calls with any NALUs that are no Signed Video SEIs and SEIs of fields in the right format with any signature, no undefined behaviour, no endless loop and no switch to the legacy code, with wrapping integers; C54_only_overflow: with the integers of C nothing but a signed overflow. C54_signed_seis: the SEIs of every signing session are of that kind. Missing: golden SEIs, vendor fields. The conditions are needed: the overflow does happen (C54_overflow_refuted), an error of the signature check leads to a null pointer (C54_failing_refuted), an unreadable public key to the legacy code (C54_key_refuted)."
  },
  {
   "property": "C55",
   "status": "partial",
   "theorems": [
    "C55_each_stream",
    "C55_no_more",
    "C55_valid_partial",
    "C55_overflow_refuted",
    "C55_goes_on_refuted"
   ],
   "note": "C55_each_stream and C55_no_more: for every session and every number of streams, what the SEIs of each stream consist of, and that there are no others. C55_valid_partial: a new validator finds each stream authentic, with the conditions of C50, of which the one on overflow is needed: C55_overflow_refuted. A validator that is not reset and not new finds the second stream not authentic (C55_goes_on_refuted). Missing: streams ended with signed_video_set_end_of_stream, settings changed between streams."
  },
  {
   "property": "C56",
   "status": "partial",
   "theorems": [
    "C56_heals_partial",
    "C56_back_partial",
    "C56_from_sei_partial",
    "C56_overflow_refuted",
    "C56_size_refuted",
    "C56_key_refuted"
   ],
   "note": "C56_heals_partial: for every signing session, every GOP to begin with and every history of calls with NALUs that are no Signed Video SEIs and SEIs in the right format with any signature, the same key and the same size of signatures, with wrapping integers. C56_back_partial: the same with the integers of C if the first counter is not larger than the last one before the reset plus one. C56_from_sei_partial: recordings that begin with the SEI of the GOP before. Conditions of C27 and C50, and the public key is in the SEIs. The conditions on the history are needed: C56_overflow_refuted, C56_size_refuted, C56_key_refuted."
  },
  {
   "property": "C57",
   "status": "proved",
   "theorems": [
    "C57_list_in_memory",
    "C57_all_freed"
   ],
   "note": "For every allocator that returns addresses not in use and every history of visits (proper in HeapSpec.v). That the validator uses the list in this way is part of C58."
  },
  {
   "property": "C58",
   "status": "proved",
   "theorems": [
    "C58_own_copies"
   ],
   "note": "For every sequence of calls of a validating session in which the model has a result; sessions handed over to the legacy code are left out."
  },
  {
   "property": "C59",
   "status": "proved",
   "theorems": [
    "C59_own_signature",
    "C59_all_in_order",
    "C59_bounded",
    "C59_memory",
    "C59_size_kept",
    "C59_as_at_once",
    "C59_prepend_refuted"
   ],
   "note": "Sessions in which the worker thread never fails (C60) and the deprecated pull function is not used: C59_prepend_refuted shows that it overruns its memory. C59_as_at_once links the model to the one all other theorems on signing sessions are about."
  },
  {
   "property": "C60",
   "status": "partial",
   "theorems": [
    "C60_failure_refuted",
    "C60_before_partial"
   ],
   "note": "Refuted (C60_failure_refuted): the failure is swallowed and all later signatures end up in the SEI before the one they belong to. Proved: C60_before_partial, the SEIs handed out before the first failure are right."
  },
  {
   "property": "C61",
   "status": "proved",
   "theorems": [
    "C61_as_in_time",
    "C61_same_seis"
   ],
   "note": "For the default recurrence, which is needed (C22_pulled_late_refuted); no failure in the thread (C60)."
  },
  {
   "property": "C62",
   "status": "partial",
   "theorems": [
    "C62_safe_refuted"
   ],
   "note": "Refuted (C62_safe_refuted): with three NALUs anyone can make, the code for older versions uses a local variable of a call that has returned."
  },
  {
   "property": "C63",
   "status": "partial",
   "theorems": [
    "C63_untampered_partial",
    "C63_long_hash_refuted",
    "C63_cut_refuted"
   ],
   "note": "C63_untampered_partial: all recordings that begin with a SEI in front of its GOP, with lists of hashes or with a digest of 32 bytes. False without: C63_long_hash_refuted (no lists, digest of 64 bytes), C63_cut_refuted (the recording begins with a GOP without the SEI in front of it)."
  },
  {
   "property": "C64",
   "status": "partial",
   "theorems": [
    "C64_same",
    "C64_damaged_refuted"
   ],
   "note": "C64_same: a session that is not handed over to the code for older versions answers as the session of the other properties. That only SEIs of older versions cause this is refuted (C64_damaged_refuted): one damaged byte in the key of the first SEI is enough."
  },
  {
   "property": "C65",
   "status": "partial",
   "theorems": [
    "C65_reset_refuted",
    "C65_again_partial"
   ],
   "note": "C65_again_partial: another untampered recording of an older version with the same settings is found authentic. For recordings of this version it is refuted (C65_reset_refuted)."
  },
  {
   "property": "C66",
   "status": "partial",
   "theorems": [
    "C66_broken_refuted",
    "C66_twice_refuted"
   ],
   "note": "Refuted (C66_broken_refuted, C66_twice_refuted)."
  },
  {
   "property": "C67",
   "status": "partial",
   "theorems": [
    "C67_authentic_partial",
    "C67_chain_same_bytes",
    "C67_list_same_bytes",
    "C67_verdict"
   ],
   "note": "C67_authentic_partial: digests of 32 bytes, a library whose verification says yes or no, sessions without golden SEIs in which no NALU was refused. A hash never computed counts as zero, the list of another SEI need not be signed. C67_chain_same_bytes and C67_list_same_bytes: what is in a signed chain or list has the signed bytes unless strings named in the statement collide. C67_verdict: the verdict agrees with what is shown, for every session."
  },
  {
   "property": "C68",
   "status": "partial",
   "theorems": [
    "C68_replayed_refuted"
   ],
   "note": "Refuted (C68_replayed_refuted), with and without lists of hashes."
  }
 ]
}
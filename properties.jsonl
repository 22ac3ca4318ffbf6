{"id": "C01", "title": "Emulation prevention is lossless", "statement": "Any byte sequence written with emulation prevention and read back with emulation prevention removal gives the same bytes, whatever the two bytes written before it were.", "quantifier": "all byte sequences, all histories of the two previously written bytes", "why_tests_cant": "the escape decision depends on unbounded runs and positions of zero bytes across call boundaries", "anchors": ["lib/src/signed_video_tlv.c:write_byte", "lib/src/signed_video_tlv.c:write_byte_many", "lib/src/signed_video_tlv.c:read_byte"]}
{"id": "C02", "title": "A generated SEI never contains a start code in its body", "statement": "With SEI emulation prevention enabled, the bytes of a SEI returned by signed_video_get_sei, after its 4-byte start code and fixed header, never contain 00 00 00, 00 00 01 or 00 00 02, so a demuxer can never split it; only genuine escapes 00 00 03 occur.", "quantifier": "all metadata contents, all hash values, all signatures, all SEI sizes", "why_tests_cant": "the offending pattern can straddle any two fields, including the signature that is added later in a separate pass", "anchors": ["lib/src/signed_video_h26x_sign.c:generate_sei_nalu", "lib/src/signed_video_h26x_sign.c:complete_sei_nalu_and_add_for_prepend", "lib/src/signed_video_tlv.c:write_byte"]}
{"id": "C03", "title": "SEI buffer never overflows", "statement": "The bytes written while a SEI is built (including escapes) fit the memory allocated for it.", "quantifier": "all metadata contents and hash values", "why_tests_cant": "worst case escape density is reached only by specific hash values which tests do not hit", "anchors": ["lib/src/signed_video_h26x_sign.c:generate_sei_nalu"]}
{"id": "C04", "title": "Big-endian integers survive", "statement": "Every 16, 32 and 64 bit integer (GOP counter, NALU count, timestamp, sizes) written to a SEI is read back as the same integer.", "quantifier": "all integers in range, with and without emulation prevention", "why_tests_cant": "value space 2^64", "anchors": ["lib/src/signed_video_tlv.c:read_64bits", "lib/src/signed_video_tlv.c:read_32bits", "lib/src/signed_video_tlv.c:read_16bits", "lib/src/signed_video_tlv.c:encode_general"]}
{"id": "C05", "title": "Each metadata field the signer sends is the one the validator gets", "statement": "For every tag, decoding the encoded field on the validating side returns success and reproduces GOP counter, NALU count, version, timestamp, linked hash, GOP hash, public key, product information, hash list, crypto identifier and signature.", "quantifier": "all values of all fields, all hash sizes up to 64, all key, list and signature sizes that fit the length field", "why_tests_cant": "cross product of unbounded field contents", "anchors": ["lib/src/signed_video_tlv.c:encode_general", "lib/src/signed_video_tlv.c:decode_general", "lib/src/signed_video_tlv.c:encode_public_key", "lib/src/signed_video_tlv.c:decode_public_key", "lib/src/signed_video_tlv.c:encode_product_info", "lib/src/signed_video_tlv.c:decode_product_info", "lib/src/signed_video_tlv.c:encode_hash_list", "lib/src/signed_video_tlv.c:decode_hash_list", "lib/src/signed_video_tlv.c:encode_signature", "lib/src/signed_video_tlv.c:decode_signature", "lib/src/signed_video_tlv.c:encode_crypto_info", "lib/src/signed_video_tlv.c:decode_crypto_info"]}
{"id": "C06", "title": "Declared sizes are exact", "statement": "The size computed in the size pass for every field, and hence the payload size declared in the SEI header, equals the number of bytes the write pass produces before emulation prevention, for every state of the session.", "quantifier": "all session states and tag lists", "why_tests_cant": "size pass and write pass are separate executions of hand written code that must agree for all contents", "anchors": ["lib/src/signed_video_tlv.c:tlv_encode_or_get_size_generic", "lib/src/signed_video_tlv.c:tlv_list_encode_or_get_size", "lib/src/signed_video_h26x_sign.c:generate_sei_nalu"]}
{"id": "C07", "title": "A whole TLV list decodes to what was encoded", "statement": "Decoding any concatenation of encoded fields succeeds and has exactly the effect of decoding every field in order; nothing is skipped or read twice.", "quantifier": "all lists of fields of any length, all contents", "why_tests_cant": "number of fields and contents unbounded", "anchors": ["lib/src/signed_video_tlv.c:tlv_decode", "lib/src/signed_video_tlv.c:decode_tlv_header", "lib/src/signed_video_tlv.c:tlv_list_encode_or_get_size"]}
{"id": "C08", "title": "The signature field is always found", "statement": "In a SEI produced by the signer, with or without escapes, the validator locates the signature at exactly the byte offset where the signer put it, and not at any other byte that happens to equal the signature tag.", "quantifier": "all preceding fields and contents, escaped or not", "why_tests_cant": "contents of other fields can contain the tag value at any position", "anchors": ["lib/src/signed_video_tlv.c:tlv_find_tag", "lib/src/signed_video_h26x_auth.c:update_hashable_data"]}
{"id": "C09", "title": "A generated SEI is recognised and unwrapped by the validator", "statement": "Parsing a SEI returned by signed_video_get_sei on the validating side gives a valid Signed Video SEI whose TLV data are exactly the fields the signer encoded, followed by the signature field, for both codecs and with or without emulation prevention.", "quantifier": "all SEI contents and sizes, both codecs", "why_tests_cant": "escape count arithmetic and variable-length payload size must work for all sizes", "anchors": ["lib/src/signed_video_h26x_common.c:parse_nalu_info", "lib/src/signed_video_h26x_common.c:remove_epb_from_sei_payload", "lib/src/signed_video_h26x_common.c:h264_get_payload_size", "lib/src/signed_video_h26x_sign.c:generate_sei_nalu"]}
{"id": "C10", "title": "Signer and validator hash the same SEI bytes", "statement": "The hash of a SEI that the signer hands to the signing plugin equals the hash of that SEI which the validator verifies the signature against.", "quantifier": "all SEI contents, both codecs, with or without emulation prevention", "why_tests_cant": "equality of two computations on opposite ends for all contents", "anchors": ["lib/src/signed_video_h26x_sign.c:generate_sei_nalu", "lib/src/signed_video_h26x_auth.c:update_hashable_data", "lib/src/signed_video_h26x_common.c:hash_and_add_for_auth"]}
{"id": "C11", "title": "Start code format and trailing zeros do not matter", "statement": "The classification and the hash of a NALU are the same whether it is given with a 4-byte, a 3-byte or no start code, and trailing zero bytes do not change them.", "quantifier": "all NALU contents, any number of trailing zeros", "why_tests_cant": "content unbounded", "anchors": ["lib/src/signed_video_h26x_common.c:parse_nalu_info"]}
{"id": "C12", "title": "NALU classification follows the H.264/H.265 tables", "statement": "For every header byte pattern the NALU type and validity reported equals the one given by the standard's table of NAL unit types.", "quantifier": "all header bytes, both codecs", "why_tests_cant": "2^24 header patterns", "anchors": ["lib/src/signed_video_h26x_common.c:parse_h264_nalu_header", "lib/src/signed_video_h26x_common.c:parse_h265_nalu_header"]}
{"id": "C13", "title": "Adding a NALU in parts equals adding it whole", "statement": "Feeding a NALU to the signer in any number of consecutive parts leaves the session in the same state (same hashes, same SEIs) as feeding it as one.", "quantifier": "all NALUs and all ways to split them", "why_tests_cant": "number of splits is exponential", "anchors": ["lib/src/signed_video_h26x_sign.c:signed_video_add_nalu_part_for_signing_with_timestamp", "lib/src/signed_video_h26x_common.c:hash_and_add", "lib/src/signed_video_h26x_common.c:get_hash_wrapper"]}
{"id": "C14", "title": "Retry after SV_NOT_SUPPORTED", "statement": "If adding a NALU (part) returns SV_NOT_SUPPORTED because SEIs wait to be pulled, pulling them and adding it again has the same effect as if the call had been made after the pull in the first place (documented in signed_video_sign.h).", "quantifier": "all sessions, NALUs and splits", "why_tests_cant": "depends on history and on where in a split NALU the refusal happens", "anchors": ["lib/src/signed_video_h26x_sign.c:signed_video_add_nalu_part_for_signing_with_timestamp", "lib/src/signed_video_h26x_sign.c:signed_video_add_nalu_part_for_signing_with_timestamp"]}
{"id": "C15", "title": "SEIs come out once, in order, bounded", "statement": "As long as signing succeeds, pulling with signed_video_get_sei until nothing is left returns every generated SEI exactly once in the order generated; never more than 60 are held. (signed_video_get_nalu_to_prepend hands them out newest first.)", "quantifier": "all sequences of API calls", "why_tests_cant": "history dependent", "anchors": ["lib/src/signed_video_h26x_sign.c:add_payload_to_buffer", "lib/src/signed_video_h26x_sign.c:shift_sei_buffer_at_index", "lib/src/signed_video_h26x_sign.c:signed_video_get_sei", "lib/src/signed_video_h26x_sign.c:signed_video_get_nalu_to_prepend"]}
{"id": "C16", "title": "Every SEI carries the signature of its own content", "statement": "The signature in a SEI handed out is the signature of the hash of that same SEI, provided the private key and the emulation prevention setting are not changed while a SEI waits for its signature (without that condition the claim is refuted).", "quantifier": "all sequences of NALUs, plugin delays, signature sizes", "why_tests_cant": "pairing is positional and relies on histories of two independent queues", "anchors": ["lib/src/signed_video_h26x_sign.c:get_signature_complete_sei_and_add_to_prepend", "lib/src/signed_video_h26x_sign.c:complete_sei_nalu_and_add_for_prepend", "lib/plugins/unthreaded-signing/plugin.c:sv_signing_plugin_get_signature"]}
{"id": "C17", "title": "GOP counter increments by one per SEI", "statement": "As long as signing succeeds, the GOP counters in the SEIs returned by signed_video_get_sei are 1, 2, 3, ... modulo 2^32; SEIs without a counter are exactly the golden ones.", "quantifier": "all sequences of NALUs and API calls", "why_tests_cant": "history dependent", "anchors": ["lib/src/signed_video_tlv.c:encode_general"]}
{"id": "C18", "title": "The SEI of a GOP describes exactly the NALUs of that GOP", "statement": "The SEI generated when a new GOP starts carries the number of picture NALUs of the closed GOP, the concatenation of their hashes in order as hash list (at frame level), and the hash of that concatenation as GOP hash; the first NALU's hash is plain, every other one is bound to it.", "quantifier": "all GOPs of any length and content", "why_tests_cant": "unbounded GOP length and content", "anchors": ["lib/src/signed_video_h26x_common.c:hash_and_add", "lib/src/signed_video_h26x_common.c:check_and_copy_hash_to_hash_list", "lib/src/signed_video_h26x_sign.c:signed_video_add_nalu_part_for_signing_with_timestamp"]}
{"id": "C19", "title": "GOPs are chained", "statement": "The linked hash in a SEI is the hash of the first NALU of the GOP preceding the one it describes (zero for the first GOP).", "quantifier": "all sequences of GOPs", "why_tests_cant": "unbounded history", "anchors": ["lib/src/signed_video_h26x_common.c:update_linked_hash", "lib/src/signed_video_tlv.c:encode_general"]}
{"id": "C20", "title": "Hash list never exceeds its buffer, long GOPs fall back", "statement": "However many NALUs a GOP has, the stored hash list never exceeds 19200 bytes; as soon as one hash does not fit, the SEI is sent without hash list, never with a truncated one.", "quantifier": "all GOP lengths and hash sizes", "why_tests_cant": "unbounded GOP length", "anchors": ["lib/src/signed_video_h26x_common.c:check_and_copy_hash_to_hash_list", "lib/src/signed_video_tlv.c:encode_hash_list"]}
{"id": "C21", "title": "max_sei_payload_size is respected by falling back to GOP level", "statement": "If a SEI with hash list would exceed the configured maximum payload the hash list is left out; otherwise it is kept.", "quantifier": "all configurations and GOPs", "why_tests_cant": "content dependent sizes", "anchors": ["lib/src/signed_video_h26x_sign.c:generate_sei_nalu"]}
{"id": "C22", "title": "Recurrent metadata is sent when due and not lost", "statement": "If a SEI is asked for after each NALU, public key, product info and crypto info are in the first SEI and in each SEI after a frame count multiple of the recurrence; once due they stay due until a SEI is completed.", "quantifier": "all frame sequences and recurrence values", "why_tests_cant": "history dependent", "anchors": ["lib/src/signed_video_h26x_sign.c:signed_video_add_nalu_part_for_signing_with_timestamp", "lib/src/signed_video_tlv.c:tlv_list_encode_or_get_size"]}
{"id": "C23", "title": "Settings are locked once signing has started", "statement": "Hash algorithm and golden-SEI mode cannot change after the first NALU was added for signing; a refused call changes nothing.", "quantifier": "all sessions", "why_tests_cant": "history dependent", "anchors": ["lib/src/signed_video_h26x_sign.c:signed_video_set_hash_algo", "lib/src/signed_video_h26x_sign.c:signed_video_set_using_golden_sei"]}
{"id": "C24", "title": "Unthreaded plugin returns signatures first in first out", "statement": "Signatures are returned in the order hashes were submitted, each exactly once; at most 60 are held; one that does not fit the caller's buffer is dropped.", "quantifier": "all sequences of sign and get calls", "why_tests_cant": "unbounded histories", "anchors": ["lib/plugins/unthreaded-signing/plugin.c:sv_signing_plugin_sign", "lib/plugins/unthreaded-signing/plugin.c:sv_signing_plugin_get_signature", "lib/plugins/unthreaded-signing/plugin.c:shift_out"]}
{"id": "C25", "title": "Threaded plugin keeps sessions apart and in order", "statement": "For every interleaving of session calls with the central signing thread, every signature a session gets is of a hash that same session submitted, in submission order, and no buffer exceeds 60 entries.", "quantifier": "all thread interleavings, any number of sessions", "why_tests_cant": "schedules are unbounded", "anchors": ["lib/plugins/threaded-signing/plugin.c:central_worker_thread", "lib/plugins/threaded-signing/plugin.c:sign_hash", "lib/plugins/threaded-signing/plugin.c:get_signature", "lib/plugins/threaded-signing/plugin.c:buffer_reset"]}
{"id": "C26", "title": "Session ids in the threaded plugin are unique and non-zero", "statement": "Two sessions open at the same time never share an id and no session has id 0, even when the 32-bit id counter wraps.", "quantifier": "all histories of session creation and removal", "why_tests_cant": "needs more than 2^32 sessions to reach by testing", "anchors": ["lib/plugins/threaded-signing/plugin.c:central_setup", "lib/plugins/threaded-signing/plugin.c:is_active"]}
{"id": "C27", "title": "An untampered signed stream validates OK", "statement": "For every video stream made of GOPs, if the NALUs and the SEIs the signer produced arrive unchanged and in order, every GOP that is closed by a SEI is reported SV_AUTH_RESULT_OK with no missing or unexpected NALUs.", "quantifier": "all streams (number of GOPs, GOP lengths, NALU contents), both codecs, all metadata", "why_tests_cant": "unbounded streams; needs the agreement of every layer of signer and validator", "anchors": ["lib/src/signed_video_h26x_sign.c:signed_video_add_nalu_for_signing_with_timestamp", "lib/src/signed_video_h26x_auth.c:signed_video_add_nalu_and_authenticate"]}
{"id": "C28", "title": "An accepted GOP is authentic", "statement": "If a GOP is reported OK then the signature of its SEI verified with the public key in use over that SEI's content, and the NALUs received either hash to the GOP hash in it or all occur in the hash list in it; two different GOPs both accepted with the same SEI exhibit a hash collision.", "quantifier": "all NALU sequences, adversarial SEIs included", "why_tests_cant": "adversary chooses the input", "anchors": ["lib/src/signed_video_h26x_auth.c:verify_hashes_with_sei", "lib/src/signed_video_h26x_auth.c:validate_authenticity", "lib/src/signed_video_h26x_auth.c:prepare_for_validation"]}
{"id": "C29", "title": "Hash-list matching pinpoints modified and missing NALUs", "statement": "When the GOP hash fails, every NALU marked authentic has its hash in the signed list, in order; every NALU marked not authentic has not; and the number of missing NALUs inserted plus those matched equals the length of the list.", "quantifier": "all lists of received NALUs and all signed hash lists", "why_tests_cant": "combinatorial in losses, insertions and reorderings", "anchors": ["lib/src/signed_video_h26x_auth.c:verify_hashes_with_hash_list"]}
{"id": "C30", "title": "Unsigned video is always reported as not signed", "statement": "For a stream without Signed Video SEIs every report says SV_AUTH_RESULT_NOT_SIGNED, all NALUs are pending, none validated, and nothing is reported as tampered.", "quantifier": "all NALU sequences without Signed Video SEI", "why_tests_cant": "unbounded streams", "anchors": ["lib/src/signed_video_h26x_auth.c:maybe_validate_gop", "lib/src/signed_video_authenticity.c:signed_video_get_authenticity_report"]}
{"id": "C31", "title": "Received = validated + pending", "statement": "In every report the number of received NALUs equals the number of validated plus pending NALUs.", "quantifier": "all NALU sequences", "why_tests_cant": "unbounded histories including missing NALU insertion", "anchors": ["lib/src/signed_video_authenticity.c:update_accumulated_validation", "lib/src/signed_video_authenticity.c:signed_video_get_authenticity_report", "lib/src/signed_video_h26x_nalu_list.c:h26x_nalu_list_clean_up"]}
{"id": "C32", "title": "Overall authenticity never improves", "statement": "Once the accumulated authenticity is NOT_OK it stays so for the session, and it is never better than the worst GOP.", "quantifier": "all sequences of validation results", "why_tests_cant": "unbounded histories", "anchors": ["lib/src/signed_video_authenticity.c:update_accumulated_validation"]}
{"id": "C33", "title": "A changed public key is always flagged", "statement": "If a SEI brings another public key than the one in use, the GOP is reported NOT_OK and public_key_has_changed is set, and the accumulated result is NOT_OK (documented as automatic).", "quantifier": "all keys and SEI sequences", "why_tests_cant": "adversarial input", "anchors": ["lib/src/signed_video_tlv.c:decode_public_key", "lib/src/signed_video_h26x_auth.c:validate_authenticity", "lib/src/signed_video_authenticity.c:update_accumulated_validation"]}
{"id": "C34", "title": "The public key cannot be replaced once validation has begun", "statement": "signed_video_set_public_key succeeds at most once and only before the first NALU; a refused call changes nothing.", "quantifier": "all sessions", "why_tests_cant": "history dependent", "anchors": ["lib/src/signed_video_h26x_auth.c:signed_video_set_public_key"]}
{"id": "C35", "title": "Adding a NALU for validation terminates", "statement": "signed_video_add_nalu_and_authenticate returns for every input and history.", "quantifier": "all histories", "why_tests_cant": "non-termination needs a particular loss pattern", "anchors": ["lib/src/signed_video_h26x_auth.c:maybe_validate_gop", "lib/src/signed_video_h26x_nalu_list.c:h26x_nalu_list_remove_missing_items"]}
{"id": "C36", "title": "Malformed SEIs cannot corrupt the validator", "statement": "Adding an arbitrary NALU never reads or writes outside its buffers, dereferences NULL or overflows a signed integer.", "quantifier": "all byte sequences", "why_tests_cant": "adversarial input", "anchors": ["lib/src/signed_video_tlv.c:tlv_decode", "lib/src/signed_video_tlv.c:decode_tlv_header", "lib/src/signed_video_tlv.c:tlv_find_tag", "lib/src/signed_video_tlv.c:decode_general", "lib/src/signed_video_tlv.c:decode_product_info", "lib/src/signed_video_h26x_common.c:parse_nalu_info"]}
{"id": "C37", "title": "Reset gives a fresh session", "statement": "After signed_video_reset a session validates a stream exactly as a newly created session would.", "quantifier": "all histories before the reset and all streams after", "why_tests_cant": "history dependent", "anchors": ["lib/src/signed_video_h26x_common.c:signed_video_reset"]}
{"id": "C38", "title": "Lost SEIs are detected", "statement": "If the GOP counter of a SEI skips ahead of the one expected in a synchronised session, the loss is detected and the number of expected NALUs is reported unknown (-1).", "quantifier": "all counters including wraparound", "why_tests_cant": "2^64 pairs of counters", "anchors": ["lib/src/signed_video_h26x_auth.c:detect_lost_sei", "lib/src/signed_video_h26x_auth.c:validate_authenticity"]}
{"id": "C39", "title": "Status strings line up", "statement": "validation_str and nalu_str always have the same length, one character per NALU in the list, in order; a space in nalu_str corresponds to a missing NALU.", "quantifier": "all histories", "why_tests_cant": "unbounded histories", "anchors": ["lib/src/signed_video_h26x_nalu_list.c:h26x_nalu_list_get_str"]}
{"id": "C40", "title": "Newer signing version is detected", "statement": "The version comparison is the lexicographic order on (major, minor, patch), and a stream signed with a newer version is reported as VERSION_MISMATCH.", "quantifier": "all versions", "why_tests_cant": "unbounded integers", "anchors": ["lib/src/signed_video_h26x_common.c:signed_video_compare_versions", "lib/src/signed_video_authenticity.c:update_authenticity_report"]}
{"id": "C41", "title": "Product information survives up to 254 characters", "statement": "Each product information string set by the signer is shown in the report, truncated to 254 characters.", "quantifier": "all strings without NUL", "why_tests_cant": "unbounded strings", "anchors": ["lib/src/signed_video_tlv.c:encode_product_info", "lib/src/signed_video_tlv.c:decode_product_info"]}
{"id": "C42", "title": "Validated NALUs are removed, pending ones never", "statement": "Cleaning up after a report removes exactly the NALUs before the first pending one; no pending NALU is ever dropped without being validated.", "quantifier": "all list states", "why_tests_cant": "unbounded histories", "anchors": ["lib/src/signed_video_h26x_nalu_list.c:h26x_nalu_list_clean_up", "lib/src/signed_video_h26x_nalu_list.c:h26x_nalu_list_remove_missing_items"]}
{"id": "C43", "title": "Vendor attestation data survives", "statement": "Attestation and certificate chain encoded by an Axis device are decoded to the same data; later SEIs with other data are refused.", "quantifier": "all attestations and chains", "why_tests_cant": "unbounded contents", "anchors": ["lib/vendors/axis-communications/sv_vendor_axis_communications.c:encode_axis_communications_handle", "lib/vendors/axis-communications/sv_vendor_axis_communications.c:decode_axis_communications_handle"]}
{"id": "C44", "title": "A failed public key validation is final", "statement": "Once the vendor check of the public key has failed, it is reported as failed for the rest of the session.", "quantifier": "all histories", "why_tests_cant": "history dependent", "anchors": ["lib/vendors/axis-communications/sv_vendor_axis_communications.c:get_axis_communications_supplemental_authenticity", "lib/vendors/axis-communications/sv_vendor_axis_communications.c:verify_axis_communications_public_key"]}
{"id": "C45", "title": "Every coded slice is covered by the signature", "statement": "Every NAL unit that carries coded picture data (a slice or slice data partition) is hashed by signer and validator, so it cannot be changed unnoticed.", "quantifier": "all NAL unit headers of both codecs", "why_tests_cant": "depends on every header type, including ones the test streams never contain", "anchors": ["lib/src/signed_video_h26x_common.c:parse_h264_nalu_header", "lib/src/signed_video_h26x_common.c:parse_h265_nalu_header", "lib/src/signed_video_h26x_common.c:parse_nalu_info"]}
{"id": "C46", "title": "A public key reported valid is attested", "statement": "The report says that the public key is valid only if the key in use is covered by a received attestation that is signed by the key of a certificate which chains to the Axis root and carries the serial number in the received product information.", "quantifier": "all sessions: sequences of received keys, vendor tags and product information, checks, reports and resets", "why_tests_cant": "quantifies over every history and every answer of the crypto library", "anchors": ["lib/vendors/axis-communications/sv_vendor_axis_communications.c:verify_and_parse_certificate_chain", "lib/vendors/axis-communications/sv_vendor_axis_communications.c:deserialize_attestation", "lib/vendors/axis-communications/sv_vendor_axis_communications.c:verify_axis_communications_public_key", "lib/vendors/axis-communications/sv_vendor_axis_communications.c:get_axis_communications_supplemental_authenticity", "lib/src/signed_video_h26x_auth.c:prepare_for_validation"]}
{"id": "C47", "title": "GOPs are authentic only in the order they were signed in", "statement": "If the first NALU of a GOP is reported authentic, then the GOP added before it is the one that was signed before it: leaving out, swapping, repeating or inserting whole GOPs, even with their SEIs, makes the next GOP not authentic.", "quantifier": "all sessions and streams, any number of GOPs", "why_tests_cant": "unbounded histories and any manipulation of whole GOPs", "anchors": ["lib/src/signed_video_h26x_auth.c:verify_linked_hash", "lib/src/signed_video_h26x_auth.c:validate_authenticity", "lib/src/signed_video_h26x_sign.c:signed_video_add_nalu_part_for_signing_with_timestamp", "lib/src/signed_video_h26x_common.c:update_linked_hash"]}
{"id": "C48", "title": "The verdict of a report fits the statuses it shows", "statement": "A report that does not say NOT_OK shows no picture as not authentic; one that says OK_WITH_MISSING_INFO shows a missing NALU; one that says NOT_OK shows what is wrong: a NALU that is not authentic, missing or in error, or a changed public key.", "quantifier": "all sessions and streams, any manipulation, any number of GOPs and resets", "why_tests_cant": "verdict and statuses are computed by different code, and must agree for every damage and every state of the list of waiting NALUs", "anchors": ["lib/src/signed_video_h26x_auth.c:validate_authenticity", "lib/src/signed_video_h26x_auth.c:verify_hashes_with_hash_list", "lib/src/signed_video_h26x_auth.c:maybe_validate_gop", "lib/src/signed_video_h26x_nalu_list.c:h26x_nalu_list_get_str", "lib/src/signed_video_authenticity.c:update_authenticity_report"]}
{"id": "C49", "title": "Damage to a signed stream stays within its GOP", "statement": "When NALUs of some GOPs of a signed stream are lost, changed, added or reordered on the way, every GOP that arrived as it was signed is still reported OK with nothing missing, whatever happened to GOPs before it, and every SEI is still answered with a report.", "quantifier": "all signing sessions, all GOPs, any damage to the NALUs of any number of GOPs, any lateness of the SEIs", "why_tests_cant": "the damage is arbitrary and what the validator remembers of it must not leak into any later GOP", "anchors": ["lib/src/signed_video_h26x_auth.c:maybe_validate_gop", "lib/src/signed_video_h26x_auth.c:verify_hashes_with_hash_list", "lib/src/signed_video_h26x_auth.c:verify_hashes_without_sei", "lib/src/signed_video_h26x_auth.c:detect_lost_sei", "lib/src/signed_video_h26x_nalu_list.c:h26x_nalu_list_remove_missing_items"]}
{"id": "C50", "title": "A part of a signed stream can be validated on its own", "statement": "A validator that is given only a later part of a signed stream, beginning with a GOP or with the SEI in front of it, reports every GOP of that part OK with nothing missing, the first complete one included, although the GOP it is linked to never arrived.", "quantifier": "all signing sessions, all GOPs, all numbers of GOPs cut off at the front, any lateness of the SEIs", "why_tests_cant": "the number of GOPs before the cut is unbounded and the counter and link of the first SEI refer to data the validator never saw", "anchors": ["lib/src/signed_video_h26x_auth.c:detect_lost_sei", "lib/src/signed_video_h26x_auth.c:prepare_for_validation", "lib/src/signed_video_h26x_auth.c:maybe_validate_gop", "lib/src/signed_video_h26x_auth.c:verify_hashes_with_sei", "lib/src/signed_video_h26x_nalu_list.c:h26x_nalu_list_remove_missing_items"]}
{"id": "C51", "title": "A stream is validated to its end", "statement": "After the end of the stream was announced to the signing session, the last SEI lets the validator decide on the last GOP as on every other: it is reported OK if and only if it arrived as it was added for signing.", "quantifier": "all signing sessions with any number of GOPs that are ended, and any transport of their streams", "why_tests_cant": "the last GOP is closed by other code than all GOPs before it, and its SEI depends on the history of the session", "anchors": ["lib/src/signed_video_h26x_sign.c:signed_video_set_end_of_stream", "lib/src/signed_video_h26x_sign.c:generate_sei_nalu", "lib/src/signed_video_h26x_sign.c:signed_video_add_nalu_for_signing_with_timestamp", "lib/src/signed_video_h26x_auth.c:validate_authenticity"]}
{"id": "C52", "title": "Losses, changes and additions are told apart", "statement": "When the SEI carries the hashes of all NALUs of its GOP, the report shows each received NALU of the GOP as authentic or not, as it is, and the number of lost ones if nothing else happened; the verdict is OK, OK_WITH_MISSING_INFO or NOT_OK accordingly.", "quantifier": "all signing sessions at frame level, all GOPs, any loss, change, addition or reordering of NALUs", "why_tests_cant": "the combinations of lost, changed and added NALUs are unbounded", "anchors": ["lib/src/signed_video_h26x_auth.c:verify_hashes_with_hash_list", "lib/src/signed_video_h26x_auth.c:verify_hashes_with_sei", "lib/src/signed_video_h26x_auth.c:validate_authenticity", "lib/src/signed_video_h26x_nalu_list.c:h26x_nalu_list_add_missing", "lib/src/signed_video_h26x_nalu_list.c:h26x_nalu_list_get_str"]}
{"id": "C53", "title": "A golden SEI lets a validator start", "statement": "A golden SEI gives a validator all it needs to start on a stream whose other SEIs carry no public key: if it is the first SEI added, whether made in the same session or stored from another one with the same key, its report says that the stream is signed, and from then on every GOP that arrives as it was signed is reported OK.", "quantifier": "all signing sessions that make a golden SEI, all streams with the same key and settings, any number of GOPs cut off at the front, any damage to NALUs after the first GOP", "why_tests_cant": "the golden SEI and the stream come from different sessions with unbounded histories, and the state it leaves behind must fit every later SEI", "anchors": ["lib/src/signed_video_h26x_sign.c:signed_video_generate_golden_sei", "lib/src/signed_video_h26x_sign.c:signed_video_set_using_golden_sei", "lib/src/signed_video_h26x_auth.c:prepare_golden_sei", "lib/src/signed_video_h26x_auth.c:maybe_validate_gop", "lib/src/includes/signed_video_sign.h:signed_video_set_using_golden_sei"]}
{"id": "C54", "title": "The validator never misbehaves on SEIs in the right format", "statement": "Whatever NALUs a validator is given, in any order and number, lost, repeated, modified or forged, as long as the SEIs of this library among them consist of fields in the right format: every call ends, reads and writes only memory it may use, and the stream is not handed to the code for old versions. All SEIs made by a signing session are in that format.", "quantifier": "all sequences of calls of a validating session, all contents of pictures and SEI fields, all signatures, right or wrong", "why_tests_cant": "the state of the list of waiting NALUs after arbitrary damage is unbounded, and each pointer, index and hash that validation uses depends on it", "anchors": ["lib/src/signed_video_h26x_auth.c:signed_video_add_nalu_and_authenticate", "lib/src/signed_video_h26x_auth.c:maybe_validate_gop", "lib/src/signed_video_h26x_auth.c:verify_hashes_without_sei", "lib/src/signed_video_tlv.c:tlv_decode", "lib/src/signed_video_h26x_nalu_list.c:h26x_nalu_list_copy_last_item", "lib/src/signed_video_h26x_nalu_list.c:h26x_nalu_list_remove_missing_items"]}
{"id": "C55", "title": "A reset separates streams", "statement": "After signed_video_reset a signing session signs a new stream: its SEIs describe the GOPs of that stream and are linked to nothing before it, no SEI is made for the GOP that was open at the reset, and a validator finds the stream authentic. Only the numbering of SEIs and pictures goes on.", "quantifier": "all signing sessions, any number of resets, all streams between them", "why_tests_cant": "what is left over from a stream is state of unbounded history, and each member of the session must be reset or harmless", "anchors": ["lib/src/signed_video_h26x_common.c:signed_video_reset", "lib/src/signed_video_h26x_common.c:gop_info_reset", "lib/src/signed_video_h26x_sign.c:signed_video_add_nalu_part_for_signing_with_timestamp", "lib/src/signed_video_h26x_auth.c:detect_lost_sei", "lib/src/includes/signed_video_common.h:signed_video_reset"]}
{"id": "C56", "title": "A reset frees a validator from its past", "statement": "Whatever a validating session went through (damaged, reordered and repeated NALUs, SEIs with wrong signatures, parts of other streams with the same key, resets), after signed_video_reset it validates any recording that begins at a GOP of an untampered signed stream: every call succeeds and every GOP is reported authentic.", "quantifier": "all histories of calls before the reset, all signing sessions, every GOP to begin with", "why_tests_cant": "the state a validator can reach before the reset is unbounded, and a single member that is kept can spoil the next recording", "anchors": ["lib/src/signed_video_h26x_common.c:signed_video_reset", "lib/src/signed_video_h26x_common.c:gop_state_reset", "lib/src/signed_video_tlv.c:decode_signature", "lib/src/signed_video_tlv.c:decode_public_key", "lib/src/signed_video_h26x_auth.c:detect_lost_sei", "lib/src/includes/signed_video_common.h:signed_video_reset"]}
{"id": "C57", "title": "The list of NALUs is sound in memory", "statement": "The list of NALUs that wait for validation is linked in both directions on the heap. In every history of adding NALUs, inserting missing ones at any place, removing validated ones and resetting, no memory is used after it was freed, no pointer is left dangling, no item or copy is lost, every walk over the list ends, and the validation and NALU strings are written within their buffers and show exactly the items in order. Closing the session frees all of them.", "quantifier": "all histories of list operations in the order the library uses, all lengths, and all placements of items by the allocator", "why_tests_cant": "the shapes of a doubly linked list and the placements by the allocator are unbounded, and a wrong pointer shows only in some of them", "anchors": ["lib/src/signed_video_h26x_nalu_list.c:h26x_nalu_list_append", "lib/src/signed_video_h26x_nalu_list.c:h26x_nalu_list_add_missing", "lib/src/signed_video_h26x_nalu_list.c:h26x_nalu_list_remove_and_free_item", "lib/src/signed_video_h26x_nalu_list.c:h26x_nalu_list_refresh", "lib/src/signed_video_h26x_nalu_list.c:h26x_nalu_list_clean_up", "lib/src/signed_video_h26x_nalu_list.c:h26x_nalu_list_get_str"]}
{"id": "C58", "title": "A validator keeps no pointer to memory of the user", "statement": "signed_video_add_nalu_and_authenticate uses the memory of a NALU only until it returns: the user may overwrite or free it right after the call, whatever the call answers and whatever NALUs were added before or after. What the session keeps are copies of its own, made once for each NALU, and all of them are freed with the session.", "quantifier": "all sequences of calls of a validating session with any NALUs, and all placements of items by the allocator", "why_tests_cant": "a pointer that is kept is used many calls later, at a place that depends on all the NALUs between", "anchors": ["lib/src/signed_video_h26x_auth.c:signed_video_add_h26x_nalu", "lib/src/signed_video_h26x_nalu_list.c:h26x_nalu_list_copy_last_item", "lib/src/signed_video_h26x_nalu_list.c:h26x_nalu_list_item_free", "lib/src/includes/signed_video_auth.h:signed_video_add_nalu_and_authenticate"]}
{"id": "C59", "title": "SEIs are right however late their signatures come", "statement": "With a plugin that signs in a thread of its own, signatures come some time after the SEIs were generated, while further NALUs are added and SEIs are asked for. Whatever the timing, every SEI that signed_video_get_sei hands out carries the signature of its own content, SEIs come out in the order of generation, each once, and all of them once the signatures are there; never more than 60 wait; no memory is overrun; and a SEI has the size that was answered when its size was asked for.", "quantifier": "all sequences of signing calls except the deprecated pull function, with any number of signatures arriving before each call, key and emulation prevention chosen first, no failure in the thread", "why_tests_cant": "the number of arrival patterns is unbounded and a mismatch needs a particular one", "anchors": ["lib/src/signed_video_h26x_sign.c:get_signature_complete_sei_and_add_to_prepend", "lib/src/signed_video_h26x_sign.c:signed_video_get_sei", "lib/src/signed_video_h26x_sign.c:signed_video_get_nalu_to_prepend", "lib/plugins/threaded-signing/plugin.c:get_signature"]}
{"id": "C60", "title": "A signature that could not be made does not harm the other SEIs", "statement": "If the thread of the signing plugin fails to make one signature, every SEI that is handed out still carries a signature of its own content.", "quantifier": "all signing sessions with the threaded plugin, all timings and all sets of failed signatures", "why_tests_cant": "failures of a key store are rare and their effect depends on what is pending at that moment", "anchors": ["lib/plugins/threaded-signing/plugin.c:get_signature", "lib/src/signed_video_h26x_sign.c:get_signature_complete_sei_and_add_to_prepend"]}
{"id": "C61", "title": "The SEIs of a stream do not depend on when signatures come and SEIs are pulled", "statement": "For given settings and NALUs the SEIs that a signing session returns are the same, byte by byte and in the same order, whenever the signatures come, whenever and however often the user asks for SEIs or for their size, and whatever NALUs are peeked at; what is known about sessions that ask for a SEI after each NALU holds for all of them.", "quantifier": "all settings with the default recurrence, all streams, all arrival patterns of signatures and all patterns of asking, as long as every call succeeds and the SEIs are pulled in the end", "why_tests_cant": "the number of schedules is unbounded, and a dependence on the schedule shows only in the content of a SEI far from the call that caused it", "anchors": ["lib/src/signed_video_h26x_sign.c:signed_video_get_sei", "lib/src/signed_video_h26x_sign.c:generate_sei_nalu", "lib/src/signed_video_h26x_sign.c:complete_sei_nalu_and_add_to_prepend", "lib/plugins/threaded-signing/plugin.c:get_signature"]}
{"id": "C62", "title": "Recordings of older versions cannot make the validator misuse memory", "statement": "Whatever NALUs a validator is given, in particular SEIs in the format of older versions that anyone may have made with a key of their own, signed_video_add_nalu_and_authenticate never reads or writes memory it does not own: no access out of bounds, no use of memory after it was freed or after the call it belonged to returned.", "quantifier": "all sequences of calls of a validating session, all NALUs, all digests and keys", "why_tests_cant": "the input is chosen by an attacker, and the misuse depends on the whole history of NALUs before it", "anchors": ["lib/src/legacy/legacy_h26x_auth.c:legacy_sv_add_h26x_nalu", "lib/src/legacy/legacy_h26x_nalu_list.c:legacy_h26x_nalu_list_copy_last_item", "lib/src/signed_video_h26x_auth.c:signed_video_add_nalu_and_authenticate"]}
{"id": "C63", "title": "Untampered recordings of older versions are found authentic", "statement": "A recording signed by an older version (SEIs in front of the GOPs, linked by the first NALU of the next GOP, with a list of hashes or with one chained hash per GOP) that nobody touched is still validated: every call succeeds, with the first NALU of each GOP comes a report, and the report finds everything before that NALU authentic, also the accumulated verdict.", "quantifier": "all settings of an older signer (codec, digest, key, product information, with or without lists and emulation prevention), all GOPs of any number and length, all starting points", "why_tests_cant": "the format is no longer produced, so tests cover the few recordings that were kept; the number of settings and streams is unbounded", "anchors": ["lib/src/legacy/legacy_h26x_auth.c:legacy_sv_add_nalu_and_authenticate", "lib/src/legacy/legacy_h26x_auth.c:legacy_verify_hashes_with_hash_list", "lib/src/legacy/legacy_h26x_common.c:legacy_sv_create", "lib/src/signed_video_h26x_auth.c:reregister_nalus"]}
{"id": "C64", "title": "Only recordings of older versions are treated as such", "statement": "A validator judges a recording by the rules of older versions only if it contains a SEI of an older version. For any other recording, damaged or not, the code for older versions makes no difference.", "quantifier": "all sequences of calls of a validating session", "why_tests_cant": "the decision is taken once, on the state left by all NALUs so far", "anchors": ["lib/src/signed_video_h26x_auth.c:signed_video_add_h26x_nalu", "lib/src/signed_video_h26x_auth.c:is_recurrent_data_decoded", "lib/src/signed_video_tlv.c:decode_public_key"]}
{"id": "C65", "title": "After a reset a validator that had a recording of an older version is as good as new", "statement": "signed_video_reset on a session that has validated a recording of an older version prepares it for any other recording: what is authentic is found authentic.", "quantifier": "all untampered recordings before the reset and all untampered recordings after it, of older versions and of this one", "why_tests_cant": "pairs of recordings are unbounded, and what a reset leaves behind shows only with particular pairs", "anchors": ["lib/src/signed_video_h26x_common.c:signed_video_reset", "lib/src/legacy/legacy_h26x_common.c:legacy_sv_reset"]}
{"id": "C66", "title": "Damage in a recording of an older version is confined", "statement": "In a recording of an older version a damaged, duplicated or modified NALU affects the verdicts on the GOPs next to it only; later GOPs that are complete are found authentic again and the session does not use more and more memory.", "quantifier": "all recordings of older versions and all single faults in them", "why_tests_cant": "the number of positions and kinds of damage is unbounded, and tests look at the next one or two reports only", "anchors": ["lib/src/legacy/legacy_h26x_auth.c:legacy_prepare_for_validation", "lib/src/legacy/legacy_h26x_auth.c:legacy_verify_hashes_with_hash_list", "lib/src/legacy/legacy_h26x_nalu_list.c:legacy_h26x_nalu_list_clean_up"]}
{"id": "C67", "title": "What is shown authentic in a recording of an older version is authentic", "statement": "Whatever NALUs are added, once a session validates a recording of an older version, its reports show NALUs that were added, in order, and each one shown authentic is covered by a signature that came with the video and verifies with the public key of the user or of the video: over the hash of the SEI itself, over the chained hash of the GOP the picture is in, or over the hash of a SEI whose list has the hash of the picture. A report whose verdict is authentic, with or without missing NALUs, shows none as not authentic, none with an error and no change of the public key.", "quantifier": "all sequences of calls and NALUs, including NALUs made by an attacker", "why_tests_cant": "an attacker chooses the NALUs, their number is unbounded, and tests modify a few recordings in a few ways", "anchors": ["lib/src/legacy/legacy_h26x_auth.c:legacy_verify_hashes_with_gop_hash", "lib/src/legacy/legacy_h26x_auth.c:legacy_verify_hashes_with_hash_list", "lib/src/legacy/legacy_h26x_auth.c:legacy_prepare_for_validation", "lib/src/legacy/legacy_h26x_auth.c:legacy_compute_gop_hash"]}
{"id": "C68", "title": "Pictures nobody signed are noticed in recordings of older versions", "statement": "In a session that validates a recording of an older version, pictures that no signature covers, inserted or put in place of others, make a report say not authentic, at the latest with the SEIs that follow them; a verdict authentic is not given over and over while such pictures stay undecided.", "quantifier": "all sequences of NALUs, including SEIs taken from other recordings and sent again", "why_tests_cant": "an attacker can combine and repeat the SEIs of any number of recordings; tests replace or remove single NALUs of one recording", "anchors": ["lib/src/legacy/legacy_h26x_auth.c:legacy_maybe_validate_gop", "lib/src/legacy/legacy_h26x_auth.c:legacy_validate_authenticity", "lib/src/legacy/legacy_h26x_auth.c:legacy_verify_hashes_with_hash_list"]}

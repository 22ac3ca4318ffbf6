# Formal model of the Signed Video Framework: design

Source modelled: `/repo` (AxisCommunications/signed-video-framework, version v1.1.29). Everything is in Rocq/Coq 8.16.1 with the
standard library only; `/verif/rocq/theories` maps to `Verif`. `properties.jsonl` lists the properties, `MANIFEST.json` maps each
to its theorems, `seeded/LOG.jsonl` records the wrong programs the theorems were tried on.

## 1. Modelling conventions

* Bytes are `N`; a byte string is `list N`; `bytes_ok l` says every element is `< 256`. A pointer into memory is the list of bytes
  from there to the end of the allocation, so that reading further is visible. `size_t` is `N` with explicit wrap where it matters.
* A C function becomes a total Gallina function. Undefined behaviour is a distinct outcome: `out A := Def a | Undef ub` with `ub` one
  of out-of-bounds read or write, uninitialised read, NULL dereference, signed overflow, use after free, failed assert, divergence.
  It is propagated by the bind `do x <- …; …` and never totalised.
* Functions that mutate their session return the new state also on error, together with the return code, because the C code keeps
  partial updates.
* Loops whose C bound is not structural take `fuel`; running out of it is `Undef Diverges`. Theorem C35 shows how much fuel suffices;
  theorems about sessions quantify over the fuel.
* `detect_lost_sei` overflows an `int64_t`. The model takes the arithmetic as a parameter `ovf`: `OvfUndef` (what C says), `OvfWrap`
  (two's complement) and `OvfIdeal` (integers, what is meant). Theorems quantify over it unless they name it.
* Reading a hash array beyond what was written is `Undef Uninit` (`read_hash`).
* `malloc`/`calloc` failures (`SV_MEMORY`) are not modelled, with one exception: sizes of 2^63 and more in `h26x_nalu_list_add`.
* Cryptography is a record argument `crypto` (digest per algorithm, sign, verify, key parsing), for the vendor code `vcrypto`.
  What a theorem needs of it (output length, a signature verifies, …) is a visible hypothesis such as `crypto_ok`. Theorems about
  tampering do not assume collision freeness, they return the collision.
* A session is used either for signing or for validating; the C struct is split accordingly.
* If the first SEI has no version bits in its reserved byte (`reserved & 0x30 == 0`) the library hands the session over to the legacy
  code. The model of the core then sets `v_legacy`, and the answer of every later call is `VLegacy`. `Legacy.v` models the whole session
  including the legacy code (`wrun`); C62-C68 are about it, C64_same carries the other properties over.
* The core model is the library built without vendors; the vendor file is modelled on its own together with the places where the
  core calls it (`Vendor.v`).

## 2. Files

Every definition of a model file cites the lines it models. Specifications (`*Spec.v`) hold the vocabulary of the statements, proofs
are in `*Proofs.v` and similar files, and `Props*.v` only hold the theorems named `Cnn_…` with their examples and counterexamples.

| Model file | /repo | Content |
|---|---|---|
| Base | – | outcomes, bytes, integers, C strings |
| Epb | signed_video_tlv.c | read_byte, write_byte, emulation prevention |
| Tlv | signed_video_tlv.c | all encoders and decoders, tlv_decode, tlv_find_tag, tlv_list_encode_or_get_size |
| Nalu | signed_video_h26x_common.c | header tables, parse_nalu_info, remove_epb_from_sei_payload |
| Crypto, Hash | signed_video_openssl.c, signed_video_h26x_common.c | hash wrappers, GOP hash, linked hash, hash list, simply_hash, hash_and_add |
| Types, Signer | signed_video_h26x_sign.c | adding NALUs (whole and in parts), generate/complete/get SEI, golden and end-of-stream SEI, every setter; the unthreaded plugin as a list |
| VTypes, NaluList | signed_video_h26x_nalu_list.c | the list of pending NALUs |
| NaluHeap | signed_video_h26x_nalu_list.c | the same list as items on a heap, with pointers, malloc and free, and the ownership of NALUs |
| Late | signed_video_h26x_sign.c:554-746, get_signature of threaded-signing/plugin.c | the pull functions when the plugin has only some of the signatures, or failed to make one |
| Validator | signed_video_h26x_auth.c, _common.c, _authenticity.c | validation loop, decoding, hash and signature verification, reports, reset, set_public_key |
| Version | signed_video_h26x_common.c | bytes_to_version_str, signed_video_compare_versions |
| PlugTypes, Plugin | plugins/unthreaded-signing | the array of signatures |
| Threaded | plugins/threaded-signing | central thread and per-session thread as interleaved atomic steps, memory and ids |
| Vendor | vendors/axis-communications | attestation codec, certificate and attestation check, key validation |
| LegacyTypes, Legacy | lib/src/legacy | the validator for recordings of older versions: parsing, list, TLV (shared with the core where the code is the same), GOP hash, hash list, reports; hand-over and reset |
| Toy, VToy, LegacyToy | – | small concrete crypto libraries and sessions for examples |

Not modelled: OpenSSL itself, key generation and key files, `examples` and `tests`, printing, allocation
failure, releasing memory at the end of a session (`*_free`; but for the list of NALUs, C57), and data races outside of the mutex of the threaded plugin (its steps
are taken as atomic where they hold the mutex).

## 3. Properties

"refuted" means that the full statement is false of the code; the theorem with that suffix is a machine-checked counterexample.

| Property | Statement proved about | Proof | What is missing or false |
|---|---|---|---|
| C01 | writer/reader with two-byte history | induction on the bytes, both sides hold the same history | |
| C02 | every SEI a session gives out | "no start code" carried through every write | |
| C03 | bytes written vs. allocated | counting escapes | refuted: contents with many escapes overflow |
| C04 | integer encoders and readers | div/mod arithmetic | |
| C05, C41 | one encoder/decoder pair per tag | per-tag round trip on the validator state | |
| C06 | size mode vs. write mode | structural | |
| C07 | `tlv_decode` | induction on the field list | |
| C08, C10 | `tlv_find_tag`, hash of the SEI | induction with a budget of escapes | refuted for as many escapes as the signature field is long |
| C09 | parser on generated SEIs | sizes, C01 | |
| C11 | parser | case analysis, induction on trailing zeros | |
| C12, C45 | header tables | all header bytes against an independent table | refuted: some slice types are not hashed |
| C13 | signer with running digest | induction on the parts | refuted for a last part of zeros |
| C14 | signer | commuting lemma | refuted for parts and for a full SEI buffer |
| C15, C16, C17–C22 | signer, any sequence of calls | invariant, refinement to a queue of requests | C16 refuted if the private key is replaced meanwhile |
| C23 | setters | case analysis | |
| C24 | unthreaded plugin | refinement to a bounded queue | |
| C25, C26 | threaded plugin, any interleaving | simulation by one queue per session | refuted: overflow, two hash sizes, second stop, own thread |
| C27 | signer composed with validator | simulation over GOPs and late SEIs | golden and end-of-stream SEIs; three needed conditions are refuted without |
| C28 | validator | invariant: evidence for every authentic NALU; the same hash means the same bytes unless two strings that were hashed for these NALUs collide (`hit`, `hit_gop`; an earlier version only said that some collision exists, which is true of every digest) | refuted in three ways |
| C29 | `verify_hashes_with_hash_list` | loop invariant against a declarative matching | refuted: number of missing NALUs |
| C30 | validator on unsigned video | invariant | |
| C31, C39, C42 | validator and report | bookkeeping invariant over sessions | C31 refuted: unsigned video, missing NALUs |
| C32 | accumulated result, also for recordings of older versions (LegacyAcc.v) | order on results | refuted with golden SEIs, and for old recordings (C33_old_refuted) |
| C33, C34 | keys | invariant, case analysis; C33_old_told: the accumulated result is changed by reports only (LegacyAcc.v) | refuted, also for recordings of older versions |
| C35 | validation loop | potential bounded by the NALUs added | refuted with the intended arithmetic |
| C36 | whole input path | invariant for NALUs that are not Signed Video SEIs | refuted: ten malformed inputs |
| C37 | reset | simulation for unsigned video | refuted: the key survives |
| C38 | `detect_lost_sei` | arithmetic | refuted: overflow, wrap-around |
| C40 | versions | order | refuted: a mismatch is never reported |
| C43 | vendor codec | round trip through the byte writer | refuted: cut off and longer certificates, and on the signing side |
| C44 | vendor check, any history | invariant "validation is 0" | refuted: serial number, key sent again |
| C46 | vendor check, any history | where the certificates and the key come from | |
| C47 | any session, linked hash of the previous GOP | invariant: links of all waiting GOP starts, evidence for the order | golden SEIs, errors of the signature check, refused NALUs |
| C48 | any session, verdict and statuses | invariant: no picture in the list is marked bad unless the verdict is NOT_OK, and what one round of validation may mark | first NOT_OK, golden SEIs, refused NALUs |
| C49 | signer composed with validator, arbitrary damage between | simulation as in C27 with a list head that is settled but not authentic | first GOP damaged, first NALU of a GOP changed, SEI lost: refuted |
| C50 | signer composed with validator, a validator that starts at any GOP | C27's simulation from a start state with an arbitrary counter and an unresolved link | undefined overflow, start inside a GOP: refuted; late first SEI missing |
| C51 | signer with end of stream composed with validator, any damage | C49's and C52's simulation, with one more SEI whose GOP hash is that of the GOP before the last (session_ends, stream_end) | GOP level: refuted; as C49 |
| C52 | signer at frame level composed with validator, any damage | C49's simulation with the list path: greedy matching (E2eLoss.v) carried from hashes to bytes, or an explicit collision | as C49 |
| C53 | signer with a golden SEI composed with validator, start of the validation at a golden SEI | the report for the golden SEI and the state after it (gold_step), then C49's simulation from that state (mainG); a stored golden SEI and a session that makes its own | golden SEI after hashed NALUs: refuted; as C49 |
| C54 | whole validator on SEIs in the right format (SafeSpec.v) | what decoding needs and keeps (SafeDec.v), an invariant of the list of items: which items can be without a NALU, used, pending, hashed (SafeList.v, SafeRound.v), the verdict (SafeCheck.v), parsing and hashing (SafeParse.v), induction over rounds, calls and sessions (SafeProofs.v); termination from C35; the format of the signer's SEIs from C18 | golden SEIs, vendor fields; signed overflow excepted |
| C55 | signer with resets: streams one after another, composed with validator | C18's description of the SEIs from any start of the numbering; what a reset leaves (RestartProofs.v); C50's simulation for a new validator (RestartMain.v) | undefined overflow: refuted; streams that are ended before the reset |
| C56 | validator with any history in the format of C54, a reset, then a stream or its end | the invariant of C54, with the key and the size of signatures in it, gives the start state of C27's and C50's simulation after a reset (ScrubMain.v) | another key, another size of signatures, undefined overflow: refuted |
| C57 | the list of NALUs in memory, all allocators, all histories of its use | refinement: the heap holds a doubly linked segment for the sequence of NaluList.v, kept by every operation (HeapProofs.v) | – |
| C58 | validator, any calls with any NALUs | every function of Validator.v changes its sequence of items by list operations only (HeapLink.v), so C57 applies to every history | sessions in legacy mode are left out |
| C59 | signing session with signatures that come late (Late.v): each call is given the number of signatures that are there | the invariant of C15-C17 holds with any number of unfinished SEIs; per-call induction | no failure in the thread, no deprecated pull function (refuted for it) |
| C60 | the same with signatures that could not be made | refuted by a witness; before the first failure by C59 | |
| C61 | two sessions with the same NALUs, one with late signatures and pulls at any time, one as in C18 | simulation: the sessions differ in the pending SEIs only, what a SEI consists of is fixed when it is generated, its finished bytes by the unfinished ones and the signature (TimingProofs.v) | recurrence other than 1: refuted (C22) |
| C62 | validator with the legacy code, any calls | refuted by a witness | |
| C63 | the same with recordings in the old format (LegacySpec.v) | simulation: the state after each GOP is described by the GOP before (LegacyStep.v, LegacyGop.v), induction over the recording (LegacyRun.v); hand-over from the state C27 starts with | no lists with digests other than 32 bytes, recordings cut in front of a GOP: refuted |
| C64 | validator with and without the legacy code | the two sessions are equal until the hand-over (LegacySame.v) | that damaged SEIs of this version are not handed over: refuted |
| C65 | reset between two recordings | a reset leads back to the start state of C63's simulation | recordings of this version after one of an older: refuted |
| C66 | one fault in an old recording | refuted by witnesses | |
| C67 | the whole session, with any NALUs (LegacyAuthSpec.v) | invariant: every hash kept belongs to its NALU, every signature and key came with the video, marks are set only for NALUs in the chain (LegacyAuth.v); induction over the calls; then as for C28, the same chained hash or list means the same bytes unless strings that were hashed collide (LegacyBytes.v); C67_verdict follows the statuses and the verdict through every step that can set one of them (LegacyVerdict.v) | digests of other sizes (they overlap in memory); errors of the verification: after one, NALUs stay marked as members of a GOP whose hash is dropped; refused NALUs; golden SEIs |
| C68 | the whole session, NALUs of two recordings and forged pictures | refuted by a witness; what is shown authentic is still covered (C67), the verdict is not about the pictures left undecided | |

## 4. Findings

What the refutations and the reading of the code showed. (p) marks those with a theorem.

Validation gives the wrong answer:
1. A signature check that ends in an error (negative `EVP_PKEY_verify`) makes a tampered GOP OK (p, C28_failed_refuted).
2. The hash list is not cleared between SEIs: one from a badly signed SEI is used for a later GOP (p, C28_list_refuted).
3. A forged SEI between two GOPs is marked not authentic while the report says OK (p, C28_verdict_refuted, C48_sei_refuted).
4. A SEI that fails to decode behind its PUBLIC_KEY tag has replaced the key, unnoticed (p, C33_key_change_refuted).
5. NOT_OK from a bad golden SEI is forgotten in the accumulated result (p, C32_never_improves_refuted).
6. VERSION_MISMATCH is never reported, the local report has an empty version (p, C40_never_mismatch and C40_old_never_mismatch).
7. Slice types such as data partitions or reserved IRAP types are not hashed (p, C45_slices_hashed_refuted).
8. The loss of the last SEI before the GOP counter wraps is not seen (p, C38_wraparound_refuted).
9. The key, the GOP counter and other members survive `signed_video_reset` (p, C37_reset_refuted).
10. A GOP all of whose NALUs are lost, but whose SEI arrives, is reported OK. Fields behind the SIGNATURE tag are decoded although
    they are not signed. A first SEI without version bits hands the session over to the legacy code.
11. `set_public_key` with a bad key returns an error but keeps it (p, C34_refused_refuted).
12. The number of received NALUs is not the sum of validated and pending ones (p, C31_received_refuted); a modified last NALU of a
    hash list is not counted as missing (p, C29_missing_count_refuted).

Untampered video is not found authentic:
13. As many escapes as the signature field is long: the SIGNATURE tag is missed (p, C08, C10, C27_escapes_refuted).
14. Slices with an illegal header are hashed by the signer only (p, C27_illegal_header_refuted).
15. Key set by hand and another digest than SHA-256: the first GOP is hashed with the wrong digest (p, C27_key_by_hand_refuted).
16. A private key replaced while SEIs wait gives them signatures of the new key (p, C16_new_key_refuted).
17. Parts: a last part of zeros reads outside of the part (p, C13_any_cut_refuted); a refused part added again is taken for a
    continuation (p, C14_parts_refuted); a refusal because of a full SEI buffer cannot be repeated (p, C14_full_refuted).
18. A session whose first GOP is damaged, or that starts in the middle of a GOP, never again finds a GOP authentic: every SEI is
    compared with the GOP before the one it describes (p, C49_first_gop_refuted, C50_middle_refuted; a TODO in
    `h26x_nalu_list_remove_missing_items` admits it).
19. With wrapping arithmetic one lost SEI has the same effect (p, C49_lost_sei_refuted).
20. `verify_hashes_without_sei` looks for the next GOP in the next item of the list only: an access unit delimiter or parameter set
    before the I-frame makes it mark the NALUs of the following GOP as not authentic.

Undefined behaviour and endless loops:
21. `detect_lost_sei` overflows (p, C38_lost_sei_refuted), in particular for the first SEI of every part of a stream that does not
    begin at its first GOP (p, C50_overflow_refuted).
22. After two lost GOPs the validation loop does not end, with the arithmetic that was meant (p, C35_calls_end_refuted).
23. Malformed SEIs: payload shorter than 17 bytes, sizes beyond the NALU, hash sizes above 64, strings without end, tag 0, more than
    129 optional tags, all-zero NALUs, … (p, C36_malformed_refuted: ten inputs).
24. The SEI buffer has 4/3 slack where the worst case is 3/2 (p, C03_buffer_refuted).
25. Threaded plugin: two hash sizes fail an assert or overflow the heap, a second stop frees memory in use, 60 outstanding hashes of
    a session with its own thread write behind the buffer, a full output buffer mispairs signatures, and a session that does not
    fetch its signatures blocks all others (p, C25_…).
26. Vendor: after a failed key validation the next PUBLIC_KEY tag leaves a pointer to freed memory, used by the next check (p,
    C44_key_again_refuted). Longer certificates read behind the stored ones (p, C43_longer_refuted). An attestation without
    certificates dereferences NULL (p, C43_without_chain_refuted).

Minor:
27. Vendor: cut off certificates are taken for the same (p), fewer than three certificates give SEIs that are always refused (p), a
    refused report leaves its attestation (p), a wrong serial number is not remembered (p); the object id is copied from a constant,
    not from the report.
28. A failed SEI generation consumes a GOP counter value; a failed `set_private_key` frees the memory of the signature;
    `frame_count` counts NALUs by a bit of their third byte; the time stamp of a SEI is that of the next GOP's I-frame.
29. `version_on_signing_side` and the product information of before a reset are still in reports after it.
30. There is no domain separation between the hash of a NALU and that of a reference hash with a NALU hash.

End of stream:

31. `signed_video_set_end_of_stream` does not compute the GOP hash, so that the last SEI carries the one of the GOP before, zeros
    if there is none (p, C51_last_sei). If the SEI does not list the hashes, the untampered last GOP is reported NOT_OK (p,
    C51_gop_level_refuted), or stays pending if it is the only one (p, C51_one_gop_refuted).
32. For the same reason the last GOP can be replaced by a copy of the GOP before it, and everything is reported OK, at both levels
    (p, C51_replay_refuted).
33. A golden SEI that is the first SEI of a stream but comes after a hashed NALU is refused with an error, and so is every SEI after
    it (p, C53_later_refuted), although signed_video_sign.h:520-522 allows it. `prepare_golden_sei` uses the hashes of the NALUs in the list
    before it computes them (signed_video_h26x_auth.c:1160 and 1170), and marks them as known.
34. `signed_video_generate_golden_sei` sets the authenticity level to frame level for the rest of the session (p, C53_level_refuted).
35. `verify_hashes_without_sei` (signed_video_h26x_auth.c:581) uses the NALU of the next item, which is missing after a loss: if the check
    of a signature ends with an error (`EVP_PKEY_verify` below 0, as for a signature that is not in the right format) after a GOP with
    a modified and a lost picture, a null pointer is dereferenced (p, C54_failing_refuted). With right or wrong as answers this never
    happens (C54_defined_partial).
36. `decode_public_key` sets `has_public_key` (signed_video_tlv.c:726) before it knows that the key can be read. If not, the next NALU,
    whose reserved byte is not set, makes the validator take the stream for one of version 1.x and hands it to the legacy code for
    good (p, C54_key_refuted).
37. `signed_video_reset` does not reset the counter of the GOPs of a signing session. A new validator that gets the stream after the reset
    meets the signed overflow of finding 21 at its first SEI (p, C55_overflow_refuted), and a validator that goes on without a
    reset reports NOT_OK (p, C55_goes_on_refuted).
38. `decode_signature` makes the buffer for the signature when the first SEI arrives, with the size in that SEI, and answers SV_MEMORY to every SEI with
    a signature field of another size (signed_video_tlv.c:921-929). A reset keeps the buffer. So one SEI with another size at the
    beginning, with any signature, by anybody, makes the session refuse all SEIs of the real stream for good (p, C56_size_refuted).
39. A reset of a validating session keeps the last counter, so that a recording that begins further ahead than the next GOP meets the signed overflow of finding 21
    (p, C56_overflow_refuted).
40. `signed_video_get_nalu_to_prepend` asks the plugin for signatures twice, first to learn the size of the newest SEI, then to copy the newest SEI
    (signed_video_h26x_sign.c:602-625, 693-712). With the threaded plugin a signature may come in between; the newest SEI is then another one, and if
    it is larger the copy overruns the heap (p, C59_prepend_refuted).
41. When the worker thread of the threaded plugin fails to sign, `get_signature` takes the entry out and returns false with an error
    (threaded-signing/plugin.c:315-342). The caller looks at the error only if true was returned (signed_video_h26x_sign.c:563-565). Nobody learns of the
    failure, the SEI keeps waiting and gets the signature of the SEI behind it, and so do all SEIs from then on: every later SEI of the session fails to
    verify, although all calls return SV_OK (p, C60_failure_refuted).
42. Completing a SEI clears `has_recurrent_data` (signed_video_h26x_sign.c:149), also if the mark was set by a picture that came after that SEI was
    generated. If SEIs are pulled late, which the threaded plugin makes the normal case, public key, product information and hash algorithm are left out
    of a SEI in which they are due and wait for the next multiple of the recurrence (p, C22_pulled_late_refuted).

43. `legacy_h26x_nalu_list_copy_last_item` copies the item at the end of the list (legacy_h26x_nalu_list.c:253-293). If validation has appended items for
    missing NALUs behind the NALU just added, the copy fails with SV_UNKNOWN_FAILURE and the item of the NALU keeps a pointer to a local variable of
    `legacy_sv_add_h26x_nalu`. The next call uses it after return. A SEI in front of its I-frame, the I-frame and one more NALU are enough, and they can be
    signed with any key (p, C62_safe_refuted). The list of the core was repaired, the legacy copy was not.
44. A recording of an older version that begins with an I-frame (the SEI in front of it is missing or damaged) is never found authentic: SEIs are matched
    with the GOP after theirs, to the end of the recording (p, C63_cut_refuted).
45. Without lists of hashes and with a digest of 64 bytes the legacy code keeps the hash of a NALU 32 bytes behind the GOP hash, so that it overwrites
    half of it (legacy_h26x_common.c:141-142): such recordings are never found authentic (p, C63_long_hash_refuted).
46. `signed_video_reset` keeps the legacy session. After a recording of an older version every SEI of a recording of this version is answered with
    SV_INCOMPATIBLE_VERSION (p, C65_reset_refuted).
47. A SEI of an old recording that cannot be decoded stays in the list as pending. Every later SEI and I-frame tries to decode it again and fails (p,
    C66_broken_refuted).
48. After a modified last NALU of a GOP and a duplicated SEI an item stays in the legacy list for ever: all later reports are negative, and the list and the
    validation string grow with the recording (p, C66_twice_refuted).
49. `decode_public_key` sets `has_public_key` before it knows that the key is usable (signed_video_tlv.c:726). If the key in the first SEI is damaged,
    `is_recurrent_data_decoded` is true for the NALU after the SEI, whose reserved byte is zero, and the session is handed over to the legacy code
    (signed_video_h26x_auth.c:1149-1164) although the recording is of this version. All later SEIs are refused (p, C64_damaged_refuted).
50. `legacy_validate_authenticity` sets `reset_first_validation` when a first validation with a SEI for a single NALU fails (legacy_h26x_auth.c:579),
    and a success does not clear it (only `signed_video_reset` and another failure do). As long as it is set, each validation counts as the first, and the first NALU of the list is verified
    alone (lines 934-946, 179-183). Someone who puts the first SEI of one recording and the first SEI and picture of another in front can go on with
    any pictures: each copy of the second SEI gives a report "authentic", also for the whole video. The pictures are shown as pending (p, C68_replayed_refuted).
    With the same mark an overall result NOT_OK is forgotten: a video signed with a key other than the one the user set is reported OK, and only
    `public_key_has_changed` of the accumulated result tells (p, C33_old_refuted).

## 5. Trusted base

* The kernel of Coq 8.16.1, including `vm_compute`, and `coqchk`.
* `Print Assumptions` answers "Closed under the global context" for every theorem named in `MANIFEST.json`. Loading `Lia` brings
  `Coq.ssr.ssrunder.Under_rel.*` (seven constants of a sealed module of the standard library) into the environment, which `coqchk`
  lists; no theorem uses them.
* No axiom, `Admitted`, `Parameter` or section-less `Variable`; no module types or functors.
* The reading of the C code. Each definition names file and lines and, where it simplifies, says so.
* Crypto hypotheses, visible in the statements: `crypto_ok` (digest lengths, sizes of keys and signatures, signatures verify), for the
  vendor code `vcrypto_ok` (an empty chain is not accepted, serial numbers have less than 20 characters, results of at most 1).

## 6. Wrong programs

`seeded/LOG.jsonl` has one line per edit of the model in a scratch copy, rebuilt with `make -k`:
- `first_failing_lemmas`: the first proof that fails in each file that does not build;
- `theorems_failed`: the theorems whose proofs use one of these, found in the references between definitions that coqc writes (of the
  present version, not of the one that was edited);
- `theorems_not_rebuilt`: other theorems of files that could not be built. Nothing is known about them: the edit did not
  get as far as testing them. Earlier versions of the log counted them as failed.

What the log does not show: most proofs follow the program step by step, so a lemma can fail although the
claim is still true (see the notes, for instance M295, M312 and M313). A failing proof is therefore weaker evidence than a
counterexample; only an edit that survives is conclusive.

(** State records of a signing session and of the part of a validating session that the TLV
    decoders touch. Models signed_video_internal.h:104-256. The C struct [_signed_video_t] is split:
    [scfg], [sgop] and [srun] make up a signing session, [dec] is the decoder-visible part of a
    validating session. Every record comes with one setter per field.
    Generated by a script from a field table; the field comments name the C members. *)
From Verif Require Import Base Nalu Crypto.

(** Configuration part of a signing session: signed_video_internal.h:115-165. *)
Record scfg := mkScfg {
  sc_codec : codec;  (* codec *)
  sc_frame : bool;  (* authenticity_level == SV_AUTHENTICITY_LEVEL_FRAME *)
  sc_max_payload : N;  (* max_sei_payload_size, 0 = unlimited *)
  sc_recurrence : N;  (* recurrence *)
  sc_add_pub : bool;  (* add_public_key_to_sei *)
  sc_epb : bool;  (* sei_epb *)
  sc_using_golden : bool;  (* using_golden_sei *)
  sc_pub : list N;  (* pem_public_key; [] is NULL *)
  sc_prod : list (option (list N));  (* product_info: hardware_id, firmware_version, serial_number, manufacturer, address; None is NULL *)
  sc_arb : list N;  (* arbitrary_data; [] is NULL *)
  sc_max_sig : nat;  (* sign_data->max_signature_size *)
  sc_sig_mem : bool;  (* sign_data->signature is allocated *)
  sc_hs : nat;  (* sign_data->hash_size *)
  sc_key : option (list N)  (* plugin_handle: the private key it holds; None is NULL *)
}.
Definition set_sc_codec (v : codec) (r : scfg) : scfg := mkScfg v (sc_frame r) (sc_max_payload r) (sc_recurrence r) (sc_add_pub r) (sc_epb r) (sc_using_golden r) (sc_pub r) (sc_prod r) (sc_arb r) (sc_max_sig r) (sc_sig_mem r) (sc_hs r) (sc_key r).
Definition set_sc_frame (v : bool) (r : scfg) : scfg := mkScfg (sc_codec r) v (sc_max_payload r) (sc_recurrence r) (sc_add_pub r) (sc_epb r) (sc_using_golden r) (sc_pub r) (sc_prod r) (sc_arb r) (sc_max_sig r) (sc_sig_mem r) (sc_hs r) (sc_key r).
Definition set_sc_max_payload (v : N) (r : scfg) : scfg := mkScfg (sc_codec r) (sc_frame r) v (sc_recurrence r) (sc_add_pub r) (sc_epb r) (sc_using_golden r) (sc_pub r) (sc_prod r) (sc_arb r) (sc_max_sig r) (sc_sig_mem r) (sc_hs r) (sc_key r).
Definition set_sc_recurrence (v : N) (r : scfg) : scfg := mkScfg (sc_codec r) (sc_frame r) (sc_max_payload r) v (sc_add_pub r) (sc_epb r) (sc_using_golden r) (sc_pub r) (sc_prod r) (sc_arb r) (sc_max_sig r) (sc_sig_mem r) (sc_hs r) (sc_key r).
Definition set_sc_add_pub (v : bool) (r : scfg) : scfg := mkScfg (sc_codec r) (sc_frame r) (sc_max_payload r) (sc_recurrence r) v (sc_epb r) (sc_using_golden r) (sc_pub r) (sc_prod r) (sc_arb r) (sc_max_sig r) (sc_sig_mem r) (sc_hs r) (sc_key r).
Definition set_sc_epb (v : bool) (r : scfg) : scfg := mkScfg (sc_codec r) (sc_frame r) (sc_max_payload r) (sc_recurrence r) (sc_add_pub r) v (sc_using_golden r) (sc_pub r) (sc_prod r) (sc_arb r) (sc_max_sig r) (sc_sig_mem r) (sc_hs r) (sc_key r).
Definition set_sc_using_golden (v : bool) (r : scfg) : scfg := mkScfg (sc_codec r) (sc_frame r) (sc_max_payload r) (sc_recurrence r) (sc_add_pub r) (sc_epb r) v (sc_pub r) (sc_prod r) (sc_arb r) (sc_max_sig r) (sc_sig_mem r) (sc_hs r) (sc_key r).
Definition set_sc_pub (v : list N) (r : scfg) : scfg := mkScfg (sc_codec r) (sc_frame r) (sc_max_payload r) (sc_recurrence r) (sc_add_pub r) (sc_epb r) (sc_using_golden r) v (sc_prod r) (sc_arb r) (sc_max_sig r) (sc_sig_mem r) (sc_hs r) (sc_key r).
Definition set_sc_prod (v : list (option (list N))) (r : scfg) : scfg := mkScfg (sc_codec r) (sc_frame r) (sc_max_payload r) (sc_recurrence r) (sc_add_pub r) (sc_epb r) (sc_using_golden r) (sc_pub r) v (sc_arb r) (sc_max_sig r) (sc_sig_mem r) (sc_hs r) (sc_key r).
Definition set_sc_arb (v : list N) (r : scfg) : scfg := mkScfg (sc_codec r) (sc_frame r) (sc_max_payload r) (sc_recurrence r) (sc_add_pub r) (sc_epb r) (sc_using_golden r) (sc_pub r) (sc_prod r) v (sc_max_sig r) (sc_sig_mem r) (sc_hs r) (sc_key r).
Definition set_sc_max_sig (v : nat) (r : scfg) : scfg := mkScfg (sc_codec r) (sc_frame r) (sc_max_payload r) (sc_recurrence r) (sc_add_pub r) (sc_epb r) (sc_using_golden r) (sc_pub r) (sc_prod r) (sc_arb r) v (sc_sig_mem r) (sc_hs r) (sc_key r).
Definition set_sc_sig_mem (v : bool) (r : scfg) : scfg := mkScfg (sc_codec r) (sc_frame r) (sc_max_payload r) (sc_recurrence r) (sc_add_pub r) (sc_epb r) (sc_using_golden r) (sc_pub r) (sc_prod r) (sc_arb r) (sc_max_sig r) v (sc_hs r) (sc_key r).
Definition set_sc_hs (v : nat) (r : scfg) : scfg := mkScfg (sc_codec r) (sc_frame r) (sc_max_payload r) (sc_recurrence r) (sc_add_pub r) (sc_epb r) (sc_using_golden r) (sc_pub r) (sc_prod r) (sc_arb r) (sc_max_sig r) (sc_sig_mem r) v (sc_key r).
Definition set_sc_key (v : option (list N)) (r : scfg) : scfg := mkScfg (sc_codec r) (sc_frame r) (sc_max_payload r) (sc_recurrence r) (sc_add_pub r) (sc_epb r) (sc_using_golden r) (sc_pub r) (sc_prod r) (sc_arb r) (sc_max_sig r) (sc_sig_mem r) (sc_hs r) v.

(** What the NALU hashing functions work on, common to both sides: signed_video_internal.h:221-224. *)
Record hst := mkHst {
  k_handle : handle;  (* crypto_handle *)
  k_buddies : list N;  (* gop_info->hash_buddies[128] *)
  k_has_ref : bool  (* gop_info->has_reference_hash *)
}.
Definition set_k_handle (v : handle) (r : hst) : hst := mkHst v (k_buddies r) (k_has_ref r).
Definition set_k_buddies (v : list N) (r : hst) : hst := mkHst (k_handle r) v (k_has_ref r).
Definition set_k_has_ref (v : bool) (r : hst) : hst := mkHst (k_handle r) (k_buddies r) v.

(** GOP information on the signing side (gop_info_t): signed_video_internal.h:221-256.  nalu_hash is the content last written to the slot of that name. *)
Record sgop := mkSgop {
  g_h : hst;  (* crypto_handle, hash_buddies, has_reference_hash *)
  g_list : option (list N);  (* hash_list[0..list_idx); None is list_idx = -1 *)
  g_nalu_hash : list N;  (* nalu_hash *)
  g_computed : list N;  (* computed_gop_hash[64] *)
  g_linked : list N;  (* linked_hashes[128] *)
  g_num : N;  (* num_nalus_in_gop_hash (uint16_t) *)
  g_counter : N;  (* global_gop_counter (uint32_t) *)
  g_ts : option Z;  (* timestamp; None is has_timestamp = false *)
  g_hash_type : N;  (* signature_hash_type *)
  g_enc : N  (* encoding_status *)
}.
Definition set_g_h (v : hst) (r : sgop) : sgop := mkSgop v (g_list r) (g_nalu_hash r) (g_computed r) (g_linked r) (g_num r) (g_counter r) (g_ts r) (g_hash_type r) (g_enc r).
Definition set_g_list (v : option (list N)) (r : sgop) : sgop := mkSgop (g_h r) v (g_nalu_hash r) (g_computed r) (g_linked r) (g_num r) (g_counter r) (g_ts r) (g_hash_type r) (g_enc r).
Definition set_g_nalu_hash (v : list N) (r : sgop) : sgop := mkSgop (g_h r) (g_list r) v (g_computed r) (g_linked r) (g_num r) (g_counter r) (g_ts r) (g_hash_type r) (g_enc r).
Definition set_g_computed (v : list N) (r : sgop) : sgop := mkSgop (g_h r) (g_list r) (g_nalu_hash r) v (g_linked r) (g_num r) (g_counter r) (g_ts r) (g_hash_type r) (g_enc r).
Definition set_g_linked (v : list N) (r : sgop) : sgop := mkSgop (g_h r) (g_list r) (g_nalu_hash r) (g_computed r) v (g_num r) (g_counter r) (g_ts r) (g_hash_type r) (g_enc r).
Definition set_g_num (v : N) (r : sgop) : sgop := mkSgop (g_h r) (g_list r) (g_nalu_hash r) (g_computed r) (g_linked r) v (g_counter r) (g_ts r) (g_hash_type r) (g_enc r).
Definition set_g_counter (v : N) (r : sgop) : sgop := mkSgop (g_h r) (g_list r) (g_nalu_hash r) (g_computed r) (g_linked r) (g_num r) v (g_ts r) (g_hash_type r) (g_enc r).
Definition set_g_ts (v : option Z) (r : sgop) : sgop := mkSgop (g_h r) (g_list r) (g_nalu_hash r) (g_computed r) (g_linked r) (g_num r) (g_counter r) v (g_hash_type r) (g_enc r).
Definition set_g_hash_type (v : N) (r : sgop) : sgop := mkSgop (g_h r) (g_list r) (g_nalu_hash r) (g_computed r) (g_linked r) (g_num r) (g_counter r) (g_ts r) v (g_enc r).
Definition set_g_enc (v : N) (r : sgop) : sgop := mkSgop (g_h r) (g_list r) (g_nalu_hash r) (g_computed r) (g_linked r) (g_num r) (g_counter r) (g_ts r) (g_hash_type r) v.


(** Memory of a SEI under construction (sei_data_t.sei): allocated with the bytes written so far,
    freed but still referenced, or NULL. *)
Inductive smem := PBuf (l : list N) | PFreed | PNull.

(** One entry of the SEI buffer (sei_data_t): signed_video_internal.h:104-113. *)
Record slot := mkSlot {
  sl_sei : smem;  (* sei, with the bytes written up to write_position *)
  sl_alloc : N;  (* number of bytes allocated for the SEI *)
  sl_lt : N;  (* last_two_bytes *)
  sl_done : N  (* completed_sei_size *)
}.
Definition set_sl_sei (v : smem) (r : slot) : slot := mkSlot v (sl_alloc r) (sl_lt r) (sl_done r).
Definition set_sl_alloc (v : N) (r : slot) : slot := mkSlot (sl_sei r) v (sl_lt r) (sl_done r).
Definition set_sl_lt (v : N) (r : slot) : slot := mkSlot (sl_sei r) (sl_alloc r) v (sl_done r).
Definition set_sl_done (v : N) (r : slot) : slot := mkSlot (sl_sei r) (sl_alloc r) (sl_lt r) v.

(** Running state of a signing session: signed_video_internal.h:140-185. *)
Record srun := mkSrun {
  r_started : bool;  (* signing_started *)
  r_gen : bool;  (* sei_generation_enabled *)
  r_avoid : bool;  (* avoid_checking_available_seis *)
  r_golden : bool;  (* is_golden_sei *)
  r_recurrent : bool;  (* has_recurrent_data *)
  r_frame : Z;  (* frame_count (int) *)
  r_last : nalu;  (* last_nalu *)
  r_slots : list slot;  (* sei_data_buffer[0..sei_data_buffer_idx) *)
  r_done : nat;  (* num_of_completed_seis *)
  r_sig : list N;  (* sign_data->signature[0..signature_size) *)
  r_queue : list (list N);  (* signatures waiting in the signing plugin, oldest first *)
  r_coin : N  (* randomness left for the signing algorithm *)
}.
Definition set_r_started (v : bool) (r : srun) : srun := mkSrun v (r_gen r) (r_avoid r) (r_golden r) (r_recurrent r) (r_frame r) (r_last r) (r_slots r) (r_done r) (r_sig r) (r_queue r) (r_coin r).
Definition set_r_gen (v : bool) (r : srun) : srun := mkSrun (r_started r) v (r_avoid r) (r_golden r) (r_recurrent r) (r_frame r) (r_last r) (r_slots r) (r_done r) (r_sig r) (r_queue r) (r_coin r).
Definition set_r_avoid (v : bool) (r : srun) : srun := mkSrun (r_started r) (r_gen r) v (r_golden r) (r_recurrent r) (r_frame r) (r_last r) (r_slots r) (r_done r) (r_sig r) (r_queue r) (r_coin r).
Definition set_r_golden (v : bool) (r : srun) : srun := mkSrun (r_started r) (r_gen r) (r_avoid r) v (r_recurrent r) (r_frame r) (r_last r) (r_slots r) (r_done r) (r_sig r) (r_queue r) (r_coin r).
Definition set_r_recurrent (v : bool) (r : srun) : srun := mkSrun (r_started r) (r_gen r) (r_avoid r) (r_golden r) v (r_frame r) (r_last r) (r_slots r) (r_done r) (r_sig r) (r_queue r) (r_coin r).
Definition set_r_frame (v : Z) (r : srun) : srun := mkSrun (r_started r) (r_gen r) (r_avoid r) (r_golden r) (r_recurrent r) v (r_last r) (r_slots r) (r_done r) (r_sig r) (r_queue r) (r_coin r).
Definition set_r_last (v : nalu) (r : srun) : srun := mkSrun (r_started r) (r_gen r) (r_avoid r) (r_golden r) (r_recurrent r) (r_frame r) v (r_slots r) (r_done r) (r_sig r) (r_queue r) (r_coin r).
Definition set_r_slots (v : list slot) (r : srun) : srun := mkSrun (r_started r) (r_gen r) (r_avoid r) (r_golden r) (r_recurrent r) (r_frame r) (r_last r) v (r_done r) (r_sig r) (r_queue r) (r_coin r).
Definition set_r_done (v : nat) (r : srun) : srun := mkSrun (r_started r) (r_gen r) (r_avoid r) (r_golden r) (r_recurrent r) (r_frame r) (r_last r) (r_slots r) v (r_sig r) (r_queue r) (r_coin r).
Definition set_r_sig (v : list N) (r : srun) : srun := mkSrun (r_started r) (r_gen r) (r_avoid r) (r_golden r) (r_recurrent r) (r_frame r) (r_last r) (r_slots r) (r_done r) v (r_queue r) (r_coin r).
Definition set_r_queue (v : list (list N)) (r : srun) : srun := mkSrun (r_started r) (r_gen r) (r_avoid r) (r_golden r) (r_recurrent r) (r_frame r) (r_last r) (r_slots r) (r_done r) (r_sig r) v (r_coin r).
Definition set_r_coin (v : N) (r : srun) : srun := mkSrun (r_started r) (r_gen r) (r_avoid r) (r_golden r) (r_recurrent r) (r_frame r) (r_last r) (r_slots r) (r_done r) (r_sig r) (r_queue r) v.

(** A signing session. *)
Record signer := mkSigner {
  s_cfg : scfg;  (* configuration *)
  s_gop : sgop;  (* gop_info and crypto_handle *)
  s_run : srun  (* flags and SEI buffer *)
}.
Definition set_s_cfg (v : scfg) (r : signer) : signer := mkSigner v (s_gop r) (s_run r).
Definition set_s_gop (v : sgop) (r : signer) : signer := mkSigner (s_cfg r) v (s_run r).
Definition set_s_run (v : srun) (r : signer) : signer := mkSigner (s_cfg r) (s_gop r) v.

(** The members of a validating session that TLV decoders read or write: signed_video_internal.h:115-256. [authenticity] and [latest_validation] exist whenever a NALU is authenticated (signed_video_h26x_auth.c:1202). *)
Record dec := mkDec {
  d_counter : N;  (* gop_info->global_gop_counter *)
  d_num_sent : N;  (* gop_info->num_sent_nalus *)
  d_version : list N;  (* code_version *)
  d_sver : list N;  (* authenticity->version_on_signing_side as its three numbers; [] is the empty string *)
  d_has_ts : bool;  (* gop_info->has_timestamp *)
  d_ts : Z;  (* gop_info->timestamp *)
  d_linked : list N;  (* received_linked_hash[64] *)
  d_gop : list N;  (* received_gop_hash[64] *)
  d_prod : list (option (list N));  (* product_info *)
  d_rprod : list (option (list N));  (* authenticity->product_info *)
  d_arb : list N;  (* arbitrary_data; [] is NULL *)
  d_pub : list N;  (* pem_public_key; [] is NULL *)
  d_has_pub : bool;  (* has_public_key *)
  d_vkey : option (list N);  (* verify_data->key: the PEM it was made from *)
  d_list : list N;  (* gop_info->hash_list[0..list_idx) *)
  d_sig : option (list N);  (* verify_data->signature, of max_signature_size bytes; None is NULL *)
  d_sig_size : N;  (* verify_data->signature_size *)
  d_enc : N;  (* gop_info->encoding_status *)
  d_hash_type : N;  (* gop_info->signature_hash_type *)
  d_handle : handle;  (* crypto_handle *)
  d_algo_known : bool;  (* validation_flags.hash_algo_known *)
  d_vhs : nat;  (* verify_data->hash_size *)
  d_l_has_ts : bool;  (* latest_validation->has_timestamp *)
  d_l_ts : Z;  (* latest_validation->timestamp *)
  d_l_changed : bool  (* latest_validation->public_key_has_changed *)
}.
Definition set_d_counter (v : N) (r : dec) : dec := mkDec v (d_num_sent r) (d_version r) (d_sver r) (d_has_ts r) (d_ts r) (d_linked r) (d_gop r) (d_prod r) (d_rprod r) (d_arb r) (d_pub r) (d_has_pub r) (d_vkey r) (d_list r) (d_sig r) (d_sig_size r) (d_enc r) (d_hash_type r) (d_handle r) (d_algo_known r) (d_vhs r) (d_l_has_ts r) (d_l_ts r) (d_l_changed r).
Definition set_d_num_sent (v : N) (r : dec) : dec := mkDec (d_counter r) v (d_version r) (d_sver r) (d_has_ts r) (d_ts r) (d_linked r) (d_gop r) (d_prod r) (d_rprod r) (d_arb r) (d_pub r) (d_has_pub r) (d_vkey r) (d_list r) (d_sig r) (d_sig_size r) (d_enc r) (d_hash_type r) (d_handle r) (d_algo_known r) (d_vhs r) (d_l_has_ts r) (d_l_ts r) (d_l_changed r).
Definition set_d_version (v : list N) (r : dec) : dec := mkDec (d_counter r) (d_num_sent r) v (d_sver r) (d_has_ts r) (d_ts r) (d_linked r) (d_gop r) (d_prod r) (d_rprod r) (d_arb r) (d_pub r) (d_has_pub r) (d_vkey r) (d_list r) (d_sig r) (d_sig_size r) (d_enc r) (d_hash_type r) (d_handle r) (d_algo_known r) (d_vhs r) (d_l_has_ts r) (d_l_ts r) (d_l_changed r).
Definition set_d_sver (v : list N) (r : dec) : dec := mkDec (d_counter r) (d_num_sent r) (d_version r) v (d_has_ts r) (d_ts r) (d_linked r) (d_gop r) (d_prod r) (d_rprod r) (d_arb r) (d_pub r) (d_has_pub r) (d_vkey r) (d_list r) (d_sig r) (d_sig_size r) (d_enc r) (d_hash_type r) (d_handle r) (d_algo_known r) (d_vhs r) (d_l_has_ts r) (d_l_ts r) (d_l_changed r).
Definition set_d_has_ts (v : bool) (r : dec) : dec := mkDec (d_counter r) (d_num_sent r) (d_version r) (d_sver r) v (d_ts r) (d_linked r) (d_gop r) (d_prod r) (d_rprod r) (d_arb r) (d_pub r) (d_has_pub r) (d_vkey r) (d_list r) (d_sig r) (d_sig_size r) (d_enc r) (d_hash_type r) (d_handle r) (d_algo_known r) (d_vhs r) (d_l_has_ts r) (d_l_ts r) (d_l_changed r).
Definition set_d_ts (v : Z) (r : dec) : dec := mkDec (d_counter r) (d_num_sent r) (d_version r) (d_sver r) (d_has_ts r) v (d_linked r) (d_gop r) (d_prod r) (d_rprod r) (d_arb r) (d_pub r) (d_has_pub r) (d_vkey r) (d_list r) (d_sig r) (d_sig_size r) (d_enc r) (d_hash_type r) (d_handle r) (d_algo_known r) (d_vhs r) (d_l_has_ts r) (d_l_ts r) (d_l_changed r).
Definition set_d_linked (v : list N) (r : dec) : dec := mkDec (d_counter r) (d_num_sent r) (d_version r) (d_sver r) (d_has_ts r) (d_ts r) v (d_gop r) (d_prod r) (d_rprod r) (d_arb r) (d_pub r) (d_has_pub r) (d_vkey r) (d_list r) (d_sig r) (d_sig_size r) (d_enc r) (d_hash_type r) (d_handle r) (d_algo_known r) (d_vhs r) (d_l_has_ts r) (d_l_ts r) (d_l_changed r).
Definition set_d_gop (v : list N) (r : dec) : dec := mkDec (d_counter r) (d_num_sent r) (d_version r) (d_sver r) (d_has_ts r) (d_ts r) (d_linked r) v (d_prod r) (d_rprod r) (d_arb r) (d_pub r) (d_has_pub r) (d_vkey r) (d_list r) (d_sig r) (d_sig_size r) (d_enc r) (d_hash_type r) (d_handle r) (d_algo_known r) (d_vhs r) (d_l_has_ts r) (d_l_ts r) (d_l_changed r).
Definition set_d_prod (v : list (option (list N))) (r : dec) : dec := mkDec (d_counter r) (d_num_sent r) (d_version r) (d_sver r) (d_has_ts r) (d_ts r) (d_linked r) (d_gop r) v (d_rprod r) (d_arb r) (d_pub r) (d_has_pub r) (d_vkey r) (d_list r) (d_sig r) (d_sig_size r) (d_enc r) (d_hash_type r) (d_handle r) (d_algo_known r) (d_vhs r) (d_l_has_ts r) (d_l_ts r) (d_l_changed r).
Definition set_d_rprod (v : list (option (list N))) (r : dec) : dec := mkDec (d_counter r) (d_num_sent r) (d_version r) (d_sver r) (d_has_ts r) (d_ts r) (d_linked r) (d_gop r) (d_prod r) v (d_arb r) (d_pub r) (d_has_pub r) (d_vkey r) (d_list r) (d_sig r) (d_sig_size r) (d_enc r) (d_hash_type r) (d_handle r) (d_algo_known r) (d_vhs r) (d_l_has_ts r) (d_l_ts r) (d_l_changed r).
Definition set_d_arb (v : list N) (r : dec) : dec := mkDec (d_counter r) (d_num_sent r) (d_version r) (d_sver r) (d_has_ts r) (d_ts r) (d_linked r) (d_gop r) (d_prod r) (d_rprod r) v (d_pub r) (d_has_pub r) (d_vkey r) (d_list r) (d_sig r) (d_sig_size r) (d_enc r) (d_hash_type r) (d_handle r) (d_algo_known r) (d_vhs r) (d_l_has_ts r) (d_l_ts r) (d_l_changed r).
Definition set_d_pub (v : list N) (r : dec) : dec := mkDec (d_counter r) (d_num_sent r) (d_version r) (d_sver r) (d_has_ts r) (d_ts r) (d_linked r) (d_gop r) (d_prod r) (d_rprod r) (d_arb r) v (d_has_pub r) (d_vkey r) (d_list r) (d_sig r) (d_sig_size r) (d_enc r) (d_hash_type r) (d_handle r) (d_algo_known r) (d_vhs r) (d_l_has_ts r) (d_l_ts r) (d_l_changed r).
Definition set_d_has_pub (v : bool) (r : dec) : dec := mkDec (d_counter r) (d_num_sent r) (d_version r) (d_sver r) (d_has_ts r) (d_ts r) (d_linked r) (d_gop r) (d_prod r) (d_rprod r) (d_arb r) (d_pub r) v (d_vkey r) (d_list r) (d_sig r) (d_sig_size r) (d_enc r) (d_hash_type r) (d_handle r) (d_algo_known r) (d_vhs r) (d_l_has_ts r) (d_l_ts r) (d_l_changed r).
Definition set_d_vkey (v : option (list N)) (r : dec) : dec := mkDec (d_counter r) (d_num_sent r) (d_version r) (d_sver r) (d_has_ts r) (d_ts r) (d_linked r) (d_gop r) (d_prod r) (d_rprod r) (d_arb r) (d_pub r) (d_has_pub r) v (d_list r) (d_sig r) (d_sig_size r) (d_enc r) (d_hash_type r) (d_handle r) (d_algo_known r) (d_vhs r) (d_l_has_ts r) (d_l_ts r) (d_l_changed r).
Definition set_d_list (v : list N) (r : dec) : dec := mkDec (d_counter r) (d_num_sent r) (d_version r) (d_sver r) (d_has_ts r) (d_ts r) (d_linked r) (d_gop r) (d_prod r) (d_rprod r) (d_arb r) (d_pub r) (d_has_pub r) (d_vkey r) v (d_sig r) (d_sig_size r) (d_enc r) (d_hash_type r) (d_handle r) (d_algo_known r) (d_vhs r) (d_l_has_ts r) (d_l_ts r) (d_l_changed r).
Definition set_d_sig (v : option (list N)) (r : dec) : dec := mkDec (d_counter r) (d_num_sent r) (d_version r) (d_sver r) (d_has_ts r) (d_ts r) (d_linked r) (d_gop r) (d_prod r) (d_rprod r) (d_arb r) (d_pub r) (d_has_pub r) (d_vkey r) (d_list r) v (d_sig_size r) (d_enc r) (d_hash_type r) (d_handle r) (d_algo_known r) (d_vhs r) (d_l_has_ts r) (d_l_ts r) (d_l_changed r).
Definition set_d_sig_size (v : N) (r : dec) : dec := mkDec (d_counter r) (d_num_sent r) (d_version r) (d_sver r) (d_has_ts r) (d_ts r) (d_linked r) (d_gop r) (d_prod r) (d_rprod r) (d_arb r) (d_pub r) (d_has_pub r) (d_vkey r) (d_list r) (d_sig r) v (d_enc r) (d_hash_type r) (d_handle r) (d_algo_known r) (d_vhs r) (d_l_has_ts r) (d_l_ts r) (d_l_changed r).
Definition set_d_enc (v : N) (r : dec) : dec := mkDec (d_counter r) (d_num_sent r) (d_version r) (d_sver r) (d_has_ts r) (d_ts r) (d_linked r) (d_gop r) (d_prod r) (d_rprod r) (d_arb r) (d_pub r) (d_has_pub r) (d_vkey r) (d_list r) (d_sig r) (d_sig_size r) v (d_hash_type r) (d_handle r) (d_algo_known r) (d_vhs r) (d_l_has_ts r) (d_l_ts r) (d_l_changed r).
Definition set_d_hash_type (v : N) (r : dec) : dec := mkDec (d_counter r) (d_num_sent r) (d_version r) (d_sver r) (d_has_ts r) (d_ts r) (d_linked r) (d_gop r) (d_prod r) (d_rprod r) (d_arb r) (d_pub r) (d_has_pub r) (d_vkey r) (d_list r) (d_sig r) (d_sig_size r) (d_enc r) v (d_handle r) (d_algo_known r) (d_vhs r) (d_l_has_ts r) (d_l_ts r) (d_l_changed r).
Definition set_d_handle (v : handle) (r : dec) : dec := mkDec (d_counter r) (d_num_sent r) (d_version r) (d_sver r) (d_has_ts r) (d_ts r) (d_linked r) (d_gop r) (d_prod r) (d_rprod r) (d_arb r) (d_pub r) (d_has_pub r) (d_vkey r) (d_list r) (d_sig r) (d_sig_size r) (d_enc r) (d_hash_type r) v (d_algo_known r) (d_vhs r) (d_l_has_ts r) (d_l_ts r) (d_l_changed r).
Definition set_d_algo_known (v : bool) (r : dec) : dec := mkDec (d_counter r) (d_num_sent r) (d_version r) (d_sver r) (d_has_ts r) (d_ts r) (d_linked r) (d_gop r) (d_prod r) (d_rprod r) (d_arb r) (d_pub r) (d_has_pub r) (d_vkey r) (d_list r) (d_sig r) (d_sig_size r) (d_enc r) (d_hash_type r) (d_handle r) v (d_vhs r) (d_l_has_ts r) (d_l_ts r) (d_l_changed r).
Definition set_d_vhs (v : nat) (r : dec) : dec := mkDec (d_counter r) (d_num_sent r) (d_version r) (d_sver r) (d_has_ts r) (d_ts r) (d_linked r) (d_gop r) (d_prod r) (d_rprod r) (d_arb r) (d_pub r) (d_has_pub r) (d_vkey r) (d_list r) (d_sig r) (d_sig_size r) (d_enc r) (d_hash_type r) (d_handle r) (d_algo_known r) v (d_l_has_ts r) (d_l_ts r) (d_l_changed r).
Definition set_d_l_has_ts (v : bool) (r : dec) : dec := mkDec (d_counter r) (d_num_sent r) (d_version r) (d_sver r) (d_has_ts r) (d_ts r) (d_linked r) (d_gop r) (d_prod r) (d_rprod r) (d_arb r) (d_pub r) (d_has_pub r) (d_vkey r) (d_list r) (d_sig r) (d_sig_size r) (d_enc r) (d_hash_type r) (d_handle r) (d_algo_known r) (d_vhs r) v (d_l_ts r) (d_l_changed r).
Definition set_d_l_ts (v : Z) (r : dec) : dec := mkDec (d_counter r) (d_num_sent r) (d_version r) (d_sver r) (d_has_ts r) (d_ts r) (d_linked r) (d_gop r) (d_prod r) (d_rprod r) (d_arb r) (d_pub r) (d_has_pub r) (d_vkey r) (d_list r) (d_sig r) (d_sig_size r) (d_enc r) (d_hash_type r) (d_handle r) (d_algo_known r) (d_vhs r) (d_l_has_ts r) v (d_l_changed r).
Definition set_d_l_changed (v : bool) (r : dec) : dec := mkDec (d_counter r) (d_num_sent r) (d_version r) (d_sver r) (d_has_ts r) (d_ts r) (d_linked r) (d_gop r) (d_prod r) (d_rprod r) (d_arb r) (d_pub r) (d_has_pub r) (d_vkey r) (d_list r) (d_sig r) (d_sig_size r) (d_enc r) (d_hash_type r) (d_handle r) (d_algo_known r) (d_vhs r) (d_l_has_ts r) (d_l_ts r) v.


(** SV_VERSION_BYTES numbers of SIGNED_VIDEO_VERSION "v1.1.29": signed_video_internal.h:55, stored in
    code_version by signed_video_create, signed_video_h26x_common.c:1134. *)
Definition lib_version : list N := [1; 1; 29]%N.

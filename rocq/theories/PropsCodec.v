(** Properties C01, C04, C05, C06, C07 and C41: the byte-level codec. *)
From Verif Require Import Base Epb EpbProofs Nalu Crypto Types Tlv TlvProofs EncProofs CodecSpec CodecProofs.
Local Open Scope N_scope.

(** C01. Whatever two bytes [lt] were written before, reading back as many bytes as were written
    gives the same bytes, consumes exactly the written bytes and leaves the same history. *)
Theorem C01_epb_lossless : forall lt l rest, bytes_ok l ->
  read_bytes true (length l) lt (snd (write_bytes true lt l) ++ rest)
  = Def (l, fst (write_bytes true lt l), rest).
Proof. exact (fun lt l rest H => epb_lossless lt l H rest). Qed.
Print Assumptions C01_epb_lossless.

Example C01_case : bytes_ok [0; 0; 0; 0; 1; 0; 0; 3; 255] /\
  snd (write_bytes true lt_init [0; 0; 0; 0; 1; 0; 0; 3; 255]) = [0; 0; 3; 0; 0; 3; 1; 0; 0; 3; 3; 255].
Proof. split; [repeat constructor; reflexivity|vm_compute; reflexivity]. Qed.

(** The writer never produces a start code emulation, also not together with the bytes before. *)
Theorem C01_no_emulation : forall lt l, bytes_ok l -> no_emulation (snd (write_bytes true lt l)).
Proof. exact (fun lt l H => ok_from_no_emulation lt _ (write_bytes_ok_from lt l H)). Qed.
Print Assumptions C01_no_emulation.

(** C04. Integers of any width survive the writer (with or without emulation prevention) followed by
    the byte reader; and the 16/32/64 bit readers of the decoders invert the big-endian digits. *)
Theorem C04_integers_survive : forall epb lt n v rest, v < 256 ^ N.of_nat n ->
  exists l lt', read_bytes epb n lt (snd (write_bytes epb lt (digits n v)) ++ rest) = Def (l, lt', rest)
  /\ value_of l = v.
Proof. exact be_written_read. Qed.
Print Assumptions C04_integers_survive.

Theorem C04_readers : forall rest,
  (forall v, v < 2 ^ 16 -> read_16bits (digits 2 v ++ rest) = Def (v, rest)) /\
  (forall v, v < 2 ^ 32 -> read_32bits (digits 4 v ++ rest) = Def (v, rest)) /\
  (forall v, v < 2 ^ 64 -> read_64bits (digits 8 v ++ rest) = Def (v, rest)).
Proof. exact readers_value. Qed.
Print Assumptions C04_readers.

(** The GENERAL field carries the counter (incremented, modulo 2^32) and the number of NALUs as such
    digits. *)
Theorem C04_counter_on_the_wire : forall c g, exists rest,
  general_value c g = [3] ++ digits 4 ((g_counter g + 1) mod 2 ^ 32) ++ digits 2 (g_num g) ++ rest.
Proof. exact counter_encoding. Qed.
Print Assumptions C04_counter_on_the_wire.

Example C04_case : 16909060 < 256 ^ N.of_nat 4 /\ digits 4 16909060 = [1; 2; 3; 4].
Proof. split; vm_compute; reflexivity. Qed.

(** C05. One statement per tag. [enc_ok] lists the ranges of the C types involved. *)
Theorem C05_general : forall C c g sig d,
  enc_ok c g sig -> length (d_linked d) = 64%nat -> length (d_gop d) = 64%nat ->
  exists d', decode_tag C d GENERAL (enc_value c g sig GENERAL) (enc_size c g GENERAL) = Def (d', SV_OK) /\
    d_counter d' = (g_counter g + 1) mod 2 ^ 32 /\
    d_num_sent d' = g_num g /\
    d_version d' = lib_version /\
    match g_ts g with
    | Some t => d_has_ts d' = true /\ d_ts d' = t
    | None => d_has_ts d' = false
    end /\
    firstn (sc_hs c) (d_linked d') = firstn (sc_hs c) (g_linked g) /\
    firstn (sc_hs c) (d_gop d') = firstn (sc_hs c) (g_computed g).
Proof. exact tag_general. Qed.
Print Assumptions C05_general.

Theorem C05_public_key : forall C c g sig d,
  enc_ok c g sig -> sc_pub c <> [] -> sc_add_pub c = true -> c_pub_ok C (sc_pub c) = true ->
  exists d', decode_tag C d PUBLIC_KEY (enc_value c g sig PUBLIC_KEY) (enc_size c g PUBLIC_KEY) = Def (d', SV_OK) /\
    d_pub d' = sc_pub c /\ d_has_pub d' = true /\ d_vkey d' = Some (sc_pub c).
Proof. exact tag_public_key. Qed.
Print Assumptions C05_public_key.

Theorem C05_hash_list : forall C c g sig d l,
  enc_ok c g sig -> sc_frame c = true -> g_list g = Some l -> l <> [] ->
  exists d', decode_tag C d HASH_LIST (enc_value c g sig HASH_LIST) (enc_size c g HASH_LIST) = Def (d', SV_OK) /\
    d_list d' = l.
Proof. exact tag_hash_list. Qed.
Print Assumptions C05_hash_list.

Theorem C05_signature : forall C c g sig d, enc_ok c g sig ->
  (match d_sig d with Some s => length s = sc_max_sig c | None => True end) ->
  exists d', decode_tag C d SIGNATURE (enc_value c g sig SIGNATURE) (enc_size c g SIGNATURE) = Def (d', SV_OK) /\
    d_sig d' = Some (padded (sc_max_sig c) sig) /\ d_sig_size d' = nlen sig.
Proof. exact tag_signature. Qed.
Print Assumptions C05_signature.

Theorem C05_crypto_info : forall C c g sig d n, enc_ok c g sig -> h_oid (k_handle (g_h g)) <> [] ->
  c_oid C (h_oid (k_handle (g_h g))) = OidDigest n -> h_type (d_handle d) = h_oid (d_handle d) ->
  exists d', decode_tag C d CRYPTO_INFO (enc_value c g sig CRYPTO_INFO) (enc_size c g CRYPTO_INFO) = Def (d', SV_OK) /\
    h_type (d_handle d') = h_oid (k_handle (g_h g)) /\ d_vhs d' = n /\ d_algo_known d' = true.
Proof. exact tag_crypto. Qed.
Print Assumptions C05_crypto_info.

Theorem C05_arbitrary_data : forall C c g sig d, enc_ok c g sig -> sc_arb c <> [] ->
  exists d', decode_tag C d ARBITRARY (enc_value c g sig ARBITRARY) (enc_size c g ARBITRARY) = Def (d', SV_OK) /\
    d_arb d' = sc_arb c.
Proof. exact tag_arbitrary. Qed.
Print Assumptions C05_arbitrary_data.

(** C41 (and the product information part of C05): all five strings, cut at 254 characters; unset
    strings are shown as empty. *)
Theorem C41_product_info : forall C c g sig d, enc_ok c g sig ->
  exists d', decode_tag C d PRODUCT_INFO (enc_value c g sig PRODUCT_INFO) (enc_size c g PRODUCT_INFO) = Def (d', SV_OK) /\
    d_prod d' = map (fun o => Some (shown o)) (sc_prod c) /\
    d_rprod d' = map (fun o => Some (shown o)) (sc_prod c).
Proof. exact tag_product. Qed.
Print Assumptions C41_product_info.

(** C06. The size pass equals the length of what the write pass produces before emulation
    prevention; with emulation prevention the same bytes are escaped. *)
Theorem C06_sizes_exact : forall c g sig rec lt tags, enc_ok c g sig -> lib_tags tags ->
  nlen (snd (fst (tlv_write_list c g sig false rec lt tags))) = tlv_size_list c g rec tags.
Proof. exact sizes_exact. Qed.
Print Assumptions C06_sizes_exact.

Theorem C06_escaped_same_bytes : forall c g sig rec lt lt' tags, enc_ok c g sig -> lib_tags tags ->
  snd (fst (tlv_write_list c g sig true rec lt tags)) =
  snd (write_bytes true lt (snd (fst (tlv_write_list c g sig false rec lt' tags)))).
Proof. exact escaped_same. Qed.
Print Assumptions C06_escaped_same_bytes.

(** C07. Decoding any non-empty concatenation of fields in wire format, whatever follows in memory,
    is decoding each field by its own decoder on its own bytes, in order, until the first failure. *)
Theorem C07_list_decodes : forall C d fs rest x,
  fs <> [] -> Forall wire_ok fs -> decode_fields C d fs = Def x ->
  tlv_decode C d (wires fs ++ rest) (nlen (wires fs)) = Def x.
Proof. exact decode_wires. Qed.
Print Assumptions C07_list_decodes.

(** A concrete session meeting [enc_ok]: SHA-256, two hashes in the list, a 70 byte signature in a
    72 byte slot, product information and a timestamp. *)
Definition ex_cfg : scfg :=
  mkScfg H264 true 0 1 true true false [45; 45; 75] [Some [65; 66]; None; Some []; Some [67]; None] [] 72 true 32
    (Some [1]).
Definition ex_gop : sgop :=
  mkSgop (mkHst handle_create (zeros 128) true) (Some (repeat 7 64)) (zeros 64) (repeat 9 64)
    (repeat 5 128) 2 41 (Some (-5)%Z) 1 0.
Lemma Forall_repeat {A} (P : A -> Prop) x n : P x -> Forall P (repeat x n).
Proof. intros H. induction n; constructor; assumption. Qed.
Example C05_case : enc_ok ex_cfg ex_gop (repeat 200 70) /\ hash_list_sz ex_cfg ex_gop = 65.
Proof.
  split; [|vm_compute; reflexivity].
  split; try (vm_compute; reflexivity); try (vm_compute; intuition discriminate).
  all: try (apply Forall_repeat; reflexivity).
  all: try (cbn; repeat constructor; vm_compute; reflexivity).
  all: try (split; [vm_compute; discriminate|apply (Forall_repeat byte_ok 7 64); reflexivity]).
Qed.
Example C07_case :
  Forall wire_ok [(1, [3]); (4, repeat 9 300); (129, [])] /\
  wires [(4, repeat 9 300)] = [4; 1; 44] ++ repeat 9 300.
Proof.
  split; [|vm_compute; reflexivity].
  repeat (apply Forall_cons; [split; [cbn; tauto|vm_compute; reflexivity]|]). constructor.
Qed.

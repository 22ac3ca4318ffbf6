(** Links between the codec specification and the lemmas about the model. *)
From Verif Require Import Base BaseProofs Epb EpbProofs Nalu Crypto Types Tlv TlvProofs EncProofs CodecSpec.
Local Open Scope N_scope.

Lemma digits_be16 v : v < 65536 -> digits 2 v = be16 v.
Proof.
  intros H. cbn [digits app]. unfold be16, u8. reflexivity.
Qed.

Lemma digits_be32 v : digits 4 v = be32 v.
Proof.
  cbn [digits app]. unfold be32, u8. rewrite !N.div_div by lia.
  repeat (apply f_equal2; [f_equal; lia|]). reflexivity.
Qed.

Lemma digits_be64 v : digits 8 v = be64 v.
Proof.
  unfold be64. rewrite <- !digits_be32. cbn [digits app]. rewrite !N.div_div by lia. reflexivity.
Qed.

Lemma digits_len n v : length (digits n v) = n.
Proof. revert v; induction n as [|n IH]; intros v; cbn [digits]; [reflexivity|].
  rewrite app_length, IH. cbn. lia. Qed.

Lemma digits_ok n v : bytes_ok (digits n v).
Proof.
  revert v; induction n as [|n IH]; intros v; cbn [digits]; [constructor|].
  apply bytes_ok_app. split; [apply IH|]. constructor; [|constructor]. unfold byte_ok. lia.
Qed.

Lemma value_of_app a b : value_of (a ++ [b]) = value_of a * 256 + b.
Proof. unfold value_of. rewrite fold_left_app. reflexivity. Qed.

Lemma value_of_digits n v : v < 256 ^ N.of_nat n -> value_of (digits n v) = v.
Proof.
  revert v; induction n as [|n IH]; intros v H; cbn [digits].
  - change (256 ^ N.of_nat 0) with 1 in H. cbn. lia.
  - rewrite Nat2N.inj_succ, N.pow_succ_r' in H. rewrite value_of_app, IH; lia.
Qed.

Lemma wire_field_bytes f : wire_ok f -> wire f = field_bytes f.
Proof.
  destruct f as [t v]. intros [K F]. cbn [fst snd] in *. unfold wire, field_bytes. cbn [fst snd].
  f_equal. f_equal. cbn in K.
  repeat (destruct K as [<-|K]; [unfold wire_width in *; cbn in *; unfold be16, u8;
    try reflexivity; rewrite ?N.mod_small by lia; reflexivity|]).
  destruct K.
Qed.

Lemma wire_ok_fits f : wire_ok f <-> field_fits f.
Proof.
  destruct f as [t v]. unfold wire_ok, field_fits, known_tag. cbn [fst snd].
  split; intros [K F]; (split; [exact K|]); cbn in K;
  repeat (destruct K as [<-|K]; [unfold wire_width in *; cbn in *; lia|]); destruct K.
Qed.

Lemma wires_fields fs : Forall wire_ok fs -> wires fs = fields_bytes fs.
Proof.
  induction fs as [|f fs IH]; intros H; [reflexivity|]. apply Forall_cons_iff in H as [Hf H].
  unfold wires, fields_bytes in *. cbn [flat_map map concat].
  rewrite IH by exact H. rewrite wire_field_bytes by exact Hf. reflexivity.
Qed.

Lemma epb_lossless lt l : bytes_ok l -> forall rest,
  read_bytes true (length l) lt (snd (write_bytes true lt l) ++ rest) = Def (l, fst (write_bytes true lt l), rest).
Proof. intros H rest. apply read_write_bytes. exact H. Qed.

Lemma be_written_read epb lt n v rest : v < 256 ^ N.of_nat n ->
  exists l lt', read_bytes epb n lt (snd (write_bytes epb lt (digits n v)) ++ rest) = Def (l, lt', rest)
  /\ value_of l = v.
Proof.
  intros H. exists (digits n v), (fst (write_bytes epb lt (digits n v))). split.
  - pose proof (read_write_bytes epb lt (digits n v) rest (digits_ok n v)) as R.
    rewrite digits_len in R. exact R.
  - apply value_of_digits, H.
Qed.

Lemma readers_value rest :
  (forall v, v < 2 ^ 16 -> read_16bits (digits 2 v ++ rest) = Def (v, rest)) /\
  (forall v, v < 2 ^ 32 -> read_32bits (digits 4 v ++ rest) = Def (v, rest)) /\
  (forall v, v < 2 ^ 64 -> read_64bits (digits 8 v ++ rest) = Def (v, rest)).
Proof.
  repeat split; intros v H.
  - rewrite digits_be16 by exact H. apply read_be16, H.
  - rewrite digits_be32. apply read_be32, H.
  - rewrite digits_be64. apply read_be64, H.
Qed.

Lemma counter_encoding c g :
  exists rest, general_value c g =
    [3] ++ digits 4 ((g_counter g + 1) mod 2 ^ 32) ++ digits 2 (g_num g) ++ rest.
Proof.
  unfold general_value. eexists. rewrite digits_be32.
  change (digits 2 (g_num g)) with (be16 (g_num g)). unfold u32. change (2 ^ 32) with 4294967296.
  reflexivity.
Qed.

(** ** Per-tag statements *)

Lemma firstn_app_len (a b : list N) n : length a = n -> firstn n (a ++ b) = a.
Proof. intros <-. apply firstn_app_exact. Qed.

Lemma tag_general C c g sig d :
  enc_ok c g sig -> length (d_linked d) = 64%nat -> length (d_gop d) = 64%nat ->
  exists d', decode_tag C d GENERAL (enc_value c g sig GENERAL) (enc_size c g GENERAL) = Def (d', SV_OK) /\
    d_counter d' = (g_counter g + 1) mod 2 ^ 32 /\
    d_num_sent d' = g_num g /\
    d_version d' = lib_version /\
    match g_ts g with
    | Some t => d_has_ts d' = true /\ d_ts d' = t
    | None => d_has_ts d' = false
    end /\
    firstn (sc_hs c) (d_linked d') = firstn (sc_hs c) (g_linked g) /\
    firstn (sc_hs c) (d_gop d') = firstn (sc_hs c) (g_computed g).
Proof.
  intros H L1 L2. change (decode_tag C d GENERAL) with (decode_general d).
  cbn [enc_value enc_size GENERAL]. rewrite rt_general with (sig := sig) by assumption.
  eexists. split; [reflexivity|]. cbn [d_counter set_d_gop set_d_linked].
  destruct H. repeat split; try (destruct (g_ts g); reflexivity).
  - destruct (g_ts g); [split|]; reflexivity.
  - destruct (g_ts g); cbn; apply firstn_app_len; rewrite firstn_length; lia.
  - destruct (g_ts g); cbn; apply firstn_app_len; rewrite firstn_length; lia.
Qed.

Lemma tag_public_key C c g sig d :
  enc_ok c g sig -> sc_pub c <> [] -> sc_add_pub c = true -> c_pub_ok C (sc_pub c) = true ->
  exists d', decode_tag C d PUBLIC_KEY (enc_value c g sig PUBLIC_KEY) (enc_size c g PUBLIC_KEY) = Def (d', SV_OK) /\
    d_pub d' = sc_pub c /\ d_has_pub d' = true /\ d_vkey d' = Some (sc_pub c).
Proof.
  intros H NE A OK. change (decode_tag C d PUBLIC_KEY) with (decode_public_key C d).
  cbn [enc_value enc_size PUBLIC_KEY]. rewrite rt_public_key with (g := g) (sig := sig) by assumption.
  eexists. split; [reflexivity|]. repeat split.
Qed.

Lemma tag_product C c g sig d : enc_ok c g sig ->
  exists d', decode_tag C d PRODUCT_INFO (enc_value c g sig PRODUCT_INFO) (enc_size c g PRODUCT_INFO) = Def (d', SV_OK) /\
    d_prod d' = map (fun o => Some (shown o)) (sc_prod c) /\
    d_rprod d' = map (fun o => Some (shown o)) (sc_prod c).
Proof.
  intros H. change (decode_tag C d PRODUCT_INFO) with (decode_product d).
  cbn [enc_value enc_size PRODUCT_INFO]. rewrite rt_product with (g := g) (sig := sig) by assumption.
  eexists. split; [reflexivity|]. split; reflexivity.
Qed.

Lemma tag_hash_list C c g sig d l : enc_ok c g sig -> sc_frame c = true -> g_list g = Some l -> l <> [] ->
  exists d', decode_tag C d HASH_LIST (enc_value c g sig HASH_LIST) (enc_size c g HASH_LIST) = Def (d', SV_OK) /\
    d_list d' = l.
Proof.
  intros H F L NE. change (decode_tag C d HASH_LIST) with (decode_hash_list d).
  cbn [enc_value enc_size HASH_LIST]. rewrite rt_hash_list with (sig := sig); [|assumption|].
  - eexists. split; [reflexivity|]. rewrite L. reflexivity.
  - unfold hash_list_sz. rewrite L, F. destruct l; [congruence|]. unfold nlen. cbn [length]. lia.
Qed.

Lemma tag_signature C c g sig d : enc_ok c g sig ->
  (match d_sig d with Some s => length s = sc_max_sig c | None => True end) ->
  exists d', decode_tag C d SIGNATURE (enc_value c g sig SIGNATURE) (enc_size c g SIGNATURE) = Def (d', SV_OK) /\
    d_sig d' = Some (padded (sc_max_sig c) sig) /\ d_sig_size d' = nlen sig.
Proof.
  intros H S. change (decode_tag C d SIGNATURE) with (decode_signature d).
  cbn [enc_value enc_size SIGNATURE]. rewrite rt_signature by assumption.
  eexists. split; [reflexivity|]. split; reflexivity.
Qed.

Lemma tag_crypto C c g sig d n : enc_ok c g sig -> h_oid (k_handle (g_h g)) <> [] ->
  c_oid C (h_oid (k_handle (g_h g))) = OidDigest n -> h_type (d_handle d) = h_oid (d_handle d) ->
  exists d', decode_tag C d CRYPTO_INFO (enc_value c g sig CRYPTO_INFO) (enc_size c g CRYPTO_INFO) = Def (d', SV_OK) /\
    h_type (d_handle d') = h_oid (k_handle (g_h g)) /\ d_vhs d' = n /\ d_algo_known d' = true.
Proof.
  intros H NE D T. destruct (rt_crypto C c g sig d n H NE D T) as (h' & _ & T1 & _ & E).
  change (decode_tag C d CRYPTO_INFO) with (decode_crypto C d).
  cbn [enc_value enc_size CRYPTO_INFO]. rewrite E. eexists. split; [reflexivity|]. repeat split. exact T1.
Qed.

Lemma tag_arbitrary C c g sig d : enc_ok c g sig -> sc_arb c <> [] ->
  exists d', decode_tag C d ARBITRARY (enc_value c g sig ARBITRARY) (enc_size c g ARBITRARY) = Def (d', SV_OK) /\
    d_arb d' = sc_arb c.
Proof.
  intros H NE. change (decode_tag C d ARBITRARY) with (decode_arbitrary d).
  cbn [enc_value enc_size ARBITRARY]. rewrite rt_arbitrary with (g := g) (sig := sig) by assumption.
  eexists. split; [reflexivity|]. reflexivity.
Qed.

(** ** Sizes *)

Lemma sizes_exact c g sig rec lt tags : enc_ok c g sig -> lib_tags tags ->
  nlen (snd (fst (tlv_write_list c g sig false rec lt tags))) = tlv_size_list c g rec tags.
Proof.
  intros H T. rewrite tlv_write_list_eq by assumption. cbn [fst snd].
  rewrite write_bytes_plain. cbn [snd]. symmetry. apply tlv_size_list_eq; assumption.
Qed.

(** With emulation prevention the bytes are the escaped form of the very same bytes. *)
Lemma escaped_same c g sig rec lt lt' tags : enc_ok c g sig -> lib_tags tags ->
  snd (fst (tlv_write_list c g sig true rec lt tags)) =
  snd (write_bytes true lt (snd (fst (tlv_write_list c g sig false rec lt' tags)))).
Proof.
  intros H T. rewrite !tlv_write_list_eq by assumption. cbn [fst snd].
  rewrite write_bytes_plain. reflexivity.
Qed.

Lemma decode_wires C d fs r x :
  fs <> [] -> Forall wire_ok fs -> decode_fields C d fs = Def x ->
  tlv_decode C d (wires fs ++ r) (nlen (wires fs)) = Def x.
Proof.
  intros NE F D. rewrite wires_fields by exact F. apply tlv_decode_fields; [exact NE| |exact D].
  eapply Forall_impl; [|exact F]. intros f. apply wire_ok_fits.
Qed.

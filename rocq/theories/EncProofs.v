(** Lemmas about the encoders: sizes, write pass, round trips. *)
From Verif Require Import Base BaseProofs Epb EpbProofs Nalu Crypto Types Tlv TlvProofs.
Local Open Scope N_scope.

(** What a session must satisfy for its metadata to be encodable: array sizes and the ranges of C
    types, plus the limits of the TLV length fields. *)
Record enc_ok (c : scfg) (g : sgop) (sig : list N) : Prop := mkEncOk {
  eo_hs : (sc_hs c <= 64)%nat;
  eo_linked : length (g_linked g) = 128%nat;
  eo_linked_b : bytes_ok (g_linked g);
  eo_computed : length (g_computed g) = 64%nat;
  eo_computed_b : bytes_ok (g_computed g);
  eo_num : g_num g < 65536;
  eo_ts : match g_ts g with
          | Some t => (-9223372036854775808 <= t < 9223372036854775808)%Z | None => True end;
  eo_prod : length (sc_prod c) = 5%nat;
  eo_prod_b : Forall (fun o => match o with
                               | Some s => Forall (fun b => 0 < b < 256) s | None => True end) (sc_prod c);
  eo_pub : nlen (sc_pub c) < 65535;
  eo_pub_b : bytes_ok (sc_pub c);
  eo_arb : nlen (sc_arb c) < 65535;
  eo_arb_b : bytes_ok (sc_arb c);
  eo_list : match g_list g with Some l => nlen l <= 19200 /\ bytes_ok l | None => True end;
  eo_sig : (length sig <= sc_max_sig c)%nat;
  eo_sig_b : bytes_ok sig;
  eo_max : N.of_nat (sc_max_sig c) + 5 < 65536;
  eo_oid : nlen (h_oid (k_handle (g_h g))) < 254;
  eo_oid_b : bytes_ok (h_oid (k_handle (g_h g)));
  eo_enc : g_enc g < 256;
  eo_type : g_hash_type g < 2
}.

Lemma nlen_app {A} (a b : list A) : nlen (a ++ b) = nlen a + nlen b.
Proof. unfold nlen. rewrite app_length. lia. Qed.

Lemma pstr_size_range o : 1 <= pstr_size o <= 255.
Proof.
  unfold pstr_size, u8, pstr_full. destruct (255 <? _) eqn:E; [lia|].
  destruct o; lia.
Qed.

Lemma pstr_size_eq o : pstr_size o = N.min (pstr_full o) 255.
Proof.
  unfold pstr_size, u8, pstr_full. destruct (255 <? _) eqn:E; destruct o; lia.
Qed.

(** The characters of a product information string that are sent. *)
Definition sent (o : option (list N)) : list N :=
  match o with Some s => firstn 254 s | None => [] end.

Lemma pstr_value_eq o : pstr_value o = pstr_size o :: sent o ++ [0].
Proof.
  unfold pstr_value. cbn [app]. f_equal. destruct o as [s|].
  - cbn [sent]. rewrite pstr_size_eq. unfold pstr_full, nlen. rewrite orb_false_r.
    destruct (N.ltb_spec 255 (N.of_nat (length s) + 1)) as [H|H].
    + replace (N.to_nat (N.min (N.of_nat (length s) + 1) 255) - 1)%nat with 254%nat by lia. reflexivity.
    + replace (N.to_nat (N.min (N.of_nat (length s) + 1) 255) - 1)%nat with (length s) by lia.
      rewrite firstn_all. rewrite (firstn_all2 (n := 254)) by lia.
      rewrite app_nth2, Nat.sub_diag by lia. reflexivity.
  - rewrite firstn_nil. cbn [sent]. destruct (255 <? pstr_full None); reflexivity.
Qed.

Lemma sent_len o : nlen (sent o) + 1 = pstr_size o.
Proof.
  rewrite pstr_size_eq. destruct o as [s|]; cbn [sent pstr_full]; unfold nlen; [|cbn; lia].
  rewrite firstn_length. lia.
Qed.

Lemma pstr_value_len o : nlen (pstr_value o) = 1 + pstr_size o.
Proof.
  rewrite pstr_value_eq, <- sent_len. unfold nlen. cbn [length]. rewrite app_length. cbn [length]. lia.
Qed.

Lemma product_len l a :
  fold_left (fun a o => a + 1 + pstr_size o) l a = a + nlen (flat_map pstr_value l).
Proof.
  revert a; induction l as [|o l IH]; intros a; cbn [fold_left flat_map]; [unfold nlen; cbn; lia|].
  rewrite IH, nlen_app, pstr_value_len. lia.
Qed.

Section Enc.
Variables (c : scfg) (g : sgop) (sig : list N).
Hypothesis H : enc_ok c g sig.

Lemma enc_len t : nlen (enc_value c g sig t) = enc_size c g t.
Proof.
  destruct H. unfold enc_value, enc_size.
  repeat match goal with |- context [match ?x with _ => _ end] => is_var x; destruct x end; try reflexivity.
  - unfold crypto_value, crypto_size. destruct (h_oid _); [reflexivity|]. unfold nlen. cbn [length app]. lia.
  - unfold signature_value, signature_size, nlen, u16. rewrite !app_length, repeat_length, firstn_length.
    cbn [length be16].
    rewrite N.mod_small by lia. lia.
  - unfold product_value, product_size. rewrite product_len, nlen_app. unfold nlen. cbn; lia.
  - unfold arbitrary_value, arbitrary_size. destruct (sc_arb c); [reflexivity|].
    unfold nlen. cbn [length app]. lia.
  - unfold hash_list_value, hash_list_sz. destruct (g_list g) as [[|b l]|]; try reflexivity.
    destruct (sc_frame c); [|reflexivity]. unfold nlen. cbn [length app]. lia.
  - unfold public_key_value, public_key_size. destruct (sc_pub c); [reflexivity|].
    destruct (sc_add_pub c); [|reflexivity]. unfold nlen. cbn [length app]. lia.
  - unfold general_value, general_size, nlen. rewrite !app_length, !firstn_length, map_length.
    cbn [length be32 be16 lib_version].
    destruct (g_ts g); [unfold be64; rewrite app_length|]; cbn [length be32]; lia.
Qed.

Lemma enc_value_ok t : bytes_ok (enc_value c g sig t).
Proof.
  destruct H. unfold enc_value.
  repeat match goal with |- context [match ?x with _ => _ end] => is_var x; destruct x end;
    try exact (Forall_nil _).
  - unfold crypto_value. destruct (h_oid _) eqn:E; [constructor|].
    apply bytes_ok_app; split; [|assumption].
    repeat constructor; apply u8_ok.
  - unfold signature_value. apply bytes_ok_app; split.
    { repeat constructor; [|apply u8_ok]. exact eo_enc0. }
    apply bytes_ok_app; split; [apply be16_ok|].
    apply bytes_ok_app; split; [apply bytes_ok_firstn; assumption|].
    apply Forall_forall. intros x Hx. apply repeat_spec in Hx. subst. reflexivity.
  - unfold product_value. apply bytes_ok_app; split; [repeat constructor|].
    clear eo_prod0. induction (sc_prod c) as [|o l IH]; [constructor|]. cbn [flat_map].
    apply Forall_cons_iff in eo_prod_b0 as [Ho Hl]. apply bytes_ok_app; split; [|apply IH; exact Hl].
    rewrite pstr_value_eq. constructor; [pose proof (pstr_size_range o); unfold byte_ok; lia|].
    apply bytes_ok_app; split; [|repeat constructor].
    destruct o; cbn [sent]; [|constructor]. apply bytes_ok_firstn.
    eapply Forall_impl; [|exact Ho]. unfold byte_ok. cbn. intros; lia.
  - unfold arbitrary_value. destruct (sc_arb c); [constructor|]. constructor; [reflexivity|assumption].
  - unfold hash_list_value. destruct (g_list g) as [[|b l]|]; try exact (Forall_nil _).
    destruct (sc_frame c); [|constructor]. constructor; [reflexivity|]. apply eo_list0.
  - unfold public_key_value. destruct (sc_pub c); [constructor|].
    destruct (sc_add_pub c); [|constructor]. constructor; [reflexivity|assumption].
  - unfold general_value. repeat (apply bytes_ok_app; split).
    + repeat constructor.
    + apply be32_ok.
    + apply be16_ok.
    + repeat constructor.
    + destruct (g_ts g); repeat constructor.
    + destruct (g_ts g); [apply be64_ok|constructor].
    + apply bytes_ok_firstn; assumption.
    + apply bytes_ok_firstn; assumption.
Qed.

Lemma enc_fits t : In t [1; 2; 3; 4; 5; 6; 7] -> field_fits (t, enc_value c g sig t).
Proof.
  intros K. split; cbn [fst snd].
  - unfold known_tag. cbn in *. intuition.
  - rewrite enc_len. destruct H. cbn in K.
    destruct K as [<-|[<-|[<-|[<-|[<-|[<-|[<-|[]]]]]]]]; cbn [len_bytes tuple fst snd Nat.eqb enc_size].
    + unfold general_size. destruct (g_ts g); lia.
    + unfold public_key_size, nlen in *. destruct (sc_pub c); [reflexivity|]. destruct (sc_add_pub c); lia.
    + unfold product_size. destruct (sc_prod c) as [|o1 [|o2 [|o3 [|o4 [|o5 [|]]]]]]; try discriminate.
      cbn [fold_left]. pose proof (pstr_size_range o1). pose proof (pstr_size_range o2).
      pose proof (pstr_size_range o3). pose proof (pstr_size_range o4). pose proof (pstr_size_range o5). lia.
    + unfold hash_list_sz. destruct (g_list g) as [[|b l]|]; try reflexivity. destruct (sc_frame c); lia.
    + unfold signature_size. lia.
    + unfold arbitrary_size. destruct (sc_arb c); [reflexivity|]. lia.
    + unfold crypto_size. destruct (h_oid _); [reflexivity|]. lia.
Qed.

Lemma header_is_field t : In t [1; 2; 3; 4; 5; 6; 7] ->
  tlv_header c g t ++ enc_value c g sig t = field_bytes (t, enc_value c g sig t).
Proof.
  intros K. pose proof (proj2 (enc_fits t K)) as F. cbn [fst snd] in F. rewrite enc_len in F.
  unfold tlv_header, field_bytes. rewrite enc_len.
  assert (U : u8 t = t). { cbn in K. repeat (destruct K as [<-|K]; [reflexivity|]). destruct K. }
  rewrite U. cbn [app]. f_equal.
  destruct (len_bytes t =? 2)%nat; cbn [app].
  - reflexivity.
  - unfold u8. rewrite N.mod_small by exact F. reflexivity.
Qed.

End Enc.

(** Effects of earlier tags do not influence the encoding of later ones, except that GENERAL sees the
    counter. *)
Lemma enc_size_effect c g t t' : enc_size c (enc_effect g t) t' = enc_size c g t'.
Proof.
  unfold enc_effect.
  repeat match goal with |- context [match ?x with _ => _ end] => is_var x; destruct x end; reflexivity.
Qed.

Lemma enc_ok_effect c g sig t : enc_ok c g sig -> enc_ok c (enc_effect g t) sig.
Proof.
  intros H. unfold enc_effect.
  repeat match goal with |- context [match ?x with _ => _ end] => is_var x; destruct x end;
    try exact H; destruct H; constructor; cbn; try assumption; try reflexivity.
Qed.

(** The fields written for a list of tags. *)
Fixpoint fields_of (c : scfg) (g : sgop) (sig : list N) (rec : bool) (tags : list N) : list field :=
  match tags with
  | [] => []
  | t :: r =>
      if tag_due rec t && negb (enc_size c g t =? 0)
      then (t, enc_value c g sig t) :: fields_of c (enc_effect g t) sig rec r
      else fields_of c g sig rec r
  end.
Fixpoint effects_of (c : scfg) (g : sgop) (rec : bool) (tags : list N) : sgop :=
  match tags with
  | [] => g
  | t :: r =>
      if tag_due rec t && negb (enc_size c g t =? 0)
      then effects_of c (enc_effect g t) rec r else effects_of c g rec r
  end.

Definition fields_bytes (fs : list field) : list N := concat (map field_bytes fs).

Definition lib_tags (tags : list N) : Prop := Forall (fun t => In t [1; 2; 3; 4; 5; 6; 7]) tags.

Lemma tlv_write_list_eq c sig epb rec tags : forall g lt, enc_ok c g sig -> lib_tags tags ->
  tlv_write_list c g sig epb rec lt tags =
  (fst (write_bytes epb lt (fields_bytes (fields_of c g sig rec tags))),
   snd (write_bytes epb lt (fields_bytes (fields_of c g sig rec tags))),
   effects_of c g rec tags).
Proof.
  induction tags as [|t r IH]; intros g lt He Ht; cbn [tlv_write_list fields_of effects_of]; [reflexivity|].
  apply Forall_cons_iff in Ht as [Kt Ht].
  destruct (tag_due rec t); cbn [andb]; [|apply IH; assumption].
  unfold tlv_write_one. destruct (enc_size c g t =? 0) eqn:E0; cbn [negb].
  - rewrite IH by assumption. reflexivity.
  - pose proof (header_is_field c g sig He t Kt) as HF.
    destruct (write_bytes epb lt (tlv_header c g t)) as [lt1 h] eqn:E1.
    destruct (write_bytes epb lt1 (enc_value c g sig t)) as [lt2 v] eqn:E2.
    assert (EL : nlen v <? enc_size c g t = false).
    { apply N.ltb_ge. rewrite <- (enc_len c g sig He t).
      pose proof (write_bytes_longer epb lt1 (enc_value c g sig t)) as W. rewrite E2 in W. exact W. }
    rewrite EL. rewrite IH by (auto using enc_ok_effect).
    unfold fields_bytes. cbn [map concat]. rewrite <- HF.
    rewrite (write_bytes_app epb lt (tlv_header c g t ++ enc_value c g sig t)).
    rewrite (write_bytes_app epb lt (tlv_header c g t)), E1. cbn [fst snd]. rewrite E2. cbn [fst snd].
    reflexivity.
Qed.

Lemma effects_size c rec tags : forall g t, enc_size c (effects_of c g rec tags) t = enc_size c g t.
Proof.
  induction tags as [|x r IH]; intros g t; cbn [effects_of]; [reflexivity|].
  destruct (tag_due rec x && negb (enc_size c g x =? 0)); rewrite IH; [apply enc_size_effect|reflexivity].
Qed.

Lemma tlv_size_list_effect c rec tags : forall g t,
  tlv_size_list c (enc_effect g t) rec tags = tlv_size_list c g rec tags.
Proof.
  induction tags as [|x r IH]; intros g t; cbn [tlv_size_list]; [reflexivity|].
  rewrite IH. unfold tlv_size_one. rewrite enc_size_effect. reflexivity.
Qed.

Lemma tlv_size_list_eq c sig rec tags : forall g, enc_ok c g sig -> lib_tags tags ->
  tlv_size_list c g rec tags = nlen (fields_bytes (fields_of c g sig rec tags)).
Proof.
  induction tags as [|t r IH]; intros g He Ht; cbn [tlv_size_list fields_of]; [reflexivity|].
  apply Forall_cons_iff in Ht as [Kt Ht]. unfold tlv_size_one.
  destruct (tag_due rec t); cbn [andb].
  - destruct (enc_size c g t =? 0) eqn:E0; cbn [negb].
    + rewrite (IH g He Ht). reflexivity.
    + unfold fields_bytes. cbn [map concat]. rewrite nlen_app.
      rewrite field_bytes_len by (apply enc_fits; assumption). cbn [fst snd].
      rewrite (enc_len c g sig He). rewrite <- (tlv_size_list_effect c rec r g t).
      rewrite (IH (enc_effect g t)) by (auto using enc_ok_effect). unfold fields_bytes. lia.
  - rewrite (IH g He Ht). lia.
Qed.

Lemma fields_of_fits c sig rec tags : forall g, enc_ok c g sig -> lib_tags tags ->
  Forall field_fits (fields_of c g sig rec tags).
Proof.
  induction tags as [|t r IH]; intros g He Ht; cbn [fields_of]; [constructor|].
  apply Forall_cons_iff in Ht as [Kt Ht].
  destruct (tag_due rec t && negb (enc_size c g t =? 0)); [|auto].
  constructor; [apply enc_fits; assumption|]. auto using enc_ok_effect.
Qed.

Lemma fields_bytes_ok fs : Forall field_fits fs -> Forall (fun f => bytes_ok (snd f)) fs ->
  bytes_ok (fields_bytes fs).
Proof.
  induction fs as [|[t v] fs IH]; intros Hf Hb; [constructor|].
  apply Forall_cons_iff in Hf as [F Hf]. apply Forall_cons_iff in Hb as [B Hb].
  unfold fields_bytes. cbn [map concat]. apply bytes_ok_app; split; [|apply IH; assumption].
  destruct F as [K F]. cbn [fst snd] in *. unfold field_bytes. constructor.
  { unfold known_tag in K; cbn in K. repeat (destruct K as [<-|K]; [reflexivity|]). destruct K. }
  apply bytes_ok_app; split; [|exact B].
  destruct (len_bytes t =? 2)%nat; [apply be16_ok|]. repeat constructor. exact F.
Qed.

Lemma fields_of_bytes_ok c sig rec tags : forall g, enc_ok c g sig -> lib_tags tags ->
  bytes_ok (fields_bytes (fields_of c g sig rec tags)).
Proof.
  intros g He Ht. apply fields_bytes_ok; [apply fields_of_fits; assumption|].
  revert g He. induction tags as [|t r IH]; intros g He; cbn [fields_of]; [constructor|].
  apply Forall_cons_iff in Ht as [Kt Ht].
  destruct (tag_due rec t && negb (enc_size c g t =? 0)); [|auto].
  constructor; [apply enc_value_ok; assumption|]. auto using enc_ok_effect.
Qed.

(** ** Round trips *)

Lemma sub64_small a b : b <= a -> a < 18446744073709551616 -> sub64 a b = a - b.
Proof. intros. unfold sub64, u64. rewrite (N.mod_small b) by lia. lia. Qed.

Lemma firstn_put (dst src d : list N) : put_mem dst src = Def d -> firstn (length src) d = src.
Proof. apply put_mem_prefix. Qed.

Lemma take_mem_exact v : take_mem (N.to_nat (nlen v)) v = Def (v, []).
Proof.
  unfold nlen. rewrite Nat2N.id. pose proof (take_mem_app v []) as T. rewrite app_nil_r in T. exact T.
Qed.

Lemma take_mem_n n v r : n = length v -> take_mem n (v ++ r) = Def (v, r).
Proof. intros ->. apply take_mem_app. Qed.

Lemma rt_general c g sig d : enc_ok c g sig -> length (d_linked d) = 64%nat -> length (d_gop d) = 64%nat ->
  decode_general d (general_value c g) (general_size c g) =
  Def ((fun d => set_d_gop (firstn (sc_hs c) (g_computed g) ++ skipn (sc_hs c) (d_gop d))
     (set_d_linked (firstn (sc_hs c) (g_linked g) ++ skipn (sc_hs c) (d_linked d))
        (match g_ts g with
         | Some t => set_d_l_ts t (set_d_l_has_ts true (set_d_ts t (set_d_has_ts true d)))
         | None => set_d_l_has_ts false (set_d_has_ts false d)
         end)))
       (set_d_sver lib_version (set_d_version lib_version (set_d_num_sent (g_num g)
          (set_d_counter (u32 (g_counter g + 1)) d)))), SV_OK).
Proof.
  intros H Ll Lg. destruct H. unfold decode_general, general_value.
  cbn [app read_8bits obind].
  assert ((3 <? 1) || (3 <? 3) = false) as -> by reflexivity.
  rewrite read_be32 by (unfold u32; lia). cbn [obind].
  rewrite read_be16 by assumption. cbn [obind].
  rewrite take_mem_n by reflexivity. cbn [obind].
  assert (3 <? 2 = false) as -> by reflexivity. assert (3 <? 3 = false) as -> by reflexivity.
  cbn [app read_8bits obind].
  assert (LL : length (firstn (sc_hs c) (g_linked g)) = sc_hs c) by (rewrite firstn_length; lia).
  assert (LC : length (firstn (sc_hs c) (g_computed g)) = sc_hs c) by (rewrite firstn_length; lia).
  destruct (g_ts g) as [t|] eqn:ET; cbn [flags_byte].
  - assert (1 mod 2 =? 1 = true) as -> by reflexivity.
    rewrite read_be64 by apply z_to_u64_lt. cbn [obind]. rewrite u64_z_round by assumption.
    assert (EH : sub64 (general_size c g) 19 / 2 = N.of_nat (sc_hs c)).
    { unfold general_size. rewrite ET. rewrite sub64_small by lia.
      replace (1 + 4 + 2 + 3 + 1 + 8 + N.of_nat (sc_hs c) * 2 - 19) with (N.of_nat (sc_hs c) * 2) by lia.
      apply N.div_mul. lia. }
    rewrite EH. destruct (N.ltb_spec 64 (N.of_nat (sc_hs c))); [lia|].
    rewrite Nat2N.id, take_mem_n by (symmetry; exact LL). cbn [obind].
    rewrite <- (app_nil_r (firstn (sc_hs c) (g_computed g))) at 1.
    rewrite take_mem_n by (symmetry; exact LC). cbn [obind].
    rewrite !put_mem_def by (cbn; lia). cbn [obind].
    assert (19 + 2 * N.of_nat (sc_hs c) =? general_size c g = true) as ->.
    { unfold general_size. rewrite ET. lia. }
    rewrite LL, LC. reflexivity.
  - assert (0 mod 2 =? 1 = false) as -> by reflexivity. cbn [obind app].
    assert (EH : sub64 (general_size c g) 11 / 2 = N.of_nat (sc_hs c)).
    { unfold general_size. rewrite ET. rewrite sub64_small by lia.
      replace (1 + 4 + 2 + 3 + 1 + 0 + N.of_nat (sc_hs c) * 2 - 11) with (N.of_nat (sc_hs c) * 2) by lia.
      apply N.div_mul. lia. }
    rewrite EH. destruct (N.ltb_spec 64 (N.of_nat (sc_hs c))); [lia|].
    rewrite Nat2N.id, take_mem_n by (symmetry; exact LL). cbn [obind].
    rewrite <- (app_nil_r (firstn (sc_hs c) (g_computed g))) at 1.
    rewrite take_mem_n by (symmetry; exact LC). cbn [obind].
    rewrite !put_mem_def by (cbn; lia). cbn [obind].
    assert (11 + 2 * N.of_nat (sc_hs c) =? general_size c g = true) as ->.
    { unfold general_size. rewrite ET. lia. }
    rewrite LL, LC. reflexivity.
Qed.

Lemma cstr_sent s r : Forall (fun b => 0 < b < 256) s -> cstr (s ++ 0 :: r) = Def s.
Proof.
  induction s as [|b s IH]; intros H; cbn [app cstr]; [reflexivity|].
  apply Forall_cons_iff in H as [Hb Hs]. destruct b; [lia|]. rewrite IH by assumption. reflexivity.
Qed.

Lemma rt_strings l : forall r,
  Forall (fun o => match o with Some s => Forall (fun b => 0 < b < 256) s | None => True end) l ->
  decode_strings (length l) (flat_map pstr_value l ++ r) =
  Def (map (fun o => Some (sent o)) l, nlen (flat_map pstr_value l)).
Proof.
  induction l as [|o l IH]; intros r H; cbn [length decode_strings flat_map map]; [reflexivity|].
  apply Forall_cons_iff in H as [Ho Hl].
  assert (Hs : Forall (fun b => 0 < b < 256) (sent o)).
  { destruct o; cbn [sent]; [|constructor]. apply Forall_forall. intros x Hx.
    rewrite Forall_forall in Ho. apply Ho. rewrite <- (firstn_skipn 254 l0). apply in_or_app. auto. }
  rewrite pstr_value_eq. cbn [app read_8bits obind].
  rewrite <- !app_assoc. cbn [app]. rewrite cstr_sent by exact Hs. cbn [obind].
  assert (ES : skipn (N.to_nat (pstr_size o)) (sent o ++ 0 :: flat_map pstr_value l ++ r)
               = flat_map pstr_value l ++ r).
  { rewrite <- sent_len. unfold nlen. rewrite N2Nat.inj_add, Nat2N.id.
    change (0 :: flat_map pstr_value l ++ r) with ([0] ++ (flat_map pstr_value l ++ r)).
    rewrite app_assoc. replace (length (sent o) + N.to_nat 1)%nat with (length (sent o ++ [0])).
    - apply skipn_app_exact.
    - rewrite app_length. reflexivity. }
  rewrite ES, IH by exact Hl. cbn [obind].
  do 2 f_equal.
  rewrite <- sent_len. unfold nlen. cbn [length]. rewrite !app_length. cbn [length]. lia.
Qed.

Lemma rt_product c g sig d : enc_ok c g sig ->
  decode_product d (product_value c) (product_size c) =
  Def (set_d_rprod (map (fun o => Some (sent o)) (sc_prod c))
        (set_d_prod (map (fun o => Some (sent o)) (sc_prod c)) d), SV_OK).
Proof.
  intros H. destruct H. unfold decode_product, product_value. cbn [app read_8bits obind].
  assert (1 =? 0 = false) as -> by reflexivity.
  pose proof (rt_strings (sc_prod c) [] eo_prod_b0) as R. rewrite app_nil_r, eo_prod0 in R.
  rewrite R. cbn [obind]. unfold product_size. rewrite product_len, N.eqb_refl. reflexivity.
Qed.

Lemma rt_arbitrary c g sig d : enc_ok c g sig -> sc_arb c <> [] ->
  decode_arbitrary d (arbitrary_value c) (arbitrary_size c) = Def (set_d_arb (sc_arb c) d, SV_OK).
Proof.
  intros H NE. destruct H. unfold decode_arbitrary, arbitrary_value, arbitrary_size.
  destruct (sc_arb c) as [|a l] eqn:E; [congruence|]. cbn [app read_8bits obind].
  assert (1 =? 0 = false) as -> by reflexivity.
  rewrite sub64_small by lia. unfold u16. replace (1 + nlen (a :: l) - 1) with (nlen (a :: l)) by lia.
  rewrite N.mod_small by lia.
  destruct (N.eqb_spec (nlen (a :: l)) 0) as [Z|Z]; [unfold nlen in Z; cbn in Z; lia|].
  rewrite take_mem_exact. cbn [obind]. rewrite N.eqb_refl. reflexivity.
Qed.

Lemma rt_public_key C c g sig d : enc_ok c g sig -> sc_pub c <> [] -> sc_add_pub c = true ->
  c_pub_ok C (sc_pub c) = true ->
  decode_public_key C d (public_key_value c) (public_key_size c) =
  Def (set_d_vkey (Some (sc_pub c)) (set_d_has_pub true (set_d_pub (sc_pub c)
        (if d_has_pub d && negb (bytes_eqb (sc_pub c)
              (if nlen (d_pub d) =? nlen (sc_pub c) then d_pub d else zeros (length (sc_pub c))))
         then set_d_l_changed true d else d))), SV_OK).
Proof.
  intros H NE A OK. destruct H. unfold decode_public_key, public_key_value, public_key_size.
  rewrite A. destruct (sc_pub c) as [|a l] eqn:E; [congruence|]. cbn [app read_8bits obind].
  assert (2 <? 2 = false) as -> by reflexivity. assert (2 =? 0 = false) as -> by reflexivity.
  rewrite sub64_small by lia. unfold u16. replace (1 + nlen (a :: l) - 1) with (nlen (a :: l)) by lia.
  rewrite N.mod_small by lia.
  destruct (N.eqb_spec (nlen (a :: l)) 0) as [Z|Z]; [unfold nlen in Z; cbn in Z; lia|].
  rewrite take_mem_exact. cbn [obind]. rewrite OK. cbn [negb].
  rewrite N.add_0_r, N.eqb_refl.
  replace (N.to_nat (nlen (a :: l))) with (length (a :: l)) by (unfold nlen; lia). reflexivity.
Qed.

Lemma rt_hash_list c g sig d : enc_ok c g sig -> hash_list_sz c g <> 0 ->
  decode_hash_list d (hash_list_value c g) (hash_list_sz c g) =
  Def (set_d_list (match g_list g with Some l => l | None => [] end) d, SV_OK).
Proof.
  intros H NE. destruct H. unfold decode_hash_list, hash_list_value, hash_list_sz in *.
  destruct (g_list g) as [[|b l]|]; try congruence. destruct (sc_frame c); [|congruence].
  cbn [app read_8bits obind]. assert (1 =? 0 = false) as -> by reflexivity.
  rewrite sub64_small by lia. replace (1 + nlen (b :: l) - 1) with (nlen (b :: l)) by lia.
  destruct (N.ltb_spec 19200 (nlen (b :: l))); [lia|].
  rewrite take_mem_exact. reflexivity.
Qed.

Lemma rt_signature c g sig d : enc_ok c g sig ->
  (match d_sig d with Some s => length s = sc_max_sig c | None => True end) ->
  decode_signature d (signature_value c g sig) (signature_size c) =
  Def (set_d_hash_type (g_hash_type g) (set_d_enc (g_enc g) (set_d_sig_size (nlen sig)
        (set_d_sig (Some (sig ++ repeat 1 (sc_max_sig c - length sig))) d))), SV_OK).
Proof.
  intros H HS. destruct H. unfold decode_signature, signature_value.
  cbn [app read_8bits obind]. unfold u16, nlen. rewrite (N.mod_small (N.of_nat (length sig))) by lia.
  rewrite Nat2N.id, firstn_all.
  rewrite read_be16 by lia. cbn [obind].
  assert (1 =? 0 = false) as -> by reflexivity.
  assert (EU : u8 (g_hash_type g) = g_hash_type g) by (unfold u8; lia).
  rewrite EU. destruct (N.leb_spec 2 (g_hash_type g)); [lia|].
  unfold signature_size. rewrite sub64_small by lia.
  replace (1 + 1 + 1 + 2 + N.of_nat (sc_max_sig c) - 5) with (N.of_nat (sc_max_sig c)) by lia.
  destruct (N.ltb_spec (N.of_nat (sc_max_sig c)) (N.of_nat (length sig))); [lia|].
  assert (LS : length (sig ++ repeat 1 (sc_max_sig c - length sig)) = sc_max_sig c).
  { rewrite app_length, repeat_length. lia. }
  pose proof (take_mem_n (sc_max_sig c) (sig ++ repeat 1 (sc_max_sig c - length sig)) [] (eq_sym LS)) as T.
  rewrite app_nil_r in T.
  destruct (d_sig d) as [s|].
  - rewrite HS, N.eqb_refl. cbn [negb]. rewrite Nat2N.id, T. reflexivity.
  - destruct (N.ltb_spec (1 + 1 + 1 + 2 + N.of_nat (sc_max_sig c)) 5); [lia|].
    rewrite Nat2N.id, T. reflexivity.
Qed.

Lemma set_hash_algo_der_digest C oid n h : c_oid C oid = OidDigest n -> h_type h = h_oid h -> oid <> [] ->
  exists h', set_hash_algo_der C oid h = Def (h', SV_OK) /\ h_type h' = oid /\ h_oid h' = oid
    /\ h_prim h' = h_prim h /\ h_sec h' = h_sec h.
Proof.
  intros HC HT HN. unfold set_hash_algo_der. destruct oid as [|a l] eqn:EO; [congruence|].
  destruct (bytes_eqb (a :: l) (h_oid h)) eqn:E.
  - apply bytes_eqb_eq in E. exists h. rewrite HT, <- E. auto.
  - rewrite HC. eexists. cbn. eauto 10.
Qed.

Lemma rt_crypto C c g sig d n : enc_ok c g sig -> h_oid (k_handle (g_h g)) <> [] ->
  c_oid C (h_oid (k_handle (g_h g))) = OidDigest n -> h_type (d_handle d) = h_oid (d_handle d) ->
  exists h', set_hash_algo_der C (h_oid (k_handle (g_h g))) (d_handle d) = Def (h', SV_OK) /\
  h_type h' = h_oid (k_handle (g_h g)) /\ h_oid h' = h_oid (k_handle (g_h g)) /\
  decode_crypto C d (crypto_value g) (crypto_size g) =
  Def (set_d_vhs n (set_d_algo_known true (set_d_handle h' d)), SV_OK).
Proof.
  intros H NE HC HT. destruct H.
  destruct (set_hash_algo_der_digest C _ n (d_handle d) HC HT NE) as (h' & E & T1 & T2 & _).
  exists h'. split; [exact E|]. split; [exact T1|]. split; [exact T2|].
  unfold decode_crypto, crypto_value, crypto_size. set (oid := h_oid (k_handle (g_h g))) in *.
  destruct oid as [|a l] eqn:EO; [congruence|]. rewrite <- EO in *.
  cbn [app read_8bits obind]. assert (EU : u8 (nlen oid) = nlen oid) by (unfold u8; lia). rewrite EU.
  cbn [app]. rewrite take_mem_exact. cbn [obind]. assert (1 =? 0 = false) as -> by reflexivity.
  destruct (N.eqb_spec (nlen oid) 0) as [Z|Z]; [unfold nlen in Z; rewrite EO in Z; cbn in Z; lia|].
  rewrite E. cbn [obind is_ok svrc_eqb negb].
  assert (EH : hash_size C h' = n) by (unfold hash_size, oid_size; rewrite T1, HC; reflexivity).
  rewrite EH. replace (1 + 1 + nlen oid) with (2 + nlen oid) by lia. rewrite N.eqb_refl. reflexivity.
Qed.

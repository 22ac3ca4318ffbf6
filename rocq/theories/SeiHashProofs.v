(** A SEI on the validating side: finding the signature, hashing what was signed. *)
From Verif Require Import Base BaseProofs Epb EpbProofs Nalu Crypto Types Hash Tlv TlvProofs EncProofs CodecSpec CodecProofs
  SeiSpec SeiProofs GenProofs SessProofs Signer SignSpec VTypes NaluList Validator.
Local Open Scope N_scope.

Section SeiHash.
Variable C : crypto.
Hypothesis HC : crypto_ok C.

Lemma skipn_front c n res E : skipn (length (sei_front c n res)) (sei_front c n res ++ E) = E.
Proof. apply skipn_app_exact. Qed.

(** The signature tag is found right after the metadata, whatever they contain. *)
Lemma find_signature epb fs v tail : meta_ok fs -> wire_ok (5, v) -> bytes_ok v ->
  (epb = true -> nlen (esc 0 (wires fs)) < nlen (wires (fs ++ [(5, v)]))) ->
  tlv_find_tag (wrapped epb (wires (fs ++ [(5, v)])) ++ tail) (nlen (wires (fs ++ [(5, v)]))) 5 epb =
  Def (Some (nlen (wrapped epb (wires fs)))).
Proof.
  intros HM HW HV HE. pose proof HM as (M1 & M2 & M3).
  assert (HWB : bytes_ok (wires (fs ++ [(5, v)]))).
  { rewrite wires_app. apply bytes_ok_app. split; [apply wires_ok, HM|].
    rewrite wires_fields by (apply Forall_cons; [exact HW|apply Forall_nil]).
    apply fields_bytes_ok; (apply Forall_cons; [|apply Forall_nil]); [apply wire_ok_fits, HW|exact HV]. }
  assert (L0 : lt_init < 65536 /\ lt_init mod 256 <> 0) by (split; [reflexivity|discriminate]).
  unfold tlv_find_tag.
  assert (HN : wires (fs ++ [(5, v)]) = fields_bytes fs ++ 5 :: (be16 (nlen v) ++ v)).
  { rewrite wires_app, (wires_fields fs M1). f_equal. unfold wires. cbn [flat_map].
    rewrite app_nil_r, wire_field_bytes by exact HW. reflexivity. }
  destruct (N.eqb_spec (nlen (wires (fs ++ [(5, v)]))) 0) as [E0|_].
  { rewrite HN in E0. unfold nlen in E0. rewrite app_length in E0. cbn [length] in E0. lia. }
  rewrite <- (wrapped_write epb lt_init (wires (fs ++ [(5, v)])) HWB (proj1 L0) (proj2 L0)).
  rewrite HN at 1 2. rewrite find_field; try assumption.
  - rewrite N.add_0_l. do 2 f_equal. rewrite <- (wires_fields fs M1).
    rewrite wrapped_write; [reflexivity|apply wires_ok, HM|apply L0|apply L0].
  - eapply Forall_impl; [|exact M1]. intros f. apply wire_ok_fits.
  - rewrite HN in HWB. apply bytes_ok_app in HWB. apply HWB.
  - rewrite N.add_0_l. rewrite <- (wires_fields fs M1).
    rewrite wrapped_write; [|apply wires_ok, HM|apply L0|apply L0].
    destruct epb; cbn [wrapped]; [apply HE; reflexivity|].
    rewrite wires_app, nlen_app'.
    assert (0 < nlen (wires [(5, v)])) by (unfold wires, wire, nlen; cbn [flat_map app length fst]; lia). lia.
  - assert (G : forall l : list field, (length l <= length (fields_bytes l))%nat).
    { clear. induction l as [|f l IH]; [cbn; lia|]. unfold fields_bytes in *. cbn [map concat].
      rewrite app_length. destruct f as [t w]. change (length (field_bytes (t, w))) with (S (length ((if (len_bytes t =? 2)%nat then be16 (nlen w) else [nlen w]) ++ w))). cbn [length]. lia. }
    specialize (G fs). rewrite app_length.
    assert (X : Nat.le (length (fields_bytes fs ++ 5 :: be16 (nlen v) ++ v))
      (length (snd (write_bytes epb lt_init (fields_bytes fs ++ 5 :: be16 (nlen v) ++ v))))).
    { rewrite <- HN. rewrite wrapped_write; [|exact HWB|apply L0|apply L0].
      destruct epb; cbn [wrapped]; [apply esc_longer|lia]. }
    rewrite app_length in X. cbn [length] in X. lia.
Qed.

(** What is left to hash once the signature is found. *)
Lemma update_signed c epb golden fs v n body d : meta_ok fs -> wire_ok (5, v) -> bytes_ok v ->
  (epb = true -> nlen (esc 0 (wires fs)) < nlen (wires (fs ++ [(5, v)]))) ->
  parsed_sei c golden epb d (wires (fs ++ [(5, v)])) n body ->
  body = sei_front c (17 + nlen (wires (fs ++ [(5, v)]))) (sei_flags epb golden) ++
         wrapped epb (wires (fs ++ [(5, v)])) ++ [128] ->
  exists n2, update_hashable n = Def n2 /\ hash_input n2 = Def (signed_part c epb golden fs (5, v)) /\
    n2 = mkNalu (n_data_size n) (n_hash_mem n) (nlen (signed_part c epb golden fs (5, v))) (n_type n) (n_valid n)
               (n_hashable n) (n_payload_size n) (n_reserved n) (n_tlv_off n) (n_tlv_mem n)
               (n_tlv_size n) (n_epb n) (n_primary n) (n_first_in_gop n) (n_gop_sei n)
               (n_first_part n) (n_last_part n) (n_with_epb n) (n_golden n).
Proof.
  intros HM HW HV HE (P1 & P2 & P3 & P4 & P5 & P6 & P7 & P8 & P9 & P10 & P11 & P12 & P13 & P14 & P15 & P16 & P17 & P18) HB.
  unfold update_hashable. rewrite P4, P5, P14, P11, P16, P18, HB. cbn [negb orb].
  rewrite skipn_front. rewrite find_signature by assumption. cbn [obind].
  eexists. split; [reflexivity|].
  assert (HL : N.of_nat (length (sei_front c (17 + nlen (wires (fs ++ [(5, v)]))) (sei_flags epb golden))) +
    nlen (wrapped epb (wires fs)) = nlen (signed_part c epb golden fs (5, v))).
  { unfold signed_part. rewrite nlen_app'. reflexivity. }
  rewrite HL. split; [|rewrite <- HB; reflexivity].
  unfold hash_input. cbn [n_hash_size n_hash_mem].
  assert (HP : exists r, sei_front c (17 + nlen (wires (fs ++ [(5, v)]))) (sei_flags epb golden) ++
      wrapped epb (wires (fs ++ [(5, v)])) ++ [128] = signed_part c epb golden fs (5, v) ++ r).
  { unfold signed_part. destruct epb; cbn [wrapped].
    - rewrite wires_app, esc_app. eexists. rewrite <- !app_assoc. reflexivity.
    - rewrite wires_app. eexists. rewrite <- !app_assoc. reflexivity. }
  destruct HP as [r ->].
  destruct (N.leb_spec (nlen (signed_part c epb golden fs (5, v))) (nlen (signed_part c epb golden fs (5, v) ++ r))) as [_|L].
  - unfold nlen. rewrite Nat2N.id, firstn_app, firstn_all, Nat.sub_diag. cbn [firstn]. rewrite app_nil_r. reflexivity.
  - rewrite nlen_app' in L. lia.
Qed.

Lemma put_at_0 dst src : (length src <= length dst)%nat ->
  put_at 0 dst src = Def (src ++ skipn (length src) dst).
Proof.
  intros H. unfold put_at. cbn [Nat.add firstn app]. destruct (Nat.leb_spec (length src) (length dst)); [reflexivity|lia].
Qed.

(** Hashing a SEI item with a known algorithm. *)
Lemma hash_item_sei v it n x hs : i_nalu it = Some n -> n_hashable n = true -> n_gop_sei n = true ->
  n_first_part n = true -> n_last_part n = true -> n_first_in_gop n = false ->
  d_algo_known (v_dec v) = true -> hash_input n = Def x -> x <> [] ->
  c_oid C (h_type (d_handle (v_dec v))) = OidDigest hs -> length (i_hash it) = 64%nat ->
  hash_item C v it = Def (v, set_i_hash (c_hash C (h_type (d_handle (v_dec v))) x ++ skipn hs (i_hash it)) it, SV_OK).
Proof.
  intros HN H1 H2 H3 H4 H5 HK HX HX0 HO HL. unfold hash_item. rewrite HN, H1, HK. cbn [negb orb].
  unfold hash_wrapper. rewrite H4, H2. cbn [negb]. unfold simply_hash. rewrite H3, HX. cbn [obind].
  unfold hash_data. destruct x as [|b x]; [contradiction|]. cbn [obind is_ok svrc_eqb].
  pose proof (ok_hash_len C HC _ _ (b :: x) HO) as HLEN. pose proof (ok_size C HC _ _ HO) as HSZ.
  unfold max_hash_size in HSZ. cbn [k_handle hst_of].
  rewrite put_at_0 by lia. cbn [obind negb is_ok svrc_eqb]. rewrite HLEN, H5. cbn [negb andb orb].
  rewrite andb_false_r. do 3 f_equal. unfold put_hst, hst_of, on_dec. destruct v as [? d]; destruct d; reflexivity.
Qed.

(** Parsing a delivered SEI. *)
Lemma parse_delivered c x y epb golden fs max key oid sig : signed_sei C c x epb golden fs max key oid sig ->
  delivered epb x y ->
  exists n, parse_nalu y c true true = Def n /\
    parsed_sei c golden epb (nlen y) (wires (fs ++ [(5, sig_value max sig)])) n
      (sei_front c (17 + nlen (wires (fs ++ [(5, sig_value max sig)]))) (sei_flags epb golden) ++
       wrapped epb (wires (fs ++ [(5, sig_value max sig)])) ++ [128]).
Proof.
  intros (-> & HM & HL & _ & HX & HS & _ & HSL & _) HD.
  change (2 ^ 20) with 1048576 in HL. change (2 ^ 16) with 65536 in HX.
  destruct (sig_wire max sig HSL) as [W WL]; [lia|].
  set (f := (5, sig_value max sig)) in *.
  assert (HWB : bytes_ok (wires (fs ++ [f]))).
  { rewrite wires_app. apply bytes_ok_app. split; [apply wires_ok, HM|].
    rewrite wires_fields by (apply Forall_cons; [exact W|apply Forall_nil]).
    apply fields_bytes_ok; (apply Forall_cons; [|apply Forall_nil]); [apply wire_ok_fits, W|].
    apply sig_value_ok, HS. }
  assert (HLN : nlen (wires (fs ++ [f])) + 17 < 2 ^ 31).
  { rewrite wires_app, nlen_app'. unfold wires at 2. cbn [flat_map]. rewrite app_nil_r, WL.
    change (2 ^ 31) with 2147483648. lia. }
  destruct HD as [->|[-> ->]].
  - destruct (parse_sei c epb golden (wires (fs ++ [f])) HWB HLN) as (n & E & P & _).
    exists n. split; [exact E|exact P].
  - destruct (parse_sei_muxed c golden (wires (fs ++ [f])) HWB HLN) as (n & E & P).
    exists n. split; [exact E|exact P].
Qed.

Lemma few_found epb fs max sig : (length sig <= max)%nat -> N.of_nat max + 5 < 2 ^ 16 -> few_escapes epb fs max ->
  epb = true -> nlen (esc 0 (wires fs)) < nlen (wires (fs ++ [(5, sig_value max sig)])).
Proof.
  intros H1 H2 HF HE. specialize (HF HE). change (2 ^ 16) with 65536 in H2.
  destruct (sig_wire max sig H1 H2) as [_ WL]. rewrite wires_app, nlen_app'. unfold wires at 3. cbn [flat_map].
  rewrite app_nil_r, WL. lia.
Qed.

(** The validator recognises the SEI and gets its metadata and signature. *)
Lemma delivered_parsed c x y epb golden fs max key oid sig : signed_sei C c x epb golden fs max key oid sig ->
  delivered epb x y ->
  exists n, parse_nalu y c true true = Def n /\ n_valid n = 1%Z /\ n_type n = TSei /\ n_gop_sei n = true /\
    n_hashable n = true /\ n_golden n = golden /\ n_first_in_gop n = false /\
    firstn (N.to_nat (n_tlv_size n)) (n_tlv_mem n) = wires (fs ++ [(5, sig_value max sig)]).
Proof.
  intros HS HD. destruct (parse_delivered _ _ _ _ _ _ _ _ _ _ HS HD) as (n & E & P).
  destruct P as (P1 & P2 & P3 & P4 & P5 & P6 & P7 & P8 & P9 & P10 & P11 & P12 & P13 & P14 & (r & P15) & P16).
  exists n. repeat (split; [assumption|]). rewrite P14, P15. unfold nlen. rewrite Nat2N.id, firstn_app, firstn_all, Nat.sub_diag.
  cbn [firstn]. apply app_nil_r.
Qed.

(** The bytes the validator hashes are the ones that were signed. *)
Lemma delivered_hashed c x y epb golden fs max key oid sig : signed_sei C c x epb golden fs max key oid sig ->
  delivered epb x y -> few_escapes epb fs max ->
  exists n n2, parse_nalu y c true true = Def n /\ update_hashable n = Def n2 /\
    hash_input n2 = Def (signed_part c epb golden fs (5, sig_value max sig)).
Proof.
  intros HS HD HF. destruct (parse_delivered _ _ _ _ _ _ _ _ _ _ HS HD) as (n & E & P).
  destruct HS as (_ & HM & HL & _ & HX & HB & _ & HSL & _).
  assert (HX2 : N.of_nat max + 5 < 65536) by exact HX.
  destruct (sig_wire max sig HSL HX2) as [W _].
  destruct (update_signed c epb golden fs _ n _ _ HM W (sig_value_ok max sig HB) (few_found _ _ _ _ HSL HX HF) P eq_refl)
    as (n2 & E2 & E3 & _).
  exists n, n2. auto.
Qed.

(** The hash the validator stores is the one that was signed. *)
Lemma delivered_registered c x y epb golden fs max key oid sig v hs : signed_sei C c x epb golden fs max key oid sig ->
  delivered epb x y -> few_escapes epb fs max ->
  d_algo_known (v_dec v) = true -> h_type (d_handle (v_dec v)) = oid -> c_oid C oid = OidDigest hs ->
  exists n it, parse_nalu y c true true = Def n /\ register C v n = Def (v, it, SV_OK) /\
    firstn hs (i_hash it) = c_hash C oid (signed_part c epb golden fs (5, sig_value max sig)).
Proof.
  intros HS HD HF HK HT HO. destruct (parse_delivered _ _ _ _ _ _ _ _ _ _ HS HD) as (n & E & P).
  destruct HS as (_ & HM & HL & _ & HX & HB & _ & HSL & _).
  assert (HX2 : N.of_nat max + 5 < 65536) by exact HX.
  destruct (sig_wire max sig HSL HX2) as [W _].
  destruct (update_signed c epb golden fs _ n _ _ HM W (sig_value_ok max sig HB) (few_found _ _ _ _ HSL HX HF) P eq_refl)
    as (n2 & E2 & E3 & E4).
  destruct P as (P1 & P2 & P3 & P4 & P5 & P6 & P7 & P8 & P9 & _).
  exists n. unfold register. rewrite P3. change (1 =? 0)%Z with false. rewrite E2. cbn [obind].
  rewrite (hash_item_sei v _ n2 (signed_part c epb golden fs (5, sig_value max sig)) hs); try assumption;
    try (subst n2; cbn [n_hashable n_gop_sei n_first_part n_last_part n_first_in_gop]; assumption).
  - eexists. split; [exact E|]. split; [reflexivity|]. cbn [set_i_hash i_hash]. rewrite HT.
    rewrite firstn_app. pose proof (ok_hash_len C HC _ _ (signed_part c epb golden fs (5, sig_value max sig)) HO) as HLN.
    rewrite HLN, Nat.sub_diag. cbn [firstn]. rewrite app_nil_r, firstn_all2 by lia. reflexivity.
  - reflexivity.
  - unfold signed_part, sei_front. destruct c; discriminate.
  - rewrite HT. exact HO.
  - reflexivity.
Qed.

End SeiHash.

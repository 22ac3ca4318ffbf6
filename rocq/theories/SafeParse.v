(** Parsing and hashing the NALUs that a validator can be given without harm: lemmas. *)
From Verif Require Import Base BaseProofs Epb EpbProofs Nalu NaluSpec NaluProofs Crypto Types Hash Tlv TlvProofs EncProofs CodecSpec CodecProofs
  SeiSpec SeiProofs Signer SignSpec GopSpec GenProofs SessProofs SignerProofs SeiHashProofs VTypes NaluList Validator ValidSpec VReset E2eList SafeSpec SafeDec SafeList SafeRound SafeCheck.
Local Open Scope N_scope.

(** What is hashed of a NALU that is no SEI can be read and is not empty. *)
Lemma other_hashes d c n : nlen d < 2 ^ 63 -> parse_nalu d c true true = Def n -> n_gop_sei n = false ->
  n_first_part n = true /\ n_last_part n = true /\ n_tlv_size n = 0 /\ n_golden n = false /\ (0 <= n_valid n)%Z /\ hashes n \/ d = [].
Proof.
  intros HD. change (2 ^ 63) with 9223372036854775808 in HD.
  unfold parse_nalu. destruct d as [|b d]; [right; reflexivity|]. left. set (data := b :: d) in *. clearbody data.
  destruct (start_code_len data) as [k|u] eqn:EK; [|discriminate]. cbn [obind] in *. destruct (start_len _ _ EK) as [_ KL].
  destruct (parse_header c (skipn k data)) as [[[ty pr] va]|u] eqn:EP; [|discriminate]. cbn [obind] in *.
  destruct (strip_trailing data) as [t|u] eqn:ES; [|discriminate]. cbn [obind] in *.
  destruct (negb (ntype_eqb ty TSei)) eqn:ET.
  2:{ destruct (skipn (header_len c) (skipn k data)) as [|ud p1]; [discriminate|].
      destruct (ud =? 5). 2:{ injection H as <-. cbn. repeat (split; [first [reflexivity|destruct va; lia]|]). intros X; discriminate. }
      destruct (get_payload_size p1) as [[[ps k2] p2]|u]; [|discriminate]. cbn [obind] in *.
      destruct (length p2 <? 16)%nat; [discriminate|]. destruct (bytes_eqb (firstn 16 p2) uuid_sv).
      - exfalso. unfold remove_epb in H. cbn [n_hashable n_gop_sei n_valid negb orb andb n_hash_mem n_epb] in H. destruct (_ <=? 0)%Z; [injection H as <-; discriminate|].
        destruct (skipn _ (skipn k data)) as [|r2 tlv]; [discriminate|]. destruct (_ <=? 0)%Z; [injection H as <-; discriminate|].
        destruct (read_bytes _ _ _ _) as [[[w1 w2] w3]|]; [|discriminate]. cbn [obind] in H. destruct (_ <? _)%nat; [discriminate|]. destruct (128 <=? r2); injection H as <-; discriminate.
      - unfold remove_epb in H. cbn [n_hashable negb orb andb] in H. injection H as <-. cbn. repeat (split; [first [reflexivity|destruct va; lia]|]). intros X; discriminate. }
  injection H as <-. cbn [n_first_part n_last_part n_tlv_size n_golden n_valid]. do 4 (split; [reflexivity|]). split; [destruct va; lia|]. intros HH _. cbn [n_hashable] in HH.
  assert (HT : ty = TI \/ ty = TP) by (destruct ty; cbn in HH; try discriminate; auto).
  assert (NZ : exists b, In b (skipn k data) /\ b <> 0).
  { destruct c; [eapply nonzero_h264|eapply nonzero_h265]; try exact EP; exact HT. }
  destruct (strip_nonzero _ NZ) as [s S]. pose proof (strip_pre (firstn k data) _ _ S) as SP. rewrite firstn_skipn in SP.
  assert (TT : t = firstn k data ++ s) by congruence. destruct (strip_def _ _ S) as [SN (z & SZ)].
  assert (LS : (length s <= length (skipn k data))%nat) by (rewrite SZ, app_length; lia).
  assert (LD : (length (firstn k data) = k)%nat) by (rewrite firstn_length; lia).
  unfold hash_input. cbn [n_hash_size n_hash_mem].
  assert (HS : sub64 (nlen t) (N.of_nat k) = nlen s).
  { rewrite TT. unfold nlen in *. rewrite app_length, LD. rewrite skipn_length in LS. rewrite sub64_small by lia. lia. }
  rewrite HS. destruct (N.leb_spec (nlen s) (nlen (skipn k data))) as [_|EL]; [|exfalso; unfold nlen in EL; lia]. eexists. split; [reflexivity|].
  unfold nlen. rewrite Nat2N.id, SZ, firstn_app, firstn_all. destruct s; [congruence|discriminate].
Qed.

Section Parse.
Context {KK : okkeys}.
Variable C : crypto.
Hypothesis HC : crypto_ok C.
Variable oid : list N.
Variable hs : nat.
Hypothesis HO : c_oid C oid = OidDigest hs.

Lemma other_ok c d : nlen d < 2 ^ 63 -> other_nalu c d -> exists n, parse_nalu d c true true = Def n /\ n_gop_sei n = false /\ nalu_ok C oid n /\ (0 <= n_valid n)%Z /\ hashes n.
Proof.
  intros HD HU. assert (NE : d <> []) by (destruct HU as (s & h & x & r & [->| ->] & -> & _); discriminate).
  destruct (other_unsigned c d HU) as [->|(n & E & G)]; [congruence|]. exists n. split; [exact E|]. split; [exact G|].
  destruct (other_hashes d c n HD E G) as [(H1 & H2 & H3 & H4 & H5 & H6)|H]; [|congruence]. unfold nalu_ok. rewrite G. auto 10.
Qed.

Lemma sei_ok c y : formed_sei_of okkey oksig C c oid y -> exists n n2 fs, parse_nalu y c true true = Def n /\ n_valid n = 1%Z /\ n_gop_sei n = true /\ n_golden n = false /\ N.land (n_reserved n) 48 <> 0 /\
  update_hashable n = Def n2 /\ n_gop_sei n2 = true /\ nalu_ok C oid n2 /\ memory C oid n2 fs /\ hashes n2 /\ status_of n2 = status_of n /\
  (has_rec fs = true \/ n_with_epb n2 = true \/ (n_epb n2 <= 0)%Z).
Proof.
  intros (epb & fs & max & sig & HY & HM & HF & H7 & HL & HX & HB & HSL & HE & HKI & HMK). cbv zeta in HY.
  change (2 ^ 20) with 1048576 in HL. pose proof HX as HX2. change (2 ^ 16) with 65536 in HX2.
  destruct (sig_wire max sig HSL HX2) as [W WL].
  pose proof (few_found epb fs max sig HSL HX HE) as FF. set (f := (5, sig_value max sig)) in *.
  assert (HWB : bytes_ok (wires (fs ++ [f]))).
  { rewrite wires_app. apply bytes_ok_app. split; [apply wires_ok, HM|].
    rewrite wires_fields by (apply Forall_cons; [exact W|apply Forall_nil]).
    apply fields_bytes_ok; (apply Forall_cons; [|apply Forall_nil]); [apply wire_ok_fits, W|].
    apply sig_value_ok, HB. }
  assert (HLW : nlen (wires (fs ++ [f])) < 2147483000).
  { rewrite wires_app, nlen_app'. unfold wires at 2. cbn [flat_map]. rewrite app_nil_r, WL. lia. }
  assert (HLN : nlen (wires (fs ++ [f])) + 17 < 2 ^ 31) by (change (2 ^ 31) with 2147483648; lia).
  assert (HWO : Forall wire_ok fs) by apply HM.
  assert (HFF : Forall (ff C oid) fs) by (apply Forall_forall; intros g HI; rewrite Forall_forall in HF, HKI; split; auto).
  assert (X : exists n, parse_nalu y c true true = Def n /\
     parsed_sei c false epb (nlen y) (wires (fs ++ [f])) n (sei_front c (17 + nlen (wires (fs ++ [f]))) (sei_flags epb false) ++ wrapped epb (wires (fs ++ [f])) ++ [128]) /\
     (has_rec fs = true \/ epb = true \/ (n_epb n <= 0)%Z)).
  { destruct HY as [->|(-> & -> & HR)].
    - destruct (parse_sei c epb false (wires (fs ++ [f])) HWB HLN) as (n & E & P & EP). exists n. split; [exact E|]. split; [exact P|]. right. destruct epb; [auto|]. right. rewrite EP. cbn [wrapped]. lia.
    - destruct (parse_sei_muxed c false (wires (fs ++ [f])) HWB HLN) as (n & E & P). exists n. split; [exact E|]. split; [exact P|]. left. apply (has_rec_iff C oid); assumption. }
  destruct X as (n & E & P & XR).
  destruct (update_signed c epb false fs _ n _ _ HM W (sig_value_ok max sig HB) FF P eq_refl) as (n2 & E2 & E3 & E4).
  destruct P as (P1 & P2 & P3 & P4 & P5 & P6 & P7 & P8 & P9 & P10 & P11 & P12 & P13 & P14 & (r & P15) & P16).
  assert (MM : memory C oid n2 fs).
  { exists max, sig, r. subst n2. cbn [n_tlv_mem n_tlv_size]. split; [exact P15|]. split; [exact P14|]. split; [rewrite P14; fold f; lia|]. do 4 (split; [assumption|]).
    split; [|exact HMK]. intros X. apply H7. apply (has_rec_iff C oid); assumption. }
  exists n, n2, fs. split; [exact E|]. split; [exact P3|]. split; [exact P5|]. split; [exact P10|]. split; [rewrite P12; destruct epb; discriminate|]. split; [exact E2|].
  split; [subst n2; exact P5|]. split.
  - unfold nalu_ok. replace (n_gop_sei n2) with true by (subst n2; symmetry; exact P5). subst n2. cbn [n_first_part n_last_part n_valid n_hashable n_first_in_gop n_golden]. do 6 (split; [assumption|]). exists fs. exact MM.
  - split; [exact MM|]. split; [|split; [subst n2; reflexivity|subst n2; cbn [n_with_epb n_epb]; rewrite P11; exact XR]].
    intros _ _. eexists. split; [exact E3|]. unfold signed_part, sei_front. destruct c; discriminate.
Qed.

(** ** Hashing *)
Lemma simply_ok h n x : n_first_part n = true -> hash_input n = Def x -> x <> [] -> h_type h = oid -> exists y, simply_hash C h n = Def (h, SV_OK, y) /\ length y = hs.
Proof.
  intros H1 H2 H3 HT. unfold simply_hash. rewrite H1, H2. cbn [obind]. unfold hash_data. destruct x as [|b x]; [congruence|]. eexists. split; [reflexivity|]. rewrite HT. apply (ok_hash_len C HC _ _ _ HO).
Qed.
Lemma wrapper_ok k n x : nalu_ok C oid n -> hash_input n = Def x -> x <> [] -> h_type (k_handle k) = oid -> length (k_buddies k) = 128%nat ->
  exists k' y, hash_wrapper C k n hs = Def (k', SV_OK, Some y) /\ length y = hs /\ k_handle k' = k_handle k /\ length (k_buddies k') = 128%nat.
Proof.
  intros (H1 & H2 & _) HX HX0 HT HL. pose proof (shs C HC oid hs HO) as HS. destruct (simply_ok (k_handle k) n x H1 HX HX0 HT) as (y & ES & LY).
  unfold hash_wrapper. rewrite H2, ES. cbn [negb obind is_ok svrc_eqb]. destruct (n_gop_sei n); [exists (set_k_handle (k_handle k) k), y; split; [reflexivity|]; auto|].
  destruct (_ && _).
  - destruct (put_ok 0 (k_buddies k) (firstn hs y)) as (b & -> & LB); [rewrite firstn_length; lia|]. cbn [obind]. do 2 eexists. split; [reflexivity|]. split; [exact LY|]. split; [reflexivity|]. cbn [k_buddies]. lia.
  - destruct (put_ok hs (k_buddies k) y) as (b & -> & LB); [lia|]. cbn [obind]. unfold hash_data.
    destruct (firstn (2 * hs) b) as [|z zs] eqn:EF; [apply (f_equal (@length N)) in EF; rewrite firstn_length in EF; cbn [length] in EF; lia|].
    cbn [is_ok svrc_eqb]. do 2 eexists. split; [reflexivity|]. split; [rewrite HT; apply (ok_hash_len C HC _ _ _ HO)|]. split; [reflexivity|]. cbn [k_buddies]. lia.
Qed.

(** What hashing an item leaves alone, and what it does to the item. *)
Definition hframe (v : valid) := (v_dec v, v_computed v, v_hash v, v_legacy v, v_signing v, v_codec v, v_gs v, v_first v, v_verified v, v_links v, v_synced v, v_items v, v_first_sei v, v_started v).
Definition hashed_item (it it' : item) : Prop :=
  i_nalu it' = i_nalu it /\ i_status it' = i_status it /\ i_used it' = i_used it /\ i_linked it' = i_linked it /\ i_decoded it' = i_decoded it.
Lemma hst_id v : on_dec (set_d_handle (d_handle (v_dec v))) v = v.
Proof. unfold on_dec. destruct v as [? d]; destruct d; reflexivity. Qed.
Lemma put_frame k v : k_handle k = d_handle (v_dec v) -> hframe (put_hst k v) = hframe v.
Proof. intros H. unfold put_hst. rewrite H, hst_id. reflexivity. Qed.
Lemma hash_item_ok v it n : i_nalu it = Some n -> nalu_ok C oid n -> hashes n -> (0 < n_valid n)%Z ->
  (d_algo_known (v_dec v) = true -> vhs v = hs /\ h_type (d_handle (v_dec v)) = oid) -> length (v_buddies v) = 128%nat -> length (i_hash it) = 64%nat ->
  exists v' it', hash_item C v it = Def (v', it', SV_OK) /\ hframe v' = hframe v /\ length (v_buddies v') = 128%nat /\ hashed_item it it' /\ length (i_hash it') = 64%nat /\
    (i_second it' = i_second it \/ d_algo_known (v_dec v) = true /\ n_gop_sei n = false /\ exists x, i_second it' = Some x /\ length x = hs).
Proof.
  intros HN NK HH HV HK HB HL. unfold hash_item. rewrite HN. destruct (n_hashable n) eqn:EH; cbn [negb orb].
  2:{ exists v, it. unfold hashed_item. auto 10. }
  destruct (d_algo_known (v_dec v)) eqn:EK; cbn [negb orb]. 2:{ exists v, it. unfold hashed_item. auto 10. }
  destruct (HK eq_refl) as [HV2 HT]. destruct (HH EH HV) as (x & HX & HX0). rewrite HV2. pose proof (shs C HC oid hs HO) as HS.
  destruct (wrapper_ok (hst_of v) n x NK HX HX0 HT HB) as (k' & y & -> & LY & KH & KB). cbn [obind].
  destruct (put_ok 0 (i_hash it) y) as (z & -> & LZ); [lia|]. cbn [obind is_ok svrc_eqb negb].
  pose proof (put_frame k' v KH) as PF. set (v1 := put_hst k' v) in *.
  assert (V1 : v_dec v1 = v_dec v) by (unfold hframe in PF; congruence).
  assert (B1 : length (v_buddies v1) = 128%nat) by exact KB.
  destruct (_ || _) eqn:EC.
  - assert (NS : n_gop_sei n = false).
    { destruct (n_gop_sei n) eqn:G; [|reflexivity]. destruct NK as (_ & _ & NK). rewrite G in NK. destruct NK as (_ & _ & F & _). rewrite F in EC. cbn in EC. rewrite andb_false_r in EC. discriminate. }
    set (v2 := set_v_has_ref false v1). assert (VH : vhs v2 = hs) by (unfold vhs; change (v_dec v2) with (v_dec v1); rewrite V1; exact HV2). rewrite VH.
    destruct (wrapper_ok (hst_of v2) n x NK HX HX0) as (k2 & y2 & -> & LY2 & KH2 & KB2); [cbn [hst_of k_handle]; change (v_dec v2) with (v_dec v1); rewrite V1; exact HT|exact B1|].
    cbn [obind]. do 2 eexists. split; [reflexivity|]. split; [rewrite put_frame by exact KH2; exact PF|]. split; [exact KB2|]. unfold hashed_item. cbn [set_i_second set_i_hash i_nalu i_status i_used i_linked i_decoded i_hash i_second].
    split; [auto 10|]. split; [lia|]. right. split; [reflexivity|]. split; [exact NS|]. eauto.
  - do 2 eexists. split; [reflexivity|]. split; [exact PF|]. split; [exact B1|]. unfold hashed_item. cbn [set_i_hash i_nalu i_status i_used i_linked i_decoded i_hash i_second]. split; [auto 10|]. split; [lia|]. left. reflexivity.
Qed.
End Parse.

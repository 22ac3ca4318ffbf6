(** Decoding the SEIs of older versions: lemmas. *)
From Verif Require Import Base BaseProofs Epb EpbProofs Nalu Crypto Types Hash Tlv TlvProofs EncProofs CodecSpec CodecProofs
  SeiSpec SeiProofs GenProofs SessProofs Signer SignSpec GopSpec EosSpec VTypes NaluList Validator SeiHashProofs E2eSpec E2eDec
  NaluProofs SignerProofs LegacyTypes Legacy LegacySpec.
Local Open Scope N_scope.

(** What the parser returns for a SEI with the flags [fl]. *)
Definition parsed_fl (c : codec) (golden epb : bool) (fl : N) (d : N) (W : list N) (n : nalu) (body : list N) : Prop :=
  n_data_size n = d /\ n_type n = TSei /\ n_valid n = 1%Z /\ n_hashable n = true /\
  n_gop_sei n = true /\ n_primary n = false /\ n_first_in_gop n = false /\
  n_first_part n = true /\ n_last_part n = true /\
  n_golden n = golden /\ n_with_epb n = epb /\ n_reserved n = fl /\
  n_payload_size n = 17 + nlen W /\
  n_tlv_size n = nlen W /\ (exists r, n_tlv_mem n = W ++ r) /\
  n_hash_mem n = body /\ n_hash_size n = nlen body /\
  n_tlv_off n = length (sei_front c (17 + nlen W) fl).

Lemma parse_flags_sei c epb golden fl W : byte_ok fl -> (128 <=? fl) = epb -> (64 <=? fl mod 128) = golden -> bytes_ok W -> nlen W + 17 < 2 ^ 31 ->
  let front := sei_front c (17 + nlen W) (fl) in
  let body := front ++ wrapped epb W ++ [128] in
  exists n, parse_nalu ([0; 0; 0; 1] ++ body) c true true = Def n /\
    parsed_fl c golden epb fl (nlen ([0; 0; 0; 1] ++ body)) W n body /\
    n_epb n = (Z.of_N (nlen (wrapped epb W)) - Z.of_N (nlen W))%Z.
Proof.
  intros HR F1 F2 HW HL front body. unfold byte_ok in HR.
  assert (HB : nlen (wrapped epb W) <= 2 * nlen W).
  { destruct epb; cbn [wrapped]; [|lia].
    pose proof (write_bytes_expansion_pot 257 W HW eq_refl) as P.
    rewrite (proj1 (esc_write W 257 0 HW (hz_init 257 eq_refl ltac:(discriminate)))) in P.
    assert (257 =? 0 = false) as E1 by reflexivity. assert (257 mod 256 =? 0 = false) as E2 by reflexivity.
    rewrite E1, E2 in P. lia. }
  assert (HF : nlen front <= 40 + nlen W).
  { unfold nlen, front. rewrite sei_front_len. unfold sei_poff, ff_size. rewrite app_length, repeat_length.
    assert ((17 + nlen W) / 255 <= 17 + nlen W) by (apply N.div_le_upper_bound; lia).
    unfold nlen in *. destruct c; cbn [length sei_type_bytes]; lia. }
  change (2 ^ 31) with 2147483648 in HL.
  assert (HST : strip_trailing body = Def body).
  { unfold body. rewrite !app_assoc. apply strip_last. discriminate. }
  assert (HN : nlen body = nlen front + nlen (wrapped epb W) + 1).
  { unfold body. rewrite !nlen_app'. unfold nlen; cbn [length]. lia. }
  rewrite (parse_nalu_split [0; 0; 0; 1] body).
  2:{ reflexivity. }
  2:{ rewrite nlen_app'. rewrite HN. change (nlen [0; 0; 0; 1]) with 4.
      change (2 ^ 64) with 18446744073709551616. lia. }
  2:{ intros _. exists body. exact HST. }
  2:{ unfold body, front, sei_front. destruct c; discriminate. }
  pose proof (parse_front c (17 + nlen W) (fl) (wrapped epb W ++ [128])
    (nlen ([0; 0; 0; 1] ++ body)) true body HST) as PF.
  cbv zeta in PF. fold front in PF. fold body in PF. rewrite PF. clear PF.
  assert (last body 0 =? 128 = true) as ->.
  { unfold body. rewrite !app_assoc, last_last. reflexivity. }
  unfold remove_epb. cbn [n_hashable n_gop_sei n_valid n_hash_mem n_payload_size n_epb n_data_size
    n_hash_size n_type n_primary n_first_in_gop n_first_part n_last_part negb orb Z.leb Z.compare].
  unfold body at 1, front. rewrite skip_poff. fold front. fold body.
  rewrite tlv_size_front by (change (2 ^ 31) with 2147483648; lia).
  rewrite F1, F2.
  assert (HE : (Z.of_N (nlen body) - Z.of_nat (sei_poff c (17 + nlen W)) - Z.of_N (17 + nlen W) - 1)%Z
               = (Z.of_N (nlen (wrapped epb W)) - Z.of_N (nlen W))%Z).
  { rewrite HN. unfold nlen at 1, front. rewrite sei_front_len. lia. }
  rewrite HE.
  destruct (Z.leb_spec (Z.of_N (nlen (wrapped epb W)) - Z.of_N (nlen W)) 0) as [H0|H0].
  - eexists. split; [reflexivity|]. split; [|cbn [n_epb]; reflexivity].
    assert (HWW : wrapped epb W = W).
    { destruct epb; cbn [wrapped] in *; [|reflexivity]. apply esc_same.
      pose proof (esc_longer W 0). unfold nlen in H0. lia. }
    unfold parsed_fl. cbn [n_hashable n_gop_sei n_valid n_hash_mem n_payload_size n_epb n_data_size
      n_hash_size n_type n_primary n_first_in_gop n_first_part n_last_part n_golden n_with_epb n_reserved
      n_tlv_size n_tlv_mem n_tlv_off].
    repeat split; try reflexivity.
    + exists [128]. rewrite HWW. reflexivity.
    + rewrite sei_front_len. lia.
  - destruct epb; cbn [wrapped] in *; [|lia].
    assert (HR2 : exists lt, read_bytes true (sei_poff c (17 + nlen W) + N.to_nat (17 + nlen W) + 1) lt_init body
       = Def (front ++ W ++ [128], lt, [])).
    { set (plain := front ++ W ++ [128]).
      assert (HP : bytes_ok plain).
      { unfold plain. apply bytes_ok_app; split; [apply sei_front_ok; unfold byte_ok; lia|].
        apply bytes_ok_app; split; [exact HW|repeat constructor]. }
      assert (HEP : snd (write_bytes true lt_init plain) = body).
      { rewrite (proj1 (esc_write plain lt_init 0 HP (hz_init lt_init eq_refl ltac:(discriminate)))).
        unfold plain, front. rewrite esc_front by lia. rewrite esc_app_stop. reflexivity. }
      exists (fst (write_bytes true lt_init plain)).
      pose proof (read_write_bytes true lt_init plain [] HP) as G.
      rewrite HEP, app_nil_r in G. rewrite <- G. f_equal.
      unfold plain, front. rewrite app_length, sei_front_len, app_length. unfold nlen; cbn [length]. lia. }
    destruct HR2 as [lt HR2]. rewrite HR2. cbn [obind].
    assert (HOFF : (sei_poff c (17 + nlen W) + N.to_nat (17 + nlen W) + 1 - N.to_nat (17 + nlen W) + 16)%nat
                   = length front).
    { unfold front. rewrite sei_front_len. lia. }
    rewrite HOFF.
    assert (Nat.ltb (length (front ++ W ++ [128])) (length front) = false) as ->.
    { apply Nat.ltb_ge. rewrite app_length. lia. }
    rewrite skipn_app_exact.
    eexists. split; [reflexivity|]. split; [|cbn [n_epb]; reflexivity].
    unfold parsed_fl. cbn [n_hashable n_gop_sei n_valid n_hash_mem n_payload_size n_epb n_data_size
      n_hash_size n_type n_primary n_first_in_gop n_first_part n_last_part n_golden n_with_epb n_reserved
      n_tlv_size n_tlv_mem n_tlv_off].
    repeat split; try reflexivity.
    + exists [128]. reflexivity.
    + rewrite sei_front_len. lia.
Qed.

(** The bytes of a SEI in front of its signature. *)
Definition fl_part (c : codec) (epb : bool) (fl : N) (fs : list (N * list N)) (f : N * list N) : list N :=
  sei_front c (17 + nlen (wires (fs ++ [f]))) fl ++ wrapped epb (wires fs).

Lemma update_fl c epb golden fl fs v n body d : meta_ok fs -> wire_ok (5, v) -> bytes_ok v ->
  (epb = true -> nlen (esc 0 (wires fs)) < nlen (wires (fs ++ [(5, v)]))) ->
  parsed_fl c golden epb fl d (wires (fs ++ [(5, v)])) n body ->
  body = sei_front c (17 + nlen (wires (fs ++ [(5, v)]))) fl ++
         wrapped epb (wires (fs ++ [(5, v)])) ++ [128] ->
  exists n2, update_hashable n = Def n2 /\ hash_input n2 = Def (fl_part c epb fl fs (5, v)) /\
    n2 = mkNalu (n_data_size n) (n_hash_mem n) (nlen (fl_part c epb fl fs (5, v))) (n_type n) (n_valid n)
               (n_hashable n) (n_payload_size n) (n_reserved n) (n_tlv_off n) (n_tlv_mem n)
               (n_tlv_size n) (n_epb n) (n_primary n) (n_first_in_gop n) (n_gop_sei n)
               (n_first_part n) (n_last_part n) (n_with_epb n) (n_golden n).
Proof.
  intros HM HW HV HE (P1 & P2 & P3 & P4 & P5 & P6 & P7 & P8 & P9 & P10 & P11 & P12 & P13 & P14 & P15 & P16 & P17 & P18) HB.
  unfold update_hashable. rewrite P4, P5, P14, P11, P16, P18, HB. cbn [negb orb].
  rewrite skipn_front. rewrite find_signature by assumption. cbn [obind].
  eexists. split; [reflexivity|].
  assert (HL : N.of_nat (length (sei_front c (17 + nlen (wires (fs ++ [(5, v)]))) fl)) +
    nlen (wrapped epb (wires fs)) = nlen (fl_part c epb fl fs (5, v))).
  { unfold fl_part. rewrite nlen_app'. reflexivity. }
  rewrite HL. split; [|rewrite <- HB; reflexivity].
  unfold hash_input. cbn [n_hash_size n_hash_mem].
  assert (HP : exists r, sei_front c (17 + nlen (wires (fs ++ [(5, v)]))) fl ++
      wrapped epb (wires (fs ++ [(5, v)])) ++ [128] = fl_part c epb fl fs (5, v) ++ r).
  { unfold fl_part. destruct epb; cbn [wrapped].
    - rewrite wires_app, esc_app. eexists. rewrite <- !app_assoc. reflexivity.
    - rewrite wires_app. eexists. rewrite <- !app_assoc. reflexivity. }
  destruct HP as [r ->].
  destruct (N.leb_spec (nlen (fl_part c epb fl fs (5, v))) (nlen (fl_part c epb fl fs (5, v) ++ r))) as [_|L].
  - unfold nlen. rewrite Nat2N.id, firstn_app, firstn_all, Nat.sub_diag. cbn [firstn]. rewrite app_nil_r. reflexivity.
  - rewrite nlen_app' in L. lia.
Qed.

Lemma fl_part_old c epb fs f : fl_part c epb (old_flags epb) fs f = old_part c epb fs f.
Proof. reflexivity. Qed.

(** What parsing tells of a SEI of an older version. *)
Definition old_nalu (n : nalu) (l : list N) : Prop :=
  n_gop_sei n = true /\ n_golden n = false /\ n_hashable n = true /\ n_valid n = 1%Z /\ n_first_in_gop n = false /\
  n_first_part n = true /\ n_last_part n = true /\ N.land (n_reserved n) 48 = 0 /\
  n_tlv_size n = nlen l /\ (exists r, n_tlv_mem n = l ++ r) /\ nlen l < 2 ^ 31.

Section OldDec.
Variable C : crypto.
Hypothesis HC : crypto_ok C.
Variable w : settings.
Variable hs : nat.
Hypothesis OS : old_settings C w hs.

Let H := c_hash C (w_oid w).
Notation gdec := (gdec w hs).

Lemma old_sig_len sig : (length sig <= w_max_sig w)%nat -> nlen (snd (old_sig w sig)) = 5 + N.of_nat (w_max_sig w).
Proof.
  intros L. unfold old_sig, nlen, padded. cbn [snd]. rewrite !app_length, digits_len, repeat_length. cbn [length]. lia.
Qed.
Lemma old_sig_wire sig : (length sig <= w_max_sig w)%nat ->
  wire_ok (old_sig w sig) /\ nlen (wire (old_sig w sig)) = 8 + N.of_nat (w_max_sig w).
Proof.
  intros L. pose proof (os_sig _ _ _ OS) as HM. assert (W : wire_ok (old_sig w sig)).
  { apply wire_ok_fits. split; [cbn; tauto|]. rewrite (old_sig_len sig L). change (fst (old_sig w sig)) with 5.
    change (len_bytes 5 =? 2)%nat with true. cbv iota. lia. }
  split; [exact W|]. rewrite wire_field_bytes by exact W. rewrite field_bytes_len by (apply wire_ok_fits, W).
  rewrite (old_sig_len sig L). change (fst (old_sig w sig)) with 5. change (len_bytes 5) with 2%nat. lia.
Qed.
Lemma old_sig_ok sig : bytes_ok sig -> bytes_ok (snd (old_sig w sig)).
Proof.
  intros HS. unfold old_sig, padded. cbn [snd]. apply bytes_ok_app; split; [destruct (w_frame w); repeat constructor|].
  apply bytes_ok_app; split; [apply digits_ok|]. apply bytes_ok_app; split; [exact HS|].
  apply Forall_forall. intros x Hx. apply repeat_spec in Hx. subst. reflexivity.
Qed.

Lemma prod_bytes : bytes_ok (flat_map prod_string (w_prod w)) /\ nlen (flat_map prod_string (w_prod w)) <= 256 * 5.
Proof.
  destruct (os_prod _ _ _ OS) as [L F].
  assert (G : forall l, Forall (Forall (fun b => 0 < b < 256)) l -> bytes_ok (flat_map prod_string l) /\ nlen (flat_map prod_string l) <= 256 * nlen l).
  { clear. induction l as [|s l IH]; intros F; [split; [exact (Forall_nil _)|cbn; lia]|].
    apply Forall_cons_iff in F as [X F]. destruct (IH F) as [IH1 IH2]. cbn [flat_map].
    assert (LF : nlen (firstn 254 s) <= 254) by (unfold nlen; rewrite firstn_length; lia).
    split.
    - apply bytes_ok_app. split; [|exact IH1]. unfold prod_string. cbv zeta. apply Forall_cons; [unfold byte_ok; lia|].
      apply bytes_ok_app. split; [|repeat constructor].
      assert (FF : Forall (fun b => 0 < b < 256) (firstn 254 s)).
      { apply Forall_forall. intros b HB. rewrite Forall_forall in X. apply X. rewrite <- (firstn_skipn 254 s). apply in_app_iff. left. exact HB. }
      eapply Forall_impl; [|exact FF]. intros b Hb. cbv beta in Hb. unfold byte_ok. lia.
    - rewrite nlen_app'.
      assert (E : nlen (prod_string s) = 2 + nlen (firstn 254 s)).
      { unfold prod_string, nlen. cbv zeta. cbn [length]. rewrite app_length. cbn [length]. lia. }
      rewrite E. assert (E2 : nlen (s :: l) = 1 + nlen l) by (unfold nlen; cbn [length]; lia). rewrite E2. lia. }
  destruct (G _ F) as [G1 G2]. split; [exact G1|]. unfold nlen in G2 at 2. rewrite L in G2. exact G2.
Qed.

Lemma old_meta k xs ts : (w_frame w = true -> nlen (old_list C w xs) <= 19200) ->
  meta_ok (old_fields C w k xs ts) /\ nlen (old_fields C w k xs ts) <= 5.
Proof.
  intros HL. pose proof OS as [O1 (O2 & O3 & O4) (O5 & O6) (O7 & O8 & O9) _ _]. destruct prod_bytes as [PB PL].
  unfold old_fields, recurrent_fields. rewrite O5.
  set (g := old_general k (nlen xs) ts).
  assert (GB : bytes_ok g /\ nlen g < 256).
  { unfold g, old_general. split.
    - apply bytes_ok_app; split; [repeat constructor|]. repeat (apply bytes_ok_app; split; [apply digits_ok || (repeat constructor)|]).
      destruct ts; [apply Forall_cons; [reflexivity|apply digits_ok]|repeat constructor].
    - unfold nlen. rewrite !app_length, !digits_len. destruct ts; cbn [length]; rewrite ?digits_len; lia. }
  destruct GB as [GB1 GB2].
  assert (LB : bytes_ok (old_list C w xs)).
  { unfold old_list. assert (F : Forall (bytes_ok) (hashes (c_hash C (w_oid w)) xs)).
    { assert (HB : forall x, bytes_ok (c_hash C (w_oid w) x)) by (intros x; exact (ok_hash_bytes C HC _ _ x O1)).
      destruct xs; cbn [hashes]; [constructor|]. constructor; [apply HB|]. apply Forall_map. apply Forall_forall. intros y _. apply HB. }
    induction F; cbn [concat]; [constructor|]. apply bytes_ok_app; split; assumption. }
  assert (NC : forall (b : N) l, nlen (b :: l) = 1 + nlen l) by (intros; unfold nlen; cbn [length]; lia).
  split.
  - unfold meta_ok. cbn [app]. split; [|split].
    + apply Forall_cons; [split; [cbn; tauto|]; cbn [fst snd]; change (256 ^ N.of_nat (wire_width 2)) with 65536; rewrite NC; lia|].
      apply Forall_cons; [split; [cbn; tauto|]; cbn [fst snd]; change (256 ^ N.of_nat (wire_width 3)) with 65536; rewrite NC; lia|].
      apply Forall_cons; [split; [cbn; tauto|]; cbn [fst snd]; change (256 ^ N.of_nat (wire_width 7)) with 256; rewrite !NC; lia|].
      apply Forall_cons; [split; [cbn; tauto|]; cbn [fst snd]; change (256 ^ N.of_nat (wire_width 1)) with 256; exact GB2|].
      destruct (w_frame w); [|apply Forall_nil]. apply Forall_cons; [|apply Forall_nil]. split; [cbn; tauto|].
      cbn [fst snd]. change (256 ^ N.of_nat (wire_width 4)) with 65536. rewrite NC. specialize (HL eq_refl). lia.
    + apply Forall_cons; [apply Forall_cons; [reflexivity|exact O9]|].
      apply Forall_cons; [apply Forall_cons; [reflexivity|exact PB]|].
      apply Forall_cons; [apply Forall_cons; [reflexivity|]; apply Forall_cons; [unfold byte_ok; lia|exact O4]|].
      apply Forall_cons; [exact GB1|].
      destruct (w_frame w); [|apply Forall_nil]. apply Forall_cons; [|apply Forall_nil]. apply Forall_cons; [reflexivity|exact LB].
    + repeat (apply Forall_cons; [discriminate|]). destruct (w_frame w); [|apply Forall_nil]. apply Forall_cons; [discriminate|apply Forall_nil].
  - destruct (w_frame w); cbn; lia.
Qed.

(** What the parser makes of a SEI of an older version. *)
Lemma old_parse c k xs y : old_sei_for C c w k xs y ->
  exists n n2 sig ts sp, let fs := old_fields C w k xs ts in let l := fs ++ [old_sig w sig] in
    parse_nalu y c true true = Def n /\ n_valid n = 1%Z /\ n_gop_sei n = true /\ N.land (n_reserved n) 48 = 0 /\ n_golden n = false /\
    n_hashable n = true /\ update_hashable n = Def n2 /\ hash_input n2 = Def sp /\ sp <> [] /\ old_nalu n2 (wires l) /\
    (0 < length sig <= w_max_sig w)%nat /\
    match ts with Some t => (-9223372036854775808 <= t < 9223372036854775808)%Z | None => True end /\
    (w_frame w = true -> nlen (old_list C w xs) <= 19200) /\
    c_verify C (w_pub w) sig (old_digest C w xs sp) = 1%Z /\ Forall wire_ok l /\ y <> [].
Proof.
  intros (sig & ts & HS & HB & HT & HL & HF & EY & HV). set (fs := old_fields C w k xs ts) in *.
  destruct (old_meta k xs ts HL) as [HM HN]. fold fs in HM, HN.
  destruct (old_sig_wire sig (proj2 HS)) as [W WL]. set (f := old_sig w sig) in *.
  assert (F5 : f = (5, snd f)) by reflexivity.
  assert (FW : Forall wire_ok (fs ++ [f])) by (apply Forall_app; split; [apply HM|constructor; [exact W|constructor]]).
  assert (HWB : bytes_ok (wires (fs ++ [f]))).
  { rewrite wires_app. apply bytes_ok_app. split; [apply wires_ok, HM|].
    rewrite wires_fields by (apply Forall_cons; [exact W|apply Forall_nil]).
    apply fields_bytes_ok; (apply Forall_cons; [|apply Forall_nil]); [apply wire_ok_fits, W|]. apply old_sig_ok, HB. }
  assert (HLN : nlen (wires (fs ++ [f])) + 17 < 2 ^ 31).
  { pose proof (wires_len _ FW) as X. rewrite nlen_app' in X. change (nlen [f]) with 1 in X. change (2 ^ 31) with 2147483648. lia. }
  assert (B1 : byte_ok (old_flags (w_epb w))) by (destruct (w_epb w); reflexivity).
  assert (B2 : (128 <=? old_flags (w_epb w)) = w_epb w) by (destruct (w_epb w); reflexivity).
  assert (B3 : (64 <=? old_flags (w_epb w) mod 128) = false) by (destruct (w_epb w); reflexivity).
  destruct (parse_flags_sei c (w_epb w) false _ _ B1 B2 B3 HWB HLN) as (n & E & P & _).
  assert (FE : w_epb w = true -> nlen (esc 0 (wires fs)) < nlen (wires (fs ++ [(5, snd f)]))).
  { intros X. specialize (HF X). rewrite <- F5, wires_app, nlen_app'. unfold wires at 3. cbn [flat_map]. rewrite app_nil_r, WL. lia. }
  destruct (update_fl c (w_epb w) false (old_flags (w_epb w)) fs (snd f) n _ _ HM W (old_sig_ok _ HB) FE P eq_refl) as (n2 & E2 & E3 & E4).
  change ((5, snd f)) with f in *.
  destruct P as (P1 & P2 & P3 & P4 & P5 & P6 & P7 & P8 & P9 & P10 & P11 & P12 & P13 & P14 & P15 & P16).
  exists n, n2, sig, ts, (fl_part c (w_epb w) (old_flags (w_epb w)) fs f). cbv zeta. fold fs f.
  assert (PR : N.land (n_reserved n) 48 = 0) by (rewrite P12; destruct (w_epb w); reflexivity).
  split; [rewrite EY; exact E|]. repeat (split; [assumption|]).
  split; [unfold fl_part, sei_front; destruct c; discriminate|].
  split.
  { rewrite E4. unfold old_nalu. cbn [n_gop_sei n_golden n_hashable n_valid n_first_in_gop n_first_part n_last_part n_reserved n_tlv_size n_tlv_mem].
    repeat (split; [assumption|]). change (2 ^ 31) with 2147483648 in *. lia. }
  repeat (split; [assumption|]). rewrite EY. unfold old_sei. discriminate.
Qed.

(** ** Decoding *)

Fixpoint l_decode_fields (d : dec) (fs : list (N * list N)) : out (dec * svrc) :=
  match fs with
  | [] => Def (d, SV_OK)
  | (t, v) :: r =>
      do (d1, st) <- l_decode_tag C d t v (nlen v);
      if is_ok st then l_decode_fields d1 r else Def (d1, st)
  end.

Lemma l_decode_tag_mono d t p n r x : l_decode_tag C d t p n = Def x -> l_decode_tag C d t (p ++ r) n = Def x.
Proof.
  unfold l_decode_tag. destruct (t =? 1); [|apply decode_tag_mono]. unfold l_decode_general.
  destruct p as [|b p]; [discriminate|]. cbn [app read_8bits obind]. destruct ((b <? 1) || (2 <? b)); [auto|].
  intros E. exact (decode_general_mono _ (b :: p) _ _ _ E).
Qed.

Lemma l_loop_fields fs : forall d r fuel st0 x,
  Forall field_fits fs -> l_decode_fields d fs = Def x ->
  (length (concat (map field_bytes fs)) <= fuel)%nat -> (fs = [] -> x = (d, st0)) ->
  l_tlv_loop C fuel d (concat (map field_bytes fs) ++ r) (nlen (concat (map field_bytes fs))) st0 = Def x.
Proof.
  induction fs as [|f fs IH]; intros d r fuel st0 x HF HD Hfuel H0.
  - cbn. destruct fuel; cbn; rewrite (H0 eq_refl); reflexivity.
  - apply Forall_cons_iff in HF as [Hf HF]. cbn [map concat].
    destruct f as [t v].
    pose proof (field_bytes_len _ Hf) as HL. cbn [fst snd] in HL.
    cbn [map concat] in Hfuel. rewrite app_length in Hfuel.
    assert (L3 : (2 <= length (field_bytes (t, v)))%nat).
    { destruct Hf as [K _]. cbn [fst] in K. unfold field_bytes. cbn [length]. rewrite app_length.
      unfold known_tag in K; cbn in K. repeat (destruct K as [<-|K]; [cbn; lia|]). destruct K. }
    destruct fuel as [|fuel]; [lia|].
    cbn [l_tlv_loop].
    assert (E0 : nlen (field_bytes (t, v) ++ concat (map field_bytes fs)) =? 0 = false).
    { apply N.eqb_neq. unfold nlen. rewrite app_length. lia. }
    rewrite E0, <- app_assoc, (header_field (t, v) _ Hf). cbn [obind fst snd].
    cbn [l_decode_fields] in HD.
    destruct (l_decode_tag C d t v (nlen v)) as [[d1 st]|] eqn:ED; cbn [obind] in HD; [|discriminate].
    rewrite (l_decode_tag_mono _ _ _ _ _ _ ED). cbn [obind].
    destruct (is_ok st) eqn:OK; [|exact HD].
    assert (ES : skipn (N.to_nat (nlen v)) (v ++ concat (map field_bytes fs) ++ r)
                 = concat (map field_bytes fs) ++ r).
    { unfold nlen. rewrite Nat2N.id. apply skipn_app_exact. }
    rewrite ES.
    assert (EN : nlen (field_bytes (t, v) ++ concat (map field_bytes fs))
                 - N.of_nat (1 + len_bytes t) - nlen v = nlen (concat (map field_bytes fs))).
    { unfold nlen in *. rewrite app_length. lia. }
    rewrite EN. apply IH; [exact HF|exact HD|lia|].
    intros ->. cbn [l_decode_fields] in HD. congruence.
Qed.
Lemma l_tlv_fields d fs r x : fs <> [] -> Forall wire_ok fs -> l_decode_fields d fs = Def x ->
  l_tlv_decode C d (wires fs ++ r) (nlen (wires fs)) = Def x.
Proof.
  intros NE HF HD. rewrite wires_fields by exact HF. unfold l_tlv_decode, fields_bytes.
  assert (nlen (concat (map field_bytes fs)) =? 0 = false) as ->.
  { destruct fs as [|[t v] fs]; [congruence|]. apply N.eqb_neq. cbn. unfold nlen. cbn [length]. lia. }
  apply l_loop_fields; [eapply Forall_impl; [|exact HF]; intros f; apply wire_ok_fits|exact HD|rewrite app_length; lia|intros X; destruct (NE X)].
Qed.

Lemma l_dec_cons d t v r d1 : l_decode_tag C d t v (nlen v) = Def (d1, SV_OK) ->
  l_decode_fields d ((t, v) :: r) = l_decode_fields d1 r.
Proof. intros E. cbn [l_decode_fields]. rewrite E. reflexivity. Qed.

Definition old_gen_dec (k n : N) (ts : option Z) (d : dec) : dec :=
  (match ts with
   | Some t => fun d => set_d_l_ts t (set_d_l_has_ts true (set_d_ts t (set_d_has_ts true d)))
   | None => fun d => set_d_l_has_ts false (set_d_has_ts false d)
   end) (set_d_sver [1; 1; 0] (set_d_version [1; 1; 0] (set_d_num_sent (n mod 2 ^ 16) (set_d_counter (k mod 2 ^ 32) d)))).
Lemma old_dec_general d k n ts :
  match ts with Some t => (-9223372036854775808 <= t < 9223372036854775808)%Z | None => True end ->
  l_decode_general d (old_general k n ts) (nlen (old_general k n ts)) = Def (old_gen_dec k n ts d, SV_OK).
Proof.
  intros HT.
  assert (LW : nlen (old_general k n ts) = match ts with Some _ => 19 | None => 11 end).
  { unfold old_general, nlen. rewrite !app_length, !digits_len. destruct ts; cbn [length]; rewrite ?digits_len; reflexivity. }
  rewrite LW. unfold l_decode_general, old_general, decode_general. cbn [app read_8bits obind].
  assert ((2 <? 1) || (2 <? 2) = false) as -> by reflexivity. assert ((2 <? 1) || (3 <? 2) = false) as -> by reflexivity.
  rewrite digits_be32. rewrite read_be32 by (change (2 ^ 32) with 4294967296; lia). cbn [obind].
  rewrite digits_be16 by (change (2 ^ 16) with 65536; lia).
  rewrite read_be16 by (change (2 ^ 16) with 65536; lia). cbn [obind].
  change (1 :: 1 :: 0 :: match ts with Some t => 1 :: digits 8 (Z.to_N (t mod 2 ^ 64)) | None => [0] end)
    with ([1; 1; 0] ++ match ts with Some t => 1 :: digits 8 (Z.to_N (t mod 2 ^ 64)) | None => [0] end).
  rewrite take_mem_n by reflexivity. cbn [obind].
  assert (2 <? 2 = false) as -> by reflexivity. assert (2 <? 3 = true) as -> by reflexivity.
  destruct ts as [t|]; cbn [app read_8bits obind].
  - assert (1 mod 2 =? 1 = true) as -> by reflexivity.
    rewrite <- (app_nil_r (digits 8 _)), digits_be64. change (Z.to_N (t mod 2 ^ 64)) with (z_to_u64 t).
    rewrite read_be64 by apply z_to_u64_lt. cbn [obind]. rewrite u64_z_round by assumption. reflexivity.
  - assert (0 mod 2 =? 1 = false) as -> by reflexivity. reflexivity.
Qed.

Lemma old_dec_signature d sig : (length sig <= w_max_sig w)%nat ->
  match d_sig d with Some s => length s = w_max_sig w | None => True end ->
  decode_signature d (snd (old_sig w sig)) (nlen (snd (old_sig w sig))) =
  Def (set_d_hash_type (if w_frame w then 1 else 0) (set_d_enc 0 (set_d_sig_size (nlen sig) (set_d_sig (Some (padded (w_max_sig w) sig)) d))), SV_OK).
Proof.
  intros HL HS. pose proof (os_sig _ _ _ OS) as HMx.
  assert (LP : length (padded (w_max_sig w) sig) = w_max_sig w) by (unfold padded; rewrite app_length, repeat_length; lia).
  rewrite (old_sig_len sig HL). unfold decode_signature, old_sig. cbn [snd app read_8bits obind].
  rewrite digits_be16 by (unfold nlen; lia). rewrite read_be16 by (unfold nlen; lia). cbn [obind].
  assert (1 =? 0 = false) as -> by reflexivity.
  assert (2 <=? (if w_frame w then 1 else 0) = false) as -> by (destruct (w_frame w); reflexivity).
  rewrite sub64_small by lia. replace (5 + N.of_nat (w_max_sig w) - 5) with (N.of_nat (w_max_sig w)) by lia.
  destruct (N.ltb_spec (N.of_nat (w_max_sig w)) (nlen sig)) as [L|_]; [unfold nlen in L; lia|].
  rewrite Nat2N.id. pose proof (take_mem_n (w_max_sig w) (padded (w_max_sig w) sig) [] (eq_sym LP)) as T. rewrite app_nil_r in T.
  destruct (d_sig d) as [s|].
  - assert (E1 : negb (nlen s =? N.of_nat (w_max_sig w)) = false).
    { unfold nlen. rewrite HS, N.eqb_refl. reflexivity. }
    rewrite E1, T. reflexivity.
  - destruct (N.ltb_spec (5 + N.of_nat (w_max_sig w)) 5); [lia|]. rewrite T. reflexivity.
Qed.

Lemma o_pub d : (d_has_pub d = true -> d_pub d = w_pub w) ->
  decode_public_key C d (2 :: w_pub w) (nlen (2 :: w_pub w)) =
  Def (set_d_vkey (Some (w_pub w)) (set_d_has_pub true (set_d_pub (w_pub w) d)), SV_OK).
Proof. destruct OS as [O1 (O2 & O3 & O4) (O5 & O6) (O7 & O8 & O9) (O10 & O11) O12]. intros X. apply dec_public_key; assumption. Qed.
Lemma o_prod d : exists l,
  decode_product d (1 :: flat_map prod_string (w_prod w)) (nlen (1 :: flat_map prod_string (w_prod w))) =
  Def (set_d_rprod l (set_d_prod l d), SV_OK).
Proof. destruct OS as [O1 (O2 & O3 & O4) (O5 & O6) (O7 & O8 & O9) (O10 & O11) O12]. apply dec_product; assumption. Qed.
Lemma o_crypto d : h_type (d_handle d) = h_oid (d_handle d) ->
  exists h', h_type h' = w_oid w /\ h_oid h' = w_oid w /\ h_prim h' = h_prim (d_handle d) /\
  decode_crypto C d ([1; nlen (w_oid w)] ++ w_oid w) (nlen ([1; nlen (w_oid w)] ++ w_oid w)) =
  Def (set_d_vhs hs (set_d_algo_known true (set_d_handle h' d)), SV_OK).
Proof. destruct OS as [O1 (O2 & O3 & O4) (O5 & O6) (O7 & O8 & O9) (O10 & O11) O12]. intros X. apply dec_crypto; assumption. Qed.
Lemma o_list d l : nlen l <= 19200 -> decode_hash_list d (1 :: l) (nlen (1 :: l)) = Def (set_d_list l d, SV_OK).
Proof. destruct OS as [O1 (O2 & O3 & O4) (O5 & O6) (O7 & O8 & O9) (O10 & O11) O12]. intros X. eapply dec_list; eassumption. Qed.

(** A SEI of an older version is decoded without error. *)
Lemma old_dec d k xs ts sig : gdec d -> (length sig <= w_max_sig w)%nat ->
  match ts with Some t => (-9223372036854775808 <= t < 9223372036854775808)%Z | None => True end ->
  (w_frame w = true -> nlen (old_list C w xs) <= 19200) ->
  exists d', l_decode_fields d (old_fields C w k xs ts ++ [old_sig w sig]) = Def (d', SV_OK) /\
    gdec d' /\ d_counter d' = k mod 2 ^ 32 /\ d_num_sent d' = nlen xs mod 2 ^ 16 /\
    d_sig d' = Some (padded (w_max_sig w) sig) /\ d_sig_size d' = nlen sig /\ d_hash_type d' = (if w_frame w then 1 else 0) /\
    (w_frame w = true -> d_list d' = old_list C w xs).
Proof.
  intros G HS HT HL. pose proof OS as [O1 (O2 & O3 & O4) (O5 & O6) (O7 & O8 & O9) (O10 & O11) O12].
  unfold old_fields, recurrent_fields. rewrite O5. rewrite <- !app_assoc. cbn [app].
  erewrite l_dec_cons by (exact (o_pub d (fun _ => gd_pub _ _ d G))).
  match goal with |- context [l_decode_fields ?e _] => set (d1 := e) end.
  destruct (o_prod d1) as [l EP]. erewrite l_dec_cons by exact EP.
  set (d2 := set_d_rprod l (set_d_prod l d1)).
  assert (T2 : h_type (d_handle d2) = h_oid (d_handle d2)).
  { change (d_handle d2) with (d_handle d). rewrite (gd_oid _ _ _ G), (gd_type _ _ _ G). reflexivity. }
  destruct (o_crypto d2 T2) as (h' & H1 & H2 & H3 & EC). erewrite l_dec_cons by exact EC.
  match goal with |- context [l_decode_fields ?e _] => set (d3 := e) end.
  assert (G3 : gdec d3).
  { destruct G. constructor; try assumption; try reflexivity.
    change (match h_prim h' with Some x => x_oid x = w_oid w | None => True end). rewrite H3. exact gd_prim. }
  erewrite l_dec_cons by exact (old_dec_general d3 k (nlen xs) ts HT).
  set (d4 := old_gen_dec k (nlen xs) ts d3).
  assert (G4 : gdec d4).
  { destruct G3. unfold d4, old_gen_dec. destruct ts; constructor; assumption. }
  assert (K4 : d_counter d4 = k mod 2 ^ 32 /\ d_num_sent d4 = nlen xs mod 2 ^ 16).
  { unfold d4, old_gen_dec. destruct ts; split; reflexivity. }
  clearbody d4. destruct K4 as [K4 K5].
  assert (X : exists d5, gdec d5 /\ d_counter d5 = k mod 2 ^ 32 /\ d_num_sent d5 = nlen xs mod 2 ^ 16 /\ (w_frame w = true -> d_list d5 = old_list C w xs) /\
    l_decode_fields d4 ((if w_frame w then [(4, 1 :: old_list C w xs)] else []) ++ [old_sig w sig]) = l_decode_fields d5 [old_sig w sig]).
  { destruct (w_frame w).
    - cbn [app]. erewrite l_dec_cons by exact (o_list d4 _ (HL eq_refl)).
      eexists. split; [|split; [|split; [|split; [|reflexivity]]]]; try assumption; [destruct G4; constructor; assumption|reflexivity].
    - exists d4. repeat (split; [assumption|]). split; [discriminate|reflexivity]. }
  destruct X as (d5 & G5 & K6 & K7 & K8 & E5). change [(1, old_general k (nlen xs) ts)] with ([(1, old_general k (nlen xs) ts)] ++ []).
  rewrite E5. change [old_sig w sig] with [(5, snd (old_sig w sig))]. erewrite (l_dec_cons d5 5 _ []) by exact (old_dec_signature d5 sig HS (gd_sig _ _ _ G5)). cbn [l_decode_fields].
  eexists. split; [reflexivity|]. split; [|split; [exact K6|split; [exact K7|split; [reflexivity|split; [reflexivity|split; [reflexivity|exact K8]]]]]].
  destruct G5. constructor; try assumption. cbn. unfold padded. rewrite app_length, repeat_length. lia.
Qed.

(** The fields a session reads before it hands a recording over. *)
Lemma old_first d k xs ts sig : h_type (d_handle d) = h_oid (d_handle d) ->
  match h_prim (d_handle d) with Some x => x_oid x = w_oid w | None => True end -> d_has_pub d = false ->
  match d_sig d with Some s => length s = w_max_sig w | None => True end ->
  length (d_linked d) = 64%nat -> length (d_gop d) = 64%nat -> d_l_changed d = false ->
  exists d', gdec d' /\ opt_fields_dec C d (old_fields C w k xs ts ++ [old_sig w sig]) false = Def (d', true).
Proof.
  intros HT HN HH HS L1 L2 HCh. pose proof OS as [O1 (O2 & O3 & O4) (O5 & O6) (O7 & O8 & O9) (O10 & O11) O12].
  unfold old_fields, recurrent_fields. rewrite O5. rewrite <- !app_assoc. cbn [app opt_fields_dec]. assert (always_present 2 = false) as -> by reflexivity.
  change (decode_tag C d 2) with (decode_public_key C d).
  rewrite (o_pub d) by (intros E; congruence). cbn [obind is_ok svrc_eqb].
  assert (always_present 3 = false) as -> by reflexivity.
  match goal with |- context [decode_tag C ?e 3] => set (d1 := e) end.
  destruct (o_prod d1) as [l EP]. change (decode_tag C d1 3) with (decode_product d1). rewrite EP. cbn [obind is_ok svrc_eqb].
  assert (always_present 7 = false) as -> by reflexivity.
  match goal with |- context [decode_tag C ?e 7] => set (d2 := e) end.
  destruct (o_crypto d2 HT) as (h' & H1 & H2 & H3 & EC). cbn [app] in EC.
  change (decode_tag C d2 7) with (decode_crypto C d2). rewrite EC. cbn [obind is_ok svrc_eqb].
  assert (always_present 1 = true) as -> by reflexivity.
  exists (set_d_vhs hs (set_d_algo_known true (set_d_handle h' d2))). split.
  - constructor; try assumption; try reflexivity; cbn. rewrite H3. exact HN.
  - destruct (w_frame w); reflexivity.
Qed.
Lemma old_opt_tags k xs ts sig : Forall (fun f : N * list N => fst f <= 8) (old_fields C w k xs ts ++ [old_sig w sig]).
Proof.
  pose proof OS as [_ _ (O5 & _) _ _ _]. unfold old_fields, recurrent_fields. rewrite O5. rewrite <- !app_assoc. cbn [app].
  repeat (apply Forall_cons; [cbn; lia|]). destruct (w_frame w); cbn [app]; repeat (apply Forall_cons; [cbn; lia|]); apply Forall_nil.
Qed.

End OldDec.

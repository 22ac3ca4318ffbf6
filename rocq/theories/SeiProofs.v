(** Lemmas about the SEI format: writing, parsing, finding the signature. *)
From Verif Require Import Base BaseProofs Epb EpbProofs Nalu NaluSpec NaluProofs Crypto Types Tlv TlvProofs
  EncProofs CodecSpec CodecProofs SeiSpec.
Local Open Scope N_scope.

(** ** Escaping *)

(** The 16-bit history and the number of zeros agree. *)
Definition hz (lt : N) (z : nat) : Prop :=
  lt < 65536 /\ (lt = 0 <-> (2 <= z)%nat) /\ (lt mod 256 = 0 <-> (1 <= z)%nat).

Lemma esc_write l : forall lt z, bytes_ok l -> hz lt z ->
  snd (write_bytes true lt l) = esc z l /\ hz (fst (write_bytes true lt l)) (zeros_after z l).
Proof.
  induction l as [|b l IH]; intros lt z Hb Hz; [split; [reflexivity|exact Hz]|].
  apply Forall_cons_iff in Hb as [B Hb]. unfold byte_ok in B. destruct Hz as (HL & H0 & H1).
  cbn [write_bytes esc zeros_after]. unfold write_byte. cbn [andb].
  destruct (N.ltb_spec b 4) as [L4|L4]; cbn [andb].
  - destruct (N.leb_spec b 3) as [L3|L3]; [|lia].
    destruct (N.eqb_spec lt 0) as [Z|Z].
    + assert (Nat.leb 2 z = true) as -> by (apply Nat.leb_le; tauto). cbn [andb].
      specialize (IH (lt_push (lt_push lt 3) b) (if b =? 0 then 1%nat else 0%nat) Hb).
      destruct (write_bytes true (lt_push (lt_push lt 3) b) l) as [lt2 o2]. cbn [fst snd] in *.
      destruct IH as [I1 I2].
      { unfold hz, lt_push. subst lt. destruct (N.eqb_spec b 0); repeat split; intros; try lia. }
      split; [rewrite I1; reflexivity|exact I2].
    + assert (Nat.leb 2 z = false) as -> by (apply Nat.leb_gt; lia). cbn [andb].
      specialize (IH (lt_push lt b) (if b =? 0 then S z else 0%nat) Hb).
      destruct (write_bytes true (lt_push lt b) l) as [lt2 o2]. cbn [fst snd] in *.
      destruct IH as [I1 I2].
      { unfold hz, lt_push. destruct (N.eqb_spec b 0); repeat split; intros; try lia. }
      split; [rewrite I1; reflexivity|exact I2].
  - destruct (N.leb_spec b 3) as [L3|L3]; [lia|]. rewrite andb_false_r.
    specialize (IH (lt_push lt b) (if b =? 0 then S z else 0%nat) Hb).
    destruct (write_bytes true (lt_push lt b) l) as [lt2 o2]. cbn [fst snd] in *.
    destruct IH as [I1 I2].
    { unfold hz, lt_push. destruct (N.eqb_spec b 0); repeat split; intros; try lia. }
    split; [rewrite I1; reflexivity|exact I2].
Qed.

Lemma hz_init lt : lt < 65536 -> lt mod 256 <> 0 -> hz lt 0.
Proof. intros H1 H2. unfold hz. repeat split; intros; lia. Qed.

Lemma wrapped_write epb lt l : bytes_ok l -> lt < 65536 -> lt mod 256 <> 0 ->
  snd (write_bytes epb lt l) = wrapped epb l.
Proof.
  intros Hb H1 H2. destruct epb; cbn [wrapped].
  - apply esc_write; [exact Hb|apply hz_init; assumption].
  - rewrite write_bytes_plain. reflexivity.
Qed.

Lemma esc_app a b : forall z, esc z (a ++ b) = esc z a ++ esc (zeros_after z a) b.
Proof.
  induction a as [|x a IH]; intros z; [reflexivity|]. cbn [app esc zeros_after].
  destruct (_ && _); cbn [app]; rewrite IH; reflexivity.
Qed.

Lemma esc_longer l : forall z, (length l <= length (esc z l))%nat.
Proof.
  induction l as [|b l IH]; intros z; [reflexivity|]. cbn [esc].
  destruct (_ && _); cbn [length]; [specialize (IH (if b =? 0 then 1%nat else 0%nat))|
    specialize (IH (if b =? 0 then S z else 0%nat))]; lia.
Qed.

Lemma esc_same l : forall z, length (esc z l) = length l -> esc z l = l.
Proof.
  induction l as [|b l IH]; intros z H; [reflexivity|]. cbn [esc] in *.
  destruct (_ && _); cbn [length] in H.
  - pose proof (esc_longer l (if b =? 0 then 1%nat else 0%nat)). lia.
  - f_equal. apply IH. lia.
Qed.

Lemma esc_big b l z : 3 < b -> esc z (b :: l) = b :: esc 0 l.
Proof.
  intros H. cbn [esc]. destruct (N.leb_spec b 3); [lia|]. rewrite andb_false_r.
  destruct (N.eqb_spec b 0); [lia|reflexivity].
Qed.

Lemma esc_app_stop z l : esc z (l ++ [128]) = esc z l ++ [128].
Proof. rewrite esc_app. rewrite esc_big by lia. reflexivity. Qed.

Lemma ff_size_ok n : bytes_ok (ff_size n).
Proof.
  unfold ff_size. apply bytes_ok_app. split.
  - apply Forall_forall. intros x Hx. apply repeat_spec in Hx. subst. reflexivity.
  - constructor; [unfold byte_ok; lia|constructor].
Qed.

Lemma sei_flags_range e g : 48 <= sei_flags e g < 256.
Proof. unfold sei_flags. destruct e, g; lia. Qed.

Lemma sei_front_ok c n res : byte_ok res -> bytes_ok (sei_front c n res).
Proof.
  intros H. unfold sei_front. apply bytes_ok_app; split; [destruct c; repeat constructor|].
  apply bytes_ok_app; split; [apply ff_size_ok|]. apply bytes_ok_app; split; [repeat constructor|].
  repeat constructor. exact H.
Qed.

Lemma esc_uuid z r : (z < 2)%nat -> esc z (sv_uuid ++ r) = sv_uuid ++ esc 0 r.
Proof. intros Hz. unfold sv_uuid. cbn [app]. rewrite !esc_big by lia. reflexivity. Qed.

Lemma esc_ff n r : esc 0 (ff_size n ++ sv_uuid ++ r) = ff_size n ++ sv_uuid ++ esc 0 r.
Proof.
  unfold ff_size. rewrite <- !app_assoc.
  induction (N.to_nat (n / 255)) as [|k IH].
  - cbn [repeat app]. cbn [esc Nat.leb andb].
    destruct (n mod 255 =? 0); f_equal; apply esc_uuid; lia.
  - cbn [repeat]. rewrite <- !app_comm_cons, esc_big by lia. f_equal. exact IH.
Qed.

Lemma esc_front c n res r : 3 < res -> esc 0 (sei_front c n res ++ r) = sei_front c n res ++ esc 0 r.
Proof.
  intros H. unfold sei_front. rewrite <- !app_assoc.
  assert (G : esc 0 (ff_size n ++ sv_uuid ++ [res] ++ r) = ff_size n ++ sv_uuid ++ [res] ++ esc 0 r).
  { rewrite esc_ff. cbn [app]. rewrite esc_big by exact H. reflexivity. }
  destruct c; cbn [sei_type_bytes app].
  - rewrite !esc_big by lia. do 2 f_equal. exact G.
  - rewrite (esc_big 78) by lia. f_equal.
    match goal with |- esc 0 (1 :: ?l) = _ => change (esc 0 (1 :: l)) with (1 :: esc 0 l) end.
    f_equal. rewrite esc_big by lia. f_equal. exact G.
Qed.

(** ** Parsing *)

Lemma get_payload_ff n r : get_payload_size (ff_size n ++ r) = Def (n, length (ff_size n), r).
Proof.
  assert (G : forall k m, m < 255 -> get_payload_size (repeat 255 k ++ [m] ++ r) =
    Def (255 * N.of_nat k + m, (k + 1)%nat, r)).
  { induction k as [|k IH]; intros m Hm.
    - cbn [repeat app get_payload_size]. destruct (N.eqb_spec m 255); [lia|]. do 2 f_equal.
    - cbn [repeat app get_payload_size]. cbn [app] in IH. rewrite IH by exact Hm.
      assert (255 =? 255 = true) as -> by reflexivity. cbn [obind]. do 3 f_equal; lia. }
  unfold ff_size. rewrite <- app_assoc. rewrite G by lia. rewrite app_length, repeat_length. cbn [length].
  do 3 f_equal; lia.
Qed.

Lemma uuid_eq : uuid_sv = sv_uuid.
Proof. reflexivity. Qed.

(** Offset of the payload (UUID) in the NALU. *)
Definition sei_poff (c : codec) (n : N) : nat := (length (sei_type_bytes c) + length (ff_size n))%nat.

Lemma sei_front_len c n res : length (sei_front c n res) = (sei_poff c n + 17)%nat.
Proof. unfold sei_front, sei_poff. rewrite !app_length. cbn [length sv_uuid]. lia. Qed.

Lemma parse_front c n res E d (check : bool) t :
  let body := sei_front c n res ++ E in
  (if check then strip_trailing body else Def body) = Def t ->
  parse_body body d c check true =
  remove_epb (mkNalu d body (nlen t) TSei 1 true n 0 0 [] 0
    (Z.of_N (nlen t) - Z.of_nat (sei_poff c n) - Z.of_N n - (if (last t 0%N =? 128)%N then 1 else 0))%Z
    false false true true true false false) (sei_poff c n).
Proof.
  intros body Ht. unfold parse_body. rewrite Ht. cbn [obind].
  assert (HH : parse_header c body = Def (TSei, false, true)).
  { unfold body, sei_front. destruct c; cbn [sei_type_bytes app parse_header]; reflexivity. }
  rewrite HH. cbn [obind ntype_eqb orb andb negb].
  assert (HS : skipn (header_len c) body = 5 :: ff_size n ++ sv_uuid ++ [res] ++ E).
  { unfold body, sei_front. destruct c; cbn [sei_type_bytes app header_len skipn];
      rewrite <- !app_assoc; reflexivity. }
  rewrite HS. cbn [N.eqb Pos.eqb]. rewrite get_payload_ff. cbn [obind].
  assert (length (sv_uuid ++ [res] ++ E) <? 16 = false)%nat as ->.
  { apply Nat.ltb_ge. rewrite app_length. cbn [sv_uuid length]. lia. }
  assert (firstn 16 (sv_uuid ++ [res] ++ E) = sv_uuid) as -> by reflexivity.
  rewrite uuid_eq, bytes_eqb_refl. cbn [andb].
  assert ((header_len c + 1 + length (ff_size n))%nat = sei_poff c n) as ->.
  { unfold sei_poff. destruct c; reflexivity. }
  reflexivity.
Qed.

Lemma strip_last l x : x <> 0 -> strip_trailing (l ++ [x]) = Def (l ++ [x]).
Proof.
  intros H. unfold strip_trailing. rewrite rev_app_distr. cbn [rev app drop_zeros].
  destruct x; [lia|]. cbn [rev]. rewrite rev_involutive. reflexivity.
Qed.

Lemma skip_poff c n res E :
  skipn (sei_poff c n + 16) (sei_front c n res ++ E) = res :: E.
Proof.
  unfold sei_front, sei_poff. rewrite <- !app_assoc.
  rewrite (app_assoc (sei_type_bytes c)), (app_assoc (sei_type_bytes c ++ _)).
  replace (length (sei_type_bytes c) + length (ff_size n) + 16)%nat
    with (length ((sei_type_bytes c ++ ff_size n) ++ sv_uuid)).
  - rewrite skipn_app_exact. reflexivity.
  - rewrite !app_length. reflexivity.
Qed.

(** What the parser returns for a SEI of the right format. *)
Definition parsed_sei (c : codec) (golden epb : bool) (d : N) (W : list N) (n : nalu) (body : list N) : Prop :=
  n_data_size n = d /\ n_type n = TSei /\ n_valid n = 1%Z /\ n_hashable n = true /\
  n_gop_sei n = true /\ n_primary n = false /\ n_first_in_gop n = false /\
  n_first_part n = true /\ n_last_part n = true /\
  n_golden n = golden /\ n_with_epb n = epb /\ n_reserved n = sei_flags epb golden /\
  n_payload_size n = 17 + nlen W /\
  n_tlv_size n = nlen W /\ (exists r, n_tlv_mem n = W ++ r) /\
  n_hash_mem n = body /\ n_hash_size n = nlen body /\
  n_tlv_off n = length (sei_front c (17 + nlen W) (sei_flags epb golden)).

Lemma flags_bits epb golden :
  (128 <=? sei_flags epb golden) = epb /\ (64 <=? sei_flags epb golden mod 128) = golden.
Proof. destruct epb, golden; split; reflexivity. Qed.

Lemma tlv_size_front (W : list N) : nlen W + 17 < 2 ^ 31 -> sub64 (sub64 (17 + nlen W) 16) 1 = nlen W.
Proof.
  intros H. change (2 ^ 31) with 2147483648 in H. unfold sub64, u64. lia.
Qed.

Lemma nlen_app' {A} (a b : list A) : nlen (a ++ b) = nlen a + nlen b.
Proof. unfold nlen. rewrite app_length. lia. Qed.

(** A SEI as the signer writes it: [E] are the metadata [W] with or without escapes. *)
Lemma parse_sei c epb golden W : bytes_ok W -> nlen W + 17 < 2 ^ 31 ->
  let front := sei_front c (17 + nlen W) (sei_flags epb golden) in
  let body := front ++ wrapped epb W ++ [128] in
  exists n, parse_nalu ([0; 0; 0; 1] ++ body) c true true = Def n /\
    parsed_sei c golden epb (nlen ([0; 0; 0; 1] ++ body)) W n body /\
    n_epb n = (Z.of_N (nlen (wrapped epb W)) - Z.of_N (nlen W))%Z.
Proof.
  intros HW HL front body. pose proof (sei_flags_range epb golden) as HR.
  assert (HB : nlen (wrapped epb W) <= 2 * nlen W).
  { destruct epb; cbn [wrapped]; [|lia].
    pose proof (write_bytes_expansion_pot 257 W HW eq_refl) as P.
    rewrite (proj1 (esc_write W 257 0 HW (hz_init 257 eq_refl ltac:(discriminate)))) in P.
    assert (257 =? 0 = false) as E1 by reflexivity. assert (257 mod 256 =? 0 = false) as E2 by reflexivity.
    rewrite E1, E2 in P. lia. }
  assert (HF : nlen front <= 40 + nlen W).
  { unfold nlen, front. rewrite sei_front_len. unfold sei_poff, ff_size. rewrite app_length, repeat_length.
    assert ((17 + nlen W) / 255 <= 17 + nlen W) by (apply N.div_le_upper_bound; lia).
    unfold nlen in *. destruct c; cbn [length sei_type_bytes]; lia. }
  change (2 ^ 31) with 2147483648 in HL.
  assert (HST : strip_trailing body = Def body).
  { unfold body. rewrite !app_assoc. apply strip_last. discriminate. }
  assert (HN : nlen body = nlen front + nlen (wrapped epb W) + 1).
  { unfold body. rewrite !nlen_app'. unfold nlen; cbn [length]. lia. }
  rewrite (parse_nalu_split [0; 0; 0; 1] body).
  2:{ reflexivity. }
  2:{ rewrite nlen_app'. rewrite HN. change (nlen [0; 0; 0; 1]) with 4.
      change (2 ^ 64) with 18446744073709551616. lia. }
  2:{ intros _. exists body. exact HST. }
  2:{ unfold body, front, sei_front. destruct c; discriminate. }
  pose proof (parse_front c (17 + nlen W) (sei_flags epb golden) (wrapped epb W ++ [128])
    (nlen ([0; 0; 0; 1] ++ body)) true body HST) as PF.
  cbv zeta in PF. fold front in PF. fold body in PF. rewrite PF. clear PF.
  assert (last body 0 =? 128 = true) as ->.
  { unfold body. rewrite !app_assoc, last_last. reflexivity. }
  unfold remove_epb. cbn [n_hashable n_gop_sei n_valid n_hash_mem n_payload_size n_epb n_data_size
    n_hash_size n_type n_primary n_first_in_gop n_first_part n_last_part negb orb Z.leb Z.compare].
  unfold body at 1, front. rewrite skip_poff. fold front. fold body.
  rewrite tlv_size_front by (change (2 ^ 31) with 2147483648; lia).
  destruct (flags_bits epb golden) as [-> ->].
  assert (HE : (Z.of_N (nlen body) - Z.of_nat (sei_poff c (17 + nlen W)) - Z.of_N (17 + nlen W) - 1)%Z
               = (Z.of_N (nlen (wrapped epb W)) - Z.of_N (nlen W))%Z).
  { rewrite HN. unfold nlen at 1, front. rewrite sei_front_len. lia. }
  rewrite HE.
  destruct (Z.leb_spec (Z.of_N (nlen (wrapped epb W)) - Z.of_N (nlen W)) 0) as [H0|H0].
  - eexists. split; [reflexivity|]. split; [|cbn [n_epb]; reflexivity].
    assert (HWW : wrapped epb W = W).
    { destruct epb; cbn [wrapped] in *; [|reflexivity]. apply esc_same.
      pose proof (esc_longer W 0). unfold nlen in H0. lia. }
    unfold parsed_sei. cbn [n_hashable n_gop_sei n_valid n_hash_mem n_payload_size n_epb n_data_size
      n_hash_size n_type n_primary n_first_in_gop n_first_part n_last_part n_golden n_with_epb n_reserved
      n_tlv_size n_tlv_mem n_tlv_off].
    repeat split; try reflexivity.
    + exists [128]. rewrite HWW. reflexivity.
    + rewrite sei_front_len. lia.
  - destruct epb; cbn [wrapped] in *; [|lia].
    assert (HR2 : exists lt, read_bytes true (sei_poff c (17 + nlen W) + N.to_nat (17 + nlen W) + 1) lt_init body
       = Def (front ++ W ++ [128], lt, [])).
    { set (plain := front ++ W ++ [128]).
      assert (HP : bytes_ok plain).
      { unfold plain. apply bytes_ok_app; split; [apply sei_front_ok; unfold byte_ok; lia|].
        apply bytes_ok_app; split; [exact HW|repeat constructor]. }
      assert (HEP : snd (write_bytes true lt_init plain) = body).
      { rewrite (proj1 (esc_write plain lt_init 0 HP (hz_init lt_init eq_refl ltac:(discriminate)))).
        unfold plain, front. rewrite esc_front by lia. rewrite esc_app_stop. reflexivity. }
      exists (fst (write_bytes true lt_init plain)).
      pose proof (read_write_bytes true lt_init plain [] HP) as G.
      rewrite HEP, app_nil_r in G. rewrite <- G. f_equal.
      unfold plain, front. rewrite app_length, sei_front_len, app_length. unfold nlen; cbn [length]. lia. }
    destruct HR2 as [lt HR2]. rewrite HR2. cbn [obind].
    assert (HOFF : (sei_poff c (17 + nlen W) + N.to_nat (17 + nlen W) + 1 - N.to_nat (17 + nlen W) + 16)%nat
                   = length front).
    { unfold front. rewrite sei_front_len. lia. }
    rewrite HOFF.
    assert (Nat.ltb (length (front ++ W ++ [128])) (length front) = false) as ->.
    { apply Nat.ltb_ge. rewrite app_length. lia. }
    rewrite skipn_app_exact.
    eexists. split; [reflexivity|]. split; [|cbn [n_epb]; reflexivity].
    unfold parsed_sei. cbn [n_hashable n_gop_sei n_valid n_hash_mem n_payload_size n_epb n_data_size
      n_hash_size n_type n_primary n_first_in_gop n_first_part n_last_part n_golden n_with_epb n_reserved
      n_tlv_size n_tlv_mem n_tlv_off].
    repeat split; try reflexivity.
    + exists [128]. reflexivity.
    + rewrite sei_front_len. lia.
Qed.

(** A SEI without escapes that is escaped as a whole afterwards, as a multiplexer does. The parser
    then works on a copy without escapes. *)
Lemma parse_sei_muxed c golden W : bytes_ok W -> nlen W + 17 < 2 ^ 31 ->
  let front := sei_front c (17 + nlen W) (sei_flags false golden) in
  let plain := front ++ W ++ [128] in
  exists n, parse_nalu ([0; 0; 0; 1] ++ esc 0 plain) c true true = Def n /\
    parsed_sei c golden false (nlen ([0; 0; 0; 1] ++ esc 0 plain)) W n plain.
Proof.
  intros HW HL front plain. pose proof (sei_flags_range false golden) as HR.
  assert (HEP : esc 0 plain = front ++ wrapped true W ++ [128]).
  { unfold plain, front. rewrite esc_front by lia. rewrite esc_app_stop. reflexivity. }
  set (body := esc 0 plain) in *.
  assert (HB : nlen (esc 0 W) <= 2 * nlen W).
  { pose proof (write_bytes_expansion_pot 257 W HW eq_refl) as P.
    rewrite (proj1 (esc_write W 257 0 HW (hz_init 257 eq_refl ltac:(discriminate)))) in P.
    assert (257 =? 0 = false) as E1 by reflexivity. assert (257 mod 256 =? 0 = false) as E2 by reflexivity.
    rewrite E1, E2 in P. lia. }
  assert (HF : nlen front <= 40 + nlen W).
  { unfold nlen, front. rewrite sei_front_len. unfold sei_poff, ff_size. rewrite app_length, repeat_length.
    assert ((17 + nlen W) / 255 <= 17 + nlen W) by (apply N.div_le_upper_bound; lia).
    unfold nlen in *. destruct c; cbn [length sei_type_bytes]; lia. }
  change (2 ^ 31) with 2147483648 in HL.
  assert (HST : strip_trailing body = Def body).
  { rewrite HEP, !app_assoc. apply strip_last. discriminate. }
  assert (HN : nlen body = nlen front + nlen (esc 0 W) + 1).
  { rewrite HEP, !nlen_app'. unfold nlen; cbn [length wrapped]. lia. }
  rewrite (parse_nalu_split [0; 0; 0; 1] body).
  2:{ reflexivity. }
  2:{ rewrite nlen_app'. rewrite HN. change (nlen [0; 0; 0; 1]) with 4.
      change (2 ^ 64) with 18446744073709551616. lia. }
  2:{ intros _. exists body. exact HST. }
  2:{ rewrite HEP. unfold front, sei_front. destruct c; discriminate. }
  pose proof (parse_front c (17 + nlen W) (sei_flags false golden) (wrapped true W ++ [128])
    (nlen ([0; 0; 0; 1] ++ body)) true body) as PF.
  cbv zeta in PF. fold front in PF. rewrite <- HEP in PF. specialize (PF HST). rewrite PF. clear PF.
  assert (last body 0 =? 128 = true) as ->.
  { rewrite HEP, !app_assoc, last_last. reflexivity. }
  unfold remove_epb. cbn [n_hashable n_gop_sei n_valid n_hash_mem n_payload_size n_epb n_data_size
    n_hash_size n_type n_primary n_first_in_gop n_first_part n_last_part negb orb Z.leb Z.compare].
  assert (skipn (sei_poff c (17 + nlen W) + 16) body = sei_flags false golden :: wrapped true W ++ [128]) as ->.
  { rewrite HEP. unfold front. apply skip_poff. }
  rewrite tlv_size_front by (change (2 ^ 31) with 2147483648; lia).
  destruct (flags_bits false golden) as [-> ->].
  assert (HE : (Z.of_N (nlen body) - Z.of_nat (sei_poff c (17 + nlen W)) - Z.of_N (17 + nlen W) - 1)%Z
               = (Z.of_N (nlen (esc 0 W)) - Z.of_N (nlen W))%Z).
  { rewrite HN. unfold nlen at 1, front. rewrite sei_front_len. lia. }
  rewrite HE. cbn [wrapped] in *.
  destruct (Z.leb_spec (Z.of_N (nlen (esc 0 W)) - Z.of_N (nlen W)) 0) as [H0|H0].
  - eexists. split; [reflexivity|].
    assert (HWW : esc 0 W = W).
    { apply esc_same. pose proof (esc_longer W 0). unfold nlen in H0. lia. }
    assert (HBP : body = plain) by (rewrite HEP, HWW; reflexivity).
    unfold parsed_sei. cbn [n_hashable n_gop_sei n_valid n_hash_mem n_payload_size n_epb n_data_size
      n_hash_size n_type n_primary n_first_in_gop n_first_part n_last_part n_golden n_with_epb n_reserved
      n_tlv_size n_tlv_mem n_tlv_off].
    repeat split; try reflexivity.
    + exists [128]. rewrite HWW. reflexivity.
    + exact HBP.
    + rewrite HBP. reflexivity.
    + rewrite sei_front_len. lia.
  - assert (HP : bytes_ok plain).
    { unfold plain. apply bytes_ok_app; split; [apply sei_front_ok; unfold byte_ok; lia|].
      apply bytes_ok_app; split; [exact HW|repeat constructor]. }
    assert (HPL : (sei_poff c (17 + nlen W) + N.to_nat (17 + nlen W) + 1)%nat = length plain).
    { unfold plain, front. rewrite app_length, sei_front_len, app_length. unfold nlen; cbn [length]. lia. }
    assert (HR2 : exists lt, read_bytes true (sei_poff c (17 + nlen W) + N.to_nat (17 + nlen W) + 1) lt_init body
       = Def (plain, lt, [])).
    { assert (HEW : snd (write_bytes true lt_init plain) = body).
      { rewrite (proj1 (esc_write plain lt_init 0 HP (hz_init lt_init eq_refl ltac:(discriminate)))).
        reflexivity. }
      exists (fst (write_bytes true lt_init plain)).
      pose proof (read_write_bytes true lt_init plain [] HP) as G.
      rewrite HEW, app_nil_r in G. rewrite HPL. exact G. }
    destruct HR2 as [lt HR2]. rewrite HR2. cbn [obind].
    assert (HOFF : (sei_poff c (17 + nlen W) + N.to_nat (17 + nlen W) + 1 - N.to_nat (17 + nlen W) + 16)%nat
                   = length front).
    { unfold front. rewrite sei_front_len. lia. }
    rewrite HOFF.
    assert (Nat.ltb (length plain) (length front) = false) as ->.
    { apply Nat.ltb_ge. unfold plain. rewrite app_length. lia. }
    unfold plain at 2. rewrite skipn_app_exact.
    eexists. split; [reflexivity|].
    unfold parsed_sei. cbn [n_hashable n_gop_sei n_valid n_hash_mem n_payload_size n_epb n_data_size
      n_hash_size n_type n_primary n_first_in_gop n_first_part n_last_part n_golden n_with_epb n_reserved
      n_tlv_size n_tlv_mem n_tlv_off].
    repeat split; try reflexivity.
    + exists [128]. reflexivity.
    + rewrite HPL. reflexivity.
Qed.

(** The unfinished SEI as the signer parses it before hashing: [E] are the bytes after the front, not
    more than the payload size tells. *)
Lemma parse_unfinished c epb golden size E : 17 <= size -> size < 2 ^ 31 -> 17 + nlen E <= size ->
  let body := sei_front c size (sei_flags epb golden) ++ E in
  exists n, parse_nalu ([0; 0; 0; 1] ++ body) c false true = Def n /\
    n_type n = TSei /\ n_valid n = 1%Z /\ n_hashable n = true /\ n_gop_sei n = true /\
    n_primary n = false /\ n_first_in_gop n = false /\ n_first_part n = true /\ n_last_part n = true /\
    hash_input n = Def body.
Proof.
  intros H17 HS HE body. change (2 ^ 31) with 2147483648 in HS.
  pose proof (sei_flags_range epb golden) as HR.
  assert (HF : (length (sei_front c size (sei_flags epb golden)) <= 40 + N.to_nat size)%nat).
  { rewrite sei_front_len. unfold sei_poff, ff_size. rewrite app_length, repeat_length.
    assert (size / 255 <= size) by (apply N.div_le_upper_bound; lia).
    destruct c; cbn [length sei_type_bytes]; lia. }
  assert (HN : length body = (length (sei_front c size (sei_flags epb golden)) + length E)%nat).
  { unfold body. apply app_length. }
  rewrite (parse_nalu_split [0; 0; 0; 1] body).
  2:{ reflexivity. }
  2:{ rewrite nlen_app'. unfold nlen in *. rewrite HN. cbn [length].
      change (2 ^ 64) with 18446744073709551616. lia. }
  2:{ discriminate. }
  2:{ unfold body, sei_front. destruct c; discriminate. }
  unfold body. rewrite (parse_front c size (sei_flags epb golden) E _ false _ eq_refl). fold body.
  unfold remove_epb. cbn [n_hashable n_gop_sei n_valid n_hash_mem n_payload_size n_epb n_data_size
    n_hash_size n_type n_primary n_first_in_gop n_first_part n_last_part negb orb Z.leb Z.compare].
  unfold body at 1. rewrite skip_poff.
  match goal with |- context [(?x <=? 0)%Z] => destruct (Z.leb_spec x 0) as [H0|H0] end.
  2:{ exfalso. rewrite sei_front_len in HN. unfold nlen in *. rewrite HN in H0.
      destruct (last body 0 =? 128); lia. }
  eexists. split; [reflexivity|].
  cbn [n_hashable n_gop_sei n_valid n_hash_mem n_payload_size n_epb n_data_size
    n_hash_size n_type n_primary n_first_in_gop n_first_part n_last_part n_golden n_with_epb n_reserved
    n_tlv_size n_tlv_mem n_tlv_off].
  repeat split. unfold hash_input. cbn [n_hash_size n_hash_mem]. rewrite N.leb_refl.
  unfold nlen. rewrite Nat2N.id, firstn_all. reflexivity.
Qed.

(** ** Finding the signature *)

Lemma len_bytes_width t : In t [1; 2; 3; 4; 5; 6; 7; 129] -> len_bytes t = wire_width t.
Proof. cbn. intros H. repeat (destruct H as [<-|H]; [reflexivity|]). destruct H. Qed.

Lemma read_written epb lt b l tail : byte_ok b ->
  exists lt1, read_byte epb lt (snd (write_bytes epb lt (b :: l)) ++ tail) =
      Def (b, lt1, snd (write_bytes epb lt1 l) ++ tail) /\
    nlen (snd (write_bytes epb lt (b :: l)) ++ tail) - nlen (snd (write_bytes epb lt1 l) ++ tail) =
    nlen (snd (write_byte epb lt b)) /\ lt1 = fst (write_byte epb lt b).
Proof.
  intros HB. exists (fst (write_byte epb lt b)).
  cbn [write_bytes]. pose proof (read_write_byte epb lt b) as R.
  destruct (write_byte epb lt b) as [lt1 o1]. cbn [fst snd] in *.
  destruct (write_bytes epb lt1 l) as [lt2 o2]. cbn [snd].
  rewrite <- app_assoc. rewrite R by exact HB. split; [reflexivity|]. split; [|reflexivity].
  unfold nlen. rewrite !app_length. lia.
Qed.

Lemma write_bytes_snd_app epb lt a b :
  snd (write_bytes epb lt (a ++ b)) =
  snd (write_bytes epb lt a) ++ snd (write_bytes epb (fst (write_bytes epb lt a)) b).
Proof. rewrite write_bytes_app. reflexivity. Qed.

Lemma find_field epb fs : forall lt rest tail off size fuel,
  Forall field_fits fs -> Forall (fun f => bytes_ok (snd f)) fs -> Forall (fun f => fst f <> 5) fs ->
  bytes_ok (5 :: rest) ->
  off + nlen (snd (write_bytes epb lt (fields_bytes fs))) < size ->
  (length fs < fuel)%nat ->
  find_tag_loop fuel lt (snd (write_bytes epb lt (fields_bytes fs ++ 5 :: rest)) ++ tail) off size 5 epb =
  Def (Some (off + nlen (snd (write_bytes epb lt (fields_bytes fs))))).
Proof.
  induction fs as [|[t v] fs IH]; intros lt rest tail off size fuel HF HB HT HR HS HU;
    (destruct fuel as [|fuel]; [cbn in HU; lia|]).
  - cbn [fields_bytes map concat app find_tag_loop].
    destruct (N.leb_spec size off); [cbn in HS; lia|].
    apply Forall_cons_iff in HR as [H5 HR].
    destruct (read_written epb lt 5 rest tail H5) as (lt1 & E & _). rewrite E. cbn [obind].
    assert (5 =? 5 = true) as -> by reflexivity. cbn [write_bytes snd]. f_equal. f_equal. cbn. lia.
  - apply Forall_cons_iff in HF as [F HF]. apply Forall_cons_iff in HB as [B HB].
    apply Forall_cons_iff in HT as [T HT]. cbn [fst snd] in *.
    assert (EF : forall f : field, fields_bytes (f :: fs) = field_bytes f ++ fields_bytes fs) by reflexivity.
    rewrite EF in HS |- *. rewrite <- app_assoc.
    destruct F as [K F]. cbn [fst snd] in K, F.
    assert (KB : byte_ok t).
    { unfold known_tag in K; cbn in K. repeat (destruct K as [<-|K]; [reflexivity|]). destruct K. }
    cbn [find_tag_loop]. destruct (N.leb_spec size off); [lia|].
    set (rest2 := fields_bytes fs ++ 5 :: rest) in *.
    assert (EB : field_bytes (t, v) ++ rest2 =
                 t :: (if (len_bytes t =? 2)%nat then be16 (nlen v) else [nlen v]) ++ v ++ rest2).
    { unfold field_bytes. rewrite <- app_comm_cons, <- app_assoc. reflexivity. }
    set (p0 := snd (write_bytes epb lt (field_bytes (t, v) ++ rest2)) ++ tail) in *.
    set (lt9 := fst (write_bytes epb lt (field_bytes (t, v)))).
    assert (P0 : p0 = snd (write_bytes epb lt (field_bytes (t, v))) ++ snd (write_bytes epb lt9 rest2) ++ tail).
    { unfold p0. rewrite write_bytes_snd_app, <- app_assoc. reflexivity. }
    assert (FIN : forall fuel2, (length fs < fuel2)%nat ->
      find_tag_loop fuel2 lt9 (snd (write_bytes epb lt9 rest2) ++ tail)
        (off + (nlen p0 - nlen (snd (write_bytes epb lt9 rest2) ++ tail))) size 5 epb =
      Def (Some (off + nlen (snd (write_bytes epb lt (field_bytes (t, v) ++ fields_bytes fs)))))).
    { intros fuel2 HU2.
      assert (EO : nlen p0 - nlen (snd (write_bytes epb lt9 rest2) ++ tail) =
                   nlen (snd (write_bytes epb lt (field_bytes (t, v))))).
      { rewrite P0. unfold nlen. rewrite !app_length. lia. }
      rewrite EO. rewrite write_bytes_snd_app in HS |- *. fold lt9 in HS |- *.
      unfold rest2. rewrite IH; try assumption.
      - f_equal. f_equal. rewrite nlen_app'. lia.
      - rewrite nlen_app' in HS. lia. }
    assert (EP0 : p0 = snd (write_bytes epb lt (t :: (if (len_bytes t =? 2)%nat then be16 (nlen v) else [nlen v]) ++ v ++ rest2)) ++ tail).
    { unfold p0. rewrite EB. reflexivity. }
    destruct (read_written epb lt t ((if (len_bytes t =? 2)%nat then be16 (nlen v) else [nlen v]) ++ v ++ rest2) tail KB)
      as (lt1 & E1 & _ & L1).
    rewrite EP0 at 1. rewrite E1. cbn [obind].
    destruct (N.eqb_spec t 5) as [|_]; [contradiction|].
    destruct (len_bytes t =? 2)%nat eqn:EL2.
    + assert (EBE : be16 (nlen v) = [u8 (nlen v / 256); u8 (nlen v)]) by reflexivity.
      rewrite EBE in *. cbn [app] in *.
      destruct (read_written epb lt1 (u8 (nlen v / 256)) (u8 (nlen v) :: v ++ rest2) tail (u8_ok _)) as (lt2 & E2 & _ & L2).
      rewrite E2. cbn [obind].
      destruct (read_written epb lt2 (u8 (nlen v)) (v ++ rest2) tail (u8_ok _)) as (lt3 & E3 & _ & L3).
      rewrite E3. cbn [obind].
      assert (EV : u8 (nlen v / 256) * 256 + u8 (nlen v) = nlen v) by (unfold u8; lia).
      rewrite EV. unfold nlen at 1. rewrite Nat2N.id.
      rewrite write_bytes_snd_app, <- app_assoc. rewrite read_write_bytes by exact B. cbn [obind].
      assert (EQ : fst (write_bytes epb lt3 v) = lt9).
      { unfold lt9, field_bytes. rewrite EL2, EBE. cbn [app write_bytes]. subst lt1 lt2 lt3.
        destruct (write_byte epb lt t) as [a1 b1]. cbn [fst].
        destruct (write_byte epb a1 (u8 (nlen v / 256))) as [a2 b2]. cbn [fst].
        destruct (write_byte epb a2 (u8 (nlen v))) as [a3 b3]. cbn [fst].
        destruct (write_bytes epb a3 v) as [a4 b4]. reflexivity. }
      rewrite EQ. apply FIN. cbn in HU; lia.
    + cbn [app] in *.
      destruct (read_written epb lt1 (nlen v) (v ++ rest2) tail F) as (lt2 & E2 & _ & L2).
      rewrite E2. cbn [obind].
      unfold nlen at 1. rewrite Nat2N.id.
      rewrite write_bytes_snd_app, <- app_assoc. rewrite read_write_bytes by exact B. cbn [obind].
      assert (EQ : fst (write_bytes epb lt2 v) = lt9).
      { unfold lt9, field_bytes. rewrite EL2. cbn [app write_bytes]. subst lt1 lt2.
        destruct (write_byte epb lt t) as [a1 b1]. cbn [fst].
        destruct (write_byte epb a1 (nlen v)) as [a2 b2]. cbn [fst].
        destruct (write_bytes epb a2 v) as [a4 b4]. reflexivity. }
      rewrite EQ. apply FIN. cbn in HU; lia.
Qed.

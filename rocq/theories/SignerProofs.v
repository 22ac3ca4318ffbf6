(** Invariants of a signing session: lemmas. *)
From Verif Require Import Base BaseProofs Epb EpbProofs Nalu NaluSpec NaluProofs Crypto Types Hash Tlv
  TlvProofs EncProofs CodecSpec CodecProofs SeiSpec SeiProofs Signer GenProofs.
Local Open Scope N_scope.

(** ** Outcomes with a postcondition *)

Definition holds {A} (x : out A) (P : A -> Prop) (U : ub -> Prop) : Prop :=
  match x with Def a => P a | Undef u => U u end.

Lemma holds_bind {A B} (x : out A) (f : A -> out B) P U :
  holds x (fun a => holds (f a) P U) U -> holds (obind x f) P U.
Proof. destruct x; exact (fun h => h). Qed.
Lemma holds_impl {A} (x : out A) (P Q : A -> Prop) (U V : ub -> Prop) :
  holds x P U -> (forall a, P a -> Q a) -> (forall u, U u -> V u) -> holds x Q V.
Proof. destruct x; cbn; auto. Qed.

(** Out-of-bounds writes are only accepted with SEI emulation prevention. *)
Definition nowrite (epb : bool) (u : ub) : Prop := u = OobWrite -> epb = true.

(** ** The fake parse *)

Lemma read_bytes_past l : forall lt m, bytes_ok l ->
  is_undef (read_bytes true (length l + S m) lt (snd (write_bytes true lt l))).
Proof.
  induction l as [|b l IH]; intros lt m Hl.
  - cbn [write_bytes snd length Nat.add read_bytes]. unfold read_byte. eexists. reflexivity.
  - apply Forall_cons_iff in Hl as [Hb Hl]. cbn [write_bytes length Nat.add read_bytes].
    pose proof (read_write_byte true lt b) as R.
    destruct (write_byte true lt b) as [lt1 o1] eqn:E1. specialize (IH lt1 m Hl).
    destruct (write_bytes true lt1 l) as [lt2 o2] eqn:E2. cbn [fst snd] in *.
    rewrite R by exact Hb. cbn [obind]. destruct IH as [u IH]. rewrite IH. eexists. reflexivity.
Qed.

Lemma parse_unfinished_def c epb golden size W n :
  bytes_ok W -> 25 + nlen W <= size -> size < 2 ^ 31 ->
  let body := sei_front c size (sei_flags epb golden) ++ wrapped epb W in
  parse_nalu ([0; 0; 0; 1] ++ body) c false true = Def n ->
    n_hashable n = true /\ n_gop_sei n = true /\
    n_first_part n = true /\ n_last_part n = true /\ hash_input n = Def body.
Proof.
  intros HW HS HS2 body HP. change (2 ^ 31) with 2147483648 in HS2.
  pose proof (sei_flags_range epb golden) as HR.
  assert (HB : nlen (wrapped epb W) <= 2 * nlen W).
  { destruct epb; cbn [wrapped]; [|lia].
    pose proof (write_bytes_expansion_pot 257 W HW eq_refl) as P.
    rewrite (proj1 (esc_write W 257 0 HW (hz_init 257 eq_refl ltac:(discriminate)))) in P.
    assert (257 =? 0 = false) as E1 by reflexivity. assert (257 mod 256 =? 0 = false) as E2 by reflexivity.
    rewrite E1, E2 in P. lia. }
  assert (HF : (length (sei_front c size (sei_flags epb golden)) <= 40 + N.to_nat size)%nat).
  { rewrite sei_front_len. unfold sei_poff, ff_size. rewrite app_length, repeat_length.
    assert (size / 255 <= size) by (apply N.div_le_upper_bound; lia).
    destruct c; cbn [length sei_type_bytes]; lia. }
  assert (HN : length body = (length (sei_front c size (sei_flags epb golden)) + length (wrapped epb W))%nat).
  { unfold body. apply app_length. }
  rewrite (parse_nalu_split [0; 0; 0; 1] body) in HP.
  2:{ reflexivity. }
  2:{ rewrite nlen_app'. unfold nlen in *. rewrite HN. cbn [length].
      change (2 ^ 64) with 18446744073709551616. lia. }
  2:{ discriminate. }
  2:{ unfold body, sei_front. destruct c; discriminate. }
  unfold body in HP. rewrite (parse_front c size (sei_flags epb golden) (wrapped epb W) _ false _ eq_refl) in HP.
  fold body in HP.
  unfold remove_epb in HP. cbn [n_hashable n_gop_sei n_valid n_hash_mem n_payload_size n_epb n_data_size
    n_hash_size n_type n_primary n_first_in_gop n_first_part n_last_part negb orb Z.leb Z.compare] in HP.
  unfold body at 1 in HP. rewrite skip_poff in HP.
  match type of HP with context [(?x <=? 0)%Z] => destruct (Z.leb_spec x 0) as [H0|H0] end.
  - injection HP as <-.
    cbn [n_hashable n_gop_sei n_valid n_hash_mem n_payload_size n_epb n_data_size
      n_hash_size n_type n_primary n_first_in_gop n_first_part n_last_part n_golden n_with_epb n_reserved
      n_tlv_size n_tlv_mem n_tlv_off].
    repeat split. unfold hash_input. cbn [n_hash_size n_hash_mem].
    rewrite N.leb_refl. unfold nlen. rewrite Nat2N.id, firstn_all. reflexivity.
  - exfalso. destruct epb; cbn [wrapped] in *.
    + assert (HPl : bytes_ok (sei_front c size (sei_flags true golden) ++ W)).
      { apply bytes_ok_app; split; [apply sei_front_ok; unfold byte_ok; lia|exact HW]. }
      assert (HEP : snd (write_bytes true lt_init (sei_front c size (sei_flags true golden) ++ W)) = body).
      { rewrite (proj1 (esc_write _ lt_init 0 HPl (hz_init lt_init eq_refl ltac:(discriminate)))).
        rewrite esc_front by lia. reflexivity. }
      assert (HL : (sei_poff c size + N.to_nat size + 1)%nat =
        (length (sei_front c size (sei_flags true golden) ++ W) + S (N.to_nat size - 17 - length W))%nat).
      { rewrite app_length, sei_front_len. unfold nlen in *. lia. }
      destruct (read_bytes_past (sei_front c size (sei_flags true golden) ++ W) lt_init
        (N.to_nat size - 17 - length W) HPl) as [u HU].
      rewrite <- HL, HEP in HU. rewrite HU in HP. discriminate HP.
    + rewrite sei_front_len in HN. unfold nlen in *. rewrite HN in H0.
      destruct (last body 0 =? 128); lia.
Qed.

(** ** Sizes *)

Lemma wire_len f : wire_ok f -> nlen (wire f) <= 3 + nlen (snd f) /\ nlen (snd f) < 65536.
Proof.
  intros H. rewrite wire_field_bytes by exact H. apply wire_ok_fits in H. rewrite field_bytes_len by exact H.
  destruct f as [t v]. destruct H as [K H]. cbn [fst snd] in *.
  unfold known_tag in K. cbn [In] in K.
  repeat (destruct K as [<-|K]; [cbn [len_bytes tuple fst snd Nat.eqb Nat.add] in *; lia|]). destruct K.
Qed.

Lemma wires_len fs : Forall wire_ok fs -> nlen (wires fs) <= 65539 * nlen fs.
Proof.
  induction 1 as [|f fs Hf _ IH]; [cbn; lia|]. cbn [wires flat_map].
  rewrite nlen_app'. apply wire_len in Hf. fold (wires fs). unfold nlen in *. cbn [length]. lia.
Qed.

Lemma fields_of_count c rec tags : forall g sig, (length (fields_of c g sig rec tags) <= length tags)%nat.
Proof.
  induction tags as [|t r IH]; intros g sig; cbn [fields_of length]; [apply Nat.le_refl|].
  destruct (tag_due rec t && negb (enc_size c g t =? 0)); cbn [length]; [apply le_n_S, IH|apply Nat.le_le_succ_r, IH].
Qed.

Lemma meta_fields_len s : enc_ok (s_cfg s) (s_gop s) [] -> nlen (wires (meta_fields s)) <= 393234.
Proof.
  intros H. pose proof (meta_fields_ok s H) as (M & _ & _). apply wires_len in M.
  assert (@nlen (N * list N) (meta_fields s) <= 6); [|lia]. change (@nlen field (meta_fields s) <= 6).
  unfold meta_fields, nlen. rewrite app_length.
  assert (length (opt_fields s) <= 3)%nat.
  { unfold opt_fields. destruct (_ && _); [apply Nat.le_0_l|apply fields_of_count]. }
  assert (length (mand_fields s) <= 3)%nat.
  { unfold mand_fields. destruct (r_golden _); [apply Nat.le_0_l|apply fields_of_count]. }
  lia.
Qed.

(** The allocation is big enough for a SEI without escapes. *)
Lemma alloc_plain c W size res : nlen W + 17 <= size ->
  nlen ([0; 0; 0; 1] ++ sei_front c size res ++ W ++ [128]) <= sei_alloc c size.
Proof.
  intros H. rewrite !nlen_app'. unfold nlen at 2. rewrite sei_front_len. unfold sei_poff, ff_size.
  rewrite app_length, repeat_length. unfold sei_alloc. unfold nlen in *.
  destruct c; cbn [length sei_type_bytes app]; lia.
Qed.

(** ** The state of a session *)

Section Inv.
Variable C : crypto.
Hypothesis HC : crypto_ok C.

(** Crypto handle of a signing session with hash size [hs]. *)
Definition handle_ok (hs : nat) (h : handle) : Prop :=
  h_oid h = h_type h /\ c_oid C (h_type h) = OidDigest hs /\ h_oid h <> [] /\
  (exists x, h_sec h = Some x /\ x_oid x = h_type h) /\
  match h_prim h with Some x => x_oid x = h_type h | None => True end.

Record ggood (c : scfg) (g : sgop) : Prop := mkGgood {
  gg_enc : enc_ok c g [];
  gg_h : handle_ok (sc_hs c) (k_handle (g_h g));
  gg_bud : length (k_buddies (g_h g)) = 128%nat;
  gg_enc0 : g_enc g = 0;
  gg_nh : bytes_ok (g_nalu_hash g)
}.

Lemma ggood_hs c g : ggood c g -> (0 < sc_hs c <= 64)%nat.
Proof. intros []. destruct gg_h0 as (_ & H & _). apply (ok_size C HC _ _ H). Qed.

Lemma put_at_ok off dst src : (off + length src <= length dst)%nat ->
  exists d, put_at off dst src = Def d /\ length d = length dst.
Proof.
  intros H. unfold put_at. destruct (Nat.leb_spec (off + length src) (length dst)); [|lia].
  eexists. split; [reflexivity|]. rewrite !app_length, firstn_length, skipn_length. lia.
Qed.

Lemma put_at_bytes off dst src d : put_at off dst src = Def d -> bytes_ok dst -> bytes_ok src -> bytes_ok d.
Proof.
  unfold put_at. destruct (_ <=? _)%nat; [|discriminate]. intros E Hd Hs. injection E as <-.
  apply bytes_ok_app; split; [apply bytes_ok_firstn, Hd|].
  apply bytes_ok_app; split; [exact Hs|apply bytes_ok_skipn, Hd].
Qed.

(** A handle after hashing operations keeps the algorithm. *)
Lemma handle_ok_set hs h prim x : handle_ok hs h -> x_oid x = h_type h -> handle_ok hs (set_ctx prim (Some x) h).
Proof.
  intros (H1 & H2 & H3 & (y & H4 & H5) & H6) Hx. destruct prim; unfold set_ctx, handle_ok;
    cbn [h_oid h_type h_prim h_sec]; repeat split; try assumption; eauto.
Qed.
Lemma handle_ok_init hs h prim : handle_ok hs h -> handle_ok hs (init_hash prim h) /\
  h_oid (init_hash prim h) = h_oid h.
Proof.
  intros H. split.
  - pose proof H as (H1 & H2 & H3 & (y & H4 & H5) & H6). unfold init_hash. destruct prim; cbn [get_ctx].
    + destruct (h_prim h) as [x|]; apply handle_ok_set; try assumption; reflexivity.
    + rewrite H4. apply handle_ok_set; assumption.
  - unfold init_hash. destruct prim, (get_ctx _ _); reflexivity.
Qed.
Lemma handle_ok_update hs h prim d : handle_ok hs h -> handle_ok hs (fst (update_hash prim d h)) /\
  h_oid (fst (update_hash prim d h)) = h_oid h.
Proof.
  intros H. pose proof H as (H1 & H2 & H3 & (y & H4 & H5) & H6). unfold update_hash. destruct d; [auto|].
  destruct (get_ctx prim h) as [x|] eqn:E; [|auto]. destruct (x_final x); [auto|]. cbn [fst].
  split; [|destruct prim; reflexivity]. apply handle_ok_set; [exact H|]. cbn [x_oid].
  destruct prim; cbn [get_ctx] in E; [rewrite E in H6; exact H6|congruence].
Qed.
Lemma handle_ok_finalize hs h prim h' st v : handle_ok hs h -> finalize_hash C prim h = (h', st, v) ->
  handle_ok hs h' /\ h_oid h' = h_oid h /\ (st = SV_OK -> length v = hs /\ bytes_ok v).
Proof.
  intros H E. pose proof H as (H1 & H2 & H3 & (y & H4 & H5) & H6). unfold finalize_hash in E.
  destruct (get_ctx prim h) as [x|] eqn:EX.
  2:{ injection E as <- <- <-. repeat split; auto; try discriminate; apply H. }
  assert (HX : x_oid x = h_type h).
  { destruct prim; cbn [get_ctx] in EX; [rewrite EX in H6; exact H6|congruence]. }
  destruct (x_final x).
  - injection E as <- <- <-. split; [exact H|]. split; [reflexivity|discriminate].
  - injection E as <- <- <-. split; [apply handle_ok_set; assumption|].
    split; [destruct prim; reflexivity|]. intros _. rewrite HX. split.
    + apply (ok_hash_len C HC _ _ _ H2).
    + apply (ok_hash_bytes C HC _ _ _ H2).
Qed.

Lemma hash_data_ok hs h d : handle_ok hs h -> hash_data C h d = (SV_OK, c_hash C (h_type h) d) /\
    length (c_hash C (h_type h) d) = hs /\ bytes_ok (c_hash C (h_type h) d) /\ d <> [] \/
  fst (hash_data C h d) = SV_INVALID_PARAMETER.
Proof.
  intros (H1 & H2 & _). destruct d; [right; reflexivity|left]. cbn [hash_data].
  repeat split; [apply (ok_hash_len C HC _ _ _ H2)|apply (ok_hash_bytes C HC _ _ _ H2)|discriminate].
Qed.

Definition noW (u : ub) : Prop := u <> OobWrite.

Lemma hash_input_noW n : holds (hash_input n) (fun _ => True) noW.
Proof. unfold hash_input. destruct (_ <=? _); [exact I|]. discriminate. Qed.

Lemma simply_hash_ok hs h n : handle_ok hs h ->
  holds (simply_hash C h n) (fun '(h', st, v) => handle_ok hs h' /\ h_oid h' = h_oid h /\
    (st = SV_OK -> length v = hs /\ bytes_ok v)) noW.
Proof.
  intros H. unfold simply_hash, update_nalu_hash. destruct (n_first_part n).
  - apply holds_bind. eapply holds_impl; [apply hash_input_noW| |auto]. intros inp _.
    destruct (hash_data C h inp) as [st v] eqn:E. cbn. split; [exact H|]. split; [reflexivity|].
    intros ->. destruct (hash_data_ok hs h inp H) as [(E1 & E2 & E3 & _)|E1].
    + rewrite E in E1. injection E1 as ->. auto.
    + rewrite E in E1. discriminate.
  - rewrite obind_assoc. apply holds_bind. eapply holds_impl; [apply hash_input_noW| |auto]. intros inp _.
    cbn [obind]. pose proof (handle_ok_update hs h false inp H) as [U1 U2].
    destruct (update_hash false inp h) as [h1 st]. cbn [fst] in *. destruct (is_ok st) eqn:ES.
    + destruct (finalize_hash C false h1) as [[h' st'] v] eqn:EF. cbn.
      destruct (handle_ok_finalize _ _ _ _ _ _ U1 EF) as (F1 & F2 & F3). rewrite F2, U2. auto.
    + cbn. split; [exact U1|]. split; [exact U2|]. intros ->. discriminate.
Qed.

Lemma hash_wrapper_ok hs k n : (0 < hs <= 64)%nat -> handle_ok hs (k_handle k) -> length (k_buddies k) = 128%nat ->
  holds (hash_wrapper C k n hs) (fun '(k', st, v) => handle_ok hs (k_handle k') /\
    h_oid (k_handle k') = h_oid (k_handle k) /\ length (k_buddies k') = 128%nat /\
    (st = SV_OK -> match v with Some v => length v = hs /\ bytes_ok v | None => True end)) noW.
Proof.
  intros Hh H HB. unfold hash_wrapper.
  assert (G : forall b, (1 <= b <= 128)%nat -> b = b) by reflexivity. clear G.
  destruct (negb (n_last_part n)).
  - unfold update_nalu_hash. rewrite obind_assoc. apply holds_bind.
    eapply holds_impl; [apply hash_input_noW| |auto]. intros inp _. cbn [obind].
    pose proof (handle_ok_update hs (k_handle k) false inp H) as [U1 U2].
    destruct (update_hash false inp (k_handle k)) as [h1 st]. cbn in *. auto.
  - destruct (n_gop_sei n).
    + apply holds_bind. eapply holds_impl; [apply simply_hash_ok, H| |auto].
      intros [[h' st] v] (S1 & S2 & S3). cbn. repeat split; auto; try apply S1.
      intros ->. cbn. auto.
    + destruct (n_first_in_gop n && negb (k_has_ref k)).
      * apply holds_bind. eapply holds_impl; [apply simply_hash_ok, H| |auto].
        intros [[h' st] v] (S1 & S2 & S3). destruct (is_ok st) eqn:ES.
        -- assert (st = SV_OK) as -> by (destruct st; cbn in ES; congruence). destruct (S3 eq_refl) as [L B].
           destruct (put_at_ok 0 (k_buddies k) (firstn hs v)) as (d & E & EL).
           { rewrite firstn_length. lia. }
           rewrite E. cbn. rewrite EL. auto.
        -- cbn. repeat split; auto; try apply S1.
      * apply holds_bind. eapply holds_impl; [apply simply_hash_ok, H| |auto].
        intros [[h' st] v] (S1 & S2 & S3). destruct (is_ok st) eqn:ES.
        -- assert (st = SV_OK) as -> by (destruct st; cbn in ES; congruence). destruct (S3 eq_refl) as [L B].
           destruct (put_at_ok hs (k_buddies k) v) as (d & E & EL); [lia|].
           rewrite E. cbn [obind]. destruct (hash_data C h' (firstn (2 * hs) d)) as [st2 v2] eqn:E2.
           cbn. rewrite EL. repeat split; auto; try apply S1. intros ->. cbn.
           destruct (hash_data_ok hs h' (firstn (2 * hs) d) S1) as [(E3 & E4 & E5 & _)|E3]; cbn [Nat.mul] in *.
           ++ rewrite E2 in E3. injection E3 as ->. auto.
           ++ rewrite E2 in E3. discriminate.
        -- cbn. repeat split; auto; try apply S1.
Qed.

(** What hashing a NALU leaves alone. *)
Definition same_frame (g g' : sgop) : Prop :=
  g_computed g' = g_computed g /\ g_linked g' = g_linked g /\ g_counter g' = g_counter g /\
  g_ts g' = g_ts g /\ g_hash_type g' = g_hash_type g /\ g_enc g' = g_enc g.

Lemma enc_ok_h c g g' : enc_ok c g [] -> same_frame g g' ->
  h_oid (k_handle (g_h g')) = h_oid (k_handle (g_h g)) -> g_num g' < 65536 ->
  match g_list g' with Some l => nlen l <= 19200 /\ bytes_ok l | None => True end -> enc_ok c g' [].
Proof.
  intros H (F1 & F2 & F3 & F4 & F5 & F6) FO FN FL. destruct H.
  constructor; rewrite ?F1, ?F2, ?F4, ?F5, ?F6, ?FO; assumption.
Qed.

Lemma add_to_list_ok c g v : ggood c g -> length v = sc_hs c -> bytes_ok v ->
  ggood c (add_to_list g v) /\ same_frame g (add_to_list g v) /\ g_num (add_to_list g v) = g_num g /\
  h_oid (k_handle (g_h (add_to_list g v))) = h_oid (k_handle (g_h g)).
Proof.
  intros HG HL HB. pose proof (ggood_hs c g HG). destruct HG.
  set (h1 := match g_list g with Some [] => init_hash true (k_handle (g_h g)) | _ => k_handle (g_h g) end).
  assert (H1 : handle_ok (sc_hs c) h1 /\ h_oid h1 = h_oid (k_handle (g_h g))).
  { unfold h1. pose proof (handle_ok_init _ _ true gg_h0). destruct (g_list g) as [[|]|]; auto. }
  destruct H1 as [H1 O1]. destruct (handle_ok_update _ _ true v H1) as [H2 O2].
  assert (SF : same_frame g (add_to_list g v)) by (repeat split).
  assert (OO : h_oid (k_handle (g_h (add_to_list g v))) = h_oid (k_handle (g_h g))).
  { change (k_handle (g_h (add_to_list g v))) with (fst (update_hash true v h1)). rewrite O2. exact O1. }
  split; [|split; [exact SF|split; [reflexivity|exact OO]]].
  constructor; try assumption.
  apply (enc_ok_h c g); auto.
  - apply gg_enc1.
  - unfold add_to_list. cbn. destruct (g_list g) as [l|] eqn:E; [|exact I].
    pose proof (eo_list _ _ _ gg_enc1) as EL. rewrite E in EL. destruct EL as [EL EB].
    unfold hash_list_size. destruct (N.ltb_spec 19200 (nlen l + nlen v)); [exact I|].
    rewrite nlen_app'. split; [lia|]. apply bytes_ok_app; auto.
Qed.

Lemma same_frame_trans a b c : same_frame a b -> same_frame b c -> same_frame a c.
Proof. intros (A1 & A2 & A3 & A4 & A5 & A6) (B1 & B2 & B3 & B4 & B5 & B6). repeat split; congruence. Qed.

Lemma hash_and_add_ok c g n : ggood c g ->
  holds (hash_and_add C g n (sc_hs c)) (fun '(g', st) => ggood c g' /\ same_frame g g') noW.
Proof.
  intros HG. pose proof (ggood_hs c g HG) as Hh. unfold hash_and_add.
  destruct (negb (n_hashable n)); [cbn; split; [exact HG|repeat split]|].
  set (g0 := if n_first_part n && negb (n_last_part n) then _ else g).
  assert (H0 : ggood c g0 /\ same_frame g g0).
  { unfold g0. destruct (_ && _); [|split; [exact HG|repeat split]]. split; [|repeat split].
    destruct HG. destruct (handle_ok_init _ _ false gg_h0) as [I1 I2]. constructor; cbn; try assumption.
    apply (enc_ok_h c g); try assumption; [repeat split|apply gg_enc1|].
    cbn. apply (eo_list _ _ _ gg_enc1). }
  clearbody g0. destruct H0 as [HG0 SF0].
  apply holds_bind. pose proof HG0 as [E0 K0 B0 N0].
  eapply holds_impl; [apply hash_wrapper_ok; eassumption| |auto].
  intros [[k st] v] (W1 & W2 & W3 & W4).
  assert (HG1 : ggood c (set_g_h k g0)).
  { constructor; try assumption. apply (enc_ok_h c g0); try assumption; [repeat split|apply E0|apply E0]. }
  destruct (is_ok st) eqn:ES.
  - assert (st = SV_OK) as -> by (destruct st; cbn in ES; congruence). specialize (W4 eq_refl).
    destruct v as [v|].
    2:{ cbn. split; [exact HG1|]. eapply same_frame_trans; [exact SF0|repeat split]. }
    destruct W4 as [L B].
    assert (HG2 : ggood c (set_g_nalu_hash v (set_g_h k g0))).
    { destruct HG1. constructor; try assumption. apply (enc_ok_h c (set_g_h k g0)); try assumption;
      [repeat split|reflexivity|apply gg_enc1|apply gg_enc1]. }
    destruct (add_to_list_ok c _ v HG2 L B) as (A1 & A2 & A3 & _). cbn.
    assert (SF : same_frame g (add_to_list (set_g_nalu_hash v (set_g_h k g0)) v)).
    { eapply same_frame_trans; [exact SF0|]. eapply same_frame_trans; [|exact A2]. repeat split. }
    unfold count_nalu. destruct (n_gop_sei n); [auto|]. split.
    + destruct A1. constructor; try assumption.
      eapply enc_ok_h; [exact gg_enc1|repeat split|reflexivity| |apply gg_enc1]. cbn. unfold u16. lia.
    + eapply same_frame_trans; [exact SF|repeat split].
  - cbn. split; [|eapply same_frame_trans; [exact SF0|repeat split]].
    destruct HG1. constructor; try assumption.
    eapply enc_ok_h; [exact gg_enc1|repeat split|reflexivity|apply gg_enc1|exact I].
Qed.

End Inv.

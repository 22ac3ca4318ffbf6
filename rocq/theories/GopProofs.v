(** The SEIs of a stream: lemmas. *)
From Verif Require Import Base BaseProofs Epb EpbProofs Nalu NaluSpec NaluProofs Crypto Types Hash Tlv
  TlvProofs EncProofs CodecSpec CodecProofs SeiSpec SeiProofs Signer GenProofs SignerProofs SessProofs SignSpec
  StepProofs RunProofs DrainProofs GopSpec EosSpec.
Local Open Scope N_scope.

(** ** Parsing on the signing side *)

Lemma parse_flags d c n : d <> [] -> parse_nalu d c true false = Def n ->
  n_first_part n = true /\ n_last_part n = true /\ (n_hashable n = true -> n_gop_sei n = false) /\
  (0 <= n_valid n)%Z.
Proof.
  intros Hd. unfold parse_nalu. destruct d as [|b d]; [contradiction|]. set (data := b :: d). clearbody data.
  destruct (start_code_len data) as [k|u]; [|discriminate]. cbn [obind].
  destruct (parse_header c (skipn k data)) as [[[ty pr] va]|u]; [|discriminate]. cbn [obind].
  destruct (strip_trailing data) as [t|u]; [|discriminate]. cbn [obind].
  destruct (negb (ntype_eqb ty TSei)); [intros E; injection E as <-; cbn; destruct va; repeat split; lia|].
  destruct (skipn (header_len c) (skipn k data)) as [|ud p1]; [discriminate|].
  destruct (ud =? 5); [|intros E; injection E as <-; cbn; destruct va; repeat split; lia].
  destruct (get_payload_size p1) as [[[ps k2] p2]|u]; [|discriminate]. cbn [obind].
  destruct (length p2 <? 16)%nat; [discriminate|].
  rewrite andb_false_r. unfold remove_epb. cbn [n_hashable negb orb].
  intros E; injection E as <-; cbn; destruct va; repeat split; try lia; discriminate.
Qed.

(** ** The metadata of a SEI *)

Definition lst (d : list N) : option (list N) := if nlen d <=? 19200 then Some d else None.

Section Gop.
Variable C : crypto.
Hypothesis HC : crypto_ok C.

(** The configuration is what was asked for. *)
Record agrees (c : codec) (w : settings) (s : signer) : Prop := mkAgrees {
  ag_codec : sc_codec (s_cfg s) = c;
  ag_frame : sc_frame (s_cfg s) = w_frame w;
  ag_max : sc_max_payload (s_cfg s) = w_max w;
  ag_rec : sc_recurrence (s_cfg s) = w_rec w;
  ag_rec0 : w_rec w <> 0;
  ag_add : sc_add_pub (s_cfg s) = w_add_pub w;
  ag_epb : sc_epb (s_cfg s) = w_epb w;
  ag_using : sc_using_golden (s_cfg s) = w_using w;
  ag_pub : sc_pub (s_cfg s) = w_pub w;
  ag_prod : flat_map pstr_value (sc_prod (s_cfg s)) = flat_map prod_string (w_prod w);
  ag_ms : sc_max_sig (s_cfg s) = w_max_sig w;
  ag_hs : sc_hs (s_cfg s) = oid_size C (w_oid w);
  ag_oid : h_type (k_handle (g_h (s_gop s))) = w_oid w
}.

Lemma agrees_same c w s s' : agrees c w s -> s_cfg s' = s_cfg s ->
  h_type (k_handle (g_h (s_gop s'))) = h_type (k_handle (g_h (s_gop s))) -> agrees c w s'.
Proof. intros [] E1 E2. constructor; rewrite ?E1, ?E2; assumption. Qed.

Lemma recurrent_eq c w s g : agrees c w s -> ggood C (s_cfg s) (s_gop s) -> w_pub w <> [] ->
  k_handle (g_h g) = k_handle (g_h (s_gop s)) ->
  forall rec, fields_of (s_cfg s) g [] rec optional_tags = if rec then recurrent_fields w else [].
Proof.
  intros A G HP Hg rec. unfold optional_tags. cbn [fields_of].
  destruct rec; [|unfold tag_due; cbn [tuple_tag tuple fst snd always_present N.eqb Pos.eqb orb andb]; reflexivity].
  unfold tag_due, PUBLIC_KEY, PRODUCT_INFO, CRYPTO_INFO.
  cbn [tuple_tag tuple fst snd always_present N.eqb Pos.eqb orb andb enc_size enc_value enc_effect].
  unfold recurrent_fields. rewrite <- (ag_pub _ _ _ A), <- (ag_add _ _ _ A), <- (ag_prod _ _ _ A).
  unfold public_key_size, public_key_value. rewrite <- (ag_pub _ _ _ A) in HP.
  destruct (sc_pub (s_cfg s)) as [|b pub] eqn:EP; [contradiction|].
  assert (E3 : (product_size (s_cfg s) =? 0) = false).
  { apply N.eqb_neq. unfold product_size. rewrite product_len. lia. }
  unfold crypto_size, crypto_value. rewrite Hg.
  destruct (gg_h _ _ _ G) as (O1 & O2 & O3 & _).
  pose proof (eo_oid _ _ _ (gg_enc _ _ _ G)) as O4.
  rewrite O1 in *. rewrite (ag_oid _ _ _ A) in *.
  destruct (w_oid w) as [|o oid] eqn:EO; [contradiction|].
  assert (E7 : (1 + 1 + nlen (o :: oid) =? 0) = false) by (apply N.eqb_neq; lia).
  rewrite E3, E7. cbn [negb].
  assert (EU : u8 (nlen (o :: oid)) = nlen (o :: oid)) by (unfold u8; apply N.mod_small; lia). rewrite EU.
  destruct (sc_add_pub (s_cfg s)).
  - assert (E2 : (1 + nlen (b :: pub) =? 0) = false) by (apply N.eqb_neq; lia). rewrite E2. reflexivity.
  - reflexivity.
Qed.

Lemma mandatory_eq s g (l : option (list N)) : sc_arb (s_cfg s) = [] -> g_list g = l -> l <> Some [] -> forall rec,
  fields_of (s_cfg s) g [] rec mandatory_tags =
  (1, general_value (s_cfg s) g) ::
  (match l with Some x => if sc_frame (s_cfg s) then [(4, 1 :: x)] else [] | None => [] end).
Proof.
  intros HA HL HN rec. unfold mandatory_tags. cbn [fields_of]. rewrite general_due.
  change (enc_value (s_cfg s) g [] GENERAL) with (general_value (s_cfg s) g). f_equal.
  unfold tag_due, GENERAL, HASH_LIST, ARBITRARY.
  cbn [tuple_tag tuple fst snd always_present N.eqb Pos.eqb orb andb enc_size enc_value enc_effect].
  unfold hash_list_sz, hash_list_value, arbitrary_size. rewrite HA. cbn [N.eqb negb].
  change (g_list (set_g_counter (u32 (g_counter g + 1)) g)) with (g_list g). rewrite HL.
  destruct l as [[|b x]|]; [contradiction| |reflexivity].
  destruct (sc_frame (s_cfg s)); [|reflexivity].
  assert (E : (1 + nlen (b :: x) =? 0) = false) by (apply N.eqb_neq; lia). rewrite E. reflexivity.
Qed.

Lemma general_eq c w s g k prev xs gh ts : agrees c w s -> ggood C (s_cfg s) (s_gop s) ->
  u32 (g_counter g + 1) = k mod 2 ^ 32 -> g_num g = nlen xs mod 2 ^ 16 -> g_ts g = ts ->
  firstn (sc_hs (s_cfg s)) (g_linked g) =
    (match prev with Some x => c_hash C (w_oid w) x | None => zeros (oid_size C (w_oid w)) end) ->
  firstn (sc_hs (s_cfg s)) (g_computed g) = gh ->
  general_value (s_cfg s) g = general_field_with C w k prev xs gh ts.
Proof.
  intros A G HK HN HT HL HP. unfold general_value, general_field_with.
  rewrite HK, HN, HT, HL, HP, digits_be32. f_equal. f_equal.
  apply (f_equal2 (@app N)); [apply digits_be16; change (2 ^ 16) with 65536; lia|].
  change (map u8 lib_version) with [1; 1; 29]. f_equal.
  destruct ts as [t|]; [|reflexivity]. cbn [flags_byte app]. rewrite digits_be64. reflexivity.
Qed.

Lemma fields_len s g rec tags : enc_ok (s_cfg s) g [] -> lib_tags tags -> ~ In 5 tags ->
  tlv_size_list (s_cfg s) g rec tags = nlen (wires (fields_of (s_cfg s) g [] rec tags)).
Proof.
  intros He Ht H5. rewrite (tlv_size_list_eq _ []) by assumption. rewrite wires_fields; [reflexivity|].
  apply (fields_of_meta _ _ rec _ He Ht H5).
Qed.

Lemma meta_eq c w s k prev xs gh ts : agrees c w s -> ggood C (s_cfg s) (s_gop s) -> sc_arb (s_cfg s) = [] ->
  w_pub w <> [] -> r_golden (s_run s) = false -> concat (hashes (c_hash C (w_oid w)) xs) <> [] ->
  u32 (g_counter (s_gop s) + 1) = k mod 2 ^ 32 -> g_num (s_gop s) = nlen xs mod 2 ^ 16 -> g_ts (s_gop s) = ts ->
  firstn (sc_hs (s_cfg s)) (g_linked (s_gop s)) =
    (match prev with Some x => c_hash C (w_oid w) x | None => zeros (oid_size C (w_oid w)) end) ->
  firstn (sc_hs (s_cfg s)) (g_computed (s_gop s)) = gh ->
  g_list (s_gop s) = lst (concat (hashes (c_hash C (w_oid w)) xs)) ->
  meta_fields s = gop_fields_with C w k (r_recurrent (s_run s)) prev xs gh ts.
Proof.
  intros A G HA HP HG HX HK HN HT HL HC2 HLI.
  set (l := concat (hashes (c_hash C (w_oid w)) xs)) in *.
  assert (HE : enc_ok (s_cfg s) (s_gop s) []) by apply G.
  assert (EO : opt_fields s = if r_recurrent (s_run s) && negb (w_using w) then recurrent_fields w else []).
  { unfold opt_fields. rewrite HG, (ag_using _ _ _ A). cbn [negb]. rewrite andb_true_r.
    rewrite (recurrent_eq c w s _ A G HP) by (unfold sent_gop; destruct (too_big s); reflexivity).
    destruct (w_using w), (r_recurrent (s_run s)); reflexivity. }
  assert (EG : forall g, g_counter g = g_counter (s_gop s) -> g_num g = g_num (s_gop s) -> g_ts g = g_ts (s_gop s) ->
    g_linked g = g_linked (s_gop s) -> g_computed g = g_computed (s_gop s) ->
    general_value (s_cfg s) g = general_field_with C w k prev xs gh ts).
  { intros g E1 E2 E3 E4 E5. apply (general_eq c w s g k prev xs gh ts A G);
      [rewrite E1; exact HK|rewrite E2; exact HN|rewrite E3; exact HT|rewrite E4; exact HL|rewrite E5; exact HC2]. }
  assert (EB : fields_of (s_cfg s) (base_gop s) [] (r_recurrent (s_run s)) mandatory_tags =
    (1, general_field_with C w k prev xs gh ts) ::
    (if w_frame w && (nlen l <=? 19200) then [(4, 1 :: l)] else [])).
  { rewrite (mandatory_eq s (base_gop s) (lst l)).
    - rewrite EG by reflexivity. f_equal. rewrite (ag_frame _ _ _ A). unfold lst.
      destruct (nlen l <=? 19200), (w_frame w); reflexivity.
    - exact HA.
    - exact HLI.
    - unfold lst. destruct (nlen l <=? 19200); [|discriminate]. intros E. injection E as E. contradiction. }
  assert (EP : payload0 s = 17 + nlen (wires ((opt_fields s ++ [(1, general_field_with C w k prev xs gh ts)]) ++
      (if w_frame w && (nlen l <=? 19200) then [(4, 1 :: l)] else []))) + 8 + N.of_nat (w_max_sig w)).
  { unfold payload0. rewrite HG, (opt_size_eq s HE), signature_size_list, <- (ag_ms _ _ _ A).
    unfold mandatory_size. rewrite fields_len.
    - rewrite EB, <- app_assoc. cbn [app]. rewrite wires_app, nlen_app'. unfold field. lia.
    - apply enc_ok_base, HE.
    - apply mand_tags_lib.
    - cbn. unfold GENERAL, HASH_LIST, ARBITRARY. lia. }
  assert (MP : (0 <? mandatory_size s (base_gop s)) = true).
  { apply N.ltb_lt. unfold mandatory_size. rewrite fields_len.
    - rewrite EB. unfold nlen, wires, wire. cbn [flat_map fst snd app length]. lia.
    - apply enc_ok_base, HE.
    - apply mand_tags_lib.
    - cbn. unfold GENERAL, HASH_LIST, ARBITRARY. lia. }
  unfold meta_fields, gop_fields_with. unfold field in EO. rewrite <- EO. cbv zeta. rewrite <- app_assoc. f_equal. cbn [app].
  unfold mand_fields, list_field. fold l. rewrite HG.
  unfold sent_gop, too_big. rewrite HG, MP, andb_true_r, (ag_max _ _ _ A).
  destruct ((0 <? w_max w) && (w_max w <? payload0 s)) eqn:EF.
  - rewrite (mandatory_eq s (set_g_list None (base_gop s)) None HA eq_refl) by discriminate.
    rewrite EG by reflexivity. f_equal.
    apply andb_true_iff in EF as [F1 F2]. apply N.ltb_lt in F1, F2. rewrite EP in F2.
    destruct (w_frame w && (nlen l <=? 19200)); cbn [andb]; [|reflexivity].
    assert ((w_max w =? 0) = false) as -> by (apply N.eqb_neq; lia). cbn [orb].
    match goal with |- context [?a <=? w_max w] => replace (a <=? w_max w) with false
      by (symmetry; apply N.leb_gt; exact F2) end. reflexivity.
  - rewrite EB. f_equal. apply andb_false_iff in EF.
    rewrite EP in EF. destruct (w_frame w && (nlen l <=? 19200)); cbn [andb]; [|reflexivity].
    match goal with |- context [?a <=? w_max w] => replace ((w_max w =? 0) || (a <=? w_max w)) with true end.
    + reflexivity.
    + symmetry. apply orb_true_iff. rewrite N.eqb_eq, N.leb_le. rewrite !N.ltb_ge in EF.
      destruct EF as [EF|EF]; [left; lia|right; exact EF].
Qed.

(** ** Hashing one NALU *)

Lemma digest_len c g d : ggood C c g -> length (c_hash C (h_type (k_handle (g_h g))) d) = sc_hs c.
Proof. intros [_ (_ & G & _) _ _]. apply (ok_hash_len C HC _ _ _ G). Qed.

Lemma put_at_0 l v : (length v <= length l)%nat ->
  exists d, put_at 0 l v = Def d /\ length d = length l /\ firstn (length v) d = v.
Proof.
  intros H. unfold put_at. destruct (Nat.leb_spec (0 + length v) (length l)); [|lia].
  eexists. split; [reflexivity|]. cbn [firstn app]. split.
  - rewrite app_length, skipn_length. lia.
  - apply firstn_app_len. reflexivity.
Qed.
Lemma put_at_n n l v : (n + length v <= length l)%nat ->
  exists d, put_at n l v = Def d /\ length d = length l /\ firstn n d = firstn n l /\
    firstn (length v) (skipn n d) = v.
Proof.
  intros H. unfold put_at. destruct (Nat.leb_spec (n + length v) (length l)); [|lia].
  assert (LF : length (firstn n l) = n) by (apply firstn_length_le; lia).
  eexists. split; [reflexivity|]. split; [|split].
  - rewrite !app_length, LF, skipn_length. lia.
  - rewrite firstn_app_len by exact LF. reflexivity.
  - rewrite skipn_app, LF, Nat.sub_diag, (skipn_all2 (firstn n l)) by lia. cbn [skipn app].
    apply firstn_app_len. reflexivity.
Qed.

Lemma nil_hash c g n st g' : ggood C c g -> n_hashable n = true -> n_first_part n = true -> n_last_part n = true ->
  n_gop_sei n = false -> hash_input n = Def [] -> hash_and_add C g n (sc_hs c) = Def (g', st) -> st <> SV_OK.
Proof.
  intros G N1 N2 N3 N4 NI. unfold hash_and_add. rewrite N1, N2, N3. cbn [negb andb].
  unfold hash_wrapper. rewrite N3, N4. cbn [negb]. unfold simply_hash. rewrite N2, NI. cbn [obind hash_data is_ok svrc_eqb].
  destruct (_ && _); cbn [obind is_ok svrc_eqb]; intros E; injection E as <- <-; discriminate.
Qed.

Lemma first_hash c g n x : ggood C c g ->
  n_hashable n = true -> n_first_part n = true -> n_last_part n = true -> n_gop_sei n = false ->
  n_first_in_gop n = true -> hash_input n = Def x -> x <> [] -> k_has_ref (g_h g) = false -> g_list g = Some [] ->
  let o := h_type (k_handle (g_h g)) in
  exists g', hash_and_add C g n (sc_hs c) = Def (g', SV_OK) /\ ggood C c g' /\ same_frame g g' /\
    g_list g' = lst (c_hash C o x) /\ k_has_ref (g_h g') = true /\
    firstn (sc_hs c) (k_buddies (g_h g')) = c_hash C o x /\
    g_nalu_hash g' = c_hash C o x /\ h_prim (k_handle (g_h g')) = Some (mkCtx o (c_hash C o x) false) /\
    g_num g' = u16 (g_num g + 1) /\ h_type (k_handle (g_h g')) = o.
Proof.
  intros G N1 N2 N3 N4 N5 NI NX KR GL o.
  pose proof (hash_and_add_ok C HC c g n G) as HA.
  pose proof (ggood_hs C HC c g G) as Hs. pose proof (digest_len c g x G) as DL. fold o in DL.
  pose proof (gg_bud _ _ _ G) as BL. destruct (gg_h _ _ _ G) as (O1 & O2 & O3 & O4 & O5).
  assert (HD : hash_data C (k_handle (g_h g)) x = (SV_OK, c_hash C o x)) by (destruct x; [contradiction|reflexivity]).
  assert (FV : firstn (sc_hs c) (c_hash C o x) = c_hash C o x) by (rewrite <- DL; apply firstn_all).
  destruct (put_at_0 (k_buddies (g_h g)) (c_hash C o x)) as (d & E1 & E2 & E3); [lia|].
  set (g1 := set_g_num (u16 (g_num g + 1)) (add_to_list (set_g_nalu_hash (c_hash C o x)
    (set_g_h (mkHst (k_handle (g_h g)) d true) g)) (c_hash C o x))).
  assert (EH : hash_and_add C g n (sc_hs c) = Def (g1, SV_OK)).
  { unfold hash_and_add. rewrite N1, N2, N3. cbn [negb andb].
    unfold hash_wrapper. rewrite N3, N4, N5, KR. cbn [negb andb].
    unfold simply_hash. rewrite N2, NI. cbn [obind]. rewrite HD. cbn [obind is_ok svrc_eqb].
    rewrite FV, E1. cbn [obind is_ok svrc_eqb]. unfold count_nalu. rewrite N4. reflexivity. }
  rewrite EH in HA. cbn [holds] in HA. destruct HA as [HA1 HA2]. exists g1.
  split; [exact EH|]. split; [exact HA1|]. split; [exact HA2|]. clear EH HA1 HA2. unfold g1. clear g1.
  assert (VN : c_hash C o x <> []) by (intros E; rewrite E in DL; cbn in DL; lia).
  set (v := c_hash C o x) in *. clearbody v.
  assert (VL : nlen v <= 19200) by (unfold nlen; lia).
  unfold add_to_list. cbn [g_list set_g_nalu_hash set_g_h g_h set_g_list set_g_num k_handle set_k_handle k_has_ref k_buddies g_num g_nalu_hash].
  rewrite GL. split; [|split; [reflexivity|split; [rewrite <- DL; exact E3|split; [reflexivity|split; [|split; [reflexivity|]]]]]].
  - unfold lst, hash_list_size. destruct (N.leb_spec (nlen v) 19200); [|lia].
    assert ((19200 <? nlen (@nil N) + nlen v) = false) as -> by (apply N.ltb_ge; unfold nlen at 1; cbn [length]; lia).
    reflexivity.
  - unfold init_hash. cbn [get_ctx]. destruct (h_prim (k_handle (g_h g))) as [y|] eqn:EP; cbn [set_ctx];
      unfold update_hash; destruct v as [|v0 v']; try contradiction; cbn [get_ctx h_prim x_final set_ctx fst x_oid x_data app].
    + rewrite O5. reflexivity.
    + reflexivity.
  - unfold update_hash, init_hash. destruct v; [contradiction|]. cbn [get_ctx].
    destruct (h_prim (k_handle (g_h g))); reflexivity.
Qed.

Lemma next_hash c g n x d h0 : ggood C c g ->
  n_hashable n = true -> n_first_part n = true -> n_last_part n = true -> n_gop_sei n = false ->
  n_first_in_gop n = false -> hash_input n = Def x -> x <> [] ->
  let o := h_type (k_handle (g_h g)) in
  g_list g = lst d -> d <> [] -> h_prim (k_handle (g_h g)) = Some (mkCtx o d false) ->
  firstn (sc_hs c) (k_buddies (g_h g)) = h0 ->
  let v := c_hash C o (h0 ++ c_hash C o x) in
  exists g', hash_and_add C g n (sc_hs c) = Def (g', SV_OK) /\ ggood C c g' /\ same_frame g g' /\
    g_list g' = lst (d ++ v) /\ k_has_ref (g_h g') = k_has_ref (g_h g) /\
    firstn (sc_hs c) (k_buddies (g_h g')) = h0 /\
    h_prim (k_handle (g_h g')) = Some (mkCtx o (d ++ v) false) /\
    g_num g' = u16 (g_num g + 1) /\ h_type (k_handle (g_h g')) = o.
Proof.
  intros G N1 N2 N3 N4 N5 NI NX o GL DN GP GB v.
  pose proof (hash_and_add_ok C HC c g n G) as HA.
  pose proof (ggood_hs C HC c g G) as Hs. pose proof (digest_len c g x G) as DL. fold o in DL.
  pose proof (digest_len c g (h0 ++ c_hash C o x) G) as VL. fold o v in VL.
  pose proof (gg_bud _ _ _ G) as BL. destruct (gg_h _ _ _ G) as (O1 & O2 & O3 & O4 & O5).
  assert (HD : forall y, y <> [] -> hash_data C (k_handle (g_h g)) y = (SV_OK, c_hash C o y)).
  { intros [|y0 y] Hy; [contradiction|reflexivity]. }
  destruct (put_at_n (sc_hs c) (k_buddies (g_h g)) (c_hash C o x)) as (b & E1 & E2 & E3 & E4); [lia|].
  assert (EB : firstn (2 * sc_hs c) b = h0 ++ c_hash C o x).
  { rewrite <- (firstn_skipn (sc_hs c) b) at 1. rewrite E3, GB.
    assert (L0 : length h0 = sc_hs c) by (rewrite <- GB; apply firstn_length_le; lia).
    rewrite firstn_app, L0. rewrite (firstn_all2 h0) by lia. f_equal.
    replace (2 * sc_hs c - sc_hs c)%nat with (length (c_hash C o x)) by lia. exact E4. }
  set (g1 := set_g_num (u16 (g_num g + 1)) (add_to_list (set_g_nalu_hash v
    (set_g_h (mkHst (k_handle (g_h g)) b (k_has_ref (g_h g))) g)) v)).
  assert (EH : hash_and_add C g n (sc_hs c) = Def (g1, SV_OK)).
  { unfold hash_and_add. rewrite N1, N2, N3. cbn [negb andb].
    unfold hash_wrapper. rewrite N3, N4, N5. cbn [negb andb].
    unfold simply_hash. rewrite N2, NI. cbn [obind]. rewrite HD by exact NX. cbn [obind is_ok svrc_eqb].
    rewrite E1. cbn [obind]. rewrite EB, HD.
    2:{ intros E; apply (f_equal (@length N)) in E; rewrite app_length, DL in E; cbn in E; lia. }
    cbn [obind is_ok svrc_eqb]. unfold count_nalu. rewrite N4. reflexivity. }
  rewrite EH in HA. cbn [holds] in HA. destruct HA as [HA1 HA2]. exists g1.
  split; [exact EH|]. split; [exact HA1|]. split; [exact HA2|]. clear EH HA1 HA2. unfold g1. clear g1.
  assert (VN : v <> []) by (intros E; rewrite E in VL; cbn in VL; lia).
  clearbody v.
  unfold add_to_list. cbn [g_list set_g_nalu_hash set_g_h g_h set_g_list set_g_num k_handle set_k_handle k_has_ref k_buddies g_num g_nalu_hash].
  rewrite GL.
  assert (EI : match lst d with Some [] => init_hash true (k_handle (g_h g)) | _ => k_handle (g_h g) end = k_handle (g_h g)).
  { unfold lst. destruct (nlen d <=? 19200); [|reflexivity]. destruct d; [contradiction|reflexivity]. }
  rewrite EI. unfold update_hash. destruct v as [|v0 v'] eqn:EV; [contradiction|]. rewrite <- EV in *.
  cbn [get_ctx]. rewrite GP. cbn [x_final fst set_ctx h_prim h_type x_oid x_data].
  split; [|split; [reflexivity|split; [congruence|split; [reflexivity|split; reflexivity]]]].
  unfold lst, hash_list_size. rewrite nlen_app'.
  destruct (N.leb_spec (nlen d) 19200).
  - destruct (N.ltb_spec 19200 (nlen d + nlen v)), (N.leb_spec (nlen d + nlen v) 19200); try lia; reflexivity.
  - destruct (N.leb_spec (nlen d + nlen v) 19200); [lia|reflexivity].
Qed.

(** ** State between the calls *)

Definition b1 (b : bool) : N := if b then 1 else 0.

(** What holds all the time: no SEI is waiting, [f] pictures were seen and the last SEI accounts for
    the first [lo] of them; the next SEI has counter [k]. *)
Record base (c : codec) (w : settings) (k lo f : N) (L : list gen) (s : signer) : Prop := mkBase {
  ba_good : sgood C s L;
  ba_done : r_done (s_run s) = 0%nat;
  ba_gold : r_golden (s_run s) = false;
  ba_ag : agrees c w s;
  ba_key : exists key, sc_key (s_cfg s) = Some key;
  ba_pub : w_pub w <> [];
  ba_k : u32 (g_counter (s_gop s) + 1) = k mod 2 ^ 32;
  ba_ts : g_ts (s_gop s) = None;
  ba_frame : r_frame (s_run s) = Z.of_N f;
  ba_rec : L = [] -> r_recurrent (s_run s) = due (w_rec w) lo f;
  ba_lo : lo <= f;
  ba_fr : f <= 2147483647;
  ba_last : n_last_part (r_last (s_run s)) = true
}.

(** Inside a GOP whose hashed NALUs are [xs]. The GOP hash computed last is [cg]. *)
Definition midg (w : settings) (prev : option (list N)) (cg : list N) (xs : list (list N)) (s : signer) : Prop :=
  let o := w_oid w in
  let hs := sc_hs (s_cfg s) in
  let g := s_gop s in
  let d := concat (hashes (c_hash C o) xs) in
  r_gen (s_run s) = true /\ g_list g = lst d /\
  h_prim (k_handle (g_h g)) = Some (mkCtx o d false) /\ k_has_ref (g_h g) = true /\
  firstn hs (k_buddies (g_h g)) = c_hash C o (hd [] xs) /\ g_num g = nlen xs mod 2 ^ 16 /\
  firstn hs (g_linked g) = (match prev with Some x => c_hash C o x | None => zeros (oid_size C o) end) /\
  firstn hs (skipn hs (g_linked g)) = c_hash C o (hd [] xs) /\ xs <> [] /\ firstn hs (g_computed g) = cg.

(** Before the first GOP. The GOP hash computed last is at the start of [gc]. *)
Definition startg (gc : list N) (s : signer) : Prop :=
  let g := s_gop s in
  r_gen (s_run s) = false /\ g_list g = Some [] /\ k_has_ref (g_h g) = false /\ g_num g = 0 /\
  g_linked g = zeros 128 /\ g_computed g = gc.

Lemma due_step r lo f : lo <= f -> due r lo (f + 1) = due r lo f || (f mod r =? 0).
Proof.
  intros H. unfold due. replace (N.to_nat (f + 1 - lo)) with (N.to_nat (f - lo) + 1)%nat by lia.
  rewrite seq_app, existsb_app. f_equal. cbn [seq existsb]. rewrite orb_false_r.
  f_equal. f_equal. lia.
Qed.
Lemma due_same r lo : due r lo lo = false.
Proof. unfold due. rewrite N.sub_diag. reflexivity. Qed.

Lemma base_set_gop c w k lo f L s g : base c w k lo f L s -> ggood C (s_cfg s) g ->
  g_hash_type g = g_hash_type (s_gop s) -> g_counter g = g_counter (s_gop s) -> g_ts g = None ->
  h_type (k_handle (g_h g)) = h_type (k_handle (g_h (s_gop s))) ->
  base c w k lo f L (set_s_gop g s).
Proof.
  intros [] G E1 E2 E3 E4. constructor; try assumption.
  - apply (sgood_frame C s); try reflexivity; assumption.
  - apply (agrees_same c w s); try reflexivity; assumption.
  - cbn. rewrite E2. assumption.
Qed.

(** The part of the call after the NALU was parsed and counted. *)
Definition add_rest (s : signer) (n : nalu) (ts : option Z) : out (signer * svrc) :=
  do (s, st) <- close_gop C s n ts;
  if negb (is_ok st) then Def (s, st)
  else
    do (g, st) <- hash_and_add C (s_gop s) n (sc_hs (s_cfg s));
    let s := set_s_gop g s in
    if negb (is_ok st) then Def (s, st)
    else if n_first_in_gop n && n_last_part n then
      do (hash, _) <- take_mem (sc_hs (s_cfg s)) (g_nalu_hash (s_gop s));
      do l <- shift_linked (sc_hs (s_cfg s)) (g_linked (s_gop s)) hash;
      Def (on_gop (set_g_linked l) s, SV_OK)
    else Def (s, SV_OK).

Lemma set_parts_id n : n_first_part n = true -> n_last_part n = true -> set_parts (n_first_part n) true n = n.
Proof. destruct n; cbn. intros -> ->. reflexivity. Qed.

Lemma add_pre c w k lo f s d ts n s' st : base c w k lo f [] s -> d <> [] ->
  parse_nalu d c true false = Def n -> add_part C s d ts true = Def (s', st) ->
  exists s3, base c w k lo (f + b1 (n_primary n)) [] s3 /\ s_gop s3 = s_gop s /\ s_cfg s3 = s_cfg s /\
    r_gen (s_run s3) = r_gen (s_run s) /\ add_rest s3 n ts = Def (s', st).
Proof.
  intros B Hd EP. pose proof B as [B1 B2 B3 B4 [key B5] B6 B7 B8 B9 B10 B11 BF B12].
  destruct (parse_flags d c n Hd EP) as (F1 & F2 & F3 & F4).
  unfold add_part. destruct d as [|b0 d']; [contradiction|]. set (d := b0 :: d') in *. clearbody d.
  unfold take_part. rewrite B12, (ag_codec _ _ _ B4), EP. cbn [obind].
  rewrite set_parts_id by assumption. cbn [obind].
  unfold prepare, on_run. cbn [s_cfg set_s_run]. rewrite B5. cbv zeta.
  set (s2 := set_s_run (set_r_started true _) _).
  change (r_done (s_run s2)) with (r_done (s_run s)). rewrite B2.
  cbn [Nat.ltb Nat.leb]. rewrite andb_false_r. cbn [is_ok svrc_eqb negb].
  assert ((n_valid n <? 0)%Z = false) as -> by (apply Z.ltb_ge; exact F4).
  assert (BB : base c w k lo f [] s2).
  { constructor; try assumption.
    - apply (sgood_frame C s); try reflexivity; try assumption. apply B1.
    - apply (agrees_same c w s); try reflexivity; assumption.
    - exists key. exact B5. }
  match goal with |- _ -> ?g => enough (G : (do s3 <- count_frame s2 n; add_rest s3 n ts) = Def (s', st) -> g) by exact G end.
  unfold count_frame. rewrite F2, andb_true_r.
  destruct (n_primary n); cbn [b1 obind].
  2:{ rewrite N.add_0_r. intros E. exists s2. split; [exact BB|]. repeat split. exact E. }
  cbv zeta. destruct (Z.eqb_spec (r_frame (s_run s2)) 2147483647) as [|HF]; [discriminate|]. cbn [obind].
  intros E. eexists. split; [|split; [|split; [|split; [|exact E]]]]; try reflexivity.
  2:{ destruct (_ =? 0); reflexivity. }
  pose proof BB as [D1 D2 D3 D4 D5 D6 D7 D8 D9 D10 D11 DF D12].
  assert (HU : r_frame (s_run s2) = Z.of_N f) by exact D9.
  assert (HL : f < 2147483647) by lia.
  assert (EU : u32 (z_to_u64 (r_frame (s_run s2))) = f).
  { rewrite HU. unfold u32, z_to_u64. rewrite Z.mod_small by lia. rewrite N2Z.id. apply N.mod_small. lia. }
  rewrite EU, (ag_rec _ _ _ D4).
  assert (GG : forall b : bool, due (w_rec w) lo (f + 1) = (if b then true else r_recurrent (s_run s2)) ->
    base c w k lo (f + 1) [] (set_s_run (set_r_frame (r_frame (s_run s2) + 1)%Z
      (if b then set_r_recurrent true (s_run s2) else s_run s2)) s2)).
  { intros b Hb. constructor; try assumption; try (destruct b; assumption).
    - apply (sgood_frame C s2); try (destruct b; reflexivity); try assumption. apply D1.
    - apply (agrees_same c w s2); try reflexivity; assumption.
    - cbn [s_run set_s_run set_r_frame r_frame]. lia.
    - intros _. rewrite Hb. destruct b; reflexivity.
    - lia.
    - lia. }
  apply GG. rewrite due_step by assumption. rewrite (D10 eq_refl).
  destruct (f mod w_rec w =? 0), (due (w_rec w) lo f); reflexivity.
Qed.

(** ** The steps *)

Lemma get_none c w k lo f s s' r : base c w k lo f [] s -> get_sei s true [] = Def (s', r) ->
  rs_code r = SV_OK /\ rs_sei r = [] /\ base c w k lo f [] s' /\ s_gop s' = s_gop s /\ s_cfg s' = s_cfg s /\
  r_gen (s_run s') = r_gen (s_run s).
Proof.
  intros B E. pose proof B as [B1 B2 B3 B4 B5 B6 B7 B8 B9 B10 B11 BF B12].
  unfold get_sei in E. cbv zeta in E.
  pose proof (complete_all_ok C s [] B1) as H.
  destruct (complete_all s) as [[s1 st]|u]; [|discriminate]. cbn [obind] in E. cbn [holds] in H.
  destruct H as (-> & C1 & C2 & C3 & C4 & C5 & C6). cbn [is_ok svrc_eqb negb] in E. cbn [length] in C4, C5.
  rewrite C4 in E. cbn [Nat.ltb Nat.leb] in E. injection E as <- <-.
  destruct C6 as (R1 & R2 & R3 & R4 & R5 & R6 & R7).
  cbn [rs_code rs_sei]. split; [reflexivity|]. split; [reflexivity|].
  split; [|split; [exact C3|split; [exact C2|exact R2]]].
  rewrite B2 in C5. cbn [Nat.eqb] in C5.
  constructor; rewrite ?C2, ?C3, ?C4, ?C5, ?R4, ?R5, ?R6; auto.
  apply (agrees_same c w s s1 B4 C2). rewrite C3. reflexivity.
Qed.

Lemma hashes_snoc H x0 r x : hashes H ((x0 :: r) ++ [x]) = hashes H (x0 :: r) ++ [H (H x0 ++ H x)].
Proof. cbn [app hashes]. rewrite map_app. reflexivity. Qed.
Lemma hd_snoc (xs ys : list (list N)) : xs <> [] -> hd [] (xs ++ ys) = hd [] xs.
Proof. destruct xs; [contradiction|reflexivity]. Qed.

Lemma hashes_nonempty c w k lo f L s xs : base c w k lo f L s -> xs <> [] ->
  concat (hashes (c_hash C (w_oid w)) xs) <> [].
Proof.
  intros B HX E. destruct xs as [|x0 r]; [contradiction|]. cbn [hashes concat] in E.
  apply app_eq_nil in E as [E _]. pose proof (ba_good _ _ _ _ _ _ _ B) as G.
  pose proof (digest_len _ _ x0 (sg_g _ _ _ G)) as DL. rewrite (ag_oid _ _ _ (ba_ag _ _ _ _ _ _ _ B)), E in DL.
  pose proof (ggood_hs C HC _ _ (sg_g _ _ _ G)). cbn in DL. lia.
Qed.

Lemma num_step n (xs : list (list N)) x : n = nlen xs mod 2 ^ 16 -> u16 (n + 1) = nlen (xs ++ [x]) mod 2 ^ 16.
Proof.
  intros ->. rewrite nlen_app'. unfold u16, nlen. cbn [length]. change (2 ^ 16) with 65536. lia.
Qed.

Definition piece_hash (p : piece) : list (list N) := match p_bytes p with Some x => [x] | None => [] end.

(** A NALU inside a GOP. *)
Lemma step_inside c w k lo f prev cg xs s p s' rs : base c w k lo f [] s -> midg w prev cg xs s -> seen c p ->
  p_data p <> [] -> p_first p = false -> run C (feed p) s = Def (s', rs) -> Forall (fun r => rs_code r = SV_OK) rs ->
  returned rs = [] /\ base c w k lo (f + b1 (p_frame p)) [] s' /\ midg w prev cg (xs ++ piece_hash p) s'.
Proof.
  intros B M (TS & n & EP & P1 & P2 & P3) Hd HF E OK. rewrite HF in P1. symmetry in P1.
  unfold feed in E. cbn [run exec] in E.
  destruct (add_part C s (p_data p) (p_ts p) true) as [[s1 st]|u] eqn:EA; [|discriminate]. cbn [obind fst snd] in E.
  destruct (get_sei s1 true []) as [[s2 r]|u] eqn:EG; [|discriminate]. cbn [obind] in E. injection E as <- <-.
  apply Forall_cons_iff in OK as [OK1 OK2]. cbn [rs_code code] in OK1. subst st.
  destruct (add_pre c w k lo f s _ _ n s1 SV_OK B Hd EP EA) as (s3 & B3 & G3 & C3 & R3 & E3).
  destruct (parse_flags _ c n Hd EP) as (F1 & F2 & F3 & F4).
  unfold add_rest, close_gop in E3. rewrite P1 in E3. cbn [andb obind is_ok svrc_eqb negb] in E3.
  rewrite P2.
  assert (GOAL : base c w k lo (f + b1 (n_primary n)) [] s1 /\ midg w prev cg (xs ++ piece_hash p) s1).
  { destruct (n_hashable n) eqn:EH.
    - destruct P3 as (x & NI & PB). unfold piece_hash. rewrite PB.
      assert (GG : ggood C (s_cfg s3) (s_gop s3)) by apply (ba_good _ _ _ _ _ _ _ B3).
      destruct M as (M1 & M2 & M3 & M4 & M5 & M6 & M7 & M8 & M9 & M10).
      pose proof (ag_oid _ _ _ (ba_ag _ _ _ _ _ _ _ B)) as AO.
      destruct x as [|x0 x'] eqn:EX.
      { exfalso. destruct (hash_and_add C (s_gop s3) n (sc_hs (s_cfg s3))) as [[g st]|u] eqn:EE; [|discriminate].
        apply (nil_hash (s_cfg s3) _ n st g GG EH F1 F2 (F3 eq_refl) NI) in EE. cbn [obind] in E3.
        destruct st; cbn [is_ok svrc_eqb negb] in E3; congruence. }
      rewrite <- EX in *. assert (NX : x <> []) by (rewrite EX; discriminate).
      assert (A1 : h_type (k_handle (g_h (s_gop s3))) = w_oid w) by (rewrite G3; exact AO).
      destruct (next_hash (s_cfg s3) (s_gop s3) n x (concat (hashes (c_hash C (w_oid w)) xs)) (c_hash C (w_oid w) (hd [] xs))
        GG EH F1 F2 (F3 eq_refl) P1 NI NX) as (g & H1 & H2 & H3 & H4 & H5 & H6 & H7 & H8 & H9).
      { rewrite G3. exact M2. }
      { apply (hashes_nonempty _ _ _ _ _ _ _ _ B M9). }
      { rewrite A1, G3. exact M3. }
      { rewrite G3, C3. exact M5. }
      rewrite A1 in *. rewrite H1 in E3. cbn [obind is_ok svrc_eqb negb andb] in E3. injection E3 as <-.
      destruct H3 as (I1 & I2 & I3 & I4 & I5 & I6).
      assert (EC : concat (hashes (c_hash C (w_oid w)) xs) ++ c_hash C (w_oid w) (c_hash C (w_oid w) (hd [] xs) ++ c_hash C (w_oid w) x)
        = concat (hashes (c_hash C (w_oid w)) (xs ++ [x]))).
      { destruct xs as [|y0 ys]; [contradiction|]. rewrite hashes_snoc, concat_app. cbn [hd concat]. rewrite app_nil_r. reflexivity. }
      split.
      + apply base_set_gop; try assumption; try congruence. rewrite I4, G3. apply B.
      + unfold midg. cbn [s_run s_cfg s_gop set_s_gop]. rewrite R3, C3, <- EC, I2, I1, G3, H5, G3, H4, H7, H8, G3, hd_snoc by exact M9.
        rewrite <- C3, H6, C3.
        split; [exact M1|]. split; [reflexivity|]. split; [reflexivity|]. split; [exact M4|]. split; [reflexivity|].
        split; [apply num_step, M6|]. split; [exact M7|]. split; [exact M8|]. split; [destruct xs; discriminate|exact M10].
    - unfold piece_hash. rewrite P3, app_nil_r. unfold hash_and_add in E3. rewrite EH in E3.
      cbn [negb obind is_ok svrc_eqb andb] in E3. injection E3 as <-.
      assert (ES : set_s_gop (s_gop s3) s3 = s3) by (destruct s3; reflexivity). rewrite ES.
      split; [exact B3|]. unfold midg. rewrite R3, C3, G3. exact M. }
  destruct GOAL as [GB GM]. destruct (get_none _ _ _ _ _ _ _ _ GB EG) as (K1 & K2 & K3 & K4 & K5 & K6).
  split; [|split; [exact K3|]].
  - rewrite !returned_nil; [reflexivity|exact K2|reflexivity].
  - unfold midg. rewrite K4, K5, K6. exact GM.
Qed.

(** The first NALU of a GOP, after the previous GOP was closed. *)
Definition entry (s : signer) (n : nalu) : out (signer * svrc) :=
  do (g, st) <- hash_and_add C (s_gop s) n (sc_hs (s_cfg s));
  let s := set_s_gop g s in
  if negb (is_ok st) then Def (s, st)
  else if n_first_in_gop n && n_last_part n then
    do (hash, _) <- take_mem (sc_hs (s_cfg s)) (g_nalu_hash (s_gop s));
    do l <- shift_linked (sc_hs (s_cfg s)) (g_linked (s_gop s)) hash;
    Def (on_gop (set_g_linked l) s, SV_OK)
  else Def (s, SV_OK).

Definition prev_hash (w : settings) (prev : option (list N)) : list N :=
  match prev with Some x => c_hash C (w_oid w) x | None => zeros (oid_size C (w_oid w)) end.

Lemma enter c w k lo f L s n x prev cg s' : base c w k lo f L s -> n_hashable n = true -> n_first_part n = true ->
  n_last_part n = true -> n_gop_sei n = false -> n_first_in_gop n = true -> hash_input n = Def x ->
  r_gen (s_run s) = true -> g_list (s_gop s) = Some [] -> k_has_ref (g_h (s_gop s)) = false ->
  g_num (s_gop s) = 0 ->
  firstn (sc_hs (s_cfg s)) (skipn (sc_hs (s_cfg s)) (g_linked (s_gop s))) = prev_hash w prev -> firstn (sc_hs (s_cfg s)) (g_computed (s_gop s)) = cg ->
  entry s n = Def (s', SV_OK) ->
  base c w k lo f L s' /\ midg w prev cg [x] s'.
Proof.
  intros B N1 N2 N3 N4 N5 NI HG HL HR HN HP HCG E.
  assert (GG : ggood C (s_cfg s) (s_gop s)) by apply (ba_good _ _ _ _ _ _ _ B).
  pose proof (ag_oid _ _ _ (ba_ag _ _ _ _ _ _ _ B)) as AO.
  destruct x as [|x0 x'] eqn:EX.
  { exfalso. unfold entry in E.
    destruct (hash_and_add C (s_gop s) n (sc_hs (s_cfg s))) as [[g st]|u] eqn:EE; [|discriminate].
    apply (nil_hash (s_cfg s) _ n st g GG N1 N2 N3 N4 NI) in EE. cbn [obind] in E.
    destruct st; cbn [is_ok svrc_eqb negb] in E; congruence. }
  rewrite <- EX in *. assert (NX : x <> []) by (rewrite EX; discriminate). clear EX x0 x'.
  destruct (first_hash (s_cfg s) (s_gop s) n x GG N1 N2 N3 N4 N5 NI NX HR HL)
    as (g & H1 & H2 & H3 & H4 & H5 & H6 & H7 & H8 & H9 & H10).
  rewrite AO in *. unfold entry in E. rewrite H1 in E. cbn [obind is_ok svrc_eqb negb] in E.
  rewrite N5, N3 in E. cbn [andb s_cfg s_gop set_s_gop] in E. rewrite H7 in E.
  pose proof (digest_len _ _ x GG) as DL. rewrite AO in DL.
  pose proof (ggood_hs C HC _ _ GG) as Hs.
  assert (ET : take_mem (sc_hs (s_cfg s)) (c_hash C (w_oid w) x) = Def (c_hash C (w_oid w) x, [])).
  { pose proof (take_mem_app (c_hash C (w_oid w) x) []) as T. rewrite app_nil_r, DL in T. exact T. }
  rewrite ET in E. cbn [obind] in E.
  destruct H3 as (I1 & I2 & I3 & I4 & I5 & I6).
  set (v := c_hash C (w_oid w) x) in *. set (hs := sc_hs (s_cfg s)) in *.
  pose proof (eo_linked _ _ _ (gg_enc _ _ _ H2)) as LL. pose proof (eo_linked_b _ _ _ (gg_enc _ _ _ H2)) as LB.
  assert (VB : bytes_ok v).
  { destruct GG as [_ (_ & G & _) _ _]. rewrite AO in G. apply (ok_hash_bytes C HC _ _ _ G). }
  destruct (shift_linked_ok hs (g_linked g) v ltac:(lia) LL DL LB VB) as (l & EL & L1 & L2).
  assert (LH : firstn hs l = prev_hash w prev /\ firstn hs (skipn hs l) = v).
  { unfold shift_linked in EL.
    assert (L0 : length (firstn hs (skipn hs (g_linked g))) = hs) by (rewrite firstn_length, skipn_length; lia).
    destruct (put_at_0 (g_linked g) (firstn hs (skipn hs (g_linked g)))) as (d1 & D1 & D2 & D3); [lia|].
    rewrite D1 in EL. cbn [obind] in EL. rewrite L0 in D3.
    destruct (put_at_n hs d1 v) as (d2 & P1 & P2 & P3 & P4); [lia|].
    rewrite P1 in EL. injection EL as <-. rewrite P3, D3, I2, HP. split; [reflexivity|]. rewrite DL in P4. exact P4. }
  rewrite EL in E. cbn [obind] in E. injection E as <-.
  assert (BG : base c w k lo f L (set_s_gop g s)).
  { apply base_set_gop; try assumption; try congruence. rewrite I4. apply B. }
  split.
  - unfold on_gop. apply (base_set_gop c w k lo f L (set_s_gop g s)); try assumption; try reflexivity.
    + apply linked_good; assumption.
    + cbn. rewrite I4. apply B.
  - unfold midg, on_gop. cbn [s_run s_cfg s_gop set_s_gop set_g_linked g_list g_h g_num g_linked hd hashes map concat app].
    rewrite app_nil_r. fold v hs. destruct LH as [LH1 LH2].
    split; [exact HG|]. split; [exact H4|]. split; [exact H8|]. split; [exact H5|]. split; [exact H6|].
    split; [rewrite H9, HN; reflexivity|]. split; [exact LH1|]. split; [exact LH2|]. split; [discriminate|]. change (firstn hs (g_computed g) = cg). rewrite I1. exact HCG.
Qed.

(** The end of a GOP. *)
Lemma close_mid c w k lo f prev cg xs s n ts s' st : base c w k lo f [] s -> midg w prev cg xs s ->
  match ts with Some t => (-9223372036854775808 <= t < 9223372036854775808)%Z | None => True end ->
  n_first_in_gop n = true -> n_last_part n = true ->
  close_gop C s n ts = Def (s', st) -> st <> SV_OK \/
  exists q, st = SV_OK /\ base c w (k + 1) lo f [q] s' /\ gen_ok C c q /\ q_epb q = w_epb w /\ q_golden q = false /\
    q_max q = w_max_sig w /\ q_fs q = gop_fields C w k (due (w_rec w) lo f) prev xs ts /\
    q_oid q = w_oid w /\ c_priv C (q_key q) = Some (w_pub w, w_max_sig w) /\
    r_gen (s_run s') = true /\ g_list (s_gop s') = Some [] /\ k_has_ref (g_h (s_gop s')) = false /\
    g_num (s_gop s') = 0 /\ g_linked (s_gop s') = g_linked (s_gop s) /\ s_cfg s' = s_cfg s /\
    firstn (sc_hs (s_cfg s)) (g_computed (s_gop s')) = c_hash C (w_oid w) (concat (hashes (c_hash C (w_oid w)) xs)).
Proof.
  intros B M HT N1 N2. pose proof B as [B1 B2 B3 B4 [key B5] B6 B7 B8 B9 B10 B11 BF B12].
  pose proof M as (M1 & M2 & M3 & M4 & M5 & M6 & M7 & M8 & M9 & M10).
  unfold close_gop. rewrite N1, N2, M1. cbn [andb]. cbv zeta.
  set (s1 := match ts with Some t => on_gop (set_g_ts (Some t)) s | None => s end).
  assert (E1 : sgood C s1 [] /\ s_cfg s1 = s_cfg s /\ s_run s1 = s_run s /\ g_ts (s_gop s1) = ts /\
    g_h (s_gop s1) = g_h (s_gop s) /\ g_list (s_gop s1) = g_list (s_gop s) /\ g_num (s_gop s1) = g_num (s_gop s) /\
    g_linked (s_gop s1) = g_linked (s_gop s) /\ g_counter (s_gop s1) = g_counter (s_gop s)).
  { unfold s1. destruct ts as [t|].
    - split; [apply ts_good; assumption|]. repeat split.
    - split; [exact B1|]. repeat split. exact B8. }
  clearbody s1. destruct E1 as (S1 & S2 & S3 & S4 & S5 & S6 & S7 & S8 & S9).
  assert (GG : ggood C (s_cfg s1) (s_gop s1)) by apply S1.
  pose proof (ag_oid _ _ _ B4) as AO.
  destruct (finalize_hash C true (k_handle (g_h (s_gop s1)))) as [[h st1] v] eqn:EF.
  destruct (handle_ok_finalize C HC _ _ _ _ _ _ (gg_h _ _ _ GG) EF) as (F1 & F2 & F3).
  assert (EF2 : st1 = SV_OK /\ v = c_hash C (w_oid w) (concat (hashes (c_hash C (w_oid w)) xs)) /\
    h_type h = w_oid w).
  { unfold finalize_hash in EF. cbn [get_ctx] in EF. rewrite S5, M3 in EF. cbn [x_final x_oid x_data set_ctx] in EF.
    injection EF as <- <- <-. split; [reflexivity|]. split; [reflexivity|]. cbn [h_type]. exact AO. }
  destruct EF2 as (-> & EV & HO). destruct (F3 eq_refl) as [V1 V2]. cbn [is_ok svrc_eqb negb].
  destruct (computed_good C HC (s_cfg s1) (s_gop s1) h v GG F1 F2 V1 V2) as (d & ED & GD).
  assert (ED2 : put_mem (g_computed (set_g_h (set_k_handle h (g_h (s_gop s1))) (s_gop s1))) v = Def d) by exact ED.
  rewrite ED2. cbn [obind]. set (s2 := set_s_gop _ s1).
  assert (HS2 : sgood C s2 []).
  { unfold s2. apply (sgood_frame C s1); try reflexivity; assumption. }
  assert (HK2 : sc_key (s_cfg s2) = Some key) by (unfold s2; cbn; rewrite S2; exact B5).
  pose proof (generate_spec C HC s2 [] key HS2 HK2) as GS.
  assert (AG2 : agrees c w s2).
  { apply (agrees_same c w s); [exact B4|exact S2|]. unfold s2. cbn. rewrite HO, AO. reflexivity. }
  assert (EM : meta_fields s2 = gop_fields C w k (r_recurrent (s_run s2)) prev xs ts).
  { rewrite gop_fields_is. apply (meta_eq c w s2 k prev xs _ ts AG2).
    - apply HS2.
    - apply HS2.
    - exact B6.
    - change (s_run s2) with (s_run s1). rewrite S3. exact B3.
    - apply (hashes_nonempty _ _ _ _ _ _ _ _ B M9).
    - change (g_counter (s_gop s2)) with (g_counter (s_gop s1)). rewrite S9. exact B7.
    - change (g_num (s_gop s2)) with (g_num (s_gop s1)). rewrite S7. exact M6.
    - exact S4.
    - change (g_linked (s_gop s2)) with (g_linked (s_gop s1)). change (s_cfg s2) with (s_cfg s1). rewrite S8, S2. exact M7.
    - change (g_computed (s_gop s2)) with d. change (s_cfg s2) with (s_cfg s1). rewrite <- V1, <- EV.
      apply (put_mem_prefix _ _ _ ED).
    - change (g_list (s_gop s2)) with (g_list (s_gop s1)). rewrite S6. exact M2. }
  destruct (generate_sei C s2) as [[[s3 st2] p]|u]; [|discriminate]. cbn [obind holds] in GS |- *.
  destruct GS as [(E1 & _)|(E1 & E2 & E3 & [(-> & sig & lt & E4 & E5 & E6)|(E4 & E5 & E6 & E7)])].
  - discriminate.
  - cbn [is_ok svrc_eqb obind]. cbv zeta in E4, E5. set (q := new_gen s2 key sig lt) in *.
    intros E. injection E as <- <-. right. exists q.
    destruct (add_payload_good C s2 [] s3 key sig lt HS2 E1 HK2 E2 E3 E5 E6) as [A1 A2]. fold q in A1, A2.
    subst p. rewrite A1 in *. cbn [app] in A2.
    destruct E3 as (G1 & G2 & G3 & G4 & G5 & G6 & G7 & G8 & G9 & G10).
    change (s_run s2) with (s_run s1) in *. rewrite S3 in *. rewrite B3 in G2.
    change (s_cfg s2) with (s_cfg s1) in *. rewrite S2 in *.
    change (g_counter (s_gop s2)) with (g_counter (s_gop s1)) in G2. rewrite S9 in G2.
    assert (G11 : h_type (k_handle (g_h (s_gop s3))) = h_type (k_handle (g_h (s_gop s2)))).
    { destruct (gg_h _ _ _ G1) as [<- _]. destruct (gg_h _ _ _ (sg_g _ _ _ HS2)) as [<- _]. exact G10. }
    assert (HQ : q_epb q = w_epb w /\ q_golden q = false /\ q_max q = w_max_sig w /\ q_fs q = gop_fields C w k (due (w_rec w) lo f) prev xs ts /\
      q_oid q = w_oid w /\ c_priv C (q_key q) = Some (w_pub w, w_max_sig w)).
    { unfold q. cbn [new_gen q_epb q_golden q_max q_fs q_oid q_key]. change (s_cfg s2) with (s_cfg s1). change (s_run s2) with (s_run s1).
      rewrite S2, S3, EM, (B10 eq_refl).
      split; [apply (ag_epb _ _ _ B4)|]. split; [exact B3|]. split; [apply (ag_ms _ _ _ B4)|].
      split; [reflexivity|]. split; [exact (ag_oid _ _ _ AG2)|].
      pose proof (sg_key _ _ _ B1) as KP. rewrite B5 in KP. destruct KP as [KP _]. rewrite <- (ag_pub _ _ _ B4), <- (ag_ms _ _ _ B4). exact KP. }
    destruct HQ as (Q1 & Q2 & Q3 & Q4 & Q5 & Q6). rewrite (ag_codec _ _ _ B4) in *.
    unfold on_run at 1. cbn [s_run set_s_run s_gop s_cfg r_gen set_r_gen].
    split; [reflexivity|]. split.
    { clearbody q. constructor.
      - apply (sgood_frame C (on_run (fun r => set_r_slots (r_slots r ++ [unf_slot c q]) r) s3)); try reflexivity; [exact A2|].
        cbn. apply A2.
      - cbn. rewrite E6. exact B2.
      - cbn. rewrite E6. exact B3.
      - apply (agrees_same c w s2 _ AG2); cbn; [|exact G11]. rewrite E2. symmetry. exact S2.
      - exists key. cbn. rewrite E2. exact B5.
      - exact B6.
      - cbn. rewrite G2, B7. unfold u32. change (2 ^ 32) with 4294967296. lia.
      - exact G7.
      - cbn. rewrite E6. exact B9.
      - discriminate.
      - exact B11.
      - exact BF.
      - cbn. rewrite E6. exact B12. }
    split; [exact E5|]. split; [exact Q1|]. split; [exact Q2|]. split; [exact Q3|]. split; [exact Q4|].
    split; [exact Q5|]. split; [exact Q6|].
    split; [reflexivity|]. split; [exact G6|]. split; [exact G8|]. split; [exact G5|].
    split; [rewrite <- S8; exact G3|]. split; [exact E2|].
    change (g_computed (s_gop s2)) with d in G4. cbn. rewrite G4, <- V1, <- EV. apply (put_mem_prefix _ _ _ ED).
  - destruct (is_ok st2) eqn:ES; [apply is_ok_eq in ES; contradiction|]. cbn [obind]. rewrite ES.
    intros E. injection E as <- <-. left. exact E4.
Qed.

(** The SEI of the GOP that has just ended is fetched. *)
Lemma get_one c w k lo f q s s' r : base c w k lo f [q] s -> get_sei s true [] = Def (s', r) ->
  rs_code r = SV_OK /\ rs_sei r = fin c q /\ base c w k f f [] s' /\ s_gop s' = s_gop s /\ s_cfg s' = s_cfg s /\
  r_gen (s_run s') = r_gen (s_run s).
Proof.
  intros B E. pose proof B as [B1 B2 B3 B4 B5 B6 B7 B8 B9 B10 B11 BF B12].
  unfold get_sei in E. cbv zeta in E.
  pose proof (complete_all_ok C s [q] B1) as H.
  destruct (complete_all s) as [[s1 st]|u]; [|discriminate]. cbn [obind] in E. cbn [holds] in H.
  destruct H as (-> & C1 & C2 & C3 & C4 & C5 & C6). cbn [is_ok svrc_eqb negb] in E. cbn [length] in C4, C5.
  rewrite B2 in C5. cbn [Nat.eqb] in C5.
  rewrite C4 in E. cbn [Nat.ltb Nat.leb obind negb] in E.
  destruct (fetch_ok C s1 [] q [] C1 C4 true) as (s2 & F1 & F2 & F3 & F4 & F5 & F6 & F7).
  cbn [length app] in *. rewrite F1 in E. cbn [obind] in E. injection E as <- <-.
  pose proof (same_run_trans _ _ _ C6 F4) as (R1 & R2 & R3 & R4 & R5 & R6 & R7).
  cbn [rs_code rs_sei]. split; [reflexivity|].
  split; [rewrite C2, (ag_codec _ _ _ B4); reflexivity|].
  split; [|split; [congruence|split; [congruence|exact R2]]].
  constructor; rewrite ?F2, ?F3, ?C2, ?C3, ?F7, ?F5, ?C5, ?R4, ?R5, ?R6; auto.
  - apply (agrees_same c w s s2 B4); [congruence|]. rewrite F3, C3. reflexivity.
  - intros _. symmetry. apply due_same.
  - lia.
Qed.

(** The end of the stream. *)
Lemma eos_mid c w k lo f prev cg xs s s' rs : base c w k lo f [] s -> midg w prev cg xs s ->
  run C [OEos; OGet true []] s = Def (s', rs) -> Forall (fun r => rs_code r = SV_OK) rs ->
  exists y, returned rs = [y] /\ sei_with C c w (gop_fields_with C w k (due (w_rec w) lo f) prev xs cg None) y.
Proof.
  intros B M E OK. pose proof B as [B1 B2 B3 B4 [key B5] B6 B7 B8 B9 B10 B11 BF B12].
  pose proof M as (M1 & M2 & M3 & M4 & M5 & M6 & M7 & M8 & M9 & M10).
  cbn [run exec] in E. unfold end_of_stream, prepare, on_run in E. rewrite B5 in E. cbv zeta in E.
  set (s2 := set_s_run (set_r_started true _) _) in E.
  change (r_done (s_run s2)) with (r_done (s_run s)) in E. rewrite B2 in E.
  cbn [Nat.ltb Nat.leb] in E. rewrite andb_false_r in E. cbn [is_ok svrc_eqb negb] in E.
  assert (HS2 : sgood C s2 []).
  { apply (sgood_frame C s); try reflexivity; try assumption. apply B1. }
  assert (AG2 : agrees c w s2) by (apply (agrees_same c w s); try reflexivity; assumption).
  assert (HK2 : sc_key (s_cfg s2) = Some key) by exact B5.
  pose proof (generate_spec C HC s2 [] key HS2 HK2) as GS.
  assert (EM : meta_fields s2 = gop_fields_with C w k (r_recurrent (s_run s2)) prev xs cg None).
  { apply (meta_eq c w s2 k prev xs cg None AG2); try assumption.
    - apply HS2.
    - apply HS2.
    - apply (hashes_nonempty _ _ _ _ _ _ _ _ B M9). }
  destruct (generate_sei C s2) as [[[s3 st2] p]|u]; [|discriminate]. cbn [obind holds] in GS, E.
  destruct GS as [(E1 & _)|(E1 & E2 & E3 & [(-> & sig & lt & E4 & E5 & E6)|(E4 & E5 & E6 & E7)])].
  - discriminate.
  - cbn [is_ok svrc_eqb obind negb] in E. cbv zeta in E4, E5. set (q := new_gen s2 key sig lt) in *.
    destruct (add_payload_good C s2 [] s3 key sig lt HS2 E1 HK2 E2 E3 E5 E6) as [A1 A2]. fold q in A1, A2.
    subst p. rewrite A1 in *. cbn [app] in A2.
    set (s4 := on_run _ s3) in *.
    pose proof (complete_all_ok C s4 [q] A2) as H.
    destruct (complete_all s4) as [[s5 st]|u]; [|discriminate]. cbn [obind] in E. cbn [holds] in H.
    destruct H as (-> & C1 & C2 & C3 & C4 & C5 & C6). cbn [fst snd] in E.
    unfold get_sei in E. cbv zeta in E.
    pose proof (complete_all_ok C s5 [q] C1) as H.
    destruct (complete_all s5) as [[s6 st]|u]; [|discriminate]. cbn [obind] in E. cbn [holds] in H.
    destruct H as (-> & D1 & D2 & D3 & D4 & D5 & D6). cbn [is_ok svrc_eqb negb] in E. cbn [length] in D4.
    rewrite D4 in E. cbn [Nat.ltb Nat.leb obind negb] in E.
    destruct (fetch_ok C s6 [] q [] D1 D4 true) as (s7 & F1 & F2 & F3 & F4 & F5 & F6 & F7).
    cbn [length app] in *. rewrite F1 in E. cbn [obind] in E. injection E as <- <-.
    assert (EC : sc_codec (s_cfg s6) = c).
    { rewrite D2, C2. unfold s4. cbn [s_cfg on_run set_s_run]. rewrite E2. exact (ag_codec _ _ _ B4). }
    rewrite EC in *. exists (fin c q). split.
    + rewrite returned_nil by reflexivity. rewrite (returned_fin c q) by reflexivity. reflexivity.
    + assert (HQ : q_epb q = w_epb w /\ q_golden q = false /\ q_max q = w_max_sig w /\
        q_fs q = gop_fields_with C w k (due (w_rec w) lo f) prev xs cg None /\
        q_oid q = w_oid w /\ c_priv C (q_key q) = Some (w_pub w, w_max_sig w)).
      { unfold q. cbn [new_gen q_epb q_golden q_max q_fs q_oid q_key]. rewrite EM.
        change (r_recurrent (s_run s2)) with (r_recurrent (s_run s)). rewrite (B10 eq_refl).
        split; [apply (ag_epb _ _ _ B4)|]. split; [exact B3|]. split; [apply (ag_ms _ _ _ B4)|].
        split; [reflexivity|]. split; [exact (ag_oid _ _ _ AG2)|].
        pose proof (sg_key _ _ _ B1) as KP. rewrite B5 in KP. destruct KP as [KP _]. rewrite <- (ag_pub _ _ _ B4), <- (ag_ms _ _ _ B4). exact KP. }
      destruct HQ as (Q1 & Q2 & Q3 & Q4 & Q5 & Q6).
      exists (q_sig q), (q_key q). split; [exact Q6|]. rewrite <- Q1, <- Q2, <- Q3, <- Q4, <- Q5. apply fin_signed.
      change (s_cfg s2) with (s_cfg s) in E5. rewrite (ag_codec _ _ _ B4) in E5. exact E5.
  - exfalso. destruct (is_ok st2) eqn:ES; [apply is_ok_eq in ES; contradiction|]. cbn [negb obind fst snd] in E.
    destruct (get_sei s3 true []) as [[s4 r]|u]; [|discriminate]. cbn [obind] in E. injection E as <- <-.
    apply Forall_cons_iff in OK as [OK _]. cbn [rs_code code] in OK. contradiction.
Qed.

(** Setting up a call. *)
Lemma feed_split c w k lo f s p s' rs : base c w k lo f [] s -> seen c p -> p_data p <> [] ->
  run C (feed p) s = Def (s', rs) -> Forall (fun r => rs_code r = SV_OK) rs ->
  exists n s3 s1 r, parse_nalu (p_data p) c true false = Def n /\ p_first p = n_first_in_gop n /\
    (if n_hashable n then exists x, hash_input n = Def x /\ p_bytes p = Some x else p_bytes p = None) /\
    n_first_part n = true /\ n_last_part n = true /\ (n_hashable n = true -> n_gop_sei n = false) /\
    base c w k lo (f + b1 (p_frame p)) [] s3 /\ s_gop s3 = s_gop s /\ s_cfg s3 = s_cfg s /\
    r_gen (s_run s3) = r_gen (s_run s) /\ add_rest s3 n (p_ts p) = Def (s1, SV_OK) /\
    get_sei s1 true [] = Def (s', r) /\ rs = [code SV_OK; r].
Proof.
  intros B (TS & n & EP & P1 & P2 & P3) Hd E OK.
  unfold feed in E. cbn [run exec] in E.
  destruct (add_part C s (p_data p) (p_ts p) true) as [[s1 st]|u] eqn:EA; [|discriminate]. cbn [obind fst snd] in E.
  destruct (get_sei s1 true []) as [[s2 r]|u] eqn:EG; [|discriminate]. cbn [obind] in E. injection E as <- <-.
  apply Forall_cons_iff in OK as [OK1 OK2]. cbn [rs_code code] in OK1. subst st.
  destruct (add_pre c w k lo f s _ _ n s1 SV_OK B Hd EP EA) as (s3 & B3 & G3 & C3 & R3 & E3).
  destruct (parse_flags _ c n Hd EP) as (F1 & F2 & F3 & F4).
  exists n, s3, s1, r. rewrite P2. repeat (split; [assumption|]). reflexivity.
Qed.

Lemma add_rest_entry s n ts : add_rest s n ts =
  (do (s1, st) <- close_gop C s n ts; if negb (is_ok st) then Def (s1, st) else entry s1 n).
Proof. reflexivity. Qed.

(** A NALU before the first GOP that is not hashed. *)
Lemma step_before gc c w k lo f s p s' rs : base c w k lo f [] s -> startg gc s -> seen c p ->
  p_data p <> [] -> p_first p = false -> p_bytes p = None ->
  run C (feed p) s = Def (s', rs) -> Forall (fun r => rs_code r = SV_OK) rs ->
  returned rs = [] /\ base c w k lo (f + b1 (p_frame p)) [] s' /\ startg gc s'.
Proof.
  intros B M HP Hd HF HB E OK.
  destruct (feed_split c w k lo f s p s' rs B HP Hd E OK)
    as (n & s3 & s1 & r & EP & P1 & P3 & F1 & F2 & F3 & B3 & G3 & C3 & R3 & E3 & EG & ->).
  rewrite HF in P1. symmetry in P1. rewrite add_rest_entry in E3.
  unfold close_gop in E3. rewrite P1 in E3. cbn [andb obind is_ok svrc_eqb negb] in E3.
  destruct (n_hashable n) eqn:EH; [destruct P3 as (x & _ & P3); congruence|].
  unfold entry, hash_and_add in E3. rewrite EH, P1 in E3. cbn [negb obind is_ok svrc_eqb andb] in E3. injection E3 as <-.
  assert (ES : set_s_gop (s_gop s3) s3 = s3) by (destruct s3; reflexivity). rewrite ES in EG.
  destruct (get_none _ _ _ _ _ _ _ _ B3 EG) as (K1 & K2 & K3 & K4 & K5 & K6).
  split; [|split; [exact K3|]].
  - rewrite !returned_nil; [reflexivity|exact K2|reflexivity].
  - unfold startg. rewrite K4, K6, G3, R3. exact M.
Qed.

Lemma zeros_part n m k : (n + m <= k)%nat -> firstn n (skipn m (zeros k)) = zeros n.
Proof.
  intros H. unfold zeros. replace k with (m + (n + (k - m - n)))%nat by lia. rewrite !repeat_app.
  rewrite skipn_app, skipn_all2, repeat_length by (rewrite repeat_length; lia). rewrite Nat.sub_diag.
  cbn [skipn app]. rewrite firstn_app, repeat_length, Nat.sub_diag, firstn_all2 by (rewrite repeat_length; lia).
  cbn [firstn]. apply app_nil_r.
Qed.

Lemma zeros_hs c w k lo f L s : base c w k lo f L s -> firstn (oid_size C (w_oid w)) (zeros 64) = zeros (oid_size C (w_oid w)).
Proof.
  intros B. rewrite <- (ag_hs _ _ _ (ba_ag _ _ _ _ _ _ _ B)).
  assert (GG : ggood C (s_cfg s) (s_gop s)) by apply (ba_good _ _ _ _ _ _ _ B).
  pose proof (ggood_hs C HC _ _ GG). apply (zeros_part (sc_hs (s_cfg s)) 0 64). lia.
Qed.

(** The first NALU of the first GOP. *)
Lemma step_first gc c w k lo f s p x s' rs : base c w k lo f [] s -> startg gc s -> seen c p ->
  p_data p <> [] -> p_first p = true -> p_bytes p = Some x ->
  run C (feed p) s = Def (s', rs) -> Forall (fun r => rs_code r = SV_OK) rs ->
  returned rs = [] /\ base c w k lo (f + b1 (p_frame p)) [] s' /\ midg w None (firstn (oid_size C (w_oid w)) gc) [x] s'.
Proof.
  intros B (M1 & M2 & M3 & M4 & M5 & M6) HP Hd HF HB E OK.
  destruct (feed_split c w k lo f s p s' rs B HP Hd E OK)
    as (n & s3 & s1 & r & EP & P1 & P3 & F1 & F2 & F3 & B3 & G3 & C3 & R3 & E3 & EG & ->).
  rewrite HF in P1. symmetry in P1. rewrite add_rest_entry in E3.
  unfold close_gop in E3. rewrite P1, F2, R3, M1 in E3. cbn [andb obind is_ok svrc_eqb negb] in E3.
  destruct (n_hashable n) eqn:EH; [|congruence]. destruct P3 as (x' & NI & PB).
  assert (x' = x) by congruence. subst x'.
  set (s4 := on_run (set_r_gen true) s3) in *.
  assert (B4 : base c w k lo (f + b1 (p_frame p)) [] s4).
  { destruct B3. constructor; try assumption.
    - apply (sgood_frame C s3); try reflexivity; try assumption. apply ba_good0.
    - apply (agrees_same c w s3); try reflexivity; assumption. }
  destruct (enter c w k lo _ [] s4 n x None (firstn (oid_size C (w_oid w)) gc) s1 B4 EH F1 F2 (F3 eq_refl) P1 NI) as [K1 K2]; try assumption.
  { reflexivity. }
  { cbn. rewrite G3. exact M2. }
  { cbn. rewrite G3. exact M3. }
  { cbn. rewrite G3. exact M4. }
  { cbn [s4 on_run s_cfg s_gop set_s_run]. rewrite G3, M5. unfold prev_hash.
    rewrite <- (ag_hs _ _ _ (ba_ag _ _ _ _ _ _ _ B3)).
    assert (GG : ggood C (s_cfg s3) (s_gop s3)) by apply (ba_good _ _ _ _ _ _ _ B3).
    pose proof (ggood_hs C HC _ _ GG). apply zeros_part. lia. }
  { cbn [s4 on_run s_cfg s_gop set_s_run]. rewrite G3, M6. rewrite <- (ag_hs _ _ _ (ba_ag _ _ _ _ _ _ _ B3)). reflexivity. }
  destruct (get_none _ _ _ _ _ _ _ _ K1 EG) as (L1 & L2 & L3 & L4 & L5 & L6).
  split; [|split; [exact L3|]].
  - rewrite !returned_nil; [reflexivity|exact L2|reflexivity].
  - unfold midg. rewrite L4, L5, L6. exact K2.
Qed.

(** The first NALU of a later GOP. *)
Lemma step_open c w k lo f prev cg xs s p x s' rs : base c w k lo f [] s -> midg w prev cg xs s -> seen c p ->
  p_data p <> [] -> p_first p = true -> p_bytes p = Some x ->
  run C (feed p) s = Def (s', rs) -> Forall (fun r => rs_code r = SV_OK) rs ->
  let hi := f + b1 (p_frame p) in
  exists y, returned rs = [y] /\ sei_with C c w (gop_fields C w k (due (w_rec w) lo hi) prev xs (p_ts p)) y /\
    base c w (k + 1) hi hi [] s' /\ midg w (hd_error xs) (c_hash C (w_oid w) (concat (hashes (c_hash C (w_oid w)) xs))) [x] s'.
Proof.
  intros B M HP Hd HF HB E OK.
  destruct (feed_split c w k lo f s p s' rs B HP Hd E OK)
    as (n & s3 & s1 & r & EP & P1 & P3 & F1 & F2 & F3 & B3 & G3 & C3 & R3 & E3 & EG & ->).
  rewrite HF in P1. symmetry in P1. rewrite add_rest_entry in E3.
  destruct (n_hashable n) eqn:EH; [|congruence]. destruct P3 as (x' & NI & PB).
  assert (x' = x) by congruence. subst x'.
  assert (M3 : midg w prev cg xs s3) by (unfold midg; rewrite R3, C3, G3; exact M).
  destruct (close_gop C s3 n (p_ts p)) as [[s4 st]|u] eqn:EC; [|discriminate]. cbn [obind] in E3.
  destruct (close_mid c w k lo _ prev cg xs s3 n (p_ts p) s4 st B3 M3 (proj1 HP) P1 F2 EC) as [NO|Y].
  { destruct (is_ok st) eqn:ES; [apply is_ok_eq in ES; contradiction|]. cbn [negb] in E3. congruence. }
  destruct Y as (q & -> & B4 & QO & Q1 & Q2 & Q3 & Q4 & Q5 & Q6 & T1 & T2 & T3 & T4 & T5 & T6 & T7).
  cbn [is_ok svrc_eqb negb] in E3.
  pose proof M as (_ & _ & _ & _ & _ & _ & _ & M8 & M9 & _).
  destruct (enter c w (k + 1) lo _ [q] s4 n x (hd_error xs) (c_hash C (w_oid w) (concat (hashes (c_hash C (w_oid w)) xs))) s1 B4 EH F1 F2 (F3 eq_refl) P1 NI) as [K1 K2]; try assumption.
  { rewrite T5, T6, C3, G3, M8. unfold prev_hash. destruct xs as [|x0 ys]; [contradiction|]. reflexivity. }
  { rewrite T6. exact T7. }
  destruct (get_one _ _ _ _ _ _ _ _ _ K1 EG) as (L1 & L2 & L3 & L4 & L5 & L6).
  exists (fin c q). cbv zeta. split; [|split; [|split; [exact L3|]]].
  - rewrite returned_nil by reflexivity. rewrite (returned_fin c q) by exact L2. reflexivity.
  - exists (q_sig q), (q_key q). split; [exact Q6|]. rewrite <- Q1, <- Q2, <- Q3, <- Q4, <- Q5. apply fin_signed, QO.
  - unfold midg. rewrite L4, L5, L6. exact K2.
Qed.

(** ** Whole streams *)

Lemma returned_app a b : returned (a ++ b) = returned a ++ returned b.
Proof. unfold returned. rewrite map_app, filter_app. reflexivity. Qed.

Lemma feed_data p s s' rs : run C (feed p) s = Def (s', rs) -> Forall (fun r => rs_code r = SV_OK) rs -> p_data p <> [].
Proof.
  intros E OK H. unfold feed in E. rewrite H in E. cbn [run exec add_part obind fst snd] in E.
  destruct (get_sei s true []) as [[s2 r]|u]; [|discriminate]. cbn [obind] in E. injection E as <- <-.
  apply Forall_cons_iff in OK as [OK _]. discriminate.
Qed.

Lemma run_cons_feed p r s s' rs : run C (flat_map feed (p :: r)) s = Def (s', rs) ->
  Forall (fun r => rs_code r = SV_OK) rs ->
  exists s1 a b, run C (feed p) s = Def (s1, a) /\ run C (flat_map feed r) s1 = Def (s', b) /\ rs = a ++ b /\
    Forall (fun r => rs_code r = SV_OK) a /\ Forall (fun r => rs_code r = SV_OK) b.
Proof.
  cbn [flat_map]. rewrite run_app. destruct (run C (feed p) s) as [[s1 a]|u] eqn:E1; [|discriminate]. cbn [obind].
  destruct (run C (flat_map feed r) s1) as [[s2 b]|u] eqn:E2; [|discriminate]. cbn [obind]. intros E OK. injection E as <- <-.
  apply Forall_app in OK as [O1 O2]. exists s1, a, b. auto.
Qed.

Lemma frames_cons p r : frames (p :: r) = b1 (p_frame p) + frames r.
Proof. unfold frames, b1, nlen. cbn [filter]. destruct (p_frame p); cbn [length]; lia. Qed.

Lemma run_before gc c w k lo : forall r f s s' rs, base c w k lo f [] s -> startg gc s -> Forall (seen c) r ->
  Forall (fun p => p_first p = false /\ p_bytes p = None) r ->
  run C (flat_map feed r) s = Def (s', rs) -> Forall (fun r => rs_code r = SV_OK) rs ->
  returned rs = [] /\ base c w k lo (f + frames r) [] s' /\ startg gc s'.
Proof.
  induction r as [|p r IH]; intros f s s' rs B M HS HF E OK.
  - cbn in E. injection E as <- <-. rewrite N.add_0_r. auto.
  - apply Forall_cons_iff in HS as [HS1 HS2], HF as [[HF1 HF2] HF3].
    destruct (run_cons_feed _ _ _ _ _ E OK) as (s1 & a & b & E1 & E2 & -> & O1 & O2).
    destruct (step_before gc c w k lo f s p s1 a B M HS1 (feed_data _ _ _ _ E1 O1) HF1 HF2 E1 O1) as (K1 & K2 & K3).
    destruct (IH _ _ _ _ K2 K3 HS2 HF3 E2 O2) as (L1 & L2 & L3).
    rewrite returned_app, K1, L1, frames_cons, N.add_assoc. auto.
Qed.

Lemma run_tail c w k lo prev cg : forall r f xs s s' rs, base c w k lo f [] s -> midg w prev cg xs s -> Forall (seen c) r ->
  Forall (fun p => p_first p = false) r ->
  run C (flat_map feed r) s = Def (s', rs) -> Forall (fun r => rs_code r = SV_OK) rs ->
  returned rs = [] /\ base c w k lo (f + frames r) [] s' /\ midg w prev cg (xs ++ hashed r) s'.
Proof.
  induction r as [|p r IH]; intros f xs s s' rs B M HS HF E OK.
  - cbn in E. injection E as <- <-. cbn [hashed flat_map]. rewrite N.add_0_r, app_nil_r. auto.
  - apply Forall_cons_iff in HS as [HS1 HS2], HF as [HF1 HF3].
    destruct (run_cons_feed _ _ _ _ _ E OK) as (s1 & a & b & E1 & E2 & -> & O1 & O2).
    destruct (step_inside c w k lo f prev cg xs s p s1 a B M HS1 (feed_data _ _ _ _ E1 O1) HF1 E1 O1) as (K1 & K2 & K3).
    destruct (IH _ _ _ _ _ K2 K3 HS2 HF3 E2 O2) as (L1 & L2 & L3).
    rewrite returned_app, K1, L1, frames_cons, N.add_assoc. split; [reflexivity|]. split; [exact L2|].
    cbn [hashed flat_map]. fold (hashed r). rewrite <- app_assoc in L3. exact L3.
Qed.

(** The last GOP is still open, and no SEI is waiting. *)
Definition ending (c : codec) (w : settings) (k lo f : N) (prev : option (list N)) (cg : list N) (gs : list (list piece)) (s : signer) : Prop :=
  exists k' lo' f' prev' cg' xs, base c w k' lo' f' [] s /\ midg w prev' cg' xs s /\
    last_fields C w k lo f prev cg gs = gop_fields_with C w k' (due (w_rec w) lo' f') prev' xs cg' None.

Lemma run_gops c w : forall gs k lo f prev cg p r x s s' rs,
  base c w k lo (f + b1 (p_frame p)) [] s -> midg w prev cg [x] s -> p_bytes p = Some x ->
  Forall (seen c) r -> Forall (fun q => p_first q = false) r -> Forall is_gop gs -> Forall (seen c) (concat gs) ->
  run C (flat_map feed (r ++ concat gs)) s = Def (s', rs) -> Forall (fun r => rs_code r = SV_OK) rs ->
  Forall2 (sei_with C c w) (gops_fields C w k lo f prev ((p :: r) :: gs)) (returned rs) /\
  ending c w k lo f prev cg ((p :: r) :: gs) s'.
Proof.
  induction gs as [|g gs IH]; intros k lo f prev cg p r x s s' rs B M PB HS HF HG HSG E OK;
    rewrite flat_map_app, run_app in E;
    destruct (run C (flat_map feed r) s) as [[s1 a]|u] eqn:E1; try discriminate; cbn [obind] in E.
  - cbn in E. injection E as <- <-. rewrite app_nil_r in *.
    destruct (run_tail c w k lo prev cg r _ _ _ _ _ B M HS HF E1 OK) as (K1 & K2 & K3). rewrite K1.
    split; [constructor|].
    assert (EX : [x] ++ hashed r = hashed (p :: r)) by (cbn [hashed flat_map]; rewrite PB; reflexivity).
    rewrite EX in K3. rewrite <- N.add_assoc, <- frames_cons in K2.
    exists k, lo, (f + frames (p :: r)), prev, cg, (hashed (p :: r)). auto.
  - destruct (run C (flat_map feed (concat (g :: gs))) s1) as [[s2 b]|u] eqn:E2; [|discriminate]. cbn [obind] in E.
    injection E as <- <-. apply Forall_app in OK as [O1 O2].
    destruct (run_tail c w k lo prev cg r _ _ _ _ _ B M HS HF E1 O1) as (K1 & K2 & K3).
    apply Forall_cons_iff in HG as [(p2 & r2 & -> & G1 & G2 & G3) HG].
    cbn [concat] in E2, HSG. apply Forall_app in HSG as [HSG1 HSG2]. apply Forall_cons_iff in HSG1 as [HSP HSR].
    cbn [app] in E2. destruct (run_cons_feed _ _ _ _ _ E2 O2) as (s3 & d & e & E3 & E4 & -> & O3 & O4).
    destruct (p_bytes p2) as [y|] eqn:PB2; [|contradiction].
    assert (EX : [x] ++ hashed r = hashed (p :: r)) by (cbn [hashed flat_map]; rewrite PB; reflexivity).
    rewrite EX in K3. rewrite <- N.add_assoc, <- frames_cons in K2.
    destruct (step_open c w k lo _ prev cg _ s1 p2 y s3 d K2 K3 HSP (feed_data _ _ _ _ E3 O3) G1 PB2 E3 O3)
      as (z & Z1 & Z2 & Z3 & Z4).
    rewrite !returned_app, K1, Z1. cbn [app]. cbn [gops_fields]. cbv zeta.
    destruct (IH (k + 1) _ _ _ _ p2 r2 y s3 s2 e Z3 Z4 PB2 HSR G3 HG HSG2 E4 O4) as [L1 L2].
    split; [constructor; [exact Z2|exact L1]|]. exact L2.
Qed.

(** ** Settings *)

Record pre (c : codec) (w : settings) (s : signer) : Prop := mkPre {
  pr_inv : sinv C true c s [];
  pr_ag : agrees c w s;
  pr_start : startg (zeros 64) s;
  pr_run : s_run s = set_r_coin (r_coin (s_run s)) (s_run (create c 0));
  pr_cnt : g_counter (s_gop s) = 0;
  pr_ts : g_ts (s_gop s) = None;
  pr_key : (sc_key (s_cfg s) = None /\ w_pub w = []) \/ ((exists key, sc_key (s_cfg s) = Some key) /\ w_pub w <> [])
}.

Lemma pre_create c coin : pre c defaults (create c coin).
Proof.
  constructor; try reflexivity.
  - apply (create_good C HC).
  - constructor; try reflexivity; try discriminate. cbn. unfold oid_size. rewrite (ok_sha256 C HC). reflexivity.
  - repeat split; reflexivity.
  - left. split; reflexivity.
Qed.

Lemma prod_eq l : flat_map pstr_value (map (fun o => Some (match o with Some x => x | None => [] end)) l) =
  flat_map prod_string (map (fun x : option (list N) => match x with Some s => s | None => [] end) l).
Proof.
  induction l as [|o l IH]; [reflexivity|]. cbn [map flat_map]. rewrite IH. f_equal.
  rewrite pstr_value_eq, <- sent_len. unfold prod_string. cbv zeta. cbn [sent]. reflexivity.
Qed.

Lemma pre_step c w s o s' r : pre c w s -> op_ok C o -> is_setting o = true -> exec C o s = Def (s', r) ->
  rs_code r = SV_OK -> pre c (ask C w o) s' /\ rs_sei r = [].
Proof.
  intros [P1 P2 P3 P4 P5 P6 P7] HO HI E OK.
  pose proof (exec_ok C HC true c s o [] P1 HO ltac:(destruct o; exact I || reflexivity)) as X.
  rewrite E in X. destruct X as (L' & X1 & _).
  assert (CA : clean_after true o = true) by (destruct o; try reflexivity; discriminate).
  assert (SL : s_run s' = s_run s -> sinv C true c s' []).
  { intros ES. rewrite CA in X1. pose proof (slots_len C s' L' (si_good _ _ _ _ _ X1)) as Y.
    rewrite ES, P4 in Y. cbn in Y. destruct L'; [exact X1|discriminate]. }
  clear X1 CA. destruct P2 as [A1 A2 A3 A4 A5 A6 A7 A8 A9 A10 A11 A12 A13]. destruct w as [w1 w2 w3 w4 w5 w6 w7 w8 w9 w10].
  cbn [w_pub w_max_sig w_prod w_add_pub w_frame w_rec w_epb w_using w_max w_oid] in *.
  assert (EQ : r_queue (s_run s) = []) by (rewrite P4; reflexivity).
  assert (EST : r_started (s_run s) = false) by (rewrite P4; reflexivity).
  destruct o; try discriminate; cbn [exec] in E.
  - (* OKey *)
    unfold set_private_key in E. destruct HO as (HN & pub & m & HP). destruct pem as [|b pem]; [contradiction|].
    cbn [ask]. rewrite HP in E |- *. destruct pub as [|b0 pub].
    { cbn in E. injection E as <- <-. discriminate. }
    cbn [fst snd] in E. injection E as <- <-. split; [|reflexivity].
    assert (ER : s_run (on_run (set_r_queue []) (on_cfg (set_sc_key (Some (b :: pem)))
      (on_cfg (fun c0 => set_sc_pub (b0 :: pub) (set_sc_sig_mem true (set_sc_max_sig (S m) c0))) s))) = s_run s).
    { cbn. destruct (s_run s); cbn in EQ |- *. subst. reflexivity. }
    constructor; try assumption.
    + apply SL, ER.
    + constructor; assumption || reflexivity.
    + rewrite ER. exact P4.
    + right. split; [eexists; reflexivity|discriminate].
  - (* OProduct *)
    injection E as <- <-. split; [|reflexivity]. constructor; try assumption.
    + apply SL; reflexivity.
    + constructor; try assumption. apply prod_eq.
  - injection E as <- <-. split; [|reflexivity]. constructor; try assumption; [apply SL; reflexivity|constructor; assumption || reflexivity].
  - destruct l; injection E as <- <-; try discriminate; (split; [|reflexivity]; constructor; try assumption;
      [apply SL; reflexivity|constructor; assumption || reflexivity]).
  - destruct (N.ltb_spec n 1); injection E as <- <-; try discriminate.
    split; [|reflexivity]. constructor; try assumption;
      [apply SL; reflexivity|constructor; try assumption; try reflexivity]. cbn. lia.
  - injection E as <- <-. split; [|reflexivity]. constructor; try assumption; [apply SL; reflexivity|constructor; assumption || reflexivity].
  - rewrite EST in E. injection E as <- <-. split; [|reflexivity]. constructor; try assumption;
      [apply SL; reflexivity|constructor; assumption || reflexivity].
  - injection E as <- <-. split; [|reflexivity]. constructor; try assumption; [apply SL; reflexivity|constructor; assumption || reflexivity].
  - (* OHashAlgo *)
    unfold set_hash in E. rewrite EST in E. cbv zeta in E.
    assert (HD : exists d, ask C (mkSettings w1 w2 w3 w4 w5 w6 w7 w8 w9 w10) (OHashAlgo name) = mkSettings w1 w2 w3 w4 w5 w6 w7 w8 w9 d /\
      (set_hash_algo C name (k_handle (g_h (s_gop s))) = (mkHandle d d None (Some (mkCtx d [] false)), SV_OK) \/
       snd (set_hash_algo C name (k_handle (g_h (s_gop s)))) <> SV_OK)).
    { unfold set_hash_algo. destruct name as [t|]; cbn [ask].
      - destruct (c_name C t) as [d|].
        + exists d. split; [reflexivity|]. destruct (c_oid C d); [right|right|left]; try discriminate; reflexivity.
        + exists w10. split; [reflexivity|]. right. discriminate.
      - exists sha256_der. split; [reflexivity|].  destruct (c_oid C sha256_der); [right|right|left]; try discriminate; reflexivity. }
    destruct HD as (d & HA & HD). rewrite HA.
    destruct (set_hash_algo C name (k_handle (g_h (s_gop s)))) as [h st] eqn:EH.
    destruct HD as [HD|HD].
    2:{ cbn [snd] in HD. destruct (is_ok st) eqn:ES; [apply is_ok_eq in ES; contradiction|]. cbn [negb fst snd] in E.
        injection E as <- <-. contradiction. }
    injection HD as -> ->. cbn [is_ok svrc_eqb negb] in E.
    destruct ((hash_size C (mkHandle d d None (Some (mkCtx d [] false))) =? 0)%nat || _) eqn:EZ;
      cbn [fst snd] in E; injection E as <- <-; [discriminate|].
    split; [|reflexivity]. constructor; try assumption.
    + apply SL; reflexivity.
    + constructor; try assumption; reflexivity.
Qed.

Lemma pre_run c : forall ops w s s' rs, pre c w s -> Forall (op_ok C) ops -> Forall (fun o => is_setting o = true) ops ->
  run C ops s = Def (s', rs) -> Forall (fun r => rs_code r = SV_OK) rs ->
  pre c (fold_left (ask C) ops w) s' /\ returned rs = [].
Proof.
  induction ops as [|o ops IH]; intros w s s' rs P HO HI E OK.
  - cbn in E. injection E as <- <-. auto.
  - cbn [run] in E. destruct (exec C o s) as [[s1 r]|u] eqn:E1; [|discriminate]. cbn [obind] in E.
    destruct (run C ops s1) as [[s2 l]|u] eqn:E2; [|discriminate]. cbn [obind] in E. injection E as <- <-.
    apply Forall_cons_iff in HO as [HO1 HO2], HI as [HI1 HI2], OK as [OK1 OK2].
    destruct (pre_step c w s o s1 r P HO1 HI1 E1 OK1) as [Q1 Q2].
    destruct (IH _ _ _ _ Q1 HO2 HI2 E2 OK2) as [K1 K2]. cbn [fold_left].
    rewrite returned_nil by exact Q2. auto.
Qed.

Lemma key_kept ops : forall w, w_pub w <> [] \/ Exists (fun o => exists pem, o = OKey pem) ops ->
  Forall (op_ok C) ops -> forall c s s' rs, pre c w s -> Forall (fun o => is_setting o = true) ops ->
  run C ops s = Def (s', rs) -> Forall (fun r => rs_code r = SV_OK) rs -> w_pub (fold_left (ask C) ops w) <> [].
Proof.
  induction ops as [|o ops IH]; intros w HW HO c s s' rs P HI E OK.
  - destruct HW as [HW|HW]; [exact HW|inversion HW].
  - cbn [run] in E. destruct (exec C o s) as [[s1 r]|u] eqn:E1; [|discriminate]. cbn [obind] in E.
    destruct (run C ops s1) as [[s2 l]|u] eqn:E2; [|discriminate]. cbn [obind] in E. injection E as <- <-.
    apply Forall_cons_iff in HO as [HO1 HO2], HI as [HI1 HI2], OK as [OK1 OK2].
    destruct (pre_step c w s o s1 r P HO1 HI1 E1 OK1) as [Q1 Q2]. cbn [fold_left].
    apply (IH (ask C w o)) with (c := c) (s := s1) (s' := s2) (rs := l); try assumption.
    assert (HK : forall pem, o = OKey pem -> w_pub (ask C w o) <> []).
    { intros pem ->. cbn [exec] in E1. unfold set_private_key in E1. destruct HO1 as (HN & pub & m & HP).
      destruct pem as [|b pem]; [contradiction|]. destruct w as [w1 w2 w3 w4 w5 w6 w7 w8 w9 w10]. cbn [ask]. rewrite HP in E1 |- *. cbn [w_pub].
      destruct pub; [|discriminate]. cbn in E1. injection E1 as <- <-. discriminate. }
    destruct HW as [HW|HW].
    + left. destruct o; try (eapply HK; reflexivity); destruct w as [w1 w2 w3 w4 w5 w6 w7 w8 w9 w10]; cbn [ask]; try exact HW; try discriminate;
        repeat match goal with |- context [match ?x with _ => _ end] => destruct x end; exact HW.
    + apply Exists_cons in HW as [[pem HW]|HW]; [left; apply (HK pem HW)|right; exact HW].
Qed.

(** All calls succeed: the SEIs are those the GOPs ask for. *)
Theorem session_gops c coin setup before gs s' rs : Forall (op_ok C) setup ->
  Forall (fun o => is_setting o = true) setup -> Exists (fun o => exists pem, o = OKey pem) setup ->
  Forall (seen c) (before ++ concat gs) -> Forall (fun p => p_first p = false /\ p_bytes p = None) before ->
  Forall is_gop gs ->
  run C (setup ++ flat_map feed (before ++ concat gs)) (create c coin) = Def (s', rs) ->
  Forall (fun r => rs_code r = SV_OK) rs ->
  let w := fold_left (ask C) setup defaults in
  Forall2 (sei_with C c w) (gops_fields C w 1 0 (frames before) None gs) (returned rs) /\
  (gs <> [] -> ending c w 1 0 (frames before) None (zeros (oid_size C (w_oid w))) gs s').
Proof.
  intros HO HI HK HS HB HG E OK w. rewrite run_app in E.
  destruct (run C setup (create c coin)) as [[s0 a]|u] eqn:E0; [|discriminate]. cbn [obind] in E.
  destruct (run C (flat_map feed (before ++ concat gs)) s0) as [[s1 b]|u] eqn:E1; [|discriminate]. cbn [obind] in E.
  injection E as <- <-. apply Forall_app in OK as [O0 O1], HS as [HS1 HS2].
  destruct (pre_run c setup defaults _ _ _ (pre_create c coin) HO HI E0 O0) as [P R0].
  pose proof (key_kept setup defaults (or_intror HK) HO c _ _ _ (pre_create c coin) HI E0 O0) as HW. fold w in P, HW.
  destruct P as [P1 P2 P3 P4 P5 P6 P7]. destruct P7 as [[_ P7]|[P7 _]]; [contradiction|].
  assert (B : base c w 1 0 0 [] s0).
  { constructor; try assumption; try lia.
    - apply P1.
    - rewrite P4. reflexivity.
    - rewrite P4. reflexivity.
    - rewrite P5. reflexivity.
    - rewrite P4. reflexivity.
    - intros _. rewrite P4, due_same. reflexivity.
    - rewrite P4. reflexivity. }
  rewrite flat_map_app, run_app in E1.
  destruct (run C (flat_map feed before) s0) as [[s2 d]|u] eqn:E2; [|discriminate]. cbn [obind] in E1.
  destruct (run C (flat_map feed (concat gs)) s2) as [[s3 e]|u] eqn:E3; [|discriminate]. cbn [obind] in E1.
  injection E1 as <- <-. apply Forall_app in O1 as [O1 O2].
  destruct (run_before _ c w 1 0 before _ _ _ _ B P3 HS1 HB E2 O1) as (K1 & K2 & K3).
  rewrite !returned_app, R0, K1. cbn [app]. rewrite N.add_0_l in K2.
  destruct gs as [|g gs].
  - cbn in E3. injection E3 as <- <-. split; [constructor|contradiction].
  - apply Forall_cons_iff in HG as [(p & r & -> & G1 & G2 & G3) HG].
    cbn [concat] in E3, HS2. apply Forall_app in HS2 as [HS2 HS3]. apply Forall_cons_iff in HS2 as [HSP HSR].
    cbn [app] in E3. destruct (run_cons_feed _ _ _ _ _ E3 O2) as (s4 & x & y & E4 & E5 & -> & O3 & O4).
    destruct (p_bytes p) as [bs|] eqn:PB; [|contradiction].
    destruct (step_first _ c w 1 0 _ s2 p bs s4 x K2 K3 HSP (feed_data _ _ _ _ E4 O3) G1 PB E4 O3) as (L1 & L2 & L3).
    rewrite (zeros_hs _ _ _ _ _ _ _ K2) in L3. rewrite returned_app, L1. cbn [app].
    destruct (run_gops c w gs 1 0 (frames before) None (zeros (oid_size C (w_oid w))) p r bs s4 s3 y) as [R1 R2]; try assumption. split; [exact R1|intros _; exact R2].
Qed.

(** A session ended with [signed_video_set_end_of_stream]. *)
Theorem session_ends c coin setup before gs rs : finishes C c coin setup before gs rs -> gs <> [] ->
  let w := fold_left (ask C) setup defaults in
  exists ra rb y, rs = ra ++ rb /\ signs C c coin setup before gs ra /\ returned rb = [y] /\
    sei_with C c w (last_fields C w 1 0 (frames before) None (zeros (oid_size C (w_oid w))) gs) y.
Proof.
  intros (HO & HI & HK & HS & HB & HG & (s & E) & OK) NE w. rewrite app_assoc, run_app in E.
  destruct (run C (setup ++ flat_map feed (before ++ concat gs)) (create c coin)) as [[s1 ra]|u] eqn:E1; [|discriminate].
  cbn [obind] in E. destruct (run C [OEos; OGet true []] s1) as [[s2 rb]|u] eqn:E2; [|discriminate]. cbn [obind] in E.
  injection E as <- <-. apply Forall_app in OK as [O1 O2].
  destruct (session_gops c coin setup before gs s1 ra HO HI HK HS HB HG E1 O1) as [_ X]. fold w in X.
  destruct (X NE) as (k' & lo' & f' & prev' & cg' & xs & B & M & EL).
  destruct (eos_mid c w k' lo' f' prev' cg' xs s1 s2 rb B M E2 O2) as (y & R & Y).
  exists ra, rb, y. split; [reflexivity|]. split.
  { split; [exact HO|]. split; [exact HI|]. split; [exact HK|]. split; [exact HS|]. split; [exact HB|]. split; [exact HG|].
    split; [exists s1; exact E1|exact O1]. }
  split; [exact R|]. rewrite EL. exact Y.
Qed.

Lemma gops_nth w : forall gs k lo f prev i fs, Forall is_gop gs ->
  nth_error (gops_fields C w k lo f prev gs) i = Some fs ->
  exists g nx rest, nth_error gs i = Some g /\ nth_error gs (S i) = Some (nx :: rest) /\
    fs = gop_fields C w (k + N.of_nat i)
      (due (w_rec w) (match i with O => lo | S j => f + frames (concat (firstn i gs) ++ firstn 1 g) end)
                     (f + frames (concat (firstn (S i) gs) ++ [nx])))
      (match i with O => prev | S j => hd_error (hashed (nth j gs [])) end) (hashed g) (p_ts nx).
Proof.
  induction gs as [|g gs IH]; intros k lo f prev i fs HG E; [destruct i; discriminate|].
  apply Forall_cons_iff in HG as [HG0 HG].
  destruct gs as [|g2 gs]; [destruct i; discriminate|]. pose proof HG as HGG. apply Forall_cons_iff in HG as [HG1 HG].
  destruct HG1 as (nx & rest & -> & _). cbn [gops_fields] in E. cbv zeta in E. destruct i as [|i].
  - cbn [nth_error] in E. injection E as <-. exists g, nx, rest. split; [reflexivity|]. split; [reflexivity|].
    rewrite N.add_0_r. cbn [firstn concat]. rewrite app_nil_r. unfold frames at 2. rewrite filter_app.
    unfold nlen at 1. rewrite app_length, Nat2N.inj_add. fold (nlen (filter p_frame g)). fold (frames g).
    cbn [filter]. destruct (p_frame nx); cbn [length]; rewrite ?N.add_assoc; reflexivity.
  - cbn [nth_error] in E. apply IH in E; [|exact HGG].
    destruct E as (g' & nx' & rest' & E1 & E2 & ->). exists g', nx', rest'. split; [exact E1|]. split; [exact E2|].
    replace (k + 1 + N.of_nat i) with (k + N.of_nat (S i)) by lia.
    assert (FA : forall a b, frames (a ++ b) = frames a + frames b).
    { intros a b. unfold frames, nlen. rewrite filter_app, app_length. lia. }
    f_equal; [|destruct i; reflexivity]. f_equal.
    + destruct i as [|i].
      * cbn in E1. injection E1 as <-. cbn [firstn concat app]. rewrite app_nil_r, FA.
        unfold frames at 3, nlen. cbn [filter]. destruct (p_frame nx); cbn [length]; lia.
      * cbn [firstn concat]. rewrite !FA. lia.
    + cbn [firstn concat]. rewrite !FA. lia.
Qed.

Lemma gops_len w : forall gs k lo f prev, Forall is_gop gs ->
  length (gops_fields C w k lo f prev gs) = (length gs - 1)%nat.
Proof.
  induction gs as [|g gs IH]; intros k lo f prev HG; [reflexivity|]. apply Forall_cons_iff in HG as [_ HG].
  destruct gs as [|g2 gs]; [reflexivity|]. pose proof HG as HGG. apply Forall_cons_iff in HG as [(nx & rest & -> & _) _].
  etransitivity; [exact (f_equal S (IH (k + 1) _ _ _ HGG))|]. cbn [length]. lia.
Qed.


(** Each SEI of a session, by its number. *)
Theorem session_nth c coin setup before gs rs : signs C c coin setup before gs rs ->
  let w := fold_left (ask C) setup defaults in
  length (returned rs) = (length gs - 1)%nat /\
  forall i, (S i < length gs)%nat -> exists x, nth_error (returned rs) i = Some x /\ sei_with C c w ( gop_fields C w (1 + N.of_nat i)
      (due (w_rec w) (match i with O => 0 | S _ => pictures_to before gs i end) (pictures_to before gs (S i)))
      (match i with O => None | S j => hd_error (hashed (nth j gs [])) end) (hashed (nth i gs []))
      (match nth (S i) gs [] with nx :: _ => p_ts nx | [] => None end)) x.
Proof.
  intros (HO & HI & HK & HS & HB & HG & (s & E) & OK) w.
  destruct (session_gops c coin setup before gs s rs HO HI HK HS HB HG E OK) as [F _]. fold w in F.
  assert (FL : length (gops_fields C w 1 0 (frames before) None gs) = length (returned rs)).
  { clear - F. induction F; cbn [length]; congruence. } rewrite gops_len in FL by exact HG. split; [symmetry; exact FL|].
  intros i Hi.
  assert (Hl : (i < length (gops_fields C w 1 0 (frames before) None gs))%nat).
  { rewrite gops_len by exact HG. lia. }
  destruct (nth_error (gops_fields C w 1 0 (frames before) None gs) i) as [fs|] eqn:EF;
    [|apply nth_error_None in EF; lia].
  assert (FX : exists x, nth_error (returned rs) i = Some x /\ sei_with C c w fs x).
  { clear - F EF. revert i EF. induction F as [|a b la lb H F IH]; intros [|i] EF; try discriminate.
    - cbn in EF. injection EF as ->. exists b. split; [reflexivity|exact H].
    - apply IH, EF. }
  destruct FX as (x & FX & FS). exists x. split; [exact FX|].
  destruct (gops_nth w gs _ _ _ _ i fs HG EF) as (g & nx & rest & N1 & N2 & ->).
  assert (EG : nth i gs [] = g) by (apply nth_error_nth; exact N1).
  assert (EN : nth (S i) gs [] = nx :: rest) by (apply nth_error_nth; exact N2).
  assert (FA : forall a b, frames (a ++ b) = frames a + frames b).
  { intros a b. unfold frames, nlen. rewrite filter_app, app_length. lia. }
  assert (EP : forall j, pictures_to before gs j = frames before + frames (concat (firstn j gs) ++ firstn 1 (nth j gs []))).
  { intros j. unfold pictures_to. apply FA. }
  rewrite EN. rewrite (EP (S i)), EN. cbn [firstn].
  destruct i as [|i]; rewrite ?EP, EG; exact FS.
Qed.
Theorem session_ith c coin setup before gs rs : signs C c coin setup before gs rs ->
  let w := fold_left (ask C) setup defaults in
  length (returned rs) = (length gs - 1)%nat /\
  forall i, (S i < length gs)%nat -> exists fs sig,
    ith_sei c w rs i (fs ++ [(5, sig_value (w_max_sig w) sig)]) /\ sig <> [] /\ (length sig <= w_max_sig w)%nat /\
    fs = gop_fields C w (1 + N.of_nat i)
      (due (w_rec w) (match i with O => 0 | S _ => pictures_to before gs i end) (pictures_to before gs (S i)))
      (match i with O => None | S j => hd_error (hashed (nth j gs [])) end) (hashed (nth i gs []))
      (match nth (S i) gs [] with nx :: _ => p_ts nx | [] => None end).
Proof.
  intros H w. destruct (session_nth c coin setup before gs rs H) as [H1 H2]. fold w in H2. split; [exact H1|].
  intros i Hi. destruct (H2 i Hi) as (x & E & sig & key & _ & HX & _ & _ & _ & _ & _ & HN & HL & _). eexists _, sig.
  split; [unfold ith_sei; rewrite E, HX; reflexivity|]. auto.
Qed.


(** The settings of a session that works. *)
Lemma signs_settings c coin setup before gs rs : signs C c coin setup before gs rs ->
  let w := fold_left (ask C) setup defaults in
  exists hs, c_oid C (w_oid w) = OidDigest hs /\ w_rec w <> 0 /\ N.of_nat (w_max_sig w) + 5 < 65536.
Proof.
  intros (HO & HI & HK & HS & HB & HG & (s & E) & OK) w. rewrite run_app in E.
  destruct (run C setup (create c coin)) as [[s0 a]|u] eqn:E0; [|discriminate]. cbn [obind] in E.
  destruct (run C (flat_map feed (before ++ concat gs)) s0) as [[s1 b]|u] eqn:E1; [|discriminate]. cbn [obind] in E.
  injection E as <- <-. apply Forall_app in OK as [O0 O1].
  destruct (pre_run c setup defaults _ _ _ (pre_create c coin) HO HI E0 O0) as [P R0]. fold w in P.
  destruct P as [P1 P2 P3 P4 P5 P6 P7]. pose proof (sg_g _ _ _ (si_good _ _ _ _ _ P1)) as G.
  exists (sc_hs (s_cfg s0)). rewrite <- (ag_oid _ _ _ P2). split; [apply (gg_h _ _ _ G)|].
  split; [apply (ag_rec0 _ _ _ P2)|]. rewrite <- (ag_ms _ _ _ P2).
  apply (eo_max _ _ _ (gg_enc _ _ _ G)).
Qed.

Lemma digest_of w hs d : c_oid C (w_oid w) = OidDigest hs ->
  length (c_hash C (w_oid w) d) = oid_size C (w_oid w) /\ (0 < oid_size C (w_oid w))%nat.
Proof.
  intros H. unfold oid_size. rewrite H. split; [apply (ok_hash_len C HC _ _ _ H)|apply (ok_size C HC _ _ H)].
Qed.

Lemma in_gop_fields w k rec prev xs ts f : In f (gop_fields C w k rec prev xs ts) <->
  (rec = true /\ w_using w = false /\ In f (recurrent_fields w)) \/
  f = (1, general_field C w k prev xs ts) \/
  In f (list_field C w ((if rec && negb (w_using w) then recurrent_fields w else []) ++
                        [(1, general_field C w k prev xs ts)]) xs).
Proof.
  unfold gop_fields. rewrite !in_app_iff. cbn [In].
  destruct rec, (w_using w); cbn [andb negb In]; intuition (auto; discriminate).
Qed.
Lemma in_recurrent w f : In f (recurrent_fields w) <->
  (w_add_pub w = true /\ f = (2, 2 :: w_pub w)) \/ f = (3, 1 :: flat_map prod_string (w_prod w)) \/
  f = (7, [1; nlen (w_oid w)] ++ w_oid w).
Proof.
  unfold recurrent_fields. rewrite in_app_iff. cbn [In]. destruct (w_add_pub w); cbn [In];
    intuition (auto; discriminate).
Qed.
Lemma in_list w others xs f : In f (list_field C w others xs) ->
  let l := concat (hashes (c_hash C (w_oid w)) xs) in f = (4, 1 :: l) /\ w_frame w = true /\ nlen l <= 19200.
Proof.
  unfold list_field. cbv zeta. set (l := concat (hashes (c_hash C (w_oid w)) xs)).
  destruct (w_frame w); [|intros []]. destruct (N.leb_spec (nlen l) 19200); [|intros []].
  cbn [andb]. destruct (_ || _); intros F; [|destruct F]. destruct F as [F|[]]. auto.
Qed.

Theorem session_linked c coin setup before gs rs : signs C c coin setup before gs rs ->
  let w := fold_left (ask C) setup defaults in
  forall i, (S i < length gs)%nat -> exists fs info linked gop_hash,
    ith_sei c w rs i fs /\ In (1, info ++ linked ++ gop_hash) fs /\
    linked = (match i with
              | O => zeros (oid_size C (w_oid w))
              | S j => c_hash C (w_oid w) (hd [] (hashed (nth j gs [])))
              end) /\
    gop_hash = c_hash C (w_oid w) (concat (hashes (c_hash C (w_oid w)) (hashed (nth i gs [])))) /\
    length linked = oid_size C (w_oid w) /\ length gop_hash = oid_size C (w_oid w) /\
    (0 < oid_size C (w_oid w))%nat.
Proof.
  intros HS w i Hi. destruct (session_ith _ _ _ _ _ _ HS) as [_ X]. fold w in X.
  destruct (signs_settings _ _ _ _ _ _ HS) as (hs & HD & _). fold w in HD.
  destruct (X i Hi) as (fs & sig & X1 & X2 & X3 & X4).
  eexists _, ([3] ++ digits 4 ((1 + N.of_nat i) mod 2 ^ 32) ++ digits 2 (nlen (hashed (nth i gs [])) mod 2 ^ 16) ++
    [1; 1; 29] ++ (match (match nth (S i) gs [] with nx :: _ => p_ts nx | [] => None end) with
                   | Some t => 1 :: digits 8 (Z.to_N (t mod 2 ^ 64)) | None => [0] end)), _, _.
  split; [exact X1|]. split; [|split; [reflexivity|split; [reflexivity|]]].
  - apply in_app_iff. left. rewrite X4. apply in_gop_fields. right. left. unfold general_field. cbv zeta. f_equal.
    rewrite <- !app_assoc. do 5 f_equal. f_equal. destruct i as [|j]; [reflexivity|].
    destruct HS as (_ & _ & _ & _ & _ & HG & _).
    assert (HJ : is_gop (nth j gs [])) by (apply (proj1 (Forall_forall _ _) HG), nth_In; lia).
    destruct HJ as (p & r & EJ & _ & PB & _). rewrite EJ. cbn [hashed flat_map]. destruct (p_bytes p); [|contradiction].
    reflexivity.
  - split; [|split].
    + destruct i as [|j]; [apply repeat_length|apply (digest_of w hs _ HD)].
    + apply (digest_of w hs _ HD).
    + apply (digest_of w hs [] HD).
Qed.

Lemma no4 w k rec prev xs ts : Forall (fun f : N * list N => fst f <> 4)
  ((if rec && negb (w_using w) then recurrent_fields w else []) ++ [(1, general_field C w k prev xs ts)]).
Proof.
  apply Forall_forall. intros f Hf. apply in_app_iff in Hf as [Hf|[<-|[]]]; [|discriminate].
  destruct (_ && _); [|destruct Hf]. apply in_recurrent in Hf as [[_ ->]|[->| ->]]; discriminate.
Qed.

Lemma hashes_size w hs xs : c_oid C (w_oid w) = OidDigest hs ->
  nlen (concat (hashes (c_hash C (w_oid w)) xs)) = N.of_nat (oid_size C (w_oid w)) * nlen xs.
Proof.
  intros HD. destruct xs as [|x0 r]; [cbn; lia|]. cbn [hashes concat]. rewrite nlen_app'.
  destruct (digest_of w hs x0 HD) as [D0 _].
  assert (HR : nlen (concat (map (fun x => c_hash C (w_oid w) (c_hash C (w_oid w) x0 ++ c_hash C (w_oid w) x)) r)) =
    N.of_nat (oid_size C (w_oid w)) * nlen r).
  { induction r as [|x r IH]; [cbn; lia|]. cbn [map concat]. rewrite nlen_app', IH.
    destruct (digest_of w hs (c_hash C (w_oid w) x0 ++ c_hash C (w_oid w) x) HD) as [D1 _].
    unfold nlen at 1. rewrite D1. unfold nlen. cbn [length]. lia. }
  rewrite HR. unfold nlen at 1. rewrite D0. unfold nlen. cbn [length]. lia.
Qed.

Theorem session_list c coin setup before gs rs : signs C c coin setup before gs rs ->
  let w := fold_left (ask C) setup defaults in
  forall i, (S i < length gs)%nat -> exists fs,
    ith_sei c w rs i fs /\
    let l := concat (hashes (c_hash C (w_oid w)) (hashed (nth i gs []))) in
    nlen l = N.of_nat (oid_size C (w_oid w)) * nlen (hashed (nth i gs [])) /\
    (forall v, In (4, v) fs -> v = 1 :: l /\ nlen l <= 19200 /\ w_frame w = true) /\
    (w_max w = 0 -> w_frame w = true -> nlen l <= 19200 -> In (4, 1 :: l) fs).
Proof.
  intros HS w i Hi. destruct (session_ith _ _ _ _ _ _ HS) as [_ X]. fold w in X.
  destruct (X i Hi) as (fs & sig & X1 & X2 & X3 & X4).
  destruct (signs_settings _ _ _ _ _ _ HS) as (hs & HD & _). fold w in HD.
  eexists. split; [exact X1|]. cbv zeta. subst fs. split; [apply (hashes_size w hs _ HD)|]. split.
  - intros v Hv. apply in_app_iff in Hv as [Hv|[Hv|[]]]; [|discriminate].
    apply in_gop_fields in Hv as [(_ & _ & Hv)|[Hv|Hv]].
    + apply in_recurrent in Hv as [[_ Hv]|[Hv|Hv]]; discriminate.
    + discriminate.
    + apply in_list in Hv. cbv zeta in Hv. destruct Hv as (Hv & H1 & H2). injection Hv as ->. auto.
  - intros H1 H2 H3. apply in_app_iff. left. apply in_gop_fields. right. right.
    unfold list_field. cbv zeta. rewrite H1, H2. apply N.leb_le in H3. rewrite H3. left. reflexivity.
Qed.

Theorem session_max c coin setup before gs rs : signs C c coin setup before gs rs ->
  let w := fold_left (ask C) setup defaults in w_max w <> 0 ->
  forall i, (S i < length gs)%nat -> exists fs others sig,
    let l := concat (hashes (c_hash C (w_oid w)) (hashed (nth i gs []))) in
    ith_sei c w rs i fs /\
    (fs = others ++ [(4, 1 :: l); (5, sig)] \/ fs = others ++ [(5, sig)]) /\
    Forall (fun f => fst f <> 4) others /\
    (In (4, 1 :: l) fs <->
       w_frame w = true /\ nlen l <= 19200 /\ 17 + nlen (wires (others ++ [(4, 1 :: l); (5, sig)])) <= w_max w).
Proof.
  intros HS w HM i Hi. destruct (session_ith _ _ _ _ _ _ HS) as [_ X]. fold w in X.
  destruct (signs_settings _ _ _ _ _ _ HS) as (hs & _ & _ & HMS). fold w in HMS.
  destruct (X i Hi) as (fs & sig & X1 & X2 & X3 & X4).
  unfold gop_fields in X4. cbv zeta in X4.
  match type of X4 with fs = ?o ++ _ => set (others := o) in * end.
  assert (N4 : Forall (fun f => fst f <> 4) others) by apply no4. clearbody others.
  eexists _, others, (sig_value (w_max_sig w) sig). cbv zeta. split; [exact X1|]. subst fs.
  set (l := concat (hashes (c_hash C (w_oid w)) (hashed (nth i gs [])))).
  assert (EW : nlen (wires (others ++ [(4, 1 :: l); (5, sig_value (w_max_sig w) sig)])) =
    nlen (wires (others ++ [(4, 1 :: l)])) + 8 + N.of_nat (w_max_sig w)).
  { change (others ++ [(4, 1 :: l); (5, sig_value (w_max_sig w) sig)])
      with (others ++ ([(4, 1 :: l)] ++ [(5, sig_value (w_max_sig w) sig)])).
    rewrite app_assoc, wires_app, nlen_app'.
    rewrite <- N.add_assoc. f_equal.
    cbn [wires flat_map]. rewrite app_nil_r. unfold wire, nlen. cbn [fst snd app length]. rewrite !app_length, digits_len.
    pose proof (sig_value_len _ _ X3) as LV. unfold nlen in LV. change (wire_width 5) with 2%nat. lia. }
  unfold list_field. cbv zeta. fold l.
  assert (EM : (w_max w =? 0) = false) by (apply N.eqb_neq; exact HM). rewrite EM. cbn [orb].
  split; [|split; [exact N4|]].
  - destruct (_ && _); [left|right]; rewrite <- ?app_assoc; reflexivity.
  - rewrite EW, <- !N.add_assoc. rewrite in_app_iff, in_app_iff.
    assert (NI : ~ In (4, 1 :: l) others).
    { intros HI. apply (proj1 (Forall_forall _ _) N4) in HI. apply HI. reflexivity. }
    destruct (w_frame w); cbn [andb].
    2:{ split; [intros [[H|[]]|[H|[]]]|intros [H _]]; try contradiction; discriminate. }
    destruct (N.leb_spec (nlen l) 19200) as [H1|H1]; cbn [andb].
    2:{ split; [intros [[H|[]]|[H|[]]]|intros (_ & H & _)]; try contradiction; try discriminate. lia. }
    match goal with |- context [?a <=? w_max w] => destruct (N.leb_spec a (w_max w)) as [H2|H2] end.
    + split; [intros _; split; [reflexivity|split; [exact H1|exact H2]]|]. intros _. left. right. left. reflexivity.
    + split; [intros [[H|[]]|[H|[]]]|intros (_ & _ & H)]; try contradiction; try discriminate. lia.
Qed.

Lemma due_spec r lo hi : r <> 0 -> due r lo hi = true <-> exists m, lo <= m * r < hi.
Proof.
  intros HR. unfold due. rewrite existsb_exists. split.
  - intros (j & H1 & H2). apply in_seq in H1. apply N.eqb_eq in H2.
    exists ((lo + N.of_nat j) / r). pose proof (N.div_mod (lo + N.of_nat j) r HR). rewrite H2 in H. lia.
  - intros (m & H). exists (N.to_nat (m * r - lo)). split; [apply in_seq; lia|].
    apply N.eqb_eq. replace (lo + N.of_nat (N.to_nat (m * r - lo))) with (m * r) by lia. apply N.mod_mul. exact HR.
Qed.

Theorem session_recurrence c coin setup before gs rs : signs C c coin setup before gs rs ->
  let w := fold_left (ask C) setup defaults in
  forall i, (S i < length gs)%nat -> exists fs,
    ith_sei c w rs i fs /\
    ((exists m, (match i with O => 0 | S _ => pictures_to before gs i end) <= m * w_rec w < pictures_to before gs (S i)) /\
     w_using w = false <-> In (7, [1; nlen (w_oid w)] ++ w_oid w) fs) /\
    (forall v, In (7, v) fs <-> In (3, 1 :: flat_map prod_string (w_prod w)) fs /\ v = [1; nlen (w_oid w)] ++ w_oid w) /\
    (w_add_pub w = true -> forall v, In (2, v) fs <-> In (3, 1 :: flat_map prod_string (w_prod w)) fs /\ v = 2 :: w_pub w) /\
    (w_add_pub w = false -> forall v, ~ In (2, v) fs).
Proof.
  intros HS w i Hi. destruct (session_ith _ _ _ _ _ _ HS) as [_ X]. fold w in X.
  destruct (signs_settings _ _ _ _ _ _ HS) as (hs & _ & HR & _). fold w in HR.
  destruct (X i Hi) as (fs & sig & X1 & X2 & X3 & X4).
  set (lo := match i with O => 0 | S _ => pictures_to before gs i end) in *.
  exists (fs ++ [(5, sig_value (w_max_sig w) sig)]). split; [exact X1|].
  assert (EQ : forall t v, t = 2 \/ t = 3 \/ t = 7 -> In (t, v) (fs ++ [(5, sig_value (w_max_sig w) sig)]) <->
    due (w_rec w) lo (pictures_to before gs (S i)) = true /\ w_using w = false /\ In (t, v) (recurrent_fields w)).
  { intros t v Ht. rewrite in_app_iff, X4, in_gop_fields. split.
    - intros [[H|[H|H]]|[H|[]]]; [exact H| | |].
      + injection H as -> _. destruct Ht as [H|[H|H]]; discriminate.
      + apply in_list in H as [H _]. injection H as -> _. destruct Ht as [H|[H|H]]; discriminate.
      + injection H as <- _. destruct Ht as [H|[H|H]]; discriminate.
    - intros H. left. left. exact H. }
  split; [|split; [|split]].
  - rewrite EQ, in_recurrent, <- due_spec by auto. intuition auto.
  - intros v. rewrite !EQ, !in_recurrent by auto. split.
    + intros (H1 & H2 & [[_ H]|[H|H]]); [discriminate|discriminate|]. injection H as ->. auto 10.
    + intros ((H1 & H2 & _) & ->). auto 10.
  - intros HA v. rewrite !EQ, !in_recurrent by auto. split.
    + intros (H1 & H2 & [[_ H]|[H|H]]); [|discriminate|discriminate]. injection H as ->. auto 10.
    + intros ((H1 & H2 & _) & ->). auto 10.
  - intros HA v. rewrite !EQ, in_recurrent by auto. rewrite HA. intros (_ & _ & [[H _]|[H|H]]); discriminate.
Qed.
End Gop.

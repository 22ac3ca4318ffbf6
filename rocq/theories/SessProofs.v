(** The SEI buffer of a signing session: lemmas. *)
From Verif Require Import Base BaseProofs Epb EpbProofs Nalu NaluSpec NaluProofs Crypto Types Hash Tlv
  TlvProofs EncProofs CodecSpec CodecProofs SeiSpec SeiProofs Signer GenProofs SignerProofs.
Local Open Scope N_scope.

(** A SEI under way: what it consists of, the signature of its hash and how that was made. *)
Record gen := mkGen {
  q_epb : bool; q_golden : bool; q_fs : list (N * list N);
  q_max : nat; q_key : list N; q_coin : N; q_oid : list N; q_sig : list N; q_lt : N }.

Definition q_size (q : gen) : N := 17 + nlen (wires (q_fs q)) + 8 + N.of_nat (q_max q).
Definition q_body (c : codec) (q : gen) : list N :=
  sei_front c (q_size q) (sei_flags (q_epb q) (q_golden q)) ++ wrapped (q_epb q) (wires (q_fs q)).
Definition unf_slot (c : codec) (q : gen) : slot :=
  mkSlot (PBuf ([0; 0; 0; 1] ++ q_body c q)) (sei_alloc c (q_size q)) (q_lt q) 0.
Definition q_field (q : gen) : N * list N := (5, sig_value (q_max q) (q_sig q)).
Definition fin (c : codec) (q : gen) : list N := sei c (q_epb q) (q_golden q) (q_fs q ++ [q_field q]).
Definition fin_slot (c : codec) (q : gen) : slot :=
  mkSlot (PBuf (fin c q)) (sei_alloc c (q_size q)) (q_lt q) (nlen (fin c q)).

Lemma sig_value_len max sig : (length sig <= max)%nat -> nlen (sig_value max sig) = 5 + N.of_nat max.
Proof.
  intros H. unfold sig_value, nlen, padded. rewrite !app_length, digits_len, repeat_length. cbn [length]. lia.
Qed.

Lemma sig_wire max sig : (length sig <= max)%nat -> N.of_nat max + 5 < 65536 ->
  wire_ok (5, sig_value max sig) /\ nlen (wire (5, sig_value max sig)) = 8 + N.of_nat max.
Proof.
  intros H HM. assert (W : wire_ok (5, sig_value max sig)).
  { apply wire_ok_fits. split; [cbn; tauto|]. cbn [fst snd].
    rewrite sig_value_len by exact H. change (len_bytes 5 =? 2)%nat with true. cbv iota. lia. }
  split; [exact W|]. rewrite wire_field_bytes by exact W. rewrite field_bytes_len by (apply wire_ok_fits, W).
  cbn [fst snd]. rewrite sig_value_len by exact H. change (len_bytes 5) with 2%nat. lia.
Qed.

Lemma q_size_eq q : (length (q_sig q) <= q_max q)%nat -> N.of_nat (q_max q) + 5 < 65536 ->
  17 + nlen (wires (q_fs q ++ [q_field q])) = q_size q.
Proof.
  intros H HM. rewrite wires_app, nlen_app'. unfold q_size, q_field.
  destruct (sig_wire _ _ H HM) as [_ E]. cbn [wires flat_map]. rewrite app_nil_r, E. lia.
Qed.

Lemma sig_value_ok max sig : bytes_ok sig -> bytes_ok (sig_value max sig).
Proof.
  intros H. unfold sig_value, padded. apply bytes_ok_app; split; [repeat constructor|].
  apply bytes_ok_app; split; [apply digits_ok|]. apply bytes_ok_app; split; [exact H|].
  apply Forall_forall. intros x Hx. apply repeat_spec in Hx. subst. reflexivity.
Qed.

Section Sess.
Variable C : crypto.
Hypothesis HC : crypto_ok C.

Record gen_ok (c : codec) (q : gen) : Prop := mkGenOk {
  qo_meta : meta_ok (q_fs q);
  qo_len : nlen (wires (q_fs q)) <= 393234;
  qo_sigb : bytes_ok (q_sig q);
  qo_sig0 : q_sig q <> [];
  qo_sigm : (length (q_sig q) <= q_max q)%nat;
  qo_max : N.of_nat (q_max q) + 5 < 65536;
  qo_lt : q_epb q = true -> hz (q_lt q) (zeros_after 0 (wires (q_fs q)));
  qo_sign : c_sign C (q_key q) (q_coin q) (c_hash C (q_oid q) (q_body c q)) = Some (q_sig q);
  qo_priv : exists pub, c_priv C (q_key q) = Some (pub, q_max q)
}.

(** Completing a SEI writes exactly the specified SEI. *)
Lemma complete_bytes c g q : gen_ok (sc_codec c) q -> ggood C c g -> g_hash_type g = 1 ->
  q_epb q = sc_epb c -> q_max q = sc_max_sig c -> forall rec,
  exists lt o, tlv_write_list c g (q_sig q) (sc_epb c) rec (q_lt q) signature_tags = (lt, o, g) /\
    ([0; 0; 0; 1] ++ q_body (sc_codec c) q) ++ o ++ [128] = fin (sc_codec c) q.
Proof.
  intros HQ HG HT HE HM rec. pose proof HQ as [M1 M2 M3 M4 M5 M6 M7 M8 M9].
  assert (HEO : enc_ok c g (q_sig q)).
  { destruct HG as [HG _ _ _]. destruct HG. constructor; try assumption. rewrite <- HM. exact M5. }
  rewrite (tlv_write_list_eq c (q_sig q)) by (exact HEO || apply sig_tags_lib).
  assert (HV : enc_value c g (q_sig q) 5 = sig_value (q_max q) (q_sig q)).
  { cbn [enc_value]. unfold signature_value, sig_value, padded.
    assert (u16 (nlen (q_sig q)) = nlen (q_sig q)) as -> by (unfold u16, nlen; apply N.mod_small; lia).
    pose proof (gg_enc0 _ _ _ HG) as E0. rewrite E0, HT.
    rewrite (digits_be16 (nlen (q_sig q))) by (unfold nlen; lia).
    unfold nlen. rewrite Nat2N.id, firstn_all, HM. reflexivity. }
  assert (HF : fields_of c g (q_sig q) rec signature_tags = [q_field q]).
  { unfold signature_tags, SIGNATURE. cbn [fields_of].
    assert (tag_due rec 5 && negb (enc_size c g 5 =? 0) = true) as ->.
    { unfold tag_due. cbn [tuple_tag tuple fst snd always_present N.eqb Pos.eqb orb andb enc_size].
      unfold signature_size. destruct (N.eqb_spec (1 + 1 + 1 + 2 + N.of_nat (sc_max_sig c)) 0); [lia|reflexivity]. }
    rewrite HV. reflexivity. }
  assert (HEF : effects_of c g rec signature_tags = g).
  { unfold signature_tags, SIGNATURE. cbn [effects_of]. destruct (_ && _); reflexivity. }
  rewrite HF, HEF. eexists _, _. split; [reflexivity|].
  destruct (sig_wire _ _ M5 M6) as [W _]. fold (q_field q) in W.
  unfold fin, sei. rewrite q_size_eq by assumption. unfold q_body. rewrite <- !app_assoc. do 2 f_equal.
  rewrite app_assoc. f_equal. rewrite wires_app.
  assert (HWB : fields_bytes [q_field q] = wires [q_field q]).
  { symmetry. apply wires_fields. constructor; [exact W|constructor]. }
  rewrite HWB. rewrite <- HE. destruct (q_epb q) eqn:EE; cbn [wrapped].
  - rewrite esc_app. f_equal. apply esc_write; [|apply M7; reflexivity].
    rewrite <- HWB. apply fields_bytes_ok.
    + constructor; [apply wire_ok_fits, W|constructor].
    + constructor; [apply sig_value_ok, M3|constructor].
  - rewrite write_bytes_plain. reflexivity.
Qed.

(** ** Invariant *)

Record sgood (s : signer) (L : list gen) : Prop := mkSgood {
  sg_g : ggood C (s_cfg s) (s_gop s);
  sg_arb : sc_arb (s_cfg s) = [];
  sg_key : match sc_key (s_cfg s) with
           | Some k => c_priv C k = Some (sc_pub (s_cfg s), sc_max_sig (s_cfg s)) /\ sc_sig_mem (s_cfg s) = true
           | None => L = []
           end;
  sg_done : (r_done (s_run s) <= length L)%nat;
  sg_60 : (length L <= 60)%nat;
  sg_slots : r_slots (s_run s) =
    map (fin_slot (sc_codec (s_cfg s))) (firstn (r_done (s_run s)) L) ++
    map (unf_slot (sc_codec (s_cfg s))) (skipn (r_done (s_run s)) L);
  sg_queue : r_queue (s_run s) = map q_sig (skipn (r_done (s_run s)) L);
  sg_L : Forall (gen_ok (sc_codec (s_cfg s))) L;
  sg_wait : Forall (fun q => q_epb q = sc_epb (s_cfg s) /\ q_max q = sc_max_sig (s_cfg s))
              (skipn (r_done (s_run s)) L);
  sg_type : L <> [] -> g_hash_type (s_gop s) = 1
}.

Lemma slots_len s L : sgood s L -> length (r_slots (s_run s)) = length L.
Proof.
  intros []. rewrite sg_slots0, app_length, !map_length, firstn_length, skipn_length. lia.
Qed.

(** The plugin refused or failed to sign. *)
Definition sign_fails : Prop :=
  exists key pub max coin oid n d, c_priv C key = Some (pub, max) /\ c_oid C oid = OidDigest n /\
    match c_sign C key coin (c_hash C oid d) with
    | Some [] | None => True
    | Some sig => (max < length sig)%nat
    end.

(** GOP information after a SEI was generated in session [s]. *)
Definition gen_gop (s : signer) (g : sgop) : Prop :=
  ggood C (s_cfg s) g /\
  g_counter g = (if r_golden (s_run s) then g_counter (s_gop s) else u32 (g_counter (s_gop s) + 1)) /\
  g_linked g = g_linked (s_gop s) /\ g_computed g = g_computed (s_gop s) /\
  g_num g = 0 /\ g_list g = Some [] /\ g_ts g = None /\ k_has_ref (g_h g) = false /\ g_hash_type g = 1 /\
  h_oid (k_handle (g_h g)) = h_oid (k_handle (g_h (s_gop s))).

Lemma ggood_after s : ggood C (s_cfg s) (s_gop s) -> ggood C (s_cfg s) (after_gop s).
Proof.
  intros []. pose proof (enc_ok_sent s gg_enc) as E.
  assert (E2 : enc_ok (s_cfg s) (after_gop s) []).
  { unfold after_gop. destruct (r_golden _); [exact E|]. destruct E. constructor; cbn; try assumption. lia. }
  constructor; try exact E2; unfold after_gop, sent_gop; destruct (r_golden _), (too_big s); assumption.
Qed.

Lemma after_frame s :
  g_counter (after_gop s) = (if r_golden (s_run s) then g_counter (s_gop s) else u32 (g_counter (s_gop s) + 1)) /\
  g_linked (after_gop s) = g_linked (s_gop s) /\ g_computed (after_gop s) = g_computed (s_gop s) /\
  g_hash_type (after_gop s) = 1 /\ g_enc (after_gop s) = g_enc (s_gop s) /\
  g_h (after_gop s) = g_h (s_gop s).
Proof. unfold after_gop, sent_gop. destruct (r_golden _), (too_big s); repeat split. Qed.

Lemma is_ok_eq st : is_ok st = true -> st = SV_OK.
Proof. destruct st; cbn; congruence. Qed.

Definition new_gen (s : signer) (key : list N) (sig : list N) (lt : N) : gen :=
  mkGen (sc_epb (s_cfg s)) (r_golden (s_run s)) (meta_fields s) (sc_max_sig (s_cfg s)) key
    (r_coin (s_run s)) (h_type (k_handle (g_h (s_gop s)))) sig lt.

Lemma generate_spec s L key : sgood s L -> sc_key (s_cfg s) = Some key ->
  holds (generate_sei C s) (fun '(s', st, p) =>
    (length L = 60%nat /\ s' = s /\ st = SV_NOT_SUPPORTED /\ p = None) \/
    ((length L < 60)%nat /\ s_cfg s' = s_cfg s /\ gen_gop s (s_gop s') /\
     ((st = SV_OK /\ exists sig lt, let q := new_gen s key sig lt in
         p = Some (unf_slot (sc_codec (s_cfg s)) q) /\ gen_ok (sc_codec (s_cfg s)) q /\
         s_run s' = set_r_queue (r_queue (s_run s) ++ [sig]) (set_r_coin (r_coin (s_run s) + 1) (s_run s))) \/
      (st <> SV_OK /\ p = None /\ sign_fails /\
         s_run s' = set_r_coin (r_coin (s_run s) + 1) (s_run s)))))
  (nowrite (sc_epb (s_cfg s))).
Proof.
  intros HS HK. pose proof (slots_len s L HS) as SL. pose proof HS as [SG SA SK SD S6 SS SQ SLL SW ST].
  rewrite HK in SK. destruct SK as [SK SM]. unfold generate_sei.
  destruct (Nat.leb_spec max_sei_buffer (length (r_slots (s_run s)))) as [HB|HB]; unfold max_sei_buffer in HB.
  { cbn. left. repeat split; lia. }
  destruct (build_sei_eq s (gg_enc _ _ _ SG)) as (lt & EB & EL). rewrite EB. clear EB.
  set (bytes := [0; 0; 0; 1] ++ _ ++ _).
  pose proof (meta_fields_ok s (gg_enc _ _ _ SG)) as HM. pose proof (wires_ok _ HM) as HW.
  pose proof (meta_fields_len s (gg_enc _ _ _ SG)) as HML.
  pose proof (eo_max _ _ _ (gg_enc _ _ _ SG)) as HMX.
  destruct (N.ltb_spec (sei_alloc (sc_codec (s_cfg s)) (sei_size s)) (nlen bytes)) as [HA|HA].
  { cbn. intros _. destruct (sc_epb (s_cfg s)) eqn:EE; [reflexivity|]. exfalso. unfold bytes in HA.
    cbn [wrapped] in HA.
    pose proof (alloc_plain (sc_codec (s_cfg s)) (wires (meta_fields s)) (sei_size s)
      (sei_flags false (r_golden (s_run s)))) as G.
    assert (HZ : nlen (wires (meta_fields s)) + 17 <= sei_size s) by (unfold sei_size; lia).
    specialize (G HZ). rewrite !nlen_app' in *. lia. }
  cbn [is_ok svrc_eqb negb].
  destruct (parse_nalu bytes (sc_codec (s_cfg s)) false true) as [n|u] eqn:EP.
  2:{ cbn. intros ->. destruct (sc_epb (s_cfg s)) eqn:EE; [reflexivity|]. exfalso.
      destruct (parse_unfinished (sc_codec (s_cfg s)) false (r_golden (s_run s)) (sei_size s)
        (wires (meta_fields s))) as (n & EN & _).
      - unfold sei_size; lia.
      - unfold sei_size; change (2 ^ 31) with 2147483648; lia.
      - unfold sei_size; lia.
      - unfold bytes in EP. cbn [wrapped] in EP. congruence. }
  assert (HSZ : 25 + nlen (wires (meta_fields s)) <= sei_size s /\ sei_size s < 2 ^ 31).
  { unfold sei_size. change (2 ^ 31) with 2147483648. lia. }
  destruct (parse_unfinished_def _ _ _ _ _ n HW (proj1 HSZ) (proj2 HSZ) EP) as (P1 & P2 & P3 & P4 & P5).
  clear EP. cbn [obind]. set (body := sei_front _ _ _ ++ wrapped _ _) in *.
  assert (HBN : body <> []) by (unfold body, sei_front; destruct (sc_codec (s_cfg s)); discriminate).
  pose proof (ggood_after s SG) as GA. destruct (after_frame s) as (F1 & F2 & F3 & F4 & F5 & F6).
  unfold hash_and_add. rewrite P1, P3, P4. cbn [negb andb].
  unfold hash_wrapper. rewrite P4, P2. cbn [negb]. unfold simply_hash. rewrite P3, P5. cbn [obind].
  assert (HD : hash_data C (k_handle (g_h (after_gop s))) body =
    (SV_OK, c_hash C (h_type (k_handle (g_h (s_gop s)))) body)).
  { rewrite F6. unfold hash_data. destruct body; [contradiction|reflexivity]. }
  rewrite HD. cbn [obind is_ok svrc_eqb]. set (v := c_hash C _ body).
  assert (EVB : c_hash C (h_type (k_handle (g_h (s_gop s)))) body = v) by reflexivity.
  assert (HV : length v = sc_hs (s_cfg s) /\ bytes_ok v).
  { destruct SG as [_ (_ & GO & _) _ _]. split; [apply (ok_hash_len C HC _ _ _ GO)|apply (ok_hash_bytes C HC _ _ _ GO)]. }
  destruct HV as [HVL HVB].
  set (k := set_k_handle (k_handle (g_h (after_gop s))) (g_h (after_gop s))).
  assert (GN : ggood C (s_cfg s) (set_g_nalu_hash v (set_g_h k (after_gop s)))).
  { destruct GA. constructor; try assumption. apply (enc_ok_h _ (after_gop s)); try assumption;
    [repeat split|reflexivity|apply gg_enc|apply gg_enc]. }
  destruct (add_to_list_ok C HC (s_cfg s) _ v GN HVL HVB) as (A1 & A2 & A3 & A4).
  unfold count_nalu. rewrite P2. cbn [negb obind].
  set (ga := add_to_list _ v) in *.
  assert (HTK : take_mem (sc_hs (s_cfg s)) (g_nalu_hash ga) = Def (v, [])).
  { change (g_nalu_hash ga) with v. pose proof (take_mem_app v []) as T. rewrite app_nil_r, HVL in T. exact T. }
  rewrite HTK. cbn [obind].
  set (gf := set_g_ts None _).
  assert (GF : gen_gop s gf).
  { destruct A2 as (B1 & B2 & B3 & B4 & B5 & B6). cbn in B1, B2, B3, B4, B5, B6.
    assert (GG : ggood C (s_cfg s) gf).
    { destruct A1. constructor; try assumption.
      destruct gg_enc. constructor; cbn; try assumption; try exact I; try lia. split; [lia|constructor]. }
    unfold gen_gop. split; [exact GG|]. unfold gf. cbn.
    rewrite <- F1, <- F2, <- F3, <- F4. repeat split; try assumption. etransitivity; [exact A4|]. cbn. rewrite F6. reflexivity. }
  clearbody gf. unfold plugin_sign.
  cbn [s_cfg s_run set_s_gop]. rewrite HK. destruct v as [|v0 v'] eqn:EV.
  { exfalso. pose proof (ggood_hs C HC _ _ SG). cbn in HVL. lia. }
  rewrite <- EV in *.
  assert (HQL : (max_plugin_buffer <=? length (r_queue (s_run s)))%nat = false).
  { apply Nat.leb_gt. unfold max_plugin_buffer. rewrite SQ, map_length, skipn_length. lia. }
  rewrite HQL, SK. unfold on_run.
  assert (SF : forall x, c_sign C key (r_coin (s_run s)) v = x ->
    match x with Some [] | None => True | Some sig => (sc_max_sig (s_cfg s) < length sig)%nat end -> sign_fails).
  { intros x Ex Hx. destruct SG as [_ (_ & GO & _) _ _]. unfold sign_fails.
    exists key, (sc_pub (s_cfg s)), (sc_max_sig (s_cfg s)), (r_coin (s_run s)), (h_type (k_handle (g_h (s_gop s)))),
      (sc_hs (s_cfg s)), body. split; [exact SK|]. split; [exact GO|].
    rewrite EVB, Ex. exact Hx. }
  destruct (c_sign C key (r_coin (s_run s)) v) as [sig|] eqn:ESG.
  - destruct (Nat.ltb_spec (sc_max_sig (s_cfg s)) (length sig)) as [HL|HL].
    + cbn. right. split; [lia|]. split; [reflexivity|]. split; [exact GF|]. right.
      split; [discriminate|]. split; [reflexivity|]. split; [|reflexivity].
      apply (SF _ eq_refl). destruct sig; [exact I|exact HL].
    + destruct sig as [|b0 sig'] eqn:ES0.
      * cbn. right. split; [lia|]. split; [reflexivity|]. split; [exact GF|]. right.
        split; [discriminate|]. split; [reflexivity|]. split; [|reflexivity].
        apply (SF _ eq_refl). exact I.
      * rewrite <- ES0 in *. cbn [is_ok svrc_eqb holds]. right. split; [lia|]. split; [reflexivity|].
        split; [exact GF|]. left. split; [reflexivity|]. exists sig, lt. cbv zeta. split; [|split].
        -- reflexivity.
        -- constructor; cbn [q_fs q_sig q_max q_epb q_lt q_key q_coin q_oid new_gen]; try assumption.
           ++ apply (ok_sign C HC _ _ _ _ ESG).
           ++ subst sig. discriminate.
           ++ eexists. exact SK.
        -- reflexivity.
  - cbn. right. split; [lia|]. split; [reflexivity|]. split; [exact GF|]. right.
    split; [discriminate|]. split; [reflexivity|]. split; [|reflexivity].
    apply (SF _ eq_refl). exact I.
Qed.

(** ** The buffer after generation *)

Lemma gen_gop_good s g : gen_gop s g -> ggood C (s_cfg s) g /\ g_hash_type g = 1.
Proof. unfold gen_gop. tauto. Qed.

Lemma add_payload_good s L s' key sig lt : sgood s L -> (length L < 60)%nat -> sc_key (s_cfg s) = Some key ->
  s_cfg s' = s_cfg s -> gen_gop s (s_gop s') -> gen_ok (sc_codec (s_cfg s)) (new_gen s key sig lt) ->
  s_run s' = set_r_queue (r_queue (s_run s) ++ [sig]) (set_r_coin (r_coin (s_run s) + 1) (s_run s)) ->
  add_payload s' (Some (unf_slot (sc_codec (s_cfg s)) (new_gen s key sig lt))) =
    on_run (fun r => set_r_slots (r_slots r ++ [unf_slot (sc_codec (s_cfg s)) (new_gen s key sig lt)]) r) s' /\
  sgood (add_payload s' (Some (unf_slot (sc_codec (s_cfg s)) (new_gen s key sig lt)))) (L ++ [new_gen s key sig lt]).
Proof.
  intros HS HL HK EC EG HQ ER. pose proof (slots_len s L HS) as SL.
  pose proof HS as [SG SA SK SD S6 SS SQ SLL SW ST]. destruct (gen_gop_good _ _ EG) as [GG GT].
  set (q := new_gen s key sig lt) in *.
  assert (EA : add_payload s' (Some (unf_slot (sc_codec (s_cfg s)) q)) =
    on_run (fun r => set_r_slots (r_slots r ++ [unf_slot (sc_codec (s_cfg s)) q]) r) s').
  { unfold add_payload. rewrite ER. cbn [r_slots set_r_queue set_r_coin].
    destruct (Nat.leb_spec max_sei_buffer (length (r_slots (s_run s)))) as [HB|HB]; unfold max_sei_buffer in HB; [lia|].
    reflexivity. }
  split; [exact EA|]. rewrite EA. unfold on_run.
  assert (FN : firstn (r_done (s_run s)) (L ++ [q]) = firstn (r_done (s_run s)) L).
  { rewrite firstn_app. replace (r_done (s_run s) - length L)%nat with 0%nat by lia. cbn [firstn]. apply app_nil_r. }
  assert (SN : skipn (r_done (s_run s)) (L ++ [q]) = skipn (r_done (s_run s)) L ++ [q]).
  { rewrite skipn_app. replace (r_done (s_run s) - length L)%nat with 0%nat by lia. reflexivity. }
  constructor; cbn [s_cfg s_gop s_run set_s_run]; rewrite ?ER, ?EC;
    cbn [set_r_slots set_r_queue set_r_coin r_slots r_queue r_done]; rewrite ?FN, ?SN.
  - exact GG.
  - exact SA.
  - rewrite HK in *. exact SK.
  - rewrite app_length. lia.
  - rewrite app_length. cbn [length]. lia.
  - rewrite SS, map_app, <- app_assoc. reflexivity.
  - rewrite SQ, map_app. reflexivity.
  - apply Forall_app. auto.
  - apply Forall_app. split; [exact SW|]. constructor; [split; reflexivity|constructor].
  - intros _. exact GT.
Qed.

Lemma failed_good s L s' : sgood s L -> s_cfg s' = s_cfg s -> gen_gop s (s_gop s') ->
  s_run s' = set_r_coin (r_coin (s_run s) + 1) (s_run s) -> sgood s' L.
Proof.
  intros HS EC EG ER. pose proof HS as [SG SA SK SD S6 SS SQ SLL SW ST].
  destruct (gen_gop_good _ _ EG) as [GG GT].
  constructor; rewrite ?ER, ?EC; cbn [set_r_coin r_slots r_queue r_done]; auto.
Qed.

(** ** Completion *)

Definition same_run (a b : srun) : Prop :=
  r_started b = r_started a /\ r_gen b = r_gen a /\ r_avoid b = r_avoid a /\ r_golden b = r_golden a /\
  r_frame b = r_frame a /\ r_last b = r_last a /\ r_coin b = r_coin a.

Lemma same_run_trans a b c : same_run a b -> same_run b c -> same_run a c.
Proof. intros (A1&A2&A3&A4&A5&A6&A7) (B1&B2&B3&B4&B5&B6&B7). repeat split; congruence. Qed.

Lemma nth_error_mid {A} (a b : list A) x : nth_error (a ++ x :: b) (length a) = Some x.
Proof. induction a; [reflexivity|exact IHa]. Qed.
Lemma replace_mid {A} (a b : list A) x y : replace_nth (length a) y (a ++ x :: b) = a ++ y :: b.
Proof. induction a; [reflexivity|]. cbn [length app replace_nth]. rewrite IHa. reflexivity. Qed.

Lemma firstn_S_skipn {A} (n : nat) (l : list A) x r : skipn n l = x :: r ->
  firstn (S n) l = firstn n l ++ [x] /\ skipn (S n) l = r /\ (n < length l)%nat.
Proof.
  revert l. induction n as [|n IH]; intros [|y l] H; cbn [skipn] in H; try discriminate.
  - injection H as -> ->. repeat split. cbn; lia.
  - destruct (IH l H) as (A1 & A2 & A3). repeat split.
    + cbn [firstn app] in *. rewrite A1. reflexivity.
    + exact A2.
    + cbn. lia.
Qed.

Lemma complete_one s L q r : sgood s L -> skipn (r_done (s_run s)) L = q :: r ->
  let s1 := on_run (fun x => set_r_sig (q_sig q) (set_r_queue (map q_sig r) x)) s in
  holds (complete_sei s1) (fun '(s2, st) => st = SV_OK /\ sgood s2 L /\ s_cfg s2 = s_cfg s /\
    s_gop s2 = s_gop s /\ r_done (s_run s2) = S (r_done (s_run s)) /\ r_recurrent (s_run s2) = false /\
    same_run (s_run s) (s_run s2)) (nowrite (sc_epb (s_cfg s))).
Proof.
  intros HS HR s1. pose proof HS as [SG SA SK SD S6 SS SQ SLL SW ST].
  destruct (firstn_S_skipn _ _ _ _ HR) as (N1 & N2 & N3).
  assert (LF : length (map (fin_slot (sc_codec (s_cfg s))) (firstn (r_done (s_run s)) L)) = r_done (s_run s)).
  { rewrite map_length, firstn_length. lia. }
  assert (GQ : gen_ok (sc_codec (s_cfg s)) q /\ q_epb q = sc_epb (s_cfg s) /\ q_max q = sc_max_sig (s_cfg s)).
  { rewrite HR in SW. apply Forall_cons_iff in SW as [[W1 W2] _]. split; [|auto].
    assert (IN : In q L).
    { rewrite <- (firstn_skipn (r_done (s_run s)) L). apply in_or_app. right. rewrite HR. left. reflexivity. }
    rewrite Forall_forall in SLL. auto. }
  destruct GQ as (GQ & QE & QM). pose proof GQ as [M1 M2 M3 M4 M5 M6 M7 M8 M9].
  assert (HT : g_hash_type (s_gop s) = 1).
  { apply ST. intros ->. rewrite skipn_nil in HR. discriminate. }
  rewrite HR in SS. cbn [map] in SS.
  unfold complete_sei. unfold s1, on_run. cbn [s_run s_cfg s_gop set_s_run r_slots r_done r_sig set_r_sig set_r_queue r_recurrent].
  destruct (r_slots (s_run s)) as [|x0 xs] eqn:ESL.
  { symmetry in SS. apply app_eq_nil in SS. destruct SS. discriminate. }
  rewrite SS.
  assert (NE : nth_error (map (fin_slot (sc_codec (s_cfg s))) (firstn (r_done (s_run s)) L) ++
     unf_slot (sc_codec (s_cfg s)) q :: map (unf_slot (sc_codec (s_cfg s))) r) (r_done (s_run s)) =
     Some (unf_slot (sc_codec (s_cfg s)) q)).
  { rewrite <- LF at 2. apply nth_error_mid. }
  rewrite NE. cbn [sl_sei unf_slot sl_alloc sl_lt].
  destruct (complete_bytes (s_cfg s) (s_gop s) q GQ SG HT QE QM (r_recurrent (s_run s))) as (lt & o & EW & EF).
  destruct (q_sig q) as [|b0 bs] eqn:EQS; [contradiction|]. rewrite <- EQS in *.
  rewrite EW, EF.
  destruct (N.ltb_spec (sei_alloc (sc_codec (s_cfg s)) (q_size q)) (nlen (fin (sc_codec (s_cfg s)) q))) as [HA|HA].
  { cbn. intros _. rewrite <- QE. destruct (q_epb q) eqn:EE; [reflexivity|]. exfalso.
    unfold fin, sei in HA. rewrite q_size_eq in HA by assumption. rewrite EE in HA. cbn [wrapped] in HA.
    pose proof (alloc_plain (sc_codec (s_cfg s)) (wires (q_fs q ++ [q_field q])) (q_size q)
      (sei_flags false (q_golden q))) as G.
    pose proof (q_size_eq q M5 M6) as QZ.
    assert (HZ : nlen (wires (q_fs q ++ [q_field q])) + 17 <= q_size q) by lia.
    specialize (G HZ). lia. }
  cbn [holds]. split; [reflexivity|].
  assert (RP : replace_nth (r_done (s_run s))
      (set_sl_done (nlen (fin (sc_codec (s_cfg s)) q)) (set_sl_sei (PBuf (fin (sc_codec (s_cfg s)) q)) (unf_slot (sc_codec (s_cfg s)) q)))
      (map (fin_slot (sc_codec (s_cfg s))) (firstn (r_done (s_run s)) L) ++
        unf_slot (sc_codec (s_cfg s)) q :: map (unf_slot (sc_codec (s_cfg s))) r) =
      map (fin_slot (sc_codec (s_cfg s))) (firstn (S (r_done (s_run s))) L) ++ map (unf_slot (sc_codec (s_cfg s))) r).
  { rewrite <- LF at 1. rewrite replace_mid, N1, map_app, <- app_assoc. reflexivity. }
  split; [|repeat split].
  constructor; cbn [s_run s_cfg s_gop set_s_run set_s_gop r_slots r_done r_sig set_r_sig set_r_queue
    set_r_recurrent set_r_done set_r_slots r_queue on_run]; rewrite ?ESL, ?SS, ?RP, ?N2; try assumption.
  - reflexivity.
  - reflexivity.
  - rewrite HR in SW. apply Forall_cons_iff in SW. tauto.
Qed.

Lemma complete_loop_ok L : forall fuel s, sgood s L -> (length (skipn (r_done (s_run s)) L) <= fuel)%nat ->
  holds (complete_loop fuel s) (fun '(s', st) => st = SV_OK /\ sgood s' L /\ s_cfg s' = s_cfg s /\
    s_gop s' = s_gop s /\ r_done (s_run s') = length L /\
    r_recurrent (s_run s') = (if (r_done (s_run s) =? length L)%nat then r_recurrent (s_run s) else false) /\
    same_run (s_run s) (s_run s')) (nowrite (sc_epb (s_cfg s))).
Proof.
  induction fuel as [|f IH]; intros s HS HF; pose proof HS as [SG SA SK SD S6 SS SQ SLL SW ST].
  - assert (HD : r_done (s_run s) = length L) by (rewrite skipn_length in HF; lia).
    cbn [complete_loop]. unfold plugin_get.
    destruct (_ || _) eqn:EO; cbn [negb].
    { cbn. rewrite HD, Nat.eqb_refl. repeat split; auto; apply HS. }
    assert (r_queue (s_run s) = []) as ->.
    { rewrite SQ, HD, skipn_all. reflexivity. }
    cbn. rewrite HD, Nat.eqb_refl. repeat split; auto; apply HS.
  - cbn [complete_loop]. unfold plugin_get.
    destruct (_ || _) eqn:EO; cbn [negb].
    { assert (HD : r_done (s_run s) = length L).
      { destruct (sc_key (s_cfg s)) as [k|]; [|subst L; cbn in *; lia].
        destruct SK as [_ SK]. rewrite SK in EO. discriminate. }
      cbn. rewrite HD, Nat.eqb_refl. repeat split; auto; apply HS. }
    destruct (skipn (r_done (s_run s)) L) as [|q r] eqn:ER.
    + assert (r_queue (s_run s) = []) as -> by (rewrite SQ; reflexivity).
      assert (HD : r_done (s_run s) = length L).
      { assert (LS : length (skipn (r_done (s_run s)) L) = 0%nat) by (rewrite ER; reflexivity).
        rewrite skipn_length in LS. lia. }
      cbn. rewrite HD, Nat.eqb_refl. repeat split; auto; apply HS.
    + assert (EQ : r_queue (s_run s) = q_sig q :: map q_sig r) by (rewrite SQ; reflexivity).
      rewrite EQ.
      assert (GQ : gen_ok (sc_codec (s_cfg s)) q).
      { assert (IN : In q L).
        { rewrite <- (firstn_skipn (r_done (s_run s)) L). apply in_or_app. right. rewrite ER. left. reflexivity. }
        rewrite Forall_forall in SLL. auto. }
      apply Forall_cons_iff in SW as [[W1 W2] _].
      assert ((sc_max_sig (s_cfg s) <? length (q_sig q))%nat = false) as ->.
      { apply Nat.ltb_ge. rewrite <- W2. apply GQ. }
      cbn [negb]. apply holds_bind.
      eapply holds_impl; [apply (complete_one s L q r HS ER)| |auto].
      intros [s2 st] (E1 & E2 & E3 & E4 & E5 & E6 & E7). subst st. cbn [is_ok svrc_eqb].
      destruct (firstn_S_skipn _ _ _ _ ER) as (N1 & N2 & N3).
      rewrite <- E3. eapply holds_impl; [apply IH; [exact E2|]| |auto].
      * rewrite E5, N2. cbn [length] in HF. lia.
      * intros [s3 st3] (G1 & G2 & G3 & G4 & G5 & G6 & G7). subst st3. repeat split; try congruence; try apply G2;
          try (eapply same_run_trans; eassumption).
        all: try (destruct E7 as (B1&B2&B3&B4&B5&B6&B7); destruct G7 as (D1&D2&D3&D4&D5&D6&D7); congruence).
        rewrite E5, E6 in G6. rewrite G6. destruct (Nat.eqb_spec (r_done (s_run s)) (length L)); [lia|].
        destruct (Nat.eqb (S (r_done (s_run s))) (length L)); reflexivity.
Qed.

Lemma complete_all_ok s L : sgood s L ->
  holds (complete_all s) (fun '(s', st) => st = SV_OK /\ sgood s' L /\ s_cfg s' = s_cfg s /\
    s_gop s' = s_gop s /\ r_done (s_run s') = length L /\
    r_recurrent (s_run s') = (if (r_done (s_run s) =? length L)%nat then r_recurrent (s_run s) else false) /\
    same_run (s_run s) (s_run s')) (nowrite (sc_epb (s_cfg s))).
Proof.
  intros HS. unfold complete_all. apply complete_loop_ok; [exact HS|].
  rewrite (sg_queue _ _ HS), map_length. lia.
Qed.

(** ** Fetching *)

Lemma remove_mid {A} (a b : list A) x : remove_nth (length a) (a ++ x :: b) = a ++ b.
Proof. induction a; [reflexivity|]. cbn [length app remove_nth]. rewrite IHa. reflexivity. Qed.

Lemma fetch_ok s a q b : sgood s (a ++ q :: b) -> r_done (s_run s) = length (a ++ q :: b) -> forall want,
  exists s', fetch s (length a) want = Def (s', if want then fin (sc_codec (s_cfg s)) q else [],
                                            nlen (fin (sc_codec (s_cfg s)) q)) /\
    s_cfg s' = s_cfg s /\ s_gop s' = s_gop s /\ same_run (s_run s) (s_run s') /\
    r_recurrent (s_run s') = r_recurrent (s_run s) /\
    sgood s' (if want then a ++ b else a ++ q :: b) /\
    (r_done (s_run s') = length (if want then a ++ b else a ++ q :: b)).
Proof.
  intros HS HD want. pose proof HS as [SG SA SK SD S6 SS SQ SLL SW ST].
  assert (LA : length (map (fin_slot (sc_codec (s_cfg s))) a) = length a) by apply map_length.
  rewrite HD, firstn_all, skipn_all, app_nil_r, map_app in SS. cbn [map] in SS.
  rewrite HD, skipn_all in SQ. cbn [map] in SQ.
  assert (NE : nth_error (r_slots (s_run s)) (length a) = Some (fin_slot (sc_codec (s_cfg s)) q)).
  { rewrite SS. rewrite <- LA. apply nth_error_mid. }
  unfold fetch. rewrite NE. cbn [sl_done fin_slot sl_sei].
  destruct want; cbn [negb].
  2:{ exists s. split; [reflexivity|]. split; [reflexivity|]. split; [reflexivity|].
      split; [repeat split|]. split; [reflexivity|]. split; [exact HS|exact HD]. }
  assert (take_mem (N.to_nat (nlen (fin (sc_codec (s_cfg s)) q))) (fin (sc_codec (s_cfg s)) q) =
    Def (fin (sc_codec (s_cfg s)) q, [])) as -> by apply take_mem_exact.
  cbn [obind]. eexists. split; [reflexivity|]. unfold on_run. cbn [s_cfg s_gop set_s_run s_run].
  split; [reflexivity|]. split; [reflexivity|]. split; [repeat split|]. split; [reflexivity|].
  assert (LL : (r_done (s_run s) - 1)%nat = length (a ++ b)).
  { rewrite HD, !app_length. cbn [length]. lia. }
  assert (HRM : remove_nth (length a) (map (fin_slot (sc_codec (s_cfg s))) a ++ fin_slot (sc_codec (s_cfg s)) q
     :: map (fin_slot (sc_codec (s_cfg s))) b) = map (fin_slot (sc_codec (s_cfg s))) (a ++ b)).
  { rewrite <- LA at 1. rewrite remove_mid, map_app. reflexivity. }
  cbn [r_done set_r_done set_r_slots]. split; [|exact LL].
  constructor; cbn [s_cfg s_gop set_s_run s_run r_done set_r_done r_slots set_r_slots r_queue]; rewrite ?LL,
    ?firstn_all, ?skipn_all, ?SS, ?HRM; try assumption; try (constructor; fail).
  - destruct (sc_key (s_cfg s)); [exact SK|]. destruct a; discriminate.
  - clear - S6. rewrite app_length in *. cbn [length] in *. lia.
  - symmetry. apply app_nil_r.
  - apply Forall_app in SLL as [F1 F2]. apply Forall_cons_iff in F2 as [_ F2]. apply Forall_app. auto.
  - intros _. apply ST. destruct a; discriminate.
Qed.

End Sess.

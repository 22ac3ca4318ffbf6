(** Lemmas about SEI generation on the signing side. *)
From Verif Require Import Base BaseProofs Epb EpbProofs Nalu NaluSpec NaluProofs Crypto Types Hash Tlv
  TlvProofs EncProofs CodecSpec CodecProofs SeiSpec SeiProofs Signer.
Local Open Scope N_scope.

(** ** The fields that are sent *)

Lemma enc_value_nosig c g sig t : t <> 5 -> enc_value c g sig t = enc_value c g [] t.
Proof.
  intros H. unfold enc_value.
  repeat match goal with |- context [match ?x with _ => _ end] => is_var x; destruct x end;
    try reflexivity. contradiction.
Qed.

Lemma write_list_nosig c sig epb rec tags : Forall (fun t => t <> 5) tags -> forall g lt,
  tlv_write_list c g sig epb rec lt tags = tlv_write_list c g [] epb rec lt tags.
Proof.
  induction tags as [|t r IH]; intros H g lt; cbn [tlv_write_list]; [reflexivity|].
  apply Forall_cons_iff in H as [H5 H]. destruct (tag_due rec t); [|apply IH; exact H].
  unfold tlv_write_one. rewrite (enc_value_nosig c g sig t H5).
  destruct (enc_size c g t =? 0).
  - rewrite IH by exact H. reflexivity.
  - destruct (write_bytes epb lt (tlv_header c g t)) as [lt1 h].
    destruct (write_bytes epb lt1 (enc_value c g [] t)) as [lt2 v].
    destruct (nlen v <? enc_size c g t); rewrite IH by exact H; reflexivity.
Qed.

(** The hash list is left out if the payload would be too big: signed_video_h26x_sign.c:229-243. *)
Definition base_gop (s : signer) : sgop := set_g_hash_type 1 (s_gop s).
Definition payload0 (s : signer) : N :=
  tlv_size_list (s_cfg s) (base_gop s) (r_recurrent (s_run s)) signature_tags + optional_size s
  + (if r_golden (s_run s) then 0 else mandatory_size s (base_gop s)) + 16 + 1.
Definition too_big (s : signer) : bool :=
  (0 <? sc_max_payload (s_cfg s)) && (sc_max_payload (s_cfg s) <? payload0 s)
  && (0 <? (if r_golden (s_run s) then 0 else mandatory_size s (base_gop s))).
Definition sent_gop (s : signer) : sgop :=
  if too_big s then set_g_list None (base_gop s) else base_gop s.
Definition opt_fields (s : signer) : list field :=
  if sc_using_golden (s_cfg s) && negb (r_golden (s_run s)) then []
  else fields_of (s_cfg s) (sent_gop s) [] (r_recurrent (s_run s)) optional_tags.
Definition mand_fields (s : signer) : list field :=
  if r_golden (s_run s) then []
  else fields_of (s_cfg s) (sent_gop s) [] (r_recurrent (s_run s)) mandatory_tags.
Definition meta_fields (s : signer) : list field := opt_fields s ++ mand_fields s.
(** GOP information after the SEI is written. *)
Definition after_gop (s : signer) : sgop :=
  if r_golden (s_run s) then sent_gop s
  else set_g_hash_type 1 (set_g_counter (u32 (g_counter (s_gop s) + 1)) (sent_gop s)).
Definition sei_size (s : signer) : N :=
  17 + nlen (wires (meta_fields s)) + 8 + N.of_nat (sc_max_sig (s_cfg s)).

Lemma enc_ok_base s : enc_ok (s_cfg s) (s_gop s) [] -> enc_ok (s_cfg s) (base_gop s) [].
Proof. intros []. constructor; cbn; try assumption. lia. Qed.
Lemma enc_ok_sent s : enc_ok (s_cfg s) (s_gop s) [] -> enc_ok (s_cfg s) (sent_gop s) [].
Proof.
  intros H. apply enc_ok_base in H. unfold sent_gop. destruct (too_big s); [|exact H].
  destruct H. constructor; cbn; try assumption. exact I.
Qed.

Lemma opt_tags_lib : lib_tags optional_tags.
Proof. repeat constructor; cbn; tauto. Qed.
Lemma mand_tags_lib : lib_tags mandatory_tags.
Proof. repeat constructor; cbn; tauto. Qed.
Lemma sig_tags_lib : lib_tags signature_tags.
Proof. repeat constructor; cbn; tauto. Qed.

Lemma fields_of_tags c rec tags : forall g sig, Forall (fun f => In (fst f) tags) (fields_of c g sig rec tags).
Proof.
  induction tags as [|t r IH]; intros g sig; cbn [fields_of]; [constructor|].
  assert (G : forall g, Forall (fun f : field => In (fst f) (t :: r)) (fields_of c g sig rec r)).
  { intros g'. eapply Forall_impl; [|apply IH]. intros f Hf. right. exact Hf. }
  destruct (tag_due rec t && negb (enc_size c g t =? 0)); [|apply G].
  constructor; [left; reflexivity|apply G].
Qed.

Lemma fields_of_meta c g rec tags : enc_ok c g [] -> lib_tags tags -> ~ In 5 tags ->
  meta_ok (fields_of c g [] rec tags).
Proof.
  intros He Ht H5. split; [|split].
  - eapply Forall_impl; [|apply fields_of_fits; eassumption]. intros f. apply wire_ok_fits.
  - revert g He. induction tags as [|t r IH]; intros g He; cbn [fields_of]; [constructor|].
    apply Forall_cons_iff in Ht as [Kt Ht]. assert (~ In 5 r) by (intros G; apply H5; right; exact G).
    destruct (tag_due rec t && negb (enc_size c g t =? 0)); [|auto].
    constructor; [apply enc_value_ok; assumption|]. auto using enc_ok_effect.
  - eapply Forall_impl; [|apply fields_of_tags]. cbn beta. intros f Hf E. rewrite E in Hf. contradiction.
Qed.

Lemma meta_ok_app a b : meta_ok a -> meta_ok b -> meta_ok (a ++ b).
Proof. intros (A1 & A2 & A3) (B1 & B2 & B3). repeat split; apply Forall_app; auto. Qed.

Lemma meta_fields_ok s : enc_ok (s_cfg s) (s_gop s) [] -> meta_ok (meta_fields s).
Proof.
  intros H. apply enc_ok_sent in H. apply meta_ok_app.
  - unfold opt_fields. destruct (_ && _); [repeat constructor|].
    apply fields_of_meta; [exact H|apply opt_tags_lib|]. cbn. unfold PUBLIC_KEY, PRODUCT_INFO, CRYPTO_INFO. lia.
  - unfold mand_fields. destruct (r_golden _); [repeat constructor|].
    apply fields_of_meta; [exact H|apply mand_tags_lib|]. cbn. unfold GENERAL, HASH_LIST, ARBITRARY. lia.
Qed.

Lemma wires_app a b : wires (a ++ b) = wires a ++ wires b.
Proof. unfold wires. apply flat_map_app. Qed.

Lemma wires_ok fs : meta_ok fs -> bytes_ok (wires fs).
Proof.
  intros (H1 & H2 & _). rewrite wires_fields by exact H1. apply fields_bytes_ok; [|exact H2].
  eapply Forall_impl; [|exact H1]. intros f. apply wire_ok_fits.
Qed.

Lemma size_field_eq n : size_field n = ff_size n.
Proof.
  unfold size_field, ff_size.
  assert (G : forall k n, k = N.to_nat (n / 255) ->
    size_field_aux k n = repeat 255 k ++ [n mod 255]).
  { induction k as [|k IH]; intros m Hk; cbn [size_field_aux repeat app].
    - f_equal. unfold u8. assert (m < 255) by lia. rewrite !N.mod_small by lia. reflexivity.
    - destruct (N.leb_spec 255 m) as [L|L].
      + f_equal. rewrite IH by lia. f_equal. f_equal. lia.
      + exfalso. rewrite N.div_small in Hk by lia. discriminate. }
  apply G. reflexivity.
Qed.

Lemma signature_size_list c g rec : tlv_size_list c g rec signature_tags = 8 + N.of_nat (sc_max_sig c).
Proof.
  cbn [tlv_size_list signature_tags]. unfold tag_due, tlv_size_one, SIGNATURE. cbn [tuple_tag tuple fst snd always_present
    N.eqb Pos.eqb orb andb enc_size len_bytes]. unfold signature_size.
  destruct (N.eqb_spec (1 + 1 + 1 + 2 + N.of_nat (sc_max_sig c)) 0); [lia|]. cbn [fst snd]. lia.
Qed.

Lemma opt_size_base s : optional_size s =
  if sc_using_golden (s_cfg s) && negb (r_golden (s_run s)) then 0
  else tlv_size_list (s_cfg s) (sent_gop s) (r_recurrent (s_run s)) optional_tags.
Proof.
  unfold optional_size. destruct (_ && _); [reflexivity|].
  unfold sent_gop. destruct (too_big s); reflexivity.
Qed.

Lemma opt_size_eq s : enc_ok (s_cfg s) (s_gop s) [] -> optional_size s = nlen (wires (opt_fields s)).
Proof.
  intros H. pose proof (meta_fields_ok s H) as M. rewrite opt_size_base. unfold opt_fields.
  destruct (_ && _) eqn:E; [reflexivity|].
  rewrite (tlv_size_list_eq _ []) by (apply enc_ok_sent, H || apply opt_tags_lib).
  rewrite wires_fields; [reflexivity|]. unfold meta_fields, opt_fields in M. rewrite E in M.
  destruct M as [M _]. apply Forall_app in M. tauto.
Qed.
Lemma mand_size_eq s : enc_ok (s_cfg s) (s_gop s) [] ->
  (if r_golden (s_run s) then 0 else mandatory_size s (sent_gop s)) = nlen (wires (mand_fields s)).
Proof.
  intros H. pose proof (meta_fields_ok s H) as M. unfold mand_fields.
  destruct (r_golden _) eqn:E; [reflexivity|]. unfold mandatory_size.
  rewrite (tlv_size_list_eq _ []) by (apply enc_ok_sent, H || apply mand_tags_lib).
  rewrite wires_fields; [reflexivity|]. unfold meta_fields, mand_fields in M. rewrite E in M.
  destruct M as [M _]. apply Forall_app in M. tauto.
Qed.

Lemma general_due c g rec : tag_due rec GENERAL && negb (enc_size c g GENERAL =? 0) = true.
Proof.
  unfold tag_due, GENERAL. cbn [tuple_tag tuple fst snd always_present N.eqb Pos.eqb orb andb enc_size].
  unfold general_size. destruct (N.eqb_spec (1 + 4 + 2 + 3 + 1 + match g_ts g with Some _ => 8 | None => 0 end
    + N.of_nat (sc_hs c) * 2) 0); [lia|reflexivity].
Qed.

Lemma effects_opt c g rec : effects_of c g rec optional_tags = g.
Proof.
  unfold optional_tags. cbn [effects_of].
  repeat match goal with |- context [if ?b then _ else _] => destruct b end; reflexivity.
Qed.
Lemma effects_mand c g rec : g_hash_type g = 1 ->
  effects_of c g rec mandatory_tags = set_g_hash_type 1 (set_g_counter (u32 (g_counter g + 1)) g).
Proof.
  intros HT. unfold mandatory_tags. cbn [effects_of]. rewrite general_due.
  assert (G : set_g_counter (u32 (g_counter g + 1)) g =
              set_g_hash_type 1 (set_g_counter (u32 (g_counter g + 1)) g)).
  { destruct g; cbn in *. subst. reflexivity. }
  repeat match goal with |- context [if ?b then _ else _] => destruct b end; try exact G; reflexivity.
Qed.

Lemma nlen_pos {A} (l : list A) : l <> [] -> 0 < nlen l.
Proof. destruct l; [congruence|]. unfold nlen. cbn [length]. lia. Qed.

Lemma uuid_hist lt : fst (write_bytes true lt uuid_sv) mod 256 = 48 /\
  fst (write_bytes true lt uuid_sv) < 65536 /\ snd (write_bytes true lt uuid_sv) = uuid_sv.
Proof.
  assert (G : forall l lt, Forall (fun b => 3 < b < 256) l -> snd (write_bytes true lt l) = l).
  { induction l as [|b l IH]; intros x H; [reflexivity|]. apply Forall_cons_iff in H as [B H].
    cbn [write_bytes]. unfold write_byte. destruct (N.ltb_spec b 4); [lia|]. cbn [andb].
    specialize (IH (lt_push x b) H). destruct (write_bytes true (lt_push x b) l). cbn [snd] in *.
    rewrite IH. reflexivity. }
  assert (GU : snd (write_bytes true lt uuid_sv) = uuid_sv).
  { apply G. unfold uuid_sv. repeat constructor; lia. }
  rewrite write_bytes_hist, GU. split; [|split; [|reflexivity]].
  - unfold uuid_sv, hist. cbn [fold_left]. unfold lt_push at 1.
    match goal with |- (?x * 256 + 48) mod 65536 mod 256 = 48 => generalize x end. intros. lia.
  - unfold uuid_sv, hist. cbn [fold_left]. apply lt_push_lt.
Qed.

Lemma write_wrapped epb lt fs : meta_ok fs -> lt < 65536 -> lt mod 256 <> 0 ->
  snd (write_bytes epb lt (wires fs)) = wrapped epb (wires fs) /\
  (epb = true -> hz (fst (write_bytes epb lt (wires fs))) (zeros_after 0 (wires fs))).
Proof.
  intros HM H1 H2. apply wires_ok in HM. split; [apply wrapped_write; assumption|].
  intros ->. apply esc_write; [exact HM|]. apply hz_init; assumption.
Qed.

Lemma reserved_eq e g : reserved_byte e g = sei_flags e g.
Proof. destruct e, g; reflexivity. Qed.

Lemma nlen_zero_eqb {A} (l : list A) : (nlen l =? 0) = negb (0 <? nlen l).
Proof. destruct (N.eqb_spec (nlen l) 0), (N.ltb_spec 0 (nlen l)); try reflexivity; lia. Qed.

Lemma build_sei_eq s : enc_ok (s_cfg s) (s_gop s) [] ->
  exists lt,
    build_sei s = (after_gop s, SV_OK, sei_alloc (sc_codec (s_cfg s)) (sei_size s), lt,
      [0; 0; 0; 1] ++ sei_front (sc_codec (s_cfg s)) (sei_size s)
        (sei_flags (sc_epb (s_cfg s)) (r_golden (s_run s)))
      ++ wrapped (sc_epb (s_cfg s)) (wires (meta_fields s))) /\
    (sc_epb (s_cfg s) = true -> hz lt (zeros_after 0 (wires (meta_fields s)))).
Proof.
  intros He. pose proof (enc_ok_sent s He) as Hs. pose proof (meta_fields_ok s He) as HM.
  assert (HM1 : meta_ok (opt_fields s)).
  { destruct HM as (M1 & M2 & M3). unfold meta_fields in *. rewrite Forall_app in M1, M2, M3.
    repeat split; tauto. }
  assert (HM2 : meta_ok (mand_fields s)).
  { destruct HM as (M1 & M2 & M3). unfold meta_fields in *. rewrite Forall_app in M1, M2, M3.
    repeat split; tauto. }
  assert (ES : sei_size s = if too_big s
     then payload0 s - (if r_golden (s_run s) then 0 else mandatory_size s (base_gop s)) + nlen (wires (mand_fields s))
     else payload0 s).
  { unfold sei_size, meta_fields, payload0. rewrite wires_app, nlen_app'.
    rewrite <- (opt_size_eq s He), <- (mand_size_eq s He), signature_size_list.
    unfold sent_gop. destruct (too_big s) eqn:EB.
    - unfold too_big in EB. destruct (r_golden (s_run s)); [|lia].
      rewrite !andb_true_iff in EB. destruct EB as [_ EB]. discriminate.
    - lia. }
  assert (EM : (if too_big s then mandatory_size s (sent_gop s)
                else if r_golden (s_run s) then 0 else mandatory_size s (base_gop s)) =
               nlen (wires (mand_fields s))).
  { rewrite <- (mand_size_eq s He). unfold sent_gop. destruct (too_big s) eqn:EB; [|reflexivity].
    unfold too_big in EB. destruct (r_golden (s_run s)); [|reflexivity].
    rewrite !andb_true_iff in EB. destruct EB as [_ EB]. discriminate. }
  unfold build_sei. cbv zeta.
  change (set_g_hash_type 1 (s_gop s)) with (base_gop s).
  change (tlv_size_list (s_cfg s) (base_gop s) (r_recurrent (s_run s)) signature_tags + optional_size s +
    (if r_golden (s_run s) then 0 else mandatory_size s (base_gop s)) + 16 + 1) with (payload0 s).
  change ((0 <? sc_max_payload (s_cfg s)) && (sc_max_payload (s_cfg s) <? payload0 s)
    && (0 <? (if r_golden (s_run s) then 0 else mandatory_size s (base_gop s)))) with (too_big s).
  change (if too_big s then set_g_list None (base_gop s) else base_gop s) with (sent_gop s).
  rewrite EM, <- ES, (opt_size_eq s He), size_field_eq.
  rewrite write_bytes_plain.
  set (lt1 := hist lt_init _).
  destruct (uuid_hist lt1) as (U1 & U2 & U3).
  destruct (write_bytes true lt1 uuid_sv) as [lt2 o2]. cbn [fst snd] in U1, U2, U3. subst o2.
  rewrite reserved_eq, (write_list_nosig _ (r_sig (s_run s))) by (repeat constructor; discriminate).
  assert (EO : (if 0 <? nlen (wires (opt_fields s))
     then tlv_write_list (s_cfg s) (sent_gop s) [] (sc_epb (s_cfg s)) (r_recurrent (s_run s)) lt2 optional_tags
     else (lt2, [], sent_gop s)) =
     (fst (write_bytes (sc_epb (s_cfg s)) lt2 (wires (opt_fields s))),
      snd (write_bytes (sc_epb (s_cfg s)) lt2 (wires (opt_fields s))), sent_gop s)).
  { destruct (N.ltb_spec 0 (nlen (wires (opt_fields s)))) as [L|L].
    - unfold opt_fields in L |- *. destruct (_ && _) eqn:EG; [cbn in L; lia|].
      rewrite tlv_write_list_eq by (exact Hs || apply opt_tags_lib).
      rewrite effects_opt. rewrite wires_fields; [reflexivity|].
      unfold opt_fields in HM1. rewrite EG in HM1. apply HM1.
    - assert (wires (opt_fields s) = []) as -> by (destruct (wires (opt_fields s)); [reflexivity|unfold nlen in L; cbn in L; lia]).
      reflexivity. }
  rewrite EO.
  assert (Z1 : (0 <? nlen (wires (opt_fields s))) &&
    (nlen (snd (write_bytes (sc_epb (s_cfg s)) lt2 (wires (opt_fields s)))) =? 0) = false).
  { pose proof (write_bytes_longer (sc_epb (s_cfg s)) lt2 (wires (opt_fields s))).
    destruct (N.ltb_spec 0 (nlen (wires (opt_fields s)))); [|reflexivity].
    destruct (N.eqb_spec (nlen (snd (write_bytes (sc_epb (s_cfg s)) lt2 (wires (opt_fields s))))) 0); [lia|reflexivity]. }
  rewrite Z1.
  set (lt3 := fst (write_bytes (sc_epb (s_cfg s)) lt2 (wires (opt_fields s)))).
  rewrite (write_list_nosig _ (r_sig (s_run s))) by (repeat constructor; discriminate).
  assert (EMW : (if 0 <? nlen (wires (mand_fields s))
     then tlv_write_list (s_cfg s) (sent_gop s) [] (sc_epb (s_cfg s)) (r_recurrent (s_run s)) lt3 mandatory_tags
     else (lt3, [], sent_gop s)) =
     (fst (write_bytes (sc_epb (s_cfg s)) lt3 (wires (mand_fields s))),
      snd (write_bytes (sc_epb (s_cfg s)) lt3 (wires (mand_fields s))), after_gop s)).
  { destruct (N.ltb_spec 0 (nlen (wires (mand_fields s)))) as [L|L].
    - unfold mand_fields, after_gop in L |- *. destruct (r_golden (s_run s)) eqn:EG; [cbn in L; lia|].
      rewrite tlv_write_list_eq by (exact Hs || apply mand_tags_lib).
      rewrite effects_mand.
      2:{ unfold sent_gop. destruct (too_big s); reflexivity. }
      rewrite wires_fields.
      + unfold sent_gop. destruct (too_big s); reflexivity.
      + unfold mand_fields in HM2. rewrite EG in HM2. apply HM2.
    - assert (EN : wires (mand_fields s) = []) by (destruct (wires (mand_fields s)); [reflexivity|unfold nlen in L; cbn in L; lia]).
      unfold after_gop. destruct (r_golden (s_run s)) eqn:EG.
      + rewrite EN. reflexivity.
      + exfalso. unfold mand_fields in EN. rewrite EG in EN. unfold mandatory_tags in EN.
        cbn [fields_of] in EN. rewrite general_due in EN. discriminate EN. }
  rewrite EMW.
  assert (Z2 : (0 <? nlen (wires (mand_fields s))) &&
    (nlen (snd (write_bytes (sc_epb (s_cfg s)) lt3 (wires (mand_fields s)))) =? 0) = false).
  { pose proof (write_bytes_longer (sc_epb (s_cfg s)) lt3 (wires (mand_fields s))).
    destruct (N.ltb_spec 0 (nlen (wires (mand_fields s)))); [|reflexivity].
    destruct (N.eqb_spec (nlen (snd (write_bytes (sc_epb (s_cfg s)) lt3 (wires (mand_fields s))))) 0); [lia|reflexivity]. }
  rewrite Z2.
  exists (fst (write_bytes (sc_epb (s_cfg s)) lt3 (wires (mand_fields s)))).
  destruct (write_wrapped (sc_epb (s_cfg s)) lt2 (meta_fields s) HM U2 ltac:(lia)) as [W1 W2].
  assert (EW : write_bytes (sc_epb (s_cfg s)) lt2 (wires (meta_fields s)) =
     (fst (write_bytes (sc_epb (s_cfg s)) lt3 (wires (mand_fields s))),
      snd (write_bytes (sc_epb (s_cfg s)) lt2 (wires (opt_fields s))) ++
      snd (write_bytes (sc_epb (s_cfg s)) lt3 (wires (mand_fields s))))).
  { unfold meta_fields. rewrite wires_app, write_bytes_app. reflexivity. }
  rewrite EW in W1, W2. cbn [fst snd] in W1, W2. split; [|exact W2].
  f_equal. cbn [fst snd]. rewrite <- W1. unfold sei_front.
  change (sei_header (sc_codec (s_cfg s))) with (sei_type_bytes (sc_codec (s_cfg s))).
  rewrite uuid_eq, <- !app_assoc. reflexivity.
Qed.

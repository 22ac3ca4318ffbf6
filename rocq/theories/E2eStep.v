(** The validator on an untampered stream, call by call: lemmas. *)
From Verif Require Import Base BaseProofs Epb EpbProofs Nalu NaluSpec NaluProofs Crypto Types Hash Tlv TlvProofs EncProofs CodecSpec CodecProofs
  SeiSpec SeiProofs Signer SignSpec GopSpec GopProofs VTypes NaluList Validator SeiHashProofs VListProofs VUnsigned E2eSpec E2eDec E2eList E2eVal.
Local Open Scope N_scope.

(** What parsing tells of a NALU of the stream. *)
Definition pic_nalu (p : piece) (n : nalu) : Prop :=
  n_gop_sei n = false /\ n_golden n = false /\ n_tlv_size n = 0 /\ n_first_part n = true /\ n_last_part n = true /\
  n_first_in_gop n = p_first p /\
  ((n_hashable n = true /\ n_valid n = 1%Z /\ exists x, p_bytes p = Some x /\ hash_input n = Def x /\ x <> []) \/
   (n_hashable n = false /\ (n_valid n = 0%Z \/ n_valid n = 1%Z) /\ p_bytes p = None /\ p_first p = false)).

Lemma pic_parse c p : seen c p -> legal c p -> exists n, parse_nalu (p_data p) c true true = Def n /\ pic_nalu p n.
Proof.
  intros (_ & n & E & F1 & F2 & F3) (D0 & D1 & LG). destruct (LG n E) as [G1 G2].
  pose proof (parse_auth _ _ _ E G1) as EA. exists n. split; [exact EA|].
  destruct (parse_unsigned _ _ _ D0 EA G1) as (U1 & U2 & U3). destruct (parse_flags _ _ _ D0 E) as (P1 & P2 & _ & _).
  repeat (split; [assumption|]). split; [symmetry; exact F1|]. destruct (n_hashable n) eqn:EH.
  - left. split; [reflexivity|]. split; [apply G2; reflexivity|]. destruct F3 as (x & X1 & X2). exists x.
    split; [exact X2|]. split; [exact X1|]. exact (hashed_nonempty _ _ _ _ D1 E EH X1).
  - right. split; [reflexivity|]. split; [exact U3|]. split; [exact F3|]. rewrite F1.
    destruct (n_first_in_gop n) eqn:EF; [|reflexivity]. rewrite (first_hashed _ _ _ E EF G1) in EH. discriminate.
Qed.

(** The copy of the last item. *)
Lemma copy_last_ok known l it n : i_nalu it = Some n -> n_tlv_size n <= nlen (n_tlv_mem n) -> n_tlv_size n < 2 ^ 63 ->
  known = true \/ n_gop_sei n = false ->
  exists m, copy_last known (l ++ [it]) = Def (l ++ [set_i_nalu (Some m) it], SV_OK) /\
    n_gop_sei m = n_gop_sei n /\ n_first_in_gop m = n_first_in_gop n /\ n_hashable m = n_hashable n /\ n_valid m = n_valid n /\
    n_first_part m = n_first_part n /\ n_last_part m = n_last_part n /\
    (known = false -> n_hashable n = true -> hash_input m = hash_input n).
Proof.
  intros E S1 S2 K. change (2 ^ 63) with 9223372036854775808 in S2. unfold copy_last. rewrite rev_app_distr. cbn [rev app copy_rev]. rewrite E. unfold copy_nalu.
  destruct (N.leb_spec 9223372036854775808 (n_tlv_size n)); [lia|]. destruct (N.ltb_spec (nlen (n_tlv_mem n)) (n_tlv_size n)); [lia|].
  assert (EB : negb known && n_hashable n && n_gop_sei n && negb (n_with_epb n) && (0 <? n_epb n)%Z = false).
  { destruct K as [->| ->]; [reflexivity|]. rewrite andb_false_r. reflexivity. }
  rewrite EB. cbn [obind rev]. rewrite rev_involutive. eexists. split; [reflexivity|]. cbn [n_gop_sei n_first_in_gop n_hashable n_valid n_first_part n_last_part].
  repeat (split; [reflexivity|]). intros K2 KH. subst known. unfold hash_input. cbn [n_hash_size n_hash_mem]. rewrite KH. reflexivity.
Qed.

Section Step.
Variable C : crypto.
Hypothesis HC : crypto_ok C.
Variable Ov : ovf.
Variable c : codec.
Variable w : settings.
Variable hs : nat.
Hypothesis HO : c_oid C (w_oid w) = OidDigest hs.
Hypothesis HW0 : w_oid w <> [].
Hypothesis HWl : nlen (w_oid w) < 254.
Hypothesis HP0 : w_pub w <> [].
Hypothesis HPl : nlen (w_pub w) < 65535.
Hypothesis HPk : c_pub_ok C (w_pub w) = true.
Hypothesis HR5 : length (w_prod w) = 5%nat.
Hypothesis HRb : Forall (Forall (fun b => 0 < b < 256)) (w_prod w).
Hypothesis HMx : N.of_nat (w_max_sig w) + 5 < 65536.
Variable f : nat.

Let H := c_hash C (w_oid w).
Let Hhs : (0 < hs <= 64)%nat := hs_small C HC w hs HO.
Let HL : forall x, length (H x) = hs := H_len C HC w hs HO.
Notation gdec := (gdec w hs).
Notation its_h := (its (first_hash H hs) (other_hash H hs)).
Notation links_ok := (links_ok C w hs).

Lemma put_same v b r : put_hst (mkHst (d_handle (v_dec v)) b r) v = set_v_has_ref r (set_v_buddies b v).
Proof. destruct v as [? d]. destruct d. reflexivity. Qed.

(** ** Hashing a NALU of the stream *)

Definition refs (v : valid) (o : option (list N)) : Prop :=
  length (v_buddies v) = 128%nat /\ match o with Some x => firstn hs (v_buddies v) = H x | None => True end.

Definition like (it it2 : item) : Prop :=
  i_nalu it2 = i_nalu it /\ i_status it2 = i_status it /\ i_used it2 = i_used it /\ i_linked it2 = i_linked it /\ length (i_hash it2) = 64%nat.

Lemma simply_ok h n x : h_type h = w_oid w -> n_first_part n = true -> hash_input n = Def x -> x <> [] ->
  simply_hash C h n = Def (h, SV_OK, H x).
Proof.
  intros T F E N0. unfold simply_hash. rewrite F, E. cbn [obind]. unfold hash_data. destruct x; [congruence|]. rewrite T. reflexivity.
Qed.

(** The two halves of the reference and the hash. *)
Lemma buddies_two b x : length b = 128%nat -> exists b2, put_at hs b (H x) = Def b2 /\ length b2 = 128%nat /\ firstn hs b2 = firstn hs b /\
  firstn (2 * hs) b2 = firstn hs b ++ H x.
Proof.
  intros L. unfold put_at. destruct (Nat.leb_spec (hs + length (H x)) (length b)) as [_|X]; [|rewrite HL in X; lia].
  eexists. split; [reflexivity|]. rewrite HL.
  assert (LF : length (firstn hs b) = hs) by (rewrite firstn_length; lia).
  split; [rewrite !app_length, skipn_length, HL; lia|]. split; [apply firstn_app_len; exact LF|].
  rewrite app_assoc. apply firstn_app_len. rewrite app_length, HL. lia.
Qed.

Lemma wrap_other v n x : gdec (v_dec v) -> length (v_buddies v) = 128%nat -> n_gop_sei n = false -> n_first_part n = true -> n_last_part n = true ->
  hash_input n = Def x -> x <> [] -> (n_first_in_gop n = false \/ v_has_ref v = true) ->
  exists b2, hash_wrapper C (hst_of v) n hs = Def (mkHst (d_handle (v_dec v)) b2 (v_has_ref v), SV_OK, Some (H (firstn hs (v_buddies v) ++ H x))) /\
    length b2 = 128%nat /\ firstn hs b2 = firstn hs (v_buddies v).
Proof.
  intros G LB S1 S2 S3 E N0 FR. unfold hash_wrapper, hst_of. rewrite S3, S1. cbn [negb k_has_ref k_handle k_buddies].
  assert (EF : n_first_in_gop n && negb (v_has_ref v) = false) by (destruct FR as [->| ->]; [reflexivity|apply andb_false_r]).
  rewrite EF, (simply_ok _ _ _ (gd_type _ _ _ G) S2 E N0). cbn [obind is_ok svrc_eqb].
  destruct (buddies_two (v_buddies v) x LB) as (b2 & E1 & E2 & E3 & E4). rewrite E1. cbn [obind]. rewrite E4.
  unfold hash_data. destruct (firstn hs (v_buddies v) ++ H x) as [|z r] eqn:EZ.
  { apply (f_equal (@length N)) in EZ. rewrite app_length, HL in EZ. cbn in EZ. lia. }
  rewrite <- EZ. rewrite (gd_type _ _ _ G). exists b2. split; [reflexivity|]. split; assumption.
Qed.

Lemma wrap_first v n x : gdec (v_dec v) -> length (v_buddies v) = 128%nat -> n_gop_sei n = false -> n_first_part n = true -> n_last_part n = true ->
  hash_input n = Def x -> x <> [] -> n_first_in_gop n = true -> v_has_ref v = false ->
  exists b2, hash_wrapper C (hst_of v) n hs = Def (mkHst (d_handle (v_dec v)) b2 true, SV_OK, Some (H x)) /\
    length b2 = 128%nat /\ firstn hs b2 = H x.
Proof.
  intros G LB S1 S2 S3 E N0 F1 F2. unfold hash_wrapper, hst_of. rewrite S3, S1. cbn [negb k_has_ref k_handle k_buddies].
  rewrite F1, F2. cbn [andb negb]. rewrite (simply_ok _ _ _ (gd_type _ _ _ G) S2 E N0). cbn [obind is_ok svrc_eqb].
  rewrite (firstn_all2 (H x)) by (rewrite HL; lia).
  destruct (firstn_put (v_buddies v) (H x) hs (HL _)) as (b2 & E1 & E2 & E3); [lia|]. rewrite E1. cbn [obind].
  exists b2. split; [reflexivity|]. split; [lia|exact E2].
Qed.

Lemma hash_other v it n x o x0 : gdec (v_dec v) -> refs v o -> o = Some x0 -> gs_after (v_gs v) = false -> length (i_hash it) = 64%nat ->
  i_nalu it = Some n -> n_gop_sei n = false -> n_first_part n = true -> n_last_part n = true -> n_hashable n = true ->
  hash_input n = Def x -> x <> [] -> n_first_in_gop n = false ->
  exists b it2, hash_item C v it = Def (set_v_has_ref (v_has_ref v) (set_v_buddies b v), it2, SV_OK) /\
    length b = 128%nat /\ firstn hs b = H x0 /\ like it it2 /\ other_hash H hs x0 x it2.
Proof.
  intros G (LB & RF) -> GA LI EN S1 S2 S3 S4 E N0 F. unfold hash_item, vhs. rewrite EN, S4, (gd_known _ _ _ G), (gd_vhs _ _ _ G). cbn [negb orb].
  destruct (wrap_other v n x G LB S1 S2 S3 E N0 (or_introl F)) as (b2 & -> & B1 & B2). cbn [obind]. rewrite put_same.
  destruct (firstn_put (i_hash it) (H (firstn hs (v_buddies v) ++ H x)) hs (HL _)) as (y & Y1 & Y2 & Y3); [lia|]. rewrite Y1. cbn [obind is_ok svrc_eqb negb].
  rewrite F. cbn [orb]. change (gs_after (v_gs (set_v_has_ref (v_has_ref v) (set_v_buddies b2 v)))) with (gs_after (v_gs v)). rewrite GA. cbn [andb].
  exists b2, (set_i_hash y it). split; [reflexivity|]. split; [exact B1|]. split; [congruence|].
  split; [repeat split; cbn; lia|]. unfold other_hash. cbn [set_i_hash i_hash]. rewrite Y2, RF. reflexivity.
Qed.

Lemma hash_first v it n x o : gdec (v_dec v) -> refs v o -> length (i_hash it) = 64%nat ->
  i_nalu it = Some n -> n_gop_sei n = false -> n_first_part n = true -> n_last_part n = true -> n_hashable n = true ->
  hash_input n = Def x -> x <> [] -> n_first_in_gop n = true ->
  exists b it2, hash_item C v it = Def (set_v_has_ref true (set_v_buddies b v), it2, SV_OK) /\
    length b = 128%nat /\ firstn hs b = H x /\ like it it2 /\ first_hash H hs x it2.
Proof.
  intros G (LB & _) LI EN S1 S2 S3 S4 E N0 F. unfold hash_item, vhs. rewrite EN, S4, (gd_known _ _ _ G), (gd_vhs _ _ _ G). cbn [negb orb].
  assert (X : exists b r y, hash_wrapper C (hst_of v) n hs = Def (mkHst (d_handle (v_dec v)) b r, SV_OK, Some y) /\ length b = 128%nat /\ length y = hs).
  { destruct (v_has_ref v) eqn:ER.
    - destruct (wrap_other v n x G LB S1 S2 S3 E N0 (or_intror ER)) as (b2 & X1 & X2 & X3). do 3 eexists. split; [exact X1|]. split; [exact X2|apply HL].
    - destruct (wrap_first v n x G LB S1 S2 S3 E N0 F ER) as (b2 & X1 & X2 & X3). do 3 eexists. split; [exact X1|]. split; [exact X2|apply HL]. }
  destruct X as (b & r & y0 & -> & B1 & B2). cbn [obind]. rewrite put_same.
  destruct (firstn_put (i_hash it) y0 hs B2) as (y & Y1 & Y2 & Y3); [lia|]. rewrite Y1. cbn [obind is_ok svrc_eqb negb].
  rewrite F. cbn [orb]. set (v1 := set_v_has_ref false (set_v_has_ref r (set_v_buddies b v))).
  assert (D1 : v_dec v1 = v_dec v) by reflexivity.
  change (d_vhs (v_dec (set_v_has_ref r (set_v_buddies b v)))) with (d_vhs (v_dec v)). 
  destruct (wrap_first v1 n x G B1 S1 S2 S3 E N0 F eq_refl) as (b3 & X1 & X2 & X3).
  change (d_vhs (v_dec v1)) with (d_vhs (v_dec v)). rewrite (gd_vhs _ _ _ G), X1. cbn [obind]. rewrite put_same.
  exists b3, (set_i_second (Some (H x)) (set_i_hash y it)). split; [unfold v1; destruct v; reflexivity|]. split; [exact X2|]. split; [exact X3|].
  split; [repeat split; cbn; lia|]. exists (H x). split; [reflexivity|]. apply firstn_all2. rewrite HL. lia.
Qed.

(** ** Once the stream is known to be signed *)

(** [b] tells whether this is the first validation, [P] that everything so far was found authentic, [xo] is the reference, if any
    NALU that starts a GOP came. *)
Record vgoodo (b : bool) (P : Prop) (v : valid) (k : N) (prev xo : option (list N)) : Prop := mkVgood {
  vg_codec : v_codec v = c;
  vg_dec : gdec (v_dec v);
  vg_legacy : v_legacy v = false;
  vg_report : v_report v = true;
  vg_signing : v_signing v = true;
  vg_after : gs_after (v_gs v) = false;
  vg_refs : refs v xo;
  vg_gop : v_gop v = k mod 2 ^ 32 \/ (v_synced v = false /\ apart Ov ((k + 1) mod 2 ^ 32) (v_gop v));
  vg_links : links_ok (v_links v) prev;
  vg_computed : length (v_computed v) = 64%nat;
  vg_hash : length (v_hash v) = 64%nat;
  vg_acc : P -> In (a_auth (v_acc v)) [NotSigned; SigPresent; AuthOk];
  vg_first : v_first v = b;
  vg_changed : a_changed (v_acc v) = false
}.
Notation vgood b P v k prev x := (vgoodo b P v k prev (Some x)).

(** The piece that starts a GOP is the new reference. *)
Definition after (p : piece) (o : option (list N)) : option (list N) :=
  match p_bytes p with Some x => if p_first p then Some x else o | None => o end.

Lemma its_snoc PF PO o ps l o1 p it : its PF PO o ps l o1 ->
  (p_bytes p = None /\ p_first p = false /\ calm it) \/
  (exists x, p_bytes p = Some x /\ waits (p_first p) it /\
    if p_first p then PF x it else exists x0, o1 = Some x0 /\ PO x0 x it) ->
  its PF PO o (ps ++ [p]) (l ++ [it]) (after p o1).
Proof.
  intros I X. eapply its_app; [exact I|]. unfold after. destruct X as [(B & F & Q)|(x & B & W & X)]; rewrite B.
  - apply its_plain; auto. constructor.
  - destruct (p_first p) eqn:F.
    + eapply its_first; eauto. constructor.
    + destruct X as (x0 & -> & X). eapply its_other; eauto. constructor.
Qed.

(** A NALU is registered. *)
Definition fits (xo : option (list N)) (p : piece) : Prop := xo = None -> p_first p = true \/ p_bytes p = None.
Lemma register_pic v p n xo : gdec (v_dec v) -> refs v xo -> fits xo p -> gs_after (v_gs v) = false -> pic_nalu p n ->
  exists b r it2, register C v n = Def (set_v_has_ref r (set_v_buddies b v), it2, SV_OK) /\ i_nalu it2 = Some n /\
    refs (set_v_has_ref r (set_v_buddies b v)) (after p xo) /\
    (calm it2 /\ pending it2 = false /\ p_bytes p = None /\ p_first p = false \/
     exists y, p_bytes p = Some y /\ waits (p_first p) it2 /\
       if p_first p then first_hash H hs y it2 else exists x0, xo = Some x0 /\ other_hash H hs x0 y it2).
Proof.
  intros G RF FT GA (S1 & S2 & S3 & S4 & S5 & S6 & [(S7 & S8 & y & S9 & S10 & S11)|(S7 & S8 & S9 & S10)]).
  - unfold register. rewrite S8. change (1 =? 0)%Z with false. cbn iota. unfold update_hashable. rewrite S7, S1. cbn [negb orb obind].
    set (it := set_i_nalu (Some n) (item_create n)).
    assert (EI : i_nalu it = Some n) by reflexivity.
    assert (ST : i_status it = SPend) by (cbn; unfold status_of; rewrite S8, S7; reflexivity).
    assert (W : forall it2, like it it2 -> waits (p_first p) it2).
    { intros it2 (L1 & L2 & L3 & L4 & L5). split; [congruence|]. split; [rewrite L3; reflexivity|]. split; [rewrite L4; reflexivity|].
      exists n. rewrite L1. repeat (split; [assumption || reflexivity|]). exact S7. }
    unfold after. rewrite S9. destruct (p_first p) eqn:EF.
    + destruct (hash_first v it n y xo G RF eq_refl EI S1 S4 S5 S7 S10 S11 S6) as (b & it2 & E & B1 & B2 & B3 & B4).
      exists b, true, it2. split; [exact E|]. split; [rewrite (proj1 B3); exact EI|]. split; [split; [exact B1|exact B2]|].
      right. exists y. split; [reflexivity|]. split; [apply W, B3|exact B4].
    + destruct xo as [x|]; [|destruct (FT eq_refl); congruence].
      destruct (hash_other v it n y (Some x) x G RF eq_refl GA eq_refl EI S1 S4 S5 S7 S10 S11 S6) as (b & it2 & E & B1 & B2 & B3 & B4).
      exists b, (v_has_ref v), it2. split; [exact E|]. split; [rewrite (proj1 B3); exact EI|]. split; [split; [exact B1|exact B2]|].
      right. exists y. split; [reflexivity|]. split; [apply W, B3|]. exists x. split; [reflexivity|exact B4].
  - exists (v_buddies v), (v_has_ref v), (item_create n).
    assert (RX : register C v n = Def (v, item_create n, SV_OK)).
    { unfold register. destruct S8 as [S8|S8]; rewrite S8; [reflexivity|]. change (1 =? 0)%Z with false. cbn iota. unfold update_hashable. rewrite S7. cbn [negb orb obind].
      unfold hash_item. cbn [set_i_nalu i_nalu]. rewrite S7. reflexivity. }
    split; [rewrite RX; destruct v; reflexivity|]. split; [reflexivity|]. split; [unfold after; rewrite S9; exact RF|].
    left. assert (Q : calm (item_create n)).
    { split; [reflexivity|]. split; [discriminate|]. cbn [item_create i_status]. unfold status_of.
      destruct S8 as [-> | ->]; cbn [Z.ltb Z.compare Z.eqb]; rewrite ?S7; cbn; auto. }
    split; [exact Q|]. split; [exact (calm_pending _ Q)|]. split; [exact S9|exact S10].
Qed.

Lemma pg_stream l it b : Forall stream_item l -> waits b it -> Forall stream_item (l ++ [it]).
Proof. intros F W. apply Forall_app. split; [exact F|]. constructor; [right; eexists; exact W|constructor]. Qed.

Lemma has_pending_none v : v_signing v = true -> Forall stream_item (v_items v) ->
  exists g, has_pending v = (set_v_gs g v, false) /\ gs_after g = false.
Proof.
  intros ES F. unfold has_pending. rewrite ES. destruct (no_pending (first_hash H hs) true (v_items v) F) as (s & E & Q1 & Q2 & Q3); [discriminate|].
  fold pg0. rewrite E. eexists. split; [reflexivity|]. cbn [gs_after negb andb]. destruct (g_last s) as [[|]|]; [congruence|reflexivity|reflexivity].
Qed.

Lemma waits_copy b it m n : waits b it -> i_nalu it = Some n -> n_gop_sei m = n_gop_sei n -> n_first_in_gop m = n_first_in_gop n ->
  n_hashable m = n_hashable n -> waits b (set_i_nalu (Some m) it).
Proof.
  intros (A1 & A2 & A3 & n' & A4 & A5 & A6 & A7) E M1 M2 M3. assert (n' = n) as -> by congruence. repeat (split; [assumption|]).
  exists m. split; [reflexivity|]. rewrite M1, M2, M3. repeat (split; [assumption|]). assumption.
Qed.
Lemma calm_copy it m : calm it -> calm (set_i_nalu (Some m) it).
Proof. intros (A1 & A2 & A3). split; [exact A1|]. split; [discriminate|exact A3]. Qed.

Lemma pic_stepo b0 P v k prev xo o ps p : vgoodo b0 P v k prev xo -> its_h o ps (v_items v) xo -> fits xo p -> seen c p -> legal c p ->
  exists v', add_nalu C Ov (S f) v (p_data p) true = Def (v', VRes SV_OK None) /\ vgoodo b0 P v' k prev (after p xo) /\
    its_h o (ps ++ [p]) (v_items v') (after p xo).
Proof.
  intros G I FT SN LG. destruct (pic_parse c p SN LG) as (n & EP & PN). destruct LG as (D0 & _ & _).
  unfold add_nalu. destruct (p_data p) as [|d0 dr] eqn:ED; [congruence|]. rewrite <- ED in *. clear ED d0 dr.
  cbv zeta. unfold create_report. change (v_report (set_v_started true v)) with (v_report v). rewrite (vg_report _ _ _ _ _ _ G).
  change (v_legacy (set_v_started true v)) with (v_legacy v). rewrite (vg_legacy _ _ _ _ _ _ G).
  unfold add_h26x. change (v_codec (set_v_started true v)) with (v_codec v). rewrite (vg_codec _ _ _ _ _ _ G), EP. cbn [obind].
  unfold add_body. cbv zeta.
  assert (NV : (n_valid n <? 0)%Z = false).
  { destruct PN as (_ & _ & _ & _ & _ & _ & [(_ & -> & _)|(_ & [-> | ->] & _)]); reflexivity. }
  rewrite NV.
  match goal with |- context [register C ?y n] => set (v1 := y) end.
  assert (ESI : v_signing v1 = true) by (unfold v1; cbn; rewrite (vg_signing _ _ _ _ _ _ G); reflexivity).
  assert (EFS : v_first_sei v1 = false) by (unfold v1; cbn; rewrite (vg_signing _ _ _ _ _ _ G); reflexivity).
  assert (V1 : v_dec v1 = v_dec v /\ v_items v1 = v_items v /\ v_gs v1 = v_gs v /\ v_buddies v1 = v_buddies v) by (repeat split).
  destruct V1 as (V1a & V1b & V1c & V1d).
  destruct (register_pic v1 p n xo) as (b & r & it2 & ER & EN & RF & CS); [rewrite V1a; apply G|split; [rewrite V1d|rewrite V1d]; apply (vg_refs _ _ _ _ _ _ G)|exact FT|rewrite V1c; apply G|exact PN|].
  rewrite ER. cbn [obind is_ok svrc_eqb negb].
  change (v_items (on_acc _ (set_v_result false (set_v_started true v)))) with (v_items v).
  match goal with |- context [d_algo_known (v_dec ?y)] => set (v2 := y) end.
  assert (V2 : v_dec v2 = v_dec v /\ v_items v2 = v_items v ++ [it2] /\ v_gs v2 = v_gs v /\ v_legacy v2 = v_legacy v /\ v_signing v2 = true /\ v_first_sei v2 = false) by (repeat split; assumption).
  destruct V2 as (V2a & V2b & V2c & V2d & V2e & V2f).
  rewrite V2a, (gd_known _ _ _ (vg_dec _ _ _ _ _ _ G)). cbn [negb andb obind is_ok svrc_eqb orb]. rewrite V2d, (vg_legacy _ _ _ _ _ _ G). cbn [orb].
  (* nothing to validate *)
  assert (MV : exists v3, maybe_validate C Ov (S f) v2 n = Def (v3, SV_OK) /\ (v3 = v2 \/ exists g, v3 = set_v_gs g v2 /\ gs_after g = false)).
  { unfold maybe_validate. cbv zeta. rewrite V2b, rev_app_distr. cbn [rev app]. unfold recurrent_decoded. rewrite V2a, (gd_has _ _ _ (vg_dec _ _ _ _ _ _ G)). cbn [orb obind].
    rewrite andb_true_r. destruct (feasible it2) eqn:EFE; cbn [negb].
    - unfold validate_loop. fold (validate_loop C Ov).
      assert (FS : Forall stream_item (v_items v2)).
      { rewrite V2b. apply Forall_app. split; [eapply its_stream, I|]. constructor; [|constructor].
        destruct CS as [(Q & _)|(y & _ & W & _)]; [left; exact Q|right; eexists; exact W]. }
      destruct (has_pending_none v2 V2e FS) as (g & -> & EG). cbn [negb orb]. eexists. split; [reflexivity|]. right. exists g. split; [reflexivity|exact EG].
    - rewrite V2f. eexists. split; [reflexivity|]. left. reflexivity. }
  destruct MV as (v3 & -> & V3). cbn [obind].
  assert (V3' : v_dec v3 = v_dec v /\ v_items v3 = v_items v ++ [it2] /\ gs_after (v_gs v3) = false /\ v_legacy v3 = v_legacy v /\ v_signing v3 = true /\
    v_codec v3 = v_codec v /\ v_report v3 = v_report v /\ v_buddies v3 = b /\ v_gop v3 = v_gop v /\ v_links v3 = v_links v /\
    v_computed v3 = v_computed v /\ v_hash v3 = v_hash v /\ a_auth (v_acc v3) = a_auth (v_acc v) /\ a_changed (v_acc v3) = a_changed (v_acc v) /\ v_result v3 = false /\ v_first v3 = v_first v /\ v_synced v3 = v_synced v).
  { assert (GA : gs_after (v_gs v2) = false) by (rewrite V2c; apply G).
    destruct V3 as [-> | (g & -> & EG)]; repeat split; assumption. }
  destruct V3' as (A1 & A2 & A3 & A4 & A5 & A6 & A7 & A8 & A9 & A10 & A11 & A12 & A13 & A14 & A15 & A16 & A17). clear V3.
  rewrite A4, (vg_legacy _ _ _ _ _ _ G), A1, A2, (gd_known _ _ _ (vg_dec _ _ _ _ _ _ G)).
  destruct PN as (P1 & P2 & P3 & P4 & P5 & P6 & P7).
  destruct (copy_last_ok true (v_items v) it2 n EN) as (m & EC & M1 & M2 & M3 & _); [rewrite P3; lia|rewrite P3; reflexivity|left; reflexivity|].
  rewrite EC. cbn [obind is_ok svrc_eqb negb].
  match goal with |- context [v_legacy ?y] => change (v_legacy y) with (v_legacy v3) end. rewrite A4, (vg_legacy _ _ _ _ _ _ G).
  match goal with |- context [v_result ?y] => change (v_result y) with (v_result v3) end. rewrite A15.
  eexists. split; [reflexivity|]. split.
  - destruct G. constructor; cbn; rewrite ?A1, ?A3, ?A4, ?A5, ?A6, ?A7, ?A9, ?A10, ?A11, ?A12, ?A13, ?A14, ?A16, ?A17; try assumption; try reflexivity.
    destruct RF as [RF1 RF2]. split; cbn; rewrite A8; assumption.
  - change (v_items (set_v_items ?l v3)) with l. apply its_snoc; [exact I|].
    destruct CS as [(Q & _ & B & F)|(y & B & W & X)].
    + left. split; [exact B|]. split; [exact F|]. apply calm_copy, Q.
    + right. exists y. split; [exact B|]. split; [exact (waits_copy _ _ _ _ W EN M1 M2 M3)|]. destruct (p_first p); exact X.
Qed.

Lemma pic_step b0 P v k prev x o ps p : vgood b0 P v k prev x -> its_h o ps (v_items v) (Some x) -> seen c p -> legal c p ->
  exists v' x', add_nalu C Ov (S f) v (p_data p) true = Def (v', VRes SV_OK None) /\ vgood b0 P v' k prev x' /\
    its_h o (ps ++ [p]) (v_items v') (Some x').
Proof.
  intros G I SN LG. destruct (pic_stepo b0 P v k prev (Some x) o ps p G I ltac:(discriminate) SN LG) as (v' & E & G' & I').
  assert (X : exists x', after p (Some x) = Some x') by (unfold after; destruct (p_bytes p); [destruct (p_first p)|]; eauto).
  destruct X as (x' & X). rewrite X in *. eauto.
Qed.

Lemma pics_step b0 P : forall b v k prev x o ps, vgood b0 P v k prev x -> its_h o ps (v_items v) (Some x) -> Forall (seen c) b -> Forall (legal c) b ->
  exists v' x' rs, vrun C Ov (S f) v (map sends (map Pic b)) = Def (v', rs) /\ vgood b0 P v' k prev x' /\
    its_h o (ps ++ b) (v_items v') (Some x') /\ rs = map (fun _ => VRes SV_OK None) b.
Proof.
  induction b as [|p b IH]; intros v k prev x o ps G I SN LG; cbn [map vrun].
  - exists v, x, []. rewrite app_nil_r. split; [reflexivity|]. split; [exact G|]. split; [exact I|reflexivity].
  - apply Forall_cons_iff in SN as [S1 SN]. apply Forall_cons_iff in LG as [L1 LG].
    destruct (pic_step b0 P v k prev x o ps p G I S1 L1) as (v1 & x1 & E1 & G1 & I1).
    destruct (IH v1 k prev x1 o (ps ++ [p]) G1 I1 SN LG) as (v2 & x2 & rs & E2 & G2 & I2 & R2).
    cbn [sends vexec]. rewrite E1. cbn [obind]. rewrite E2. cbn [obind]. rewrite <- app_assoc in I2.
    exists v2, x2, (VRes SV_OK None :: rs). split; [reflexivity|]. split; [exact G2|]. split; [exact I2|]. rewrite R2. reflexivity.
Qed.

End Step.

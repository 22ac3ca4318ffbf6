(** A validator that gets a golden SEI first: lemmas. *)
From Verif Require Import Base BaseProofs Epb EpbProofs Nalu NaluSpec NaluProofs Crypto Types Hash Tlv TlvProofs EncProofs CodecSpec CodecProofs
  SeiSpec SeiProofs GenProofs SessProofs Signer SignSpec GopSpec EosSpec GoldSpec StartSpec GopProofs GoldProofs VTypes NaluList Validator SeiHashProofs VListProofs VUnsigned
  E2eSpec DamageSpec LossSpec E2eDec E2eList E2eVal E2eAny E2eStep E2eSei E2eRaw E2eMain E2eSeg.
Local Open Scope N_scope.

Local Existing Instance zero_gop.
Section Gold.
Variable C : crypto.
Hypothesis HC : crypto_ok C.
Hypothesis HKW : keys_work C.
Variable Ov : ovf.
Variable c : codec.
Variable w : settings.
Variable hs : nat.
Hypothesis HO : c_oid C (w_oid w) = OidDigest hs.
Hypothesis HW0 : w_oid w <> [].
Hypothesis HWl : nlen (w_oid w) < 254.
Hypothesis HP0 : w_pub w <> [].
Hypothesis HPl : nlen (w_pub w) < 65535.
Hypothesis HPk : c_pub_ok C (w_pub w) = true.
Hypothesis HR5 : length (w_prod w) = 5%nat.
Hypothesis HRb : Forall (Forall (fun b => 0 < b < 256)) (w_prod w).
Hypothesis HMx : N.of_nat (w_max_sig w) + 5 < 65536.
Variable f : nat.

Let H := c_hash C (w_oid w).
Let Hhs : (0 < hs <= 64)%nat := hs_small C HC w hs HO.
Let HL : forall x, length (H x) = hs := H_len C HC w hs HO.
Notation gdec := (gdec w hs).
Notation its_h := (its (first_hash H hs) (other_hash H hs)).
Notation vraw := (vraw C c w hs).
Notation pre_dec := (pre_dec w hs).

(** ** Reading it *)
Definition gold_all (sig : list N) := recurrent_fields w ++ [(5, sig_value (w_max_sig w) sig)].

Lemma gold_opt d sig : pre_dec d -> d_has_pub d = false -> exists d', gdec d' /\ d_counter d' = d_counter d /\
  opt_fields_dec C d (gold_all sig) false = Def (d', true).
Proof.
  intros (A1 & HS & L1 & L2 & HCh & HT & HN & A8) HH. destruct A8 as [(HA & _)|(B1 & _)]; [|congruence].
  unfold gold_all, recurrent_fields. rewrite HA.
  cbn [app opt_fields_dec]. assert (always_present 2 = false) as -> by reflexivity.
  change (decode_tag C d 2) with (decode_public_key C d).
  rewrite (dec_public_key C w HWl HP0 HPl HPk HR5 HMx d) by (intros E; congruence). cbn [obind is_ok svrc_eqb].
  assert (always_present 3 = false) as -> by reflexivity.
  match goal with |- context [decode_tag C ?e 3] => set (d1 := e) end.
  destruct (dec_product C w HWl HPl HR5 HRb HMx d1) as [l EP]. change (decode_tag C d1 3) with (decode_product d1). rewrite EP. cbn [obind is_ok svrc_eqb].
  assert (always_present 7 = false) as -> by reflexivity.
  match goal with |- context [decode_tag C ?e 7] => set (d2 := e) end.
  destruct (dec_crypto C w hs HO HW0 HWl HPl HR5 HMx d2 HT) as (h' & H1 & H2 & H3 & EC). cbn [app] in EC.
  change (decode_tag C d2 7) with (decode_crypto C d2). rewrite EC. cbn [obind is_ok svrc_eqb].
  assert (always_present 5 = true) as -> by reflexivity.
  exists (set_d_vhs hs (set_d_algo_known true (set_d_handle h' d2))). split; [|split; reflexivity].
  constructor; try assumption; try reflexivity; cbn. rewrite H3. exact HN.
Qed.

Lemma gold_dec d sig : gdec d -> (length sig <= w_max_sig w)%nat -> exists d', gdec d' /\ d_counter d' = d_counter d /\
  decode_fields C d (gold_all sig) = Def (d', SV_OK) /\ d_sig d' = Some (padded (w_max_sig w) sig) /\ d_sig_size d' = nlen sig.
Proof.
  intros G LS. unfold gold_all, recurrent_fields.
  set (r1 := [(3, 1 :: flat_map prod_string (w_prod w)); (7, [1; nlen (w_oid w)] ++ w_oid w)]). set (r2 := [(5, sig_value (w_max_sig w) sig)]).
  assert (X : exists d1, gdec d1 /\ d_counter d1 = d_counter d /\ decode_fields C d (((if w_add_pub w then [(2, 2 :: w_pub w)] else []) ++ r1) ++ r2) = decode_fields C d1 (r1 ++ r2)).
  { destruct (w_add_pub w).
    - exists (set_d_vkey (Some (w_pub w)) (set_d_has_pub true (set_d_pub (w_pub w) d))). split; [|split; [reflexivity|]].
      + destruct G. constructor; try assumption; reflexivity.
      + rewrite <- !app_assoc. cbn [app]. apply dec_cons. exact (dec_public_key C w HWl HP0 HPl HPk HR5 HMx d (fun _ => gd_pub _ _ d G)).
    - exists d. split; [exact G|split; reflexivity]. }
  destruct X as (d1 & G1 & N1 & ->).
  destruct (dec_product C w HWl HPl HR5 HRb HMx d1) as [l EP]. unfold r1. cbn [app]. erewrite dec_cons by exact EP.
  match goal with |- context [decode_fields C ?e _] => set (d2 := e) end.
  assert (G2 : gdec d2) by (destruct G1; constructor; assumption || reflexivity).
  destruct (dec_crypto C w hs HO HW0 HWl HPl HR5 HMx d2) as (h' & H1 & H2 & H3 & EC); [rewrite (gd_type _ _ _ G2), (gd_oid _ _ _ G2); reflexivity|].
  cbn [app] in EC. erewrite dec_cons by exact EC.
  match goal with |- context [decode_fields C ?e _] => set (d3 := e) end.
  assert (G3 : gdec d3).
  { destruct G2. constructor; try assumption; try reflexivity. cbn. rewrite H3. assumption. }
  unfold r2. erewrite dec_cons by exact (dec_signature C w HWl HPl HR5 HMx d3 sig LS (gd_sig _ _ _ G3)).
  eexists. split; [|split; [|split; [reflexivity|split; reflexivity]]].
  - destruct G3. constructor; try assumption; try reflexivity. cbn. unfold padded. rewrite app_length, repeat_length. lia.
  - exact N1.
Qed.

Definition gold_nalu (n : nalu) (l : list N) : Prop :=
  n_gop_sei n = true /\ n_golden n = true /\ n_hashable n = true /\ n_valid n = 1%Z /\ n_first_in_gop n = false /\
  n_first_part n = true /\ n_last_part n = true /\ n_tlv_size n = nlen l /\ (exists r, n_tlv_mem n = l ++ r) /\ nlen l < 2 ^ 63.

Lemma gold_parse x y : golden_with C c w x -> delivered (w_epb w) x y -> few_escapes (w_epb w) (recurrent_fields w) (w_max_sig w) ->
  exists n n2 sig sp, parse_nalu y c true true = Def n /\ n_valid n = 1%Z /\ n_gop_sei n = true /\ n_golden n = true /\
    update_hashable n = Def n2 /\ hash_input n2 = Def sp /\ sp <> [] /\ gold_nalu n2 (wires (gold_all sig)) /\
    n_hashable n = true /\ sig <> [] /\ (length sig <= w_max_sig w)%nat /\ c_verify C (w_pub w) sig (H sp) = 1%Z /\
    Forall wire_ok (gold_all sig) /\ y <> [].
Proof.
  intros (sig & key & KP & HS) HD HF. destruct (parse_delivered C c x y _ _ _ _ _ _ _ HS HD) as (n & E & P).
  pose proof HS as (EX & HM & HLn & _ & HX & HB & HN & HSL & coin & HSg).
  assert (HX2 : N.of_nat (w_max_sig w) + 5 < 65536) by exact HX.
  destruct (sig_wire _ sig HSL HX2) as [W WL].
  destruct (update_signed c (w_epb w) true (recurrent_fields w) _ n _ _ HM W (sig_value_ok _ sig HB) (few_found _ _ _ _ HSL HX HF) P eq_refl)
    as (n2 & E2 & E3 & E4).
  destruct P as (P1 & P2 & P3 & P4 & P5 & P6 & P7 & P8 & P9 & P10 & P11 & P12 & P13 & P14 & P15 & P16).
  exists n, n2, sig, (signed_part c (w_epb w) true (recurrent_fields w) (5, sig_value (w_max_sig w) sig)).
  repeat (split; [assumption|]).
  split; [unfold signed_part, sei_front; destruct c; discriminate|].
  split.
  { rewrite E4. unfold gold_nalu, gold_all. cbn [n_gop_sei n_golden n_hashable n_valid n_first_in_gop n_first_part n_last_part n_reserved n_tlv_size n_tlv_mem].
    repeat (split; [assumption|]). change (2 ^ 20) with 1048576 in HLn. change (2 ^ 63) with 9223372036854775808.
    rewrite wires_app, nlen_app'. unfold wires at 2. cbn [flat_map]. rewrite app_nil_r, WL. lia. }
  repeat (split; [assumption|]). destruct (HKW _ _ _ KP) as [_ V]. split; [exact (V _ _ _ HSg)|].
  split; [apply Forall_app; split; [apply HM|constructor; [exact W|constructor]]|].
  destruct HD as [->|[_ ->]]; rewrite EX; unfold sei; destruct c; discriminate.
Qed.

(** No SEI is found to be lost: the counter has not been read. *)
Lemma detect_start v : d_counter (v_dec v) = 0 -> v_gop v = 0 -> detect_lost Ov v = Def (on_gs (set_gs_lost false) v).
Proof. intros E1 E2. unfold detect_lost. rewrite E1, E2. destruct Ov; reflexivity. Qed.


(** NALUs that are not hashed do not matter. *)
Lemma next_calm l it : Forall calm l -> item_sei it = true -> pending it = true -> next_sei (l ++ [it]) = Some it.
Proof.
  intros Q E1 E2. unfold next_sei. induction Q as [|x l Q F IH]; cbn [app find]; [rewrite E1, E2; reflexivity|].
  rewrite (calm_pending _ Q), andb_false_r. exact IH.
Qed.
Lemma gop_calm l : Forall calm l -> forall n h r h2 r2, gop_loop n h 0 0 r = Def (h2, r2, SV_OK) -> gop_loop n h 0 0 (l ++ r) = Def (h2, l ++ r2, SV_OK).
Proof.
  induction 1 as [|x l Q F IH]; intros n h r h2 r2 E; cbn [app gop_loop]; [exact E|]. rewrite (calm_pending _ Q). cbn [negb].
  rewrite (IH n h r h2 r2 E). reflexivity.
Qed.
Lemma recurrent_calm l : Forall calm l -> forall d r, recurrent_loop C d (l ++ r) = recurrent_loop C d r.
Proof.
  induction 1 as [|x l Q F IH]; intros d r; cbn [app recurrent_loop]; [reflexivity|]. rewrite (calm_pending _ Q), IH.
  destruct (i_nalu x) as [n|]; [rewrite andb_false_r|]; reflexivity.
Qed.
Lemma clean_calm l it : Forall calm l -> pending it = false -> fst (clean_up (l ++ [it])) = [].
Proof.
  intros Q E. induction Q as [|x l Q F IH]; cbn [app clean_up]; [rewrite E; reflexivity|]. rewrite (calm_pending _ Q). destruct (clean_up (l ++ [it])). exact IH.
Qed.
Lemma str_calm l : Forall calm l -> length (validation_str l) = length l /\ Forall (fun x => In x [46; 95; 85]) (validation_str l).
Proof.
  intros Q. split; [apply map_length|]. unfold validation_str. apply Forall_map. eapply Forall_impl; [|exact Q]. intros x (_ & _ & X). cbn in X.
  destruct X as [<-|[<-|[<-|[]]]]; cbn; auto.
Qed.

(** The validator, after the NALU [n2] of the golden SEI was decoded and hashed. *)
Lemma gold_prepare v l it n2 sig sp : Forall calm l -> gdec (v_dec v) -> d_counter (v_dec v) = 0 -> v_gop v = 0 -> length (v_hash v) = 64%nat -> length (v_computed v) = 64%nat ->
  v_signing v = true -> i_nalu it = Some n2 -> i_status it = SPend -> i_used it = false -> length (i_hash it) = 64%nat ->
  gold_nalu n2 (wires (gold_all sig)) -> hash_input n2 = Def sp -> sp <> [] -> Forall wire_ok (gold_all sig) ->
  sig <> [] -> (length sig <= w_max_sig w)%nat -> c_verify C (w_pub w) sig (H sp) = 1%Z ->
  exists u it2, prepare_golden C Ov v l it = Def (u, SV_OK) /\ keeps v u /\ gdec (v_dec u) /\ v_items u = l ++ [it2] /\ v_verified u = 1%Z /\
    i_nalu it2 = Some n2 /\ i_status it2 = SPend /\ i_used it2 = false /\ length (i_hash it2) = 64%nat /\ gs_after (v_gs u) = gs_after (v_gs v) /\
    length (v_computed u) = 64%nat /\ length (v_hash u) = 64%nat /\ v_links u = v_links v /\ v_first u = v_first v /\ v_latest u = v_latest v /\ v_gop u = v_gop v /\ v_first_sei u = v_first_sei v /\ v_synced u = v_synced v.
Proof.
  intros QC G EC EG LH LC ES EN ST EU LI (S1 & S2 & S3 & S4 & S5 & S6 & S7 & S8 & (r & S9) & S10) HI SP WO HS0 HSl HV.
  destruct (gold_dec (v_dec v) sig G HSl) as (d & GD & DC & DF & D1 & D2).
  unfold prepare_golden. rewrite EN. unfold decode_sei.
  rewrite S8, S9, (decode_wires C (v_dec v) _ r (d, SV_OK)); [|intros X; apply app_eq_nil in X as [_ X]; discriminate|exact WO|exact DF].
  cbn [obind is_ok svrc_eqb negb].
  rewrite detect_start by (cbn; congruence). cbn [obind]. cbn [on_gs set_v_gs set_gs_lost v_gs gs_lost]. rewrite andb_false_r. cbn [is_ok svrc_eqb negb].
  match goal with |- context [hash_item C ?y _] => set (v1 := y) end.
  destruct (sei_hashed C HC w hs HO HWl HPl HR5 HMx v1 (set_i_decoded true it) n2 sp GD EN HI SP LI S3 S1 S6 S7 S5) as (h & EH & H1 & H2). rewrite EH. cbn [obind is_ok svrc_eqb negb].
  set (it2 := set_i_hash h (set_i_decoded true it)).
  unfold vhs. change (d_vhs (v_dec (set_v_items (l ++ [it2]) v1))) with (d_vhs d). rewrite (gd_vhs _ _ _ GD).
  rewrite (read_firstn hs (i_hash it2) (H sp) H2 (HL _)). cbn [obind].
  match goal with |- context [put_at 0 ?h (H sp)] => change h with (v_hash v) end.
  destruct (firstn_put (v_hash v) (H sp) hs (HL _)) as (y & Y1 & Y2 & Y3); [lia|]. rewrite Y1. cbn [obind].
  match goal with |- context [prepare C Ov ?y] => set (v2 := y) end.
  unfold prepare. cbv zeta. unfold vhs at 1. change (v_items v2) with (l ++ [it2]).
  rewrite (next_calm l it2 QC); [|unfold item_sei; change (i_nalu it2) with (i_nalu it); rewrite EN; exact S1|unfold pending; change (i_status it2) with (i_status it); rewrite ST; reflexivity].
  change (i_nalu it2) with (i_nalu it). rewrite EN.
  change (i_decoded it2) with true. cbn [obind is_ok svrc_eqb negb].
  rewrite detect_start by (cbn; congruence). cbn [obind].
  match goal with |- context [prepare_gop C ?x] => set (v3 := x) end.
  assert (D : v_dec v3 = d) by reflexivity.
  unfold prepare_gop. unfold vhs. rewrite D, (gd_vhs _ _ _ GD), (init_ctx _ _ (gd_prim _ _ _ GD) (gd_type _ _ _ GD)).
  change (v_items v3) with (l ++ [it2]).
  match goal with |- context [gop_loop ?a ?b 0 0 _] => assert (GL : gop_loop a b 0 0 [it2] = Def (b, [it2], SV_OK)) end.
  { cbn [gop_loop]. unfold pending. change (i_nalu it2) with (i_nalu it). change (i_status it2) with (i_status it).
    rewrite EN, ST, S5, S1. reflexivity. }
  rewrite (gop_calm l QC _ _ _ _ _ GL).
  cbn [obind is_ok svrc_eqb negb]. unfold finalize_hash. cbn [get_ctx ctx_with h_prim x_final x_oid x_data]. cbn [is_ok svrc_eqb negb].
  match goal with |- context [put_at 0 (v_computed ?x) _] => change (v_computed x) with (v_computed v) end.
  change (c_hash C (w_oid w)) with H.
  destruct (firstn_put (v_computed v) (H []) hs (HL _)) as (z & Z1 & Z2 & Z3); [lia|].
  rewrite Z1. cbn [obind is_ok svrc_eqb negb].
  match goal with |- context [v_signing ?x && _] => set (v4 := x) end.
  assert (G4 : gdec (v_dec v4)).
  { destruct GD. constructor; try assumption. reflexivity. }
  rewrite (gd_has _ _ _ G4), andb_false_r.
  change (gs_sei (v_gs v4)) with true. cbn iota.
  unfold verify_hash. change (d_sig (v_dec v4)) with (d_sig d). change (d_vkey (v_dec v4)) with (d_vkey d).
  change (d_sig_size (v_dec v4)) with (d_sig_size d). rewrite D1, (gd_vkey _ _ _ GD), D2.
  destruct (N.eqb_spec (nlen sig) 0) as [E|_]; [destruct sig; [congruence|discriminate E]|].
  assert (EP : firstn (N.to_nat (nlen sig)) (padded (w_max_sig w) sig) = sig).
  { unfold padded, nlen. rewrite Nat2N.id. apply firstn_app_len. reflexivity. }
  unfold vhs. rewrite EP, (gd_vhs _ _ _ G4). change (v_hash v4) with y. rewrite Y2, HV.
  eexists _, it2. split; [reflexivity|]. split; [repeat split|]. split; [exact G4|]. split; [reflexivity|]. split; [reflexivity|].
  split; [exact EN|]. split; [exact ST|]. split; [exact EU|]. split; [exact H1|]. split; [reflexivity|]. split; [exact (eq_trans Z3 LC)|]. split; [exact (eq_trans Y3 LH)|]. repeat split.
Qed.


(** A new session, given a golden SEI. *)
Lemma gold_step v z y : vraw v -> Forall calm (v_items v) -> d_counter (v_dec v) = 0 -> golden_with C c w z -> delivered (w_epb w) z y ->
  few_escapes (w_epb w) (recurrent_fields w) (w_max_sig w) ->
  exists v' q, add_nalu C Ov (S f) v y true = Def (v', VRes SV_OK (Some q)) /\ greets (length (v_items v)) q /\ (forall k, k = 0 \/ Ov <> OvfUndef -> vgoodo C Ov c w hs true True v' k None None) /\ v_items v' = [].
Proof.
  intros G0 EI EC0 GW HD HF.
  destruct (gold_parse z y GW HD HF) as (n & n2 & sig & sp & E1 & E2 & E3 & E4 & E5 & E6 & E7 & E8 & E9 & E10 & E11 & E12 & E13 & E14).
  unfold add_nalu. destruct y as [|d0 dr] eqn:ED; [congruence|]. rewrite <- ED in *. clear ED d0 dr.
  assert (EC : d_counter (v_dec (create_report (set_v_started true v))) = 0).
  { unfold create_report. destruct (v_report (set_v_started true v)); exact EC0. }
  cbv zeta. destruct (started C c w hs v G0) as (G & R1 & I1). rewrite <- I1 in EI |- *. set (vs := create_report (set_v_started true v)) in *. clearbody vs. clear G0 EC0 I1 v.
  rewrite (vr_legacy _ _ _ _ _ G). unfold add_h26x. rewrite (vr_codec _ _ _ _ _ G), E1. cbn [obind]. unfold add_body. cbv zeta.
  rewrite E2. change (1 <? 0)%Z with false. cbn iota. rewrite E3, orb_true_r, andb_true_r.
  match goal with |- context [register C ?y n] => set (v1 := y) end.
  destruct (vr_dec _ _ _ _ _ G) as (AK & DR). pose proof E8 as (S1 & S2 & S3 & S4 & S5 & S6 & S7 & S8 & (rr & S9) & S10).
  unfold register. rewrite E2. change (1 =? 0)%Z with false. cbn iota. rewrite E5. cbn [obind].
  set (it := set_i_nalu (Some n2) (item_create n)).
  assert (EHI : hash_item C v1 it = Def (v1, it, SV_OK)).
  { unfold hash_item. cbn [it i_nalu set_i_nalu]. change (v_dec v1) with (v_dec vs). rewrite AK. cbn [negb]. rewrite orb_true_r. reflexivity. }
  rewrite EHI. cbn [obind is_ok svrc_eqb negb].
  change (v_items (on_acc _ (set_v_result false vs))) with (v_items vs). set (l := v_items vs) in *.
  set (v2 := set_v_items (l ++ [it]) v1).
  change (v_dec v2) with (v_dec vs) at 1. rewrite AK. change (v_signing v2) with true. cbn [negb andb].
  assert (ST : i_status it = SPend) by (cbn; unfold status_of; rewrite E2, E9; reflexivity).
  assert (RD : exists d, recurrent_decoded C v2 = Def (set_v_dec d v2, true) /\ gdec (set_d_algo_known true d) /\ d_counter d = 0).
  { unfold recurrent_decoded. change (v_signing v2) with true. cbn [negb]. rewrite orb_false_r. change (v_dec v2) with (v_dec vs).
    destruct (d_has_pub (v_dec vs)) eqn:EH.
    - exists (v_dec vs). split; [reflexivity|]. split; [|exact EC]. destruct DR as (A2 & A3 & A4 & A5 & A6 & A7 & [(B1 & B2)|(B1 & B2 & B3 & B4 & B5)]); [congruence|].
      constructor; cbn; try assumption; try congruence; try reflexivity.
    - destruct (gold_opt (v_dec vs) sig (vr_dec _ _ _ _ _ G) EH) as (d & D1 & D2 & D3).
      change (v_items v2) with (l ++ [it]). rewrite (recurrent_calm l EI). cbn [recurrent_loop]. change (i_nalu it) with (Some n2). cbn iota. rewrite S1. unfold pending. rewrite ST. cbn [vstat_eqb andb].
      rewrite S8, S9, (dec_optional C w hs HWl HPl HR5 HMx _ _ rr (d, true)).
      + cbn [obind]. exists d. split; [reflexivity|]. split; [destruct D1; constructor; assumption || reflexivity|congruence].
      + intros X; apply app_eq_nil in X as [_ X]; discriminate.
      + exact E13.
      + unfold gold_all, recurrent_fields. apply Forall_app. split; [|apply Forall_cons; [cbn; lia|apply Forall_nil]]. apply Forall_app. split.
        * destruct (w_add_pub w); [apply Forall_cons; [cbn; lia|]|]; apply Forall_nil.
        * repeat (apply Forall_cons; [cbn; lia|]). apply Forall_nil.
      + exact D3. }
  destruct RD as (d & RD & GD & DC). rewrite RD. cbn [obind negb]. rewrite E4.
  set (v3 := on_dec (set_d_algo_known true) (set_v_dec d v2)).
  destruct (gold_prepare v3 l it n2 sig sp EI GD DC (vr_gop _ _ _ _ _ G) (vr_hash _ _ _ _ _ G) (vr_computed _ _ _ _ _ G) eq_refl eq_refl ST eq_refl eq_refl E8 E6 E7 E13 E10 E11 E12)
    as (u & it2 & PG & (K1 & K2 & K3 & K4 & K5 & K6 & K7) & GU & UI & UV & N1 & N2 & N3 & N4 & N5 & N6 & N7 & N8 & N9 & N10 & N11 & N12 & N13).
  rewrite PG. cbn [obind is_ok svrc_eqb negb andb]. rewrite andb_false_r.
  destruct (vr_items _ _ _ _ _ G) as (_ & _ & F3 & _).
  unfold reregister. rewrite UI. destruct (rehash_calm C l EI F3 u SV_UNKNOWN_FAILURE [it2]) as (st2 & RH). rewrite RH. cbn [rehash]. rewrite N1, S4. change (1 <=? 0)%Z with false. cbn iota.
  destruct (sei_hashed C HC w hs HO HWl HPl HR5 HMx u it2 n2 sp GU N1 E6 E7 N4 S3 S1 S6 S7 S5) as (h & EH & H1 & H2). rewrite EH. cbn [obind is_ok svrc_eqb negb orb].
  set (it3 := set_i_hash h it2). set (u2 := set_v_items (l ++ [it3]) u).
  change (v_legacy u2) with (v_legacy u). rewrite K2. change (v_legacy v3) with (v_legacy vs). rewrite (vr_legacy _ _ _ _ _ G). cbn [orb].
  unfold maybe_validate. cbv zeta. change (v_items u2) with (l ++ [it3]). rewrite rev_app_distr. cbn [rev app].
  assert (EF : feasible it3 = false) by (unfold feasible; change (i_nalu it3) with (i_nalu it2); rewrite N1, S2; reflexivity).
  rewrite EF. unfold recurrent_decoded. change (v_dec u2) with (v_dec u). rewrite (gd_has _ _ _ GU). cbn [orb obind andb negb].
  change (v_first_sei u2) with (v_first_sei u). rewrite N12. change (v_first_sei v3) with (negb (v_signing vs)). rewrite (vr_signing _ _ _ _ _ G). cbn [negb]. rewrite E4.
  change (v_verified u2) with (v_verified u). rewrite UV. change (1 =? 1)%Z with true. cbn iota.
  match goal with |- context [Def (?y, SV_OK)] => set (u3 := y) end.
  cbn [obind].
  set (it4 := set_i_status SValid it3).
  assert (U3 : v_items u3 = l ++ [it4]).
  { change (v_items u3) with (mark_last SValid (l ++ [it3])). unfold mark_last. rewrite rev_app_distr. cbn [rev app]. rewrite rev_involutive. reflexivity. }
  change (v_legacy u3) with (v_legacy u). rewrite K2. change (v_legacy v3) with (v_legacy vs). rewrite (vr_legacy _ _ _ _ _ G).
  change (d_algo_known (v_dec u3)) with (d_algo_known (v_dec u)). rewrite (gd_known _ _ _ GU), U3.
  destruct (copy_sei l it4 n2 N1) as (m & ECp & M1 & M2 & M3 & M4 & M5 & M6 & M7); [rewrite S8, S9, nlen_app'; lia|rewrite S8; exact S10|].
  rewrite ECp. cbn [obind is_ok svrc_eqb negb].
  set (it5 := set_i_nalu (Some m) it4). set (u4 := set_v_items (l ++ [it5]) u3).
  change (v_legacy u4) with (v_legacy u). rewrite K2. change (v_legacy v3) with (v_legacy vs). rewrite (vr_legacy _ _ _ _ _ G).
  change (v_result u4) with true. cbn iota.
  unfold update_report. cbv zeta. cbn [compare_versions].
  match goal with |- context [clean_up (v_items ?y)] => change (v_items y) with (l ++ [it5]); set (u5 := y) end.
  pose proof (clean_calm l it5 EI eq_refl) as CL. destruct (clean_up (l ++ [it5])) as [l2 kk]. cbn [fst] in CL. subst l2.
  set (acc := accumulate (v_latest u5) (v_dec u5) (v_acc u5)).
  assert (AC : a_auth (v_acc u5) = NotSigned).
  { change (v_acc u5) with (v_acc u). rewrite K7. exact (vr_acc _ _ _ _ _ G). }
  assert (AL : l_auth (v_latest u5) = SigPresent) by reflexivity.
  assert (B1 : a_auth acc = SigPresent).
  { unfold acc, accumulate. cbn [a_auth]. rewrite AC, AL. reflexivity. }
  assert (B2 : a_changed acc = false).
  { unfold acc, accumulate. cbn [a_changed]. change (v_dec u5) with (v_dec u). rewrite (gd_changed _ _ _ GU). change (v_acc u5) with (v_acc u). rewrite K7.
    match goal with |- context [a_changed ?y] => change (a_changed y) with (a_changed (v_acc vs)) end. rewrite (vr_changed _ _ _ _ _ G). reflexivity. }
  rewrite B1. unfold get_report. cbn [v_report set_v_acc set_v_items]. change (v_report u5) with (v_report u). rewrite K3. change (v_report v3) with (v_report vs). rewrite R1. cbn [negb].
  eexists _, _. split; [reflexivity|]. split; [|split; [|reflexivity]].
  - split; [reflexivity|]. split; [exact B1|]. split; [exact (gd_changed _ _ _ GU)|]. destruct (str_calm l EI) as [SL1 SL2].
    exists (validation_str l). split; [|split; assumption]. change (validation_str (l ++ [it5]) = validation_str l ++ [46]). unfold validation_str. rewrite map_app. reflexivity.
  - intros k HK. constructor; cbn.
    + rewrite K1. exact (vr_codec _ _ _ _ _ G).
    + destruct GU. constructor; assumption.
    + rewrite K2. exact (vr_legacy _ _ _ _ _ G).
    + rewrite K3. exact R1.
    + rewrite K4. reflexivity.
    + change (gs_after (v_gs u) = false). rewrite N5. exact (vr_after _ _ _ _ _ G).
    + split; [|exact I]. change (length (v_buddies u) = 128%nat). rewrite K5. exact (vr_refs _ _ _ _ _ G).
    + destruct HK as [->|HK]; [left; change (v_gop u = 0); rewrite N11; exact (vr_gop _ _ _ _ _ G)|]. right. split; [|left; exact HK]. change (v_synced u = false). rewrite N13. exact (vr_synced _ _ _ _ _ G).
    + change (links_ok C w hs (v_links u) None). rewrite N8. exact (vr_links _ _ _ _ _ G).
    + exact N6.
    + exact N7.
    + intros _. right. left. symmetry. exact B1.
    + change (v_first u = true). rewrite N9. exact (vr_first _ _ _ _ _ G).
    + exact B2.
Qed.

End Gold.

(** A session that makes a golden SEI. *)
From Verif Require Import Base BaseProofs Epb EpbProofs Nalu NaluSpec NaluProofs Crypto Types Hash Tlv
  TlvProofs EncProofs CodecSpec CodecProofs SeiSpec SeiProofs Signer GenProofs SignerProofs SessProofs SignSpec
  StepProofs RunProofs DrainProofs GopSpec EosSpec GoldSpec GopProofs.
Local Open Scope N_scope.

Section Gold.
Variable C : crypto.
Hypothesis HC : crypto_ok C.

Lemma gold_start c w s s' rs : base C c w 1 0 0 [] s -> startg (zeros 64) s -> run C [OGolden; OGet true []] s = Def (s', rs) ->
  Forall (fun r => rs_code r = SV_OK) rs ->
  exists y, returned rs = [y] /\ golden_with C c w y /\ base C c (framed w) 1 0 0 [] s' /\ startg (zeros 64) s'.
Proof.
  intros B M E OK. pose proof B as [B1 B2 B3 B4 [key B5] B6 B7 B8 B9 B10 B11 BF B12].
  destruct M as (M1 & M2 & M3 & M4 & M5 & M6).
  cbn [run exec] in E. unfold golden_sei in E. cbv zeta in E.
  set (s1 := on_cfg (set_sc_frame true) _) in E. unfold prepare in E. change (sc_key (s_cfg s1)) with (sc_key (s_cfg s)) in E. rewrite B5 in E. cbv zeta in E.
  set (s2 := on_run (set_r_started true) s1) in E.
  change (r_done (s_run s2)) with (r_done (s_run s)) in E. rewrite B2 in E.
  cbn [Nat.ltb Nat.leb] in E. rewrite andb_false_r in E. cbn [is_ok svrc_eqb negb] in E.
  assert (HS2 : sgood C s2 []).
  { destruct B1. constructor; try assumption. destruct sg_g; constructor; try assumption. destruct gg_enc; constructor; assumption. }
  assert (AG2 : agrees C c (framed w) s2) by (destruct w; destruct B4; constructor; try assumption; reflexivity).
  assert (WF : w_pub (framed w) = w_pub w /\ w_epb (framed w) = w_epb w /\ w_max_sig (framed w) = w_max_sig w /\ w_oid (framed w) = w_oid w /\ recurrent_fields (framed w) = recurrent_fields w /\ w_rec (framed w) = w_rec w)
    by (destruct w; repeat split; reflexivity).
  destruct WF as (W1 & W2 & W3 & W4 & W5 & W6).
  assert (HK2 : sc_key (s_cfg s2) = Some key) by exact B5.
  pose proof (generate_spec C HC s2 [] key HS2 HK2) as GS.
  assert (EM : meta_fields s2 = recurrent_fields w).
  { unfold meta_fields, opt_fields, mand_fields. change (r_golden (s_run s2)) with true. change (r_recurrent (s_run s2)) with true. cbn [negb]. rewrite andb_false_r, app_nil_r.
    rewrite <- W5. apply (recurrent_eq C c (framed w) s2 (sent_gop s2) AG2); [apply HS2|congruence|]. unfold sent_gop. destruct (too_big s2); reflexivity. }
  destruct (generate_sei C s2) as [[[s3 st2] p]|u]; [|discriminate]. cbn [obind holds] in GS, E.
  destruct GS as [(E1 & _)|(E1 & E2 & E3 & [(-> & sig & lt & E4 & E5 & E6)|(E4 & E5 & E6 & E7)])].
  - discriminate.
  - cbn [is_ok svrc_eqb obind negb] in E. cbv zeta in E4, E5. set (q := new_gen s2 key sig lt) in *.
    destruct (add_payload_good C s2 [] s3 key sig lt HS2 E1 HK2 E2 E3 E5 E6) as [A1 A2]. fold q in A1, A2.
    subst p. rewrite A1 in *. cbn [app fst snd] in A2, E.
    destruct E3 as (G1 & G2 & G3 & G4 & G5 & G6 & G7 & G8 & G9 & G10).
    change (r_golden (s_run s2)) with true in G2. cbn iota in G2.
    assert (G11 : h_type (k_handle (g_h (s_gop s3))) = h_type (k_handle (g_h (s_gop s2)))).
    { destruct (gg_h _ _ _ G1) as [<- _]. destruct (gg_h _ _ _ (sg_g _ _ _ HS2)) as [<- _]. exact G10. }
    rewrite (ag_codec _ _ _ _ AG2) in *.
    set (s4 := on_run (set_r_golden false) _) in E.
    assert (HQ : q_epb q = w_epb w /\ q_golden q = true /\ q_max q = w_max_sig w /\ q_fs q = recurrent_fields w /\
      q_oid q = w_oid w /\ c_priv C (q_key q) = Some (w_pub w, w_max_sig w)).
    { unfold q. cbn [new_gen q_epb q_golden q_max q_fs q_oid q_key]. rewrite EM, <- W2, <- W3, <- W4, <- W1.
      split; [apply (ag_epb _ _ _ _ AG2)|]. split; [reflexivity|]. split; [apply (ag_ms _ _ _ _ AG2)|].
      split; [reflexivity|]. split; [exact (ag_oid _ _ _ _ AG2)|].
      pose proof (sg_key _ _ _ HS2) as KP. rewrite HK2 in KP. destruct KP as [KP _]. rewrite <- (ag_pub _ _ _ _ AG2), <- (ag_ms _ _ _ _ AG2). exact KP. }
    destruct HQ as (Q1 & Q2 & Q3 & Q4 & Q5 & Q6).
    assert (B' : base C c (framed w) 1 0 0 [q] s4).
    { clearbody q. constructor.
      - apply (sgood_frame C (on_run (fun r => set_r_slots (r_slots r ++ [unf_slot c q]) r) s3)); try reflexivity; [exact A2|].
        cbn. apply A2.
      - unfold s4. cbn. rewrite E6. exact B2.
      - reflexivity.
      - apply (agrees_same C c (framed w) s2 _ AG2); cbn; [exact E2|exact G11].
      - exists key. cbn. rewrite E2. exact B5.
      - congruence.
      - cbn. rewrite G2. exact B7.
      - exact G7.
      - cbn. rewrite E6. exact B9.
      - discriminate.
      - lia.
      - lia.
      - cbn. rewrite E6. exact B12. }
    destruct (get_sei s4 true []) as [[s5 r]|u] eqn:EG; [|discriminate]. cbn [obind] in E. injection E as <- <-.
    destruct (get_one C c (framed w) 1 0 0 q s4 s5 r B' EG) as (R1 & R2 & R3 & R4 & R5 & R6).
    exists (fin c q). split.
    + rewrite returned_nil by reflexivity. rewrite (returned_fin c q) by (rewrite <- ?R2; destruct r; cbn in *; subst; reflexivity). reflexivity.
    + split; [|split; [exact R3|]].
      * exists (q_sig q), (q_key q). split; [exact Q6|]. rewrite <- Q1, <- Q2, <- Q3, <- Q4, <- Q5. apply fin_signed. exact E5.
      * unfold startg. cbv zeta. rewrite R4, R6. split; [unfold s4; cbn; rewrite E6; exact M1|]. split; [exact G6|]. split; [exact G8|]. split; [exact G5|].
        split; [exact (eq_trans G3 M5)|exact (eq_trans G4 M6)].
  - exfalso. destruct (is_ok st2) eqn:ES; [apply is_ok_eq in ES; contradiction|]. cbn [negb obind fst snd] in E.
    match type of E with context [get_sei ?x true []] => destruct (get_sei x true []) as [[s4 r]|u]; [|discriminate] end. cbn [obind] in E. injection E as <- <-.
    apply Forall_cons_iff in OK as [OK _]. cbn [rs_code code] in OK. contradiction.
Qed.

Lemma setup_base c coin setup s0 a : Forall (op_ok C) setup -> Forall (fun o => is_setting o = true) setup ->
  Exists (fun o => exists pem, o = OKey pem) setup -> run C setup (create c coin) = Def (s0, a) -> Forall (fun r => rs_code r = SV_OK) a ->
  base C c (fold_left (ask C) setup defaults) 1 0 0 [] s0 /\ startg (zeros 64) s0 /\ returned a = [].
Proof.
  intros HO HI HK E0 O0.
  destruct (pre_run C HC c setup defaults _ _ _ (pre_create C HC c coin) HO HI E0 O0) as [P R0].
  pose proof (key_kept C HC setup defaults (or_intror HK) HO c _ _ _ (pre_create C HC c coin) HI E0 O0) as HW. set (w := fold_left _ _ _) in *.
  destruct P as [P1 P2 P3 P4 P5 P6 P7]. destruct P7 as [[_ P7]|[P7 _]]; [contradiction|]. split; [|split; assumption].
  constructor; try assumption; try lia.
  - apply P1.
  - rewrite P4. reflexivity.
  - rewrite P4. reflexivity.
  - rewrite P5. reflexivity.
  - rewrite P4. reflexivity.
  - intros _. rewrite P4, due_same. reflexivity.
  - rewrite P4. reflexivity.
Qed.

Lemma gops_from gc c w k lo f before gs s0 s' rs : base C c w k lo f [] s0 -> startg gc s0 ->
  Forall (seen c) (before ++ concat gs) -> Forall (fun p => p_first p = false /\ p_bytes p = None) before -> Forall is_gop gs ->
  run C (flat_map feed (before ++ concat gs)) s0 = Def (s', rs) -> Forall (fun r => rs_code r = SV_OK) rs ->
  Forall2 (sei_with C c w) (gops_fields C w k lo (f + frames before) None gs) (returned rs).
Proof.
  intros B P3 HS HB HG E1 O1. apply Forall_app in HS as [HS1 HS2].
  rewrite flat_map_app, run_app in E1.
  destruct (run C (flat_map feed before) s0) as [[s2 d]|u] eqn:E2; [|discriminate]. cbn [obind] in E1.
  destruct (run C (flat_map feed (concat gs)) s2) as [[s3 e]|u] eqn:E3; [|discriminate]. cbn [obind] in E1.
  injection E1 as <- <-. apply Forall_app in O1 as [O1 O2].
  destruct (run_before C _ c w k lo before _ _ _ _ B P3 HS1 HB E2 O1) as (K1 & K2 & K3).
  rewrite returned_app, K1. cbn [app].
  destruct gs as [|g gs].
  - cbn in E3. injection E3 as <- <-. constructor.
  - apply Forall_cons_iff in HG as [(p & r & -> & G1 & G2 & G3) HG].
    cbn [concat] in E3, HS2. apply Forall_app in HS2 as [HS2 HS3]. apply Forall_cons_iff in HS2 as [HSP HSR].
    cbn [app] in E3. destruct (run_cons_feed C _ _ _ _ _ E3 O2) as (s4 & x & y & E4 & E5 & -> & O3 & O4).
    destruct (p_bytes p) as [bs|] eqn:PB; [|contradiction].
    destruct (step_first C HC _ c w k lo _ s2 p bs s4 x K2 K3 HSP (feed_data C _ _ _ _ E4 O3) G1 PB E4 O3) as (L1 & L2 & L3).
    rewrite returned_app, L1. cbn [app].
    destruct (run_gops C HC c w gs k lo (f + frames before) None (firstn (oid_size C (w_oid w)) gc) p r bs s4 s3 y) as [R1 R2]; assumption.
Qed.

(** The golden SEI of a session made for it. *)
Lemma golden_made c coin setup rs : makes_golden C c coin setup rs ->
  exists z, returned rs = [z] /\ golden_with C c (fold_left (ask C) setup defaults) z.
Proof.
  intros (HO & HI & HK & (s & E) & OK). rewrite run_app in E.
  destruct (run C setup (create c coin)) as [[s0 a]|u] eqn:E0; [|discriminate]. cbn [obind] in E.
  destruct (run C [OGolden; OGet true []] s0) as [[s1 b]|u] eqn:E1; [|discriminate]. cbn [obind] in E.
  injection E as <- <-. apply Forall_app in OK as [O0 O1].
  destruct (setup_base c coin setup s0 a HO HI HK E0 O0) as (B & S & R0).
  destruct (gold_start c _ s0 s1 b B S E1 O1) as (y & R & Y & _). exists y. rewrite returned_app, R0, R. auto.
Qed.

(** A session that starts with one. *)
Lemma golden_session c coin setup before gs rs : signs_golden C c coin setup before gs rs ->
  let w := fold_left (ask C) setup defaults in
  exists z xs, returned rs = z :: xs /\ golden_with C c w z /\
    Forall2 (sei_with C c (framed w)) (gops_fields C (framed w) 1 0 (frames before) None gs) xs.
Proof.
  intros (HO & HI & HK & HS & HB & HG & (s & E) & OK) w. rewrite run_app in E.
  destruct (run C setup (create c coin)) as [[s0 a]|u] eqn:E0; [|discriminate]. cbn [obind] in E.
  rewrite run_app in E. destruct (run C [OGolden; OGet true []] s0) as [[s1 b]|u] eqn:E1; [|discriminate]. cbn [obind] in E.
  destruct (run C (flat_map feed (before ++ concat gs)) s1) as [[s2 d]|u] eqn:E2; [|discriminate]. cbn [obind] in E.
  injection E as <- <-. apply Forall_app in OK as [O0 O1]. apply Forall_app in O1 as [O1 O2].
  destruct (setup_base c coin setup s0 a HO HI HK E0 O0) as (B & S & R0). fold w in B.
  destruct (gold_start c w s0 s1 b B S E1 O1) as (y & R & Y & B2 & S2).
  exists y, (returned d). rewrite !returned_app, R0, R. split; [reflexivity|]. split; [exact Y|].
  exact (gops_from _ c (framed w) 1 0 0 before gs s1 s2 d B2 S2 HS HB HG E2 O2).
Qed.

End Gold.

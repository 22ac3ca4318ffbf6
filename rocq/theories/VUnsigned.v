(** Sessions without Signed Video SEIs: lemmas. *)
From Verif Require Import Base BaseProofs Epb Nalu Crypto Types Hash Tlv TlvProofs SignerProofs VTypes NaluList Validator VListProofs
  VFrameProofs ValidSpec.
Local Open Scope N_scope.

(** What is read of a NALU that is no Signed Video SEI. *)
Lemma parse_unsigned d c n : d <> [] -> parse_nalu d c true true = Def n -> n_gop_sei n = false ->
  n_tlv_size n = 0 /\ n_golden n = false /\ (n_valid n = 0%Z \/ n_valid n = 1%Z).
Proof.
  intros HD. unfold parse_nalu. destruct d as [|d0 d]; [congruence|]. set (dd := d0 :: d). clearbody dd.
  destruct (start_code_len dd) as [sk|]; [|discriminate]. cbn [obind].
  destruct (parse_header c _) as [[[ty prim] valid]|]; [|discriminate]. cbn [obind].
  destruct (strip_trailing dd) as [tr|]; [|discriminate]. cbn [obind]. cbv zeta.
  assert (V : (if valid then 1 else 0)%Z = 0%Z \/ (if valid then 1 else 0)%Z = 1%Z) by (destruct valid; auto).
  destruct (negb (ntype_eqb ty TSei)); [intros E _; injection E as <-; auto|].
  destruct (skipn (header_len c) _) as [|ud p1]; [discriminate|]. destruct (ud =? 5); [|intros E _; injection E as <-; auto].
  destruct (get_payload_size p1) as [[[ps k] p2]|]; [|discriminate]. cbn [obind]. destruct (_ <? _)%nat; [discriminate|].
  unfold remove_epb. cbn [n_hashable n_gop_sei n_valid n_hash_mem]. destruct (bytes_eqb (firstn 16 p2) uuid_sv); cbn [negb orb andb].
  - destruct (_ <=? 0)%Z; [intros E G; injection E as <-; discriminate|].
    destruct (skipn _ _); [discriminate|]. cbv zeta. cbn [n_epb]. destruct (_ <=? 0)%Z; [intros E G; injection E as <-; discriminate|].
    destruct (read_bytes _ _ _ _) as [[[wo x] y]|]; [|discriminate]. cbn [obind].
    destruct (_ <? _)%nat; [discriminate|]. intros E. injection E as <-. destruct (_ <=? _); discriminate.
  - intros E _. injection E as <-. auto.
Qed.

Definition plain (it : item) : Prop :=
  item_sei it = false /\ i_used it = false /\ i_nalu it <> None /\ (i_status it = SPend \/ i_status it = SIgn \/ i_status it = SUnknown).

(** A session that has seen no Signed Video SEI. *)
Definition uns (v : valid) : Prop :=
  v_signing v = false /\ Forall plain (v_items v) /\ d_algo_known (v_dec v) = false /\ v_legacy v = false /\
  a_auth (v_acc v) = NotSigned /\ a_val (v_acc v) = 0 /\
  (v_report v = true -> l_auth (v_latest v) = NotSigned /\ Forall (fun s => s = 80 \/ s = 95 \/ s = 85) (l_vstr (v_latest v))).

Lemma plain_next l : Forall plain l -> next_sei l = None.
Proof.
  induction 1 as [|it l (H & _) _ IH]; [reflexivity|]. unfold next_sei in *. cbn [find]. rewrite H. exact IH.
Qed.
Lemma plain_link l : Forall plain l -> find_link l = Def None.
Proof. induction 1 as [|it l (_ & H & _) _ IH]; [reflexivity|]. cbn [find_link]. rewrite H, IH. reflexivity. Qed.
Lemma plain_pending l : Forall plain l -> forall s, g_has s = false -> g_has (fst (pending_loop false s l)) = false.
Proof.
  induction 1 as [|it l (H & _ & HN & _) _ IH]; intros s HS; [exact HS|]. cbn [pending_loop]. cbv zeta.
  unfold item_sei in H. destruct (i_nalu it) as [n|]; [|congruence]. rewrite H, HS, !andb_false_r, !orb_false_r.
  match goal with |- g_has (fst (if ?b then _ else _)) = _ => destruct b end.
  - destruct (pending it && n_hashable n); reflexivity.
  - apply IH. destruct (pending it && n_hashable n); reflexivity.
Qed.
Lemma plain_strings l : Forall plain l -> Forall (fun s => s = 80 \/ s = 95 \/ s = 85) (validation_str l).
Proof.
  induction 1 as [|it l (_ & _ & _ & H) _ IH]; constructor; auto. destruct H as [->|[->| ->]]; cbn; auto.
Qed.
Lemma plain_clean l : Forall plain l -> Forall plain (fst (clean_up l)).
Proof.
  induction 1 as [|it l P0 P IH]; cbn [clean_up]; [constructor|]. destruct (pending it); [constructor; assumption|].
  destruct (clean_up l). exact IH.
Qed.

Section Uns.
Variable C : crypto.
Variable Ov : ovf.

(** Everything of the session but the items, the result, the state of the GOP and the latest report. *)
Definition ur (v : valid) : dec * bool * bool * accum * bool * bool * codec * Z :=
  (v_dec v, v_signing v, v_report v, v_acc v, v_legacy v, v_started v, v_codec v, v_verified v).

Lemma has_pending_uns v : v_signing v = false -> Forall plain (v_items v) ->
  exists v' b, has_pending v = (v', b) /\ ur v' = ur v /\ v_items v' = v_items v /\ gs_sei (v_gs v') = false /\
    v_result v' = v_result v /\ v_latest v' = v_latest v.
Proof.
  intros HS HP. unfold has_pending. rewrite HS. pose proof (plain_pending _ HP (mkPg 0 false false None false) eq_refl) as G.
  destruct (pending_loop false _ (v_items v)) as [s found]. cbn [fst] in G. do 2 eexists. split; [reflexivity|]. cbn. auto.
Qed.

Lemma validate_loop_uns f v : v_signing v = false -> Forall plain (v_items v) ->
  exists v' , validate_loop C Ov (S f) v false = Def (v', SV_OK) /\
    v_items v' = v_items v /\ v_dec v' = v_dec v /\ v_signing v' = false /\ v_report v' = v_report v /\ v_acc v' = v_acc v /\
    v_legacy v' = v_legacy v /\ v_started v' = v_started v /\ v_codec v' = v_codec v /\
    ((v_result v' = v_result v /\ v_latest v' = v_latest v) \/ (l_auth (v_latest v') = NotSigned /\ v_result v' = true)).
Proof.
  intros HS HP. cbn [validate_loop]. destruct (has_pending_uns v HS HP) as (v1 & b & -> & E & EI & EG & ER & EL).
  unfold ur in E. injection E as U1 U2 U3 U4 U5 U6 U7 U8.
  destruct b; cbn [negb orb].
  2:{ exists v1. repeat split; auto; congruence. }
  cbv zeta. set (v2 := if v_result v1 then v1 else _).
  assert (K : ur v2 = ur v /\ v_items v2 = v_items v /\ gs_sei (v_gs v2) = false).
  { unfold v2, ur. destruct (v_result v1); cbn; rewrite U1, U2, U3, U4, U5, U6, U7, U8, EI; auto. }
  destruct K as (K1 & K2 & K3). clearbody v2. unfold ur in K1. injection K1 as W1 W2 W3 W4 W5 W6 W7 W8.
  assert (EP : prepare C Ov v2 = Def (v2, SV_OK)).
  { unfold prepare. rewrite K2, (plain_next _ HP). cbn [obind is_ok negb]. rewrite W2, HS. cbn [andb]. rewrite K3. reflexivity. }
  rewrite EP. cbn [obind is_ok negb].
  assert (EU : update_link v2 = Def v2) by (unfold update_link; rewrite K2, (plain_link _ HP); reflexivity).
  rewrite EU. cbn [obind]. rewrite W2, HS. cbn [obind]. set (v3 := on_latest _ _).
  assert (K4 : v_signing v3 = false) by (unfold v3; cbn; congruence).
  assert (K5 : v_items v3 = v_items v) by (unfold v3; cbn; exact K2).
  assert (K6 : ur v3 = (v_dec v, false, v_report v, v_acc v, v_legacy v, v_started v, v_codec v, (-1)%Z)).
  { unfold ur, v3. cbn. congruence. }
  assert (K7 : l_auth (v_latest v3) = NotSigned /\ v_result v3 = true) by (split; reflexivity). clearbody v3.
  destruct (has_pending_uns v3 K4 ltac:(rewrite K5; exact HP)) as (v4 & b & EH & E & EI4 & EG4 & ER4 & EL4).
  replace (v_signing (on_latest (set_l_auth NotSigned) v2)) with false by (cbn; congruence).
  assert (G : validate_loop C Ov f v3 true = Def (v4, SV_OK)).
  { destruct f; cbn [validate_loop]; rewrite EH; rewrite orb_true_r; reflexivity. }
  cbn [negb]. rewrite G. unfold ur in E, K6. injection E as X1 X2 X3 X4 X5 X6 X7 X8. injection K6 as Y1 Y2 Y3 Y4 Y5 Y6 Y7 Y8.
  exists v4. split; [reflexivity|]. repeat split; try congruence. right. rewrite EL4, ER4. exact K7.
Qed.

Lemma add_body_uns f v n : uns v -> n_gop_sei n = false -> n_golden n = false -> (n_valid n = 0 \/ n_valid n = 1)%Z ->
  v_result v = false ->
  exists v', add_body C Ov (S f) v n = Def (v', SV_OK) /\
    v_items v' = v_items v ++ [item_create n] /\ v_dec v' = v_dec v /\ v_signing v' = false /\ v_report v' = v_report v /\ v_acc v' = v_acc v /\
    v_legacy v' = v_legacy v /\ v_started v' = v_started v /\ v_codec v' = v_codec v /\
    (v_result v' = false -> v_latest v' = v_latest v) /\ (v_result v' = true -> l_auth (v_latest v') = NotSigned).
Proof.
  intros (H1 & H2 & H3 & H4 & H5 & H6 & H7) HN HG HV HR. unfold add_body. cbv zeta.
  replace (n_valid n <? 0)%Z with false by (destruct HV as [-> | ->]; reflexivity).
  set (v1 := set_v_signing _ _).
  assert (EV : v1 = set_v_signing (v_signing v || n_gop_sei n) (set_v_first_sei (negb (v_signing v) && n_gop_sei n) v)) by reflexivity.
  rewrite HN, andb_false_r, orb_false_r in EV.
  assert (ER : register C v1 n = Def (v1, item_create n, SV_OK)).
  { unfold register. destruct (n_valid n =? 0)%Z; [reflexivity|]. unfold update_hashable. rewrite HN. cbn [negb]. rewrite orb_true_r.
    cbn [obind]. unfold hash_item. cbn [i_nalu set_i_nalu item_create].
    replace (d_algo_known (v_dec v1)) with false by (rewrite EV; cbn; congruence). cbn [negb]. rewrite orb_true_r. reflexivity. }
  rewrite ER. cbn [obind is_ok negb].
  set (v2 := set_v_items (v_items v ++ [item_create n]) v1).
  assert (K1 : v_signing v2 = false) by (unfold v2; rewrite EV; cbn; exact H1).
  assert (K2 : d_algo_known (v_dec v2) = false) by (unfold v2; rewrite EV; cbn; exact H3).
  rewrite K1, andb_false_r. cbn [obind is_ok negb orb].
  assert (K3 : v_legacy v2 = false) by (unfold v2; rewrite EV; cbn; exact H4). rewrite K3. change (is_ok SV_OK) with true. cbn [negb orb].
  assert (K4 : Forall plain (v_items v2)).
  { unfold v2. cbn. apply Forall_app. split; [exact H2|]. constructor; [|constructor]. split; [exact HN|]. split; [reflexivity|]. split; [discriminate|].
    cbn. unfold status_of. destruct HV as [-> | ->]; cbn; [auto|]. destruct (n_hashable n); auto. }
  unfold maybe_validate. cbv zeta. unfold recurrent_decoded. rewrite K1. cbn [negb]. rewrite orb_true_r. cbn [obind]. rewrite andb_true_r.
  assert (KI : v_items v2 = v_items v ++ [item_create n]) by reflexivity.
  assert (KF : v_first_sei v2 = false) by (unfold v2; rewrite EV; reflexivity).
  assert (KR : v_result v2 = false) by (unfold v2; rewrite EV; exact HR).
  assert (KL : v_latest v2 = v_latest v) by (unfold v2; rewrite EV; reflexivity).
  assert (KU : ur v2 = ur v) by (unfold ur, v2; rewrite EV; reflexivity).
  clearbody v2. unfold ur in KU. injection KU as U1 U2 U3 U4 U5 U6 U7 U8.
  match goal with |- exists v', (if negb ?b then _ else _) = _ /\ _ => destruct b end; cbn [negb].
  - destruct (validate_loop_uns f v2 K1 K4) as (v3 & E & A1 & A2 & A3 & A4 & A5 & A6 & A7 & A8 & A9). exists v3. split; [exact E|].
    repeat split; try congruence.
    + intros HX. destruct A9 as [[_ A9]|[_ A9]]; congruence.
    + intros HX. destruct A9 as [[A9 _]|[A9 _]]; [congruence|exact A9].
  - rewrite KF. exists v2. repeat split; congruence.
Qed.

Lemma copy_last_snoc b l n : n_tlv_size n = 0 -> n_gop_sei n = false ->
  exists m, copy_last b (l ++ [item_create n]) = Def (l ++ [set_i_nalu (Some m) (item_create n)], SV_OK) /\ n_gop_sei m = false.
Proof.
  intros HT HG. unfold copy_last. rewrite rev_app_distr. cbn [rev app copy_rev i_nalu item_create]. unfold copy_nalu. rewrite HT, HG.
  replace (nlen (n_tlv_mem n) <? 0) with false by lia. replace (9223372036854775808 <=? 0) with false by reflexivity.
  rewrite !andb_false_r. cbn [andb obind]. eexists. split; [cbn [rev]; rewrite rev_involutive; reflexivity|]. reflexivity.
Qed.

Lemma add_uns f v d want : uns v -> unsigned_nalu (v_codec v) d ->
  exists v' st r, add_nalu C Ov (S f) v d want = Def (v', VRes st r) /\ uns v' /\ v_codec v' = v_codec v /\
    (d_pub (v_dec v'), d_vkey (v_dec v'), d_has_pub (v_dec v')) = (d_pub (v_dec v), d_vkey (v_dec v), d_has_pub (v_dec v)) /\
    match r with Some p => says_unsigned p | None => True end.
Proof.
  intros HU HD. destruct d as [|d0 d1]; [do 3 eexists; cbn; split; [reflexivity|auto]|]. set (d := d0 :: d1) in *.
  destruct HD as [HD|(n & EP & HN)]; [discriminate|].
  destruct (parse_unsigned d (v_codec v) n ltac:(discriminate) EP HN) as (PT & PG & PV).
  unfold add_nalu. change (match d with [] => _ | _ => ?k end) with k. cbv zeta. set (v1 := create_report (set_v_started true v)).
  assert (U1 : uns v1 /\ v_codec v1 = v_codec v /\ v_report v1 = true /\
     (d_pub (v_dec v1), d_vkey (v_dec v1), d_has_pub (v_dec v1)) = (d_pub (v_dec v), d_vkey (v_dec v), d_has_pub (v_dec v))).
  { destruct HU as (H1 & H2 & H3 & H4 & H5 & H6 & H7). unfold v1, create_report. cbn [v_report set_v_started].
    destruct (v_report v) eqn:E; unfold uns; cbn; repeat split; auto; try (apply H7; reflexivity); try constructor. }
  clearbody v1. destruct U1 as (U1 & C1 & R1 & D1). destruct U1 as (H1 & H2 & H3 & H4 & H5 & H6 & H7). rewrite H4.
  unfold add_h26x. rewrite C1, EP. cbn [obind]. cbv zeta. set (v2 := on_acc _ _).
  assert (U2 : uns v2) by (unfold uns, v2; cbn; repeat split; auto; apply H7; assumption).
  assert (A2 : v_acc v2 = bump v1) by reflexivity.
  assert (E2 : v_items v2 = v_items v1 /\ v_dec v2 = v_dec v1 /\ v_codec v2 = v_codec v1 /\ v_report v2 = v_report v1 /\ v_latest v2 = v_latest v1 /\ v_result v2 = false) by (unfold v2; cbn; auto 10).
  clearbody v2. destruct E2 as (E2 & E3 & E4 & E5 & E6 & E7).
  destruct (add_body_uns f v2 n U2 HN PG PV E7) as (v3 & -> & B1 & B2 & B3 & B4 & B5 & B6 & B7 & B8 & B9 & B10).
  cbn [obind]. rewrite B6. destruct U2 as (_ & _ & _ & L2 & _). rewrite L2.
  rewrite B2, E3, B1, E2. destruct (copy_last_snoc (d_algo_known (v_dec v1)) (v_items v1) n PT HN) as (m & -> & HM). cbn [obind]; change (is_ok SV_OK) with true; cbv iota.
  set (v4 := set_v_items _ v3).
  assert (P4 : Forall plain (v_items v4)).
  { unfold v4. cbn. apply Forall_app. split; [exact H2|]. constructor; [|constructor]. split; [exact HM|]. split; [reflexivity|]. split; [discriminate|].
    cbn. unfold status_of. destruct PV as [-> | ->]; cbn; [auto|]. destruct (n_hashable n); auto. }
  assert (K4 : v_legacy v4 = false /\ v_dec v4 = v_dec v1 /\ v_signing v4 = false /\ v_report v4 = true /\ v_acc v4 = bump v1 /\ v_codec v4 = v_codec v /\
     v_latest v4 = v_latest v3 /\ v_result v4 = v_result v3).
  { unfold v4. cbn. repeat split; congruence. }
  clearbody v4. destruct K4 as (K1 & K2 & K3 & K4 & K5 & K6 & K7 & K8). rewrite K1. cbn [negb is_ok]. rewrite K8.
  assert (AC : a_auth (v_acc v4) = NotSigned /\ a_val (v_acc v4) = 0) by (rewrite K5; unfold bump; cbn; auto).
  destruct AC as [AC1 AC2].
  destruct (v_result v3) eqn:ER.
  - cbv zeta.
    assert (UR : update_report v4 = set_v_acc (accumulate (set_l_nstr (nalu_str (v_items v4)) (set_l_vstr (validation_str (v_items v4)) (v_latest v4))) (v_dec v4) (v_acc v4))
        (set_v_items (fst (clean_up (v_items v4))) (set_v_latest (set_l_nstr (nalu_str (v_items v4)) (set_l_vstr (validation_str (v_items v4)) (v_latest v4))) v4))).
    { unfold update_report. cbv zeta. change (compare_versions [] (d_sver _) =? 2)%Z with false. cbv iota. unfold on_latest.
      cbn [v_items set_v_latest v_dec v_acc v_latest]. destruct (clean_up (v_items v4)) as [l k]. cbn [fst].
      unfold accumulate at 1. cbn [a_auth]. rewrite AC1. cbn [set_l_nstr set_l_vstr l_auth]. rewrite K7, B10 by reflexivity. reflexivity. }
    rewrite UR. set (v5 := set_v_acc _ _).
    assert (K : uns v5 /\ v_codec v5 = v_codec v /\ v_dec v5 = v_dec v1 /\ v_report v5 = true /\ a_recv (v_acc v5) = a_recv (v_acc v4)).
    { unfold v5, uns. cbn. rewrite AC1, AC2, K7, B10 by reflexivity. cbn. rewrite K1, K2, K3, K4, K6. repeat split; auto.
      - apply plain_clean, P4.
      - apply plain_strings, P4. }
    clearbody v5. destruct K as (Q1 & Q2 & Q3 & Q4 & Q5). destruct Q1 as (J1 & J2 & J3 & J4 & J5 & J6 & J7).
    destruct want.
    + unfold get_report. rewrite Q4. cbn [negb]. do 3 eexists. split; [reflexivity|]. unfold uns, says_unsigned. cbn.
      rewrite J5, Q3. destruct (J7 Q4). repeat split; auto; congruence.
    + do 3 eexists. split; [reflexivity|]. unfold uns. cbn. rewrite Q3. repeat split; auto; try congruence; apply J7; exact Q4.
  - do 3 eexists. split; [reflexivity|]. unfold uns. rewrite K2, K7, B9, E6 by reflexivity. repeat split; auto; try congruence; apply H7; exact R1.
Qed.

Lemma run_uns f ops : forall v, uns v -> Forall (adds_unsigned (v_codec v)) ops ->
  exists v' res, vrun C Ov (S f) v ops = Def (v', res) /\ ~ In VLegacy res /\ Forall says_unsigned (all_reports res).
Proof.
  induction ops as [|o ops IH]; intros v HU HA; cbn [vrun].
  { do 2 eexists. split; [reflexivity|]. split; [intros []|constructor]. }
  apply Forall_cons_iff in HA as [HA0 HA].
  assert (G : exists v1 st r, vexec C Ov (S f) v o = Def (v1, VRes st r) /\ uns v1 /\ v_codec v1 = v_codec v /\ match r with Some p => says_unsigned p | None => True end).
  { destruct o as [d w|key| |]; cbn [vexec].
    - destruct (add_uns f v d w HU HA0) as (v1 & st & r & E & E1 & E2 & _ & E3). eauto 10.
    - unfold set_public_key. destruct key as [|k0 k1]; [do 3 eexists; split; [reflexivity|auto]|].
      destruct (d_pub (v_dec v)); [|do 3 eexists; split; [reflexivity|auto]].
      destruct (v_started v); [do 3 eexists; split; [reflexivity|auto]|].
      destruct HU as (H1 & H2 & H3 & H4 & H5 & H6 & H7).
      destruct (c_pub_ok C _); do 3 eexists; (split; [reflexivity|]); unfold uns; cbn; repeat split; auto; apply H7; assumption.
    - do 3 eexists. split; [reflexivity|]. destruct HU as (H1 & H2 & H3 & H4 & H5 & H6 & H7). unfold uns. cbn. repeat split; auto.
    - destruct HU as (H1 & H2 & H3 & H4 & H5 & H6 & H7). rewrite H4. unfold get_report. destruct (v_report v) eqn:ER; cbn [negb].
      + do 3 eexists. split; [reflexivity|]. unfold uns, says_unsigned. cbn. rewrite H5, ER. destruct (H7 eq_refl). repeat split; auto.
      + do 3 eexists. split; [reflexivity|]. unfold uns. rewrite ER. repeat split; auto; discriminate. }
  destruct G as (v1 & st & r & -> & U1 & C1 & HR). cbn [obind]. rewrite <- C1 in HA.
  destruct (IH v1 U1 HA) as (v2 & xs & -> & L2 & R2). cbn [obind]. do 2 eexists. split; [reflexivity|]. split.
  - intros [E|E]; [discriminate|auto].
  - cbn [all_reports flat_map]. destruct r; [constructor; assumption|exact R2].
Qed.
Lemma create_uns c : uns (vcreate C c).
Proof. unfold uns. cbn. repeat split; auto; discriminate. Qed.
End Uns.

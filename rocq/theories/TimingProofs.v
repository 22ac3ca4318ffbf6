(** When signatures come and SEIs are pulled does not matter: lemmas. *)
From Verif Require Import Base BaseProofs Epb EpbProofs Nalu Crypto Types Hash Tlv EncProofs CodecSpec
  CodecProofs SeiSpec SeiProofs Signer GenProofs SignerProofs SessProofs SignSpec StepProofs RunProofs DrainProofs
  GopSpec GopProofs Late LateSpec LateProofs TimingSpec.
Local Open Scope N_scope.

Section TimingP.
Variable C : crypto.
Hypothesis HC : crypto_ok C.

Definition first_primary (n : nalu) : Prop := n_first_in_gop n = true -> n_primary n = true.

(** Two sessions that differ in the pending SEIs only. *)
Definition simr (a b : srun) : Prop :=
  r_started b = r_started a /\ r_gen b = r_gen a /\ r_golden b = r_golden a /\
  r_frame b = r_frame a /\ r_last b = r_last a /\ r_coin b = r_coin a /\ first_primary (r_last a).
Definition sim (s t : signer) : Prop := s_cfg t = s_cfg s /\ s_gop t = s_gop s /\ simr (s_run s) (s_run t).
(** The pending SEIs stay as they are. *)
Definition keeps (s s' : signer) : Prop :=
  r_slots (s_run s') = r_slots (s_run s) /\ r_done (s_run s') = r_done (s_run s) /\
  r_queue (s_run s') = r_queue (s_run s).

Lemma parse_first_primary data c a b n : parse_nalu data c a b = Def n -> first_primary n.
Proof.
  unfold parse_nalu, first_primary. intros H.
  assert (X : forall ty pr, ntype_eqb ty TI && pr = true -> pr = true) by (intros ty pr; rewrite andb_true_iff; tauto).
  destruct data as [|x l]; [injection H as <-; cbn; congruence|].
  destruct (start_code_len _) as [k|]; [|discriminate]. cbn [obind] in H.
  destruct (parse_header _ _) as [[[ty pr] v]|]; [|discriminate]. cbn [obind] in H.
  destruct (if a then _ else _) as [t|]; [|discriminate]. cbn [obind] in H.
  destruct (negb (ntype_eqb ty TSei)); [injection H as <-; apply X|].
  destruct (skipn (header_len c) _) as [|ud p1]; [discriminate|].
  destruct (ud =? 5); [|injection H as <-; apply X].
  destruct (get_payload_size p1) as [[[psize j] p2]|]; [|discriminate]. cbn [obind] in H.
  destruct (length p2 <? 16)%nat; [discriminate|].
  unfold remove_epb in H. cbn [n_hashable n_gop_sei n_valid n_hash_mem n_payload_size n_epb n_data_size
    n_hash_size n_type n_primary n_first_in_gop n_first_part n_last_part] in *.
  destruct (_ || _ || _); [injection H as <-; apply X|].
  destruct (skipn _ _) as [|res tlv]; [discriminate|].
  destruct (_ <=? 0)%Z; [injection H as <-; apply X|].
  destruct (read_bytes _ _ _ _) as [[[wo y] z]|]; [|discriminate]. cbn [obind] in H.
  destruct (length wo <? _)%nat; [discriminate|].
  destruct (128 <=? res); injection H as <-; apply X.
Qed.

Ltac ex := repeat match goal with |- _ /\ _ => split | |- exists _, _ => eexists end.

Lemma take_part_sim s t data last s1 n : sim s t -> take_part s data last = Def (s1, n) ->
  exists t1, take_part t data last = Def (t1, n) /\ sim s1 t1 /\ keeps s s1 /\ keeps t t1 /\ first_primary n.
Proof.
  intros (E1 & E2 & R1 & R2 & R3 & R4 & R5 & R6 & R7). unfold take_part. rewrite R5, E1. intros H.
  destruct (n_last_part (r_last (s_run s))).
  - destruct (parse_nalu data (sc_codec (s_cfg s)) last false) as [n0|] eqn:EP; [|discriminate].
    apply parse_first_primary in EP. cbn [obind] in *. injection H as <- <-.
    assert (FP : first_primary (set_parts (n_first_part n0) last n0)) by exact EP.
    eexists. split; [reflexivity|]. unfold sim, simr, keeps, on_run. cbn [s_cfg s_gop s_run set_s_run]. cbn.
    rewrite ?E1, ?E2, ?R1, ?R2, ?R3, ?R4, ?R6. repeat split; try reflexivity; try exact FP.
  - destruct (if last then _ else _) as [z|]; [|discriminate]. cbn [obind] in *. injection H as <- <-.
    eexists. split; [reflexivity|]. unfold sim, simr, keeps, on_run. cbn [s_cfg s_gop s_run set_s_run]. cbn.
    rewrite ?E1, ?E2, ?R1, ?R2, ?R3, ?R4, ?R6. repeat split; try reflexivity; try exact R7.
Qed.

Lemma prepare_sim s t s1 : sim s t -> r_done (s_run t) = 0%nat -> prepare s = (s1, SV_OK) ->
  exists t1, prepare t = (t1, SV_OK) /\ sim s1 t1 /\ keeps s s1 /\ keeps t t1.
Proof.
  intros (E1 & E2 & R1 & R2 & R3 & R4 & R5 & R6 & R7) HD. unfold prepare. rewrite E1.
  destruct (sc_key (s_cfg s)); [|discriminate]. intros H.
  assert (HZ : negb (r_avoid (s_run (on_run (set_r_started true) t))) && (0 <? r_done (s_run (on_run (set_r_started true) t)))%nat = false).
  { unfold on_run. cbn. rewrite HD. apply andb_false_r. }
  rewrite HZ. eexists. split; [reflexivity|].
  destruct (_ && _); [discriminate|]. injection H as <-.
  unfold sim, simr, keeps, on_run. cbn. rewrite E1, E2. repeat split; assumption.
Qed.

Lemma count_frame_sim s t n s1 : sim s t -> sc_recurrence (s_cfg s) = 1 -> count_frame s n = Def s1 ->
  exists t1, count_frame t n = Def t1 /\ sim s1 t1 /\ keeps s s1 /\ keeps t t1 /\
    (n_primary n = true -> n_last_part n = true -> r_recurrent (s_run s1) = true /\ r_recurrent (s_run t1) = true).
Proof.
  intros (E1 & E2 & R1 & R2 & R3 & R4 & R5 & R6 & R7) HR. unfold count_frame. rewrite E1, HR, R4, !N.mod_1_r. cbn [N.eqb].
  destruct (n_primary n && n_last_part n) eqn:EP.
  - destruct (r_frame (s_run s) =? 2147483647)%Z; [discriminate|]. intros H. injection H as <-.
    eexists. split; [reflexivity|]. unfold sim, simr, keeps, on_run. cbn. repeat split; assumption.
  - intros H. injection H as <-. exists t. split; [reflexivity|]. split; [repeat split; assumption|].
    split; [repeat split|]. split; [repeat split|]. intros P1 P2. rewrite P1, P2 in EP. discriminate.
Qed.

Lemma build_sei_same s t : sim s t -> r_recurrent (s_run t) = r_recurrent (s_run s) -> build_sei t = build_sei s.
Proof.
  intros (E1 & E2 & R1 & R2 & R3 & R4 & R5 & R6 & R7) HR. unfold build_sei. cbv zeta.
  assert (EO : optional_size t = optional_size s) by (unfold optional_size; rewrite E1, E2, R3, HR; reflexivity).
  assert (EM : forall g, mandatory_size t g = mandatory_size s g) by (intros g; unfold mandatory_size; rewrite E1, HR; reflexivity).
  rewrite EO, E1, E2, R3, HR, !EM.
  destruct (write_bytes false lt_init _) as [lt1 o1]. destruct (write_bytes true lt1 uuid_sv) as [lt2 o2].
  rewrite (write_list_nosig _ (r_sig (s_run s))), (write_list_nosig _ (r_sig (s_run t))) by (repeat constructor; discriminate).
  destruct (if 0 <? optional_size s then _ else _) as [[lt3 o3] g3].
  destruct (_ && _); [reflexivity|].
  rewrite (write_list_nosig _ (r_sig (s_run s))), (write_list_nosig _ (r_sig (s_run t))) by (repeat constructor; discriminate).
  reflexivity.
Qed.

(** What is new is new in both sessions. *)
Definition adds (X : list slot) (Y : list (list N)) (s s' : signer) : Prop :=
  r_slots (s_run s') = r_slots (s_run s) ++ X /\ r_done (s_run s') = r_done (s_run s) /\
  r_queue (s_run s') = r_queue (s_run s) ++ Y.
Lemma keeps_adds s s' : keeps s s' -> adds [] [] s s'.
Proof. intros (A & B & D). unfold adds. rewrite !app_nil_r. auto. Qed.
Lemma keeps_trans a b c X Y : keeps a b -> adds X Y b c -> adds X Y a c.
Proof. intros (A & B & D) (E & F & G). unfold adds. rewrite <- A, <- B, <- D. auto. Qed.
Lemma adds_keeps a b c X Y : adds X Y a b -> keeps b c -> adds X Y a c.
Proof. intros (A & B & D) (E & F & G). unfold adds. rewrite <- A, <- B, <- D. repeat split; assumption. Qed.

Lemma generate_sim s t s1 x : sim s t -> r_recurrent (s_run t) = r_recurrent (s_run s) ->
  r_slots (s_run t) = [] -> r_queue (s_run t) = [] ->
  generate_sei C s = Def (s1, SV_OK, x) ->
  exists t1, generate_sei C t = Def (t1, SV_OK, x) /\ sim (add_payload s1 x) (add_payload t1 x) /\
    exists X Y, adds X Y s (add_payload s1 x) /\ adds X Y t (add_payload t1 x).
Proof.
  intros HS HR HSL HQ. pose proof HS as (E1 & E2 & R1 & R2 & R3 & R4 & R5 & R6 & R7).
  unfold generate_sei. rewrite (build_sei_same s t HS HR), E1, HSL.
  assert ((max_sei_buffer <=? @length slot [])%nat = false) as -> by reflexivity.
  destruct (Nat.leb_spec max_sei_buffer (length (r_slots (s_run s)))) as [|HL]; [discriminate|].
  destruct (build_sei s) as [[[[g st] alloc] lt] bytes]. destruct (alloc <? nlen bytes); [discriminate|].
  destruct (negb (is_ok st)) eqn:ES.
  { intros H. injection H as <- -> <-. discriminate. }
  destruct (parse_nalu bytes (sc_codec (s_cfg s)) false true) as [n|]; [|discriminate]. cbn [obind].
  destruct (hash_and_add C g n (sc_hs (s_cfg s))) as [[g2 st2]|]; [|discriminate]. cbn [obind].
  destruct (negb (is_ok st2)) eqn:ES2.
  { intros H. injection H as <- -> <-. discriminate. }
  destruct (take_mem _ _) as [[hash rest]|]; [|discriminate]. cbn [obind].
  set (g3 := set_g_ts None _). clearbody g3. unfold plugin_sign.
  cbn [s_cfg s_run set_s_gop]. rewrite E1, HQ, R6.
  assert ((max_plugin_buffer <=? @length (list N) [])%nat = false) as -> by reflexivity.
  destruct (sc_key (s_cfg s)) as [key|]; [|cbn; discriminate].
  destruct hash as [|h0 hash]; [cbn; discriminate|].
  destruct (max_plugin_buffer <=? length (r_queue (s_run s)))%nat; [cbn; discriminate|].
  destruct (c_sign C key (r_coin (s_run s)) (h0 :: hash)) as [sig|]; [|cbn; discriminate].
  destruct (_ <? length sig)%nat; [cbn; discriminate|].
  destruct sig as [|b0 sig]; [cbn; discriminate|]. cbn [is_ok svrc_eqb].
  intros H. injection H as <- <-. eexists. split; [reflexivity|].
  unfold add_payload, on_run. cbn [r_slots s_run set_s_run set_s_gop set_r_queue set_r_coin].
  rewrite HSL.
  assert ((max_sei_buffer <=? @length slot [])%nat = false) as -> by reflexivity.
  assert ((max_sei_buffer <=? length (r_slots (s_run s)))%nat = false) as -> by (apply Nat.leb_gt; exact HL).
  split.
  - unfold sim, simr. cbn. rewrite E1, R6. repeat split; assumption.
  - eexists _, _. unfold adds. cbn. rewrite ?HSL, ?HQ. repeat split; reflexivity.
Qed.

Lemma close_gop_sim s t n ts s1 : sim s t -> r_slots (s_run t) = [] -> r_queue (s_run t) = [] ->
  (n_first_in_gop n = true -> n_last_part n = true -> r_recurrent (s_run s) = true /\ r_recurrent (s_run t) = true) ->
  close_gop C s n ts = Def (s1, SV_OK) ->
  exists t1, close_gop C t n ts = Def (t1, SV_OK) /\ sim s1 t1 /\ exists X Y, adds X Y s s1 /\ adds X Y t t1.
Proof.
  intros HS HSL HQ HR. unfold close_gop. destruct (n_first_in_gop n && n_last_part n) eqn:EF.
  2:{ intros H. injection H as <-. exists t. split; [reflexivity|]. split; [exact HS|]. exists [], [].
      split; apply keeps_adds; repeat split. }
  apply andb_true_iff in EF as [F1 F2]. destruct (HR F1 F2) as [RS RT].
  pose proof HS as (E1 & E2 & R1 & R2 & R3 & R4 & R5 & R6 & R7). rewrite R2.
  destruct (r_gen (s_run s)) eqn:EGN; rewrite <- EGN in R2.
  2:{ cbn [obind is_ok svrc_eqb]. intros H. injection H as <-. eexists. split; [reflexivity|]. split.
      - unfold sim, simr, on_run. cbn. rewrite E1, E2. repeat split; assumption.
      - exists [], []. split; apply keeps_adds; repeat split. }
  set (s0 := match ts with Some _ => _ | None => s end). set (t0 := match ts with Some _ => _ | None => t end).
  assert (S0 : sim s0 t0 /\ s_run s0 = s_run s /\ s_run t0 = s_run t).
  { unfold s0, t0. destruct ts; [|auto]. unfold on_gop, sim, simr. cbn. rewrite E1, E2. repeat split; assumption. }
  clearbody s0 t0. clear E1 E2 R1 R2 R3 R4 R5 R6 R7 HS. destruct S0 as (HS & Q1 & Q2).
  pose proof HS as (E1 & E2 & R1 & R2 & R3 & R4 & R5 & R6 & R7). rewrite E2.
  destruct (finalize_hash C true (k_handle (g_h (s_gop s0)))) as [[h st] v].
  destruct (is_ok st) eqn:ES; cbn [negb].
  2:{ cbn [obind]. rewrite ES. intros H. injection H as _ ->. discriminate. }
  destruct (put_mem _ v) as [comp|]; [|discriminate]. cbn [obind].
  set (sa := set_s_gop (set_g_computed comp (set_g_h (set_k_handle h (g_h (s_gop s0))) (s_gop s0))) s0).
  set (ta := set_s_gop (set_g_computed comp (set_g_h (set_k_handle h (g_h (s_gop s0))) (s_gop s0))) t0).
  assert (SA : sim sa ta) by (unfold sa, ta, sim; cbn; split; [exact E1|split; [reflexivity|repeat split; assumption]]).
  assert (RA : s_run sa = s_run s /\ s_run ta = s_run t) by (split; assumption). destruct RA as [RA1 RA2].
  clearbody sa ta.
  destruct (generate_sei C sa) as [[[s2 st2] x]|] eqn:EG; [|discriminate]. cbn [obind].
  destruct (is_ok st2) eqn:ES2; cbn [obind is_ok svrc_eqb].
  2:{ rewrite ES2. intros H. injection H as _ ->. discriminate. }
  apply is_ok_eq in ES2. subst st2. intros H. injection H as <-.
  destruct (generate_sim sa ta s2 x SA) as (t2 & G1 & G2 & X & Y & G3 & G4); try (rewrite RA2; assumption).
  { rewrite RA1, RA2, RS, RT. reflexivity. }
  { exact EG. }
  rewrite G1. cbn [obind is_ok svrc_eqb]. eexists. split; [reflexivity|].
  destruct G2 as (D1 & D2 & T1 & T2 & T3 & T4 & T5 & T6 & T7). split.
  - unfold sim, simr, on_run. cbn. repeat split; assumption.
  - exists X, Y. unfold adds in *. rewrite RA1 in G3. rewrite RA2 in G4. cbn. auto.
Qed.

Lemma add_sim s t data ts last s1 : sim s t -> sc_recurrence (s_cfg s) = 1 ->
  r_slots (s_run t) = [] -> r_queue (s_run t) = [] -> r_done (s_run t) = 0%nat ->
  add_part C s data ts last = Def (s1, SV_OK) ->
  exists t1, add_part C t data ts last = Def (t1, SV_OK) /\ sim s1 t1 /\ exists X Y, adds X Y s s1 /\ adds X Y t t1.
Proof.
  intros HS HR HSL HQ HD. unfold add_part. destruct data as [|d0 data]; [discriminate|].
  set (d := d0 :: data) in *. clearbody d. intros H.
  destruct (take_part s d last) as [[sa n]|] eqn:EA; [|discriminate]. cbn [obind] in H.
  assert (CA : s_cfg sa = s_cfg s).
  { revert EA. unfold take_part. cbv zeta. destruct (n_last_part (r_last (s_run s))).
    - destruct (parse_nalu _ _ _ _); cbn [obind]; [|discriminate]. intros EA. injection EA as <- <-. reflexivity.
    - destruct (if last then _ else _); cbn [obind]; [|discriminate]. intros EA. injection EA as <- <-. reflexivity. }
  destruct (take_part_sim s t d last sa n HS EA) as (ta & TA & SA & K1 & K2 & FP). rewrite TA. cbn [obind].
  destruct (prepare sa) as [sb st] eqn:EB.
  destruct (is_ok st) eqn:ES; cbn [negb] in H; [|injection H as _ ->; discriminate].
  apply is_ok_eq in ES. subst st.
  destruct K2 as (L1 & L2 & L3).
  destruct (prepare_sim sa ta sb SA) as (tb & TB & SB & K3 & K4); [congruence|exact EB|]. rewrite TB. cbn [is_ok svrc_eqb negb].
  destruct (n_valid n <? 0)%Z; [cbn in H; discriminate H|].
  assert (CB : s_cfg sb = s_cfg s).
  { rewrite <- CA. unfold prepare in EB. destruct (sc_key (s_cfg sa)); [|discriminate EB]. cbv zeta in EB.
    destruct (negb _ && _) in EB; [discriminate EB|]. injection EB as <-. reflexivity. }
  destruct (count_frame sb n) as [sc|] eqn:EC; [|discriminate]. cbn [obind] in H.
  destruct (count_frame_sim sb tb n sc SB) as (tc & TC & SC & K5 & K6 & RC); [congruence|exact EC|]. rewrite TC. cbn [obind].
  destruct (close_gop C sc n ts) as [[sd st]|] eqn:ED; [|discriminate]. cbn [obind] in H.
  destruct (is_ok st) eqn:ES; cbn [negb] in H; [|injection H as _ ->; discriminate].
  apply is_ok_eq in ES. subst st.
  destruct K4 as (L4 & L5 & L6). destruct K6 as (L7 & L8 & L9).
  destruct (close_gop_sim sc tc n ts sd SC) as (td & TD & SD & X & Y & A1 & A2); try congruence.
  { intros P1 P2. apply RC; [apply FP, P1|exact P2]. }
  rewrite TD. cbn [obind is_ok svrc_eqb negb].
  assert (XY : adds X Y s sd /\ adds X Y t td).
  { split.
    - eapply keeps_trans; [exact K1|]. eapply keeps_trans; [exact K3|]. eapply keeps_trans; [exact K5|exact A1].
    - apply (keeps_trans t ta td X Y (conj L1 (conj L2 L3))). apply (keeps_trans ta tb td X Y (conj L4 (conj L5 L6))).
      apply (keeps_trans tb tc td X Y (conj L7 (conj L8 L9))). exact A2. }
  pose proof SD as (E1 & E2 & R1 & R2 & R3 & R4 & R5 & R6 & R7). rewrite E1, E2.
  destruct (hash_and_add C (s_gop sd) n (sc_hs (s_cfg sd))) as [[g st]|]; [|discriminate]. cbn [obind] in H |- *.
  destruct (is_ok st) eqn:ES; cbn [negb] in H |- *; [|injection H as _ ->; discriminate].
  cbn [s_cfg s_gop set_s_gop] in H |- *. rewrite ?E1.
  destruct (n_first_in_gop n && n_last_part n).
  - destruct (take_mem _ _) as [[hash rest]|]; [|discriminate]. cbn [obind] in H |- *.
    destruct (shift_linked _ _ _) as [l|]; [|discriminate]. cbn [obind] in H |- *. injection H as <-.
    eexists. split; [reflexivity|]. split.
    + unfold sim, simr, on_gop. cbn. repeat split; assumption.
    + exists X, Y. exact XY.
  - injection H as <-. eexists. split; [reflexivity|]. split.
    + unfold sim, simr. cbn. repeat split; assumption.
    + exists X, Y. exact XY.
Qed.

(** ** Completion *)

(** The finished SEI fits its memory. *)
Definition fits (c : codec) (q : gen) : Prop := nlen (fin c q) <= sei_alloc c (q_size q).

Lemma complete_one_eq s L q r : sgood C s L -> skipn (r_done (s_run s)) L = q :: r ->
  let s1 := on_run (fun x => set_r_sig (q_sig q) (set_r_queue (map q_sig r) x)) s in
  exists x, complete_sei s1 =
    if sei_alloc (sc_codec (s_cfg s)) (q_size q) <? nlen (fin (sc_codec (s_cfg s)) q) then Undef OobWrite else Def x.
Proof.
  intros HS HR s1. pose proof HS as [SG SA SK SD S6 SS SQ SLL SW ST].
  destruct (firstn_S_skipn _ _ _ _ HR) as (N1 & N2 & N3).
  assert (LF : length (map (fin_slot (sc_codec (s_cfg s))) (firstn (r_done (s_run s)) L)) = r_done (s_run s)).
  { rewrite map_length, firstn_length. lia. }
  assert (GQ : gen_ok C (sc_codec (s_cfg s)) q /\ q_epb q = sc_epb (s_cfg s) /\ q_max q = sc_max_sig (s_cfg s)).
  { rewrite HR in SW. apply Forall_cons_iff in SW as [[W1 W2] _]. split; [|auto].
    assert (IN : In q L).
    { rewrite <- (firstn_skipn (r_done (s_run s)) L). apply in_or_app. right. rewrite HR. left. reflexivity. }
    rewrite Forall_forall in SLL. auto. }
  destruct GQ as (GQ & QE & QM). pose proof (qo_sig0 _ _ _ GQ) as M4.
  assert (HT : g_hash_type (s_gop s) = 1).
  { apply ST. intros ->. rewrite skipn_nil in HR. discriminate. }
  rewrite HR in SS. cbn [map] in SS.
  unfold complete_sei. unfold s1, on_run. cbn [s_run s_cfg s_gop set_s_run r_slots r_done r_sig set_r_sig set_r_queue r_recurrent].
  destruct (r_slots (s_run s)) as [|x0 xs] eqn:ESL.
  { symmetry in SS. apply app_eq_nil in SS. destruct SS. discriminate. }
  rewrite SS.
  assert (NE : nth_error (map (fin_slot (sc_codec (s_cfg s))) (firstn (r_done (s_run s)) L) ++
     unf_slot (sc_codec (s_cfg s)) q :: map (unf_slot (sc_codec (s_cfg s))) r) (r_done (s_run s)) =
     Some (unf_slot (sc_codec (s_cfg s)) q)).
  { rewrite <- LF at 2. apply nth_error_mid. }
  rewrite NE. cbn [sl_sei unf_slot sl_alloc sl_lt].
  destruct (complete_bytes C (s_cfg s) (s_gop s) q GQ SG HT QE QM (r_recurrent (s_run s))) as (lt & o & EW & EF).
  destruct (q_sig q) as [|b0 bs] eqn:EQS; [contradiction|]. rewrite <- EQS in *.
  rewrite EW, EF. eexists. reflexivity.
Qed.

(** The unfinished SEIs fit. *)
Definition wait_fits (c : codec) (s : signer) (L : list gen) : Prop := Forall (fits c) (skipn (r_done (s_run s)) L).

Lemma complete_late_fits L k : forall s s' st, sgood C s L -> complete_late k false s = Def (s', st) ->
  wait_fits (sc_codec (s_cfg s)) s' L -> wait_fits (sc_codec (s_cfg s)) s L.
Proof.
  induction k as [|k IH]; intros s s' st HS; pose proof HS as [SG SA SK SD S6 SS SQ SLL SW ST].
  - cbn [complete_late]. intros H. injection H as <- <-. auto.
  - cbn [complete_late]. unfold plugin_get.
    destruct (_ || _) eqn:EO; cbn [negb].
    { intros H. injection H as <- <-. auto. }
    destruct (skipn (r_done (s_run s)) L) as [|q r] eqn:ER.
    + intros _ _. unfold wait_fits. rewrite ER. constructor.
    + assert (EQ : r_queue (s_run s) = q_sig q :: map q_sig r) by (rewrite SQ; reflexivity).
      rewrite EQ.
      assert (GQ : gen_ok C (sc_codec (s_cfg s)) q).
      { assert (IN : In q L).
        { rewrite <- (firstn_skipn (r_done (s_run s)) L). apply in_or_app. right. rewrite ER. left. reflexivity. }
        rewrite Forall_forall in SLL. auto. }
      apply Forall_cons_iff in SW as [[W1 W2] _].
      assert ((sc_max_sig (s_cfg s) <? length (q_sig q))%nat = false) as ->.
      { apply Nat.ltb_ge. rewrite <- W2. apply GQ. }
      cbn [negb]. destruct (complete_one_eq s L q r HS ER) as [x EX].
      pose proof (complete_one C s L q r HS ER) as HX. cbv zeta in EX, HX. unfold on_run in *. rewrite EX in HX |- *.
      destruct (N.ltb_spec (sei_alloc (sc_codec (s_cfg s)) (q_size q)) (nlen (fin (sc_codec (s_cfg s)) q))) as [HL|HL];
        [discriminate|].
      cbn [obind holds] in *. destruct x as [s2 st2]. destruct HX as (E1 & E2 & E3 & E4 & E5 & E6 & E7). subst st2.
      cbn [is_ok svrc_eqb]. intros H HF. specialize (IH s2 s' st E2 H). rewrite E3 in IH. specialize (IH HF).
      unfold wait_fits in *. rewrite E5 in IH. destruct (firstn_S_skipn _ _ _ _ ER) as (N1 & N2 & N3).
      rewrite ER. rewrite N2 in IH. constructor; [exact HL|exact IH].
Qed.

Lemma same_simr a b : same_run a b -> first_primary (r_last a) -> simr a b.
Proof. intros (A1 & A2 & A3 & A4 & A5 & A6 & A7) F. repeat split; assumption. Qed.
Lemma sim_late s s' t : sim s t -> s_cfg s' = s_cfg s -> s_gop s' = s_gop s -> simr (s_run s) (s_run s') -> sim s' t.
Proof.
  intros (E1 & E2 & R1 & R2 & R3 & R4 & R5 & R6 & R7) F1 F2 (T1 & T2 & T3 & T4 & T5 & T6 & T7).
  unfold sim, simr. rewrite F1, F2, T1, T2, T3, T4, T5, T6. repeat split; assumption.
Qed.
Lemma sim_now s t t' : sim s t -> s_cfg t' = s_cfg t -> s_gop t' = s_gop t -> simr (s_run t) (s_run t') -> sim s t'.
Proof.
  intros (E1 & E2 & R1 & R2 & R3 & R4 & R5 & R6 & R7) F1 F2 (T1 & T2 & T3 & T4 & T5 & T6 & T7).
  unfold sim, simr. rewrite F1, F2, T1, T2, T3, T4, T5, T6. repeat split; assumption.
Qed.

(** Asking for a SEI changes the pending SEIs only. *)
Lemma get_late_sim clean c s L p want peek s' r : sinv C clean c s L -> po_fails p = false -> first_primary (r_last (s_run s)) ->
  get_sei_late p s want peek = Def (s', r) ->
  s_cfg s' = s_cfg s /\ s_gop s' = s_gop s /\ simr (s_run s) (s_run s') /\
  exists L', sinv C clean c s' L' /\ (wait_fits c s' L' -> wait_fits c s L) /\
    (rs_sei r = [] /\ L' = L \/ exists g, L = g :: L' /\ rs_sei r = fin c g).
Proof.
  intros HI HP0 FP. pose proof HI as [HS HG HCD HCL]. unfold get_sei_late, complete_poll. cbv zeta. rewrite HP0.
  pose proof (complete_late_ok C L (po_ready p) s HS) as HK.
  pose proof (complete_late_fits L (po_ready p) s) as HF. rewrite HCD in HF.
  destruct (complete_late (po_ready p) false s) as [[s1 st]|u]; [|discriminate]. cbn [obind holds] in *.
  specialize (HF s1 st HS eq_refl).
  destruct HK as (-> & C1 & C2 & C3 & C4 & _ & C5). cbn [is_ok svrc_eqb negb].
  assert (I1 : sinv C clean c s1 L).
  { constructor; [exact C1|rewrite <- HG; apply C5|rewrite C2; exact HCD|].
    intros E. specialize (HCL E). pose proof (sg_done _ _ _ C1). lia. }
  pose proof (same_simr _ _ C5 FP) as SR.
  destruct (Nat.ltb_spec (r_done (s_run s1)) 1) as [HZ|HZ].
  { intros H. injection H as <- <-. do 3 (split; [assumption|]). exists L. split; [exact I1|]. auto. }
  destruct (match peek with [] => Def true | _ => _ end) as [show|]; [|discriminate]. cbn [obind].
  destruct show; cbn [negb].
  2:{ intros H. injection H as <- <-. do 3 (split; [assumption|]). exists L. split; [|auto].
      destruct I1. constructor; try assumption. apply (sgood_frame C s1); try reflexivity; try assumption. apply C1. }
  pose proof (sg_done _ _ _ C1) as HD1.
  destruct L as [|g L']; [cbn in HD1; lia|].
  destruct (fetch_any C s1 [] g L' C1 HZ want) as (s2 & F1 & F2 & F3 & F4 & F6 & F7).
  cbn [length app] in F1, F6, F7. rewrite F1. cbn [obind]. intros H. injection H as <- <-. cbn [rs_sei].
  assert (FG : r_golden (s_run s2) = false).
  { destruct F4 as (_ & _ & _ & -> & _). apply I1. }
  assert (FC : sc_codec (s_cfg s2) = c) by congruence.
  assert (CL1 : clean = true -> r_done (s_run s1) = length (g :: L')) by apply I1.
  split; [congruence|]. split; [congruence|]. split.
  { apply same_simr; [|exact FP]. eapply same_run_trans; eassumption. }
  assert (F8 : fin (sc_codec (s_cfg s1)) g = fin c g) by (rewrite C2, HCD; reflexivity).
  destruct want.
  - exists L'. split; [constructor; auto; intros E; rewrite F7, (CL1 E); cbn [length]; lia|]. split.
    + intros W. apply HF. unfold wait_fits in *. rewrite F7 in W.
      destruct (r_done (s_run s1)) as [|m]; [lia|]. cbn [Nat.sub skipn] in *. rewrite Nat.sub_0_r in W. exact W.
    + right. exists g. rewrite F8. auto.
  - exists (g :: L'). split; [constructor; auto; intros E; rewrite F7; auto|]. split; [|left; auto].
    intros W. apply HF. unfold wait_fits in *. rewrite F7 in W. exact W.
Qed.

(** With the plugin that signs at once: a SEI that fits is returned. *)
Lemma get_one clean c t q : sinv C clean c t [q] -> r_done (s_run t) = 0%nat -> fits c q -> first_primary (r_last (s_run t)) ->
  exists t' n, get_sei t true [] = Def (t', mkSres SV_OK (fin c q) n 0) /\ sinv C true c t' [] /\
    s_cfg t' = s_cfg t /\ s_gop t' = s_gop t /\ simr (s_run t) (s_run t').
Proof.
  intros HI HD HF FP. pose proof HI as [HS HG HCD HCL].
  destruct (complete_one_eq t [q] q [] HS ltac:(rewrite HD; reflexivity)) as [x EX]. cbv zeta in EX.
  assert (EK : exists s1, complete_all t = Def (s1, SV_OK)).
  { pose proof HS as [SG SA SK SD S6 SS SQ SLL SW ST].
    rewrite HD in SQ, SW. cbn [skipn map] in SQ, SW. apply Forall_inv in SW as [W1 W2]. apply Forall_inv in SLL as GQ.
    unfold complete_all. rewrite SQ. cbn [length complete_loop]. unfold plugin_get. rewrite SQ.
    assert (KM : match sc_key (s_cfg t) with None => true | _ => false end || negb (sc_sig_mem (s_cfg t)) = false).
    { destruct (sc_key (s_cfg t)); [destruct SK as [_ ->]; reflexivity|discriminate]. }
    rewrite KM.
    assert ((sc_max_sig (s_cfg t) <? length (q_sig q))%nat = false) as ->.
    { apply Nat.ltb_ge. rewrite <- W2. apply GQ. }
    cbn [negb]. pose proof (complete_one C t [q] q [] HS ltac:(rewrite HD; reflexivity)) as HX. cbv zeta in HX.
    cbn [map] in EX, HX. unfold on_run in *. rewrite EX in HX |- *.
    destruct (N.ltb_spec (sei_alloc (sc_codec (s_cfg t)) (q_size q)) (nlen (fin (sc_codec (s_cfg t)) q))) as [HL|HL].
    { exfalso. unfold fits in HF. rewrite HCD in HL. lia. }
    cbn [obind holds] in *. destruct x as [s2 st2]. destruct HX as (-> & E2 & E3 & E4 & E5 & E6 & E7).
    cbn [is_ok svrc_eqb]. destruct E2 as [_ _ _ _ _ _ QU _ _ _]. rewrite E5, HD in QU. cbn [skipn map] in QU.
    rewrite QU, E3, KM. cbn [negb]. eexists. reflexivity. }
  destruct EK as [s1 EK]. pose proof (complete_all_ok C t [q] HS) as HK. rewrite EK in HK. cbn [holds] in HK.
  destruct HK as (_ & C1 & C2 & C3 & C4 & _ & C5). cbn [length] in C4.
  unfold get_sei. rewrite EK. cbn [obind is_ok svrc_eqb negb]. rewrite C4. cbn [Nat.ltb Nat.leb].
  destruct (fetch_ok C s1 [] q [] C1 C4 true) as (s2 & F1 & F2 & F3 & F4 & F5 & F6 & F7).
  cbn [length app] in F1, F6, F7. rewrite F1. cbn [obind].
  assert (EN : nlen (r_slots (s_run s2)) = 0).
  { unfold nlen. rewrite (slots_len C s2 [] F6). reflexivity. }
  rewrite EN, C2, HCD. eexists _, _. split; [reflexivity|]. split; [|split; [congruence|split; [congruence|]]].
  - constructor; [exact F6| |congruence|auto]. destruct F4 as (_ & _ & _ & -> & _). rewrite <- HG. apply C5.
  - apply same_simr; [|exact FP]. eapply same_run_trans; eassumption.
Qed.

Lemma get_none clean c t : sinv C clean c t [] -> first_primary (r_last (s_run t)) ->
  exists t', get_sei t true [] = Def (t', mkSres SV_OK [] 0 0) /\ sinv C true c t' [] /\
    s_cfg t' = s_cfg t /\ s_gop t' = s_gop t /\ simr (s_run t) (s_run t').
Proof.
  intros HI FP. pose proof HI as [HS HG HCD HCL]. pose proof HS as [SG SA SK SD S6 SS SQ SLL SW ST].
  cbn [length] in SD. assert (HD : r_done (s_run t) = 0%nat) by lia. rewrite HD in SQ, SS. cbn in SQ, SS.
  assert (EK : complete_all t = Def (t, SV_OK)).
  { unfold complete_all. rewrite SQ. cbn [length complete_loop]. unfold plugin_get. rewrite SQ. destruct (_ || _); reflexivity. }
  unfold get_sei. rewrite EK. cbn [obind is_ok svrc_eqb negb]. rewrite HD, SS. cbn [Nat.ltb Nat.leb].
  eexists. split; [reflexivity|]. split; [constructor; auto|]. split; [reflexivity|]. split; [reflexivity|].
  apply same_simr; [repeat split|exact FP].
Qed.

(** The finished SEI follows from the unfinished one and its signature. *)
Lemma fin_same c g q q' : gen_ok C (sc_codec c) q -> gen_ok C (sc_codec c) q' -> ggood C c g -> g_hash_type g = 1 ->
  q_epb q = sc_epb c -> q_max q = sc_max_sig c -> q_epb q' = sc_epb c -> q_max q' = sc_max_sig c ->
  unf_slot (sc_codec c) q = unf_slot (sc_codec c) q' -> q_sig q = q_sig q' ->
  fin (sc_codec c) q = fin (sc_codec c) q' /\ sei_alloc (sc_codec c) (q_size q) = sei_alloc (sc_codec c) (q_size q').
Proof.
  intros G G' HG HT E1 E2 E1' E2' EU ES.
  destruct (complete_bytes C c g q G HG HT E1 E2 true) as (lt & o & W & F).
  destruct (complete_bytes C c g q' G' HG HT E1' E2' true) as (lt' & o' & W' & F').
  unfold unf_slot in EU. injection EU as EB EA EL. split; [|exact EA].
  rewrite ES, EL, W' in W. injection W as _ <-. rewrite <- F, <- F', EB. reflexivity.
Qed.

(** ** Adding a NALU *)

Lemma add_step ct c s t L d ts last s1 L1 : sinv C false c s L -> sinv C ct c t [] -> sim s t -> sc_recurrence (s_cfg s) = 1 ->
  match ts with Some t => (-9223372036854775808 <= t < 9223372036854775808)%Z | None => True end ->
  add_part C s d ts last = Def (s1, SV_OK) -> step_post C s L s1 L1 ->
  exists t1 L1', add_part C t d ts last = Def (t1, SV_OK) /\ sinv C false c t1 L1' /\
    sim s1 t1 /\ r_done (s_run t1) = 0%nat /\
    (L1 = L /\ L1' = [] \/ exists q q', L1 = L ++ [q] /\ L1' = [q'] /\ fin c q = fin c q' /\ (fits c q -> fits c q')).
Proof.
  intros HI HT HS HR Hts E (P1 & [P2 P3] & P4 & P5). pose proof HI as [G1 G2 G3 _]. pose proof HT as [T1 T2 T3 _].
  pose proof (sg_done _ _ _ T1) as TD. cbn [length] in TD. assert (TD0 : r_done (s_run t) = 0%nat) by lia.
  pose proof (sg_slots _ _ _ T1) as TS. pose proof (sg_queue _ _ _ T1) as TQ. rewrite TD0 in TS, TQ. cbn in TS, TQ.
  destruct (add_sim s t d ts last s1 HS HR TS TQ TD0 E) as (t1 & ET & S1 & X & Y & (A1 & A2 & A3) & (B1 & B2 & B3)).
  pose proof (add_part_ok C HC t [] d ts last T1 Hts) as Q. rewrite ET in Q. cbn [holds] in Q.
  destruct Q as (L1' & Q1 & [Q2 Q3] & Q4 & Q5).
  exists t1, L1'. split; [exact ET|].
  assert (GS : r_golden (s_run s1) = false) by congruence. assert (GT : r_golden (s_run t1) = false) by congruence.
  split; [constructor; [exact Q1|exact GT|congruence|discriminate]|].
  split; [exact S1|]. split; [congruence|].
  pose proof (slots_len C s1 L1 P1) as LS1. pose proof (slots_len C s L G1) as LS.
  pose proof (slots_len C t1 L1' Q1) as LT1.
  rewrite A1, app_length in LS1. rewrite B1, TS in LT1. cbn [app] in LT1.
  rewrite TS in B1. rewrite TQ in B3. cbn [app] in B1, B3.
  destruct (geff_len C _ _ _ _ P4) as [->|[q ->]].
  - left. split; [reflexivity|]. destruct L1'; [reflexivity|]. cbn [length] in LT1. lia.
  - destruct (geff_len C _ _ _ _ Q4) as [->|[q' ->]]; cbn [app length] in *; rewrite app_length in LS1; cbn [length] in LS1; [lia|].
    right. exists q, q'. split; [reflexivity|]. split; [reflexivity|].
    pose proof (sg_done _ _ _ G1) as DL.
    pose proof (sg_slots _ _ _ P1) as SS. pose proof (sg_queue _ _ _ P1) as SQ.
    pose proof (sg_slots _ _ _ Q1) as US. pose proof (sg_queue _ _ _ Q1) as UQ.
    assert (SK : skipn (r_done (s_run s1)) (L ++ [q]) = skipn (r_done (s_run s)) L ++ [q]).
    { rewrite P5, skipn_app. replace (r_done (s_run s) - length L)%nat with 0%nat by lia. reflexivity. }
    assert (FK : firstn (r_done (s_run s1)) (L ++ [q]) = firstn (r_done (s_run s)) L).
    { rewrite P5, firstn_app. replace (r_done (s_run s) - length L)%nat with 0%nat by lia. cbn [firstn]. apply app_nil_r. }
    rewrite SK, FK, A1, (sg_slots _ _ _ G1), map_app, app_assoc, P2 in SS. apply app_inv_head in SS. cbn [map] in SS.
    rewrite SK, A3, (sg_queue _ _ _ G1), map_app in SQ. apply app_inv_head in SQ. cbn [map] in SQ.
    rewrite Q5, TD0 in US, UQ. cbn [firstn skipn map app] in US, UQ.
    assert (W : q_epb q = sc_epb (s_cfg s1) /\ q_max q = sc_max_sig (s_cfg s1)).
    { pose proof (sg_wait _ _ _ P1) as W. rewrite SK in W. apply Forall_app in W as [_ W]. apply Forall_inv in W. exact W. }
    assert (W' : q_epb q' = sc_epb (s_cfg t1) /\ q_max q' = sc_max_sig (s_cfg t1)).
    { pose proof (sg_wait _ _ _ Q1) as W'. rewrite Q5, TD0 in W'. apply Forall_inv in W'. exact W'. }
    assert (GQ : gen_ok C (sc_codec (s_cfg s1)) q).
    { pose proof (sg_L _ _ _ P1) as GL. apply Forall_app in GL as [_ GL]. apply Forall_inv in GL. exact GL. }
    assert (GQ' : gen_ok C (sc_codec (s_cfg s1)) q').
    { pose proof (sg_L _ _ _ Q1) as GL. apply Forall_inv in GL. destruct S1 as (-> & _) in GL. exact GL. }
    assert (CT : s_cfg t1 = s_cfg s1) by apply S1. rewrite CT in W', US.
    destruct (fin_same (s_cfg s1) (s_gop s1) q q' GQ GQ') as [FE AE].
    + apply (sg_g _ _ _ P1).
    + apply (sg_type _ _ _ P1). destruct L; discriminate.
    + apply W.
    + apply W.
    + apply W'.
    + apply W'.
    + rewrite P2 in US |- *. rewrite B1, SS in US. congruence.
    + rewrite B3, SQ in UQ. congruence.
    + rewrite P2, G3 in FE, AE. split; [exact FE|]. unfold fits. rewrite FE, AE. auto.
Qed.

(** ** Whole sessions *)

Definition at_any (o : sop) : Prop := match o with OAdd _ _ _ | OGet _ _ => True | _ => False end.
Definition at_feed (o : sop) : list sop := match o with OAdd d ts l => [OAdd d ts l; OGet true []] | _ => [] end.

Lemma run_sim ops : forall c s L s' rs, sinv C false c s L -> first_primary (r_last (s_run s)) -> sc_recurrence (s_cfg s) = 1 ->
  Forall at_any (ops_of ops) -> Forall (op_ok C) (ops_of ops) -> Forall no_failure ops ->
  run_late C ops s = Def (s', rs) -> Forall (fun r => rs_code r = SV_OK) rs ->
  exists L', sinv C false c s' L' /\ first_primary (r_last (s_run s')) /\ (wait_fits c s' L' -> wait_fits c s L) /\
    forall ct t, sinv C ct c t [] -> sim s t -> wait_fits c s' L' ->
      exists t' rs', run C (flat_map at_feed (ops_of ops)) t = Def (t', rs') /\
        Forall (fun r => rs_code r = SV_OK) rs' /\ map (fin c) L ++ returned rs' = returned rs ++ map (fin c) L'.
Proof.
  induction ops as [|[o [p q]] ops IH]; intros c s L s' rs HI FP HR HA HO HF E OK.
  - cbn in E. injection E as <- <-. exists L. split; [exact HI|]. split; [exact FP|]. split; [auto|].
    intros ct t HT HS W. exists t, []. split; [reflexivity|]. split; [constructor|]. cbn. apply app_nil_r.
  - cbn [ops_of map fst] in *. fold (ops_of ops) in *.
    apply Forall_cons_iff in HA as [HA1 HA2], HO as [HO1 HO2], HF as [[HF1 _] HF2]. cbn [fst snd] in HF1.
    cbn [run_late] in E. destruct (exec_late C o p q s) as [[s1 r]|] eqn:E1; [|discriminate]. cbn [obind] in E.
    destruct (run_late C ops s1) as [[s2 l]|] eqn:E2; [|discriminate]. cbn [obind] in E. injection E as <- <-.
    apply Forall_cons_iff in OK as [OK1 OK2].
    destruct o; try contradiction HA1; cbn [exec_late exec] in E1; cbn [flat_map at_feed].
    + destruct (add_part C s data ts last) as [[s1' st]|] eqn:EA; [|discriminate]. cbn [obind fst snd] in E1.
      injection E1 as <- <-. cbn [rs_code code] in OK1. subst st.
      pose proof HI as [G1 G2 G3 _].
      pose proof (add_part_ok C HC s L data ts last G1 HO1) as P. rewrite EA in P. cbn [holds] in P.
      destruct P as (L1 & SP). pose proof SP as (P1 & [P2 P3] & P4 & P5).
      assert (I1 : sinv C false c s1' L1) by (constructor; [exact P1|congruence|congruence|discriminate]).
      assert (FP1 : first_primary (r_last (s_run s1'))).
      { destruct (add_sim s (on_run (fun r => set_r_slots [] (set_r_queue [] (set_r_done 0 r))) s) data ts last s1')
          as (t1 & _ & (_ & _ & _ & _ & _ & _ & _ & _ & F) & _); try reflexivity; try assumption.
        repeat split; assumption. }
      assert (HR1 : sc_recurrence (s_cfg s1') = 1) by congruence.
      destruct (IH c s1' L1 s2 l I1 FP1 HR1 HA2 HO2 HF2 E2 OK2) as (L' & X1 & XF & X2 & X3). exists L'. split; [exact X1|]. split; [exact XF|].
      pose proof (sg_done _ _ _ G1) as DL.
      assert (WB : wait_fits c s1' L1 -> wait_fits c s L).
      { unfold wait_fits. rewrite P5. destruct (geff_len C _ _ _ _ P4) as [->|[g ->]]; [auto|]. rewrite skipn_app, Forall_app. tauto. }
      split; [auto|]. intros ct t HT HS W.
      destruct (add_step ct c s t L data ts last s1' L1 HI HT HS HR HO1 EA SP) as (t1 & L1' & ET & J1 & S1 & K3 & D).
      assert (FT : first_primary (r_last (s_run t1))) by (destruct S1 as (_ & _ & _ & _ & _ & _ & -> & _ & F); exact F).
      destruct D as [[-> ->]|(g & g' & -> & -> & FE & FF)].
      * destruct (get_none _ c t1 J1 FT) as (t2 & EG & J2 & C2 & D2 & R2).
        destruct (X3 true t2 J2 (sim_now s1' t1 t2 S1 C2 D2 R2) W) as (t' & rs' & Y1 & Y4 & Y5).
        eexists t', _. split.
        { cbn [app run exec]. rewrite ET. cbn [obind fst snd]. rewrite EG. cbn [obind]. rewrite Y1. cbn [obind]. reflexivity. }
        split; [constructor; [reflexivity|constructor; [reflexivity|exact Y4]]|]. exact Y5.
      * assert (FG : fits c g').
        { apply FF. specialize (X2 W). unfold wait_fits in X2. rewrite P5, skipn_app, Forall_app in X2.
          replace (r_done (s_run s) - length L)%nat with 0%nat in X2 by lia. destruct X2 as [_ X2]. apply Forall_inv in X2. exact X2. }
        destruct (get_one _ c t1 g' J1 K3 FG FT) as (t2 & n & EG & J2 & C2 & D2 & R2).
        destruct (X3 true t2 J2 (sim_now s1' t1 t2 S1 C2 D2 R2) W) as (t' & rs' & Y1 & Y4 & Y5).
        eexists t', _. split.
        { cbn [app run exec]. rewrite ET. cbn [obind fst snd]. rewrite EG. cbn [obind]. rewrite Y1. cbn [obind]. reflexivity. }
        split; [constructor; [reflexivity|constructor; [reflexivity|exact Y4]]|].
        rewrite returned_nil by reflexivity. change (returned (code SV_OK :: l)) with (returned l).
        rewrite (returned_fin c g') by reflexivity. rewrite <- FE, <- Y5, map_app, <- app_assoc. reflexivity.
    + destruct (get_late_sim false c s L p want peek s1 r HI HF1 FP E1) as (C1 & D1 & R1 & L1 & I1 & W1 & EFF).
      assert (FP1 : first_primary (r_last (s_run s1))).
      { destruct R1 as (_ & _ & _ & _ & R5 & _). rewrite R5. exact FP. }
      assert (HR1 : sc_recurrence (s_cfg s1) = 1) by congruence.
      destruct (IH c s1 L1 s2 l I1 FP1 HR1 HA2 HO2 HF2 E2 OK2) as (L' & X1 & XF & X2 & X3). exists L'. split; [exact X1|]. split; [exact XF|].
      split; [auto|]. intros ct t HT HS W.
      destruct (X3 ct t HT (sim_late s s1 t HS C1 D1 R1) W) as (t' & rs' & Y1 & Y4 & Y5).
      exists t', rs'. cbn [app]. split; [exact Y1|]. split; [exact Y4|].
      destruct EFF as [[ER ->]|(g & -> & ER)].
      * rewrite returned_nil by exact ER. exact Y5.
      * rewrite (returned_fin c g) by exact ER. cbn [map app]. rewrite Y5. reflexivity.
Qed.

Lemma flat_map_turn turns : flat_map at_feed (ops_of (flat_map turn_ops turns)) = flat_map feed (map tu_piece turns).
Proof.
  induction turns as [|t turns IH]; [reflexivity|]. cbn [flat_map map]. unfold ops_of in *. rewrite map_app, flat_map_app, IH.
  f_equal. unfold turn_ops, feed. cbn [map fst flat_map at_feed].
  assert (X : flat_map at_feed (map fst (map (fun x => (OGet (fst (fst x)) (snd (fst x)), snd x)) (tu_gets t))) = []).
  { induction (tu_gets t) as [|x l IHl]; [reflexivity|]. cbn [map fst flat_map at_feed app]. exact IHl. }
  rewrite X, app_nil_r. reflexivity.
Qed.

Lemma late_settings setup : forall polls s, length polls = length setup -> Forall (fun o => is_setting o = true) setup ->
  run_late C (combine setup polls) s = run C setup s.
Proof.
  induction setup as [|o setup IH]; intros [|[p q] polls] s HL HS; try discriminate; [reflexivity|].
  apply Forall_cons_iff in HS as [HS1 HS2]. cbn [combine run_late run].
  assert (X : exec_late C o p q s = exec C o s) by (destruct o; try reflexivity; discriminate). rewrite X.
  destruct (exec C o s) as [[s1 r]|]; [|reflexivity]. cbn [obind]. rewrite IH by (try exact HS2; cbn in HL; lia). reflexivity.
Qed.

Lemma drain_fits n : forall c s L s' rs, sinv C false c s L -> first_primary (r_last (s_run s)) -> (length L <= n)%nat ->
  run_late C (repeat pull_all n) s = Def (s', rs) -> wait_fits c s L.
Proof.
  induction n as [|n IH]; intros c s L s' rs HI FP HL E.
  - destruct L; [|cbn in HL; lia]. unfold wait_fits. rewrite skipn_nil. constructor.
  - destruct L as [|g L]; [unfold wait_fits; rewrite skipn_nil; constructor|].
    cbn [repeat run_late pull_all exec_late] in E.
    pose proof (sg_60 _ _ _ (si_good _ _ _ _ _ HI)) as L60.
    pose proof (get_late_exact C _ c s (g :: L) (mkPoll 60 false) true [] HI eq_refl) as X.
    destruct (get_sei_late (mkPoll 60 false) s true []) as [[s1 r]|] eqn:E1; [|discriminate]. cbn [obind holds] in *.
    destruct (run_late C (repeat pull_all n) s1) as [[s2 l]|] eqn:E2; [|discriminate].
    destruct X as (_ & X & NE & _). specialize (NE eq_refl L60 ltac:(discriminate)).
    destruct X as [(X & _)|(g' & L' & X1 & X2 & X3 & _)]; [contradiction|]. injection X1 as <- <-.
    destruct (get_late_sim false c s (g :: L) (mkPoll 60 false) true [] s1 r HI eq_refl FP E1) as (C1 & D1 & R1 & L1 & I1 & W1 & EFF).
    apply W1. destruct EFF as [[ER _]|(g' & X & _)].
    { destruct (fin_cons c g) as (y & z & F). congruence. }
    injection X as <- <-. eapply IH; [exact I1| |cbn in HL; lia|exact E2].
    destruct R1 as (_ & _ & _ & _ & R5 & _). rewrite R5. exact FP.
Qed.

Theorem anytime c coin setup polls before gs turns rs : signs_anytime C c coin setup polls before gs turns rs ->
  w_rec (fold_left (ask C) setup defaults) = 1 ->
  exists rs', signs C c coin setup before gs rs' /\ returned rs' = returned rs.
Proof.
  intros (HL & HP & HF & HO & HI & HK & HSN & HB & HG & (s & E) & OK) HW.
  rewrite run_late_app, (late_settings setup polls _ HL HI) in E.
  destruct (run C setup (create c coin)) as [[s0 a]|] eqn:E0; [|discriminate]. cbn [obind] in E.
  rewrite run_late_app in E.
  destruct (run_late C (flat_map turn_ops turns) s0) as [[s1 b]|] eqn:E1; [|discriminate]. cbn [obind] in E.
  destruct (run_late C (repeat pull_all 60) s1) as [[s2 d]|] eqn:E2; [|discriminate]. cbn [obind] in E.
  injection E as <- <-. rewrite !Forall_app in OK. destruct OK as (O0 & O1 & O2).
  destruct (pre_run C HC c setup defaults _ _ _ (pre_create C HC c coin) HO HI E0 O0) as [P R0].
  destruct P as [P1 P2 P3 P4 P5 P6 P7].
  assert (FP0 : first_primary (r_last (s_run s0))) by (rewrite P4; discriminate).
  assert (HR0 : sc_recurrence (s_cfg s0) = 1) by (rewrite (ag_rec _ _ _ _ P2); exact HW).
  assert (HA : Forall at_any (ops_of (flat_map turn_ops turns))).
  { unfold ops_of. apply Forall_map, Forall_flat_map, Forall_forall. intros t _. constructor; [exact I|].
    apply Forall_map, Forall_forall. intros x _. exact I. }
  assert (HOK : Forall (op_ok C) (ops_of (flat_map turn_ops turns))).
  { unfold ops_of. apply Forall_map, Forall_flat_map, Forall_forall. intros t Ht. constructor.
    - assert (IN : In (tu_piece t) (before ++ concat gs)) by (rewrite <- HP; apply in_map, Ht).
      rewrite Forall_forall in HSN. destruct (HSN _ IN) as [HT _]. cbn. destruct (p_ts (tu_piece t)); [exact HT|exact I].
    - apply Forall_map, Forall_forall. intros x _. exact I. }
  destruct (run_sim (flat_map turn_ops turns) c s0 [] s1 b (sinv_weak C _ _ _ _ P1) FP0 HR0 HA HOK HF E1 O1) as (L1 & I1 & F1 & W1 & X1).
  pose proof (drain_late C 60 false c s1 L1 I1 (sg_60 _ _ _ (si_good _ _ _ _ _ I1))) as D. rewrite E2 in D. cbn [holds] in D.
  destruct D as (D1 & _ & _).
  assert (W : wait_fits c s1 L1).
  { apply (drain_fits 60 c s1 L1 s2 d); try assumption. apply (sg_60 _ _ _ (si_good _ _ _ _ _ I1)). }
  destruct (X1 true s0 P1) as (t' & rs' & Y1 & Y2 & Y3); [|exact W|].
  { repeat split; assumption. }
  rewrite flat_map_turn, HP in Y1. cbn [map app] in Y3.
  exists (a ++ rs'). split.
  - unfold signs. do 6 (split; [assumption|]). split; [|apply Forall_app; auto].
    exists t'. rewrite run_app, E0. cbn [obind]. rewrite Y1. reflexivity.
  - rewrite !returned_app, D1, Y3. reflexivity.
Qed.

Lemma anytime_same c coin setup polls1 polls2 before gs turns1 turns2 rs1 rs2 :
  signs_anytime C c coin setup polls1 before gs turns1 rs1 -> signs_anytime C c coin setup polls2 before gs turns2 rs2 ->
  w_rec (fold_left (ask C) setup defaults) = 1 -> returned rs1 = returned rs2.
Proof.
  intros H1 H2 HW. destruct (anytime _ _ _ _ _ _ _ _ H1 HW) as (r1 & (_ & _ & _ & _ & _ & _ & (s1 & E1) & _) & <-).
  destruct (anytime _ _ _ _ _ _ _ _ H2 HW) as (r2 & (_ & _ & _ & _ & _ & _ & (s2 & E2) & _) & <-). congruence.
Qed.
End TimingP.

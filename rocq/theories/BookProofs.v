(** The bookkeeping of NALUs in a validating session: lemmas. *)
From Verif Require Import Base BaseProofs Nalu Crypto Types Hash Tlv TlvProofs SignerProofs VTypes NaluList Validator VListProofs
  VFrameProofs ValidSpec.
Local Open Scope N_scope.

Lemma type_char_space n : type_char (Some n) <> 32.
Proof. cbn. repeat brk; discriminate. Qed.
Lemma names_nalu_str l : no_space (nalu_str l) = names l.
Proof.
  induction l as [|it l IH]; [reflexivity|]. unfold nalu_str, no_space, names in *. cbn [map filter flat_map]. unfold kind at 1.
  destruct (i_nalu it) as [n|].
  - pose proof (type_char_space n) as H. apply N.eqb_neq in H. rewrite H. cbn [negb app]. congruence.
  - cbn. exact IH.
Qed.
Lemma pending_char it : (stat_char (i_status it) =? 80) = pending it.
Proof. unfold pending. destruct (i_status it); reflexivity. Qed.
Lemma clean_names l : names (fst (clean_up l)) = from_pending (validation_str l) (nalu_str l).
Proof.
  induction l as [|it l IH]; [reflexivity|]. cbn [clean_up validation_str nalu_str map from_pending]. rewrite pending_char.
  destruct (pending it).
  - symmetry. apply (names_nalu_str (it :: l)).
  - destruct (clean_up l) as [l2 k]. exact IH.
Qed.
Lemma clean_wf l : Forall item_wf l -> Forall item_wf (fst (clean_up l)).
Proof.
  induction 1 as [|it l W0 W IH]; cbn [clean_up]; [constructor|]. destruct (pending it); [constructor; assumption|].
  destruct (clean_up l) as [l2 k]. exact IH.
Qed.
Lemma strings_aligned l : Forall item_wf l -> Forall2 aligned (validation_str l) (nalu_str l).
Proof.
  induction 1 as [|it l (W1 & W2 & _) W IH]; cbn; [constructor|]. constructor; [|exact IH]. split.
  - intros E. rewrite W1; [reflexivity|]. destruct (i_status it); try discriminate. reflexivity.
  - intros E. destruct (i_nalu it) as [n|] eqn:EN; [exfalso; exact (type_char_space n E)|].
    destruct (W2 eq_refl) as [[-> | ->] _]; auto.
Qed.

Section Books.
Variable C : crypto.
Variable Ov : ovf.

(** The report of a session with items [l]: strings and what is left. *)
Lemma update_report_latest v :
  l_vstr (v_latest (update_report v)) = validation_str (v_items v) /\
  l_nstr (v_latest (update_report v)) = nalu_str (v_items v) /\
  v_items (update_report v) = fst (clean_up (v_items v)) /\
  v_report (update_report v) = v_report v /\ v_codec (update_report v) = v_codec v /\ v_legacy (update_report v) = v_legacy v.
Proof.
  unfold update_report. cbv zeta. dif; cbn [v_items on_latest set_v_latest v_dec];
    destruct (clean_up (v_items v)) as [l k]; cbn; auto 10.
Qed.
Lemma get_report_strings v v' p : get_report v = (v', Some p) ->
  p_latest p = v_latest v /\ v_items v' = v_items v /\ v_codec v' = v_codec v /\ v_legacy v' = v_legacy v /\ v_report v' = v_report v.
Proof. unfold get_report. destruct (negb _); [discriminate|]. intros E. injection E as <- <-. cbn. auto. Qed.

Lemma add_books f v d w v' x : wfv v -> names (v_items v) = w -> sized (v_codec v) d -> d <> [] ->
  add_nalu C Ov f v d true = Def (v', x) ->
  match x with
  | VLegacy => True
  | VRes st r =>
      wfv v' /\ v_codec v' = v_codec v /\
      match r with
      | None => names (v_items v') = w ++ [shown (v_codec v) d]
      | Some p => report_on (w ++ [shown (v_codec v) d]) p /\
                  names (v_items v') = from_pending (l_vstr (p_latest p)) (l_nstr (p_latest p))
      end
  end.
Proof.
  intros W EW HS HD. destruct d as [|d0 d1]; [congruence|]. set (d := d0 :: d1) in *. unfold add_nalu.
  change (match d with [] => _ | _ => ?k end) with k. cbv zeta. set (v1 := create_report (set_v_started true v)).
  assert (E1 : v_items v1 = v_items v /\ v_codec v1 = v_codec v /\ v_report v1 = true /\ v_legacy v1 = v_legacy v).
  { unfold v1, create_report. cbn [v_report set_v_started]. destruct (v_report v) eqn:E; cbn; auto. }
  clearbody v1. destruct E1 as (E1 & E2 & E3 & E4). destruct (v_legacy v1); [intros H; injection H as <- <-; exact I|].
  unfold shown. pose proof (add_h26x_fr C Ov f v1 d) as HF.
  destruct (parse_nalu d (v_codec v) true true) as [n|u] eqn:EP.
  2:{ unfold add_h26x. rewrite E2, EP. discriminate. }
  pose proof (add_h26x_grown C Ov f v1 d n) as HG. rewrite E2 in HG. specialize (HG EP (HS n EP)).
  unfold wfv in HG. rewrite E1 in HG. specialize (HG W).
  destruct (add_h26x C Ov f v1 d) as [[v2 st]|u]; [|discriminate]. cbn [holds obind] in *.
  destruct (v_legacy v2) eqn:EL; [intros H; injection H as <- <-; exact I|].
  destruct HF as [HF|(F1 & F2 & F3 & F4)]; [congruence|]. destruct HG as [HG HW].
  destruct (negb (is_ok st)).
  { intros H. injection H as <- <-. split; [exact HW|]. split; [congruence|]. rewrite HG, EW. reflexivity. }
  destruct (v_result v2).
  2:{ intros H. injection H as <- <-. split; [exact HW|]. split; [congruence|]. rewrite HG, EW. reflexivity. }
  cbv zeta. destruct (update_report_latest v2) as (U1 & U2 & U3 & U4 & U5 & U6).
  destruct (get_report (update_report v2)) as [v3 r] eqn:EG. intros H. injection H as <- <-. unfold wfv. cbn [v_items on_dec set_v_dec v_codec].
  destruct r as [p|].
  - apply get_report_strings in EG as (G1 & G2 & G3 & G4 & G5). rewrite G2, G3, U3, U5, F1, E2.
    split; [apply clean_wf, HW|]. split; [reflexivity|]. unfold report_on. cbv zeta. rewrite G1, U1, U2. split.
    + split; [apply strings_aligned, HW|]. rewrite names_nalu_str, HG, EW. reflexivity.
    + apply clean_names.
  - exfalso. unfold get_report in EG. rewrite U4, F2, E3 in EG. discriminate.
Qed.

Lemma run_books f ops : forall v w v' res, wfv v -> names (v_items v) = w -> Forall (asks (v_codec v)) ops ->
  vrun C Ov f v ops = Def (v', res) -> books (v_codec v) w ops res.
Proof.
  induction ops as [|o ops IH]; intros v w v' res W EW HA; cbn [vrun].
  { intros E. injection E as <- <-. exact I. }
  destruct (vexec C Ov f v o) as [[v1 x]|] eqn:EX; [|discriminate]. cbn [obind].
  destruct (vrun C Ov f v1 ops) as [[v2 xs]|] eqn:ER; [|discriminate]. cbn [obind]. intros E. injection E as <- <-.
  apply Forall_cons_iff in HA as [HA0 HA].
  assert (NX : forall v1 w1, wfv v1 -> names (v_items v1) = w1 -> v_codec v1 = v_codec v ->
                 vrun C Ov f v1 ops = Def (v2, xs) -> books (v_codec v) w1 ops xs).
  { intros u w1 HW HN HC HR. rewrite <- HC. eapply IH; [exact HW|exact HN|rewrite HC; exact HA|exact HR]. }
  destruct o as [d want|key| |]; cbn [vexec] in EX.
  - destruct HA0 as [-> HS]. destruct d as [|d0 d1].
    + cbn in EX. injection EX as <- <-. cbn [books]. split; [reflexivity|]. eapply NX; eauto.
    + pose proof (add_books f v (d0 :: d1) w v1 x W EW HS ltac:(discriminate) EX) as HB. cbn [books].
      destruct x as [st [p|]|]; [| |exact I].
      * destruct HB as (HW & HC & HR & HN). split; [exact HR|]. eapply NX; eauto.
      * destruct HB as (HW & HC & HN). eapply NX; eauto.
  - cbn [books]. assert (E : v_items v1 = v_items v /\ v_codec v1 = v_codec v).
    { unfold set_public_key in EX. destruct key; [injection EX as <- <-; auto|]. destruct (d_pub (v_dec v)); [|injection EX as <- <-; auto].
      destruct (v_started v); [injection EX as <- <-; auto|]. destruct (c_pub_ok C _); injection EX as <- <-; auto. }
    destruct E as [E1 E2]. eapply NX; [| |exact E2|exact ER]; [unfold wfv; rewrite E1; exact W|rewrite E1; exact EW].
  - injection EX as <- <-. cbn [books]. eapply NX; [| | |exact ER]; [constructor|reflexivity|reflexivity].
  - destruct (v_legacy v); [injection EX as <- <-; cbn [books]; eapply NX; eauto|].
    destruct (get_report v) as [v3 r] eqn:EG. injection EX as <- <-. cbn [books].
    unfold get_report in EG. destruct (negb (v_report v)); injection EG as <- <-; eapply NX; [| | |exact ER| | | |exact ER]; eauto.
Qed.

Lemma session_books f c ops v res : Forall (asks c) ops ->
  vrun C Ov f (vcreate C c) ops = Def (v, res) -> books c [] ops res.
Proof. intros HA. exact (run_books f ops (vcreate C c) [] v res (Forall_nil _) eq_refl HA). Qed.

(** *** Received, validated and pending *)
Definition sums (v : valid) : Prop :=
  if v_report v then a_recv (v_acc v) = u32 (a_val (v_acc v) + nlen (names (v_items v))) else v_items v = [].

Definition gap (it : item) : bool := match i_nalu it with None => true | Some _ => false end.
Lemma gap_char it : (type_char (i_nalu it) =? 32) = gap it.
Proof. unfold gap. destruct (i_nalu it) as [n|]; [|reflexivity]. apply N.eqb_neq, type_char_space. Qed.
Lemma names_gaps l : nlen l = nlen (names l) + nlen (filter (fun t => t =? 32) (nalu_str l)).
Proof.
  unfold nlen, names, nalu_str. induction l as [|it l IH]; [reflexivity|]. cbn [map filter flat_map length]. rewrite gap_char, app_length. unfold gap, kind at 1. destruct (i_nalu it); cbn [length]; lia.
Qed.
Lemma settled_sums l : ~ In (32, 69) (combine (nalu_str l) (validation_str l)) -> Forall item_wf l ->
  nlen (names l) = snd (clean_up l) + nlen (names (fst (clean_up l))) /\
  nlen (fst (clean_up l)) = nlen (names (fst (clean_up l))) + gaps_from_pending (validation_str l) (nalu_str l).
Proof.
  intros H W. induction W as [|it l W0 W IH]; [split; reflexivity|].
  assert (H2 : ~ In (32, 69) (combine (nalu_str l) (validation_str l))) by (intros E; apply H; right; exact E). destruct (IH H2) as [I1 I2].
  cbn [clean_up validation_str nalu_str map gaps_from_pending]. rewrite pending_char. destruct (pending it); [cbn [fst snd]; split; [reflexivity|apply (names_gaps (it :: l))]|].
  destruct (clean_up l) as [l2 k]. cbn [fst snd] in *. split; [|exact I2].
  assert (E : vstat_eqb (i_status it) SMiss = gap it).
  { unfold gap. destruct W0 as (W1 & W2 & _). destruct (i_nalu it) as [n|] eqn:EN; [destruct (i_status it); try reflexivity; discriminate (W1 eq_refl)|].
    destruct (proj1 (W2 eq_refl)) as [-> | E]; [reflexivity|]. exfalso. apply H. left. rewrite EN, E. reflexivity. }
  rewrite E. unfold nlen in *. unfold names, gap, kind in *. cbn [flat_map]. rewrite app_length. destruct (i_nalu it); cbn [length]; lia.
Qed.

Lemma u32_bump a b c : a = u32 (b + c) -> u32 (a + 1) = u32 (b + (c + 1)).
Proof. intros ->. unfold u32. lia. Qed.
Lemma u32_u32 a b : u32 (u32 a + b) = u32 (a + b).
Proof. unfold u32. lia. Qed.

Lemma add_sums f v d v' x : wfv v -> sums v -> sized (v_codec v) d -> d <> [] ->
  add_nalu C Ov f v d true = Def (v', x) ->
  match x with
  | VLegacy => True
  | VRes st None => sums v'
  | VRes st (Some p) => settled p -> counted p /\ sums v'
  end.
Proof.
  intros W S HS HD. destruct d as [|d0 d1]; [congruence|]. set (d := d0 :: d1) in *. unfold add_nalu.
  change (match d with [] => _ | _ => ?k end) with k. cbv zeta. set (v1 := create_report (set_v_started true v)).
  assert (E1 : v_items v1 = v_items v /\ v_codec v1 = v_codec v /\ v_report v1 = true /\ sums v1).
  { unfold v1, create_report, sums in *. cbn [v_report set_v_started]. destruct (v_report v) eqn:E; cbn; rewrite ?E; auto.
    split; [auto|]. split; [auto|]. split; [auto|]. rewrite S. reflexivity. }
  clearbody v1. destruct E1 as (E1 & E2 & E3 & E4). destruct (v_legacy v1); [intros H; injection H as <- <-; exact I|].
  pose proof (add_h26x_fr C Ov f v1 d) as HF.
  destruct (parse_nalu d (v_codec v) true true) as [n|u] eqn:EP.
  2:{ unfold add_h26x. rewrite E2, EP. discriminate. }
  pose proof (add_h26x_grown C Ov f v1 d n) as HG. rewrite E2 in HG. specialize (HG EP (HS n EP)).
  assert (W1 : wfv v1) by (unfold wfv; rewrite E1; exact W). specialize (HG W1).
  destruct (add_h26x C Ov f v1 d) as [[v2 st]|u]; [|discriminate]. cbn [holds obind] in *.
  destruct (v_legacy v2) eqn:EL; [intros H; injection H as <- <-; exact I|].
  destruct HF as [HF|(F1 & F2 & F3 & F4)]; [congruence|]. destruct HG as [HG HW].
  assert (S2 : sums v2).
  { unfold sums in *. rewrite F2, E3 in *. rewrite F4, HG. unfold bump. cbn [a_recv set_a_recv a_val].
    unfold nlen in *. rewrite app_length. cbn [length]. rewrite (u32_bump _ _ _ E4). f_equal. lia. }
  destruct (negb (is_ok st)); [intros H; injection H as <- <-; exact S2|].
  destruct (v_result v2); [|intros H; injection H as <- <-; exact S2].
  cbv zeta. destruct (update_report_latest v2) as (U1 & U2 & U3 & U4 & U5 & U6).
  destruct (get_report (update_report v2)) as [v3 r] eqn:EG. intros H. injection H as <- <-.
  destruct r as [p|].
  2:{ exfalso. unfold get_report in EG. rewrite U4, F2, E3 in EG. discriminate. }
  intros [P1 P2]. unfold get_report in EG. rewrite U4, F2, E3 in EG. cbn [negb] in EG. injection EG as <- <-.
  cbn [p_acc p_latest v_acc on_acc set_v_acc v_latest] in *. rewrite U1, U2 in P2.
  destruct (settled_sums _ P2 HW) as (L1 & L2).
  assert (HA : a_auth (v_acc (update_report v2)) <> NotSigned ->
     a_recv (v_acc (update_report v2)) = a_recv (v_acc v2) /\ a_val (v_acc (update_report v2)) = u32 (a_val (v_acc v2) + snd (clean_up (v_items v2)))).
  { clear. unfold update_report. cbv zeta. dif; cbn [v_items on_latest set_v_latest v_dec v_acc];
      destruct (clean_up (v_items v2)) as [l k]; cbn [fst snd v_acc set_v_acc]; intros HN;
      (match goal with |- context [match a_auth ?a with _ => _ end] => destruct (a_auth a) eqn:EA end);
      cbn [a_recv a_val set_a_val accumulate] in *; try (split; reflexivity); exfalso; apply HN; exact EA. }
  specialize (HA P1). destruct HA as [A1 A2].
  unfold sums in S2 |- *. rewrite F2, E3 in S2. cbn [v_report on_dec set_v_dec v_acc v_items on_acc set_v_acc a_recv a_val a_pend set_a_pend].
  rewrite U4, F2, E3. unfold counted. cbn [p_latest v_latest on_acc]. rewrite U1, U2. cbn [p_acc a_recv a_val a_pend set_a_pend v_acc set_v_acc].
  rewrite A1, A2, U3, S2, L1, L2.
  destruct (a_auth (v_acc (update_report v2))) eqn:EA; [exfalso; apply P1; exact EA|..]; clear; unfold u32; (split; [split|]; lia).
Qed.

Lemma run_sums f ops : forall v v' res, wfv v -> sums v -> Forall (asks (v_codec v)) ops ->
  ~ In VLegacy res -> vrun C Ov f v ops = Def (v', res) -> Forall settled (reports ops res) -> Forall counted (reports ops res).
Proof.
  induction ops as [|o ops IH]; intros v v' res W S HA HL; cbn [vrun].
  { intros E. injection E as <- <-. constructor. }
  destruct (vexec C Ov f v o) as [[v1 x]|] eqn:EX; [|discriminate]. cbn [obind].
  destruct (vrun C Ov f v1 ops) as [[v2 xs]|] eqn:ER; [|discriminate]. cbn [obind]. intros E. injection E as <- <-.
  assert (HL1 : ~ In VLegacy xs) by (intros G; apply HL; right; exact G).
  assert (HL0 : x <> VLegacy) by (intros G; apply HL; left; exact G).
  apply Forall_cons_iff in HA as [HA0 HA].
  assert (NX : forall v1, wfv v1 -> sums v1 -> v_codec v1 = v_codec v ->
                 vrun C Ov f v1 ops = Def (v2, xs) -> Forall settled (reports ops xs) -> Forall counted (reports ops xs)).
  { intros u HW HN HC HR. eapply IH; [exact HW|exact HN|rewrite HC; exact HA|exact HL1|exact HR]. }
  destruct o as [d want|key| |]; cbn [vexec] in EX.
  - destruct HA0 as [-> HS]. destruct d as [|d0 d1].
    + cbn in EX. injection EX as <- <-. cbn [reports]. eapply NX; eauto.
    + pose proof (add_books f v (d0 :: d1) _ v1 x W eq_refl HS ltac:(discriminate) EX) as HB.
      pose proof (add_sums f v (d0 :: d1) v1 x W S HS ltac:(discriminate) EX) as HB2. cbn [reports].
      destruct x as [st [p|]|]; [| |congruence].
      * destruct HB as (HW & HC & HR & HN). intros HM. apply Forall_cons_iff in HM as [HM0 HM].
        destruct (HB2 HM0) as [HB3 HB4]. constructor; [exact HB3|]. eapply NX; eauto.
      * destruct HB as (HW & HC & HN). eapply NX; eauto.
  - assert (E : v_items v1 = v_items v /\ v_codec v1 = v_codec v /\ v_report v1 = v_report v /\ v_acc v1 = v_acc v).
    { unfold set_public_key in EX. destruct key; [injection EX as <- <-; auto|]. destruct (d_pub (v_dec v)); [|injection EX as <- <-; auto].
      destruct (v_started v); [injection EX as <- <-; auto|]. destruct (c_pub_ok C _); injection EX as <- <-; auto. }
    destruct E as (E1 & E2 & E3 & E4). cbn [reports]. destruct x as [st [p|]|]; (eapply NX; [| |exact E2|exact ER]); unfold wfv, sums in *; rewrite ?E1, ?E3, ?E4; auto.
  - injection EX as <- <-. cbn [reports]. eapply NX; [| | |exact ER]; [constructor|unfold sums; cbn; destruct (v_report v); reflexivity|reflexivity].
  - destruct (v_legacy v); [injection EX as <- <-; congruence|].
    destruct (get_report v) as [v3 r] eqn:EG. injection EX as <- <-. cbn [reports].
    unfold get_report in EG. destruct (negb (v_report v)); injection EG as <- <-; eapply NX; [| | |exact ER| | | |exact ER]; eauto.
Qed.

Lemma session_counted f c ops v res : Forall (asks c) ops -> ~ In VLegacy res ->
  vrun C Ov f (vcreate C c) ops = Def (v, res) -> Forall settled (reports ops res) -> Forall counted (reports ops res).
Proof. intros HA HL. exact (run_sums f ops (vcreate C c) v res (Forall_nil _) eq_refl HA HL). Qed.
Lemma no_gaps vs : forall ns, ~ In 32 ns -> gaps_from_pending vs ns = 0.
Proof.
  induction vs as [|s vs IH]; intros [|t ns] H; try reflexivity. cbn [gaps_from_pending]. destruct (s =? 80); [|apply IH; intros E; apply H; right; exact E].
  assert (G : forall l, ~ In 32 l -> filter (fun t => t =? 32) l = []).
  { induction l as [|x l IL]; intros HN; [reflexivity|]. cbn [filter]. destruct (N.eqb_spec x 32) as [E|E]; [exfalso; apply HN; left; exact E|apply IL; intros F; apply HN; right; exact F]. }
  rewrite G; [reflexivity|exact H].
Qed.
Lemma session_sums f c ops v res : Forall (asks c) ops -> ~ In VLegacy res ->
  vrun C Ov f (vcreate C c) ops = Def (v, res) -> Forall nothing_missing (reports ops res) -> Forall balanced (reports ops res).
Proof.
  intros HA HL HR HN. assert (HS : Forall settled (reports ops res)).
  { eapply Forall_impl; [|exact HN]. intros p [P1 P2]. split; [exact P1|]. intros E. apply in_combine_l in E. exact (P2 E). }
  pose proof (session_counted f c ops v res HA HL HR HS) as HC. clear -HC HN. induction HC as [|p l [Q1 Q2] HC IH]; constructor; [|apply IH; inversion HN; assumption].
  inversion HN as [|x y [_ P2] _]; subst. rewrite no_gaps in Q2 by exact P2. unfold balanced. rewrite N.add_0_r in Q2. lia.
Qed.

End Books.

Lemma books_reports c ops : forall w res, ~ In VLegacy res -> books c w ops res ->
  Forall (fun p => Forall2 aligned (l_vstr (p_latest p)) (l_nstr (p_latest p))) (reports ops res).
Proof.
  induction ops as [|o ops IH]; intros w [|x res] HL HB; [constructor..| |].
  { destruct o as [[|]| | |]; constructor. }
  assert (HL1 : ~ In VLegacy res) by (intros G; apply HL; right; exact G).
  assert (HL0 : x <> VLegacy) by (intros G; apply HL; left; exact G).
  destruct o as [[|d0 d1] want|key| |]; cbn [books reports] in *.
  - destruct HB as [-> HB]. eauto.
  - destruct x as [st [p|]|]; [|eauto|congruence]. destruct HB as [[H1 H2] HB]. constructor; [exact H1|eauto].
  - destruct x as [st [p|]|]; eauto.
  - destruct x as [st [p|]|]; eauto.
  - destruct x as [st [p|]|]; eauto.
Qed.

Lemma Forall2_len {A B} (R : A -> B -> Prop) l m : Forall2 R l m -> length l = length m.
Proof. induction 1; cbn; congruence. Qed.
Lemma books_lengths c ops w res : ~ In VLegacy res -> books c w ops res ->
  Forall (fun p => length (l_vstr (p_latest p)) = length (l_nstr (p_latest p)) /\
                   Forall2 aligned (l_vstr (p_latest p)) (l_nstr (p_latest p))) (reports ops res).
Proof.
  intros HL HB. eapply Forall_impl; [|exact (books_reports c ops w res HL HB)]. intros p H. split; [eapply Forall2_len, H|exact H].
Qed.

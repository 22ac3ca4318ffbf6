(** The statuses shown and the verdict given: proofs. *)
From Verif Require Import Base BaseProofs Epb Nalu Crypto Types Hash Tlv TlvProofs CodecSpec SignerProofs VTypes NaluList Validator VListProofs VFrameProofs BookProofs VAuthProofs VLost VTerm VKeyProofs ValidSpec MatchSpec AuthSpec AuthProofs LinkList LinkProofs ShownSpec ShownList.
Local Open Scope N_scope.
Notation good := VTerm.good.

(** *** Views *)
Definition same (l m : list item) : Prop := map vw m = map vw l.
Lemma same_refl l : same l l. Proof. reflexivity. Qed.
Lemma same_Forall (P : item -> Prop) l m : (forall a b, vw b = vw a -> P a -> P b) -> same l m -> Forall P l -> Forall P m.
Proof.
  intros H. unfold same. revert m. induction l as [|a l IH]; intros [|b m] E; cbn in E; try discriminate; [constructor|]. intros HF. apply Forall_cons_iff in HF as [H0 HF]. injection E as E1 E2 E3 E4 E5. constructor; [|auto].
  apply (H a); [unfold vw; congruence|exact H0].
Qed.
Lemma vw_flags a b : vw b = vw a -> item_sei b = item_sei a /\ pending b = pending a /\ i_used b = i_used a /\ i_decoded b = i_decoded a /\ i_status b = i_status a /\ bad b = bad a /\ pk1 b = pk1 a.
Proof.
  unfold vw. intros E. injection E as E1 E2 E3 E4. assert (ES : item_sei b = item_sei a).
  { unfold item_sei. destruct (i_nalu a), (i_nalu b); cbn in E1; try discriminate; [|reflexivity]. unfold kind in E1. congruence. }
  assert (EP : pending b = pending a) by (unfold pending; rewrite E2; reflexivity).
  unfold bad. rewrite ES, E2. repeat (split; [assumption || reflexivity|]).
  unfold pk1. rewrite EP. destruct (i_nalu a), (i_nalu b); cbn in E1; try discriminate; [|reflexivity]. unfold kind in E1. injection E1 as E5 E6 E7 E8 E9. rewrite E6, E7, E8. reflexivity.
Qed.
Lemma vw_wf a b : vw b = vw a -> wf a -> wf b.
Proof.
  intros E. destruct (vw_flags a b E) as (_ & F2 & _ & _ & F5 & _). unfold wf. rewrite F2, F5. unfold vw in E. injection E as E1 _ _ _. destruct (i_nalu a), (i_nalu b); cbn [option_map] in E1; try discriminate; [|auto].
  unfold kind in E1. injection E1 as E5 E6 E7 E8 E9. rewrite E5, E6, E7, E8. unfold type_char in *. rewrite E9. auto.
Qed.
Lemma vw_nb a b : vw b = vw a -> nb a -> nb b.
Proof. intros E. destruct (vw_flags a b E) as (_ & _ & _ & _ & _ & F6 & _). unfold nb. rewrite F6. auto. Qed.
Lemma same_pk l m : same l m -> pk m = pk l.
Proof.
  unfold same. revert m. induction l as [|a l IH]; intros [|b m] E; cbn in E; try discriminate; [reflexivity|]. assert (E1 : vw b = vw a) by congruence. assert (E2 : map vw m = map vw l) by congruence. unfold pk. cbn [flat_map].
  destruct (vw_flags a b E1) as (_ & _ & _ & _ & _ & _ & ->). f_equal. apply IH, E2.
Qed.
Lemma same_app l m a b : same l m -> l = a ++ b -> exists c d, m = c ++ d /\ same a c /\ same b d.
Proof. intros E ->. unfold same in *. rewrite map_app in E. apply map_eq_app in E as (c & d & -> & E1 & E2). eauto. Qed.
Lemma same_uf l m : same l m -> uf l -> uf m.
Proof.
  intros E (a & b1 & b2 & EL & A & B1 & B2). destruct (same_app _ _ _ _ E EL) as (a' & b' & -> & EA & EB). destruct (same_app _ _ b1 b2 EB eq_refl) as (b1' & b2' & -> & E1 & E2). exists a', b1', b2'. split; [reflexivity|].
  split; [revert EA A|split; [revert E1 B1|revert E2 B2]]; apply same_Forall; intros x y EV; destruct (vw_flags x y EV) as (F1 & F2 & F3 & F4 & F5 & F6 & _); unfold nb; rewrite ?F1, ?F2, ?F3, ?F6; auto.
Qed.
Lemma same_shp l m : same l m -> shp l -> shp m.
Proof.
  intros E (a & b & EL & A & B). destruct (same_app _ _ _ _ E EL) as (a' & b' & -> & EA & EB). exists a', b'. split; [reflexivity|].
  split; [revert EA A|revert EB B]; apply same_Forall; intros x y EV; destruct (vw_flags x y EV) as (F1 & F2 & F3 & F4 & F5 & F6 & _); unfold nb; rewrite ?F2, ?F6; auto.
Qed.
(** What only depends on the NALUs and the statuses. *)
Lemma sh_Forall (P : item -> Prop) l m : (forall a b, sh b = sh a -> P a -> P b) -> map sh m = map sh l -> Forall P l -> Forall P m.
Proof.
  intros H. revert m. induction l as [|a l IH]; intros [|b m] E; cbn in E; try discriminate; [constructor|]. intros HF. apply Forall_cons_iff in HF as [H0 HF]. injection E as E1 E2 E3. constructor; [|auto]. apply (H a); [unfold sh; congruence|exact H0].
Qed.
Lemma sh_flags a b : sh b = sh a -> item_sei b = item_sei a /\ pending b = pending a /\ i_status b = i_status a /\ bad b = bad a /\ pk1 b = pk1 a /\ (wf a -> wf b).
Proof.
  unfold sh. intros E. injection E as E1 E2. assert (EP : pending b = pending a) by (unfold pending; rewrite E2; reflexivity). assert (ES : item_sei b = item_sei a) by (unfold item_sei; rewrite E1; reflexivity).
  unfold bad, pk1, wf. rewrite ES, EP, E1, E2. auto 10.
Qed.
Lemma sh_pk l : forall m, map sh m = map sh l -> pk m = pk l.
Proof.
  induction l as [|a l IH]; intros [|b m] E; cbn in E; try discriminate; [reflexivity|]. assert (E1 : sh b = sh a) by congruence. assert (E2 : map sh m = map sh l) by congruence. unfold pk. cbn [flat_map].
  destruct (sh_flags a b E1) as (_ & _ & _ & _ & -> & _). f_equal. apply IH, E2.
Qed.
Lemma sh_wf l m : map sh m = map sh l -> Forall wf l -> Forall wf m.
Proof. apply sh_Forall. intros a b E. apply (sh_flags a b E). Qed.
Lemma sh_nb l m : map sh m = map sh l -> Forall nb l -> Forall nb m.
Proof. apply sh_Forall. intros a b E. unfold nb. destruct (sh_flags a b E) as (_ & _ & _ & -> & _). auto. Qed.
Lemma sh_app l m a b : map sh m = map sh l -> l = a ++ b -> exists c d, m = c ++ d /\ map sh c = map sh a /\ map sh d = map sh b.
Proof. intros E ->. rewrite map_app in E. apply map_eq_app in E as (c & d & -> & E1 & E2). eauto. Qed.
Lemma sh_shp l m : map sh m = map sh l -> shp l -> shp m.
Proof.
  intros E (a & b & EL & A & B). destruct (sh_app _ _ _ _ E EL) as (a' & b' & -> & EA & EB). exists a', b'. split; [reflexivity|].
  split; [revert EA A; apply sh_Forall|apply (sh_nb b); assumption]. intros x y EV. destruct (sh_flags x y EV) as (_ & -> & _). auto.
Qed.

(** *** Preparing *)
Section Fns.
Variable C : crypto.
Variable Ov : ovf.
Hypothesis HO : Ov <> OvfIdeal.
Hypothesis HV : forall k s h, c_verify C k s h = 0%Z \/ c_verify C k s h = 1%Z.
Definition decs (it : item) : Prop := i_decoded it = true -> item_sei it = true /\ pending it = true.
Lemma prepare_gop_shown v : shp (v_items v) -> unused (v_items v) ->
  holds (prepare_gop C v) (fun '(v', st) => st = SV_OK -> uf (v_items v') /\ map i_decoded (v_items v') = map i_decoded (v_items v)) (fun _ => True).
Proof.
  intros H1 H2. unfold prepare_gop. apply holds_bind. eapply holds_impl; [apply HJ; [apply gop_uf; assumption|apply gop_dec]| |auto]. intros [[h m] st] [A1 A2]. cbv zeta. destruct (is_ok st) eqn:E1; cbn [negb]; [|cbn; intros ->; discriminate].
  destruct (finalize_hash C true h) as [[h2 st2] x]. destruct (is_ok st2) eqn:E2; cbn [negb]; [|cbn; intros ->; discriminate]. apply holds_bind. destruct (put_at _ _ _) as [y|]; [|exact I]. cbn. auto.
Qed.
Lemma dec_unused l : unused l -> unused (on_next_sei (set_i_decoded true) l).
Proof. apply next_Forall. auto. Qed.
Lemma dec_decs l : Forall (fun it => i_decoded it = false) l -> Forall decs (on_next_sei (set_i_decoded true) l).
Proof.
  intros H. apply next_Forall; [intros it E1 E2 _ _; auto|]. eapply Forall_impl; [|exact H]. intros it E1 E2. congruence.
Qed.
Lemma decs_keep l : forall m, map i_decoded m = map i_decoded l -> map sh m = map sh l -> Forall decs l -> Forall decs m.
Proof.
  induction l as [|a l IH]; intros [|b m] E1 E2 HF; cbn in E1, E2; try discriminate; [constructor|]. apply Forall_cons_iff in HF as [H0 HF]. assert (ES : sh b = sh a) by congruence. destruct (sh_flags a b ES) as (F1 & F2 & _). constructor; [|apply IH; congruence].
  unfold decs in *. rewrite F1, F2. assert (E : i_decoded b = i_decoded a) by congruence. rewrite E. exact H0.
Qed.
Lemma prepare_shown v : good v -> shp (v_items v) -> unused (v_items v) -> next_sei (v_items v) <> None ->
  holds (prepare C Ov v) (fun '(v', st) => st = SV_OK -> uf (v_items v') /\ (Forall (fun it => i_decoded it = false) (v_items v) -> Forall decs (v_items v')) /\
    (v_signing v' = true -> d_has_pub (v_dec v') = true) /\ (gs_sei (v_gs v) = true -> v_verified v' = 0%Z \/ v_verified v' = 1%Z)) (fun _ => True).
Proof.
  intros HG H1 H2 HN. unfold prepare. cbv zeta. apply holds_bind.
  assert (G : holds (match next_sei (v_items v) with
     | None => Def (v, SV_OK)
     | Some it =>
         match i_nalu it with
         | None => Undef NullDeref
         | Some n =>
             do (v0, st) <-
               (if i_decoded it then Def (v, SV_OK)
                else
                  do (v0, st) <- decode_sei C Ov (on_dec (set_d_l_changed false) v) n;
                  if negb (is_ok st) then Def (v0, st)
                  else
                    do x <- read_hash (vhs v) (i_hash it);
                    do y <- put_at 0 (v_hash v0) x;
                    Def (set_v_hash y (on_items (on_next_sei (set_i_decoded true)) v0), SV_OK));
             if negb (is_ok st) then Def (v0, st)
             else do v1 <- detect_lost Ov v0; prepare_gop C v1
         end
     end) (fun '(v', st) => st = SV_OK -> uf (v_items v') /\ (Forall (fun it => i_decoded it = false) (v_items v) -> Forall decs (v_items v')) /\ ll v' = ll v) (fun _ => True)).
  { destruct (next_sei (v_items v)) as [it|] eqn:EN; [|congruence]. destruct (i_nalu it) as [n|] eqn:EI; [|exact I]. apply holds_bind.
    assert (G2 : holds (if i_decoded it then Def (v, SV_OK)
                else
                  do (v0, st) <- decode_sei C Ov (on_dec (set_d_l_changed false) v) n;
                  if negb (is_ok st) then Def (v0, st)
                  else
                    do x <- read_hash (vhs v) (i_hash it);
                    do y <- put_at 0 (v_hash v0) x;
                    Def (set_v_hash y (on_items (on_next_sei (set_i_decoded true)) v0), SV_OK))
       (fun '(v', st) => is_ok st = true -> map sh (v_items v') = map sh (v_items v) /\ unused (v_items v') /\ (Forall (fun it => i_decoded it = false) (v_items v) -> Forall decs (v_items v')) /\ ll v' = ll v) (fun _ => True)).
    { destruct (i_decoded it) eqn:ED; [cbn; intros _; split; [reflexivity|split; [exact H2|split; [|reflexivity]]]|].
      - intros HF. eapply Forall_impl; [|exact HF]. intros x E1 E2. congruence.
      - apply holds_bind.
        pose proof (decode_sei_items C Ov (on_dec (set_d_l_changed false) v) n) as E1. pose proof (decode_sei_ll C Ov (ll v) (on_dec (set_d_l_changed false) v) n eq_refl) as E2.
        destruct (decode_sei C Ov _ n) as [[v1 st]|]; [|exact I]. cbn [holds] in *. cbn [v_items on_dec set_v_dec] in E1. destruct (is_ok st) eqn:ES; cbn [negb]; [|cbn; congruence].
        apply holds_bind. destruct (read_hash _ _) as [x|]; [|exact I]. cbn [holds]. apply holds_bind. destruct (put_at _ _ _) as [y|]; [|exact I]. cbn. intros _. rewrite E1. split; [apply decoded_sh|]. split; [apply dec_unused, H2|]. split; [apply dec_decs|exact E2]. }
    eapply holds_impl; [exact G2| |auto]. intros [v1 st] H. destruct (is_ok st) eqn:ES; cbn [negb]; [|cbn; intros ->; discriminate]. destruct (H eq_refl) as (K1 & K2 & K3 & K4). apply holds_bind.
    pose proof (detect_lost_items Ov v1) as E1. pose proof (detect_ll Ov (ll v1) v1 eq_refl) as E2. destruct (detect_lost Ov v1) as [v2|]; [|exact I]. cbn [holds] in *. rewrite <- E1 in K1, K2, K3.
    eapply holds_impl; [apply HJ; [apply HJ; [apply prepare_gop_shown; [apply (sh_shp (v_items v)); assumption|exact K2]|apply prepare_gop_sh]|apply (prepare_gop_ll C (ll v2)); reflexivity]| |auto].
    intros [v3 st3] [[P1 P2] P3] E. destruct (P1 E) as [P4 P5]. split; [exact P4|]. split; [|congruence]. intros HF. apply (decs_keep (v_items v2)); auto. }
  eapply holds_impl; [exact G| |auto]. intros [v1 st] H. destruct (is_ok st) eqn:ES; cbn [negb]; [|cbn; intros ->; discriminate]. assert (st = SV_OK) as -> by (destruct st; try discriminate; reflexivity).
  destruct (H eq_refl) as (K1 & K2 & K3). destruct (v_signing v1 && negb (d_has_pub (v_dec v1))) eqn:EP; [cbn; discriminate|]. unfold ll in K3. injection K3 as _ K4. rewrite K4.
  assert (HP : v_signing v1 = true -> d_has_pub (v_dec v1) = true) by (intros E; rewrite E in EP; cbn in EP; apply negb_false_iff, EP).
  destruct (gs_sei (v_gs v)).
  - pose proof (verify_hash_items C v1) as E1.
    assert (E3 : snd (verify_hash C v1) = SV_OK -> v_verified (fst (verify_hash C v1)) = 0%Z \/ v_verified (fst (verify_hash C v1)) = 1%Z).
    { unfold verify_hash. destruct (d_sig (v_dec v1)), (d_vkey (v_dec v1)); try discriminate. dif; [discriminate|]. intros _. apply HV. }
    assert (E4 : (v_signing (fst (verify_hash C v1)), v_dec (fst (verify_hash C v1))) = (v_signing v1, v_dec v1)) by (unfold verify_hash; destruct (d_sig (v_dec v1)), (d_vkey (v_dec v1)); try reflexivity; dif; reflexivity).
    destruct (verify_hash C v1) as [v2 st2]. cbn [fst snd holds] in *. injection E4 as E4 E5. intros E. rewrite E1, E4, E5. auto.
  - cbn [holds]. intros _. split; [exact K1|]. split; [exact K2|]. split; [exact HP|discriminate].
Qed.
(** *** Linking *)
Lemma link_same v : holds (update_link v) (fun v' => same (v_items v) (v_items v')) (fun _ => True).
Proof.
  unfold update_link. apply holds_bind. destruct (find_link _) as [[k|]|]; [|reflexivity|exact I]. cbn [holds]. destruct (nth_error _ _) as [it|]; [|reflexivity]. dif; [reflexivity|]. apply holds_bind.
  eapply holds_impl; [apply update_links_items| |auto]. intros v1 E. cbn. rewrite E. unfold same, set_nth. destruct (skipn k (v_items v)) as [|x r] eqn:E2; [reflexivity|]. rewrite <- (firstn_skipn k (v_items v)) at 2. rewrite E2, !map_app. reflexivity.
Qed.

(** *** Marking *)
Definition marked (l : list item) (m : list item) : Prop := rnd l m /\ shp m.
Lemma tail_marked l v (fu : option nat) e m : marked l (v_items v) ->
  holds (match fu with
    | Some k =>
        if v_first v then Def (v, false, e, m)
        else
          match nth_error (v_items v) k with
          | Some it =>
              match i_nalu it with
              | None => Undef NullDeref
              | Some n => Def (on_items (add_missing (e - m) (n_first_in_gop n) k) v, false, e, m)
              end
          | None => Def (v, false, e, m)
          end
    | None => Def (v, false, e, m)
    end) (fun '(v', _, _, _) => marked l (v_items v')) (fun _ => True).
Proof.
  intros [H1 H2]. assert (HM : marked l (v_items v)) by (split; assumption). destruct fu as [k|]; [|exact HM]. dif; [exact HM|]. destruct (nth_error (v_items v) k) as [it|]; [|exact HM]. destruct (i_nalu it) as [n|]; [|exact I].
  split; [apply rnd_add, H1|apply shp_add, H2].
Qed.
Lemma used_marked s l : s = SValid \/ s = SInvalid -> uf l -> holds (mark_used s l) (fun '(m, _) => marked l (on_next_sei (set_i_status SValid) m)) (fun _ => True).
Proof.
  intros HS HU. eapply holds_impl; [apply HJ; [apply mark_trs, HS|apply mark_shp; eassumption]| |auto]. intros [m k] [H1 H2]. split; [|apply next_shp, H2]. exists m, SValid. split; [discriminate|]. split; [exact H1|apply trs_refl].
Qed.
Lemma with_marked v : uf (v_items v) -> next_sei (v_items v) <> None -> v_verified v = 0%Z \/ v_verified v = 1%Z ->
  holds (verify_with v) (fun '(v', _, _, _) => marked (v_items v) (v_items v')) (fun _ => True).
Proof.
  intros HU HN HV1. unfold verify_with. cbv zeta. destruct (next_sei (v_items v)) as [it|] eqn:EN; [|congruence]. destruct (v_verified v =? 1)%Z eqn:EV.
  - destruct (negb (gop_ok v && linked_ok v) && (0 <? nlen (d_list (v_dec v)))) eqn:EL.
    + unfold verify_list. destruct (vhs v =? 0)%nat; [exact I|]. cbv zeta. rewrite EN. apply holds_bind. eapply holds_impl; [apply HJ; [apply hl_trs|apply hl_shp, HU]| |auto]. intros [hs l] HM. cbv beta iota in HM. apply holds_bind.
      set (l0 := if (h_latest hs =? -1)%Z then _ else _).
      assert (HL1 : holds l0 (fun m => trs (v_items v) m /\ shp m) (fun _ => True)).
      { unfold l0. dif; [|exact HM]. destruct l as [|it0 l']; [exact I|]. cbn [holds]. destruct HM. split; [apply trs_adds|apply shp_add]; assumption. }
      eapply holds_impl; [exact HL1| |auto]. intros m HM2. cbn [holds v_items set_v_items].
      match goal with |- marked _ (on_next_sei _ ?z) => assert (HZ : trs (v_items v) z /\ shp z) end.
      { dif; [|exact HM2]. destruct (h_last hs); [|exact HM2]. destruct HM2. split; [apply trs_adds|apply shp_add]; assumption. }
      destruct HZ as [Z1 Z2]. split; [|apply next_shp, Z2]. eexists _, SValid. split; [discriminate|]. split; [exact Z1|apply trs_refl].
    + rewrite !obind_assoc. apply holds_bind. eapply holds_impl; [apply used_marked; [destruct (gop_ok v && linked_ok v); auto|exact HU]| |auto]. intros [m k] HM. cbn [obind]. apply tail_marked. exact HM.
  - destruct HV1 as [HV1|HV1]; rewrite HV1 in *; [|discriminate]. change (0 =? 0)%Z with true. cbv iota. cbn [v_verified v_items on_items set_v_items]. rewrite HV1. change (0 =? 1)%Z with false. cbv iota. rewrite !obind_assoc. apply holds_bind.
    eapply holds_impl; [apply HJ; [apply mark_trs|apply mark_shp; [|apply next_uf, HU]]| |auto]; [auto|auto|]. intros [m k] [HM1 HM2]. cbn [obind]. apply tail_marked. cbn [v_items set_v_items on_items]. split; [|exact HM2].
    eexists _, SInvalid. split; [discriminate|]. split; [apply trs_refl|exact HM1].
Qed.

(** *** The verdict of a round *)
Definition failing (it : item) : Prop := i_status it = SInvalid \/ i_status it = SErr \/ i_status it = SMiss.
Lemma nb_dec l : Forall nb l \/ ~ Forall nb l.
Proof.
  induction l as [|it l [IH|IH]]; [left; constructor| |right; intros H; apply Forall_cons_iff in H as [_ H]; contradiction].
  destruct (bad it) eqn:E; [right|left; constructor; assumption]. intros H. apply Forall_cons_iff in H as [H _]. unfold nb in H. congruence.
Qed.
Lemma used_same l : Forall2 (fun a b => b = set_i_used false a) l (remove_used l).
Proof. unfold remove_used. induction l; cbn [map]; constructor; auto. Qed.
Lemma used_Forall (P : item -> Prop) l : (forall it, P it -> P (set_i_used false it)) -> Forall P l -> Forall P (remove_used l).
Proof. intros H HF. unfold remove_used. apply Forall_map. eapply Forall_impl; [|exact HF]. exact H. Qed.
Lemma used_unused l : unused (remove_used l).
Proof. unfold unused, remove_used. apply Forall_map, Forall_forall. reflexivity. Qed.
Lemma used_ex (P : item -> Prop) l : (forall it, P it -> P (set_i_used false it)) -> (exists it, In it l /\ P it) -> exists it, In it (remove_used l) /\ P it.
Proof. intros H (it & HI & HP). exists (set_i_used false it). split; [apply in_map, HI|apply H, HP]. Qed.
Definition post (v v' : valid) : Prop :=
  Forall wf (v_items v') /\ unused (v_items v') /\ shp (v_items v') /\
  (v_first v = true -> Forall nb (v_items v') /\ (l_auth (v_latest v) = SigPresent -> l_auth (v_latest v') <> OkMissing)) /\
  (v_first v = false -> subseq (pk (v_items v')) (rm1 (pk (v_items v))) /\
    (Forall nb (v_items v) -> Forall nb (v_items v') \/ l_auth (v_latest v') = NotOk) /\
    (l_auth (v_latest v) = NotOk -> l_auth (v_latest v') = NotOk) /\
    ((l_auth (v_latest v) = OkMissing -> exists it, In it (v_items v) /\ i_status it = SMiss) ->
      l_auth (v_latest v') = OkMissing -> exists it, In it (v_items v') /\ i_status it = SMiss) /\
    (l_auth (v_latest v) = SigPresent ->
      (l_auth (v_latest v') = NotOk -> d_l_changed (v_dec v') = true \/ exists it, In it (v_items v') /\ failing it))).
Lemma validate_shown v : uf (v_items v) -> Forall wf (v_items v) -> next_sei (v_items v) <> None -> v_verified v = 0%Z \/ v_verified v = 1%Z -> gs_lost (v_gs v) = false ->
  (v_first v = true -> Forall nb (v_items v) /\ Forall decs (v_items v)) -> holds (validate v) (post v) (fun _ => True).
Proof.
  intros HU HW HN HV1 HL HFS. unfold validate. rewrite HL. cbn [andb]. rewrite !obind_assoc. apply holds_bind.
  pose proof (with_marked v HU HN HV1) as HM. pose proof (verify_with_gr (gr v) v eq_refl) as HG. pose proof (verify_with_kv (kv v) v eq_refl) as HK.
  destruct (verify_with v) as [[[[v1 ok] exp] recv]|]; [|exact I]. cbn [holds obind] in *. destruct HM as [HM HS].
  change (v_items (set_v_gop (d_counter (v_dec v1)) v1)) with (v_items v1).
  assert (W1 : Forall wf (v_items v1)) by (eapply rnd_wf; eassumption).
  assert (B1 : Forall nb (v_items v) -> (fst (fst (get_stats (v_items v1))) <= 0)%Z -> Forall nb (v_items v1)).
  { intros HB HI. destruct (nb_dec (v_items v1)) as [H|H]; [exact H|]. exfalso. apply stats_inv in H; [lia|]. eapply rnd_bu; [|exact HM]. eapply Forall_impl; [|exact HB]. intros it E1 E2. unfold nb in E1. congruence. }
  assert (FB : Forall nb (v_items v) -> Forall decs (v_items v) -> fst_nb (v_items v1)).
  { intros HB HD. eapply rnd_first; [exact HM|]. destruct HU as (a & b1 & b2 & EL & A & X1 & X2). exists (a ++ b1), b2. split; [rewrite EL, app_assoc; reflexivity|]. rewrite EL in HD. apply Forall_app in HD as [DA HD]. apply Forall_app in HD as [DB _]. split.
    - apply Forall_app. split; rewrite Forall_forall in *; intros it HI.
      + destruct (i_decoded it) eqn:E; [|reflexivity]. destruct (DA it HI E) as [_ E2]. destruct (A it HI). congruence.
      + destruct (i_decoded it) eqn:E; [|reflexivity]. destruct (DB it HI E) as [E1 E2]. destruct (X1 it HI) as (_ & _ & Q). rewrite Q in E1 by exact E2. discriminate.
    - eapply Forall_impl; [|exact X2]. intros it [Q1 Q2]. auto. }
  assert (PK : subseq (pk (remove_used (v_items v1))) (rm1 (pk (v_items v)))).
  { rewrite (sh_pk (v_items v1)) by apply used_sh. apply rnd_pk; assumption. }
  destruct (stats_shown (v_items v1)) as [SI SM]. unfold gr in HG. injection HG as _ HG _ _ HLT. unfold kv in HK.
  destruct (get_stats (v_items v1)) as [[inv mis] hv]. cbn [fst snd] in *. cbv zeta.
  set (v2 := on_items remove_used _). assert (E2 : v_items v2 = remove_used (v_items v1)) by reflexivity. assert (F2 : v_first v2 = v_first v) by exact HG. assert (L2 : v_latest v2 = v_latest v) by exact HLT. clearbody v2. clear HG HLT HK.
  assert (W2 : Forall wf (v_items v2)) by (rewrite E2; apply used_Forall; [intros it; apply (sh_flags it (set_i_used false it)); reflexivity|exact W1]).
  assert (S2 : shp (v_items v2)) by (rewrite E2; apply (sh_shp (v_items v1)); [apply used_sh|exact HS]).
  assert (U2 : unused (v_items v2)) by (rewrite E2; apply used_unused).
  assert (N2 : Forall nb (v_items v1) -> Forall nb (v_items v2)) by (rewrite E2; apply used_Forall; intros it H; exact H).
  assert (M2 : (0 < mis)%Z -> exists it, In it (v_items v2) /\ i_status it = SMiss) by (intros H; rewrite E2; apply used_ex; [auto|apply SM, H]).
  assert (I2 : (0 < inv)%Z -> exists it, In it (v_items v2) /\ failing it).
  { intros H. rewrite E2. apply used_ex; [auto|]. destruct (SI H) as (it & Q1 & Q2). exists it. split; [exact Q1|]. unfold failing. tauto. }
  rewrite F2. destruct (v_first v) eqn:EF; cbn [negb andb].
  - rewrite F2. destruct (HFS eq_refl) as [HB HD].
    assert (K : forall w f, v_items w = v_items v2 -> (inv <= 0)%Z -> (l_auth (v_latest v) = SigPresent -> l_auth (f (v_latest w)) <> OkMissing) -> post v (on_latest f w)).
    { intros w f H HI HQ. unfold post. rewrite EF. cbn [on_latest set_v_latest v_items v_latest]. rewrite H. split; [exact W2|]. split; [exact U2|]. split; [exact S2|]. split; [|discriminate]. intros _. split; [apply N2, B1; assumption|exact HQ]. }
    assert (K2 : forall w f, v_items w = remove_missing_items (v_items v2) -> (l_auth (v_latest v) = SigPresent -> l_auth (f (v_latest w)) <> OkMissing) -> post v (on_latest f w)).
    { intros w f H HQ. unfold post. rewrite EF. cbn [on_latest set_v_latest v_items v_latest]. rewrite H. split; [apply remove_wf, W2|]. split; [apply remove_unused, U2|].
      assert (G : Forall nb (remove_missing_items (v_items v2))) by (rewrite E2; apply first_gone, FB; assumption). split; [apply shp_nb, G|]. split; [intros _; split; [exact G|exact HQ]|discriminate]. }
    destruct (0 <? inv)%Z eqn:EI; cbn [negb andb]; [apply K2; [reflexivity|]|apply Z.ltb_ge in EI; destruct ((0 <? mis)%Z && ok); [apply K2; [reflexivity|]|destruct hv; [apply K; [reflexivity|exact EI|]|apply K2; [reflexivity|]]]].
    all: intros Q; cbn [l_auth set_l_exp set_l_recv set_l_auth on_items set_v_items set_v_synced v_latest v_dec]; rewrite L2, Q; change (ar_n SigPresent <=? 1) with true; cbn [orb]; dif; discriminate.
  - change (v_first (set_v_synced true v2)) with (v_first v2). rewrite F2. cbn [holds]. set (res := if d_l_changed _ then _ else _).
    assert (RN : Forall nb (v_items v) -> Forall nb (v_items v2) \/ res = NotOk).
    { intros HB. destruct (0 <? inv)%Z eqn:EI; [right; unfold res; cbn [negb andb]; dif; reflexivity|]. left. apply Z.ltb_ge in EI. auto. }
    assert (RM : res = OkMissing -> exists it, In it (v_items v2) /\ i_status it = SMiss).
    { intros E. apply M2. unfold res in E. revert E. destruct (0 <? mis)%Z eqn:EM; [intros _; apply Z.ltb_lt, EM|]. cbn [andb]. repeat dif; discriminate. }
    assert (RF : res = NotOk -> d_l_changed (v_dec v2) = true \/ exists it, In it (v_items v2) /\ failing it).
    { unfold res. cbn [v_dec set_v_synced]. destruct (d_l_changed (v_dec v2)); [auto|]. destruct (0 <? inv)%Z eqn:EI; cbn [negb andb]; [intros _; right; apply I2, Z.ltb_lt, EI|].
      destruct ((1 <? exp)%Z && (exp <=? mis)%Z) eqn:EM; [|dif; discriminate]. intros _. right. apply andb_true_iff in EM as [EM1 EM2]. apply Z.ltb_lt in EM1. apply Z.leb_le in EM2. destruct (M2 ltac:(lia)) as (it & Q1 & Q2). exists it. split; [exact Q1|]. unfold failing. auto. }
    assert (RR : res <> NotSigned /\ res <> SigPresent) by (unfold res; repeat dif; split; discriminate).
    clearbody res. unfold post. rewrite EF. cbn [on_latest set_v_latest v_items v_latest l_auth set_l_exp set_l_recv set_l_auth set_v_synced v_dec]. rewrite L2. split; [exact W2|]. split; [exact U2|]. split; [exact S2|]. split; [discriminate|]. intros _. split; [rewrite E2; exact PK|].
    destruct (l_auth (v_latest v)) eqn:EA; cbn [ar_n]; change (0 <=? 1) with true; change (1 <=? 1) with true; change (2 <=? 1) with false; change (3 <=? 1) with false; change (4 <=? 1) with false; change (5 <=? 1) with false; cbn [orb]; cbv iota.
    all: try (split; [exact RN|]; split; [discriminate|]; split; [intros _; exact RM|intros _; exact RF]).
    all: split; [intros HB; destruct (RN HB) as [H|H]; [left; exact H|rewrite H; right; reflexivity]|]; split; [intros E; try discriminate E; destruct RR; destruct res; try reflexivity; congruence|split; [|discriminate]].
    all: intros HQ; dif; [exact RM|try discriminate]. intros _. rewrite E2. destruct (HQ eq_refl) as (it & J1 & J2). apply used_ex; [auto|]. exists it. split; [|exact J2].
    eapply rnd_in; [exact HM|exact J1|unfold pending; rewrite J2; reflexivity].
Qed.

(** *** A round *)
Definition fresh_latest (v : valid) : valid :=
  if v_result v then v else on_latest (fun l => set_l_pend (-1)%Z (set_l_recv 0%Z (set_l_exp 0%Z (set_l_auth SigPresent l)))) v.
Definition rbody (v : valid) : out (valid * svrc) :=
  do (v, st) <- prepare C Ov v;
  if negb (is_ok st) then Def (v, st)
  else
    do v <- update_link v;
    do v <- (if v_signing v then validate v else Def (on_latest (set_l_auth NotSigned) v));
    let v := set_v_result true (set_v_verified (-1)%Z (set_v_first (negb (v_signing v)) v)) in
    Def (on_latest (set_l_pend (num_pending (v_items v))) v, SV_OK).
Lemma loop_step f v stop : validate_loop C Ov (S f) v stop =
  (let '(v1, found) := has_pending v in
   if negb found || stop then Def (v1, SV_OK)
   else do (v2, st) <- rbody (fresh_latest v1); if negb (is_ok st) then Def (v2, st) else validate_loop C Ov f v2 (negb (v_signing v2))).
Proof.
  cbn [validate_loop]. destruct (has_pending v) as [v1 found]. dif; [reflexivity|]. fold (fresh_latest v1). unfold rbody. cbv zeta. destruct (prepare C Ov (fresh_latest v1)) as [[v2 st]|]; [|reflexivity]. cbn [obind].
  destruct (is_ok st) eqn:ES; cbn [negb obind]; [|rewrite ES; reflexivity]. destruct (update_link v2) as [v3|]; [|reflexivity]. cbn [obind]. destruct (if v_signing v3 then _ else _) as [v4|]; [|reflexivity]. reflexivity.
Qed.
Lemma loop_zero v stop : validate_loop C Ov 0 v stop = (let '(v1, found) := has_pending v in if negb found || stop then Def (v1, SV_OK) else Undef Diverges).
Proof. reflexivity. Qed.
Definition undec (it : item) : Prop := i_decoded it = false.
Definition ready (v : valid) : Prop := good v /\ Forall wf (v_items v) /\ unused (v_items v) /\ shp (v_items v) /\ (v_first v = true -> Forall nb (v_items v) /\ Forall undec (v_items v)).
Lemma rbody_signed v : ready v -> v_signing v = true -> next_sei (v_items v) <> None -> gs_sei (v_gs v) = true ->
  holds (rbody v) (fun '(v', st) => st = SV_OK -> good v' /\ post v v' /\ (v_signing v', v_first v', v_result v') = (true, false, true) /\ d_has_pub (v_dec v') = true) (fun _ => True).
Proof.
  intros (HG & HW & HU & HS & HF) SG HN GS. unfold rbody. apply holds_bind.
  pose proof (prepare_shown v HG HS HU HN) as P1. pose proof (prepare_round C Ov v HO HG) as P2. pose proof (prepare_gr C Ov (gr v) v eq_refl) as P3.
  destruct (prepare C Ov v) as [[v1 st]|]; [|exact I]. cbn [holds] in *. destruct (is_ok st) eqn:ES; cbn [negb]; [|cbn; intros ->; discriminate]. assert (st = SV_OK) as -> by (destruct st; try discriminate; reflexivity).
  destruct (P1 eq_refl) as (P4 & P5 & P6 & P7). destruct P2 as (P8 & P9 & P10). specialize (P10 eq_refl HN). clear P1. apply holds_bind.
  pose proof (update_link_round v1 P8) as L1. pose proof (link_same v1) as L5. pose proof (update_link_gr (gr v1) v1 eq_refl) as L6. pose proof (update_link_kv (kv v1) v1 eq_refl) as L7. pose proof (link_evm v1) as L4.
  destruct (update_link v1) as [v2|]; [|exact I]. cbn [holds] in *. destruct L1 as (L1 & L2 & L3). unfold gr in P3, L6. injection P3 as A1 A2 A3 A4 A5. injection L6 as B1 B2 B3 B4 B5.
  assert (V2 : v_verified v2 = v_verified v1) by (destruct L4 as [L4 _]; unfold lk in L4; congruence).
  assert (S2 : v_signing v2 = true) by congruence. rewrite S2. apply holds_bind.
  assert (SH : map sh (v_items v2) = map sh (v_items v)) by congruence.
  assert (N2 : next_sei (v_items v2) <> None) by (apply (sh_cnt (v_items v)); [exact SH|exact HN]).
  assert (F2 : v_first v2 = v_first v) by congruence.
  assert (G2 : gs_lost (v_gs v2) = false) by (unfold ls in L3; congruence).
  assert (HF2 : v_first v2 = true -> Forall nb (v_items v2) /\ Forall decs (v_items v2)).
  { rewrite F2. intros E. destruct (HF E) as [HF1 HF2]. split; [apply (sh_nb (v_items v)); assumption|]. apply (same_Forall decs (v_items v1)); [|exact L5|apply P5, HF2].
    intros a b EV. destruct (vw_flags a b EV) as (Q1 & Q2 & _ & Q4 & _). unfold decs. rewrite Q1, Q2, Q4. auto. }
  pose proof (validate_shown v2 (same_uf _ _ L5 P4) (sh_wf _ _ SH HW) N2 ltac:(rewrite V2; apply P7, GS) G2 HF2) as V1. pose proof (validate_round v2 L1 N2 G2) as V3. pose proof (validate_dk (dk v2) v2 eq_refl) as V4.
  destruct (validate v2) as [v3|]; [|exact I]. cbn [holds] in *. intros _. destruct V3 as (V3 & _). unfold dk in V4. injection V4 as V5 V6 V7.
  split; [exact V3|]. split; [|split].
  - unfold post in *. cbn [v_items v_latest v_dec on_latest set_v_latest set_v_result set_v_verified set_v_first l_auth set_l_pend]. rewrite F2 in V1. rewrite (sh_pk _ _ SH) in V1. replace (v_latest v2) with (v_latest v) in V1 by congruence.
    destruct V1 as (Q1 & Q2 & Q3 & Q4 & Q5). split; [exact Q1|]. split; [exact Q2|]. split; [exact Q3|]. split; [exact Q4|]. intros E. destruct (Q5 E) as (Q6 & Q7 & Q8 & Q9 & Q10). split; [exact Q6|]. split; [intros HB; apply Q7, (sh_nb (v_items v)); assumption|]. split; [exact Q8|]. split; [|exact Q10].
    intros HM. apply Q9. intros E2. destruct (HM E2) as (it & J1 & J2). clear -SH J1 J2. revert SH J1. generalize (v_items v2) (v_items v). intros m l. revert m. induction l as [|a l IH]; intros [|b m] E; cbn in E; try discriminate; [intros []|]. injection E as E1 E2 E3. intros [->|H]; [exists b; split; [left; reflexivity|congruence]|].
    destruct (IH m E3 H) as (x & X1 & X2). exists x. split; [right; exact X1|exact X2].
  - cbn. rewrite V7, S2. reflexivity.
  - cbn. rewrite V5. unfold kv, kd in L7. injection L7 as _ _ L7 _. rewrite L7. apply P6. congruence.
Qed.
Definition nosei (l : list item) : Prop := Forall (fun it => item_sei it = false) l.
Lemma nosei_next l : nosei l -> next_sei l = None.
Proof. unfold next_sei. induction 1 as [|it l H HF IH]; cbn [find]; [reflexivity|]. rewrite H. exact IH. Qed.
Lemma unused_find l k : unused l -> find_link l <> Def (Some k).
Proof. intros H. apply find_no. eapply Forall_impl; [|exact H]. auto. Qed.
Lemma rbody_plain v : unused (v_items v) -> nosei (v_items v) -> v_signing v = false ->
  holds (rbody v) (fun '(v', st) => st = SV_OK -> v_items v' = v_items v /\ v_dec v' = v_dec v /\ (v_signing v', v_first v', v_result v', l_auth (v_latest v')) = (false, true, true, NotSigned)) (fun _ => True).
Proof.
  intros HU HS SG. unfold rbody. apply holds_bind. eapply holds_impl; [apply prepare_none, nosei_next, HS| |auto]. intros [v1 st] [P1 P2]. unfold dk in P2. injection P2 as P2 P3 P4.
  destruct (is_ok st) eqn:ES; cbn [negb]; [|cbn; intros ->; discriminate]. apply holds_bind.
  assert (EU : forall x, update_link v1 = Def x -> x = v1).
  { intros x. unfold update_link. rewrite P1. pose proof (fun k => unused_find _ k HU) as FN. destruct (find_link (v_items v)) as [[k|]|]; cbn [obind]; [exfalso; apply (FN k); reflexivity|congruence|discriminate]. }
  destruct (update_link v1) as [v2|] eqn:EUL; [|exact I]. rewrite (EU v2 eq_refl). cbn [holds]. rewrite P4, SG. cbn. intros _. rewrite P1, P2, P4, SG. auto.
Qed.

(** *** The loop *)
Definition Linv (v : valid) : Prop :=
  ready v /\ (v_signing v = false -> v_first v = true /\ nosei (v_items v)) /\
  (v_first v = false -> d_has_pub (v_dec v) = true /\ (Forall nb (v_items v) \/ v_result v = true /\ l_auth (v_latest v) = NotOk)) /\
  (v_result v = true -> l_auth (v_latest v) = OkMissing -> v_first v = false /\ exists it, In it (v_items v) /\ i_status it = SMiss) /\
  (v_result v = true -> v_first v = true -> l_auth (v_latest v) = NotSigned \/ l_auth (v_latest v) = SigPresent).
Lemma wf_good l : Forall wf l -> Forall (fun it => pending it = true -> LinkList.good it = true) l.
Proof.
  apply Forall_impl. intros it H E. unfold wf in H. unfold LinkList.good. destruct (i_nalu it) as [n|]; [destruct H as [H _]; apply H; auto|]. destruct H as [H _]. unfold pending in E. destruct (i_status it); discriminate || congruence.
Qed.
Lemma pending_facts v : Forall wf (v_items v) ->
  let '(v1, found) := has_pending v in
  (exists g, v1 = set_v_gs g v) /\ (v_signing v = true -> found = true -> next_sei (v_items v) <> None /\ gs_sei (v_gs v1) = true) /\ (v_signing v = true -> found = false -> quiet (pk (v_items v))) /\
  (v_signing v = true -> quiet (pk (v_items v)) -> found = false).
Proof.
  intros HW. pose proof (has_pending_next v) as H1. unfold has_pending in *.
  pose proof (pend_has (v_items v) (mkPg 0 false false None false) (wf_good _ HW) ltac:(discriminate) ltac:(discriminate) ltac:(discriminate)) as H2.
  pose proof (found_quiet (v_items v) (mkPg 0 false false None false) eq_refl HW) as H3. pose proof (quiet_found (v_items v)) as H4.
  destruct (v_signing v).
  - destruct (pending_loop true _ _) as [s found]. cbn [fst snd] in *. split; [eauto|]. split; [intros _ E; split; [apply H1; auto|apply H2, E]|]. split; [|intros _; exact H4].
    intros _ E. destruct (H3 E) as [Q|[_ Q]]; [left; exact Q|right; exact Q].
  - destruct (pending_loop false _ _) as [s found]. split; [eauto|]. split; [discriminate|]. split; discriminate.
Qed.
Lemma fresh_Linv v : Linv v -> v_signing v = true -> ready (fresh_latest v) /\ (v_first v = true -> l_auth (v_latest (fresh_latest v)) = SigPresent \/ v_result v = true).
Proof. intros (HR & _) SG. unfold fresh_latest. destruct (v_result v) eqn:E; [auto|]. split; [exact HR|auto]. Qed.
Lemma Linv_gs g v : Linv v -> Linv (set_v_gs g v).
Proof. intros H. exact H. Qed.
Lemma round_Linv v : Linv v -> v_signing v = true -> next_sei (v_items v) <> None -> gs_sei (v_gs v) = true -> (v_first v = true -> v_result v = false) ->
  holds (rbody (fresh_latest v)) (fun '(v', st) => st = SV_OK -> Linv v' /\ (v_signing v', v_first v', v_result v') = (true, false, true) /\ post (fresh_latest v) v') (fun _ => True).
Proof.
  intros HL SG HN GS HFR. pose proof HL as (HR & L1 & L2 & L3 & L4). destruct (fresh_Linv v HL SG) as [R1 _].
  assert (E : (v_signing (fresh_latest v), v_items (fresh_latest v), v_gs (fresh_latest v), v_first (fresh_latest v)) = (v_signing v, v_items v, v_gs v, v_first v)) by (unfold fresh_latest; dif; reflexivity). injection E as E1 E2 E3 E4.
  eapply holds_impl; [apply rbody_signed; [exact R1|congruence|congruence|congruence]| |auto]. intros [v' st] H ES. destruct (H ES) as (H1 & H2 & H3 & H4). split; [|auto]. injection H3 as H5 H6 H7.
  pose proof H2 as (Q1 & Q2 & Q3 & Q4 & Q5). rewrite E4 in Q4, Q5. split; [|split; [congruence|split; [|split; [|congruence]]]].
  - split; [exact H1|]. split; [exact Q1|]. split; [exact Q2|]. split; [exact Q3|congruence].
  - intros _. split; [exact H4|]. destruct (v_first v) eqn:EF; [left; apply Q4; reflexivity|]. destruct (Q5 eq_refl) as (_ & Q6 & Q7 & _). rewrite E2 in Q6. destruct (L2 eq_refl) as [_ [L5|[L5 L6]]]; [destruct (Q6 L5); auto|].
    right. split; [exact H7|]. apply Q7. unfold fresh_latest. rewrite L5. exact L6.
  - intros _ EM. split; [exact H6|]. destruct (v_first v) eqn:EF.
    + exfalso. destruct (Q4 eq_refl) as [_ Q6]. apply Q6; [|exact EM]. unfold fresh_latest. rewrite (HFR eq_refl). reflexivity.
    + destruct (Q5 eq_refl) as (_ & _ & _ & Q6 & _). apply Q6; [|exact EM]. rewrite E2. unfold fresh_latest. destruct (v_result v) eqn:ER; [|discriminate]. intros E. apply L3; auto.
Qed.
Lemma loop_shown : forall fuel v stop, Linv v -> (stop = true -> v_signing v = false) -> (v_signing v = true -> v_first v = true -> v_result v = false) ->
  holds (validate_loop C Ov fuel v stop) (fun '(v', st) => st = SV_OK -> Linv v' /\ v_signing v' = v_signing v /\ (v_first v = false -> v_first v' = false) /\ (v_signing v = true -> quiet (pk (v_items v')))) (fun _ => True).
Proof.
  induction fuel as [|fuel IH]; intros v stop HL HS HF; [rewrite loop_zero|rewrite loop_step].
  all: pose proof (pending_facts v ltac:(apply HL)) as HP; destruct (has_pending v) as [v1 found]; destruct HP as ((g & ->) & P1 & P2 & _); apply (Linv_gs g) in HL.
  all: destruct (negb found || stop) eqn:EFS; try exact I.
  1,2: intros _; split; [exact HL|]; split; [reflexivity|]; split; [auto|]; intros SG; change (v_items (set_v_gs g v)) with (v_items v); apply P2; [exact SG|]; destruct stop; [rewrite HS in SG by reflexivity; discriminate|rewrite orb_false_r in EFS; apply negb_true_iff, EFS].
  apply orb_false_iff in EFS as [EFS _]. apply negb_false_iff in EFS. apply holds_bind. change (v_first v) with (v_first (set_v_gs g v)) in *. change (v_signing v) with (v_signing (set_v_gs g v)) in *. change (v_result v) with (v_result (set_v_gs g v)) in *. change (v_items v) with (v_items (set_v_gs g v)) in *.
  set (u := set_v_gs g v) in *. clearbody u. clear v g P2. destruct (v_signing u) eqn:SG.
  - destruct (P1 eq_refl EFS) as [P3 P4]. eapply holds_impl; [apply round_Linv; auto| |auto]. intros [v2 st] H. destruct (is_ok st) eqn:ES; cbn [negb]; [|cbn; intros ->; discriminate]. assert (st = SV_OK) as -> by (destruct st; try discriminate; reflexivity).
    destruct (H eq_refl) as (H1 & H2 & _). injection H2 as H2 H3 H4. rewrite H2. cbn [negb]. eapply holds_impl; [apply IH; [exact H1|discriminate|congruence]| |auto]. intros [v3 st3] K E. destruct (K E) as (K1 & K2 & K3 & K4). split; [exact K1|]. split; [congruence|]. split; [auto|]. intros _. apply K4, H2.
  - pose proof HL as (HR & L1 & L2 & L3 & L4). destruct (L1 SG) as [LF LN].
    assert (E : (v_signing (fresh_latest u), v_items (fresh_latest u), v_dec (fresh_latest u)) = (v_signing u, v_items u, v_dec u)) by (unfold fresh_latest; dif; reflexivity). injection E as E1 E2 E3.
    eapply holds_impl; [apply rbody_plain; [rewrite E2; apply HR|rewrite E2; exact LN|congruence]| |auto]. intros [v2 st] H. destruct (is_ok st) eqn:ES; cbn [negb]; [|cbn; intros ->; discriminate]. assert (st = SV_OK) as -> by (destruct st; try discriminate; reflexivity).
    destruct (H eq_refl) as (H1 & H2 & H3). injection H3 as H3 H4 H5 H6. rewrite H3. cbn [negb].
    assert (L : Linv v2).
    { split; [|split; [|split; [congruence|split; [congruence|auto]]]].
      - destruct HR as (R1 & R2 & R3 & R4 & R5). unfold ready, good in *. rewrite H1, H2, E2, E3. split; [exact R1|]. split; [exact R2|]. split; [exact R3|]. split; [exact R4|]. intros _. apply R5, LF.
      - intros _. rewrite H1, E2. auto. }
    eapply holds_impl; [apply IH; [exact L|auto|congruence]| |auto]. intros [v3 st3] K E. destruct (K E) as (K1 & K2 & K3 & K4). split; [exact K1|]. split; [congruence|]. split; [congruence|discriminate].
Qed.
(** After the first verdict a call validates one GOP. *)
Definition told (v : valid) : Prop := l_auth (v_latest v) = NotOk -> d_l_changed (v_dec v) = true \/ exists it, In it (v_items v) /\ failing it.
Lemma loop_once fuel v : Linv v -> v_first v = false -> v_result v = false -> (forall y, subseq y (rm1 (pk (v_items v))) -> quiet y) ->
  holds (validate_loop C Ov fuel v false) (fun '(v', st) => st = SV_OK -> v_result v' = true -> told v') (fun _ => True).
Proof.
  intros HL HF HR HQ. assert (SG : v_signing v = true) by (destruct (v_signing v) eqn:E; [reflexivity|]; destruct HL as (_ & L1 & _); destruct (L1 E); congruence).
  destruct fuel as [|fuel]; [rewrite loop_zero|rewrite loop_step]; pose proof (pending_facts v ltac:(apply HL)) as HP; destruct (has_pending v) as [v1 found]; destruct HP as ((g & ->) & P1 & P2 & _); apply (Linv_gs g) in HL; rewrite orb_false_r; destruct found; cbn [negb]; try exact I; try (intros _; cbn; congruence).
  destruct (P1 SG eq_refl) as [P3 P4]. apply holds_bind. eapply holds_impl; [apply round_Linv; [exact HL|exact SG|exact P3|exact P4|intros _; exact HR]| |auto]. intros [v2 st] H. destruct (is_ok st) eqn:ES; cbn [negb]; [|cbn; intros ->; discriminate]. assert (st = SV_OK) as -> by (destruct st; try discriminate; reflexivity).
  destruct (H eq_refl) as (H1 & H2 & H3). injection H2 as H4 H5 H6. destruct H3 as (_ & _ & _ & _ & H3).
  assert (E : (v_items (fresh_latest (set_v_gs g v)), v_first (fresh_latest (set_v_gs g v)), l_auth (v_latest (fresh_latest (set_v_gs g v)))) = (v_items v, v_first v, SigPresent)) by (unfold fresh_latest; cbn [v_result set_v_gs]; rewrite HR; reflexivity).
  injection E as E1 E2 E3. rewrite E1, E2, E3 in H3. destruct (H3 HF) as (K1 & _ & _ & _ & K2). specialize (K2 eq_refl). apply HQ in K1.
  assert (G : forall v3, (exists g, v3 = set_v_gs g v2) -> told v3) by (intros v3 (g3 & ->); exact K2).
  pose proof (pending_facts v2 ltac:(apply H1)) as HP. rewrite H4. cbn [negb].
  destruct fuel as [|fuel]; [rewrite loop_zero|rewrite loop_step]; destruct (has_pending v2) as [v3 found]; destruct HP as (HP1 & _ & _ & HP2); rewrite (HP2 H4 K1); cbn; auto.
Qed.

(** *** Adding a NALU *)
Lemma hash_vw v it : holds (hash_item C v it) (fun '(_, it', _) => vw it' = vw it) (fun _ => True).
Proof.
  unfold hash_item. destruct (i_nalu it) as [n|] eqn:EN; [|reflexivity]. dif; [reflexivity|]. apply holds_bind. destruct (hash_wrapper _ _ _ _) as [[[k st] h]|]; [|exact I]. cbn [holds]. cbv zeta.
  apply holds_bind. set (it1 := match h with Some x => _ | None => _ end).
  assert (G : holds it1 (fun it' => vw it' = vw it) (fun _ => True)).
  { unfold it1. destruct h as [x|]; [|reflexivity]. apply holds_bind. destruct (put_at _ _ _); [|exact I]. reflexivity. }
  clearbody it1. destruct it1 as [it1|]; [|exact I]. cbn [holds] in *. dif; [exact G|]. dif; [|exact G]. apply holds_bind. destruct (hash_wrapper _ _ _ _) as [[[k2 st2] h2]|]; [|exact I]. exact G.
Qed.
Lemma rehash_same : forall l v st, holds (rehash C v l st) (fun '(_, m, _) => same l m) (fun _ => True).
Proof.
  induction l as [|it l IH]; intros v st; cbn [rehash]; [reflexivity|]. destruct (i_nalu it) as [n|] eqn:EN; [|exact I]. dif.
  - apply holds_bind. eapply holds_impl; [apply IH| |auto]. intros [[v1 r] st1] H. unfold same in *. cbn. rewrite H. reflexivity.
  - apply holds_bind. eapply holds_impl; [apply hash_vw| |auto]. intros [[v1 it1] st1] H1. dif; [unfold same; cbn [holds map]; rewrite H1; reflexivity|].
    apply holds_bind. eapply holds_impl; [apply IH| |auto]. intros [[v2 r] st2] H. unfold same in *. cbn [holds map]. rewrite H, H1. reflexivity.
Qed.
Lemma hash_nalu v it : holds (hash_item C v it) (fun '(_, it', _) => i_nalu it' = i_nalu it) (fun _ => True).
Proof.
  unfold hash_item. destruct (i_nalu it) as [n|] eqn:EN; [|exact EN]. dif; [exact EN|]. apply holds_bind. destruct (hash_wrapper _ _ _ _) as [[[k st] h]|]; [|exact I]. cbn [holds]. cbv zeta.
  apply holds_bind. set (it1 := match h with Some x => _ | None => _ end).
  assert (G : holds it1 (fun it' => i_nalu it' = Some n) (fun _ => True)).
  { unfold it1. destruct h as [x|]; [|exact EN]. apply holds_bind. destruct (put_at _ _ _); [|exact I]. exact EN. }
  clearbody it1. destruct it1 as [it1|]; [|exact I]. cbn [holds] in *. dif; [exact G|]. dif; [|exact G]. apply holds_bind. destruct (hash_wrapper _ _ _ _) as [[[k2 st2] h2]|]; [|exact I]. exact G.
Qed.
Lemma rehash_feas : forall l v st, holds (rehash C v l st) (fun '(_, m, _) => map feasible m = map feasible l) (fun _ => True).
Proof.
  induction l as [|it l IH]; intros v st; cbn [rehash]; [reflexivity|]. destruct (i_nalu it) as [n|] eqn:EN; [|exact I]. dif.
  - apply holds_bind. eapply holds_impl; [apply IH| |auto]. intros [[v1 r] st1] H. cbn [holds map]. rewrite H. reflexivity.
  - apply holds_bind. pose proof (hash_nalu v it) as H1. pose proof (hash_vw v it) as H2. destruct (hash_item C v it) as [[[v1 it1] st1]|]; [|exact I]. cbn [holds] in *.
    assert (FE : feasible it1 = feasible it) by (unfold feasible; rewrite H1; destruct (vw_flags _ _ H2) as (_ & -> & _); reflexivity).
    dif; [cbn [holds map]; rewrite FE; reflexivity|]. apply holds_bind. eapply holds_impl; [apply IH| |auto]. intros [[v2 r] st2] H. cbn [holds map]. rewrite H, FE. reflexivity.
Qed.
Lemma same_ex (P : vstat -> Prop) l m : same l m -> (exists it, In it l /\ P (i_status it)) -> exists it, In it m /\ P (i_status it).
Proof.
  intros HS (it & H1 & H2). unfold same in HS. apply (in_map vw) in H1. rewrite <- HS in H1. apply in_map_iff in H1 as (x & H3 & H4). exists x. split; [exact H4|]. destruct (vw_flags _ _ H3) as (_ & _ & _ & _ & -> & _). exact H2.
Qed.
Lemma copy_same known l : holds (copy_last known l) (fun '(m, st) => st = SV_OK -> same l m) (fun _ => True).
Proof.
  unfold copy_last. apply holds_bind.
  assert (G : forall k, holds (copy_rev known k) (fun '(m, st) => st = SV_OK -> same k m) (fun _ => True)).
  { induction k as [|it k IH]; cbn [copy_rev]; [exact I|]. destruct (i_nalu it) as [n|] eqn:EN.
    - destruct (copy_nalu known n) as [[n2 st]|] eqn:EC; [|exact I]. cbn [obind holds]. intros ->. unfold same. cbn [map]. f_equal. unfold vw. cbn [i_nalu i_status i_decoded i_used set_i_nalu]. rewrite EN.
      revert EC. unfold copy_nalu. repeat dif; try discriminate; intros E; injection E as <-; reflexivity.
    - apply holds_bind. eapply holds_impl; [exact IH| |auto]. intros [r2 st] H. cbn [holds]. intros E. specialize (H E). unfold same in *. cbn [map]. rewrite H. reflexivity. }
  eapply holds_impl; [apply G| |auto]. intros [m st] H. cbn [holds]. intros E. specialize (H E). unfold same in *. rewrite map_rev, H, <- map_rev, rev_involutive. reflexivity.
Qed.
Lemma sei_type d c n : parse_nalu d c true true = Def n -> n_gop_sei n = true -> n_type n = TSei.
Proof.
  unfold parse_nalu. destruct d as [|b d]; [intros E; injection E as <-; discriminate|]. set (data := b :: d). clearbody data.
  destruct (start_code_len data) as [k|u]; [|discriminate]. cbn [obind].
  destruct (parse_header c (skipn k data)) as [[[ty pr] va]|u]; [|discriminate]. cbn [obind].
  destruct (strip_trailing data) as [t|u]; [|discriminate]. cbn [obind].
  destruct (negb (ntype_eqb ty TSei)) eqn:ET.
  - intros E F. injection E as <-. discriminate.
  - assert (ty = TSei) as -> by (destruct ty; try discriminate; reflexivity). cbv zeta. cbn [ntype_eqb andb].
    destruct (skipn (header_len c) _) as [|ud p1]; [discriminate|]. destruct (ud =? 5); [|intros E; injection E as <-; reflexivity].
    destruct (get_payload_size p1) as [[[ps j] p2]|]; [|discriminate]. cbn [obind]. destruct (_ <? _)%nat; [discriminate|].
    unfold remove_epb. cbn [n_hashable n_gop_sei n_valid n_hash_mem]. destruct (bytes_eqb (firstn 16 p2) uuid_sv); cbn [negb orb andb].
    + destruct (_ <=? 0)%Z; [intros E; injection E as <-; reflexivity|].
      destruct (skipn _ _); [discriminate|]. cbv zeta. cbn [n_epb]. destruct (_ <=? 0)%Z; [intros E; injection E as <-; reflexivity|].
      destruct (read_bytes _ _ _ _) as [[[wo x] y]|]; [|discriminate]. cbn [obind].
      destruct (_ <? _)%nat; [discriminate|]. intros E. injection E as <-. destruct (_ <=? _); reflexivity.
    + intros E. injection E as <-. reflexivity.
Qed.
(** The item of a new NALU. *)
Definition newit (n : nalu) (it : item) : Prop := vw it = (Some (kind n), status_of n, false, false) /\ feasible it = feasible (item_create n) /\ (bt n -> okp bt it).
Lemma register_new v n : holds (register C v n) (fun '(v', it, _) => newit n it /\ kv v' = kv v /\ gr v' = gr v /\ cn v' = cn v) (fun _ => True).
Proof.
  pose proof (register_kv C (kv v) v n eq_refl) as H1. pose proof (register_gr C (gr v) v n eq_refl) as H2. pose proof (register_cn C (cn v) v n eq_refl) as H4.
  assert (H3 : holds (register C v n) (fun '(_, it, _) => newit n it) (fun _ => True)).
  { unfold register. destruct (n_valid n =? 0)%Z eqn:EV; [cbn; split; [reflexivity|]; split; [reflexivity|auto]|]. apply holds_bind. destruct (update_hashable n) as [n2|] eqn:EU; [|exact I]. cbn [holds]. destruct (hashable_flags _ _ EU) as [F1 F2]. unfold AuthProofs.flags in F1. assert (F8 : type_char (Some n2) = type_char (Some n)) by congruence. injection F1 as F1 F3 F4 F5 F6 F7 _ F9 F10.
    assert (G : holds (hash_item C v (set_i_nalu (Some n2) (item_create n))) (fun '(_, it', _) => vw it' = vw (set_i_nalu (Some n2) (item_create n)) /\ i_nalu it' = Some n2) (fun _ => True)).
    { pose proof (hash_vw v (set_i_nalu (Some n2) (item_create n))) as HA.
      assert (HD : holds (hash_item C v (set_i_nalu (Some n2) (item_create n))) (fun '(_, it', _) => i_nalu it' = Some n2) (fun _ => True)).
      { unfold hash_item. cbn [i_nalu set_i_nalu]. dif; [reflexivity|]. apply holds_bind. destruct (hash_wrapper _ _ _ _) as [[[k st] h]|]; [|exact I]. cbn [holds]. cbv zeta. apply holds_bind. destruct h as [x|]; [apply holds_bind; destruct (put_at _ _ _); [|exact I]|]; cbn [holds].
        all: dif; [reflexivity|]; dif; [|reflexivity]; apply holds_bind; destruct (hash_wrapper _ _ _ _) as [[[k2 st2] h2]|]; [|exact I]; reflexivity. }
      destruct (hash_item C v _) as [[[v' it] st]|]; [|exact I]. cbn [holds] in *. split; [apply HA|exact HD]. }
    eapply holds_impl; [exact G| |auto]. intros [[v' it] st] [A1 A2]. cbv beta iota in A1. split; [rewrite A1; unfold vw, kind; cbn [i_nalu set_i_nalu option_map i_status i_decoded i_used item_create]; rewrite F1, F3, F4, F5, F8; reflexivity|]. split.
    - unfold feasible. rewrite A2. cbn [i_nalu item_create]. destruct (vw_flags _ _ A1) as (_ & Q & _). rewrite Q, F3, F4, F5, F6. reflexivity.
    - unfold okp. rewrite A2. unfold bt. rewrite F2. auto. }
  destruct (register C v n) as [[[v' it] st]|]; [|exact I]. cbn [holds] in *. auto.
Qed.
Lemma new_wf d c n it : d <> [] -> parse_nalu d c true true = Def n -> n_golden n = false -> newit n it -> wf it /\ nb it /\ undec it /\ i_used it = false /\ item_sei it = n_gop_sei n.
Proof.
  intros HD EP HG [E _]. pose proof (start_plain d c n EP) as SP. pose proof (parse_valid d c n HD EP) as PV. pose proof (sei_type d c n EP) as ST. unfold vw in E. injection E as E1 E2 E3 E4. unfold wf, nb, bad, undec, pending, item_sei. rewrite E2.
  destruct (i_nalu it) as [m|]; [|discriminate]. cbn [option_map] in E1. unfold kind in E1. injection E1 as K1 K2 K3 K4 K5. rewrite K1, K2, K3, K4. split; [split|].
  - unfold status_of. rewrite PV. destruct (n_valid n =? 0)%Z eqn:E0; [intros [H|H]; discriminate|]. apply Z.eqb_neq in E0. apply Z.ltb_ge in PV. destruct (n_hashable n); [|intros [H|H]; discriminate]. intros _. split; [reflexivity|]. apply Z.ltb_lt. lia.
  - intros EG. split; [unfold type_char in *; rewrite K5, ST by exact EG; rewrite EG, HG; reflexivity|]. destruct (n_first_in_gop n); [|reflexivity]. destruct (SP eq_refl). congruence.
  - split; [|auto]. unfold status_of. repeat dif; rewrite andb_false_r; reflexivity.
Qed.
Lemma new_pk d c n it : parse_nalu d c true true = Def n -> n_golden n = false -> newit n it ->
  (feasible it = true -> exists x, pk1 it = [x] /\ (snd x = true -> fst x = false)) /\ (feasible it = false -> pk1 it = [] \/ pk1 it = [(false, false)]).
Proof.
  intros EP HG (E & EF & _). pose proof (start_plain d c n EP) as SP. rewrite EF. unfold feasible. cbn [i_nalu item_create]. rewrite HG. cbn [negb andb]. unfold pk1.
  assert (EPD : pending it = pending (item_create n)) by (unfold pending; cbn [i_status item_create]; unfold vw in E; injection E as _ -> _ _; reflexivity). rewrite EPD. unfold vw in E. injection E as E1 _ _ _. destruct (i_nalu it) as [m|]; [|discriminate]. cbn [option_map] in E1. unfold kind in E1. injection E1 as K1 K2 K3 K4 K5. rewrite K2, K3, K4.
  destruct (n_hashable n), (pending (item_create n)); cbn [andb]; try (split; [discriminate|auto]). split.
  - intros _. eexists. split; [reflexivity|]. cbn. intros EG. destruct (n_first_in_gop n); [|reflexivity]. destruct (SP eq_refl). congruence.
  - intros H. apply orb_false_iff in H as [-> ->]. auto.
Qed.
Lemma recurrent_shown v : good v -> holds (recurrent_decoded C v) (fun '(v', b) => good v' /\ v_items v' = v_items v /\ gr v' = gr v /\ (d_has_pub (v_dec v) = true -> v' = v /\ b = true)) (fun _ => True).
Proof.
  intros HG. pose proof (recurrent_room C (cnt has (v_items v)) v (conj HG (Nat.le_refl _))) as H1. pose proof (recurrent_gr C (gr v) v eq_refl) as H2. unfold recurrent_decoded in *. destruct (d_has_pub (v_dec v)) eqn:EH; cbn [orb] in *; [cbn; split; [exact HG|auto]|].
  dif; [cbn; split; [exact HG|]; split; [reflexivity|]; split; [reflexivity|discriminate]|]. destruct (recurrent_loop _ _ _) as [[d b]|]; [|exact I]. cbn [obind holds] in *. split; [apply H1|]. split; [reflexivity|]. split; [exact H2|discriminate].
Qed.
(** Between the calls, and with a new item. *)
Definition Binv (v : valid) : Prop :=
  ready v /\ (v_signing v = false -> v_first v = true /\ nosei (v_items v)) /\
  (v_first v = false -> d_has_pub (v_dec v) = true /\ Forall nb (v_items v) /\ calm (pk (v_items v))).
Definition last_item (v : valid) : bool := match rev (v_items v) with it :: _ => feasible it | [] => false end.
Definition Minv (v : valid) : Prop :=
  ready v /\ (v_signing v = false -> v_first v = true /\ nosei (v_items v)) /\ v_result v = false /\ (v_first v = false -> v_first_sei v = false) /\
  (v_first v = false -> d_has_pub (v_dec v) = true /\ Forall nb (v_items v) /\ (last_item v = true -> forall y, subseq y (rm1 (pk (v_items v))) -> quiet y) /\ (last_item v = false -> calm (pk (v_items v)))).
Definition Rinv (v v' : valid) : Prop :=
  Linv v' /\ (v_first v' = false -> calm (pk (v_items v'))) /\ (v_first v = false -> v_first v' = false /\ (v_result v' = true -> told v')).
Lemma Minv_Linv v : Minv v -> Linv v.
Proof. intros (M1 & M2 & M3 & M4 & M5). split; [exact M1|]. split; [exact M2|]. split; [|split; congruence]. intros E. destruct (M5 E) as (M6 & M7 & _). auto. Qed.
Lemma maybe_shown f v n : n_golden n = false -> Minv v -> holds (maybe_validate C Ov f v n) (fun '(v', st) => st = SV_OK -> Rinv v v') (fun _ => True).
Proof.
  intros HG HM. pose proof HM as (M1 & M2 & M3 & M4 & M5). unfold maybe_validate. cbv zeta. fold (last_item v). apply holds_bind. eapply holds_impl; [apply recurrent_shown, M1| |auto]. intros [v1 f2] (R1 & R2 & R3 & R4). unfold gr in R3. injection R3 as G1 G2 G3 G4 G5.
  assert (HM1 : Minv v1).
  { split; [|rewrite G1, G2, G3, G4, R2; split; [exact M2|]; split; [exact M3|]; split; [exact M4|]].
    - destruct M1 as (_ & A2 & A3 & A4 & A5). unfold ready. rewrite R2, G2. auto.
    - intros E. destruct (M5 E) as (A1 & A2). destruct (R4 A1) as [-> _]. auto. }
  assert (LE : last_item v1 = last_item v) by (unfold last_item; rewrite R2; reflexivity).
  destruct (last_item v && f2) eqn:EF; cbn [negb].
  - apply andb_true_iff in EF as [EF _]. pose proof (Minv_Linv _ HM1) as HL.
    pose proof (loop_shown f v1 false HL ltac:(discriminate) ltac:(intros; apply HM1)) as H1.
    assert (H2 : v_first v = false -> holds (validate_loop C Ov f v1 false) (fun '(v', st) => st = SV_OK -> v_result v' = true -> told v') (fun _ => True)).
    { intros E. rewrite <- G2 in E. destruct HM1 as (_ & _ & A3 & _ & A5). destruct (A5 E) as (_ & _ & A6 & _). apply loop_once; auto. apply A6. congruence. }
    destruct (validate_loop C Ov f v1 false) as [[v2 st]|]; [|exact I]. cbn [holds] in *. intros E. destruct (H1 E) as (K1 & K2 & K3 & K4). split; [exact K1|]. split.
    + intros F. apply quiet_calm, K4. rewrite <- K2. destruct (v_signing v2) eqn:ES; [reflexivity|]. destruct K1 as (_ & K1 & _). destruct (K1 ES). congruence.
    + intros F. split; [apply K3; congruence|]. apply H2; assumption.
  - assert (NF : v_first v1 = false -> last_item v1 = false).
    { intros E. rewrite LE. rewrite G2 in E. destruct (M5 E) as (A1 & _). destruct (R4 A1) as [_ ->]. rewrite andb_true_r in EF. exact EF. }
    destruct (v_first_sei v1) eqn:EFS.
    + rewrite HG. intros _. assert (F1 : v_first v1 = true) by (destruct (v_first v1) eqn:E; [reflexivity|]; destruct HM1 as (_ & _ & _ & A4 & _); rewrite (A4 E) in EFS; discriminate).
      destruct HM1 as (A1 & A2 & A3 & A4 & A5). split; [|split; [cbn; congruence|intros E; congruence]]. split; [exact A1|]. split; [exact A2|]. split; [cbn; congruence|]. split; [cbn; discriminate|]. cbn. auto.
    + intros _. split; [apply Minv_Linv, HM1|]. destruct HM1 as (A1 & A2 & A3 & A4 & A5). split; [intros E; destruct (A5 E) as (_ & _ & _ & A6); apply A6, NF, E|]. intros E. split; [congruence|]. rewrite A3. discriminate.
Qed.
(** *** A call *)
Lemma Minv_same v v' : good v' -> same (v_items v) (v_items v') -> last_item v' = last_item v -> gr v' = gr v -> (d_has_pub (v_dec v) = true -> d_has_pub (v_dec v') = true) -> Minv v -> Minv v'.
Proof.
  intros HG HS HL HR HP ((_ & A2 & A3 & A4 & A5) & M2 & M3 & M4 & M5). unfold gr in HR. injection HR as G1 G2 G3 G4 G5.
  assert (NB : Forall nb (v_items v) -> Forall nb (v_items v')) by (apply same_Forall; [exact vw_nb|exact HS]).
  split; [|rewrite G1, G2, G3, G4; split; [|split; [exact M3|split; [exact M4|]]]].
  - split; [exact HG|]. split; [eapply same_Forall; [exact vw_wf|exact HS|exact A2]|]. split; [eapply same_Forall; [|exact HS|exact A3]; intros a b E; destruct (vw_flags _ _ E) as (_ & _ & -> & _); auto|]. split; [eapply same_shp; eassumption|].
    rewrite G2. intros E. destruct (A5 E) as [B1 B2]. split; [auto|]. eapply same_Forall; [|exact HS|exact B2]. intros a b E2. unfold undec. destruct (vw_flags _ _ E2) as (_ & _ & _ & -> & _). auto.
  - intros E. destruct (M2 E) as [B1 B2]. split; [exact B1|]. eapply same_Forall; [|exact HS|exact B2]. cbn. intros a b E2. destruct (vw_flags _ _ E2) as (-> & _). auto.
  - intros E. destruct (M5 E) as (B1 & B2 & B3 & B4). split; [auto|]. split; [auto|]. rewrite HL, (same_pk _ _ HS). auto.
Qed.
Lemma reregister_shown v : good v -> holds (reregister C v) (fun '(v', _) => good v' /\ same (v_items v) (v_items v') /\ last_item v' = last_item v /\ gr v' = gr v /\ kv v' = kv v) (fun _ => True).
Proof.
  intros HG. pose proof (reregister_gr C (gr v) v eq_refl) as H1. pose proof (reregister_kv C (kv v) v eq_refl) as H2. pose proof (reregister_cn C (cn v) v eq_refl) as H3. pose proof (reregister_shape C v) as H4.
  assert (H5 : holds (reregister C v) (fun '(v', _) => same (v_items v) (v_items v') /\ last_item v' = last_item v) (fun _ => True)).
  { unfold reregister. apply holds_bind. pose proof (rehash_same (v_items v) v SV_UNKNOWN_FAILURE) as R1. pose proof (rehash_feas (v_items v) v SV_UNKNOWN_FAILURE) as R2. destruct (rehash C v (v_items v) SV_UNKNOWN_FAILURE) as [[[v1 l] st]|]; [|exact I]. cbn [holds] in *. cbn [v_items set_v_items]. split; [exact R1|].
    unfold last_item. cbn [v_items set_v_items]. apply (f_equal (@rev bool)) in R2. rewrite <- !map_rev in R2. destruct (rev l), (rev (v_items v)); try discriminate; [reflexivity|]. cbn [map] in R2. congruence. }
  destruct (reregister C v) as [[v' st]|]; [|exact I]. cbn [holds] in *. destruct H5 as [H5 H6]. split; [|auto]. destruct (room_shape (cnt has (v_items v)) v v' H3 H4 (conj HG (Nat.le_refl _))). assumption.
Qed.
Lemma shp_one l it : shp l -> nb it -> shp (l ++ [it]).
Proof. intros (a & b & -> & A & B) H. exists a, (b ++ [it]). rewrite app_assoc. split; [reflexivity|]. split; [exact A|]. apply Forall_app. auto. Qed.
Lemma body_shown d c f v n : parse_nalu d c true true = Def n -> d <> [] -> bytes_ok d -> n_golden n = false -> Binv v -> v_result v = false ->
  holds (add_body C Ov f v n) (fun '(v', st) => v_legacy v' = true \/ (st = SV_OK -> Rinv v v')) (fun _ => True).
Proof.
  intros EP HD HB HG (B1 & B2 & B3) HR. unfold add_body. cbv zeta. rewrite (parse_valid d c n HD EP). apply holds_bind. pose proof (parse_bt d c true true HB) as BT. rewrite EP in BT. cbn [holds] in BT.
  set (v1 := set_v_signing _ _). assert (E1 : (v_items v1, v_dec v1, v_signing v1, v_first v1, v_result v1, v_first_sei v1) = (v_items v, v_dec v, v_signing v || n_gop_sei n, v_first v, v_result v, negb (v_signing v) && n_gop_sei n)) by reflexivity. clearbody v1.
  injection E1 as E1 E2 E3 E4 E5 E6. eapply holds_impl; [apply register_new| |auto]. intros [[v2 it] st] (N1 & N2 & N3 & N4). unfold gr in N3. injection N3 as G1 G2 G3 G4 G5.
  destruct (is_ok st) eqn:ES; cbn [negb]; [|right; intros ->; discriminate].
  destruct (new_wf d c n it HD EP HG N1) as (W1 & W2 & W3 & W4 & W5). destruct (new_pk d c n it EP HG N1) as [Q1 Q2].
  assert (HP : d_has_pub (v_dec v2) = d_has_pub (v_dec v)) by (unfold kv, kd in N2; rewrite E2 in N2; congruence).
  assert (HM : Minv (set_v_items (v_items v ++ [it]) v2) /\ v_first v2 = v_first v).
  { split; [|congruence]. destruct B1 as ((A0 & A1) & A2 & A3 & A4 & A5). split; [|cbn [v_items v_first v_signing v_result v_first_sei v_dec set_v_items]; rewrite G1, G2, G3, G4, E3, E4, E5, E6, HP].
    - cbn [v_items v_first v_dec set_v_items]. split; [split; [unfold cok, cn in *; cbn; rewrite N4, E2; exact A0|]; apply Forall_app; split; [exact A1|]; constructor; [apply N1, BT|constructor]|]. cbn [v_items v_first v_dec set_v_items].
      split; [apply Forall_app; auto|]. split; [apply Forall_app; auto|]. split; [apply shp_one; assumption|]. rewrite G2, E4. intros E. destruct (A5 E). split; apply Forall_app; auto.
    - split; [|split; [exact HR|split]].
      + intros E. apply orb_false_iff in E as [X1 X2]. destruct (B2 X1) as [X3 X4]. split; [exact X3|]. apply Forall_app. split; [exact X4|]. constructor; [congruence|constructor].
      + intros E. destruct (v_signing v) eqn:X; [reflexivity|]. destruct (B2 eq_refl). congruence.
      + intros E. destruct (B3 E) as (X1 & X2 & X3). split; [exact X1|]. split; [apply Forall_app; auto|].
        assert (LI : last_item (set_v_items (v_items v ++ [it]) v2) = feasible it) by (unfold last_item; cbn [v_items set_v_items]; rewrite rev_app_distr; reflexivity).
        assert (PK : pk (v_items v ++ [it]) = pk (v_items v) ++ pk1 it) by (unfold pk; rewrite flat_map_app; cbn [flat_map]; rewrite app_nil_r; reflexivity). rewrite LI, PK. split; intros F.
        * destruct (Q1 F) as (x & -> & Q3). intros y. apply calm_next; assumption.
        * destruct (Q2 F) as [-> | ->]; [rewrite app_nil_r; exact X3|apply calm_more; auto]. }
  destruct HM as [HM F0]. set (v3 := set_v_items _ v2) in *. assert (F3 : v_first v3 = v_first v) by exact F0. clearbody v3. clear v2 N2 N4 G1 G2 G3 G4 G5 HP F0.
  assert (G : holds (if negb (d_algo_known (v_dec v3)) && v_signing v3 then
           do (u, b) <- recurrent_decoded C v3;
           if negb b then Def (u, SV_OK)
           else
             do (v, st) <- (if n_golden n then prepare_golden C Ov (on_dec (set_d_algo_known true) u) (v_items v) it else Def ((on_dec (set_d_algo_known true) u), SV_OK));
             if negb (is_ok st) then Def (v, st)
             else if (N.land (n_reserved n) 48 =? 0) && negb (n_golden n)
             then Def (set_v_legacy true (set_v_acc accum_init v), SV_OK)
             else reregister C v
         else Def (v3, SV_OK)) (fun '(v', st) => v_legacy v' = true \/ Minv v' /\ v_first v' = v_first v) (fun _ => True)).
  { dif; [|right; auto]. apply holds_bind. assert (G3 : good v3) by apply HM. eapply holds_impl; [apply recurrent_shown, G3| |auto]. intros [v4 b] (R1 & R2 & R3 & R4).
    assert (HM4 : Minv v4 /\ v_first v4 = v_first v).
    { split; [|unfold gr in R3; congruence]. apply (Minv_same v3); [exact R1|rewrite R2; apply same_refl|unfold last_item; rewrite R2; reflexivity|exact R3| |exact HM]. intros E. destruct (R4 E) as [-> _]. exact E. }
    destruct (negb b); [right; exact HM4|]. rewrite HG. cbn [obind negb]. change (is_ok SV_OK) with true. cbn [negb andb]. dif; [left; reflexivity|].
    set (v5 := on_dec _ v4). assert (HM5 : Minv v5 /\ v_first v5 = v_first v) by exact HM4. clearbody v5. destruct HM5 as [HM5 F5]. assert (G5 : good v5) by apply HM5.
    eapply holds_impl; [apply reregister_shown, G5| |auto]. intros [v6 st6] (S1 & S2 & S3 & S4 & S5). right. split; [|unfold gr in S4; congruence]. apply (Minv_same v5); auto. unfold kv, kd in S5. congruence. }
  apply holds_bind. eapply holds_impl; [exact G| |auto]. intros [v7 st7] [H7|[H7 F7]]; [rewrite H7, orb_true_r; left; exact H7|]. destruct (v_legacy v7) eqn:EL; [rewrite orb_true_r; left; exact EL|]. rewrite orb_false_r.
  destruct (is_ok st7) eqn:ES7; cbn [negb]; [|right; intros ->; discriminate].
  eapply holds_impl; [apply (maybe_shown f v7 n HG H7)| |auto]. intros [v8 st8] H8. right. intros E. specialize (H8 E). unfold Rinv in *. rewrite F7 in H8. exact H8.
Qed.
Lemma Rinv_same v v1 v2 : good v2 -> same (v_items v1) (v_items v2) -> gr v2 = gr v1 -> v_dec v2 = v_dec v1 -> Rinv v v1 -> Rinv v v2.
Proof.
  intros HG HS HR HE (((_ & A2 & A3 & A4 & A5) & L2 & L3 & L4 & L5) & R2 & R3). unfold gr in HR. injection HR as G1 G2 G3 G4 G5.
  assert (NB : Forall nb (v_items v1) -> Forall nb (v_items v2)) by (apply same_Forall; [exact vw_nb|exact HS]).
  assert (EX : forall P : vstat -> Prop, (exists it, In it (v_items v1) /\ P (i_status it)) -> exists it, In it (v_items v2) /\ P (i_status it)).
  { intros P. apply same_ex, HS. }
  split; [|rewrite G2, G4; split].
  - unfold Linv, ready. rewrite G1, G2, G4, G5, HE. split; [|split; [|split; [|split; [|exact L5]]]].
    + split; [exact HG|]. split; [eapply same_Forall; [exact vw_wf|exact HS|exact A2]|]. split; [eapply same_Forall; [|exact HS|exact A3]; intros a b E; destruct (vw_flags _ _ E) as (_ & _ & -> & _); auto|]. split; [eapply same_shp; eassumption|].
      intros E. destruct (A5 E) as [B1 B2]. split; [auto|]. eapply same_Forall; [|exact HS|exact B2]. intros a b E2. unfold undec. destruct (vw_flags _ _ E2) as (_ & _ & _ & -> & _). auto.
    + intros E. destruct (L2 E) as [B1 B2]. split; [exact B1|]. eapply same_Forall; [|exact HS|exact B2]. cbn. intros a b E2. destruct (vw_flags _ _ E2) as (-> & _). auto.
    + intros E. destruct (L3 E) as [B1 [B2|B2]]; auto.
    + intros E F. destruct (L4 E F) as [B1 B2]. split; [exact B1|]. exact (EX (fun s => s = SMiss) B2).
  - rewrite (same_pk _ _ HS). exact R2.
  - intros E. destruct (R3 E) as [B1 B2]. split; [exact B1|]. unfold told in *. rewrite HE, G5. intros F F2. destruct (B2 F F2) as [B3|B3]; [auto|right; exact (EX (fun s => s = SInvalid \/ s = SErr \/ s = SMiss) B3)].
Qed.
Lemma h26x_shown d c f v : d <> [] -> bytes_ok d -> v_codec v = c -> nalu_golden c d = false -> Binv v ->
  holds (add_h26x C Ov f v d) (fun '(v', st) => v_legacy v' = true \/ (st = SV_OK -> Rinv v v')) (fun _ => True).
Proof.
  intros HD HB EC HG HI. unfold add_h26x. rewrite EC. apply holds_bind. destruct (parse_nalu d c true true) as [n|] eqn:EP; [|exact I]. cbn [holds]. cbv zeta.
  set (v1 := on_acc _ _). assert (H1 : Binv v1 /\ v_result v1 = false /\ v_first v1 = v_first v) by (split; [exact HI|split; reflexivity]). clearbody v1. destruct H1 as (H1 & H2 & H3). apply holds_bind.
  eapply holds_impl; [apply (body_shown d c f v1 n EP HD HB); [unfold nalu_golden in HG; rewrite EP in HG; exact HG|exact H1|exact H2]| |auto]. intros [v2 st] H4.
  destruct (v_legacy v2) eqn:EL; [left; exact EL|]. destruct H4 as [H4|H4]; [congruence|]. destruct (is_ok st) eqn:ES.
  - assert (st = SV_OK) as -> by (destruct st; try discriminate; reflexivity). specialize (H4 eq_refl). apply holds_bind. pose proof (copy_same (d_algo_known (v_dec v2)) (v_items v2)) as H5. pose proof (copy_room (d_algo_known (v_dec v2)) (v_items v2)) as H6.
    destruct (copy_last _ _) as [[l st2]|]; [|exact I]. cbn [holds] in *. right. intros ->. change (is_ok SV_OK) with true. cbv iota. unfold Rinv in *. rewrite <- H3.
    apply (Rinv_same v1 v2); [|apply H5; reflexivity|reflexivity|reflexivity|exact H4]. destruct H4 as (((Q & _) & _) & _), Q as [Q1 Q2]. split; [exact Q1|]. apply H6, Q2.
  - apply holds_bind. destruct (copy_last _ _) as [[l st2]|]; [|exact I]. cbn. right. intros ->. discriminate.
Qed.
Lemma shown_in l it : In it l -> In (type_char (i_nalu it), stat_char (i_status it)) (combine (nalu_str l) (validation_str l)).
Proof. unfold nalu_str, validation_str. induction l as [|x l IH]; [intros []|]. cbn [map combine In]. intros [->|H]; auto. Qed.
Lemma shown_out l t s : In (t, s) (combine (nalu_str l) (validation_str l)) -> exists it, In it l /\ t = type_char (i_nalu it) /\ s = stat_char (i_status it).
Proof. unfold nalu_str, validation_str. induction l as [|x l IH]; [intros []|]. cbn [map combine In]. intros [H|H]; [exists x; injection H as <- <-; auto|]. destruct (IH H) as (it & H1 & H2). exists it. auto. Qed.
Definition fits (p : report) : Prop :=
  (l_auth (p_latest p) <> NotOk -> only_seis_bad p) /\ (l_auth (p_latest p) = OkMissing -> shows_missing p).
Definition blames (p : report) : Prop := l_auth (p_latest p) = NotOk -> p_changed p = true \/ shows_damage p.
Lemma add_shown d c f w v v' x : bytes_ok d -> v_codec v = c -> nalu_golden c d = false -> Binv v -> add_nalu C Ov f v d w = Def (v', x) -> (exists r, x = VRes SV_OK r) ->
  Binv v' /\ v_codec v' = c /\ (v_first v = false -> v_first v' = false) /\
  (forall st p, x = VRes st (Some p) -> fits p /\ (verdict (l_auth (p_latest p)) -> v_first v' = false) /\ (v_first v = false -> blames p)).
Proof.
  intros HB EC HG HI. destruct d as [|d0 d1]; [intros E [r ->]; injection E as _ E; discriminate|]. set (d := d0 :: d1) in *. assert (HD : d <> []) by discriminate. unfold add_nalu. change (match d with [] => _ | _ => ?k end) with k. cbv zeta.
  set (v1 := create_report (set_v_started true v)).
  assert (HV2 : Binv v1 /\ v_codec v1 = c /\ v_first v1 = v_first v).
  { unfold v1, create_report. cbn [v_report set_v_started]. destruct (v_report v) eqn:ER; (split; [exact HI|split; [exact EC|reflexivity]]). }
  clearbody v1. destruct HV2 as (I1 & C1 & F1). destruct (v_legacy v1); [intros E [r ->]; injection E as _ E; discriminate|].
  pose proof (h26x_shown d c f v1 HD HB C1 HG I1) as H1. pose proof (add_h26x_fr C Ov f v1 d) as HF. destruct (add_h26x C Ov f v1 d) as [[v2 st]|]; [|discriminate]. cbn [holds obind] in *.
  destruct (v_legacy v2) eqn:EL; [intros E [r ->]; injection E as _ E; discriminate|]. destruct H1 as [H1|H1]; [congruence|]. destruct HF as [HF|(F2 & _)]; [congruence|].
  destruct (is_ok st) eqn:ES; cbn [negb]; [|intros E [r ->]; injection E as _ -> _; discriminate]. assert (st = SV_OK) as -> by (destruct st; try discriminate; reflexivity). destruct (H1 eq_refl) as (L & R2 & R3). rewrite F1 in R3. clear H1.
  assert (C2 : v_codec v2 = c) by congruence. pose proof L as ((A1 & A2 & A3 & A4 & A5) & L2 & L3 & L4 & L5).
  destruct (v_result v2) eqn:ER.
  - cbv zeta. destruct (update_report_latest v2) as (U1 & U2 & U3 & U4 & U5 & U6). destruct (update_report_auth v2) as (W1 & _ & W3 & W4 & _).
    assert (W5 : v_dec (update_report v2) = v_dec v2) by (unfold update_report; cbv zeta; destruct (clean_up _) as [l k]; repeat dif; reflexivity).
    assert (BU : Binv (update_report v2)).
    { unfold Binv, ready. rewrite U3, W3, W4, W5, clean_pk. split; [|split].
      - split; [destruct A1 as [X1 X2]; split; [unfold cok in *; rewrite W5; exact X1|rewrite U3; apply clean_sub, X2]|]. split; [apply clean_sub, A2|]. split; [apply clean_sub, A3|]. split; [|intros E; destruct (A5 E); split; apply clean_sub; assumption].
        exists [], (fst (clean_up (v_items v2))). split; [reflexivity|]. split; [constructor|apply clean_nb, A4].
      - intros E. destruct (L2 E) as [X1 X2]. split; [exact X1|apply clean_sub, X2].
      - intros E. destruct (L3 E) as [X1 _]. split; [exact X1|]. split; [apply clean_nb, A4|apply R2, E]. }
    set (u := update_report v2) in *. clearbody u.
    assert (K : forall r v3, (if w then get_report u else (u, None)) = (v3, r) -> Binv v3 /\ v_codec v3 = c /\ v_first v3 = v_first v2 /\ forall p, r = Some p -> p_latest p = v_latest u /\ p_changed p = d_l_changed (v_dec v2)).
    { intros r v3. assert (B0 : v_codec u = c) by congruence. destruct w; [|intros E; injection E as <- <-; split; [exact BU|]; split; [exact B0|]; split; [exact W4|discriminate]]. unfold get_report. destruct (negb (v_report u)).
      - intros E. injection E as <- <-. split; [exact BU|]. split; [exact B0|]. split; [exact W4|discriminate].
      - intros E. injection E as <- <-. split; [exact BU|]. split; [exact B0|]. split; [exact W4|]. intros p E. injection E as <-. cbn. rewrite W5. auto. }
    destruct (if w then get_report u else (u, None)) as [v3 r]. destruct (K r v3 eq_refl) as (K1 & K2 & K3 & K4). intros E _. injection E as <- <-.
    assert (BZ : Binv (on_dec (set_d_l_has_ts false) v3)) by exact K1. split; [exact BZ|]. split; [exact K2|]. split; [change (v_first (on_dec _ v3)) with (v_first v3); rewrite K3; intros E; apply R3, E|].
    intros st p E. injection E as _ ->. destruct (K4 p eq_refl) as [P1 P2]. assert (SA : shown_as p = combine (nalu_str (v_items v2)) (validation_str (v_items v2))) by (unfold shown_as; rewrite P1, U1, U2; reflexivity).
    assert (LA : l_auth (p_latest p) = l_auth (v_latest v2)) by (rewrite P1; exact W1). unfold fits, blames. rewrite LA, P2. split; [split|split].
    + intros NO t HT. rewrite SA in HT. apply shown_out in HT as (it & T1 & T2 & T3). assert (NB : nb it).
      { assert (FN : Forall nb (v_items v2)); [|exact (proj1 (Forall_forall _ _) FN it T1)]. destruct (v_first v2) eqn:EF; [apply A5; reflexivity|]. destruct (L3 eq_refl) as [_ [X|[_ X]]]; [exact X|congruence]. }
      assert (IV : i_status it = SInvalid) by (destruct (i_status it); try discriminate; reflexivity).
      unfold nb, bad in NB. rewrite IV in NB. cbn [vstat_eqb] in NB. rewrite andb_true_r in NB. apply negb_false_iff in NB. pose proof (proj1 (Forall_forall _ _) A2 it T1) as WF. rewrite T2. unfold wf, item_sei in *. destruct (i_nalu it) as [m|]; [|discriminate]. apply WF, NB.
    + intros OM. destruct (L4 eq_refl OM) as [_ (it & X1 & X2)]. exists (type_char (i_nalu it)). rewrite SA. apply shown_in in X1. rewrite X2 in X1. exact X1.
    + intros VD. change (v_first (on_dec _ v3)) with (v_first v3). rewrite K3. destruct (v_first v2) eqn:EF; [|reflexivity]. destruct (L5 eq_refl eq_refl) as [X|X]; rewrite X in VD; unfold verdict in VD; intuition discriminate.
    + intros EF NO. destruct (proj2 (R3 EF) eq_refl NO) as [X|(it & X1 & X2)]; [left; exact X|right]. exists (type_char (i_nalu it)), (stat_char (i_status it)). rewrite SA. split; [apply shown_in, X1|]. destruct X2 as [-> | [-> | ->]]; cbn; auto.
  - intros E _. injection E as <- <-. split; [|split; [exact C2|split; [intros E; apply R3, E|discriminate]]]. split; [apply L|]. split; [exact L2|]. intros E. destruct (L3 E) as [X1 [X2|[X2 _]]]; [|discriminate]. auto.
Qed.
Lemma exec_shown c f v o v' x : of_bytes o -> not_golden c o -> v_codec v = c -> Binv v -> vexec C Ov f v o = Def (v', x) -> (forall d w, o = VAdd d w -> exists r, x = VRes SV_OK r) ->
  Binv v' /\ v_codec v' = c /\ (o <> VReset -> v_first v = false -> v_first v' = false) /\
  (forall d w st p, o = VAdd d w -> x = VRes st (Some p) -> fits p /\ (verdict (l_auth (p_latest p)) -> v_first v' = false) /\ (v_first v = false -> blames p)).
Proof.
  intros HB HG HC HI. destruct o as [d w|key| |]; cbn [vexec of_bytes not_golden] in *; intros E HX.
  - destruct (add_shown d c f w v v' x HB HC HG HI E (HX d w eq_refl)) as (X1 & X2 & X3 & X4). split; [exact X1|]. split; [exact X2|]. split; [auto|]. intros d1 w1 st p _. apply X4.
  - assert (K : forall u st, set_public_key C v key = (u, st) -> Binv u /\ v_codec u = c /\ v_first u = v_first v).
    { intros u st. unfold set_public_key. destruct key as [|k0 k1]; [intros K; injection K as <- <-; auto|]. destruct (d_pub (v_dec v)); [|intros K; injection K as <- <-; auto]. destruct (v_started v); [intros K; injection K as <- <-; auto|]. cbv zeta.
      destruct (c_pub_ok C _); intros K; injection K as <- <-; (split; [|split; [exact HC|reflexivity]]); [|exact HI]. destruct HI as (A & B & D). split; [exact A|]. split; [exact B|]. intros F. destruct (D F) as [_ D2]. split; [reflexivity|exact D2]. }
    destruct (set_public_key C v key) as [u st]. destruct (K u st eq_refl) as (K1 & K2 & K3). injection E as <- <-. split; [exact K1|]. split; [exact K2|]. split; [congruence|discriminate].
  - injection E as <- <-. split; [|split; [exact HC|split; [congruence|discriminate]]]. destruct HI as [[[A _] _] _]. split; [|split; [intros _; split; [reflexivity|constructor]|discriminate]].
    split; [split; [exact A|constructor]|]. cbn. split; [constructor|]. split; [constructor|]. split; [exists [], []; repeat constructor|]. intros _. split; constructor.
  - destruct (v_legacy v); [injection E as <- <-; split; [exact HI|split; [exact HC|split; [auto|discriminate]]]|]. unfold get_report in E. destruct (negb _); injection E as <- <-; (split; [exact HI|split; [exact HC|split; [auto|discriminate]]]).
Qed.
Lemma create_Binv c : Binv (vcreate C c).
Proof.
  split; [|split; [intros _; split; [reflexivity|constructor]|discriminate]]. split; [split; [reflexivity|constructor]|]. cbn. split; [constructor|]. split; [constructor|]. split; [exists [], []; repeat constructor|]. intros _. split; constructor.
Qed.
Lemma run_cons f v o ops v' res : vrun C Ov f v (o :: ops) = Def (v', res) -> exists v1 x xs, res = x :: xs /\ vexec C Ov f v o = Def (v1, x) /\ vrun C Ov f v1 ops = Def (v', xs).
Proof.
  cbn [vrun]. destruct (vexec C Ov f v o) as [[v1 x]|]; [|discriminate]. cbn [obind]. destruct (vrun C Ov f v1 ops) as [[v2 xs]|] eqn:E; [|discriminate]. cbn [obind]. intros H. injection H as <- <-. exists v1, x, xs. auto.
Qed.
Lemma run_one c f : forall ops v v' res, Forall of_bytes ops -> Forall (not_golden c) ops -> v_codec v = c -> Binv v -> vrun C Ov f v ops = Def (v', res) -> all_accepted ops res ->
  forall j q, gives ops res j q -> fits q /\ (v_first v = false -> (forall k, (k < j)%nat -> nth_error ops k <> Some VReset) -> blames q).
Proof.
  induction ops as [|o ops IH]; intros v v' res HB HG HC HI HR HA j q (d & w & st & G1 & G2); [destruct j; discriminate|]. apply run_cons in HR as (v1 & x & xs & -> & HX & HR). apply Forall_cons_iff in HB as [B0 HB]. apply Forall_cons_iff in HG as [G0 HG].
  destruct (exec_shown c f v o v1 x B0 G0 HC HI HX) as (X1 & X2 & X3 & X4). { intros d1 w1 ->. exact (HA 0%nat d1 w1 x eq_refl eq_refl). }
  destruct j as [|j]; cbn [nth_error] in *.
  - injection G1 as ->. injection G2 as ->. destruct (X4 d w st q eq_refl eq_refl) as (Y1 & Y2 & Y3). auto.
  - destruct (IH v1 v' xs HB HG X2 X1 HR (fun i => HA (S i)) j q) as [Y1 Y2]; [exists d, w, st; auto|]. split; [exact Y1|]. intros F NR. apply Y2; [|intros k HK; apply (NR (S k)); lia]. apply X3; [|exact F]. intros ->. apply (NR 0%nat); [lia|reflexivity].
Qed.
Lemma run_two c f : forall ops v v' res, Forall of_bytes ops -> Forall (not_golden c) ops -> v_codec v = c -> Binv v -> vrun C Ov f v ops = Def (v', res) -> all_accepted ops res ->
  forall i j p q, gives ops res i p -> gives ops res j q -> (i < j)%nat -> no_reset_between ops i j -> verdict (l_auth (p_latest p)) -> blames q.
Proof.
  induction ops as [|o ops IH]; intros v v' res HB HG HC HI HR HA i j p q P Q HL NR VD; [destruct P as (d & w & st & P & _); destruct i; discriminate|]. apply run_cons in HR as (v1 & x & xs & -> & HX & HR). apply Forall_cons_iff in HB as [B0 HB]. apply Forall_cons_iff in HG as [G0 HG].
  destruct (exec_shown c f v o v1 x B0 G0 HC HI HX) as (X1 & X2 & X3 & X4). { intros d1 w1 ->. exact (HA 0%nat d1 w1 x eq_refl eq_refl). }
  destruct j as [|j]; [lia|]. assert (Q2 : gives ops xs j q) by exact Q. destruct i as [|i].
  - destruct P as (d & w & st & P1 & P2). cbn [nth_error] in *. injection P1 as ->. injection P2 as ->. destruct (X4 d w st p eq_refl eq_refl) as (_ & Y2 & _).
    apply (run_one c f ops v1 v' xs HB HG X2 X1 HR (fun i => HA (S i)) j q Q2); [apply Y2, VD|]. intros k HK. apply (NR (S k)); lia.
  - apply (IH v1 v' xs HB HG X2 X1 HR (fun i => HA (S i)) i j p q P Q2); [lia| |exact VD]. intros k K1 K2. apply (NR (S k)); lia.
Qed.
End Fns.

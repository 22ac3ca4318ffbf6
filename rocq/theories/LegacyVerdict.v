(** The verdict of a report on a recording of an older version, and what it shows: lemmas. *)
From Verif Require Import Base BaseProofs Nalu Crypto Types Hash VTypes NaluList Validator LegacyTypes Legacy LegacyAuthSpec LegacyAuth.
Local Open Scope N_scope.

Section Verdict.
Variable C : crypto.
Variable Ov : ovf.

Definition spotless (l : list litem) : Prop := Forall (fun it => x_status it <> SInvalid /\ x_status it <> SErr) l.
Definition good (a : authres) : Prop := a = AuthOk \/ a = OkMissing.
Definition told (q : lsv) : Prop := good (l_auth (q_latest q)) -> spotless (q_items q) /\ d_l_changed (q_dec q) = false.

Lemma stats_clean : forall l i m v, l_stats l = Def (i, m, v) -> (0 <= i)%Z /\ (i = 0%Z -> spotless l).
Proof.
  induction l as [|it l IH]; intros i m v; cbn [l_stats]; [intros E; injection E as <- <- <-; split; [lia|constructor]|].
  destruct (l_stats l) as [[[i0 m0] v0]|] eqn:EL; [|discriminate]. cbn [obind]. pose proof (IH i0 m0 v0 eq_refl) as [P Q]. match goal with |- obind ?z _ = _ -> _ => destruct z as [h|] end; [|discriminate]. cbn [obind].
  intros E. assert (EI : (if vstat_eqb (x_status it) SInvalid || vstat_eqb (x_status it) SErr then 1 + i0 else i0)%Z = i) by congruence. subst i. clear E. destruct (x_status it) eqn:ES; cbv [vstat_eqb orb]; (split; [lia|]); intros HZ; try (exfalso; lia); (constructor; [rewrite ES; split; discriminate|apply Q; lia]).
Qed.
Lemma retry_status : forall l m, l_retry l = Def m -> map x_status m = map x_status l.
Proof.
  induction l as [|it l IH]; intros m; cbn [l_retry]; [intros E; injection E as <-; reflexivity|]. destruct (look (x_nalu it)) as [o|]; [|discriminate]. cbn [obind].
  destruct (match o with Some n => n_first_in_gop n | None => false end); [intros E; injection E as <-; reflexivity|]. destruct (l_retry l) as [r|]; [|discriminate]. cbn [obind]. intros E. injection E as <-. cbn [map]. rewrite (IH r eq_refl). reflexivity.
Qed.
Lemma spotless_map l m : map x_status m = map x_status l -> spotless l -> spotless m.
Proof.
  unfold spotless. intros E F. rewrite Forall_forall in *. intros it HI. assert (IS : In (x_status it) (map x_status l)) by (rewrite <- E; apply in_map, HI). apply in_map_iff in IS as (y & <- & HY). apply F, HY.
Qed.
Lemma validate_told q q2 : l_validate q = Def q2 -> told q2.
Proof.
  unfold l_validate. match goal with |- obind ?z _ = _ -> _ => destruct z as [[[[q1 su] ex] re]|] end; [|discriminate]. cbn [obind].
  destruct (l_stats (q_items q1)) as [[[i m] v]|] eqn:ES; [|discriminate]. cbn [obind]. apply stats_clean in ES as [P Q]. cbv zeta.
  assert (SP : forall q3 a, d_l_changed (q_dec q3) = false -> q_items q3 = q_items q1 -> (good a -> (0 <? i)%Z = false) -> forall re ex, told (q_on_latest (fun l => set_l_recv re (set_l_exp ex (set_l_auth a l))) q3)).
  { intros q3 a HK EI HG re0 ex0. unfold told. intros G. split; [|exact HK]. change (q_items (q_on_latest _ q3)) with (q_items q3). rewrite EI. apply Q. change (l_auth _) with a in G. apply HG in G. apply Z.ltb_ge in G. lia. }
  assert (BAD : forall q3 a, ~ good a -> forall re ex, told (q_on_latest (fun l => set_l_recv re (set_l_exp ex (set_l_auth a l))) q3)).
  { intros q3 a NG re0 ex0 G. change (l_auth _) with a in G. contradiction. }
  assert (NN : ~ good NotOk) by (intros [E|E]; discriminate). assert (NS : ~ good SigPresent) by (intros [E|E]; discriminate).
  assert (EI : q_items (if q_first q1 then q1 else set_q_synced true q1) = q_items q1) by (destruct (q_first q1); reflexivity).
  set (q4 := if q_first q1 then q1 else set_q_synced true q1) in *. destruct (if q_first q4 then _ else _) as [[[q3 a] e3] r3] eqn:EZ.
  intros E. assert (EQ : q_on_latest (fun l => set_l_recv r3 (set_l_exp e3 (set_l_auth (if d_l_changed (q_dec q3) then NotOk else a) l))) q3 = q2) by congruence. subst q2. clear E.
  destruct (d_l_changed (q_dec q3)) eqn:HK; [apply BAD, NN|]. revert HK. revert EZ.
  destruct (0 <? i)%Z; cbn [negb]; rewrite ?andb_false_r; cbn [andb].
  - destruct (q_first q4); intros E; injection E as <- <- _ _; intros HK; apply BAD; assumption.
  - destruct (q_first q4).
    + match goal with |- match ?z with _ => _ end = _ -> _ => destruct z end; intros E; injection E as <- <- _ _; intros HK; first [apply SP; [exact HK|exact EI|reflexivity] | apply BAD; assumption].
    + intros E. injection E as <- <- _ _. intros HK. apply SP; [exact HK|exact EI|reflexivity].
Qed.
Lemma has_pending_told q q2 b : l_has_pending q = Def (q2, b) -> q_items q2 = q_items q /\ q_latest q2 = q_latest q /\ q_result q2 = q_result q /\ q_dec q2 = q_dec q.
Proof. unfold l_has_pending. destruct (l_pending_loop _ _ _) as [[s f]|]; [|discriminate]. cbn [obind]. intros E. injection E as <- <-. auto. Qed.
Lemma loop_told : forall f q stop q2, l_validate_loop C f q stop = Def (q2, SV_OK) -> (q_result q = true -> told q) -> q_result q2 = true -> told q2.
Proof.
  assert (ST : forall f q stop q2, (do (q0, found) <- l_has_pending q; if negb found || stop then Def (q0, SV_OK) else f q0) = Def (q2, SV_OK) -> (q_result q = true -> told q) ->
    (q_result q2 = true -> told q2) \/ exists q0, f q0 = Def (q2, SV_OK)).
  { intros f q stop q2. destruct (l_has_pending q) as [[q0 found]|] eqn:EP; [|discriminate]. cbn [obind]. apply has_pending_told in EP as (E1 & E2 & E3 & E4).
    destruct (negb found || stop); [intros E; assert (q0 = q2) by congruence; subst q2; intros HT; left; unfold told in *; rewrite E1, E2, E3, E4; exact HT|]. intros E _. right. exists q0. exact E. }
  induction f as [|f IH]; intros q stop q2; cbn [l_validate_loop]; intros E HT; (eapply ST in E; [|exact HT]); (destruct E as [E|(q0 & E)]; [exact E|]); [discriminate|].
  revert E. cbv zeta. destruct (l_prepare C _) as [[q3 st]|]; [|discriminate]. cbn [obind]. destruct (is_ok st) eqn:ES; cbn [negb]; [|intros E; assert (st = SV_OK) as -> by congruence; discriminate].
  destruct (if q_signing q3 then _ else _) as [q4|] eqn:EV; [|discriminate]. cbn [obind].
  assert (T4 : told q4). { revert EV. destruct (q_signing q3); [apply validate_told|]. intros E. injection E as <-. intros [G|G]; discriminate. }
  destruct (if q_reset _ then _ else _) as [q5|] eqn:ER; [|discriminate]. cbn [obind].
  assert (T5 : told q5).
  { revert ER. destruct (q_reset _); [|intros E; injection E as <-; exact T4]. change (q_items (set_q_first (negb (q_signing q4)) q4)) with (q_items q4). destruct (l_retry (q_items q4)) as [l|] eqn:EL; [|discriminate]. cbn [obind].
    intros E. injection E as <-. unfold told. cbn [q_items q_latest set_q_items set_q_first]. intros G. split; [eapply spotless_map; [apply retry_status, EL|]|]; apply T4, G. }
  intros E. apply (IH _ _ _ E). intros _. exact T5.
Qed.
Lemma copy_status l m st : l_copy_last l = Def (m, st) -> map x_status m = map x_status l.
Proof.
  unfold l_copy_last. destruct (l_copy_rev (rev l)) as [[r s]|] eqn:EC; [|discriminate]. cbn [obind]. intros E. injection E as <- <-. assert (EM : map x_status r = map x_status (rev l)).
  { revert EC. unfold l_copy_rev. destruct (rev l) as [|it t]; [discriminate|]. destruct (look (x_nalu it)) as [[n|]|]; [| |discriminate]; cbn [obind].
    - destruct (copy_nalu true n) as [[n2 s2]|]; [|discriminate]. cbn [obind]. intros E. injection E as <- <-. reflexivity.
    - intros E. injection E as <- <-. reflexivity. }
  rewrite map_rev, EM, <- map_rev, rev_involutive. reflexivity.
Qed.
Lemma leave_status l : map x_status (leave l) = map x_status l.
Proof. unfold leave. rewrite map_map. apply map_ext. intros it. destruct (x_nalu it); [reflexivity| |reflexivity]. destruct (x_own it); reflexivity. Qed.
Lemma maybe_told f q q2 : l_maybe_validate C f q = Def (q2, SV_OK) -> q_result q = false -> q_result q2 = true -> told q2.
Proof.
  unfold l_maybe_validate. destruct (l_feasible _) as [f1|]; [|discriminate]. cbn [obind]. destruct (l_recurrent C q) as [[q1 f2]|] eqn:ER; [|discriminate]. cbn [obind].
  assert (R1 : q_result q1 = q_result q).
  { revert ER. unfold l_recurrent. destruct (_ || _); [intros E; assert (q1 = q) by congruence; subst; reflexivity|]. destruct (l_recurrent_loop _ _ _) as [[d b]|]; [|discriminate]. cbn [obind]. intros E. assert (set_q_dec d q = q1) by congruence. subst. reflexivity. }
  intros E HR. revert E. destruct (negb (f1 && f2)).
  - destruct (q_first_sei q1); intros E; injection E as <-; [intros _ [G|G]; discriminate|]. congruence.
  - intros E. eapply loop_told; [exact E|]. congruence.
Qed.
Lemma register_result q n q2 it st : l_register C q n = Def (q2, it, st) -> q_result q2 = q_result q.
Proof.
  unfold l_register. destruct (n_valid n =? 0)%Z; [intros E; assert (q2 = q) by congruence; subst; reflexivity|]. destruct (update_hashable n) as [n2|]; [|discriminate]. cbn [obind]. unfold l_hash_item.
  destruct (negb (n_hashable n2)); [intros E; assert (q2 = q) by congruence; subst; reflexivity|]. destruct (hash_wrapper C _ _ _) as [[[k s1] h]|]; [|discriminate]. cbn [obind]. cbv zeta.
  destruct (match h with Some _ => _ | None => _ end) as [it2|]; [|discriminate]. cbn [obind]. destruct (negb (is_ok s1)); [intros E; assert (q_put_hst k q = q2) by congruence; subst; reflexivity|].
  destruct (_ || _); [|intros E; assert (q_put_hst k q = q2) by congruence; subst; reflexivity]. destruct (hash_wrapper C _ _ _) as [[[k2 s2] h2]|]; [|discriminate]. cbn [obind].
  intros E. assert (q_put_hst k2 (set_q_has_ref false (q_put_hst k q)) = q2) by congruence. subst. reflexivity.
Qed.
Lemma body_told f q n q2 : l_add_body C f q n = Def (q2, SV_OK) -> q_result q = false -> q_result q2 = true -> told q2.
Proof.
  unfold l_add_body. cbv zeta. destruct (_ <? _)%Z; [discriminate|]. destruct (l_register C _ n) as [[[q1 it] st]|] eqn:ER; [|discriminate]. cbn [obind]. apply register_result in ER.
  destruct (is_ok st) eqn:ES; cbn [negb]; [|intros E; assert (st = SV_OK) as -> by congruence; discriminate]. intros E HR. eapply maybe_told; [exact E|]. cbn [q_result set_q_items]. rewrite ER. exact HR.
Qed.
Lemma h26x_told f q d q2 : l_add_h26x C f q d = Def (q2, SV_OK) -> q_result q2 = true -> told q2.
Proof.
  unfold l_add_h26x. destruct (parse_nalu _ _ _ _) as [n|]; [|discriminate]. cbn [obind]. cbv zeta. destruct (l_add_body C f _ n) as [[q1 st]|] eqn:EB; [|discriminate]. cbn [obind].
  destruct (l_copy_last (q_items q1)) as [[l cst]|] eqn:EC; [|discriminate]. cbn [obind]. apply copy_status in EC. destruct (is_ok st) eqn:ES.
  2:{ intros E. assert (st = SV_OK) as -> by (injection E as _ E; exact E). discriminate. }
  assert (st = SV_OK) as -> by (destruct st; try discriminate; reflexivity). intros E. assert (cst = SV_OK) as -> by (injection E as _ E; exact E). change (Def (set_q_items (leave l) q1, SV_OK) = Def (q2, SV_OK)) in E.
  assert (E2 : set_q_items (leave l) q1 = q2) by congruence. subst q2. intros HR G. cbn [q_items set_q_items]. destruct (body_told _ _ _ _ EB eq_refl HR G) as [G1 G2]. split; [|exact G2]. eapply spotless_map; [rewrite leave_status; exact EC|exact G1].
Qed.
Lemma spotless_str l : spotless l -> ~ In 78%N (l_validation_str l) /\ ~ In 69%N (l_validation_str l).
Proof.
  intros H. unfold l_validation_str. split; intros HI; apply in_map_iff in HI as (it & E & HI); apply (proj1 (Forall_forall _ _) H) in HI; destruct HI as [A B]; destruct (x_status it); try discriminate; congruence.
Qed.
Lemma nalu_told f q d want q2 p st : l_add_nalu C f q d want = Def (q2, st, Some p) -> good (l_auth (p_latest p)) -> ~ In 78%N (l_vstr (p_latest p)) /\ ~ In 69%N (l_vstr (p_latest p)) /\ p_changed p = false.
Proof.
  unfold l_add_nalu. destruct d as [|d0 d1]; [discriminate|]. destruct (l_add_h26x C f q (d0 :: d1)) as [[q1 s1]|] eqn:EH; [|discriminate]. cbn [obind].
  destruct (is_ok s1) eqn:ES; cbn [negb]; [|discriminate]. assert (s1 = SV_OK) as -> by (destruct s1; try discriminate; reflexivity).
  destruct (q_result q1) eqn:EQ; [|discriminate]. pose proof (h26x_told _ _ _ _ EH EQ) as T. unfold l_update_report. destruct (l_nalu_str (q_items q1)) as [s|]; [|discriminate]. cbn [obind]. cbv zeta.
  match goal with |- context [l_clean_up ?l] => destruct (l_clean_up l) as [l2 k] end. cbn [obind]. destruct want; [|discriminate]. unfold l_get_report. cbv zeta.
  set (qq := if (_ =? 2)%Z then _ else _). intros E. injection E as _ _ <-. cbn [p_latest p_changed].
  change (good (l_auth (q_latest qq)) -> ~ In 78%N (l_vstr (q_latest qq)) /\ ~ In 69%N (l_vstr (q_latest qq)) /\ d_l_changed (q_dec qq) = false). subst qq.
  destruct (_ =? 2)%Z; [intros [G|G]; discriminate|]. cbn [q_latest l_vstr l_auth q_on_latest set_q_latest set_l_nstr set_l_vstr]. intros G. destruct (T G) as [G1 G2]. apply spotless_str in G1 as [G1 G3]. auto.
Qed.
Theorem old_verdict c f ops d want w res st p : wrun C Ov f (wcreate C c) (ops ++ [VAdd d want]) = Def (w, res ++ [(st, Some p)]) -> w_leg w <> None ->
  l_auth (p_latest p) = AuthOk \/ l_auth (p_latest p) = OkMissing -> ~ In 78%N (l_vstr (p_latest p)) /\ ~ In 69%N (l_vstr (p_latest p)) /\ p_changed p = false.
Proof.
  intros ER HL. destruct (run_snoc C Ov f _ _ _ _ _ ER) as (w1 & res1 & [s r] & E1 & E2 & E3). cbn [fst snd] in E2. apply app_inj_tail in E3 as [<- E3]. injection E3 as <- <-. clear ER E1.
  revert E2. cbn [wexec]. unfold w_add. destruct d as [|d0 d1]; [discriminate|]. destruct (w_leg w1) as [q|].
  - destruct (l_add_nalu C f q (d0 :: d1) want) as [[[q2 s2] r2]|] eqn:EL; [|discriminate]. cbn [obind]. intros E. injection E as _ <- ->. exact (nalu_told _ _ _ _ _ _ _ EL).
  - destruct (add_nalu C Ov f (w_v w1) (d0 :: d1) want) as [[v x]|]; [|discriminate]. cbn [obind]. destruct x as [s1 r1|].
    { intros E. injection E as <- _ _. cbn in HL. congruence. }
    destruct (l_create C v) as [[q s1]|]; [|discriminate]. cbn [obind]. destruct (negb (is_ok s1)); [discriminate|]. destruct (l_feed C f q _) as [[q1 s2]|]; [|discriminate]. cbn [obind].
    destruct (copy_last true (v_items v)) as [[l cst]|]; [|discriminate]. cbn [obind]. cbv zeta. destruct (negb (is_ok _)); [discriminate|].
    destruct (l_add_nalu C f q1 (d0 :: d1) want) as [[[q3 s3] r3]|] eqn:EL; [|discriminate]. cbn [obind]. intros E. injection E as _ <- ->. exact (nalu_told _ _ _ _ _ _ _ EL).
Qed.

(** No report has the verdict that the versions do not fit. *)
Definition fits (q : lsv) : Prop := l_auth (q_latest q) <> VersionMismatch.
Lemma validate_fits q q2 : l_validate q = Def q2 -> fits q2.
Proof.
  unfold l_validate. match goal with |- obind ?z _ = _ -> _ => destruct z as [[[[q1 su] ex] re]|] end; [|discriminate]. cbn [obind].
  destruct (l_stats (q_items q1)) as [[[i m] v]|]; [|discriminate]. cbn [obind]. cbv zeta.
  set (q4 := if q_first q1 then q1 else set_q_synced true q1) in *. destruct (if q_first q4 then _ else _) as [[[q3 a] e3] r3] eqn:EZ.
  intros E. assert (EQ : q_on_latest (fun l => set_l_recv r3 (set_l_exp e3 (set_l_auth (if d_l_changed (q_dec q3) then NotOk else a) l))) q3 = q2) by congruence. subst q2. clear E.
  unfold fits. change (l_auth (q_latest _)) with (if d_l_changed (q_dec q3) then NotOk else a). destruct (d_l_changed (q_dec q3)); [discriminate|]. revert EZ.
  destruct (0 <? i)%Z, (negb (q_first q1)), (1 <? ex)%Z, (ex - 1 <=? m)%Z, ((0 <? m)%Z && su), (q_first q4), v; cbn [negb andb]; intros E; assert (EA : a = snd (fst (fst (q3, a, e3, r3)))) by reflexivity; rewrite EA, <- E; discriminate.
Qed.
Lemma loop_fits : forall f q stop q2, l_validate_loop C f q stop = Def (q2, SV_OK) -> (q_result q = true -> fits q) -> q_result q2 = true -> fits q2.
Proof.
  assert (ST : forall f q stop q2, (do (q0, found) <- l_has_pending q; if negb found || stop then Def (q0, SV_OK) else f q0) = Def (q2, SV_OK) -> (q_result q = true -> fits q) ->
    (q_result q2 = true -> fits q2) \/ exists q0, f q0 = Def (q2, SV_OK)).
  { intros f q stop q2. destruct (l_has_pending q) as [[q0 found]|] eqn:EP; [|discriminate]. cbn [obind]. apply has_pending_told in EP as (E1 & E2 & E3 & E4).
    destruct (negb found || stop); [intros E; assert (q0 = q2) by congruence; subst q2; intros HT; left; unfold fits in *; rewrite E2, E3; exact HT|]. intros E _. right. exists q0. exact E. }
  induction f as [|f IH]; intros q stop q2; cbn [l_validate_loop]; intros E HT; (eapply ST in E; [|exact HT]); (destruct E as [E|(q0 & E)]; [exact E|]); [discriminate|].
  revert E. cbv zeta. destruct (l_prepare C _) as [[q3 st]|]; [|discriminate]. cbn [obind]. destruct (is_ok st) eqn:ES; cbn [negb]; [|intros E; assert (st = SV_OK) as -> by congruence; discriminate].
  destruct (if q_signing q3 then _ else _) as [q4|] eqn:EV; [|discriminate]. cbn [obind].
  assert (T4 : fits q4). { revert EV. destruct (q_signing q3); [apply validate_fits|]. intros E. injection E as <-. discriminate. }
  destruct (if q_reset _ then _ else _) as [q5|] eqn:ER; [|discriminate]. cbn [obind].
  assert (T5 : fits q5).
  { revert ER. destruct (q_reset _); [|intros E; injection E as <-; exact T4]. destruct (l_retry _) as [l|]; [|discriminate]. cbn [obind]. intros E. injection E as <-. exact T4. }
  intros E. apply (IH _ _ _ E). intros _. exact T5.
Qed.
Lemma maybe_fits f q q2 : l_maybe_validate C f q = Def (q2, SV_OK) -> q_result q = false -> q_result q2 = true -> fits q2.
Proof.
  unfold l_maybe_validate. destruct (l_feasible _) as [f1|]; [|discriminate]. cbn [obind]. destruct (l_recurrent C q) as [[q1 f2]|] eqn:ER; [|discriminate]. cbn [obind].
  assert (R1 : q_result q1 = q_result q).
  { revert ER. unfold l_recurrent. destruct (_ || _); [intros E; assert (q1 = q) by congruence; subst; reflexivity|]. destruct (l_recurrent_loop _ _ _) as [[d b]|]; [|discriminate]. cbn [obind]. intros E. assert (set_q_dec d q = q1) by congruence. subst. reflexivity. }
  intros E HR. revert E. destruct (negb (f1 && f2)).
  - destruct (q_first_sei q1); intros E; injection E as <-; [discriminate|]. congruence.
  - intros E. eapply loop_fits; [exact E|]. congruence.
Qed.
Lemma nalu_fits f q d want q2 p st : l_add_nalu C f q d want = Def (q2, st, Some p) -> l_auth (p_latest p) <> VersionMismatch.
Proof.
  unfold l_add_nalu. destruct d as [|d0 d1]; [discriminate|]. destruct (l_add_h26x C f q (d0 :: d1)) as [[q1 s1]|] eqn:EH; [|discriminate]. cbn [obind].
  destruct (is_ok s1) eqn:ES; cbn [negb]; [|discriminate]. assert (s1 = SV_OK) as -> by (destruct s1; try discriminate; reflexivity).
  destruct (q_result q1) eqn:EQ; [|discriminate].
  assert (T : fits q1).
  { revert EH. unfold l_add_h26x. destruct (parse_nalu _ _ _ _) as [n|]; [|discriminate]. cbn [obind]. cbv zeta. destruct (l_add_body C f _ n) as [[q3 s3]|] eqn:EB; [|discriminate]. cbn [obind].
    destruct (l_copy_last (q_items q3)) as [[l cst]|]; [|discriminate]. cbn [obind]. intros E. assert (s3 = SV_OK) as -> by (injection E as _ E; destruct s3; cbn in E; try discriminate; reflexivity).
    injection E as <- _. change (q_result q3 = true) in EQ. change (fits q3). revert EB. unfold l_add_body. cbv zeta. destruct (_ <? _)%Z; [discriminate|]. destruct (l_register C _ n) as [[[q4 it] s4]|] eqn:ER; [|discriminate]. cbn [obind]. apply register_result in ER.
    destruct (is_ok s4) eqn:E4; cbn [negb]; [|intros E; assert (s4 = SV_OK) as -> by congruence; discriminate]. intros E. eapply maybe_fits; [exact E| |exact EQ]. cbn [q_result set_q_items]. rewrite ER. reflexivity. }
  unfold l_update_report. destruct (l_nalu_str (q_items q1)) as [s|]; [|discriminate]. cbn [obind]. cbv zeta.
  match goal with |- context [l_clean_up ?l] => destruct (l_clean_up l) as [l2 k] end. cbn [obind]. destruct want; [|discriminate]. unfold l_get_report. cbv zeta. change (compare_versions [] (d_sver _) =? 2)%Z with false. cbv iota.
  intros E. injection E as _ _ <-. exact T.
Qed.
Theorem old_fits c f ops d want w res st p : wrun C Ov f (wcreate C c) (ops ++ [VAdd d want]) = Def (w, res ++ [(st, Some p)]) -> w_leg w <> None -> l_auth (p_latest p) <> VersionMismatch.
Proof.
  intros ER HL. destruct (run_snoc C Ov f _ _ _ _ _ ER) as (w1 & res1 & [s r] & E1 & E2 & E3). cbn [fst snd] in E2. apply app_inj_tail in E3 as [<- E3]. injection E3 as <- <-. clear ER E1.
  revert E2. cbn [wexec]. unfold w_add. destruct d as [|d0 d1]; [discriminate|]. destruct (w_leg w1) as [q|].
  - destruct (l_add_nalu C f q (d0 :: d1) want) as [[[q2 s2] r2]|] eqn:EL; [|discriminate]. cbn [obind]. intros E. injection E as _ <- ->. exact (nalu_fits _ _ _ _ _ _ _ EL).
  - destruct (add_nalu C Ov f (w_v w1) (d0 :: d1) want) as [[v x]|]; [|discriminate]. cbn [obind]. destruct x as [s1 r1|].
    { intros E. injection E as <- _ _. cbn in HL. congruence. }
    destruct (l_create C v) as [[q s1]|]; [|discriminate]. cbn [obind]. destruct (negb (is_ok s1)); [discriminate|]. destruct (l_feed C f q _) as [[q1 s2]|]; [|discriminate]. cbn [obind].
    destruct (copy_last true (v_items v)) as [[l cst]|]; [|discriminate]. cbn [obind]. cbv zeta. destruct (negb (is_ok _)); [discriminate|].
    destruct (l_add_nalu C f q1 (d0 :: d1) want) as [[[q3 s3] r3]|] eqn:EL; [|discriminate]. cbn [obind]. intros E. injection E as _ <- ->. exact (nalu_fits _ _ _ _ _ _ _ EL).
Qed.
End Verdict.

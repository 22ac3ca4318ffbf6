(** The accumulated result of a session that was handed over is changed by reports only: lemmas. *)
From Coq Require Import Sorted.
From Verif Require Import Base BaseProofs Nalu Crypto Types Hash VTypes NaluList Validator ValidSpec AuthSpec LegacyTypes Legacy LegacyAuthSpec LegacyAuth.
Local Open Scope N_scope.

Section Acc.
Variable C : crypto.
Variable Ov : ovf.

Definition kept {A} (pr : A -> lsv) (q : lsv) (o : out A) : Prop := match o with Def x => q_acc (pr x) = q_acc q | Undef _ => True end.
Ltac kstep := match goal with
  | |- kept _ _ (Undef _) => exact Logic.I
  | |- kept _ _ (obind ?z _) => let E := fresh "EZ" in destruct z eqn:E; cbn [obind]; [|exact Logic.I]
  | |- kept _ _ (if ?b then _ else _) => destruct b
  | |- kept _ _ (match ?x with _ => _ end) => destruct x
  end.
Ltac k := repeat (cbv zeta; kstep).

Lemma without_acc q q2 f : l_without q = Def (q2, f) -> q_acc q2 = q_acc q.
Proof. intros E. change (kept fst q (Def (q2, f))). rewrite <- E. unfold l_without. k; cbn [kept fst]; destruct (_ && _); reflexivity. Qed.
Lemma decode_acc q n q2 st : l_decode_sei C q n = Def (q2, st) -> q_acc q2 = q_acc q.
Proof. intros E. change (kept fst q (Def (q2, st))). rewrite <- E. unfold l_decode_sei. k; try reflexivity. cbn [kept fst]. destruct (_ && _); reflexivity. Qed.
Lemma reset_acc q q2 st : gop_hash_reset C q = Def (q2, st) -> q_acc q2 = q_acc q.
Proof. intros E. change (kept fst q (Def (q2, st))). rewrite <- E. unfold gop_hash_reset. k; reflexivity. Qed.
Lemma hash_add_acc q x q2 st : gop_hash_add C q x = Def (q2, st) -> q_acc q2 = q_acc q.
Proof. intros E. change (kept fst q (Def (q2, st))). rewrite <- E. unfold gop_hash_add. k; reflexivity. Qed.
Lemma hash_loop_acc hs : forall l q psei j q2 l2 st, gop_hash_loop C hs q psei j l = Def (q2, l2, st) -> q_acc q2 = q_acc q.
Proof.
  induction l as [|it r IH]; intros q psei j q2 l2 st E; change (kept (fun x => fst (fst x)) q (Def (q2, l2, st))); rewrite <- E; cbn [gop_hash_loop]; [reflexivity|]. clear E.
  k; cbn [kept fst];
    repeat match goal with H : gop_hash_add C _ _ = Def _ |- _ => apply hash_add_acc in H | H : gop_hash_loop C _ _ _ _ _ = Def _ |- _ => apply IH in H end; congruence.
Qed.
Lemma gop_hash_acc q j q2 st : l_gop_hash C q j = Def (q2, st) -> q_acc q2 = q_acc q.
Proof.
  intros E. change (kept fst q (Def (q2, st))). rewrite <- E. unfold l_gop_hash. clear E.
  k; cbn [kept fst]; repeat match goal with H : gop_hash_add C _ _ = Def _ |- _ => apply hash_add_acc in H | H : gop_hash_loop C _ _ _ _ _ = Def _ |- _ => apply hash_loop_acc in H | H : gop_hash_reset C _ = Def _ |- _ => apply reset_acc in H end;
    repeat match goal with |- context [q_acc (q_on_items ?f ?q)] => change (q_acc (q_on_items f q)) with (q_acc q) | H : context [q_acc (set_q_items ?f ?q)] |- _ => change (q_acc (set_q_items f q)) with (q_acc q) in H | |- context [q_acc (set_q_items ?f ?q)] => change (q_acc (set_q_items f q)) with (q_acc q) end; congruence.
Qed.
Lemma verify_acc q : q_acc (fst (l_verify_hash C q)) = q_acc q.
Proof. unfold l_verify_hash. destruct (d_sig (q_dec q)), (d_vkey (q_dec q)); try reflexivity. destruct (_ =? _); reflexivity. Qed.
Lemma prepare_acc q q2 st : l_prepare C q = Def (q2, st) -> q_acc q2 = q_acc q.
Proof.
  intros E. change (kept fst q (Def (q2, st))). rewrite <- E. unfold l_prepare. clear E. cbv zeta. destruct (l_next_sei _) as [sei|]; [cbn [obind]|exact Logic.I].
  match goal with |- kept _ _ (obind ?z _) => assert (K : kept fst q z) end.
  { destruct sei as [j|]; [|reflexivity]. destruct (nth_error _ j) as [it|]; [|exact Logic.I].
    match goal with |- kept _ _ (obind ?z _) => assert (K : kept fst q z) end.
    { k; cbn [kept fst]; repeat match goal with H : l_decode_sei C _ _ = Def _ |- _ => apply decode_acc in H end; try reflexivity; assumption. }
    match goal with |- kept _ _ (obind ?z _) => destruct z as [[q3 s3]|]; [cbn [obind]|exact Logic.I] end. cbn [kept fst] in K.
    k; cbn [kept fst]; repeat match goal with H : l_gop_hash C _ _ = Def _ |- _ => apply gop_hash_acc in H end; try congruence.
    change (q_acc (set_q_hash _ _)) with (q_acc l). congruence. }
  match goal with |- kept _ _ (obind ?z _) => destruct z as [[q3 s3]|]; [cbn [obind]|exact Logic.I] end. cbn [kept fst] in K.
  k; cbn [kept fst]; rewrite ?verify_acc; congruence.
Qed.
Definition f4 (x : lsv * bool * Z * Z) : lsv := fst (fst (fst x)).
Lemma with_list_acc q : kept f4 q (l_with_list q).
Proof.
  unfold l_with_list. cbv zeta. destruct (_ =? _)%nat; [exact Logic.I|]. destruct (l_next_sei _) as [[j|]|]; cbn [obind]; [|reflexivity|exact Logic.I]. destruct (q_verified q =? 1)%Z.
  - destruct (l_list_loop _ _ _ _ _ _ _) as [[s l]|]; [cbn [obind]|exact Logic.I]. match goal with |- kept _ _ (let (_, _) := ?z in _) => destruct z as [l2 r2] end. destruct (on_sei _ _); [reflexivity|exact Logic.I].
  - destruct (on_sei _ _) as [l|]; [cbn [obind]|exact Logic.I]. destruct (l_without _) as [[q3 f]|] eqn:EW; [cbn [obind]|exact Logic.I]. apply without_acc in EW. exact EW.
Qed.
Lemma with_gop_acc q : kept f4 q (l_with_gop q).
Proof.
  unfold l_with_gop. cbv zeta. destruct (_ || _).
  - destruct (l_mark_used _ _) as [l r]. destruct (l_first_used _) as [j|]; [|reflexivity]. destruct (q_first _); [reflexivity|]. destruct (nth_error l j) as [it|]; [|exact Logic.I]. destruct (deref _); [reflexivity|exact Logic.I].
  - destruct (l_without q) as [[q3 f]|] eqn:EW; [cbn [obind]|exact Logic.I]. apply without_acc in EW. exact EW.
Qed.
Lemma validate_acc q q2 : l_validate q = Def q2 -> q_acc q2 = q_acc q.
Proof.
  unfold l_validate. match goal with |- obind ?z _ = _ -> _ => assert (K : kept f4 q z) end.
  { destruct (_ && _); [|destruct (_ =? _); [apply with_list_acc|apply with_gop_acc]]. destruct (l_without _) as [[q3 f]|] eqn:EW; [cbn [obind]|exact Logic.I]. apply without_acc in EW. exact EW. }
  match goal with |- obind ?z _ = _ -> _ => destruct z as [[[[q1 su] ex] re]|] end; [|discriminate]. cbn [obind]. unfold kept, f4 in K. cbn [fst] in K.
  destruct (l_stats (q_items q1)) as [[[i m] v]|]; [|discriminate]. cbn [obind]. cbv zeta.
  assert (EI : q_acc (if q_first q1 then q1 else set_q_synced true q1) = q_acc q) by (destruct (q_first q1); exact K).
  set (q4 := if q_first q1 then q1 else set_q_synced true q1) in *. destruct (if q_first q4 then _ else _) as [[[q3 a] e3] r3] eqn:EZ.
  intros E. assert (EQ : q_on_latest (fun l => set_l_recv r3 (set_l_exp e3 (set_l_auth (if d_l_changed (q_dec q3) then NotOk else a) l))) q3 = q2) by congruence. subst q2. clear E.
  change (q_acc q3 = q_acc q). rewrite <- EI. revert EZ. destruct (q_first q4).
  - match goal with |- match ?z with _ => _ end = _ -> _ => destruct z end; intros E; injection E as <- _ _ _; reflexivity.
  - intros E. injection E as <- _ _ _. reflexivity.
Qed.
Lemma pending_acc q q2 b : l_has_pending q = Def (q2, b) -> q_acc q2 = q_acc q.
Proof. unfold l_has_pending. destruct (l_pending_loop _ _ _) as [[s f]|]; [|discriminate]. cbn [obind]. intros E. injection E as <- _. reflexivity. Qed.
Lemma loop_acc : forall f q stop q2 st, l_validate_loop C f q stop = Def (q2, st) -> q_acc q2 = q_acc q.
Proof.
  induction f as [|f IH]; intros q stop q2 st; cbn [l_validate_loop]; destruct (l_has_pending q) as [[q0 found]|] eqn:EP; try discriminate; cbn [obind]; apply pending_acc in EP;
    (destruct (negb found || stop); [intros E; assert (q0 = q2) by congruence; subst; exact EP|]); [discriminate|].
  cbv zeta. destruct (l_prepare C _) as [[q3 s3]|] eqn:E3; [|discriminate]. cbn [obind]. apply prepare_acc in E3. change (q_acc q3 = q_acc q0) in E3.
  destruct (negb (is_ok s3)); [intros E; assert (q3 = q2) by congruence; subst; congruence|].
  destruct (if q_signing q3 then _ else _) as [q4|] eqn:EV; [|discriminate]. cbn [obind].
  assert (E4 : q_acc q4 = q_acc q3). { revert EV. destruct (q_signing q3); [apply validate_acc|]. intros E. injection E as <-. reflexivity. }
  destruct (if q_reset _ then _ else _) as [q5|] eqn:ER; [|discriminate]. cbn [obind].
  assert (E5 : q_acc q5 = q_acc q4). { revert ER. destruct (q_reset _); [|intros E; injection E as <-; reflexivity]. destruct (l_retry _) as [l|]; [|discriminate]. cbn [obind]. intros E. injection E as <-. reflexivity. }
  intros E. apply IH in E. change (q_acc q2 = q_acc q5) in E. congruence.
Qed.
Lemma maybe_acc f q q2 st : l_maybe_validate C f q = Def (q2, st) -> q_acc q2 = q_acc q.
Proof.
  unfold l_maybe_validate. destruct (l_feasible _) as [f1|]; [|discriminate]. cbn [obind]. destruct (l_recurrent C q) as [[q1 f2]|] eqn:ER; [|discriminate]. cbn [obind].
  assert (R1 : q_acc q1 = q_acc q).
  { revert ER. unfold l_recurrent. destruct (_ || _); [intros E; assert (q1 = q) by congruence; subst; reflexivity|]. destruct (l_recurrent_loop _ _ _) as [[d b]|]; [|discriminate]. cbn [obind]. intros E. assert (set_q_dec d q = q1) by congruence. subst. reflexivity. }
  destruct (negb (f1 && f2)); [|intros E; apply loop_acc in E; congruence]. destruct (q_first_sei q1); intros E; injection E as <- _; exact R1.
Qed.
Lemma register_acc q n q2 it st : l_register C q n = Def (q2, it, st) -> q_acc q2 = q_acc q.
Proof.
  intros E. change (kept (fun x => fst (fst x)) q (Def (q2, it, st))). rewrite <- E. unfold l_register, l_hash_item. clear E. k; reflexivity.
Qed.
Lemma h26x_acc f q d q2 st : l_add_h26x C f q d = Def (q2, st) -> a_changed (q_acc q2) = a_changed (q_acc q).
Proof.
  unfold l_add_h26x. destruct (parse_nalu _ _ _ _) as [n|]; [|discriminate]. cbn [obind]. cbv zeta. destruct (l_add_body C f _ n) as [[q1 s1]|] eqn:EB; [|discriminate]. cbn [obind].
  destruct (l_copy_last (q_items q1)) as [[l cst]|]; [|discriminate]. cbn [obind]. intros E. injection E as <- _. change (a_changed (q_acc q1) = a_changed (q_acc q)).
  revert EB. unfold l_add_body. cbv zeta. destruct (_ <? _)%Z; [intros E; injection E as <- _; reflexivity|]. destruct (l_register C _ n) as [[[q3 it] s3]|] eqn:ER; [|discriminate]. cbn [obind]. apply register_acc in ER.
  change (q_acc q3 = q_acc (q_on_acc (fun a => set_a_recv (u32 (a_recv a + 1)) a) q)) in ER.
  destruct (negb (is_ok s3)); intros E; [injection E as <- _|apply maybe_acc in E; rewrite E]; (change (a_changed (q_acc q3) = a_changed (q_acc q)); rewrite ER; reflexivity).
Qed.
Definition says_changed (r : option report) : Prop := match r with Some p => a_changed (p_acc p) = true | None => True end.
Lemma nalu_changed f q d want q2 st r : l_add_nalu C f q d want = Def (q2, st, r) ->
  (a_changed (q_acc q) = true -> a_changed (q_acc q2) = true /\ says_changed r) /\
  forall p, r = Some p -> (p_changed p = true -> a_changed (p_acc p) = true) /\ a_changed (q_acc q2) = a_changed (p_acc p).
Proof.
  unfold l_add_nalu. destruct d as [|d0 d1]; [intros E; assert (q = q2) by congruence; assert (None = r) by congruence; subst; cbn; split; [auto|discriminate]|].
  destruct (l_add_h26x C f q (d0 :: d1)) as [[q1 s1]|] eqn:EH; [|discriminate]. cbn [obind]. apply h26x_acc in EH.
  destruct (negb (is_ok s1)); [intros E; assert (q1 = q2) by congruence; assert (None = r) by congruence; subst; cbn; split; [intros H; split; [congruence|exact Logic.I]|discriminate]|].
  destruct (q_result q1); [|intros E; assert (q1 = q2) by congruence; assert (None = r) by congruence; subst; cbn; split; [intros H; split; [congruence|exact Logic.I]|discriminate]].
  unfold l_update_report. destruct (l_nalu_str (q_items q1)) as [s|]; [|discriminate]. cbn [obind]. cbv zeta.
  match goal with |- context [l_clean_up ?l] => destruct (l_clean_up l) as [l2 k2] end. cbn [obind]. change (compare_versions [] (d_sver _) =? 2)%Z with false. cbv iota.
  set (a := accumulate _ _ _). assert (EA : a_changed a = a_changed (q_acc q1) || d_l_changed (q_dec q1)) by reflexivity.
  set (b := match a_auth a with NotSigned => a | _ => _ end). assert (EB : a_changed b = a_changed a) by (subst b; destruct (a_auth a); reflexivity).
  destruct want.
  - unfold l_get_report. cbv zeta. intros E. injection E as <- _ <-. cbn [says_changed p_acc p_changed].
    match goal with |- (_ -> a_changed ?x = true /\ a_changed ?y = true) /\ _ => change (a_changed x) with (a_changed b); change (a_changed y) with (a_changed b) end.
    rewrite EB, EA, EH. split; [intros ->; auto|]. intros p E. injection E as <-. cbn [p_acc p_changed]. split; [|rewrite <- EH, <- EA, <- EB; reflexivity].
    match goal with |- _ -> a_changed ?y = true => change (a_changed y) with (a_changed b) end. rewrite EB, EA. intros HK. change (d_l_changed (q_dec q1) = true) in HK. rewrite HK. apply orb_true_r.
  - intros E. injection E as <- _ <-. cbn [says_changed]. split; [|discriminate]. match goal with |- _ -> a_changed ?x = true /\ _ => change (a_changed x) with (a_changed b) end. rewrite EB, EA, EH. intros ->. auto.
Qed.
Definition wchg (w : wsess) : Prop := match w_leg w with Some q => a_changed (q_acc q) = true | None => False end.
Lemma exec_changed f w o w2 st r : o <> VReset -> wexec C Ov f w o = Def (w2, st, r) -> wchg w -> wchg w2 /\ says_changed r.
Proof.
  intros NR. unfold wchg. destruct (w_leg w) as [q|] eqn:EL; [|contradiction]. destruct o as [d want|key| |]; [| |congruence|]; cbn [wexec].
  - unfold w_add. rewrite EL. destruct d as [|d0 d1]; [intros E; assert (w = w2) by congruence; assert (None = r) by congruence; subst; rewrite EL; cbn; auto|].
    destruct (l_add_nalu C f q (d0 :: d1) want) as [[[q2 s2] r2]|] eqn:EA; [|discriminate]. cbn [obind]. intros E. injection E as <- _ <-. cbn [w_leg]. exact (proj1 (nalu_changed _ _ _ _ _ _ _ EA)).
  - destruct (set_public_key C (w_v w) key) as [v s]. intros E. injection E as <- _ <-. cbn [w_leg]. rewrite EL. cbn. auto.
  - unfold w_report. rewrite EL. unfold l_get_report. cbv zeta. intros E. injection E as <- _ <-. cbn [w_leg says_changed p_acc]. intros H. split; exact H.
Qed.
Lemma run_changed f : forall ops w w2 res, Forall (fun o => o <> VReset) ops -> wrun C Ov f w ops = Def (w2, res) -> wchg w -> Forall (fun x => says_changed (snd x)) res.
Proof.
  induction ops as [|o ops IH]; intros w w2 res HF; cbn [wrun]; [intros E; assert ([] = res) by congruence; subst; constructor|]. inversion HF as [|? ? NR HF2]; subst.
  destruct (wexec C Ov f w o) as [[[w1 st] r]|] eqn:EX; [|discriminate]. cbn [obind]. destruct (wrun C Ov f w1 ops) as [[w3 xs]|] eqn:ER; [|discriminate]. cbn [obind]. intros E HW.
  assert ((st, r) :: xs = res) by congruence. subst res. destruct (exec_changed _ _ _ _ _ _ NR EX HW) as [H1 H2]. constructor; [exact H2|]. exact (IH _ _ _ HF2 ER H1).
Qed.
Theorem old_changed c f ops1 d want w1 res1 st p ops2 w2 res2 :
  wrun C Ov f (wcreate C c) (ops1 ++ [VAdd d want]) = Def (w1, res1 ++ [(st, Some p)]) -> w_leg w1 <> None -> p_changed p = true \/ a_changed (p_acc p) = true ->
  Forall (fun o => o <> VReset) ops2 -> wrun C Ov f w1 ops2 = Def (w2, res2) -> Forall (fun x => says_changed (snd x)) ((st, Some p) :: res2).
Proof.
  intros ER HL HK HF E2. destruct (run_snoc C Ov f _ _ _ _ _ ER) as (w0 & res0 & [s r] & E1 & EX & E3). cbn [fst snd] in EX. apply app_inj_tail in E3 as [_ E3]. injection E3 as <- <-. clear ER E1.
  assert (H : wchg w1 /\ a_changed (p_acc p) = true).
  { assert (N : forall q q2 s, l_add_nalu C f q d want = Def (q2, s, Some p) -> a_changed (q_acc q2) = true /\ a_changed (p_acc p) = true).
    { intros q q2 s EN. destruct (proj2 (nalu_changed _ _ _ _ _ _ _ EN) p eq_refl) as [N1 ->]. destruct HK as [HK|HK]; [apply N1 in HK|]; auto. }
    unfold wchg. revert EX. cbn [wexec]. unfold w_add. destruct d as [|d0 d1]; [discriminate|]. destruct (w_leg w0) as [q|].
    - destruct (l_add_nalu C f q (d0 :: d1) want) as [[[q2 s2] r2]|] eqn:EL; [|discriminate]. cbn [obind]. intros E. injection E as <- <- ->. cbn [w_leg]. exact (N _ _ _ EL).
    - destruct (add_nalu C Ov f (w_v w0) (d0 :: d1) want) as [[v x]|]; [|discriminate]. cbn [obind]. destruct x as [s1 r1|].
      { intros E. injection E as <- _ _. cbn in HL. congruence. }
      destruct (l_create C v) as [[q s1]|]; [|discriminate]. cbn [obind]. destruct (negb (is_ok s1)); [discriminate|]. destruct (l_feed C f q _) as [[q1 s2]|]; [|discriminate]. cbn [obind].
      destruct (copy_last true (v_items v)) as [[l cst]|]; [|discriminate]. cbn [obind]. cbv zeta. destruct (negb (is_ok _)); [discriminate|].
      destruct (l_add_nalu C f q1 (d0 :: d1) want) as [[[q3 s3] r3]|] eqn:EL; [|discriminate]. cbn [obind]. intros E. injection E as <- <- ->. cbn [w_leg]. exact (N _ _ _ EL). }
  constructor; [exact (proj2 H)|]. exact (run_changed _ _ _ _ _ HF E2 (proj1 H)).
Qed.

(** The overall result. *)
Lemma h26x_auth f q d q2 st : l_add_h26x C f q d = Def (q2, st) -> a_auth (q_acc q2) = a_auth (q_acc q).
Proof.
  unfold l_add_h26x. destruct (parse_nalu _ _ _ _) as [n|]; [|discriminate]. cbn [obind]. cbv zeta. destruct (l_add_body C f _ n) as [[q1 s1]|] eqn:EB; [|discriminate]. cbn [obind].
  destruct (l_copy_last (q_items q1)) as [[l cst]|]; [|discriminate]. cbn [obind]. intros E. injection E as <- _. change (a_auth (q_acc q1) = a_auth (q_acc q)).
  revert EB. unfold l_add_body. cbv zeta. destruct (_ <? _)%Z; [intros E; injection E as <- _; reflexivity|]. destruct (l_register C _ n) as [[[q3 it] s3]|] eqn:ER; [|discriminate]. cbn [obind]. apply register_acc in ER.
  change (q_acc q3 = q_acc (q_on_acc (fun a => set_a_recv (u32 (a_recv a + 1)) a) q)) in ER.
  destruct (negb (is_ok s3)); intros E; [injection E as <- _|apply maybe_acc in E; rewrite E]; (change (a_auth (q_acc q3) = a_auth (q_acc q)); rewrite ER; reflexivity).
Qed.
Definition no_better (a b : authres) : Prop := verdict a -> ar_n b <= ar_n a.
Lemma nalu_auth f q d want q2 st r : l_add_nalu C f q d want = Def (q2, st, r) ->
  match r with
  | None => want = true -> a_auth (q_acc q2) = a_auth (q_acc q)
  | Some p => a_auth (q_acc q2) = a_auth (p_acc p) /\ no_better (a_auth (q_acc q)) (a_auth (p_acc p)) /\ ar_n (a_auth (p_acc p)) <= ar_n (l_auth (p_latest p))
  end.
Proof.
  unfold l_add_nalu. destruct d as [|d0 d1]; [intros E; assert (q = q2) by congruence; assert (None = r) by congruence; subst; reflexivity|].
  destruct (l_add_h26x C f q (d0 :: d1)) as [[q1 s1]|] eqn:EH; [|discriminate]. cbn [obind]. apply h26x_auth in EH.
  destruct (negb (is_ok s1)); [intros E; assert (q1 = q2) by congruence; assert (None = r) by congruence; subst; intros _; exact EH|].
  destruct (q_result q1); [|intros E; assert (q1 = q2) by congruence; assert (None = r) by congruence; subst; intros _; exact EH].
  unfold l_update_report. destruct (l_nalu_str (q_items q1)) as [s|]; [|discriminate]. cbn [obind]. cbv zeta.
  match goal with |- context [l_clean_up ?l] => destruct (l_clean_up l) as [l2 k2] end. cbn [obind]. change (compare_versions [] (d_sver _) =? 2)%Z with false. cbv iota.
  set (a := accumulate _ _ _). assert (EA : a_auth a = if (ar_n (a_auth (q_acc q1)) <=? 1) || (ar_n (l_auth (q_latest q1)) <? ar_n (a_auth (q_acc q1))) then l_auth (q_latest q1) else a_auth (q_acc q1)) by reflexivity.
  set (b := match a_auth a with NotSigned => a | _ => _ end). assert (EB : a_auth b = a_auth a) by (subst b; destruct (a_auth a) eqn:EX; cbn [a_auth set_a_val]; congruence).
  destruct want; [|intros E; assert (None = r) by congruence; subst; discriminate].
  unfold l_get_report. cbv zeta. intros E. injection E as <- _ <-. cbn [p_acc p_latest].
  match goal with |- ?x = ?y /\ no_better _ _ /\ ar_n _ <= ar_n ?z => change x with (a_auth b); change y with (a_auth b); change z with (l_auth (q_latest q1)) end.
  split; [reflexivity|]. rewrite EB, EA, EH. unfold no_better, verdict. destruct (N.leb_spec (ar_n (a_auth (q_acc q))) 1) as [H|H]; cbn [orb].
  - split; [|lia]. intros [V|[V|V]]; rewrite V in H; cbn in H; lia.
  - destruct (N.ltb_spec (ar_n (l_auth (q_latest q1))) (ar_n (a_auth (q_acc q)))); split; intros; lia.
Qed.
Lemma run_sorted f : forall ops w w2 res q p0, Forall asking ops -> Forall (fun o => o <> VReset) ops -> wrun C Ov f w ops = Def (w2, res) -> w_leg w = Some q -> a_auth (q_acc q) = a_auth (p_acc p0) ->
  Sorted (fun p p' => no_better (a_auth (p_acc p)) (a_auth (p_acc p'))) (p0 :: flat_map (fun x => match snd x with Some p => [p] | None => [] end) res).
Proof.
  induction ops as [|o ops IH]; intros w w2 res q p0 HA HF; cbn [wrun]; [intros E; assert ([] = res) by congruence; subst; intros; repeat constructor|]. inversion HF as [|? ? NR HF2]; subst. inversion HA as [|? ? A1 A2]; subst.
  destruct (wexec C Ov f w o) as [[[w1 st] r]|] eqn:EX; [|discriminate]. cbn [obind]. destruct (wrun C Ov f w1 ops) as [[w3 xs]|] eqn:ER; [|discriminate]. cbn [obind]. intros E EL EQ.
  assert ((st, r) :: xs = res) by congruence. subst res. cbn [flat_map snd].
  assert (K : exists q1, w_leg w1 = Some q1 /\ match r with None => a_auth (q_acc q1) = a_auth (q_acc q) | Some p => a_auth (q_acc q1) = a_auth (p_acc p) /\ no_better (a_auth (q_acc q)) (a_auth (p_acc p)) end).
  { revert EX. destruct o as [d want|key| |]; [| |congruence|]; cbn [wexec].
    - unfold w_add. rewrite EL. destruct d as [|d0 d1]; [intros EX; assert (w = w1) by congruence; assert (None = r) by congruence; subst; exists q; auto|].
      destruct (l_add_nalu C f q (d0 :: d1) want) as [[[q2 s2] r2]|] eqn:EN; [|discriminate]. cbn [obind]. intros EX. injection EX as <- _ <-. exists q2. split; [reflexivity|]. apply nalu_auth in EN. destruct r2 as [p|]; [tauto|]. cbn in A1. auto.
    - destruct (set_public_key C (w_v w) key) as [v s]. intros EX. injection EX as <- _ <-. exists q. auto.
    - unfold w_report. rewrite EL. unfold l_get_report. cbv zeta. intros EX. injection EX as <- _ <-. eexists. split; [reflexivity|]. cbn [p_acc]. split; [reflexivity|]. intros _. apply N.le_refl. }
  destruct K as (q1 & EL1 & K). destruct r as [p|].
  - destruct K as [K1 K2]. cbn [app]. pose proof (IH _ _ _ _ p A2 HF2 ER EL1 K1) as S1. constructor; [exact S1|]. constructor. rewrite <- EQ. exact K2.
  - cbn [app]. exact (IH _ _ _ _ p0 A2 HF2 ER EL1 (eq_trans K EQ)).
Qed.
Theorem old_overall c f ops1 d want w1 res1 st p ops2 w2 res2 :
  wrun C Ov f (wcreate C c) (ops1 ++ [VAdd d want]) = Def (w1, res1 ++ [(st, Some p)]) -> w_leg w1 <> None -> Forall asking ops2 -> Forall (fun o => o <> VReset) ops2 -> wrun C Ov f w1 ops2 = Def (w2, res2) ->
  ar_n (a_auth (p_acc p)) <= ar_n (l_auth (p_latest p)) /\
  Sorted (fun p p' => no_better (a_auth (p_acc p)) (a_auth (p_acc p'))) (p :: flat_map (fun x => match snd x with Some p => [p] | None => [] end) res2).
Proof.
  intros ER HL HA HF E2. destruct (run_snoc C Ov f _ _ _ _ _ ER) as (w0 & res0 & [s r] & E1 & EX & E3). cbn [fst snd] in EX. apply app_inj_tail in E3 as [_ E3]. injection E3 as <- <-. clear ER E1.
  assert (H : exists q, w_leg w1 = Some q /\ a_auth (q_acc q) = a_auth (p_acc p) /\ ar_n (a_auth (p_acc p)) <= ar_n (l_auth (p_latest p))).
  { revert EX. cbn [wexec]. unfold w_add. destruct d as [|d0 d1]; [discriminate|]. destruct (w_leg w0) as [q|].
    - destruct (l_add_nalu C f q (d0 :: d1) want) as [[[q2 s2] r2]|] eqn:EL; [|discriminate]. cbn [obind]. intros E. injection E as <- <- ->. exists q2. split; [reflexivity|]. apply nalu_auth in EL. tauto.
    - destruct (add_nalu C Ov f (w_v w0) (d0 :: d1) want) as [[v x]|]; [|discriminate]. cbn [obind]. destruct x as [s1 r1|].
      { intros E. injection E as <- _ _. cbn in HL. congruence. }
      destruct (l_create C v) as [[q s1]|]; [|discriminate]. cbn [obind]. destruct (negb (is_ok s1)); [discriminate|]. destruct (l_feed C f q _) as [[q1 s2]|]; [|discriminate]. cbn [obind].
      destruct (copy_last true (v_items v)) as [[l cst]|]; [|discriminate]. cbn [obind]. cbv zeta. destruct (negb (is_ok _)); [discriminate|].
      destruct (l_add_nalu C f q1 (d0 :: d1) want) as [[[q3 s3] r3]|] eqn:EL; [|discriminate]. cbn [obind]. intros E. injection E as <- <- ->. exists q3. split; [reflexivity|]. apply nalu_auth in EL. tauto. }
  destruct H as (q & EL & EQ & LE). split; [exact LE|]. exact (run_sorted _ _ _ _ _ _ _ HA HF E2 EL EQ).
Qed.
End Acc.

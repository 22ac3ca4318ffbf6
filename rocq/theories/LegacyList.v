(** The list of NALUs of a recording of an older version: lemmas. *)
From Verif Require Import Base BaseProofs Nalu Crypto Types Hash CodecSpec CodecProofs SeiSpec SeiProofs SignSpec GopSpec VTypes NaluList Validator
  SeiHashProofs E2eSpec E2eList MatchProofs LegacyTypes Legacy LegacySpec.
Local Open Scope N_scope.

(** A NALU that is not hashed, one that waits, one that is done. *)
Definition lcalm (it : litem) : Prop := exists n, x_nalu it = NOk n /\ n_hashable n = false /\ n_gop_sei n = false /\
  (x_status it = SIgn \/ x_status it = SUnknown) /\ x_need it = false /\ x_used it = false /\ x_own it = true.
Definition lwait (it : litem) : Prop := exists n, x_nalu it = NOk n /\ n_hashable n = true /\ n_gop_sei n = false /\
  x_status it = SPend /\ x_bad it = false /\ x_used it = false /\ x_own it = true /\
  (n_first_in_gop n = true -> x_need it = true) /\ (x_has2 it = true -> x_need it = true).
Definition ldone (it : litem) : Prop := exists n, x_nalu it = NOk n /\ x_need it = false /\ x_own it = true /\
  In (x_status it) [SValid; SIgn; SUnknown].
Definition lsei (it : litem) : Prop := exists n, x_nalu it = NOk n /\ n_hashable n = true /\ n_gop_sei n = true /\ n_valid n = 1%Z /\ n_first_in_gop n = false /\
  x_status it = SPend /\ x_need it = false /\ x_bad it = false /\ x_second it = None.
(** The first NALU of a GOP, when it comes and after it was found authentic once. *)
Definition lfresh (s : list N) (it : litem) : Prop := exists n, x_nalu it = NOk n /\ n_hashable n = true /\ n_gop_sei n = false /\ n_first_in_gop n = true /\
  x_status it = SPend /\ x_need it = false /\ x_bad it = false /\ x_second it = Some s.
Definition lkept (s : list N) (it : litem) : Prop := exists n, x_nalu it = NOk n /\ n_hashable n = true /\ n_gop_sei n = false /\ n_first_in_gop n = true /\
  x_status it = SPend /\ x_need it = true /\ x_bad it = false /\ x_second it = Some s /\ x_used it = false.

Lemma calm_pend it : lcalm it -> x_pending it = false.
Proof. intros (n & _ & _ & _ & [E|E] & _); unfold x_pending; rewrite E; reflexivity. Qed.
Lemma calm_done it : lcalm it -> ldone it.
Proof. intros (n & E1 & _ & _ & E & E2 & _ & E3). exists n. repeat (split; [assumption|]). destruct E as [-> | ->]; cbn; auto. Qed.
Lemma wait_pend it : lwait it -> x_pending it = true.
Proof. intros (n & _ & _ & _ & E & _). unfold x_pending. rewrite E. reflexivity. Qed.
Lemma done_pend it : ldone it -> x_pending it = false.
Proof. intros (n & _ & _ & _ & E). unfold x_pending. destruct E as [<-|[<-|[<-|[]]]]; reflexivity. Qed.

(** The hashes that a part of the list stands for. *)
Inductive uses (hs : nat) : list (list N) -> list litem -> Prop :=
| uses_nil : uses hs [] []
| uses_calm it h l : lcalm it -> uses hs h l -> uses hs h (it :: l)
| uses_hash it x h l : lwait it -> hash_to_use hs it = Def x -> uses hs h l -> uses hs (x :: h) (it :: l).
Lemma uses_app hs h l : uses hs h l -> forall h2 l2, uses hs h2 l2 -> uses hs (h ++ h2) (l ++ l2).
Proof. induction 1; intros h2 l2 U; cbn [app]; [exact U|apply uses_calm|apply uses_hash]; auto. Qed.
Lemma uses_calms hs u : Forall lcalm u -> uses hs [] u.
Proof. induction 1; [constructor|apply uses_calm; assumption]. Qed.
Lemma uses_own hs h l : uses hs h l -> Forall (fun it => x_own it = true) l.
Proof. induction 1 as [|it h l (n & X) _ IH|it x h l (n & X) _ _ IH]; constructor; try exact IH; apply X. Qed.
Definition nosei (it : litem) : Prop := exists n, x_nalu it = NOk n /\ (n_gop_sei n = false \/ x_pending it = false).
Definition plain (it : litem) : Prop := exists n, x_nalu it = NOk n /\ n_gop_sei n = false.
Lemma uses_plain hs h l : uses hs h l -> Forall plain l.
Proof. induction 1 as [|it h l (n & X) _ IH|it x h l (n & X) _ _ IH]; constructor; try exact IH; exists n; split; apply X. Qed.
Lemma plain_nosei l : Forall plain l -> Forall nosei l.
Proof. apply Forall_impl. intros it (n & E1 & E2). exists n. auto. Qed.
Lemma done_nosei l : Forall ldone l -> Forall nosei l.
Proof. apply Forall_impl. intros it D. pose proof (done_pend _ D). destruct D as (n & E1 & _). exists n. auto. Qed.

(** ** Looking for pending NALUs *)

Definition lquiet (s : pgst) : Prop := g_ends s = O /\ g_sei s = false /\ g_after s = false /\ g_last s <> Some true.
Lemma pend_uses hs h l : uses hs h l -> forall s rest, lquiet s ->
  exists s2, lquiet s2 /\ l_pending_loop true s (l ++ rest) = l_pending_loop true s2 rest.
Proof.
  induction 1 as [|it h l X U IH|it x h l X EH U IH]; intros s rest (Q1 & Q2 & Q3 & Q4).
  - exists s. split; [repeat split; assumption|reflexivity].
  - cbn [app l_pending_loop]. rewrite (calm_pend _ X). destruct X as (n & E1 & E2 & E3 & _). rewrite E1. cbn [look obind andb].
    rewrite Q1, Q2, Q3. cbn [g_ends g_sei g_after Nat.ltb Nat.leb andb orb].
    apply IH. repeat split; assumption.
  - cbn [app l_pending_loop]. rewrite (wait_pend _ X). destruct X as (n & E1 & E2 & E3 & _ & _ & _ & _ & E4 & _). rewrite E1. cbn [look obind andb]. rewrite E2, E3.
    assert (EF : n_first_in_gop n && negb (x_need it) = false).
    { destruct (n_first_in_gop n); [rewrite E4 by reflexivity|]; reflexivity. }
    rewrite EF, Q1, Q2, Q3.
    assert (EL : match g_last s with Some b => b | None => false end = false) by (destruct (g_last s) as [[|]|]; congruence).
    rewrite EL. cbn [g_ends g_sei g_after Nat.ltb Nat.leb andb orb]. apply IH. repeat split; try reflexivity. discriminate.
Qed.
Lemma pend_calms u : Forall lcalm u -> forall e sei last has rest, (0 <? e)%nat && sei = false ->
  l_pending_loop true (mkPg e sei false last has) (u ++ rest) = l_pending_loop true (mkPg e sei false last has) rest.
Proof.
  induction 1 as [|it u X _ IH]; intros e sei last has rest Q; [reflexivity|].
  cbn [app l_pending_loop]. rewrite (calm_pend _ X). destruct X as (n & E1 & E2 & E3 & _). rewrite E1. cbn [look obind andb]. rewrite E3, andb_false_r.
  cbn [g_ends g_sei g_after g_last g_has]. rewrite Q, !orb_false_r. cbn [orb]. apply IH, Q.
Qed.
Lemma pend_done l : Forall ldone l -> forall has rest,
  exists has2, l_pending_loop true (mkPg 0 false false None has) (l ++ rest) = l_pending_loop true (mkPg 0 false false None has2) rest.
Proof.
  induction 1 as [|it l X _ IH]; intros has rest; [exists has; reflexivity|].
  cbn [app l_pending_loop]. rewrite (done_pend _ X). destruct X as (n & E1 & _). rewrite E1. cbn [look obind andb].
  cbn [g_ends g_sei g_after g_last g_has Nat.ltb Nat.leb andb orb]. apply IH.
Qed.

Section Q.
Variable q : lsv.
Hypothesis QS : q_signing q = true.

(** A SEI has come. *)
Lemma pend_sei hs h pre s : q_items q = pre ++ [s] -> uses hs h pre -> lsei s ->
  exists g, l_has_pending q = Def (set_q_gs g q, false) /\ gs_after g = true.
Proof.
  intros EI U (n & E1 & E2 & E3 & E4 & E5 & E6 & E7 & _). unfold l_has_pending. rewrite QS, EI.
  destruct (pend_uses hs h pre U (mkPg 0 false false None false) [s]) as (s2 & (Q1 & Q2 & Q3 & Q4) & ->); [repeat split; discriminate|].
  cbn [l_pending_loop]. rewrite E1. cbn [look obind]. unfold x_pending. rewrite E6, E2, E3, E4, E5. cbn [vstat_eqb andb Z.ltb Z.compare orb].
  assert (EL : match g_last s2 with Some b => b | None => false end = false) by (destruct (g_last s2) as [[|]|]; congruence).
  rewrite EL, Q1, Q2, Q3. cbn [g_ends g_sei g_after g_last g_has Nat.ltb Nat.leb andb orb obind negb].
  eexists. split; [reflexivity|]. reflexivity.
Qed.
(** The first NALU of the next GOP has come. *)
Lemma pend_first hs h pre s u i y : q_items q = pre ++ s :: u ++ [i] -> uses hs h pre -> lsei s -> Forall lcalm u -> lfresh y i ->
  exists g, l_has_pending q = Def (set_q_gs g q, true) /\ gs_sei g = true /\ gs_lost g = false /\ gs_trans g = false.
Proof.
  intros EI U (n & E1 & E2 & E3 & E4 & E5 & E6 & E7 & _) F (m & F1 & F2 & F3 & F4 & F5 & F6 & _). unfold l_has_pending. rewrite QS, EI.
  destruct (pend_uses hs h pre U (mkPg 0 false false None false) (s :: u ++ [i])) as (s2 & (Q1 & Q2 & Q3 & Q4) & ->); [repeat split; discriminate|].
  cbn [l_pending_loop]. rewrite E1. cbn [look obind]. unfold x_pending. rewrite E6, E2, E3, E4, E5. cbn [vstat_eqb andb Z.ltb Z.compare orb].
  assert (EL : match g_last s2 with Some b => b | None => false end = false) by (destruct (g_last s2) as [[|]|]; congruence).
  rewrite EL, Q1, Q2, Q3, orb_true_r. cbn [g_ends g_sei g_after g_last g_has Nat.ltb Nat.leb andb orb obind negb].
  rewrite (pend_calms u F) by reflexivity.
  cbn [l_pending_loop]. rewrite F1. cbn [look obind]. unfold x_pending. rewrite F5, F2, F3, F4, F6.
  cbn [g_ends g_sei g_after g_last g_has Nat.ltb Nat.leb vstat_eqb andb orb obind negb Z.ltb Z.compare].
  eexists. split; [reflexivity|]. cbn [gs_sei gs_lost gs_trans]. rewrite ?orb_true_r, ?orb_false_r. repeat split.
Qed.
(** After a validation. *)
Lemma pend_after pre i y : q_items q = pre ++ [i] -> Forall ldone pre -> lkept y i ->
  exists g, l_has_pending q = Def (set_q_gs g q, false) /\ gs_after g = false.
Proof.
  intros EI F (m & F1 & F2 & F3 & F4 & F5 & F6 & _). unfold l_has_pending. rewrite QS, EI.
  destruct (pend_done pre F false [i]) as (has & ->). cbn [l_pending_loop]. rewrite F1. cbn [look obind]. unfold x_pending. rewrite F5, F2, F3, F4, F6.
  rewrite andb_false_r. cbn [g_ends g_sei g_after g_last g_has Nat.ltb Nat.leb vstat_eqb andb orb obind negb Z.ltb Z.compare].
  eexists. split; [reflexivity|]. reflexivity.
Qed.
End Q.

(** ** When validation is feasible *)

Lemma after_plain l : Forall plain l -> l_after_sei l = Def false.
Proof. induction 1 as [|it l (n & E1 & E2) _ IH]; [reflexivity|]. cbn [l_after_sei]. rewrite E1. cbn [look obind]. rewrite E2. destruct (n_hashable n); [reflexivity|exact IH]. Qed.
Lemma feasible_wait l it n : Forall plain l -> x_nalu it = NOk n -> n_gop_sei n = false -> n_first_in_gop n = false ->
  l_feasible (rev (l ++ [it])) = Def false.
Proof.
  intros F E1 E2 E3. rewrite rev_app_distr. cbn [rev app l_feasible]. rewrite E1. cbn [look obind]. rewrite E2, E3. cbn [andb orb].
  destruct (negb (n_hashable n) || negb (x_pending it)); [reflexivity|]. apply after_plain. apply Forall_rev, F.
Qed.
Lemma feasible_calm l it : lcalm it -> l_feasible (rev (l ++ [it])) = Def false.
Proof. intros X. pose proof (calm_pend _ X). destruct X as (n & E1 & E2 & E3 & _). rewrite rev_app_distr. cbn [rev app l_feasible]. rewrite E1. cbn [look obind]. rewrite E2. reflexivity. Qed.
Lemma feasible_sei l it : lsei it -> l_feasible (rev (l ++ [it])) = Def true.
Proof. intros (n & E1 & E2 & E3 & _ & _ & E4 & _). rewrite rev_app_distr. cbn [rev app l_feasible]. rewrite E1. cbn [look obind]. unfold x_pending. rewrite E2, E3, E4. reflexivity. Qed.
Lemma feasible_first l it y : lfresh y it -> l_feasible (rev (l ++ [it])) = Def true.
Proof. intros (n & E1 & E2 & E3 & E4 & E5 & E6 & _). rewrite rev_app_distr. cbn [rev app l_feasible]. rewrite E1. cbn [look obind]. unfold x_pending. rewrite E2, E3, E4, E5, E6. reflexivity. Qed.

(** ** The next SEI *)

Lemma next_at l : Forall nosei l -> forall s r, lsei s -> l_next_sei (l ++ s :: r) = Def (Some (length l)).
Proof.
  induction 1 as [|it l (n & E1 & E2) _ IH]; intros s r S.
  - destruct S as (n & E1 & E2 & E3 & _ & _ & E4 & _). cbn [app l_next_sei length]. rewrite E1. cbn [look obind]. unfold x_pending. rewrite E3, E4. reflexivity.
  - cbn [app l_next_sei length]. rewrite E1. cbn [look obind].
    assert (E : n_gop_sei n && x_pending it = false) by (destruct E2 as [-> | ->]; [reflexivity|apply andb_false_r]). rewrite E, (IH s r S). reflexivity.
Qed.
Lemma on_sei_at f l s r : Forall nosei l -> lsei s -> on_sei f (l ++ s :: r) = Def (l ++ f s :: r).
Proof. intros F S. unfold on_sei. rewrite (next_at l F s r S). cbn [obind]. rewrite set_nth_at. reflexivity. Qed.

(** ** Checking hashes against a list *)

Definition lvalid (it : litem) : litem := if x_pending it then set_x_need false (set_x_status SValid it) else it.
Lemma search_hit x r i : search x (x :: r) i = (i, true).
Proof. cbn [search]. rewrite (proj2 (bytes_eqb_eq x x) eq_refl). reflexivity. Qed.

Lemma list_uses hs h l : uses hs h l -> forall e0 e1 pos m s rest,
  e_latest s = (Z.of_nat (length e0) - 1)%Z -> e_inv s = 0%Z -> e_num s = Z.of_nat (length e0) ->
  exists s2, e_latest s2 = (Z.of_nat (length (e0 ++ h)) - 1)%Z /\ e_inv s2 = 0%Z /\ e_num s2 = Z.of_nat (length (e0 ++ h)) /\
    l_list_loop hs (e0 ++ h ++ e1) pos false (Some (length l + m)%nat) s (l ++ rest) =
    do (s3, r) <- l_list_loop hs (e0 ++ h ++ e1) (pos + length l) false (Some m) s2 rest; Def (s3, map lvalid l ++ r).
Proof.
  induction 1 as [|it h l X U IH|it x h l X EH U IH]; intros e0 e1 pos m s rest S1 S2 S3.
  - exists s. rewrite app_nil_r. repeat (split; [assumption|]). cbn [length app map Nat.add]. rewrite Nat.add_0_r.
    destruct (l_list_loop _ _ _ _ _ _ _) as [[? ?]|]; reflexivity.
  - cbn [app length Nat.add l_list_loop]. pose proof (calm_pend _ X) as P. rewrite P. cbn [negb].
    destruct (IH e0 e1 (S pos) m s rest S1 S2 S3) as (s2 & T1 & T2 & T3 & E). exists s2. repeat (split; [assumption|]).
    rewrite E. clear E. replace (pos + S (length l))%nat with (S pos + length l)%nat by lia. cbn [map app].
    assert (EV : lvalid it = it) by (unfold lvalid; rewrite P; reflexivity). rewrite EV.
    destruct (l_list_loop _ _ _ _ _ _ _) as [[? ?]|]; reflexivity.
  - cbn [app length Nat.add l_list_loop]. pose proof (wait_pend _ X) as P. rewrite P. cbn [negb].
    destruct X as (n & E1 & E2 & E3 & E4 & E5 & E6 & E7 & E8 & E9). rewrite E1. cbn [deref obind].
    assert (EF : n_first_in_gop n && negb (x_need it) = false).
    { destruct (n_first_in_gop n); [rewrite E8 by reflexivity|]; reflexivity. }
    rewrite EF, E3. cbn [orb].
    assert (EK : Z.to_nat (e_latest s + 1) = length e0) by lia.
    rewrite EK, skipn_app_exact. cbn [app]. rewrite EH. cbn [obind]. rewrite search_hit.
    assert (EM : Z.to_nat (e_latest s + 1 - e_latest s - 1 - e_inv s) = O) by lia. rewrite EM.
    assert (E2N : x_has2 it && negb (x_need it) && n_first_in_gop n = false).
    { destruct (x_has2 it) eqn:EE; [rewrite E9 by reflexivity|]; reflexivity. }
    rewrite E2N, E5. cbn [repeat app]. rewrite Nat.add_0_r.
    match goal with |- context [l_list_loop hs _ (S pos) false _ ?z (l ++ rest)] => set (s1 := z) end.
    destruct (IH (e0 ++ [x]) e1 (S pos) m s1 rest) as (s2 & T1 & T2 & T3 & E).
    + unfold s1. cbn [e_latest]. rewrite app_length. cbn [length]. lia.
    + reflexivity.
    + unfold s1. cbn [e_num]. rewrite app_length. cbn [length]. lia.
    + rewrite <- !app_assoc in E, T1, T3. cbn [app] in E, T1, T3. exists s2. repeat (split; [assumption|]).
      rewrite E. clear E. replace (pos + S (length l))%nat with (S pos + length l)%nat by lia. cbn [map app].
      assert (EV : lvalid it = set_x_need false (set_x_status SValid it)) by (unfold lvalid; rewrite P; reflexivity). rewrite EV.
      destruct (l_list_loop _ _ _ _ _ _ _) as [[? ?]|]; reflexivity.
Qed.
Lemma list_calms hs u : Forall lcalm u -> forall exp pos psei s rest, exists psei2,
  l_list_loop hs exp pos psei None s (u ++ rest) =
  do (s2, r) <- l_list_loop hs exp (pos + length u) psei2 None s rest; Def (s2, u ++ r).
Proof.
  induction 1 as [|it u X _ IH]; intros exp pos psei s rest.
  - exists psei. cbn [app length]. rewrite Nat.add_0_r. destruct (l_list_loop _ _ _ _ _ _ _) as [[? ?]|]; reflexivity.
  - cbn [app length l_list_loop]. rewrite (calm_pend _ X). cbn [negb]. destruct (IH exp (S pos) false s rest) as (p2 & E). exists p2. rewrite E. clear E.
    replace (pos + S (length u))%nat with (S pos + length u)%nat by lia. destruct (l_list_loop _ _ _ _ _ _ _) as [[? ?]|]; reflexivity.
Qed.
Lemma list_loop_gop hs h pre s u i x y : uses hs h pre -> lsei s -> Forall lcalm u -> lfresh y i -> hash_to_use hs i = Def x ->
  l_list_loop hs (h ++ [x]) 0 false (Some (length pre)) (mkLhl (-1) 0 0 0 None) (pre ++ s :: u ++ [i]) =
  Def (mkLhl (Z.of_nat (length h)) (Z.of_nat (length h)) 0 (Z.of_nat (length h) + 1) (Some (length pre + 1 + length u)%nat),
       map lvalid pre ++ s :: u ++ [set_x_need true i]).
Proof.
  intros U S F I EX. destruct (list_uses hs h pre U [] [x] 0 0 (mkLhl (-1) 0 0 0 None) (s :: u ++ [i])) as (s2 & T1 & T2 & T3 & E); [reflexivity|reflexivity|reflexivity|].
  cbn [app length] in E, T1, T3. rewrite Nat.add_0_r in E. rewrite E. cbn [Nat.add].
  destruct S as (n & E1 & E2 & E3 & E4 & E5 & E6 & E7 & _). cbn [l_list_loop]. unfold x_pending at 1. rewrite E6. cbn [vstat_eqb negb]. rewrite E1. cbn [deref obind]. rewrite E5, E3. cbn [orb andb].
  destruct (list_calms hs u F (h ++ [x]) (S (length pre)) true s2 [i]) as (p2 & ->). cbn [l_list_loop].
  destruct I as (m & F1 & F2 & F3 & F4 & F5 & F6 & F7 & F8). unfold x_pending. rewrite F5. cbn [vstat_eqb negb]. rewrite F1. cbn [deref obind]. rewrite F3, F4, F6.
  assert (EK : Z.to_nat (e_latest s2 + 1) = length h) by lia. rewrite EK, skipn_app_exact. rewrite EX. cbn [obind]. rewrite search_hit.
  assert (EM : Z.to_nat (e_latest s2 + 1 - e_latest s2 - 1 - e_inv s2) = O) by lia. rewrite EM.
  unfold x_has2. rewrite F8. cbn [andb negb repeat app]. rewrite orb_true_r. cbn [obind].
  assert (EN : (e_latest s2 + 1)%Z = Z.of_nat (length h)) by lia. rewrite EN, T3. do 4 f_equal. lia.
Qed.

Lemma valid_done hs h l : uses hs h l -> Forall ldone (map lvalid l) /\ length (filter (fun it => vstat_eqb (x_status it) SValid) (map lvalid l)) = length h.
Proof.
  induction 1 as [|it h l X _ (IH1 & IH2)|it x h l X _ _ (IH1 & IH2)]; [split; [constructor|reflexivity]| |].
  - cbn [map]. assert (EV : lvalid it = it) by (unfold lvalid; rewrite (calm_pend _ X); reflexivity). rewrite EV. split; [constructor; [apply calm_done, X|exact IH1]|].
    cbn [filter]. destruct X as (n & _ & _ & _ & [-> | ->] & _); exact IH2.
  - cbn [map]. assert (EV : lvalid it = set_x_need false (set_x_status SValid it)) by (unfold lvalid; rewrite (wait_pend _ X); reflexivity). rewrite EV.
    destruct X as (n & E1 & E2 & E3 & E4 & E5 & E6 & E7 & _). split; [constructor; [|exact IH1]|cbn [filter x_status set_x_need set_x_status vstat_eqb length]; rewrite IH2; reflexivity].
    exists n. repeat split; try assumption. left. reflexivity.
Qed.

(** ** Numbers and strings of a list that was validated *)

Lemma stats_done l : Forall ldone l -> exists b, l_stats l = Def (0%Z, 0%Z, b).
Proof.
  induction 1 as [|it l (n & E1 & E2 & E3 & E4) _ (b & IH)]; [exists false; reflexivity|]. cbn [l_stats]. rewrite IH. cbn [obind]. rewrite E1, E2. cbn [look].
  unfold x_pending. destruct E4 as [<-|[<-|[<-|[]]]]; cbn [vstat_eqb orb obind andb]; eexists; reflexivity.
Qed.
Lemma stats_kept pre i y : Forall ldone pre -> lkept y i -> l_stats (pre ++ [i]) = Def (0%Z, 0%Z, true).
Proof.
  intros F (m & F1 & F2 & F3 & F4 & F5 & F6 & F7 & _). induction F as [|it l (n & E1 & E2 & E3 & E4) _ IH].
  - cbn [app l_stats obind]. rewrite F5, F6, F7. unfold x_pending. rewrite F5. reflexivity.
  - cbn [app l_stats]. rewrite IH. cbn [obind]. rewrite E1, E2. cbn [look].
    unfold x_pending. destruct E4 as [<-|[<-|[<-|[]]]]; cbn [vstat_eqb orb obind andb]; rewrite ?orb_true_r; reflexivity.
Qed.
Lemma num_kept pre i y : Forall ldone pre -> lkept y i -> l_num_pending (pre ++ [i]) = 1%Z.
Proof.
  intros F (m & F1 & F2 & F3 & F4 & F5 & _). unfold l_num_pending. induction F as [|it l X _ IH].
  - cbn [app filter]. unfold x_pending. rewrite F5. reflexivity.
  - cbn [app filter]. rewrite (done_pend _ X). exact IH.
Qed.
Lemma str_ok l : Forall (fun it => exists n, x_nalu it = NOk n) l -> exists s, l_nalu_str l = Def s.
Proof. induction 1 as [|it l (n & E) _ (s & IH)]; [eexists; reflexivity|]. cbn [l_nalu_str]. rewrite E, IH. cbn [look obind]. eexists. reflexivity. Qed.
Lemma clean_kept pre i y : Forall ldone pre -> lkept y i -> exists k, l_clean_up (pre ++ [i]) = ([i], k).
Proof.
  intros F (m & F1 & F2 & F3 & F4 & F5 & _). induction F as [|it l X _ (k & IH)].
  - exists 0. cbn [app l_clean_up]. unfold x_pending. rewrite F5. reflexivity.
  - cbn [app l_clean_up]. rewrite (done_pend _ X), IH. destruct X as (n & _ & E2 & _). rewrite E2. cbn [orb]. eexists. reflexivity.
Qed.
Lemma shown_kept pre i y : Forall ldone pre -> lkept y i ->
  Forall (fun s => In s [46; 95; 85; 80]) (l_validation_str (pre ++ [i])) /\
  times 46 (l_validation_str (pre ++ [i])) = length (filter (fun it => vstat_eqb (x_status it) SValid) pre) /\
  times 80 (l_validation_str (pre ++ [i])) = 1%nat.
Proof.
  intros F (m & F1 & F2 & F3 & F4 & F5 & _). unfold l_validation_str. induction F as [|it l X _ (IH1 & IH2 & IH3)].
  - cbn [app map filter length]. rewrite F5. split; [constructor; [cbn; auto|constructor]|]. split; reflexivity.
  - destruct X as (n & _ & _ & _ & E4). cbn [app map]. split; [constructor; [|exact IH1]|split].
    + destruct E4 as [<-|[<-|[<-|[]]]]; cbn; auto.
    + unfold times in *. cbn [filter]. destruct E4 as [<-|[<-|[<-|[]]]]; cbn [stat_char vstat_eqb filter]; try exact IH2. cbn [N.eqb Pos.eqb length]. rewrite IH2. reflexivity.
    + unfold times in *. destruct E4 as [<-|[<-|[<-|[]]]]; exact IH3.
Qed.

(** Histories of the central signing thread: what sessions get. *)
From Coq Require Import Permutation.
From Verif Require Import Base BaseProofs Crypto Signer SessProofs PlugTypes Plugin Threaded PlugSpec PlugProofs ThreadSpec ThreadMem ThreadSim ThreadIds ThreadProofs.

Lemma sub_refl {A} (l : list A) : sub l l.
Proof. induction l; constructor; assumption. Qed.
Lemma sub_app {A} (a b c d : list A) : sub a b -> sub c d -> sub (a ++ c) (b ++ d).
Proof. induction 1; intros X; cbn; [exact X|constructor; auto|constructor; auto]. Qed.
Lemma sub_none {A} (l : list A) : sub [] l.
Proof. induction l; constructor; assumption. Qed.
Lemma sub_trans {A} (b c : list A) : sub b c -> forall a, sub a b -> sub a c.
Proof.
  induction 1 as [|x b c H IH|x b c H IH]; intros a H2; [exact H2| |constructor; auto].
  inversion H2; subst; [constructor; auto|apply sub_skip; auto].
Qed.
Lemma sub_nil_inv {A} (l : list A) : sub l [] -> l = [].
Proof. inversion 1. reflexivity. Qed.
Lemma sub_filter {A} (f : A -> bool) l : sub (filter f l) l.
Proof. induction l as [|x l IH]; [constructor|]. cbn. destruct (f x); constructor; exact IH. Qed.
Lemma sub_map {A B} (f : A -> B) a b : sub a b -> sub (map f a) (map f b).
Proof. induction 1; cbn; constructor; assumption. Qed.
Lemma sub_filter_mono {A} (f : A -> bool) a b : sub a b -> sub (filter f a) (filter f b).
Proof. induction 1 as [|x a b H IH|x a b H IH]; cbn; [constructor| |]; destruct (f x); try constructor; assumption. Qed.

Lemma accepted_app i e1 r1 e2 r2 : length e1 = length r1 -> accepted i (e1 ++ e2) (r1 ++ r2) = accepted i e1 r1 ++ accepted i e2 r2.
Proof.
  revert r1. induction e1 as [|e e1 IH]; intros [|r r1] L; try discriminate L; [reflexivity|]. cbn [app]. injection L as L. specialize (IH r1 L).
  destruct e; try exact IH. destruct r; try exact IH. cbn [accepted]. destruct st; try exact IH. destruct (_ =? _)%N; [cbn; f_equal|]; exact IH.
Qed.
Lemma received_app i e1 r1 e2 r2 : length e1 = length r1 -> received i (e1 ++ e2) (r1 ++ r2) = received i e1 r1 ++ received i e2 r2.
Proof.
  revert r1. induction e1 as [|e e1 IH]; intros [|r r1] L; try discriminate L; [reflexivity|]. cbn [app]. injection L as L. specialize (IH r1 L).
  destruct e; try exact IH. destruct r; try exact IH. cbn [received]. destruct r as [w sg st]. destruct w; try exact IH. destruct (_ =? _)%N; [cbn; f_equal|]; exact IH.
Qed.
Lemma accepted_cons i e r evs rs : accepted i (e :: evs) (r :: rs) = accepted i [e] [r] ++ accepted i evs rs.
Proof. apply (accepted_app i [e] [r]). reflexivity. Qed.
Lemma received_cons i e r evs rs : received i (e :: evs) (r :: rs) = received i [e] [r] ++ received i evs rs.
Proof. apply (received_app i [e] [r]). reflexivity. Qed.

Section Hist.
Variable C : crypto.
Variables (key : list N) (max : nat).
Notation astep := (astep C key max).
Notation arun := (arun C key max).

(** The hashes of a session that are somewhere in the plugin, oldest first. *)
Definition is_id (i : N) (j : N * list N) : bool := (fst j =? i)%N.
Definition is_oid (i : N) (r : ares) : bool := (o_id r =? i)%N.
Definition cur_of (i : N) (cur : option (N * list N)) : list (list N) :=
  match cur with Some (j, h) => if (j =? i)%N then [h] else [] | None => [] end.
Definition held (i : N) (a : astate) : list (list N) :=
  map o_hash (filter (is_oid i) (a_out a)) ++ cur_of i (a_cur a) ++ map snd (filter (is_id i) (a_in a)).

Definition res_good (r : ares) : Prop :=
  if is_ok (o_st r) then signature_of C key (o_hash r) (o_sig r) else not_signed C key max (o_hash r).

Lemma ossl_good coin h st sig id : ossl_sign C key max coin h = (st, sig) -> res_good (mkRes id h st sig).
Proof.
  unfold ossl_sign, res_good. cbn [o_st o_hash o_sig]. destruct (c_sign C key coin h) as [s|] eqn:E.
  - destruct (Nat.ltb_spec max (length s)); intros X; injection X as <- <-; cbn.
    + exists coin. rewrite E. right. assumption.
    + exists coin. exact E.
  - intros X. injection X as <- <-. cbn. exists coin. rewrite E. exact Logic.I.
Qed.

Lemma good_step a e : Forall res_good (a_out a) -> Forall res_good (a_out (fst (astep a e))).
Proof.
  intros G. destruct a as [run ins cur outs ids last coin]. cbn [a_out] in G.
  assert (GF : forall P, Forall res_good (filter P outs)). { intros P. apply Forall_forall. intros x H. apply filter_In in H as [H _]. rewrite Forall_forall in G. auto. }
  destruct e as [k| | | |id|id h|id room| |]; cbn [ThreadSim.astep fst a_out]; try exact G.
  - destruct (run || some cur); [exact G|constructor].
  - destruct run; [|exact G]. destruct (next_id ids last) as [id|]; [|exact G]. destruct (id =? last)%N; exact G.
  - apply GF.
  - destruct h; [exact G|]. destruct (60 <=? length ins)%nat; [exact G|]. destruct run; exact G.
  - destruct run; [|exact G]. destruct outs as [|r outs]; [exact G|]. cbn [negb]. destruct (negb _); [exact G|]. inversion G; assumption.
  - destruct run, cur, ins; exact G.
  - destruct cur as [[id h]|]; [|exact G]. destruct (ossl_sign C key max coin h) as [st sig] eqn:ES. destruct (negb _); [exact G|]. destruct (60 <=? _)%nat; [apply GF|].
    cbn. apply Forall_app. split; [exact G|]. constructor; [eapply ossl_good; exact ES|constructor].
Qed.

Lemma held_sub_flt i run run' ins cur outs ids ids' last last' coin coin' P Q :
  sub (held i (mkA run (filter P ins) cur (filter Q outs) ids last coin)) (held i (mkA run' ins cur outs ids' last' coin')).
Proof. unfold held. cbn [a_out a_cur a_in]. apply sub_app; [apply sub_map, sub_filter_mono, sub_filter|]. apply sub_app; [apply sub_refl|apply sub_map, sub_filter_mono, sub_filter]. Qed.

Lemma filter_not_is {A} (f g : A -> bool) l : (forall x, g x = negb (f x)) -> filter f (filter g l) = [].
Proof. intros H. induction l as [|x l IH]; [reflexivity|]. cbn. rewrite H. destruct (f x) eqn:E; cbn [negb]; [exact IH|]. cbn. rewrite E. exact IH. Qed.
Lemma filter_other {A} (f g : A -> bool) l : (forall x, f x = true -> g x = true) -> filter f (filter g l) = filter f l.
Proof. intros H. induction l as [|x l IH]; [reflexivity|]. cbn. destruct (g x) eqn:E; cbn; [destruct (f x); [f_equal|]; exact IH|]. destruct (f x) eqn:F; [rewrite (H x F) in E; discriminate|exact IH]. Qed.

(** One event: what session [i] is given and what is held afterwards comes from what was held before and what is accepted, in
    order; and nothing is lost unless there is a reason for it. *)
Lemma held_step i a e : Forall res_good (a_out a) ->
  exists given, Forall2 (outcome_of C key max) given (received i [e] [snd (astep a e)]) /\
    sub (given ++ held i (fst (astep a e))) (held i a ++ accepted i [e] [snd (astep a e)]) /\
    (a_run a = true -> e <> TExit -> e <> TTeardown i -> In i (a_ids a) -> (e = TFinish -> a_cur a <> None -> (length (a_out a) < 60)%nat) ->
       given ++ held i (fst (astep a e)) = held i a ++ accepted i [e] [snd (astep a e)]).
Proof.
  intros G. destruct a as [run ins cur outs ids last coin]. cbn [a_out a_run a_ids a_cur] in *.
  pose (a0 := mkA run ins cur outs ids last coin).
  assert (TRIV : forall a', held i a' = held i a0 -> exists given, Forall2 (outcome_of C key max) given [] /\ sub (given ++ held i a') (held i a0 ++ []) /\ (run = true -> e <> TExit -> e <> TTeardown i -> In i ids -> (e = TFinish -> cur <> None -> (length outs < 60)%nat) -> given ++ held i a' = held i a0 ++ [])).
  { intros a' E. exists []. split; [constructor|]. rewrite E, app_nil_r. cbn. split; [apply sub_refl|reflexivity]. }
  destruct e as [k| | | |id|id h|id room| |]; cbn [ThreadSim.astep].
  - apply TRIV. reflexivity.
  - apply TRIV. reflexivity.
  - cbn [fst snd]. destruct run; cbn [orb]; [apply TRIV; reflexivity|]. destruct cur; cbn [some]; [apply TRIV; reflexivity|].
    exists []. split; [constructor|]. split; [apply sub_none|discriminate].
  - destruct run; [|apply TRIV; reflexivity]. destruct (next_id ids last) as [id|]; [|apply TRIV; reflexivity]. destruct (id =? last)%N; apply TRIV; reflexivity.
  - cbn [fst snd]. exists []. split; [constructor|]. cbn [app]. cbn [accepted]. rewrite app_nil_r. split; [apply held_sub_flt|].
    intros _ _ NT _ _. assert (NI : id <> i) by (intros ->; congruence). unfold held, a0. cbn [a_out a_cur a_in].
    rewrite (filter_other (is_oid i) (not_oid id)), (filter_other (is_id i) (not_id id)); [reflexivity| |].
    + intros [j h]. unfold is_id, not_id. cbn. intros E. apply N.eqb_eq in E. subst j. destruct (N.eqb_spec i id); [congruence|reflexivity].
    + intros r. unfold is_oid, not_oid. intros E. apply N.eqb_eq in E. rewrite E. destruct (N.eqb_spec i id); [congruence|reflexivity].
  - destruct h as [|h0 hr]; [apply TRIV; reflexivity|]. destruct (60 <=? length ins)%nat; [apply TRIV; reflexivity|]. destruct run; cbn [negb]; [|apply TRIV; reflexivity].
    cbn [fst snd accepted]. exists []. split; [constructor|]. cbn [app].
    assert (E : held i (mkA true (ins ++ [(id, h0 :: hr)]) cur outs ids last coin) = held i a0 ++ (if (id =? i)%N then [h0 :: hr] else [])).
    { unfold held, a0. cbn [a_out a_cur a_in]. rewrite filter_app, map_app. cbn [filter]. unfold is_id at 2. cbn [fst]. destruct (id =? i)%N; cbn [map]; rewrite !app_assoc; reflexivity. }
    split; [rewrite E; apply sub_refl|]. intros. exact E.
  - destruct run; cbn [negb]; [|apply TRIV; reflexivity]. destruct outs as [|r outs]; [apply TRIV; reflexivity|].
    destruct (N.eqb_spec (o_id r) id) as [EI|NE]; cbn [negb]; [|apply TRIV; reflexivity]. cbn [fst snd].
    set (g := if negb (is_ok (o_st r)) then _ else _). assert (EG : exists w sg st, g = mkGres (Some w) sg st /\ outcome_of C key max (o_hash r) (mkGiven room sg st)).
    { inversion G as [|? ? G0 _]. unfold res_good in G0. unfold g. destruct (is_ok (o_st r)); cbn [negb].
      - destruct (Nat.ltb_spec room (length (o_sig r))) as [X|X]; do 3 eexists; (split; [reflexivity|]); unfold outcome_of; cbn.
        + right. split; [reflexivity|]. eauto.
        + auto.
      - do 3 eexists. split; [reflexivity|]. unfold outcome_of. cbn. left. auto. }
    destruct EG as (w & sg & st & -> & OC). cbn [received accepted]. unfold held, a0. cbn [a_out a_cur a_in filter].
    assert (EO : is_oid i r = (id =? i)%N) by (unfold is_oid; rewrite EI; reflexivity). rewrite !EO. clear EO.
    destruct (id =? i)%N.
    + exists [o_hash r]. split; [constructor; [exact OC|constructor]|]. cbn [app map]. rewrite !app_nil_r. split; [apply sub_refl|reflexivity].
    + exists []. split; [constructor|]. rewrite !app_nil_r. split; [apply sub_refl|reflexivity].
  - destruct run; [|apply TRIV; reflexivity]. destruct cur as [j|]; [apply TRIV; reflexivity|]. destruct ins as [|[j h] ins]; [apply TRIV; reflexivity|].
    apply TRIV. cbn [fst]. unfold held, a0. cbn [a_out a_cur a_in filter cur_of]. change (is_id i (j, h)) with (j =? i)%N. destruct (j =? i)%N; reflexivity.
  - destruct cur as [[id h]|]; [|apply TRIV; reflexivity]. destruct (ossl_sign C key max coin h) as [st sig] eqn:ES.
    assert (DROP : forall a' P Q, a' = mkA run (filter P ins) None (filter Q outs) ids last (coin + 1) -> sub (held i a') (held i a0)).
    { intros a' P Q ->. unfold held, a0. cbn [a_out a_cur a_in cur_of]. apply sub_app; [apply sub_map, sub_filter_mono, sub_filter|]. apply (sub_app []); [apply sub_none|apply sub_map, sub_filter_mono, sub_filter]. }
    destruct (existsb (N.eqb id) ids) eqn:EX; cbn [negb].
    + destruct (Nat.leb_spec 60 (length outs)) as [L|L]; cbn [fst snd received accepted].
      * exists []. split; [constructor|]. cbn [app]. rewrite app_nil_r. split; [eapply DROP; reflexivity|]. intros _ _ _ _ X. specialize (X eq_refl ltac:(discriminate)). lia.
      * exists []. split; [constructor|]. cbn [app]. rewrite app_nil_r.
        assert (E : held i (mkA run ins None (outs ++ [mkRes id h st sig]) ids last (coin + 1)) = held i a0).
        { unfold held, a0. cbn [a_out a_cur a_in cur_of]. rewrite filter_app, map_app. cbn [filter]. change (is_oid i (mkRes id h st sig)) with (id =? i)%N. destruct (id =? i)%N; cbn [map o_hash app]; rewrite <- ?app_assoc; reflexivity. }
        rewrite E. split; [apply sub_refl|reflexivity].
    + cbn [fst snd received accepted]. exists []. split; [constructor|]. cbn [app]. rewrite app_nil_r. split.
      * unfold held, a0. cbn [a_out a_cur a_in cur_of]. apply sub_app; [apply sub_refl|]. apply (sub_app []); [apply sub_none|apply sub_refl].
      * intros _ _ _ HI _. unfold held, a0. cbn [a_out a_cur a_in cur_of]. destruct (N.eqb_spec id i) as [->|_]; [|reflexivity].
        exfalso. assert (X : existsb (N.eqb i) ids = true) by (apply existsb_exists; exists i; split; [exact HI|apply N.eqb_refl]). congruence.
Qed.

Lemma held_run i evs : forall a, Forall res_good (a_out a) ->
  exists given, Forall2 (outcome_of C key max) given (received i evs (snd (arun a evs))) /\
    sub (given ++ held i (fst (arun a evs))) (held i a ++ accepted i evs (snd (arun a evs))).
Proof.
  induction evs as [|e evs IH]; intros a G; [exists []; split; [constructor|]; cbn; rewrite app_nil_r; apply sub_refl|].
  destruct (held_step i a e G) as (g1 & F1 & S1 & _). pose proof (good_step a e G) as G2. cbn [ThreadProofs.arun]. destruct (astep a e) as [a1 r]. cbn [fst snd] in *.
  destruct (IH a1 G2) as (g2 & F2 & S2). destruct (arun a1 evs) as [a2 rs]. cbn [fst snd] in *. exists (g1 ++ g2). rewrite received_cons, accepted_cons. split; [apply Forall2_app; assumption|].
  rewrite <- app_assoc. eapply sub_trans; [|apply sub_app; [apply sub_refl|exact S2]]. rewrite !app_assoc. apply sub_app; [|apply sub_refl]. exact S1.
Qed.

Lemma good_run evs : forall a, Forall res_good (a_out a) -> Forall res_good (a_out (fst (arun a evs))).
Proof.
  induction evs as [|e evs IH]; intros a G; [exact G|]. pose proof (good_step a e G) as G2. cbn [ThreadProofs.arun]. destruct (astep a e) as [a1 r]. specialize (IH a1 G2). destruct (arun a1 evs). exact IH.
Qed.

(** How much is in the plugin. *)
Definition load_of (a : astate) : nat := (length (a_out a) + (if some (a_cur a) then 1 else 0) + length (a_in a))%nat.
Lemma flt_len {A} (f : A -> bool) l : (length (filter f l) <= length l)%nat.
Proof. induction l as [|x l IH]; [cbn; lia|]. cbn. destruct (f x); cbn; lia. Qed.

Lemma load_step a e w : (load_of a <= w)%nat -> (load_of (fst (astep a e)) <= waiting [e] [snd (astep a e)] w)%nat.
Proof.
  intros L. destruct a as [run ins cur outs ids last coin]. unfold load_of in *. cbn [a_out a_cur a_in] in L.
  assert (FI : forall P, (length (filter P ins) <= length ins)%nat) by (intros; apply flt_len). assert (FO : forall P, (length (filter P outs) <= length outs)%nat) by (intros; apply flt_len).
  destruct e as [k| | | |id|id h|id room| |]; cbn [ThreadSim.astep fst snd].
  - exact L.
  - exact L.
  - destruct (run || some cur); cbn; [exact L|lia].
  - destruct run; [|exact L]. destruct (next_id ids last) as [id|]; [|exact L]. destruct (id =? last)%N; exact L.
  - cbn [waiting a_out a_cur a_in]. specialize (FI (not_id id)). specialize (FO (not_oid id)). lia.
  - destruct h; [exact L|]. destruct (60 <=? length ins)%nat; [exact L|]. destruct run; [|exact L]. cbn [negb fst snd waiting a_out a_cur a_in]. rewrite app_length. cbn. lia.
  - destruct run; [|exact L]. destruct outs as [|r outs]; [exact L|]. cbn [negb]. destruct (negb _); [exact L|]. cbn [fst snd].
    destruct (negb (is_ok _)); [cbn in *; lia|]. destruct (room <? _)%nat; cbn in *; lia.
  - destruct run, cur, ins; cbn in *; lia.
  - destruct cur as [[id h]|]; [|exact L]. cbn [some] in L. destruct (ossl_sign _ _ _ _ _). destruct (negb _); [cbn; lia|]. destruct (60 <=? _)%nat; cbn [fst snd waiting a_out a_cur a_in some].
    + specialize (FI (not_id id)). specialize (FO (not_oid id)). lia.
    + rewrite app_length. cbn. lia.
Qed.

Lemma waiting_cons e r evs rs w : waiting (e :: evs) (r :: rs) w = waiting evs rs (waiting [e] [r] w).
Proof. destruct e; try reflexivity; destruct r; try reflexivity. - cbn. destruct st; destruct evs; reflexivity. - cbn. destruct r as [x sg st]. destruct x; destruct evs; reflexivity. Qed.

Lemma ids_step i a e : In i (a_ids a) -> e <> TExit -> e <> TTeardown i -> In i (a_ids (fst (astep a e))).
Proof.
  intros H NE NT. destruct a as [run ins cur outs ids last coin]. cbn [a_ids] in H. destruct e as [k| | | |id|id h|id room| |]; cbn [ThreadSim.astep fst a_ids]; try exact H; try congruence.
  - destruct (run || some cur); exact H.
  - destruct run; [|exact H]. destruct (next_id ids last) as [id|]; [|exact H]. destruct (id =? last)%N; [exact H|]. cbn. apply in_or_app. left. exact H.
  - assert (NI : id <> i) by congruence. clear -H NI. induction ids as [|x ids IH]; [exact H|]. cbn. destruct (N.eqb_spec x id) as [->|_].
    + destruct H as [->|H]; [congruence|exact H].
    + destruct H as [->|H]; [left; reflexivity|right; auto].
  - destruct h; [exact H|]. destruct (60 <=? length ins)%nat; [exact H|]. destruct run; exact H.
  - destruct run; [|exact H]. destruct outs as [|r outs]; [exact H|]. cbn [negb]. destruct (negb _); exact H.
  - destruct run, cur, ins; exact H.
  - destruct cur as [[id h]|]; [|exact H]. destruct (ossl_sign _ _ _ _ _). destruct (negb _); [exact H|]. destruct (60 <=? _)%nat; exact H.
Qed.

Lemma held_exact i evs : forall a w, Forall res_good (a_out a) -> a_run a = true -> In i (a_ids a) -> (load_of a <= w)%nat ->
  Forall (fun e => e <> TExit /\ e <> TTeardown i) evs ->
  (forall n, waiting (firstn n evs) (firstn n (snd (arun a evs))) w <= 60)%nat ->
  exists given, Forall2 (outcome_of C key max) given (received i evs (snd (arun a evs))) /\
    given ++ held i (fst (arun a evs)) = held i a ++ accepted i evs (snd (arun a evs)).
Proof.
  induction evs as [|e evs IH]; intros a w G R HI LW F W; [exists []; split; [constructor|]; cbn; rewrite app_nil_r; reflexivity|].
  apply Forall_cons_iff in F as [[F0 F1] F]. destruct (held_step i a e G) as (g1 & O1 & _ & X). pose proof (good_step a e G) as G2. pose proof (load_step a e w LW) as LW2.
  pose proof (ids_step i a e HI F0 F1) as HI2. pose proof (run_after_exit C key max a e) as R2. rewrite R in R2.
  cbn [ThreadProofs.arun] in *. destruct (astep a e) as [a1 r]. cbn [fst snd] in *.
  assert (R3 : a_run a1 = true) by (rewrite R2; destruct e; congruence).
  assert (EQ : g1 ++ held i a1 = held i a ++ accepted i [e] [r]).
  { apply X; try assumption; try reflexivity. intros -> NC. specialize (W 0%nat). cbn [firstn waiting] in W. unfold load_of in LW. destruct (a_cur a); [cbn [some] in LW; lia|congruence]. }
  destruct (IH a1 (waiting [e] [r] w) G2 R3 HI2 LW2 F) as (g2 & O2 & E2).
  { intros n. specialize (W (S n)). destruct (arun a1 evs) as [a2 rs]. cbn [fst snd firstn] in *. rewrite waiting_cons in W. exact W. }
  destruct (arun a1 evs) as [a2 rs]. cbn [fst snd] in *. exists (g1 ++ g2). rewrite received_cons, accepted_cons. split; [apply Forall2_app; assumption|].
  rewrite <- app_assoc, E2, !app_assoc, EQ. reflexivity.
Qed.

Lemma arun_app e1 : forall a e2, arun a (e1 ++ e2) = (fst (arun (fst (arun a e1)) e2), snd (arun a e1) ++ snd (arun (fst (arun a e1)) e2)).
Proof.
  induction e1 as [|e e1 IH]; intros a e2; [cbn; destruct (arun a e2); reflexivity|]. cbn [app ThreadProofs.arun]. destruct (astep a e) as [a1 r]. rewrite IH. destruct (arun a1 e1) as [a2 rs]. reflexivity.
Qed.
Lemma arun_len evs : forall a, length (snd (arun a evs)) = length evs.
Proof. induction evs as [|e evs IH]; intros a; [reflexivity|]. cbn [ThreadProofs.arun]. destruct (astep a e) as [a1 r]. specialize (IH a1). destruct (arun a1 evs). cbn in *. congruence. Qed.

Lemma accepted_none i evs : forall rs, Forall (fun e => match e with TSign j _ => j <> i | _ => True end) evs -> accepted i evs rs = [].
Proof.
  induction evs as [|e evs IH]; intros [|r rs] F; try reflexivity. { destruct e; reflexivity. } apply Forall_cons_iff in F as [F0 F]. specialize (IH rs F). destruct e; try exact IH. destruct r; try exact IH. cbn. destruct st; try exact IH. destruct (N.eqb_spec id i); [congruence|exact IH].
Qed.

(** A signature of session [b] at the front of the output buffer blocks everybody else. *)
Definition blocked (b : N) (a : astate) : Prop :=
  a_run a = false \/ (exists r outs, a_out a = r :: outs /\ o_id r = b) /\ cur_of b (a_cur a) = [] /\ filter (is_id b) (a_in a) = [].
Lemma filter_nil_sub {A} (f g : A -> bool) l : filter f l = [] -> filter f (filter g l) = [].
Proof. intros H. apply sub_nil_inv. rewrite <- H. apply sub_filter_mono, sub_filter. Qed.
Lemma blocked_step b i a e : blocked b a -> i <> b -> of_others b e -> blocked b (fst (astep a e)) /\ received i [e] [snd (astep a e)] = [].
Proof.
  intros B NI OB. destruct a as [run ins cur outs ids last coin]. unfold blocked in *. cbn [a_run a_out a_cur a_in] in B.
  destruct e as [k| | | |id|id h|id room| |]; cbn [ThreadSim.astep of_others] in *.
  - split; [exact B|reflexivity].
  - split; [left; reflexivity|reflexivity].
  - destruct B as [->|B]; [|].
    + cbn [orb]. destruct (some cur); (split; [left; reflexivity|reflexivity]).
    + destruct run; cbn [orb]; [split; [right; exact B|reflexivity]|]. destruct (some cur); (split; [left; reflexivity|reflexivity]).
  - destruct run; [|split; [exact B|reflexivity]]. destruct (next_id ids last) as [id|]; [|split; [exact B|reflexivity]]. destruct (id =? last)%N; (split; [exact B|reflexivity]).
  - split; [|reflexivity]. destruct B as [B|((r & o & EO & EI) & B2 & B3)]; [left; exact B|]. right. cbn [fst a_out a_cur a_in]. split; [|split; [exact B2|apply filter_nil_sub; exact B3]].
    subst outs. cbn [filter]. unfold not_oid at 1. rewrite EI. destruct (N.eqb_spec b id); [congruence|]. cbn [negb]. eauto.
  - destruct h as [|h0 hr]; [split; [exact B|reflexivity]|]. destruct (60 <=? length ins)%nat; [split; [exact B|reflexivity]|]. destruct run; [|split; [exact B|reflexivity]]. cbn [negb fst snd].
    split; [|reflexivity]. destruct B as [B|(B1 & B2 & B3)]; [discriminate|]. right. split; [exact B1|]. split; [exact B2|]. cbn [a_in]. rewrite filter_app, B3. cbn. unfold is_id. cbn. destruct (N.eqb_spec id b); [congruence|reflexivity].
  - destruct run; [|split; [exact B|reflexivity]]. destruct B as [B|((r & o & -> & EI) & B2 & B3)]; [discriminate|]. rewrite EI. destruct (N.eqb_spec b id); [congruence|]. cbn [negb fst snd].
    split; [|reflexivity]. right. cbn [a_out a_cur a_in]. eauto 6.
  - destruct run; [|split; [exact B|reflexivity]]. destruct cur as [j|]; [split; [exact B|reflexivity]|]. destruct ins as [|[j h] ins]; [split; [exact B|reflexivity]|]. cbn [fst snd].
    split; [|reflexivity]. destruct B as [B|(B1 & B2 & B3)]; [discriminate|]. right. cbn [a_out a_cur a_in]. split; [exact B1|]. cbn [filter] in B3. unfold is_id at 1 in B3. cbn [fst] in B3. cbn [cur_of]. destruct (j =? b)%N; [discriminate|]. auto.
  - destruct cur as [[id h]|]; [|split; [exact B|reflexivity]]. destruct (ossl_sign _ _ _ _ _) as [st sig].
    assert (NB : run = false \/ id <> b). { destruct B as [B|(_ & B2 & _)]; [left; exact B|right]. cbn in B2. destruct (N.eqb_spec id b); [discriminate|assumption]. }
    destruct (negb _); cbn [fst snd].
    + split; [|reflexivity]. destruct B as [B|(B1 & B2 & B3)]; [left; exact B|right]. cbn [a_out a_cur a_in]. auto.
    + destruct (60 <=? _)%nat; cbn [fst snd]; (split; [|reflexivity]).
      * destruct B as [B|((r & o & EO & EI) & B2 & B3)]; [left; exact B|]. destruct NB as [NB|NB]; [left; exact NB|]. right. cbn [a_out a_cur a_in]. split; [|split; [reflexivity|apply filter_nil_sub; exact B3]].
        subst outs. cbn [filter]. unfold not_oid at 1. rewrite EI. destruct (N.eqb_spec b id); [congruence|]. cbn [negb]. eauto.
      * destruct B as [B|((r & o & EO & EI) & B2 & B3)]; [left; exact B|]. right. cbn [a_out a_cur a_in]. subst outs. cbn [app]. split; [eauto|]. auto.
Qed.
Lemma blocked_run b i evs : forall a, blocked b a -> i <> b -> Forall (of_others b) evs -> received i evs (snd (arun a evs)) = [].
Proof.
  induction evs as [|e evs IH]; intros a B NI F; [reflexivity|]. apply Forall_cons_iff in F as [F0 F]. destruct (blocked_step b i a e B NI F0) as [B2 R]. cbn [ThreadProofs.arun]. destruct (astep a e) as [a1 r]. cbn [fst snd] in *.
  specialize (IH a1 B2 NI F). destruct (arun a1 evs). cbn [snd]. rewrite received_cons, R. exact IH.
Qed.
End Hist.

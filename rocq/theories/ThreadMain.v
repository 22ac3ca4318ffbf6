(** The central signing thread: the statements of PropsThread.v. *)
From Verif Require Import Base BaseProofs Crypto Toy Signer SessProofs PlugTypes Plugin Threaded PlugSpec PlugProofs ThreadSpec ThreadMem ThreadSim ThreadIds ThreadProofs ThreadHist.

Section Main.
Variable C : crypto.
Variables (key pub : list N) (max size : nat).
Hypothesis HK : c_priv C key = Some (pub, max).
Hypothesis KN : key <> [].

Lemma own_signatures last coin evs : (last < 2 ^ 32)%N -> lifetime size evs ->
  exists c rs, trun C (started C key last coin) evs = Def (c, rs) /\
    (td_in_idx (cd_td c) <= 60)%nat /\ (td_out_idx (cd_td c) <= 60)%nat /\
    forall id, exists signed, sub signed (accepted id evs rs) /\ Forall2 (outcome_of C key max) signed (received id evs rs).
Proof.
  intros LL [F X]. destruct (start_rel C key pub max size HK last coin KN) as [R0 K0]; [unfold id_max; change (2 ^ 32)%N with 4294967296%N in LL; lia|].
  destruct (sim_run C key pub max size HK evs _ _ R0 K0 F X) as (c & E & R & K). exists c, (snd (arun C key max (a_zero last coin) evs)). split; [exact E|].
  pose proof (rl_bufs _ _ _ _ _ R) as B. rewrite (in_len _ _ _ _ _ B), (out_len _ _ _ _ _ B). split; [eapply in_max; exact B|]. split; [eapply out_max; exact B|].
  intros id. destruct (held_run C key max id evs (a_zero last coin) (Forall_nil _)) as (g & F2 & S). exists g. split; [|exact F2].
  cbn [held a_zero a_out a_cur a_in filter map cur_of app] in S. eapply sub_trans; [exact S|]. rewrite <- (app_nil_r g) at 1. apply sub_app; [apply sub_refl|apply sub_none].
Qed.

Lemma app_len_inv {A} (a b c d : list A) : a ++ b = c ++ d -> length a = length c -> a = c /\ b = d.
Proof. apply app_same_len. Qed.

Lemma run_down e a : a_run a = false -> a_run (fst (astep C key max a e)) = false.
Proof. intros H. rewrite run_after_exit, H. destruct e; reflexivity. Qed.

Lemma in_step_order last coin e1 e2 c r1 id r2 : (last < 2 ^ 32)%N -> lifetime size (e1 ++ TSetup :: e2) ->
  trun C (started C key last coin) (e1 ++ TSetup :: e2) = Def (c, r1 ++ RSetup (Some id) :: r2) -> length r1 = length e1 ->
  Forall (fun e => match e with TSign i _ => i <> id | _ => True end) e1 ->
  Forall (fun e => e <> TExit /\ e <> TTeardown id) e2 ->
  (forall n, waiting (firstn n (e1 ++ TSetup :: e2)) (firstn n (r1 ++ RSetup (Some id) :: r2)) 0 <= 60)%nat ->
  exists signed rest, accepted id e2 r2 = signed ++ rest /\ Forall2 (outcome_of C key max) signed (received id e2 r2).
Proof.
  intros LL [F X] T LE F1 F2 W. destruct (start_rel C key pub max size HK last coin KN) as [R0 K0]; [unfold id_max; change (2 ^ 32)%N with 4294967296%N in LL; lia|].
  destruct (sim_run C key pub max size HK _ _ _ R0 K0 F X) as (c' & E & R & K). rewrite T in E. injection E as <- E.
  rewrite arun_app in E. cbn [snd] in E. set (a1 := fst (arun C key max (a_zero last coin) e1)) in *. pose proof (arun_len C key max e1 (a_zero last coin)) as L1.
  destruct (app_len_inv _ _ _ _ E) as [E1 E2]; [congruence|]. cbn [arun] in E2. destruct (astep C key max a1 TSetup) as [a2 r] eqn:ES. destruct (arun C key max a2 e2) as [a3 rs] eqn:E3. cbn [snd] in E2. injection E2 as <- <-.
  (* nothing of the session before *)
  destruct (held_run C key max id e1 (a_zero last coin) (Forall_nil _)) as (g1 & _ & S1). fold a1 in S1. cbn [held a_zero a_out a_cur a_in filter map cur_of app] in S1. rewrite (accepted_none id e1 _ F1) in S1. apply sub_nil_inv in S1. apply app_eq_nil in S1 as [_ H1].
  pose proof (good_run C key max e1 (a_zero last coin) (Forall_nil _)) as G1. fold a1 in G1. pose proof (good_step C key max a1 TSetup G1) as G2. rewrite ES in G2. cbn [fst] in G2.
  (* load *)
  assert (LD : forall evs a w, (load_of a <= w)%nat -> (load_of (fst (arun C key max a evs)) <= waiting evs (snd (arun C key max a evs)) w)%nat).
  { clear. induction evs as [|e evs IH]; intros a w L; [exact L|]. pose proof (load_step C key max a e w L) as L2. cbn [arun]. destruct (astep C key max a e) as [a1 r]. cbn [fst snd] in L2. specialize (IH a1 _ L2). destruct (arun C key max a1 evs) as [a2 rs]. cbn [fst snd] in *. rewrite waiting_cons. exact IH. }
  specialize (LD e1 (a_zero last coin) 0%nat (le_n _)). fold a1 in LD. rewrite <- E1 in LD.
  (* the setup *)
  destruct a1 as [run ins cur outs ids last1 coin1] eqn:EA. cbn [astep] in ES. destruct run; [|injection ES as _ ES; discriminate].
  destruct (next_id ids last1) as [i|]; [|injection ES as _ ES; discriminate]. destruct (i =? last1)%N; [injection ES as _ ES; discriminate|]. injection ES as <- ->.
  set (a2 := mkA true ins cur outs (ids ++ [id]) id coin1) in *.
  assert (WA : forall n, (waiting (firstn n e2) (firstn n r2) (waiting e1 r1 0) <= 60)%nat).
  { intros n. specialize (W (length e1 + S n)%nat). rewrite !firstn_app in W. rewrite (firstn_all2 e1), (firstn_all2 r1) in W by lia.
    replace (length e1 + S n - length e1)%nat with (S n) in W by lia. replace (length e1 + S n - length r1)%nat with (S n) in W by lia. cbn [firstn] in W.
    assert (WAPP : forall x y x' y' w, length x = length x' -> waiting (x ++ y) (x' ++ y') w = waiting y y' (waiting x x' w)).
    { clear. induction x as [|e x IH]; intros y [|r x'] y' w L; try discriminate L; [reflexivity|]. cbn [app]. rewrite waiting_cons, (waiting_cons e r x x'). apply IH. injection L as L. exact L. }
    rewrite WAPP in W by congruence. rewrite waiting_cons in W. exact W. }
  destruct (held_exact C key max id e2 a2 (waiting e1 r1 0) G2 eq_refl) as (g & O & EQ).
  - cbn. apply in_or_app. right. left. reflexivity.
  - exact LD.
  - exact F2.
  - rewrite E3. exact WA.
  - rewrite E3 in O, EQ. cbn [fst snd] in O, EQ. change (held id a2) with (held id (mkA true ins cur outs ids last1 coin1)) in EQ. rewrite H1 in EQ. cbn [app] in EQ. exists g, (held id a3). auto.
Qed.

(** Whoever does not fetch blocks the others. *)
Lemma head_blocks last coin e0 evs a0 b i : (last < 2 ^ 32)%N -> lifetime size (e0 ++ evs) -> b <> i ->
  fst (arun C key max (a_zero last coin) e0) = a0 -> blocked b a0 -> received i e0 (snd (arun C key max (a_zero last coin) e0)) = [] -> Forall (of_others b) evs ->
  exists c rs, trun C (started C key last coin) (e0 ++ evs) = Def (c, rs) /\ received i (e0 ++ evs) rs = [].
Proof.
  intros LL [F X] NI EA B RN FO. destruct (start_rel C key pub max size HK last coin KN) as [R0 K0]; [unfold id_max; change (2 ^ 32)%N with 4294967296%N in LL; lia|].
  destruct (sim_run C key pub max size HK _ _ _ R0 K0 F X) as (c' & E & R & K). exists c'. eexists. split; [exact E|]. rewrite arun_app. cbn [snd]. rewrite received_app by (symmetry; apply arun_len). rewrite RN, EA.
  apply (blocked_run C key max b i evs a0 B); congruence || assumption.
Qed.
End Main.

(** ** Ids, for histories with any number of lifetimes and any hash sizes *)
Section Ids.
Variable C : crypto.
Local Open Scope N_scope.

Record id_inv (c : cdata) (o : list N) (up : bool) : Prop := mkIdInv {
  ii_ids : cd_ids c = Some o \/ (cd_ids c = None /\ o = []);
  ii_ok : ids_ok o (cd_last c);
  ii_thread : td_thread (cd_td c) = up; ii_running : td_running (cd_td c) = up;
  ii_some : up = true -> cd_ids c = Some o
}.

Ltac td H := cbn [cd_td cd_last cd_cur cd_ids set_cd_td set_cd_last set_cd_cur set_cd_ids td_thread td_running] in H.

Lemma purge_reset t id t' : buffer_reset t id = Def t' -> td_thread t' = td_thread t /\ td_running t' = td_running t.
Proof.
  unfold buffer_reset. destruct (purge ss_id _ _ _ _ _ _) as [[o oi]|]; [|discriminate]. cbn [obind]. destruct (purge hs_id _ _ _ _ _ _) as [[i ii]|]; [|discriminate]. cbn [obind].
  intros E. injection E as <-. auto.
Qed.
Lemma sign_flags t id h t' st : sign_hash t id h = Def (t', st) -> td_thread t' = td_thread t /\ td_running t' = td_running t.
Proof.
  unfold sign_hash. destruct h as [|h0 hr]; [intros E; injection E as <- _; auto|]. destruct (_ <=? _)%nat; [intros E; injection E as <- _; auto|]. destruct (negb _); [intros E; injection E as <- _; auto|].
  destruct (td_key t); [|discriminate]. set (t1 := match td_hash t with Some _ => t | None => _ end). assert (T1 : td_thread t1 = td_thread t /\ td_running t1 = td_running t) by (unfold t1; destruct (td_hash t); auto). destruct T1 as [<- <-]. clearbody t1.
  destruct (at_idx _ _) as [sl|]; [|discriminate]. cbn [obind]. destruct (match hs_ptr sl with Some _ => _ | None => _ end) as [h1 s1]. destruct (put_idx _ _ _) as [b|]; [|discriminate]. cbn [obind].
  destruct (negb _); [intros E; injection E as <- _; auto|]. destruct (store _ _ _) as [h2|]; [|discriminate]. cbn [obind]. destruct (put_idx _ _ _) as [b2|]; [|discriminate]. cbn [obind]. intros E. injection E as <- _. auto.
Qed.
Lemma get_flags t id room t' r : get_signature t id room = Def (t', r) -> td_thread t' = td_thread t /\ td_running t' = td_running t.
Proof.
  unfold get_signature. destruct (negb _); [intros E; injection E as <- _; auto|]. destruct (_ =? _)%nat; [intros E; injection E as <- _; auto|]. destruct (td_out t) as [|sl rest]; [discriminate|].
  destruct (negb _); [intros E; injection E as <- _; auto|]. destruct (if ss_err sl then _ else _) as [x|]; [|discriminate]. cbn [obind]. intros E. injection E as <- _. auto.
Qed.
Lemma put_flags t id st sig max t' : put_out t id st sig max = Def t' -> td_thread t' = td_thread t /\ td_running t' = td_running t.
Proof.
  unfold put_out. destruct (at_idx _ _) as [sl|]; [|discriminate]. cbn [obind]. destruct (match ss_ptr _ with Some _ => _ | None => _ end) as [h1 s1]. destruct (if is_ok st then _ else _) as [[h2 s2]|]; [|discriminate]. cbn [obind].
  destruct (put_idx _ _ _) as [b|]; [|discriminate]. cbn [obind]. intros E. injection E as <-. auto.
Qed.
Lemma worker_flags t t' st sig max : worker_sign C t = Def (t', st, sig, max) -> td_thread t' = td_thread t /\ td_running t' = td_running t.
Proof. unfold worker_sign. destruct (td_key t); [|discriminate]. destruct (td_hash t); [|discriminate]. destruct (ossl_sign _ _ _ _ _). intros E. injection E as <- _ _ _. auto. Qed.
Lemma take_flags t t' id : take rotate_central t = Def (t', id) -> td_thread t' = td_thread t /\ td_running t' = td_running t.
Proof.
  unfold take. destruct (td_in t) as [|sl r] eqn:EI; [discriminate|]. destruct (td_hash t); [|discriminate]. destruct (negb _); [discriminate|]. destruct (load _ _ _); [|discriminate]. cbn [obind]. destruct (put_mem _ _); [|discriminate]. cbn [obind rotate_central].
  intros E. injection E as <- _. auto.
Qed.

Lemma id_init c o up c' r k : id_inv c o up -> tstep C c (TInit k) = Def (c', r) -> id_inv c' (open_ids o [TInit k] [r]) (is_up up [TInit k] [r]).
Proof.
  intros [I1 I2 I3 I4 I5] T. cbn [tstep] in T.
  unfold central_init in T. destruct (td_thread (cd_td c) || _ || _) eqn:EB; [injection T as <- <-; constructor; assumption|]. destruct k; [injection T as <- <-; constructor; assumption|].
    destruct (c_priv C _); [|injection T as <- <-; constructor; assumption]. injection T as <- <-. apply Bool.orb_false_iff in EB as [EB _]. apply Bool.orb_false_iff in EB as [_ EB].
    destruct I1 as [I1|[I1 ->]]; [rewrite I1 in EB; discriminate|]. constructor; try reflexivity; [left; reflexivity|exact I2].
Qed.
Lemma id_exit c o up c' r  : id_inv c o up -> tstep C c (TExit) = Def (c', r) -> id_inv c' (open_ids o [TExit] [r]) (is_up up [TExit] [r]).
Proof.
  intros [I1 I2 I3 I4 I5] T. cbn [tstep] in T.
  unfold central_exit in T. assert (K : ids_ok [] (cd_last c)) by (destruct I2 as [A1 A2 A3 A4]; constructor; [constructor|intros []|exact A3|reflexivity]).
    destruct (td_thread (cd_td c)) eqn:ET; cbn [obind] in T.
    + injection T as <- <-. constructor; try reflexivity; [right; auto|exact K|discriminate].
    + destruct (td_signing (cd_td c)); [discriminate|]. cbn [obind] in T. injection T as <- <-. constructor; cbn [cd_td cd_last cd_ids set_cd_td set_cd_ids free_plugin]; try discriminate; [right; auto|exact K| |].
      * exact ET.
      * cbn. rewrite I4. congruence.
Qed.
Lemma id_join c o up c' r  : id_inv c o up -> tstep C c (TJoin) = Def (c', r) -> id_inv c' (open_ids o [TJoin] [r]) (is_up up [TJoin] [r]).
Proof.
  intros [I1 I2 I3 I4 I5] T. cbn [tstep] in T.
  injection T as <- <-. unfold central_join. destruct (_ || _ || _); constructor; assumption.
Qed.
Lemma id_setup c o up c' r  : id_inv c o up -> tstep C c (TSetup) = Def (c', r) -> id_inv c' (open_ids o [TSetup] [r]) (is_up up [TSetup] [r]).
Proof.
  intros [I1 I2 I3 I4 I5] T. cbn [tstep] in T.
  destruct (td_thread (cd_td c)) eqn:ET; [|injection T as <- <-; constructor; cbn [open_ids is_up]; first [assumption|congruence|intros ->; congruence]]. unfold central_setup in T. rewrite I4, <- I3 in T. cbn [negb] in T. rewrite (I5 (eq_sym I3)) in T.
    destruct (next_ok o (cd_last c) I2) as (id & EN & RI & NI & _). unfold next_id in EN. cbv zeta in T. rewrite EN in T. cbn [obind] in T. destruct (N.eqb_spec id (cd_last c)) as [E|NE]; cbn [obind] in T; injection T as <- <-; subst up.
    + constructor; cbn [open_ids is_up]; auto.
    + constructor; cbn [open_ids is_up cd_td cd_last cd_ids set_cd_last set_cd_ids]; auto. apply (ids_add _ _ _ I2 RI). auto.
Qed.
Lemma delete_open c o ids id : (cd_ids c = Some o \/ (cd_ids c = None /\ o = [])) -> NoDup o -> delete_item (cd_ids c) id = Def ids ->
  (ids = Some (filter (fun j => negb (j =? id)) o) \/ ids = None /\ filter (fun j => negb (j =? id)) o = []) /\ (cd_ids c = Some o -> ids = Some (filter (fun j => negb (j =? id)) o)).
Proof.
  intros [I1|[I1 ->]] ND ED; rewrite I1 in *; unfold delete_item in ED.
  - destruct (id =? 0); [discriminate|]. injection ED as <-. rewrite <- remove_filter by exact ND. split; [left; reflexivity|reflexivity].
  - injection ED as <-. split; [right; auto|discriminate].
Qed.
Lemma teardown_parts c id c' : central_teardown c id = Def c' ->
  exists t ids, buffer_reset (cd_td c) id = Def t /\ delete_item (cd_ids c) id = Def ids /\ c' = set_cd_ids ids (set_cd_td t c).
Proof.
  unfold central_teardown. generalize (buffer_reset (cd_td c) id). intros [t|u]; cbn [obind]; [|discriminate]. generalize (delete_item (cd_ids c) id). intros [ids|u]; cbn [obind]; [|discriminate].
  intros E. injection E as <-. exists t, ids. auto.
Qed.
Lemma id_teardown c o up c' r id : id_inv c o up -> tstep C c (TTeardown id) = Def (c', r) -> id_inv c' (open_ids o [TTeardown id] [r]) (is_up up [TTeardown id] [r]).
Proof.
  intros [I1 I2 I3 I4 I5]. cbn [tstep]. destruct (central_teardown c id) as [c1|u] eqn:ET; cbn [obind]; [|discriminate]. intros T. injection T as <- <-.
  apply teardown_parts in ET as (t & ids & ER & ED & ->). destruct (purge_reset _ _ _ ER) as [T1 T2].
  destruct (delete_open _ _ _ _ I1 (io_nodup _ _ I2) ED) as [E1 E2].
  change (id_inv (set_cd_ids ids (set_cd_td t c)) (filter (fun j => negb (j =? id)) o) up). constructor; cbn [cd_td cd_last cd_ids set_cd_td set_cd_ids].
  - exact E1.
  - rewrite <- remove_filter by apply I2. apply ids_remove. exact I2.
  - congruence.
  - congruence.
  - intros U. apply E2, I5, U.
Qed.
Lemma id_sign c o up c' r id h : id_inv c o up -> tstep C c (TSign id h) = Def (c', r) -> id_inv c' (open_ids o [TSign id h] [r]) (is_up up [TSign id h] [r]).
Proof.
  intros [I1 I2 I3 I4 I5] T. cbn [tstep] in T.
  destruct (sign_hash (cd_td c) id h) as [[t st]|] eqn:ES; [|discriminate]. cbn [obind] in T. injection T as <- <-. destruct (sign_flags _ _ _ _ _ ES) as [T1 T2]. constructor; cbn [cd_td cd_last cd_ids set_cd_td open_ids is_up]; congruence || assumption.
Qed.
Lemma id_get c o up c' r id room : id_inv c o up -> tstep C c (TGet id room) = Def (c', r) -> id_inv c' (open_ids o [TGet id room] [r]) (is_up up [TGet id room] [r]).
Proof.
  intros [I1 I2 I3 I4 I5] T. cbn [tstep] in T.
  destruct (get_signature (cd_td c) id room) as [[t g]|] eqn:ES; [|discriminate]. cbn [obind] in T. injection T as <- <-. destruct (get_flags _ _ _ _ _ ES) as [T1 T2]. constructor; cbn [cd_td cd_last cd_ids set_cd_td open_ids is_up]; congruence || assumption.
Qed.
Lemma id_take c o up c' r  : id_inv c o up -> tstep C c (TTake) = Def (c', r) -> id_inv c' (open_ids o [TTake] [r]) (is_up up [TTake] [r]).
Proof.
  intros [I1 I2 I3 I4 I5] T. cbn [tstep] in T.
  unfold central_take in T. destruct (_ && _ && _); [|injection T as <- <-; constructor; assumption]. destruct (take rotate_central (cd_td c)) as [[t id]|] eqn:ES; [|discriminate]. cbn [obind] in T. injection T as <- <-.
    destruct (take_flags _ _ _ ES) as [T1 T2]. constructor; cbn [cd_td cd_last cd_ids set_cd_td set_cd_cur open_ids is_up]; congruence || assumption.
Qed.
Lemma id_finish c o up c' r  : id_inv c o up -> tstep C c (TFinish) = Def (c', r) -> id_inv c' (open_ids o [TFinish] [r]) (is_up up [TFinish] [r]).
Proof.
  intros [I1 I2 I3 I4 I5] T. cbn [tstep] in T.
  unfold central_finish in T. destruct (negb (td_signing _)); [injection T as <- <-; constructor; assumption|]. destruct (worker_sign C (cd_td c)) as [[[[t st] sig] mx]|] eqn:ES; [|discriminate]. cbn [obind] in T. destruct (worker_flags _ _ _ _ _ ES) as [T1 T2]. cbv zeta in T. td T.
    assert (DONE : forall t2, td_thread t2 = td_thread t -> td_running t2 = td_running t -> id_inv (set_cd_td t2 c) o up) by (intros t2 A1 A2; constructor; cbn [cd_td cd_last cd_ids set_cd_td]; congruence || assumption).
    destruct (negb (is_active _ _)); cbn [obind] in T; [injection T as <- <-; apply (DONE (set_td_signing false t)); reflexivity|].
    destruct (_ <=? _)%nat.
    + destruct (buffer_reset _ _) as [t2|] eqn:ER; [|discriminate]. cbn [obind] in T. injection T as <- <-. destruct (purge_reset _ _ _ ER) as [A1 A2]. apply DONE; assumption.
    + destruct (put_out _ _ _ _ _) as [t2|] eqn:ER; [|discriminate]. cbn [obind] in T. injection T as <- <-. destruct (put_flags _ _ _ _ _ _ ER) as [A1 A2]. apply DONE; assumption.
Qed.
Lemma id_step c o up e c' r : id_inv c o up -> tstep C c e = Def (c', r) -> id_inv c' (open_ids o [e] [r]) (is_up up [e] [r]).
Proof. destruct e; [apply id_init|apply id_exit|apply id_join|apply id_setup|apply id_teardown|apply id_sign|apply id_get|apply id_take|apply id_finish]. Qed.

Lemma open_cons o e r evs rs : open_ids o (e :: evs) (r :: rs) = open_ids (open_ids o [e] [r]) evs rs.
Proof. destruct e; try (destruct evs; reflexivity); destruct r; try (destruct evs; reflexivity). destruct id; destruct evs; reflexivity. Qed.
Lemma up_cons u e r evs rs : is_up u (e :: evs) (r :: rs) = is_up (is_up u [e] [r]) evs rs.
Proof. destruct e; try (destruct evs; reflexivity); destruct r; try (destruct evs; reflexivity). destruct ok; destruct evs; reflexivity. Qed.

Lemma id_run evs : forall c o up c' rs, id_inv c o up -> trun C c evs = Def (c', rs) -> id_inv c' (open_ids o evs rs) (is_up up evs rs).
Proof.
  induction evs as [|e evs IH]; intros c o up c' rs I0 T; [injection T as <- <-; exact I0|]. cbn [trun] in T. destruct (tstep C c e) as [[c1 r]|] eqn:ES; [|discriminate]. cbn [obind] in T.
  destruct (trun C c1 evs) as [[c2 rs2]|] eqn:ER; [|discriminate]. cbn [obind] in T. injection T as <- <-. rewrite open_cons, up_cons. eapply IH; [|exact ER]. eapply id_step; eassumption.
Qed.

Lemma id_zero last coin : last <= id_max -> id_inv (set_cd_last last (central_zero coin)) [] false.
Proof. intros L. constructor; try reflexivity; [right; auto| |discriminate]. constructor; [constructor|intros []|exact L|reflexivity]. Qed.

Lemma ids_distinct last coin evs c rs : last < 2 ^ 32 -> trun C (set_cd_last last (central_zero coin)) evs = Def (c, rs) ->
  NoDup (open_ids [] evs rs) /\ ~ In 0 (open_ids [] evs rs).
Proof.
  intros L T. assert (L2 : last <= id_max) by (unfold id_max; change (2 ^ 32) with 4294967296 in L; lia). pose proof (id_run _ _ _ _ _ _ (id_zero last coin L2) T) as [_ [A1 A2 _ _] _ _ _]. auto.
Qed.

Lemma all_ids_len o last : NoDup o -> 1 <= last <= id_max -> (forall j, 1 <= j <= id_max -> j <> last -> In j o) -> 2 ^ 32 - 2 <= N.of_nat (length o).
Proof.
  intros ND L1 H. set (m := N.to_nat (id_max - 1)). assert (EM : N.of_nat m = id_max - 1) by (unfold m; apply N2Nat.id). clearbody m.
  assert (D : NoDup (map (try_id last) (seq 1 m))). { apply nodup_map_on; [apply seq_NoDup|]. intros x y Hx Hy. apply in_seq in Hx, Hy. apply try_inj; lia. }
  assert (I1 : incl (map (try_id last) (seq 1 m)) o).
  { intros x Hx. apply in_map_iff in Hx as (k & <- & Hk). apply in_seq in Hk. apply H; [apply try_range|]. intros E. pose proof (try_last last L1) as EL. rewrite <- E in EL at 2.
    assert (N.to_nat id_max = k). { apply (try_inj last); [rewrite N2Nat.id; lia|lia|unfold id_max; lia|lia|exact EL]. } lia. }
  pose proof (NoDup_incl_length D I1) as X. rewrite map_length, seq_length in X. change (2 ^ 32 - 2) with (id_max - 1). lia.
Qed.

Lemma setup_free last coin evs c rs : last < 2 ^ 32 -> trun C (set_cd_last last (central_zero coin)) evs = Def (c, rs) -> is_up false evs rs = true ->
  exists c' r, tstep C c TSetup = Def (c', RSetup r) /\
    match r with Some id => 0 < id < 2 ^ 32 /\ ~ In id (open_ids [] evs rs) | None => 2 ^ 32 - 2 <= N.of_nat (length (open_ids [] evs rs)) end.
Proof.
  intros L T U. assert (L2 : last <= id_max) by (unfold id_max; change (2 ^ 32) with 4294967296 in L; lia). pose proof (id_run _ _ _ _ _ _ (id_zero last coin L2) T) as [_ I2 I3 I4 I5]. rewrite U in *. specialize (I5 eq_refl).
  cbn [tstep]. rewrite I3. unfold central_setup. rewrite I4, I5. cbn [negb]. cbv zeta. destruct (next_ok _ _ I2) as (id & EN & RI & NI & AL). unfold next_id in EN. rewrite EN. cbn [obind].
  destruct (N.eqb_spec id (cd_last c)) as [E|NE]; cbn [obind]; do 2 eexists; (split; [reflexivity|]); cbv iota.
  - apply (all_ids_len _ (cd_last c)); [apply I2|lia|]. apply AL. exact E.
  - change (2 ^ 32) with 4294967296. unfold id_max in RI. split; [lia|auto].
Qed.
End Ids.

(** ** Examples *)

Lemma two_sessions_blocked evs : lifetime 1 (two_sessions ++ evs) -> Forall (of_others 1%N) evs ->
  exists c rs, trun toy (started toy key1 0 0) (two_sessions ++ evs) = Def (c, rs) /\ received 2 (two_sessions ++ evs) rs = [].
Proof.
  intros L F. apply (head_blocks toy key1 (75 :: key1)%N 65 1 eq_refl ltac:(discriminate) 0 0 two_sessions evs (fst (arun toy key1 65 (a_zero 0 0) two_sessions)) 1 2);
    [reflexivity|exact L|discriminate|reflexivity| |reflexivity|exact F].
  right. split; [do 2 eexists; split; [vm_compute; reflexivity|reflexivity]|]. split; reflexivity.
Qed.

Definition overfull : list tev := (TSetup :: concat (map (fun k => [TSign 1 [N.of_nat k]; TTake; TFinish]) (seq 1 62)) ++ [TGet 1 65])%N.
Lemma full_output : exists evs c rs h rest g, lifetime 1 evs /\ trun toy (started toy key1 0 0) evs = Def (c, rs) /\
  accepted 1 evs rs = h :: rest /\ received 1 evs rs = [g] /\ ~ outcome_of toy key1 65 h g.
Proof.
  exists overfull. do 5 eexists. split.
  - split; [|vm_compute; auto]. apply Forall_cons; [exact Logic.I|]. apply Forall_app. split; [|repeat constructor; discriminate].
    apply Forall_concat, Forall_map, Forall_forall. intros x _. repeat (apply Forall_cons; [cbn; repeat split; try discriminate; auto|]). apply Forall_nil.
  - split; [vm_compute; reflexivity|]. split; [vm_compute; reflexivity|]. split; [vm_compute; reflexivity|].
    intros [_ [[k S] _]]. revert S. vm_compute. congruence.
Qed.
Lemma two_sizes : exists evs, Forall (fun e => match e with TInit _ | TExit => False | _ => True end) evs /\
  Forall (fun e => match e with TSign 1 h => length h = 32%nat | TSign 2 h => length h = 64%nat | TSign _ _ => False | _ => True end) evs /\
  trun toy (started toy key1 0 0) evs = Undef AssertFail.
Proof.
  exists [TSetup; TSetup; TSign 1 (zeros 32); TSign 2 (zeros 64); TTake; TFinish; TTake]%N.
  split; [|split; [|vm_compute; reflexivity]]; repeat (apply Forall_cons; [cbn; try reflexivity; exact Logic.I|]); apply Forall_nil.
Qed.
Lemma second_exit : exists evs, Forall (in_lifetime 1) evs /\ trun toy (started toy key1 0 0) evs = Undef UseAfterFree.
Proof.
  exists [TSetup; TSign 1 [7]; TTake; TExit; TExit]%N. split; [|vm_compute; reflexivity]. repeat (apply Forall_cons; [cbn; repeat split; try discriminate; auto|]). apply Forall_nil.
Qed.
Lemma own_thread : exists t evs, local_setup toy key1 0 = Some t /\
  Forall (fun e => match e with LSign h => length h = 1%nat | _ => True end) evs /\ lrun toy t evs = Undef OobRead.
Proof.
  eexists. exists (map (fun k => LSign [N.of_nat k]) (seq 1 60) ++ [LTake]). split; [vm_compute; reflexivity|]. split; [|vm_compute; reflexivity].
  apply Forall_app. split; [|repeat constructor]. apply Forall_map, Forall_forall. reflexivity.
Qed.

(** Validating a GOP whatever arrived of it: lemmas. *)
From Verif Require Import Base BaseProofs Nalu Crypto Types Hash Signer VTypes NaluList Validator E2eSpec E2eList E2eVal.
Local Open Scope N_scope.

(** An item that has been judged or is not to be. *)
Definition rests (it : item) : Prop := pending it = false.

Lemma calm_rests l : Forall calm l -> Forall rests l.
Proof. apply Forall_impl. exact calm_pending. Qed.
Lemma rests_used l : Forall rests l -> Forall rests (map (set_i_used false) l).
Proof. intros F. apply Forall_map. eapply Forall_impl; [|exact F]. intros it E. exact E. Qed.
Lemma clean_rests q r : Forall rests q -> fst (clean_up (q ++ r)) = fst (clean_up r).
Proof.
  induction 1 as [|it q Q _ IH]; [reflexivity|]. cbn [app clean_up]. unfold rests in Q. rewrite Q.
  destruct (clean_up (q ++ r)) as [l2 k]. exact IH.
Qed.
Lemma rests_none q : Forall rests q -> filter pending q = [].
Proof. induction 1 as [|it q Q _ IH]; [reflexivity|]. cbn [filter]. unfold rests in Q. rewrite Q. exact IH. Qed.
Lemma rests_shown q : Forall rests q -> times 80 (validation_str q) = O.
Proof.
  unfold times, validation_str. induction 1 as [|it q Q _ IH]; [reflexivity|]. cbn [map filter].
  unfold rests, pending in Q. destruct (i_status it); try discriminate Q; exact IH.
Qed.
Lemma pending_rests sg q rest : Forall rests q -> forall s, pg_quiet s -> (sg = false -> (g_ends s < 2)%nat) ->
  exists s', pending_loop sg s (q ++ rest) = pending_loop sg s' rest /\ pg_quiet s' /\ g_ends s' = g_ends s.
Proof.
  induction 1 as [|it q R _ IH]; intros s (Q1 & Q2 & Q3) HE; [exists s; repeat split; assumption|]. unfold rests in R.
  cbn [app pending_loop]. cbv zeta. rewrite R. cbn [andb].
  match goal with |- context [if _ then (?a, true) else pending_loop sg ?b _] => set (s1 := b) end.
  assert (X : g_ends s1 = g_ends s /\ g_sei s1 = false /\ g_after s1 = false /\ g_last s1 = g_last s).
  { unfold s1. destruct (i_nalu it); repeat split; assumption. }
  destruct X as (X1 & X2 & X3 & X4).
  assert (EF : ((if sg then (0 <? g_ends s1)%nat && g_sei s1 else (2 <=? g_ends s1)%nat) || g_after s1) = false).
  { rewrite X1, X2, X3, andb_false_r, orb_false_r. destruct sg; [reflexivity|]. specialize (HE eq_refl). apply Nat.leb_gt. lia. }
  rewrite EF, <- X1. apply (IH s1); [split; [exact X2|split; [exact X3|rewrite X4; exact Q3]]|rewrite X1; exact HE].
Qed.
Lemma none_pending l q : Forall rests q -> Forall stream_item l -> exists s, pending_loop true pg0 (q ++ l) = (s, false) /\ pg_quiet s.
Proof.
  intros R F. destruct (pending_rests true q l R pg0) as (s1 & -> & Q1 & _); [repeat split; discriminate|discriminate|].
  destruct (pending_stream (fun _ _ => True) true l F s1 [] Q1) as (s2 & E2 & Q2 & _); [discriminate|].
  rewrite app_nil_r in E2. exists s2. rewrite E2. split; [reflexivity|exact Q2].
Qed.
Lemma next_rests f q r : Forall rests q -> next_sei (q ++ r) = next_sei r /\ on_next_sei f (q ++ r) = q ++ on_next_sei f r.
Proof.
  unfold next_sei. induction 1 as [|it q R _ (I1 & I2)]; [split; reflexivity|]. cbn [app find on_next_sei]. unfold rests in R.
  rewrite R, andb_false_r, I1, I2. split; reflexivity.
Qed.

(** A list of items in which some are judged and items for missing NALUs are put in. *)
Inductive grown : list item -> list item -> Prop :=
| grown_nil : grown [] []
| grown_miss l m : grown l m -> grown l (missing_item :: m)
| grown_keep it l m : i_used it = false -> grown l m -> grown (it :: l) (it :: m)
| grown_judge it s l m : i_used it = true -> s = SValid \/ s = SInvalid -> grown l m -> grown (it :: l) (set_i_status s it :: m).
Lemma grown_missing k l m : grown l m -> grown l (repeat missing_item k ++ m).
Proof. intros G. induction k; [exact G|]. constructor. assumption. Qed.
Lemma grown_in l m : grown l m -> forall k n, grown l (firstn k m ++ repeat missing_item n ++ skipn k m).
Proof.
  induction 1 as [|l m G IH|it l m U G IH|it s l m U S G IH]; intros k n.
  - rewrite firstn_nil, skipn_nil. apply grown_missing. constructor.
  - destruct k; cbn [firstn skipn app]; [apply grown_missing; constructor; exact G|]. constructor. apply IH.
  - destruct k; cbn [firstn skipn app]; [apply grown_missing; constructor; assumption|]. constructor; [exact U|apply IH].
  - destruct k; cbn [firstn skipn app]; [apply grown_missing; constructor; assumption|]. constructor; [exact U|exact S|apply IH].
Qed.

Section Any.
Variable hs : nat.
Hypothesis Hhs : (0 < hs)%nat.

(** An item that takes part in the hash of the GOP, or one that rests. *)
Definition chosen (it : item) : Prop :=
  if i_used it then
    pending it = true /\ exists n x, i_nalu it = Some n /\ n_gop_sei n = false /\ (n_first_in_gop n = true -> i_linked it = true) /\
      (if n_first_in_gop n then i_second it else Some (i_hash it)) = Some x /\ (hs <= length x)%nat
  else rests it.
Lemma chosen_plain it : chosen it -> item_sei it && pending it = false.
Proof.
  unfold chosen. destruct (i_used it); [|intros ->; apply andb_false_r]. intros (_ & n & x & E & G & _). unfold item_sei. rewrite E, G. reflexivity.
Qed.
Lemma next_chosen l r : Forall chosen l -> next_sei (l ++ r) = next_sei r.
Proof. unfold next_sei. induction 1 as [|it l H _ IH]; [reflexivity|]. cbn [app find]. rewrite (chosen_plain _ H). exact IH. Qed.

Lemma mark_any s l : Forall chosen l -> s <> SPend ->
  exists l2 k, mark_used s l = Def (l2, k) /\ Forall rests l2 /\ map i_nalu l2 = map i_nalu l.
Proof.
  intros F NS. induction F as [|it l H _ (l2 & k & E & R & M)]; [exists [], 0%Z; repeat split; constructor|]. cbn [mark_used]. rewrite E. cbn [obind].
  unfold chosen in H. destruct (i_used it) eqn:U.
  - destruct H as (P & n & x & EN & _). rewrite P, EN. cbn [andb]. do 2 eexists. split; [reflexivity|]. split; [|cbn [map set_i_status i_nalu]; rewrite M; reflexivity].
    constructor; [|exact R]. unfold rests, pending. cbn. destruct s; try reflexivity. congruence.
  - cbn [andb]. do 2 eexists. split; [reflexivity|]. split; [constructor; assumption|cbn [map]; rewrite M; reflexivity].
Qed.

Lemma first_any l : Forall chosen l -> existsb i_used l = true -> forall r, exists k n, first_used (l ++ r) = Some k /\ (k < length l)%nat /\ nth_error (map i_nalu l) k = Some (Some n).
Proof.
  induction 1 as [|it l H F IH]; [discriminate|]. cbn [existsb app first_used length map]. intros X r. unfold chosen in H. destruct (i_used it) eqn:U.
  - destruct H as (_ & n & x & EN & _). exists O, n. split; [reflexivity|]. split; [lia|]. cbn. rewrite EN. reflexivity.
  - cbn [orb] in X. destruct (IH X r) as (k & n & -> & K & N0). exists (S k), n. split; [reflexivity|]. split; [lia|exact N0].
Qed.

Lemma add_any num ap pos a b : (pos < length a)%nat -> Forall rests a ->
  exists a2, add_missing num ap pos (a ++ b) = a2 ++ b /\ Forall rests a2 /\ (length a <= length a2)%nat /\ (forall l, grown l a -> grown l a2).
Proof.
  intros L F. unfold add_missing. set (k := if ap then S pos else pos). assert (K : (k <= length a)%nat) by (unfold k; destruct ap; lia).
  exists (firstn k a ++ repeat missing_item (Z.to_nat num) ++ skipn k a).
  split; [rewrite firstn_app, skipn_app; replace (k - length a)%nat with O by lia; cbn [firstn skipn]; rewrite app_nil_r, <- !app_assoc; reflexivity|].
  split; [|split; [rewrite !app_length, firstn_length, skipn_length; lia|intros l G; apply grown_in, G]].
  rewrite <- (firstn_skipn k a) in F. apply Forall_app in F as [F1 F2]. apply Forall_app. split; [exact F1|]. apply Forall_app. split; [|exact F2].
  clear. induction (Z.to_nat num); constructor; [reflexivity|assumption].
Qed.

Lemma missing_rests k : Forall rests (repeat missing_item k).
Proof. induction k; constructor; [reflexivity|assumption]. Qed.

Lemma list_any E a b : Forall chosen a -> Forall (fun it => i_used it = false) b -> forall pos s,
  exists s' m, hl_loop hs E pos false false s (a ++ b) = Def (s', m ++ b) /\ Forall rests m /\ grown a m /\
    (if existsb i_used a then exists p, h_last s' = Some p /\ (pos <= p < pos + length m)%nat else h_last s' = h_last s).
Proof.
  intros F U. assert (UB : forall pos s, hl_loop hs E pos false false s b = Def (s, b)).
  { assert (X : forall pos ps seen s, hl_loop hs E pos ps seen s b = Def (s, b)); [|intros; apply X].
    clear - U. induction U as [|it b H _ IH]; intros; cbn [hl_loop]; [reflexivity|]. rewrite H. cbn [negb]. rewrite orb_true_r, IH. reflexivity. }
  induction F as [|it a H F IH]; intros pos s.
  - exists s, []. split; [apply UB|]. split; [constructor|]. split; [constructor|reflexivity].
  - cbn [app hl_loop existsb]. rewrite <- andb_assoc, (chosen_plain _ H), andb_false_r. cbn [orb]. unfold chosen in H.
    destruct (i_used it) eqn:EU.
    + destruct H as (P & n & x & EN & EG & EK & EX & LX). rewrite P, EN, EG. cbn [negb orb].
      replace (n_first_in_gop n && negb (i_linked it)) with false by (destruct (n_first_in_gop n); [rewrite EK by reflexivity; reflexivity|reflexivity]).
      rewrite EX. unfold read_hash. destruct (Nat.leb_spec hs (length x)); [|lia]. cbn [obind]. cbv zeta.
      destruct (search _ _ _) as [j f] eqn:ES. destruct f.
      * match goal with |- context [hl_loop hs E ?p false false ?t (a ++ b)] => destruct (IH p t) as (s' & m & -> & R & GR & L) end. cbn [obind].
        set (mi := Z.to_nat (j - h_latest s - 1 - h_inv s)) in *.
        eexists s', (repeat missing_item mi ++ set_i_status (if h_order s then SValid else SInvalid) it :: m).
        split; [rewrite <- app_assoc; reflexivity|]. split; [apply Forall_app; split; [apply missing_rests|constructor; [destruct (h_order s); reflexivity|exact R]]|].
        split; [apply grown_missing; constructor; [exact EU|destruct (h_order s); auto|exact GR]|].
        rewrite app_length, repeat_length. cbn [length]. destruct (existsb i_used a).
        -- destruct L as (p & -> & L). exists p. split; [reflexivity|lia].
        -- rewrite L. cbn [h_last]. eexists. split; [reflexivity|lia].
      * match goal with |- context [hl_loop hs E ?p false false ?t (a ++ b)] => destruct (IH p t) as (s' & m & -> & R & GR & L) end. cbn [obind].
        exists s', (set_i_status SInvalid it :: m). split; [reflexivity|]. split; [constructor; [reflexivity|exact R]|]. split; [constructor; auto|]. cbn [length].
        destruct (existsb i_used a).
        -- destruct L as (p & -> & L). exists p. split; [reflexivity|lia].
        -- rewrite L. cbn [h_last]. eexists. split; [reflexivity|lia].
    + unfold rests in H. rewrite H. cbn [negb orb]. destruct (IH (S pos) s) as (s' & m & -> & R & GR & L). cbn [obind].
      exists s', (it :: m). split; [reflexivity|]. split; [constructor; [exact H|exact R]|]. split; [constructor; auto|]. cbn [length].
      destruct (existsb i_used a); [destruct L as (p & -> & L); exists p; split; [reflexivity|lia]|exact L].
Qed.

Section List.
Variables (a la : list item) (sei : item).
Hypothesis CA : Forall chosen a.
Hypothesis UA : existsb i_used a = true.
Hypothesis SL : Forall stream_item la.
Hypothesis UL : Forall (fun it => i_used it = false) la.
Hypothesis SP : item_sei sei && pending sei = true.
Hypothesis SU : i_used sei = false.

Lemma next_here : next_sei (a ++ la ++ [sei]) = Some sei.
Proof. rewrite (next_chosen _ _ CA), next_calm by exact SL. unfold next_sei. cbn [find]. rewrite SP. reflexivity. Qed.
Lemma on_here f a2 : Forall rests a2 -> on_next_sei f (a2 ++ la ++ [sei]) = a2 ++ la ++ [f sei].
Proof.
  intros R. rewrite (proj2 (next_rests f a2 _ R)), on_next_calm by exact SL. cbn [on_next_sei]. rewrite SP. reflexivity.
Qed.
Lemma tail_unused : Forall (fun it => i_used it = false) (la ++ [sei]).
Proof. apply Forall_app. split; [exact UL|constructor; [exact SU|constructor]]. Qed.

Lemma verify_list_any v o : vhs v = hs -> v_items v = a ++ la ++ [sei] ->
  exists a2 e r, verify_list v o = Def (set_v_items (a2 ++ la ++ [set_i_status SValid sei]) v, true, e, r) /\ Forall rests a2 /\ grown a a2.
Proof.
  intros EH EI. unfold verify_list. rewrite EH. destruct (Nat.eqb_spec hs 0); [lia|]. cbv zeta. rewrite EI, next_here.
  destruct (list_any (expected_hashes v) a (la ++ [sei]) CA tail_unused O (mkHl (-1) 0 0 0 o None)) as (s & m & -> & R & GR & L). rewrite UA in L.
  destruct L as (p & EP & LP). cbn [obind]. rewrite EP.
  match goal with |- context [obind ?x _] => assert (X : exists m2, x = Def (m2 ++ la ++ [sei]) /\ Forall rests m2 /\ (p < length m2)%nat /\ grown a m2) end.
  { destruct (h_latest s =? -1)%Z.
    - destruct (m ++ la ++ [sei]) as [|i0 l0] eqn:EM; [destruct m; [cbn [length] in LP; lia|discriminate]|]. rewrite <- EM.
      match goal with |- context [add_missing ?x ?y 0 _] => destruct (add_any x y O m (la ++ [sei])) as (m2 & E2 & R2 & L2 & G2) end; [lia|exact R|].
      rewrite E2. exists m2. split; [reflexivity|]. split; [exact R2|]. split; [lia|exact (G2 _ GR)].
    - exists m. split; [reflexivity|]. split; [exact R|]. split; [lia|exact GR]. }
  destruct X as (m2 & -> & R2 & L2 & G2). cbn [obind].
  match goal with |- context [on_next_sei _ ?x] => assert (Y : exists m3, x = m3 ++ la ++ [sei] /\ Forall rests m3 /\ grown a m3) end.
  { destruct (h_latest s =? h_compare s)%Z; [|exists m2; split; [reflexivity|]; split; [exact R2|exact G2]].
    match goal with |- context [add_missing ?x ?y p _] => destruct (add_any x y p m2 (la ++ [sei])) as (m3 & E3 & R3 & _ & G3) end; [exact L2|exact R2|].
    exists m3. split; [exact E3|]. split; [exact R3|exact (G3 _ G2)]. }
  destruct Y as (m3 & -> & R3 & G3). rewrite (on_here _ _ R3). do 3 eexists. split; [reflexivity|]. split; [exact R3|exact G3].
Qed.

Lemma verify_with_any v : vhs v = hs -> v_items v = a ++ la ++ [sei] -> v_verified v = 1%Z -> v_first v = false ->
  exists a2 f e r, verify_with v = Def (set_v_items (a2 ++ la ++ [set_i_status SValid sei]) v, f, e, r) /\ Forall rests a2.
Proof.
  intros EH EI EV EF. unfold verify_with. cbv zeta. rewrite EV. cbn [Z.eqb Pos.eqb].
  destruct (negb (gop_ok v && linked_ok v) && (0 <? nlen (d_list (v_dec v)))).
  { destruct (verify_list_any v (linked_ok v) EH EI) as (a2 & e & r & -> & R & _). exists a2, true, e, r. split; [reflexivity|exact R]. }
  set (s := if gop_ok v && linked_ok v then SValid else SInvalid).
  assert (NS : s <> SPend) by (unfold s; destruct (gop_ok v && linked_ok v); discriminate).
  rewrite EI, next_here.
  destruct (mark_any s a CA NS) as (l2 & k & E & R & M).
  rewrite (mark_used_app _ _ _ _ _ _ E (mark_used_unused _ tail_unused)). cbn [obind]. rewrite (on_here _ _ R).
  destruct (first_any a CA UA (la ++ [sei])) as (p & n & EP & LP & NP). rewrite EP.
  change (v_first (set_v_items _ v)) with (v_first v). rewrite EF. cbn [v_items set_v_items].
  assert (LL : length l2 = length a) by (rewrite <- (map_length i_nalu l2), M, map_length; reflexivity).
  rewrite nth_error_app1 by lia.
  assert (NX : exists it, nth_error l2 p = Some it /\ i_nalu it = Some n).
  { rewrite <- M, nth_error_map in NP. destruct (nth_error l2 p) as [it|]; [|discriminate]. exists it. cbn [option_map] in NP. split; [reflexivity|congruence]. }
  destruct NX as (it & -> & ->). unfold on_items.
  match goal with |- context [add_missing ?x ?y p _] => destruct (add_any x y p l2 (la ++ [set_i_status SValid sei])) as (m3 & E3 & R3 & _) end; [lia|exact R|].
  cbn [v_items set_v_items]. rewrite E3. exists m3. do 3 eexists. split; [|exact R3]. reflexivity.
Qed.

Lemma validate_any v : vhs v = hs -> v_items v = a ++ la ++ [sei] -> v_verified v = 1%Z -> v_first v = false -> gs_lost (v_gs v) = false ->
  l_auth (v_latest v) = SigPresent ->
  exists u a2, validate v = Def u /\ keeps v u /\ v_dec u = v_dec v /\ Forall rests a2 /\
    v_items u = a2 ++ la ++ [set_i_used false (set_i_status SValid sei)] /\ v_gop u = d_counter (v_dec v) /\
    v_links u = v_links v /\ v_computed u = v_computed v /\ v_hash u = v_hash v /\ In (l_auth (v_latest u)) [NotOk; OkMissing; AuthOk].
Proof.
  intros EH EI EV EF EL EA. unfold validate. rewrite EL. cbn [andb].
  destruct (verify_with_any v EH EI EV EF) as (a2 & f & e & r & -> & R). cbn [obind].
  set (l := a2 ++ la ++ [set_i_status SValid sei]).
  match goal with |- context [get_stats (v_items ?x)] => change (v_items x) with l; set (v1 := x) end.
  destruct (get_stats l) as [[inv mis] hv]. change (v_first (on_items remove_used v1)) with (v_first v).
  assert (F2 : v_first (set_v_synced true (on_items remove_used v1)) = false) by exact EF.
  rewrite EF. cbn [negb andb]. rewrite F2.
  eexists _, (map (set_i_used false) a2). split; [reflexivity|]. split; [repeat split|]. split; [reflexivity|]. split; [apply rests_used, R|].
  split; [|split; [reflexivity|split; [reflexivity|split; [reflexivity|split; [reflexivity|]]]]].
  2:{ match goal with |- context [ar_n (l_auth (v_latest ?x))] => change (v_latest x) with (v_latest v) end.
      cbn [on_latest v_latest set_v_latest set_l_exp set_l_recv set_l_auth l_auth]. rewrite EA. cbn [ar_n N.leb N.compare Pos.compare Pos.compare_cont orb].
      match goal with |- In (if ?b then _ else _) _ => destruct b; [left; reflexivity|] end.
      repeat match goal with |- In (match (if ?b then _ else _) with _ => _ end) _ => destruct b; cbn iota end;
        try (left; reflexivity); match goal with |- In (if ?b then _ else _) _ => destruct b end; cbn; auto. }
  change (map (set_i_used false) l = map (set_i_used false) a2 ++ la ++ [set_i_used false (set_i_status SValid sei)]).
  unfold l. rewrite !map_app, (unused_same _ UL). reflexivity.
Qed.
End List.
End Any.

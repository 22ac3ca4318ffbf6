(** Validating a GOP with the list of hashes: lemmas. *)
From Verif Require Import Base BaseProofs Nalu Crypto Types Hash Signer GopSpec VTypes NaluList Validator MatchSpec MatchProofs E2eSpec DamageSpec LossSpec E2eList E2eVal E2eAny.
Local Open Scope N_scope.

(** ** Sequences *)
Lemma subseq_first {A} (x : A) l s1 s2 : ~ In x s1 -> subseq (x :: l) (s1 ++ x :: s2) <-> subseq l s2.
Proof.
  intros N0. split.
  - induction s1 as [|y s1 IH]; cbn [app]; intros Q.
    + inversion Q as [|? ? ? Q1|? ? ? Q1]; subst; [exact Q1|]. clear -Q1. remember (x :: l) as k. revert x l Heqk. induction Q1; intros x l0 E; [discriminate| |].
      * injection E as -> ->. constructor. exact Q1.
      * constructor. eapply IHQ1. exact E.
    + inversion Q as [|? ? ? Q1|? ? ? Q1]; subst; [destruct N0; left; reflexivity|]. apply IH; [|exact Q1]. intros X. apply N0. right. exact X.
  - intros Q. induction s1; cbn [app]; [constructor; exact Q|constructor; apply IHs1; intros X; apply N0; right; exact X].
Qed.
Lemma subseq_one {A} (x : A) l : subseq [x] l <-> In x l.
Proof.
  split.
  - induction l as [|y l IH]; intros Q; inversion Q; subst; [left; reflexivity|right; auto].
  - induction l as [|y l IH]; intros X; [destruct X|]. destruct X as [->|X]; [constructor; constructor|constructor; auto].
Qed.
Lemma subseq_length {A} (l m : list A) : subseq l m -> (length l <= length m)%nat.
Proof. induction 1; cbn [length]; lia. Qed.
Lemma in_first {A} (D : forall x y : A, {x = y} + {x <> y}) (x : A) (l : list A) : In x l -> exists s1 s2, l = s1 ++ x :: s2 /\ ~ In x s1.
Proof.
  induction l as [|y l IH]; intros H; [destruct H|]. destruct (D y x) as [->|NE]; [exists [], l; auto|].
  destruct H as [H|H]; [contradiction|]. destruct (IH H) as (s1 & s2 & -> & N0). exists (y :: s1), s2. split; [reflexivity|]. intros [X|X]; auto.
Qed.

(** The result of matching, as a relation. *)
Lemma apart_of {A B} (D : forall x y : B, {x = y} + {x <> y}) (h : A -> B) (ok : A -> bool) E l :
  (forall u x w, l = u ++ x :: w -> ok x = true <-> subseq (map h (filter ok u) ++ [h x]) E) -> told_apart E (map h l) (map ok l).
Proof.
  enough (X : forall p rem l, (forall k, subseq (p ++ k) E <-> subseq k rem) ->
    (forall u x w, l = u ++ x :: w -> ok x = true <-> subseq ((p ++ map h (filter ok u)) ++ [h x]) E) -> told_apart rem (map h l) (map ok l)).
  { intros K. apply (X [] E l); [reflexivity|exact K]. }
  clear l. intros p rem l. revert p rem. induction l as [|x l IH]; intros p rem R K; cbn [map]; [constructor|].
  pose proof (K [] x l eq_refl) as K0. cbn [filter map] in K0. rewrite app_nil_r, R, subseq_one in K0.
  destruct (ok x) eqn:EX.
  - destruct (in_first D (h x) rem (proj1 K0 eq_refl)) as (s1 & s2 & -> & N0). constructor; [exact N0|]. apply (IH (p ++ [h x])).
    + intros k. rewrite <- app_assoc, R. cbn [app]. apply subseq_first, N0.
    + intros u y w ->. rewrite (K (x :: u) y w eq_refl). cbn [filter]. rewrite EX. cbn [map]. rewrite <- !app_assoc. reflexivity.
  - constructor; [intros X; apply K0 in X; discriminate|]. apply (IH p rem R). intros u y w ->. rewrite (K (x :: u) y w eq_refl). cbn [filter]. rewrite EX. reflexivity.
Qed.

Lemma apart_same {A} (l : list A) : told_apart l l (map (fun _ => true) l).
Proof. induction l as [|x l IH]; cbn [map]; [constructor|]. exact (apart_good [] x l l _ (fun X => X) IH). Qed.
Lemma apart_length {A} (s g : list A) bs : told_apart s g bs -> length bs = length g.
Proof. induction 1; cbn [length]; lia. Qed.
Lemma apart_fun {A} (s g : list A) b1 : told_apart s g b1 -> forall b2, told_apart s g b2 -> b1 = b2.
Proof.
  induction 1 as [s|s1 x s2 g b N1 T IH|s x g b N1 T IH]; intros b2 T2; inversion T2 as [|s1' x' s2' g' b' N' T' E1 E2|? ? ? ? N' T']; subst; auto.
  - f_equal. apply IH. assert (E : s1 ++ x :: s2 = s1' ++ x :: s2') by congruence. clear - E N1 N' T'.
    assert (s2' = s2) as <-; [|exact T']. revert s1' E N'. induction s1 as [|y s1 IH]; intros [|z s1'] E N'; cbn [app] in E; injection E; intros; subst; auto.
    + destruct N'. left. reflexivity.
    + destruct N1. left. reflexivity.
    + apply (IH (fun X => N1 (or_intror X)) s1'); auto. intros X. apply N'. right. exact X.
  - destruct N'. apply in_or_app. right. left. reflexivity.
  - destruct N1. apply in_or_app. right. left. reflexivity.
  - f_equal. auto.
Qed.
Lemma apart_map {A B} (f : A -> B) s g bs : told_apart (map f s) (map f g) bs -> (forall a b, In a g -> In b s -> f a = f b -> a = b) -> told_apart s g bs.
Proof.
  remember (map f s) as fs. remember (map f g) as fg. intros T. revert s Heqfs g Heqfg. induction T as [fs|s1 x s2 fg bs N0 T IH|fs x fg bs N0 T IH]; intros s ES g EG I.
  - destruct g; [constructor|discriminate].
  - destruct g as [|a g]; [discriminate|]. cbn [map] in EG. injection EG as -> EG. symmetry in ES. apply map_eq_app in ES as (t1 & t & -> & E1 & E2).
    destruct t as [|b t2]; [discriminate|]. cbn [map] in E2. injection E2 as E2 E3.
    assert (a = b) as <- by (apply I; [left; reflexivity|apply in_or_app; right; left; reflexivity|congruence]).
    constructor; [intros X; apply N0; rewrite <- E1; apply in_map, X|]. apply IH; [congruence|exact EG|]. intros u v U V. apply I; [right; exact U|apply in_or_app; right; right; exact V].
  - destruct g as [|a g]; [discriminate|]. cbn [map] in EG. injection EG as -> EG. constructor; [intros X; apply N0; rewrite ES; apply in_map, X|].
    apply IH; [exact ES|exact EG|]. intros u v U. apply I. right. exact U.
Qed.
Lemma apart_cons {A} (x : A) s g bs : told_apart (x :: s) (x :: g) bs -> exists b, bs = true :: b /\ told_apart s g b.
Proof.
  intros T. inversion T as [|s1 y s2 g' b' N0 T' E1 E2|? ? ? ? N0 T']; subst.
  - destruct s1 as [|z s1]; cbn [app] in E1; injection E1; intros; subst; [eauto|]. destruct N0. left. reflexivity.
  - destruct N0. left. reflexivity.
Qed.

(** ** Items *)
Lemma apart_lost {A} (s g : list A) bs : told_apart s g bs -> (wrong bs = O <-> subseq g s).
Proof.
  induction 1 as [s|s1 x s2 g bs N0 T IH|s x g bs N0 T IH].
  - split; [intros _; constructor|reflexivity].
  - change (wrong (true :: bs)) with (wrong bs). rewrite IH. symmetry. apply subseq_first, N0.
  - split; [discriminate|]. intros X. exfalso. apply N0. clear - X. remember (x :: g) as l. revert Heql. induction X as [m|z l m X IH|z l m X IH]; intros E; [discriminate| |right; auto]. injection E as -> _. left. reflexivity.
Qed.
Lemma grown_cmp h l m : grown l m -> Forall (fun it => i_used it = true -> i_nalu it <> None) l -> (forall s it, h (set_i_status s it) = h it :> list N) ->
  map h (cmp m) = map h (filter i_used l).
Proof.
  unfold cmp. induction 1 as [|l m G IH|it l m U G IH|it s l m U S G IH]; intros F K; [reflexivity|..].
  - cbn [filter new_missing missing_item i_nalu i_used negb]. apply IH; assumption.
  - apply Forall_cons_iff in F as [F0 F].
    assert (X : new_missing it = false) by (unfold new_missing; rewrite U; destruct (i_nalu it); reflexivity).
    cbn [filter]. rewrite X. cbn [negb filter]. rewrite U. apply IH; assumption.
  - apply Forall_cons_iff in F as [F0 F]. specialize (F0 U).
    assert (X : new_missing (set_i_status s it) = false) by (unfold new_missing; change (i_nalu (set_i_status s it)) with (i_nalu it); destruct (i_nalu it); [reflexivity|congruence]).
    cbn [filter]. rewrite X. cbn [negb filter]. change (i_used (set_i_status s it)) with (i_used it). rewrite U.
    cbn [map]. rewrite K, IH by assumption. reflexivity.
Qed.

Definition shown_of (m : list item) : list bool := map is_valid (cmp m).
(** What is shown of such a list. *)
Lemma grown_shown l m : grown l m -> Forall (fun it => if i_used it then i_nalu it <> None /\ item_sei it = false else In (i_status it) [SIgn; SUnknown; SValid]) l ->
  subseq (map shown_as (shown_of m)) (validation_str m) /\ times 78 (validation_str m) = wrong (shown_of m) /\ times 77 (validation_str m) = fresh m /\
  Forall (fun s => In s [46; 78; 77; 95; 85]) (validation_str m) /\
  (length (filter (fun b => b) (shown_of m)) <= times 46 (validation_str m))%nat /\
  exists hv, get_stats m = (Z.of_nat (wrong (shown_of m)), Z.of_nat (fresh m), hv) /\ (existsb (fun b => b) (shown_of m) = true -> hv = true).
Proof.
  unfold shown_of, fresh, wrong, cmp. induction 1 as [|l m G IH|it l m U G IH|it s l m U S G IH]; intros F.
  - split; [constructor|]. split; [reflexivity|]. split; [reflexivity|]. split; [constructor|]. split; [cbn; lia|]. exists false. split; [reflexivity|discriminate].
  - destruct (IH F) as (I1 & I2 & I3 & I4 & I5 & hv & I6 & I7). clear IH. unfold validation_str, times in *. cbn [filter new_missing missing_item i_nalu i_used negb map i_status stat_char length].
    split; [constructor; exact I1|]. split; [exact I2|]. split; [cbn [N.eqb Pos.eqb length]; rewrite I3; reflexivity|].
    split; [constructor; [cbn; auto|exact I4]|]. split; [exact I5|]. exists hv. split; [|exact I7]. cbn [get_stats]. rewrite I6. cbn [missing_item i_used negb i_status vstat_eqb orb andb]. f_equal. f_equal. lia.
  - apply Forall_cons_iff in F as [F0 F]. rewrite U in F0. destruct (IH F) as (I1 & I2 & I3 & I4 & I5 & hv & I6 & I7). clear IH.
    assert (X : new_missing it = false) by (unfold new_missing; rewrite U; destruct (i_nalu it); reflexivity).
    cbn [filter]. rewrite X. cbn [negb filter]. rewrite U.
    unfold validation_str, times in *. cbn [map filter].
    assert (Y : exists c, stat_char (i_status it) = c /\ In c [46; 95; 85]) by (cbn [In] in F0; destruct F0 as [<- | [<- | [<- | []]]]; eexists; (split; [reflexivity|cbn; auto])).
    destruct Y as (c & -> & Y). split; [constructor; exact I1|].
    assert (Y1 : (78 =? c) = false) by (cbn [In] in Y; destruct Y as [<- | [<- | [<- | []]]]; reflexivity).
    assert (Y2 : (77 =? c) = false) by (cbn [In] in Y; destruct Y as [<- | [<- | [<- | []]]]; reflexivity).
    rewrite Y1, Y2. split; [exact I2|]. split; [exact I3|]. split; [constructor; [cbn [In] in *; tauto|exact I4]|].
    split; [destruct (46 =? c); cbn [length]; lia|]. exists hv. split; [|exact I7]. cbn [get_stats]. rewrite I6, U. reflexivity.
  - apply Forall_cons_iff in F as [F0 F]. rewrite U in F0. destruct F0 as [F0 FS]. destruct (IH F) as (I1 & I2 & I3 & I4 & I5 & hv & I6 & I7). clear IH.
    assert (X : new_missing (set_i_status s it) = false) by (unfold new_missing; change (i_nalu (set_i_status s it)) with (i_nalu it); destruct (i_nalu it); [reflexivity|congruence]).
    cbn [filter]. rewrite X. cbn [negb filter]. change (i_used (set_i_status s it)) with (i_used it). rewrite U.
    unfold validation_str, times in *. cbn [map filter]. change (i_status (set_i_status s it)) with s.
    cbn [get_stats]. rewrite I6. change (i_used (set_i_status s it)) with (i_used it). change (item_sei (set_i_status s it)) with (item_sei it). change (i_status (set_i_status s it)) with s. rewrite U, FS.
    cbn [map]. destruct S as [-> | ->]; [change (is_valid (set_i_status SValid it)) with true|change (is_valid (set_i_status SInvalid it)) with false];
      cbn [vstat_eqb shown_as map negb filter stat_char N.eqb Pos.eqb length orb andb existsb].
    + split; [constructor; exact I1|]. split; [exact I2|]. split; [exact I3|]. split; [constructor; [cbn; auto|exact I4]|]. split; [lia|]. exists true. split; [reflexivity|reflexivity].
    + split; [constructor; exact I1|]. split; [rewrite I2; reflexivity|]. split; [exact I3|]. split; [constructor; [cbn; auto|exact I4]|]. split; [exact I5|]. exists hv. split; [f_equal; f_equal; lia|exact I7].
Qed.

Lemma wrong_count {A} (f : A -> bool) l : (wrong (map f l) + length (filter f l) = length l)%nat.
Proof. unfold wrong. induction l as [|x l IH]; [reflexivity|]. cbn [map filter length]. destruct (f x); cbn [negb filter length]; lia. Qed.
Lemma wrong_none {A} (l : list A) : wrong (map (fun _ => true) l) = O.
Proof. induction l; [reflexivity|exact IHl]. Qed.

Section List.
Variable hs : nat.
Hypothesis Hhs : (0 < hs)%nat.
Variables (a la : list item) (sei : item).
Hypothesis CA : Forall (chosen hs) a.
Hypothesis CU : Forall (fun it => i_used it = false -> In (i_status it) [SIgn; SUnknown; SValid]) a.
Hypothesis UA : existsb i_used a = true.
Hypothesis SL : Forall stream_item la.
Hypothesis UL : Forall (fun it => i_used it = false) la.
Hypothesis SP : item_sei sei && pending sei = true.
Hypothesis SU : i_used sei = false.
Variable E : list (list N).
Hypothesis EL : Forall (fun e => length e = hs) E.
Let own := map (own_hash hs) (filter i_used a).

Lemma used_some : (1 <= length (filter i_used a))%nat.
Proof. clear - UA. induction a as [|x l IH]; [discriminate|]. cbn [existsb filter] in *. destruct (i_used x); [cbn [length]; lia|]. apply IH, UA. Qed.

Lemma verify_list_told v : vhs v = hs -> v_items v = a ++ la ++ [sei] -> d_list (v_dec v) = concat E ->
  exists a2, verify_list v true = Def (set_v_items (a2 ++ la ++ [set_i_status SValid sei]) v, true, Z.of_nat (length E), Z.of_nat (length own)) /\
    Forall rests a2 /\ grown a a2 /\ told_apart E own (shown_of a2) /\ (wrong (shown_of a2) = O -> fresh a2 + length own = length E)%nat.
Proof.
  intros EH EI ED. destruct (verify_list_any hs Hhs a la sei CA UA SL UL SP SU v true EH EI) as (a2 & e & r & EV & R & G).
  assert (TU : Forall (fun it => i_used it = false) (la ++ [set_i_status SValid sei])) by (apply Forall_app; split; [exact UL|constructor; [exact SU|constructor]]).
  destruct (verify_list_spec v true (set_v_items (a2 ++ la ++ [set_i_status SValid sei]) v) true e r E []) as (_ & _ & X1 & X2 & X3 & X4).
  { exists a, (la ++ [sei]). split; [exact EI|]. split; [|split].
    - eapply Forall_impl; [|exact CA]. intros it H U. unfold chosen in H. rewrite U in H. destruct H as (P & n & x & E1 & E2 & E3 & _). split; [exact P|]. exists n. auto.
    - eapply Forall_impl; [|exact CA]. intros it H. exact (chosen_plain _ _ H).
    - apply Forall_app. split; [exact UL|constructor; [exact SU|constructor]]. }
  { rewrite EI, (next_here hs a la sei CA SL SP). discriminate. }
  { lia. } { rewrite ED, app_nil_r. reflexivity. } { rewrite EH. exact EL. } { cbn [length]. lia. } { exact EV. }
  rewrite EH in X4. destruct (X4 eq_refl) as (K1 & K2 & K3 & K4). clear X4. cbn [v_items set_v_items] in *.
  destruct (cmp_unused _ TU) as (B1 & B2 & B3).
  assert (C0 : cmp (a2 ++ la ++ [set_i_status SValid sei]) = cmp a2) by (rewrite cmp_app, B1, app_nil_r; reflexivity).
  assert (F0 : fresh (a2 ++ la ++ [set_i_status SValid sei]) = fresh a2) by (rewrite fresh_app, B3; lia).
  rewrite C0 in *. rewrite F0 in *.
  assert (HM : map (own_hash hs) (cmp a2) = own).
  { apply (grown_cmp (own_hash hs) a a2 G); [|reflexivity]. eapply Forall_impl; [|exact CA]. intros it H U. unfold chosen in H. rewrite U in H. destruct H as (_ & n & x & E1 & _). congruence. }
  assert (LM : length (cmp a2) = length own) by (rewrite <- HM, map_length; reflexivity).
  exists a2. split; [rewrite EV; subst e r; rewrite LM; reflexivity|]. split; [exact R|]. split; [exact G|]. split.
  - rewrite <- HM. unfold shown_of. apply apart_of; [apply list_eq_dec, N.eq_dec|exact K1].
  - intros W. unfold shown_of in W. pose proof (wrong_count is_valid (cmp a2)) as WC. lia.
Qed.

Lemma validate_list v : vhs v = hs -> v_items v = a ++ la ++ [sei] -> d_list (v_dec v) = concat E -> (0 < length E)%nat ->
  v_verified v = 1%Z -> gs_lost (v_gs v) = false -> gop_ok v = false -> linked_ok v = true -> d_l_changed (v_dec v) = false ->
  l_auth (v_latest v) = SigPresent -> l_exp (v_latest v) = 0%Z -> l_recv (v_latest v) = 0%Z -> v_first v = false \/ own = E ->
  exists u a2, validate v = Def u /\ keeps v u /\ v_dec u = v_dec v /\ Forall rests a2 /\
    v_items u = a2 ++ la ++ [set_i_used false (set_i_status SValid sei)] /\ v_gop u = d_counter (v_dec v) /\
    v_links u = v_links v /\ v_computed u = v_computed v /\ v_hash u = v_hash v /\
    exists bs m, told_apart E own bs /\ (wrong bs = O -> m + length own = length E)%nat /\
      l_auth (v_latest u) = (if (wrong bs =? 0)%nat then if (m =? 0)%nat then AuthOk else OkMissing else NotOk) /\
      l_recv (v_latest u) = Z.of_nat (length own) /\ l_exp (v_latest u) = Z.of_nat (length E) /\
      subseq (map shown_as bs) (validation_str a2) /\ times 78 (validation_str a2) = wrong bs /\ times 77 (validation_str a2) = m /\
      Forall (fun s => In s [46; 78; 77; 95; 85]) (validation_str a2) /\ (length (filter (fun b => b) bs) <= times 46 (validation_str a2))%nat.
Proof.
  intros EH EI ED EP EV EL0 EG EK EC EA E1 E2 EF. unfold validate. rewrite EL0. cbn [andb].
  destruct (verify_list_told v EH EI ED) as (a2 & X1 & R & G & T & W). pose proof used_some as US.
  assert (UO : (1 <= length own)%nat) by (unfold own; rewrite map_length; exact US).
  assert (X2 : verify_with v = Def (set_v_items (a2 ++ la ++ [set_i_status SValid sei]) v, true, Z.of_nat (length E), Z.of_nat (length own))).
  { unfold verify_with. cbv zeta. rewrite EV, EG, EK. cbn [Z.eqb Pos.eqb andb negb]. rewrite ED.
    assert (Y : 0 <? nlen (concat E) = true).
    { apply N.ltb_lt. unfold nlen. destruct E as [|e0 E0]; [cbn [length] in EP; lia|]. apply Forall_cons_iff in EL as [L0 _]. cbn [concat]. rewrite app_length. lia. }
    rewrite Y. rewrite X1. reflexivity. }
  rewrite X2. cbn [obind]. set (l := a2 ++ la ++ [set_i_status SValid sei]).
  destruct (grown_shown a a2 G) as (S1 & S2 & S3 & S4 & S5 & hv & S6 & S7).
  { apply Forall_forall. intros it IN. pose proof (proj1 (Forall_forall _ _) CA it IN) as H. pose proof (proj1 (Forall_forall _ _) CU it IN) as H2.
    destruct (i_used it) eqn:U; [|exact (H2 U)]. unfold chosen in H. rewrite U in H. destruct H as (_ & n & x & E3 & E4 & _). split; [congruence|].
    unfold item_sei. rewrite E3. exact E4. }
  match goal with |- context [get_stats (v_items ?x)] => change (v_items x) with l; set (v1 := x) end.
  assert (ST : get_stats l = (Z.of_nat (wrong (shown_of a2)), Z.of_nat (fresh a2), hv)).
  { assert (SU0 : get_stats (la ++ [set_i_status SValid sei]) = (0%Z, 0%Z, false)).
    { apply stats_unused. apply Forall_app. split; [exact UL|constructor; [exact SU|constructor]]. }
    unfold l. rewrite <- S6. generalize SU0. generalize (la ++ [set_i_status SValid sei]). clear. intros b SB. induction a2 as [|x l IH]; cbn [app get_stats]; [exact SB|].
    rewrite IH. reflexivity. }
  rewrite ST. change (v_first (on_items remove_used v1)) with (v_first v).
  set (bs := shown_of a2) in *. set (m := fresh a2) in *.
  assert (IV : (0 <? Z.of_nat (wrong bs))%Z = negb (wrong bs =? 0)%nat) by (destruct (wrong bs); reflexivity).
  assert (MV : (0 <? Z.of_nat m)%Z = negb (m =? 0)%nat) by (destruct m; reflexivity).
  rewrite IV.
  assert (NM : negb (v_first v) && negb (negb (wrong bs =? 0)%nat) && (1 <? Z.of_nat (length E))%Z && (Z.of_nat (length E) <=? Z.of_nat m)%Z = false).
  { destruct (Nat.eqb_spec (wrong bs) 0) as [W0|_]; [|cbn [negb]; rewrite andb_false_r; reflexivity]. specialize (W W0).
    assert (Y : (Z.of_nat (length E) <=? Z.of_nat m)%Z = false) by (apply Z.leb_gt; lia). rewrite Y. apply andb_false_r. }
  rewrite NM, MV, andb_true_r.
  assert (FI : v_first v = true -> wrong bs = O /\ m = O /\ hv = true).
  { intros F1. destruct EF as [EF|EF]; [congruence|]. rewrite <- EF in T. pose proof (apart_fun _ _ _ T _ (apart_same own)) as EB.
    assert (W0 : wrong bs = O) by (rewrite EB; apply wrong_none). split; [exact W0|]. specialize (W W0). rewrite <- EF in W. split; [lia|].
    apply S7. rewrite EB. destruct own; [cbn [length] in UO; lia|reflexivity]. }
  destruct (v_first v) eqn:EF1.
  - destruct (FI eq_refl) as (-> & M0 & HV). rewrite M0, HV. cbn [Nat.eqb negb andb].
    change (v_first (on_items remove_used v1)) with (v_first v). rewrite EF1. cbv beta iota zeta.
    match goal with |- context [d_l_changed (v_dec ?x)] => change (d_l_changed (v_dec x)) with (d_l_changed (v_dec v)) end. rewrite EC.
    match goal with |- context [l_auth (v_latest ?x)] => change (v_latest x) with (v_latest v) end.
    match goal with |- context [gs_lost (v_gs ?x)] => change (gs_lost (v_gs x)) with (gs_lost (v_gs v)) end.
    rewrite EA, EL0, E1. cbn [ar_n N.leb N.compare Pos.compare Pos.compare_cont orb].
    eexists _, (map (set_i_used false) a2). split; [reflexivity|]. split; [repeat split|]. split; [reflexivity|]. split; [apply rests_used, R|].
    split; [change (map (set_i_used false) l = map (set_i_used false) a2 ++ la ++ [set_i_used false (set_i_status SValid sei)]); unfold l; rewrite !map_app, (unused_same _ UL); reflexivity|].
    do 4 (split; [reflexivity|]).
    assert (VS : validation_str (map (set_i_used false) a2) = validation_str a2) by (unfold validation_str; rewrite map_map; reflexivity). rewrite VS.
    exists bs, m. destruct (FI eq_refl) as (W0 & _ & _). rewrite W0, M0. rewrite W0, M0 in *. split; [exact T|]. split; [exact W|]. split; [reflexivity|].
    split; [cbn; rewrite E2; reflexivity|]. split; [reflexivity|]. repeat (split; [assumption|]). assumption.
  - change (v_first (set_v_synced true (on_items remove_used v1))) with (v_first v). rewrite EF1. cbv beta iota zeta.
    match goal with |- context [d_l_changed (v_dec ?x)] => change (d_l_changed (v_dec x)) with (d_l_changed (v_dec v)) end. rewrite EC.
    match goal with |- context [l_auth (v_latest ?x)] => change (v_latest x) with (v_latest v) end.
    match goal with |- context [gs_lost (v_gs ?x)] => change (gs_lost (v_gs x)) with (gs_lost (v_gs v)) end.
    rewrite EA, EL0, E1. cbn [ar_n N.leb N.compare Pos.compare Pos.compare_cont orb].
    eexists _, (map (set_i_used false) a2). split; [reflexivity|]. split; [repeat split|]. split; [reflexivity|]. split; [apply rests_used, R|].
    split; [change (map (set_i_used false) l = map (set_i_used false) a2 ++ la ++ [set_i_used false (set_i_status SValid sei)]); unfold l; rewrite !map_app, (unused_same _ UL); reflexivity|].
    do 4 (split; [reflexivity|]).
    assert (VS : validation_str (map (set_i_used false) a2) = validation_str a2) by (unfold validation_str; rewrite map_map; reflexivity). rewrite VS.
    exists bs, m. split; [exact T|]. split; [exact W|].
    split; [cbn; destruct (wrong bs =? 0)%nat; cbn [negb]; [destruct (m =? 0)%nat; reflexivity|reflexivity]|].
    split; [cbn; rewrite E2; reflexivity|]. split; [reflexivity|]. repeat (split; [assumption|]). assumption.
Qed.
End List.

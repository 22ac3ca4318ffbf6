(** Matching received NALUs with a list of hashes: lemmas. *)
From Verif Require Import Base BaseProofs Nalu Crypto Types Hash Tlv VTypes NaluList Validator SignerProofs MatchSpec VListProofs.
From Coq Require Import Lia.
Local Open Scope N_scope.

(** *** Subsequences *)
Lemma subseq_refl {A} (l : list A) : subseq l l.
Proof. induction l; constructor; assumption. Qed.
Lemma subseq_app_r {A} (l m n : list A) : subseq l m -> subseq l (m ++ n).
Proof. induction 1; cbn; constructor; assumption. Qed.
Lemma subseq_app_l {A} (l m n : list A) : subseq l m -> subseq l (n ++ m).
Proof. intros H. induction n; [exact H|]. cbn. apply subseq_skip, IHn. Qed.
Lemma subseq_app {A} (l m l' m' : list A) : subseq l m -> subseq l' m' -> subseq (l ++ l') (m ++ m').
Proof. induction 1; intros H'; cbn; [apply subseq_app_l, H'|constructor; auto..]. Qed.
Lemma subseq_length {A} (l m : list A) : subseq l m -> (length l <= length m)%nat.
Proof. induction 1; cbn; lia. Qed.
Lemma subseq_snoc {A} (l : list A) x m : subseq (l ++ [x]) m -> exists m1 m2, m = m1 ++ x :: m2 /\ subseq l m1.
Proof.
  intros H. remember (l ++ [x]) as k eqn:E. revert l E. induction H as [m|a k m H IH|a k m H IH]; intros l E.
  - destruct l; discriminate.
  - destruct l as [|b l]; cbn in E; injection E as -> E.
    + exists [], m. split; [reflexivity|constructor].
    + destruct (IH l E) as (m1 & m2 & -> & HS). exists (b :: m1), m2. split; [reflexivity|constructor; exact HS].
  - destruct (IH l E) as (m1 & m2 & -> & HS). exists (a :: m1), m2. split; [reflexivity|apply subseq_skip, HS].
Qed.
Lemma subseq_in {A} (x : A) m : In x m -> subseq [x] m.
Proof. induction m as [|a m IH]; [contradiction|]. intros [->|H]; [apply subseq_take; constructor|apply subseq_skip, IH, H]. Qed.
Lemma subseq_prefix {A} (l l' m : list A) : subseq (l ++ l') m -> subseq l m.
Proof.
  intros H. remember (l ++ l') as k eqn:E. revert l E. induction H as [m|a k m H IH|a k m H IH]; intros l E.
  - destruct l; [constructor|discriminate].
  - destruct l as [|b l]; [constructor|]. cbn in E. injection E as -> E. constructor. apply IH, E.
  - apply subseq_skip, IH, E.
Qed.

(** *** The search *)
Lemma search_spec x exp : forall i j f, search x exp i = (j, f) ->
  if f then exists p q, exp = p ++ x :: q /\ ~ In x p /\ j = (i + Z.of_nat (length p))%Z else ~ In x exp /\ j = (i + Z.of_nat (length exp))%Z.
Proof.
  induction exp as [|e exp IH]; intros i j f; cbn [search].
  - intros H. injection H as <- <-. split; [intros []|cbn; lia].
  - destruct (bytes_eqb x e) eqn:E.
    + apply bytes_eqb_eq in E as ->. intros H. injection H as <- <-. exists [], exp. split; [reflexivity|]. split; [intros []|cbn; lia].
    + assert (NE : x <> e) by (intros ->; rewrite (proj2 (bytes_eqb_eq e e) eq_refl) in E; discriminate).
      intros H. apply IH in H. destruct f.
      * destruct H as (p & q & -> & H1 & ->). exists (e :: p), q. split; [reflexivity|]. split; [|cbn [length]; lia]. intros [H|H]; [congruence|contradiction].
      * destruct H as [H ->]. split; [|cbn [length]; lia]. intros [H2|H2]; [congruence|contradiction].
Qed.

(** The first [k] elements are the fewest that contain [P] as a subsequence. *)
Definition least (P E : list (list N)) (k : nat) : Prop :=
  (k <= length E)%nat /\ subseq P (firstn k E) /\ forall m, subseq P (firstn m E) -> (k <= m)%nat.
Lemma least_nil E : least [] E 0.
Proof. split; [lia|]. split; [constructor|]. intros; lia. Qed.
Lemma firstn_split {A} k (E p q : list A) x : (k <= length E)%nat -> skipn k E = p ++ x :: q -> firstn (k + length p) E = firstn k E ++ p /\ firstn (k + S (length p)) E = firstn k E ++ p ++ [x] /\ (k + S (length p) <= length E)%nat.
Proof.
  intros HK H. assert (E0 : E = firstn k E ++ p ++ x :: q) by (rewrite <- H; symmetry; apply firstn_skipn).
  assert (LF : length (firstn k E) = k) by (rewrite firstn_length; lia).
  assert (LE : length E = (k + length p + S (length q))%nat) by (rewrite E0, !app_length, LF; cbn; lia).
  set (F := firstn k E) in *. clearbody F. subst E. split; [|split; [|lia]].
  - replace (k + length p)%nat with (length (F ++ p)) by (rewrite app_length; lia). rewrite app_assoc, firstn_app, firstn_all, Nat.sub_diag. cbn. apply app_nil_r.
  - replace (F ++ p ++ x :: q) with ((F ++ p ++ [x]) ++ q) by (rewrite <- !app_assoc; reflexivity). replace (k + S (length p))%nat with (length (F ++ p ++ [x])) by (rewrite !app_length; cbn; lia).
    rewrite firstn_app, firstn_all, Nat.sub_diag. cbn. apply app_nil_r.
Qed.
Lemma least_hit P E k p x q : least P E k -> skipn k E = p ++ x :: q -> ~ In x p -> least (P ++ [x]) E (k + S (length p)).
Proof.
  intros (K1 & K2 & K3) HS HI. destruct (firstn_split k E p q x K1 HS) as (F1 & F2 & F3). split; [exact F3|]. split.
  - rewrite F2. apply subseq_app; [exact K2|]. apply subseq_app_l, subseq_refl.
  - intros m H. apply subseq_snoc in H as (m1 & m2 & E1 & H1).
    assert (E2 : m1 = firstn (length m1) E).
    { assert (E3 : firstn (length m1) (firstn m E) = m1) by (rewrite E1, firstn_app, firstn_all, Nat.sub_diag; cbn; apply app_nil_r). rewrite <- E3 at 1. rewrite firstn_firstn. f_equal.
      assert (length (m1 ++ x :: m2) <= m)%nat by (rewrite <- E1, firstn_length; lia). rewrite app_length in *. cbn in *. lia. }
    assert (K : (k <= length m1)%nat) by (apply K3; rewrite <- E2; exact H1).
    assert (LM : (S (length m1) <= m)%nat). { assert (length (m1 ++ x :: m2) <= m)%nat by (rewrite <- E1, firstn_length; lia). rewrite app_length in *. cbn in *. lia. }
    destruct (Nat.le_gt_cases (k + S (length p)) m) as [|HL]; [assumption|exfalso]. apply HI.
    (* x is at position length m1, between k and k + length p *)
    assert (NX : nth_error E (length m1) = Some x).
    { rewrite <- (firstn_skipn m E), E1. rewrite nth_error_app1 by (rewrite app_length; cbn; lia). rewrite nth_error_app2 by lia. rewrite Nat.sub_diag. reflexivity. }
    assert (NX2 : nth_error (skipn k E) (length m1 - k) = Some x).
    { rewrite <- (firstn_skipn k E) in NX. rewrite nth_error_app2 in NX by (rewrite firstn_length; lia). rewrite firstn_length in NX. replace (length m1 - Nat.min k (length E))%nat with (length m1 - k)%nat in NX by lia. exact NX. }
    rewrite HS in NX2. rewrite nth_error_app1 in NX2 by lia. eapply nth_error_In, NX2.
Qed.
Lemma least_iff P E k x : least P E k -> In x (skipn k E) <-> subseq (P ++ [x]) E.
Proof.
  intros (K1 & K2 & K3). split.
  - intros H. rewrite <- (firstn_skipn k E). apply subseq_app; [exact K2|apply subseq_in, H].
  - intros H. apply subseq_snoc in H as (m1 & m2 & E1 & H1).
    assert (K : (k <= length m1)%nat) by (apply K3; rewrite E1, firstn_app, firstn_all, Nat.sub_diag; cbn; rewrite app_nil_r; exact H1).
    rewrite E1, skipn_app. apply in_or_app. right. replace (k - length m1)%nat with O by lia. left. reflexivity.
Qed.

(** *** The loop *)
Section Loop.
Variable hs : nat.
Variable E : list (list N).
(** What the loop does with the NALUs before the SEI: index of the latest match, number of NALUs without a
    match since, order. *)
Inductive judge : Z -> Z -> bool -> list item -> Z -> Z -> bool -> list item -> Prop :=
| j_nil a i o : judge a i o [] a i o []
| j_skip a i o it l a' i' o' m : i_used it = false -> judge a i o l a' i' o' m -> judge a i o (it :: l) a' i' o' (it :: m)
| j_hit a i o it l a' i' o' m j : i_used it = true -> search (own_hash hs it) (skipn (Z.to_nat (a + 1)) E) (a + 1) = (j, true) ->
    judge j 0 true l a' i' o' m ->
    judge a i o (it :: l) a' i' o' (repeat missing_item (Z.to_nat (j - a - 1 - i)) ++ set_i_status (if o then SValid else SInvalid) it :: m)
| j_miss a i o it l a' i' o' m j : i_used it = true -> search (own_hash hs it) (skipn (Z.to_nat (a + 1)) E) (a + 1) = (j, false) ->
    judge a (i + 1) o l a' i' o' m ->
    judge a i o (it :: l) a' i' o' (set_i_status SInvalid it :: m).
Lemma loop_rest b : Forall (fun it => i_used it = false) b -> forall pos ps seen s, hl_loop hs E pos ps seen s b = Def (s, b).
Proof.
  induction 1 as [|it b H HB IH]; intros; cbn [hl_loop]; [reflexivity|]. rewrite H. cbn [negb]. rewrite orb_true_r. rewrite IH. reflexivity.
Qed.
Lemma loop_judge b : Forall (fun it => i_used it = false) b -> forall a pos s s' l',
  Forall to_compare a -> Forall (fun it => item_sei it && pending it = false) a ->
  hl_loop hs E pos false false s (a ++ b) = Def (s', l') ->
  exists m, l' = m ++ b /\ judge (h_latest s) (h_inv s) (h_order s) a (h_latest s') (h_inv s') (h_order s') m.
Proof.
  intros HB. induction a as [|it a IH]; intros pos s s' l' HC HS; cbn [app].
  - rewrite loop_rest by exact HB. intros H. injection H as <- <-. exists []. split; [reflexivity|constructor].
  - inversion HC as [|x y C1 C2]; subst. inversion HS as [|x y S1 S2]; subst. cbn [hl_loop]. rewrite <- andb_assoc, S1, andb_false_r. cbn [orb].
    destruct (i_used it) eqn:EU; cbn [negb].
    + destruct (C1 EU) as (P & n & EN & EG & EL). rewrite P, EN, EG. cbn [negb orb].
      replace (n_first_in_gop n && negb (i_linked it)) with false by (destruct (n_first_in_gop n); [rewrite EL by reflexivity; reflexivity|reflexivity]). cbv zeta.
      match goal with |- context [match ?q with Some _ => _ | None => _ end] => destruct q as [x|] eqn:EX end; [|discriminate].
      unfold read_hash. destruct (hs <=? length x)%nat; [|discriminate]. cbn [obind].
      assert (EO : own_hash hs it = firstn hs x). { unfold own_hash. rewrite EN. destruct (n_first_in_gop n); [rewrite EX; reflexivity|injection EX as ->; reflexivity]. }
      destruct (search _ _ _) as [j f] eqn:ES. rewrite <- EO in ES. destruct f.
      * destruct (hl_loop _ _ _ _ _ _ (a ++ b)) as [[s3 r2]|] eqn:EH; [|discriminate]. cbn [obind]. intros H. injection H as <- <-.
        apply IH in EH; [|assumption..]. destruct EH as (m & -> & J). cbn [h_latest h_inv h_order] in J.
        eexists. split; [|eapply j_hit; [exact EU|exact ES|exact J]]. rewrite <- app_assoc. reflexivity.
      * destruct (hl_loop _ _ _ _ _ _ (a ++ b)) as [[s3 r2]|] eqn:EH; [|discriminate]. cbn [obind]. intros H. injection H as <- <-.
        apply IH in EH; [|assumption..]. destruct EH as (m & -> & J). cbn [h_latest h_inv h_order] in J.
        eexists. split; [|eapply j_miss; [exact EU|exact ES|exact J]]. reflexivity.
    + rewrite orb_true_r. destruct (hl_loop _ _ _ _ _ _ (a ++ b)) as [[s3 r2]|] eqn:EH; [|discriminate]. cbn [obind]. intros H. injection H as <- <-.
      apply IH in EH; [|assumption..]. destruct EH as (m & -> & J). eexists. split; [|eapply j_skip; [exact EU|exact J]]. reflexivity.
Qed.

(** *** What follows for the NALUs compared *)
Lemma kept_app a b : kept (a ++ b) = kept a ++ kept b. Proof. apply filter_app. Qed.
Lemma cmp_app a b : cmp (a ++ b) = cmp a ++ cmp b. Proof. unfold cmp. rewrite filter_app, filter_app. reflexivity. Qed.
Lemma fresh_app a b : fresh (a ++ b) = (fresh a + fresh b)%nat. Proof. unfold fresh. rewrite filter_app, app_length. reflexivity. Qed.
Lemma kept_missing k : kept (repeat missing_item k) = []. Proof. induction k; [reflexivity|]. exact IHk. Qed.
Lemma cmp_missing k : cmp (repeat missing_item k) = []. Proof. unfold cmp. fold (kept (repeat missing_item k)). rewrite kept_missing. reflexivity. Qed.
Lemma fresh_missing k : fresh (repeat missing_item k) = k. Proof. unfold fresh. induction k; [reflexivity|]. cbn. f_equal. exact IHk. Qed.
Lemma own_status s it : own_hash hs (set_i_status s it) = own_hash hs it. Proof. reflexivity. Qed.

Definition real (it : item) : Prop := i_used it = true -> i_nalu it <> None.
Lemma real_new it : real it -> new_missing it = false.
Proof. unfold real, new_missing. destruct (i_nalu it); [reflexivity|]. destruct (i_used it); [|reflexivity]. intros H. exfalso. apply H; reflexivity. Qed.
Lemma real_status s it : real it -> new_missing (set_i_status s it) = false.
Proof. intros H. apply real_new in H. exact H. Qed.

Lemma judge_kept a i o l a' i' o' m : judge a i o l a' i' o' m -> Forall real l ->
  Forall2 (fun x y => if i_used x then y = set_i_status SValid x \/ y = set_i_status SInvalid x else y = x) l (kept m) /\
  length (cmp m) = length (filter i_used l).
Proof.
  induction 1 as [a i o|a i o it l a' i' o' m HU J IH|a i o it l a' i' o' m j HU HS J IH|a i o it l a' i' o' m j HU HS J IH]; intros HR.
  - split; [constructor|reflexivity].
  - inversion HR as [|x y R1 R2]; subst. destruct (IH R2) as [I1 I2]. unfold kept, cmp in *. cbn [filter]. rewrite (real_new it R1). cbn [negb filter]. rewrite HU. split; [constructor; [rewrite HU; reflexivity|exact I1]|exact I2].
  - inversion HR as [|x y R1 R2]; subst. destruct (IH R2) as [I1 I2]. rewrite kept_app, cmp_app, kept_missing, cmp_missing. cbn [app]. unfold kept, cmp in *. cbn [filter]. rewrite (real_status _ it R1). cbn [negb filter].
    change (i_used (set_i_status (if o then SValid else SInvalid) it)) with (i_used it). rewrite HU. cbn [length]. split; [|congruence]. constructor; [rewrite HU; destruct o; auto|exact I1].
  - inversion HR as [|x y R1 R2]; subst. destruct (IH R2) as [I1 I2]. unfold kept, cmp in *. cbn [filter]. rewrite (real_status _ it R1). cbn [negb filter].
    change (i_used (set_i_status SInvalid it)) with (i_used it). rewrite HU. cbn [length]. split; [|congruence]. constructor; [rewrite HU; auto|exact I1].
Qed.

Lemma judge_valid a i o l a' i' o' m : judge a i o l a' i' o' m -> o = true -> Forall real l ->
  forall P, (-1 <= a)%Z -> least P E (Z.to_nat (a + 1)) ->
  forall u x w, cmp m = u ++ x :: w -> is_valid x = true <-> subseq (P ++ map (own_hash hs) (filter is_valid u) ++ [own_hash hs x]) E.
Proof.
  induction 1 as [a i o|a i o it l a' i' o' m HU J IH|a i o it l a' i' o' m j HU HS J IH|a i o it l a' i' o' m j HU HS J IH]; intros HO HR P HA HP u x w HC.
  - destruct u; discriminate.
  - inversion HR as [|y z R1 R2]; subst. unfold cmp in HC. cbn [filter] in HC. rewrite (real_new it R1) in HC. cbn [negb filter] in HC. rewrite HU in HC. eapply IH; eauto.
  - inversion HR as [|y z R1 R2]; subst. rewrite cmp_app, cmp_missing in HC. cbn [app] in HC. unfold cmp in HC. cbn [filter] in HC. rewrite (real_status _ it R1) in HC. cbn [negb filter] in HC.
    change (i_used (set_i_status SValid it)) with (i_used it) in HC. rewrite HU in HC. apply search_spec in HS as (p & q & HE & HN & ->).
    destruct u as [|y u]; cbn [app] in HC; injection HC as E1 E2.
    + subst x. cbn [filter map app]. split; [|reflexivity]. intros _. rewrite own_status. apply (proj1 (least_iff P E _ _ HP)). rewrite HE. apply in_or_app. right. left. reflexivity.
    + subst y. cbn [filter]. change (is_valid (set_i_status SValid it)) with true. cbn [map app]. rewrite own_status.
      replace (P ++ own_hash hs it :: map (own_hash hs) (filter is_valid u) ++ [own_hash hs x]) with ((P ++ [own_hash hs it]) ++ map (own_hash hs) (filter is_valid u) ++ [own_hash hs x]) by (rewrite <- app_assoc; reflexivity).
      eapply IH; [reflexivity|exact R2|lia| |exact E2]. replace (Z.to_nat (a + 1 + Z.of_nat (length p) + 1)) with (Z.to_nat (a + 1) + S (length p))%nat by lia. eapply least_hit; eassumption.
  - inversion HR as [|y z R1 R2]; subst. unfold cmp in HC. cbn [filter] in HC. rewrite (real_status _ it R1) in HC. cbn [negb filter] in HC.
    change (i_used (set_i_status SInvalid it)) with (i_used it) in HC. rewrite HU in HC. apply search_spec in HS as [HN ->].
    destruct u as [|y u]; cbn [app] in HC; injection HC as E1 E2.
    + subst x. cbn [filter map app]. change (is_valid (set_i_status SInvalid it)) with false. split; [discriminate|]. intros HSub. rewrite own_status in HSub. exfalso. apply HN. apply (least_iff P E _ _ HP), HSub.
    + subst y. cbn [filter]. change (is_valid (set_i_status SInvalid it)) with false. cbv iota. eapply IH; eauto.
Qed.

Lemma judge_count a i o l a' i' o' m : judge a i o l a' i' o' m -> o = true -> Forall real l -> (-1 <= a < Z.of_nat (length E))%Z -> (0 <= i)%Z ->
  let V := Z.of_nat (length (filter is_valid (cmp m))) in let I := Z.of_nat (length (filter is_invalid (cmp m))) in let M := Z.of_nat (fresh m) in
  (M + V <= a' - a)%Z /\ (a' - a <= M + V + I + i - i')%Z /\ (-1 <= a' < Z.of_nat (length E))%Z /\ (0 <= i')%Z /\ (a' = a -> M = 0 /\ V = 0 /\ i' = i + I)%Z /\ (a' <> a -> 0 < V)%Z.
Proof.
  induction 1 as [a i o|a i o it l a' i' o' m HU J IH|a i o it l a' i' o' m j HU HS J IH|a i o it l a' i' o' m j HU HS J IH]; intros HO HR HA HI.
  - cbn. lia.
  - inversion HR as [|y z R1 R2]; subst. specialize (IH eq_refl R2 HA HI). unfold fresh, cmp in *. cbn [filter]. rewrite (real_new it R1). cbn [negb filter]. rewrite HU. exact IH.
  - inversion HR as [|y z R1 R2]; subst. rewrite cmp_app, cmp_missing, fresh_app, fresh_missing. cbn [app]. unfold cmp. unfold fresh at 1 2 3. cbn [filter]. rewrite (real_status _ it R1). cbn [negb filter].
    change (i_used (set_i_status SValid it)) with (i_used it). rewrite HU. cbn [filter]. change (is_valid (set_i_status SValid it)) with true. change (is_invalid (set_i_status SValid it)) with false. cbv iota. cbn [length].
    apply search_spec in HS as (p & q & HE & HN & ->). assert (LE : length (skipn (Z.to_nat (a + 1)) E) = (length p + S (length q))%nat) by (rewrite HE, app_length; reflexivity). rewrite skipn_length in LE.
    specialize (IH eq_refl R2 ltac:(lia) ltac:(lia)). cbv zeta in IH. unfold cmp, fresh in IH. lia.
  - inversion HR as [|y z R1 R2]; subst. unfold fresh, cmp in *. cbn [filter]. rewrite (real_status _ it R1). cbn [negb filter].
    change (i_used (set_i_status SInvalid it)) with (i_used it). rewrite HU. cbn [filter]. change (is_valid (set_i_status SInvalid it)) with false. change (is_invalid (set_i_status SInvalid it)) with true. cbv iota. cbn [length].
    specialize (IH eq_refl R2 HA ltac:(lia)). cbv zeta in IH. lia.
Qed.
(** Counters of the loop. *)
Definition sane (s : hlst) : Prop :=
  (h_last s = None -> h_latest s = -1)%Z /\ (-1 <= h_latest s < Z.of_nat (length E))%Z /\ (0 <= h_inv s)%Z /\ (h_latest s <> -1 -> (h_latest s = h_compare s <-> h_inv s = 0))%Z /\ (h_compare s <> -1)%Z.
Lemma loop_sane l : forall pos ps seen s, sane s -> holds (hl_loop hs E pos ps seen s l) (fun '(s', _) => sane s') (fun _ => True).
Proof.
  induction l as [|it l IH]; intros pos ps seen s HS; cbn [hl_loop]; [exact HS|]. cbv zeta.
  dif; [apply holds_bind; eapply holds_impl; [apply IH, HS| |auto]; intros [s1 r] H; exact H|].
  destruct (i_nalu it) as [n|]; [|exact I]. destruct HS as (S1 & S2 & S3 & S4 & S5). dif; [cbn [holds]; repeat split; cbn; try tauto; try lia; try (intros; congruence); try (apply S4; assumption)|].
  match goal with |- context [match ?q with Some _ => _ | None => _ end] => destruct q as [x|] end; [|exact I].
  apply holds_bind. destruct (read_hash hs x) as [y|]; [|exact I]. cbn [holds]. destruct (search y _ _) as [j f] eqn:ES. apply search_spec in ES. destruct f.
  - destruct ES as (p & q & HE & HN & ->). assert (LE : length (skipn (Z.to_nat (h_latest s + 1)) E) = (length p + S (length q))%nat) by (rewrite HE, app_length; reflexivity). rewrite skipn_length in LE.
    assert (HS2 : forall k, sane (mkHl (h_latest s + 1 + Z.of_nat (length p)) (h_latest s + 1 + Z.of_nat (length p)) 0 (h_num s + 1) true (Some k))).
    { intros k. repeat split; cbn; try lia; try discriminate. }
    apply holds_bind. dif; [cbn; apply HS2|]. eapply holds_impl; [apply IH, HS2| |auto]. intros [s1 r] H. exact H.
  - destruct ES as [HN ->]. rewrite skipn_length.
    assert (HS2 : forall k, sane (mkHl (h_latest s) (h_latest s + 1 + Z.of_nat (length E - Z.to_nat (h_latest s + 1))) (h_inv s + 1) (h_num s + 1) (h_order s) (Some k))).
    { intros k. repeat split; cbn; try lia; try discriminate. }
    apply holds_bind. dif; [cbn; apply HS2|]. eapply holds_impl; [apply IH, HS2| |auto]. intros [s1 r] H. exact H.
Qed.
Lemma loop_num b : Forall (fun it => i_used it = false) b -> forall a pos s s' l',
  Forall to_compare a -> Forall (fun it => item_sei it && pending it = false) a ->
  hl_loop hs E pos false false s (a ++ b) = Def (s', l') -> h_num s' = (h_num s + Z.of_nat (length (filter i_used a)))%Z.
Proof.
  intros HB. induction a as [|it a IH]; intros pos s s' l' HC HS; cbn [app].
  - rewrite loop_rest by exact HB. intros H. injection H as <- <-. cbn. lia.
  - inversion HC as [|x y C1 C2]; subst. inversion HS as [|x y S1 S2]; subst. cbn [hl_loop filter]. rewrite <- andb_assoc, S1, andb_false_r. cbn [orb].
    destruct (i_used it) eqn:EU; cbn [negb].
    + destruct (C1 EU) as (P & n & EN & EG & EL). rewrite P, EN, EG. cbn [negb orb].
      replace (n_first_in_gop n && negb (i_linked it)) with false by (destruct (n_first_in_gop n); [rewrite EL by reflexivity; reflexivity|reflexivity]). cbv zeta.
      match goal with |- context [match ?q with Some _ => _ | None => _ end] => destruct q as [x|] eqn:EX end; [|discriminate].
      destruct (read_hash hs x) as [y|]; [|discriminate]. cbn [obind]. destruct (search _ _ _) as [j f] eqn:ES. cbn [length].
      destruct f; (destruct (hl_loop _ _ _ _ _ _ (a ++ b)) as [[s3 r2]|] eqn:EH; [|discriminate]; cbn [obind]; intros H; injection H as <- <-; apply IH in EH; [|assumption..]; cbn [h_num] in EH; lia).
    + rewrite orb_true_r. destruct (hl_loop _ _ _ _ _ _ (a ++ b)) as [[s3 r2]|] eqn:EH; [|discriminate]. cbn [obind]. intros H. injection H as <- <-. eapply IH; eassumption.
Qed.
End Loop.

(** *** The whole comparison *)
Lemma chunks_app hs E : forall rest, (0 < hs)%nat -> Forall (fun e => length e = hs) E -> chunks (length E) hs (concat E ++ rest) = E.
Proof.
  induction E as [|e E IH]; intros rest H0 HE; [reflexivity|]. inversion HE as [|x y E1 E2]; subst. cbn [length chunks concat]. rewrite <- app_assoc.
  rewrite firstn_app, firstn_all, Nat.sub_diag, skipn_app, skipn_all, Nat.sub_diag. cbn [firstn skipn app]. rewrite app_nil_r. f_equal. apply IH; assumption.
Qed.
Lemma concat_len hs (E : list (list N)) : Forall (fun e => length e = hs) E -> length (concat E) = (length E * hs)%nat.
Proof. induction 1 as [|e E H HE IH]; [reflexivity|]. cbn [concat length]. rewrite app_length, IH, H. lia. Qed.
Lemma expected_is v E rest : d_list (v_dec v) = concat E ++ rest -> Forall (fun e => length e = vhs v) E -> (length rest < vhs v)%nat -> expected_hashes v = E.
Proof.
  intros H1 H2 H3. unfold expected_hashes. rewrite H1, app_length, (concat_len (vhs v)) by exact H2.
  rewrite Nat.div_add_l by lia. rewrite (Nat.div_small (length rest)) by exact H3. rewrite Nat.add_0_r. apply chunks_app; [lia|exact H2].
Qed.
Lemma add_missing_parts num ap pos l : exists x y, l = x ++ y /\ add_missing num ap pos l = x ++ repeat missing_item (Z.to_nat num) ++ y.
Proof. unfold add_missing. do 2 eexists. split; [|reflexivity]. symmetry. apply firstn_skipn. Qed.
Lemma add_kept num ap pos l : kept (add_missing num ap pos l) = kept l.
Proof. destruct (add_missing_parts num ap pos l) as (x & y & -> & ->). rewrite !kept_app, kept_missing. reflexivity. Qed.
Lemma add_cmp num ap pos l : cmp (add_missing num ap pos l) = cmp l.
Proof. unfold cmp. fold (kept (add_missing num ap pos l)) (kept l). rewrite add_kept. reflexivity. Qed.
Lemma add_fresh num ap pos l : fresh (add_missing num ap pos l) = (Z.to_nat num + fresh l)%nat.
Proof. destruct (add_missing_parts num ap pos l) as (x & y & -> & ->). rewrite !fresh_app, fresh_missing. lia. Qed.
Lemma sei_nalu a : item_sei a = true -> i_nalu a <> None.
Proof. unfold item_sei. destruct (i_nalu a); [discriminate|discriminate]. Qed.
Lemma on_kept l : Forall2 was_sei (kept l) (kept (on_next_sei (set_i_status SValid) l)).
Proof.
  assert (R : forall l, Forall2 was_sei l l) by (intros m; induction m; constructor; [left; reflexivity|assumption]).
  induction l as [|it l IH]; [constructor|]. cbn [on_next_sei]. destruct (item_sei it && pending it) eqn:E.
  - apply andb_prop in E as [E1 E2]. unfold kept. cbn [filter]. change (new_missing (set_i_status SValid it)) with (new_missing it). destruct (new_missing it); cbn [negb]; [apply R|]. constructor; [right; auto|apply R].
  - unfold kept in *. cbn [filter]. destruct (negb (new_missing it)); [|exact IH]. constructor; [left; reflexivity|exact IH].
Qed.
Lemma on_fresh l : fresh (on_next_sei (set_i_status SValid) l) = fresh l.
Proof.
  unfold fresh. induction l as [|it l IH]; [reflexivity|]. cbn [on_next_sei]. destruct (item_sei it && pending it) eqn:E; cbn [filter].
  - change (new_missing (set_i_status SValid it)) with (new_missing it). destruct (new_missing it); reflexivity.
  - destruct (new_missing it); cbn [length]; congruence.
Qed.
(** No pending SEI among the compared ones. *)
Lemma on_cmp l : Forall (fun it => i_used it = true -> pending it = false) l -> cmp (on_next_sei (set_i_status SValid) l) = cmp l.
Proof.
  unfold cmp. induction 1 as [|it l H HL IH]; [reflexivity|]. cbn [on_next_sei]. destruct (item_sei it && pending it) eqn:E.
  - apply andb_prop in E as [E1 E2]. cbn [filter]. change (new_missing (set_i_status SValid it)) with (new_missing it). destruct (negb (new_missing it)); [|reflexivity].
    cbn [filter]. change (i_used (set_i_status SValid it)) with (i_used it). destruct (i_used it) eqn:EU; [rewrite H in E2 by reflexivity; discriminate|reflexivity].
  - cbn [filter]. destruct (negb (new_missing it)); [|exact IH]. cbn [filter]. destruct (i_used it); congruence.
Qed.
Lemma judge_done hs E a i o l a' i' o' m : judge hs E a i o l a' i' o' m -> Forall (fun it => i_used it = true -> pending it = false) m.
Proof.
  induction 1 as [a i o|a i o it l a' i' o' m HU J IH|a i o it l a' i' o' m j HU HS J IH|a i o it l a' i' o' m j HU HS J IH].
  - constructor.
  - constructor; [congruence|exact IH].
  - apply Forall_app. split; [|constructor; [destruct o; reflexivity|exact IH]]. apply Forall_forall. intros x HX. apply repeat_spec in HX as ->. reflexivity.
  - constructor; [reflexivity|exact IH].
Qed.
Lemma add_done num ap pos l : Forall (fun it => i_used it = true -> pending it = false) l -> Forall (fun it => i_used it = true -> pending it = false) (add_missing num ap pos l).
Proof.
  destruct (add_missing_parts num ap pos l) as (x & y & -> & ->). rewrite !Forall_app. intros [H1 H2]. split; [exact H1|]. split; [|exact H2].
  apply Forall_forall. intros z HX. apply repeat_spec in HX as ->. reflexivity.
Qed.
Lemma cmp_unused b : Forall (fun it => i_used it = false) b -> cmp b = [] /\ kept b = b /\ fresh b = O.
Proof.
  induction 1 as [|it b H HB (I1 & I2 & I3)]; [repeat split|]. unfold cmp, kept, fresh in *. cbn [filter]. assert (EN : new_missing it = false) by (unfold new_missing; destruct (i_nalu it); [reflexivity|exact H]). rewrite EN. cbn [negb filter]. rewrite H. repeat split; [assumption|congruence|assumption].
Qed.
Lemma real_of a : Forall to_compare a -> Forall real a.
Proof. apply Forall_impl. intros it H U. destruct (H U) as (_ & n & -> & _). discriminate. Qed.

Lemma verify_list_spec v o v' ok ex rc E rest :
  ready (v_items v) -> next_sei (v_items v) <> None -> vhs v <> O ->
  d_list (v_dec v) = concat E ++ rest -> Forall (fun e => length e = vhs v) E -> (length rest < vhs v)%nat ->
  verify_list v o = Def (v', ok, ex, rc) ->
  let l := v_items v' in let h := own_hash (vhs v) in
  let V := length (filter is_valid (cmp l)) in let I := length (filter is_invalid (cmp l)) in let M := fresh l in
  Forall2 verdict_of (v_items v) (kept l) /\
  ok = true /\ ex = Z.of_nat (length E) /\ rc = Z.of_nat (length (cmp l)) /\ length (cmp l) = (V + I)%nat /\
  (o = true ->
   (forall u x w, cmp l = u ++ x :: w -> is_valid x = true <-> subseq (map h (filter is_valid u) ++ [h x]) E) /\
   (M + V <= length E /\ (I = 0 -> M + V = length E) /\ (V = 0 -> M + I >= length E))%nat).
Proof.
  intros (a & b & EL & HC & HS & HB) HN H0 HE1 HE2 HE3 HV l h V I M. unfold verify_list in HV. destruct (vhs v =? 0)%nat eqn:E0; [apply Nat.eqb_eq in E0; lia|]. clear E0.
  rewrite (expected_is v E rest HE1 HE2 HE3) in HV. destruct (next_sei (v_items v)) as [q|] eqn:EQ; [|congruence]. clear HN.
  destruct (hl_loop _ _ _ _ _ _ _) as [[s l1]|] eqn:EH; [|discriminate]. cbn [obind] in HV. rewrite EL in EH.
  pose proof (loop_num _ _ b HB _ _ _ _ _ HC HS EH) as HNum. cbn [h_num] in HNum.
  pose proof (loop_judge _ _ b HB _ _ _ _ _ HC HS EH) as (m & -> & J). cbn [h_latest h_inv h_order] in J.
  destruct (judge_kept _ _ _ _ _ _ _ _ _ _ J (real_of _ HC)) as [JK JL]. pose proof (judge_done _ _ _ _ _ _ _ _ _ _ J) as JD.
  destruct (cmp_unused b HB) as (B1 & B2 & B3).
  assert (BD : Forall (fun it => i_used it = true -> pending it = false) b) by (eapply Forall_impl; [|exact HB]; cbn; congruence).
  assert (HS0 : sane E s).
  { pose proof (loop_sane (vhs v) E (a ++ b) 0 false false (mkHl (-1) 0 0 0 o None)) as LS. rewrite EH in LS. apply LS. unfold sane; cbn; lia. }
  destruct HS0 as (S1 & S2 & S3 & S4 & S5).
  (* the missing items *)
  set (num := Z.of_nat (length E)) in *.
  assert (HX : exists l2 k, v' = set_v_items (on_next_sei (set_i_status SValid) l2) v /\ ok = true /\ ex = num /\ rc = h_num s /\
    kept l2 = kept m ++ b /\ cmp l2 = cmp m /\ fresh l2 = (k + fresh m)%nat /\ Forall (fun it => i_used it = true -> pending it = false) l2 /\
    k = (if (h_latest s =? -1)%Z then Z.to_nat (num - h_inv s) else if (h_latest s =? h_compare s)%Z then Z.to_nat (num - 1 - h_latest s) else O)).
  { assert (K0 : kept (m ++ b) = kept m ++ b) by (rewrite kept_app, B2; reflexivity). assert (C0 : cmp (m ++ b) = cmp m) by (rewrite cmp_app, B1, app_nil_r; reflexivity).
    assert (F0 : fresh (m ++ b) = fresh m) by (rewrite fresh_app, B3; lia). assert (D0 : Forall (fun it => i_used it = true -> pending it = false) (m ++ b)) by (apply Forall_app; auto).
    destruct (h_latest s =? -1)%Z eqn:E1.
    - destruct (m ++ b) as [|it mb] eqn:EM; [discriminate|]. cbn [obind] in HV. replace (h_latest s =? h_compare s)%Z with false in HV by lia. injection HV as <- <- <- <-.
      do 2 eexists. split; [reflexivity|]. do 3 (split; [reflexivity|]). split; [rewrite add_kept; exact K0|]. split; [rewrite add_cmp; exact C0|]. split; [rewrite add_fresh, F0; reflexivity|]. split; [apply add_done, D0|reflexivity].
    - cbn [obind] in HV. destruct (h_latest s =? h_compare s)%Z eqn:E2.
      + destruct (h_last s) as [k|] eqn:E3; [|specialize (S1 eq_refl); lia]. injection HV as <- <- <- <-.
        do 2 eexists. split; [reflexivity|]. do 3 (split; [reflexivity|]). split; [rewrite add_kept; exact K0|]. split; [rewrite add_cmp; exact C0|]. split; [rewrite add_fresh, F0; reflexivity|]. split; [apply add_done, D0|reflexivity].
      + injection HV as <- <- <- <-. exists (m ++ b), O. split; [reflexivity|]. do 3 (split; [reflexivity|]). split; [exact K0|]. split; [exact C0|]. split; [rewrite F0; reflexivity|]. split; [exact D0|reflexivity]. }
  destruct HX as (l2 & k & -> & -> & -> & -> & K2 & C2 & F2 & D2 & Hk).
  assert (EC : cmp l = cmp m) by (unfold l; cbn [v_items set_v_items]; rewrite on_cmp by exact D2; exact C2).
  assert (EF : fresh l = (k + fresh m)%nat) by (unfold l; cbn [v_items set_v_items]; rewrite on_fresh; exact F2).
  assert (VI : length (cmp m) = (length (filter is_valid (cmp m)) + length (filter is_invalid (cmp m)))%nat).
  { clear - JK. unfold cmp. fold (kept m). revert JK. generalize (kept m). induction 1 as [|x y l1 l2 H HF IH]; [reflexivity|]. cbn [filter]. destruct (i_used x) eqn:EU.
    - destruct H as [->| ->]; change (i_used (set_i_status _ x)) with (i_used x); rewrite EU; cbn [filter is_valid is_invalid set_i_status i_status vstat_eqb length]; cbn [length]; lia.
    - subst y. rewrite EU. exact IH. }
  split; [|split; [reflexivity|split; [reflexivity|split; [rewrite EC, JL, HNum; lia|split; [unfold V, I; rewrite EC; exact VI|]]]]].
  - pose proof (on_kept l2) as OK. unfold l. cbn [v_items set_v_items]. rewrite EL. rewrite K2 in OK.
    assert (JB : Forall2 (fun x y => if i_used x then y = set_i_status SValid x \/ y = set_i_status SInvalid x else y = x) (a ++ b) (kept m ++ b)).
    { apply Forall2_app; [exact JK|]. clear - HB. induction HB as [|x b H HB IH]; constructor; [rewrite H; reflexivity|exact IH]. }
    clear - JB OK. revert JB OK. generalize (kept (on_next_sei (set_i_status SValid) l2)). generalize (kept m ++ b). generalize (a ++ b). intros p q r H1. revert r.
    induction H1 as [|x y p q H H1 IH]; intros r H2; inversion H2 as [|y' z q' r' H3 H4]; subst; constructor; [|apply IH, H4]. unfold verdict_of. destruct (i_used x).
    + destruct H as [->| ->]; (destruct H3 as [->|(_ & E & _)]; [auto|discriminate]).
    + subst y. exact H3.
  - intros ->. split.
    + intros u x w HW. rewrite EC in HW. apply (judge_valid _ _ _ _ _ _ _ _ _ _ J eq_refl (real_of _ HC) [] ltac:(lia) (least_nil _) _ _ _ HW).
    + pose proof (judge_count _ _ _ _ _ _ _ _ _ _ J eq_refl (real_of _ HC) ltac:(lia) ltac:(lia)) as JC. cbv zeta in JC. unfold V, I, M. rewrite EC, EF. subst num.
      destruct (h_latest s =? -1)%Z eqn:E1; [lia|]. destruct (h_latest s =? h_compare s)%Z eqn:E2; subst k; lia.
Qed.

(** *** When the linked hash is wrong *)
Lemma spoil_app a b : Forall (fun it => i_used it = true -> is_valid it = false) a -> spoil (a ++ b) = a ++ spoil b.
Proof.
  induction 1 as [|x a H HA IH]; [reflexivity|]. cbn [app spoil]. destruct (i_used x); [rewrite H by reflexivity|]; cbn [andb]; rewrite IH; reflexivity.
Qed.
Lemma spoil_none l : Forall (fun it => i_used it = true -> is_valid it = false) l -> spoil l = l.
Proof. intros H. rewrite <- (app_nil_r l) at 1. rewrite spoil_app by exact H. apply app_nil_r. Qed.
Lemma missing_not_valid k : Forall (fun it => i_used it = true -> is_valid it = false) (repeat missing_item k).
Proof. apply Forall_forall. intros x HX. apply repeat_spec in HX as ->. reflexivity. Qed.
Definition disorder (s : hlst) : hlst := mkHl (h_latest s) (h_compare s) (h_inv s) (h_num s) false (h_last s).
Lemma loop_false hs E b : Forall (fun it => i_used it = false) b -> forall a pos s s' l',
  Forall to_compare a -> Forall (fun it => item_sei it && pending it = false) a -> h_order s = true ->
  hl_loop hs E pos false false s (a ++ b) = Def (s', l') ->
  exists s2, hl_loop hs E pos false false (disorder s) (a ++ b) = Def (s2, spoil l') /\ disorder s2 = disorder s'.
Proof.
  intros HB. induction a as [|it a IH]; intros pos s s' l' HC HS HO; cbn [app].
  - rewrite !loop_rest by exact HB. intros H. injection H as <- <-. exists (disorder s). rewrite spoil_none; [split; reflexivity|]. eapply Forall_impl; [|exact HB]. cbn. congruence.
  - inversion HC as [|x y C1 C2]; subst. inversion HS as [|x y S1 S2]; subst. cbn [hl_loop]. rewrite <- andb_assoc, S1, andb_false_r. cbn [orb].
    destruct (i_used it) eqn:EU; cbn [negb].
    + destruct (C1 EU) as (P & n & EN & EG & EL). rewrite P, EN, EG. cbn [negb orb].
      replace (n_first_in_gop n && negb (i_linked it)) with false by (destruct (n_first_in_gop n); [rewrite EL by reflexivity; reflexivity|reflexivity]). cbv zeta.
      match goal with |- context [match ?q with Some _ => _ | None => _ end] => destruct q as [x|] eqn:EX end; [|discriminate].
      destruct (read_hash hs x) as [y|]; [|discriminate]. cbn [obind]. cbn [disorder h_latest h_compare h_inv h_num h_order h_last]. destruct (search _ _ _) as [j f] eqn:ES. rewrite HO.
      destruct f.
      * destruct (hl_loop _ _ _ _ _ _ (a ++ b)) as [[s3 r2]|] eqn:EH; [|discriminate]. cbn [obind]. intros H. injection H as <- <-. eexists. split; [|reflexivity]. rewrite spoil_app by apply missing_not_valid.
        cbn [spoil]. change (i_used (set_i_status SValid it)) with (i_used it). rewrite EU. reflexivity.
      * destruct (hl_loop _ _ _ _ _ _ (a ++ b)) as [[s3 r2]|] eqn:EH; [|discriminate]. cbn [obind]. intros H. injection H as <- <-.
        pose proof (fun K => IH _ _ _ _ C2 S2 K EH) as IH2. destruct (IH2 eq_refl) as (s2 & E2 & D2). unfold disorder in E2. cbn [h_latest h_compare h_inv h_num h_order h_last] in E2. rewrite E2. cbn [obind]. eexists. split; [|exact D2].
        cbn [spoil]. change (is_valid (set_i_status SInvalid it)) with false. rewrite andb_false_r. reflexivity.
    + rewrite orb_true_r. destruct (hl_loop _ _ _ _ _ s (a ++ b)) as [[s3 r2]|] eqn:EH; [|discriminate]. cbn [obind]. intros H. injection H as <- <-.
      destruct (IH _ _ _ _ C2 S2 HO EH) as (s2 & E2 & D2). rewrite E2. cbn [obind]. exists s2. split; [|exact D2]. cbn [spoil]. rewrite EU. reflexivity.
Qed.
Lemma spoil_missing num ap pos l : spoil (add_missing num ap pos l) = add_missing num ap pos (spoil l).
Proof.
  unfold add_missing. generalize (if ap then S pos else pos). clear ap pos. intros k. revert k. induction l as [|it l IH]; intros k.
  - destruct k; cbn [firstn skipn app spoil]; rewrite !app_nil_r, spoil_none by apply missing_not_valid; reflexivity.
  - destruct k as [|k].
    + cbn [firstn skipn app]. rewrite spoil_app by apply missing_not_valid. reflexivity.
    + cbn [firstn skipn app spoil]. destruct (i_used it && is_valid it).
      * cbn [firstn skipn app]. reflexivity.
      * cbn [firstn skipn app]. rewrite IH. reflexivity.
Qed.
Lemma spoil_on l : spoil (on_next_sei (set_i_status SValid) l) = on_next_sei (set_i_status SValid) (spoil l) \/ exists it, In it l /\ i_used it = true /\ pending it = true.
Proof.
  induction l as [|it l [IH|IH]]; [left; reflexivity| |right; destruct IH as (x & H & K); exists x; split; [right; exact H|exact K]].
  cbn [on_next_sei spoil]. destruct (item_sei it && pending it) eqn:E1.
  - apply andb_prop in E1 as [E1 E2]. destruct (i_used it) eqn:EU; [right; exists it; split; [left; reflexivity|auto]|]. left.
    cbn [spoil on_next_sei andb]. change (i_used (set_i_status SValid it)) with (i_used it). rewrite EU, E1, E2. reflexivity.
  - left. cbn [spoil]. destruct (i_used it && is_valid it) eqn:E2.
    + cbn [on_next_sei]. change (item_sei (set_i_status SInvalid it)) with (item_sei it). change (pending (set_i_status SInvalid it)) with false. rewrite andb_false_r. reflexivity.
    + cbn [on_next_sei]. rewrite E1. rewrite IH. reflexivity.
Qed.
Lemma spoil_front num l :
  match spoil l with [] => Undef NullDeref | it :: _ => Def (add_missing num (match i_second it with Some _ => true | None => false end) 0 (spoil l)) end =
  match l with [] => Undef NullDeref | it :: _ => Def (spoil (add_missing num (match i_second it with Some _ => true | None => false end) 0 l)) end.
Proof. destruct l as [|it l]; [reflexivity|]. rewrite spoil_missing. cbn [spoil]. destruct (i_used it && is_valid it); reflexivity. Qed.
Lemma verify_list_spoil v v' ok ex rc : ready (v_items v) -> next_sei (v_items v) <> None -> verify_list v true = Def (v', ok, ex, rc) ->
  verify_list v false = Def (set_v_items (spoil (v_items v')) v', ok, ex, rc).
Proof.
  intros (a & b & EL & HC & HS & HB) HN HV. unfold verify_list in *. destruct (vhs v =? 0)%nat; [discriminate|]. destruct (next_sei (v_items v)) as [q|] eqn:EQ; [|congruence].
  destruct (hl_loop _ _ _ _ _ _ _) as [[s l1]|] eqn:EH; [|discriminate]. cbn [obind] in HV. rewrite EL in EH |- *.
  pose proof (fun K => loop_false _ _ b HB _ _ _ _ _ HC HS K EH) as LF. destruct (LF eq_refl) as (s2 & EF & DD). unfold disorder in EF at 1. cbn [h_latest h_compare h_inv h_num h_last] in EF. rewrite EF. cbn [obind]. unfold disorder in DD. injection DD as D1 D2 D3 D4 D5. rewrite D1, D2, D3, D4, D5.
  destruct (loop_judge _ _ b HB _ _ _ _ _ HC HS EH) as (m & -> & J). pose proof (judge_done _ _ _ _ _ _ _ _ _ _ J) as JD.
  assert (D0 : Forall (fun it => i_used it = true -> pending it = false) (m ++ b)) by (apply Forall_app; split; [exact JD|eapply Forall_impl; [|exact HB]; cbn; congruence]).
  assert (FIN : forall l2, Forall (fun it => i_used it = true -> pending it = false) l2 -> on_next_sei (set_i_status SValid) (spoil l2) = spoil (on_next_sei (set_i_status SValid) l2)).
  { intros l2 HD. destruct (spoil_on l2) as [H|(x & X1 & X2 & X3)]; [auto|]. rewrite Forall_forall in HD. rewrite (HD x X1 X2) in X3. discriminate. }
  clear EF EH J LF. set (num := Z.of_nat (length (expected_hashes v))) in *.
  set (G := fun l : list item => if (h_latest s =? h_compare s)%Z then match h_last s with Some k => add_missing (num - 1 - h_latest s) true k l | None => l end else l) in *.
  assert (HG : forall l, Forall (fun it => i_used it = true -> pending it = false) l -> G (spoil l) = spoil (G l) /\ Forall (fun it => i_used it = true -> pending it = false) (G l)).
  { intros l HL. unfold G. destruct (h_latest s =? h_compare s)%Z; [|auto]. destruct (h_last s) as [k|]; [|auto]. rewrite spoil_missing. split; [reflexivity|apply add_done, HL]. }
  assert (CL : forall l, Forall (fun it => i_used it = true -> pending it = false) l ->
     Def (set_v_items (on_next_sei (set_i_status SValid) (G l)) v, true, num, h_num s) = Def (v', ok, ex, rc) ->
     Def (set_v_items (on_next_sei (set_i_status SValid) (G (spoil l))) v, true, num, h_num s) = Def (set_v_items (spoil (v_items v')) v', ok, ex, rc)).
  { intros l HL H. destruct (HG l HL) as [G1 G2]. injection H as <- <- <- <-. rewrite G1, FIN by exact G2. reflexivity. }
  destruct (h_latest s =? -1)%Z eqn:E1.
  - rewrite spoil_front. destruct (m ++ b) as [|it r] eqn:EM; [discriminate|]. cbn [obind] in *. apply CL; [apply add_done, D0|exact HV].
  - cbn [obind] in *. apply CL; [exact D0|exact HV].
Qed.

(** *** The marks of the NALUs to compare *)
Definition starts (it : item) : bool := i_used it && match i_nalu it with Some n => n_first_in_gop n | None => false end.
Definition marked_ok (it : item) : Prop := i_used it = true -> pending it = true /\ exists n, i_nalu it = Some n /\ n_gop_sei n = false.
Definition quiet (it : item) : Prop := item_sei it && pending it = false.
Lemma gop_loop_ready hs l : forall h is num h' l' st, Forall (fun it => i_used it = false) l -> (is <= 1)%nat ->
  gop_loop hs h is num l = Def (h', l', st) ->
  exists a b, l' = a ++ b /\ Forall (fun it => i_used it = false) b /\ Forall quiet a /\ Forall marked_ok a /\ (length (filter starts a) + is <= 1)%nat.
Proof.
  induction l as [|it l IH]; intros h is num h' l' st HU HI H; cbn [gop_loop] in H.
  - injection H as <- <- <-. exists [], []. split; [reflexivity|]. split; [constructor|]. split; [constructor|]. split; [constructor|cbn; lia].
  - inversion HU as [|x y U1 U2]; subst. assert (END : forall l', l' = it :: l -> exists a b, l' = a ++ b /\ Forall (fun it => i_used it = false) b /\ Forall quiet a /\ Forall marked_ok a /\ (length (filter starts a) + is <= 1)%nat).
    { intros l0 ->. exists [], (it :: l). split; [reflexivity|]. split; [exact HU|]. split; [constructor|]. split; [constructor|cbn; lia]. }
    destruct (pending it) eqn:EP; cbn [negb] in H.
    + destruct (i_nalu it) as [n|] eqn:EN; [|discriminate]. cbv zeta in H.
      destruct (1 <? if n_first_in_gop n then S is else is)%nat eqn:E1; [injection H as <- <- <-; apply END; reflexivity|].
      destruct (n_first_in_gop n && (0 <? num)%nat); [injection H as <- <- <-; apply END; reflexivity|].
      destruct (n_gop_sei n) eqn:EG; [injection H as <- <- <-; apply END; reflexivity|].
      match type of H with context [match ?q with Some _ => _ | None => _ end] => destruct q as [x|] end; [|injection H as <- <- <-; apply END; reflexivity].
      destruct (read_hash hs x) as [y|]; [|discriminate]. cbn [obind] in H. destruct (update_hash true y h) as [h1 st1]. destruct (is_ok st1); cbn [negb] in H; [|injection H as <- <- <-; apply END; reflexivity].
      destruct (gop_loop _ _ _ _ l) as [[[h2 r2] st2]|] eqn:EL; [|discriminate]. cbn [obind] in H. injection H as <- <- <-.
      apply IH in EL as (a & b & -> & B1 & B2 & B3 & B4); [|exact U2|apply Nat.ltb_ge in E1; exact E1].
      exists (set_i_used true it :: a), b. split; [reflexivity|]. split; [exact B1|]. split; [constructor; [|exact B2]; unfold quiet, item_sei; cbn; rewrite EN, EG; reflexivity|].
      split; [constructor; [|exact B3]; intros _; split; [exact EP|exists n; auto]|].
      assert (ES : starts (set_i_used true it) = n_first_in_gop n) by (unfold starts; cbn; rewrite EN; reflexivity). cbn [filter]. rewrite ES. revert B4. destruct (n_first_in_gop n); cbn [length]; lia.
    + destruct (gop_loop _ _ _ _ l) as [[[h2 r2] st2]|] eqn:EL; [|discriminate]. cbn [obind] in H. injection H as <- <- <-.
      apply IH in EL as (a & b & -> & B1 & B2 & B3 & B4); [|exact U2|exact HI]. exists (it :: a), b. split; [reflexivity|]. split; [exact B1|].
      split; [constructor; [unfold quiet; rewrite EP; apply andb_false_r|exact B2]|]. split; [constructor; [intros K; congruence|exact B3]|]. assert (ES : starts it = false) by (unfold starts; rewrite U1; reflexivity). cbn [filter]. rewrite ES. exact B4.
Qed.
Lemma find_link_spec l : forall o, find_link l = Def o ->
  match o with
  | Some k => exists p x q, l = p ++ x :: q /\ length p = k /\ starts x = true /\ Forall (fun it => starts it = false) p
  | None => Forall (fun it => starts it = false) l
  end.
Proof.
  induction l as [|it l IH]; intros o H; cbn [find_link] in H; [injection H as <-; constructor|].
  assert (STEP : starts it = false -> (do o <- find_link l; Def (option_map S o)) = Def o ->
     match o with Some k => exists p x q, it :: l = p ++ x :: q /\ length p = k /\ starts x = true /\ Forall (fun it => starts it = false) p | None => Forall (fun it => starts it = false) (it :: l) end).
  { intros HS K. destruct (find_link l) as [o1|]; [|discriminate]. cbn [obind] in K. injection K as <-. specialize (IH _ eq_refl). destruct o1 as [k|]; cbn [option_map].
    - destruct IH as (p & x & q & -> & E2 & E3 & E4). exists (it :: p), x, q. repeat split; cbn; auto.
    - constructor; assumption. }
  destruct (i_used it) eqn:EU.
  - destruct (i_nalu it) as [n|] eqn:EN; [|discriminate]. destruct (n_first_in_gop n) eqn:EF.
    + injection H as <-. exists [], it, l. repeat split; [|constructor]. unfold starts. rewrite EU, EN, EF. reflexivity.
    + apply STEP; [|exact H]. unfold starts. rewrite EU, EN, EF. reflexivity.
  - apply STEP; [|exact H]. unfold starts. rewrite EU. reflexivity.
Qed.
Lemma filter_none {A} (f : A -> bool) l : filter f l = [] -> Forall (fun x => f x = false) l.
Proof. induction l as [|x l IH]; intros H; [constructor|]. cbn in H. destruct (f x) eqn:E; [discriminate|]. constructor; [exact E|apply IH, H]. Qed.
Lemma update_link_ready a b v v' : v_items v = a ++ b -> Forall (fun it => i_used it = false) b -> Forall quiet a -> Forall marked_ok a -> (length (filter starts a) <= 1)%nat ->
  update_link v = Def v' -> ready (v_items v').
Proof.
  intros EL HB HQ HM HF H. unfold update_link in H. destruct (find_link (v_items v)) as [o|] eqn:EF; [|discriminate]. cbn [obind] in H. apply find_link_spec in EF.
  assert (TC : forall it, marked_ok it -> (starts it = false \/ i_linked it = true) -> to_compare it).
  { intros it M S U. destruct (M U) as (P & n & EN & EG). split; [exact P|]. exists n. split; [exact EN|]. split; [exact EG|]. intros F. destruct S as [S|S]; [|exact S]. unfold starts in S. rewrite U, EN, F in S. discriminate. }
  destruct o as [k|].
  - destruct EF as (p & x & q & EP & EK & ES & EN). rewrite EP in H. rewrite <- EK in H. rewrite nth_error_app2, Nat.sub_diag in H by lia. cbn [nth_error] in H.
    (* x is in a *)
    assert (XA : exists a2, a = p ++ x :: a2 /\ q = a2 ++ b).
    { rewrite EL in EP. clear - EP HB ES. revert a EP. induction p as [|y p IH]; intros a EP.
      - destruct a as [|z a]; cbn [app] in EP.
        + exfalso. destruct b as [|z b]; [discriminate|]. injection EP as -> ->. inversion HB as [|? ? U1 U2]; subst. unfold starts in ES. rewrite U1 in ES. discriminate.
        + injection EP as -> <-. exists a. auto.
      - destruct a as [|z a]; cbn [app] in EP.
        + exfalso. assert (IX : In x b) by (rewrite EP; right; apply in_or_app; right; left; reflexivity). rewrite Forall_forall in HB. unfold starts in ES. rewrite (HB x IX) in ES. discriminate.
        + injection EP as -> EP. destruct (IH a EP) as (a2 & -> & E2). exists a2. auto. }
    destruct XA as (a2 & -> & ->). apply Forall_app in HQ as [Q1 Q2]. inversion Q2 as [|? ? Q3 Q4]; subst. apply Forall_app in HM as [M1 M2]. inversion M2 as [|? ? M3 M4]; subst.
    assert (S2 : Forall (fun it => starts it = false) a2).
    { rewrite filter_app, app_length in HF. cbn [filter] in HF. rewrite ES in HF. cbn [length] in HF. apply filter_none. destruct (filter starts a2); [reflexivity|cbn in HF; lia]. }
    assert (CP : Forall to_compare p) by (apply Forall_forall; intros y HY; rewrite Forall_forall in M1, EN; apply TC; auto).
    assert (C2 : Forall to_compare a2) by (apply Forall_forall; intros y HY; rewrite Forall_forall in M4, S2; apply TC; auto).
    destruct (i_linked x) eqn:EX.
    + injection H as <-. rewrite EP. exists (p ++ x :: a2), b. split; [rewrite <- app_assoc; reflexivity|]. split; [apply Forall_app; split; [exact CP|constructor; [apply TC; auto|exact C2]]|]. split; [apply Forall_app; auto|exact HB].
    + destruct (update_links v (i_second x)) as [v2|] eqn:EU; [|discriminate]. cbn [obind] in H. injection H as <-.
      assert (EV : v_items v2 = p ++ x :: a2 ++ b).
      { rewrite <- EP. unfold update_links in EU. destruct (i_second x) as [h|]; [|injection EU as <-; reflexivity]. destruct (read_hash _ h) as [y|]; [|discriminate]. cbn [obind] in EU. destruct (shift_linked _ _ _) as [z|]; [|discriminate]. cbn [obind] in EU. injection EU as <-. reflexivity. }
      unfold on_items. cbn [v_items set_v_items]. rewrite EV. unfold set_nth. rewrite skipn_app, skipn_all, Nat.sub_diag, firstn_app, firstn_all, Nat.sub_diag. cbn [skipn firstn app]. rewrite app_nil_r.
      exists (p ++ set_i_linked true x :: a2), b. split; [rewrite <- app_assoc; reflexivity|]. split; [apply Forall_app; split; [exact CP|constructor; [apply TC; [exact M3|right; reflexivity]|exact C2]]|]. split; [apply Forall_app; split; [exact Q1|constructor; [exact Q3|exact Q4]]|exact HB].
  - injection H as <-. rewrite EL in *. apply Forall_app in EF as [EF _]. exists a, b. split; [reflexivity|]. split; [|auto]. apply Forall_forall. intros y HY. rewrite Forall_forall in HM, EF. apply TC; auto.
Qed.
Section Prep.
Variable C : crypto.
Variable Ov : ovf.
Lemma on_unmarked f l : (forall it, i_used (f it) = i_used it) -> Forall (fun it => i_used it = false) l -> Forall (fun it => i_used it = false) (on_next_sei f l).
Proof. intros HF. induction 1 as [|it l H HL IH]; [constructor|]. cbn [on_next_sei]. destruct (_ && _); constructor; try assumption. rewrite HF. exact H. Qed.
Lemma prepare_gop_ready v v' st : Forall (fun it => i_used it = false) (v_items v) -> prepare_gop C v = Def (v', st) -> is_ok st = true ->
  exists a b, v_items v' = a ++ b /\ Forall (fun it => i_used it = false) b /\ Forall quiet a /\ Forall marked_ok a /\ (length (filter starts a) <= 1)%nat.
Proof.
  intros HU H HS. unfold prepare_gop in H. destruct (gop_loop _ _ _ _ _) as [[[h l] st1]|] eqn:EG; [|discriminate]. cbn [obind] in H. apply gop_loop_ready in EG as (a & b & EL & B1 & B2 & B3 & B4); [|exact HU|lia].
  destruct (is_ok st1) eqn:E1; cbn [negb] in H; [|injection H as <- <-; congruence]. destruct (finalize_hash _ _ _) as [[h2 st2] x]. destruct (is_ok st2) eqn:E2; cbn [negb] in H; [|injection H as <- <-; congruence].
  destruct (put_at _ _ _) as [y|]; [|discriminate]. cbn [obind] in H. injection H as <- <-. exists a, b. split; [exact EL|]. repeat split; try assumption. lia.
Qed.
Lemma verify_hash_items v : v_items (fst (verify_hash C v)) = v_items v.
Proof. unfold verify_hash. destruct (d_sig _); [|reflexivity]. destruct (d_vkey _); [|reflexivity]. dif; reflexivity. Qed.
Lemma detect_items v v' : detect_lost Ov v = Def v' -> v_items v' = v_items v.
Proof.
  unfold detect_lost. cbv zeta. destruct (add_int64 _ _ _) as [x|]; [|discriminate]. cbn [obind]. match goal with |- obind ?A _ = _ -> _ => destruct A as [y|]; [|discriminate] end. cbn [obind]. intros H. injection H as <-. reflexivity.
Qed.
Lemma decode_items v n v' st : decode_sei C Ov v n = Def (v', st) -> v_items v' = v_items v.
Proof.
  unfold decode_sei. destruct (tlv_decode _ _ _ _) as [[d std]|]; [|discriminate]. cbn [obind]. cbv zeta. destruct (is_ok std); cbn [negb]; [|intros H; injection H as <- <-; reflexivity].
  destruct (detect_lost Ov _) as [z|] eqn:EZ; [|discriminate]. cbn [obind]. apply detect_items in EZ. intros H. injection H as <- <-. destruct (_ && _); exact EZ.
Qed.
Lemma prepare_ready v v1 v2 st : Forall (fun it => i_used it = false) (v_items v) -> prepare C Ov v = Def (v1, st) -> is_ok st = true -> update_link v1 = Def v2 -> ready (v_items v2).
Proof.
  intros HU HP HS HL. unfold prepare in HP. cbv zeta in HP.
  assert (FIN : exists a b, v_items v1 = a ++ b /\ Forall (fun it => i_used it = false) b /\ Forall quiet a /\ Forall marked_ok a /\ (length (filter starts a) <= 1)%nat).
  2:{ destruct FIN as (a & b & E & B1 & B2 & B3 & B4). eapply update_link_ready; eassumption. }
  match type of HP with obind ?A _ = _ => destruct A as [[w stw]|] eqn:EA; [|discriminate] end. cbn [obind] in HP.
  destruct (is_ok stw) eqn:EW; cbn [negb] in HP; [|injection HP as <- <-; congruence].
  assert (EI : v_items v1 = v_items w). { destruct (_ && _); [injection HP as <- <-; reflexivity|]. destruct (gs_sei _); [|injection HP as <- <-; reflexivity]. rewrite <- (verify_hash_items w). injection HP as HP. rewrite HP. reflexivity. }
  rewrite EI. clear EI HP HL HS.
  destruct (next_sei (v_items v)) as [it|]; [|injection EA as <- <-; exists [], (v_items v); split; [reflexivity|]; split; [exact HU|]; split; [constructor|]; split; [constructor|cbn; lia]].
  destruct (i_nalu it) as [n|]; [|discriminate].
  match type of EA with obind ?A _ = _ => destruct A as [[x stx]|] eqn:EX; [|discriminate] end. cbn [obind] in EA.
  destruct (is_ok stx) eqn:ES; cbn [negb] in EA; [|injection EA as <- <-; congruence].
  assert (XU : Forall (fun it => i_used it = false) (v_items x)).
  { destruct (i_decoded it); [injection EX as <- <-; exact HU|]. destruct (decode_sei _ _ _ _) as [[y sty]|] eqn:ED; [|discriminate]. cbn [obind] in EX. assert (EY : v_items y = v_items v).
    { apply decode_items in ED. exact ED. }
    destruct (is_ok sty); cbn [negb] in EX; [|injection EX as <- <-; rewrite EY; exact HU]. destruct (read_hash _ _); [|discriminate]. cbn [obind] in EX. destruct (put_at _ _ _); [|discriminate]. cbn [obind] in EX. injection EX as <- <-.
    cbn [set_v_hash v_items on_items set_v_items]. apply on_unmarked; [reflexivity|]. rewrite EY. exact HU. }
  destruct (detect_lost Ov x) as [z|] eqn:EZ; [|discriminate]. cbn [obind] in EA. assert (ZI : v_items z = v_items x).
  { apply detect_items, EZ. }
  rewrite <- ZI in XU. eapply prepare_gop_ready; eassumption.
Qed.
End Prep.
Lemma match_thm C Ov v0 v1 v2 v3 ok expected received E rest :
  Forall (fun it => i_used it = false) (v_items v0) ->
  prepare C Ov v0 = Def (v1, SV_OK) -> update_link v1 = Def v2 -> next_sei (v_items v2) <> None ->
  d_list (v_dec v2) = concat E ++ rest -> Forall (fun e => length e = vhs v2) E -> (length rest < vhs v2)%nat ->
  verify_list v2 true = Def (v3, ok, expected, received) ->
  let l := v_items v3 in let h := own_hash (vhs v2) in
  let authentic := length (filter is_valid (cmp l)) in let wrong := length (filter is_invalid (cmp l)) in
  let missing := fresh l in
  Forall2 verdict_of (v_items v2) (kept l) /\
  (forall u x w, cmp l = u ++ x :: w -> is_valid x = true <-> subseq (map h (filter is_valid u) ++ [h x]) E) /\
  length (cmp l) = (authentic + wrong)%nat /\
  (missing + authentic <= length E)%nat /\
  (wrong = 0 -> missing + authentic = length E)%nat /\
  (authentic = 0 -> missing + wrong >= length E)%nat /\
  ok = true /\ expected = Z.of_nat (length E) /\ received = Z.of_nat (length (cmp l)).
Proof.
  intros HU HP HL HN E1 E2 E3 HV. pose proof (prepare_ready C Ov v0 v1 v2 SV_OK HU HP eq_refl HL) as HR.
  assert (H0 : vhs v2 <> O) by lia.
  destruct (verify_list_spec v2 true v3 ok expected received E rest HR HN H0 E1 E2 E3 HV) as (A & B & D & F & G & K). destruct (K eq_refl) as (K1 & K2 & K3 & K4).
  cbv zeta. repeat split; try assumption; try (apply K1; fail). all: eapply K1; eassumption.
Qed.
Lemma spoil_thm C Ov v0 v1 v2 v3 ok expected received :
  Forall (fun it => i_used it = false) (v_items v0) ->
  prepare C Ov v0 = Def (v1, SV_OK) -> update_link v1 = Def v2 -> next_sei (v_items v2) <> None ->
  verify_list v2 true = Def (v3, ok, expected, received) ->
  verify_list v2 false = Def (set_v_items (spoil (v_items v3)) v3, ok, expected, received).
Proof. intros HU HP HL HN HV. apply verify_list_spoil; [exact (prepare_ready C Ov v0 v1 v2 SV_OK HU HP eq_refl HL)|exact HN|exact HV]. Qed.

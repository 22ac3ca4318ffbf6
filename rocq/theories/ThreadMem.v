(** The central signing thread with lists in place of arrays of pointers. *)
From Coq Require Import Permutation.
From Verif Require Import Base BaseProofs Crypto Signer SessProofs PlugTypes Plugin Threaded PlugSpec PlugProofs ThreadSpec.

(** ** Memory of the two buffers *)
Section Mem.
Variables (hs max : nat).

Definition body (s : hslot) : option nat * nat := (hs_ptr s, hs_size s).
Definition sized (b : option nat * nat) : Prop := fst b <> None -> snd b = hs.
Definition bodies_ok (h : heap) (ins : list (option nat * nat)) (outs : list (option nat)) : Prop :=
  NoDup (ptrs fst ins ++ ptrs (fun x => x) outs) /\ owned fst hs h ins /\ owned (fun x => x) max h outs /\ Forall sized ins.
Definition mem_ok (h : heap) (ins : list hslot) (outs : list sslot) : Prop := bodies_ok h (map body ins) (map ss_ptr outs).

Lemma ptrs_map {A B} (f : B -> option nat) (g : A -> B) l : ptrs f (map g l) = ptrs (fun x => f (g x)) l.
Proof. unfold ptrs. induction l; cbn; [reflexivity|]. f_equal. exact IHl. Qed.
Lemma ptrs_perm {A} (f : A -> option nat) l l' : Permutation l l' -> Permutation (ptrs f l) (ptrs f l').
Proof. intros P. unfold ptrs. apply Permutation_flat_map. exact P. Qed.

Lemma mem_perm h ins outs ins' outs' : Permutation (map body ins) (map body ins') -> Permutation (map ss_ptr outs) (map ss_ptr outs') ->
  mem_ok h ins outs -> mem_ok h ins' outs'.
Proof.
  intros P1 P2 (N & O1 & O2 & S1). split; [|split; [|split]].
  - eapply Permutation_NoDup; [|exact N]. apply Permutation_app; apply ptrs_perm; assumption.
  - eapply Permutation_Forall; eassumption.
  - eapply Permutation_Forall; eassumption.
  - eapply Permutation_Forall; eassumption.
Qed.

Lemma nth_fresh {A} (h : list A) : nth_error h (length h) = None.
Proof. apply nth_error_None. lia. Qed.

(** The same blocks with the same sizes. *)
Definition shape (h h' : heap) : Prop := forall j b, nth_error h j = Some b -> exists b', nth_error h' j = Some b' /\ length b' = length b.
Lemma owned_shape {A} (f : A -> option nat) n h h' l : shape h h' -> owned f n h l -> owned f n h' l.
Proof.
  intros S O. eapply Forall_impl; [|exact O]. cbn. intros x H p E. destruct (H p E) as (b & N & L). destruct (S p b N) as (b' & N' & L'). exists b'. split; [exact N'|congruence].
Qed.
Lemma mem_shape h h' ins outs : shape h h' -> mem_ok h ins outs -> mem_ok h' ins outs.
Proof. intros S (N & O1 & O2 & S1). split; [exact N|]. split; [|split; [|exact S1]]; eapply owned_shape; eassumption. Qed.
Lemma store_shape h p b d h' : nth_error h p = Some b -> (length d <= length b)%nat -> store h (Some p) d = Def h' -> shape h h'.
Proof.
  intros E L S. destruct (store_ok h p b d E L) as (h2 & E2 & N2 & AG). rewrite S in E2. injection E2 as <-.
  intros j b' N. destruct (Nat.eq_dec j p) as [->|NE]; [|exists b'; split; [apply AG; assumption|reflexivity]].
  rewrite E in N. injection N as <-. eexists. split; [exact N2|]. rewrite app_length, skipn_length. lia.
Qed.
Lemma calloc_shape h n h' p : calloc h n = (h', p) -> shape h h'.
Proof. intros E. destruct (calloc_agree _ _ _ _ E) as (-> & _ & AG). intros j b N. exists b. split; [|reflexivity]. apply (AG (length h)); [|exact N]. intros ->. rewrite nth_fresh in N. discriminate. Qed.

(** Giving a slot its memory. *)
Lemma mem_alloc_in h a s b outs id id' h' p : mem_ok h (a ++ s :: b) outs -> hs_ptr s = None -> calloc h hs = (h', p) -> hs_id s = id ->
  mem_ok h' (a ++ mkHslot (Some p) hs id' :: b) outs.
Proof.
  intros M E CA _. pose proof (calloc_shape _ _ _ _ CA) as SH. destruct (calloc_agree _ _ _ _ CA) as (-> & NB & AG). pose proof (mem_shape _ _ _ _ SH M) as (N & O1 & O2 & S1).
  destruct M as (_ & P1 & P2 & _). unfold mem_ok. rewrite map_app in *. cbn [map] in *.
  assert (F1 : ~ In (length h) (ptrs fst (map body a ++ body s :: map body b))) by (apply (owned_fresh fst hs); exact P1).
  assert (F2 : ~ In (length h) (ptrs (fun x => x) (map ss_ptr outs))) by (apply (owned_fresh (fun x => x) max); exact P2).
  split; [|split; [|split]].
  - rewrite ptrs_app in *. cbn [ptrs flat_map body fst hs_ptr hs_size] in *. rewrite E in *. cbn [app] in *. fold (ptrs fst (map body b)) in *.
    rewrite <- app_assoc in *. cbn [app].
    apply NoDup_Add with (a := length h) (l := ptrs fst (map body a) ++ (ptrs fst (map body b) ++ ptrs (fun x => x) (map ss_ptr outs))); [apply Add_app|].
    split; [exact N|]. intros H. rewrite app_assoc in H. apply in_app_or in H as [H|H]; auto.
  - apply Forall_app in O1 as [Oa Ob]. apply Forall_cons_iff in Ob as [_ Ob]. apply Forall_app. split; [exact Oa|]. constructor; [|exact Ob].
    intros p Ep. cbn in Ep. injection Ep as <-. exists (zeros hs). split; [exact NB|apply repeat_length].
  - exact O2.
  - apply Forall_app in S1 as [Oa Ob]. apply Forall_cons_iff in Ob as [_ Ob]. apply Forall_app. split; [exact Oa|]. constructor; [|exact Ob]. intros _. reflexivity.
Qed.
Lemma mem_alloc_out h a s b ins h' p z er id : mem_ok h ins (a ++ s :: b) -> ss_ptr s = None -> calloc h max = (h', p) ->
  mem_ok h' ins (a ++ mkSslot (Some p) z er id :: b).
Proof.
  intros M E CA. pose proof (calloc_shape _ _ _ _ CA) as SH. destruct (calloc_agree _ _ _ _ CA) as (-> & NB & AG). pose proof (mem_shape _ _ _ _ SH M) as (N & O1 & O2 & S1).
  destruct M as (_ & P1 & P2 & _). unfold mem_ok. rewrite map_app in *. cbn [map] in *.
  assert (F1 : ~ In (length h) (ptrs fst (map body ins))) by (apply (owned_fresh fst hs); exact P1).
  assert (F2 : ~ In (length h) (ptrs (fun x => x) (map ss_ptr a ++ ss_ptr s :: map ss_ptr b))) by (apply (owned_fresh (fun x => x) max); exact P2).
  split; [|split; [exact O1|split; [|exact S1]]].
  - rewrite ptrs_app in *. cbn [ptrs flat_map ss_ptr] in *. rewrite E in *. cbn [app] in *. fold (ptrs (fun x : option nat => x) (map ss_ptr b)) in *.
    rewrite app_assoc in *. apply NoDup_Add with (a := length h) (l := (ptrs fst (map body ins) ++ ptrs (fun x => x) (map ss_ptr a)) ++ ptrs (fun x => x) (map ss_ptr b)); [apply Add_app|].
    split; [exact N|]. intros H. rewrite <- app_assoc in H. apply in_app_or in H as [H|H]; auto.
  - apply Forall_app in O2 as [Oa Ob]. apply Forall_cons_iff in Ob as [_ Ob]. apply Forall_app. split; [exact Oa|]. constructor; [|exact Ob].
    intros p Ep. cbn in Ep. injection Ep as <-. exists (zeros max). split; [exact NB|apply repeat_length].
Qed.

(** What a pointer of a slot is not. *)
Lemma mem_sep_in h a s b outs p : mem_ok h (a ++ s :: b) outs -> hs_ptr s = Some p ->
  ~ In p (ptrs hs_ptr a) /\ ~ In p (ptrs ss_ptr outs) /\ exists blk, nth_error h p = Some blk /\ length blk = hs /\ hs_size s = hs.
Proof.
  intros (N & O1 & _ & S1) E. rewrite map_app, ptrs_app in N. cbn [map ptrs flat_map body fst] in N. rewrite E in N. cbn [app] in N. fold (ptrs fst (map body b)) in N.
  rewrite !ptrs_map in N. cbn [body fst] in N. rewrite <- app_assoc in N. cbn [app] in N. apply NoDup_remove_2 in N.
  split; [|split].
  - intros H. apply N, in_or_app. left. exact H.
  - intros H. apply N, in_or_app. right. apply in_or_app. right. exact H.
  - rewrite map_app in O1, S1. apply Forall_app in O1 as [_ O1]. apply Forall_app in S1 as [_ S1]. cbn [map] in *. apply Forall_cons_iff in O1 as [O1 _]. apply Forall_cons_iff in S1 as [S1 _].
    destruct (O1 p E) as (blk & NB & L). exists blk. split; [exact NB|]. split; [exact L|]. apply S1. cbn. congruence.
Qed.
Lemma mem_sep_out h ins a s b p : mem_ok h ins (a ++ s :: b) -> ss_ptr s = Some p ->
  ~ In p (ptrs hs_ptr ins) /\ ~ In p (ptrs ss_ptr a) /\ exists blk, nth_error h p = Some blk /\ length blk = max.
Proof.
  intros (N & _ & O2 & _) E. rewrite map_app, ptrs_app in N. cbn [map ptrs flat_map] in N. rewrite E in N. cbn [app] in N. fold (ptrs (fun x : option nat => x) (map ss_ptr b)) in N.
  rewrite !ptrs_map in N. cbn [body fst] in N. rewrite app_assoc in N. apply NoDup_remove_2 in N.
  split; [|split].
  - intros H. apply N. rewrite <- app_assoc. apply in_or_app. left. exact H.
  - intros H. apply N. rewrite <- app_assoc. apply in_or_app. right. apply in_or_app. left. exact H.
  - rewrite map_app in O2. apply Forall_app in O2 as [_ O2]. cbn [map] in *. apply Forall_cons_iff in O2 as [O2 _].
    destruct (O2 p E) as (blk & NB & L). exists blk. auto.
Qed.
End Mem.

(** ** The loops of buffer_reset *)
Section Purge.
Context {A : Type} (id_of : A -> N) (reset : A -> A).
Definition other (id : N) (x : A) : bool := negb (id_of x =? id)%N.
Lemma purge_ok id : id <> 0%N -> (forall x, id_of (reset x) = 0%N) -> forall fuel xs pre ys,
  Forall (fun x => id_of x = 0%N) ys -> (length pre + length xs + length ys = 60)%nat -> (2 * length xs + length ys <= fuel)%nat ->
  purge id_of reset fuel (length pre) id (pre ++ xs ++ ys) (length pre + length xs) =
    Def ((pre ++ filter (other id) xs) ++ ys ++ map reset (filter (fun x => negb (other id x)) xs), (length pre + length (filter (other id) xs))%nat).
Proof.
  intros NZ RZ. induction fuel as [|fuel IH]; intros xs pre ys Z L F.
  - destruct xs; cbn in F; [|lia]. destruct ys; cbn in F; [|lia]. cbn in L. cbn [purge]. change max_buffer with 60%nat. destruct (Nat.ltb_spec (length pre) 60) as [X|_]; [lia|].
    cbn. rewrite !app_nil_r. reflexivity.
  - cbn [purge]. change max_buffer with 60%nat. destruct (Nat.ltb_spec (length pre) 60) as [X|X].
    2:{ destruct xs; cbn in L; [|lia]. destruct ys; cbn in L; [|lia]. cbn. rewrite !app_nil_r. reflexivity. }
    destruct xs as [|x xs].
    + cbn [app]. destruct ys as [|y ys]; [cbn in L; lia|]. rewrite at_mid by reflexivity. cbn [obind]. apply Forall_cons_iff in Z as [Zy Z]. rewrite Zy.
      destruct (N.eqb_spec 0 id) as [E|_]; [congruence|].
      specialize (IH [] (pre ++ [y]) ys Z). cbn [app length filter map] in *. rewrite !app_length, <- !app_assoc in IH. cbn [app length] in IH. replace (S (length pre)) with (length pre + 1)%nat by lia.
      assert (E0 : (length pre + 0 = length pre)%nat) by lia.
      (* idx stays below i: generalise *)
      clear IH. rewrite app_nil_r. rewrite E0. clear E0.
      assert (G : forall fuel2 ys2 pre2 idx, Forall (fun x => id_of x = 0%N) ys2 -> (length pre2 + length ys2 = 60)%nat -> (length ys2 <= fuel2)%nat ->
        purge id_of reset fuel2 (length pre2) id (pre2 ++ ys2) idx = Def (pre2 ++ ys2, idx)).
      { clear -NZ. induction fuel2 as [|f2 IH2]; intros ys2 pre2 idx Z L F.
        - destruct ys2; cbn in F; [|lia]. cbn in L. cbn [purge]. change max_buffer with 60%nat. destruct (Nat.ltb_spec (length pre2) 60); [lia|reflexivity].
        - cbn [purge]. change max_buffer with 60%nat. destruct (Nat.ltb_spec (length pre2) 60) as [X|X]; [|reflexivity].
          destruct ys2 as [|y ys2]; [cbn in L; lia|]. rewrite at_mid by reflexivity. cbn [obind]. apply Forall_cons_iff in Z as [Zy Z]. rewrite Zy.
          destruct (N.eqb_spec 0 id) as [E|_]; [congruence|].
          specialize (IH2 ys2 (pre2 ++ [y]) idx Z). rewrite app_length, <- app_assoc in IH2. cbn [length app] in IH2. replace (S (length pre2)) with (length pre2 + 1)%nat by lia.
          apply IH2; cbn in *; lia. }
      specialize (G fuel ys (pre ++ [y]) (length pre) Z). rewrite app_length, <- app_assoc in G. cbn [length app] in G. rewrite app_nil_r. apply G; cbn in *; lia.
    + cbn [app]. rewrite at_mid by reflexivity. cbn [obind filter].
      assert (OX : other id x = negb (id_of x =? id)%N) by reflexivity. rewrite !OX. clear OX. destruct (N.eqb_spec (id_of x) id) as [E|NE]; cbn [negb].
      * rewrite firstn_app, Nat.sub_diag, firstn_all. cbn [firstn]. rewrite app_nil_r.
        replace (skipn (S (length pre)) (pre ++ x :: xs ++ ys)) with (xs ++ ys).
        2:{ rewrite skipn_app. rewrite (skipn_all2 pre) by lia. replace (S (length pre) - length pre)%nat with 1%nat by lia. reflexivity. }
        destruct (Nat.ltb_spec (length pre) (length pre + length (x :: xs))) as [_|Y]; [|cbn in Y; lia].
        replace (length pre + length (x :: xs) - 1)%nat with (length pre + length xs)%nat by (cbn; lia).
        rewrite <- app_assoc. rewrite IH.
        -- cbn [map]. rewrite <- !app_assoc. reflexivity.
        -- apply Forall_app. split; [exact Z|]. constructor; [apply RZ|constructor].
        -- rewrite app_length. cbn in *. lia.
        -- rewrite app_length. cbn in *. lia.
      * specialize (IH xs (pre ++ [x]) ys Z). rewrite app_length, <- !app_assoc in IH. cbn [length app] in *.
        replace (length pre + S (length xs))%nat with (length pre + 1 + length xs)%nat by lia. replace (S (length pre)) with (length pre + 1)%nat by lia.
        rewrite IH by lia. rewrite <- !app_assoc. cbn [app]. f_equal. f_equal. lia.
Qed.

Lemma purge_perm {B} (g : A -> B) id xs ys : (forall x, g (reset x) = g x) ->
  Permutation (map g (xs ++ ys)) (map g (filter (other id) xs ++ ys ++ map reset (filter (fun x => negb (other id x)) xs))).
Proof.
  intros R. rewrite !map_app, map_map. rewrite (map_ext (fun x => g (reset x)) g R).
  assert (P : Permutation (map g xs) (map g (filter (other id) xs) ++ map g (filter (fun x => negb (other id x)) xs))).
  { induction xs as [|x xs IH]; [constructor|]. cbn [filter map]. destruct (other id x); cbn [negb map app].
    - constructor. exact IH.
    - apply Permutation_cons_app. exact IH. }
  rewrite P, <- app_assoc. apply Permutation_app_head. apply Permutation_app_comm.
Qed.

Lemma filter_rep {B} (R : A -> B -> Prop) (f : A -> bool) (g : B -> bool) a b : (forall x y, R x y -> f x = g y) -> Forall2 R a b -> Forall2 R (filter f a) (filter g b).
Proof. intros H F. induction F as [|x y a b HR F IH]; [constructor|]. cbn [filter]. rewrite (H x y HR). destruct (g y); [constructor; assumption|exact IH]. Qed.
End Purge.

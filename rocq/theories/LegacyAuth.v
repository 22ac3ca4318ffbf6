(** What is reported authentic in a recording of an older version is authentic: the steps of a validation. *)
From Verif Require Import Base BaseProofs Epb Nalu Crypto Types Hash Tlv TlvProofs CodecSpec SignerProofs VTypes NaluList Validator VListProofs
  VFrameProofs ValidSpec MatchSpec BookProofs VAuthProofs VKeyProofs VTerm AuthSpec AuthDec AuthProofs LegacyTypes Legacy LegacyAuthSpec.
From Verif Require LegacySpec.
Local Open Scope N_scope.

(** *** Lists of items beside the NALUs they stand for *)
Definition lsei (it : litem) : bool := match x_nalu it with NOk n => n_gop_sei n | _ => false end.
Definition psei (it : litem) : bool := lsei it && x_pending it.
Definition missing (it : litem) : Prop := x_nalu it = NNull /\ x_status it = SMiss /\ x_used it = false /\ x_decoded it = false.
Inductive ltrk (P : list N -> litem -> Prop) : list (list N) -> list litem -> Prop :=
| ltrk_nil : ltrk P [] []
| ltrk_it d it g l : P d it -> ltrk P g l -> ltrk P (d :: g) (it :: l)
| ltrk_none it g l : missing it -> ltrk P g l -> ltrk P g (it :: l).
Lemma ltrk_impl (P Q : list N -> litem -> Prop) g l : (forall d it, In it l -> P d it -> Q d it) -> ltrk P g l -> ltrk Q g l.
Proof.
  intros H T. induction T as [|d it g l HP T IH|it g l H1 T IH]; [constructor|constructor 2|constructor 3; auto].
  - apply H; [left; reflexivity|exact HP].
  - apply IH. intros x y Hx. apply H. right. exact Hx.
  - apply IH. intros x y Hx. apply H. right. exact Hx.
Qed.
Lemma ltrk_app P g l g2 l2 : ltrk P g l -> ltrk P g2 l2 -> ltrk P (g ++ g2) (l ++ l2).
Proof. intros T T2. induction T; [exact T2|constructor 2; assumption|constructor 3; assumption]. Qed.
Lemma ltrk_split P g l l2 : ltrk P g (l ++ l2) -> exists a b, g = a ++ b /\ ltrk P a l /\ ltrk P b l2.
Proof.
  revert g. induction l as [|it l IH]; intros g T; [exists [], g; repeat split; [constructor|exact T]|]. cbn [app] in T. inversion T as [|d a' g' l' TD T'|a' g' l' F1 T']; subst.
  - destruct (IH _ T') as (a & b & -> & T1 & T2). exists (d :: a), b. repeat split; [constructor 2; assumption|exact T2].
  - destruct (IH _ T') as (a & b & -> & T1 & T2). exists a, b. repeat split; [constructor 3; assumption|exact T2].
Qed.
Lemma x_pend_eq it : x_pending it = true -> x_status it = SPend.
Proof. unfold x_pending. destruct (x_status it); try discriminate; reflexivity. Qed.
Lemma missing_sei it : missing it -> psei it = false /\ lsei it = false.
Proof. intros (E & _). unfold psei, lsei. rewrite E. split; reflexivity. Qed.

(** A SEI that waits and has been decoded: only the first waiting one. *)
Definition undec (it : litem) : Prop := psei it = true -> x_decoded it = false.
Fixpoint fdec (l : list litem) : Prop :=
  match l with [] => True | it :: r => if psei it then Forall undec r else fdec r end.
Fixpoint onedec (l : list litem) : Prop :=
  match l with [] => True | it :: r => if psei it then x_decoded it = true /\ Forall undec r else onedec r end.
Lemma undec_fdec l : Forall undec l -> fdec l.
Proof. induction 1 as [|it l H HF IH]; cbn [fdec]; [exact I|]. destruct (psei it); auto. Qed.
Lemma one_fdec l : onedec l -> fdec l.
Proof. induction l as [|it l IH]; cbn [fdec onedec]; [auto|]. destruct (psei it); [tauto|auto]. Qed.

(** *** What the steps of a validation do; [X] tells which items may become authentic, [Z] whether SEIs keep their status *)
Definition lstep (X : litem -> Prop) (Z : Prop) (a b : litem) : Prop :=
  x_nalu b = x_nalu a /\ x_hash b = x_hash a /\ x_second b = x_second a /\ x_decoded b = x_decoded a /\ (x_used b = true -> x_used a = true) /\
  (x_status b = SValid -> x_status a = SValid \/ X a) /\ (x_pending b = true -> x_pending a = true) /\ (x_status b = SMiss -> x_status a = SMiss) /\
  (missing a -> x_status b = x_status a) /\ (Z -> lsei a = true -> x_status b = x_status a).
Inductive lev (X : litem -> Prop) (Z : Prop) : list litem -> list litem -> Prop :=
| lev_nil : lev X Z [] []
| lev_it a b l m : lstep X Z a b -> lev X Z l m -> lev X Z (a :: l) (b :: m)
| lev_ins b l m : missing b -> lev X Z l m -> lev X Z l (b :: m)
| lev_del a l m : x_status a = SMiss -> lev X Z l m -> lev X Z (a :: l) m.
Lemma lstep_refl X Z a : lstep X Z a a.
Proof. unfold lstep. repeat split; auto. Qed.
Lemma lev_refl X Z l : lev X Z l l.
Proof. induction l; [constructor|constructor 2; [apply lstep_refl|assumption]]. Qed.
Lemma lev_app X Z l m l2 m2 : lev X Z l m -> lev X Z l2 m2 -> lev X Z (l ++ l2) (m ++ m2).
Proof. intros H H2. induction H; cbn; [exact H2|constructor 2; assumption|constructor 3; assumption|constructor 4; assumption]. Qed.
Lemma lev_miss X Z l m k : lev X Z l m -> lev X Z l (repeat lmissing k ++ m).
Proof. intros H. induction k as [|k IH]; cbn [repeat app]; [exact H|]. constructor 3; [repeat split|exact IH]. Qed.
Lemma lev_add X Z num app pos l : lev X Z l (l_add_missing num app pos l).
Proof.
  unfold l_add_missing. set (k := if app then _ else _). rewrite <- (firstn_skipn k l) at 1. apply lev_app; [apply lev_refl|]. apply lev_miss, lev_refl.
Qed.
Lemma set_nth_split {A} k (f : A -> A) l : set_nth k f l = l \/ exists a x b, l = a ++ x :: b /\ length a = k /\ set_nth k f l = a ++ f x :: b.
Proof.
  unfold set_nth. destruct (skipn k l) as [|x r] eqn:E; [left; reflexivity|right]. exists (firstn k l), x, r. rewrite <- E, firstn_skipn. split; [reflexivity|]. split; [|reflexivity].
  rewrite firstn_length. assert (length (skipn k l) <> 0)%nat by (rewrite E; discriminate). rewrite skipn_length in H. lia.
Qed.
Lemma lev_set X Z k f l : (forall a, lstep X Z a (f a)) -> lev X Z l (set_nth k f l).
Proof.
  intros H. destruct (set_nth_split k f l) as [->|(a & x & b & E1 & _ & ->)]; [apply lev_refl|]. rewrite E1 at 1. apply lev_app; [apply lev_refl|]. constructor 2; [apply H|apply lev_refl].
Qed.
Lemma lstep_sei X Z a b : lstep X Z a b -> lsei b = lsei a.
Proof. intros (E & _). unfold lsei. rewrite E. reflexivity. Qed.
Lemma lstep_psei X Z a b : lstep X Z a b -> psei b = true -> psei a = true.
Proof. intros H. pose proof (lstep_sei _ _ _ _ H) as E. destruct H as (_ & _ & _ & _ & _ & _ & H & _). unfold psei. rewrite E. destruct (lsei a); cbn; auto. Qed.
Lemma lev_undec X Z l m : lev X Z l m -> Forall undec l -> Forall undec m.
Proof.
  induction 1 as [|a b l m HS H IH|b l m HM H IH|a l m HM H IH]; intros HF; [constructor| | |].
  - apply Forall_cons_iff in HF as [H0 HF]. constructor; [|auto]. intros E. pose proof (lstep_psei _ _ _ _ HS E) as E2. destruct HS as (_ & _ & _ & -> & _). apply H0, E2.
  - constructor; [|auto]. intros E. rewrite (proj1 (missing_sei _ HM)) in E. discriminate.
  - apply Forall_cons_iff in HF as [_ HF]. auto.
Qed.
Lemma smiss_sei a : x_status a = SMiss -> psei a = false.
Proof. intros E. unfold psei, x_pending. rewrite E. cbn. apply andb_false_r. Qed.
Lemma lev_fdec X Z l m : lev X Z l m -> fdec l -> fdec m.
Proof.
  induction 1 as [|a b l m HS H IH|b l m HM H IH|a l m HM H IH]; cbn [fdec]; intros HF; [exact I| | |].
  - destruct (psei b) eqn:EB; [rewrite (lstep_psei _ _ _ _ HS EB) in HF; eapply lev_undec; eassumption|].
    destruct (psei a); [apply undec_fdec; eapply lev_undec; eassumption|auto].
  - rewrite (proj1 (missing_sei _ HM)). auto.
  - rewrite (smiss_sei _ HM) in HF. auto.
Qed.
Lemma lev_one X (Z : Prop) l m : Z -> lev X Z l m -> onedec l -> onedec m.
Proof.
  intros HZ. induction 1 as [|a b l m HS H IH|b l m HM H IH|a l m HM H IH]; cbn [onedec]; intros HF; [exact I| | |].
  - assert (EB : psei b = psei a).
    { pose proof (lstep_sei _ _ _ _ HS) as E. unfold psei. rewrite E. destruct (lsei a) eqn:EA; [|reflexivity]. destruct HS as (_ & _ & _ & _ & _ & _ & _ & _ & _ & HS). unfold x_pending. rewrite (HS HZ EA). reflexivity. }
    rewrite EB. destruct (psei a); [|auto]. destruct HF as [F1 F2]. split; [destruct HS as (_ & _ & _ & -> & _); exact F1|eapply lev_undec; eassumption].
  - rewrite (proj1 (missing_sei _ HM)). auto.
  - rewrite (smiss_sei _ HM) in HF. auto.
Qed.

(** Setting flags, setting a status. *)
Definition lcore (a : litem) := (x_nalu a, x_hash a, x_second a, x_decoded a).
Lemma lstep_flags X (Z : Prop) a b : lcore b = lcore a -> x_status b = x_status a -> (x_used b = true -> x_used a = true) -> lstep X Z a b.
Proof. unfold lcore. intros E H1 H2. injection E as E1 E2 E3 E4. unfold lstep, x_pending. rewrite E1, E2, E3, E4, H1. repeat split; auto. Qed.
Lemma lstep_status (X : litem -> Prop) (Z : Prop) s a b : lcore b = lcore a -> x_status b = s -> (x_used b = true -> x_used a = true) -> s <> SPend -> s <> SMiss -> ~ missing a -> (s = SValid -> X a) -> (Z -> lsei a = false) ->
  lstep X Z a b.
Proof.
  unfold lcore. intros E E0 HU H1 H2 H3 H4 H5. injection E as E1 E2 E3 E4. unfold lstep, x_pending. rewrite E1, E2, E3, E4, E0. repeat split; auto.
  - intros E. exfalso. destruct s; try discriminate; congruence.
  - congruence.
  - intros M. contradiction.
  - intros HZ EL. rewrite (H5 HZ) in EL. discriminate.
Qed.
Lemma pend_nomiss a : x_pending a = true -> ~ missing a.
Proof. intros E (_ & M & _). apply x_pend_eq in E. congruence. Qed.

Lemma without_lev : forall l m k f, l_mark_without l = Def (m, k, f) -> lev (fun _ => False) False l m.
Proof.
  induction l as [|it l IH]; intros m k f; cbn [l_mark_without]; [intros E; injection E as <- <- <-; constructor|]. destruct (x_pending it) eqn:EP; cbn [negb].
  2:{ destruct (l_mark_without l) as [[[r k2] f2]|]; [|discriminate]. cbn [obind]. intros E. injection E as <- <- <-. constructor 2; [apply lstep_refl|eapply IH; reflexivity]. }
  destruct (deref (x_nalu it)) as [n|]; [|discriminate]. cbn [obind]. dif.
  - intros E. injection E as <- <- <-. constructor 2; [apply lstep_flags; auto|apply lev_refl].
  - destruct (l_mark_without l) as [[[r k2] f2]|]; [|discriminate]. cbn [obind]. intros E. injection E as <- <- <-. constructor 2; [|eapply IH; reflexivity].
    apply (lstep_status _ _ SInvalid); auto; try discriminate; [apply pend_nomiss, EP|intros []].
Qed.
Lemma unused_lev l : lev (fun _ => False) False l (l_remove_used l).
Proof. unfold l_remove_used. induction l; cbn [map]; constructor; auto. apply lstep_flags; auto. discriminate. Qed.
Lemma retry_lev : forall l m, l_retry l = Def m -> lev (fun _ => False) False l m.
Proof.
  induction l as [|it l IH]; intros m; cbn [l_retry]; [intros E; injection E as <-; constructor|]. destruct (look (x_nalu it)) as [o|]; [|discriminate]. cbn [obind]. dif.
  - intros E. injection E as <-. constructor 2; [apply lstep_flags; auto|apply lev_refl].
  - destruct (l_retry l) as [r|]; [|discriminate]. cbn [obind]. intros E. injection E as <-. constructor 2; [apply lstep_refl|apply IH; reflexivity].
Qed.
Lemma remove_lev : forall l fr fp fs, lev (fun _ => False) False l (l_remove_missing fr fp fs l).
Proof.
  induction l as [|it l IH]; intros fr fp fs; cbn [l_remove_missing]; [constructor|]. dif; [apply lev_refl|]. cbv zeta.
  set (it1 := if fp then it else set_x_bad false it). assert (E1 : lcore it1 = lcore it /\ x_status it1 = x_status it /\ x_used it1 = x_used it) by (unfold it1; dif; auto). clearbody it1. destruct E1 as (E1 & E2 & E3).
  destruct (vstat_eqb (x_status it1) SMiss && fr) eqn:EQ. { constructor 4; [|apply IH]. rewrite E2 in EQ. destruct (x_status it); try discriminate; reflexivity. }
  constructor 2; [|apply IH]. destruct (x_decoded it1 && _) eqn:EM.
  - apply (lstep_status _ _ SUnknown); auto; try discriminate; [cbn; congruence| |intros []]. intros (_ & _ & _ & M). unfold lcore in E1. injection E1 as _ _ _ E1. rewrite E1, M in EM. discriminate.
  - apply lstep_flags; auto. rewrite E3. auto.
Qed.

(** The items whose hash is in the list. *)
Definition used_hash (hs : nat) (it : litem) (x : list N) : Prop := x = firstn hs (x_hash it) \/ exists y, x_second it = Some y /\ x = firstn hs y.
Lemma hash_used hs it x : hash_to_use hs it = Def x -> used_hash hs it x /\ length x = hs.
Proof.
  assert (R : forall y, read_hash hs y = Def x -> x = firstn hs y /\ length x = hs).
  { intros y. unfold read_hash. destruct (Nat.leb_spec hs (length y)) as [H|]; [|discriminate]. intros E. injection E as <-. split; [reflexivity|]. rewrite firstn_length. lia. }
  unfold hash_to_use, used_hash. destruct (x_need it); [destruct (x_second it) as [y|]; [|discriminate]|]; intros E; apply R in E as [-> E]; split; auto. right. exists y. auto.
Qed.
Definition inlist (hs : nat) (exp : list (list N)) (it : litem) : Prop := exists x, used_hash hs it x /\ length x = hs /\ In x exp.
Lemma list_lev hs exp : forall l pos ps k s s2 m, l_list_loop hs exp pos ps k s l = Def (s2, m) -> lev (inlist hs exp) True l m.
Proof.
  induction l as [|it l IH]; intros pos ps k s s2 m; cbn [l_list_loop]; [intros E; injection E as <- <-; constructor|]. cbv zeta. destruct (x_pending it) eqn:EP; cbn [negb].
  2:{ destruct (l_list_loop _ _ _ _ _ _ _) as [[s3 r]|] eqn:EL; [|discriminate]. cbn [obind]. intros E. injection E as <- <-. constructor 2; [apply lstep_refl|eapply IH; exact EL]. }
  destruct (x_nalu it) as [|n|] eqn:EN; cbn [deref obind]; try discriminate. pose proof (pend_nomiss _ EP) as NM.
  destruct (n_gop_sei n) eqn:EG.
  { dif; [intros E; injection E as <- <-; apply lev_refl|]. destruct (l_list_loop _ _ _ _ _ _ _) as [[s3 r]|] eqn:EL; [|discriminate]. cbn [obind]. intros E. injection E as <- <-. constructor 2; [apply lstep_refl|eapply IH; exact EL]. }
  assert (NS : lsei it = false) by (unfold lsei; rewrite EN; exact EG).
  destruct (match skipn _ exp with [] => _ | _ => _ end) as [x|] eqn:EX; [|discriminate]. cbn [obind]. destruct (search x _ _) as [i found] eqn:ES. destruct found.
  - assert (HX : inlist hs exp it).
    { exists x. apply search_in in ES. destruct (skipn (Z.to_nat (e_latest s + 1)) exp) as [|y ys] eqn:EK; [destruct ES|]. apply hash_used in EX as [EX1 EX2]. split; [exact EX1|]. split; [exact EX2|]. rewrite <- (firstn_skipn (Z.to_nat (e_latest s + 1)) exp), EK. apply in_or_app. right. exact ES. }
    destruct (if _ : bool then Def _ else l_list_loop _ _ _ _ _ _ _) as [[s3 r]|] eqn:EL; [|discriminate]. cbn [obind]. intros E. injection E as <- <-. apply lev_miss. constructor 2.
    + dif; [apply lstep_flags; auto|]. destruct (x_bad it); [apply (lstep_status _ _ SInvalid)|apply (lstep_status _ _ SValid)]; auto; discriminate.
    + revert EL. dif; [intros E; injection E as <- <-; apply lev_refl|apply IH].
  - destruct (if _ : bool then Def _ else l_list_loop _ _ _ _ _ _ _) as [[s3 r]|] eqn:EL; [|discriminate]. cbn [obind]. intros E. injection E as <- <-. constructor 2.
    + dif; [apply lstep_flags; auto|]. apply (lstep_status _ _ SInvalid); auto; discriminate.
    + revert EL. dif; [intros E; injection E as <- <-; apply lev_refl|apply IH].
Qed.

(** The items used in a chained hash. *)
Lemma mark_lev s l : s <> SPend -> s <> SMiss -> lev (fun it => s = SValid /\ x_used it = true) False l (fst (l_mark_used s l)) /\ Forall (fun it => x_used it = false) (fst (l_mark_used s l)).
Proof.
  intros H1 H2. induction l as [|it l [IH1 IH2]]; cbn [l_mark_used fst]; [split; constructor|]. destruct (l_mark_used s l) as [r k]. cbn [fst] in *. destruct (x_used it) eqn:EU; [|split; constructor; auto; apply lstep_refl].
  dif; cbn [fst]; (split; [|constructor; auto]); (constructor 2; [|exact IH1]).
  - apply lstep_flags; auto.
  - assert (NM : ~ missing it) by (intros (_ & _ & M & _); congruence). destruct (x_bad it); [apply (lstep_status _ _ SInvalid)|apply (lstep_status _ _ s)]; auto; solve [intros []|discriminate].
Qed.

(** The next SEI. *)
Lemma next_split : forall l k, l_next_sei l = Def (Some k) -> exists a it b, l = a ++ it :: b /\ length a = k /\ psei it = true /\ Forall (fun x => psei x = false) a.
Proof.
  induction l as [|it l IH]; intros k; cbn [l_next_sei]; [discriminate|]. destruct (look (x_nalu it)) as [o|] eqn:EO; [|discriminate]. cbn [obind].
  assert (EP : match o with Some n => n_gop_sei n | None => false end && x_pending it = psei it) by (unfold psei, lsei; destruct (x_nalu it); try discriminate; cbn in EO; injection EO as <-; reflexivity).
  rewrite EP. destruct (psei it) eqn:ES; [intros E; injection E as <-; exists [], it, l; auto|]. destruct (l_next_sei l) as [[j|]|]; cbn [obind option_map]; try discriminate. intros E. injection E as <-.
  destruct (IH j eq_refl) as (a & x & b & -> & <- & H1 & H2). exists (it :: a), x, b. repeat split; auto.
Qed.
Lemma next_none : forall l, l_next_sei l = Def None -> Forall (fun x => psei x = false) l.
Proof.
  induction l as [|it l IH]; cbn [l_next_sei]; [constructor|]. destruct (look (x_nalu it)) as [o|] eqn:EO; [|discriminate]. cbn [obind].
  assert (EP : match o with Some n => n_gop_sei n | None => false end && x_pending it = psei it) by (unfold psei, lsei; destruct (x_nalu it); try discriminate; cbn in EO; injection EO as <-; reflexivity).
  rewrite EP. destruct (psei it) eqn:ES; [discriminate|]. destruct (l_next_sei l) as [[j|]|]; cbn [obind option_map]; try discriminate. intros _. constructor; auto.
Qed.
Lemma nopsei_one l : Forall (fun x => psei x = false) l -> onedec l.
Proof. induction 1 as [|it l H HF IH]; cbn [onedec]; [exact I|]. rewrite H. exact IH. Qed.
Lemma set_nth_at {A} (a : list A) x b f : set_nth (length a) f (a ++ x :: b) = a ++ f x :: b.
Proof. unfold set_nth. rewrite skipn_app, Nat.sub_diag, skipn_all2, firstn_app, Nat.sub_diag, firstn_all by lia. cbn [skipn app firstn]. rewrite app_nil_r. reflexivity. Qed.
Lemma onedec_at a x b : Forall (fun x => psei x = false) a -> psei x = true -> onedec (a ++ x :: b) <-> x_decoded x = true /\ Forall undec b.
Proof. intros HF HX. induction HF as [|it a H HF IH]; cbn [app onedec]; [rewrite HX; reflexivity|]. rewrite H. exact IH. Qed.
Lemma fdec_at a x b : Forall (fun x => psei x = false) a -> psei x = true -> fdec (a ++ x :: b) <-> Forall undec b.
Proof. intros HF HX. induction HF as [|it a H HF IH]; cbn [app fdec]; [rewrite HX; reflexivity|]. rewrite H. exact IH. Qed.
Lemma sei_lev s l m : s <> SPend -> s <> SMiss -> onedec l -> on_sei (set_x_status s) l = Def m -> lev (fun it => s = SValid /\ psei it = true /\ x_decoded it = true) False l m.
Proof.
  intros H1 H2 H3. unfold on_sei. destruct (l_next_sei l) as [[k|]|] eqn:EN; cbn [obind]; [|intros E; injection E as <-; apply lev_refl|discriminate].
  destruct (next_split _ _ EN) as (a & it & b & -> & <- & P1 & P2). rewrite set_nth_at. intros E. injection E as <-. apply onedec_at in H3 as [H3 _]; auto.
  apply lev_app; [apply lev_refl|]. constructor 2; [|apply lev_refl]. apply (lstep_status _ _ s); auto; [|intros []]. intros M. apply missing_sei in M as [M _]. congruence.
Qed.

Section OldTrack.
Variable C : crypto.
Variable c : codec.
Hypothesis HC : crypto_ok C.
Hypothesis H32 : forall oid n, c_oid C oid = OidDigest n -> n = 32%nat.
Hypothesis HV : forall k s h, c_verify C k s h = 1%Z \/ c_verify C k s h = 0%Z.
Let HK : forall oid n, c_oid C oid = OidDigest n -> (32 <= n)%nat.
Proof. intros oid n E. rewrite (H32 _ _ E). lia. Qed.

Notation kn := (old_known C c).
Notation vouched := (old_vouched C c).

Definition lbase (hist : list vop) (d : list N) (it : litem) : Prop :=
  In d (added hist) /\ kn d (x_hash it) /\ (forall x, x_second it = Some x -> kn d x) /\
  (x_nalu it = NDang \/ exists n, x_nalu it = NOk n /\ from_nalu c d n /\ (x_pending it = true -> (0 < n_valid n)%Z)).
(** The items of a session: [U] holds for the NALUs marked as used, [Cur] for a waiting SEI that was decoded. *)
Definition ltk (hist : list vop) (U Cur : list N -> Prop) (d : list N) (it : litem) : Prop :=
  lbase hist d it /\ (x_status it = SValid -> vouched hist d) /\ (x_used it = true -> U d) /\
  (psei it = true -> x_decoded it = true -> Cur d) /\ x_status it <> SMiss.
Definition nobody (_ : list N) : Prop := False.

Lemma ltk_nalu hist U Cur d it : ltk hist U Cur d it -> ~ missing it.
Proof. intros (_ & _ & _ & _ & H) (_ & M & _). contradiction. Qed.
Lemma ltk_mono hist (U U2 Cur Cur2 : list N -> Prop) d it : (forall x, U x -> U2 x) -> (forall x, Cur x -> Cur2 x) -> ltk hist U Cur d it -> ltk hist U2 Cur2 d it.
Proof. intros HU HX (T1 & T2 & T3 & T4 & T5). split; [exact T1|]. split; [exact T2|]. split; [auto|]. split; [auto|exact T5]. Qed.
Lemma ltk_cur hist U Cur Cur2 d it : undec it -> ltk hist U Cur d it -> ltk hist U Cur2 d it.
Proof. intros HU (T1 & T2 & T3 & T4 & T5). split; [exact T1|]. split; [exact T2|]. split; [exact T3|]. split; [|exact T5]. intros E1 E2. rewrite (HU E1) in E2. discriminate. Qed.
Lemma ltk_step hist U Cur d a b X Z : lstep X Z a b -> (X a -> vouched hist d) -> ltk hist U Cur d a -> ltk hist U Cur d b.
Proof.
  intros HS HX ((B1 & B2 & B3 & B4) & T2 & T3 & T4 & T5). pose proof (lstep_psei _ _ _ _ HS) as ES. destruct HS as (S1 & S2 & S3 & S4 & S5 & S6 & S7 & S8 & S9 & S10).
  split; [split; [exact B1|]; rewrite S1, S2, S3; split; [exact B2|]; split; [exact B3|]; destruct B4 as [B4|(n & B4 & B5 & B6)]; [left; exact B4|right; exists n; auto]|].
  split; [intros E; destruct (S6 E); auto|]. split; [auto|]. split; [rewrite S4; auto|auto].
Qed.
Lemma ltrk_lev hist U Cur g l m X Z : lev X Z l m -> (forall d a, ltk hist U Cur d a -> X a -> vouched hist d) -> ltrk (ltk hist U Cur) g l -> ltrk (ltk hist U Cur) g m.
Proof.
  intros HE HX. revert g. induction HE as [|a b l m HS H IH|b l m H1 H IH|a l m H1 H IH]; intros g T; [exact T| |constructor 3; auto|].
  - inversion T as [|d a' g' l' TD T'|a' g' l' E1 T']; subst.
    + constructor 2; [eapply ltk_step; [exact HS| |exact TD]; apply HX, TD|]. apply IH, T'.
    + constructor 3; [|apply IH, T']. destruct HS as (S1 & S2 & S3 & S4 & S5 & S6 & S7 & S8 & S9 & S10). pose proof E1 as (M1 & M2 & M3 & M4). split; [congruence|]. split; [rewrite S9; auto|]. split; [|congruence].
      destruct (x_used b); [rewrite S5 in M3 by reflexivity; exact M3|reflexivity].
  - inversion T as [|d a' g' l' TD T'|a' g' l' E1 T']; subst; [|apply IH, T']. exfalso. apply TD, H1.
Qed.
Lemma ltrk_unused hist U Cur g l : Forall (fun it => x_used it = false) l -> ltrk (ltk hist U Cur) g l -> ltrk (ltk hist nobody Cur) g l.
Proof.
  intros HF. apply ltrk_impl. intros d it HI (T1 & T2 & T3 & T4 & T5). rewrite Forall_forall in HF. split; [exact T1|]. split; [exact T2|]. split; [rewrite (HF _ HI); discriminate|]. split; [exact T4|exact T5].
Qed.
Lemma nobody_unused hist Cur g l : ltrk (ltk hist nobody Cur) g l -> Forall (fun it => x_used it = false) l.
Proof.
  induction 1 as [|d it g l (_ & _ & T3 & _) T IH|it g l (_ & _ & M & _) T IH]; constructor; auto. destruct (x_used it); [destruct (T3 eq_refl)|reflexivity].
Qed.
Lemma remove_used_unused l : Forall (fun it => x_used it = false) (l_remove_used l).
Proof. unfold l_remove_used. induction l; cbn [map]; constructor; auto. Qed.
Lemma lev_unused X Z l m : lev X Z l m -> Forall (fun it => x_used it = false) l -> Forall (fun it => x_used it = false) m.
Proof.
  induction 1 as [|a b l m HS H IH|b l m H1 H IH|a l m H1 H IH]; intros HF; [constructor| | |]; try (apply Forall_cons_iff in HF as [H0 HF]); try constructor; auto.
  - destruct HS as (_ & _ & _ & _ & S5 & _). destruct (x_used b); [rewrite S5 in H0 by reflexivity; discriminate|reflexivity].
  - apply H1.
Qed.

(** *** What is known of the SEI that was decoded *)
Definition ldinv (hist : list vop) (d : dec) : Prop := dgood C (seen c hist) (key_seen c hist) d /\ (d_list d = [] \/ some_list c hist (d_list d)).
Definition curok (hist : list vop) (ls : list N) (ty : N) (h : list N) (d : list N) : Prop :=
  In d (added hist) /\ sv_sei c d = true /\ (ty = 1 -> kn d (firstn 32 h)) /\ exists fs, sei_fields c d fs /\
    match last_list fs with Some l => ls = l | None => ls = [] \/ some_list c hist ls end.
Definition curof (hist : list vop) (q : lsv) : list N -> Prop := curok hist (d_list (q_dec q)) (d_hash_type (q_dec q)) (q_hash q).
Definition linv (hist : list vop) (g : list (list N)) (q : lsv) : Prop :=
  ltrk (ltk hist nobody (curof hist q)) g (q_items q) /\ fdec (q_items q) /\ subseq g (added hist) /\ ldinv hist (q_dec q) /\ q_codec q = c /\
  (q_signing q = false -> Forall (fun d => sv_sei c d = false) g).
Definition signed_hash (hist : list vop) (h : list N) : Prop :=
  exists key sig, key_seen c hist key /\ seen c hist sig /\ c_verify C key sig h = 1%Z.
(** After the preparations. *)
Definition lready (hist : list vop) (g : list (list N)) (q : lsv) : Prop :=
  exists U, ltrk (ltk hist U (curof hist q)) g (q_items q) /\ onedec (q_items q) /\ ldinv hist (q_dec q) /\ q_codec q = c /\
    (q_verified q = 1%Z \/ q_verified q = 0%Z) /\ (q_verified q = 1%Z -> signed_hash hist (firstn 32 (q_hash q))) /\
    (forall d, U d -> in_chain C c hist (firstn 32 (q_hash q)) d) /\ (d_hash_type (q_dec q) = 1 -> Forall (fun it => x_used it = false) (q_items q)).

Lemma lvhs S Kk d : dgood C S Kk d -> d_vhs d = 32%nat.
Proof. intros (_ & _ & -> & (n & HD) & _). unfold oid_size. rewrite HD. apply (H32 _ _ HD). Qed.
Lemma digest32 oid : digest C oid -> oid_size C oid = 32%nat.
Proof. intros (n & HD). unfold oid_size. rewrite HD. apply (H32 _ _ HD). Qed.
Lemma kn_firstn d x : kn d x -> kn d (firstn 32 x).
Proof. intros (y & HY & HA). exists y. split; [exact HY|]. unfold agree in *. rewrite firstn_firstn, Nat.min_id. exact HA. Qed.
Lemma used_kn hist U Cur d it x : ltk hist U Cur d it -> used_hash 32 it x -> kn d x.
Proof. intros ((_ & B2 & B3 & _) & _) [->|(y & E & ->)]; apply kn_firstn; auto. Qed.

Lemma ltrk_at (P : list N -> litem -> Prop) g l it : ltrk P g l -> In it l -> ~ missing it -> exists d, P d it.
Proof. intros T HI NM. induction T as [|d i g l HP T IH|i g l M T IH]; [destruct HI| |]; destruct HI as [->|HI]; auto; [exists d; exact HP|contradiction]. Qed.

(** *** Validating *)
Definition lfr (q : lsv) := (dcore (q_dec q), d_list (q_dec q), d_hash_type (q_dec q), q_hash q, q_codec q, q_signing q).
Lemma without_lfr q q2 f : l_without q = Def (q2, f) -> lfr q2 = lfr q /\ lev (fun _ => False) False (q_items q) (q_items q2).
Proof.
  unfold l_without. destruct (l_mark_without (q_items q)) as [[[l k] f2]|] eqn:E; [|discriminate]. cbn [obind]. cbv zeta. intros H. injection H as <- <-. apply without_lev in E. dif; split; auto.
Qed.
Lemma lfr_cur hist q q2 : lfr q2 = lfr q -> curof hist q2 = curof hist q.
Proof. unfold lfr, curof. intros E. injection E as _ _ _ _ E1 E2 E3 _ _. rewrite E1, E2, E3. reflexivity. Qed.
Lemma lfr_dinv hist q q2 : lfr q2 = lfr q -> ldinv hist (q_dec q) -> ldinv hist (q_dec q2).
Proof. unfold lfr. intros E [H1 H2]. split; [eapply dgood_core; [|exact H1]; unfold dcore in *; congruence|]. replace (d_list (q_dec q2)) with (d_list (q_dec q)) by congruence. exact H2. Qed.

Lemma pic_in_list hist U Cur d it l : ltk hist U Cur d it -> inlist 32 (chunks (length l / 32) 32 l) it -> in_old_list C c l d.
Proof.
  intros T (x & HX & LX & HI). destruct (chunks_in C 32 HK 32 (length l / 32) l x) as (A & b & EL & HA & LY); [|exact HI|].
  { rewrite Nat.mul_comm. apply Nat.mul_div_le. lia. }
  exists A, x, b. split; [exact EL|]. split; [exact HA|]. split; [exact LY|]. eapply used_kn; eassumption.
Qed.
Lemma validate_core hist g q q2 s e r : lready hist g q ->
  (if gs_lost (q_gs q) && negb (gs_trans (q_gs q))
   then do (q, f) <- l_without (q_on_items l_remove_used q); Def (q, f, -1, -1)%Z
   else if d_hash_type (q_dec q) =? 1 then l_with_list q else l_with_gop q) = Def (q2, s, e, r) ->
  lfr q2 = lfr q /\ ltrk (ltk hist nobody (curof hist q)) g (q_items q2) /\ fdec (q_items q2).
Proof.
  intros (U & T & ON & DI & EC & VF & HS & HU & HL). pose proof (one_fdec _ ON) as FD.
  assert (NOP : forall (d : list N) (a : litem), ltk hist nobody (curof hist q) d a -> False -> vouched hist d) by (intros d a _ []).
  dif.
  { destruct (l_without _) as [[q3 f]|] eqn:E; [|discriminate]. cbn [obind]. intros H. injection H as <- _ _ _. apply without_lfr in E as [E1 E2]. cbn [q_items q_on_items set_q_items] in E2.
    split; [exact E1|]. split; [|eapply lev_fdec; [exact E2|]; eapply lev_fdec; [apply unused_lev|exact FD]]. eapply ltrk_lev; [exact E2|exact NOP|]. eapply ltrk_unused; [apply remove_used_unused|].
    eapply ltrk_lev; [apply unused_lev|intros d a _ []|exact T]. }
  destruct (N.eqb_spec (d_hash_type (q_dec q)) 1) as [ET|ET].
  - specialize (HL ET). pose proof (ltrk_unused _ _ _ _ _ HL T) as TN. clear T HU. unfold l_with_list. assert (EH : qhs q = 32%nat) by (eapply lvhs; apply DI). rewrite EH. change (32 =? 0)%nat with false. cbv iota zeta.
    set (exp := chunks _ 32 _). destruct (l_next_sei (q_items q)) as [[k|]|] eqn:EN; cbn [obind]; [|intros H; injection H as <- _ _ _; auto|discriminate].
    destruct (Z.eqb_spec (q_verified q) 1) as [EV|EV].
    + destruct (l_list_loop _ _ _ _ _ _ _) as [[s2 l]|] eqn:EL; [|discriminate]. cbn [obind]. apply list_lev in EL. destruct (HS EV) as (key & sig & K1 & K2 & K3).
      (* no SEI was decoded only if none waits *)
      assert (CUR : (exists d0, curof hist q d0) \/ Forall (fun x => psei x = false) (q_items q)).
      { clear -TN ON. revert ON. induction TN as [|d it g l (T1 & T2 & T3 & T4 & T5) T IH|it g l M T IH]; cbn [onedec]; intros ON; [right; constructor| |].
        - destruct (psei it) eqn:EP; [left; exists d; apply T4; [reflexivity|apply ON]|]. destruct (IH ON) as [H|H]; [left; exact H|right; constructor; assumption].
        - rewrite (proj1 (missing_sei _ M)) in ON. destruct (IH ON) as [H|H]; [left; exact H|right; constructor; [apply missing_sei, M|assumption]]. }
      destruct CUR as [(d0 & D1 & D2 & D3 & fs & D4 & D5)|CUR].
      2:{ exfalso. destruct (next_split _ _ EN) as (a & it & b & E & _ & P1 & _). rewrite E in CUR. apply Forall_app in CUR as [_ CUR]. apply Forall_cons_iff in CUR as [CUR _]. congruence. }
      assert (VP : forall d a, ltk hist nobody (curof hist q) d a -> inlist 32 exp a -> vouched hist d).
      { intros d a TA HI. split; [exact (proj1 (proj1 TA))|]. exists key, sig, (firstn 32 (q_hash q)). split; [exact K1|]. split; [exact K2|]. split; [exact K3|]. right. right. exists d0, fs. split; [exact D1|]. split; [exact D2|]. split; [apply D3, ET|]. split; [exact D4|].
        pose proof (pic_in_list _ _ _ _ _ _ TA HI) as HP. destruct (last_list fs); [rewrite <- D5; exact HP|]. destruct D5 as [D5|D5]; [|exists (d_list (q_dec q)); auto].
        exfalso. rewrite D5 in HP. destruct HP as (A & x & b & E1 & _ & E2 & _). apply (f_equal (@length N)) in E1. rewrite !app_length in E1. cbn [length] in E1. lia. }
      assert (T1 : ltrk (ltk hist nobody (curof hist q)) g l) by (eapply ltrk_lev; [exact EL|exact VP|exact TN]). assert (O1 : onedec l) by (eapply lev_one; [exact Logic.I|exact EL|exact ON]).
      clear EL TN. set (none := (e_latest s2 =? -1)%Z). set (valid := (e_latest s2 =? e_compare s2)%Z). set (app := match l with [] => false | _ => _ end). set (unused := (_ - 1 - _ - 1)%Z).
      assert (ST : forall l2, lev (fun _ => False) True l l2 -> ltrk (ltk hist nobody (curof hist q)) g l2 /\ onedec l2).
      { intros l2 HL2. split; [eapply ltrk_lev; [exact HL2|exact NOP|exact T1]|eapply lev_one; [exact Logic.I|exact HL2|exact O1]]. }
      destruct (match e_last s2 with None => _ | Some _ => _ end) as [l2 recv] eqn:EM.
      assert (T2 : ltrk (ltk hist nobody (curof hist q)) g l2 /\ onedec l2).
      { revert EM. destruct (e_last s2) as [p|]; [|intros H; injection H as <- _; auto]. destruct valid; intros H; injection H as <- _; apply ST; [apply lev_add|]. apply lev_set. intros a. apply lstep_flags; auto. }
      clear EM. set (l3 := if none then _ else l2).
      assert (T3 : ltrk (ltk hist nobody (curof hist q)) g l3 /\ onedec l3).
      { destruct T2 as [T2 O2]. unfold l3. destruct none; [|auto]. split; [eapply ltrk_lev; [apply (lev_add (fun _ => False) True)|exact NOP|exact T2]|eapply lev_one; [exact Logic.I|apply (lev_add (fun _ => False) True)|exact O2]]. }
      clearbody l3. destruct T3 as [T3 O3]. destruct (on_sei _ l3) as [l4|] eqn:ES; [|discriminate]. cbn [obind]. intros H. injection H as <- _ _ _. apply sei_lev in ES; [|discriminate|discriminate|exact O3].
      split; [reflexivity|]. cbn [q_items set_q_items]. split; [|eapply lev_fdec; [exact ES|apply one_fdec, O3]]. eapply ltrk_lev; [exact ES| |exact T3].
      intros d a TA (_ & A1 & A2). pose proof TA as ((B1 & _) & _ & _ & T4 & _). destruct (T4 A1 A2) as (Q1 & Q2 & Q3 & _). split; [exact B1|]. exists key, sig, (firstn 32 (q_hash q)). split; [exact K1|]. split; [exact K2|]. split; [exact K3|]. left. auto.
    + destruct (on_sei _ (q_items q)) as [l|] eqn:ES; [|discriminate]. cbn [obind]. apply sei_lev in ES; [|dif; discriminate|dif; discriminate|exact ON].
      destruct (l_without _) as [[q3 f]|] eqn:E; [|discriminate]. cbn [obind]. intros H. injection H as <- _ _ _. apply without_lfr in E as [E1 E2]. cbn [q_items set_q_items] in E2.
      split; [exact E1|]. split; [|eapply lev_fdec; [exact E2|]; eapply lev_fdec; [exact ES|exact FD]]. eapply ltrk_lev; [exact E2|exact NOP|]. eapply ltrk_lev; [exact ES| |exact TN].
      intros d a _ (A & _). revert A. dif; discriminate.
  - assert (GO : forall st l recv, l_mark_used st (q_items q) = (l, recv) -> st <> SPend -> st <> SMiss -> (st = SValid -> q_verified q = 1%Z) ->
      match l_first_used (q_items q) with
      | Some k => if q_first q then Def (set_q_items l q, true, Z.of_N (d_num_sent (q_dec q)), recv)
                  else match nth_error l k with None => Undef NullDeref
                       | Some it => do n <- deref (x_nalu it); Def (q_on_items (l_add_missing (Z.of_N (d_num_sent (q_dec q)) - recv) (n_first_in_gop n) k) (set_q_items l q), true, Z.of_N (d_num_sent (q_dec q)), recv)
                       end
      | None => Def (set_q_items l q, true, Z.of_N (d_num_sent (q_dec q)), recv)
      end = Def (q2, s, e, r) -> lfr q2 = lfr q /\ ltrk (ltk hist nobody (curof hist q)) g (q_items q2) /\ fdec (q_items q2)).
    { intros st l recv EM N1 N2 HVF. destruct (mark_lev st (q_items q) N1 N2) as [ML1 ML2]. rewrite EM in *. cbn [fst] in *.
      assert (T1 : ltrk (ltk hist nobody (curof hist q)) g l).
      { eapply ltrk_unused; [exact ML2|]. eapply ltrk_lev; [exact ML1| |exact T]. intros d a TA [A1 A2].
        pose proof TA as ((B1 & _) & _ & T3 & _). destruct (HS (HVF A1)) as (key & sig & K1 & K2 & K3). split; [exact B1|]. exists key, sig, (firstn 32 (q_hash q)). split; [exact K1|]. split; [exact K2|]. split; [exact K3|]. right. left. apply HU, T3, A2. }
      assert (F1 : fdec l) by (eapply lev_fdec; [exact ML1|exact FD]).
      destruct (l_first_used _) as [k|]; [|intros H; injection H as <- _ _ _; auto]. destruct (q_first q); [intros H; injection H as <- _ _ _; auto|].
      destruct (nth_error l k) as [it|]; [|discriminate]. destruct (deref _) as [n|]; [|discriminate]. cbn [obind]. intros H. injection H as <- _ _ _. cbn [q_items q_on_items set_q_items].
      split; [reflexivity|]. split; [eapply ltrk_lev; [apply (lev_add (fun _ => False) False)|exact NOP|exact T1]|eapply lev_fdec; [apply (lev_add (fun _ => False) False)|exact F1]]. }
    unfold l_with_gop. cbv zeta. destruct VF as [EV|EV]; rewrite EV; cbn [Z.eqb orb Pos.eqb].
    + destruct (l_mark_used SValid (q_items q)) as [l recv] eqn:EM. apply (GO _ _ _ EM); [discriminate|discriminate|auto].
    + destruct (l_mark_used SInvalid (q_items q)) as [l recv] eqn:EM. apply (GO _ _ _ EM); discriminate.
Qed.
Lemma validate_linv hist g q q2 : lready hist g q -> l_validate q = Def q2 -> lfr q2 = lfr q /\ ltrk (ltk hist nobody (curof hist q)) g (q_items q2) /\ fdec (q_items q2).
Proof.
  intros HR. unfold l_validate. destruct (if _ && _ then _ else _) as [[[[q3 s] e] r]|] eqn:EC; [|discriminate]. apply (validate_core hist g) in EC; [|exact HR]. destruct EC as (E1 & E2 & E3). cbn [obind].
  destruct (l_stats _) as [[[iv ms] hv]|]; [|discriminate]. cbn [obind]. cbv zeta. clear HR.
  set (res0 := match (if _ : bool then NotOk else _) with NotSigned => _ | _ => _ end). clearbody res0.
  set (q4 := if q_first q3 then q3 else set_q_synced true q3). assert (E4 : lfr q4 = lfr q3 /\ q_items q4 = q_items q3) by (unfold q4; dif; auto). clearbody q4. destruct E4 as [E4 E5]. rewrite <- E4, <- E5 in *. clear E4 E5.
  assert (G : forall q5, lfr q5 = lfr q4 -> (q_items q5 = q_items q4 \/ q_items q5 = l_remove_missing true false false (q_items q4)) -> lfr q5 = lfr q /\ ltrk (ltk hist nobody (curof hist q)) g (q_items q5) /\ fdec (q_items q5)).
  { intros q5 H1 H2. split; [congruence|]. destruct H2 as [->| ->]; [auto|]. split; [eapply ltrk_lev; [apply remove_lev|intros d a _ []|exact E2]|eapply lev_fdec; [apply remove_lev|exact E3]]. }
  destruct (q_first q4); [|intros H; injection H as <-; apply G; auto].
  destruct (match res0 with AuthOk => _ | _ => _ end); intros H; injection H as <-; apply G; auto.
Qed.

(** *** The chained hash *)
Definition ustep (xs : list (list N)) (a b : litem) : Prop :=
  b = a \/ b = set_x_used true a /\ ~ missing a /\ exists x, In x xs /\ length x = 32%nat /\ used_hash 32 a x.
Lemma ustep_mono xs ys a b : incl xs ys -> ustep xs a b -> ustep ys a b.
Proof. intros HI [H|(H & N & x & H1 & H2)]; [left; exact H|right]. split; [exact H|]. split; [exact N|]. exists x. auto. Qed.
Lemma usteps_mono xs ys l m : incl xs ys -> Forall2 (ustep xs) l m -> Forall2 (ustep ys) l m.
Proof. intros HI. induction 1; constructor; auto. eapply ustep_mono; eassumption. Qed.
Lemma usteps_refl xs l : Forall2 (ustep xs) l l.
Proof. induction l; constructor; auto. left. reflexivity. Qed.
Lemma put_hashes k dst x y : put_at k dst x = Def y -> length x = k -> firstn (k + k) y = firstn k dst ++ x.
Proof.
  unfold put_at. destruct (Nat.leb_spec (k + length x) (length dst)) as [H|]; [|discriminate]. intros E L. injection E as <-. rewrite app_assoc, firstn_app.
  rewrite app_length, firstn_length, L, Nat.min_l by lia. rewrite Nat.sub_diag. cbn [firstn]. rewrite app_nil_r. apply firstn_all2. rewrite app_length, firstn_length. lia.
Qed.
Lemma read_inv k y x : read_hash k y = Def x -> x = firstn k y /\ length x = k.
Proof. unfold read_hash. destruct (Nat.leb_spec k (length y)) as [H|]; [|discriminate]. intros E. injection E as <-. split; [reflexivity|]. rewrite firstn_length. lia. Qed.
Lemma chained_snoc H xs x : LegacySpec.chained H (xs ++ [x]) = H (LegacySpec.chained H xs ++ x).
Proof. unfold LegacySpec.chained. rewrite fold_left_app. reflexivity. Qed.
Lemma add_chain q x q2 oid xs : h_type (d_handle (q_dec q)) = oid -> digest C oid -> length x = 32%nat -> firstn 32 (q_hashes q) = LegacySpec.chained (c_hash C oid) xs ->
  gop_hash_add C q x = Def (q2, SV_OK) -> q2 = set_q_hashes (q_hashes q2) q /\ firstn 32 (q_hashes q2) = LegacySpec.chained (c_hash C oid) (xs ++ [x]).
Proof.
  intros EO HD HL HX. unfold gop_hash_add, default_hash_size. destruct (put_at 32 (q_hashes q) x) as [y|] eqn:EP; [|discriminate]. cbn [obind]. cbv zeta. cbn [q_dec set_q_hashes q_hashes].
  unfold hash_size. rewrite EO, (digest32 _ HD). change (2 * 32)%nat with 64%nat. apply put_hashes in EP; [|exact HL]. change (32 + 32)%nat with 64%nat in EP. rewrite EP, HX. dif; [discriminate|]. unfold hash_data. rewrite EO.
  destruct (LegacySpec.chained (c_hash C oid) xs ++ x) as [|b0 b] eqn:EB; [discriminate|]. rewrite <- EB. change (is_ok SV_OK) with true. cbv iota.
  destruct (put_at 0 y _) as [y2|] eqn:EP2; [|discriminate]. cbn [obind]. intros E. injection E as <-. cbn [q_hashes set_q_hashes]. split; [reflexivity|].
  assert (LH : length (c_hash C oid (LegacySpec.chained (c_hash C oid) xs ++ x)) = 32%nat) by (rewrite (dig_len C HC) by exact HD; apply digest32, HD).
  rewrite (put_agree C 32 HK _ _ _ EP2) by lia. rewrite chained_snoc. apply firstn_all2. lia.
Qed.
Definition from_item (l : list litem) (x : list N) : Prop := length x = 32%nat /\ exists it, In it l /\ ~ missing it /\ used_hash 32 it x.
Lemma from_cons it l xs : Forall (from_item l) xs -> Forall (from_item (it :: l)) xs.
Proof. apply Forall_impl. intros x (L & i & I1 & I2). split; [exact L|]. exists i. split; [right; exact I1|exact I2]. Qed.
Lemma gop_loop_chain oid : digest C oid -> forall l q ps k xs q2 m, h_type (d_handle (q_dec q)) = oid -> firstn 32 (q_hashes q) = LegacySpec.chained (c_hash C oid) xs ->
  gop_hash_loop C 32 q ps k l = Def (q2, m, SV_OK) ->
  exists ys, q2 = set_q_hashes (q_hashes q2) q /\ firstn 32 (q_hashes q2) = LegacySpec.chained (c_hash C oid) (xs ++ ys) /\ Forall2 (ustep ys) l m /\ Forall (from_item l) ys.
Proof.
  intros HD. assert (SAME : forall q, q = set_q_hashes (q_hashes q) q) by (intros []; reflexivity).
  induction l as [|it l IH]; intros q ps k xs q2 m EO HX; cbn [gop_hash_loop]; cbv zeta.
  { intros E. injection E as <- <-. exists []. rewrite app_nil_r. split; [apply SAME|]. split; [exact HX|split; constructor]. }
  set (k2 := match k with Some (S j) => Some j | _ => None end). set (this := match k with Some O => true | _ => false end).
  assert (SKIP : forall q2 m, (do (q0, r, st) <- gop_hash_loop C 32 q this k2 l; Def (q0, it :: r, st)) = Def (q2, m, SV_OK) ->
    exists ys, q2 = set_q_hashes (q_hashes q2) q /\ firstn 32 (q_hashes q2) = LegacySpec.chained (c_hash C oid) (xs ++ ys) /\ Forall2 (ustep ys) (it :: l) m /\ Forall (from_item (it :: l)) ys).
  { clear q2 m. intros q2 m. destruct (gop_hash_loop C 32 q this k2 l) as [[[q3 r] st]|] eqn:EL; [|discriminate]. cbn [obind]. intros E. injection E as -> <- ->. destruct (IH _ _ _ xs _ _ EO HX EL) as (ys & H1 & H2 & H3 & H4).
    exists ys. split; [exact H1|]. split; [exact H2|]. split; [constructor; [left; reflexivity|exact H3]|apply from_cons, H4]. }
  destruct (x_pending it) eqn:EP; cbn [negb]; [|apply SKIP]. destruct (deref (x_nalu it)) as [n|]; [|discriminate]. cbn [obind].
  set (stop := ps || _). destruct (n_gop_sei n).
  { destruct stop; [|apply SKIP]. intros E. injection E as <- <-. exists []. rewrite app_nil_r. split; [apply SAME|]. split; [exact HX|split; [apply usteps_refl|constructor]]. }
  clear SKIP. destruct (hash_to_use 32 it) as [x|] eqn:EH; [|discriminate]. cbn [obind]. apply hash_used in EH as [H1 H2].
  destruct (gop_hash_add C q x) as [[q3 st3]|] eqn:EA; [|discriminate]. cbn [obind]. destruct (is_ok st3) eqn:ES; cbn [negb]; [|intros E; injection E as <- <- ->; discriminate].
  assert (st3 = SV_OK) as -> by (destruct st3; try discriminate; reflexivity). destruct (add_chain q x q3 oid xs EO HD H2 HX EA) as [Q1 Q2].
  assert (US : forall ys, ustep (x :: ys) it (set_x_used true it)) by (intros ys; right; split; [reflexivity|]; split; [apply pend_nomiss, EP|]; exists x; split; [left; reflexivity|auto]).
  assert (FX : from_item (it :: l) x) by (split; [exact H2|]; exists it; split; [left; reflexivity|]; split; [apply pend_nomiss, EP|exact H1]).
  destruct stop.
  - intros E. injection E as <- <-. exists [x]. split; [exact Q1|]. split; [exact Q2|]. split; [constructor; [apply US|apply usteps_refl]|constructor; [exact FX|constructor]].
  - destruct (gop_hash_loop C 32 q3 this k2 l) as [[[q4 r] st]|] eqn:EL; [|discriminate]. cbn [obind]. intros E. injection E as -> <- ->.
    assert (EO3 : h_type (d_handle (q_dec q3)) = oid) by (rewrite Q1; exact EO). destruct (IH _ _ _ _ _ _ EO3 Q2 EL) as (ys & R1 & R2 & R3 & R4).
    exists (x :: ys). split; [rewrite R1, Q1 at 1; reflexivity|]. split; [rewrite R2, <- app_assoc; reflexivity|].
    split; [constructor; [apply US|]; eapply usteps_mono; [|exact R3]; intros z Hz; right; exact Hz|]. constructor; [exact FX|apply from_cons, R4].
Qed.
Lemma gop_chain S Kk q k it0 q2 : dgood C S Kk (q_dec q) -> nth_error (q_items q) k = Some it0 -> ~ missing it0 -> l_gop_hash C q k = Def (q2, SV_OK) ->
  exists oid xs, digest C oid /\ firstn 32 (q_hashes q2) = LegacySpec.chained (c_hash C oid) xs /\ Forall2 (ustep xs) (q_items q) (q_items q2) /\ Forall (from_item (q_items q)) xs /\
    q2 = set_q_hashes (q_hashes q2) (set_q_items (q_items q2) q).
Proof.
  intros DG EN NM. unfold l_gop_hash. pose proof (lvhs _ _ _ DG) as EH. unfold qhs. rewrite EH. destruct DG as (_ & _ & _ & HD & _). set (oid := h_type (d_handle (q_dec q))) in *. cbv zeta.
  unfold gop_hash_reset, hash_data, gop_hash_salt. fold oid. change (is_ok SV_OK) with true. cbv iota. destruct (put_at 0 (q_hashes q) _) as [y|] eqn:EP; [|discriminate]. cbn [obind]. change (is_ok SV_OK) with true. cbn [negb].
  set (q1 := set_q_hashes y q). cbn [q_items]. change (q_items q1) with (q_items q).
  assert (LH : length (c_hash C oid [1]) = 32%nat) by (rewrite (dig_len C HC) by exact HD; apply digest32, HD).
  assert (H1 : firstn 32 (q_hashes q1) = LegacySpec.chained (c_hash C oid) []) by (unfold q1; cbn [q_hashes set_q_hashes]; rewrite (put_agree C 32 HK _ _ _ EP) by lia; apply firstn_all2; unfold LegacySpec.chained; cbn [fold_left]; lia).
  destruct (gop_hash_loop C 32 q1 false (Some k) (q_items q)) as [[[q3 l] st]|] eqn:EL; [|discriminate]. cbn [obind]. destruct (is_ok st) eqn:ES; cbn [negb]; [|intros E; injection E as <- ->; discriminate].
  assert (st = SV_OK) as -> by (destruct st; try discriminate; reflexivity). destruct (gop_loop_chain oid HD _ q1 _ _ [] _ _ eq_refl H1 EL) as (ys & Q1 & Q2 & Q3 & Q4). cbn [app] in Q2.
  destruct (nth_error l k) as [sei|] eqn:EK; [|discriminate]. destruct (read_hash 32 (x_hash sei)) as [x|] eqn:ER; [|discriminate]. cbn [obind].
  apply read_inv in ER as [HX LX]. destruct (gop_hash_add C _ x) as [[q4 st4]|] eqn:EA; [|discriminate]. cbn [obind]. destruct (is_ok st4) eqn:ES4; cbn [negb]; [|intros E; injection E as <- ->; discriminate].
  assert (st4 = SV_OK) as -> by (destruct st4; try discriminate; reflexivity).
  assert (EO : h_type (d_handle (q_dec (set_q_items l q3))) = oid) by (rewrite Q1; reflexivity).
  destruct (add_chain (set_q_items l q3) x q4 oid ys EO HD LX Q2 EA) as [R1 R2]. intros E. injection E as <-. exists oid, (ys ++ [x]). split; [exact HD|]. split; [exact R2|].
  assert (EI : q_items q4 = l) by (rewrite R1; reflexivity). cbn [q_items q_on_items set_q_items]. rewrite EI. rewrite <- and_assoc. split.
  2:{ rewrite R1 at 1. rewrite Q1. reflexivity. }
  apply nth_error_split in EK as (l1 & l2 & -> & <-). rewrite set_nth_at. apply Forall2_app_inv_r in Q3 as (m1 & m2 & F1 & F2 & EQ). inversion F2 as [|a b m2' l2' U1 U2 E1 E2]. subst m2 b l2'. rewrite EQ in *.
  assert (a = it0). { rewrite nth_error_app2 in EN by (rewrite <- (Forall2_len _ _ _ F1); lia). rewrite (Forall2_len _ _ _ F1), Nat.sub_diag in EN. cbn in EN. congruence. }
  subst a. assert (IC : incl ys (ys ++ [x])) by (intros z Hz; apply in_or_app; left; exact Hz).
  split; [|apply Forall_app; split; [exact Q4|]; constructor; [|constructor]; split; [exact LX|]; exists it0; split; [apply in_or_app; right; left; reflexivity|]; split; [exact NM|]; left; rewrite HX; destruct U1 as [->|(-> & _)]; reflexivity].
  apply Forall2_app; [eapply usteps_mono; [exact IC|exact F1]|]. constructor; [|eapply usteps_mono; [exact IC|exact U2]].
  right. assert (x_hash sei = x_hash it0) by (destruct U1 as [->|(-> & _)]; reflexivity). split; [destruct U1 as [->|(-> & _)]; reflexivity|]. split; [exact NM|]. exists x. split; [apply in_or_app; right; left; reflexivity|]. split; [exact LX|]. left. congruence.
Qed.

(** *** Preparing a validation *)
Lemma tlv_same f : forall d p rem st d2, l_tlv_loop C f d p rem st = Def (d2, SV_OK) -> tlv_decode_loop C f d p rem st = Def (d2, SV_OK).
Proof.
  induction f as [|f IH]; intros d p rem st d2; cbn [l_tlv_loop tlv_decode_loop]; destruct (rem =? 0); auto.
  destruct (decode_tlv_header p) as [[[[[tag len] hsz] p1]|]|]; cbn [obind]; auto.
  assert (G : forall d1 st1, l_decode_tag C d tag p1 len = Def (d1, st1) -> is_ok st1 = true -> decode_tag C d tag p1 len = Def (d1, st1)).
  { intros d1 st1. unfold l_decode_tag. destruct (N.eqb_spec tag 1) as [->|]; [|auto]. unfold l_decode_general. destruct (read_8bits p1) as [[ver z]|]; [|discriminate]. cbn [obind]. dif; [|auto]. intros E. injection E as <- <-. discriminate. }
  destruct (l_decode_tag C d tag p1 len) as [[d1 st1]|]; [|discriminate]. cbn [obind]. destruct (is_ok st1) eqn:ES.
  - rewrite (G _ _ eq_refl ES). cbn [obind]. rewrite ES. apply IH.
  - intros E. injection E as <- ->. discriminate.
Qed.
Lemma fromn_tlv d n : from_nalu c d n -> n_gop_sei n = true -> tlv_of c d (n_tlv_mem n) (n_tlv_size n) /\ bytes_ok (n_tlv_mem n) /\ sv_sei c d = true.
Proof.
  intros (p & P1 & P2 & P3 & P4 & P5 & P6 & P7) EG. unfold AuthProofs.flags in P2. injection P2 as F1 F2 F3 F4 F5 F6 F7 F8 F9.
  split; [|split; [exact P5|unfold sv_sei; rewrite P1; congruence]]. exists p. split; [exact P1|]. split; [congruence|]. split; [exact F6|]. rewrite F6. exact P6.
Qed.
Lemma sei_decoded hist d n q q2 : In d (added hist) -> from_nalu c d n -> n_gop_sei n = true -> ldinv hist (q_dec q) -> l_decode_sei C q n = Def (q2, SV_OK) ->
  ldinv hist (q_dec q2) /\ (q_items q2, q_hash q2, q_codec q2, q_signing q2) = (q_items q, q_hash q, q_codec q, q_signing q) /\
  sv_sei c d = true /\ exists fs, sei_fields c d fs /\ match last_list fs with Some l => d_list (q_dec q2) = l | None => d_list (q_dec q2) = [] \/ some_list c hist (d_list (q_dec q2)) end.
Proof.
  intros HI HF EG [DG DL]. destruct (fromn_tlv _ _ HF EG) as (TO & BO & SV). unfold l_decode_sei. cbv zeta. unfold l_tlv_decode. destruct (n_tlv_size n =? 0); [discriminate|].
  destruct (l_tlv_loop C _ _ _ _ _) as [[d1 st1]|] eqn:EL; [|discriminate]. cbn [obind]. destruct (is_ok st1) eqn:ES; cbn [negb]; [|intros E; injection E as <- ->; discriminate].
  assert (st1 = SV_OK) as -> by (destruct st1; try discriminate; reflexivity). apply tlv_same in EL.
  pose proof (loop_walk C _ _ (S (length (n_tlv_mem n))) (q_dec q) (n_tlv_mem n) (n_tlv_size n) SV_INVALID_PARAMETER BO DG (fun x Hx => seen_piece c hist d _ _ x HI TO Hx)) as LW.
  rewrite EL in LW. cbn [holds] in LW. destruct LW as (DG1 & fs & z & r2 & W & LL & LO). destruct (LO eq_refl) as (R0 & LO1 & _). subst r2. clear LO.
  intros E. assert (EQ : q_dec q2 = d1 /\ (q_items q2, q_hash q2, q_codec q2, q_signing q2) = (q_items q, q_hash q, q_codec q, q_signing q)) by (injection E as <-; dif; split; reflexivity).
  destruct EQ as [-> EQ]. split; [|split; [exact EQ|split; [exact SV|]]].
  - split; [exact DG1|]. destruct LL as [LL|(vv & LL)]; [rewrite LL; exact DL|]. right. exists d, (n_tlv_mem n), (n_tlv_size n), fs, z, 0, vv. auto.
  - exists fs. split; [exists (n_tlv_mem n), (n_tlv_size n), z; auto|]. destruct (last_list fs); [exact LO1|]. rewrite LO1. exact DL.
Qed.
Lemma ltrk_ustep hist Cur g l m xs : ltrk (ltk hist nobody Cur) g l -> Forall2 (ustep xs) l m -> ltrk (ltk hist (fun d => exists x, In x xs /\ length x = 32%nat /\ kn d x) Cur) g m.
Proof.
  intros T. revert m. induction T as [|d it g l TD T IH|it g l M T IH]; intros m HF; inversion HF as [|a b l' m' U1 U2]; subst; [constructor|constructor 2; [|auto]|constructor 3; [|auto]].
  - destruct U1 as [->|(-> & NM & x & X1 & X2 & X3)]; [refine (ltk_mono hist nobody _ Cur Cur d _ _ (fun _ H => H) TD); intros ? []|]. pose proof (used_kn _ _ _ _ _ _ TD X3) as KX. destruct TD as ((B1 & B2 & B3 & B4) & T2 & T3 & T4 & T5).
    split; [split; [exact B1|split; [exact B2|split; [exact B3|exact B4]]]|]. split; [exact T2|]. split; [intros _; exists x; auto|]. split; [exact T4|exact T5].
  - destruct U1 as [->|(_ & NM & _)]; [exact M|contradiction].
Qed.
Lemma one_ustep xs l m : Forall2 (ustep xs) l m -> onedec l -> onedec m.
Proof.
  assert (PS : forall a b, ustep xs a b -> psei b = psei a /\ x_decoded b = x_decoded a) by (intros a b [->|(-> & _)]; split; reflexivity).
  assert (UD : forall l m, Forall2 (ustep xs) l m -> Forall undec l -> Forall undec m).
  { induction 1 as [|a b l0 m0 U1 U2 IH]; intros HF; [constructor|]. apply Forall_cons_iff in HF as [H0 HF]. destruct (PS _ _ U1) as [P1 P2]. constructor; [|auto]. unfold undec. rewrite P1, P2. exact H0. }
  induction 1 as [|a b l0 m0 U1 U2 IH]; cbn [onedec]; [auto|]. destruct (PS _ _ U1) as [-> ->]. destruct (psei a); [|exact IH]. intros [H1 H2]. split; [exact H1|eapply UD; eassumption].
Qed.

(** The last steps: the public key is there and the signature is verified. *)
Definition prepared (hist : list vop) (g : list (list N)) (q : lsv) : Prop :=
  exists U, ltrk (ltk hist U (curof hist q)) g (q_items q) /\ onedec (q_items q) /\ ldinv hist (q_dec q) /\ q_codec q = c /\
    (forall d, U d -> in_chain C c hist (firstn 32 (q_hash q)) d) /\ (d_hash_type (q_dec q) = 1 -> Forall (fun it => x_used it = false) (q_items q)).
Lemma verified_ready hist g q q2 : prepared hist g q -> l_verify_hash C q = (q2, SV_OK) -> lready hist g q2 /\ q_signing q2 = q_signing q.
Proof.
  intros (U & T & ON & DI & EC & HU & HL). unfold l_verify_hash. destruct (d_sig (q_dec q)) as [sig|] eqn:ES; [|discriminate]. destruct (d_vkey (q_dec q)) as [key|] eqn:EK; [|discriminate]. dif; [discriminate|].
  intros E. injection E as <-. split; [|reflexivity]. exists U. cbn [q_items q_dec q_codec q_hash q_verified set_q_verified]. split; [exact T|]. split; [exact ON|]. split; [exact DI|]. split; [exact EC|]. split; [apply HV|].
  split; [|split; [exact HU|exact HL]]. intros E. destruct DI as [DG DL]. assert (EH : qhs q = 32%nat) by (eapply lvhs; exact DG). rewrite EH in E. destruct DG as (D1 & D2 & _).
  exists key, (firstn (N.to_nat (d_sig_size (q_dec q))) sig). split; [apply D1, EK|]. split; [|exact E]. destruct (D2 _ ES) as (s & mem & sz & S1 & S2 & S3). exists s, mem, sz. split; [exact S1|]. split; [exact S2|]. eapply piece_trans; [apply piece_firstn|exact S3].
Qed.
Lemma verify_hash_inv q q2 st : l_verify_hash C q = (q2, st) -> exists r, q2 = q \/ q2 = set_q_verified r q.
Proof. unfold l_verify_hash. destruct (d_sig (q_dec q)); [destruct (d_vkey (q_dec q)); [dif|]|]; intros E; injection E as <- _; eexists; (left; reflexivity) || (right; reflexivity). Qed.

Lemma curok0 hist ls ty h h2 d : ty <> 1 -> curok hist ls ty h d -> curok hist ls ty h2 d.
Proof. intros N (A & B & _ & F). split; [exact A|]. split; [exact B|]. split; [congruence|exact F]. Qed.

Definition decready (hist : list vop) (g : list (list N)) (q : lsv) : Prop :=
  ltrk (ltk hist nobody (curof hist q)) g (q_items q) /\ onedec (q_items q) /\ ldinv hist (q_dec q) /\ q_codec q = c.
Lemma firstn_put k dst x y : put_at 0 dst x = Def y -> length x = k -> firstn k y = x.
Proof. unfold put_at. destruct (_ <=? _)%nat; [|discriminate]. intros E HL. injection E as <-. cbn [firstn app]. rewrite <- HL, firstn_app, Nat.sub_diag, firstn_all. cbn. apply app_nil_r. Qed.
Lemma at_app {A} (a : list A) x b : nth_error (a ++ x :: b) (length a) = Some x.
Proof. rewrite nth_error_app2, Nat.sub_diag by lia. reflexivity. Qed.

Lemma dec_step hist g q a it b q2 :
  q_items q = a ++ it :: b -> psei it = true -> Forall (fun x => psei x = false) a ->
  ltrk (ltk hist nobody (curof hist q)) g (q_items q) -> fdec (q_items q) -> ldinv hist (q_dec q) -> q_codec q = c ->
  (if x_decoded it then Def (q, SV_OK)
   else do n <- deref (x_nalu it);
        do (q, st) <- l_decode_sei C q n;
        if negb (is_ok st) then Def (q, st)
        else let q := q_on_items (set_nth (length a) (set_x_decoded true)) q in
             if d_hash_type (q_dec q) =? 1 then
               do x <- read_hash 32 (x_hash it); do y <- put_at 0 (q_hash q) x; Def (set_q_hash y q, SV_OK)
             else Def (q, SV_OK)) = Def (q2, SV_OK) ->
  decready hist g q2 /\ q_items q2 = a ++ set_x_decoded true it :: b /\ q_signing q2 = q_signing q /\ gs_sei (q_gs q2) = gs_sei (q_gs q).
Proof.
  intros EI PS PA T FD DI EC. destruct (x_decoded it) eqn:ED.
  - intros E. injection E as <-. assert (EQ : set_x_decoded true it = it) by (destruct it; cbn in ED; subst; reflexivity). rewrite EQ.
    split; [|auto]. split; [exact T|]. split; [|split; [exact DI|exact EC]]. rewrite EI in *. apply onedec_at; auto. split; [exact ED|]. eapply fdec_at; eassumption.
  - rewrite EI in T, FD. assert (UB : Forall undec b) by (eapply fdec_at; eassumption).
    destruct (ltrk_split _ _ _ _ T) as (g1 & g2 & -> & T1 & T2). inversion T2 as [|d it' g' l' TD T'|it' g' l' M T']; subst.
    2:{ apply missing_sei in M as [M _]. congruence. }
    assert (PN : exists n, x_nalu it = NOk n /\ from_nalu c d n /\ n_gop_sei n = true /\ In d (added hist) /\ kn d (x_hash it)).
    { destruct TD as ((B1 & B2 & _ & [B4|(n & B4 & B5 & _)]) & _).
      - exfalso. unfold psei, lsei in PS. rewrite B4 in PS. discriminate.
      - exists n. split; [exact B4|]. split; [exact B5|]. split; [unfold psei, lsei in PS; rewrite B4 in PS; apply andb_true_iff in PS; apply PS|auto]. }
    destruct PN as (n & EN & FN & GN & HI & HKn). rewrite EN. cbn [deref obind].
    destruct (l_decode_sei C q n) as [[q1 st1]|] eqn:EL; [|discriminate]. cbn [obind]. destruct (is_ok st1) eqn:ES; cbn [negb]; [|intros E; injection E as <- ->; discriminate].
    assert (st1 = SV_OK) as -> by (destruct st1; try discriminate; reflexivity).
    assert (GS : gs_sei (q_gs q1) = gs_sei (q_gs q)).
    { clear - EL. unfold l_decode_sei in EL. cbv zeta in EL. destruct (l_tlv_decode C _ _ _) as [[d1 st1]|]; [|discriminate]. cbn [obind] in EL. destruct (is_ok st1) eqn:ES; cbn [negb] in EL; [|injection EL as <- ->; discriminate]. injection EL as <-. dif; reflexivity. }
    destruct (sei_decoded _ _ _ _ _ HI FN GN DI EL) as (DI1 & EQ & SV & fs & F1 & F2). assert (EQ1 : q_items q1 = q_items q) by congruence. assert (EQ3 : q_codec q1 = q_codec q) by congruence. assert (EQ4 : q_signing q1 = q_signing q) by congruence. clear EQ. cbv zeta.
    assert (FIN : forall q2, q_items q2 = a ++ set_x_decoded true it :: b -> q_dec q2 = q_dec q1 -> (d_hash_type (q_dec q2) = 1 -> kn d (firstn 32 (q_hash q2))) -> q_codec q2 = q_codec q1 -> decready hist (g1 ++ d :: g') q2).
    { intros q3 I3 D3 K3 C3. split; [|split; [|split; [rewrite D3; exact DI1|congruence]]].
      - rewrite I3. apply ltrk_app; [|constructor 2].
        + eapply ltrk_impl; [|exact T1]. intros x y Hy. apply ltk_cur. intros E. rewrite Forall_forall in PA. rewrite (PA _ Hy) in E. discriminate.
        + destruct TD as (B & X2 & X3 & X4 & X5). split; [exact B|]. split; [exact X2|]. split; [exact X3|]. split; [|exact X5]. intros _ _. split; [exact HI|]. split; [exact SV|]. split; [exact K3|]. exists fs. split; [exact F1|]. rewrite D3. exact F2.
        + eapply ltrk_impl; [|exact T']. intros x y Hy. apply ltk_cur. rewrite Forall_forall in UB. apply UB, Hy.
      - rewrite I3. apply onedec_at; auto. }
    assert (I1 : q_items (q_on_items (set_nth (length a) (set_x_decoded true)) q1) = a ++ set_x_decoded true it :: b) by (cbn [q_items q_on_items set_q_items]; rewrite EQ1, EI; apply set_nth_at).
    destruct (N.eqb_spec (d_hash_type (q_dec (q_on_items (set_nth (length a) (set_x_decoded true)) q1))) 1) as [E1|E1].
    + destruct (read_hash 32 (x_hash it)) as [x|] eqn:ER; [|discriminate]. cbn [obind]. destruct (put_at 0 _ x) as [y|] eqn:EP; [|discriminate]. cbn [obind]. intros E.
      assert (E' : q2 = set_q_hash y (q_on_items (set_nth (length a) (set_x_decoded true)) q1)) by congruence. subst q2. clear E. apply read_inv in ER as [EX LX]. apply (firstn_put 32) in EP; [|exact LX].
      split; [|split; [exact I1|split; [exact EQ4|exact GS]]]. apply FIN; [exact I1|reflexivity| |reflexivity]. intros _. cbn [q_hash set_q_hash]. rewrite EP, EX. apply kn_firstn, HKn.
    + intros E. assert (E' : q2 = q_on_items (set_nth (length a) (set_x_decoded true)) q1) by congruence. subst q2. clear E.
      split; [|split; [exact I1|split; [exact EQ4|exact GS]]]. apply FIN; [exact I1|reflexivity| |reflexivity]. intros E. contradiction.
Qed.
Lemma decready_prepared hist g q : decready hist g q -> prepared hist g q.
Proof.
  intros (T & ON & DI & EC). exists nobody. split; [exact T|]. split; [exact ON|]. split; [exact DI|]. split; [exact EC|]. split; [intros d []|]. intros _. eapply nobody_unused, T.
Qed.
Lemma verify_gs q q2 st : l_verify_hash C q = (q2, st) -> q_signing q2 = q_signing q.
Proof. intros E. apply verify_hash_inv in E as (r & [->| ->]); reflexivity. Qed.

Lemma prepare_ready hist g q q2 :
  ltrk (ltk hist nobody (curof hist q)) g (q_items q) -> fdec (q_items q) -> ldinv hist (q_dec q) -> q_codec q = c -> gs_sei (q_gs q) = true ->
  l_prepare C q = Def (q2, SV_OK) -> lready hist g q2 /\ q_signing q2 = q_signing q.
Proof.
  intros T FD DI EC GS. unfold l_prepare. cbv zeta. assert (EH : qhs q = 32%nat) by (destruct DI as [DG _]; eapply lvhs; exact DG). rewrite EH.
  destruct (l_next_sei (q_items q)) as [[k|]|] eqn:EN; cbn [obind]; [| |discriminate].
  2:{ change (is_ok SV_OK) with true. cbn [negb]. dif; [discriminate|]. rewrite GS. cbn [obind]. intros E. injection E as E. apply (verified_ready hist g) in E; [exact E|].
      apply next_none in EN. apply decready_prepared. split; [exact T|]. split; [apply nopsei_one, EN|auto]. }
  destruct (next_split _ _ EN) as (a & it & b & EI & EL & PS & PA). subst k. rewrite EI at 1. rewrite at_app.
  destruct (if x_decoded it then _ else _) as [[q1 st1]|] eqn:E1; [|discriminate]. cbn [obind]. destruct (is_ok st1) eqn:ES1; cbn [negb obind]; [|intros E; rewrite ES1 in E; cbn [negb] in E; injection E as _ ->; discriminate].
  assert (st1 = SV_OK) as -> by (destruct st1; try discriminate; reflexivity).
  destruct (dec_step _ _ _ _ _ _ _ EI PS PA T FD DI EC E1) as (DR & I1 & SG & G1). clear E1.
  assert (UN : x_used it = false). { apply nobody_unused in T. rewrite EI in T. apply Forall_app in T as [_ T]. apply Forall_cons_iff in T as [T _]. exact T. }
  rewrite UN. cbn [negb andb].
  assert (FIN : forall q3 st3, prepared hist g q3 -> q_signing q3 = q_signing q -> gs_sei (q_gs q3) = true ->
    (if negb (is_ok st3) then Def (q3, st3) else if q_signing q3 && negb (d_has_pub (q_dec q3)) then Def (q3, SV_NOT_SUPPORTED)
     else do golden <- (if gs_sei (q_gs q3) then Def true else match q_items q3 with [] => Undef NullDeref | it :: _ => do n <- deref (x_nalu it); Def (n_golden n) end);
          if golden then Def (l_verify_hash C q3) else Def (q3, SV_OK)) = Def (q2, SV_OK) -> lready hist g q2 /\ q_signing q2 = q_signing q).
  { intros q3 st3 P3 S3 G3. destruct (is_ok st3) eqn:ES3; cbn [negb]; [|intros E; injection E as _ ->; discriminate]. dif; [discriminate|]. rewrite G3. cbn [obind]. intros E. injection E as E. apply (verified_ready hist g) in E; [|exact P3]. destruct E as [E E']. split; [exact E|]. congruence. }
  destruct (N.eqb_spec (d_hash_type (q_dec q1)) 0) as [T0|T0].
  2:{ cbn [obind]. apply FIN; [apply decready_prepared; auto|exact SG|congruence]. }
  destruct (l_gop_hash C q1 (length a)) as [[q3 st3]|] eqn:EG; [|discriminate]. cbn [obind]. destruct (is_ok st3) eqn:ES3; cbn [negb obind]; [|intros E; rewrite ES3 in E; cbn [negb] in E; injection E as _ ->; discriminate].
  assert (st3 = SV_OK) as -> by (destruct st3; try discriminate; reflexivity).
  destruct DR as (T1 & ON & DI1 & EC1).
  destruct (gop_chain (seen c hist) (key_seen c hist) q1 (length a) (set_x_decoded true it) q3) as (oid & xs & HD & EX & US & FI & E3).
  { apply DI1. } { rewrite I1. apply at_app. } { intros (M & _). cbn in M. unfold psei, lsei in PS. rewrite M in PS. discriminate. } { exact EG. }
  destruct (read_hash 32 (q_hashes q3)) as [x|] eqn:ER; [|discriminate]. cbn [obind]. destruct (put_at 0 (q_hash q3) x) as [y|] eqn:EP; [|discriminate]. cbn [obind].
  apply read_inv in ER as [EXX LX]. apply (firstn_put 32) in EP; [|exact LX]. rewrite EX in EXX. clear EG.
  apply FIN; [|rewrite E3; exact SG|rewrite E3; cbn [set_q_hash set_q_hashes set_q_items q_gs]; congruence].
  exists (fun d => exists x, In x xs /\ length x = 32%nat /\ kn d x).
  assert (ED : q_dec q3 = q_dec q1) by (rewrite E3; reflexivity).
  cbn [q_items q_dec q_codec q_hash set_q_hash]. rewrite ED. split; [|split; [eapply one_ustep; eassumption|split; [exact DI1|split; [rewrite E3; exact EC1|split]]]].
  - eapply ltrk_impl; [|eapply ltrk_ustep; [exact T1|exact US]]. intros d i _. apply ltk_mono; [auto|]. intros z. unfold curof. cbn [q_dec q_hash set_q_hash]. rewrite ED. apply curok0. rewrite T0. discriminate.
  - intros d (z & Z1 & Z2 & Z3). rewrite EP, EXX. exists oid, xs, z. split; [exact HD|]. split; [reflexivity|]. split; [|split; [exact Z1|exact Z3]]. eapply Forall_impl; [|exact FI]. intros w (W1 & i & W2 & W3 & W4). split; [exact W1|].
    destruct (ltrk_at _ _ _ _ T1 W2 W3) as (e & TE). exists e. split; [exact (proj1 (proj1 TE))|exact (used_kn _ _ _ _ _ _ TE W4)].
  - rewrite T0. discriminate.
Qed.
Lemma prepare_none q q2 : Forall (fun x => psei x = false) (q_items q) -> l_prepare C q = Def (q2, SV_OK) -> exists r, q2 = q \/ q2 = set_q_verified r q.
Proof.
  intros HF. unfold l_prepare. cbv zeta. destruct (l_next_sei (q_items q)) as [[k|]|] eqn:EN; cbn [obind]; [| |discriminate].
  { destruct (next_split _ _ EN) as (a & it & b & EI & _ & PS & _). rewrite EI in HF. apply Forall_app in HF as [_ HF]. apply Forall_cons_iff in HF as [HF _]. congruence. }
  change (is_ok SV_OK) with true. cbn [negb]. dif; [discriminate|]. destruct (if gs_sei (q_gs q) then _ else _) as [[|]|]; cbn [obind]; [| |discriminate]; intros E; injection E as E.
  - eapply verify_hash_inv, E.
  - exists 0%Z. left. auto.
Qed.

(** *** When to validate *)
Definition pgok (s : pgst) : Prop := g_sei s = true \/ g_after s = true \/ g_last s = Some true -> g_has s = true.
Lemma pending_has hist U Cur l : forall g s s2, ltrk (ltk hist U Cur) g l -> pgok s -> l_pending_loop true s l = Def (s2, true) -> g_has s2 = true.
Proof.
  induction l as [|it l IH]; intros g s s2 T PG; cbn [l_pending_loop]; [discriminate|].
  assert (GO : forall s1 g1, ltrk (ltk hist U Cur) g1 l -> pgok s1 ->
    (if ((0 <? g_ends s1)%nat && g_sei s1) || g_after s1 then Def (s1, true) else l_pending_loop true s1 l) = Def (s2, true) -> g_has s2 = true).
  { intros s1 g1 T1 P1. destruct (_ || _) eqn:EF; [|eapply IH; eassumption]. intros E. injection E as <-. apply P1. apply orb_true_iff in EF as [EF|EF]; [apply andb_true_iff in EF as [_ EF]; left; exact EF|right; left; exact EF]. }
  inversion T as [|d it' g' l' TD T'|it' g' l' M T']; subst.
  - destruct TD as ((_ & _ & _ & [E|(n & E & FN & VP)]) & _); rewrite E; cbn [look obind]; [discriminate|]. apply (GO _ g'); [exact T'|]. unfold pgok.
    destruct (x_pending it) eqn:EP; destruct (n_hashable n) eqn:EH; cbn [andb]; cbn [g_sei g_after g_last g_has]; [|intros H; rewrite (PG H); reflexivity..].
    intros H. destruct (n_gop_sei n) eqn:EG; [rewrite (proj2 (Z.ltb_lt _ _) (VP eq_refl)); cbn [andb]; apply orb_true_r|].
    rewrite PG; [reflexivity|]. rewrite orb_false_r in H. destruct H as [H|[H|H]]; [auto| |discriminate]. apply orb_true_iff in H as [H|H]; [auto|]. right. right. destruct (g_last s) as [[|]|]; auto; discriminate.
  - destruct M as (E & _). rewrite E. cbn [look obind]. apply (GO _ g); assumption.
Qed.
Lemma pg0 : pgok (mkPg 0 false false None false).
Proof. intros [H|[H|H]]; discriminate. Qed.

Lemma other_type d t m s : t <> 1 -> t <> 5 -> holds (decode_tag C d t m s) (fun '(d', _) => d_hash_type d' = d_hash_type d) (fun _ => True).
Proof.
  intros HT HT5. unfold decode_tag.
  repeat lazymatch goal with |- holds (match ?t with _ => _ end) _ _ => destruct t; try exact I end; try congruence;
    unfold decode_crypto, decode_product, decode_arbitrary, decode_hash_list, decode_public_key; cbv zeta;
    repeat first [exact I | reflexivity
      | lazymatch goal with |- holds (obind ?x _) _ _ => first [destruct x as [[[? ?] ?]|] | destruct x as [[? ?]|] | destruct x]; cbn [obind] end
      | dif].
Qed.
Lemma opt_type f : forall d p rem any, holds (opt_loop C f d p rem any) (fun '(d', _) => d_hash_type d' = d_hash_type d) (fun _ => True).
Proof.
  induction f as [|f IH]; intros d p rem any; cbn [opt_loop]; destruct (rem =? 0); try exact I; try reflexivity.
  destruct (decode_tlv_header p) as [[[[[tag len] hsz] q]|]|]; [|reflexivity|exact I]. cbn [obind]. dif; [exact I|]. destruct (always_present tag) eqn:EA; [apply IH|].
  pose proof (other_type d tag q len ltac:(intros ->; discriminate) ltac:(intros ->; discriminate)) as HO. destruct (decode_tag C d tag q len) as [[d1 st1]|]; [|exact I]. cbn [obind holds] in *. dif; [|exact HO].
  eapply holds_impl; [apply IH| |auto]. intros [d2 b2] E. congruence.
Qed.
Lemma recurrent_inv hist U Cur g q q2 b : ltrk (ltk hist U Cur) g (q_items q) -> ldinv hist (q_dec q) -> l_recurrent C q = Def (q2, b) ->
  exists d, q2 = set_q_dec d q /\ ldinv hist d /\ d_list d = d_list (q_dec q) /\ d_hash_type d = d_hash_type (q_dec q).
Proof.
  intros T HD. unfold l_recurrent. dif; [intros E; injection E as <- <-; exists (q_dec q); split; [destruct q; reflexivity|auto]|].
  assert (G : forall l g d, ltrk (ltk hist U Cur) g l -> ldinv hist d -> holds (l_recurrent_loop C d l) (fun '(d', _) => ldinv hist d' /\ d_list d' = d_list d /\ d_hash_type d' = d_hash_type d) (fun _ => True)).
  { clear T HD g q. induction l as [|it l IH]; intros g d T HD; cbn [l_recurrent_loop]; [split; auto|]. inversion T as [|x a' g' l' TD T'|a' g' l' M T']; subst.
    2:{ destruct M as (M & _). rewrite M. cbn [look obind]. eapply IH; eassumption. }
    destruct TD as ((B1 & _ & _ & [E|(n & E & FN & _)]) & _); rewrite E; cbn [look obind]; [exact I|]. destruct (n_gop_sei n) eqn:EG; cbn [andb]; [|eapply IH; eassumption]. dif; [|eapply IH; eassumption].
    destruct (fromn_tlv _ _ FN EG) as (TO & BO & _). apply holds_bind. destruct HD as (D1 & D2).
    assert (H1 : holds (decode_optional C d (n_tlv_mem n) (n_tlv_size n)) (fun '(d', _) => dgood C (seen c hist) (key_seen c hist) d' /\ dstay d d') (fun _ => True)).
    { unfold decode_optional. dif; [split; [exact D1|repeat split]|]. apply opt_walk; [exact BO|exact D1|]. intros y. apply (seen_piece c hist x _ _ y B1 TO). }
    assert (H2 : holds (decode_optional C d (n_tlv_mem n) (n_tlv_size n)) (fun '(d', _) => d_hash_type d' = d_hash_type d) (fun _ => True)) by (unfold decode_optional; dif; [reflexivity|apply opt_type]).
    destruct (decode_optional C d _ _) as [[d1 any]|]; [|exact I]. cbn [holds] in *. destruct H1 as [H1 (_ & H3 & _)].
    assert (HD1 : ldinv hist d1) by (split; [exact H1|rewrite H3; exact D2]). destruct any; [split; auto|]. eapply holds_impl; [eapply IH; eassumption| |auto]. intros [d2 b2] (F1 & F2 & F3). split; [exact F1|]. split; congruence. }
  specialize (G _ _ _ T HD). destruct (l_recurrent_loop C (q_dec q) (q_items q)) as [[d b2]|]; [|discriminate]. cbn [obind]. intros E. injection E as <- <-. exists d. split; [reflexivity|exact G].
Qed.
Lemma linv_ext hist g q q2 : lfr q2 = lfr q -> q_items q2 = q_items q -> linv hist g q -> linv hist g q2.
Proof.
  intros E EI (T & FD & SG & DI & EC & NS). split; [rewrite EI, (lfr_cur _ _ _ E); exact T|]. split; [rewrite EI; exact FD|]. split; [exact SG|]. split; [eapply lfr_dinv; eassumption|]. unfold lfr in E. injection E as _ _ _ _ _ _ _ E1 E2. split; [congruence|]. rewrite E2. exact NS.
Qed.
Lemma linv_lev hist g q m X Z : lev X Z (q_items q) m -> (forall it, ~ X it) -> linv hist g q -> linv hist g (set_q_items m q).
Proof.
  intros HE HX (T & FD & SG & DI & EC & NS). split; [|split; [|auto]].
  - cbn [q_items set_q_items]. eapply ltrk_lev; [exact HE| |exact T]. intros d a _ H. destruct (HX _ H).
  - cbn [q_items set_q_items]. eapply lev_fdec; eassumption.
Qed.
Lemma nosign_psei hist g q : linv hist g q -> q_signing q = false -> Forall (fun x => psei x = false) (q_items q).
Proof.
  intros (T & _ & _ & _ & _ & NS) E. specialize (NS E). revert T NS. generalize (q_items q) as l. intros l T. induction T as [|d it g l TD T IH|it g l M T IH]; intros NS; constructor; auto.
  - apply Forall_cons_iff in NS as [NS _]. destruct TD as ((_ & _ & _ & [EN|(n & EN & FN & _)]) & _); unfold psei, lsei; rewrite EN; [reflexivity|]. destruct (n_gop_sei n) eqn:EG; [|reflexivity]. destruct (fromn_tlv _ _ FN EG) as (_ & _ & SV). congruence.
  - apply IH. apply Forall_cons_iff in NS as [_ NS]. exact NS.
  - apply missing_sei in M as [M _]. exact M.
Qed.
Lemma loop_linv hist g f : forall q stop q2, linv hist g q -> l_validate_loop C f q stop = Def (q2, SV_OK) -> linv hist g q2.
Proof.
  induction f as [|f IH]; intros q stop q2 HI; cbn [l_validate_loop].
  - unfold l_has_pending. destruct (l_pending_loop _ _ _) as [[s found]|]; [|discriminate]. cbn [obind]. dif; [|discriminate]. intros E. injection E as <-. eapply linv_ext; [| |exact HI]; reflexivity.
  - unfold l_has_pending at 1. destruct (l_pending_loop (q_signing q) _ (q_items q)) as [[s found]|] eqn:EP; [|discriminate]. cbn [obind]. destruct (negb found || stop) eqn:EF; [intros E; injection E as <-; eapply linv_ext; [| |exact HI]; reflexivity|].
    destruct found; [|discriminate EF]. cbv zeta.
    match goal with |- context [l_prepare C ?z] => set (q1 := z) end. assert (HI1 : linv hist g q1) by (eapply linv_ext; [| |exact HI]; reflexivity).
    assert (GS : gs_sei (q_gs q1) = g_has s) by reflexivity. assert (S1 : q_signing q1 = q_signing q) by reflexivity. clearbody q1.
    destruct (l_prepare C q1) as [[q3 st3]|] eqn:EQ; [|discriminate]. cbn [obind]. destruct (is_ok st3) eqn:ES; cbn [negb]; [|intros E; injection E as <- ->; discriminate].
    assert (st3 = SV_OK) as -> by (destruct st3; try discriminate; reflexivity).
    assert (GO : forall q4, linv hist g q4 -> (let stop0 := negb (q_signing q4) in let q := set_q_first (negb (q_signing q4)) q4 in
       do q0 <- (if q_reset q then do l <- l_retry (q_items q); Def (set_q_items l (set_q_first true q)) else Def q);
       (let q5 := set_q_result true (set_q_verified (-1)%Z q0) in l_validate_loop C f (q_on_latest (set_l_pend (l_num_pending (q_items q5))) q5) stop0)) = Def (q2, SV_OK) -> linv hist g q2).
    { intros q4 H4. cbv zeta. assert (H5 : linv hist g (set_q_first (negb (q_signing q4)) q4)) by (eapply linv_ext; [| |exact H4]; reflexivity). set (q5 := set_q_first _ q4) in *. clearbody q5.
      destruct (q_reset q5); cbn [obind].
      - destruct (l_retry (q_items q5)) as [l|] eqn:ER; [|discriminate]. cbn [obind]. apply IH. eapply linv_ext; [| |eapply (linv_lev _ _ q5 l)]; [reflexivity|reflexivity|eapply retry_lev, ER| |exact H5]. intros it [].
      - apply IH. eapply linv_ext; [| |exact H5]; reflexivity. }
    destruct HI1 as (T & FD & SG & DI & EC & NS).
    destruct (q_signing q1) eqn:EQS.
    + rewrite <- S1 in EP. assert (GH : g_has s = true) by (destruct HI as (T' & _); eapply pending_has; [exact T'|exact pg0|exact EP]).
      destruct (prepare_ready hist g q1 q3 T FD DI EC ltac:(congruence) EQ) as [LR S3]. rewrite S3, EQS.
      destruct (l_validate q3) as [q4|] eqn:EV; [|discriminate]. cbn [obind]. destruct (validate_linv _ _ _ _ LR EV) as (F1 & F2 & F3). apply GO.
      destruct LR as (U & _ & _ & DI3 & EC3 & _). split; [rewrite (lfr_cur _ _ _ F1); exact F2|]. split; [exact F3|]. split; [exact SG|]. split; [eapply lfr_dinv; eassumption|].
      unfold lfr in F1. injection F1 as _ _ _ _ _ _ _ F4 F5. split; [congruence|]. rewrite F5, S3, EQS. discriminate.
    + assert (HI2 : linv hist g q1) by (split; [exact T|split; [exact FD|split; [exact SG|split; [exact DI|split; [exact EC|rewrite EQS; exact NS]]]]]).
      destruct (prepare_none _ _ (nosign_psei _ _ _ HI2 EQS) EQ) as (r & EQ3). assert (S3 : q_signing q3 = false) by (destruct EQ3 as [->| ->]; exact EQS). rewrite S3. cbn [obind]. apply GO.
      eapply linv_ext; [| |exact HI2]; destruct EQ3 as [->| ->]; reflexivity.
Qed.
Lemma maybe_linv hist g f q q2 : linv hist g q -> l_maybe_validate C f q = Def (q2, SV_OK) -> linv hist g q2.
Proof.
  intros HI. unfold l_maybe_validate. destruct (l_feasible _) as [f1|]; [|discriminate]. cbn [obind]. destruct (l_recurrent C q) as [[q1 f2]|] eqn:ER; [|discriminate]. cbn [obind].
  assert (H1 : linv hist g q1).
  { pose proof HI as (T & FD & SG & DI & EC & NS). destruct (recurrent_inv _ _ _ _ _ _ _ T DI ER) as (d & -> & D1 & D2 & D3). split; [|auto].
    unfold curof in *. cbn [q_dec q_hash q_items set_q_dec]. rewrite D2, D3. exact T. }
  dif; [|apply loop_linv, H1]. dif; intros E; injection E as <-; [|exact H1]. eapply linv_ext; [| |exact H1]; reflexivity.
Qed.

(** *** A NALU is hashed *)
Lemma wrap_known d n k k2 st h hs : from_nalu c d n -> (0 < n_valid n)%Z -> hs = oid_size C (h_type (k_handle k)) -> digest C (h_type (k_handle k)) ->
  hash_wrapper C k n hs = Def (k2, st, h) -> k_handle k2 = k_handle k /\ (st = SV_OK -> exists x, h = Some x /\ length x = 32%nat /\ old_hash C c d x).
Proof.
  intros HF HVd HS HD E. pose proof (wrap_spec C c 32 HC HK k n hs d HF HVd HS HD) as W. rewrite E in W. cbn [holds] in W. destruct W as [W1 W2]. split; [exact W1|]. intros E2. destruct (W2 E2) as (x & b & X1 & X2 & X3 & X4). exists x. split; [exact X1|].
  split; [rewrite X2, HS; apply digest32, HD|]. exists b, (h_type (k_handle k)). split; [exact X3|]. split; [exact HD|].
  destruct (n_gop_sei n) eqn:EG; cbn [orb] in X4; [left; exact X4|]. destruct (_ && _); [left; exact X4|]. right. destruct X4 as (r & R1 & R2).
  split; [|exists r; split; [rewrite <- HS; exact R1|exact R2]]. destruct HF as (p & P1 & P2 & _). unfold AuthProofs.flags in P2. unfold sv_sei. rewrite P1. injection P2 as _ _ _ F _ _ _ _ _. congruence.
Qed.
Lemma put_known d dst x y : put_at 0 dst x = Def y -> length x = 32%nat -> old_hash C c d x -> kn d y.
Proof. intros EP LX HX. apply (firstn_put 32) in EP; [|exact LX]. exists x. split; [left; exact HX|]. unfold agree. rewrite EP. symmetry. rewrite <- LX. apply firstn_all. Qed.
Lemma put_lfr k q : k_handle k = d_handle (q_dec q) -> lfr (q_put_hst k q) = lfr q /\ d_handle (q_dec (q_put_hst k q)) = d_handle (q_dec q) /\ q_gs (q_put_hst k q) = q_gs q.
Proof. intros E. unfold q_put_hst, lfr, dcore. cbn. rewrite E. auto. Qed.
Lemma hash_item_inv hist d q n it q2 it2 : from_nalu c d n -> (0 < n_valid n)%Z -> ldinv hist (q_dec q) -> kn d (x_hash it) -> x_second it = None ->
  l_hash_item C q n it = Def (q2, it2, SV_OK) ->
  lfr q2 = lfr q /\ kn d (x_hash it2) /\ (forall x, x_second it2 = Some x -> kn d x) /\ (x_nalu it2, x_status it2, x_used it2, x_decoded it2) = (x_nalu it, x_status it, x_used it, x_decoded it).
Proof.
  intros HF HVd [DG _] K0 S0. unfold l_hash_item. destruct (negb (n_hashable n)); [intros E; injection E as <- <-; rewrite S0; split; [auto|split; [exact K0|split; [discriminate|reflexivity]]]|].
  assert (EV : qhs q = oid_size C (h_type (d_handle (q_dec q)))) by (destruct DG as (_ & _ & D3 & _); exact D3). assert (HD : digest C (h_type (d_handle (q_dec q)))) by apply DG.
  destruct (hash_wrapper C (q_hst q) n (qhs q)) as [[[k st] h]|] eqn:EW; [|discriminate]. cbn [obind]. cbv zeta.
  destruct (wrap_known d n (q_hst q) k st h (qhs q) HF HVd EV HD EW) as [W1 W2]. destruct (put_lfr k q W1) as (L1 & L2 & L3). set (q1 := q_put_hst k q) in *. clearbody q1.
  destruct (is_ok st) eqn:ES.
  2:{ destruct (match h with Some _ => _ | None => _ end); [|discriminate]. cbn [obind negb]. intros E. injection E as _ _ ->. discriminate. }
  assert (st = SV_OK) as -> by (destruct st; try discriminate; reflexivity). destruct (W2 eq_refl) as (x & -> & LX & HX). destruct (put_at 0 (x_hash it) x) as [y|] eqn:EP; [|discriminate]. cbn [obind negb].
  pose proof (put_known d _ _ _ EP LX HX) as KY. destruct (_ || _).
  2:{ intros E. assert (q1 = q2) by congruence. assert (EI : it2 = set_x_hash y it) by congruence. subst it2 q2. cbn [x_second x_hash set_x_hash x_nalu x_status x_used x_decoded]. rewrite S0. split; [exact L1|]. split; [exact KY|]. split; [discriminate|reflexivity]. }
  set (q3 := set_q_has_ref false q1). assert (L4 : lfr q3 = lfr q) by exact L1. assert (L5 : d_handle (q_dec q3) = d_handle (q_dec q)) by exact L2.
  assert (L6 : qhs q3 = qhs q). { unfold lfr, dcore in L4. unfold qhs. injection L4. congruence. }
  clearbody q3. destruct (hash_wrapper C (q_hst q3) n (qhs q3)) as [[[k2 st2] h2]|] eqn:EW2; [|discriminate]. cbn [obind].
  destruct (wrap_known d n (q_hst q3) k2 st2 h2 (qhs q3) HF HVd) as [V1 V2]; [cbn [q_hst k_handle]; rewrite L5, L6; exact EV|cbn [q_hst k_handle]; rewrite L5; exact HD|exact EW2|].
  destruct (put_lfr k2 q3 V1) as (M1 & M2 & M3). intros E. assert (Est : st2 = SV_OK) by congruence. destruct (V2 Est) as (x2 & -> & LX2 & HX2).
  assert (EQ : q2 = q_put_hst k2 q3) by congruence. assert (EI : it2 = set_x_second (Some x2) (set_x_hash y it)) by congruence. subst q2 it2. split; [congruence|]. cbn [x_hash x_second set_x_second set_x_hash x_nalu x_status x_used x_decoded].
  split; [exact KY|]. split; [|reflexivity]. intros z Ez. injection Ez as <-. exists x2. split; [left; exact HX2|reflexivity].
Qed.
Lemma register_inv hist (Cur : list N -> Prop) d q n q2 it : parse_nalu d c true true = Def n -> d <> [] -> bytes_ok d -> In d (added hist) -> ldinv hist (q_dec q) ->
  l_register C q n = Def (q2, it, SV_OK) -> lfr q2 = lfr q /\ ltk hist nobody Cur d it /\ undec it.
Proof.
  intros EP HD HB HI DI. destruct (parse_parts c d n EP HD) as [PF PL]. pose proof (parse_bt d c true true HB) as BT. rewrite EP in BT. cbn [holds] in BT. unfold bt in BT.
  assert (SM : status_of n <> SMiss /\ status_of n <> SValid) by (unfold status_of; repeat dif; split; discriminate).
  assert (TK : forall n2 it, x_nalu it = NOk n2 -> from_nalu c d n2 -> kn d (x_hash it) -> (forall x, x_second it = Some x -> kn d x) -> (x_pending it = true -> (0 < n_valid n2)%Z) -> x_status it = status_of n -> x_used it = false -> x_decoded it = false -> ltk hist nobody Cur d it /\ undec it).
  { intros n2 i E1 E2 E3 E4 E5 E6 E7 E8. split; [|intros _; exact E8]. split; [split; [exact HI|split; [exact E3|split; [exact E4|right; exists n2; auto]]]|]. rewrite E6, E7, E8. split; [intros E; exfalso; apply SM, E|]. split; [discriminate|]. split; [discriminate|apply SM]. }
  assert (ZK : kn d (zeros 64)) by (exists (zeros 64); split; [right; reflexivity|reflexivity]).
  unfold l_register. destruct (n_valid n =? 0)%Z eqn:EV.
  { intros E. assert (q2 = q) by congruence. assert (it = litem_create n) by congruence. subst q2 it. split; [reflexivity|]. apply (TK n); try reflexivity; [|exact ZK|discriminate|].
    - exists n. split; [exact EP|]. split; [reflexivity|]. split; [exact PF|]. split; [exact PL|]. split; [exact BT|]. split; [left; reflexivity|]. apply Z.eqb_eq in EV. lia.
    - unfold x_pending. cbn [litem_create x_status]. unfold status_of. rewrite EV. destruct (n_valid n <? 0)%Z; discriminate. }
  destruct (update_hashable n) as [n2|] eqn:EU; [|discriminate]. cbn [obind]. destruct (hashable_flags _ _ EU) as [F1 F2].
  assert (FN : from_nalu c d n2).
  { exists n. split; [exact EP|]. split; [exact F1|]. split; [exact PF|]. split; [exact PL|]. rewrite F2. split; [exact BT|]. split; [left; reflexivity|]. intros _ b HI2. exists n, n2. auto. }
  assert (VP : (0 < n_valid n2)%Z).
  { pose proof (parse_valid d c n HD EP) as H. unfold AuthProofs.flags in F1. injection F1 as -> _ _ _ _ _ _ _ _. lia. }
  intros E. destruct (hash_item_inv hist d q n2 (set_x_nalu (NOk n2) (litem_create n)) q2 it FN VP DI ZK eq_refl E) as (R1 & R2 & R3 & R4). split; [exact R1|]. injection R4 as R4 R5 R6 R7.
  apply (TK n2); auto.
Qed.
Lemma undec_snoc l it : fdec l -> undec it -> fdec (l ++ [it]).
Proof. intros HF HU. induction l as [|a l IH]; cbn [app fdec] in *; [destruct (psei it); [constructor|exact I]|]. destruct (psei a); [apply Forall_app; split; [exact HF|constructor; [exact HU|constructor]]|auto]. Qed.

(** *** A NALU is added *)
Lemma body_linv hist g d f q n q2 : parse_nalu d c true true = Def n -> d <> [] -> bytes_ok d -> In d (added hist) -> subseq (g ++ [d]) (added hist) -> linv hist g q ->
  l_add_body C f q n = Def (q2, SV_OK) -> linv hist (g ++ [d]) q2.
Proof.
  intros EP HD HB HI SG (T & FD & _ & DI & EC & NS). unfold l_add_body. cbv zeta. rewrite (parse_valid d c n HD EP).
  set (q1 := set_q_signing _ _). assert (E1 : (q_items q1, q_codec q1, q_hash q1, q_dec q1, q_signing q1) = (q_items q, q_codec q, q_hash q, q_dec q, q_signing q || n_gop_sei n)) by reflexivity. clearbody q1.
  injection E1 as E1 E2 E3 E4 E5. destruct (l_register C q1 n) as [[[q3 it] st]|] eqn:ER; [|discriminate]. cbn [obind]. destruct (is_ok st) eqn:ES; cbn [negb]; [|intros E; injection E as _ ->; discriminate].
  assert (st = SV_OK) as -> by (destruct st; try discriminate; reflexivity).
  destruct (register_inv hist (curof hist q) d q1 n q3 it EP HD HB HI ltac:(rewrite E4; exact DI) ER) as (L1 & TI & UI). apply maybe_linv.
  assert (CU : curof hist (set_q_items (q_items q ++ [it]) q3) = curof hist q).
  { transitivity (curof hist q3); [reflexivity|]. rewrite (lfr_cur _ _ _ L1). unfold curof. rewrite E3, E4. reflexivity. }
  split; [rewrite CU; cbn [q_items set_q_items]; apply ltrk_app; [exact T|constructor 2; [exact TI|constructor]]|].
  split; [cbn [q_items set_q_items]; apply undec_snoc; assumption|]. split; [exact SG|]. split; [cbn [q_dec set_q_items]; eapply lfr_dinv; [exact L1|rewrite E4; exact DI]|].
  unfold lfr in L1. cbn [q_codec q_signing set_q_items]. injection L1 as _ _ _ _ _ _ _ L2 L3. split; [congruence|]. rewrite L3, E5. intros E. apply orb_false_iff in E as [X1 X2]. apply Forall_app. split; [auto|]. constructor; [|constructor]. unfold sv_sei. rewrite EP. exact X2.
Qed.
Lemma copy_inv hist Cur g l m : ltrk (ltk hist nobody Cur) g l -> fdec l -> l_copy_last l = Def (m, SV_OK) -> ltrk (ltk hist nobody Cur) g m /\ fdec m.
Proof.
  intros T FD. unfold l_copy_last. destruct (rev l) as [|it r] eqn:ER; cbn [l_copy_rev obind]; [discriminate|]. assert (EL : l = rev r ++ [it]) by (rewrite <- (rev_involutive l), ER; reflexivity). subst l.
  destruct (ltrk_split _ _ _ _ T) as (g1 & g2 & -> & T1 & T2). inversion T2 as [|d it' g' l' TD T'|it' g' l' M T']; subst.
  2:{ destruct M as (M & _). rewrite M. cbn [look obind]. intros E. discriminate. }
  inversion T'; subst. pose proof TD as ((B1 & B2 & B3 & [EN|(n & EN & FN & VP)]) & X2 & X3 & X4 & X5); rewrite EN; cbn [look obind]; [discriminate|].
  destruct (copy_nalu true n) as [[n2 st]|] eqn:ECP; [|discriminate]. cbn [obind]. intros E. assert (st = SV_OK) as -> by congruence.
  destruct n2 as [n2|]; [|exfalso; revert ECP; unfold copy_nalu; repeat dif; discriminate]. destruct (copy_from C c 32 HK _ d _ _ ECP FN) as [F1 F2]. unfold AuthProofs.flags in F2. injection F2 as F2a F2b F2c F2d _ _ _ _ _.
  assert (EM : m = rev r ++ [set_x_own true (set_x_nalu (NOk n2) it)]) by (cbn [rev] in E; congruence). subst m. clear E.
  set (it2 := set_x_own true (set_x_nalu (NOk n2) it)). assert (PE : psei it2 = psei it) by (unfold psei, lsei, it2; cbn; rewrite EN, F2d; reflexivity).
  split.
  - apply ltrk_app; [exact T1|]. constructor 2; [|constructor]. split; [split; [exact B1|split; [exact B2|split; [exact B3|right; exists n2; split; [reflexivity|split; [exact F1|rewrite F2a; exact VP]]]]]|]. split; [exact X2|]. split; [exact X3|]. split; [rewrite PE; exact X4|exact X5].
  - assert (DE : x_decoded it2 = x_decoded it) by reflexivity. clearbody it2. clear T T1 ER. revert FD. generalize (rev r) as a. intros a. induction a as [|y a IH]; cbn [app fdec]; [rewrite PE; auto|]. destruct (psei y); [|exact IH].
    rewrite !Forall_app. intros [H1 H2]. split; [exact H1|]. apply Forall_cons_iff in H2 as [H2 H3]. constructor; [|exact H3]. unfold undec in *. rewrite PE, DE. exact H2.
Qed.
Lemma leave_inv hist Cur g l : ltrk (ltk hist nobody Cur) g l -> fdec l -> ltrk (ltk hist nobody Cur) g (leave l) /\ fdec (leave l).
Proof.
  set (f := fun it => match x_nalu it with NOk _ => if x_own it then it else set_x_nalu NDang it | _ => it end). intros T FD.
  assert (PF : forall it, psei (f it) = true -> psei it = true) by (intros [nl ow a1 a2 a3 a4 a5 a6 a7]; unfold f; cbn [x_nalu x_own]; destruct nl; try (destruct ow); auto; intros E; discriminate E).
  assert (DF : forall it, x_decoded (f it) = x_decoded it) by (intros it; unfold f; destruct (x_nalu it); try destruct (x_own it); reflexivity).
  assert (UF : forall it, undec it -> undec (f it)) by (intros it H E; rewrite DF; auto).
  change (leave l) with (map f l). split.
  - clear FD. induction T as [|d it g l TD T IH|it g l M T IH]; cbn [map]; [constructor|constructor 2; [|exact IH]|constructor 3; [|exact IH]].
    + destruct TD as ((B1 & B2 & B3 & B4) & X2 & X3 & X4 & X5).
      assert (FE : (x_hash (f it), x_second (f it), x_status (f it), x_used (f it)) = (x_hash it, x_second it, x_status it, x_used it)) by (unfold f; destruct (x_nalu it); try destruct (x_own it); reflexivity).
      injection FE as E1 E2 E3 E4. unfold ltk, lbase. rewrite E1, E2, E3, E4, DF. split; [split; [exact B1|split; [exact B2|split; [exact B3|]]]|split; [exact X2|split; [exact X3|split; [|exact X5]]]].
      * destruct B4 as [B4|(n & B4 & B5 & B6)]; [left; unfold f; rewrite B4; exact B4|]. unfold f. rewrite B4. destruct (x_own it); [right; exists n; auto|left; reflexivity].
      * intros E. apply X4, PF, E.
    + destruct M as (M1 & M2). unfold f. rewrite M1. split; assumption.
  - clear T. induction l as [|it l IH]; cbn [map fdec] in *; [exact I|]. assert (FU : Forall undec l -> Forall undec (map f l)) by (intros H; apply Forall_map; eapply Forall_impl; [exact UF|exact H]).
    destruct (psei (f it)) eqn:E; [rewrite (PF _ E) in FD; auto|]. destruct (psei it); [apply undec_fdec; auto|auto].
Qed.
Lemma h26x_linv hist g d f q q2 : d <> [] -> bytes_ok d -> In d (added hist) -> subseq (g ++ [d]) (added hist) -> linv hist g q ->
  l_add_h26x C f q d = Def (q2, SV_OK) -> linv hist (g ++ [d]) q2.
Proof.
  intros HD HB HI SG HL. assert (EC : q_codec q = c) by apply HL. unfold l_add_h26x. rewrite EC. destruct (parse_nalu d c true true) as [n|] eqn:EP; [|discriminate]. cbn [obind]. cbv zeta.
  set (q1 := q_on_acc _ _). assert (H1 : linv hist g q1) by (eapply linv_ext; [| |exact HL]; reflexivity). clearbody q1.
  destruct (l_add_body C f q1 n) as [[q3 st]|] eqn:EB; [|discriminate]. cbn [obind]. destruct (l_copy_last (q_items q3)) as [[l cst]|] eqn:ECL; [|discriminate]. cbn [obind].
  destruct (is_ok st) eqn:ES; [|rewrite ES; intros E; assert (st = SV_OK) as -> by congruence; discriminate]. assert (st = SV_OK) as -> by (destruct st; try discriminate; reflexivity).
  destruct (is_ok cst) eqn:ECS; intros E; [|assert (cst = SV_OK) as -> by congruence; discriminate]. assert (cst = SV_OK) as -> by (destruct cst; try discriminate; reflexivity).
  assert (EQ : q2 = set_q_items (leave l) q3) by congruence. subst q2. pose proof (body_linv _ _ _ _ _ _ _ EP HD HB HI SG H1 EB) as (T & FD & SG3 & DI & EC3 & NS).
  destruct (copy_inv _ _ _ _ _ T FD ECL) as [T2 FD2]. destruct (leave_inv _ _ _ _ T2 FD2) as [T3 FD3]. split; [exact T3|]. split; [exact FD3|]. auto.
Qed.
Lemma lshows hist U Cur g l s : (forall d, In d (added hist) -> nalu_golden c d = false) -> ltrk (ltk hist U Cur) g l -> l_nalu_str l = Def s -> shows c (vouched hist) g (l_validation_str l) s.
Proof.
  intros HG T. revert s. unfold l_validation_str. induction T as [|d it g l ((B1 & _ & _ & B4) & T2 & _) T IH|it g l (M1 & M2 & _) T IH]; intros s; cbn [map l_nalu_str].
  - intros E. injection E as <-. constructor.
  - destruct B4 as [B4|(n & B4 & FN & _)]; rewrite B4; cbn [look obind]; [discriminate|]. destruct (l_nalu_str l) as [r|]; [|discriminate]. cbn [obind]. intros E. injection E as <-.
    constructor 2; [|intros E; apply T2, stat_valid, E|apply IH; reflexivity]. rewrite <- (from_shown c d n FN). assert (EG : n_golden n = false).
    { specialize (HG _ B1). destruct FN as (p & P1 & P2 & _). unfold nalu_golden in HG. rewrite P1 in HG. unfold AuthProofs.flags in P2. injection P2 as _ _ _ _ F _ _ _ _. congruence. }
    clear - EG. unfold l_type_char, type_char. destruct (n_type n); try reflexivity. rewrite EG. reflexivity.
  - rewrite M1. cbn [look obind]. destruct (l_nalu_str l) as [r|]; [|discriminate]. cbn [obind]. intros E. injection E as <-. constructor 3; [apply IH; reflexivity|]. rewrite M2. discriminate.
Qed.
Lemma clean_linv hist Cur g l : ltrk (ltk hist nobody Cur) g l -> fdec l -> exists g2, subseq g2 g /\ ltrk (ltk hist nobody Cur) g2 (fst (l_clean_up l)) /\ fdec (fst (l_clean_up l)).
Proof.
  intros T. assert (RF : forall (A : Type) (a : list A), subseq a a) by (intros A a; induction a; constructor; assumption).
  induction T as [|d it g l TD T IH|it g l M T IH]; intros FD; cbn [l_clean_up]; [exists []; repeat constructor| |].
  - destruct (_ || _); [exists (d :: g); split; [apply RF|split; [constructor 2; assumption|exact FD]]|]. assert (FD' : fdec l) by (cbn [fdec] in FD; destruct (psei it); [apply undec_fdec|]; exact FD). destruct (IH FD') as (g2 & S2 & I2). destruct (l_clean_up l) as [l2 k]. cbn [fst] in *. exists g2. split; [constructor 3; exact S2|exact I2].
  - destruct (_ || _); [exists g; split; [apply RF|split; [constructor 3; assumption|exact FD]]|]. assert (FD' : fdec l) by (cbn [fdec] in FD; destruct (psei it); [apply undec_fdec|]; exact FD). destruct (IH FD') as (g2 & S2 & I2). destruct (l_clean_up l) as [l2 k]. exists g2. auto.
Qed.
Lemma add_linv hist g d f q want q2 r : (forall d, In d (added hist) -> nalu_golden c d = false) -> d <> [] -> bytes_ok d -> In d (added hist) -> subseq (g ++ [d]) (added hist) -> linv hist g q ->
  l_add_nalu C f q d want = Def (q2, SV_OK, r) ->
  (exists g2, linv hist g2 q2 /\ subseq g2 (g ++ [d])) /\ match r with Some p => shows c (vouched hist) (g ++ [d]) (l_vstr (p_latest p)) (l_nstr (p_latest p)) | None => True end.
Proof.
  intros HG HD HB HI SG HL. destruct d as [|d0 d1]; [congruence|]. set (d := d0 :: d1) in *. unfold l_add_nalu. change (match d with [] => _ | _ => ?k end) with k.
  destruct (l_add_h26x C f q d) as [[q3 st]|] eqn:EA; [|discriminate]. cbn [obind]. destruct (is_ok st) eqn:ES; cbn [negb]; [|intros E; assert (st = SV_OK) as -> by congruence; discriminate].
  assert (st = SV_OK) as -> by (destruct st; try discriminate; reflexivity). pose proof (h26x_linv _ _ _ _ _ _ HD HB HI SG HL EA) as H3.
  assert (RF : subseq (g ++ [d]) (g ++ [d])) by (clear; induction (g ++ [d]); constructor; assumption).
  destruct (q_result q3); [|intros E; injection E as <- <-; split; [exists (g ++ [d]); auto|exact Logic.I]].
  unfold l_update_report. destruct (l_nalu_str (q_items q3)) as [s|] eqn:EN; [|discriminate]. cbn [obind]. cbv zeta. pose proof H3 as (T & FD & SG3 & DI & EC & NS).
  pose proof (lshows _ _ _ _ _ _ HG T EN) as SH.
  set (q4 := q_on_latest _ q3). assert (E4 : lfr q4 = lfr q3 /\ q_items q4 = q_items q3 /\ l_vstr (q_latest q4) = l_validation_str (q_items q3) /\ l_nstr (q_latest q4) = s) by (repeat split). clearbody q4.
  set (q5 := if (compare_versions [] (d_sver (q_dec q4)) =? 2)%Z then _ else q4).
  assert (E5 : lfr q5 = lfr q3 /\ q_items q5 = q_items q3 /\ l_vstr (q_latest q5) = l_validation_str (q_items q3) /\ l_nstr (q_latest q5) = s) by (unfold q5; dif; [|exact E4]; destruct E4 as (X1 & X2 & X3 & X4); split; [exact X1|split; [exact X2|split; [exact X3|exact X4]]]).
  clearbody q5. destruct E5 as (X1 & X2 & X3 & X4). rewrite X2.
  destruct (clean_linv _ _ _ _ T FD) as (g2 & C1 & C2 & C3). destruct (l_clean_up (q_items q3)) as [l k] eqn:ECU. cbn [fst] in *. cbn [obind].
  match goal with |- context [set_q_acc ?z (set_q_items l q5)] => generalize z end. intros a.
  assert (H6 : forall q6, lfr q6 = lfr q3 -> q_items q6 = l -> linv hist g2 q6).
  { intros q6 L6 I6. split; [rewrite I6, (lfr_cur _ _ _ L6); exact C2|]. split; [rewrite I6; exact C3|]. split; [eapply subseq_trans; [exact C1|exact SG3]|]. split; [eapply lfr_dinv; eassumption|].
    unfold lfr in L6. injection L6 as _ _ _ _ _ _ _ L7 L8. split; [congruence|]. rewrite L8. intros E. eapply Forall_sub; [exact C1|auto]. }
  destruct want; intros E.
  - cbn [l_get_report] in E. injection E as <- <-. split; [exists g2; split; [apply H6; [exact X1|reflexivity]|exact C1]|]. cbn [p_latest]. change (shows c (vouched hist) (g ++ [d]) (l_vstr (q_latest q5)) (l_nstr (q_latest q5))). rewrite X3, X4. exact SH.
  - injection E as <- <-. split; [exists g2; split; [apply H6; [exact X1|reflexivity]|exact C1]|exact Logic.I].
Qed.

(** *** More calls *)
Lemma ldinv_app h h2 d : ldinv h d -> ldinv (h ++ h2) d.
Proof. intros ((D1 & D2 & D3) & D5). split; [split; [intros k E; apply key_app, D1, E|split; [intros s E; apply seen_app, D2, E|exact D3]]|]. destruct D5; auto using some_app. Qed.
Lemma curok_app h h2 ls ty x d : curok h ls ty x d -> curok (h ++ h2) ls ty x d.
Proof.
  intros (A & B & K1 & fs & F1 & F2). split; [rewrite added_app, in_app_iff; auto|]. split; [exact B|]. split; [exact K1|]. exists fs. split; [exact F1|]. destruct (last_list fs); [exact F2|]. destruct F2; auto using some_app.
Qed.
Lemma chain_app h h2 x d : in_chain C c h x d -> in_chain C c (h ++ h2) x d.
Proof. intros (oid & xs & y & H1 & H2 & H3 & H4). exists oid, xs, y. split; [exact H1|]. split; [exact H2|]. split; [|exact H4]. eapply Forall_impl; [|exact H3]. intros z (Z1 & e & Z2 & Z3). split; [exact Z1|]. exists e. rewrite added_app, in_app_iff. auto. Qed.
Lemma lvouched_app h h2 d : vouched h d -> vouched (h ++ h2) d.
Proof.
  intros (A & key & sig & x & K1 & S1 & V1 & R). split; [rewrite added_app, in_app_iff; auto|]. exists key, sig, x. split; [apply key_app, K1|]. split; [apply seen_app, S1|]. split; [exact V1|].
  destruct R as [R|[R|(s & fs & R1 & R2 & R3 & R4 & R5)]]; [left; exact R|right; left; apply chain_app, R|]. right. right. exists s, fs. split; [rewrite added_app, in_app_iff; auto|]. split; [exact R2|]. split; [exact R3|]. split; [exact R4|].
  destruct (last_list fs); [exact R5|]. destruct R5 as (l & L1 & L2). exists l. auto using some_app.
Qed.
Lemma linv_app h h2 g q : linv h g q -> linv (h ++ h2) g q.
Proof.
  intros (T & FD & SG & DI & R). split; [|split; [exact FD|split; [rewrite added_app; apply subseq_appr, SG|split; [apply ldinv_app, DI|exact R]]]].
  eapply ltrk_impl; [|exact T]. intros d it _ ((B1 & B2) & X2 & X3 & X4 & X5). split; [split; [rewrite added_app, in_app_iff; auto|exact B2]|]. split; [intros E; apply lvouched_app, X2, E|]. split; [exact X3|]. split; [|exact X5]. intros E1 E2. apply curok_app, X4; assumption.
Qed.

(** *** The hand-over *)
Variable Ov : ovf.
Hypothesis HO : Ov <> OvfIdeal.
Notation minv := (AuthProofs.inv C c 32).
Lemma dinv_ldinv hist d : dinv C c hist d -> ldinv hist d.
Proof. intros (D1 & _ & D3). split; assumption. Qed.
Lemma body_over hist g d f v n : parse_nalu d c true true = Def n -> d <> [] -> bytes_ok d -> n_golden n = false -> In d (added hist) -> minv hist g v -> v_legacy v = false ->
  holds (add_body C Ov f v n) (fun '(v', st) => v_legacy v' = true -> ldinv hist (v_dec v') /\ v_codec v' = c) (fun _ => True).
Proof.
  intros EP HD HB HG HI (T & _ & DI & EC & EV & HS) LF. unfold add_body. cbv zeta. rewrite (parse_valid d c n HD EP). apply holds_bind.
  set (v1 := set_v_signing _ _). assert (E1 : (v_items v1, v_codec v1, v_dec v1, v_legacy v1) = (v_items v, v_codec v, v_dec v, v_legacy v)) by reflexivity. clearbody v1.
  injection E1 as E1 E2 E4 E5. eapply holds_impl; [apply (register_spec C c 32 HC HK hist [] (fun _ => False) d v1 n EP HD HB HI); rewrite E4; exact DI| |auto]. intros [[v2 it] st] [H1 H2].
  assert (DI2 : dinv C c hist (v_dec v2)) by (eapply dinv_hk; [exact H1|rewrite E4; exact DI]). unfold hk in H1. injection H1 as H1a H1b H1c H1d _ _ _ _ _ _ _ H1e.
  destruct (is_ok st) eqn:ES; cbn [negb]; [|cbn [holds]; cbn; intros E; congruence]. assert (st = SV_OK) as -> by (destruct st; try discriminate; reflexivity). specialize (H2 eq_refl).
  set (v3 := set_v_items _ v2). assert (T3 : trk (tk C c 32 hist [] (fun _ => False)) (g ++ [d]) (v_items v3)) by (cbn; apply trk_app; [exact T|constructor 2; [exact H2|constructor]]).
  assert (DI3 : dinv C c hist (v_dec v3)) by exact DI2. assert (L3 : v_legacy v3 = false) by (change (v_legacy v2 = false); congruence). assert (C3 : v_codec v3 = c) by (change (v_codec v2 = c); congruence). clearbody v3.
  assert (MV : forall k v st, v_legacy v = false -> holds (if negb (is_ok st) || v_legacy v then Def (v, st) else maybe_validate C Ov k v n) (fun '(v', _) => v_legacy v' = true -> ldinv hist (v_dec v') /\ v_codec v' = c) (fun _ => True)).
  { intros k u st L. rewrite L, orb_false_r. destruct (negb _); [cbn; congruence|]. eapply holds_impl; [apply (maybe_validate_fr C Ov (fr u) k u n eq_refl)| |auto]. intros [u2 st2] E. unfold fr in E. injection E as _ _ _ _ E. congruence. }
  destruct (negb (d_algo_known (v_dec v3)) && v_signing v3); [|cbn [obind]; apply MV, L3].
  apply holds_bind. apply holds_bind. eapply holds_impl; [eapply (recurrent_spec C c 32); eassumption| |auto]. intros [v4 b] [E6 D4]. injection E6 as E6a E6b E6c E6d E6e.
  destruct (negb b); [cbn [holds]; apply MV; congruence|]. rewrite HG. cbn [obind negb]. change (is_ok SV_OK) with true. cbn [negb andb]. dif.
  - cbn [holds negb orb is_ok svrc_eqb]. change (v_legacy (set_v_legacy true _)) with true. cbn. intros _. split; [|congruence]. apply dinv_ldinv. destruct D4 as (Q1 & Q2 & Q3). split; [|split; [exact Q2|exact Q3]]. eapply dgood_core; [|exact Q1]. reflexivity.
  - eapply holds_impl; [apply (reregister_fr C (fr (on_dec (set_d_algo_known true) v4))); reflexivity| |auto]. intros [v5 st5] E. unfold fr in E. injection E as _ _ _ _ E. apply MV. rewrite E. cbn. congruence.
Qed.
Lemma over_dec hist g d f v want v' : d <> [] -> bytes_ok d -> nalu_golden c d = false -> In d (added hist) -> minv hist g v -> add_nalu C Ov f v d want = Def (v', VLegacy) -> ldinv hist (v_dec v') /\ v_codec v' = c.
Proof.
  intros HD HB HG HI HV0. destruct d as [|d0 d1]; [congruence|]. set (d := d0 :: d1) in *. unfold add_nalu. change (match d with [] => _ | _ => ?k end) with k. cbv zeta.
  set (v1 := create_report (set_v_started true v)).
  assert (HV1 : minv hist g v1).
  { unfold v1, create_report. cbn [v_report set_v_started]. destruct (v_report v) eqn:ER; [exact HV0|]. apply (inv_ext C c 32 _ _ v); [reflexivity| |exact HV0]. cbn. apply (dinv_dcore C c _ (v_dec v)); [reflexivity|apply HV0]. }
  clearbody v1. pose proof HV1 as (_ & _ & DI & EC & _). destruct (v_legacy v1) eqn:EL; [intros E; injection E as <-; split; [apply dinv_ldinv, DI|exact EC]|].
  unfold add_h26x. rewrite EC. destruct (parse_nalu d c true true) as [n|] eqn:EP; [|discriminate]. cbn [obind]. cbv zeta.
  assert (GN : n_golden n = false) by (unfold nalu_golden in HG; rewrite EP in HG; exact HG).
  set (v2 := on_acc _ _). assert (HV2 : minv hist g v2) by exact HV1. assert (L2 : v_legacy v2 = false) by exact EL. clearbody v2.
  pose proof (body_over hist g d f v2 n EP HD HB GN HI HV2 L2) as HBD. destruct (add_body C Ov f v2 n) as [[v3 st]|]; [|discriminate]. cbn [obind holds] in *.
  destruct (v_legacy v3) eqn:E3; cbn [obind].
  - rewrite E3. intros E. injection E as <-. apply HBD. reflexivity.
  - destruct (copy_last _ _) as [[l cst]|]; [|discriminate]. cbn [obind]. match goal with |- context [set_v_items ?z v3] => generalize z end. intros z. change (v_legacy (set_v_items z v3)) with (v_legacy v3). rewrite E3.
    dif; [discriminate|]. dif; [destruct want; [destruct (get_report _)|]; discriminate|discriminate].
Qed.
Lemma create_linv hist v q : ldinv hist (v_dec v) -> v_codec v = c -> l_create C v = Def (q, SV_OK) -> linv hist [] q.
Proof.
  intros [DG DL] EC. unfold l_create. cbv zeta. unfold gop_hash_reset. destruct (hash_data C _ _) as [st x]. destruct (is_ok st) eqn:ES; [|intros E; assert (st = SV_OK) as -> by congruence; discriminate].
  destruct (put_at 0 _ x) as [y|]; [|discriminate]. cbn [obind]. intros E. injection E as <-. split; [constructor|]. split; [exact Logic.I|]. split; [constructor|]. split; [|split; [exact EC|constructor]].
  split; [|left; reflexivity]. eapply dgood_core; [|exact DG]. reflexivity.
Qed.
Lemma reset_linv hist g q q2 : linv hist g q -> l_reset C q = Def (q2, SV_OK) -> linv hist [] q2.
Proof.
  intros (_ & _ & _ & [DG DL] & EC & _). unfold l_reset, gop_hash_reset. destruct (hash_data C _ _) as [st x]. destruct (is_ok st) eqn:ES; [|intros E; assert (st = SV_OK) as -> by congruence; discriminate].
  destruct (put_at 0 _ x) as [y|]; [|discriminate]. cbn [obind]. intros E. injection E as <-. split; [constructor|]. split; [exact Logic.I|]. split; [constructor|]. split; [|split; [exact EC|constructor]].
  split; [|left; reflexivity]. destruct DG as (D1 & D2 & D3 & D4 & D5). split; [exact D1|]. split; [exact D2|].
  cbn. assert (EH : h_type (init_hash false (d_handle (q_dec q))) = h_type (d_handle (q_dec q)) /\ h_prim (init_hash false (d_handle (q_dec q))) = h_prim (d_handle (q_dec q))) by (unfold init_hash, get_ctx; destruct (h_sec _); split; reflexivity).
  destruct EH as [-> ->]. split; [exact D3|]. split; [exact D4|exact D5].
Qed.
Lemma feed_linv hist f e : (forall d, In d (added hist) -> nalu_golden c d = false) -> (forall d, In d (added hist) -> bytes_ok d) ->
  forall l q g q2, Forall (fun x => x <> []) (map snd l) -> subseq (g ++ map snd l ++ e) (added hist) -> linv hist g q -> l_feed C f q l = Def (q2, SV_OK) ->
  exists g2, linv hist g2 q2 /\ subseq (g2 ++ e) (added hist).
Proof.
  intros HG HB. induction l as [|[it x] l IH]; intros q g q2 HN SG HI; cbn [l_feed map snd app] in *; [intros E; injection E as <-; exists g; auto|].
  destruct (i_nalu it); [|discriminate]. destruct (l_add_nalu C f q x false) as [[[q3 st] r]|] eqn:EA; [|discriminate]. cbn [obind]. destruct (is_ok st) eqn:ES; [|intros E; assert (st = SV_OK) as -> by congruence; discriminate].
  assert (st = SV_OK) as -> by (destruct st; try discriminate; reflexivity). apply Forall_cons_iff in HN as [HN0 HN].
  assert (IX : In x (added hist)) by (eapply subseq_in; [exact SG|apply in_or_app; right; left; reflexivity]).
  assert (SG1 : subseq ((g ++ [x]) ++ map snd l ++ e) (added hist)) by (rewrite <- app_assoc; exact SG).
  assert (SL : forall (A : Type) (a b z : list A), subseq (a ++ b) z -> subseq a z).
  { intros A a b z H. eapply subseq_trans; [|exact H]. apply subseq_appr. clear. induction a; constructor; assumption. }
  destruct (add_linv hist g x f q false q3 r HG HN0 (HB _ IX) IX (SL _ _ _ _ SG1) HI EA) as [(g2 & H2 & S2) _].
  apply (IH q3 g2); [exact HN| |exact H2]. eapply subseq_trans; [|exact SG1]. clear - S2. induction S2 as [m|y a b H IH|y a b H IH]; cbn [app]; [|constructor; exact IH|constructor; exact IH].
  rewrite app_assoc. induction m as [|z m IHm]; cbn [app]; [|constructor 3; exact IHm]. induction (map snd l ++ e); constructor; assumption.
Qed.

(** *** A session *)
Definition winv (hist : list vop) (w : wsess) : Prop :=
  match w_leg w with
  | Some q => exists g, linv hist g q
  | None => (exists g, minv hist g (w_v w)) /\ subseq (w_raw w) (added hist) /\ Forall (fun x => x <> []) (w_raw w)
  end.
Lemma hist_facts hist : Forall of_bytes hist -> Forall (not_golden c) hist -> (forall d, In d (added hist) -> bytes_ok d) /\ (forall d, In d (added hist) -> nalu_golden c d = false).
Proof.
  intros HB HG. rewrite Forall_forall in HB, HG. split; intros d HI; unfold added in HI; apply in_flat_map in HI as (o & H1 & H2); destruct o as [x w| | |]; cbn in H2; [destruct H2 as [<-|[]]|destruct H2|destruct H2|destruct H2|destruct H2 as [<-|[]]|destruct H2|destruct H2|destruct H2].
  - exact (HB _ H1).
  - exact (HG _ H1).
Qed.
Lemma add_winv hist f w d w2 st r : d <> [] -> Forall of_bytes (hist ++ [VAdd d true]) -> Forall (not_golden c) (hist ++ [VAdd d true]) -> winv hist w -> w_add C Ov f w d true = Def (w2, st, r) -> st = SV_OK ->
  winv (hist ++ [VAdd d true]) w2 /\ match w_leg w2, r with
    | Some _, Some p => exists ws, subseq ws (added (hist ++ [VAdd d true])) /\ shows c (vouched (hist ++ [VAdd d true])) ws (l_vstr (p_latest p)) (l_nstr (p_latest p))
    | _, _ => True end.
Proof.
  intros HD HB0 HG0 HW EA ->. destruct (hist_facts _ HB0 HG0) as [HB HG]. set (h2 := hist ++ [VAdd d true]) in *.
  assert (AD : added h2 = added hist ++ [d]) by (unfold h2; rewrite added_app; reflexivity). assert (ID : In d (added h2)) by (rewrite AD; apply in_or_app; right; left; reflexivity).
  assert (GO : forall g q q2 r2, linv h2 g q -> subseq (g ++ [d]) (added h2) -> l_add_nalu C f q d true = Def (q2, SV_OK, r2) ->
    (exists g2, linv h2 g2 q2) /\ match r2 with Some p => exists ws, subseq ws (added h2) /\ shows c (vouched h2) ws (l_vstr (p_latest p)) (l_nstr (p_latest p)) | None => True end).
  { intros g q q2 r2 HL SG E. destruct (add_linv h2 g d f q true q2 r2 HG HD (HB _ ID) ID SG HL E) as [(g2 & H1 & _) H2]. split; [exists g2; exact H1|]. destruct r2 as [p|]; [|exact Logic.I]. exists (g ++ [d]). auto. }
  revert EA. unfold w_add. destruct d as [|d0 d1] eqn:ED; [congruence|]. rewrite <- ED in *. unfold winv in HW. destruct (w_leg w) as [q|].
  - destruct HW as (g & HL). destruct (l_add_nalu C f q d true) as [[[q2 st2] r2]|] eqn:EL; [|discriminate]. cbn [obind]. intros E. injection E as <- -> <-. unfold winv. cbn [w_leg].
    apply (GO g q q2 r2); [apply linv_app, HL| |exact EL]. rewrite AD. apply subseq_grow. apply HL.
  - destruct HW as ((g & HM) & SR & NE). destruct (add_nalu C Ov f (w_v w) d true) as [[v x]|] eqn:EN; [|discriminate]. cbn [obind].
    assert (HM2 : minv h2 g (w_v w)) by apply inv_app, HM. destruct x as [st2 r2|].
    + intros E. injection E as <- -> <-. cbn [w_leg]. split; [|exact Logic.I]. unfold winv. cbn [w_leg w_v w_raw].
      pose proof (add_spec C c 32 Ov HC HK HO h2 g d f (w_v w) v _ HD (HB _ ID) (HG _ ID) ID ltac:(rewrite AD; apply subseq_grow; apply HM) HM2 EN) as AS.
      split; [destruct r2; [destruct AS as [_ AS]|]; eexists; exact AS|].
      assert (SK : forall (A : Type) k (l : list A), subseq (lastn k l) l).
      { intros A k l. unfold lastn. generalize (length l - k)%nat. intros m. revert l. induction m as [|m IH]; intros l; [cbn; clear; induction l; constructor; assumption|]. destruct l; [constructor|cbn; constructor 3; apply IH]. }
      split; [eapply subseq_trans; [apply SK|]; rewrite AD; apply subseq_grow, SR|]. eapply Forall_sub; [apply SK|]. apply Forall_app. split; [exact NE|]. constructor; [exact HD|constructor].
    + destruct (over_dec h2 g d f (w_v w) true v HD (HB _ ID) (HG _ ID) ID HM2 EN) as [DV CV].
      destruct (l_create C v) as [[q st2]|] eqn:EC; [|discriminate]. cbn [obind]. destruct (is_ok st2) eqn:ES2; cbn [negb]; [|intros E; discriminate]. assert (st2 = SV_OK) as -> by (destruct st2; try discriminate; reflexivity).
      pose proof (create_linv h2 v q DV CV EC) as HL0. destruct (l_feed C f q (combine (v_items v) (w_raw w))) as [[q3 st3]|] eqn:EF; [|discriminate]. cbn [obind].
      destruct (copy_last true (v_items v)) as [[l cst]|]; [|discriminate]. cbn [obind]. destruct (is_ok st3) eqn:ES3; [|rewrite ES3; cbn [negb]; intros E; assert (st3 = SV_OK) as -> by congruence; discriminate].
      destruct (is_ok cst) eqn:ESC; cbn [negb]; [|intros E; assert (cst = SV_OK) as -> by congruence; discriminate]. assert (st3 = SV_OK) as -> by (destruct st3; try discriminate; reflexivity).
      assert (PF : forall (A B : Type) (a : list A) (b : list B), subseq (map snd (combine a b)) b).
      { intros A B a. induction a as [|y a IH]; intros b; [constructor|]. destruct b; [constructor|]. cbn [combine map snd]. constructor. apply IH. }
      destruct (feed_linv h2 f [d] HG HB (combine (v_items v) (w_raw w)) q [] q3) as (g3 & HL3 & SG3); [eapply Forall_sub; [apply PF|exact NE]|cbn [app]; rewrite AD; apply subseq_grow; eapply subseq_trans; [apply PF|exact SR]|exact HL0|exact EF|].
      destruct (l_add_nalu C f q3 d true) as [[[q4 st4] r4]|] eqn:EL; [|discriminate]. cbn [obind]. intros E. injection E as <- -> <-. unfold winv. cbn [w_leg]. apply (GO g3 q3 q4 r4); assumption.
Qed.
Lemma exec_winv hist f w o w2 st r : asking o -> Forall of_bytes (hist ++ [o]) -> Forall (not_golden c) (hist ++ [o]) -> winv hist w -> wexec C Ov f w o = Def (w2, st, r) -> taken o st -> winv (hist ++ [o]) w2.
Proof.
  intros HA HB HG HW EX TK. destruct o as [d want|key| |]; cbn [wexec] in EX.
  - cbn [asking] in HA. subst want. destruct d as [|d0 d1]; [|apply (add_winv hist f w (d0 :: d1) w2 st r); auto; discriminate].
    cbn [w_add] in EX. injection EX as <- _ _. unfold winv in *. destruct (w_leg w); [destruct HW as (g & HL); exists g; apply linv_app, HL|]. destruct HW as ((g & HM) & SR & NE). split; [exists g; apply inv_app, HM|]. split; [rewrite added_app; apply subseq_appr, SR|exact NE].
  - destruct (set_public_key C (w_v w) key) as [v1 st1] eqn:EK. injection EX as <- _ _. unfold winv in *. cbn [w_leg w_v w_raw] in *. destruct (w_leg w); [destruct HW as (g & HL); exists g; apply linv_app, HL|].
    destruct HW as ((g & HM) & SR & NE). split; [exists g|split; [rewrite added_app; apply subseq_appr, SR|exact NE]]. assert (HI2 : minv (hist ++ [VSetKey key]) g (w_v w)) by apply inv_app, HM.
    revert EK. unfold set_public_key. destruct key as [|k0 k1]; [intros E; injection E as <- <-; exact HI2|]. set (key := k0 :: k1) in *. destruct (d_pub (v_dec (w_v w))); [|intros E; injection E as <- <-; exact HI2].
    destruct (v_started (w_v w)); [intros E; injection E as <- <-; exact HI2|]. destruct (c_pub_ok C key); intros E; injection E as <- <-.
    + apply (inv_ext C c 32 _ _ (w_v w)); [reflexivity| |exact HI2]. cbn. destruct HI2 as (_ & _ & ((D1 & D2 & D3 & D4 & D5) & D6 & D7) & _). split; [|split; [exact D6|exact D7]]. split; [|split; [exact D2|split; [exact D3|split; [exact D4|exact D5]]]].
      cbn. intros k E. injection E as <-. left. exists key. split; [apply in_or_app; right; left; reflexivity|reflexivity].
    + apply (inv_ext C c 32 _ _ (w_v w)); [reflexivity| |exact HI2]. cbn. apply (dinv_dcore C c _ (v_dec (w_v w))); [reflexivity|apply HI2].
  - unfold w_reset in EX. unfold winv in *. destruct (w_leg w) as [q|] eqn:EL.
    + destruct HW as (g & HL). destruct (l_reset C q) as [[q2 st2]|] eqn:ER; [|discriminate]. cbn [obind] in EX. destruct (is_ok st2) eqn:ES; cbn [obind] in EX; injection EX as <- _ _; cbn [w_leg].
      * assert (st2 = SV_OK) as -> by (destruct st2; try discriminate; reflexivity). exists []. apply linv_app. eapply reset_linv; eassumption.
      * exists g. apply linv_app. revert ER. unfold l_reset, gop_hash_reset. destruct (hash_data C _ _) as [st' x] eqn:EH. revert EH. unfold hash_data, gop_hash_salt. intros EH. injection EH as <- _. change (is_ok SV_OK) with true. cbv iota. destruct (put_at 0 _ x); [|discriminate]. cbn [obind]. intros E. injection E as _ <-. discriminate.
    + destruct HW as ((g & HM) & SR & NE). cbn [obind] in EX. injection EX as <- _ _. cbn [w_leg w_v w_raw]. split; [|split; constructor]. exists []. assert (HI2 : minv (hist ++ [VReset]) g (w_v w)) by apply inv_app, HM.
      destruct HI2 as (_ & _ & ((D1 & D2 & D3 & D4 & D5) & D6 & D7) & EC & _). split; [constructor|]. split; [constructor|].
      split; [|split; [exact EC|split; [reflexivity|constructor]]]. cbn. split; [|split; [exact D6|left; reflexivity]]. split; [exact D1|]. split; [exact D2|].
      cbn. assert (EH : h_type (init_hash false (d_handle (v_dec (w_v w)))) = h_type (d_handle (v_dec (w_v w))) /\ h_prim (init_hash false (d_handle (v_dec (w_v w)))) = h_prim (d_handle (v_dec (w_v w)))) by (unfold init_hash, get_ctx; destruct (h_sec _); split; reflexivity).
      destruct EH as [-> ->]. split; [exact D3|]. split; [exact D4|exact D5].
  - unfold w_report in EX. unfold winv in *. destruct (w_leg w) as [q|].
    + destruct HW as (g & HL). cbn [l_get_report] in EX. injection EX as <- _ _. cbn [w_leg]. exists g. apply linv_app. eapply linv_ext; [| |exact HL]; reflexivity.
    + destruct HW as ((g & HM) & SR & NE). destruct (get_report (w_v w)) as [v1 r1] eqn:EG. injection EX as <- _ _. cbn [w_leg w_v w_raw]. split; [|split; [rewrite added_app; apply subseq_appr, SR|exact NE]]. exists g.
      unfold get_report in EG. destruct (negb (v_report (w_v w))); injection EG as <- <-; apply inv_app, HM.
Qed.
Lemma run_winv f : forall ops hist w w2 res, Forall asking ops -> Forall of_bytes (hist ++ ops) -> Forall (not_golden c) (hist ++ ops) -> winv hist w -> wrun C Ov f w ops = Def (w2, res) ->
  Forall2 (fun o x => taken o (fst x)) ops res -> winv (hist ++ ops) w2.
Proof.
  induction ops as [|o ops IH]; intros hist w w2 res HA HB HG HW; cbn [wrun].
  { intros E. injection E as <- <-. rewrite app_nil_r. auto. }
  destruct (wexec C Ov f w o) as [[[w1 st] r]|] eqn:EX; [|discriminate]. cbn [obind]. destruct (wrun C Ov f w1 ops) as [[w3 xs]|] eqn:ER; [|discriminate]. cbn [obind]. intros E. injection E as <- <-. intros TK.
  inversion TK as [|? ? ? ? TK0 TK1]; subst. cbn [fst] in TK0. apply Forall_cons_iff in HA as [HA0 HA].
  replace (hist ++ o :: ops) with ((hist ++ [o]) ++ ops) in * by (rewrite <- app_assoc; reflexivity).
  eapply IH; [exact HA|exact HB|exact HG| |exact ER|exact TK1]. apply Forall_app in HB as [HB _]. apply Forall_app in HG as [HG _]. eapply exec_winv; eassumption.
Qed.
Lemma run_snoc f : forall ops w o w2 res, wrun C Ov f w (ops ++ [o]) = Def (w2, res) -> exists w1 res1 x, wrun C Ov f w ops = Def (w1, res1) /\ wexec C Ov f w1 o = Def (w2, fst x, snd x) /\ res = res1 ++ [x].
Proof.
  induction ops as [|a ops IH]; intros w o w2 res; cbn [app wrun].
  - destruct (wexec C Ov f w o) as [[[w1 st] r]|] eqn:EX; [|discriminate]. cbn [obind]. intros E. injection E as <- <-. exists w, [], (st, r). auto.
  - destruct (wexec C Ov f w a) as [[[w1 st] r]|]; [|discriminate]. cbn [obind]. destruct (wrun C Ov f w1 (ops ++ [o])) as [[w3 xs]|] eqn:ER; [|discriminate]. cbn [obind]. intros E. injection E as <- <-.
    destruct (IH _ _ _ _ ER) as (w4 & res1 & x & E1 & E2 & ->). rewrite E1. cbn [obind]. exists w4, ((st, r) :: res1), x. auto.
Qed.
Theorem old_authentic f ops d w res p : Forall asking ops -> Forall of_bytes (ops ++ [VAdd d true]) -> Forall (not_golden c) (ops ++ [VAdd d true]) ->
  wrun C Ov f (wcreate C c) (ops ++ [VAdd d true]) = Def (w, res ++ [(SV_OK, Some p)]) -> Forall2 (fun o x => taken o (fst x)) ops res -> w_leg w <> None ->
  exists ws, subseq ws (added (ops ++ [VAdd d true])) /\ shows c (vouched (ops ++ [VAdd d true])) ws (l_vstr (p_latest p)) (l_nstr (p_latest p)).
Proof.
  intros HA HB HG ER TK HL. destruct (run_snoc _ _ _ _ _ _ ER) as (w1 & res1 & [st r] & E1 & E2 & E3). cbn [fst snd] in E2. apply app_inj_tail in E3 as [<- E3]. injection E3 as <- <-.
  assert (W0 : winv [] (wcreate C c)) by (split; [exists []; apply create_inv, HC|split; constructor]).
  pose proof (run_winv f ops [] _ _ _ HA (proj1 (proj1 (Forall_app _ _ _) HB)) (proj1 (proj1 (Forall_app _ _ _) HG)) W0 E1 TK) as W1. cbn [app] in W1.
  destruct d as [|d0 d1]; [cbn in E2; discriminate|]. destruct (add_winv ops f w1 (d0 :: d1) w SV_OK (Some p) ltac:(discriminate) HB HG W1 E2 eq_refl) as [_ H].
  destruct (w_leg w); [exact H|congruence].
Qed.
End OldTrack.

(** A GOP is authentic only after the GOP it was signed after: lists of items. *)
From Verif Require Import Base BaseProofs Nalu Crypto Types Hash VTypes NaluList Validator VListProofs BookProofs MatchSpec AuthSpec AuthProofs LinkSpec.
Local Open Scope N_scope.

(** *** Items that start a GOP *)
Definition fgop (it : item) : bool := match i_nalu it with Some n => n_first_in_gop n | None => false end.
Definition good (it : item) : bool := match i_nalu it with Some n => (0 <? n_valid n)%Z | None => false end.
Definition isstart (it : item) : bool := fgop it && good it.
Definition nf (it : item) : option (Z * bool * bool) := option_map (fun n => (n_valid n, n_first_in_gop n, n_gop_sei n)) (i_nalu it).
Lemma nf_same a b : nf a = nf b -> fgop b = fgop a /\ good b = good a /\ isstart b = isstart a /\ item_sei b = item_sei a /\ (i_nalu a = None <-> i_nalu b = None).
Proof.
  unfold nf, fgop, good, isstart, item_sei, fgop, good. destruct (i_nalu a) as [n|], (i_nalu b) as [m|]; cbn; intros E; try discriminate.
  - injection E as -> -> ->. repeat split; discriminate.
  - repeat split; reflexivity.
Qed.

(** An item beside the NALU it stands for and the first NALU of the GOP before. *)
Definition lt (Q : list N -> list N -> Prop) (c : codec) (pd : placed) (it : item) : Prop :=
  i_nalu it <> None /\ isstart it = gop_start c (snd pd) /\ (good it = false -> pending it = false /\ i_status it <> SInvalid) /\
  (isstart it = true -> i_decoded it = false) /\ (item_sei it = true -> isstart it = false) /\ i_status it <> SMiss /\
  (i_status it = SValid -> isstart it = true -> match fst pd with Some q => Q q (snd pd) | None => True end).

(** The items after the last one linked. *)
Inductive fresh (P : placed -> item -> Prop) : option (list N) -> list placed -> list item -> option (list N) -> Prop :=
| fresh_nil b : fresh P b [] [] b
| fresh_it b d it w l e : P (b, d) it -> (isstart it = true -> i_linked it = false /\ pending it = true) ->
    fresh P (if isstart it then Some d else b) w l e -> fresh P b ((b, d) :: w) (it :: l) e
| fresh_none b it w l e : i_nalu it = None -> In (i_status it) [SMiss; SErr; SUnknown] -> fresh P b w l e -> fresh P b w (it :: l) e.
(** All items: [a] and [b] are the last two first NALUs of GOPs that were linked. *)
Inductive lnk (P : placed -> item -> Prop) : option (list N) -> option (list N) -> list placed -> list item -> option (list N) -> option (list N) -> option (list N) -> Prop :=
| lnk_fresh a b w l e : fresh P b w l e -> lnk P a b w l a b e
| lnk_plain a b d it w l a' b' e : P (b, d) it -> isstart it = false -> lnk P a b w l a' b' e -> lnk P a b ((b, d) :: w) (it :: l) a' b' e
| lnk_start a b d it w l a' b' e : P (b, d) it -> isstart it = true -> i_linked it = true -> (pending it = true -> a' = b /\ b' = Some d) ->
    lnk P b (Some d) w l a' b' e -> lnk P a b ((b, d) :: w) (it :: l) a' b' e
| lnk_none a b it w l a' b' e : i_nalu it = None -> In (i_status it) [SMiss; SErr; SUnknown] -> lnk P a b w l a' b' e -> lnk P a b w (it :: l) a' b' e.

Lemma fresh_impl (P P2 : placed -> item -> Prop) b w l e : (forall pd it, In pd w -> P pd it -> P2 pd it) -> fresh P b w l e -> fresh P2 b w l e.
Proof.
  intros H T. induction T as [b|b d it w l e HP HS T IH|b it w l e H1 H2 T IH]; [constructor|constructor 2|constructor 3]; auto.
  - apply H; [left; reflexivity|exact HP].
  - apply IH. intros pd it2 HI. apply H. right. exact HI.
Qed.
Lemma lnk_impl (P P2 : placed -> item -> Prop) a b w l a' b' e : (forall pd it, In pd w -> P pd it -> P2 pd it) -> lnk P a b w l a' b' e -> lnk P2 a b w l a' b' e.
Proof.
  intros H T. induction T as [a b w l e T|a b d it w l a' b' e HP HS T IH|a b d it w l a' b' e HP HS HL HQ T IH|a b it w l a' b' e H1 H2 T IH].
  - constructor 1. eapply fresh_impl; eassumption.
  - constructor 2; [apply H; [left; reflexivity|exact HP]|exact HS|]. apply IH. intros pd it2 HI. apply H. right. exact HI.
  - constructor 3; [apply H; [left; reflexivity|exact HP]|exact HS|exact HL|exact HQ|]. apply IH. intros pd it2 HI. apply H. right. exact HI.
  - constructor 4; auto.
Qed.

(** Together with what else is known of the items. *)
Lemma fresh_and (P : list N -> item -> Prop) (P2 : placed -> item -> Prop) b w l e : (forall d it, P d it -> i_nalu it <> None) -> (forall pd it, P2 pd it -> i_nalu it <> None) ->
  trk P (map snd w) l -> fresh P2 b w l e -> fresh (fun pd it => P (snd pd) it /\ P2 pd it) b w l e.
Proof.
  intros H1 H2 T F. revert T. induction F as [b|b d it w l e HP HS F IH|b it w l e E1 E2 F IH]; intros T.
  - constructor.
  - cbn [map snd] in T. inversion T as [|d0 it0 g0 l0 TD T'|it0 g0 l0 F1 F2 T']; subst; [|exfalso; eapply H2; eassumption]. constructor 2; auto.
  - inversion T as [|d0 it0 g0 l0 TD T'|it0 g0 l0 F1 F2 T']; subst; [exfalso; eapply H1; eassumption|]. constructor 3; auto.
Qed.
Lemma lnk_and (P : list N -> item -> Prop) (P2 : placed -> item -> Prop) a b w l a' b' e : (forall d it, P d it -> i_nalu it <> None) -> (forall pd it, P2 pd it -> i_nalu it <> None) ->
  trk P (map snd w) l -> lnk P2 a b w l a' b' e -> lnk (fun pd it => P (snd pd) it /\ P2 pd it) a b w l a' b' e.
Proof.
  intros H1 H2 T F. revert T. induction F as [a b w l e F|a b d it w l a' b' e HP HS F IH|a b d it w l a' b' e HP HS HL HQ F IH|a b it w l a' b' e E1 E2 F IH]; intros T.
  - constructor 1. apply fresh_and; assumption.
  - cbn [map snd] in T. inversion T as [|d0 it0 g0 l0 TD T'|it0 g0 l0 F1 F2 T']; subst; [|exfalso; eapply H2; eassumption]. constructor 2; auto.
  - cbn [map snd] in T. inversion T as [|d0 it0 g0 l0 TD T'|it0 g0 l0 F1 F2 T']; subst; [|exfalso; eapply H2; eassumption]. constructor 3; auto.
  - inversion T as [|d0 it0 g0 l0 TD T'|it0 g0 l0 F1 F2 T']; subst; [exfalso; eapply H1; eassumption|]. constructor 4; auto.
Qed.

(** *** Changes that do not matter *)
Definition alike (a b : item) : Prop :=
  nf a = nf b /\ i_status b = i_status a /\ i_linked b = i_linked a /\ (i_decoded b = i_decoded a \/ item_sei a = true).
Lemma alike_refl a : alike a a.
Proof. unfold alike. auto. Qed.
Lemma alike_trans a b d : alike a b -> alike b d -> alike a d.
Proof.
  intros (A1 & A2 & A3 & A4) (B1 & B2 & B3 & B4). destruct (nf_same _ _ A1) as (_ & _ & _ & E & _). rewrite E in B4.
  unfold alike. split; [congruence|]. split; [congruence|]. split; [congruence|]. destruct A4, B4; auto. left. congruence.
Qed.
Lemma alikes_refl l : Forall2 alike l l.
Proof. induction l; constructor; auto using alike_refl. Qed.
Lemma alikes_trans l m n : Forall2 alike l m -> Forall2 alike m n -> Forall2 alike l n.
Proof. intros H. revert n. induction H; intros n H2; inversion H2; subst; constructor; eauto using alike_trans. Qed.
Lemma alike_pend a b : alike a b -> pending b = pending a.
Proof. intros (_ & E & _). unfold pending. rewrite E. reflexivity. Qed.
Lemma lt_alike Q c pd a b : alike a b -> lt Q c pd a -> lt Q c pd b.
Proof.
  intros HA (H1 & H2 & H3 & H4 & H5 & H6 & H7). pose proof (alike_pend _ _ HA) as EP. destruct HA as (A1 & A2 & A3 & A4). destruct (nf_same _ _ A1) as (E1 & E2 & E3 & E4 & E5).
  unfold lt. rewrite E2, E3, E4, EP, A2. split; [tauto|]. split; [exact H2|]. split; [exact H3|]. split; [|auto]. intros E. destruct A4 as [A4|A4]; [rewrite A4; auto|]. rewrite (H5 A4) in E. discriminate.
Qed.
Lemma fresh_alike Q c b w l e m : Forall2 alike l m -> fresh (lt Q c) b w l e -> fresh (lt Q c) b w m e.
Proof.
  intros HM T. revert m HM. induction T as [b|b d it w l e HP HS T IH|b it w l e H1 H2 T IH]; intros m HM; inversion HM as [|x y l0 m0 A1 A2]; subst.
  - constructor.
  - pose proof (alike_pend _ _ A1) as EP. pose proof A1 as (B1 & B2 & B3 & B4). destruct (nf_same _ _ B1) as (E1 & E2 & E3 & E4 & E5).
    constructor 2; [eapply lt_alike; eassumption|rewrite E3, B3, EP; exact HS|rewrite E3; apply IH, A2].
  - pose proof A1 as (B1 & B2 & B3 & B4). destruct (nf_same _ _ B1) as (E1 & E2 & E3 & E4 & E5). constructor 3; [tauto|rewrite B2; exact H2|apply IH, A2].
Qed.
Lemma lnk_alike Q c a b w l a' b' e m : Forall2 alike l m -> lnk (lt Q c) a b w l a' b' e -> lnk (lt Q c) a b w m a' b' e.
Proof.
  intros HM T. revert m HM. induction T as [a b w l e T|a b d it w l a' b' e HP HS T IH|a b d it w l a' b' e HP HS HL HQ T IH|a b it w l a' b' e H1 H2 T IH]; intros m HM.
  { constructor 1. eapply fresh_alike; eassumption. }
  all: inversion HM as [|x y l0 m0 A1 A2]; subst; pose proof (alike_pend _ _ A1) as EP; pose proof A1 as (B1 & B2 & B3 & B4); destruct (nf_same _ _ B1) as (E1 & E2 & E3 & E4 & E5).
  - constructor 2; [eapply lt_alike; eassumption|congruence|apply IH, A2].
  - constructor 3; [eapply lt_alike; eassumption|congruence|congruence|rewrite EP; exact HQ|apply IH, A2].
  - constructor 4; [tauto|rewrite B2; exact H2|apply IH, A2].
Qed.

(** *** Verdicts; [X] tells which first items may become authentic *)
Definition stp (X : item -> Prop) (a b : item) : Prop :=
  b = a \/ (nf b = nf a /\ i_decoded b = i_decoded a /\ i_linked b = i_linked a /\ i_used b = i_used a /\ pending a = true /\ pending b = false /\ i_status b <> SMiss /\ i_nalu a <> None /\
    (isstart a = true -> i_linked a = true /\ (i_status b = SValid -> X a))).
Inductive evl (X : item -> Prop) : list item -> list item -> Prop :=
| evl_nil : evl X [] []
| evl_it a b l m : stp X a b -> evl X l m -> evl X (a :: l) (b :: m)
| evl_ins b l m : i_nalu b = None -> i_status b = SMiss -> evl X l m -> evl X l (b :: m).
Lemma stp_refl X a : stp X a a.
Proof. left. reflexivity. Qed.
Lemma evl_refl X l : evl X l l.
Proof. induction l; constructor; auto using stp_refl. Qed.
Lemma stp_trans (X : item -> Prop) a b d : stp X a b -> stp X b d -> stp X a d.
Proof. intros [->|HA] HB; [exact HB|]. destruct HB as [->|HB]; [right; exact HA|]. destruct HA as (_ & _ & _ & _ & _ & A & _). destruct HB as (_ & _ & _ & _ & B & _). congruence. Qed.
Lemma evl_trans X l m n : evl X l m -> evl X m n -> evl X l n.
Proof.
  intros H1 H2. revert l H1. induction H2 as [|a b m n HS H2 IH|b m n E1 E2 H2 IH]; intros l H1.
  - exact H1.
  - inversion H1 as [|a0 b0 l0 m0 S1 H1'|b0 l0 m0 F1 F2 H1']; subst.
    + constructor 2; [eapply stp_trans; eassumption|auto].
    + destruct HS as [->|HS]; [constructor 3; auto|]. exfalso. destruct HS as (_ & _ & _ & _ & HS & _). unfold pending in HS. rewrite F2 in HS. discriminate.
  - constructor 3; auto.
Qed.
Lemma evl_app X a b d e : evl X a b -> evl X d e -> evl X (a ++ d) (b ++ e).
Proof. intros H H2. induction H; [exact H2|constructor 2; assumption|cbn [app]; constructor 3; assumption]. Qed.
Lemma evl_missing X k l m : evl X l m -> evl X l (repeat missing_item k ++ m).
Proof. intros H. induction k as [|k IH]; [exact H|]. cbn [repeat app]. constructor 3; [reflexivity|reflexivity|exact IH]. Qed.
Lemma evl_add X num ap pos l : evl X l (add_missing num ap pos l).
Proof. unfold add_missing. rewrite <- (firstn_skipn (if ap then S pos else pos) l) at 1. apply evl_app; [apply evl_refl|]. apply evl_missing, evl_refl. Qed.
Lemma sei_good it : item_sei it = true -> i_nalu it <> None.
Proof. unfold item_sei. destruct (i_nalu it); discriminate. Qed.
Lemma evl_sei X s l : s <> SPend -> s <> SMiss -> Forall (fun it => item_sei it = true -> isstart it = false) l -> evl X l (on_next_sei (set_i_status s) l).
Proof.
  intros S1 S2. induction 1 as [|it l H HF IH]; cbn [on_next_sei]; [constructor|]. destruct (item_sei it && pending it) eqn:E; [|constructor 2; [apply stp_refl|exact IH]]. apply andb_true_iff in E as [E1 E2].
  constructor 2; [|apply evl_refl]. right. repeat split; auto; [|apply sei_good, E1| |]; try (rewrite (H E1) in *; discriminate). unfold pending. cbn. destruct s; try reflexivity; congruence.
Qed.
Lemma lt_stp Q c (X : item -> Prop) p d a b : stp X a b -> (X a -> isstart a = true -> match p with Some q => Q q d | None => True end) -> lt Q c (p, d) a -> lt Q c (p, d) b.
Proof.
  intros [->|(S1 & S2 & S3 & S4 & S5 & S6 & S7 & S8 & S9)] HX (H1 & H2 & H3 & H4 & H5 & H6 & H7); [exact (conj H1 (conj H2 (conj H3 (conj H4 (conj H5 (conj H6 H7))))))|].
  destruct (nf_same _ _ (eq_sym S1)) as (E1 & E2 & E3 & E4 & E5). unfold lt. cbn [fst snd] in *. rewrite E2, E3, E4. split; [tauto|]. split; [exact H2|]. split; [intros E; destruct (H3 E); congruence|]. split; [intros E; rewrite S2; auto|]. split; [exact H5|]. split; [exact S7|].
  intros V ST. apply HX; [|exact ST]. destruct (S9 ST). auto.
Qed.
Lemma none_stp X a b : stp X a b -> i_nalu a = None -> b = a.
Proof. intros [->|HS] E; [reflexivity|]. destruct HS as (_ & _ & _ & _ & _ & _ & _ & HS & _). congruence. Qed.
Lemma fresh_evl (R : list N -> item -> Prop) Q c X b w l e m : evl X l m -> fresh (fun pd it => R (snd pd) it /\ lt Q c pd it) b w l e -> fresh (lt Q c) b w m e.
Proof.
  intros HE. revert b w. induction HE as [|x y l m HS HE IH|y l m E1 E2 HE IH]; intros b w T.
  - inversion T; subst. constructor.
  - inversion T as [|b0 d it w0 l0 e0 [HR HP] HT T'|b0 it w0 l0 e0 F1 F2 T']; subst.
    + assert (FS : y = x \/ isstart x = false).
      { destruct HS as [HS|HS]; [left; exact HS|]. right. destruct (isstart x) eqn:ES; [|reflexivity]. destruct HS as (_ & _ & _ & _ & _ & _ & _ & _ & HS). destruct (HS eq_refl). destruct (HT eq_refl). congruence. }
      destruct FS as [->|FS]; [constructor 2; auto|]. assert (FY : isstart y = false).
      { destruct HS as [->|HS]; [exact FS|]. destruct HS as (S1 & _). destruct (nf_same _ _ (eq_sym S1)) as (_ & _ & -> & _). exact FS. }
      constructor 2; [eapply lt_stp; [exact HS| |exact HP]; congruence|congruence|]. rewrite FY. rewrite FS in T'. auto.
    + rewrite (none_stp _ _ _ HS F1). constructor 3; auto.
  - constructor 3; [exact E1|rewrite E2; left; reflexivity|auto].
Qed.
Lemma lnk_evl (R : list N -> item -> Prop) Q c X a b w l a' b' e m : evl X l m ->
  (forall p d it, In (p, d) w -> R d it -> lt Q c (p, d) it -> isstart it = true -> a' = p -> X it -> match p with Some q => Q q d | None => True end) ->
  lnk (fun pd it => R (snd pd) it /\ lt Q c pd it) a b w l a' b' e -> lnk (lt Q c) a b w m a' b' e.
Proof.
  intros HE. revert a b w. induction HE as [|x y l m HS HE IH|y l m E1 E2 HE IH]; intros a b w HX T.
  - inversion T; subst. constructor 1. match goal with F : fresh _ _ _ _ _ |- _ => inversion F; subst; constructor end.
  - inversion T as [a0 b0 w0 l0 e0 T'|a0 b0 d it w0 l0 a0' b0' e0 [HR HP] HT T'|a0 b0 d it w0 l0 a0' b0' e0 [HR HP] HT HL HQ T'|a0 b0 it w0 l0 a0' b0' e0 F1 F2 T']; subst.
    + constructor 1. eapply fresh_evl; [|exact T']. constructor 2; eassumption.
    + assert (FY : isstart y = false).
      { destruct HS as [->|HS]; [exact HT|]. destruct HS as (S1 & _). destruct (nf_same _ _ (eq_sym S1)) as (_ & _ & -> & _). exact HT. }
      constructor 2; [eapply lt_stp; [exact HS| |exact HP]; congruence|exact FY|]. apply IH; [|exact T']. intros p0 d0 it0 HI. apply HX. right. exact HI.
    + assert (G : lnk (lt Q c) b (Some d) w0 m a' b' e) by (apply IH; [|exact T']; intros p0 d0 it0 HI; apply HX; right; exact HI).
      destruct HS as [->|HS]; [constructor 3; auto|]. pose proof HS as (S1 & S2 & S3 & S4 & S5 & S6 & S7 & S8 & S9). destruct (nf_same _ _ (eq_sym S1)) as (_ & _ & EY & _). destruct (HQ S5) as [QA QB].
      constructor 3; [|congruence|congruence|congruence|exact G]. eapply lt_stp; [right; exact HS| |exact HP]. intros HXX HSS. apply (HX b d x); auto. left. reflexivity.
    + rewrite (none_stp _ _ _ HS F1). constructor 4; auto.
  - constructor 4; [exact E1|rewrite E2; left; reflexivity|auto].
Qed.

(** *** Linking one more *)
Lemma pend_no it : In (i_status it) [SMiss; SErr; SUnknown] -> pending it = false.
Proof. unfold pending. intros [<-|[<-|[<-|[]]]]; reflexivity. Qed.
Lemma fresh_link (P : placed -> item -> Prop) a w l1 it l2 e : (forall pd x, P pd x -> P pd (set_i_linked true x)) -> (forall pd x, P pd x -> i_nalu x <> None) -> isstart it = true -> Forall (fun x => pending x = false) l1 ->
  forall b, fresh P b w (l1 ++ it :: l2) e -> exists d, In (b, d) w /\ P (b, d) it /\ lnk P a b w (l1 ++ set_i_linked true it :: l2) b (Some d) e.
Proof.
  intros HL HN HS HF. revert w. induction l1 as [|x l1 IH]; intros w b T; cbn [app] in T |- *.
  - inversion T as [|b0 d it0 w0 l0 e0 HP HT T'|b0 it0 w0 l0 e0 F1 F2 T']; subst.
    + exists d. split; [left; reflexivity|]. split; [exact HP|]. rewrite HS in T'. constructor 3; [apply HL, HP|exact HS|reflexivity|auto|]. constructor 1. exact T'.
    + unfold isstart, fgop in HS. rewrite F1 in HS. discriminate.
  - apply Forall_cons_iff in HF as [H0 HF]. inversion T as [|b0 d it0 w0 l0 e0 HP HT T'|b0 it0 w0 l0 e0 F1 F2 T']; subst.
    + destruct (isstart x) eqn:ES; [destruct (HT eq_refl); congruence|]. destruct (IH HF _ _ T') as (d2 & I1 & I2 & I3). exists d2. split; [right; exact I1|]. split; [exact I2|]. constructor 2; assumption.
    + destruct (IH HF _ _ T') as (d2 & I1 & I2 & I3). exists d2. split; [exact I1|]. split; [exact I2|]. constructor 4; assumption.
Qed.
Lemma lnk_link (P : placed -> item -> Prop) it l2 e l1 : (forall pd x, P pd x -> P pd (set_i_linked true x)) -> (forall pd x, P pd x -> i_nalu x <> None) -> isstart it = true -> i_linked it = false -> Forall (fun x => pending x = false) l1 ->
  forall w a b a' b', lnk P a b w (l1 ++ it :: l2) a' b' e -> exists d, In (b', d) w /\ P (b', d) it /\ lnk P a b w (l1 ++ set_i_linked true it :: l2) b' (Some d) e.
Proof.
  intros HL HN HS HI HF. induction l1 as [|x l1 IH]; intros w a b a' b' T; cbn [app] in *.
  - inversion T as [a0 b0 w0 l0 e0 T'|a0 b0 d it0 w0 l0 a0' b0' e0 HP HT T'|a0 b0 d it0 w0 l0 a0' b0' e0 HP HT HL0 HQ T'|a0 b0 it0 w0 l0 a0' b0' e0 F1 F2 T']; subst; try congruence.
    + apply (fresh_link P a' w [] it l2 e HL HN HS (Forall_nil _) b' T').
    + unfold isstart, fgop in HS. rewrite F1 in HS. discriminate.
  - apply Forall_cons_iff in HF as [H0 HF].
    inversion T as [a0 b0 w0 l0 e0 T'|a0 b0 d it0 w0 l0 a0' b0' e0 HP HT T'|a0 b0 d it0 w0 l0 a0' b0' e0 HP HT HL0 HQ T'|a0 b0 it0 w0 l0 a0' b0' e0 F1 F2 T']; subst.
    + apply (fresh_link P a' w (x :: l1) it l2 e HL HN HS (Forall_cons _ H0 HF) b' T').
    + destruct (IH HF _ _ _ _ _ T') as (d2 & I1 & I2 & I3). exists d2. split; [right; exact I1|]. split; [exact I2|]. constructor 2; assumption.
    + destruct (IH HF _ _ _ _ _ T') as (d2 & I1 & I2 & I3). exists d2. split; [right; exact I1|]. split; [exact I2|]. constructor 3; auto. congruence.
    + destruct (IH HF _ _ _ _ _ T') as (d2 & I1 & I2 & I3). exists d2. split; [exact I1|]. split; [exact I2|]. constructor 4; assumption.
Qed.

(** *** Taking back verdicts: only before a second one is linked *)
Lemma lnk_one P a d0 w l a' b' e : lnk P a (Some d0) w l a' b' e -> (a' = a /\ b' = Some d0) \/ a' <> None.
Proof.
  remember (Some d0) as b eqn:E. intros T. revert d0 E. induction T as [a b w l e T|a b d it w l a' b' e HP HS T IH|a b d it w l a' b' e HP HS HL HQ T IH|a b it w l a' b' e H1 H2 T IH]; intros d0 E.
  - left. auto.
  - eauto.
  - subst b. right. destruct (IH d eq_refl) as [[-> _]|H]; [discriminate|exact H].
  - eauto.
Qed.
(** One item under [remove_missing]. *)
Definition back (it : item) : item :=
  let it1 := if i_decoded it && negb (vstat_eqb (i_status it) SUnknown) then set_i_status SUnknown it else it in
  if vstat_eqb (i_status it1) SInvalid then set_i_status SPend it1 else it1.
Lemma back_same it : i_nalu (back it) = i_nalu it /\ i_decoded (back it) = i_decoded it /\ i_linked (back it) = i_linked it /\ i_used (back it) = i_used it /\
  (pending it = true -> isstart it = true -> i_decoded it = false -> back it = it) /\
  (i_status (back it) = i_status it \/ i_status (back it) = SUnknown \/ i_status (back it) = SPend /\ i_status it = SInvalid).
Proof.
  unfold back. destruct it as [n s h sh dc us lk]. cbn. destruct dc; cbn; [destruct s; cbn; repeat split; auto; discriminate|]. destruct s; cbn; repeat split; auto; discriminate.
Qed.
Lemma lt_back Q c pd it : lt Q c pd it -> lt Q c pd (back it).
Proof.
  intros (H1 & H2 & H3 & H4 & H5 & H6 & H7). destruct (back_same it) as (E1 & E2 & E3 & E4 & E5 & E6). unfold lt, isstart, fgop, good, item_sei in *. rewrite E1, E2.
  split; [exact H1|]. split; [exact H2|]. split.
  - intros HG. destruct (H3 HG) as [G1 G2]. unfold pending in *. destruct E6 as [-> |[-> |[_ E6]]]; [auto|split; [reflexivity|discriminate]|congruence].
  - split; [exact H4|]. split; [exact H5|]. split; [destruct E6 as [-> |[-> |[-> E6]]]; [exact H6|discriminate|discriminate]|]. destruct E6 as [-> |[-> |[-> E6]]]; [exact H7|discriminate|discriminate].
Qed.
Lemma fresh_back Q c : forall l b w e, fresh (lt Q c) b w l e -> forall fr fp fs, fresh (lt Q c) b w (remove_missing fr fp fs l) e.
Proof.
  induction l as [|x l IH]; intros b w e T fr fp fs; cbn [remove_missing]; [exact T|]. dif; [exact T|]. inversion T as [|b0 d it0 w0 l0 e0 HP HT T'|b0 it0 w0 l0 e0 F1 F2 T']; subst.
  - destruct (vstat_eqb (i_status x) SMiss) eqn:EM; [exfalso; destruct HP as (_ & _ & _ & _ & _ & HP & _); destruct (i_status x); try discriminate; congruence|]. cbn [andb]. cbv zeta.
    fold (back x). destruct (back_same x) as (E1 & E2 & E3 & E4 & E5 & E6). assert (ES : isstart (back x) = isstart x) by (unfold isstart, fgop, good; rewrite E1; reflexivity).
    constructor 2; [apply lt_back, HP| |rewrite ES; apply IH, T']. rewrite ES, E3. intros ES2. destruct (HT ES2) as [HT1 HT2]. split; [exact HT1|]. rewrite E5; auto. destruct HP as (_ & _ & _ & HP & _). auto.
  - dif; [apply IH, T'|]. cbv zeta. fold (back x). destruct (back_same x) as (E1 & E2 & E3 & E4 & E5 & E6). constructor 3; [congruence| |apply IH, T'].
    destruct E6 as [-> |[-> |[_ E6]]]; [exact F2|right; right; left; reflexivity|]. rewrite E6 in F2. destruct F2 as [F2|[F2|[F2|[]]]]; discriminate.
Qed.
Lemma lnk_back Q c : forall l a b w b' e, lnk (lt Q c) a b w l None b' e -> forall fr fp fs, lnk (lt Q c) a b w (remove_missing fr fp fs l) None b' e.
Proof.
  induction l as [|x l IH]; intros a b w b' e T fr fp fs; cbn [remove_missing]; [exact T|]. destruct (fp && fs) eqn:EFF; [exact T|].
  inversion T as [a0 b0 w0 l0 e0 T'|a0 b0 d it0 w0 l0 a0' b0' e0 HP HT T'|a0 b0 d it0 w0 l0 a0' b0' e0 HP HT HL0 HQ T'|a0 b0 it0 w0 l0 a0' b0' e0 F1 F2 T']; subst.
  - pose proof (fresh_back _ _ _ _ _ _ T' fr fp fs) as G. cbn [remove_missing] in G. rewrite EFF in G. constructor 1. exact G.
  - destruct (vstat_eqb (i_status x) SMiss) eqn:EM; [exfalso; destruct HP as (_ & _ & _ & _ & _ & HP & _); destruct (i_status x); try discriminate; congruence|]. cbn [andb]. cbv zeta.
    fold (back x). destruct (back_same x) as (E1 & E2 & E3 & E4 & E5 & E6). assert (ES : isstart (back x) = isstart x) by (unfold isstart, fgop, good; rewrite E1; reflexivity).
    constructor 2; [apply lt_back, HP|congruence|apply IH, T'].
  - destruct (vstat_eqb (i_status x) SMiss) eqn:EM; [exfalso; destruct HP as (_ & _ & _ & _ & _ & HP & _); destruct (i_status x); try discriminate; congruence|]. cbn [andb]. cbv zeta.
    fold (back x). destruct (back_same x) as (E1 & E2 & E3 & E4 & E5 & E6). assert (ES : isstart (back x) = isstart x) by (unfold isstart, fgop, good; rewrite E1; reflexivity).
    constructor 3; [apply lt_back, HP|congruence|congruence| |apply IH, T']. intros _. destruct (lnk_one _ _ _ _ _ _ _ _ T') as [[G1 G2]|G]; [auto|congruence].
  - dif; [apply IH, T'|]. cbv zeta. fold (back x). destruct (back_same x) as (E1 & E2 & E3 & E4 & E5 & E6). constructor 4; [congruence| |apply IH, T'].
    destruct E6 as [-> |[-> |[_ E6]]]; [exact F2|right; right; left; reflexivity|]. rewrite E6 in F2. destruct F2 as [F2|[F2|[F2|[]]]]; discriminate.
Qed.

(** *** One more NALU; the first ones are done *)
Lemma fresh_app P b w l e w2 l2 e2 : fresh P b w l e -> fresh P e w2 l2 e2 -> fresh P b (w ++ w2) (l ++ l2) e2.
Proof. intros T T2. induction T as [b|b d it w l e HP HS T IH|b it w l e H1 H2 T IH]; [exact T2|cbn [app]; constructor 2; auto|cbn [app]; constructor 3; auto]. Qed.
Lemma lnk_app P a b w l a' b' e w2 l2 e2 : lnk P a b w l a' b' e -> fresh P e w2 l2 e2 -> lnk P a b (w ++ w2) (l ++ l2) a' b' e2.
Proof.
  intros T T2. induction T as [a b w l e T|a b d it w l a' b' e HP HS T IH|a b d it w l a' b' e HP HS HL HQ T IH|a b it w l a' b' e H1 H2 T IH]; cbn [app].
  - constructor 1. eapply fresh_app; eassumption.
  - constructor 2; auto.
  - constructor 3; auto.
  - constructor 4; auto.
Qed.
Lemma lt_space (it : item) : i_nalu it <> None -> (type_char (i_nalu it) =? 32) = false.
Proof. destruct (i_nalu it) as [n|]; [intros _|congruence]. cbn. destruct (n_type n); try reflexivity; repeat dif; reflexivity. Qed.
Lemma fresh_clean Q c b w l e : fresh (lt Q c) b w l e -> fresh (lt Q c) b (waiting_from w (validation_str l) (nalu_str l)) (fst (clean_up l)) e.
Proof.
  unfold validation_str, nalu_str. intros T. induction T as [b|b d it w l e HP HS T IH|b it w l e H1 H2 T IH]; cbn [map waiting_from clean_up]; [constructor| |].
  - rewrite pending_char. destruct (pending it) eqn:EP; [constructor 2; [exact HP|intros ES; rewrite EP; split; [apply (HS ES)|reflexivity]|exact T]|]. rewrite lt_space by apply HP. cbn [tl]. destruct (clean_up l) as [l2 k]. cbn [fst] in *.
    destruct (isstart it); [destruct (HS eq_refl); congruence|exact IH].
  - rewrite pending_char, (pend_no _ H2), H1. cbn [type_char]. change (32 =? 32) with true. cbv iota. destruct (clean_up l) as [l2 k]. exact IH.
Qed.
Lemma lnk_clean Q c a b w l a' b' e : lnk (lt Q c) a b w l a' b' e -> exists a2 b2, lnk (lt Q c) a2 b2 (waiting_from w (validation_str l) (nalu_str l)) (fst (clean_up l)) a' b' e.
Proof.
  intros T. induction T as [a b w l e T|a b d it w l a' b' e HP HS T IH|a b d it w l a' b' e HP HS HL HQ T IH|a b it w l a' b' e H1 H2 T IH].
  { exists a, b. constructor 1. apply fresh_clean, T. }
  all: unfold validation_str, nalu_str; cbn [map waiting_from clean_up]; rewrite pending_char.
  - destruct (pending it) eqn:EP; [exists a, b; constructor 2; assumption|]. rewrite lt_space by apply HP. cbn [tl]. destruct (clean_up l) as [l2 k]. exact IH.
  - destruct (pending it) eqn:EP; [exists a, b; constructor 3; [exact HP|exact HS|exact HL|intros _; apply HQ; reflexivity|exact T]|]. rewrite lt_space by apply HP. cbn [tl]. destruct (clean_up l) as [l2 k]. exact IH.
  - rewrite (pend_no _ H2), H1. cbn [type_char]. change (32 =? 32) with true. cbv iota. destruct (clean_up l) as [l2 k]. exact IH.
Qed.

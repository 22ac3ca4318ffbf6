(** What a round of validation does to the statuses in the list of NALUs: lemmas. *)
From Verif Require Import Base BaseProofs Epb Nalu Crypto Types Hash Tlv TlvProofs CodecSpec SignerProofs VTypes NaluList Validator VListProofs
  VFrameProofs ValidSpec MatchSpec MatchProofs BookProofs VAuthProofs VKeyProofs VTerm AuthProofs.
Local Open Scope N_scope.

(** What of an item matters here. *)
Definition kind (n : nalu) : Z * bool * bool * bool * N := (n_valid n, n_first_in_gop n, n_gop_sei n, n_hashable n, type_char (Some n)).
Definition vw (it : item) := (option_map kind (i_nalu it), i_status it, i_decoded it, i_used it).
Definition bad (it : item) : bool := negb (item_sei it) && vstat_eqb (i_status it) SInvalid.
Definition nb (it : item) : Prop := bad it = false.
Definition unused (l : list item) : Prop := Forall (fun it => i_used it = false) l.
Definition wf (it : item) : Prop :=
  match i_nalu it with
  | Some n => (pending it = true \/ i_status it = SInvalid -> n_hashable n = true /\ (0 <? n_valid n)%Z = true) /\
              (n_gop_sei n = true -> type_char (Some n) = 83 /\ n_first_in_gop n = false)
  | None => i_status it <> SPend /\ i_status it <> SInvalid
  end.
(** Pictures are marked 'N' only before the first pending item. *)
Definition shp (l : list item) : Prop := exists a b, l = a ++ b /\ Forall (fun it => pending it = false) a /\ Forall nb b.
(** The same while the items of a GOP are marked as used. *)
Definition uf (l : list item) : Prop := exists a b1 b2, l = a ++ b1 ++ b2 /\ Forall (fun it => pending it = false /\ i_used it = false) a /\
  Forall (fun it => nb it /\ i_used it = pending it /\ (pending it = true -> item_sei it = false)) b1 /\ Forall (fun it => nb it /\ i_used it = false) b2.

(** The pending items: does it start a GOP, is it a SEI. *)
Definition pk1 (it : item) : list (bool * bool) :=
  match i_nalu it with Some n => if pending it && n_hashable n then [(n_first_in_gop n, n_gop_sei n)] else [] | None => [] end.
Definition pk (l : list item) : list (bool * bool) := flat_map pk1 l.
Fixpoint rm1 (ks : list (bool * bool)) : list (bool * bool) :=
  match ks with [] => [] | k :: r => if snd k then r else k :: rm1 r end.

(** *** From one list to the next *)
Inductive trs : list item -> list item -> Prop :=
| trs_nil : trs [] []
| trs_same it l m : trs l m -> trs (it :: l) (it :: m)
| trs_mark it s l m : pending it = true -> i_used it = true -> i_nalu it <> None -> s = SValid \/ s = SInvalid -> trs l m -> trs (it :: l) (set_i_status s it :: m)
| trs_miss l m : trs l m -> trs l (missing_item :: m).
Lemma trs_refl l : trs l l.
Proof. induction l; constructor; assumption. Qed.
Lemma trs_app l m l2 m2 : trs l m -> trs l2 m2 -> trs (l ++ l2) (m ++ m2).
Proof. intros H H2. induction H; cbn; [exact H2|constructor; assumption|constructor; assumption|constructor; assumption]. Qed.
Lemma trs_missing k l m : trs l m -> trs l (repeat missing_item k ++ m).
Proof. intros H. induction k; cbn; [exact H|constructor 4; exact IHk]. Qed.
Lemma trs_add num app pos l : trs l (add_missing num app pos l).
Proof. unfold add_missing. cbv zeta. set (k := if app then S pos else pos). clearbody k. rewrite <- (firstn_skipn k l) at 1. apply trs_app; [apply trs_refl|apply trs_missing, trs_refl]. Qed.
(** A predicate on items that marking does not break. *)
Lemma trs_Forall (P : item -> Prop) l m : (forall it s, pending it = true -> i_used it = true -> i_nalu it <> None -> s = SValid \/ s = SInvalid -> P it -> P (set_i_status s it)) -> P missing_item ->
  trs l m -> Forall P l -> Forall P m.
Proof. intros H1 H2 T. induction T as [|it l m T IH|it s l m E1 E2 E3 E4 T IH|l m T IH]; intros HF; try (constructor; auto; fail); apply Forall_cons_iff in HF as [H0 HF] || constructor; auto; constructor; auto. Qed.
Definition bu (it : item) : Prop := bad it = true -> i_used it = true.
Lemma trs_bu l m : trs l m -> Forall bu l -> Forall bu m.
Proof. apply trs_Forall; [|discriminate]. intros it s _ U _ _ _ _. exact U. Qed.
Lemma wf_stat it s : pending it = true -> s <> SPend -> wf it -> wf (set_i_status s it).
Proof.
  intros E1 E2 W. unfold wf in *. cbn [i_nalu set_i_status i_status]. destruct (i_nalu it) as [n|].
  - destruct W as [W1 W2]. split; [intros _; apply W1; auto|exact W2].
  - destruct W as [W1 W2]. unfold pending in E1. destruct (i_status it); try discriminate. congruence.
Qed.
Lemma trs_wf l m : trs l m -> Forall wf l -> Forall wf m.
Proof. apply trs_Forall; [|split; discriminate]. intros it s E1 _ _ E2 W. apply wf_stat; auto. destruct E2 as [->| ->]; discriminate. Qed.
Lemma pk_mark it s : s <> SPend -> pk1 (set_i_status s it) = [].
Proof. intros H. unfold pk1. cbn [i_nalu set_i_status]. destruct (i_nalu it); [|reflexivity]. unfold pending. cbn [i_status]. destruct s; try reflexivity. congruence. Qed.
Lemma trs_pk l m : trs l m -> subseq (pk m) (pk l).
Proof.
  unfold pk. induction 1 as [|it l m T IH|it s l m E1 E2 E3 E4 T IH|l m T IH]; cbn [flat_map]; [constructor| | |exact IH].
  - apply subseq_app; [apply subseq_refl|exact IH].
  - rewrite pk_mark by (destruct E4 as [->| ->]; discriminate). cbn. apply subseq_app_l, IH.
Qed.

(** *** The first pending SEI *)
Lemma rm1_app a b : Forall (fun k => snd k = false) a -> rm1 (a ++ b) = a ++ rm1 b.
Proof. induction 1 as [|k a H HF IH]; cbn [app rm1]; [reflexivity|]. rewrite H, IH. reflexivity. Qed.
Lemma rm1_sub a : subseq (rm1 a) a.
Proof. induction a as [|k a IH]; cbn [rm1]; [constructor|]. destruct (snd k); [constructor 3; apply subseq_refl|constructor 2; exact IH]. Qed.
Lemma rm1_mono a b : subseq a b -> subseq (rm1 a) (rm1 b).
Proof.
  induction 1 as [m|k l m H IH|k l m H IH]; cbn [rm1]; [constructor| |].
  - destruct (snd k); [exact H|constructor 2; exact IH].
  - destruct (snd k); [|constructor 3; exact IH]. eapply subseq_trans; [apply rm1_sub|exact H].
Qed.
Lemma next_pk s l : s <> SPend -> Forall wf l -> subseq (pk (on_next_sei (set_i_status s) l)) (rm1 (pk l)).
Proof.
  intros HS. unfold pk. induction 1 as [|it l W HF IH]; cbn [on_next_sei flat_map]; [constructor|]. destruct (item_sei it && pending it) eqn:E; cbn [flat_map].
  - apply andb_true_iff in E as [E1 E2]. rewrite pk_mark by exact HS. cbn [app]. unfold pk1. unfold item_sei in E1. unfold wf in W. destruct (i_nalu it) as [n|]; [|discriminate].
    destruct W as [W _]. destruct (W (or_introl E2)) as [W1 _]. rewrite E2, W1. cbn. rewrite E1. apply subseq_refl.
  - rewrite rm1_app; [apply subseq_app; [apply subseq_refl|exact IH]|]. unfold pk1. unfold item_sei in E. destruct (i_nalu it) as [n|]; [|constructor]. destruct (pending it && n_hashable n) eqn:E2; [|constructor]. constructor; [|constructor].
    apply andb_true_iff in E2 as [E2 _]. rewrite E2, andb_true_r in E. exact E.
Qed.
Lemma next_Forall (P : item -> Prop) f l : (forall it, item_sei it = true -> pending it = true -> P it -> P (f it)) -> Forall P l -> Forall P (on_next_sei f l).
Proof. intros H. induction 1 as [|it l H0 HF IH]; cbn [on_next_sei]; [constructor|]. destruct (item_sei it && pending it) eqn:E; constructor; auto. apply andb_true_iff in E as [E1 E2]. auto. Qed.
Lemma next_app f a b : Forall (fun it => pending it = false) a -> on_next_sei f (a ++ b) = a ++ on_next_sei f b.
Proof. induction 1 as [|it a H HF IH]; cbn [app on_next_sei]; [reflexivity|]. rewrite H, andb_false_r, IH. reflexivity. Qed.
Lemma next_app2 f a b : Forall (fun it => pending it = true -> item_sei it = false) a -> on_next_sei f (a ++ b) = a ++ on_next_sei f b.
Proof. induction 1 as [|it a H HF IH]; cbn [app on_next_sei]; [reflexivity|]. destruct (pending it); [rewrite H by reflexivity|rewrite andb_false_r]; cbn [andb]; rewrite IH; reflexivity. Qed.
Lemma sei_nb it s : item_sei it = true -> nb (set_i_status s it).
Proof. intros E. unfold nb, bad. change (item_sei (set_i_status s it)) with (item_sei it). rewrite E. reflexivity. Qed.
Lemma next_wf s l : s <> SPend -> Forall wf l -> Forall wf (on_next_sei (set_i_status s) l).
Proof. intros HS. apply next_Forall. intros it _ E W. apply wf_stat; assumption. Qed.
Lemma next_bu s l : Forall bu l -> Forall bu (on_next_sei (set_i_status s) l).
Proof. apply next_Forall. intros it E _ _ H. rewrite (sei_nb it s E) in H. discriminate. Qed.
Lemma next_shp s l : shp l -> shp (on_next_sei (set_i_status s) l).
Proof.
  intros (a & b & -> & A & B). exists a, (on_next_sei (set_i_status s) b). rewrite next_app by exact A. split; [reflexivity|]. split; [exact A|]. revert B. apply next_Forall. intros it E _ _. apply sei_nb, E.
Qed.
Lemma next_uf s l : uf l -> uf (on_next_sei (set_i_status s) l).
Proof.
  intros (a & b1 & b2 & -> & A & B1 & B2). exists a, b1, (on_next_sei (set_i_status s) b2). rewrite next_app by (eapply Forall_impl; [|exact A]; intros it H; apply H). rewrite next_app2 by (eapply Forall_impl; [|exact B1]; intros it H; apply H).
  split; [reflexivity|]. split; [exact A|]. split; [exact B1|]. revert B2. apply next_Forall. intros it E _ [_ U]. split; [apply sei_nb, E|exact U].
Qed.

(** *** Marking *)
Lemma shp_nb l : Forall nb l -> shp l.
Proof. intros H. exists [], l. auto. Qed.
Lemma uf_unused l : shp l -> unused l -> uf l.
Proof.
  intros (a & b & -> & A & B) U. apply Forall_app in U as [U1 U2]. exists a, [], b. split; [reflexivity|]. rewrite Forall_forall in A, B, U1, U2. split; [|split; [constructor|]]; apply Forall_forall; intros x H; auto.
Qed.
Lemma mark_trs s l : s = SValid \/ s = SInvalid -> holds (mark_used s l) (fun '(m, _) => trs l m) (fun _ => True).
Proof.
  intros HS. induction l as [|it l IH]; cbn [mark_used]; [constructor|]. apply holds_bind. eapply holds_impl; [exact IH| |auto]. intros [m k] HM. destruct (i_used it && pending it) eqn:E; [|constructor; exact HM].
  apply andb_true_iff in E as [E1 E2]. destruct (i_nalu it) as [n|] eqn:EN; [|exact I]. cbn. constructor 3; auto. congruence.
Qed.
Lemma mark_none s l : Forall (fun it => i_used it && pending it = false) l -> mark_used s l = Def (l, 0%Z).
Proof. induction 1 as [|it l H HF IH]; cbn [mark_used]; [reflexivity|]. rewrite IH. cbn [obind]. rewrite H. reflexivity. Qed.
Lemma mark_app s a : forall b, mark_used s (a ++ b) = (do (m, k) <- mark_used s b; do (m2, k2) <- mark_used s a; Def (m2 ++ m, (k2 + k)%Z)).
Proof.
  induction a as [|it a IH]; intros b; cbn [app mark_used].
  - destruct (mark_used s b) as [[m k]|]; reflexivity.
  - rewrite IH. destruct (mark_used s b) as [[m k]|]; cbn [obind]; [|reflexivity]. destruct (mark_used s a) as [[m2 k2]|]; cbn [obind]; [|reflexivity]. destruct (i_used it && pending it); [|reflexivity]. destruct (i_nalu it) as [n|]; [|reflexivity].
    cbn [obind app]. destruct (n_gop_sei n); [reflexivity|]. do 2 f_equal. lia.
Qed.
Lemma mark_shp s l : s = SValid \/ s = SInvalid -> uf l -> holds (mark_used s l) (fun '(m, _) => shp m) (fun _ => True).
Proof.
  intros HS (a & b1 & b2 & -> & A & B1 & B2). rewrite app_assoc, mark_app.
  rewrite (mark_none s b2) by (eapply Forall_impl; [|exact B2]; intros it [_ ->]; reflexivity). cbn [obind]. apply holds_bind.
  assert (G : forall l, Forall (fun it => i_used it = pending it) l -> holds (mark_used s l) (fun '(m, _) => Forall (fun it => pending it = false) m) (fun _ => True)).
  { induction 1 as [|it l H HF IH]; cbn [mark_used]; [constructor|]. apply holds_bind. eapply holds_impl; [exact IH| |auto]. intros [m k] HM. rewrite H, andb_diag. destruct (pending it) eqn:EP; [|constructor; assumption].
    destruct (i_nalu it); [|exact I]. cbn. constructor; [|exact HM]. unfold pending. cbn. destruct HS as [->| ->]; reflexivity. }
  eapply holds_impl; [apply G| |auto].
  - apply Forall_app. split; [eapply Forall_impl; [|exact A]; intros it [-> ->]; reflexivity|eapply Forall_impl; [|exact B1]; intros it (_ & H & _); exact H].
  - intros [m k] HM. cbn. exists m, b2. split; [reflexivity|]. split; [exact HM|]. eapply Forall_impl; [|exact B2]. intros it H. apply H.
Qed.
Lemma shp_miss l : shp l -> shp (missing_item :: l).
Proof. intros (a & b & -> & A & B). exists (missing_item :: a), b. split; [reflexivity|]. split; [constructor; [reflexivity|exact A]|exact B]. Qed.
Lemma shp_misses k l : shp l -> shp (repeat missing_item k ++ l).
Proof. intros H. induction k; cbn; [exact H|apply shp_miss, IHk]. Qed.
Lemma rep_nopend k : Forall (fun it => pending it = false) (repeat missing_item k).
Proof. induction k; cbn; constructor; auto. Qed.
Lemma rep_nb k : Forall nb (repeat missing_item k).
Proof. induction k; cbn; constructor; auto. reflexivity. Qed.
Lemma shp_ins k j l : shp l -> shp (firstn j l ++ repeat missing_item k ++ skipn j l).
Proof.
  intros (a & b & -> & A & B). destruct (Nat.le_gt_cases j (length a)) as [L|L].
  - exists (firstn j a ++ repeat missing_item k ++ skipn j a), b. rewrite firstn_app, skipn_app. replace (j - length a)%nat with 0%nat by lia. cbn [firstn skipn]. rewrite app_nil_r, <- !app_assoc. split; [reflexivity|]. split; [|exact B].
    rewrite <- (firstn_skipn j a) in A. apply Forall_app in A as [A1 A2]. apply Forall_app. split; [exact A1|]. apply Forall_app. split; [apply rep_nopend|exact A2].
  - exists a, (firstn (j - length a) b ++ repeat missing_item k ++ skipn (j - length a) b). rewrite firstn_app, skipn_app, (firstn_all2 a), (skipn_all2 a) by lia. rewrite <- app_assoc. split; [reflexivity|]. split; [exact A|].
    rewrite <- (firstn_skipn (j - length a) b) in B. apply Forall_app in B as [B1 B2]. apply Forall_app. split; [exact B1|]. apply Forall_app. split; [apply rep_nb|exact B2].
Qed.
Lemma shp_add num app pos l : shp l -> shp (add_missing num app pos l).
Proof. apply shp_ins. Qed.

(** *** The hash list *)
Lemma hl_trs hs exp l : forall pos ps seen s, holds (hl_loop hs exp pos ps seen s l) (fun '(_, m) => trs l m) (fun _ => True).
Proof.
  induction l as [|it l IH]; intros pos ps seen s; cbn [hl_loop]; [constructor|]. cbv zeta. destruct (negb (pending it) || _) eqn:EP.
  - apply holds_bind. eapply holds_impl; [apply IH| |auto]. intros [s2 r2] H. cbn. constructor; exact H.
  - apply orb_false_iff in EP as [EP EU]. apply negb_false_iff in EP, EU. destruct (i_nalu it) as [n|] eqn:EN; [|exact I]. dif; [cbn; apply trs_refl|].
    destruct (if n_first_in_gop n then i_second it else Some (i_hash it)) as [x|]; [|exact I]. apply holds_bind. destruct (read_hash hs x) as [y|]; [|exact I]. cbn [holds].
    assert (NE : i_nalu it <> None) by congruence.
    destruct (search _ _ _) as [i found]. destruct found; apply holds_bind; destruct ps; try (eapply holds_impl; [apply IH| |auto]; intros [s3 r2] H); cbn [holds].
    + apply trs_missing. constructor 3; auto using trs_refl. destruct (h_order s); auto.
    + apply trs_missing. constructor 3; auto. destruct (h_order s); auto.
    + constructor 3; auto using trs_refl.
    + constructor 3; auto.
Qed.
Lemma hl_none hs exp l : Forall (fun it => nb it /\ i_used it = false) l -> forall pos ps seen s, holds (hl_loop hs exp pos ps seen s l) (fun '(_, m) => Forall nb m) (fun _ => True).
Proof.
  induction 1 as [|it l [H1 H2] HF IH]; intros pos ps seen s; cbn [hl_loop]; [constructor|]. rewrite H2. cbn [negb]. rewrite orb_true_r. apply holds_bind. eapply holds_impl; [apply IH| |auto]. intros [s2 r2] H. cbn. constructor; assumption.
Qed.
Lemma hl_used hs exp b2 b1 : Forall (fun it => nb it /\ i_used it = pending it /\ (pending it = true -> item_sei it = false)) b1 -> Forall (fun it => nb it /\ i_used it = false) b2 ->
  forall pos ps seen s, holds (hl_loop hs exp pos ps seen s (b1 ++ b2)) (fun '(_, m) => shp m) (fun _ => True).
Proof.
  intros B1 B2. assert (NB : forall l, Forall (fun it => nb it /\ i_used it = pending it /\ (pending it = true -> item_sei it = false)) l -> Forall nb (l ++ b2)).
  { intros l HF. apply Forall_app. split; (eapply Forall_impl; [|eassumption]); intros it H; apply H. }
  induction B1 as [|it l (H1 & H2 & H3) HF IH]; intros pos ps seen s; cbn [app].
  { eapply holds_impl; [apply hl_none, B2| |auto]. intros [s2 m] H. apply shp_nb, H. }
  cbn [hl_loop]. cbv zeta. rewrite H2. destruct (pending it) eqn:EP; cbn [negb orb].
  2:{ apply holds_bind. eapply holds_impl; [apply IH| |auto]. intros [s2 r2] (a & b & -> & A & B). cbn. exists (it :: a), b. split; [reflexivity|]. split; [constructor; assumption|exact B]. }
  destruct (i_nalu it) as [n|] eqn:EN; [|exact I]. dif; [cbn; apply shp_nb; constructor; [exact H1|apply NB, HF]|].
  destruct (if n_first_in_gop n then i_second it else Some (i_hash it)) as [x|]; [|exact I]. apply holds_bind. destruct (read_hash hs x) as [y|]; [|exact I]. cbn [holds].
  assert (ONE : forall st r, st = SValid \/ st = SInvalid -> shp r -> shp (set_i_status st it :: r)).
  { intros st r HS (a & b & -> & A & B). exists (set_i_status st it :: a), b. split; [reflexivity|]. split; [|exact B]. constructor; [|exact A]. unfold pending. cbn. destruct HS as [->| ->]; reflexivity. }
  destruct (search _ _ _) as [i found]. destruct found; apply holds_bind; destruct ps; try (eapply holds_impl; [apply IH| |auto]; intros [s3 r2] H); cbn [holds].
  - apply shp_misses, ONE; [destruct (h_order s); auto|apply shp_nb, NB, HF].
  - apply shp_misses, ONE; [destruct (h_order s); auto|exact H].
  - apply ONE; [auto|apply shp_nb, NB, HF].
  - apply ONE; [auto|exact H].
Qed.
Lemma hl_shp hs exp l : uf l -> forall pos ps seen s, holds (hl_loop hs exp pos ps seen s l) (fun '(_, m) => shp m) (fun _ => True).
Proof.
  intros (a & b1 & b2 & -> & A & B1 & B2). induction A as [|it a [H1 H2] HF IH]; intros pos ps seen s; cbn [app]; [apply hl_used; assumption|]. cbn [hl_loop]. cbv zeta. rewrite H1. cbn [negb orb].
  apply holds_bind. eapply holds_impl; [apply IH| |auto]. intros [s2 r2] (a' & b & -> & A' & B). cbn. exists (it :: a'), b. split; [reflexivity|]. split; [constructor; assumption|exact B].
Qed.

(** *** Using the items of a GOP *)
Lemma gop_used hs l : forall h is num, Forall (fun it => nb it /\ i_used it = false) l -> holds (gop_loop hs h is num l) (fun '(_, m, _) => exists b1 b2, m = b1 ++ b2 /\
   Forall (fun it => nb it /\ i_used it = pending it /\ (pending it = true -> item_sei it = false)) b1 /\ Forall (fun it => nb it /\ i_used it = false) b2) (fun _ => True).
Proof.
  induction l as [|it l IH]; intros h is num HF; cbn [gop_loop]; [exists [], []; auto|]. pose proof HF as HF0. apply Forall_cons_iff in HF as [[H1 H2] HF]. destruct (pending it) eqn:EP; cbn [negb].
  2:{ apply holds_bind. eapply holds_impl; [apply IH, HF| |auto]. intros [[h2 m] st] (b1 & b2 & -> & B1 & B2). cbn. exists (it :: b1), b2. split; [reflexivity|]. split; [|exact B2]. constructor; [|exact B1]. split; [exact H1|]. rewrite EP. split; [exact H2|discriminate]. }
  destruct (i_nalu it) as [n|] eqn:EN; [|exact I]. cbv zeta. assert (R : exists b1 b2, it :: l = b1 ++ b2 /\
   Forall (fun it => nb it /\ i_used it = pending it /\ (pending it = true -> item_sei it = false)) b1 /\ Forall (fun it => nb it /\ i_used it = false) b2) by (exists [], (it :: l); auto).
  dif; [exact R|]. dif; [exact R|]. destruct (n_gop_sei n) eqn:EG; [exact R|]. destruct (if n_first_in_gop n then i_second it else Some (i_hash it)) as [y|] eqn:EY; [|exact R].
  apply holds_bind. destruct (read_hash _ _) as [x|]; [|exact I]. cbn [holds]. destruct (update_hash _ _ _) as [h1 st1]. dif; [exact R|]. apply holds_bind. eapply holds_impl; [apply IH, HF| |auto].
  intros [[h2 m] st] (b1 & b2 & -> & B1 & B2). cbn. exists (set_i_used true it :: b1), b2. split; [reflexivity|]. split; [|exact B2]. constructor; [|exact B1]. split; [exact H1|]. change (pending (set_i_used true it)) with (pending it). rewrite EP.
  split; [reflexivity|]. intros _. unfold item_sei. cbn. rewrite EN. exact EG.
Qed.
Lemma gop_uf hs l : forall h, shp l -> unused l -> holds (gop_loop hs h 0 0 l) (fun '(_, m, _) => uf m) (fun _ => True).
Proof.
  intros h (a & b & -> & A & B) U. apply Forall_app in U as [U1 U2]. revert h. induction A as [|it a H HF IH]; intros h; cbn [app].
  - eapply holds_impl; [apply gop_used| |auto].
    + rewrite Forall_forall in *. auto.
    + intros [[h2 m] st] (b1 & b2 & -> & B1 & B2). exists [], b1, b2. auto.
  - apply Forall_cons_iff in U1 as [U0 U1]. cbn [gop_loop]. rewrite H. cbn [negb]. apply holds_bind. eapply holds_impl; [apply IH, U1| |auto]. intros [[h2 m] st] (a' & b1 & b2 & -> & A' & B1 & B2). cbn.
    exists (it :: a'), b1, b2. split; [reflexivity|]. split; [constructor; auto|auto].
Qed.
Lemma gop_dec hs l : forall h is num, holds (gop_loop hs h is num l) (fun '(_, m, _) => map i_decoded m = map i_decoded l) (fun _ => True).
Proof.
  induction l as [|it l IH]; intros h is num; cbn [gop_loop]; [reflexivity|]. destruct (negb (pending it)).
  { apply holds_bind. eapply holds_impl; [apply IH| |auto]. intros [[h1 m] st] H. cbn. congruence. }
  destruct (i_nalu it) as [n|] eqn:EN; [|exact I]. cbv zeta. destruct (1 <? _)%nat; [reflexivity|]. destruct (_ && _); [reflexivity|]. destruct (n_gop_sei n); [reflexivity|].
  destruct (if n_first_in_gop n then _ else _) as [x|]; [|reflexivity]. apply holds_bind. destruct (read_hash hs x) as [y|]; [|exact I]. cbn [holds].
  destruct (update_hash true y h) as [h1 st1]. destruct (negb (is_ok st1)); [reflexivity|]. apply holds_bind. eapply holds_impl; [apply IH| |auto]. intros [[h2 m] st2] H. cbn. rewrite H. reflexivity.
Qed.

(** *** The first validation *)
Lemma remove_nb l : forall front fp fs, Forall nb l -> Forall nb (remove_missing front fp fs l).
Proof.
  induction l as [|it l IH]; intros front fp fs HF; cbn [remove_missing]; [constructor|]. dif; [exact HF|]. apply Forall_cons_iff in HF as [H0 HF]. dif; [apply IH, HF|]. cbv zeta. constructor; [|apply IH, HF].
  assert (NB1 : forall x s, nb x -> s <> SInvalid -> nb (set_i_status s x)). { intros x s _ HS. unfold nb, bad. cbn [i_status set_i_status]. destruct s; cbn; rewrite ?andb_false_r; auto; congruence. }
  set (it1 := if i_decoded it && _ then _ else _). assert (N1 : nb it1) by (unfold it1; dif; [apply NB1; [exact H0|discriminate]|exact H0]). clearbody it1. dif; [apply NB1; [exact N1|discriminate]|exact N1].
Qed.
Lemma remove_all p q : forall front fp, Forall (fun it => i_decoded it = false) p -> Forall nb q -> Forall nb (remove_missing front fp false (p ++ q)).
Proof.
  induction p as [|it p IH]; intros front fp P Q; cbn [app]; [apply remove_nb, Q|]. apply Forall_cons_iff in P as [P0 P]. cbn [remove_missing]. rewrite andb_false_r. dif; [apply IH; assumption|]. cbv zeta. rewrite P0. cbn [andb orb]. constructor; [|apply IH; assumption].
  unfold nb, bad. destruct (vstat_eqb (i_status it) SInvalid) eqn:E; [cbn; apply andb_false_r|]. rewrite E. apply andb_false_r.
Qed.
Lemma remove_wf l : forall front fp fs, Forall wf l -> Forall wf (remove_missing front fp fs l).
Proof.
  induction l as [|it l IH]; intros front fp fs HF; cbn [remove_missing]; [constructor|]. dif; [exact HF|]. apply Forall_cons_iff in HF as [H0 HF]. dif; [apply IH, HF|]. cbv zeta. constructor; [|apply IH, HF].
  set (it1 := if i_decoded it && _ then _ else _).
  assert (W1 : wf it1). { unfold it1. dif; [|exact H0]. unfold wf in *. cbn [i_nalu set_i_status i_status]. destruct (i_nalu it) as [n|]; [|split; discriminate]. destruct H0 as [H0 H1]. split; [|exact H1]. unfold pending. cbn. intros [E|E]; discriminate. }
  clearbody it1. destruct (vstat_eqb (i_status it1) SInvalid) eqn:E; [|exact W1]. assert (ES : i_status it1 = SInvalid) by (destruct (i_status it1); try discriminate; reflexivity). unfold wf in *. cbn [i_nalu set_i_status i_status]. destruct (i_nalu it1) as [n|]; [|destruct W1; contradiction].
  destruct W1 as [W1 W2]. split; [|exact W2]. intros _. apply W1. auto.
Qed.
Lemma remove_unused l : forall front fp fs, unused l -> unused (remove_missing front fp fs l).
Proof.
  induction l as [|it l IH]; intros front fp fs HF; cbn [remove_missing]; [constructor|]. dif; [exact HF|]. apply Forall_cons_iff in HF as [H0 HF]. dif; [apply IH, HF|]. cbv zeta. constructor; [|apply IH, HF]. repeat dif; exact H0.
Qed.

(** *** Cleaning up *)
Lemma clean_sub (P : item -> Prop) l : Forall P l -> Forall P (fst (clean_up l)).
Proof. induction 1 as [|it l H HF IH]; cbn [clean_up]; [constructor|]. dif; [constructor; assumption|]. destruct (clean_up l). exact IH. Qed.
Lemma clean_nb l : shp l -> Forall nb (fst (clean_up l)).
Proof.
  intros (a & b & -> & A & B). induction A as [|it a H HF IH]; cbn [app]; [apply clean_sub, B|]. cbn [clean_up]. rewrite H. destruct (clean_up (a ++ b)). exact IH.
Qed.
Lemma clean_pk l : pk (fst (clean_up l)) = pk l.
Proof.
  unfold pk. induction l as [|it l IH]; cbn [clean_up]; [reflexivity|]. destruct (pending it) eqn:E; [reflexivity|]. destruct (clean_up l) as [m k]. cbn [fst flat_map] in *. rewrite IH. unfold pk1. rewrite E. destruct (i_nalu it); reflexivity.
Qed.

(** *** Statistics *)
Lemma stats_inv l : Forall bu l -> ~ Forall nb l -> (0 < fst (fst (get_stats l)))%Z.
Proof.
  assert (P : forall l, (0 <= fst (fst (get_stats l)))%Z). { induction l0 as [|it l0 IH]; cbn [get_stats]; [cbn; lia|]. destruct (get_stats l0) as [[i m] v]. cbn [fst] in *. repeat dif; cbn [fst]; lia. }
  induction l as [|it l IH]; intros B H; [exfalso; apply H; constructor|]. apply Forall_cons_iff in B as [B0 B]. cbn [get_stats]. specialize (P l). destruct (get_stats l) as [[i m] v] eqn:EG. cbn [fst] in *.
  destruct (bad it) eqn:EB.
  - rewrite (B0 EB). cbn [negb fst]. unfold bad in EB. apply andb_true_iff in EB as [_ EB]. rewrite EB. cbn [orb]. lia.
  - assert (0 < i)%Z by (apply IH; [exact B|]; intros HN; apply H; constructor; assumption). repeat dif; cbn [fst]; lia.
Qed.
Lemma stats_shown l : ((0 < fst (fst (get_stats l)))%Z -> exists it, In it l /\ (i_status it = SInvalid \/ i_status it = SErr)) /\ ((0 < snd (fst (get_stats l)))%Z -> exists it, In it l /\ i_status it = SMiss).
Proof.
  induction l as [|it l [IH1 IH2]]; cbn [get_stats]; [cbn; lia|]. destruct (get_stats l) as [[i m] v]. cbn [fst snd] in *.
  assert (G1 : (0 < i)%Z -> exists x, In x (it :: l) /\ (i_status x = SInvalid \/ i_status x = SErr)) by (intros H; destruct (IH1 H) as (x & X1 & X2); exists x; cbn; auto).
  assert (G2 : (0 < m)%Z -> exists x, In x (it :: l) /\ i_status x = SMiss) by (intros H; destruct (IH2 H) as (x & X1 & X2); exists x; cbn; auto).
  destruct (negb (i_used it)); [cbn [fst snd]; auto|]. cbn [fst snd]. split.
  - destruct (i_status it) eqn:E; cbn [vstat_eqb orb]; auto; intros _; exists it; cbn; auto.
  - destruct (i_status it) eqn:E; cbn [vstat_eqb]; auto; intros _; exists it; cbn; auto.
Qed.

(** *** One GOP *)
Definition rnd (l m : list item) : Prop := exists l1 s, s <> SPend /\ trs l l1 /\ trs (on_next_sei (set_i_status s) l1) m.
Lemma rnd_pk l m : Forall wf l -> rnd l m -> subseq (pk m) (rm1 (pk l)).
Proof.
  intros W (l1 & s & HS & T1 & T2). eapply subseq_trans; [apply trs_pk, T2|]. eapply subseq_trans; [apply next_pk; [exact HS|eapply trs_wf; eassumption]|]. apply rm1_mono, trs_pk, T1.
Qed.
Lemma rnd_wf l m : Forall wf l -> rnd l m -> Forall wf m.
Proof. intros W (l1 & s & HS & T1 & T2). eapply trs_wf; [exact T2|]. apply next_wf; [exact HS|]. eapply trs_wf; eassumption. Qed.
Lemma rnd_bu l m : Forall bu l -> rnd l m -> Forall bu m.
Proof. intros W (l1 & s & HS & T1 & T2). eapply trs_bu; [exact T2|]. apply next_bu. eapply trs_bu; eassumption. Qed.
Lemma trs_adds l m num ap pos : trs l m -> trs l (add_missing num ap pos m).
Proof.
  intros T. unfold add_missing. cbv zeta. set (k := if ap then S pos else pos). clearbody k. revert k.
  induction T as [|it l m T IH|it st l m E1 E2 E3 E4 T IH|l m T IH]; intros k.
  - rewrite firstn_nil, skipn_nil. apply trs_missing. constructor.
  - destruct k as [|k]; cbn [firstn skipn app]; [apply trs_missing; constructor; exact T|constructor; apply IH].
  - destruct k as [|k]; cbn [firstn skipn app]; [apply trs_missing; constructor 3; assumption|constructor 3; auto].
  - destruct k as [|k]; cbn [firstn skipn app]; [apply trs_missing; constructor 4; exact T|constructor 4; apply IH].
Qed.
Lemma rnd_add l m num ap pos : rnd l m -> rnd l (add_missing num ap pos m).
Proof. intros (l1 & s & HS & T1 & T2). exists l1, s. split; [exact HS|]. split; [exact T1|]. apply trs_adds, T2. Qed.
Lemma rnd_in l m it : rnd l m -> In it l -> pending it = false -> In it m.
Proof.
  intros (l1 & s & HS & T1 & T2) HI HP.
  assert (G : forall a b, trs a b -> In it a -> In it b).
  { clear -HP. induction 1 as [|x l m T IH|x s l m E1 E2 E3 E4 T IH|l m T IH]; cbn [In]; auto.
    - intros [H|H]; auto.
    - intros [H|H]; [subst x; congruence|auto]. }
  apply (G _ _ T2). apply (G _ _ T1) in HI. clear -HI HP. induction l1 as [|x l IH]; cbn [on_next_sei]; [destruct HI|]. destruct HI as [->|HI].
  - rewrite HP, andb_false_r. left. reflexivity.
  - dif; right; auto.
Qed.
(** In the first validation, pictures are marked 'N' only before the SEI that was decoded. *)
Definition fst_nb (l : list item) : Prop := exists p q, l = p ++ q /\ Forall (fun it => i_decoded it = false) p /\ Forall (fun it => nb it /\ (pending it = true -> i_used it = false)) q.
Lemma trs_split p : forall q m, trs (p ++ q) m -> exists m1 m2, m = m1 ++ m2 /\ trs p m1 /\ trs q m2.
Proof.
  intros q m T. remember (p ++ q) as l eqn:EL. revert p q EL. induction T as [|it l m T IH|it st l m E1 E2 E3 E4 T IH|l m T IH]; intros p q EL.
  - symmetry in EL. apply app_eq_nil in EL as [-> ->]. exists [], []. repeat constructor.
  - destruct p as [|x p]; cbn in EL; [subst q; exists [], (it :: m); repeat constructor; exact T|]. injection EL as -> EL. destruct (IH p q EL) as (m1 & m2 & -> & A & B). exists (x :: m1), m2. repeat constructor; assumption.
  - destruct p as [|x p]; cbn in EL; [subst q; exists [], (set_i_status st it :: m); split; [reflexivity|]; split; [constructor|constructor 3; assumption]|]. injection EL as -> EL. destruct (IH p q EL) as (m1 & m2 & -> & A & B). exists (set_i_status st x :: m1), m2. split; [reflexivity|]. split; [constructor 3; assumption|assumption].
  - destruct (IH p q EL) as (m1 & m2 & -> & A & B). exists (missing_item :: m1), m2. split; [reflexivity|]. split; [constructor 4; exact A|exact B].
Qed.
Lemma trs_first l m : trs l m -> fst_nb l -> fst_nb m.
Proof.
  intros T (p & q & -> & P & Q). destruct (trs_split _ _ _ T) as (m1 & m2 & -> & A & B). exists m1, m2. split; [reflexivity|]. split.
  - revert A P. apply trs_Forall; [auto|reflexivity].
  - revert B Q. apply trs_Forall; [|split; [reflexivity|discriminate]]. intros it s E1 E2 _ _ [_ H]. rewrite (H E1) in E2. discriminate.
Qed.
Lemma next_first s l : s <> SPend -> fst_nb l -> fst_nb (on_next_sei (set_i_status s) l).
Proof.
  intros HS (p & q & -> & P & Q). 
  assert (G : on_next_sei (set_i_status s) (p ++ q) = on_next_sei (set_i_status s) p ++ q \/ on_next_sei (set_i_status s) (p ++ q) = p ++ on_next_sei (set_i_status s) q).
  { clear P. induction p as [|it p IH]; cbn [app on_next_sei]; [right; reflexivity|]. dif; [left; reflexivity|]. destruct IH as [-> | ->]; auto. }
  destruct G as [-> | ->].
  - exists (on_next_sei (set_i_status s) p), q. split; [reflexivity|]. split; [|exact Q]. revert P. apply next_Forall. auto.
  - exists p, (on_next_sei (set_i_status s) q). split; [reflexivity|]. split; [exact P|]. revert Q. apply next_Forall. intros it E _ _. split; [apply sei_nb, E|]. unfold pending. cbn. destruct s; try discriminate. congruence.
Qed.
Lemma rnd_first l m : rnd l m -> fst_nb l -> fst_nb m.
Proof. intros (l1 & s & HS & T1 & T2) H. eapply trs_first; [exact T2|]. apply next_first; [exact HS|]. eapply trs_first; eassumption. Qed.
Lemma first_gone l : fst_nb l -> Forall nb (remove_missing_items (remove_used l)).
Proof.
  intros (p & q & -> & P & Q). unfold remove_missing_items, remove_used. rewrite map_app. apply remove_all; apply Forall_map; (eapply Forall_impl; [|eassumption]); cbn; [auto|]. intros it [H _]. exact H.
Qed.

(** *** When there is something to validate *)
Definition quiet (ks : list (bool * bool)) : Prop := Forall (fun k => snd k = false) ks \/ exists p, ks = p ++ [(false, true)] /\ Forall (fun k => k = (false, false)) p.
Definition calm (ks : list (bool * bool)) : Prop := Forall (fun k => snd k = false) ks \/ exists p q, ks = p ++ (false, true) :: q /\ Forall (fun k => k = (false, false)) (p ++ q).
Lemma quiet_calm ks : quiet ks -> calm ks.
Proof. intros [H|(p & -> & H)]; [left; exact H|right]. exists p, []. rewrite app_nil_r. auto. Qed.
Lemma Forall_subs {A} (P : A -> Prop) a b : subseq a b -> Forall P b -> Forall P a.
Proof. induction 1 as [m|k l m H IH|k l m H IH]; intros HF; [constructor| |]; apply Forall_cons_iff in HF as [H0 HF]; [constructor; auto|auto]. Qed.
Lemma subseq_last {A} (x : A) a p : subseq a (p ++ [x]) -> subseq a p \/ exists a', a = a' ++ [x] /\ subseq a' p.
Proof.
  revert a. induction p as [|y p IH]; intros a H; cbn [app] in H.
  - inversion H as [m|k l m H1|k l m H1]; subst; [left; constructor| |left].
    + right. exists []. inversion H1; subst. split; [reflexivity|constructor].
    + inversion H1; subst. constructor.
  - inversion H as [m|k l m H1|k l m H1]; subst; [left; constructor| |].
    + destruct (IH _ H1) as [H2|(a' & -> & H2)]; [left; constructor 2; exact H2|right]. exists (y :: a'). split; [reflexivity|constructor 2; exact H2].
    + destruct (IH _ H1) as [H2|(a' & -> & H2)]; [left; constructor 3; exact H2|right]. exists a'. split; [reflexivity|constructor 3; exact H2].
Qed.
Lemma ff_nosei (p : list (bool * bool)) : Forall (fun k => k = (false, false)) p -> Forall (fun k => snd k = false) p.
Proof. apply Forall_impl. intros k ->. reflexivity. Qed.
Lemma calm_next ks x y : calm ks -> (snd x = true -> fst x = false) -> subseq y (rm1 (ks ++ [x])) -> quiet y.
Proof.
  intros [H|(p & q & -> & H)] HX S.
  - left. eapply Forall_subs; [exact S|]. rewrite rm1_app by exact H. apply Forall_app. split; [exact H|]. cbn [rm1]. destruct (snd x) eqn:E; constructor; [exact E|constructor].
  - apply Forall_app in H as [H1 H2]. rewrite <- app_assoc, rm1_app in S by (apply ff_nosei, H1). cbn [app rm1 snd] in S. rewrite app_assoc in S.
    destruct x as [f s]. cbn [fst snd] in HX. destruct s.
    + rewrite (HX eq_refl) in S. destruct (subseq_last _ _ _ S) as [S2|(a & -> & S2)].
      * left. eapply Forall_subs; [exact S2|]. apply ff_nosei, Forall_app. auto.
      * right. exists a. split; [reflexivity|]. eapply Forall_subs; [exact S2|]. apply Forall_app. auto.
    + left. eapply Forall_subs; [exact S|]. apply Forall_app. split; [apply ff_nosei, Forall_app; auto|]. constructor; [reflexivity|constructor].
Qed.
Lemma calm_more ks x : calm ks -> x = (false, false) -> calm (ks ++ [x]).
Proof.
  intros [H|(p & q & -> & H)] ->; [left; apply Forall_app; split; [exact H|constructor; [reflexivity|constructor]]|right]. exists p, (q ++ [(false, false)]). rewrite <- app_assoc. split; [reflexivity|]. rewrite app_assoc. apply Forall_app. split; [exact H|constructor; [reflexivity|constructor]].
Qed.
(** The state of the loop after an item. *)
Definition pstep (s : pgst) (it : item) : pgst :=
  match i_nalu it with
  | None => s
  | Some n =>
      let has := g_has s || ((0 <? n_valid n)%Z && n_hashable n && n_gop_sei n) in
      if pending it && n_hashable n then
        mkPg (if n_first_in_gop n then S (g_ends s) else g_ends s) (g_sei s || n_gop_sei n)
          (g_after s || match g_last s with Some b => b | None => false end) (Some (n_gop_sei n)) has
      else mkPg (g_ends s) (g_sei s) (g_after s) (g_last s) has
  end.
Lemma quiet_none l : forall s, Forall (fun k => snd k = false) (pk l) -> g_sei s = false -> g_after s = false -> g_last s <> Some true -> snd (pending_loop true s l) = false.
Proof.
  induction l as [|it l IH]; intros s HF H1 H2 H3; cbn [pending_loop]; [reflexivity|]. cbv zeta. change (match i_nalu it with Some _ => _ | None => s end) with (pstep s it). unfold pk in HF. cbn [flat_map] in HF. apply Forall_app in HF as [H0 HF].
  assert (P : g_sei (pstep s it) = false /\ g_after (pstep s it) = false /\ g_last (pstep s it) <> Some true).
  { unfold pstep. unfold pk1 in H0. destruct (i_nalu it) as [n|]; [|auto]. destruct (pending it && n_hashable n); [|cbn; auto]. apply Forall_cons_iff in H0 as [H0 _]. cbn in H0. cbn. rewrite H0, H1, H2. split; [reflexivity|]. split; [|discriminate].
    destruct (g_last s) as [[|]|]; [congruence|reflexivity|reflexivity]. }
  destruct P as (P1 & P2 & P3). rewrite P1, P2, andb_false_r. cbn [orb]. apply IH; assumption.
Qed.
Lemma quiet_nil l : forall s, pk l = [] -> (0 <? g_ends s)%nat && g_sei s = false -> g_after s = false -> snd (pending_loop true s l) = false.
Proof.
  induction l as [|it l IH]; intros s HF H1 H2; cbn [pending_loop]; [reflexivity|]. cbv zeta. change (match i_nalu it with Some _ => _ | None => s end) with (pstep s it). unfold pk in HF. cbn [flat_map] in HF. apply app_eq_nil in HF as [H0 HF].
  assert (P : (0 <? g_ends (pstep s it))%nat && g_sei (pstep s it) = false /\ g_after (pstep s it) = false).
  { unfold pstep. unfold pk1 in H0. destruct (i_nalu it) as [n|]; [|auto]. destruct (pending it && n_hashable n); [discriminate|cbn; auto]. }
  destruct P as [P1 P2]. rewrite P1, P2. apply IH; assumption.
Qed.
Lemma quiet_last l : forall s p, pk l = p ++ [(false, true)] -> Forall (fun k => k = (false, false)) p -> g_ends s = 0%nat -> g_sei s = false -> g_after s = false -> g_last s <> Some true -> snd (pending_loop true s l) = false.
Proof.
  induction l as [|it l IH]; intros s p HF HP H0 H1 H2 H3; cbn [pending_loop]; [reflexivity|]. cbv zeta. change (match i_nalu it with Some _ => _ | None => s end) with (pstep s it). unfold pk in HF. cbn [flat_map] in HF.
  destruct (pk1 it) as [|k r] eqn:EK.
  - assert (P : g_ends (pstep s it) = 0%nat /\ g_sei (pstep s it) = false /\ g_after (pstep s it) = false /\ g_last (pstep s it) <> Some true).
    { unfold pstep. unfold pk1 in EK. destruct (i_nalu it) as [n|]; [|auto]. destruct (pending it && n_hashable n); [discriminate|cbn; auto]. }
    destruct P as (P0 & P1 & P2 & P3). rewrite P0, P1, P2. cbn [Nat.ltb Nat.leb andb orb]. eapply IH; eassumption.
  - unfold pk1 in EK. destruct (i_nalu it) as [n|] eqn:EN; [|discriminate]. destruct (pending it && n_hashable n) eqn:EP; [|discriminate]. injection EK as <- <-. cbn [app] in HF. unfold pstep. rewrite EN, EP. cbv zeta. cbn [g_ends g_sei g_after].
    assert (GA : g_after s || match g_last s with Some b => b | None => false end = false) by (rewrite H2; destruct (g_last s) as [[|]|]; [congruence|reflexivity|reflexivity]).
    rewrite H1, GA, H0. destruct p as [|k p]; cbn [app] in HF.
    + injection HF as E1 E2 E3. rewrite E1, E2. cbn [orb Nat.ltb Nat.leb andb]. apply quiet_nil; [exact E3|reflexivity|reflexivity].
    + apply Forall_cons_iff in HP as [-> HP]. injection HF as E1 E2 E3. rewrite E1, E2. cbn [orb Nat.ltb Nat.leb andb]. eapply IH; [exact E3|exact HP|reflexivity|reflexivity|reflexivity|discriminate].
Qed.
Lemma quiet_found l : quiet (pk l) -> snd (pending_loop true (mkPg 0 false false None false) l) = false.
Proof. intros [H|(p & E & H)]; [apply quiet_none; try reflexivity; [exact H|discriminate]|]. eapply quiet_last; try reflexivity; [exact E|exact H|discriminate]. Qed.
Lemma nil_found l : forall s, g_last s = Some true -> snd (pending_loop true s l) = false -> pk l = [].
Proof.
  induction l as [|it l IH]; intros s H; cbn [pending_loop]; [reflexivity|]. cbv zeta. change (match i_nalu it with Some _ => _ | None => s end) with (pstep s it). destruct (_ || g_after (pstep s it)) eqn:EF; [discriminate|]. intros E. apply orb_false_iff in EF as [_ EF].
  unfold pk. cbn [flat_map]. unfold pstep in *. unfold pk1. destruct (i_nalu it) as [n|]; [|apply (IH s H E)]. destruct (pending it && n_hashable n); [cbn in EF; rewrite H, orb_true_r in EF; discriminate|]. eapply IH; [|exact E]. exact H.
Qed.
Lemma found_quiet l : forall s, g_sei s = false -> Forall wf l -> snd (pending_loop true s l) = false ->
  Forall (fun k => snd k = false) (pk l) \/ g_ends s = 0%nat /\ exists p, pk l = p ++ [(false, true)] /\ Forall (fun k => k = (false, false)) p.
Proof.
  induction l as [|it l IH]; intros s H HF; cbn [pending_loop]; [left; constructor|]. cbv zeta. change (match i_nalu it with Some _ => _ | None => s end) with (pstep s it). destruct (_ || g_after (pstep s it)) eqn:EF; [discriminate|]. intros E. apply orb_false_iff in EF as [EF _].
  apply Forall_cons_iff in HF as [W HF]. unfold pk. cbn [flat_map]. fold (pk l). unfold pstep in *. unfold pk1. unfold wf in W. destruct (i_nalu it) as [n|]; [|apply (IH s H HF E)].
  destruct (pending it && n_hashable n); [|exact (IH (mkPg (g_ends s) (g_sei s) (g_after s) (g_last s) _) H HF E)]. cbn [app]. destruct (n_gop_sei n) eqn:EG.
  - destruct W as [_ W]. destruct (W eq_refl) as [_ W1]. rewrite W1 in *. cbn [g_ends g_sei] in EF. rewrite orb_true_r, andb_true_r in EF. apply Nat.ltb_ge in EF. apply nil_found in E; [|reflexivity]. rewrite E. right. split; [lia|]. exists []. auto.
  - apply IH in E; [|cbn; rewrite H; reflexivity|exact HF]. destruct E as [E|(E0 & p & E1 & E2)]; [left; constructor; [reflexivity|exact E]|]. right. cbn in E0. destruct (n_first_in_gop n); [discriminate|]. split; [exact E0|]. exists ((false, false) :: p). rewrite E1. auto.
Qed.

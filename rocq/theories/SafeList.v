(** The list of NALUs of a validator that is given SEIs in the right format: invariants. *)
From Verif Require Import Base BaseProofs Nalu Crypto Types Hash VTypes NaluList Validator MatchSpec MatchProofs SignerProofs SafeSpec SafeDec.
Local Open Scope N_scope.

(** ** Which items are waiting *)
Definition flags (it : item) : bool * bool :=
  match i_nalu it with Some n => (n_first_in_gop n, n_gop_sei n) | None => (false, false) end.
Definition marks (sel : item -> bool) (l : list item) : list (bool * bool) := map flags (filter sel l).
(** No SEI, and no start of a GOP except in front. *)
Definition passn (num : nat) (m : list (bool * bool)) : Prop :=
  match num, m with
  | O, f :: r => snd f = false /\ Forall (eq (false, false)) r
  | _, _ => Forall (eq (false, false)) m
  end.
Definition pass (m : list (bool * bool)) : Prop := passn 0 m.

Lemma marks_app sel a b : marks sel (a ++ b) = marks sel a ++ marks sel b.
Proof. unfold marks. rewrite filter_app, map_app. reflexivity. Qed.
Lemma marks_cons sel x l : marks sel (x :: l) = (if sel x then [flags x] else []) ++ marks sel l.
Proof. unfold marks. cbn [filter]. destruct (sel x); reflexivity. Qed.
Lemma marks_none sel l : Forall (fun it => sel it = false) l -> marks sel l = [].
Proof. induction 1 as [|x l H HF IH]; [reflexivity|]. rewrite marks_cons, H. exact IH. Qed.
Lemma forall_subseq {A} (P : A -> Prop) l m : subseq l m -> Forall P m -> Forall P l.
Proof. induction 1; intros HF; [constructor| |]; apply Forall_cons_iff in HF as [? ?]; auto. Qed.
Lemma pass_subseq l m : subseq l m -> pass m -> pass l.
Proof.
  unfold pass. destruct 1 as [m|a l m H|a l m H]; cbn [passn]; intros HP; [constructor| |].
  - destruct HP as [H1 H2]. split; [exact H1|]. eapply forall_subseq; eassumption.
  - destruct HP as [H1 H2]. pose proof (forall_subseq _ _ _ H H2) as F. destruct F as [|x l E F]; [constructor|]. subst x. split; [reflexivity|exact F].
Qed.
Lemma passn_prefix num a b : passn num (a ++ b) -> passn num a.
Proof.
  destruct num; cbn [passn].
  - destruct a as [|f a]; [constructor|]. cbn [app]. intros [H1 H2]. apply Forall_app in H2 as [H2 _]. auto.
  - intros H. apply Forall_app in H as [H _]. exact H.
Qed.

(** Changes that make fewer items wait. *)
Definition low (a b : item) : Prop :=
  flags b = flags a /\ (i_nalu a <> None -> i_nalu b <> None) /\ (i_used b = true -> i_used a = true) /\ (pending b = true -> pending a = true).
Lemma low_refl a : low a a.
Proof. repeat split; auto. Qed.
Lemma lows_refl l : Forall2 low l l.
Proof. induction l; constructor; auto using low_refl. Qed.
Lemma low_marks a b : Forall2 low a b -> subseq (marks pending b) (marks pending a).
Proof.
  induction 1 as [|x y a b H HF IH]; [constructor|]. rewrite !marks_cons. destruct H as (H1 & _ & _ & H4). destruct (pending y).
  - rewrite H4, H1 by reflexivity. cbn [app]. constructor. exact IH.
  - destruct (pending x); cbn [app]; [constructor|]; exact IH.
Qed.

Definition fresh (it : item) : Prop := i_used it = false /\ i_nalu it <> None.
Definition odd (l : list item) : Prop := exists p q, l = p ++ q /\ pass (marks pending p) /\ Forall fresh q.
Definition tidy (l : list item) : Prop :=
  exists a b, l = a ++ b /\ Forall (fun it => pending it = false) a /\ Forall (fun it => i_nalu it <> None) b.

Lemma forall_low (P : item -> Prop) (HP : forall a b, low a b -> P a -> P b) l m : Forall2 low l m -> Forall P l -> Forall P m.
Proof. induction 1; intros HF; [constructor|]. apply Forall_cons_iff in HF as [? ?]. constructor; eauto. Qed.
Lemma odd_low l m : Forall2 low l m -> odd l -> odd m.
Proof.
  intros HL (p & q & -> & HP & HQ). apply Forall2_app_inv_l in HL as (p' & q' & H1 & H2 & ->). exists p', q'. split; [reflexivity|]. split.
  - eapply pass_subseq; [apply low_marks, H1|exact HP].
  - eapply forall_low; [|exact H2|exact HQ]. intros a b (_ & L2 & L3 & _) [F1 F2]. split; [|auto]. destruct (i_used b); [|reflexivity]. rewrite L3 in F1 by reflexivity. discriminate.
Qed.
Lemma tidy_low l m : Forall2 low l m -> tidy l -> tidy m.
Proof.
  intros HL (p & q & -> & HP & HQ). apply Forall2_app_inv_l in HL as (p' & q' & H1 & H2 & ->). exists p', q'. split; [reflexivity|]. split.
  - eapply forall_low; [|exact H1|exact HP]. intros a b (_ & _ & _ & L4) F. destruct (pending b); [|reflexivity]. rewrite L4 in F by reflexivity. discriminate.
  - eapply forall_low; [|exact H2|exact HQ]. intros a b (_ & L2 & _) F. auto.
Qed.
Lemma odd_snoc l x : odd l -> fresh x -> odd (l ++ [x]).
Proof. intros (p & q & -> & HP & HQ) F. exists p, (q ++ [x]). rewrite <- app_assoc. split; [reflexivity|]. split; [exact HP|]. apply Forall_app; auto. Qed.
Lemma tidy_snoc l x : tidy l -> i_nalu x <> None -> tidy (l ++ [x]).
Proof. intros (p & q & -> & HP & HQ) F. exists p, (q ++ [x]). rewrite <- app_assoc. split; [reflexivity|]. split; [exact HP|]. apply Forall_app; auto. Qed.
Lemma tidy_odd l : tidy l -> Forall (fun it => i_used it = false) l -> odd l.
Proof.
  intros (p & q & -> & HP & HQ) F. apply Forall_app in F as [_ F]. exists p, q. split; [reflexivity|]. split.
  - rewrite marks_none by exact HP. constructor.
  - rewrite Forall_forall in *. intros x HI. split; auto.
Qed.
Lemma clean_up_split l : exists a, l = a ++ fst (clean_up l) /\ Forall (fun it => pending it = false) a.
Proof.
  induction l as [|it l (a & E & H)]; cbn [clean_up]; [exists []; auto|]. destruct (pending it) eqn:EP; [exists []; auto|].
  destruct (clean_up l) as [l2 k]. cbn [fst] in *. exists (it :: a). split; [cbn; congruence|]. constructor; assumption.
Qed.
Lemma app_split {A} (a b c d : list A) : a ++ b = c ++ d -> (exists x, c = a ++ x /\ b = x ++ d) \/ (exists x, a = c ++ x /\ d = x ++ b).
Proof.
  revert c. induction a as [|x a IH]; intros [|y c] E; cbn [app] in *.
  - left. exists []. auto.
  - left. exists (y :: c). auto.
  - right. exists (x :: a). auto.
  - injection E as -> E. destruct (IH _ E) as [(z & -> & ->)|(z & -> & ->)]; [left|right]; exists z; auto.
Qed.
Lemma odd_suffix a l : odd (a ++ l) -> odd l.
Proof.
  intros (p & q & E & HP & HQ). apply app_split in E as [(x & -> & ->)|(x & -> & ->)].
  - exists x, q. split; [reflexivity|]. split; [|exact HQ]. eapply pass_subseq; [|exact HP]. rewrite marks_app. apply subseq_app_l, subseq_refl.
  - exists [], l. split; [reflexivity|]. split; [constructor|]. apply Forall_app in HQ as [_ HQ]. exact HQ.
Qed.
Lemma tidy_suffix a l : tidy (a ++ l) -> tidy l.
Proof.
  intros (p & q & E & HP & HQ). apply app_split in E as [(x & -> & ->)|(x & -> & ->)].
  - exists x, q. split; [reflexivity|]. split; [|exact HQ]. apply Forall_app in HP as [_ HP]. exact HP.
  - exists [], l. split; [reflexivity|]. split; [constructor|]. apply Forall_app in HQ as [_ HQ]. exact HQ.
Qed.

Lemma read_ok k l : (k <= length l)%nat -> read_hash k l = Def (firstn k l).
Proof. intros H. unfold read_hash. destruct (Nat.leb_spec k (length l)); [reflexivity|lia]. Qed.

Section Items.
Context {KK : okkeys}.
Variable C : crypto.
Hypothesis HC : crypto_ok C.
Variable oid : list N.
Variable hs : nat.
Hypothesis HS : (0 < hs <= 64)%nat.

(** ** Items *)
Definition nalu_ok (n : nalu) : Prop :=
  n_first_part n = true /\ n_last_part n = true /\
  (if n_gop_sei n then n_valid n = 1%Z /\ n_hashable n = true /\ n_first_in_gop n = false /\ n_golden n = false /\ exists fs, memory C oid n fs
   else n_tlv_size n = 0).
(** What is needed as long as the hash algorithm is not known. *)
Definition hashes (n : nalu) : Prop := n_hashable n = true -> (0 < n_valid n)%Z -> exists x, hash_input n = Def x /\ x <> [].
Definition young (n : nalu) : Prop :=
  hashes n /\ (n_gop_sei n = true -> (n_with_epb n = true \/ (n_epb n <= 0)%Z) /\ exists fs, memory C oid n fs /\ has_rec fs = false).
Definition base_ok (b : bool) (it : item) : Prop :=
  match i_nalu it with
  | None => i_status it <> SPend /\ i_status it <> SInvalid
  | Some n => nalu_ok n /\ (b = false -> young n)
  end /\ length (i_hash it) = 64%nat /\ (forall x, i_second it = Some x -> b = true /\ length x = hs) /\ (item_sei it = true -> i_second it = None).
Definition used_ok (it : item) : Prop := i_used it = true -> pending it = true.

Lemma base_same b it it' : i_nalu it' = i_nalu it -> i_hash it' = i_hash it -> i_second it' = i_second it ->
  (i_nalu it = None -> i_status it' <> SPend /\ i_status it' <> SInvalid) -> base_ok b it -> base_ok b it'.
Proof.
  intros H1 H2 H3 H4 (B1 & B2 & B3 & B4). unfold base_ok, item_sei in *. rewrite H1, H2, H3. split; [|auto]. destruct (i_nalu it); [exact B1|]. auto.
Qed.
Lemma base_pending b it : base_ok b it -> pending it = true -> exists n, i_nalu it = Some n.
Proof.
  intros (B1 & _) P. destruct (i_nalu it) as [n|]; [eauto|]. unfold pending in P. destruct (i_status it); try discriminate. destruct B1. congruence.
Qed.
Lemma base_invalid b it : base_ok b it -> i_status it = SInvalid -> exists n, i_nalu it = Some n.
Proof. intros (B1 & _) P. destruct (i_nalu it) as [n|]; [eauto|]. destruct B1. congruence. Qed.
Lemma base_missing b : base_ok b missing_item.
Proof. unfold base_ok, missing_item, item_sei. cbn [i_nalu i_status i_hash i_second]. repeat split; try discriminate. Qed.

(** ** Collecting the items of a GOP *)
Definition hok (h : handle) : Prop := match h_prim h with Some x => x_oid x = oid | None => True end.
Definition mk (it : item) : item := if pending it then set_i_used true it else it.
Definition ready (it : item) : Prop := pending it = true -> forall n, i_nalu it = Some n -> n_first_in_gop n = true -> i_second it <> None.
Lemma update_prim x h h' st : update_hash true x h = (h', st) -> h_type h' = h_type h /\ h_oid h' = h_oid h /\ (hok h -> hok h').
Proof.
  unfold update_hash. destruct x as [|a x]; [intros E; injection E as <- _; auto|]. unfold get_ctx. destruct (h_prim h) as [y|] eqn:EP; [|intros E; injection E as <- _; auto].
  destruct (x_final y); intros E; injection E as <- _; [auto|]. cbn [set_ctx h_type h_oid]. repeat split; auto. unfold hok. rewrite EP. cbn [h_prim x_oid]. auto.
Qed.
Definition un (l : list item) := map (set_i_used false) l.
Lemma un_mk it : set_i_used false (set_i_used true it) = set_i_used false it.
Proof. reflexivity. Qed.
Definition collected (num : nat) (l l' : list item) : Prop :=
  exists p q, l = p ++ q /\ l' = map mk p ++ q /\ passn num (marks pending p) /\ Forall ready p /\
    (q = [] \/ exists x q', q = x :: q' /\ pending x = true /\ ~ passn num (marks pending (p ++ [x]))).
Lemma passn_cons f m : f = (false, false) \/ snd f = false -> passn 1 m -> passn 0 (f :: m).
Proof. intros H1 H2. split; [destruct H1 as [->|H1]; [reflexivity|exact H1]|exact H2]. Qed.
Lemma collected_skip num it l l' : pending it = false -> collected num l l' -> collected num (it :: l) (it :: l').
Proof.
  intros EP (p & q & -> & -> & H3 & H4 & H5). exists (it :: p), q. split; [reflexivity|]. split; [cbn [map]; unfold mk at 2; rewrite EP; reflexivity|].
  split; [rewrite marks_cons, EP; exact H3|]. split; [constructor; [intros X; congruence|exact H4]|].
  destruct H5 as [->|(x & q' & -> & X1 & X2)]; [left; reflexivity|]. right. exists x, q'. split; [reflexivity|]. split; [exact X1|]. cbn [app]. rewrite marks_cons, EP. exact X2.
Qed.
Lemma collected_stop num it l : pending it = true -> ~ passn num [flags it] -> collected num (it :: l) (it :: l).
Proof.
  intros EP H. exists [], (it :: l). split; [reflexivity|]. split; [reflexivity|]. split; [destruct num; constructor|]. split; [constructor|]. right.
  exists it, l. split; [reflexivity|]. split; [exact EP|]. cbn [app]. rewrite marks_cons, EP. exact H.
Qed.
Lemma collected_take num it l l' : pending it = true -> (flags it = (false, false) \/ num = 0%nat /\ snd (flags it) = false) -> ready it ->
  collected (S num) l l' -> collected num (it :: l) (set_i_used true it :: l').
Proof.
  intros EP EF ER (p & q & -> & -> & H3 & H4 & H5). exists (it :: p), q. split; [reflexivity|]. split; [cbn [map]; unfold mk at 2; rewrite EP; reflexivity|].
  assert (G : forall m, passn num (flags it :: m) <-> passn (S num) m).
  { intros m. destruct num; cbn [passn].
    - split; [tauto|]. destruct EF as [E|[_ E]]; [rewrite E|]; auto.
    - destruct EF as [E|[E _]]; [|discriminate]. rewrite E. split; [intros F; apply Forall_cons_iff in F as [_ F]; exact F|]. constructor; auto. }
  split; [rewrite marks_cons, EP; cbn [app]; apply G, H3|]. split; [constructor; assumption|].
  destruct H5 as [->|(x & q' & -> & X1 & X2)]; [left; reflexivity|]. right. exists x, q'. split; [reflexivity|]. split; [exact X1|]. cbn [app]. rewrite marks_cons, EP. cbn [app].
  intros X. apply X2, G, X.
Qed.
Lemma gop_collect l : forall h is num, Forall (base_ok true) l -> (is <= num)%nat -> (is <= 1)%nat ->
  exists h' l' st, gop_loop hs h is num l = Def (h', l', st) /\ h_type h' = h_type h /\ h_oid h' = h_oid h /\ (hok h -> hok h') /\ un l' = un l /\ Forall (base_ok true) l' /\
    (st = SV_OK -> collected num l l').
Proof.
  induction l as [|it l IH]; intros h is num HB HN HI; cbn [gop_loop].
  { exists h, [], SV_OK. do 6 (split; [first [reflexivity|solve [auto]|constructor]|]). intros _. exists [], []. split; [reflexivity|]. split; [reflexivity|]. split; [destruct num; constructor|]. auto. }
  apply Forall_cons_iff in HB as [B0 HB]. destruct (pending it) eqn:EP; cbn [negb].
  2:{ destruct (IH h is num HB HN HI) as (h' & l' & st & -> & T1 & T2 & T3 & T4 & T5 & T6). cbn [obind]. exists h', (it :: l'), st.
      split; [reflexivity|]. split; [exact T1|]. split; [exact T2|]. split; [exact T3|]. split; [unfold un in *; cbn [map]; congruence|]. split; [constructor; assumption|]. intros ES. apply collected_skip; auto. }
  destruct (base_pending _ _ B0 EP) as (n & EN). rewrite EN.
  assert (STOP : forall st, (st = SV_OK -> ~ passn num [flags it]) ->
    exists h' l' st', Def (h, it :: l, st) = Def (h', l', st') /\ h_type h' = h_type h /\ h_oid h' = h_oid h /\ (hok h -> hok h') /\ un l' = un (it :: l) /\ Forall (base_ok true) l' /\ (st' = SV_OK -> collected num (it :: l) l')).
  { intros st ES. exists h, (it :: l), st. do 6 (split; [first [reflexivity|solve [auto]]|]). intros E. apply collected_stop; auto. }
  assert (FL : flags it = (n_first_in_gop n, n_gop_sei n)) by (unfold flags; rewrite EN; reflexivity).
  destruct (1 <? (if n_first_in_gop n then S is else is))%nat eqn:E1.
  { apply STOP. intros _ X. rewrite FL in X. apply Nat.ltb_lt in E1. destruct (n_first_in_gop n); [|lia]. destruct num as [|num]; [lia|]. cbn [passn] in X. apply Forall_cons_iff in X as [X _]. discriminate. }
  destruct (n_first_in_gop n && (0 <? num)%nat) eqn:E2.
  { apply STOP. intros _ X. rewrite FL in X. apply andb_prop in E2 as [E2 E3]. apply Nat.ltb_lt in E3. destruct num as [|num]; [lia|]. cbn [passn] in X. apply Forall_cons_iff in X as [X _]. rewrite E2 in X. discriminate. }
  destruct (n_gop_sei n) eqn:E3.
  { apply STOP. intros _ X. rewrite FL in X. destruct num as [|num]; cbn [passn snd] in X; [destruct X; discriminate|]. apply Forall_cons_iff in X as [X _]. discriminate. }
  destruct B0 as (B1 & B2 & B3 & B4).
  assert (EA : exists add, (if n_first_in_gop n then i_second it else Some (i_hash it)) = add /\ (forall x, add = Some x -> (hs <= length x)%nat) /\ (add <> None -> n_first_in_gop n = true -> i_second it <> None)).
  { eexists. split; [reflexivity|]. destruct (n_first_in_gop n); split; intros; try congruence.
    - apply B3 in H as [_ ->]. lia.
    - injection H as <-. lia. }
  destruct EA as ([x|] & -> & HX & HF); [|apply STOP; discriminate]. rewrite read_ok by (apply HX; reflexivity). cbn [obind].
  destruct (update_hash true (firstn hs x) h) as [h1 st1] eqn:EU. destruct (update_prim _ _ _ _ EU) as (U1 & U2 & U3).
  destruct (is_ok st1) eqn:ES1; cbn [negb].
  2:{ exists h1, (it :: l), st1. do 5 (split; [first [reflexivity|assumption]|]). split; [constructor; [exact (conj B1 (conj B2 (conj B3 B4)))|exact HB]|]. intros ->. discriminate. }
  destruct (IH h1 (if n_first_in_gop n then S is else is) (S num) HB) as (h' & l' & st & -> & T1 & T2 & T3 & T4 & T5 & T6).
  { destruct (n_first_in_gop n); lia. } { apply Nat.ltb_ge in E1. exact E1. }
  cbn [obind]. exists h', (set_i_used true it :: l'), st. split; [reflexivity|]. split; [congruence|]. split; [congruence|]. split; [auto|]. split; [unfold un in *; cbn [map]; rewrite un_mk; congruence|].
  split; [constructor; [|exact T5]; apply (base_same true it); try reflexivity; [intros X; congruence|exact (conj B1 (conj B2 (conj B3 B4)))]|].
  intros EO. apply collected_take; [exact EP| | |apply T6, EO].
  - rewrite FL. destruct (n_first_in_gop n); [|left; reflexivity]. right. split; [|reflexivity]. cbn [andb] in E2. apply Nat.ltb_ge in E2. lia.
  - intros _ m EM EFm. apply HF; congruence.
Qed.

(** The items collected are all that wait before the rest, and nothing is known about the rest. *)
Definition taken (p' q : list item) : Prop :=
  Forall (fun it => pending it = true -> i_used it = true) p' /\ Forall fresh q /\ pass (marks pending p') /\ Forall ready p' /\
  (q = [] \/ exists x q', q = x :: q' /\ pending x = true /\ ~ pass (marks pending (p' ++ [x]))).
Lemma mk_marks p : marks pending (map mk p) = marks pending p.
Proof.
  induction p as [|it p IH]; [reflexivity|]. cbn [map]. rewrite !marks_cons, IH. unfold mk. destruct (pending it) eqn:E; [|rewrite E; reflexivity].
  change (pending (set_i_used true it)) with (pending it). rewrite E. reflexivity.
Qed.
Lemma collected_taken l l' : odd l -> collected 0 l l' -> exists p q, l' = map mk p ++ q /\ l = p ++ q /\ taken (map mk p) q.
Proof.
  intros (p0 & q0 & E0 & HP0 & HQ0) (p & q & E & -> & HP & HR & HSt). exists p, q. split; [reflexivity|]. split; [exact E|].
  assert (EX : exists x, p = p0 ++ x /\ q0 = x ++ q).
  { rewrite E0 in E. apply app_split in E as [(x & -> & ->)|(x & -> & ->)]; [eauto|].
    destruct HSt as [E|(y & q' & E & Y1 & Y2)].
    - destruct x; [|discriminate]. cbn in E. subst q0. exists []. rewrite !app_nil_r. auto.
    - destruct x as [|z x]; cbn [app] in E.
      + exists []. rewrite !app_nil_r. auto.
      + injection E as -> E. exfalso. apply Y2. change (y :: x) with ([y] ++ x) in HP0. rewrite app_assoc in HP0. rewrite marks_app in HP0. exact (passn_prefix 0 _ _ HP0). }
  destruct EX as (x & -> & ->). apply Forall_app in HQ0 as [_ HQ]. split; [|split; [exact HQ|split; [rewrite mk_marks; exact HP|split]]].
  - apply Forall_map, Forall_forall. intros it _ EP. unfold mk in *. destruct (pending it) eqn:E1; [reflexivity|congruence].
  - apply Forall_map. eapply Forall_impl; [|exact HR]. intros it R. unfold mk. destruct (pending it) eqn:E1; [|exact R]. exact R.
  - destruct HSt as [->|(y & q' & -> & Y1 & Y2)]; [left; reflexivity|]. right. exists y, q'. split; [reflexivity|]. split; [exact Y1|]. rewrite marks_app, mk_marks, <- marks_app. exact Y2.
Qed.
End Items.

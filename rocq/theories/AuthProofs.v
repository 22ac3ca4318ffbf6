(** What is reported authentic is authentic: lemmas. *)
From Verif Require Import Base BaseProofs Epb Nalu Crypto Types Hash Tlv TlvProofs CodecSpec SignerProofs VTypes NaluList Validator VListProofs
  VFrameProofs ValidSpec MatchSpec BookProofs VAuthProofs VKeyProofs VTerm AuthSpec AuthDec.
Local Open Scope N_scope.

(** *** Lists of items beside the NALUs they stand for *)
Inductive trk (P : list N -> item -> Prop) : list (list N) -> list item -> Prop :=
| trk_nil : trk P [] []
| trk_it d it g l : P d it -> trk P g l -> trk P (d :: g) (it :: l)
| trk_none it g l : i_nalu it = None -> In (i_status it) [SMiss; SErr; SUnknown] -> trk P g l -> trk P g (it :: l).
Lemma trk_impl (P Q : list N -> item -> Prop) g l : (forall d it, In d g -> P d it -> Q d it) -> trk P g l -> trk Q g l.
Proof.
  intros H T. induction T as [|d it g l HP T IH|it g l H1 H2 T IH]; [constructor|constructor 2|constructor 3; auto].
  - apply H; [left; reflexivity|exact HP].
  - apply IH. intros x y Hx. apply H. right. exact Hx.
Qed.
Lemma trk_app P g l g2 l2 : trk P g l -> trk P g2 l2 -> trk P (g ++ g2) (l ++ l2).
Proof. intros T T2. induction T; [exact T2|constructor 2; assumption|constructor 3; assumption]. Qed.
Lemma trk_split P g l l2 : trk P g (l ++ l2) -> exists a b, g = a ++ b /\ trk P a l /\ trk P b l2.
Proof.
  revert g. induction l as [|it l IH]; intros g T; [exists [], g; repeat split; [constructor|exact T]|]. cbn [app] in T. inversion T; subst.
  - match goal with H : trk _ _ (l ++ l2) |- _ => destruct (IH _ H) as (a & b & -> & T1 & T2) end. exists (d :: a), b. repeat split; [constructor 2; assumption|exact T2].
  - match goal with H : trk _ _ (l ++ l2) |- _ => destruct (IH _ H) as (a & b & -> & T1 & T2) end. exists a, b. repeat split; [constructor 3; assumption|exact T2].
Qed.

(** A SEI that waits and has been decoded: only the first waiting one. *)
Definition nodec (it : item) : Prop := item_sei it = true -> pending it = true -> i_decoded it = false.
Fixpoint one (l : list item) : Prop :=
  match l with
  | [] => True
  | it :: r => if item_sei it && pending it then i_decoded it = true /\ Forall nodec r else one r
  end.

(** *** What the steps of a validation do to an item; [X] tells which may become authentic *)
Definition step (X : item -> Prop) (a b : item) : Prop :=
  i_nalu b = i_nalu a /\ i_hash b = i_hash a /\ i_second b = i_second a /\ i_decoded b = i_decoded a /\ i_used b = i_used a /\
  (i_status b = SValid -> i_status a = SValid \/ (X a /\ i_nalu a <> None)) /\ (item_sei a = true \/ i_nalu a = None -> i_status b = i_status a) /\
  (pending b = true -> pending a = true) /\ (i_status b = SMiss -> i_status a = SMiss).
Inductive evm (X : item -> Prop) : list item -> list item -> Prop :=
| evm_nil : evm X [] []
| evm_it a b l m : step X a b -> evm X l m -> evm X (a :: l) (b :: m)
| evm_ins b l m : i_nalu b = None -> i_status b = SMiss -> evm X l m -> evm X l (b :: m).
Lemma step_refl X a : step X a a.
Proof. unfold step. auto 12. Qed.
Lemma evm_refl X l : evm X l l.
Proof. induction l; constructor; [apply step_refl|assumption]. Qed.
Lemma step_status (X : item -> Prop) a s : i_nalu a <> None -> item_sei a = false -> (s = SValid -> X a) -> s <> SPend -> s <> SMiss -> step X a (set_i_status s a).
Proof.
  intros HN HS HX HP HM. unfold step. cbn. do 5 (split; [reflexivity|]). split; [auto|]. split; [intros [|]; congruence|]. split; [|congruence].
  unfold pending. cbn. intros E. exfalso. apply HP. destruct s; try discriminate. reflexivity.
Qed.
Lemma evm_missing X k l m : evm X l m -> evm X l (repeat missing_item k ++ m).
Proof. intros H. induction k as [|k IH]; [exact H|]. cbn [repeat app]. constructor 3; [reflexivity|reflexivity|exact IH]. Qed.
Lemma evm_app X a b c d : evm X a b -> evm X c d -> evm X (a ++ c) (b ++ d).
Proof. intros H H2. induction H; [exact H2|constructor 2; assumption|cbn [app]; constructor 3; assumption]. Qed.
Lemma evm_add X num ap pos l : evm X l (add_missing num ap pos l).
Proof. unfold add_missing. rewrite <- (firstn_skipn (if ap then S pos else pos) l) at 1. apply evm_app; [apply evm_refl|]. apply evm_missing, evm_refl. Qed.
Lemma sei_none it : i_nalu it = None -> item_sei it = false.
Proof. unfold item_sei. intros ->. reflexivity. Qed.
Lemma step_sei X a b : step X a b -> item_sei b = item_sei a.
Proof. unfold step, item_sei. intros (-> & _). reflexivity. Qed.
Lemma step_nodec X a b : step X a b -> nodec a -> nodec b.
Proof. intros H HN HS HP. rewrite (step_sei _ _ _ H) in HS. destruct H as (_ & _ & _ & -> & _ & _ & _ & HQ & _). apply HN; auto. Qed.
Lemma evm_nodec X l m : evm X l m -> Forall nodec l -> Forall nodec m.
Proof.
  induction 1 as [|a b l m HS H IH|b l m H1 H2 H IH]; intros HF; [constructor| |].
  - apply Forall_cons_iff in HF as [H0 HF]. constructor; [eapply step_nodec; eassumption|auto].
  - constructor; [|auto]. intros HS. rewrite (sei_none _ H1) in HS. discriminate.
Qed.
Lemma evm_one X l m : evm X l m -> one l -> one m.
Proof.
  induction 1 as [|a b l m HS H IH|b l m H1 H2 H IH]; cbn [one]; [auto| |].
  - rewrite (step_sei _ _ _ HS). destruct HS as (_ & _ & _ & HD & _ & _ & HE & _ & _). destruct (item_sei a) eqn:EA; cbn [andb]; [|exact IH].
    unfold pending. rewrite (HE (or_introl eq_refl)). destruct (vstat_eqb (i_status a) SPend); [|exact IH]. intros [D1 D2]. split; [congruence|eapply evm_nodec; eassumption].
  - rewrite (sei_none _ H1). exact IH.
Qed.
Lemma evm_next X l m : evm X l m -> next_sei l = None <-> next_sei m = None.
Proof.
  unfold next_sei. induction 1 as [|a b l m HS H IH|b l m H1 H2 H IH]; cbn [find]; [tauto| |].
  - rewrite (step_sei _ _ _ HS). destruct HS as (_ & _ & _ & _ & _ & _ & HE & _ & _). destruct (item_sei a) eqn:EA; cbn [andb]; [|exact IH].
    unfold pending. rewrite (HE (or_introl eq_refl)). destruct (vstat_eqb (i_status a) SPend); [split; discriminate|exact IH].
  - rewrite (sei_none _ H1). exact IH.
Qed.
Lemma evm_map X f l : (forall a, step X a (f a)) -> evm X l (map f l).
Proof. intros H. induction l; cbn [map]; constructor; auto. Qed.
Lemma evm_linked X k l : evm X l (set_nth k (set_i_linked true) l).
Proof.
  unfold set_nth. destruct (skipn k l) as [|x r] eqn:E; [apply evm_refl|]. rewrite <- (firstn_skipn k l) at 1. rewrite E. apply evm_app; [apply evm_refl|].
  constructor 2; [|apply evm_refl]. unfold step. cbn. auto 12.
Qed.

(** The items a list of hashes finds authentic. *)
Definition listed (hs : nat) (exp : list (list N)) (it : item) : Prop :=
  item_sei it = false /\ exists n x y, i_nalu it = Some n /\ (if n_first_in_gop n then i_second it else Some (i_hash it)) = Some x /\
    (hs <= length x)%nat /\ In y exp /\ y = firstn hs x.
Lemma search_in x : forall exp i j, search x exp i = (j, true) -> In x exp.
Proof.
  induction exp as [|e exp IH]; intros i j; cbn [search]; [discriminate|]. destruct (bytes_eqb x e) eqn:E.
  - apply bytes_eqb_eq in E. subst. left. reflexivity.
  - intros H. right. eapply IH, H.
Qed.
Lemma pend_eq it : pending it = true -> i_status it = SPend.
Proof. unfold pending. destruct (i_status it); try discriminate; reflexivity. Qed.
Lemma hl_evm hs exp l : forall pos ps seen s, holds (hl_loop hs exp pos ps seen s l) (fun '(_, m) => evm (listed hs exp) l m) (fun _ => True).
Proof.
  induction l as [|it l IH]; intros pos ps seen s; cbn [hl_loop]; [constructor|]. cbv zeta. destruct (negb (pending it) || _) eqn:EP.
  - apply holds_bind. eapply holds_impl; [apply IH| |auto]. intros [s2 r2] H. cbn. constructor 2; [apply step_refl|exact H].
  - destruct (i_nalu it) as [n|] eqn:EN; [|exact I]. destruct (n_gop_sei n || _) eqn:EG; [cbn; apply evm_refl|]. apply orb_false_iff in EG as [EG _].
    assert (ES : item_sei it = false) by (unfold item_sei; rewrite EN; exact EG).
    destruct (if n_first_in_gop n then i_second it else Some (i_hash it)) as [x|] eqn:EX; [|exact I]. apply holds_bind. unfold read_hash. destruct (Nat.leb_spec hs (length x)) as [HL|HL]; [|exact I]. cbn [holds].
    destruct (search _ _ _) as [i found] eqn:EF. destruct found.
    + assert (HX : listed hs exp it).
      { split; [exact ES|]. exists n, x, (firstn hs x). repeat split; auto. apply search_in in EF. rewrite <- (firstn_skipn (Z.to_nat (h_latest s + 1)) exp). apply in_or_app. right. exact EF. }
      assert (HT : step (listed hs exp) it (set_i_status (if h_order s then SValid else SInvalid) it)) by (destruct (h_order s); apply step_status; auto; congruence).
      apply holds_bind. destruct ps.
      * cbn [holds]. apply evm_missing. constructor 2; [exact HT|apply evm_refl].
      * eapply holds_impl; [apply IH| |auto]. intros [s3 r2] H. cbn [holds]. apply evm_missing. constructor 2; [exact HT|exact H].
    + assert (HT : step (listed hs exp) it (set_i_status SInvalid it)) by (apply step_status; auto; congruence).
      apply holds_bind. destruct ps.
      * cbn [holds]. constructor 2; [exact HT|apply evm_refl].
      * eapply holds_impl; [apply IH| |auto]. intros [s3 r2] H. cbn [holds]. constructor 2; [exact HT|exact H].
Qed.
(** Marking the items used: they are no SEIs. *)
Lemma used_evm s l : s <> SPend -> s <> SMiss -> Forall (fun it => i_used it = true -> item_sei it = false) l ->
  holds (mark_used s l) (fun '(m, _) => evm (fun it => s = SValid /\ i_used it = true) l m) (fun _ => True).
Proof.
  intros H1 H2. induction 1 as [|it l H0 HF IH]; cbn [mark_used]; [constructor|]. apply holds_bind. eapply holds_impl; [exact IH| |auto]. intros [m k] HM.
  destruct (i_used it && pending it) eqn:EU; [|cbn; constructor 2; [apply step_refl|exact HM]]. destruct (i_nalu it) eqn:EN; [|exact I]. cbn. apply andb_true_iff in EU as [EU _].
  constructor 2; [apply step_status; auto; congruence|exact HM].
Qed.
Lemma without_evm l : holds (mark_without l) (fun '(m, _, _) => evm (fun _ => False) l m) (fun _ => True).
Proof.
  induction l as [|it l IH]; cbn [mark_without]; [constructor|]. destruct (negb (pending it)).
  { apply holds_bind. eapply holds_impl; [apply IH| |auto]. intros [[m k] f] H. cbn. constructor 2; [apply step_refl|exact H]. }
  destruct (i_nalu it) as [n|] eqn:EN; [|exact I]. destruct (n_gop_sei n) eqn:EG; [cbn; apply evm_refl|].
  assert (HT : step (fun _ => False) it (set_i_status SInvalid it)) by (apply step_status; [congruence|unfold item_sei; rewrite EN; exact EG|discriminate|discriminate|discriminate]).
  destruct l as [|nx l]; [cbn; constructor 2; [exact HT|constructor]|]. destruct (i_nalu nx) as [m|]; [|exact I]. dif; [cbn; constructor 2; [exact HT|apply evm_refl]|].
  apply holds_bind. eapply holds_impl; [apply IH| |auto]. intros [[r k] f] H. cbn. constructor 2; [exact HT|exact H].
Qed.

Section Track.
Variable C : crypto.
Variable c : codec.
Variable K : nat.
Variable Ov : ovf.
Hypothesis HC : crypto_ok C.
Hypothesis HK : forall oid n, c_oid C oid = OidDigest n -> (K <= n)%nat.
Hypothesis HO : Ov <> OvfIdeal.

Notation vouched := (vouched C c K).
Notation known := (known_hash K).
Notation pich := (picture_hash C c).
Notation seih := (sei_hash C c).

Definition flags (n : nalu) :=
  (n_valid n, n_hashable n, n_first_in_gop n, n_gop_sei n, n_golden n, n_tlv_size n, type_char (Some n), n_first_part n, n_last_part n).
Definition hash_known (d : list N) (it : item) (n : nalu) : Prop :=
  if n_gop_sei n then known seih d (i_hash it)
  else if n_first_in_gop n then forall x, i_second it = Some x -> pich d x
  else known pich d (i_hash it).
Definition from_nalu (d : list N) (n : nalu) : Prop :=
  exists p, parse_nalu d c true true = Def p /\ flags n = flags p /\ n_first_part p = true /\ n_last_part p = true /\ bytes_ok (n_tlv_mem n) /\
    (n_tlv_mem n = n_tlv_mem p \/ n_tlv_mem n = firstn (N.to_nat (n_tlv_size p)) (n_tlv_mem p)) /\
    ((0 < n_valid n)%Z -> forall b, hash_input n = Def b -> hashed c d b).
Definition base (hist : list vop) (d : list N) (it : item) : Prop :=
  exists n, i_nalu it = Some n /\ In d (added hist) /\ from_nalu d n /\ hash_known d it n.
(** The items of a session: [L] are the NALUs marked as used, [Cur] holds for a waiting SEI that was decoded. *)
Definition tk (hist : list vop) (L : list (list N)) (Cur : list N -> Prop) (d : list N) (it : item) : Prop :=
  base hist d it /\ (i_status it = SValid -> vouched hist d) /\ (i_used it = true -> In d L /\ item_sei it = false) /\
  (item_sei it = true -> pending it = true -> i_decoded it = true -> Cur d) /\ i_status it <> SMiss.

Lemma tk_mono hist L L2 (Cur Cur2 : list N -> Prop) d it : incl L L2 -> (forall x, Cur x -> Cur2 x) -> tk hist L Cur d it -> tk hist L2 Cur2 d it.
Proof. intros HL HX (T1 & T2 & T3 & T4 & T5). split; [exact T1|]. split; [exact T2|]. split; [intros U; destruct (T3 U); auto|]. split; [|exact T5]. auto. Qed.
Lemma base_same hist d a b : i_nalu b = i_nalu a -> i_hash b = i_hash a -> i_second b = i_second a -> base hist d a -> base hist d b.
Proof. intros E1 E2 E3 (n & H1 & H2 & H3 & H4). exists n. rewrite E1. repeat split; auto. unfold hash_known in *. rewrite E2, E3. exact H4. Qed.
Lemma tk_step hist L Cur d a b (X : item -> Prop) : step X a b -> (X a -> vouched hist d) -> tk hist L Cur d a -> tk hist L Cur d b.
Proof.
  intros HS HX (T1 & T2 & T3 & T4 & T5). pose proof (step_sei _ _ _ HS) as ES. destruct HS as (S1 & S2 & S3 & S4 & S5 & S6 & S7 & S8 & S9).
  split; [eapply base_same; eassumption|]. split; [intros E; destruct (S6 E) as [|[? _]]; auto|]. rewrite S5, ES, S4. split; [exact T3|]. split; [auto|]. auto.
Qed.
Lemma trk_evm hist L Cur g l m (X : item -> Prop) : evm X l m -> (forall d a, In d g -> tk hist L Cur d a -> X a -> vouched hist d) ->
  trk (tk hist L Cur) g l -> trk (tk hist L Cur) g m.
Proof.
  intros HE. revert g. induction HE as [|a b l m HS H IH|b l m H1 H2 H IH]; intros g HX T; [exact T| |constructor 3; auto; rewrite H2; left; reflexivity].
  inversion T as [|d a' g' l' TD T'|a' g' l' E1 E2 T']; subst.
  - constructor 2; [eapply tk_step; [exact HS| |exact TD]; apply HX; [left; reflexivity|exact TD]|]. apply IH; [|exact T']. intros x y Hx. apply HX. right. exact Hx.
  - destruct HS as (S1 & S2 & S3 & S4 & S5 & S6 & S7 & S8 & S9). constructor 3; [congruence|rewrite S7; auto|apply IH; auto].
Qed.

(** The decisive SEI gets a status. *)
Lemma trk_next hist L (Cur : list N -> Prop) s : s <> SPend -> s <> SMiss -> (s = SValid -> forall d, Cur d -> vouched hist d) ->
  forall l g, one l -> trk (tk hist L Cur) g l -> trk (tk hist L Cur) g (on_next_sei (set_i_status s) l).
Proof.
  intros H1 H2 H3. induction l as [|it l IH]; intros g HO1 T; cbn [on_next_sei one] in *; [exact T|].
  destruct (item_sei it && pending it) eqn:ES.
  - apply andb_true_iff in ES as [E1 E2]. destruct HO1 as [HD _]. inversion T as [|d a' g' l' TD T'|a' g' l' F1 F2 T']; subst.
    + constructor 2; [|exact T']. destruct TD as (T1 & T2 & T3 & T4 & T5). split; [eapply base_same; [| | |exact T1]; reflexivity|]. cbn. split; [intros E; apply H3; auto|].
      split; [exact T3|]. split; [|exact H2]. intros _ E. exfalso. apply H1. apply pend_eq in E. exact E.
    + rewrite (sei_none _ F1) in E1. discriminate.
  - inversion T; subst; [constructor 2|constructor 3]; auto.
Qed.
Lemma next_nodec s l : s <> SPend -> one l -> Forall nodec (on_next_sei (set_i_status s) l).
Proof.
  intros HS. induction l as [|it l IH]; cbn [one on_next_sei]; [constructor|]. destruct (item_sei it && pending it) eqn:E.
  - intros [_ HF]. constructor; [|exact HF]. intros _ HP. exfalso. apply HS. apply pend_eq in HP. exact HP.
  - intros H. constructor; [|auto]. intros H1 H2. rewrite H1, H2 in E. discriminate.
Qed.
Lemma none_nodec l : next_sei l = None -> Forall nodec l.
Proof.
  unfold next_sei. induction l as [|it l IH]; cbn [find]; [constructor|]. destruct (item_sei it && pending it) eqn:E; [discriminate|]. intros H. constructor; [|auto].
  intros H1 H2. rewrite H1, H2 in E. discriminate.
Qed.
Lemma trk_nodec hist L Cur g l : Forall nodec l -> trk (tk hist L Cur) g l -> trk (tk hist L (fun _ => False)) g l.
Proof.
  intros HF T. induction T as [|d it g l (T1 & T2 & T3 & T4 & T5) T IH|it g l H1 H2 T IH]; [constructor|constructor 2|constructor 3; auto]; apply Forall_cons_iff in HF as [H0 HF]; auto.
  split; [exact T1|]. split; [exact T2|]. split; [exact T3|]. split; [|exact T5]. intros E1 E2 E3. rewrite (H0 E1 E2) in E3. discriminate.
Qed.
Lemma trk_unused hist L Cur g l : trk (tk hist L Cur) g l -> trk (tk hist [] Cur) g (remove_used l).
Proof.
  intros T. unfold remove_used. induction T as [|d it g l (T1 & T2 & T3 & T4 & T5) T IH|it g l H1 H2 T IH]; cbn [map]; [constructor|constructor 2; [|exact IH]|constructor 3; auto].
  split; [eapply base_same; [| | |exact T1]; reflexivity|]. cbn. split; [exact T2|]. split; [discriminate|]. split; [exact T4|exact T5].
Qed.
Lemma unused_nodec l : Forall nodec l -> Forall nodec (remove_used l).
Proof. unfold remove_used. induction 1; cbn [map]; constructor; auto. Qed.
Lemma trk_unmiss hist L g l : trk (tk hist L (fun _ => False)) g l -> forall fr fp fs, trk (tk hist L (fun _ => False)) g (remove_missing fr fp fs l).
Proof.
  induction 1 as [|d it g l (T1 & T2 & T3 & T4 & T5) T IH|it g l H1 H2 T IH]; intros fr fp fs; cbn [remove_missing]; [constructor| |].
  - dif; [constructor 2; [exact (conj T1 (conj T2 (conj T3 (conj T4 T5))))|exact T]|]. destruct (vstat_eqb (i_status it) SMiss) eqn:EM; [exfalso; apply T5; destruct (i_status it); try discriminate; reflexivity|].
    cbn [andb]. cbv zeta. constructor 2; [|apply IH]. set (mark := i_decoded it && _) in *.
    set (it1 := if mark then _ else it). assert (E1 : i_nalu it1 = i_nalu it /\ i_hash it1 = i_hash it /\ i_second it1 = i_second it /\ i_decoded it1 = i_decoded it /\ i_used it1 = i_used it) by (unfold it1; dif; auto 10).
    set (it2 := if vstat_eqb (i_status it1) SInvalid then _ else it1).
    assert (E2 : i_nalu it2 = i_nalu it /\ i_hash it2 = i_hash it /\ i_second it2 = i_second it /\ i_decoded it2 = i_decoded it /\ i_used it2 = i_used it) by (unfold it2; dif; cbn; tauto).
    destruct E2 as (F1 & F2 & F3 & F4 & F5). split; [eapply base_same; eassumption|]. unfold item_sei in *. rewrite F1, F4, F5.
    assert (ST : i_status it2 = i_status it \/ i_status it2 = SUnknown \/ (i_status it2 = SPend /\ (i_decoded it = false \/ i_status it = SUnknown))).
    { unfold it2, it1, mark. destruct (i_decoded it) eqn:ED; cbn [andb].
      - destruct (i_status it) eqn:EI; cbn; rewrite ?EI; cbn; rewrite ?EI; auto.
      - destruct (i_status it) eqn:EI; cbn; rewrite ?EI; auto. }
    split; [intros E; apply T2; destruct ST as [ST|[ST|[ST _]]]; congruence|]. split; [exact T3|]. split.
    + intros E3 E4 E5. apply T4; auto. apply pend_eq in E4. unfold pending. destruct ST as [ST|[ST|[ST [SD|SD]]]]; try congruence.
      * rewrite <- ST, E4. reflexivity.
      * (* SUnknown stays *) exfalso. unfold it2, it1, mark in E4. rewrite SD in E4. cbn [vstat_eqb negb] in E4. rewrite andb_false_r in E4. rewrite SD in E4. cbn in E4. congruence.
    + destruct ST as [ST|[ST|[ST _]]]; congruence.
  - dif; [constructor 3; assumption|]. dif; [apply IH|]. cbv zeta. set (mark := i_decoded it && _). constructor 3; [repeat dif; exact H1| |apply IH].
    destruct mark; cbn; [auto|]. destruct H2 as [H2|[H2|[H2|[]]]]; rewrite <- H2; cbn; rewrite <- H2; auto.
Qed.

(** *** Collecting the NALUs of a GOP *)
Lemma known_firstn (h : list N -> list N -> Prop) d x hs : (K <= hs)%nat -> known h d x -> known h d (firstn hs x).
Proof. intros HL (y & HY & HA). exists y. split; [exact HY|]. unfold agree in *. rewrite firstn_firstn, Nat.min_l by exact HL. exact HA. Qed.
Lemma pend_none it : In (i_status it) [SMiss; SErr; SUnknown] -> pending it = false.
Proof. unfold pending. intros [<-|[<-|[<-|[]]]]; reflexivity. Qed.
Lemma trk_used_mono hist L L2 (Cur : list N -> Prop) g l : incl L L2 -> trk (tk hist L Cur) g l -> trk (tk hist L2 Cur) g l.
Proof. intros HL. apply trk_impl. intros d it _. apply tk_mono; auto. Qed.

Definition gop_res (hs : nat) (hist : list vop) (Cur : list N -> Prop) (g : list (list N)) (l : list item) (x : mdctx) (h : handle) (r : handle * list item * svrc) : Prop :=
  let '(h', m, _) := r in
  exists L xs, subseq L g /\ Forall2 (fun d x => length x = hs /\ known pich d x) L xs /\ trk (tk hist L Cur) g m /\
    (one l -> one m) /\ (next_sei l = None <-> next_sei m = None) /\
    h_type h' = h_type h /\ h_prim h' = Some (mkCtx (x_oid x) (x_data x ++ concat xs) false).
Lemma gop_stop hs hist Cur g l x h st : trk (tk hist [] Cur) g l -> h_prim h = Some x -> x_final x = false -> gop_res hs hist Cur g l x h (h, l, st).
Proof.
  intros T E1 E2. exists [], []. split; [constructor|]. split; [constructor|]. split; [exact T|]. split; [auto|]. split; [tauto|]. split; [reflexivity|].
  rewrite E1. destruct x as [a b e]. cbn in *. subst e. rewrite app_nil_r. reflexivity.
Qed.
Lemma gop_spec hs hist Cur : (K <= hs)%nat -> forall l g h is num x, trk (tk hist [] Cur) g l -> h_prim h = Some x -> x_final x = false ->
  holds (gop_loop hs h is num l) (gop_res hs hist Cur g l x h) (fun _ => True).
Proof.
  intros HH. induction l as [|it l IH]; intros g h is num x T E1 E2; cbn [gop_loop]; [apply gop_stop; assumption|].
  assert (SKIP : forall g', trk (tk hist [] Cur) g' l -> (g = g' \/ exists d, g = d :: g' /\ tk hist [] Cur d it) -> (g = g' -> i_nalu it = None /\ In (i_status it) [SMiss; SErr; SUnknown]) -> pending it = false ->
    holds (do (h0, r2, st) <- gop_loop hs h is num l; Def (h0, it :: r2, st)) (gop_res hs hist Cur g (it :: l) x h) (fun _ => True)).
  { intros g' T' HG HN HP. apply holds_bind. eapply holds_impl; [apply (IH g' h is num x T' E1 E2)| |auto]. intros [[h' m] st] (L & xs & S1 & S2 & S3 & S4 & S5 & S6 & S7). cbn [holds].
    exists L, xs. split; [destruct HG as [->|(d & -> & _)]; [exact S1|constructor; exact S1]|]. split; [exact S2|]. split.
    - destruct HG as [->|(d & -> & TD)]; [destruct (HN eq_refl); constructor 3; assumption|]. constructor 2; [|exact S3]. eapply tk_mono; [|intros y Hy; exact Hy|exact TD]. intros y [].
    - cbn [one]. unfold next_sei. cbn [find]. rewrite HP, andb_false_r. auto. }
  destruct (pending it) eqn:EP; cbn [negb].
  2:{ inversion T as [|d a' g' l' TD T'|a' g' l' F1 F2 T']; subst.
      - apply (SKIP g' T'); auto; [right; eauto|]. intros E. exfalso. clear -E. symmetry in E. revert E. induction g'; [discriminate|]. intros E. injection E as E1 E2. subst. auto.
      - apply (SKIP g T'); auto. }
  inversion T as [|d a' g' l' TD T'|a' g' l' F1 F2 T']; subst; [|rewrite (pend_none _ F2) in EP; discriminate].
  pose proof TD as ((n & EN & HI & HF & HKN) & T2 & T3 & T4 & T5). rewrite EN. cbv zeta.
  set (is2 := if n_first_in_gop n then S is else is). destruct (1 <? is2)%nat; [apply gop_stop; assumption|]. dif; [apply gop_stop; assumption|].
  destruct (n_gop_sei n) eqn:EG; [apply gop_stop; assumption|]. unfold hash_known in HKN. rewrite EG in HKN.
  destruct (if n_first_in_gop n then i_second it else Some (i_hash it)) as [y|] eqn:EY; [|apply gop_stop; assumption].
  assert (KY : known pich d y). { destruct (n_first_in_gop n); [exists y; split; [left; apply HKN, EY|reflexivity]|]. injection EY as <-. exact HKN. }
  apply holds_bind. unfold read_hash. destruct (Nat.leb_spec hs (length y)) as [HL|HL]; [|exact I]. cbn [holds].
  destruct (update_hash true (firstn hs y) h) as [h1 st1] eqn:EU. unfold update_hash in EU. cbn [get_ctx] in EU. rewrite E1, E2 in EU.
  destruct (firstn hs y) as [|y0 ys] eqn:EF; [injection EU as <- <-; apply gop_stop; assumption|]. injection EU as <- <-. cbn [is_ok negb]. change (is_ok SV_OK) with true. cbn [negb].
  rewrite <- EF in *. clear EF y0 ys. apply holds_bind.
  eapply holds_impl; [apply (IH g' _ is2 (S num) (mkCtx (x_oid x) (x_data x ++ firstn hs y) false) T'); reflexivity| |auto].
  intros [[h' m] st] (L & xs & S1 & S2 & S3 & S4 & S5 & S6 & S7). cbn [holds]. exists (d :: L), (firstn hs y :: xs). split; [constructor; exact S1|]. split.
  { constructor; [split; [rewrite firstn_length; lia|apply known_firstn; assumption]|exact S2]. }
  split.
  { constructor 2; [|eapply trk_used_mono; [|exact S3]; intros z Hz; right; exact Hz]. split; [eapply base_same; [| | |exact (proj1 TD)]; reflexivity|].
    cbn. split; [exact T2|]. split; [intros _; split; [left; reflexivity|unfold item_sei; cbn; rewrite EN; exact EG]|]. split; [exact T4|exact T5]. }
  assert (EI : item_sei it = false) by (unfold item_sei; rewrite EN; exact EG). assert (EI2 : item_sei (set_i_used true it) = false) by exact EI.
  split; [cbn [one]; rewrite EI, EI2; exact S4|]. split; [unfold next_sei; cbn [find]; rewrite EI, EI2; exact S5|]. split; [exact S6|]. rewrite S7. cbn [x_oid x_data concat]. rewrite app_assoc. reflexivity.
Qed.

(** *** Preparing a validation *)
Definition dinv (hist : list vop) (d : dec) : Prop :=
  dgood C (seen c hist) (key_seen c hist) d /\ cok d /\ (d_list d = [] \/ some_list c hist (d_list d)).
Definition ready (hist : list vop) (g : list (list N)) (v : valid) : Prop :=
  exists L Cur, trk (tk hist L Cur) g (v_items v) /\ dinv hist (v_dec v) /\ v_codec v = c /\ gs_lost (v_gs v) = false /\
    (next_sei (v_items v) = None \/
     one (v_items v) /\ exists s fs, (forall d, Cur d -> d = s) /\ In s (added hist) /\ sv_sei c s = true /\ sei_fields c s fs /\
       (v_verified v = 1%Z -> signed C c K hist s) /\
       (gop_ok v = true -> forall gh, last_gop fs = Some gh -> (K <= length gh)%nat -> forall d, In d L -> in_gop C c K hist gh d) /\
       match last_list fs with Some l => d_list (v_dec v) = l | None => d_list (v_dec v) = [] \/ some_list c hist (d_list (v_dec v)) end /\
       forall lk, last_link fs = Some lk -> firstn (length lk) (d_linked (v_dec v)) = lk).
Definition inv (hist : list vop) (g : list (list N)) (v : valid) : Prop :=
  trk (tk hist [] (fun _ => False)) g (v_items v) /\ subseq g (added hist) /\ dinv hist (v_dec v) /\ v_codec v = c /\ v_verified v = (-1)%Z /\
  (v_signing v = false -> Forall (fun d => sv_sei c d = false) g).

Lemma put_agree dst x y : put_at 0 dst x = Def y -> (K <= length x)%nat -> firstn K y = firstn K x.
Proof.
  unfold put_at. destruct (_ <=? _)%nat; [|discriminate]. intros E HL. injection E as <-. cbn [firstn app]. rewrite firstn_app. replace (K - length x)%nat with 0%nat by lia. cbn. apply app_nil_r.
Qed.
Lemma dig_len oid x : digest C oid -> length (c_hash C oid x) = oid_size C oid.
Proof. intros (n & E). unfold oid_size. rewrite E. apply (ok_hash_len C HC oid n x E). Qed.
Lemma dig_K oid : digest C oid -> (K <= oid_size C oid)%nat.
Proof. intros (n & E). unfold oid_size. rewrite E. apply (HK oid n E). Qed.
Lemma vhs_K S Kk d : dgood C S Kk d -> (K <= d_vhs d)%nat.
Proof. intros (_ & _ & -> & HD & _). apply dig_K, HD. Qed.
Lemma vhs_size S Kk d : dgood C S Kk d -> digest_size C (d_vhs d).
Proof. intros (_ & _ & -> & (n & HD) & _). unfold oid_size. rewrite HD. exists (h_type (d_handle d)). exact HD. Qed.
Lemma subseq_trans {A} (a b e : list A) : subseq a b -> subseq b e -> subseq a e.
Proof.
  intros H1 H2. revert a H1. induction H2 as [m|x l m H IH|x l m H IH]; intros a H1.
  - inversion H1; subst; constructor.
  - inversion H1; subst; [constructor|constructor 2; apply IH; assumption|constructor 3; apply IH; assumption].
  - constructor 3. apply IH, H1.
Qed.
Lemma subseq_in {A} (a b : list A) x : subseq a b -> In x a -> In x b.
Proof. induction 1; intros HI; [destruct HI|destruct HI as [->|HI]; [left; reflexivity|right; auto]|right; auto]. Qed.

Lemma prepare_gop_spec hist g Cur v : trk (tk hist [] Cur) g (v_items v) -> subseq g (added hist) -> dinv hist (v_dec v) ->
  holds (prepare_gop C v) (fun '(v', st) => st = SV_OK ->
    exists L, trk (tk hist L Cur) g (v_items v') /\ (one (v_items v) -> one (v_items v')) /\ (next_sei (v_items v) = None <-> next_sei (v_items v') = None) /\
      dinv hist (v_dec v') /\ dstay (v_dec v) (v_dec v') /\ (exists h, v_dec v' = set_d_handle h (v_dec v)) /\
      (v_codec v', v_gs v', v_hash v', v_verified v') = (v_codec v, v_gs v, v_hash v, v_verified v) /\
      exists oid xs, digest C oid /\ Forall2 (fun d x => length x = vhs v /\ known pich d x) L xs /\ subseq L g /\ firstn K (v_computed v') = firstn K (c_hash C oid (concat xs))) (fun _ => True).
Proof.
  intros T SG (DG & DC & DL). unfold prepare_gop. apply holds_bind. set (h0 := init_hash true (d_handle (v_dec v))).
  assert (HX : exists x, h_prim h0 = Some x /\ x_final x = false /\ x_data x = [] /\ digest C (x_oid x) /\ h_type h0 = h_type (d_handle (v_dec v))).
  { destruct DG as (G1 & G2 & G3 & G4 & G5). unfold h0, init_hash. cbn [get_ctx]. destruct (h_prim (d_handle (v_dec v))) as [x|] eqn:E; cbn; eexists; (split; [reflexivity|]); cbn; auto 10. }
  destruct HX as (x & X1 & X2 & X3 & X4 & X5).
  eapply holds_impl; [apply (gop_spec (vhs v) hist Cur (vhs_K _ _ _ DG) (v_items v) g h0 0 0 x T X1 X2)| |auto].
  intros [[h m] st] (L & xs & S1 & S2 & S3 & S4 & S5 & S6 & S7). cbv zeta. destruct (negb (is_ok st)) eqn:ES; [cbn; intros ->; discriminate|].
  unfold finalize_hash. cbn [get_ctx]. rewrite S7. cbn [x_final x_oid x_data]. change (is_ok SV_OK) with true. cbn [negb]. apply holds_bind.
  rewrite X3. cbn [app v_computed set_v_items on_dec set_v_dec v_dec v_items].
  match goal with |- holds (put_at 0 ?a ?b) _ _ => destruct (put_at 0 a b) as [y|] eqn:EP end; [|exact I]. cbn [holds]. intros _.
  exists L. cbn [v_items v_dec set_v_computed set_v_dec on_dec set_v_items v_codec v_gs v_hash v_verified v_computed]. split; [exact S3|]. split; [exact S4|]. split; [exact S5|].
  split.
  { split; [|split; [exact DC|exact DL]]. destruct DG as (G1 & G2 & G3 & G4 & G5). split; [exact G1|]. split; [exact G2|]. cbn. rewrite S6, X5. split; [exact G3|]. split; [exact G4|].
    intros z Ez. injection Ez as <-. exact X4. }
  split; [repeat split|]. split; [eexists; reflexivity|]. split; [reflexivity|]. exists (x_oid x), xs. split; [exact X4|]. split; [exact S2|]. split; [exact S1|].
  apply (put_agree _ _ _ EP). rewrite dig_len by exact X4. apply dig_K, X4.
Qed.

Lemma trk_nodecs hist L g l : trk (tk hist L (fun _ => False)) g l -> Forall nodec l.
Proof.
  induction 1 as [|d it g l (T1 & T2 & T3 & T4 & T5) T IH|it g l H1 H2 T IH]; constructor; auto.
  - intros E1 E2. destruct (i_decoded it) eqn:E; [|reflexivity]. exfalso. apply T4; auto.
  - intros E. rewrite (sei_none _ H1) in E. discriminate.
Qed.
Lemma trk_decode hist : forall l g it, trk (tk hist [] (fun _ => False)) g l -> next_sei l = Some it ->
  exists d, In d g /\ tk hist [] (fun _ => False) d it /\ item_sei it = true /\ i_decoded it = false /\
    trk (tk hist [] (eq d)) g (on_next_sei (set_i_decoded true) l) /\ one (on_next_sei (set_i_decoded true) l) /\ next_sei (on_next_sei (set_i_decoded true) l) <> None.
Proof.
  unfold next_sei. induction l as [|a l IH]; intros g it T; cbn [find on_next_sei]; [discriminate|]. destruct (item_sei a && pending a) eqn:ES.
  - intros E. injection E as <-. apply andb_true_iff in ES as [E1 E2]. inversion T as [|d a' g' l' TD T'|a' g' l' F1 F2 T']; subst; [|rewrite (sei_none _ F1) in E1; discriminate].
    exists d. split; [left; reflexivity|]. split; [exact TD|]. split; [exact E1|]. pose proof TD as (T1 & T2 & T3 & T4 & T5). split.
    { destruct (i_decoded a) eqn:E; [|reflexivity]. exfalso. apply T4; auto. }
    split.
    + constructor 2.
      * split; [eapply base_same; [| | |exact T1]; reflexivity|]. cbn. split; [exact T2|]. split; [exact T3|]. split; [reflexivity|exact T5].
      * eapply trk_impl; [|exact T']. intros d2 it2 _. apply tk_mono; [intros z Hz; exact Hz|intros z []].
    + cbn [one find]. change (item_sei (set_i_decoded true a)) with (item_sei a). change (pending (set_i_decoded true a)) with (pending a). rewrite E1, E2. cbn [andb i_decoded set_i_decoded].
      split; [split; [reflexivity|eapply trk_nodecs; exact T']|discriminate].
  - intros E. inversion T as [|d a' g' l' TD T'|a' g' l' F1 F2 T']; subst; destruct (IH _ _ T' E) as (e & I1 & I2 & I3 & I4 & I5 & I6 & I7).
    + exists e. split; [right; exact I1|]. split; [exact I2|]. split; [exact I3|]. split; [exact I4|]. split; [constructor 2; [|exact I5]|].
      * revert TD. apply tk_mono; [intros z Hz; exact Hz|intros z []].
      * cbn [one find]. rewrite ES. auto.
    + exists e. split; [exact I1|]. split; [exact I2|]. split; [exact I3|]. split; [exact I4|]. split; [constructor 3; assumption|]. cbn [one find]. rewrite ES. auto.
Qed.

Lemma from_tlv hist d it n : base hist d it -> i_nalu it = Some n -> n_gop_sei n = true -> tlv_of c d (n_tlv_mem n) (n_tlv_size n) /\ bytes_ok (n_tlv_mem n) /\ sv_sei c d = true /\ In d (added hist).
Proof.
  intros (n2 & E & HI & (p & P1 & P2 & P3 & P4 & P5 & P6 & P7) & _) EN EG. rewrite EN in E. injection E as <-. unfold flags in P2. injection P2 as F1 F2 F3 F4 F5 F6 F7 F8 F9.
  split; [|split; [exact P5|split; [unfold sv_sei; rewrite P1; congruence|exact HI]]]. exists p. split; [exact P1|]. split; [congruence|]. split; [exact F6|]. rewrite F6. exact P6.
Qed.
Lemma seen_piece hist d mem size x : In d (added hist) -> tlv_of c d mem size -> piece x mem -> seen c hist x /\ key_seen c hist x.
Proof. intros H1 H2 H3. assert (G : seen c hist x) by (exists d, mem, size; auto). split; [exact G|right; exact G]. Qed.

Lemma detect_spec v : cok (v_dec v) -> holds (detect_lost Ov v) (fun v' => gs_lost (v_gs v') = false /\ v_items v' = v_items v /\ v_dec v' = v_dec v /\
  (v_codec v', v_hash v', v_verified v', v_computed v') = (v_codec v, v_hash v, v_verified v, v_computed v)) (fun _ => True).
Proof.
  intros H. pose proof (detect_never Ov v H HO) as G. unfold detect_lost in *. cbv zeta in *. destruct (add_int64 Ov _ _) as [s|]; [|exact I]. cbn [obind] in *.
  destruct (if (s <? _)%Z then _ else _) as [p|]; [|exact I]. cbn [obind holds] in *. destruct G as (G1 & G2 & G3). split; [exact G1|]. split; [exact G2|]. split; [exact G3|reflexivity].
Qed.

Lemma prepare_spec hist g v : inv hist g v -> gs_lost (v_gs v) = false ->
  holds (prepare C Ov v) (fun '(v', st) => st = SV_OK -> ready hist g v') (fun _ => True).
Proof.
  intros (T & SG & DI & EC & EV & _) EL. unfold prepare. cbv zeta.
  assert (TAIL : forall v1 L Cur, trk (tk hist L Cur) g (v_items v1) -> dinv hist (v_dec v1) -> v_codec v1 = c -> gs_lost (v_gs v1) = false -> v_verified v1 = (-1)%Z ->
    (next_sei (v_items v1) = None \/
     one (v_items v1) /\ exists s fs, (forall d, Cur d -> d = s) /\ In s (added hist) /\ sv_sei c s = true /\ sei_fields c s fs /\ known seih s (firstn (vhs v1) (v_hash v1)) /\
       (gop_ok v1 = true -> forall gh, last_gop fs = Some gh -> (K <= length gh)%nat -> forall d, In d L -> in_gop C c K hist gh d) /\
       match last_list fs with Some l => d_list (v_dec v1) = l | None => d_list (v_dec v1) = [] \/ some_list c hist (d_list (v_dec v1)) end /\
       forall lk, last_link fs = Some lk -> firstn (length lk) (d_linked (v_dec v1)) = lk) ->
    holds (if v_signing v1 && negb (d_has_pub (v_dec v1)) then Def (v1, SV_NOT_SUPPORTED) else if gs_sei (v_gs v1) then Def (verify_hash C v1) else Def (v1, SV_OK))
      (fun '(v', st) => st = SV_OK -> ready hist g v') (fun _ => True)).
  { clear T SG DI EC EV EL. intros v1 L Cur T DI EC EL EV H. dif; [discriminate|].
    assert (GO : forall v2, (v_items v2, v_dec v2, v_codec v2, v_gs v2, v_computed v2) = (v_items v1, v_dec v1, v_codec v1, v_gs v1, v_computed v1) ->
       (v_verified v2 = 1%Z -> exists key sig, key_seen c hist key /\ seen c hist sig /\ c_verify C key sig (firstn (vhs v1) (v_hash v1)) = 1%Z) -> ready hist g v2).
    { intros v2 E HV. injection E as E1 E2 E3 E4 E5. exists L, Cur. rewrite E1, E2, E3, E4. split; [exact T|]. split; [exact DI|]. split; [exact EC|]. split; [exact EL|].
      destruct H as [H|(H1 & s & fs & H2 & H3 & H4 & H5 & H6 & H7 & H8 & H9)]; [left; exact H|right]. split; [exact H1|]. exists s, fs. split; [exact H2|]. split; [exact H3|]. split; [exact H4|]. split; [exact H5|].
      split; [|split; [|split; [exact H8|exact H9]]].
      - intros E. destruct (HV E) as (key & sig & V1 & V2 & V3). exists key, sig, (firstn (vhs v1) (v_hash v1)). auto.
      - unfold gop_ok, vhs in *. rewrite E2, E5. exact H7. }
    dif; [|cbn; intros _; apply GO; [reflexivity|rewrite EV; discriminate]].
    unfold verify_hash. destruct (d_sig (v_dec v1)) as [sig|] eqn:ES; [|cbn; discriminate]. destruct (d_vkey (v_dec v1)) as [key|] eqn:EK; [|cbn; discriminate]. dif; [discriminate|].
    cbn [holds]. intros _. apply GO; [reflexivity|]. cbn [v_verified set_v_verified]. intros E. destruct DI as ((D1 & D2 & _) & _). exists key, (firstn (N.to_nat (d_sig_size (v_dec v1))) sig).
    split; [apply D1, EK|]. split; [|exact E]. destruct (D2 _ ES) as (s & mem & sz & S1 & S2 & S3). exists s, mem, sz. split; [exact S1|]. split; [exact S2|]. eapply piece_trans; [apply piece_firstn|exact S3]. }
  destruct (next_sei (v_items v)) as [it|] eqn:EN.
  2:{ cbn [obind]. change (is_ok SV_OK) with true. cbn [negb]. eapply TAIL; eauto. }
  destruct (trk_decode hist _ _ _ T EN) as (s & I1 & I2 & I3 & I4 & I5 & I6 & I7). pose proof I2 as (B & _). pose proof B as (n & N1 & N2 & N3 & N4). rewrite N1, I4.
  assert (EG : n_gop_sei n = true) by (unfold item_sei in I3; rewrite N1 in I3; exact I3). unfold hash_known in N4. rewrite EG in N4.
  destruct (from_tlv hist s it n B N1 EG) as (TO & BO & SV & _).
  rewrite !obind_assoc. unfold decode_sei. cbn [v_dec on_dec set_v_dec]. unfold tlv_decode. destruct (n_tlv_size n =? 0).
  { cbn [obind]. change (is_ok SV_INVALID_PARAMETER) with false. cbn. discriminate. }
  destruct DI as (DG & DC & DL). set (d0 := set_d_l_changed false (v_dec v)).
  assert (DG0 : dgood C (seen c hist) (key_seen c hist) d0) by (eapply dgood_core; [|exact DG]; reflexivity). assert (DC0 : cok d0) by exact DC. assert (DL0 : d_list d0 = d_list (v_dec v)) by reflexivity.
  assert (HS0 : d_vhs d0 = vhs v) by reflexivity. clearbody d0.
  pose proof (loop_walk C _ _ (S (length (n_tlv_mem n))) d0 (n_tlv_mem n) (n_tlv_size n) SV_INVALID_PARAMETER BO DG0 (fun x Hx => seen_piece hist s _ _ x N2 TO Hx)) as LW.
  pose proof (decode_loop_cok C (S (length (n_tlv_mem n))) d0 (n_tlv_mem n) (n_tlv_size n) SV_INVALID_PARAMETER BO DC0) as LC.
  destruct (tlv_decode_loop C _ d0 _ _ _) as [[d1 st1]|]; [|exact I]. cbn [obind holds] in *. destruct LW as (DG1 & fs & q & r2 & W & LL & LO).
  destruct (is_ok st1) eqn:ES1; cbn [negb]; [|repeat (cbn [obind negb]; rewrite ?ES1); cbn [holds]; intros ->; discriminate].
  assert (st1 = SV_OK) as -> by (destruct st1; try discriminate; reflexivity). destruct (LO eq_refl) as (R0 & LO1 & LO2 & LO3). subst r2. clear LO.
  set (v1 := set_v_dec d1 _). assert (E1 : (v_items v1, v_dec v1, v_codec v1, v_hash v1, v_verified v1) = (v_items v, d1, v_codec v, v_hash v, v_verified v)) by reflexivity. clearbody v1.
  injection E1 as E1 E2 E3 E4 E5. rewrite !obind_assoc. apply holds_bind. eapply holds_impl; [apply detect_spec; rewrite E2; exact LC| |auto].
  intros v2 (V1 & V2 & V3 & V4). injection V4 as V4 V5 V6 V7. cbn [obind]. rewrite V1, andb_false_r. change (is_ok SV_OK) with true. cbn [negb]. rewrite !obind_assoc.
  apply holds_bind. unfold read_hash. destruct (Nat.leb_spec (vhs v) (length (i_hash it))) as [HL|HL]; [|exact I]. cbn [holds]. rewrite !obind_assoc. apply holds_bind.
  destruct (put_at 0 (v_hash v2) _) as [y|] eqn:EP; [|exact I]. cbn [holds obind]. change (is_ok SV_OK) with true. cbn [negb].
  assert (KV : (K <= vhs v)%nat) by (apply (vhs_K _ _ _ DG)).
  assert (HY : firstn K y = firstn K (i_hash it)).
  { rewrite (put_agree _ _ _ EP) by (rewrite firstn_length; lia). rewrite firstn_firstn, Nat.min_l by exact KV. reflexivity. }
  set (v3 := set_v_hash y _). assert (E6 : (v_items v3, v_dec v3, v_codec v3, v_hash v3, v_verified v3) = (on_next_sei (set_i_decoded true) (v_items v), d1, c, y, (-1)%Z)).
  { unfold v3. cbn. rewrite V2, E1, V3, E2, V4, E3, EC, V6, E5, EV. reflexivity. }
  clearbody v3. clear v2 V1 V2 V3 V4 V5 V6 V7 EP. injection E6 as E6 E7 E8 E9 E10. rewrite !obind_assoc. apply holds_bind. eapply holds_impl; [apply detect_spec; rewrite E7; exact LC| |auto].
  intros v4 (V1 & V2 & V3 & V4). injection V4 as V4 V5 V6 V7.
  assert (DI1 : dinv hist d1).
  { split; [exact DG1|]. split; [exact LC|]. destruct LL as [LL|(vv & LL)]; [rewrite LL, DL0; exact DL|]. right. exists s, (n_tlv_mem n), (n_tlv_size n), fs, q, 0, vv. auto. }
  apply holds_bind. eapply holds_impl; [apply (prepare_gop_spec hist g (eq s) v4)| |auto].
  { rewrite V2, E6. exact I5. }
  { exact SG. }
  { rewrite V3, E7. exact DI1. }
  intros [v5 st5] HP. destruct (is_ok st5) eqn:ES5; cbn [negb]; [|intros ->; discriminate]. assert (st5 = SV_OK) as -> by (destruct st5; try discriminate; reflexivity).
  destruct (HP eq_refl) as (L & P1 & P2 & P3 & P4 & P5 & (h & P6) & P7 & oid & xs & P8 & P9 & P10 & P11). injection P7 as P7a P7b P7c P7d.
  apply (TAIL v5 L (eq s)); auto; [congruence|congruence|congruence|]. right. split; [apply P2; rewrite V2, E6; exact I6|]. exists s, fs. split; [auto|]. split; [exact N2|]. split; [exact SV|].
  split; [exists (n_tlv_mem n), (n_tlv_size n), q; auto|].
  assert (KV5 : (K <= vhs v5)%nat) by (destruct P4 as (P4 & _); apply (vhs_K _ _ _ P4)).
  split.
  { destruct N4 as (z & Z1 & Z2). exists z. split; [exact Z1|]. unfold agree in *. rewrite firstn_firstn, Nat.min_l by exact KV5. rewrite P7c, V5, E9, HY. exact Z2. }
  split.
  { intros GO gh HG HKG d HD. exists L, xs, oid, (vhs v4). split; [eapply subseq_trans; [exact P10|exact SG]|]. split; [exact HD|]. assert (EVH : vhs v5 = vhs v4) by (unfold vhs; rewrite P6; reflexivity). split; [|split; [exact P9|split; [exact P8|]]].
    - rewrite <- EVH. apply (vhs_size _ _ _ (proj1 P4)).
    - unfold agree. rewrite <- P11. unfold gop_ok in GO. apply bytes_eqb_eq in GO. assert (GK : firstn K (firstn (vhs v5) (v_computed v5)) = firstn K (firstn (vhs v5) (d_gop (v_dec v5)))) by congruence.
      rewrite !firstn_firstn, !Nat.min_l in GK by exact KV5. rewrite GK. destruct P5 as (P5 & _). rewrite P5, V3, E7. rewrite HG in LO2. rewrite <- LO2.
      rewrite firstn_firstn, Nat.min_l by exact HKG. reflexivity. }
  destruct P5 as (_ & P5 & PL). rewrite P5, PL, V3, E7. split; [destruct (last_list fs); [exact LO1|]; rewrite LO1, DL0; exact DL|]. intros lk0 HLK. rewrite HLK in LO3. exact LO3.
Qed.

(** *** What a validation leaves alone *)
Definition dk (v : valid) : dec * codec * bool := (v_dec v, v_codec v, v_signing v).
Hint Extern 1 (dk _ = _) => eassumption : frame.
Lemma update_links_dk k v h : dk v = k -> holds (update_links v h) (fun v' => dk v' = k) (fun _ => True).
Proof. intros H. unfold update_links. fr_go. Qed.
Hint Resolve update_links_dk : frame.
Lemma update_link_dk k v : dk v = k -> holds (update_link v) (fun v' => dk v' = k) (fun _ => True).
Proof. intros H. unfold update_link. fr_go. Qed.
Lemma verify_without_dk k v : dk v = k -> holds (verify_without v) (fun '(v', _) => dk v' = k) (fun _ => True).
Proof. intros H. unfold verify_without. fr_go. Qed.
Hint Resolve verify_without_dk : frame.
Lemma verify_list_dk k v o : dk v = k -> holds (verify_list v o) (fun '(v', _, _, _) => dk v' = k) (fun _ => True).
Proof. intros H. unfold verify_list. fr_go. Qed.
Hint Resolve verify_list_dk : frame.
Lemma verify_with_dk k v : dk v = k -> holds (verify_with v) (fun '(v', _, _, _) => dk v' = k) (fun _ => True).
Proof. intros H. unfold verify_with. fr_go. Qed.
Hint Resolve verify_with_dk : frame.
Lemma validate_dk k v : dk v = k -> holds (validate v) (fun v' => dk v' = k) (fun _ => True).
Proof. intros H. unfold validate. fr_go. Qed.

(** *** The verdicts *)
Lemma chunks_in hs : forall k l y, (k * hs <= length l)%nat -> In y (chunks k hs l) ->
  exists A b, l = concat A ++ y ++ b /\ Forall (fun z => length z = length y) A /\ length y = hs.
Proof.
  induction k as [|k IH]; intros l y HL; cbn [chunks]; [intros []|]. assert (LF : length (firstn hs l) = hs) by (rewrite firstn_length; lia). intros [<-|HI].
  - exists [], (skipn hs l). cbn. split; [symmetry; apply firstn_skipn|]. split; [constructor|exact LF].
  - destruct (IH (skipn hs l) y) as (A & b & E & HF & LY); [rewrite skipn_length; lia|exact HI|]. exists (firstn hs l :: A), b. cbn [concat]. rewrite <- app_assoc, <- E, firstn_skipn.
    split; [reflexivity|]. split; [constructor; [congruence|exact HF]|exact LY].
Qed.
Lemma pic_added hist d it : base hist d it -> item_sei it = false -> In d (added hist) /\ sv_sei c d = false.
Proof.
  intros (n & E & HI & (p & P1 & P2 & _) & _) ES. split; [exact HI|]. unfold sv_sei. rewrite P1. unfold item_sei in ES. rewrite E in ES. unfold flags in P2. injection P2 as F1 F2 F3 F4 F5 F6 F7 F8 F9. congruence.
Qed.
Lemma pic_listed hist d it l hs : base hist d it -> digest_size C hs -> (0 < hs)%nat -> listed hs (chunks (length l / hs) hs l) it -> in_list C c K l d.
Proof.
  intros (n & E & HI & HF & HN) HH H0 (ES & n2 & x & y & E2 & EX & HL & HY & ->). rewrite E2 in E. injection E as ->.
  destruct (chunks_in hs (length l / hs) l (firstn hs x)) as (A & b & EL & HA & LY); [|exact HY|].
  { rewrite Nat.mul_comm. apply Nat.mul_div_le. lia. }
  exists A, (firstn hs x), b. split; [exact EL|]. split; [exact HA|]. split; [rewrite LY; exact HH|]. apply known_firstn; [destruct HH as (o & HH); apply (HK o hs HH)|]. unfold hash_known in HN. unfold item_sei in ES. rewrite E2 in ES. rewrite ES in HN.
  destruct (n_first_in_gop n); [exists x; split; [left; apply HN, EX|reflexivity]|]. injection EX as <-. exact HN.
Qed.

Definition judged (hist : list vop) (g : list (list N)) (v' : valid) : Prop := exists L, trk (tk hist L (fun _ => False)) g (v_items v').
Lemma used_plain hist L Cur g l : trk (tk hist L Cur) g l -> Forall (fun it => i_used it = true -> item_sei it = false) l.
Proof.
  intros T. induction T as [|d it g l (T1 & T2 & T3 & T4 & T5) T IH|it g l H1 H2 T IH]; [apply Forall_nil|apply Forall_cons|apply Forall_cons]; auto; [intros U; apply T3, U|intros _; apply sei_none, H1].
Qed.
Lemma add_judged hist L g l k b i : trk (tk hist L (fun _ => False)) g l -> trk (tk hist L (fun _ => False)) g (add_missing k b i l).
Proof. intros T. eapply (trk_evm _ _ _ _ _ _ (fun _ => False)); [apply evm_add|intros ? ? _ _ []|exact T]. Qed.
Lemma tail_judged hist g v fu e m : judged hist g v ->
  holds (match fu with
    | Some k =>
        if v_first v then Def (v, false, e, m)
        else
          match nth_error (v_items v) k with
          | Some it =>
              match i_nalu it with
              | None => Undef NullDeref
              | Some n => Def (on_items (add_missing (e - m) (n_first_in_gop n) k) v, false, e, m)
              end
          | None => Def (v, false, e, m)
          end
    | None => Def (v, false, e, m)
    end) (fun '(v', _, _, _) => judged hist g v') (fun _ => True).
Proof.
  intros HJ. destruct fu as [k|]; [|exact HJ]. dif; [exact HJ|]. destruct (nth_error (v_items v) k) as [it|]; [|exact HJ]. destruct (i_nalu it) as [n|]; [|exact I]. cbn [holds].
  destruct HJ as (L & T). exists L. cbn [v_items on_items set_v_items]. apply add_judged, T.
Qed.
(** A status for the SEI after the pictures got theirs. *)
Lemma next_judged hist L (Cur : list N -> Prop) g l m s (X : item -> Prop) : evm X l m -> (forall d a, In d g -> tk hist L Cur d a -> X a -> vouched hist d) ->
  trk (tk hist L Cur) g l -> one l -> s <> SPend -> s <> SMiss -> (s = SValid -> forall d, Cur d -> vouched hist d) ->
  trk (tk hist L (fun _ => False)) g (on_next_sei (set_i_status s) m).
Proof.
  intros HM HX T H1 S1 S2 S3. assert (O1 : one m) by (eapply evm_one; eassumption). eapply trk_nodec; [apply next_nodec; assumption|]. apply trk_next; [exact S1|exact S2|exact S3|exact O1|]. eapply trk_evm; eassumption.
Qed.
Lemma evm_tr_add X l m k b i : evm X l m -> evm X l (add_missing k b i m).
Proof.
  unfold add_missing. generalize (if b then S i else i). clear i b. intros i H. revert i. induction H as [|a b l m HS H IH|b l m H1 H2 H IH]; intros [|i]; cbn [firstn skipn app].
  - apply evm_missing, evm_nil.
  - apply evm_missing, evm_nil.
  - apply evm_missing. constructor 2; assumption.
  - constructor 2; [exact HS|apply IH].
  - apply evm_missing. constructor 3; assumption.
  - constructor 3; [exact H1|exact H2|apply IH].
Qed.
Lemma with_spec hist g v : ready hist g v -> holds (verify_with v) (fun '(v', _, _, _) => judged hist g v') (fun _ => True).
Proof.
  intros (L & Cur & T & (DG & DC & DL) & EC & EL & HN). unfold verify_with. cbv zeta.
  pose proof (vhs_K _ _ _ DG) as KV. fold (vhs v) in KV. pose proof (used_plain _ _ _ _ _ T) as UF.
  destruct (v_verified v =? 1)%Z eqn:EV; [apply Z.eqb_eq in EV|].
  - destruct HN as [HN|(H1 & s & fs & H2 & H3 & H4 & H5 & H6 & H7 & H8 & H9)].
    + (* no SEI *)
      assert (DONE : judged hist g v) by (exists L; eapply trk_nodec; [apply none_nodec, HN|exact T]).
      dif; [unfold verify_list; dif; [exact I|]; cbv zeta; rewrite HN; exact DONE|]. rewrite HN. cbn [obind]. apply tail_judged, DONE.
    + (* a SEI with a good signature *)
      specialize (H6 EV).
      assert (CUR : forall d, Cur d -> vouched hist d).
      { intros d HD. rewrite (H2 d HD). split; [exact H3|]. rewrite H4. exact H6. }
      destruct (gop_ok v && linked_ok v) eqn:EO; cbn [negb andb].
      * (* GOP hash *)
        apply andb_true_iff in EO as [EO _].
        assert (PIC : forall d a, In d g -> tk hist L Cur d a -> SValid = SValid /\ i_used a = true -> vouched hist d).
        { intros d a _ (T1 & T2 & T3 & T4 & T5) [_ U]. destruct (T3 U) as [U1 U2]. destruct (pic_added _ _ _ T1 U2) as [A1 A2]. split; [exact A1|]. rewrite A2.
          exists s, fs. split; [exact H3|]. split; [exact H4|]. split; [exact H6|]. split; [exact H5|]. intros gh HG HKG. left. apply (H7 EO gh HG HKG d U1). }
        destruct (next_sei (v_items v)) as [it|] eqn:EN; cbn [obind].
        2:{ apply tail_judged. exists L. eapply trk_nodec; [apply none_nodec, EN|exact T]. }
        rewrite !obind_assoc. apply holds_bind. eapply holds_impl; [apply (used_evm SValid); [discriminate|discriminate|exact UF]| |auto]. intros [m k] HM. cbn [obind].
        apply tail_judged. exists L. cbn [v_items set_v_items]. eapply next_judged; try eassumption; try discriminate. auto.
      * destruct (0 <? nlen (d_list (v_dec v))) eqn:EZ.
        -- (* list of hashes *)
           unfold verify_list. destruct (vhs v =? 0)%nat eqn:EH; [exact I|]. apply Nat.eqb_neq in EH. cbv zeta. destruct (next_sei (v_items v)) as [it|] eqn:EN.
           2:{ exists L. eapply trk_nodec; [apply none_nodec, EN|exact T]. }
           apply holds_bind. eapply holds_impl; [apply hl_evm| |auto]. intros [hs l] HM. 
           assert (PIC : forall d a, In d g -> tk hist L Cur d a -> listed (vhs v) (expected_hashes v) a -> vouched hist d).
           { intros d a _ (T1 & T2 & T3 & T4 & T5) HL. assert (ES : item_sei a = false) by apply HL. destruct (pic_added _ _ _ T1 ES) as [A1 A2]. split; [exact A1|]. rewrite A2.
             exists s, fs. split; [exact H3|]. split; [exact H4|]. split; [exact H6|]. split; [exact H5|]. intros gh HG HKG. right.
             assert (HIL : in_list C c K (d_list (v_dec v)) d) by (eapply (pic_listed _ _ _ _ (vhs v)); [exact T1|apply (vhs_size _ _ _ DG)| |exact HL]; lia).
             destruct (last_list fs) as [ll|]; [rewrite <- H8; exact HIL|]. destruct H8 as [H8|H8]; [|eauto]. rewrite H8 in EZ. discriminate EZ. }
           set (l1 := if (h_latest hs =? -1)%Z then _ else _).
           apply holds_bind. assert (HL1 : holds l1 (fun m => evm (listed (vhs v) (expected_hashes v)) (v_items v) m) (fun _ => True)).
           { unfold l1. dif; [|exact HM]. destruct l as [|it0 l']; [exact I|]. cbn [holds]. apply evm_tr_add, HM. }
           eapply holds_impl; [exact HL1| |auto]. intros m HM2. cbn [holds]. exists L. cbn [v_items set_v_items]. eapply next_judged; [|exact PIC|exact T|exact H1|discriminate|discriminate|auto].
           dif; [|exact HM2]. destruct (h_last hs); [apply evm_tr_add|]; exact HM2.
        -- destruct (next_sei (v_items v)) as [it|] eqn:EN; cbn [obind].
           2:{ apply tail_judged. exists L. eapply trk_nodec; [apply none_nodec, EN|exact T]. }
           rewrite !obind_assoc. apply holds_bind. eapply holds_impl; [apply (used_evm SInvalid); [discriminate|discriminate|exact UF]| |auto]. intros [m k] HM. cbn [obind].
           apply tail_judged. exists L. cbn [v_items set_v_items]. eapply next_judged; try eassumption; try discriminate; auto. intros ? ? _ _ [E _]. discriminate E.
  - destruct (next_sei (v_items v)) as [it|] eqn:EN; [|exact I]. destruct HN as [HN|(H1 & s & fs & _)]; [discriminate HN|].
    assert (HX : forall st, st <> SPend -> st <> SMiss -> st <> SValid -> trk (tk hist L (fun _ => False)) g (on_next_sei (set_i_status st) (v_items v))).
    { intros st S1 S2 S3. eapply (next_judged _ _ _ _ _ _ _ (fun _ => False)); [apply evm_refl|intros ? ? _ _ []|exact T|exact H1|exact S1|exact S2|congruence]. }
    dif.
    + specialize (HX SInvalid ltac:(discriminate) ltac:(discriminate) ltac:(discriminate)). cbn [v_verified v_items on_items set_v_items]. rewrite EV. rewrite !obind_assoc.
      apply holds_bind. eapply holds_impl; [apply (used_evm SInvalid); [discriminate|discriminate|eapply used_plain, HX]| |auto]. intros [m k] HM. cbn [obind].
      apply tail_judged. exists L. cbn [v_items set_v_items]. eapply trk_evm; [exact HM| |exact HX]. intros ? ? _ _ [E _]. discriminate E.
    + specialize (HX SErr ltac:(discriminate) ltac:(discriminate) ltac:(discriminate)). apply holds_bind. unfold verify_without. cbn [v_items on_items set_v_items]. pose proof (trk_unused _ _ _ _ _ HX) as T0.
      apply holds_bind. eapply holds_impl; [apply without_evm| |auto]. intros [[m k] f] HM. cbn [obind holds].
      apply (trk_evm _ _ _ _ _ _ _ HM) in T0; [|intros ? ? _ _ []]. exists []. dif; exact T0.
Qed.

(** *** One round of validation *)
Definition lk (v : valid) := (v_dec v, v_codec v, v_gs v, v_verified v, v_computed v, v_signing v).
Hint Extern 1 (lk _ = _) => eassumption : frame.
Lemma update_links_lk k v h : lk v = k -> holds (update_links v h) (fun v' => lk v' = k) (fun _ => True).
Proof. intros H. unfold update_links. fr_go. Qed.
Lemma link_evm v : holds (update_link v) (fun v' => lk v' = lk v /\ forall X, evm X (v_items v) (v_items v')) (fun _ => True).
Proof.
  assert (R : lk v = lk v /\ forall X, evm X (v_items v) (v_items v)) by (split; [reflexivity|intros X; apply evm_refl]).
  unfold update_link. apply holds_bind. destruct (find_link _) as [[k|]|]; [|exact R|exact I]. cbn [holds]. destruct (nth_error _ _) as [it|]; [|exact R]. dif; [exact R|]. apply holds_bind.
  pose proof (update_links_lk (lk v) v (i_second it) eq_refl) as H1. pose proof (update_links_items v (i_second it)) as H2.
  destruct (update_links v (i_second it)) as [v1|]; [|exact I]. cbn [holds] in *. split; [exact H1|]. intros X. cbn [v_items on_items set_v_items]. rewrite H2. apply evm_linked.
Qed.
Lemma link_ready hist g v : ready hist g v -> holds (update_link v) (fun v' => ready hist g v') (fun _ => True).
Proof.
  intros (L & Cur & T & DI & EC & EL & H). eapply holds_impl; [apply link_evm| |auto]. intros v' [E HE]. injection E as E1 E2 E3 E4 E5 E6. exists L, Cur. rewrite E1, E2, E3.
  split; [eapply trk_evm; [apply (HE (fun _ => False))|intros ? ? _ _ []|exact T]|]. split; [exact DI|]. split; [exact EC|]. split; [exact EL|].
  destruct H as [H|(H1 & s & fs & H2 & H3 & H4 & H5 & H6 & H7 & H8 & H9)]; [left; apply (evm_next _ _ _ (HE (fun _ => False))), H|right].
  split; [eapply evm_one; [apply (HE (fun _ => False))|exact H1]|]. exists s, fs. rewrite E4. unfold gop_ok, vhs in *. rewrite E1, E5. auto 12.
Qed.
Lemma validate_spec hist g v : ready hist g v ->
  holds (validate v) (fun v' => trk (tk hist [] (fun _ => False)) g (v_items v')) (fun _ => True).
Proof.
  intros HR. assert (EL : gs_lost (v_gs v) = false) by (destruct HR as (L & Cur & _ & _ & _ & EL & _); exact EL). unfold validate. rewrite EL. cbn [andb]. rewrite !obind_assoc.
  apply holds_bind. eapply holds_impl; [apply with_spec, HR| |auto]. intros [[[v1 f] e] r] (L & T). cbn [obind]. destruct (get_stats _) as [[inv0 mis] hv].
  apply trk_unused in T. set (v2 := on_items remove_used _). assert (E2 : v_items v2 = remove_used (v_items v1)) by reflexivity. clearbody v2. rewrite <- E2 in T. clear E2.
  set (v3 := if v_first v2 then v2 else _). assert (E3 : v_items v3 = v_items v2) by (unfold v3; dif; reflexivity). clearbody v3. rewrite <- E3 in T.
  set (r1 := if (0 <? inv0)%Z then _ else _). set (r2 := if negb (v_first _) && _ && _ && _ then _ else _). set (r3 := match r2 with AuthOk => _ | _ => _ end). clearbody r1 r2 r3.
  assert (G : forall q : valid * _ * Z * Z, trk (tk hist [] (fun _ => False)) g (v_items (fst (fst (fst q)))) ->
     holds (let '(v4, res, exp, recv) := q in
        Def (on_latest (fun l => set_l_exp (if gs_lost (v_gs v4) then (-1)%Z else if (l_exp (v_latest v4) =? -1)%Z then (-1)%Z else (l_exp (v_latest v4) + exp)%Z)
           (set_l_recv (l_recv l + recv)%Z (set_l_auth (let res := if d_l_changed (v_dec v4) then NotOk else res in if (ar_n (l_auth (v_latest v4)) <=? 1) || (ar_n res <? ar_n (l_auth (v_latest v4))) then res else l_auth (v_latest v4)) l))) v4))
       (fun v' => trk (tk hist [] (fun _ => False)) g (v_items v')) (fun _ => True)).
  { intros [[[v4 res] x1] x2] H. exact H. }
  apply G. dif; [|exact T]. destruct (match r3 with AuthOk => _ | _ => _ end); try exact T; cbn [fst v_items on_items set_v_items set_v_synced]; apply trk_unmiss, T.
Qed.
Lemma prepare_none v : next_sei (v_items v) = None -> holds (prepare C Ov v) (fun '(v', _) => v_items v' = v_items v /\ dk v' = dk v) (fun _ => True).
Proof.
  intros H. unfold prepare. cbv zeta. rewrite H. cbn [obind]. change (is_ok SV_OK) with true. cbn [negb]. dif; [split; reflexivity|]. dif; [|split; reflexivity].
  unfold verify_hash. destruct (d_sig _); [|split; reflexivity]. destruct (d_vkey _); [|split; reflexivity]. dif; split; reflexivity.
Qed.
Lemma base_sei hist d it : base hist d it -> item_sei it = sv_sei c d.
Proof.
  intros (n & E & HI & (p & P1 & P2 & _) & _). unfold sv_sei, item_sei. rewrite P1, E. unfold flags in P2. injection P2 as F1 F2 F3 F4 F5 F6 F7 F8 F9. congruence.
Qed.
Lemma plain_none hist L Cur g l : trk (tk hist L Cur) g l -> Forall (fun d => sv_sei c d = false) g -> next_sei l = None.
Proof.
  unfold next_sei. induction 1 as [|d it g l (T1 & T2) T IH|it g l H1 H2 T IH]; intros HF; cbn [find]; [reflexivity| |rewrite (sei_none _ H1); apply IH, HF].
  apply Forall_cons_iff in HF as [H0 HF]. rewrite (base_sei _ _ _ T1), H0. apply IH, HF.
Qed.
Lemma loop_spec hist g : forall fuel v stop, inv hist g v ->
  holds (validate_loop C Ov fuel v stop) (fun '(v', st) => st = SV_OK -> inv hist g v') (fun _ => True).
Proof.
  induction fuel as [|fuel IH]; intros v stop HI; cbn [validate_loop].
  all: unfold has_pending; destruct (pending_loop _ _ _) as [ps found]; set (v1 := set_v_gs _ v).
  all: assert (HI1 : inv hist g v1) by exact HI; assert (EL : gs_lost (v_gs v1) = false) by reflexivity; clearbody v1; clear HI v.
  all: dif; [intros _; exact HI1|]; try exact I.
  set (v2 := if v_result v1 then v1 else _). assert (HI2 : inv hist g v2) by (unfold v2; dif; exact HI1). assert (EL2 : gs_lost (v_gs v2) = false) by (unfold v2; dif; exact EL). clearbody v2. clear HI1 EL v1.
  pose proof HI2 as (T & SG & DI & EC & EV & HS).
  assert (GO : forall v3, trk (tk hist [] (fun _ => False)) g (v_items v3) -> dinv hist (v_dec v3) -> v_codec v3 = c -> v_signing v3 = v_signing v2 ->
     forall stop2, holds (validate_loop C Ov fuel (on_latest (set_l_pend (num_pending (v_items (set_v_result true (set_v_verified (-1)%Z (set_v_first (negb (v_signing v3)) v3))))))
        (set_v_result true (set_v_verified (-1)%Z (set_v_first (negb (v_signing v3)) v3)))) stop2) (fun '(v', st) => st = SV_OK -> inv hist g v') (fun _ => True)).
  { intros v3 G1 G2 G3 G4 stop2. apply IH. split; [exact G1|]. split; [exact SG|]. split; [exact G2|]. split; [exact G3|]. split; [reflexivity|]. cbn [v_signing on_latest set_v_latest set_v_result set_v_verified set_v_first]. rewrite G4. exact HS. }
  destruct (v_signing v2) eqn:ES.
  - apply holds_bind. pose proof (prepare_spec hist g v2 HI2 EL2) as H1. pose proof (prepare_gr C Ov (gr v2) v2 eq_refl) as H2. destruct (prepare C Ov v2) as [[v3 st]|]; [|exact I]. cbn [holds] in *.
    destruct (is_ok st) eqn:EO; cbn [negb]; [|intros ->; discriminate]. assert (st = SV_OK) as -> by (destruct st; try discriminate; reflexivity). specialize (H1 eq_refl).
    assert (S3 : v_signing v3 = true) by (unfold gr in H2; congruence). clear H2.
    apply holds_bind. pose proof (link_ready _ _ _ H1) as H4. pose proof (link_evm v3) as H5. destruct (update_link v3) as [v4|]; [|exact I]. cbn [holds] in *. destruct H5 as [H5 _]. injection H5 as _ _ _ _ _ S4.
    rewrite S4, S3. apply holds_bind. pose proof (validate_spec _ _ _ H4) as H6. pose proof (validate_dk (dk v4) v4 eq_refl) as H7. destruct (validate v4) as [v5|]; [|exact I]. cbn [holds] in *. unfold dk in H7. injection H7 as D1 D2 D3.
    destruct H4 as (L & Cur & _ & DI4 & EC4 & _). apply GO; [exact H6|rewrite D1; exact DI4|congruence|congruence].
  - apply holds_bind. pose proof (prepare_none v2 (plain_none _ _ _ _ _ T (HS eq_refl))) as H1. destruct (prepare C Ov v2) as [[v3 st]|]; [|exact I]. cbn [holds] in *. destruct H1 as [H1 H2].
    destruct (is_ok st) eqn:EO; cbn [negb]; [|intros ->; discriminate]. unfold dk in H2. injection H2 as D1 D2 D3.
    apply holds_bind. eapply holds_impl; [apply link_evm| |auto]. intros v4 [E HE]. injection E as E1 E2 E3 E4 E5 E6. rewrite E6, D3, ES. cbn [obind].
    apply (GO (on_latest (set_l_auth NotSigned) v4)); cbn [v_items v_dec v_codec v_signing on_latest set_v_latest]; [|congruence|congruence|congruence].
    eapply trk_evm; [apply (HE (fun _ => False))|intros ? ? _ _ []|rewrite H1; exact T].
Qed.

(** *** Hashing *)
Lemma wrap_spec k n hs d : from_nalu d n -> (0 < n_valid n)%Z -> hs = oid_size C (h_type (k_handle k)) -> digest C (h_type (k_handle k)) ->
  holds (hash_wrapper C k n hs) (fun '(k', st, h) => k_handle k' = k_handle k /\ (st = SV_OK -> exists x b, h = Some x /\ length x = hs /\ hashed c d b /\
    if n_gop_sei n || (n_first_in_gop n && negb (k_has_ref k)) then x = c_hash C (h_type (k_handle k)) b
    else exists r, length r = hs /\ x = c_hash C (h_type (k_handle k)) (r ++ c_hash C (h_type (k_handle k)) b))) (fun _ => True).
Proof.
  intros (p & P1 & P2 & P3 & P4 & P5 & P6 & P7) HV -> HD. specialize (P7 HV). unfold flags in P2. injection P2 as F1 F2 F3 F4 F5 F6 F7 F8 F9.
  unfold hash_wrapper, simply_hash. rewrite F9, P4, F8, P3. cbn [negb]. set (t := h_type (k_handle k)) in *. set (hs := oid_size C t).
  destruct (hash_input n) as [b|] eqn:EI; [|destruct (n_gop_sei n), (n_first_in_gop n && _); exact I]. specialize (P7 b eq_refl). cbn [obind]. unfold hash_data at 1 2 3. fold t.
  assert (LH : forall x, length (c_hash C t x) = hs) by (intros x; apply dig_len, HD).
  destruct b as [|b0 b']; cbn [obind]; [destruct (n_gop_sei n); cbn; [split; [reflexivity|discriminate]|]; destruct (n_first_in_gop n && _); cbn; (split; [reflexivity|discriminate])|].
  set (b := b0 :: b') in *. clearbody b. destruct (n_gop_sei n) eqn:EG; cbn [orb].
  { cbn. split; [reflexivity|]. intros _. exists (c_hash C t b), b. auto. }
  change (is_ok SV_OK) with true. cbv iota. destruct (n_first_in_gop n && negb (k_has_ref k)) eqn:EF.
  { destruct (put_at 0 _ _) as [bb|]; [|exact I]. cbn. split; [reflexivity|]. intros _. exists (c_hash C t b), b. auto. }
  unfold put_at. rewrite LH. destruct (Nat.leb_spec (hs + hs) (length (k_buddies k))) as [HL|]; [|exact I]. cbn [obind].
  assert (E2 : firstn (2 * hs) (firstn hs (k_buddies k) ++ c_hash C t b ++ skipn (hs + hs) (k_buddies k)) = firstn hs (k_buddies k) ++ c_hash C t b).
  { rewrite app_assoc, firstn_app. rewrite app_length, firstn_length, LH, Nat.min_l by lia. replace (2 * hs - (hs + hs))%nat with 0%nat by lia. cbn [firstn]. rewrite app_nil_r. apply firstn_all2. rewrite app_length, firstn_length, LH. lia. }
  rewrite E2. unfold hash_data. destruct (firstn hs (k_buddies k) ++ c_hash C t b) as [|q0 q'] eqn:EQ; [cbn; split; [reflexivity|discriminate]|]. rewrite <- EQ. cbn. split; [reflexivity|]. intros _.
  exists (c_hash C t (firstn hs (k_buddies k) ++ c_hash C t b)), b. split; [reflexivity|]. split; [apply LH|]. split; [exact P7|]. exists (firstn hs (k_buddies k)). split; [rewrite firstn_length; lia|reflexivity].
Qed.
Definition hk (v : valid) := (v_items v, v_codec v, v_verified v, v_signing v, (dcore (v_dec v), d_counter (v_dec v), d_list (v_dec v), d_algo_known (v_dec v)), v_legacy v).
Lemma put_hk k v : k_handle k = d_handle (v_dec v) -> hk (put_hst k v) = hk v.
Proof. intros E. unfold hk, put_hst, dcore. cbn. rewrite E. reflexivity. Qed.
Lemma dinv_hk hist v v' : hk v' = hk v -> dinv hist (v_dec v) -> dinv hist (v_dec v').
Proof.
  unfold hk. intros E (H1 & H2 & H3). injection E as _ _ _ _ E1 E2 E3 E4 E5 E6 E7 _. split; [eapply dgood_core; [|exact H1]; unfold dcore; congruence|]. unfold cok in *. rewrite E5, E6. auto.
Qed.
Definition same_but_hash (a b : item) : Prop := i_nalu b = i_nalu a /\ i_status b = i_status a /\ i_used b = i_used a /\ i_decoded b = i_decoded a.
Lemma hash_spec hist d v it n : i_nalu it = Some n -> from_nalu d n -> hash_known d it n -> (0 < n_valid n)%Z -> dinv hist (v_dec v) ->
  holds (hash_item C v it) (fun '(v', it', st) => hk v' = hk v /\ same_but_hash it it' /\ (st = SV_OK -> hash_known d it' n)) (fun _ => True).
Proof.
  intros EN HF HN HV HD. unfold hash_item. rewrite EN. dif; [cbn; unfold same_but_hash; auto 10|].
  pose proof HD as ((_ & _ & D1 & D2 & _) & _). rewrite !obind_assoc || idtac. apply holds_bind.
  eapply holds_impl; [apply (wrap_spec (hst_of v) n (vhs v) d HF HV D1 D2)| |auto]. intros [[k st] h] [HK1 HK2]. cbn [hst_of k_handle k_has_ref] in HK1, HK2.
  pose proof (put_hk k v HK1) as E1. set (v1 := put_hst k v) in *.
  destruct (is_ok st) eqn:ES.
  2:{ apply holds_bind. destruct h as [x|]; [apply holds_bind; destruct (put_at 0 (i_hash it) x); [|exact I]|]; cbn; split; auto; (split; [unfold same_but_hash; cbn; auto|intros ->; discriminate]). }
  assert (st = SV_OK) as -> by (destruct st; try discriminate; reflexivity). destruct (HK2 eq_refl) as (x & b & -> & LX & HB & HX). clear HK2.
  rewrite obind_assoc. apply holds_bind. destruct (put_at 0 (i_hash it) x) as [y|] eqn:EP; [|exact I]. cbn [holds obind negb].
  assert (KX : (K <= length x)%nat) by (rewrite LX; apply (vhs_K _ _ _ (proj1 HD))).
  pose proof (put_agree _ _ _ EP KX) as HA. pose proof HF as (p & P1 & P2 & P3 & P4 & P5 & P6 & P7). unfold flags in P2. injection P2 as F1 F2 F3 F4 F5 F6 F7 F8 F9.
  assert (SG : starts_gop c d = n_first_in_gop n) by (unfold starts_gop; rewrite P1; congruence).
  assert (HN1 : n_first_in_gop n = false \/ n_gop_sei n = true -> hash_known d (set_i_hash y it) n).
  { intros HG. unfold hash_known. cbn [i_hash set_i_hash i_second]. destruct (n_gop_sei n) eqn:EG; cbn [orb] in HX.
    - exists x. split; [|exact HA]. left. exists b, (h_type (d_handle (v_dec v))). auto.
    - destruct HG as [HG|HG]; [|discriminate]. rewrite HG in *. cbn [andb] in HX. exists x. split; [|exact HA]. left. exists b, (h_type (d_handle (v_dec v))). rewrite SG. destruct HX as (r & R1 & R2).
      split; [exact HB|]. split; [exact D2|]. exists r. split; [|exact R2]. rewrite R1. exact D1. }
  destruct (n_first_in_gop n || (gs_after (v_gs v1) && negb (n_gop_sei n))) eqn:EB.
  2:{ cbn. split; [exact E1|]. split; [unfold same_but_hash; cbn; auto|]. intros _. apply HN1. apply orb_false_iff in EB as [EB _]. auto. }
  set (v2 := set_v_has_ref false v1). assert (E2 : hk v2 = hk v) by exact E1. assert (DH : d_handle (v_dec v2) = d_handle (v_dec v)) by exact HK1. assert (R2 : v_has_ref v2 = false) by reflexivity. assert (VH2 : vhs v2 = vhs v) by reflexivity. clearbody v2.
  apply holds_bind. eapply holds_impl; [apply (wrap_spec (hst_of v2) n (vhs v2) d HF HV)| |auto].
  { cbn [hst_of k_handle]. rewrite DH, VH2. exact D1. }
  { cbn [hst_of k_handle]. rewrite DH. exact D2. }
  intros [[k2 st2] h2] [HQ1 HQ2]. cbn [hst_of k_handle k_has_ref] in HQ1, HQ2. cbn [holds]. split; [rewrite put_hk by exact HQ1; exact E2|]. split; [unfold same_but_hash; cbn; auto|].
  intros ->. destruct (HQ2 eq_refl) as (x2 & b2 & -> & LX2 & HB2 & HX2). unfold hash_known in *. cbn [i_hash i_second set_i_hash set_i_second] in *. destruct (n_gop_sei n) eqn:EG; [auto|].
  destruct (n_first_in_gop n) eqn:EF; [|auto]. rewrite R2 in HX2. cbn [orb andb negb] in HX2. intros z E. injection E as <-. exists b2, (h_type (d_handle (v_dec v2))). rewrite SG.
  split; [exact HB2|]. split; [rewrite DH; exact D2|exact HX2].
Qed.

Lemma tk_hash hist L Cur d a b n : i_nalu a = Some n -> same_but_hash a b -> hash_known d b n -> tk hist L Cur d a -> tk hist L Cur d b.
Proof.
  intros EN (S1 & S2 & S3 & S4) HN ((n2 & E & B2 & B3 & B4) & T2 & T3 & T4 & T5). rewrite EN in E. injection E as <-.
  split; [exists n; rewrite S1; auto|]. unfold item_sei, pending in *. rewrite S1, S2, S3, S4. auto.
Qed.
Lemma rehash_spec hist L Cur : forall l g v st, trk (tk hist L Cur) g l -> dinv hist (v_dec v) ->
  holds (rehash C v l st) (fun '(v', l', st') => hk v' = hk v /\ (st' = SV_OK -> trk (tk hist L Cur) g l')) (fun _ => True).
Proof.
  induction l as [|it l IH]; intros g v st T HD; cbn [rehash]; [split; auto|]. destruct (i_nalu it) as [n|] eqn:EN; [|exact I].
  inversion T as [|d a' g' l' TD T'|a' g' l' F1 F2 T']; subst; [|congruence].
  destruct (Z.leb_spec (n_valid n) 0) as [HV|HV].
  { apply holds_bind. eapply holds_impl; [apply IH; [exact T'|exact HD]| |auto]. intros [[v1 r] st1] [H1 H2]. split; [exact H1|]. intros E. constructor 2; auto. }
  pose proof TD as ((n2 & E & B2 & B3 & B4) & _). rewrite EN in E. injection E as <-.
  apply holds_bind. eapply holds_impl; [apply (hash_spec hist d v it n EN B3 B4 HV HD)| |auto]. intros [[v1 it1] st1] (H1 & H2 & H3).
  destruct (is_ok st1) eqn:ES; cbn [negb]; [|split; [exact H1|intros ->; discriminate]]. assert (st1 = SV_OK) as -> by (destruct st1; try discriminate; reflexivity).
  apply holds_bind. eapply holds_impl; [apply IH; [exact T'|eapply dinv_hk; eassumption]| |auto]. intros [[v2 r] st2] [H4 H5]. split; [congruence|]. intros E. constructor 2; [|auto]. eapply tk_hash; eauto.
Qed.

(** *** Looking for recurrent data, and when to validate *)
Lemma recurrent_spec hist L Cur g v : trk (tk hist L Cur) g (v_items v) -> dinv hist (v_dec v) ->
  holds (recurrent_decoded C v) (fun '(v', _) => (v_items v', v_codec v', v_verified v', v_signing v', v_legacy v') = (v_items v, v_codec v, v_verified v, v_signing v, v_legacy v) /\ dinv hist (v_dec v')) (fun _ => True).
Proof.
  intros T HD. unfold recurrent_decoded. dif; [split; [reflexivity|exact HD]|]. apply holds_bind.
  assert (G : forall l g d, trk (tk hist L Cur) g l -> dinv hist d -> holds (recurrent_loop C d l) (fun '(d', _) => dinv hist d') (fun _ => True)).
  { clear. induction l as [|it l IH]; intros g d T HD; cbn [recurrent_loop]; [exact HD|]. inversion T as [|x a' g' l' TD T'|a' g' l' F1 F2 T']; subst; [|rewrite F1; eapply IH; eassumption].
    destruct TD as (B & _). pose proof B as (n & EN & B2 & _). rewrite EN. destruct (n_gop_sei n) eqn:EG; cbn [andb]; [|eapply IH; eassumption]. dif; [|eapply IH; eassumption].
    destruct (from_tlv _ _ _ _ B EN EG) as (TO & BO & _ & _). apply holds_bind. destruct HD as (D1 & D2 & D3).
    pose proof (optional_cok C d (n_tlv_mem n) (n_tlv_size n) BO D2) as H2.
    assert (H1 : holds (decode_optional C d (n_tlv_mem n) (n_tlv_size n)) (fun '(d', _) => dgood C (seen c hist) (key_seen c hist) d' /\ dstay d d') (fun _ => True)).
    { unfold decode_optional. dif; [split; [exact D1|repeat split]|]. apply opt_walk; [exact BO|exact D1|]. intros y. apply (seen_piece hist x _ _ y B2 TO). }
    destruct (decode_optional C d _ _) as [[d1 any]|]; [|exact I]. cbn [holds] in *. destruct H1 as [H1 (_ & H3 & _)].
    assert (HD1 : dinv hist d1) by (split; [exact H1|split; [exact H2|rewrite H3; exact D3]]). destruct any; [exact HD1|eapply IH; eassumption]. }
  eapply holds_impl; [eapply G; eassumption| |auto]. intros [d b] H. split; [reflexivity|exact H].
Qed.
Lemma inv_ext hist g v v' : (v_items v', v_codec v', v_verified v', v_signing v') = (v_items v, v_codec v, v_verified v, v_signing v) -> dinv hist (v_dec v') -> inv hist g v -> inv hist g v'.
Proof. intros E HD (T & SG & _ & EC & EV & HS). injection E as E1 E2 E3 E4. split; [rewrite E1; exact T|]. split; [exact SG|]. split; [exact HD|]. split; [congruence|]. split; [congruence|]. rewrite E4. exact HS. Qed.
Lemma maybe_spec hist g f v n : n_golden n = false -> inv hist g v ->
  holds (maybe_validate C Ov f v n) (fun '(v', st) => st = SV_OK -> inv hist g v') (fun _ => True).
Proof.
  intros HG HI. pose proof HI as (T & SG & DI & EC & EV & HS). unfold maybe_validate. cbv zeta. apply holds_bind. eapply holds_impl; [eapply recurrent_spec; eassumption| |auto]. intros [v1 f2] [E1 D1].
  assert (HI1 : inv hist g v1) by (injection E1 as E1 E2 E3 E4 E5; eapply inv_ext; [|exact D1|exact HI]; congruence).
  dif; [|apply loop_spec, HI1]. dif; [|intros _; exact HI1]. rewrite HG. intros _. eapply inv_ext; [reflexivity| |exact HI1]. cbn. destruct D1 as (D1 & D2 & D3). split; [|split; [exact D2|exact D3]]. eapply dgood_core; [|exact D1]. reflexivity.
Qed.

(** *** More calls *)
Lemma added_app h1 h2 : added (h1 ++ h2) = added h1 ++ added h2.
Proof. unfold added. apply flat_map_app. Qed.
Lemma seen_app h h2 x : seen c h x -> seen c (h ++ h2) x.
Proof. intros (s & mem & size & H1 & H2). exists s, mem, size. rewrite added_app, in_app_iff. auto. Qed.
Lemma key_app h h2 x : key_seen c h x -> key_seen c (h ++ h2) x.
Proof. intros [(r & H1 & H2)|H]; [left; exists r; rewrite in_app_iff; auto|right; apply seen_app, H]. Qed.
Lemma some_app h h2 x : some_list c h x -> some_list c (h ++ h2) x.
Proof. intros (s & mem & size & fs & p & r & v & H1 & H2). exists s, mem, size, fs, p, r, v. rewrite added_app, in_app_iff. auto. Qed.
Lemma subseq_appr {A} (a b e : list A) : subseq a b -> subseq a (b ++ e).
Proof. induction 1; cbn [app]; constructor; assumption. Qed.
Lemma subseq_grow {A} (a b : list A) x : subseq a b -> subseq (a ++ [x]) (b ++ [x]).
Proof.
  induction 1 as [m|y l m H IH|y l m H IH]; cbn [app]; [|constructor; exact IH|constructor; exact IH]. induction m as [|z m IH]; cbn [app]; [constructor; constructor|constructor 3; exact IH].
Qed.
Lemma signed_app h h2 s : signed C c K h s -> signed C c K (h ++ h2) s.
Proof. intros (k & sg & x & H1 & H2 & H3). exists k, sg, x. auto using key_app, seen_app. Qed.
Lemma gop_app h h2 g d : in_gop C c K h g d -> in_gop C c K (h ++ h2) g d.
Proof. intros (L & xs & oid & hs & H1 & H2). exists L, xs, oid, hs. rewrite added_app. auto using subseq_appr. Qed.
Lemma vouched_app h h2 d : vouched h d -> vouched (h ++ h2) d.
Proof.
  intros [H1 H2]. split; [rewrite added_app, in_app_iff; auto|]. destruct (sv_sei c d); [apply signed_app, H2|]. destruct H2 as (s & fs & A1 & A2 & A3 & A4 & A5). exists s, fs.
  split; [rewrite added_app, in_app_iff; auto|]. split; [exact A2|]. split; [apply signed_app, A3|]. split; [exact A4|]. intros g G1 G2. destruct (A5 g G1 G2) as [H|H]; [left; apply gop_app, H|right].
  destruct (last_list fs); [exact H|]. destruct H as (l & L1 & L2). exists l. auto using some_app.
Qed.
Lemma tk_app h h2 L (Cur : list N -> Prop) d it : tk h L Cur d it -> tk (h ++ h2) L Cur d it.
Proof.
  intros ((n & B1 & B2 & B3) & T2 & T3 & T4 & T5). split; [exists n; split; [exact B1|split; [rewrite added_app, in_app_iff; auto|exact B3]]|]. split; [intros E; apply vouched_app, T2, E|]. auto.
Qed.
Lemma dinv_app h h2 d : dinv h d -> dinv (h ++ h2) d.
Proof.
  intros ((D1 & D2 & D3) & D4 & D5). split; [split; [intros k E; apply key_app, D1, E|split; [intros s E; apply seen_app, D2, E|exact D3]]|]. split; [exact D4|]. destruct D5; auto using some_app.
Qed.
Lemma inv_app h h2 g v : inv h g v -> inv (h ++ h2) g v.
Proof.
  intros (T & SG & DI & R). split; [eapply trk_impl; [|exact T]; intros d it _; apply tk_app|]. split; [rewrite added_app; apply subseq_appr, SG|]. split; [apply dinv_app, DI|exact R].
Qed.

(** *** Adding a NALU *)
Lemma parse_parts d n : parse_nalu d c true true = Def n -> d <> [] -> n_first_part n = true /\ n_last_part n = true.
Proof.
  intros E HD. revert E. unfold parse_nalu. destruct d as [|d0 d]; [congruence|]. set (dd := d0 :: d). clearbody dd.
  destruct (start_code_len dd) as [sk|]; [|discriminate]. cbn [obind].
  destruct (parse_header c _) as [[[ty prim] valid]|]; [|discriminate]. cbn [obind].
  destruct (strip_trailing dd) as [tr|]; [|discriminate]. cbn [obind]. cbv zeta.
  destruct (negb (ntype_eqb ty TSei)); [intros E; injection E as <-; split; reflexivity|].
  destruct (skipn (header_len c) _) as [|ud p1]; [discriminate|]. destruct (ud =? 5); [|intros E; injection E as <-; split; reflexivity].
  destruct (get_payload_size p1) as [[[ps k] p2]|]; [|discriminate]. cbn [obind]. destruct (_ <? _)%nat; [discriminate|].
  unfold remove_epb. cbn [n_hashable n_gop_sei n_valid n_hash_mem]. destruct (bytes_eqb (firstn 16 p2) uuid_sv); cbn [negb orb andb].
  - destruct (_ <=? 0)%Z; [intros E; injection E as <-; split; reflexivity|].
    destruct (skipn _ _); [discriminate|]. cbv zeta. cbn [n_epb]. destruct (_ <=? 0)%Z; [intros E; injection E as <-; split; reflexivity|].
    destruct (read_bytes _ _ _ _) as [[[wo x] y]|]; [|discriminate]. cbn [obind].
    destruct (_ <? _)%nat; [discriminate|]. intros E. injection E as <-. destruct (_ <=? _); split; reflexivity.
  - intros E. injection E as <-. split; reflexivity.
Qed.

Lemma hashable_flags n n2 : update_hashable n = Def n2 -> flags n2 = flags n /\ n_tlv_mem n2 = n_tlv_mem n.
Proof.
  unfold update_hashable. dif; [intros E; injection E as <-; auto|]. destruct (tlv_find_tag _ _ _ _) as [[off|]|]; [| |discriminate]; intros E; injection E as <-; auto.
Qed.
Lemma zeros_known h d : known h d (zeros 64).
Proof. exists (zeros 64). split; [right; reflexivity|reflexivity]. Qed.
Lemma new_known d n : hash_known d (item_create n) n.
Proof. unfold hash_known. cbn. destruct (n_gop_sei n); [apply zeros_known|]. destruct (n_first_in_gop n); [discriminate|apply zeros_known]. Qed.
Lemma register_spec hist L (Cur : list N -> Prop) d v n : parse_nalu d c true true = Def n -> d <> [] -> bytes_ok d -> In d (added hist) -> dinv hist (v_dec v) ->
  holds (register C v n) (fun '(v', it, st) => hk v' = hk v /\ (st = SV_OK -> tk hist L Cur d it)) (fun _ => True).
Proof.
  intros EP HD HB HI DI. destruct (parse_parts d n EP HD) as [PF PL]. pose proof (parse_bt d c true true HB) as BT. rewrite EP in BT. cbn [holds] in BT. unfold bt in BT.
  assert (SM : status_of n <> SMiss /\ status_of n <> SValid) by (unfold status_of; repeat dif; split; discriminate).
  assert (TK : forall n2 it, i_nalu it = Some n2 -> from_nalu d n2 -> hash_known d it n2 -> i_status it = status_of n -> i_used it = false -> i_decoded it = false -> tk hist L Cur d it).
  { intros n2 it E1 E2 E3 E4 E5 E6. split; [exists n2; auto|]. rewrite E4, E5, E6. split; [intros E; exfalso; apply SM, E|]. split; [discriminate|]. split; [discriminate|apply SM]. }
  unfold register. destruct (n_valid n =? 0)%Z eqn:EV.
  { split; [reflexivity|]. intros _. apply (TK n); try reflexivity; [|apply new_known]. exists n. split; [exact EP|]. split; [reflexivity|]. split; [exact PF|]. split; [exact PL|]. split; [exact BT|]. split; [left; reflexivity|].
    apply Z.eqb_eq in EV. lia. }
  apply holds_bind. destruct (update_hashable n) as [n2|] eqn:EU; [|exact I]. cbn [holds]. destruct (hashable_flags _ _ EU) as [F1 F2].
  assert (FN : from_nalu d n2).
  { exists n. split; [exact EP|]. split; [exact F1|]. split; [exact PF|]. split; [exact PL|]. rewrite F2. split; [exact BT|]. split; [left; reflexivity|]. intros _ b HI2. exists n, n2. auto. }
  assert (HN : hash_known d (set_i_nalu (Some n2) (item_create n)) n2).
  { unfold hash_known. cbn. destruct (n_gop_sei n2); [apply zeros_known|]. destruct (n_first_in_gop n2); [discriminate|apply zeros_known]. }
  assert (HV : (0 < n_valid n2)%Z).
  { pose proof (parse_valid d c n HD EP) as H. unfold flags in F1. injection F1 as -> _ _ _ _ _ _ _ _. lia. }
  eapply holds_impl; [apply (hash_spec hist d v (set_i_nalu (Some n2) (item_create n)) n2 eq_refl FN HN HV DI)| |auto]. intros [[v' it] st] (H1 & (S1 & S2 & S3 & S4) & H3). split; [exact H1|].
  intros E. apply (TK n2); [rewrite S1; reflexivity|exact FN|apply H3, E|rewrite S2; reflexivity|rewrite S3; reflexivity|rewrite S4; reflexivity].
Qed.
Definition plain_g (g : list (list N)) : Prop := Forall (fun d => sv_sei c d = false) g.
Lemma body_spec hist g d f v n : parse_nalu d c true true = Def n -> d <> [] -> bytes_ok d -> n_golden n = false -> In d (added hist) -> subseq (g ++ [d]) (added hist) -> inv hist g v ->
  holds (add_body C Ov f v n) (fun '(v', st) => v_legacy v' = true \/ (st = SV_OK -> inv hist (g ++ [d]) v')) (fun _ => True).
Proof.
  intros EP HD HB HG HI SG (T & _ & DI & EC & EV & HS). unfold add_body. cbv zeta. rewrite (parse_valid d c n HD EP). apply holds_bind.
  set (v1 := set_v_signing _ _). assert (E1 : (v_items v1, v_codec v1, v_verified v1, v_dec v1, v_signing v1) = (v_items v, v_codec v, v_verified v, v_dec v, v_signing v || n_gop_sei n)) by reflexivity. clearbody v1.
  injection E1 as E1 E2 E3 E4 E5. eapply holds_impl; [apply (register_spec hist [] (fun _ => False) d v1 n EP HD HB HI); rewrite E4; exact DI| |auto]. intros [[v2 it] st] [H1 H2].
  destruct (is_ok st) eqn:ES; cbn [negb]; [|right; intros ->; discriminate]. assert (st = SV_OK) as -> by (destruct st; try discriminate; reflexivity). specialize (H2 eq_refl).
  assert (DI2 : dinv hist (v_dec v2)) by (eapply dinv_hk; [exact H1|rewrite E4; exact DI]). unfold hk in H1. injection H1 as H1a H1b H1c H1d _ _ _ _ _ _ _ _.
  assert (HI2 : inv hist (g ++ [d]) (set_v_items (v_items v ++ [it]) v2)).
  { split; [cbn; apply trk_app; [exact T|constructor 2; [exact H2|constructor]]|]. split; [exact SG|]. split; [exact DI2|]. cbn. split; [congruence|]. split; [congruence|]. rewrite H1d, E5. intros E. apply orb_false_iff in E as [X1 X2].
    apply Forall_app. split; [auto|]. constructor; [|constructor]. unfold sv_sei. rewrite EP. exact X2. }
  set (v3 := set_v_items _ v2) in *. clearbody v3. clear v2 H1a H1b H1c H1d DI2.
  assert (G : holds (if negb (d_algo_known (v_dec v3)) && v_signing v3 then
           do (u, b) <- recurrent_decoded C v3;
           if negb b then Def (u, SV_OK)
           else
             do (v, st) <- (if n_golden n then prepare_golden C Ov (on_dec (set_d_algo_known true) u) (v_items v) it else Def ((on_dec (set_d_algo_known true) u), SV_OK));
             if negb (is_ok st) then Def (v, st)
             else if (N.land (n_reserved n) 48 =? 0) && negb (n_golden n)
             then Def (set_v_legacy true (set_v_acc accum_init v), SV_OK)
             else reregister C v
         else Def (v3, SV_OK)) (fun '(v', st) => v_legacy v' = true \/ (st = SV_OK -> inv hist (g ++ [d]) v')) (fun _ => True)).
  { dif; [|right; auto]. pose proof HI2 as (T3 & SG3 & DI3 & EC3 & EV3 & HS3). apply holds_bind. eapply holds_impl; [eapply recurrent_spec; eassumption| |auto]. intros [v4 b] [E6 D4].
    assert (HI4 : inv hist (g ++ [d]) v4) by (injection E6 as E6a E6b E6c E6d E6e; eapply inv_ext; [|exact D4|exact HI2]; congruence).
    destruct (negb b); [right; auto|]. rewrite HG. cbn [obind negb]. change (is_ok SV_OK) with true. cbn [negb andb]. dif; [left; reflexivity|].
    set (v5 := on_dec _ v4). assert (HI5 : inv hist (g ++ [d]) v5). { eapply inv_ext; [reflexivity| |exact HI4]. destruct D4 as (Q1 & Q2 & Q3). split; [|split; [exact Q2|exact Q3]]. eapply dgood_core; [|exact Q1]. reflexivity. }
    clearbody v5. pose proof HI5 as (T5 & SG5 & DI5 & EC5 & EV5 & HS5). unfold reregister. apply holds_bind. eapply holds_impl; [apply (rehash_spec hist _ _ _ _ _ _ T5 DI5)| |auto].
    intros [[v6 l6] st6] [H6 H7]. cbn [holds]. right. intros E. assert (DI6 : dinv hist (v_dec v6)) by (eapply dinv_hk; [exact H6|exact DI5]). unfold hk in H6. injection H6 as H6a H6b H6c H6d _ _ _ _ _ _ _ _.
    split; [apply H7, E|]. split; [exact SG5|]. split; [exact DI6|]. cbn. split; [congruence|]. split; [congruence|]. rewrite H6d. exact HS5. }
  apply holds_bind. eapply holds_impl; [exact G| |auto]. intros [v7 st7] [H7|H7]; [rewrite H7, orb_true_r; left; exact H7|]. destruct (v_legacy v7) eqn:EL; [rewrite orb_true_r; left; exact EL|]. rewrite orb_false_r.
  destruct (is_ok st7) eqn:ES7; cbn [negb]; [|right; intros ->; discriminate]. assert (st7 = SV_OK) as -> by (destruct st7; try discriminate; reflexivity).
  eapply holds_impl; [apply maybe_spec; [exact HG|apply H7; reflexivity]| |auto]. intros [v8 st8] H8. right. exact H8.
Qed.

(** The copy that is kept of a NALU. *)
Lemma copy_from known d n n2 : copy_nalu known n = Def (Some n2, SV_OK) -> from_nalu d n -> from_nalu d n2 /\ flags n2 = flags n.
Proof.
  unfold copy_nalu. destruct (9223372036854775808 <=? _); [discriminate|]. destruct (nlen (n_tlv_mem n) <? _); [discriminate|]. destruct (negb known && _ && _ && _ && _); [discriminate|].
  intros E. injection E as <-. intros (p & P1 & P2 & P3 & P4 & P5 & P6 & P7). split; [|reflexivity]. exists p. split; [exact P1|]. split; [exact P2|]. split; [exact P3|]. split; [exact P4|]. cbn [n_tlv_mem].
  assert (ET : n_tlv_size n = n_tlv_size p) by (unfold flags in P2; congruence).
  split; [apply Forall_forall; intros x Hx; unfold bytes_ok in P5; rewrite Forall_forall in P5; apply P5; rewrite <- (firstn_skipn (N.to_nat (n_tlv_size n)) (n_tlv_mem n)); apply in_or_app; left; exact Hx|].
  split; [right; destruct P6 as [P6 | P6]; rewrite P6, ET; [reflexivity|]; rewrite firstn_firstn, Nat.min_id; reflexivity|]. cbn [n_valid]. intros HV b HB. apply P7; [exact HV|].
  unfold hash_input in *. cbn [n_hash_size n_hash_mem] in HB. destruct (known || negb (n_hashable n)); [|exact HB]. destruct (N.leb_spec (n_hash_size n) (nlen (@nil N))) as [H0|]; [|discriminate].
  unfold nlen in H0. cbn in H0. assert (E0 : n_hash_size n = 0) by lia. rewrite E0 in *. cbn in HB. destruct (N.leb_spec 0 (nlen (n_hash_mem n))) as [|H1]; [|lia]. exact HB.
Qed.
Lemma copy_spec hist L Cur known g l : trk (tk hist L Cur) g l -> holds (copy_last known l) (fun '(m, st) => st = SV_OK -> trk (tk hist L Cur) g m) (fun _ => True).
Proof.
  intros T. unfold copy_last. apply holds_bind.
  assert (TR : exists g', g = rev g' /\ trk (tk hist L Cur) g' (rev l)).
  { clear known. induction T as [|d it g l TD T (g' & E & IH)|it g l H1 H2 T (g' & E & IH)]; [exists []; split; [reflexivity|constructor]| |].
    - exists (g' ++ [d]). rewrite rev_app_distr, <- E. split; [reflexivity|]. cbn [rev]. apply trk_app; [exact IH|constructor 2; [exact TD|constructor]].
    - exists (g' ++ []). rewrite app_nil_r. split; [exact E|]. cbn [rev]. rewrite <- (app_nil_r g'). apply trk_app; [exact IH|constructor 3; [exact H1|exact H2|constructor]]. }
  destruct TR as (g' & -> & TR). clear T. revert g' TR. generalize (rev l). clear l. intros l g' TR.
  assert (BACK : forall g' m, trk (tk hist L Cur) g' m -> trk (tk hist L Cur) (rev g') (rev m)).
  { clear. intros g' m T. induction T as [|d it g l TD T IH|it g l H1 H2 T IH]; cbn [rev]; [constructor| |].
    - apply trk_app; [exact IH|constructor 2; [exact TD|constructor]].
    - rewrite <- (app_nil_r (rev g)). apply trk_app; [exact IH|constructor 3; [exact H1|exact H2|constructor]]. }
  assert (G : holds (copy_rev known l) (fun '(m, st) => st = SV_OK -> trk (tk hist L Cur) g' m) (fun _ => True)).
  { clear BACK. induction TR as [|d it g l TD T IH|it g l H1 H2 T IH]; cbn [copy_rev]; [exact I| |].
    - pose proof TD as ((n & EN & B2 & B3 & B4) & T2 & T3 & T4 & T5). rewrite EN. destruct (copy_nalu known n) as [[n2 st]|] eqn:EC; [|exact I]. cbn [obind holds]. intros ->.
      destruct n2 as [n2|]; [|exfalso; revert EC; unfold copy_nalu; repeat dif; discriminate]. destruct (copy_from _ d _ _ EC B3) as [F1 F2]. constructor 2; [|exact T]. unfold flags in F2. injection F2 as F2a F2b F2c F2d _ _ _ _ _.
      split; [exists n2; split; [reflexivity|split; [exact B2|split; [exact F1|]]]; unfold hash_known in *; cbn; rewrite F2d, F2c; exact B4|]. unfold item_sei in *. cbn. rewrite F2d. rewrite EN in T3, T4. auto.
    - rewrite H1. apply holds_bind. eapply holds_impl; [exact IH| |auto]. intros [r2 st] H. cbn. intros E. constructor 3; auto. }
  eapply holds_impl; [exact G| |auto]. intros [m st] H. cbn. auto.
Qed.
Lemma h26x_spec hist g d f v : d <> [] -> bytes_ok d -> nalu_golden c d = false -> In d (added hist) -> subseq (g ++ [d]) (added hist) -> inv hist g v ->
  holds (add_h26x C Ov f v d) (fun '(v', st) => v_legacy v' = true \/ (st = SV_OK -> inv hist (g ++ [d]) v')) (fun _ => True).
Proof.
  intros HD HB HG HI SG HV. assert (EC : v_codec v = c) by apply HV. unfold add_h26x. rewrite EC. apply holds_bind. destruct (parse_nalu d c true true) as [n|] eqn:EP; [|exact I]. cbn [holds]. cbv zeta.
  set (v1 := on_acc _ _). assert (HV1 : inv hist g v1) by exact HV. clearbody v1. apply holds_bind.
  eapply holds_impl; [apply (body_spec hist g d f v1 n EP HD HB); [unfold nalu_golden in HG; rewrite EP in HG; exact HG|exact HI|exact SG|exact HV1]| |auto]. intros [v2 st] H2.
  destruct (v_legacy v2) eqn:EL; [left; exact EL|]. destruct H2 as [H2|H2]; [congruence|]. 
  destruct (is_ok st) eqn:ES.
  - assert (st = SV_OK) as -> by (destruct st; try discriminate; reflexivity). specialize (H2 eq_refl). pose proof H2 as (T2 & SG2 & DI2 & EC2 & EV2 & HS2).
    apply holds_bind. eapply holds_impl; [apply (copy_spec hist _ _ (d_algo_known (v_dec v2)) _ _ T2)| |auto]. intros [l st2] H3. cbn [holds]. right. intros ->. change (is_ok SV_OK) with true. cbv iota.
    split; [apply H3; reflexivity|]. split; [exact SG2|]. split; [exact DI2|]. split; [exact EC2|]. split; [exact EV2|exact HS2].
  - apply holds_bind. destruct (copy_last _ _) as [[l st2]|]; [|exact I]. cbn. right. intros ->. discriminate.
Qed.

(** *** Reports *)
Lemma char_space n : (type_char (Some n) =? 32) = false.
Proof. cbn. destruct (n_type n); try reflexivity; repeat dif; reflexivity. Qed.
Lemma from_shown d n : from_nalu d n -> type_char (Some n) = shown c d.
Proof. intros (p & P1 & P2 & _). unfold shown. rewrite P1. unfold flags in P2. injection P2 as _ _ _ _ _ _ F _ _. exact F. Qed.
Lemma stat_valid s : stat_char s = 46 -> s = SValid.
Proof. destruct s; cbn; congruence. Qed.
Lemma shows_trk hist L Cur g l : trk (tk hist L Cur) g l -> shows c (vouched hist) g (validation_str l) (nalu_str l).
Proof.
  unfold validation_str, nalu_str. induction 1 as [|d it g l ((n & B1 & B2 & B3 & B4) & T2 & _) T IH|it g l H1 H2 T IH]; cbn [map]; [constructor| |].
  - constructor 2; [rewrite B1; apply from_shown, B3|intros E; apply T2, stat_valid, E|exact IH].
  - rewrite H1. cbn [type_char]. constructor 3; [exact IH|]. destruct H2 as [H2|[H2|[H2|[]]]]; rewrite <- H2; discriminate.
Qed.
Lemma clean_trk hist L Cur g l : trk (tk hist L Cur) g l ->
  trk (tk hist L Cur) (waiting_from g (validation_str l) (nalu_str l)) (fst (clean_up l)) /\ subseq (waiting_from g (validation_str l) (nalu_str l)) g.
Proof.
  unfold validation_str, nalu_str. intros T. induction T as [|d it g l TD T IH|it g l H1 H2 T IH]; cbn [map waiting_from clean_up]; [split; constructor| |]; rewrite pending_char; destruct (pending it) eqn:EP.
  - split; [constructor 2; assumption|]. clear. constructor. induction g; constructor; assumption.
  - destruct TD as ((n & B1 & _) & _). rewrite B1, char_space. cbn [tl]. destruct (clean_up l) as [l2 k]. cbn [fst] in *. split; [apply IH|constructor; apply IH].
  - rewrite (pend_none _ H2) in EP. discriminate.
  - rewrite H1. cbn [type_char]. change (32 =? 32) with true. cbv iota. destruct (clean_up l) as [l2 k]. exact IH.
Qed.
Lemma dinv_dcore hist d d' : (dcore d', d_counter d', d_list d') = (dcore d, d_counter d, d_list d) -> dinv hist d -> dinv hist d'.
Proof. intros E (H1 & H2 & H3). assert (E1 : dcore d' = dcore d) by congruence. assert (E2 : d_counter d' = d_counter d) by congruence. assert (E3 : d_list d' = d_list d) by congruence.
  split; [eapply dgood_core; eassumption|]. unfold cok in *. rewrite E2, E3. auto. Qed.
Lemma Forall_sub {A} (P : A -> Prop) a b : subseq a b -> Forall P b -> Forall P a.
Proof. induction 1 as [m|x l m S IH|x l m S IH]; intros H; [constructor| |]; inversion H; subst; auto. Qed.
Lemma add_spec hist w d f v v' x : d <> [] -> bytes_ok d -> nalu_golden c d = false -> In d (added hist) -> subseq (w ++ [d]) (added hist) -> inv hist w v ->
  add_nalu C Ov f v d true = Def (v', x) ->
  match x with
  | VRes SV_OK None => inv hist (w ++ [d]) v'
  | VRes SV_OK (Some p) => shows c (vouched hist) (w ++ [d]) (l_vstr (p_latest p)) (l_nstr (p_latest p)) /\
      inv hist (waiting_from (w ++ [d]) (l_vstr (p_latest p)) (l_nstr (p_latest p))) v'
  | _ => True
  end.
Proof.
  intros HD HB HG HI SG HV. destruct d as [|d0 d1]; [congruence|]. set (d := d0 :: d1) in *. unfold add_nalu. change (match d with [] => _ | _ => ?k end) with k. cbv zeta.
  set (v1 := create_report (set_v_started true v)).
  assert (HV1 : inv hist w v1 /\ v_report v1 = true).
  { unfold v1, create_report. cbn [v_report set_v_started]. destruct (v_report v) eqn:ER; [split; [exact HV|exact ER]|]. split; [|reflexivity]. apply (inv_ext _ _ v); [reflexivity| |exact HV]. cbn. apply (dinv_dcore _ (v_dec v)); [reflexivity|apply HV]. }
  clearbody v1. destruct HV1 as [HV1 HR1]. destruct (v_legacy v1); [intros E; injection E as <- <-; exact I|].
  pose proof (h26x_spec hist w d f v1 HD HB HG HI SG HV1) as H1. pose proof (add_h26x_fr C Ov f v1 d) as HF. destruct (add_h26x C Ov f v1 d) as [[v2 st]|]; [|discriminate]. cbn [holds obind] in *.
  destruct (v_legacy v2) eqn:EL; [intros E; injection E as <- <-; exact I|]. destruct H1 as [H1|H1]; [congruence|].
  destruct HF as [HF|(F1 & F2 & F3 & F4)]; [congruence|].
  destruct (is_ok st) eqn:ES; cbn [negb]; [|intros E; injection E as <- <-; destruct st; try exact I; discriminate]. assert (st = SV_OK) as -> by (destruct st; try discriminate; reflexivity). specialize (H1 eq_refl).
  destruct (v_result v2); [|intros E; injection E as <- <-; exact H1]. cbv zeta. destruct (update_report_latest v2) as (U1 & U2 & U3 & U4 & U5 & U6).
  pose proof H1 as (T & SG2 & DI & EC & EV & HS). destruct (clean_trk _ _ _ _ _ T) as [CT1 CT2].
  assert (HU : inv hist (waiting_from (w ++ [d]) (validation_str (v_items v2)) (nalu_str (v_items v2))) (update_report v2)).
  { split; [rewrite U3; exact CT1|]. split; [eapply subseq_trans; [exact CT2|exact SG2]|].
    assert (EX : (v_dec (update_report v2), v_codec (update_report v2), v_verified (update_report v2), v_signing (update_report v2)) = (v_dec v2, v_codec v2, v_verified v2, v_signing v2)).
    { unfold update_report. cbv zeta. destruct (clean_up _) as [l k]. repeat dif; reflexivity. }
    injection EX as X1 X2 X3 X4. rewrite X1, X2, X3, X4. split; [exact DI|]. split; [exact EC|]. split; [exact EV|]. intros E. eapply Forall_sub; [exact CT2|auto]. }
  destruct (get_report (update_report v2)) as [v3 r] eqn:EG. intros E. injection E as <- <-. destruct r as [p|].
  - pose proof EG as EG2. apply get_report_strings in EG2 as (G1 & _). rewrite G1, U1, U2. split; [eapply shows_trk, T|].
    unfold get_report in EG. destruct (negb _); [discriminate|]. injection EG as <- _. apply (inv_ext _ _ (update_report v2)); [reflexivity| |exact HU]. apply (dinv_dcore _ (v_dec (update_report v2))); [reflexivity|apply HU].
  - exfalso. unfold get_report in EG. rewrite U4, F2, HR1 in EG. discriminate.
Qed.
Lemma run_faithful f : forall ops hist w v v' res, inv hist w v -> Forall asking ops -> Forall of_bytes ops -> Forall (not_golden c) ops ->
  vrun C Ov f v ops = Def (v', res) -> ~ In VLegacy res -> faithful c vouched hist w ops res.
Proof.
  induction ops as [|o ops IH]; intros hist w v v' res HI HA HB HG; cbn [vrun].
  { intros E. injection E as <- <-. intros _. exact I. }
  destruct (vexec C Ov f v o) as [[v1 x]|] eqn:EX; [|discriminate]. cbn [obind]. destruct (vrun C Ov f v1 ops) as [[v2 xs]|] eqn:ER; [|discriminate]. cbn [obind]. intros E. injection E as <- <-. intros HL.
  apply Forall_cons_iff in HA as [HA0 HA]. apply Forall_cons_iff in HB as [HB0 HB]. apply Forall_cons_iff in HG as [HG0 HG].
  assert (NX : forall w1, inv (hist ++ [o]) w1 v1 -> faithful c vouched (hist ++ [o]) w1 ops xs) by (intros w1 H; eapply IH; eauto; intros Q; apply HL; right; exact Q). clear IH.
  assert (HI2 : inv (hist ++ [o]) w v) by apply inv_app, HI.
  destruct o as [d want|key| |]; cbn [vexec] in EX.
  - cbn [asking of_bytes not_golden] in *. subst want. destruct d as [|d0 d1].
    + cbn in EX. injection EX as <- <-. cbn [faithful]. apply NX, HI2.
    + set (d := d0 :: d1) in *. pose proof HI as (_ & SG & _).
      pose proof (add_spec (hist ++ [VAdd d true]) w d f v v1 x ltac:(discriminate) HB0 HG0) as H.
      rewrite added_app in H. cbn [added flat_map app] in H. specialize (H ltac:(apply in_or_app; right; left; reflexivity) ltac:(apply subseq_grow, SG) HI2 EX).
      cbn [faithful]. cbv zeta. unfold d at 1. destruct x as [st [p|]|]; [| |exact I].
      * destruct st; try exact I. destruct H as [H1 H2]. split; [exact H1|]. apply NX, H2.
      * destruct st; try exact I. apply NX, H.
  - assert (HV1 : inv (hist ++ [VSetKey key]) w v1).
    { revert EX. unfold set_public_key. destruct key as [|k0 k1]; [intros E; injection E as <- <-; exact HI2|]. set (key := k0 :: k1) in *. destruct (d_pub (v_dec v)); [|intros E; injection E as <- <-; exact HI2].
      destruct (v_started v); [intros E; injection E as <- <-; exact HI2|]. destruct (c_pub_ok C key); intros E; injection E as <- <-.
      - apply (inv_ext _ _ v); [reflexivity| |exact HI2]. cbn. destruct HI2 as (_ & _ & ((D1 & D2 & D3 & D4 & D5) & D6 & D7) & _). split; [|split; [exact D6|exact D7]]. split; [|split; [exact D2|split; [exact D3|split; [exact D4|exact D5]]]].
        cbn. intros k E. injection E as <-. left. exists key. split; [apply in_or_app; right; left; reflexivity|reflexivity].
      - apply (inv_ext _ _ v); [reflexivity| |exact HI2]. cbn. apply (dinv_dcore _ (v_dec v)); [reflexivity|apply HI2]. }
    cbn [faithful]. apply NX, HV1.
  - injection EX as <- <-. cbn [faithful]. apply NX. destruct HI2 as (_ & _ & ((D1 & D2 & D3 & D4 & D5) & D6 & D7) & EC & _). split; [constructor|]. split; [constructor|].
    split; [|split; [exact EC|split; [reflexivity|constructor]]]. cbn. split; [|split; [exact D6|left; reflexivity]]. split; [exact D1|]. split; [exact D2|].
    cbn. assert (EH : h_type (init_hash false (d_handle (v_dec v))) = h_type (d_handle (v_dec v)) /\ h_prim (init_hash false (d_handle (v_dec v))) = h_prim (d_handle (v_dec v))).
    { unfold init_hash, get_ctx. destruct (h_sec _); split; reflexivity. }
    destruct EH as [-> ->]. split; [exact D3|]. split; [exact D4|exact D5].
  - cbn [faithful]. destruct (v_legacy v); [injection EX as <- <-; exfalso; apply HL; left; reflexivity|]. destruct (get_report v) as [v3 r] eqn:EG. injection EX as <- <-. apply NX.
    unfold get_report in EG. destruct (negb (v_report v)); injection EG as <- <-; exact HI2.
Qed.
Lemma create_inv : inv [] [] (vcreate C c).
Proof.
  split; [constructor|]. split; [constructor|]. split; [|split; [reflexivity|split; [reflexivity|constructor]]]. split; [|split; [reflexivity|left; reflexivity]]. split; [discriminate|]. split; [discriminate|].
  split; [reflexivity|]. assert (D : digest C sha256_der) by (exists 32%nat; apply (ok_sha256 C HC)). split; [exact D|]. intros x E. cbn in E. try discriminate E; injection E as <-; exact D.
Qed.
Lemma session_faithful f ops v res : Forall asking ops -> Forall of_bytes ops -> Forall (not_golden c) ops ->
  vrun C Ov f (vcreate C c) ops = Def (v, res) -> ~ In VLegacy res -> faithful c vouched [] [] ops res.
Proof. intros H1 H2 H3 H4 H5. eapply run_faithful; eauto. apply create_inv. Qed.
End Track.

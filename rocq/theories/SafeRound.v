(** Rounds of validation with SEIs in the right format: lemmas on the list of NALUs. *)
From Verif Require Import Base BaseProofs Nalu Crypto Types Hash VTypes NaluList Validator MatchSpec MatchProofs SignerProofs SafeSpec SafeDec SafeList.
Local Open Scope N_scope.

Definition sel (it : item) : bool := pending it || vstat_eqb (i_status it) SInvalid.
Definition still (it : item) : Prop := pending it = false.
Lemma marks_repeat f k : f missing_item = false -> marks f (repeat missing_item k) = [].
Proof. intros H. apply marks_none. apply Forall_forall. intros x HI. apply repeat_spec in HI. subst x. exact H. Qed.
Lemma forall_repeat {A} (P : A -> Prop) x k : P x -> Forall P (repeat x k).
Proof. intros H. apply Forall_forall. intros y HI. apply repeat_spec in HI. subst y. exact H. Qed.
Lemma subseq_sel (a b : list (bool * bool)) (u v : bool) f : subseq a b -> (u = true -> v = true) -> subseq ((if u then [f] else []) ++ a) ((if v then [f] else []) ++ b).
Proof. intros H1 H2. destruct u; [rewrite H2 by reflexivity; cbn [app]; constructor; exact H1|]. destruct v; cbn [app]; [constructor; exact H1|exact H1]. Qed.

Section Round.
Context {KK : okkeys}.
Variable C : crypto.
Variable oid : list N.
Variable hs : nat.
Hypothesis HS : (0 < hs <= 64)%nat.
Notation base := (base_ok C oid hs true).

(** Items before the SEI, with their hashes collected and linked. *)
Definition lined (it : item) : Prop :=
  pending it = true -> i_used it = true /\ forall n, i_nalu it = Some n -> n_gop_sei n = false /\ (n_first_in_gop n = true -> i_linked it = true /\ i_second it <> None).
(** What becomes of them. *)
Record done (p a : list item) : Prop := mkDone {
  dn_still : Forall still a;
  dn_base : Forall base a;
  dn_marks : subseq (marks sel a) (marks sel p);
  dn_some : p <> [] -> a <> []
}.

Lemma hl_skip exp q : forall pos ps seen s, Forall (fun it => i_used it = false) q -> hl_loop hs exp pos ps seen s q = Def (s, q).
Proof.
  induction q as [|it q IH]; intros pos ps seen s HF; cbn [hl_loop]; [reflexivity|]. apply Forall_cons_iff in HF as [F0 HF]. rewrite F0. cbn [negb]. rewrite orb_true_r.
  rewrite IH by exact HF. reflexivity.
Qed.
Lemma done_cons x p y a : still y -> base y -> flags y = flags x -> (sel y = true -> sel x = true) -> done p a -> done (x :: p) (y :: a).
Proof.
  intros H1 H2 H3 H4 [D1 D2 D3 D4]. constructor; [constructor; assumption|constructor; assumption| |discriminate].
  rewrite !marks_cons, H3. apply subseq_sel; assumption.
Qed.
Lemma done_insert p a k : done p a -> done p (repeat missing_item k ++ a).
Proof.
  intros [D1 D2 D3 D4]. constructor; [apply Forall_app; split; [apply forall_repeat; reflexivity|exact D1]|apply Forall_app; split; [apply forall_repeat, base_missing|exact D2]| |].
  - rewrite marks_app, marks_repeat by reflexivity. exact D3.
  - intros H E. apply app_eq_nil in E as [_ E]. exact (D4 H E).
Qed.

Lemma hl_done exp p : forall pos seen s q, Forall lined p -> Forall base p -> Forall (fun it => i_used it = false) q ->
  exists s' a, hl_loop hs exp pos false seen s (p ++ q) = Def (s', a ++ q) /\ done p a /\
    (h_last s' = h_last s \/ exists k, h_last s' = Some k /\ (pos <= k < pos + length a)%nat).
Proof.
  induction p as [|it p IH]; intros pos seen s q HL HB HQ; cbn [app].
  { exists s, []. rewrite hl_skip by exact HQ. split; [reflexivity|]. split; [constructor; try constructor; auto|auto]. }
  apply Forall_cons_iff in HL as [L0 HL]. apply Forall_cons_iff in HB as [B0 HB]. cbn [hl_loop].
  destruct (pending it) eqn:EP; cbn [negb orb].
  2:{ rewrite andb_false_r. destruct (IH (S pos) (seen || false) s q HL HB HQ) as (s' & a & -> & D & K). cbn [obind]. exists s', (it :: a). split; [reflexivity|].
      split; [apply done_cons; auto|]. destruct K as [K|(k & K1 & K2)]; [auto|]. right. exists k. split; [exact K1|]. cbn [length]. lia. }
  destruct (L0 EP) as [LU LN]. rewrite LU. cbn [negb]. destruct (base_pending _ _ _ _ _ B0 EP) as (n & EN). rewrite EN.
  destruct (LN n EN) as [LS LF]. rewrite LS. cbn [orb].
  assert (TH : negb seen && item_sei it && true = false) by (unfold item_sei; rewrite EN, LS, andb_false_r; reflexivity). rewrite TH.
  assert (NG : n_first_in_gop n && negb (i_linked it) = false) by (destruct (n_first_in_gop n); [|reflexivity]; destruct (LF eq_refl) as [-> _]; reflexivity). rewrite NG.
  destruct B0 as (B1 & B2 & B3 & B4).
  assert (EX : exists x, (if n_first_in_gop n then i_second it else Some (i_hash it)) = Some x /\ (hs <= length x)%nat).
  { destruct (n_first_in_gop n); [|eexists; split; [reflexivity|lia]]. destruct (LF eq_refl) as [_ L2]. destruct (i_second it) as [x|]; [|congruence].
    exists x. split; [reflexivity|]. destruct (B3 x eq_refl) as [_ ->]. lia. }
  destruct EX as (x & -> & HX). rewrite read_ok by exact HX. cbn [obind]. cbv zeta.
  assert (SB : forall st, base (set_i_status st it)).
  { intros st. apply (base_same _ _ _ _ it); try reflexivity; [intros X; congruence|exact (conj B1 (conj B2 (conj B3 B4)))]. }
  assert (SS : sel it = true) by (unfold sel; rewrite EP; reflexivity).
  assert (FF : forall st, flags (set_i_status st it) = flags it) by reflexivity.
  destruct (search (firstn hs x) _ _) as [i [|]].
  - set (mi := Z.to_nat _). set (s2 := mkHl _ _ _ _ _ _).
    destruct (IH (S (pos + mi)) (seen || false) s2 q HL HB HQ) as (s' & a & E & D & K). rewrite E. cbn [obind].
    exists s', (repeat missing_item mi ++ set_i_status (if h_order s then SValid else SInvalid) it :: a). rewrite <- app_assoc. split; [reflexivity|].
    split; [apply done_insert, done_cons; auto; destruct (h_order s); reflexivity|]. right. rewrite app_length, repeat_length. cbn [length].
    destruct K as [K|(k & K1 & K2)]; [exists (pos + mi)%nat; split; [exact K|lia]|]. exists k. split; [exact K1|lia].
  - set (s2 := mkHl _ _ _ _ _ _).
    destruct (IH (S pos) (seen || false) s2 q HL HB HQ) as (s' & a & E & D & K). rewrite E. cbn [obind].
    exists s', (set_i_status SInvalid it :: a). split; [reflexivity|].
    split; [apply done_cons; auto; reflexivity|]. right. cbn [length].
    destruct K as [K|(k & K1 & K2)]; [exists pos; split; [exact K|lia]|]. exists k. split; [exact K1|lia].
Qed.

Lemma mark_done st p q : pending (set_i_status st missing_item) = false -> Forall lined p -> Forall base p -> Forall (fun it => i_used it = false) q ->
  exists a k, mark_used st (p ++ q) = Def (a ++ q, k) /\ done p a /\ length a = length p /\ map i_nalu a = map i_nalu p.
Proof.
  intros HST HL HB HQ. induction p as [|it p IH]; cbn [app mark_used].
  { assert (G : mark_used st q = Def (q, 0%Z)).
    { induction HQ as [|it q F HQ IH]; cbn [mark_used]; [reflexivity|]. rewrite IH, F. reflexivity. }
    rewrite G. exists [], 0%Z. split; [reflexivity|]. split; [constructor; try constructor; auto|auto]. }
  apply Forall_cons_iff in HL as [L0 HL]. apply Forall_cons_iff in HB as [B0 HB]. destruct (IH HL HB) as (a & k & -> & D & E1 & E2). cbn [obind].
  destruct (pending it) eqn:EP.
  - destruct (L0 EP) as [-> _]. cbn [andb]. destruct (base_pending _ _ _ _ _ B0 EP) as (n & EN). rewrite EN.
    exists (set_i_status st it :: a). eexists. split; [reflexivity|]. split; [|cbn [length map]; split; [congruence|cbn [i_nalu set_i_status]; f_equal; exact E2]].
    apply done_cons; auto.
    + apply (base_same _ _ _ _ it); try reflexivity; [intros X; congruence|exact B0].
    + intros _. unfold sel. rewrite EP. reflexivity.
  - rewrite andb_false_r. exists (it :: a). eexists. split; [reflexivity|]. split; [apply done_cons; auto|]. cbn [length map]. split; [congruence|]. f_equal. exact E2.
Qed.

Lemma done_missing p a q num app pos : done p a -> ((if app : bool then S pos else pos) <= length a)%nat ->
  exists a', add_missing num app pos (a ++ q) = a' ++ q /\ done p a' /\ (length a <= length a')%nat.
Proof.
  intros [D1 D2 D3 D4] HK. unfold add_missing. set (k := if app then S pos else pos) in *.
  exists (firstn k a ++ repeat missing_item (Z.to_nat num) ++ skipn k a). split.
  { rewrite firstn_app, skipn_app. replace (k - length a)%nat with O by lia. cbn [firstn skipn]. rewrite app_nil_r, <- !app_assoc. reflexivity. }
  split; [|rewrite !app_length, firstn_length, skipn_length; lia].
  rewrite <- (firstn_skipn k a) in D1, D2. apply Forall_app in D1 as [A1 A2]. apply Forall_app in D2 as [A3 A4].
  constructor.
  - apply Forall_app. split; [exact A1|]. apply Forall_app. split; [apply forall_repeat; reflexivity|exact A2].
  - apply Forall_app. split; [exact A3|]. apply Forall_app. split; [apply forall_repeat, base_missing|exact A4].
  - rewrite !marks_app, marks_repeat by reflexivity. cbn [List.app]. rewrite <- marks_app, firstn_skipn. exact D3.
  - intros H E. apply app_eq_nil in E as [E1 E2]. apply app_eq_nil in E2 as [_ E2]. apply (D4 H). rewrite <- (firstn_skipn k a), E1, E2. reflexivity.
Qed.

(** ** The SEI *)
Definition nosei (it : item) : Prop := item_sei it && pending it = false.
Lemma still_nosei a : Forall still a -> Forall nosei a.
Proof. apply Forall_impl. intros it H. unfold nosei. rewrite H. apply andb_false_r. Qed.
Lemma next_app a q : Forall nosei a -> next_sei (a ++ q) = next_sei q.
Proof. unfold next_sei. induction 1 as [|x a H HF IH]; [reflexivity|]. cbn [app find]. rewrite H. exact IH. Qed.
Lemma on_next_app f a q : Forall nosei a -> on_next_sei f (a ++ q) = a ++ on_next_sei f q.
Proof. induction 1 as [|x a H HF IH]; [reflexivity|]. cbn [app on_next_sei]. rewrite H, IH. reflexivity. Qed.
Lemma on_next_fresh st q : Forall fresh q -> Forall fresh (on_next_sei (set_i_status st) q).
Proof.
  induction 1 as [|x q H HF IH]; [constructor|]. cbn [on_next_sei]. destruct (_ && _); constructor; auto.
Qed.
Lemma on_next_base b st q : Forall (base_ok C oid hs b) q -> Forall (base_ok C oid hs b) (on_next_sei (set_i_status st) q).
Proof.
  induction 1 as [|x q H HF IH]; [constructor|]. cbn [on_next_sei]. destruct (_ && _) eqn:E; constructor; auto.
  apply (base_same _ _ _ _ x); try reflexivity; [|exact H]. intros X. unfold item_sei in E. rewrite X in E. discriminate.
Qed.
Lemma on_next_some f q : next_sei q <> None -> on_next_sei f q <> [].
Proof. destruct q as [|x q]; cbn; [congruence|]. destruct (_ && _); discriminate. Qed.
Lemma lined_nosei p : Forall base p -> Forall lined p -> Forall nosei p.
Proof.
  intros HB HL. rewrite Forall_forall in *. intros it HI. unfold nosei. destruct (pending it) eqn:EP; [|apply andb_false_r]. destruct (HL it HI EP) as [_ L].
  unfold item_sei. destruct (i_nalu it) as [n|]; [|reflexivity]. destruct (L n eq_refl) as [-> _]. reflexivity.
Qed.

(** ** Without a SEI *)
Lemma without_ok b l : tidy l -> Forall (base_ok C oid hs b) l -> exists l' k f, mark_without l = Def (l', k, f) /\ tidy l' /\ Forall (base_ok C oid hs b) l'.
Proof.
  intros (a & q & -> & HA & HQ) HB. apply Forall_app in HB as [BA BQ].
  assert (G : exists q' k f, mark_without q = Def (q', k, f) /\ Forall (fun it => i_nalu it <> None) q' /\ Forall (base_ok C oid hs b) q').
  { clear HA BA. induction q as [|it q IH]; cbn [mark_without]; [exists [], O, false; auto|].
    apply Forall_cons_iff in HQ as [Q0 HQ]. apply Forall_cons_iff in BQ as [B0 BQ]. destruct (IH HQ BQ) as (q' & k & f & E & F1 & F2). clear IH.
    destruct (negb (pending it)); [rewrite E; cbn [obind]; exists (it :: q'), k, f; auto|]. destruct (i_nalu it) as [n|] eqn:EN; [|congruence].
    destruct (n_gop_sei n); [exists (it :: q), O, false; repeat split; constructor; auto; congruence|].
    assert (S0 : i_nalu (set_i_status SInvalid it) <> None) by (cbn; congruence).
    assert (S1 : base_ok C oid hs b (set_i_status SInvalid it)) by (apply (base_same _ _ _ _ it); try reflexivity; [intros X; congruence|exact B0]).
    destruct q as [|nx q]; [exists [set_i_status SInvalid it], 1%nat, false; auto|].
    destruct (i_nalu nx) as [m|] eqn:EM; [|apply Forall_cons_iff in HQ as [Q1 _]; congruence].
    destruct (_ && _); [exists (set_i_status SInvalid it :: nx :: q), 1%nat, true; auto|]. rewrite E. cbn [obind]. exists (set_i_status SInvalid it :: q'), (S k), f. auto. }
  destruct G as (q' & k & f & E & F1 & F2). exists (a ++ q'), k, f.
  split; [|split; [exists a, q'; auto|apply Forall_app; auto]].
  clear -HA E. induction HA as [|it a H HA IH]; cbn [app mark_without]; [exact E|]. rewrite H. cbn [negb]. rewrite IH. reflexivity.
Qed.

(** ** Going back after the first validation *)
Lemma back_item it : let mark := i_decoded it && negb (vstat_eqb (i_status it) SUnknown) in
  let it1 := if mark then set_i_status SUnknown it else it in
  let it2 := if vstat_eqb (i_status it1) SInvalid then set_i_status SPend it1 else it1 in
  i_nalu it2 = i_nalu it /\ i_used it2 = i_used it /\ i_hash it2 = i_hash it /\ i_second it2 = i_second it /\ (pending it2 = true -> sel it = true) /\
  (i_status it2 = SInvalid -> False) /\ (i_status it2 = i_status it \/ i_status it2 = SUnknown \/ (i_status it2 = SPend /\ i_status it = SInvalid)).
Proof.
  cbv zeta. unfold sel, pending. destruct (i_decoded it); destruct (i_status it) eqn:E; cbn; rewrite ?E; cbn; rewrite ?E; repeat split; auto; try discriminate; try congruence.
Qed.
Lemma back_base b l : forall front fp fs, Forall (base_ok C oid hs b) l -> Forall (base_ok C oid hs b) (remove_missing front fp fs l).
Proof.
  induction l as [|it l IH]; intros front fp fs HB; cbn [remove_missing]; [constructor|]. destruct (fp && fs); [exact HB|]. apply Forall_cons_iff in HB as [B0 HB].
  destruct (_ && front); [apply IH, HB|]. destruct (back_item it) as (H1 & _ & H3 & H4 & _ & H6 & H7). constructor; [|apply IH, HB].
  apply (base_same _ _ _ _ it); auto. intros X. split; [|exact H6]. intros Y. destruct B0 as (B1 & _). rewrite X in B1. destruct B1 as [B1 B2]. destruct H7 as [Z|[Z|[_ Z]]]; congruence.
Qed.
Lemma back_fresh l : forall front fp fs, Forall fresh l -> Forall fresh (remove_missing front fp fs l).
Proof.
  induction l as [|it l IH]; intros front fp fs HB; cbn [remove_missing]; [constructor|]. destruct (fp && fs); [exact HB|]. apply Forall_cons_iff in HB as [[B0 B1] HB].
  destruct (_ && front); [apply IH, HB|]. destruct (back_item it) as (H1 & H2 & _). constructor; [|apply IH, HB]. split; congruence.
Qed.
Lemma pending_sel l : subseq (marks pending l) (marks sel l).
Proof.
  induction l as [|it l IH]; [constructor|]. rewrite !marks_cons. apply subseq_sel; [exact IH|]. unfold sel. intros ->. reflexivity.
Qed.
Lemma back_split a : forall front fp fs q, exists a' q', remove_missing front fp fs (a ++ q) = a' ++ q' /\ subseq (marks pending a') (marks sel a) /\
  (Forall fresh q -> Forall fresh q').
Proof.
  induction a as [|it a IH]; intros front fp fs q; cbn [app].
  { exists [], (remove_missing front fp fs q). split; [reflexivity|]. split; [constructor|]. apply back_fresh. }
  cbn [remove_missing]. destruct (fp && fs); [exists (it :: a), q; split; [reflexivity|]; split; [apply pending_sel|auto]|].
  destruct (_ && front).
  - destruct (IH true fp fs q) as (a' & q' & -> & H1 & H2). exists a', q'. split; [reflexivity|]. split; [|exact H2]. rewrite marks_cons. apply subseq_app_l, H1.
  - destruct (back_item it) as (H1 & _ & _ & _ & H5 & _). set (it2 := if vstat_eqb _ SInvalid then _ else _) in *.
    set (fp2 := fp || _). destruct (IH false fp2 (fs || (i_decoded it && negb (vstat_eqb (i_status it) SUnknown))) q) as (a' & q' & -> & K1 & K2). exists (it2 :: a'), q'.
    split; [reflexivity|]. split; [|exact K2]. rewrite !marks_cons. replace (flags it2) with (flags it) by (unfold flags; rewrite H1; reflexivity). apply subseq_sel; assumption.
Qed.
End Round.

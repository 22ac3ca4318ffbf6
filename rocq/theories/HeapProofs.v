(** The list of NALUs in memory: proofs. *)
From Verif Require Import Base BaseProofs Nalu Crypto Types Hash VTypes NaluList NaluHeap HeapSpec.
Local Open Scope N_scope.

(** ** Memory *)
Lemma get_put_same h a c : In a (map fst h) -> get (put a c h) a = Some c.
Proof.
  unfold get, put. induction h as [|[b d] h IH]; [intros []|]. cbn [map fst]. intros H. destruct (N.eqb_spec b a) as [->|NE].
  - cbn [find fst]. rewrite N.eqb_refl. reflexivity.
  - cbn [find fst]. destruct (N.eqb_spec b a); [congruence|]. apply IH. destruct H; [congruence|assumption].
Qed.
Lemma get_put_other h a b c : a <> b -> get (put a c h) b = get h b.
Proof.
  intros NE. unfold get, put. induction h as [|[x d] h IH]; [reflexivity|]. cbn [map fst]. destruct (N.eqb_spec x a) as [->|NX]; cbn [find fst].
  - destruct (N.eqb_spec a b); [congruence|]. exact IH.
  - destruct (x =? b); [reflexivity|exact IH].
Qed.
Lemma get_release_other h a b : a <> b -> get (release a h) b = get h b.
Proof.
  intros NE. unfold get, release. induction h as [|[x d] h IH]; [reflexivity|]. cbn [filter fst]. destruct (N.eqb_spec x a) as [->|NX]; cbn [negb find fst].
  - destruct (N.eqb_spec a b); [congruence|]. exact IH.
  - destruct (x =? b); [reflexivity|exact IH].
Qed.
Lemma get_cons h a c b : get ((a, c) :: h) b = if a =? b then Some c else get h b.
Proof. unfold get. cbn [find fst]. destruct (a =? b); reflexivity. Qed.
Lemma get_in h a c : get h a = Some c -> In a (map fst h).
Proof.
  unfold get. induction h as [|[x d] h IH]; [discriminate|]. cbn [find fst map]. destruct (N.eqb_spec x a) as [->|]; [left; reflexivity|]. intros H. right. apply IH, H.
Qed.
Lemma keys_put h a c : map fst (put a c h) = map fst h.
Proof. unfold put. rewrite map_map. apply map_ext. intros [x d]. cbn [fst]. destruct (N.eqb_spec x a) as [->|]; reflexivity. Qed.
Lemma keys_release h a : map fst (release a h) = filter (fun x => negb (x =? a)) (map fst h).
Proof. unfold release. induction h as [|[x d] h IH]; [reflexivity|]. cbn [filter map fst]. destruct (x =? a); cbn [negb map fst]; rewrite IH; reflexivity. Qed.
Lemma len_put h a c : length (put a c h) = length h.
Proof. apply map_length. Qed.

Lemma load_some h a c : get h a = Some c -> load h (Some a) = Def c.
Proof. cbn. intros ->. reflexivity. Qed.

Definition items (al : list (N * slot)) : list item := map (fun x => s_item (snd x)) al.
(** Where the NALUs of the items that have one come from. *)
Definition tags (al : list (N * slot)) : list (option nat) := flat_map (fun x => match i_nalu (s_item (snd x)) with Some _ => [s_from (snd x)] | None => [] end) al.

(** ** Segments *)
Lemma last_app l1 l2 p : last_of (l1 ++ l2) p = last_of l2 (last_of l1 p).
Proof. revert p. induction l1 as [|x l1 IH]; intros p; [reflexivity|]. cbn. apply IH. Qed.
Lemma first_app l1 l2 e : first_of (l1 ++ l2) e = first_of l1 (first_of l2 e).
Proof. destruct l1; reflexivity. Qed.
Lemma seg_app h l1 l2 e : forall p, seg h p (l1 ++ l2) e <-> seg h p l1 (first_of l2 e) /\ seg h (last_of l1 p) l2 e.
Proof.
  induction l1 as [|x l1 IH]; intros p; [cbn; tauto|]. cbn [app seg last_of]. rewrite first_app. rewrite IH. tauto.
Qed.
Lemma seg_frame h h' l e : forall p, (forall a, In a (map fst l) -> get h' a = get h a) -> seg h p l e -> seg h' p l e.
Proof.
  induction l as [|x l IH]; intros p F SG; [exact I|]. destruct SG as [S1 S2]. split; [rewrite F by (left; reflexivity); exact S1|]. apply IH; [|exact S2]. intros a H. apply F. right. exact H.
Qed.
Lemma seg_in h l e : forall p, seg h p l e -> incl (map fst l) (map fst h).
Proof.
  induction l as [|x l IH]; intros p SG a H; [destruct H|]. destruct SG as [S1 S2]. destruct H as [<-|H]; [exact (get_in _ _ _ S1)|exact (IH _ S2 a H)].
Qed.
Lemma seg_len h l p e : NoDup (map fst l) -> seg h p l e -> (length l <= length h)%nat.
Proof. intros ND SG. rewrite <- (map_length fst l), <- (map_length fst h). apply NoDup_incl_length; [exact ND|exact (seg_in _ _ _ _ SG)]. Qed.
Lemma last_cases l p : (l = [] /\ last_of l p = p) \/ exists q z, l = q ++ [z] /\ last_of l p = Some (fst z).
Proof. destruct l as [|x l] using rev_ind; [left; auto|]. right. exists l, x. rewrite last_app. auto. Qed.

Section List.
Variable h : heap.

Lemma rewind_ok l1 : forall x l2 e fuel, (length l1 < fuel)%nat -> seg h None (l1 ++ x :: l2) e -> rewind fuel h (Some (fst x)) = Def (first_of (l1 ++ [x]) None).
Proof.
  induction l1 as [|y l1 IH] using rev_ind; intros x l2 e fuel HF SG.
  - destruct fuel as [|fuel]; [lia|]. cbn [app seg] in SG. destruct SG as [SG _]. cbn [rewind]. rewrite (load_some _ _ _ SG). reflexivity.
  - rewrite app_length in HF. cbn [length] in HF. destruct fuel as [|fuel]; [lia|]. rewrite <- app_assoc in SG. cbn [app] in SG. pose proof SG as S0.
    change (l1 ++ y :: x :: l2) with (l1 ++ [y] ++ x :: l2) in SG. rewrite app_assoc, seg_app in SG. destruct SG as [_ SG]. cbn [seg] in SG. destruct SG as [SG _].
    cbn [rewind]. rewrite (load_some _ _ _ SG). cbn [obind c_prev]. rewrite last_app. cbn [last_of]. rewrite (IH y (x :: l2) e fuel ltac:(lia) S0).
    rewrite (first_app (l1 ++ [y])). destruct l1; reflexivity.
Qed.
Lemma count_ok l : forall x p fuel k, (length l < fuel)%nat -> seg h p (x :: l) None -> count fuel h (Some (fst x)) k = Def (last_of (x :: l) None, (k + S (length l))%nat).
Proof.
  induction l as [|y l IH]; intros x p fuel k HF SG; (destruct fuel as [|fuel]; [lia|]); cbn [seg] in SG; destruct SG as [S1 S2]; cbn [count]; rewrite (load_some _ _ _ S1); cbn [obind c_next first_of].
  - cbn. repeat f_equal. lia.
  - cbn [length] in HF. rewrite (IH y (Some (fst x)) fuel (Datatypes.S k) ltac:(lia) S2). cbn [length]. cbn [last_of]. do 2 f_equal. lia.
Qed.
Lemma refresh_ok l L : NoDup (map fst l) -> seg h None l None ->
  (l = [] /\ h_first L = None) \/ (exists x, In x l /\ h_first L = Some (fst x)) -> refresh h L = Def (mkHlist (first_of l None) (last_of l None) (length l)).
Proof.
  intros ND SG HF. pose proof (seg_len _ _ _ _ ND SG) as LN. unfold refresh. destruct HF as [[-> ->]|(x & IX & ->)]; [reflexivity|].
  apply in_split in IX as (l1 & l2 & ->). rewrite (rewind_ok l1 x l2 None); [|rewrite app_length in LN; unfold steps; cbn [length] in LN; lia|exact SG]. cbn [obind].
  assert (E : first_of (l1 ++ [x]) None = first_of (l1 ++ x :: l2) None) by (destruct l1; reflexivity). rewrite E.
  destruct (l1 ++ x :: l2) as [|y r] eqn:EL; [destruct l1; discriminate|]. cbn [first_of]. rewrite (count_ok r y None); [|unfold steps; cbn [length] in LN; lia|exact SG]. reflexivity.
Qed.
Lemma seek_ok l a : forall p fuel, (length l < fuel)%nat -> seg h p l None -> seek fuel h (first_of l None) a = Def (existsb (fun x => fst x =? a) l).
Proof.
  induction l as [|x l IH]; intros p fuel HF SG; (destruct fuel as [|fuel]; [lia|]); [reflexivity|]. cbn [seg] in SG. destruct SG as [S1 S2]. cbn [seek first_of existsb].
  destruct (fst x =? a); [reflexivity|]. rewrite (load_some _ _ _ S1). cbn [obind c_next orb]. cbn [length] in HF. apply (IH (Some (fst x))); [lia|exact S2].
Qed.
Lemma walk_ok l : forall k p, seg h p l None -> walk h (first_of l None) k = Def (option_map fst (nth_error l k)).
Proof.
  induction l as [|x l IH]; intros k p SG; [destruct k; reflexivity|]. cbn [seg] in SG. destruct SG as [S1 S2]. destruct k as [|k]; [reflexivity|]. cbn [walk first_of nth_error]. rewrite (load_some _ _ _ S1). cbn [obind c_next].
  exact (IH k _ S2).
Qed.
Variable now : nat.
Definition seen (x : N * slot) : Prop := look now (snd x) = Def (s_item (snd x)).
Lemma next_sei_ok l : forall p fuel, (length l < fuel)%nat -> Forall seen l -> seg h p l None ->
  hnext_sei now fuel h (first_of l None) = Def (option_map fst (find (fun x => item_sei (s_item (snd x)) && pending (s_item (snd x))) l)).
Proof.
  induction l as [|x l IH]; intros p fuel HF F SG; (destruct fuel as [|fuel]; [lia|]); [reflexivity|]. cbn [seg] in SG. destruct SG as [S1 S2]. inversion F as [|? ? F1 F2]; subst. cbn [hnext_sei first_of find].
  rewrite (load_some _ _ _ S1). cbn [obind c_next c_slot]. rewrite F1. cbn [obind]. destruct (item_sei (s_item (snd x)) && pending (s_item (snd x))); [reflexivity|]. cbn [length] in HF. apply (IH (Some (fst x))); [lia|exact F2|exact S2].
Qed.
Fixpoint ofold {A B} (f : A -> B -> out A) (l : list B) (x : A) : out A := match l with [] => Def x | b :: r => do x <- f x b; ofold f r x end.
Lemma fold_ok {A} (f : A -> item -> out A) l : forall p fuel x, (length l < fuel)%nat -> Forall seen l -> seg h p l None -> hfold f now fuel h (first_of l None) x = ofold f (items l) x.
Proof.
  induction l as [|y l IH]; intros p fuel x HF F SG; (destruct fuel as [|fuel]; [lia|]); [reflexivity|]. cbn [seg] in SG. destruct SG as [S1 S2]. inversion F as [|? ? F1 F2]; subst. cbn [hfold first_of items map ofold].
  rewrite (load_some _ _ _ S1). cbn [obind c_next c_slot]. rewrite F1. cbn [obind]. destruct (f x (s_item (snd y))); cbn [obind]; [|reflexivity]. cbn [length] in HF. apply (IH (Some (fst y))); [lia|exact F2|exact S2].
Qed.
End List.

(** ** Changing segments *)
Lemma seg_next h p q x e e' : NoDup (map fst (q ++ [x])) -> seg h p (q ++ [x]) e -> seg (put (fst x) (mkCell (last_of q p) e' (snd x)) h) p (q ++ [x]) e'.
Proof.
  intros ND SG. pose proof (seg_in _ _ _ _ SG) as IN. apply seg_app in SG as [S1 S2]. apply seg_app. split.
  - apply (seg_frame h); [|exact S1]. intros a Ha. apply get_put_other. intros <-. rewrite map_app in ND. apply NoDup_remove_2 in ND. apply ND. rewrite app_nil_r. exact Ha.
  - split; [|exact I]. apply get_put_same. apply IN. rewrite map_app. apply in_or_app. right. left. reflexivity.
Qed.
Lemma seg_prev h p p' x r e : NoDup (map fst (x :: r)) -> seg h p (x :: r) e -> seg (put (fst x) (mkCell p' (first_of r e) (snd x)) h) p' (x :: r) e.
Proof.
  intros ND SG. pose proof (seg_in _ _ _ _ SG) as IN. destruct SG as [S1 S2]. split.
  - apply get_put_same, IN. left. reflexivity.
  - apply (seg_frame h); [|exact S2]. intros a Ha. apply get_put_other. intros <-. cbn [map] in ND. apply NoDup_cons_iff in ND as [ND _]. contradiction.
Qed.
Lemma seg_item h p q x r e f : NoDup (map fst (q ++ x :: r)) -> seg h p (q ++ x :: r) e ->
  seg (put (fst x) (mkCell (last_of q p) (first_of r e) (f (snd x))) h) p (q ++ (fst x, f (snd x)) :: r) e.
Proof.
  intros ND SG. pose proof (seg_in _ _ _ _ SG) as IN. apply seg_app in SG as [S1 S2]. destruct S2 as [S2 S3]. rewrite map_app in ND. cbn [map] in ND. apply NoDup_remove in ND as [_ ND].
  assert (F : forall a, In a (map fst q ++ map fst r) -> get (put (fst x) (mkCell (last_of q p) (first_of r e) (f (snd x))) h) a = get h a).
  { intros a Ha. apply get_put_other. intros <-. contradiction. }
  apply seg_app. split; [|split].
  - apply (seg_frame h); [|exact S1]. intros a Ha. apply F, in_or_app. left. exact Ha.
  - apply get_put_same, IN. rewrite map_app. apply in_or_app. right. left. reflexivity.
  - apply (seg_frame h); [|exact S3]. intros a Ha. apply F, in_or_app. right. exact Ha.
Qed.
Lemma nodup_mid {A} (q : list A) x r : NoDup (q ++ x :: r) -> NoDup q /\ NoDup r /\ ~ In x q /\ ~ In x r /\ (forall a, In a q -> ~ In a r).
Proof.
  induction q as [|y q IH]; cbn [app]; intros ND; apply NoDup_cons_iff in ND as [N1 N2].
  - split; [constructor|]. split; [exact N2|]. split; [intros []|]. split; [exact N1|intros ? []].
  - destruct (IH N2) as (H1 & H2 & H3 & H4 & H5). split; [constructor; [intros X; apply N1, in_or_app; left; exact X|exact H1]|]. split; [exact H2|].
    split; [intros [->|X]; [apply N1, in_or_app; right; left; reflexivity|contradiction]|]. split; [exact H4|]. intros a [<-|X]; [intros Y; apply N1, in_or_app; right; right; exact Y|auto].
Qed.

Lemma nodup_app_r {A} (q r : list A) : NoDup (q ++ r) -> NoDup r.
Proof. induction q as [|x q IH]; [auto|]. cbn [app]. intros H. apply NoDup_cons_iff in H as [_ H]. auto. Qed.
Lemma nodup_app_l {A} (q r : list A) : NoDup (q ++ r) -> NoDup q.
Proof. induction q as [|x q IH]; [constructor|]. cbn [app]. intros H. apply NoDup_cons_iff in H as [H1 H]. constructor; [intros X; apply H1, in_or_app; left; exact X|auto]. Qed.

(** ** The whole list *)
Definition held (m : mem) (al : list (N * slot)) : Prop :=
  NoDup (map fst al) /\ seg (m_heap m) None al None /\
  m_list m = mkHlist (first_of al None) (last_of al None) (length al) /\
  NoDup (map fst (m_heap m)) /\ (forall a, In a (map fst (m_heap m)) -> In a (map fst al)).
Lemma held_stored m l : stored m l <-> exists al, items al = l /\ held m al.
Proof.
  unfold stored, held. split.
  - intros (al & E & ND & SG & HF & HL & HN & NK & NL). exists al. do 3 (split; [assumption|]). split; [|auto]. rewrite <- E, map_length in HN. destruct (m_list m); cbn in *; congruence.
  - intros (al & E & ND & SG & EL & NK & NL). exists al. do 3 (split; [assumption|]). rewrite EL. cbn. subst l. unfold items. rewrite map_length. auto 8.
Qed.
Lemma held_steps m al : held m al -> (length al < steps (m_heap m))%nat.
Proof. intros (ND & SG & _). unfold steps. pose proof (seg_len _ _ _ _ ND SG). lia. Qed.
Lemma held_load m q x r : held m (q ++ x :: r) -> load (m_heap m) (Some (fst x)) = Def (mkCell (last_of q None) (first_of r None) (snd x)).
Proof. intros (_ & SG & _). apply seg_app in SG as [_ [SG _]]. apply load_some, SG. Qed.

Lemma set_slot_ok m q x r f : held m (q ++ x :: r) ->
  exists h, set_slot (m_heap m) (fst x) f = Def h /\ forall t c k, held (mkMem h (m_list m) t c k) (q ++ (fst x, f (snd x)) :: r).
Proof.
  intros H. pose proof (held_load _ _ _ _ H) as LD. destruct H as (ND & SG & EL & NK & NL). unfold set_slot. rewrite LD. cbn [obind c_prev c_next c_slot]. eexists. split; [reflexivity|]. intros t c k.
  assert (EM : map fst (q ++ (fst x, f (snd x)) :: r) = map fst (q ++ x :: r)) by (rewrite !map_app; reflexivity).
  unfold held. cbn [m_heap m_list]. rewrite EM, keys_put. split; [exact ND|]. split; [exact (seg_item _ _ _ _ _ _ _ ND SG)|]. split; [|auto].
  rewrite EL, !first_app, !last_app, !app_length. reflexivity.
Qed.

Lemma append_item_ok h q x r new it : NoDup (map fst (q ++ x :: r)) -> seg h None (q ++ x :: r) None -> get h new = Some (mkCell None None it) -> ~ In new (map fst (q ++ x :: r)) ->
  exists h', append_item h (fst x) new = Def h' /\ map fst h' = map fst h /\ seg h' None (q ++ x :: (new, it) :: r) None.
Proof.
  intros ND SG GN NI. pose proof (get_in _ _ _ GN) as IN. pose proof (seg_in _ _ _ _ SG) as IK.
  assert (IX : In (fst x) (map fst h)) by (apply IK; rewrite map_app; apply in_or_app; right; left; reflexivity).
  assert (NX : fst x <> new) by (intros E; apply NI; rewrite map_app; apply in_or_app; right; left; exact E).
  assert (E0 : get h (fst x) = Some (mkCell (last_of q None) (first_of r None) (snd x))) by (apply seg_app in SG as [_ [SG _]]; exact SG).
  rewrite map_app in ND. cbn [map] in ND. destruct (nodup_mid _ _ _ ND) as (N1 & N2 & N3 & N4 & N5).
  assert (NQ : NoDup (map fst (q ++ [x]))).
  { rewrite map_app. cbn [map]. replace (map fst q ++ fst x :: map fst r) with ((map fst q ++ [fst x]) ++ map fst r) in ND by (rewrite <- app_assoc; reflexivity). exact (nodup_app_l _ _ ND). }
  assert (S1 : seg h None (q ++ [x]) (first_of r None)) by (apply seg_app in SG as [SA [SB _]]; apply seg_app; split; [exact SA|split; [exact SB|exact I]]).
  assert (S2 : seg h (Some (fst x)) r None) by (apply seg_app in SG as [_ [_ SB]]; exact SB).
  assert (NIQ : ~ In new (map fst (q ++ [x]))) by (intros H; apply NI; rewrite map_app in *; cbn [map] in *; apply in_app_or in H as [H|[H|[]]]; apply in_or_app; [left; exact H|right; left; exact H]).
  assert (NIR : ~ In new (map fst r)) by (intros H; apply NI; rewrite map_app; apply in_or_app; right; right; exact H).
  assert (FIN : forall h1 e, get h1 new = Some (mkCell (Some (fst x)) (first_of r None) it) -> seg h1 None (q ++ [x]) e -> seg h1 (Some new) r None -> In (fst x) (map fst h1) ->
    seg (put (fst x) (mkCell (last_of q None) (Some new) (snd x)) h1) None (q ++ x :: (new, it) :: r) None).
  { intros h1 e G1 SA SB IH1. replace (q ++ x :: (new, it) :: r) with ((q ++ [x]) ++ (new, it) :: r) by (rewrite <- app_assoc; reflexivity). apply seg_app. split; [|split].
    - exact (seg_next _ _ _ _ _ _ NQ SA).
    - rewrite last_app. cbn [last_of fst snd]. rewrite get_put_other by exact NX. exact G1.
    - apply (seg_frame h1); [|exact SB]. intros a Ha. apply get_put_other. intros <-. contradiction. }
  unfold append_item. rewrite (load_some _ _ _ E0). cbn [obind c_next]. destruct r as [|y r]; cbn [first_of obind] in *.
  - unfold set_prev at 1. rewrite (load_some _ _ _ GN). cbn [obind c_next c_slot]. unfold set_next. rewrite (load_some (put _ _ _) (fst x) (mkCell (last_of q None) None (snd x))) by (rewrite get_put_other by congruence; exact E0).
    cbn [obind c_prev c_slot]. eexists. split; [reflexivity|]. split; [rewrite !keys_put; reflexivity|]. apply (FIN _ None).
    + apply get_put_same, IN.
    + apply (seg_frame h); [|exact S1]. intros a Ha. apply get_put_other. intros <-. contradiction.
    + exact I.
    + rewrite keys_put. exact IX.
  - assert (NY : fst y <> new) by (intros E; apply NIR; left; exact E).
    assert (NXY : fst x <> fst y) by (intros E; apply N4; left; symmetry; exact E).
    pose proof S2 as S2'. destruct S2' as [EY _].
    unfold set_prev at 1. rewrite (load_some _ _ _ EY). cbn [obind c_next c_slot]. set (h1 := put (fst y) _ h).
    assert (G1 : get h1 new = Some (mkCell None None it)) by (unfold h1; rewrite get_put_other by exact NY; exact GN).
    unfold set_next at 1. rewrite (load_some _ _ _ G1). cbn [obind c_prev c_slot]. set (h2 := put new _ h1).
    assert (I1 : map fst h1 = map fst h) by apply keys_put. assert (I2 : map fst h2 = map fst h) by (unfold h2; rewrite keys_put; exact I1).
    unfold set_prev. rewrite (load_some h2 new (mkCell None (Some (fst y)) it)) by (apply get_put_same; rewrite I1; exact IN). cbn [obind c_next c_slot]. set (h3 := put new _ h2).
    assert (I3 : map fst h3 = map fst h) by (unfold h3; rewrite keys_put; exact I2).
    assert (F3 : forall a, a <> new -> get h3 a = get h1 a) by (intros a Ha; unfold h3, h2; rewrite !get_put_other by congruence; reflexivity).
    unfold set_next. rewrite (load_some h3 (fst x) (mkCell (last_of q None) (Some (fst y)) (snd x))) by (rewrite F3 by exact NX; unfold h1; rewrite get_put_other by congruence; exact E0).
    cbn [obind c_prev c_slot]. eexists. split; [reflexivity|]. split; [rewrite keys_put; exact I3|]. apply (FIN _ (Some (fst y))).
    + apply get_put_same. rewrite I2. exact IN.
    + apply (seg_frame h); [|exact S1]. intros a Ha. rewrite F3 by (intros ->; contradiction). unfold h1. apply get_put_other. intros <-. rewrite map_app in Ha. apply in_app_or in Ha as [Ha|[Ha|[]]]; [apply (N5 _ Ha); left; reflexivity|congruence].
    + apply (seg_frame h1); [intros a Ha; apply F3; intros ->; contradiction|]. exact (seg_prev _ _ _ _ _ _ N2 S2).
    + rewrite I3. exact IX.
Qed.

Lemma prepend_item_ok h q x r new it : NoDup (map fst (q ++ x :: r)) -> seg h None (q ++ x :: r) None -> get h new = Some (mkCell None None it) -> ~ In new (map fst (q ++ x :: r)) ->
  exists h', prepend_item h (fst x) new = Def h' /\ map fst h' = map fst h /\ seg h' None (q ++ (new, it) :: x :: r) None.
Proof.
  intros ND SG GN NI. pose proof (get_in _ _ _ GN) as IN. pose proof (seg_in _ _ _ _ SG) as IK.
  assert (IX : In (fst x) (map fst h)) by (apply IK; rewrite map_app; apply in_or_app; right; left; reflexivity).
  assert (NX : fst x <> new) by (intros E; apply NI; rewrite map_app; apply in_or_app; right; left; exact E).
  assert (E0 : get h (fst x) = Some (mkCell (last_of q None) (first_of r None) (snd x))) by (apply seg_app in SG as [_ [SG _]]; exact SG).
  rewrite map_app in ND. cbn [map] in ND. destruct (nodup_mid _ _ _ ND) as (N1 & N2 & N3 & N4 & N5).
  assert (NR : NoDup (map fst (x :: r))) by (exact (nodup_app_r _ _ ND)).
  assert (S1 : seg h None q (Some (fst x))) by (apply seg_app in SG as [SA _]; exact SA).
  assert (S2 : seg h (last_of q None) (x :: r) None) by (apply seg_app in SG as [_ SB]; exact SB).
  assert (NIQ : ~ In new (map fst q)) by (intros H; apply NI; rewrite map_app; apply in_or_app; left; exact H).
  assert (NIR : ~ In new (map fst (x :: r))) by (intros H; apply NI; rewrite map_app; apply in_or_app; right; exact H).
  assert (FIN : forall h1, map fst h1 = map fst h -> get h1 new = Some (mkCell (last_of q None) None it) -> seg h1 None q (Some new) -> seg h1 (last_of q None) (x :: r) None ->
    exists h', (do h2 <- set_prev h1 (fst x) (Some new); set_next h2 new (Some (fst x))) = Def h' /\ map fst h' = map fst h /\ seg h' None (q ++ (new, it) :: x :: r) None).
  { intros h1 K1 G1 SA SB. pose proof SB as [GB _]. unfold set_prev. rewrite (load_some _ _ _ GB). cbn [obind c_next c_slot]. unfold set_next.
    rewrite (load_some (put _ _ _) new (mkCell (last_of q None) None it)) by (rewrite get_put_other by exact NX; exact G1). cbn [obind c_prev c_slot]. eexists. split; [reflexivity|]. split; [rewrite !keys_put; exact K1|].
    apply seg_app. split; [|split].
    - apply (seg_frame h1); [|exact SA]. intros a Ha. rewrite !get_put_other; [reflexivity| |]; intros <-; contradiction.
    - cbn [fst snd first_of]. apply get_put_same. rewrite keys_put, K1. exact IN.
    - apply (seg_frame (put (fst x) (mkCell (Some new) (first_of r None) (snd x)) h1)); [intros a Ha; apply get_put_other; intros <-; contradiction|]. exact (seg_prev _ _ _ _ _ _ NR SB). }
  unfold prepend_item. rewrite (load_some _ _ _ E0). cbn [obind c_prev]. destruct (last_cases q None) as [[-> EL]|(q' & z & -> & EL)]; rewrite EL in *.
  - cbn [obind]. apply FIN; auto.
  - set (Z := fst z) in *. assert (NZ : Z <> new) by (intros E; apply NIQ; rewrite map_app; apply in_or_app; right; left; exact E).
    assert (EZ : get h Z = Some (mkCell (last_of q' None) (Some (fst x)) (snd z))) by (apply seg_app in S1 as [_ [S1 _]]; exact S1).
    assert (NZX : Z <> fst x) by (intros E; apply N3; rewrite map_app; apply in_or_app; right; left; exact E).
    unfold set_prev at 1. rewrite (load_some _ _ _ GN). cbn [obind c_next c_slot]. set (h1 := put new _ h). unfold set_next at 1. rewrite (load_some h1 Z _ ltac:(unfold h1; rewrite get_put_other by congruence; exact EZ)). cbn [obind c_prev c_slot].
    assert (IZ : In Z (map fst h)) by exact (get_in _ _ _ EZ). assert (K1 : map fst h1 = map fst h) by apply keys_put.
    assert (F1 : forall a, a <> new -> get h1 a = get h a) by (intros a Ha; apply get_put_other; congruence).
    apply FIN.
    + rewrite keys_put. exact K1.
    + rewrite get_put_other by exact NZ. apply get_put_same, IN.
    + apply (seg_next h1 None q' z (Some (fst x))); [exact N1|]. apply (seg_frame h); [|exact S1]. intros a Ha. apply F1. intros ->. contradiction.
    + apply (seg_frame h); [|exact S2]. intros a Ha. rewrite get_put_other; [apply F1; intros ->; contradiction|]. intros <-. destruct Ha as [Ha|Ha]; [congruence|]. apply (N5 Z); [rewrite map_app; apply in_or_app; right; left; reflexivity|exact Ha].
Qed.

Lemma first_in al : (al = [] /\ first_of al None = None) \/ exists x, In x al /\ first_of al None = Some (fst x).
Proof. destruct al as [|x al]; [left; auto|]. right. exists x. split; [left; reflexivity|reflexivity]. Qed.

Definition same (m m' : mem) : Prop := m_call m' = m_call m /\ m_lost m' = m_lost m.
Lemma same_refl m : same m m.
Proof. split; reflexivity. Qed.
Lemma same_trans {a b c} : same a b -> same b c -> same a c.
Proof. intros [H1 H2] [H3 H4]. split; congruence. Qed.

Lemma remove_item_ok m q x r : held m (q ++ x :: r) -> exists m', remove_item m (fst x) = Def m' /\ held m' (q ++ r) /\ same m m'.
Proof.
  intros H. pose proof (held_steps _ _ H) as ST. destruct H as (ND & SG & EL & NK & NL). unfold remove_item. rewrite EL. cbn [h_first h_last h_num].
  rewrite (seek_ok _ _ _ None _ ST SG). cbn [obind]. rewrite existsb_app. cbn [existsb]. rewrite N.eqb_refl, orb_true_r. cbn [negb].
  assert (E0 : get (m_heap m) (fst x) = Some (mkCell (last_of q None) (first_of r None) (snd x))) by (apply seg_app in SG as [_ [SG _]]; exact SG).
  rewrite (load_some _ _ _ E0). cbn [obind c_prev c_next].
  pose proof ND as ND0. rewrite map_app in ND. cbn [map] in ND. destruct (nodup_mid _ _ _ ND) as (N1 & N2 & N3 & N4 & N5). set (h := m_heap m) in *.
  assert (H1 : exists h1, match last_of q None with Some b => set_next h b (first_of r None) | None => Def h end = Def h1 /\ map fst h1 = map fst h /\ seg h1 None q (first_of r None) /\
     (forall a, ~ In a (map fst q) -> get h1 a = get h a)).
  { apply seg_app in SG as [SQ _]. cbn [first_of] in SQ. destruct (last_cases q None) as [[-> E]|(q' & z & -> & E)]; rewrite E.
    - exists h. do 2 (split; [reflexivity|]). split; [exact I|reflexivity].
    - assert (EZ : get h (fst z) = Some (mkCell (last_of q' None) (Some (fst x)) (snd z))) by (apply seg_app in SQ as [_ [SQ _]]; exact SQ).
      unfold set_next. rewrite (load_some _ _ _ EZ). cbn [obind c_prev c_slot]. eexists. split; [reflexivity|]. split; [apply keys_put|]. split; [exact (seg_next _ _ _ _ _ _ N1 SQ)|].
      intros a Ha. apply get_put_other. intros <-. apply Ha. rewrite map_app. apply in_or_app. right. left. reflexivity. }
  destruct H1 as (h1 & -> & K1 & SQ1 & F1). cbn [obind]. rewrite (load_some h1 (fst x) _ ltac:(rewrite F1 by exact N3; exact E0)). cbn [obind c_prev c_next].
  assert (H2 : exists h2, match first_of r None with Some b => set_prev h1 b (last_of q None) | None => Def h1 end = Def h2 /\ map fst h2 = map fst h /\ seg h2 (last_of q None) r None /\
     (forall a, ~ In a (map fst r) -> get h2 a = get h1 a)).
  { apply seg_app in SG as [_ [_ SR]]. assert (SR1 : seg h1 (Some (fst x)) r None) by (apply (seg_frame h); [|exact SR]; intros a Ha; apply F1; intros X; exact (N5 _ X Ha)). clear SR.
    destruct r as [|y r]; cbn [first_of].
    - exists h1. split; [reflexivity|]. split; [exact K1|]. split; [exact I|reflexivity].
    - pose proof SR1 as [EY _]. unfold set_prev. rewrite (load_some _ _ _ EY). cbn [obind c_next c_slot]. eexists. split; [reflexivity|]. split; [rewrite keys_put; exact K1|]. split; [exact (seg_prev _ _ _ _ _ _ N2 SR1)|].
      intros a Ha. apply get_put_other. intros <-. apply Ha. left. reflexivity. }
  destruct H2 as (h2 & -> & K2 & SR2 & F2). cbn [obind].
  assert (E2 : get h2 (fst x) = Some (mkCell (last_of q None) (first_of r None) (snd x))) by (rewrite F2 by exact N4; rewrite F1 by exact N3; exact E0).
  rewrite (load_some _ _ _ E2). cbn [obind c_prev c_next].
  assert (SGN : seg h2 None (q ++ r) None) by (apply seg_app; split; [apply (seg_frame h1); [|exact SQ1]; intros a Ha; apply F2, N5, Ha|exact SR2]).
  assert (NDN : NoDup (map fst (q ++ r))) by (rewrite map_app; exact (NoDup_remove_1 _ _ _ ND)).
  rewrite (refresh_ok h2 (q ++ r)); [|exact NDN|exact SGN|].
  - cbn [obind]. unfold free_cell. rewrite (load_some _ _ _ E2). cbn [obind]. eexists. split; [reflexivity|]. split; [|split; reflexivity]. unfold held, set_mem. cbn [m_heap m_list]. split; [exact NDN|].
    assert (NXN : ~ In (fst x) (map fst (q ++ r))) by (rewrite map_app; exact (NoDup_remove_2 _ _ _ ND)).
    split; [apply (seg_frame h2); [|exact SGN]; intros a Ha; apply get_release_other; intros <-; contradiction|]. split; [reflexivity|]. rewrite keys_release, K2. split; [apply NoDup_filter, NK|].
    intros a Ha. apply filter_In in Ha as [Ha NE]. apply NL in Ha. rewrite map_app in Ha |- *. cbn [map] in Ha. apply in_app_or in Ha as [Ha|[Ha|Ha]]; [apply in_or_app; left; exact Ha| |apply in_or_app; right; exact Ha].
    subst a. rewrite N.eqb_refl in NE. discriminate.
  - cbn [h_first]. destruct q as [|y q]; cbn [app first_of ptr_eqb].
    + rewrite N.eqb_refl. exact (first_in r).
    + destruct (N.eqb_spec (fst y) (fst x)) as [E|_]; [exfalso; apply N3; left; exact E|]. right. exists y. split; [left; reflexivity|reflexivity].
Qed.

Lemma free_items_ok al : forall fuel m, (length al < fuel)%nat -> held m al -> exists m', free_items fuel m = Def m' /\ held m' [] /\ same m m'.
Proof.
  induction al as [|x al IH]; intros fuel m HF H; (destruct fuel as [|fuel]; [lia|]); cbn [free_items].
  - pose proof H as (_ & _ & -> & _). exists m. split; [reflexivity|]. split; [exact H|apply same_refl].
  - pose proof H as (_ & _ & EL & _). rewrite EL. cbn [h_first first_of]. destruct (remove_item_ok m [] x al H) as (m1 & -> & H1 & T1). cbn [obind]. cbn [length] in HF. destruct (IH fuel m1 ltac:(lia) H1) as (m2 & -> & H2 & T2). exists m2. split; [reflexivity|]. split; [exact H2|exact (same_trans T1 T2)].
Qed.
Lemma clean_up_ok al : forall fuel m k, (length al < fuel)%nat -> held m al ->
  exists m' q al', hclean_up fuel m k = Def (m', k + snd (clean_up (items al))) /\ al = q ++ al' /\ held m' al' /\ items al' = fst (clean_up (items al)) /\ same m m'.
Proof.
  induction al as [|x al IH]; intros fuel m k HF H; (destruct fuel as [|fuel]; [lia|]); cbn [hclean_up]; pose proof H as (_ & _ & EL & _); rewrite EL; cbn [h_first first_of].
  - exists m, [], []. cbn. rewrite N.add_0_r. split; [reflexivity|]. split; [reflexivity|]. split; [exact H|]. split; [reflexivity|apply same_refl].
  - rewrite (held_load m [] x al H). unfold c_item. cbn [obind c_slot items map clean_up]. destruct (pending (s_item (snd x))) eqn:EP.
    + exists m, [], (x :: al). cbn [fst snd]. rewrite N.add_0_r. split; [reflexivity|]. split; [reflexivity|]. split; [exact H|]. split; [reflexivity|apply same_refl].
    + destruct (remove_item_ok m [] x al H) as (m1 & -> & H1 & T1). cbn [obind]. cbn [length] in HF. cbn [app] in H1.
      destruct (IH fuel m1 (if vstat_eqb (i_status (s_item (snd x))) SMiss then k else k + 1) ltac:(lia) H1) as (m2 & q & al' & -> & EQ & H2 & EM & T2). exists m2, (x :: q), al'. fold (items al).
      destruct (clean_up (items al)) as [l2 k2]. cbn [fst snd] in *. split; [do 2 f_equal; destruct (vstat_eqb _ _); lia|]. split; [cbn [app]; rewrite <- EQ; reflexivity|]. split; [exact H2|]. split; [exact EM|exact (same_trans T1 T2)].
Qed.

Lemma tags_app q r : tags (q ++ r) = tags q ++ tags r.
Proof. apply flat_map_app. Qed.
Definition missing_free (al : list (N * slot)) : Prop := Forall (fun x => i_status (s_item (snd x)) = SMiss -> i_nalu (s_item (snd x)) = None) al.
Lemma remove_missing_ok r : forall q fuel m fp fs, (length r < fuel)%nat -> held m (q ++ r) ->
  exists m' r', hremove_missing fuel m (first_of r None) fp fs = Def m' /\ held m' (q ++ r') /\ items r' = remove_missing (match q with [] => true | _ => false end) fp fs (items r) /\
    same m m' /\ (missing_free r -> tags r' = tags r /\ missing_free r').
Proof.
  induction r as [|x r IH]; intros q fuel m fp fs HF H; (destruct fuel as [|fuel]; [lia|]); cbn [hremove_missing first_of items map remove_missing].
  - exists m, []. split; [reflexivity|]. split; [exact H|]. split; [reflexivity|]. split; [apply same_refl|auto].
  - destruct (fp && fs); [exists m, (x :: r); split; [reflexivity|]; split; [exact H|]; split; [reflexivity|]; split; [apply same_refl|auto]|]. rewrite (held_load _ _ _ _ H). unfold c_item. cbn [obind c_slot c_next]. cbn [length] in HF.
    assert (EF : ptr_eqb (h_first (m_list m)) (fst x) = match q with [] => true | _ => false end).
    { destruct H as (ND & _ & -> & _). cbn [h_first]. destruct q as [|y q]; cbn [app first_of ptr_eqb]; [apply N.eqb_refl|]. apply N.eqb_neq. intros E. cbn [app map] in ND. apply NoDup_cons_iff in ND as [ND _]. apply ND. rewrite E, map_app. apply in_or_app. right. left. reflexivity. }
    rewrite EF. set (it0 := s_item (snd x)). destruct (vstat_eqb (i_status it0) SMiss && match q with [] => true | _ => false end) eqn:EM.
    + apply andb_true_iff in EM as [EM EQ]. destruct q; [|discriminate]. destruct (remove_item_ok m [] x r H) as (m1 & -> & H1 & T1). cbn [obind]. destruct (IH [] fuel m1 fp fs ltac:(lia) H1) as (m2 & r' & -> & H2 & E2 & T2 & TG). exists m2, r'. split; [reflexivity|]. split; [exact H2|]. split; [exact E2|]. split; [exact (same_trans T1 T2)|].
      intros MF. inversion MF as [|? ? M1 M2]; subst. destruct (TG M2) as [-> TM]. split; [|exact TM]. cbn [tags flat_map]. rewrite M1; [reflexivity|]. fold it0. destruct (i_status it0); try discriminate; reflexivity.
    + set (mark := i_decoded it0 && negb (vstat_eqb (i_status it0) SUnknown)). set (it1 := if mark then set_i_status SUnknown it0 else it0). set (from := s_from (snd x)).
      assert (H1 : exists h, (if mark then set_slot (m_heap m) (fst x) (on_item (set_i_status SUnknown)) else Def (m_heap m)) = Def h /\ forall t c k, held (mkMem h (m_list m) t c k) (q ++ (fst x, mkSlot it1 from) :: r)).
      { unfold it1, from. destruct mark; [exact (set_slot_ok m q x r _ H)|]. exists (m_heap m). split; [reflexivity|]. intros t c k. unfold it0. destruct x as [a [i f]]. exact H. }
      destruct H1 as (h1 & -> & H1). cbn [obind]. pose proof (held_load _ _ _ _ (H1 0 0 0)%nat) as LD1. cbn [m_heap fst snd] in LD1. rewrite LD1. cbn [obind c_slot s_item].
      set (it2 := if vstat_eqb (i_status it1) SInvalid then set_i_status SPend it1 else it1).
      assert (H2 : exists h, (if vstat_eqb (i_status it1) SInvalid then set_slot h1 (fst x) (on_item (set_i_status SPend)) else Def h1) = Def h /\ forall t c k, held (mkMem h (m_list m) t c k) (q ++ (fst x, mkSlot it2 from) :: r)).
      { unfold it2. destruct (vstat_eqb (i_status it1) SInvalid); [exact (set_slot_ok _ _ _ _ _ (H1 0 0 0)%nat)|]. exists h1. auto. }
      destruct H2 as (h2 & -> & H2). cbn [obind]. pose proof (held_load _ _ _ _ (H2 0 0 0)%nat) as LD2. cbn [m_heap fst snd] in LD2. rewrite LD2. cbn [obind c_next].
      assert (EN : match first_of r None with None => Def false | Some b => do d <- load h2 (Some b); Def (pending (s_item (c_slot d))) end = Def (match items r with nx :: _ => pending nx | [] => false end)).
      { destruct r as [|y r]; [reflexivity|]. cbn [first_of items map]. pose proof (H2 0 0 0)%nat as H3. replace (q ++ (fst x, mkSlot it2 from) :: y :: r) with ((q ++ [(fst x, mkSlot it2 from)]) ++ y :: r) in H3 by (rewrite <- app_assoc; reflexivity).
        pose proof (held_load _ _ _ _ H3) as LD3. cbn [m_heap] in LD3. rewrite LD3. reflexivity. }
      rewrite EN. cbn [obind]. pose proof (H2 (m_time m) (m_call m) (m_lost m)) as H3. replace (q ++ (fst x, mkSlot it2 from) :: r) with ((q ++ [(fst x, mkSlot it2 from)]) ++ r) in H3 by (rewrite <- app_assoc; reflexivity).
      destruct (IH (q ++ [(fst x, mkSlot it2 from)]) fuel _ (fp || match items r with nx :: _ => pending nx | [] => false end) (fs || mark) ltac:(lia) H3) as (m3 & r' & E4 & H4 & E3 & T3 & TG). fold (items r). unfold set_mem. rewrite E4.
      exists m3, ((fst x, mkSlot it2 from) :: r'). split; [reflexivity|]. split; [rewrite <- app_assoc in H4; exact H4|]. split; [cbn [items map snd s_item]; f_equal; change (map (fun x => s_item (snd x)) r') with (items r'); rewrite E3; destruct q; reflexivity|]. split; [exact T3|].
      intros MF. inversion MF as [|? ? M1 M2]; subst. destruct (TG M2) as [TT TM]. fold it0 in M1.
      assert (K : i_nalu it2 = i_nalu it0 /\ (i_status it2 = SMiss -> i_status it0 = SMiss)).
      { unfold it2, it1. destruct mark; cbn [set_i_status i_status vstat_eqb]; [split; [reflexivity|discriminate]|]. destruct (vstat_eqb (i_status it0) SInvalid); [split; [reflexivity|discriminate]|auto]. }
      destruct K as [K1 K2]. split; [cbn [tags flat_map snd s_item s_from]; rewrite K1; fold it0 from; f_equal; exact TT|]. constructor; [cbn [snd s_item]; rewrite K1; auto|exact TM].
Qed.

Section Alloc.
Variable alloc : nat -> list N -> N.
Hypothesis fresh : forall t used, ~ In (alloc t used) used.

Lemma create_ok m al it : held m al -> forall m1 a, create_item alloc m it = (m1, a) ->
  m_list m1 = m_list m /\ ~ In a (map fst al) /\ get (m_heap m1) a = Some (mkCell None None (mkSlot it (Some (m_call m)))) /\ seg (m_heap m1) None al None /\ NoDup (map fst (m_heap m1)) /\ same m m1 /\
  (forall b, In b (map fst (m_heap m1)) -> b = a \/ In b (map fst al)).
Proof.
  intros (ND & SG & EL & NK & NL) m1 a E. unfold create_item in E. injection E as <- <-. cbn [m_list m_heap map fst]. set (a := alloc _ _). pose proof (fresh (m_time m) (map fst (m_heap m))) as FR. fold a in FR.
  assert (NA : ~ In a (map fst al)) by (intros X; apply FR; exact (seg_in _ _ _ _ SG _ X)). split; [reflexivity|]. split; [exact NA|]. split; [rewrite get_cons, N.eqb_refl; reflexivity|].
  split; [apply (seg_frame (m_heap m)); [|exact SG]; intros b Hb; rewrite get_cons; destruct (N.eqb_spec a b) as [<-|]; [contradiction|reflexivity]|]. split; [constructor; assumption|]. split; [split; reflexivity|]. intros b [<-|Hb]; [left; reflexivity|right; auto].
Qed.
Lemma append_ok m al n : held m al -> exists m' a, happend alloc m n = Def m' /\ held m' (al ++ [(a, mkSlot (item_create n) (Some (m_call m)))]) /\ same m m'.
Proof.
  intros H. unfold happend. destruct (create_item alloc m (item_create n)) as [m1 a] eqn:EC. destruct (create_ok m al _ H m1 a EC) as (E1 & NA & GA & SG & NK & SM & NL). destruct H as (ND & _ & EL & _). rewrite E1, EL. cbn [h_first h_last h_num]. set (z0 := mkSlot (item_create n) (Some (m_call m))) in *.
  assert (NDN : NoDup (map fst (al ++ [(a, z0)]))).
  { rewrite map_app. cbn [map fst]. apply NoDup_Add with (a := a) (l := map fst al); [rewrite <- (app_nil_r (map fst al)) at 1; apply Add_app|]. split; assumption. }
  assert (H1 : exists h, match last_of al None with Some b => append_item (m_heap m1) b a | None => Def (m_heap m1) end = Def h /\ map fst h = map fst (m_heap m1) /\ seg h None (al ++ [(a, z0)]) None).
  { destruct (last_cases al None) as [[-> E]|(q & z & -> & E)]; rewrite E.
    - exists (m_heap m1). do 2 (split; [reflexivity|]). cbn. auto.
    - destruct (append_item_ok (m_heap m1) q z [] a z0 ND SG GA NA) as (h & EH & K & SH). exists h. split; [exact EH|]. split; [exact K|]. rewrite <- app_assoc. exact SH. }
  destruct H1 as (h & -> & K & SH). cbn [obind]. rewrite (refresh_ok h (al ++ [(a, z0)])); [|exact NDN|exact SH|].
  - cbn [obind]. eexists _, a. split; [reflexivity|]. split; [|exact SM]. unfold held, set_mem. cbn [m_heap m_list]. split; [exact NDN|]. split; [exact SH|]. split; [reflexivity|]. rewrite K. split; [exact NK|].
    intros b Hb. rewrite map_app. apply in_or_app. destruct (NL b Hb) as [->|X]; [right; left; reflexivity|left; exact X].
  - right. cbn [h_first]. destruct al as [|x al]; cbn [first_of app]; [exists (a, z0); split; [left; reflexivity|reflexivity]|]. exists x. split; [left; reflexivity|reflexivity].
Qed.
Lemma missing_one m al al' (new : N) (f : heap -> out heap) m1 h : held m al -> create_item alloc m missing_item = (m1, new) -> f (m_heap m1) = Def h -> map fst h = map fst (m_heap m1) ->
  (forall b, In b (map fst al') <-> b = new \/ In b (map fst al)) -> NoDup (map fst al') -> (forall x, In x al -> In x al') -> al <> [] -> seg h None al' None ->
  exists l, refresh h (m_list m1) = Def l /\ held (set_mem h l m1) al'.
Proof.
  intros H EC EF K EI ND EA NE SH. destruct (create_ok m al _ H m1 new EC) as (E1 & NA & GA & SG & NK & SM & NL). destruct H as (_ & _ & EL & _).
  rewrite (refresh_ok h al'); [|exact ND|exact SH|].
  - eexists. split; [reflexivity|]. unfold held, set_mem. cbn [m_heap m_list]. split; [exact ND|]. split; [exact SH|]. split; [reflexivity|]. rewrite K. split; [exact NK|]. intros b Hb. apply EI, NL, Hb.
  - right. rewrite E1, EL. cbn [h_first]. destruct al as [|x al]; [congruence|]. exists x. split; [apply EA; left; reflexivity|reflexivity].
Qed.
Lemma missing_loop_ok k : forall m q x r append, held m (q ++ x :: r) ->
  exists m' n, missing_loop alloc k m append (fst x) = Def m' /\ items n = repeat missing_item k /\ same m m' /\ held m' (if append then q ++ x :: n ++ r else q ++ n ++ x :: r).
Proof.
  induction k as [|k IH]; intros m q x r append H; cbn [missing_loop].
  - exists m, []. split; [reflexivity|]. split; [reflexivity|]. split; [apply same_refl|]. destruct append; exact H.
  - destruct (create_item alloc m missing_item) as [m1 new] eqn:EC. destruct (create_ok m _ _ H m1 new EC) as (E1 & NA & GA & SG & NK & SM & NL). pose proof H as (ND & _).
    set (w := mkSlot missing_item (Some (m_call m))) in *. assert (NE : q ++ x :: r <> []) by (destruct q; discriminate). rewrite map_app in ND, NA. cbn [map] in ND, NA. destruct append.
    + destruct (append_item_ok (m_heap m1) q x r new w) as (h & EH & K & SH); [rewrite map_app; exact ND|exact SG|exact GA|rewrite map_app; exact NA|].
      rewrite EH. cbn [obind]. destruct (missing_one m _ (q ++ x :: (new, w) :: r) new (fun h => append_item h (fst x) new) m1 h H EC EH K) as (l & -> & H1); auto.
      * intros b. rewrite !map_app. cbn [map fst]. rewrite !in_app_iff. cbn [In]. intuition congruence.
      * rewrite map_app. cbn [map fst]. apply NoDup_Add with (a := new) (l := map fst q ++ fst x :: map fst r); [|split; assumption].
        replace (map fst q ++ fst x :: map fst r) with ((map fst q ++ [fst x]) ++ map fst r) by (rewrite <- app_assoc; reflexivity). replace (map fst q ++ fst x :: new :: map fst r) with ((map fst q ++ [fst x]) ++ new :: map fst r) by (rewrite <- app_assoc; reflexivity). apply Add_app.
      * intros y. rewrite !in_app_iff. cbn [In]. intuition congruence.
      * cbn [obind]. destruct (IH _ q x ((new, w) :: r) true H1) as (m2 & n & -> & EN & T2 & H2). exists m2, (n ++ [(new, w)]). split; [reflexivity|].
        split; [unfold items in *; rewrite map_app, EN; cbn [map snd]; unfold w; cbn [s_item]; rewrite <- repeat_cons; reflexivity|]. split; [exact (same_trans SM T2)|]. rewrite <- app_assoc. exact H2.
    + destruct (prepend_item_ok (m_heap m1) q x r new w) as (h & EH & K & SH); [rewrite map_app; exact ND|exact SG|exact GA|rewrite map_app; exact NA|].
      rewrite EH. cbn [obind]. destruct (missing_one m _ (q ++ (new, w) :: x :: r) new (fun h => prepend_item h (fst x) new) m1 h H EC EH K) as (l & -> & H1); auto.
      * intros b. rewrite !map_app. cbn [map fst]. rewrite !in_app_iff. cbn [In]. intuition congruence.
      * rewrite map_app. cbn [map fst]. apply NoDup_Add with (a := new) (l := map fst q ++ fst x :: map fst r); [|split; assumption]. apply Add_app.
      * intros y. rewrite !in_app_iff. cbn [In]. intuition congruence.
      * cbn [obind]. replace (q ++ (new, w) :: x :: r) with ((q ++ [(new, w)]) ++ x :: r) in H1 by (rewrite <- app_assoc; reflexivity).
        destruct (IH _ (q ++ [(new, w)]) x r false H1) as (m2 & n & -> & EN & T2 & H2). exists m2, ((new, w) :: n). split; [reflexivity|].
        split; [cbn [items map snd repeat]; unfold w; cbn [s_item]; f_equal; exact EN|]. split; [exact (same_trans SM T2)|]. rewrite <- app_assoc in H2. exact H2.
Qed.
End Alloc.

(** ** The last NALU *)
Definition has_none (x : N * slot) : Prop := i_nalu (s_item (snd x)) = None.
Lemma nalu_split (al : list (N * slot)) : Forall has_none al \/ exists q x r n, al = q ++ x :: r /\ i_nalu (s_item (snd x)) = Some n /\ Forall has_none r.
Proof.
  induction al as [|y al [IH|(q & x & r & n & -> & EN & F)]]; [left; constructor| |right; exists (y :: q), x, r, n; auto].
  destruct (i_nalu (s_item (snd y))) as [n|] eqn:E; [right; exists [], y, al, n; auto|left; constructor; auto].
Qed.
Lemma back_none h al : forall r fuel, (length al < fuel)%nat -> seg h None (al ++ r) None -> Forall has_none al -> back_to_nalu fuel h (last_of al None) = Undef NullDeref.
Proof.
  induction al as [|x al IH] using rev_ind; intros r fuel HF SG F; (destruct fuel as [|fuel]; [rewrite ?app_length in HF; cbn in HF; lia|]); [reflexivity|]. rewrite app_length in HF. cbn [length] in HF.
  apply Forall_app in F as [F1 F2]. apply Forall_inv in F2. rewrite <- app_assoc in SG. cbn [app] in SG. pose proof SG as SG0. apply seg_app in SG as [_ [SG _]].
  rewrite last_app. cbn [last_of back_to_nalu]. rewrite (load_some _ _ _ SG). unfold c_item. cbn [obind c_slot c_prev]. rewrite F2. apply (IH (x :: r)); [lia|exact SG0|exact F1].
Qed.
Lemma back_some h q x n : i_nalu (s_item (snd x)) = Some n -> forall r s fuel, (length r < fuel)%nat -> seg h None (q ++ x :: r ++ s) None -> Forall has_none r ->
  back_to_nalu fuel h (last_of (q ++ x :: r) None) = Def (Some (fst x)).
Proof.
  intros EN. induction r as [|y r IH] using rev_ind; intros s fuel HF SG F; (destruct fuel as [|fuel]; [rewrite ?app_length in HF; cbn in HF; lia|]).
  - apply seg_app in SG as [_ [SG _]]. rewrite last_app. cbn [last_of back_to_nalu]. rewrite (load_some _ _ _ SG). unfold c_item. cbn [obind c_slot]. rewrite EN. reflexivity.
  - rewrite app_length in HF. cbn [length] in HF. apply Forall_app in F as [F1 F2]. apply Forall_inv in F2. rewrite <- app_assoc in SG. cbn [app] in SG. pose proof SG as SG0.
    replace (q ++ x :: r ++ y :: s) with ((q ++ x :: r) ++ y :: s) in SG by (rewrite <- app_assoc; reflexivity). apply seg_app in SG as [_ [SG _]].
    replace (q ++ x :: r ++ [y]) with ((q ++ x :: r) ++ [y]) by (rewrite <- app_assoc; reflexivity). rewrite last_app. cbn [last_of back_to_nalu]. rewrite (load_some _ _ _ SG). unfold c_item. cbn [obind c_slot c_prev]. rewrite F2.
    apply (IH (y :: s)); [lia|exact SG0|exact F1].
Qed.
Lemma copy_rev_none known l : Forall (fun it => i_nalu it = None) l -> copy_rev known l = Undef NullDeref.
Proof. induction 1 as [|it l E F IH]; [reflexivity|]. cbn [copy_rev]. rewrite E, IH. reflexivity. Qed.
Lemma copy_rev_some known l it r n : Forall (fun it => i_nalu it = None) l -> i_nalu it = Some n ->
  copy_rev known (l ++ it :: r) = (do (n2, st) <- copy_nalu known n; Def (l ++ set_i_nalu n2 it :: r, st)).
Proof.
  intros F EN. induction F as [|y l E F IH]; cbn [app copy_rev].
  - rewrite EN. reflexivity.
  - rewrite E, IH. destruct (copy_nalu known n) as [[n2 st]|]; reflexivity.
Qed.
Lemma tags_none al : Forall has_none al -> tags al = [].
Proof. induction 1 as [|x al E F IH]; [reflexivity|]. cbn [tags flat_map]. rewrite E. exact IH. Qed.
Lemma copy_ok m al known : held m al -> Forall (seen (m_call m)) al -> missing_free al ->
  match copy_last known (items al) with
  | Def (l, st) => exists m' al' t o, hcopy m known = Def (m', st) /\ held m' al' /\ items al' = l /\ missing_free al' /\ tags al = t ++ [o] /\ (tags al' = t \/ tags al' = t ++ [None]) /\
      m_call m' = m_call m /\ m_lost m' = match o with None => S (m_lost m) | Some _ => m_lost m end
  | Undef u => hcopy m known = Undef u
  end.
Proof.
  intros H FS MF. pose proof (held_steps _ _ H) as ST. pose proof H as (ND & SG & EL & _). unfold copy_last, hcopy. assert (LST : h_last (m_list m) = last_of al None) by (rewrite EL; reflexivity). rewrite LST. clear EL LST. unfold items.
  destruct (nalu_split al) as [F|(q & x & r & n & -> & EN & F)].
  - rewrite copy_rev_none by (apply Forall_rev, Forall_map; exact F). cbn [obind]. rewrite (back_none _ al [] _ ST); [reflexivity|rewrite app_nil_r; exact SG|exact F].
  - rewrite map_app. cbn [map]. rewrite rev_app_distr. cbn [rev]. rewrite <- app_assoc. cbn [app].
    rewrite (copy_rev_some known (rev (map (fun x => s_item (snd x)) r)) (s_item (snd x)) _ n); [|apply Forall_rev, Forall_map; exact F|exact EN].
    rewrite app_length in ST. cbn [length] in ST. rewrite (back_some _ q x n EN r [] (steps (m_heap m))); [|lia|rewrite app_nil_r; exact SG|exact F]. cbn [obind]. rewrite (held_load _ _ _ _ H). cbn [obind c_slot].
    pose proof FS as FS0. apply Forall_app in FS0 as [_ FX]. apply Forall_inv in FX. rewrite FX. cbn [obind]. rewrite EN.
    destruct (copy_nalu known n) as [[n2 st]|u]; cbn [obind]; [|reflexivity]. destruct (set_slot_ok m q x r (fun s => mkSlot (set_i_nalu n2 (s_item s)) None) H) as (h & -> & H1). cbn [obind].
    eexists _, _, (tags q), (s_from (snd x)). split; [reflexivity|]. split; [apply H1|]. split; [|split; [|split; [|split; [|split; [reflexivity|]]]]].
    + unfold items. rewrite map_app, rev_app_distr. cbn [rev map snd s_item]. rewrite !rev_involutive, <- app_assoc. reflexivity.
    + apply Forall_app in MF as [M1 M2]. inversion M2 as [|? ? M3 M4]; subst. apply Forall_app. split; [exact M1|]. constructor; [|exact M4]. cbn [snd s_item]. intros E. change (i_status (s_item (snd x)) = SMiss) in E. rewrite (M3 E) in EN. discriminate.
    + rewrite tags_app. cbn [tags flat_map]. rewrite EN. fold (tags r). rewrite (tags_none r F). reflexivity.
    + rewrite tags_app. cbn [tags flat_map snd s_item s_from set_i_nalu i_nalu]. fold (tags r). rewrite (tags_none r F). destruct n2; [right; reflexivity|left; apply app_nil_r].
    + cbn [m_lost]. reflexivity.
Qed.

(** ** What is only read *)
Lemma stats_ok l : forall i mi v, ofold (fun '(i, mi, v) it =>
      Def (if negb (i_used it) then (i, mi, v)
           else ((if vstat_eqb (i_status it) SInvalid || vstat_eqb (i_status it) SErr then i + 1 else i)%Z,
                 (if vstat_eqb (i_status it) SMiss then mi + 1 else mi)%Z,
                 v || (vstat_eqb (i_status it) SValid && negb (item_sei it))))) l (i, mi, v) =
  Def (let '(i2, m2, v2) := get_stats l in ((i + i2)%Z, (mi + m2)%Z, v || v2)).
Proof.
  induction l as [|it l IH]; intros i mi v; cbn [ofold get_stats].
  - do 2 f_equal; [f_equal; lia|]. rewrite orb_false_r. reflexivity.
  - cbn [obind]. destruct (i_used it); cbn [negb]; rewrite IH; destruct (get_stats l) as [[i2 m2] v2]; [|reflexivity].
    rewrite <- orb_assoc. destruct (vstat_eqb (i_status it) SInvalid || _), (vstat_eqb (i_status it) SMiss); do 2 f_equal; f_equal; lia.
Qed.
Lemma pending_ok l : forall k, ofold (fun k it => Def (if pending it then k + 1 else k)%Z) l k = Def (k + num_pending l)%Z.
Proof.
  unfold num_pending. induction l as [|it l IH]; intros k; cbn [ofold filter].
  - cbn. f_equal. lia.
  - cbn [obind]. rewrite IH. destruct (pending it); [|reflexivity]. cbn [length]. f_equal. lia.
Qed.
Lemma str_ok ch l : forall s, ofold (write_char ch) l (s ++ zeros (S (length l)), length s) = Def (s ++ map ch l ++ [0], (length s + length l)%nat).
Proof.
  induction l as [|it l IH]; intros s; cbn [ofold map length].
  - rewrite Nat.add_0_r. reflexivity.
  - unfold write_char at 1. rewrite app_length. unfold zeros. rewrite repeat_length. cbn [length]. assert (E : (length s <? length s + S (S (length l)))%nat = true) by (apply Nat.ltb_lt; lia). rewrite E. cbn [obind].
    rewrite firstn_app, Nat.sub_diag, firstn_all. cbn [firstn repeat]. rewrite app_nil_r. rewrite skipn_app, (skipn_all2 s) by lia. replace (S (length s) - length s)%nat with 1%nat by lia. cbn [skipn app].
    specialize (IH (s ++ [ch it])). rewrite app_length in IH. cbn [length] in IH. replace (length s + 1)%nat with (S (length s)) in IH by lia. rewrite <- app_assoc in IH. cbn [app] in IH. unfold zeros in IH. cbn [repeat] in IH. rewrite IH.
    rewrite <- app_assoc. cbn [app]. do 2 f_equal. lia.
Qed.

(** ** The refinement *)
Section Run.
Variable alloc : nat -> list N -> N.
Hypothesis fresh : forall t used, ~ In (alloc t used) used.

Lemma nth_split_at {A} (al : list A) k : (length al <= k)%nat /\ nth_error al k = None \/ exists q x r, al = q ++ x :: r /\ length q = k /\ nth_error al k = Some x.
Proof.
  destruct (nth_error al k) as [x|] eqn:E.
  - right. destruct (nth_error_split _ _ E) as (q & r & -> & EL). exists q, x, r. auto.
  - left. split; [apply nth_error_None; exact E|reflexivity].
Qed.
Lemma firstn_len {A} (q r : list A) : firstn (length q) (q ++ r) = q.
Proof. rewrite firstn_app, firstn_all, Nat.sub_diag. apply app_nil_r. Qed.
Lemma skipn_len {A} (q r : list A) : skipn (length q) (q ++ r) = r.
Proof. rewrite skipn_app, skipn_all, Nat.sub_diag. reflexivity. Qed.
Lemma items_app q r : items (q ++ r) = items q ++ items r.
Proof. apply map_app. Qed.
Lemma items_len al : length (items al) = length al.
Proof. apply map_length. Qed.
Lemma items_mid q x r : items (q ++ x :: r) = items q ++ s_item (snd x) :: items r.
Proof. apply items_app. Qed.

(** The state of the list: nothing that was borrowed in an earlier call is left. *)
Definition fine (m : mem) (al : list (N * slot)) : Prop := held m al /\ missing_free al /\ Forall (fun t => t = None \/ t = Some (m_call m)) (tags al).
Lemma fine_seen m al : fine m al -> Forall (seen (m_call m)) al.
Proof.
  intros (_ & _ & F). induction al as [|x al IH]; [constructor|]. cbn [tags flat_map] in F. apply Forall_app in F as [F1 F2]. constructor; [|exact (IH F2)].
  unfold seen, look. destruct (i_nalu (s_item (snd x))); [|reflexivity]. apply Forall_inv in F1 as [-> | ->]; [reflexivity|]. rewrite Nat.eqb_refl. reflexivity.
Qed.
Definition after (b : Prop) (m : mem) (al : list (N * slot)) (x : out (list item * lres)) (y : out (mem * lres)) : Prop :=
  match x with
  | Def (l, r) => exists m' al', y = Def (m', r) /\ held m' al' /\ items al' = l /\ missing_free al' /\ (exists t, tags al = t ++ tags al' /\ (b -> t = [])) /\ same m m'
  | Undef u => y = Undef u
  end.
Lemma after_same b m al r (E : missing_free al) : held m al -> after b m al (Def (items al, r)) (Def (m, r)).
Proof. intros H. exists m, al. split; [reflexivity|]. split; [exact H|]. split; [reflexivity|]. split; [exact E|]. split; [exists []; split; reflexivity|apply same_refl]. Qed.
Lemma keeps_tags q x r f : keeps f -> tags (q ++ (fst x, on_item f (snd x)) :: r) = tags (q ++ x :: r).
Proof.
  intros K. rewrite !tags_app. f_equal. cbn [tags flat_map snd on_item s_item s_from]. f_equal. destruct (K (s_item (snd x))) as [[K1 K2] _].
  destruct (i_nalu (f (s_item (snd x)))), (i_nalu (s_item (snd x))); try reflexivity; exfalso; [discriminate (K2 eq_refl)|discriminate (K1 eq_refl)].
Qed.
Lemma keeps_missing q x r f : keeps f -> missing_free (q ++ x :: r) -> missing_free (q ++ (fst x, on_item f (snd x)) :: r).
Proof.
  intros K MF. apply Forall_app in MF as [M1 M2]. inversion M2 as [|? ? M3 M4]; subst. apply Forall_app. split; [exact M1|]. constructor; [|exact M4]. cbn [snd on_item s_item]. destruct (K (s_item (snd x))) as [[K1 K2] K3]. auto.
Qed.
Lemma set_ok b m q x r f : keeps f -> fine m (q ++ x :: r) -> after b m (q ++ x :: r) (Def (items q ++ f (s_item (snd x)) :: items r, RDone)) (do m' <- set_at m (Some (fst x)) f; Def (m', RDone)).
Proof.
  intros K H. pose proof (fine_seen _ _ H) as FS. destruct H as (H & MF & _). unfold set_at. rewrite (held_load _ _ _ _ H). cbn [obind c_slot]. apply Forall_app in FS as [_ FS]. apply Forall_inv in FS. rewrite FS. cbn [obind].
  destruct (set_slot_ok m q x r (on_item f) H) as (h & -> & H1). cbn [obind]. eexists _, _. split; [reflexivity|]. split; [apply H1|]. split; [rewrite items_mid; reflexivity|]. split; [exact (keeps_missing _ _ _ _ K MF)|].
  split; [exists []; rewrite (keeps_tags _ _ _ _ K); split; reflexivity|split; reflexivity].
Qed.

Lemma tidy_ok m al o : tidy o -> fine m al -> after (edit o) m al (lexec (items al) o) (hexec alloc m o).
Proof.
  intros TD FN. pose proof (fine_seen _ _ FN) as FS. pose proof FN as (H & MF & _). pose proof (held_steps _ _ H) as ST. pose proof H as (ND & SG & EL & _).
  assert (FST : h_first (m_list m) = first_of al None) by (rewrite EL; reflexivity).
  destruct o as [n|num append pos| | | |known| |pos f|f| |]; try contradiction TD; cbn [lexec hexec]; rewrite ?FST.
  - rewrite (walk_ok _ _ _ _ SG). cbn [obind]. rewrite items_len. destruct (nth_split_at al pos) as [[LE ->]|(q & x & r & -> & LQ & ->)]; cbn [option_map].
    + assert (E : (length al <=? pos)%nat = true) by (apply Nat.leb_le; exact LE). rewrite E. cbn [orb hmissing obind]. exact (after_same _ _ _ _ MF H).
    + assert (E : (length (q ++ x :: r) <=? pos)%nat = false) by (apply Nat.leb_gt; rewrite app_length; cbn [length]; lia). rewrite E. cbn [orb hmissing]. rewrite FST, (seek_ok _ _ _ _ _ ST SG). cbn [obind].
      rewrite existsb_app. cbn [existsb]. rewrite N.eqb_refl, orb_true_r. cbn [negb orb]. destruct (num <? 0)%Z.
      * cbn [obind]. exact (after_same _ _ _ _ MF H).
      * destruct (missing_loop_ok alloc fresh (Z.to_nat num) m q x r append H) as (m1 & n & -> & EN & SM & H1). cbn [obind]. eexists m1, _. split; [reflexivity|]. split; [exact H1|].
        assert (MN : Forall has_none n /\ missing_free n).
        { clear -EN. revert EN. generalize (Z.to_nat num). induction n as [|y n IH]; intros k EN; [split; constructor|]. destruct k as [|k]; [discriminate|]. cbn [items map repeat] in EN. injection EN as E1 E2. destruct (IH k E2) as [I1 I2].
          split; constructor; auto; [unfold has_none; rewrite E1; reflexivity|rewrite E1; reflexivity]. }
        destruct MN as [MN1 MN2]. pose proof (tags_none _ MN1) as TN. apply Forall_app in MF as [M1 M2]. inversion M2 as [|? ? M3 M4]; subst.
        unfold add_missing. rewrite <- EN, items_mid. destruct append.
        -- split; [|split; [|split; [exists []; rewrite !tags_app; cbn [tags flat_map app]; fold (tags (n ++ r)) (tags r); rewrite tags_app, TN; split; reflexivity|exact SM]]].
           ++ rewrite items_mid, items_app. replace (items q ++ s_item (snd x) :: items r) with ((items q ++ [s_item (snd x)]) ++ items r) by (rewrite <- app_assoc; reflexivity).
              replace (S (length q)) with (length (items q ++ [s_item (snd x)])) by (rewrite app_length, items_len; cbn; lia). rewrite firstn_len, skipn_len, <- app_assoc. reflexivity.
           ++ apply Forall_app. split; [exact M1|]. constructor; [exact M3|]. apply Forall_app. auto.
        -- split; [|split; [|split; [exists []; rewrite !tags_app, TN; split; reflexivity|exact SM]]].
           ++ rewrite !items_app. replace (length q) with (length (items q)) by apply items_len. rewrite firstn_len, skipn_len. reflexivity.
           ++ apply Forall_app. split; [exact M1|]. apply Forall_app. auto.
  - destruct (remove_missing_ok al [] _ m false false ST H) as (m1 & r' & -> & H1 & E1 & SM & TG). cbn [obind]. destruct (TG MF) as [T1 T2]. exists m1, r'. split; [reflexivity|]. split; [exact H1|]. split; [exact E1|]. split; [exact T2|]. split; [exists []; rewrite T1; split; reflexivity|exact SM].
  - destruct (clean_up_ok al _ m 0 ST H) as (m1 & q & al' & -> & EQ & H1 & E1 & SM). cbn [obind]. destruct (clean_up (items al)) as [l2 k2]. cbn [fst snd] in *. exists m1, al'. split; [reflexivity|]. split; [exact H1|]. split; [exact E1|]. subst al. apply Forall_app in MF as [_ MF]. split; [exact MF|].
    split; [exists (tags q); split; [apply tags_app|intros []]|exact SM].
  - rewrite (walk_ok _ _ _ _ SG). cbn [obind]. rewrite items_len. destruct (nth_split_at al pos) as [[LE ->]|(q & x & r & -> & LQ & ->)]; cbn [option_map].
    + assert (E : (length al <=? pos)%nat = true) by (apply Nat.leb_le; exact LE). rewrite E. reflexivity.
    + assert (E : (length (q ++ x :: r) <=? pos)%nat = false) by (apply Nat.leb_gt; rewrite app_length; cbn [length]; lia). rewrite E.
      assert (EI : in_place pos f (items (q ++ x :: r)) = items q ++ f (s_item (snd x)) :: items r).
      { unfold in_place. rewrite <- LQ, items_mid. rewrite <- (items_len q). rewrite firstn_len, skipn_len. cbn [firstn map app]. f_equal. f_equal.
        replace (items q ++ s_item (snd x) :: items r) with ((items q ++ [s_item (snd x)]) ++ items r) by (rewrite <- app_assoc; reflexivity). replace (S (length (items q))) with (length (items q ++ [s_item (snd x)])) by (rewrite app_length; cbn; lia). apply skipn_len. }
      rewrite EI. exact (set_ok _ m q x r f TD FN).
  - rewrite (next_sei_ok _ _ _ _ _ ST FS SG). cbn [obind]. unfold next_sei.
    assert (D : (find (fun x => item_sei (s_item (snd x)) && pending (s_item (snd x))) al = None /\ find (fun it => item_sei it && pending it) (items al) = None) \/
      exists q x r, al = q ++ x :: r /\ find (fun x => item_sei (s_item (snd x)) && pending (s_item (snd x))) al = Some x /\ find (fun it => item_sei it && pending it) (items al) = Some (s_item (snd x)) /\
        on_next_sei f (items al) = items q ++ f (s_item (snd x)) :: items r).
    { clear. induction al as [|y al [[E1 E2]|(q & x & r & -> & E1 & E2 & E3)]]; [left; auto| |]; cbn [find items map app on_next_sei]; destruct (item_sei (s_item (snd y)) && pending (s_item (snd y))) eqn:E.
      - right. exists [], y, al. auto.
      - left. auto.
      - right. exists [], y, (q ++ x :: r). auto.
      - right. exists (y :: q), x, r. unfold items in E3. rewrite E3. auto. }
    destruct D as [[-> ->]|(q & x & r & -> & -> & -> & ->)]; cbn [option_map]; [reflexivity|]. exact (set_ok _ m q x r f TD FN).
  - unfold hstats, hpending. rewrite FST, (fold_ok _ _ _ _ _ _ _ ST FS SG), stats_ok. cbn [obind]. rewrite (fold_ok _ _ _ _ _ _ _ ST FS SG), pending_ok. cbn [obind].
    replace (let '(i2, m2, v2) := get_stats (items al) in ((0 + i2)%Z, (0 + m2)%Z, false || v2)) with (get_stats (items al)) by (destruct (get_stats (items al)) as [[i2 m2] v2]; reflexivity). exact (after_same _ _ _ _ MF H).
  - unfold hstr. rewrite FST. assert (EN : h_num (m_list m) = length (items al)) by (rewrite EL, items_len; reflexivity). rewrite EN, !(fold_ok _ _ _ _ _ _ _ ST FS SG), !(str_ok _ (items al) []). cbn [obind app]. exact (after_same _ _ _ _ MF H).
Qed.


(** Runs. *)
Lemma lrun_app a : forall l b, lrun l (a ++ b) = (do (l, xs) <- lrun l a; do (l, ys) <- lrun l b; Def (l, xs ++ ys)).
Proof.
  induction a as [|o a IH]; intros l b; cbn [app lrun obind].
  - destruct (lrun l b) as [[l2 ys]|u]; reflexivity.
  - destruct (lexec l o) as [[l1 x]|u]; cbn [obind]; [|reflexivity]. rewrite IH. destruct (lrun l1 a) as [[l2 xs]|u]; cbn [obind]; [|reflexivity]. destruct (lrun l2 b) as [[l3 ys]|u]; reflexivity.
Qed.
Lemma hrun_app a : forall m b, hrun alloc m (a ++ b) = (do (m, xs) <- hrun alloc m a; do (m, ys) <- hrun alloc m b; Def (m, xs ++ ys)).
Proof.
  induction a as [|o a IH]; intros l b; cbn [app hrun obind].
  - destruct (hrun alloc l b) as [[l2 ys]|u]; reflexivity.
  - destruct (hexec alloc l o) as [[l1 x]|u]; cbn [obind]; [|reflexivity]. rewrite IH. destruct (hrun alloc l1 a) as [[l2 xs]|u]; cbn [obind]; [|reflexivity]. destruct (hrun alloc l2 b) as [[l3 ys]|u]; reflexivity.
Qed.
Definition ran (b : Prop) (m : mem) (al : list (N * slot)) (x : out (list item * list lres)) (y : out (mem * list lres)) : Prop :=
  match x with
  | Def (l, r) => exists m' al', y = Def (m', r) /\ fine m' al' /\ items al' = l /\ (exists t, tags al = t ++ tags al' /\ (b -> t = [])) /\ same m m'
  | Undef u => y = Undef u
  end.
Lemma tidy_run (b : Prop) ops : (b -> Forall edit ops) -> Forall tidy ops -> forall m al, fine m al -> ran b m al (lrun (items al) ops) (hrun alloc m ops).
Proof.
  intros HB HT. induction ops as [|o ops IH]; intros m al FN; cbn [lrun hrun].
  - exists m, al. split; [reflexivity|]. split; [exact FN|]. split; [reflexivity|]. split; [exists []; auto|apply same_refl].
  - inversion HT as [|? ? T1 T2]; subst. pose proof (tidy_ok m al o T1 FN) as HE. destruct (lexec (items al) o) as [[l1 x]|u]; cbn [obind after ran] in *; [|rewrite HE; reflexivity].
    destruct HE as (m1 & al1 & -> & H1 & EI & M1 & (t & ET & EE) & SM). cbn [obind].
    assert (F1 : fine m1 al1). { split; [exact H1|]. split; [exact M1|]. destruct FN as (_ & _ & F). rewrite ET in F. apply Forall_app in F as [_ F]. destruct SM as [-> _]. exact F. }
    specialize (IH ltac:(intros B; specialize (HB B); inversion HB; assumption) T2 m1 al1 F1). rewrite EI in IH. destruct (lrun l1 ops) as [[l2 xs]|u]; cbn [obind ran] in *; [|rewrite IH; reflexivity].
    destruct IH as (m2 & al2 & -> & F2 & E2 & (t2 & ET2 & EE2) & SM2). cbn [obind]. exists m2, al2. split; [reflexivity|]. split; [exact F2|]. split; [exact E2|]. split; [|exact (same_trans SM SM2)].
    exists (t ++ t2). split; [rewrite ET, ET2, app_assoc; reflexivity|]. intros B. rewrite (EE2 B). specialize (HB B). inversion HB as [|? ? B1 B2]; subst. rewrite (EE B1). reflexivity.
Qed.

(** Between two calls. *)
Definition closed (m : mem) (al : list (N * slot)) : Prop := held m al /\ missing_free al /\ Forall (fun t => t = None) (tags al) /\ m_lost m = 0%nat.
Definition done (x : out (list item * list lres)) (y : out (mem * list lres)) : Prop :=
  match x with
  | Def (l, r) => exists m' al', y = Def (m', r) /\ closed m' al' /\ items al' = l
  | Undef u => y = Undef u
  end.
Lemma visit_ok v m al : proper v -> closed m al -> done (lrun (items al) (flat1 v)) (hrun alloc m (flat1 v)).
Proof.
  intros PV (H & MF & TC & ML). destruct v as [n work known aft|].
  - destruct PV as [PW PA]. cbn [flat1 lrun hrun lexec hexec].
    destruct (append_ok alloc fresh m al n H) as (m1 & a & -> & H1 & [SC SL]). cbn [obind]. set (z := (a, mkSlot (item_create n) (Some (m_call m)))) in *.
    assert (EI : list_append (items al) n = items (al ++ [z])) by (rewrite items_app; reflexivity). rewrite EI.
    assert (ET : tags (al ++ [z]) = tags al ++ [Some (m_call m)]) by (rewrite tags_app; reflexivity).
    assert (F1 : fine m1 (al ++ [z])).
    { split; [exact H1|]. split; [apply Forall_app; split; [exact MF|]; constructor; [|constructor]; unfold z; cbn [snd s_item item_create i_status]; unfold status_of; repeat match goal with |- context [if ?c then _ else _] => destruct c end; discriminate|].
      rewrite ET. apply Forall_app. split; [eapply Forall_impl; [|exact TC]; intros t ->; left; reflexivity|]. constructor; [right; rewrite SC; reflexivity|constructor]. }
    rewrite lrun_app, hrun_app. assert (PT : Forall tidy work) by (eapply Forall_impl; [|exact PW]; intros o; destruct o; cbn; auto).
    pose proof (tidy_run True work (fun _ => PW) PT m1 _ F1) as HW. destruct (lrun (items (al ++ [z])) work) as [[l2 xs]|u]; cbn [obind ran done] in *; [|rewrite HW; reflexivity].
    destruct HW as (m2 & al2 & -> & F2 & E2 & (t & ET2 & EE) & [SC2 SL2]). cbn [obind]. rewrite (EE Logic.I) in ET2. cbn [app] in ET2. rewrite ET in ET2. cbn [lrun hrun lexec hexec].
    pose proof F2 as (H2 & MF2 & _). pose proof (copy_ok m2 al2 known H2 (fine_seen _ _ F2) MF2) as HC. rewrite E2 in HC. destruct (copy_last known l2) as [[l3 st]|u]; cbn [obind done]; [|rewrite HC; reflexivity].
    destruct HC as (m3 & al3 & t3 & o3 & -> & H3 & E3 & MF3 & ET3 & ET4 & SC3 & SL3). cbn [obind]. rewrite <- ET2 in ET3. apply app_inj_tail in ET3 as [<- <-].
    assert (TC3 : Forall (fun t => t = None) (tags al3)) by (destruct ET4 as [-> | ->]; [exact TC|apply Forall_app; split; [exact TC|repeat constructor]]).
    set (m4 := mkMem (m_heap m3) (m_list m3) (m_time m3) (S (m_call m3)) (m_lost m3)).
    assert (F4 : fine m4 al3) by (split; [exact H3|]; split; [exact MF3|]; eapply Forall_impl; [|exact TC3]; intros t4 ->; left; reflexivity).
    pose proof (tidy_run False aft (fun x => match x with end) PA m4 al3 F4) as HA. rewrite E3 in HA. destruct (lrun l3 aft) as [[l5 ys]|u]; cbn [obind ran done] in *; [|rewrite HA; reflexivity].
    destruct HA as (m5 & al5 & -> & (H5 & MF5 & _) & E5 & (t5 & ET5 & _) & [_ SL5]). cbn [obind]. exists m5, al5. split; [reflexivity|]. split; [|exact E5]. split; [exact H5|]. split; [exact MF5|]. split; [rewrite ET5 in TC3; apply Forall_app in TC3 as [_ TC3]; exact TC3|].
    rewrite SL5. unfold m4. cbn [m_lost]. rewrite SL3, SL2, SL. exact ML.
  - cbn [flat1 lrun hrun lexec hexec obind done]. destruct (free_items_ok al _ m (held_steps _ _ H) H) as (m1 & -> & H1 & [_ SL]). cbn [obind]. exists m1, []. split; [reflexivity|]. split; [|reflexivity]. split; [exact H1|]. split; [constructor|]. split; [constructor|congruence].
Qed.
Lemma visits_ok vs : Forall proper vs -> forall m al, closed m al -> done (lrun (items al) (flat vs)) (hrun alloc m (flat vs)).
Proof.
  induction 1 as [|v vs PV PS IH]; intros m al H; cbn [flat flat_map].
  - exists m, al. auto.
  - rewrite lrun_app, hrun_app. pose proof (visit_ok v m al PV H) as HV. destruct (lrun (items al) (flat1 v)) as [[l1 xs]|u]; cbn [obind done] in *; [|rewrite HV; reflexivity]. destruct HV as (m1 & al1 & -> & H1 & <-). cbn [obind].
    specialize (IH m1 al1 H1). unfold flat in IH. destruct (lrun (items al1) (flat_map flat1 vs)) as [[l2 ys]|u]; cbn [obind done] in *; [|rewrite IH; reflexivity]. destruct IH as (m2 & al2 & -> & H2 & E2). exists m2, al2. auto.
Qed.
Lemma closed_create : closed hcreate [].
Proof. split; [|repeat constructor]. split; [constructor|]. split; [exact I|]. split; [reflexivity|]. split; [constructor|intros a []]. Qed.
Lemma get_item h : forall al p, seg h p al None -> forall x, In x al -> exists b c, get h (fst x) = Some (mkCell b c (snd x)).
Proof. induction al as [|y al IH]; intros p SG x HX; [destruct HX|]. destruct SG as [S1 S2]. destruct HX as [->|HX]; [eauto|exact (IH _ S2 x HX)]. Qed.
Lemma closed_owned m al : closed m al -> owned m.
Proof.
  intros ((ND & SG & EL & NK & NL) & _ & TC & _) a c G NN. pose proof (NL a (get_in _ _ _ G)) as HI. apply in_map_iff in HI as (x & <- & HX). destruct (get_item _ _ _ SG x HX) as (b & d & G2). rewrite G in G2. injection G2 as ->. unfold c_item in NN. cbn [c_slot] in *.
  rewrite Forall_forall in TC. apply TC. apply in_flat_map. exists x. split; [exact HX|]. destruct (i_nalu (s_item (snd x))); [left; reflexivity|congruence].
Qed.
Lemma all_ok vs : Forall proper vs ->
  match lrun [] (flat vs) with
  | Def (l, r) => exists m, hrun alloc hcreate (flat vs) = Def (m, r) /\ stored m l /\ owned m /\ m_lost m = 0%nat
  | Undef u => hrun alloc hcreate (flat vs) = Undef u
  end.
Proof.
  intros PV. pose proof (visits_ok vs PV hcreate [] closed_create) as H. cbn [items map] in H. destruct (lrun [] (flat vs)) as [[l r]|u]; [|exact H]. destruct H as (m & al & E & HC & <-). exists m. split; [exact E|]. split; [apply held_stored; exists al; split; [reflexivity|apply HC]|].
  split; [exact (closed_owned m al HC)|apply HC].
Qed.
Lemma stored_nil m : stored m [] -> m_heap m = [].
Proof. intros (al & E & _ & _ & _ & _ & _ & _ & NL). destruct al; [|discriminate]. destruct (m_heap m) as [|c h]; [reflexivity|]. exfalso. exact (NL (fst c) (or_introl eq_refl)). Qed.
Lemma emptied vs : Forall proper vs -> forall m r, hrun alloc hcreate (flat vs) = Def (m, r) -> exists m', hexec alloc m LFreeItems = Def (m', RDone) /\ m_heap m' = [] /\ m_lost m' = 0%nat.
Proof.
  intros PV m r E. assert (PV2 : Forall proper (vs ++ [Clear])) by (apply Forall_app; split; [exact PV|repeat constructor]). pose proof (all_ok (vs ++ [Clear]) PV2) as H. pose proof (all_ok vs PV) as H0.
  unfold flat in H. rewrite flat_map_app in H. cbn [flat_map flat1 app] in H. rewrite lrun_app, hrun_app in H. fold (flat vs) in H. destruct (lrun [] (flat vs)) as [[l xs]|u]; [|rewrite E in H0; discriminate]. destruct H0 as (m0 & E0 & _). rewrite E in E0. injection E0 as <- <-.
  rewrite E in H. cbn [obind lrun lexec hrun] in H. destruct H as (m1 & E1 & S1 & _ & L1). destruct (hexec alloc m LFreeItems) as [[m2 x]|u] eqn:EX; cbn [obind] in E1; [|discriminate]. injection E1 as -> EXS. exists m1. split; [|split; [exact (stored_nil _ S1)|exact L1]].
  cbn [hexec] in EX. destruct (free_items (steps (m_heap m)) m); [|discriminate]. cbn [obind] in EX. injection EX as <- <-. reflexivity.
Qed.
End Run.

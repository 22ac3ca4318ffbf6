(** Two lists of NALUs with the same GOP hash: lemmas. *)
From Verif Require Import Base BaseProofs Nalu Crypto Types CodecSpec VTypes NaluList Validator ValidSpec MatchSpec AuthSpec.
Local Open Scope N_scope.

Section Bytes.
Variable C : crypto.
Variable c : codec.
Variable n : nat.
Variable O : list N.
Hypothesis HC : crypto_ok C.
Hypothesis H1 : forall oid m, c_oid C oid = OidDigest m -> oid = O /\ m = n.

Lemma one_digest oid : digest C oid -> oid = O.
Proof. intros (m & E). apply (H1 oid m E). Qed.
Lemma one_size m : digest_size C m -> m = n.
Proof. intros (oid & E). apply (H1 oid m E). Qed.
Lemma one_len oid x : digest C oid -> length (c_hash C oid x) = n.
Proof. intros (m & E). destruct (H1 oid m E) as [_ <-]. apply (ok_hash_len C HC oid m x E). Qed.
Lemma one_oid oid : digest C oid -> oid_size C oid = n.
Proof. intros (m & E). unfold oid_size. rewrite E. apply (H1 oid m E). Qed.
Lemma hashed_fun d b b2 : hashed c d b -> hashed c d b2 -> b = b2.
Proof. intros (m & m2 & E1 & E2 & E3) (k & k2 & F1 & F2 & F3). congruence. Qed.
Lemma pic_len d x : picture_hash C c d x -> length x = n.
Proof. intros (b & oid & _ & HD & HX). destruct (starts_gop c d); [subst x; apply one_len, HD|]. destruct HX as (r & _ & ->). apply one_len, HD. Qed.

(** Equal hashes of two NALUs. *)
Lemma pic_same d d0 x : picture_hash C c d x -> picture_hash C c d0 x -> unlike c n d -> unlike c n d0 -> same_bytes c d d0 \/ hit C c n O d d0 x.
Proof.
  intros (b & oid & HB & HD & HX) (b0 & oid0 & HB0 & HD0 & HX0) U U0. pose proof (one_digest _ HD); subst oid. pose proof (one_digest _ HD0); subst oid0. clear HD0.
  pose proof (one_oid O HD) as EO. rewrite EO in *.
  assert (FB : fed C c n O d b) by (exists b; auto). assert (FB0 : fed C c n O d0 b0) by (exists b0; auto).
  assert (S : c_hash C O b = c_hash C O b0 -> same_bytes c d d0 \/ hit C c n O d d0 x).
  { intros E. destruct (list_eq_dec N.eq_dec b0 b) as [->|HN]; [left; exists b; auto|]. right. right. exists b0, b. split; [exact FB0|]. split; [exact FB|]. split; [exact HN|]. split; [congruence|right; exact HB0]. }
  assert (T : forall u v, fed C c n O d0 u -> fed C c n O d v -> x = c_hash C O u -> x = c_hash C O v -> u = v \/ hit C c n O d d0 x).
  { intros u v F0 F E0 E. destruct (list_eq_dec N.eq_dec u v) as [->|HN]; [auto|]. right. right. exists u, v. split; [exact F0|]. split; [exact F|]. split; [exact HN|]. split; [congruence|left; congruence]. }
  destruct (starts_gop c d) eqn:SD, (starts_gop c d0) eqn:SD0.
  - apply S. congruence.
  - destruct HX0 as (r & R1 & R2). destruct (T (r ++ c_hash C O b0) b) as [E|B]; auto; [exists b0; split; [exact HB0|right; split; [exact SD0|exists r; auto]]|]. exfalso. apply (U b HB). rewrite <- E, app_length, (one_len O _ HD). lia.
  - destruct HX as (r & R1 & R2). destruct (T b0 (r ++ c_hash C O b)) as [E|B]; auto; [exists b; split; [exact HB|right; split; [exact SD|exists r; auto]]|]. exfalso. apply (U0 b0 HB0). rewrite E, app_length, (one_len O _ HD). lia.
  - destruct HX as (r & R1 & R2), HX0 as (r0 & R3 & R4).
    destruct (T (r0 ++ c_hash C O b0) (r ++ c_hash C O b)) as [E|B]; auto; [exists b0; split; [exact HB0|right; split; [exact SD0|exists r0; auto]]|exists b; split; [exact HB|right; split; [exact SD|exists r; auto]]|].
    apply S. assert (skipn n (r ++ c_hash C O b) = skipn n (r0 ++ c_hash C O b0)) as E2 by congruence. rewrite !skipn_app, R1, R3, Nat.sub_diag, (skipn_all2 r), (skipn_all2 r0) in E2 by lia. exact E2.
Qed.
Lemma known_pic d x : length x = n -> known_hash n (picture_hash C c) d x -> picture_hash C c d x \/ x = zeros n.
Proof.
  intros HL (y & [HY|HY] & HA); unfold agree in HA; rewrite (firstn_all2 x) in HA by lia.
  - left. rewrite (firstn_all2 y) in HA by (rewrite (pic_len _ _ HY); lia). congruence.
  - right. subst y. rewrite HA in *. rewrite firstn_length in HL. unfold zeros in *. rewrite repeat_length in HL. clear HA. apply Nat.min_l_iff in HL. clear -HL. revert HL. generalize 64%nat. induction n as [|k IH]; intros [|m] H; cbn; try reflexivity; [lia|]. f_equal. apply IH. lia.
Qed.
Lemma known_same d d0 x : length x = n -> known_hash n (picture_hash C c) d x -> picture_hash C c d0 x -> unlike c n d -> unlike c n d0 -> same_bytes c d d0 \/ hit C c n O d d0 x.
Proof. intros HL HK HP U U0. destruct (known_pic d x HL HK) as [H|H]; [eapply pic_same; eassumption|]. right. left. exact H. Qed.
Lemma concat_inj : forall xs ys : list (list N), Forall (fun x => length x = n) xs -> Forall (fun x => length x = n) ys -> (0 < n)%nat -> concat xs = concat ys -> xs = ys.
Proof.
  induction xs as [|x xs IH]; intros [|y ys] HX HY H0 E; cbn in E; [reflexivity| | |].
  - apply Forall_cons_iff in HY as [HY _]. apply (f_equal (@length N)) in E. rewrite app_length in E. cbn in E. lia.
  - apply Forall_cons_iff in HX as [HX _]. apply (f_equal (@length N)) in E. rewrite app_length in E. cbn in E. lia.
  - apply Forall_cons_iff in HX as [HX1 HX]. apply Forall_cons_iff in HY as [HY1 HY].
    assert (E1 : x = y) by (apply (f_equal (firstn n)) in E; rewrite !firstn_app, HX1, HY1, Nat.sub_diag, (firstn_all2 x), (firstn_all2 y) in E by lia; cbn in E; rewrite !app_nil_r in E; exact E). subst y. f_equal. apply IH; auto. apply app_inv_head in E. exact E.
Qed.

Lemma gop_same hist L0 xs0 d : Forall2 (picture_hash C c) L0 xs0 -> Forall (unlike c n) L0 -> Forall (unlike c n) (added hist) ->
  in_gop C c n hist (c_hash C O (concat xs0)) d -> (exists L, subseq L (added hist) /\ In d L /\ Forall2 (same_bytes c) L L0) \/
  hit_gop C c n O hist xs0 \/ exists a d0 x0, In a (added hist) /\ In (d0, x0) (combine L0 xs0) /\ hit C c n O a d0 x0.
Proof.
  intros F0 U0 UH (L & xs & oid & hs & L1 & L2 & L3 & L4 & L5 & L6). pose proof (one_digest _ L5); subst oid. pose proof (one_size _ L3); subst hs.
  unfold agree in L6. rewrite (firstn_all2 (c_hash C O (concat xs))), (firstn_all2 (c_hash C O (concat xs0))) in L6 by (rewrite (one_len O _ L5); lia).
  destruct (list_eq_dec N.eq_dec (concat xs) (concat xs0)) as [E|HN]; [|right; left; exists L, xs; auto].
  assert (P0 : (0 < n)%nat) by (destruct L5 as (m & E5); destruct (H1 _ _ E5) as [_ <-]; apply (ok_size C HC _ _ E5)).
  assert (EX : xs = xs0).
  { apply concat_inj; auto; [clear -L4; induction L4 as [|? ? ? ? [H _]]; constructor; auto|]. clear -F0 HC H1. induction F0; constructor; auto. eapply pic_len; eassumption. }
  subst xs0. assert (UL : Forall (unlike c n) L) by (clear -L1 UH; induction L1; [constructor| |]; inversion UH; subst; auto).
  assert (IL : forall a, In a L -> In a (added hist)) by (clear -L1; induction L1; intros b H; [destruct H|destruct H as [->|H]; [left; reflexivity|right; auto]|right; auto]).
  assert (G : Forall2 (same_bytes c) L L0 \/ exists a d0 x0, In a L /\ In (d0, x0) (combine L0 xs) /\ hit C c n O a d0 x0).
  { clear L2 L1 L6 IL E. revert L0 F0 U0. induction L4 as [|a x L xs [LX KX] L4 IH]; intros L0 F0 U0; [inversion F0; left; constructor|]. inversion F0 as [|x0 y l ys HP HF E1 E2]. subst L0 y ys.
    apply Forall_cons_iff in UL as [UA UL]. apply Forall_cons_iff in U0 as [UB U0].
    destruct (known_same a x0 x LX KX HP UA UB) as [S|B]; [|right; exists a, x0, x; split; [left; reflexivity|split; [left; reflexivity|exact B]]].
    destruct (IH UL l HF U0) as [S2|(a2 & d2 & x2 & A1 & A2 & A3)]; [left; constructor; auto|]. right. exists a2, d2, x2. split; [right; exact A1|split; [right; exact A2|exact A3]]. }
  destruct G as [G|(a & d0 & x0 & A1 & A2 & A3)]; [left; exists L; auto|]. right. right. exists a, d0, x0. auto.
Qed.
Lemma chunk_at : forall (xs : list (list N)) A x b, Forall (fun y => length y = n) xs -> Forall (fun y => length y = n) A -> length x = n -> (0 < n)%nat -> concat xs = concat A ++ x ++ b -> In x xs.
Proof.
  induction xs as [|y xs IH]; intros A x b HX HA LX H0 E.
  { apply (f_equal (@length N)) in E. rewrite !app_length in E. cbn in E. lia. }
  apply Forall_cons_iff in HX as [HY HX]. destruct A as [|a A]; cbn [concat app] in E.
  - left. apply (f_equal (firstn n)) in E. rewrite !firstn_app, HY, LX, Nat.sub_diag, (firstn_all2 x), (firstn_all2 y) in E by lia. cbn in E. rewrite !app_nil_r in E. exact E.
  - apply Forall_cons_iff in HA as [HA1 HA]. right. apply (IH A x b); auto. rewrite <- app_assoc in E.
    assert (E1 : y = a) by (apply (f_equal (firstn n)) in E; rewrite !firstn_app, HY, HA1, Nat.sub_diag, (firstn_all2 a), (firstn_all2 y) in E by lia; cbn in E; rewrite !app_nil_r in E; exact E). subst a. apply app_inv_head in E. exact E.
Qed.
Lemma list_same L0 xs0 d : Forall2 (picture_hash C c) L0 xs0 -> Forall (unlike c n) L0 -> unlike c n d -> in_list C c n (concat xs0) d ->
  exists d0 x0, In (d0, x0) (combine L0 xs0) /\ (same_bytes c d d0 \/ hit C c n O d d0 x0).
Proof.
  intros F0 U0 UD (A & x & b & E & HA & HS & HK). pose proof (one_size _ HS) as LX.
  assert (P0 : (0 < n)%nat) by (destruct HS as (o & E5); rewrite LX in E5; apply (ok_size C HC _ _ E5)).
  assert (FL : Forall (fun y => length y = n) xs0) by (clear -F0 HC H1; induction F0; constructor; auto; eapply pic_len; eassumption).
  assert (HI : In x xs0) by (eapply (chunk_at xs0 A x b); auto; rewrite <- LX; exact HA).
  clear E HA FL. induction F0 as [|d0 y L0 xs0 HP F0 IH]; [destruct HI|]. apply Forall_cons_iff in U0 as [UB U0]. destruct HI as [->|HI].
  - exists d0, x. split; [left; reflexivity|]. exact (known_same d d0 x LX HK HP UD UB).
  - destruct (IH U0 HI) as (d1 & x1 & D1 & D2). exists d1, x1. split; [right; exact D1|exact D2].
Qed.
(** The linked hash. *)
Lemma link_same q q0 x0 : picture_hash C c q0 x0 -> unlike c n q -> unlike c n q0 -> (exists x, picture_hash C c q x /\ (agree n x0 x \/ x = zeros n)) ->
  same_bytes c q q0 \/ hit C c n O q q0 x0 \/ exists y, fed C c n O q y /\ c_hash C O y = zeros n.
Proof.
  intros H0 U U0 (x & HX & HA). pose proof (pic_len _ _ HX) as LX. pose proof (pic_len _ _ H0) as L0. destruct HA as [HA|HA].
  - unfold agree in HA. rewrite !firstn_all2 in HA by lia. subst x0. destruct (pic_same q q0 x HX H0 U U0); auto.
  - right. right. subst x. destruct HX as (b & oid & HB & HD & HX). pose proof (one_digest _ HD); subst oid. pose proof (one_oid O HD) as EO. rewrite EO in *.
    destruct (starts_gop c q) eqn:SQ; [exists b; split; [exists b; auto|congruence]|]. destruct HX as (r & R1 & HX). exists (r ++ c_hash C O b). split; [|congruence]. exists b. split; [exact HB|]. right. split; [exact SQ|]. exists r. auto.
Qed.
End Bytes.

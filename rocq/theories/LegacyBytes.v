(** Two lists of NALUs with the same chained hash: lemmas. *)
From Verif Require Import Base BaseProofs Nalu Crypto Types CodecSpec VTypes NaluList Validator ValidSpec MatchSpec AuthSpec AuthBytes LegacyAuthSpec.
From Verif Require LegacySpec.
Local Open Scope N_scope.

Section OldBytes.
Variable C : crypto.
Variable c : codec.
Variable O : list N.
Hypothesis HC : crypto_ok C.
Hypothesis H1 : forall oid m, c_oid C oid = OidDigest m -> oid = O /\ m = 32%nat.
Notation H := (c_hash C O).

Lemma old_len d x : old_hash C c d x -> length x = 32%nat.
Proof. intros (b & oid & _ & HD & [->|(_ & r & _ & ->)]); apply (one_len C 32 O HC H1), HD. Qed.
Lemma old_same d d0 x : old_hash C c d x -> old_hash C c d0 x -> unlike c 32 d -> unlike c 32 d0 -> same_bytes c d d0 \/ old_hit C c O d d0 x.
Proof.
  intros (b & oid & HB & HD & HX) (b0 & oid0 & HB0 & HD0 & HX0) U U0. pose proof (one_digest C 32 O H1 _ HD); subst oid. pose proof (one_digest C 32 O H1 _ HD0); subst oid0. clear HD0.
  pose proof (one_oid C 32 O H1 O HD) as EO. rewrite EO in *. pose proof (one_len C 32 O HC H1 O) as HL.
  assert (FB : old_fed C c O d b) by (exists b; auto). assert (FB0 : old_fed C c O d0 b0) by (exists b0; auto).
  assert (S : H b = H b0 -> same_bytes c d d0 \/ old_hit C c O d d0 x).
  { intros E. destruct (list_eq_dec N.eq_dec b0 b) as [->|HN]; [left; exists b; auto|]. right. right. exists b0, b. split; [exact FB0|]. split; [exact FB|]. split; [exact HN|]. split; [congruence|right; exact HB0]. }
  assert (T : forall u v, old_fed C c O d0 u -> old_fed C c O d v -> x = H u -> x = H v -> u = v \/ old_hit C c O d d0 x).
  { intros u v F0 F E0 E. destruct (list_eq_dec N.eq_dec u v) as [->|HN]; [auto|]. right. right. exists u, v. split; [exact F0|]. split; [exact F|]. split; [exact HN|]. split; [congruence|left; congruence]. }
  destruct HX as [HX|(SD & r & R1 & R2)], HX0 as [HX0|(SD0 & r0 & R3 & R4)].
  - apply S. congruence.
  - destruct (T (r0 ++ H b0) b) as [E|B]; auto; [exists b0; split; [exact HB0|right; split; [exact SD0|exists r0; auto]]|]. exfalso. apply (U b HB). rewrite <- E, app_length, (HL _ HD). lia.
  - destruct (T b0 (r ++ H b)) as [E|B]; auto; [exists b; split; [exact HB|right; split; [exact SD|exists r; auto]]|]. exfalso. apply (U0 b0 HB0). rewrite E, app_length, (HL _ HD). lia.
  - destruct (T (r0 ++ H b0) (r ++ H b)) as [E|B]; auto; [exists b0; split; [exact HB0|right; split; [exact SD0|exists r0; auto]]|exists b; split; [exact HB|right; split; [exact SD|exists r; auto]]|].
    apply S. assert (skipn 32 (r ++ H b) = skipn 32 (r0 ++ H b0)) as E2 by congruence. rewrite !skipn_app, R1, R3, Nat.sub_diag, (skipn_all2 r), (skipn_all2 r0) in E2 by lia. exact E2.
Qed.
Lemma zeros_32 x : length x = 32%nat -> firstn 32 x = firstn 32 (zeros 64) -> x = zeros 32.
Proof. intros L E. rewrite firstn_all2 in E by lia. rewrite E. reflexivity. Qed.
Lemma old_known_same d d0 x : length x = 32%nat -> old_known C c d x -> old_hash C c d0 x -> unlike c 32 d -> unlike c 32 d0 -> same_bytes c d d0 \/ old_hit C c O d d0 x.
Proof.
  intros HL (y & [HY|HY] & HA) HP U U0; unfold agree in HA.
  - rewrite !firstn_all2 in HA by (try rewrite (old_len _ _ HY); lia). subst y. eapply old_same; eassumption.
  - right. left. subst y. apply zeros_32; assumption.
Qed.
Lemma at_combine (L0 : list (list N)) xs0 x : Forall2 (old_hash C c) L0 xs0 -> In x xs0 -> exists d0, In (d0, x) (combine L0 xs0) /\ In d0 L0 /\ old_hash C c d0 x.
Proof.
  intros F. induction F as [|d y L xs HP F IH]; intros HI; [destruct HI|]. destruct HI as [->|HI]; [exists d; split; [left; reflexivity|split; [left; reflexivity|exact HP]]|].
  destruct (IH HI) as (d0 & A & B & D). exists d0. split; [right; exact A|split; [right; exact B|exact D]].
Qed.
(** The list of hashes. *)
Lemma old_list_same L0 xs0 d : Forall2 (old_hash C c) L0 xs0 -> Forall (unlike c 32) L0 -> unlike c 32 d -> in_old_list C c (concat xs0) d ->
  exists d0 x0, In (d0, x0) (combine L0 xs0) /\ (same_bytes c d d0 \/ old_hit C c O d d0 x0).
Proof.
  intros F0 U0 UD (A & x & b & E & HA & LX & HK).
  assert (FL : Forall (fun y => length y = 32%nat) xs0) by (clear -F0 HC H1; induction F0; constructor; auto; eapply old_len; eassumption).
  assert (HI : In x xs0) by (eapply (chunk_at C 32 O H1 xs0 A x b); auto; [rewrite <- LX; exact HA|lia]).
  destruct (at_combine _ _ _ F0 HI) as (d0 & I1 & I2 & I3). exists d0, x. split; [exact I1|]. rewrite Forall_forall in U0. eapply old_known_same; eauto.
Qed.
(** The chained hash. *)
Lemma chain_end xs x : LegacySpec.chained H (xs ++ [x]) = H (LegacySpec.chained H xs ++ x).
Proof. unfold LegacySpec.chained. rewrite fold_left_app. reflexivity. Qed.
Lemma chain_len xs : digest C O -> length (LegacySpec.chained H xs) = 32%nat.
Proof. intros HD. destruct xs as [|y l] using rev_ind; [|rewrite chain_end]; apply (one_len C 32 O HC H1), HD. Qed.
Lemma link_snoc xs x u : link C O xs u -> link C O (xs ++ [x]) u.
Proof. intros [->|(a & y & b & -> & ->)]; [left; reflexivity|]. right. exists a, y, (b ++ [x]). rewrite <- app_assoc. auto. Qed.
Lemma chain_same : digest C O -> forall xs xs0, Forall (fun y => length y = 32%nat) xs -> Forall (fun y => length y = 32%nat) xs0 -> LegacySpec.chained H xs = LegacySpec.chained H xs0 ->
  xs = xs0 \/ exists u v, link C O xs0 u /\ link C O xs v /\ u <> v /\ H u = H v.
Proof.
  intros HD. assert (LK : forall l x, link C O (l ++ [x]) (LegacySpec.chained H l ++ x)) by (intros l x; right; exists l, x, []; auto).
  assert (NE : forall l x, length x = 32%nat -> LegacySpec.chained H l ++ x <> [1]) by (intros l x L E; apply (f_equal (@length N)) in E; rewrite app_length, L in E; cbn in E; lia).
  induction xs as [|x xs IH] using rev_ind; intros xs0 F F0 E; destruct xs0 as [|x0 xs0 _] using rev_ind; [left; reflexivity| | |].
  - apply Forall_app in F0 as [_ F0]. inversion F0; subst. rewrite chain_end in E. right. exists (LegacySpec.chained H xs0 ++ x0), [1]. split; [apply LK|]. split; [left; reflexivity|]. split; [apply NE; assumption|symmetry; exact E].
  - apply Forall_app in F as [_ F]. inversion F; subst. rewrite chain_end in E. right. exists [1], (LegacySpec.chained H xs ++ x). split; [left; reflexivity|]. split; [apply LK|]. split; [intros E2; symmetry in E2; revert E2; apply NE; assumption|symmetry; exact E].
  - apply Forall_app in F as [F FX]. apply Forall_app in F0 as [F0 FX0]. rewrite !chain_end in E.
    destruct (list_eq_dec N.eq_dec (LegacySpec.chained H xs0 ++ x0) (LegacySpec.chained H xs ++ x)) as [E2|HN]; [|right; do 2 eexists; split; [apply LK|split; [apply LK|split; [exact HN|symmetry; exact E]]]].
    assert (E3 : LegacySpec.chained H xs = LegacySpec.chained H xs0 /\ x = x0).
    { pose proof (chain_len xs HD) as L1. pose proof (chain_len xs0 HD) as L2. revert E2 L1 L2. generalize (LegacySpec.chained H xs), (LegacySpec.chained H xs0). generalize 32%nat. clear. intros k l m E L1 L2.
      split; [apply (f_equal (firstn k)) in E|apply (f_equal (skipn k)) in E].
      - rewrite !firstn_app, L1, L2, Nat.sub_diag, (firstn_all2 l), (firstn_all2 m) in E by lia. cbn in E. rewrite !app_nil_r in E. auto.
      - rewrite !skipn_app, L1, L2, Nat.sub_diag, (skipn_all2 l), (skipn_all2 m) in E by lia. cbn in E. auto. }
    destruct E3 as [E3 ->]. destruct (IH xs0 F F0 E3) as [->|(u & v & A & B & D)]; [left; reflexivity|]. right. exists u, v. auto using link_snoc.
Qed.
Lemma old_chain_same hist L0 xs0 d : Forall2 (old_hash C c) L0 xs0 -> Forall (unlike c 32) L0 -> unlike c 32 d -> in_chain C c hist (LegacySpec.chained H xs0) d ->
  (exists d0 x0, In (d0, x0) (combine L0 xs0) /\ (same_bytes c d d0 \/ old_hit C c O d d0 x0)) \/ chain_hit C c O hist xs0.
Proof.
  intros F0 U0 UD (oid & xs & x & HD & E & OA & HI & HK). pose proof (one_digest C 32 O H1 _ HD); subst oid.
  assert (FL : Forall (fun y => length y = 32%nat) xs0) by (clear -F0 HC H1; induction F0; constructor; auto; eapply old_len; eassumption).
  assert (FX : Forall (fun y => length y = 32%nat) xs) by (eapply Forall_impl; [|exact OA]; intros y [L _]; exact L).
  destruct (chain_same HD xs xs0 FX FL (eq_sym E)) as [->|(u & v & A & B & D1 & D2)]; [left|right; exists xs, u, v; auto].
  destruct (at_combine _ _ _ F0 HI) as (d0 & I1 & I2 & I3). exists d0, x. split; [exact I1|]. rewrite Forall_forall in U0. eapply old_known_same; eauto. eapply old_len; eassumption.
Qed.
End OldBytes.

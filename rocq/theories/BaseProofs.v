(** Lemmas about the base layer. *)
From Verif Require Import Base.

Lemma bytes_eqb_refl l : bytes_eqb l l = true.
Proof. induction l as [|x l IH]; cbn; [reflexivity|]. rewrite N.eqb_refl, IH; reflexivity. Qed.

Lemma bytes_eqb_eq a b : bytes_eqb a b = true <-> a = b.
Proof.
  split; [|intros ->; apply bytes_eqb_refl].
  revert b; induction a as [|x a IH]; intros [|y b]; cbn; try congruence.
  intros H; apply andb_prop in H as [H1 H2]. apply N.eqb_eq in H1. apply IH in H2. congruence.
Qed.

Lemma bytes_eqb_neq a b : bytes_eqb a b = false <-> a <> b.
Proof.
  destruct (bytes_eqb a b) eqn:E.
  - apply bytes_eqb_eq in E. split; congruence.
  - split; [|reflexivity]. intros _ H. apply bytes_eqb_eq in H. congruence.
Qed.

Lemma u8_ok x : byte_ok (u8 x).
Proof. unfold byte_ok, u8. apply N.mod_lt; lia. Qed.

Lemma bytes_ok_app a b : bytes_ok (a ++ b) <-> bytes_ok a /\ bytes_ok b.
Proof. unfold bytes_ok; apply Forall_app. Qed.

Lemma bytes_ok_zeros n : bytes_ok (zeros n).
Proof. unfold bytes_ok, zeros; apply Forall_forall; intros x H; apply repeat_spec in H; subst. reflexivity. Qed.

Lemma bytes_ok_firstn n l : bytes_ok l -> bytes_ok (firstn n l).
Proof. unfold bytes_ok. intros H. rewrite <- (firstn_skipn n l) in H. apply Forall_app in H; tauto. Qed.

Lemma bytes_ok_skipn n l : bytes_ok l -> bytes_ok (skipn n l).
Proof. unfold bytes_ok. intros H. rewrite <- (firstn_skipn n l) in H. apply Forall_app in H; tauto. Qed.

Lemma be16_ok v : bytes_ok (be16 v).
Proof. repeat constructor; apply u8_ok. Qed.
Lemma be32_ok v : bytes_ok (be32 v).
Proof. repeat constructor; apply u8_ok. Qed.
Lemma be64_ok v : bytes_ok (be64 v).
Proof. unfold be64; apply bytes_ok_app; split; apply be32_ok. Qed.

Lemma read_be16 v r : (v < 65536)%N -> read_16bits (be16 v ++ r) = Def (v, r).
Proof. intros H. unfold be16, read_16bits, u8. cbn [app]. do 2 f_equal. lia. Qed.

Lemma read_be32 v r : (v < 4294967296)%N -> read_32bits (be32 v ++ r) = Def (v, r).
Proof. intros H. unfold be32, read_32bits, u8. cbn [app]. do 2 f_equal. lia. Qed.

Lemma read_be64 v r : (v < 18446744073709551616)%N -> read_64bits (be64 v ++ r) = Def (v, r).
Proof.
  intros H. unfold be64, read_64bits. rewrite <- app_assoc.
  assert (E : be32 v = be32 (v mod 4294967296)).
  { unfold be32, u8. do 4 (apply f_equal2; [lia|]). reflexivity. }
  rewrite read_be32 by (apply N.div_lt_upper_bound; lia).
  unfold obind. rewrite E, read_be32 by (apply N.mod_lt; lia).
  do 2 f_equal. rewrite (N.mul_comm _ 4294967296). symmetry. apply N.div_mod. lia.
Qed.

Lemma z_to_u64_lt z : (z_to_u64 z < 18446744073709551616)%N.
Proof. unfold z_to_u64. lia. Qed.

Lemma u64_z_round z : (-9223372036854775808 <= z < 9223372036854775808)%Z -> u64_to_z (z_to_u64 z) = z.
Proof. intros H. unfold u64_to_z, z_to_u64. destruct (N.ltb_spec (Z.to_N (z mod 18446744073709551616)) 9223372036854775808); lia. Qed.

Lemma take_mem_app a r : take_mem (length a) (a ++ r) = Def (a, r).
Proof.
  unfold take_mem. rewrite app_length. destruct (Nat.leb_spec (length a) (length a + length r)); [|lia].
  rewrite firstn_app, skipn_app, Nat.sub_diag, firstn_all, skipn_all. cbn. rewrite app_nil_r. reflexivity.
Qed.

Lemma put_mem_def dst src : length src <= length dst ->
  put_mem dst src = Def (src ++ skipn (length src) dst).
Proof. intros H. unfold put_mem. destruct (Nat.leb_spec (length src) (length dst)); [reflexivity|lia]. Qed.

Lemma put_mem_length dst src d : put_mem dst src = Def d -> length d = length dst.
Proof.
  unfold put_mem. destruct (Nat.leb_spec (length src) (length dst)); [|discriminate].
  intros [= <-]. rewrite app_length, skipn_length. lia.
Qed.

Lemma put_mem_prefix dst src d : put_mem dst src = Def d -> firstn (length src) d = src.
Proof.
  unfold put_mem. destruct (Nat.leb_spec (length src) (length dst)); [|discriminate].
  intros [= <-]. rewrite firstn_app, Nat.sub_diag, firstn_all. cbn. apply app_nil_r.
Qed.

Lemma zeros_length n : length (zeros n) = n.
Proof. apply repeat_length. Qed.

Lemma firstn_app_exact {A} (a b : list A) : firstn (length a) (a ++ b) = a.
Proof. rewrite firstn_app, Nat.sub_diag, firstn_all. cbn. apply app_nil_r. Qed.

Lemma skipn_app_exact {A} (a b : list A) : skipn (length a) (a ++ b) = b.
Proof. rewrite skipn_app, Nat.sub_diag, skipn_all. reflexivity. Qed.

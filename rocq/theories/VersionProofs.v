(** Proofs about version strings. *)
From Verif Require Import Base Nalu Crypto Types Hash VTypes NaluList Validator Version.
Local Open Scope N_scope.

Lemma digit_char n : n < 10 -> is_digit (48 + n) = true.
Proof. intros H. unfold is_digit. lia. Qed.

Lemma scan_print f : forall n acc rest, n < 10 ^ N.of_nat f -> exists k, n < 10 ^ N.of_nat k /\
  scan_digits acc (print_digits f n ++ rest) = scan_digits (acc * 10 ^ N.of_nat k + n) rest.
Proof.
  induction f as [|f IH]; intros n acc rest H; cbn [print_digits].
  { cbn in H. exists O. cbn. replace (acc * 1 + n) with acc by lia. split; [lia|reflexivity]. }
  destruct (N.ltb_spec n 10) as [L|L].
  - exists 1%nat. cbn [app scan_digits]. rewrite digit_char by exact L. change (10 ^ N.of_nat 1) with 10. split; [exact L|]. f_equal. lia.
  - rewrite Nat2N.inj_succ, N.pow_succ_r' in H.
    destruct (IH (n / 10) acc ((48 + n mod 10) :: rest)) as (k & K1 & K2).
    { apply N.div_lt_upper_bound; [discriminate|exact H]. }
    exists (S k). rewrite Nat2N.inj_succ, N.pow_succ_r'. rewrite <- app_assoc. cbn [app]. rewrite K2. cbn [scan_digits].
    pose proof (N.mod_lt n 10 ltac:(discriminate)). pose proof (N.div_mod' n 10).
    rewrite digit_char by assumption. split; [lia|]. f_equal. set (p := 10 ^ _) in *. nia.
Qed.

Lemma print_head f n : n < 10 ^ N.of_nat f -> (0 < f)%nat -> exists d r, print_digits f n = (48 + d) :: r /\ d < 10.
Proof.
  revert n. induction f as [|f IH]; intros n H F; [lia|]. cbn [print_digits]. destruct (N.ltb_spec n 10) as [L|L]; [eauto|].
  rewrite Nat2N.inj_succ, N.pow_succ_r' in H.
  destruct (IH (n / 10)) as (d & r & E & D).
  { apply N.div_lt_upper_bound; [discriminate|exact H]. }
  { destruct f; [cbn in H; lia|lia]. }
  rewrite E. cbn. eauto.
Qed.

Lemma as_int_ok z : (-2147483648 <= z <= 2147483647)%Z -> as_int z = Def z.
Proof. intros H. unfold as_int. replace (_ || _) with false by lia. reflexivity. Qed.

Definition stops (s : list N) : Prop := match s with [] => True | c :: _ => is_digit c = false end.
Lemma scan_stop a s : stops s -> scan_digits a s = (a, s).
Proof. destruct s; cbn; [reflexivity|]. intros ->. reflexivity. Qed.

Lemma scan_print_int n rest : n < 2147483648 -> stops rest -> scan_int (print_int n ++ rest) = Def (Some (Z.of_N n, rest)).
Proof.
  intros H HS. unfold scan_int, print_int.
  assert (B : n < 10 ^ N.of_nat 20) by (eapply N.lt_trans; [exact H|reflexivity]).
  destruct (print_head 20 n B ltac:(lia)) as (d & r & E & D).
  destruct (scan_print 20 n 0 rest B) as (k & K1 & K2). rewrite E in *. cbn [app] in *.
  assert (SP : is_space (48 + d) = false) by (unfold is_space; lia).
  cbn [skip_space]. rewrite SP.
  assert (M : (match (48 + d) :: r ++ rest with 45 :: r0 => (true, r0) | 43 :: r0 => (false, r0) | _ => (false, (48 + d) :: r ++ rest) end)
    = (false, (48 + d) :: r ++ rest)).
  { assert (X : d = 0 \/ d = 1 \/ d = 2 \/ d = 3 \/ d = 4 \/ d = 5 \/ d = 6 \/ d = 7 \/ d = 8 \/ d = 9) by lia.
    intuition (subst d; reflexivity). }
  rewrite M. clear M. rewrite digit_char by exact D. rewrite K2. rewrite scan_stop by exact HS. rewrite as_int_ok by lia. cbn [obind].
  reflexivity.
Qed.

Lemma scan_print_version a b c : a < 2147483648 -> b < 2147483648 -> c < 2147483648 ->
  scan_version (print_version a b c) = Def (Some (Z.of_N a, Z.of_N b, Z.of_N c)).
Proof.
  intros A B D. unfold print_version, scan_version. rewrite scan_print_int by (try exact A; reflexivity). cbn [obind].
  rewrite scan_print_int by (try exact B; reflexivity). cbn [obind].
  rewrite <- (app_nil_r (print_int c)). rewrite scan_print_int by (try exact D; exact I). reflexivity.
Qed.

(** Lexicographic comparison. *)
Lemma compare_printed a1 a2 a3 b1 b2 b3 : a1 < 2147483648 -> a2 < 2147483648 -> a3 < 2147483648 ->
  b1 < 2147483648 -> b2 < 2147483648 -> b3 < 2147483648 ->
  compare_strings (Some (print_version a1 a2 a3)) (Some (print_version b1 b2 b3)) = Def (compare_versions [a1; a2; a3] [b1; b2; b3]).
Proof.
  intros. unfold compare_strings. rewrite !scan_print_version by assumption. cbn [obind].
  rewrite as_int_ok by lia. cbn [obind]. unfold compare_versions.
  destruct (N.eqb_spec a1 b1) as [->|N1]; cbn [negb].
  - rewrite Z.sub_diag. cbn [Z.eqb]. rewrite as_int_ok by lia. cbn [obind].
    destruct (N.eqb_spec a2 b2) as [->|N2]; cbn [negb].
    + rewrite Z.sub_diag. cbn [Z.eqb]. rewrite as_int_ok by lia. reflexivity.
    + destruct (Z.eqb_spec (Z.of_N a2 - Z.of_N b2) 0) as [E|E]; [exfalso; apply N2; lia|]. cbn [obind].
      destruct (Z.eqb_spec (Z.of_N a2 - Z.of_N b2) 0) as [E'|_]; [lia|]. reflexivity.
  - destruct (Z.eqb_spec (Z.of_N a1 - Z.of_N b1) 0) as [E|E]; [exfalso; apply N1; lia|]. cbn [obind].
    destruct (Z.eqb_spec (Z.of_N a1 - Z.of_N b1) 0) as [E'|_]; [lia|]. cbn [obind].
    destruct (Z.eqb_spec (Z.of_N a1 - Z.of_N b1) 0) as [E'|_]; [lia|]. reflexivity.
Qed.

Lemma compare_lex a1 a2 a3 b1 b2 b3 : let r := compare_versions [a1; a2; a3] [b1; b2; b3] in
  (r = 0%Z <-> (a1 = b1 /\ a2 = b2 /\ a3 = b3)) /\
  (r = 1%Z <-> (b1 < a1 \/ (b1 = a1 /\ (b2 < a2 \/ (b2 = a2 /\ b3 < a3))))) /\
  (r = 2%Z <-> (a1 < b1 \/ (a1 = b1 /\ (a2 < b2 \/ (a2 = b2 /\ a3 < b3))))).
Proof.
  cbv zeta. unfold compare_versions. destruct (N.eqb_spec a1 b1); cbn [negb]; [destruct (N.eqb_spec a2 b2); cbn [negb]|];
    match goal with |- context[(?z =? 0)%Z] => destruct (Z.eqb_spec z 0); [|destruct (Z.ltb_spec 0 z)] end; lia.
Qed.

Lemma compare_refuses s1 s2 : scan_version s1 = Def None -> compare_strings (Some s1) s2 = Def (-1)%Z.
Proof. intros H. unfold compare_strings. rewrite H. destruct s2; reflexivity. Qed.
Lemma compare_order a1 a2 a3 b1 b2 b3 :
  Forall (fun n => n < 2 ^ 31) [a1; a2; a3; b1; b2; b3] ->
  exists r, compare_strings (Some (print_version a1 a2 a3)) (Some (print_version b1 b2 b3)) = Def r /\
    (r = 0%Z <-> (a1 = b1 /\ a2 = b2 /\ a3 = b3)) /\
    (r = 1%Z <-> (b1 < a1 \/ (b1 = a1 /\ (b2 < a2 \/ (b2 = a2 /\ b3 < a3))))) /\
    (r = 2%Z <-> (a1 < b1 \/ (a1 = b1 /\ (a2 < b2 \/ (a2 = b2 /\ a3 < b3))))).
Proof.
  intros H. repeat (apply Forall_cons_iff in H as [? H]). change (2 ^ 31) with 2147483648 in *.
  eexists. split; [apply compare_printed; assumption|]. apply compare_lex.
Qed.

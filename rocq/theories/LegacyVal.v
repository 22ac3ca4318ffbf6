(** Validation of a GOP of a recording of an older version: lemmas. *)
From Verif Require Import Base BaseProofs Nalu Crypto Types Hash Tlv CodecSpec CodecProofs SeiSpec SeiProofs SignSpec GopSpec VTypes NaluList Validator
  SeiHashProofs E2eSpec E2eDec E2eList MatchProofs LegacyTypes Legacy LegacySpec LegacyDec LegacyList.
Local Open Scope N_scope.

Definition lused (it : litem) : litem := if x_pending it then set_x_used true it else it.
Lemma read_len hs l x : read_hash hs l = Def x -> length x = hs.
Proof. unfold read_hash. destruct (Nat.leb_spec hs (length l)); [|discriminate]. intros E. injection E as <-. rewrite firstn_length. lia. Qed.
Lemma use_len hs it x : hash_to_use hs it = Def x -> length x = hs.
Proof. unfold hash_to_use. destruct (x_need it); [destruct (x_second it); [|discriminate]|]; apply read_len. Qed.
Lemma uses_len hs h l : uses hs h l -> Forall (fun x => length x = hs) h.
Proof. induction 1 as [|it h l X U IH|it x h l X EH U IH]; [constructor|exact IH|constructor; [exact (use_len _ _ _ EH)|exact IH]]. Qed.

Lemma mark_nalu s l : map x_nalu (fst (l_mark_used s l)) = map x_nalu l.
Proof.
  induction l as [|it l IH]; [reflexivity|]. cbn [l_mark_used map]. destruct (l_mark_used s l) as [r k]. cbn [fst] in IH.
  destruct (x_used it); [destruct (x_has2 it && negb (x_need it))|]; cbn [fst map]; rewrite <- IH; reflexivity.
Qed.
Lemma mark_app s a b : l_mark_used s (a ++ b) = (fst (l_mark_used s a) ++ fst (l_mark_used s b), (snd (l_mark_used s a) + snd (l_mark_used s b))%Z).
Proof.
  induction a as [|it a IH]; [cbn [app l_mark_used fst snd]; destruct (l_mark_used s b); reflexivity|]. cbn [app l_mark_used]. rewrite IH. destruct (l_mark_used s a) as [r k]. cbn [fst snd].
  destruct (x_used it); [destruct (x_has2 it && negb (x_need it))|]; cbn [fst snd app]; f_equal; lia.
Qed.
Lemma mark_uses hs h l : uses hs h l -> l_mark_used SValid (map lused l) = (map lvalid l, Z.of_nat (length h)).
Proof.
  induction 1 as [|it h l X _ IH|it x h l X _ _ IH]; [reflexivity| |].
  - cbn [map]. assert (E1 : lused it = it) by (unfold lused; rewrite (calm_pend _ X); reflexivity).
    assert (E2 : lvalid it = it) by (unfold lvalid; rewrite (calm_pend _ X); reflexivity). rewrite E1, E2. cbn [l_mark_used]. rewrite IH.
    destruct X as (n & _ & _ & _ & _ & _ & -> & _). reflexivity.
  - cbn [map]. assert (E1 : lused it = set_x_used true it) by (unfold lused; rewrite (wait_pend _ X); reflexivity).
    assert (E2 : lvalid it = set_x_need false (set_x_status SValid it)) by (unfold lvalid; rewrite (wait_pend _ X); reflexivity). rewrite E1, E2. cbn [l_mark_used]. rewrite IH.
    destruct X as (n & _ & _ & _ & _ & B & U & _ & _ & N2). cbn [x_used set_x_used].
    assert (EH : x_has2 (set_x_used true it) && negb (x_need (set_x_used true it)) = false).
    { change (x_has2 (set_x_used true it)) with (x_has2 it). change (x_need (set_x_used true it)) with (x_need it). destruct (x_has2 it); [rewrite N2 by reflexivity|]; reflexivity. }
    rewrite EH. change (x_bad (set_x_used true it)) with (x_bad it). rewrite B. f_equal; [|cbn [length]; lia]. f_equal.
    destruct it. cbn in U. subst. reflexivity.
Qed.
Lemma mark_calms s u : Forall lcalm u -> l_mark_used s u = (u, 0%Z).
Proof. induction 1 as [|it u (n & _ & _ & _ & _ & _ & X & _) _ IH]; [reflexivity|]. cbn [l_mark_used]. rewrite IH, X. reflexivity. Qed.
Lemma first_used_lt l k : l_first_used l = Some k -> (k < length l)%nat.
Proof.
  revert k. induction l as [|it l IH]; intros k; cbn [l_first_used]; [discriminate|]. destruct (x_used it); [intros E; injection E as <-; cbn; lia|].
  destruct (l_first_used l) as [j|]; [|discriminate]. cbn [option_map]. intros E. injection E as <-. cbn [length]. specialize (IH j eq_refl). lia.
Qed.

Section LVal.
Variable C : crypto.
Hypothesis HC : crypto_ok C.
Variable w : settings.
Variable hs : nat.
Hypothesis OS : old_settings C w hs.
Let H := c_hash C (w_oid w).
Notation gdec := (gdec w hs).
Lemma o_small : (0 < hs <= 64)%nat.
Proof. exact (ok_size C HC _ _ (os_oid _ _ _ OS)). Qed.
Lemma o_len x : length (H x) = hs.
Proof. apply (ok_hash_len C HC), (os_oid _ _ _ OS). Qed.
Lemma o_size d : gdec d -> hash_size C (d_handle d) = hs.
Proof. intros G. unfold hash_size, oid_size. rewrite (gd_type _ _ _ G), (os_oid _ _ _ OS). reflexivity. Qed.
Lemma o_hash d x : gdec d -> x <> [] -> hash_data C (d_handle d) x = (SV_OK, H x).
Proof. intros G X. unfold hash_data. destruct x; [congruence|]. rewrite (gd_type _ _ _ G). reflexivity. Qed.

(** ** The hash of a GOP *)
Section Gop.
Hypothesis H32 : hs = 32%nat.

Lemma gop_reset q : gdec (q_dec q) -> length (q_hashes q) = 128%nat ->
  exists y, gop_hash_reset C q = Def (set_q_hashes y q, SV_OK) /\ length y = 128%nat /\ firstn hs y = H [1].
Proof.
  intros G L. unfold gop_hash_reset. rewrite (o_hash _ _ G) by discriminate. cbn [is_ok svrc_eqb].
  rewrite put_at_0 by (rewrite o_len; pose proof o_small; lia). cbn [obind]. eexists. split; [reflexivity|]. split.
  - rewrite app_length, skipn_length, o_len. pose proof o_small. lia.
  - apply firstn_app_len, o_len.
Qed.
Lemma gop_add q g x : gdec (q_dec q) -> length (q_hashes q) = 128%nat -> firstn hs (q_hashes q) = g -> length x = hs ->
  exists y, gop_hash_add C q x = Def (set_q_hashes y q, SV_OK) /\ length y = 128%nat /\ firstn hs y = H (g ++ x).
Proof.
  intros G L E LX. unfold gop_hash_add.
  assert (EP : put_at default_hash_size (q_hashes q) x = Def (firstn 32 (q_hashes q) ++ x ++ skipn (32 + length x) (q_hashes q))).
  { unfold put_at, default_hash_size. destruct (Nat.leb_spec (32 + length x) (length (q_hashes q))); [reflexivity|lia]. }
  rewrite EP. cbn [obind].
  change (q_dec (set_q_hashes _ q)) with (q_dec q). rewrite (o_size _ G).
  set (y0 := firstn 32 (q_hashes q) ++ x ++ skipn (32 + length x) (q_hashes q)).
  assert (LG : length g = hs) by (rewrite <- E, firstn_length; lia).
  assert (LY : length y0 = 128%nat) by (unfold y0; rewrite !app_length, firstn_length, skipn_length; lia).
  assert (EY : firstn (2 * hs) y0 = g ++ x).
  { unfold y0. rewrite <- H32, E, app_assoc. apply firstn_app_len. rewrite app_length. lia. }
  destruct (Nat.ltb_spec (length y0) (2 * hs)); [lia|]. rewrite EY, (o_hash _ _ G).
  2:{ intros X. apply (f_equal (@length N)) in X. rewrite app_length in X. cbn [length] in X. lia. }
  cbn [is_ok svrc_eqb]. change (q_hashes (set_q_hashes y0 q)) with y0. rewrite put_at_0 by (rewrite o_len; lia). cbn [obind].
  eexists. split; [reflexivity|]. split; [rewrite app_length, skipn_length, o_len; lia|]. apply firstn_app_len, o_len.
Qed.

Definition fold_hash (h : list (list N)) (g : list N) : list N := fold_left (fun g h => H (g ++ h)) h g.
Lemma gop_uses h l : uses hs h l -> forall q g m rest, gdec (q_dec q) -> length (q_hashes q) = 128%nat -> firstn hs (q_hashes q) = g ->
  exists y, length y = 128%nat /\ firstn hs y = fold_hash h g /\
    gop_hash_loop C hs q false (Some (length l + m)%nat) (l ++ rest) =
    do (q2, r, st) <- gop_hash_loop C hs (set_q_hashes y q) false (Some m) rest; Def (q2, map lused l ++ r, st).
Proof.
  induction 1 as [|it h l X U IH|it x h l X EH U IH]; intros q g m rest G L E.
  - exists (q_hashes q). split; [exact L|]. split; [exact E|]. cbn [length app Nat.add map].
    assert (Q : set_q_hashes (q_hashes q) q = q) by (destruct q; reflexivity). rewrite Q. destruct (gop_hash_loop _ _ _ _ _ _) as [[[? ?] ?]|]; reflexivity.
  - destruct (IH q g m rest G L E) as (y & Y1 & Y2 & Y3). exists y. split; [exact Y1|]. split; [exact Y2|]. cbn [length app Nat.add gop_hash_loop]. rewrite (calm_pend _ X). cbn [negb]. rewrite Y3. clear Y3.
    assert (EU : lused it = it) by (unfold lused; rewrite (calm_pend _ X); reflexivity). cbn [map]. rewrite EU. destruct (gop_hash_loop _ _ _ _ _ _) as [[[? ?] ?]|]; reflexivity.
  - destruct (gop_add q g x G L E (use_len _ _ _ EH)) as (y0 & E0 & L0 & F0).
    destruct (IH (set_q_hashes y0 q) (H (g ++ x)) m rest G L0 F0) as (y & Y1 & Y2 & Y3). exists y. split; [exact Y1|]. split; [exact Y2|].
    cbn [length app Nat.add gop_hash_loop]. pose proof (wait_pend _ X) as P. rewrite P. cbn [negb].
    destruct X as (n & E1 & E2 & E3 & E4 & E5 & E6 & E7 & E8 & E9). rewrite E1. cbn [deref obind].
    assert (EF : n_first_in_gop n && negb (x_need it) = false).
    { destruct (n_first_in_gop n); [rewrite E8 by reflexivity|]; reflexivity. }
    rewrite EF, E3. cbn [orb]. rewrite EH. cbn [obind]. rewrite E0. cbn [obind is_ok svrc_eqb negb]. rewrite Y3. clear Y3.
    assert (EU : lused it = set_x_used true it) by (unfold lused; rewrite P; reflexivity). cbn [map]. rewrite EU.
    change (set_q_hashes y (set_q_hashes y0 q)) with (set_q_hashes y q).
    destruct (gop_hash_loop _ _ _ _ _ _) as [[[? ?] ?]|]; reflexivity.
Qed.
Lemma gop_calms u : Forall lcalm u -> forall q psei rest, exists psei2,
  gop_hash_loop C hs q psei None (u ++ rest) = do (q2, r, st) <- gop_hash_loop C hs q psei2 None rest; Def (q2, u ++ r, st).
Proof.
  induction 1 as [|it u X _ IH]; intros q psei rest.
  - exists psei. cbn [app]. destruct (gop_hash_loop _ _ _ _ _ _) as [[[? ?] ?]|]; reflexivity.
  - cbn [app gop_hash_loop]. rewrite (calm_pend _ X). cbn [negb]. destruct (IH q false rest) as (p2 & ->). exists p2.
    destruct (gop_hash_loop _ _ _ _ _ _) as [[[? ?] ?]|]; reflexivity.
Qed.
Lemma gop_hash_all h pre s u i x y z q : uses hs h pre -> lsei s -> Forall lcalm u -> lfresh y i -> hash_to_use hs i = Def x -> read_hash hs (x_hash s) = Def z ->
  gdec (q_dec q) -> length (q_hashes q) = 128%nat -> q_items q = pre ++ s :: u ++ [i] ->
  exists g, length g = 128%nat /\ firstn hs g = chained H (h ++ [x] ++ [z]) /\
    l_gop_hash C q (length pre) = Def (set_q_items (map lused pre ++ set_x_used true s :: u ++ [set_x_used true i]) (set_q_hashes g q), SV_OK).
Proof.
  intros U S F I EX EZ G L EI. unfold l_gop_hash. cbv zeta.
  assert (QH : qhs q = hs) by exact (gd_vhs _ _ _ G). rewrite QH.
  destruct (gop_reset q G L) as (y0 & E0 & L0 & F0). rewrite E0. cbn [obind is_ok svrc_eqb negb].
  change (q_items (set_q_hashes y0 q)) with (q_items q). rewrite EI.
  destruct (gop_uses h pre U (set_q_hashes y0 q) _ 0 (s :: u ++ [i]) G L0 F0) as (y1 & L1 & F1 & E1). rewrite Nat.add_0_r in E1. rewrite E1. clear E1.
  change (set_q_hashes y1 (set_q_hashes y0 q)) with (set_q_hashes y1 q). set (q1 := set_q_hashes y1 q).
  destruct S as (n & E1 & E2 & E3 & E4 & E5 & E6 & E7 & _). cbn [gop_hash_loop]. unfold x_pending at 1. rewrite E6. cbn [vstat_eqb negb]. rewrite E1. cbn [deref obind]. rewrite E5, E3. cbn [orb andb].
  destruct (gop_calms u F q1 true [i]) as (p2 & ->). cbn [gop_hash_loop].
  destruct I as (m & I1 & I2 & I3 & I4 & I5 & I6 & I7 & I8). unfold x_pending. rewrite I5. cbn [vstat_eqb negb]. rewrite I1. cbn [deref obind]. rewrite I3, I4, I6. cbn [negb andb]. rewrite orb_true_r, EX. cbn [obind].
  destruct (gop_add q1 _ x G L1 F1 (use_len _ _ _ EX)) as (y2 & E8 & L2 & F2). rewrite E8. cbn [obind is_ok svrc_eqb negb].
  change (set_q_hashes y2 q1) with (set_q_hashes y2 q).
  assert (NE : nth_error (map lused pre ++ s :: u ++ [set_x_used true i]) (length pre) = Some s).
  { rewrite <- (map_length lused pre). apply nth_at. }
  rewrite NE, EZ. cbn [obind].
  match goal with |- context [gop_hash_add C ?z _] => set (q2 := z) end.
  destruct (gop_add q2 _ z G L2 F2 (read_len _ _ _ EZ)) as (y3 & E9 & L3 & F3). rewrite E9. cbn [obind is_ok svrc_eqb negb].
  exists y3. split; [exact L3|]. split.
  - rewrite F3. unfold chained. rewrite fold_left_app. cbn [app fold_left]. reflexivity.
  - do 2 f_equal. unfold q_on_items. change (q_items (set_q_hashes y3 q2)) with (map lused pre ++ s :: u ++ [set_x_used true i]).
    assert (ES : set_nth (length pre) (set_x_used true) (map lused pre ++ s :: u ++ [set_x_used true i]) = map lused pre ++ set_x_used true s :: u ++ [set_x_used true i]).
    { rewrite <- (map_length lused pre). apply set_nth_at. }
    rewrite ES. reflexivity.
Qed.
End Gop.

(** The list after a validation that found everything in order. *)
Definition validated (h : list (list N)) (y : list N) (i : litem) (L : list litem) : Prop :=
  exists pre i', L = pre ++ [i'] /\ Forall ldone pre /\ length (filter (fun it => vstat_eqb (x_status it) SValid) pre) = S (length h) /\
    lkept y i' /\ x_nalu i' = x_nalu i /\ x_own i' = x_own i.

Lemma validated_list h pre u i s' i' y : uses hs h pre -> Forall lcalm u -> ldone s' -> x_status s' = SValid -> lkept y i' -> x_nalu i' = x_nalu i -> x_own i' = x_own i ->
  validated h y i (map lvalid pre ++ s' :: u ++ [i']).
Proof.
  intros U F S1 S2 K N1 N2. destruct (valid_done hs h pre U) as (D1 & D2).
  exists (map lvalid pre ++ s' :: u), i'. split; [rewrite <- app_assoc; reflexivity|]. split.
  - apply Forall_app. split; [exact D1|]. constructor; [exact S1|]. eapply Forall_impl; [|exact F]. intros it. apply calm_done.
  - split; [|repeat split; assumption]. rewrite filter_app, app_length, D2. cbn [filter]. rewrite S2. cbn [vstat_eqb length].
    assert (X : length (filter (fun it : litem => vstat_eqb (x_status it) SValid) u) = O).
    { clear -F. induction F as [|it u (n & _ & _ & _ & [X|X] & _) _ IH]; [reflexivity| |]; cbn [filter]; rewrite X; exact IH. }
    rewrite X. lia.
Qed.

(** The list of hashes of the SEI matches. *)
Lemma with_list h pre s u i x y q : uses hs h pre -> lsei s -> x_own s = true -> Forall lcalm u -> lfresh y i -> x_used i = false -> hash_to_use hs i = Def x ->
  gdec (q_dec q) -> d_list (q_dec q) = concat (h ++ [x]) -> q_verified q = 1%Z -> q_items q = pre ++ s :: u ++ [i] ->
  exists L, l_with_list q = Def (set_q_items L q, true, Z.of_nat (length h) + 1, Z.of_nat (length h) + 1)%Z /\ validated h y i L.
Proof.
  intros U S SO F I IU EX G EL EV EI. pose proof o_small as [Hs0 _].
  unfold l_with_list. assert (QH : qhs q = hs) by exact (gd_vhs _ _ _ G). rewrite QH.
  destruct (Nat.eqb_spec hs 0) as [X|_]; [lia|].
  assert (FL : Forall (fun e => length e = hs) (h ++ [x])).
  { apply Forall_app. split; [exact (uses_len _ _ _ U)|]. constructor; [exact (use_len _ _ _ EX)|constructor]. }
  assert (LC : length (concat (h ++ [x])) = (length (h ++ [x]) * hs)%nat).
  { clear -FL. induction FL as [|e l E _ IH]; [reflexivity|]. cbn [concat length]. rewrite app_length, IH, E. lia. }
  assert (EC : chunks (length (d_list (q_dec q)) / hs) hs (d_list (q_dec q)) = h ++ [x]).
  { rewrite EL, LC, Nat.div_mul by lia. rewrite <- (app_nil_r (concat (h ++ [x]))). apply chunks_app; [lia|exact FL]. }
  rewrite EC, EI. rewrite (next_at pre (plain_nosei _ (uses_plain _ _ _ U)) s _ S). cbn [obind]. rewrite EV. cbn [Z.eqb Pos.eqb].
  rewrite (list_loop_gop hs h pre s u i x y U S F I EX). cbn [obind e_latest e_compare e_last e_num e_inv].
  assert (EN : (Z.of_nat (length h) =? -1)%Z = false) by lia. rewrite EN, Z.eqb_refl.
  assert (LX : Z.of_nat (length (h ++ [x])) = (Z.of_nat (length h) + 1)%Z) by (rewrite app_length; cbn [length]; lia). rewrite LX.
  assert (EU : (Z.of_nat (length h) + 1 - 1 - Z.of_nat (length h) - 1)%Z = (-1)%Z) by lia. rewrite EU. cbn [Z.leb Z.compare].
  unfold l_add_missing. cbn [Z.to_nat repeat app]. rewrite firstn_skipn.
  destruct (valid_done hs h pre U) as (D1 & D2).
  rewrite (on_sei_at _ _ _ _ (done_nosei _ D1) S). cbn [obind].
  eexists. split; [reflexivity|].
  apply (validated_list h pre u); try assumption; try reflexivity.
  - destruct S as (n & E1 & E2 & E3 & E4 & E5 & E6 & E7 & _). exists n. repeat (split; [assumption|]). left. reflexivity.
  - destruct I as (m & I1 & I2 & I3 & I4 & I5 & I6 & I7 & I8). exists m. repeat (split; [assumption || reflexivity|]). exact IU.
Qed.

(** The hash of the GOP matches. *)
Lemma with_gop h pre s u i y q n : uses hs h pre -> lsei s -> x_own s = true -> Forall lcalm u -> lfresh y i ->
  q_verified q = 1%Z -> q_items q = map lused pre ++ set_x_used true s :: u ++ [set_x_used true i] -> d_num_sent (q_dec q) = n mod 2 ^ 16 -> n = N.of_nat (length h) + 1 ->
  exists L, l_with_gop q = Def (set_q_items L q, true, Z.of_N (n mod 2 ^ 16), Z.of_nat (length h) + 1)%Z /\ validated h y i L.
Proof.
  intros U S SO F I EV EI EN0 EN. unfold l_with_gop. rewrite EV. cbn [Z.eqb Pos.eqb orb]. rewrite EN0.
  set (i' := set_x_used false (set_x_bad false (set_x_need true (set_x_used true i)))).
  set (s' := set_x_used false (set_x_need false (set_x_status SValid (set_x_used true s)))).
  assert (EM : l_mark_used SValid (q_items q) = (map lvalid pre ++ s' :: u ++ [i'], Z.of_nat (length h) + 1)%Z).
  { rewrite EI, mark_app, (mark_uses hs h pre U). change (set_x_used true s :: u ++ [set_x_used true i]) with ([set_x_used true s] ++ u ++ [set_x_used true i]).
    rewrite !mark_app, (mark_calms _ u F). cbn [fst snd l_mark_used x_used set_x_used].
    destruct S as (ns & E1 & E2 & E3 & E4 & E5 & E6 & E7 & E8 & E9). destruct I as (m & I1 & I2 & I3 & I4 & I5 & I6 & I7 & I8).
    assert (HS1 : x_has2 (set_x_used true s) && negb (x_need (set_x_used true s)) = false).
    { unfold x_has2. change (x_second (set_x_used true s)) with (x_second s). rewrite E9. reflexivity. }
    assert (HS2 : x_has2 (set_x_used true i) && negb (x_need (set_x_used true i)) = true).
    { unfold x_has2. change (x_second (set_x_used true i)) with (x_second i). change (x_need (set_x_used true i)) with (x_need i). rewrite I6, I8. reflexivity. }
    rewrite HS1, HS2. change (x_bad (set_x_used true s)) with (x_bad s). rewrite E8.
    cbn [vstat_eqb negb fst snd]. f_equal; lia. }
  rewrite EM.
  assert (VL : validated h y i (map lvalid pre ++ s' :: u ++ [i'])).
  { apply (validated_list h pre u); try assumption; try reflexivity.
    - destruct S as (ns & E1 & E2 & E3 & E4 & E5 & E6 & E7 & _). exists ns. repeat (split; [assumption || reflexivity|]). left. reflexivity.
    - destruct I as (m & I1 & I2 & I3 & I4 & I5 & I6 & I7 & I8). exists m. repeat (split; [assumption || reflexivity|]). reflexivity. }
  exists (map lvalid pre ++ s' :: u ++ [i']). split; [|exact VL].
  destruct (l_first_used (q_items q)) as [k|] eqn:EF; [|reflexivity].
  change (q_first (set_q_items _ q)) with (q_first q). destruct (q_first q); [reflexivity|].
  assert (LK : (k < length (map lvalid pre ++ s' :: u ++ [i']))%nat).
  { pose proof (f_equal (fun l => length (fst l)) EM) as X. cbn [fst] in X. rewrite <- X.
    pose proof (f_equal (@length _) (mark_nalu SValid (q_items q))) as Y. rewrite !map_length in Y. rewrite Y. exact (first_used_lt _ _ EF). }
  destruct (nth_error (map lvalid pre ++ s' :: u ++ [i']) k) as [it|] eqn:EK; [|apply nth_error_None in EK; lia].
  assert (NK : exists m, x_nalu it = NOk m).
  { destruct VL as (p0 & i0 & E0 & D0 & _ & (m & K1 & _) & _). rewrite E0 in EK. apply nth_error_In in EK. apply in_app_iff in EK as [EK|[<-|[]]]; [|exists m; exact K1].
    rewrite Forall_forall in D0. destruct (D0 _ EK) as (m2 & X & _). exists m2. exact X. }
  destruct NK as (m & NK). rewrite NK. cbn [deref obind]. do 3 f_equal.
  unfold q_on_items, l_add_missing. assert (EZ : Z.to_nat (Z.of_N (n mod 2 ^ 16) - (Z.of_nat (length h) + 1)) = O).
  { assert (n mod 2 ^ 16 <= n) by (apply N.mod_le; discriminate). lia. }
  rewrite EZ. cbn [repeat app]. rewrite firstn_skipn. reflexivity.
Qed.

End LVal.

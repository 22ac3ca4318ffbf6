(** Checking a GOP with SEIs in the right format: lemmas on a session. *)
From Verif Require Import Base BaseProofs Nalu Crypto Types Hash VTypes NaluList Validator MatchSpec MatchProofs SignerProofs SafeSpec SafeDec SafeList SafeRound.
Local Open Scope N_scope.

Lemma put_ok off dst src : (off + length src <= length dst)%nat -> exists y, put_at off dst src = Def y /\ length y = length dst.
Proof.
  intros H. unfold put_at. destruct (Nat.leb_spec (off + length src) (length dst)); [|lia]. eexists. split; [reflexivity|].
  rewrite !app_length, firstn_length, skipn_length. lia.
Qed.
Lemma shift_ok k links x : (2 * k <= length links)%nat -> length x = k -> exists y, shift_linked k links x = Def y /\ length y = length links.
Proof.
  intros H1 H2. unfold shift_linked. destruct (put_ok 0 links (firstn k (skipn k links))) as (y & -> & L1); [rewrite firstn_length, skipn_length; lia|]. cbn [obind].
  destruct (put_ok k y x) as (z & -> & L2); [lia|]. exists z. split; [reflexivity|lia].
Qed.

(** ** Linking *)
Definition notfirst (it : item) : Prop := i_used it = true -> forall n, i_nalu it = Some n -> n_first_in_gop n = false.
Lemma find_link_ok l : Forall (fun it => i_used it = true -> i_nalu it <> None) l ->
  (exists a x b n, find_link l = Def (Some (length a)) /\ l = a ++ x :: b /\ i_used x = true /\ i_nalu x = Some n /\ n_first_in_gop n = true /\ Forall notfirst a) \/
  (find_link l = Def None /\ Forall notfirst l).
Proof.
  induction 1 as [|it l H HF IH]; cbn [find_link]; [right; split; [reflexivity|constructor]|]. destruct (i_used it) eqn:EU.
  - destruct (i_nalu it) as [n|] eqn:EN; [|exfalso; apply H; reflexivity]. destruct (n_first_in_gop n) eqn:EF.
    + left. exists [], it, l, n. cbn. auto 10.
    + assert (NF : notfirst it) by (intros _ m E; congruence). destruct IH as [(a & x & b & m & E & -> & R)|[E R]]; rewrite E; cbn [obind option_map].
      * left. exists (it :: a), x, b, m. cbn [length app]. split; [reflexivity|]. split; [reflexivity|]. destruct R as (R1 & R2 & R3 & R4). auto.
      * right. auto.
  - assert (NF : notfirst it) by (intros X; congruence). destruct IH as [(a & x & b & m & E & -> & R)|[E R]]; rewrite E; cbn [obind option_map].
    + left. exists (it :: a), x, b, m. cbn [length app]. split; [reflexivity|]. split; [reflexivity|]. destruct R as (R1 & R2 & R3 & R4). auto.
    + right. auto.
Qed.
Lemma set_nth_app {A} (f : A -> A) a x b : set_nth (length a) f (a ++ x :: b) = a ++ f x :: b.
Proof. unfold set_nth. rewrite skipn_app, skipn_all, Nat.sub_diag. cbn [skipn app]. rewrite firstn_app, firstn_all, Nat.sub_diag. cbn [firstn]. rewrite app_nil_r. reflexivity. Qed.
Lemma nth_app {A} (a : list A) x b : nth_error (a ++ x :: b) (length a) = Some x.
Proof. rewrite nth_error_app2, Nat.sub_diag by lia. reflexivity. Qed.

(** What a check leaves alone. *)
Definition frm (v : valid) := (v_dec v, v_buddies v, v_has_ref v, v_computed v, v_hash v, v_legacy v, v_signing v, v_codec v, v_gs v, v_first v, v_verified v, v_started v).

Section Check.
Context {KK : okkeys}.
Variable C : crypto.
Hypothesis HC : crypto_ok C.
Variable Ov : ovf.
Variable oid : list N.
Variable hs : nat.
Hypothesis HS : (0 < hs <= 64)%nat.
Notation base := (base_ok C oid hs).
Notation kn v := (d_algo_known (v_dec v)).

(** A link changes one item. *)
Definition relinked (l l' : list item) : Prop := l' = l \/ exists a x b, i_used x = true /\ l = a ++ x :: b /\ l' = a ++ set_i_linked true x :: b.
Lemma link_ok v : Forall (base (kn v)) (v_items v) -> Forall used_ok (v_items v) -> (kn v = true -> vhs v = hs) -> length (v_links v) = 128%nat ->
  exists v', update_link v = Def v' /\ frm v' = frm v /\ v_synced v' = v_synced v /\ length (v_links v') = 128%nat /\ relinked (v_items v) (v_items v') /\
    (forall it n, In it (v_items v') -> i_used it = true -> i_nalu it = Some n -> n_first_in_gop n = true -> pass (marks pending (filter i_used (v_items v))) -> i_linked it = true).
Proof.
  intros HB HU HK HL. unfold update_link.
  assert (UN : Forall (fun it => i_used it = true -> i_nalu it <> None) (v_items v)).
  { rewrite Forall_forall in *. intros it HI EU E. destruct (base_pending _ _ _ _ _ (HB it HI) (HU it HI EU)) as (n & EN). congruence. }
  destruct (find_link_ok _ UN) as [(a & x & b & n & -> & EL & X1 & X2 & X3 & NF)|[-> NF]]; cbn [obind].
  2:{ exists v. repeat (split; [first [reflexivity|assumption|left; reflexivity]|]). intros it n HI EU EN EF _. rewrite Forall_forall in NF. rewrite (NF it HI EU n EN) in EF. discriminate. }
  assert (LK : forall it n x', relinked (v_items v) (a ++ x' :: b) -> In it (a ++ x' :: b) -> i_used it = true -> i_nalu it = Some n -> n_first_in_gop n = true -> i_linked x' = true ->
            pass (marks pending (filter i_used (v_items v))) -> i_linked it = true).
  { intros it m x' _ HI EU EN EF LX PS. apply in_app_or in HI as [HI|[<-|HI]]; [|exact LX|].
    - rewrite Forall_forall in NF. rewrite (NF it HI EU m EN) in EF. discriminate.
    - exfalso. rewrite EL in PS, HU. rewrite filter_app in PS. cbn [filter] in PS. rewrite X1 in PS. rewrite marks_app in PS.
      assert (PX : pending x = true) by (apply (proj1 (Forall_forall _ _) HU); [apply in_or_app; right; left; reflexivity|exact X1]).
      assert (PI : pending it = true) by (apply (proj1 (Forall_forall _ _) HU); [apply in_or_app; right; right; exact HI|exact EU]).
      rewrite marks_cons, PX in PS. cbn [app] in PS.
      assert (FX : In (flags it) (marks pending (filter i_used b))).
      { unfold marks. apply in_map, filter_In. split; [apply filter_In; auto|exact PI]. }
      assert (FI : flags it = (true, n_gop_sei m)) by (unfold flags; rewrite EN, EF; reflexivity). rewrite FI in FX.
      assert (FA : Forall (eq (false, false)) (marks pending (filter i_used b))).
      { destruct (marks pending (filter i_used a)) as [|f r]; cbn [app] in PS; destruct PS as [_ PS]; [exact PS|]. apply Forall_app in PS as [_ PS]. apply Forall_cons_iff in PS as [_ PS]. exact PS. }
      rewrite Forall_forall in FA. specialize (FA _ FX). discriminate. }
  replace (nth_error (v_items v) (length a)) with (Some x) by (rewrite EL, nth_app; reflexivity). destruct (i_linked x) eqn:EX.
  { exists v. repeat (split; [first [reflexivity|assumption|left; reflexivity]|]). intros it m HI EU EN EF PS. rewrite EL in HI. eapply (LK it m x); try eassumption. left. auto. }
  assert (UL : exists v1, update_links v (i_second x) = Def v1 /\ frm v1 = frm v /\ v_synced v1 = v_synced v /\ v_items v1 = v_items v /\ length (v_links v1) = 128%nat).
  { unfold update_links. destruct (i_second x) as [y|] eqn:ES; [|exists v; auto 10].
    assert (BX : base (kn v) x) by (apply (proj1 (Forall_forall _ _) HB); rewrite EL; apply in_or_app; right; left; reflexivity).
    destruct BX as (_ & _ & B3 & _). destruct (B3 y ES) as [K L]. rewrite (HK K). rewrite read_ok by lia. cbn [obind].
    destruct (shift_ok hs (v_links v) (firstn hs y)) as (z & -> & LZ); [lia|rewrite firstn_length; lia|]. cbn [obind]. eexists. split; [reflexivity|]. repeat split; try reflexivity. cbn [set_v_links v_links]. lia. }
  destruct UL as (v1 & -> & F1 & F2 & F3 & F4). cbn [obind]. eexists. split; [reflexivity|]. split; [exact F1|]. split; [exact F2|]. split; [exact F4|].
  unfold on_items. cbn [set_v_items v_items]. rewrite F3, EL, set_nth_app. split; [right; exists a, x, b; auto|].
  intros it m HI EU EN EF PS. rewrite <- EL in PS. eapply (LK it m (set_i_linked true x)); try eassumption; [|reflexivity]. rewrite EL. right. exists a, x, b. auto.
Qed.

(** The items before the SEI [p] and the others [q], after linking. *)
Record lined_up (p q : list item) : Prop := mkLined {
  lu_lined : Forall lined p;
  lu_base : Forall (base true) (p ++ q);
  lu_used : Forall used_ok p;
  lu_fresh : Forall fresh q;
  lu_next : next_sei q <> None;
  lu_pass : pass (marks pending p);
  lu_head : p = [] -> exists x q', q = x :: q' /\ item_sei x = true
}.
Lemma pass_nosei p : pass (marks pending p) -> forall it n, In it p -> pending it = true -> i_nalu it = Some n -> n_gop_sei n = false.
Proof.
  intros HP it n HI EP EN. assert (F : In (flags it) (marks pending p)) by (unfold marks; apply in_map, filter_In; auto).
  unfold flags in F. rewrite EN in F. destruct (marks pending p) as [|f r]; [destruct F|]. destruct HP as [H1 H2]. destruct F as [->|F]; [exact H1|].
  rewrite Forall_forall in H2. specialize (H2 _ F). congruence.
Qed.
Lemma fresh_unused q : Forall fresh q -> Forall (fun it => i_used it = false) q.
Proof. apply Forall_impl. intros it [H _]. exact H. Qed.
Lemma fresh_some q : Forall fresh q -> Forall (fun it => i_nalu it <> None) q.
Proof. apply Forall_impl. intros it [_ H]. exact H. Qed.
Lemma filter_fresh q : Forall fresh q -> filter i_used q = [].
Proof. induction 1 as [|x q [H _] HF IH]; [reflexivity|]. cbn [filter]. rewrite H. exact IH. Qed.
Lemma linked_same x : flags (set_i_linked true x) = flags x /\ pending (set_i_linked true x) = pending x.
Proof. auto. Qed.
Lemma marks_linked f a x b : (forall y, f (set_i_linked true y) = f y) -> marks f (a ++ set_i_linked true x :: b) = marks f (a ++ x :: b).
Proof. intros H. rewrite !marks_app, !marks_cons, H. reflexivity. Qed.

Lemma lined_up_ok v p q l : kn v = true -> vhs v = hs -> length (v_links v) = 128%nat -> v_items v = p ++ q -> taken p q -> Forall (base true) (p ++ q) -> Forall used_ok p ->
  next_sei q <> None -> v_items v = l ->
  exists v', update_link v = Def v' /\ frm v' = frm v /\ v_synced v' = v_synced v /\ length (v_links v') = 128%nat /\
    exists p', v_items v' = p' ++ q /\ lined_up p' q /\ marks sel p' = marks sel p /\ marks pending p' = marks pending p /\ Forall2 (fun x y => i_nalu y = i_nalu x /\ i_status y = i_status x) p p'.
Proof.
  intros HK HV HL HI (T1 & T2 & T3 & T4 & T5) HB HU HN _.
  assert (HU2 : Forall used_ok (p ++ q)).
  { apply Forall_app. split; [exact HU|]. eapply Forall_impl; [|exact T2]. intros it [F _] X. congruence. }
  destruct (link_ok v) as (v' & E & F1 & F2 & F3 & F4 & F5); [rewrite HI, HK; exact HB|rewrite HI; exact HU2|auto|exact HL|].
  exists v'. split; [exact E|]. split; [exact F1|]. split; [exact F2|]. split; [exact F3|].
  assert (PS : pass (marks pending (filter i_used (v_items v)))).
  { rewrite HI, filter_app, (filter_fresh q T2), app_nil_r. eapply pass_subseq; [|exact T3]. clear.
    induction p as [|x p IH]; [constructor|]. cbn [filter]. destruct (i_used x); rewrite !marks_cons; [apply subseq_sel; auto|apply subseq_app_l, IH]. }
  assert (SH : exists p', v_items v' = p' ++ q /\ (p' = p \/ exists a x b, p = a ++ x :: b /\ p' = a ++ set_i_linked true x :: b)).
  { destruct F4 as [->|(a & x & b & UX & EA & ->)]; [exists p; auto|]. rewrite HI in EA. symmetry in EA. apply app_split in EA as [(z & -> & EZ)|(z & -> & EZ)].
    - destruct z as [|y z]; cbn [app] in EZ.
      + subst q. apply Forall_cons_iff in T2 as [[T2 _] _]. congruence.
      + injection EZ as -> ->. exists (a ++ set_i_linked true y :: z). rewrite <- app_assoc. cbn [app]. split; [reflexivity|]. right. eauto.
    - rewrite EZ in T2. apply Forall_app in T2 as [_ T2]. apply Forall_cons_iff in T2 as [[T2 _] _]. congruence. }
  destruct SH as (p' & EI & SH). exists p'. split; [exact EI|].
  assert (M : forall f, (forall y, f (set_i_linked true y) = f y) -> marks f p' = marks f p).
  { intros f Hf. destruct SH as [->|(a & x & b & -> & ->)]; [reflexivity|]. apply marks_linked, Hf. }
  assert (FA : forall P : item -> Prop, (forall y, P y -> P (set_i_linked true y)) -> Forall P p -> Forall P p').
  { intros P HPp HF. destruct SH as [->|(a & x & b & -> & ->)]; [exact HF|]. apply Forall_app in HF as [H1 H2]. apply Forall_cons_iff in H2 as [H2 H3]. apply Forall_app. auto. }
  split; [|split; [apply M; reflexivity|split; [apply M; reflexivity|]]].
  2:{ assert (RR : forall k : list item, Forall2 (fun x y => i_nalu y = i_nalu x /\ i_status y = i_status x) k k) by (induction k; constructor; auto).
      destruct SH as [->|(a & x & b & -> & ->)]; [apply RR|]. apply Forall2_app; [apply RR|]. constructor; [split; reflexivity|apply RR]. }
  apply Forall_app in HB as [HBp HBq].
  assert (HBp' : Forall (base true) p').
  { apply FA; [|exact HBp]. intros y HY. apply (base_same _ _ _ _ y); try reflexivity; [|exact HY]. intros EY. destruct HY as (B1 & _). rewrite EY in B1. exact B1. }
  assert (T1' : Forall (fun it => pending it = true -> i_used it = true) p') by (apply FA; auto).
  assert (T4' : Forall ready p') by (apply FA; auto).
  constructor.
  - rewrite Forall_forall in *. intros it HIn EP. split; [auto|]. intros n EN. split; [|intros EF; split].
    + eapply (pass_nosei p'); try eassumption. rewrite M by reflexivity. exact T3.
    + eapply (F5 it n); try eassumption; [rewrite EI; apply in_or_app; auto|auto].
    + exact (T4' it HIn EP n EN EF).
  - apply Forall_app. auto.
  - apply FA; [|exact HU]. auto.
  - exact T2.
  - exact HN.
  - rewrite M by reflexivity. exact T3.
  - intros E0. assert (EP0 : p = []) by (destruct SH as [<-|(a & x & b & -> & ->)]; [exact E0|destruct a; discriminate]). subst p.
    destruct T5 as [->|(x & q' & -> & X1 & X2)]; [exfalso; apply HN; reflexivity|]. exists x, q'. split; [reflexivity|]. cbn [app] in X2. rewrite marks_cons, X1 in X2. cbn [marks filter map app] in X2.
    destruct (item_sei x) eqn:ES; [reflexivity|]. exfalso. apply X2. split; [|constructor]. unfold flags. unfold item_sei in ES. destruct (i_nalu x); [exact ES|reflexivity].
Qed.

(** ** The verdict *)
Definition solid (l : list item) : Prop := exists it, In it l /\ i_nalu it <> None /\ i_status it <> SMiss.
Lemma on_next_solid st q : st <> SMiss -> next_sei q <> None -> solid (on_next_sei (set_i_status st) q).
Proof.
  intros HST. unfold next_sei. induction q as [|x q IH]; cbn [find on_next_sei]; [congruence|]. destruct (item_sei x && pending x) eqn:E.
  - intros _. exists (set_i_status st x). split; [left; reflexivity|]. split; [|exact HST]. cbn. apply andb_prop in E as [E _]. unfold item_sei in E. destruct (i_nalu x); [discriminate|discriminate E].
  - intros H. destruct (IH H) as (y & Y1 & Y2). exists y. split; [right; exact Y1|exact Y2].
Qed.
Lemma solid_app a q : solid q -> solid (a ++ q).
Proof. intros (x & X & Y). exists x. split; [apply in_or_app; auto|exact Y]. Qed.
Definition settled (first : bool) (p : list item) (l : list item) : Prop :=
  tidy l /\ Forall (base true) l /\ solid l /\ (first = true -> exists a b, l = a ++ b /\ subseq (marks sel a) (marks sel p) /\ Forall fresh b).
Lemma done_settled first p a q : done C oid hs p a -> Forall fresh q -> Forall (base true) q -> solid q -> settled first p (a ++ q).
Proof.
  intros [D1 D2 D3 _] HF HB HSo. split; [exists a, q; split; [reflexivity|]; split; [exact D1|apply fresh_some, HF]|]. split; [apply Forall_app; auto|]. split; [apply solid_app, HSo|]. intros _. exists a, q. auto.
Qed.

Lemma list_ok_v v p q order : vhs v = hs -> v_items v = p ++ q -> lined_up p q ->
  exists v' b e r, verify_list v order = Def (v', b, e, r) /\ frm v' = frm v /\ v_synced v' = v_synced v /\ v_links v' = v_links v /\ forall first, settled first p (v_items v').
Proof.
  intros HV HI [L1 L2 L3 L4 L5 L6 L7]. apply Forall_app in L2 as [LP LQ]. unfold verify_list. rewrite HV.
  destruct (Nat.eqb_spec hs 0); [lia|]. rewrite HI. rewrite (next_app p q) by (eapply lined_nosei; eassumption).
  destruct (next_sei q) as [sei|] eqn:EN; [|congruence].
  destruct (hl_done C oid hs HS (expected_hashes v) p 0 false (mkHl (-1) 0 0 0 order None) q L1 LP (fresh_unused q L4)) as (s & a & -> & D & K). cbn [obind].
  set (num := Z.of_nat _).
  assert (G1 : exists a1, (if (h_latest s =? -1)%Z then match a ++ q with [] => Undef NullDeref | it :: _ =>
       Def (add_missing (num - h_inv s) (match i_second it with Some _ => true | None => false end) 0 (a ++ q)) end else Def (a ++ q)) = Def (a1 ++ q) /\ done C oid hs p a1 /\ (length a <= length a1)%nat).
  { destruct (h_latest s =? -1)%Z; [|exists a; auto].
    destruct a as [|x a]; cbn [app].
    - assert (p = []) as -> by (destruct p; [reflexivity|exfalso; apply (dn_some _ _ _ _ _ D); [discriminate|reflexivity]]).
      destruct (L7 eq_refl) as (x & q' & -> & SX). apply Forall_cons_iff in LQ as [(_ & _ & _ & B4) _]. rewrite (B4 SX).
      destruct (done_missing C oid hs HS [] [] (x :: q') (num - h_inv s) false 0 D) as (a' & E & D' & LE); [cbn; lia|]. cbn [app] in E. rewrite E. exists a'. auto.
    - set (ap := match i_second x with Some _ => true | None => false end).
      destruct (done_missing C oid hs HS p (x :: a) q (num - h_inv s) ap 0 D) as (a' & E & D' & LE); [cbn [length]; destruct ap; lia|]. cbn [app] in E. rewrite E. exists a'. auto. }
  destruct G1 as (a1 & -> & D1 & LE). cbn [obind].
  assert (G2 : exists a2, (if (h_latest s =? h_compare s)%Z then match h_last s with Some k => add_missing (num - 1 - h_latest s) true k (a1 ++ q) | None => a1 ++ q end else a1 ++ q) = a2 ++ q /\ done C oid hs p a2).
  { destruct (_ =? _)%Z; [|exists a1; auto]. destruct K as [K|(k & K1 & K2)]; [rewrite K; exists a1; auto|]. rewrite K1.
    destruct (done_missing C oid hs HS p a1 q (num - 1 - h_latest s) true k D1) as (a2 & -> & D2 & _); [lia|]. exists a2. auto. }
  destruct G2 as (a2 & -> & D2). rewrite (on_next_app _ a2 q) by (apply still_nosei, (dn_still _ _ _ _ _ D2)).
  do 4 eexists. split; [reflexivity|]. do 3 (split; [reflexivity|]). intros first. cbn [set_v_items v_items].
  apply done_settled; [exact D2|apply on_next_fresh, L4|apply on_next_base, LQ|apply on_next_solid; congruence].
Qed.

Lemma first_used_in p q : Forall (fun it => i_used it = false) q -> forall k, first_used (p ++ q) = Some k ->
  exists it, nth_error p k = Some it /\ i_used it = true.
Proof.
  intros HQ. induction p as [|it p IH]; cbn [app first_used].
  - assert (E : first_used q = None) by (induction HQ as [|x q H HQ IH]; cbn [first_used]; [reflexivity|]; rewrite H, IH; reflexivity). rewrite E. discriminate.
  - destruct (i_used it) eqn:EU; [intros k E; injection E as <-; exists it; auto|]. intros k. destruct (first_used (p ++ q)) as [j|]; [|discriminate].
    cbn [option_map]. intros E. injection E as <-. apply IH. reflexivity.
Qed.

Definition fin (v : valid) (s : vstat) (exp : Z) : out (valid * bool * Z * Z) :=
    let fu := first_used (v_items v) in
    do (v, num) <- (if (v_verified v =? 1)%Z then
                      match next_sei (v_items v) with
                      | None => Def (v, (-1)%Z)
                      | Some _ =>
                          do (l, k) <- mark_used s (v_items v);
                          Def (set_v_items (on_next_sei (set_i_status SValid) l) v, k)
                      end
                    else do (l, k) <- mark_used s (v_items v); Def (set_v_items l v, k));
    match fu with
    | Some k =>
        if v_first v then Def (v, false, exp, num)
        else
          match nth_error (v_items v) k with
          | Some it =>
              match i_nalu it with
              | None => Undef NullDeref
              | Some n => Def (on_items (add_missing (exp - num) (n_first_in_gop n) k) v, false, exp, num)
              end
          | None => Def (v, false, exp, num)
          end
    | None => Def (v, false, exp, num)
    end.
Lemma verify_with_eq v : verify_with v =
  if (v_verified v =? 1)%Z then
    if negb (gop_ok v && linked_ok v) && (0 <? nlen (d_list (v_dec v))) then verify_list v (linked_ok v)
    else fin v (if gop_ok v && linked_ok v then SValid else SInvalid) (Z.of_N (d_num_sent (v_dec v)))
  else
    match next_sei (v_items v) with
    | None => Undef NullDeref
    | Some _ =>
        if (v_verified v =? 0)%Z then fin (on_items (on_next_sei (set_i_status SInvalid)) v) SInvalid (-1)%Z
        else do (v, f) <- verify_without (on_items remove_used (on_items (on_next_sei (set_i_status SErr)) v)); Def (v, f, -1, -1)%Z
    end.
Proof. reflexivity. Qed.

Lemma with_ok v p q : vhs v = hs -> v_items v = p ++ q -> lined_up p q -> (v_verified v = 0%Z \/ v_verified v = 1%Z) ->
  exists v' b e r, verify_with v = Def (v', b, e, r) /\ frm v' = frm v /\ v_synced v' = v_synced v /\ v_links v' = v_links v /\ forall first, settled first p (v_items v').
Proof.
  intros HV HI LU HVE. rewrite verify_with_eq.
  assert (FIN : forall w q' s exp, pending (set_i_status s missing_item) = false -> v_items w = p ++ q' -> Forall fresh q' -> Forall (base true) q' -> (v_verified w = 1%Z -> next_sei q' <> None) -> (v_verified w <> 1%Z -> solid q') ->
     exists v' b e r, fin w s exp = Def (v', b, e, r) /\ frm v' = frm w /\ v_synced v' = v_synced w /\ v_links v' = v_links w /\ forall first, settled first p (v_items v')).
  { intros w q' s exp HST HW HF HB HNX HSX. destruct LU as [L1 L2 L3 L4 L5 L6 L7]. apply Forall_app in L2 as [LP LQ]. unfold fin. cbv zeta. rewrite HW.
    destruct (mark_done C oid hs s p q' HST L1 LP (fresh_unused q' HF)) as (a & k & EM & D & LA & NA). rewrite EM.
    assert (X : exists w1 num q2, (if (v_verified w =? 1)%Z then match next_sei (p ++ q') with None => Def (w, (-1)%Z)
        | Some _ => do (l, k) <- Def (a ++ q', k); Def (set_v_items (on_next_sei (set_i_status SValid) l) w, k) end
        else do (l, k) <- Def (a ++ q', k); Def (set_v_items l w, k)) = Def (w1, num) /\ frm w1 = frm w /\ v_synced w1 = v_synced w /\ v_links w1 = v_links w /\ v_first w1 = v_first w /\
        v_items w1 = a ++ q2 /\ Forall fresh q2 /\ Forall (base true) q2 /\ solid q2).
    { destruct (Z.eqb_spec (v_verified w) 1) as [E1|E1].
      - rewrite (next_app p q') by (eapply lined_nosei; eassumption). destruct (next_sei q') eqn:EN; [|exfalso; apply (HNX E1); reflexivity]. cbn [obind].
        rewrite (on_next_app _ a q') by (apply still_nosei, (dn_still _ _ _ _ _ D)). do 3 eexists. split; [reflexivity|]. do 4 (split; [reflexivity|]). split; [reflexivity|].
        split; [apply on_next_fresh, HF|]. split; [apply on_next_base, HB|apply on_next_solid; congruence].
      - cbn [obind]. do 3 eexists. split; [reflexivity|]. do 4 (split; [reflexivity|]). split; [reflexivity|]. auto. }
    destruct X as (w1 & num & q2 & -> & X1 & X2 & X3 & X4 & X5 & X6 & X7 & X8). cbn [obind].
    assert (DONE : exists v' b e r, Def (w1, false, exp, num) = Def (v', b, e, r) /\ frm v' = frm w /\ v_synced v' = v_synced w /\ v_links v' = v_links w /\ forall first, settled first p (v_items v')).
    { do 4 eexists. split; [reflexivity|]. do 3 (split; [assumption|]). intros first. rewrite X5. apply done_settled; assumption. }
    destruct (first_used (p ++ q')) as [j|] eqn:EF; [|exact DONE]. destruct (v_first w1); [exact DONE|].
    destruct (first_used_in p q' (fresh_unused q' HF) j EF) as (it & NI & UI).
    assert (LJ : (j < length p)%nat) by (apply nth_error_Some; congruence).
    rewrite X5, nth_error_app1 by lia. destruct (nth_error a j) as [it2|] eqn:NJ; [|apply nth_error_None in NJ; lia].
    assert (EN2 : i_nalu it2 = i_nalu it).
    { apply (f_equal (fun l => nth_error l j)) in NA. rewrite !nth_error_map, NI, NJ in NA. cbn in NA. congruence. }
    assert (IN : In it p) by (eapply nth_error_In; eassumption).
    destruct (base_pending C oid hs true it) as (n & EN); [apply (proj1 (Forall_forall _ _) LP); exact IN|apply (proj1 (Forall_forall _ _) L3); assumption|].
    rewrite EN2, EN. destruct (done_missing C oid hs HS p a q2 (exp - num) (n_first_in_gop n) j D) as (a' & EA & D' & _); [destruct (n_first_in_gop n); lia|].
    do 4 eexists. split; [reflexivity|]. do 3 (split; [assumption|]). intros first. unfold on_items. cbn [set_v_items v_items]. rewrite X5, EA. apply done_settled; assumption. }
  pose proof (lu_fresh _ _ LU) as LF. pose proof (lu_next _ _ LU) as LN. pose proof (lu_base _ _ LU) as LB. apply Forall_app in LB as [LBp LBq].
  destruct (Z.eqb_spec (v_verified v) 1) as [E1|E1].
  - destruct (_ && _); [apply (list_ok_v v p q); assumption|]. apply (FIN v q); auto; [destruct (_ && _); reflexivity|congruence].
  - destruct HVE as [E0|E0]; [|congruence]. rewrite E0. rewrite HI. rewrite (next_app p q) by (eapply lined_nosei; [exact LBp|apply (lu_lined _ _ LU)]).
    pose proof (on_next_solid SInvalid q ltac:(discriminate) LN) as SLD. destruct (next_sei q); [|congruence]. change (0 =? 0)%Z with true. cbv iota.
    set (w := on_items (on_next_sei (set_i_status SInvalid)) v).
    destruct (FIN w (on_next_sei (set_i_status SInvalid) q) SInvalid (-1)%Z) as (v' & b & e & r & R).
    + reflexivity.
    + subst w. unfold on_items. cbn [set_v_items v_items]. rewrite HI. apply on_next_app. eapply lined_nosei; [exact LBp|apply (lu_lined _ _ LU)].
    + apply on_next_fresh, LF.
    + apply on_next_base, LBq.
    + intros X. subst w. unfold on_items in X. cbn in X. congruence.
    + intros _. exact SLD.
    + exists v', b, e, r. exact R.
Qed.

Lemma unused_low l : Forall2 low l (remove_used l).
Proof. induction l as [|x l IH]; [constructor|]. constructor; [|exact IH]. repeat split; auto. cbn. discriminate. Qed.
Lemma unused_all l : Forall (fun it => i_used it = false) (remove_used l).
Proof. unfold remove_used. apply Forall_map, Forall_forall. reflexivity. Qed.
Lemma unused_base b l : Forall (base b) l -> Forall (base b) (remove_used l).
Proof.
  intros H. unfold remove_used. apply Forall_map. eapply Forall_impl; [|exact H]. intros it B. apply (base_same _ _ _ _ it); try reflexivity; [|exact B].
  intros E. destruct B as (B1 & _). rewrite E in B1. exact B1.
Qed.
Lemma unused_marks f l : (forall x, f (set_i_used false x) = f x) -> marks f (remove_used l) = marks f l.
Proof. intros H. induction l as [|x l IH]; [reflexivity|]. cbn [remove_used map]. rewrite !marks_cons, H. fold (remove_used l). rewrite IH. reflexivity. Qed.
Lemma unused_fresh l : Forall fresh l -> Forall fresh (remove_used l).
Proof. unfold remove_used. intros H. apply Forall_map. eapply Forall_impl; [|exact H]. intros it [H1 H2]. split; [reflexivity|exact H2]. Qed.
Lemma unused_solid l : solid l -> solid (remove_used l).
Proof. intros (x & X1 & X2). exists (set_i_used false x). split; [apply in_map, X1|exact X2]. Qed.
Lemma back_unused l : forall front fp fs, Forall (fun it => i_used it = false) l -> Forall (fun it => i_used it = false) (remove_missing front fp fs l).
Proof.
  induction l as [|it l IH]; intros front fp fs HB; cbn [remove_missing]; [constructor|]. destruct (fp && fs); [exact HB|]. apply Forall_cons_iff in HB as [B0 HB].
  destruct (_ && front); [apply IH, HB|]. destruct (back_item it) as (H1 & H2 & _). constructor; [|apply IH, HB]. congruence.
Qed.
Lemma back_solid l : forall front fp fs, solid l -> solid (remove_missing front fp fs l).
Proof.
  induction l as [|it l IH]; intros front fp fs (x & X1 & X2 & X3); [destruct X1|]; cbn [remove_missing]. destruct (fp && fs); [exists x; auto|].
  destruct X1 as [<-|X1].
  - assert (E : vstat_eqb (i_status it) SMiss = false) by (destruct (i_status it) eqn:ES; try reflexivity; congruence). rewrite E. cbn [andb].
    destruct (back_item it) as (H1 & _ & _ & _ & _ & _ & H7). eexists. split; [left; reflexivity|]. split; [congruence|]. destruct H7 as [H7|[H7|[H7 _]]]; congruence.
  - assert (S : solid l) by (exists x; auto). destruct (_ && front); [apply IH, S|]. destruct (IH false (fp || match l with nx :: _ => pending nx | [] => false end) (fs || (i_decoded it && negb (vstat_eqb (i_status it) SUnknown))) S) as (y & Y1 & Y2).
    exists y. split; [right; exact Y1|exact Y2].
Qed.
Lemma without_solid l : solid l -> forall l' k f, mark_without l = Def (l', k, f) -> solid l'.
Proof.
  assert (G : forall l' k f, mark_without l = Def (l', k, f) -> Forall2 (fun x y => i_nalu y = i_nalu x /\ (i_status y = i_status x \/ i_status y = SInvalid)) l l').
  { assert (RR : forall k : list item, Forall2 (fun x y => i_nalu y = i_nalu x /\ (i_status y = i_status x \/ i_status y = SInvalid)) k k) by (induction k; constructor; auto).
    induction l as [|it l IH]; intros l' k f; cbn [mark_without]; [intros E; injection E as <- _ _; constructor|].
    destruct (negb (pending it)).
    - destruct (mark_without l) as [[[r2 k2] f2]|]; [|discriminate]. cbn [obind]. intros E. injection E as <- _ _. constructor; [auto|]. eapply IH; reflexivity.
    - destruct (i_nalu it); [|discriminate]. destruct (n_gop_sei n); [intros E; injection E as <- _ _; apply RR|].
      destruct l as [|nx l]; [intros E; injection E as <- _ _; constructor; auto|]. destruct (i_nalu nx); [|discriminate].
      destruct (_ && _); [intros E; injection E as <- _ _; constructor; [auto|apply RR]|].
      destruct (mark_without (nx :: l)) as [[[r2 k2] f2]|]; [|discriminate]. cbn [obind]. intros E. injection E as <- _ _. constructor; [auto|]. eapply IH; reflexivity. }
  intros (x & X1 & X2 & X3) l' k f E. specialize (G _ _ _ E). clear E. induction G as [|a b l l' [H1 H2] HF IH]; [destruct X1|].
  destruct X1 as [<-|X1]; [exists b; split; [left; reflexivity|]; split; [congruence|destruct H2; congruence]|]. destruct (IH X1) as (y & Y1 & Y2). exists y. split; [right; exact Y1|exact Y2].
Qed.
Lemma next_solid l : next_sei l <> None -> solid l.
Proof.
  unfold next_sei. destruct (find _ l) as [x|] eqn:E; [|congruence]. intros _. apply find_some in E as [E1 E2]. exists x. split; [exact E1|]. apply andb_prop in E2 as [E2 E3].
  unfold item_sei in E2. unfold pending in E3. destruct (i_nalu x); [|discriminate]. destruct (i_status x); try discriminate. split; discriminate.
Qed.

(** [validate]. *)
Definition frm' (v : valid) := (v_dec v, v_buddies v, v_has_ref v, v_computed v, v_hash v, v_legacy v, v_signing v, v_codec v, v_first v, v_links v, v_started v).
Lemma validate_ok v p q : vhs v = hs -> v_items v = p ++ q -> lined_up p q -> (v_verified v = 0%Z \/ v_verified v = 1%Z) ->
  (v_synced v = true -> tidy (v_items v)) -> (gs_lost (v_gs v) = true -> v_synced v = true) ->
  (v_first v = true -> v_synced v = false /\ marks sel p = marks pending p) ->
  exists v', validate v = Def v' /\ frm' v' = frm' v /\ Forall (base true) (v_items v') /\ Forall (fun it => i_used it = false) (v_items v') /\ odd (v_items v') /\
    (v_synced v' = true -> tidy (v_items v')) /\ solid (v_items v') /\ (v_first v = false -> v_synced v' = true).
Proof.
  intros HV HI LU HVE HT HG HF1. unfold validate.
  assert (X : exists v1 b e r, (if gs_lost (v_gs v) && negb (gs_trans (v_gs v)) then do (v, f) <- verify_without v; Def (v, f, -1, -1)%Z
     else do (v, f, e, r) <- verify_with v; Def (set_v_gop (d_counter (v_dec v)) v, f, e, r)) = Def (v1, b, e, r) /\ frm' v1 = frm' v /\ v_synced v1 = v_synced v /\ settled (v_first v) p (v_items v1)).
  { destruct (gs_lost (v_gs v) && negb (gs_trans (v_gs v))) eqn:EL.
    - apply andb_prop in EL as [EL _]. specialize (HG EL). unfold verify_without.
      destruct (without_ok C oid hs true (v_items v) (HT HG)) as (l' & k & f & E & T1 & T2); [rewrite HI; apply (lu_base _ _ LU)|]. rewrite E. cbn [obind].
      do 4 eexists. split; [reflexivity|]. destruct (v_signing _ && _); (split; [reflexivity|]; split; [reflexivity|]; split; [exact T1|]; split; [exact T2|]; split; [|intros F; destruct (HF1 F); congruence]);
        (eapply without_solid; [|exact E]; apply next_solid; rewrite HI, next_app by (eapply lined_nosei; [|apply (lu_lined _ _ LU)]; pose proof (lu_base _ _ LU) as B; apply Forall_app in B as [B _]; exact B); apply (lu_next _ _ LU)).
    - destruct (with_ok v p q HV HI LU HVE) as (v1 & b & e & r & -> & F1 & F2 & F3 & F4). cbn [obind]. do 4 eexists. split; [reflexivity|].
      split; [unfold frm, frm' in *; cbn [set_v_gop v_dec v_buddies v_has_ref v_computed v_hash v_legacy v_signing v_codec v_first v_links v_started]; congruence|]. split; [exact F2|]. apply F4. }
  destruct X as (v1 & b & e & r & -> & F1 & F2 & (T1 & T2 & T3 & T4)). cbn [obind].
  destruct (get_stats (v_items v1)) as [[inv mis] hv].
  pose proof (tidy_low _ _ (unused_low (v_items v1)) T1) as U1. pose proof (unused_base true _ T2) as U2. pose proof (unused_all (v_items v1)) as U3. pose proof (unused_solid _ T3) as U4.
  pose proof (tidy_odd _ U1 U3) as U5.
  assert (FI : v_first v1 = v_first v) by (unfold frm' in F1; congruence).
  unfold on_items. cbn [set_v_items v_first]. rewrite FI. destruct (v_first v) eqn:EF.
  - cbn [negb andb]. destruct (HF1 eq_refl) as [SY MK]. destruct (T4 eq_refl) as (a & q' & EA & SU & FR). cbn [v_first set_v_synced set_v_items]. rewrite FI.
    set (w := on_items remove_missing_items (set_v_synced false (set_v_items (remove_used (v_items v1)) v1))).
    assert (BACK : frm' w = frm' v /\ Forall (base true) (v_items w) /\ Forall (fun it => i_used it = false) (v_items w) /\ odd (v_items w) /\ v_synced w = false /\ solid (v_items w)).
    { subst w. split; [exact F1|]. unfold on_items, remove_missing_items. cbn [v_items set_v_items set_v_synced v_synced]. split; [apply back_base, U2|]. split; [apply back_unused, U3|].
      split; [|split; [reflexivity|apply back_solid, U4]].
      assert (ER : remove_used (v_items v1) = remove_used a ++ remove_used q') by (rewrite EA; unfold remove_used; apply map_app). rewrite ER.
      destruct (back_split (remove_used a) true false false (remove_used q')) as (a2 & q2 & -> & S1 & S2). exists a2, q2. split; [reflexivity|]. split; [|apply S2, unused_fresh, FR].
      eapply pass_subseq; [exact S1|]. rewrite unused_marks by reflexivity. eapply pass_subseq; [exact SU|]. rewrite MK. apply (lu_pass _ _ LU). }
    destruct (0 <? inv)%Z; [|destruct ((0 <? mis)%Z && b); [|destruct hv]];
      try (destruct BACK as (B1 & B2 & B3 & B4 & B5 & B6); eexists; split; [reflexivity|]; split; [exact B1|]; split; [exact B2|]; split; [exact B3|]; split; [exact B4|]; split; [intros X; change (v_synced w = true) in X; congruence|]; split; [exact B6|discriminate]).
    eexists. split; [reflexivity|]. split; [exact F1|]. split; [exact U2|]. split; [exact U3|]. split; [exact U5|]. split; [intros _; exact U1|]. split; [exact U4|discriminate].
  - cbn [negb v_first set_v_synced set_v_items]. rewrite FI. eexists. split; [reflexivity|]. split; [exact F1|]. split; [exact U2|]. split; [exact U3|]. split; [exact U5|]. split; [intros _; exact U1|]. split; [exact U4|reflexivity].
Qed.
End Check.

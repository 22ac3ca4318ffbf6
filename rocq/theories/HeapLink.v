(** The list of NALUs in memory: the validator's functions use it as HeapSpec.v says. *)
From Verif Require Import Base BaseProofs Nalu Crypto Types Hash Tlv TlvProofs SignerProofs VTypes NaluList NaluHeap HeapSpec HeapProofs Validator VListProofs BookProofs VReset.
Local Open Scope N_scope.

Definition near (o : lop) : Prop := match o with LMissing _ _ _ => True | LSet _ f => keeps f | _ => False end.
Definition loc (l m : list item) : Prop := exists ops xs, Forall near ops /\ lrun l ops = Def (m, xs).
Definition eds (l m : list item) : Prop := exists ops xs, Forall edit ops /\ lrun l ops = Def (m, xs).

Lemma loc_refl l : loc l l.
Proof. exists [], []. split; [constructor|reflexivity]. Qed.
Lemma loc_trans a b c : loc a b -> loc b c -> loc a c.
Proof. intros (o1 & x1 & F1 & E1) (o2 & x2 & F2 & E2). exists (o1 ++ o2), (x1 ++ x2). split; [apply Forall_app; auto|]. rewrite lrun_app, E1. cbn [obind]. rewrite E2. reflexivity. Qed.
Lemma eds_refl l : eds l l.
Proof. exists [], []. split; [constructor|reflexivity]. Qed.
Lemma eds_trans a b c : eds a b -> eds b c -> eds a c.
Proof. intros (o1 & x1 & F1 & E1) (o2 & x2 & F2 & E2). exists (o1 ++ o2), (x1 ++ x2). split; [apply Forall_app; auto|]. rewrite lrun_app, E1. cbn [obind]. rewrite E2. reflexivity. Qed.
Lemma loc_eds l m : loc l m -> eds l m.
Proof. intros (ops & xs & F & E). exists ops, xs. split; [|exact E]. eapply Forall_impl; [|exact F]. intros o. destruct o; cbn; tauto. Qed.
Lemma eds_remove_missing l : eds l (remove_missing_items l).
Proof. exists [LRemoveMissing], [RDone]. split; [constructor; [exact I|constructor]|reflexivity]. Qed.

Definition shift (o : lop) : lop := match o with LMissing n a p => LMissing n a (S p) | LSet p f => LSet (S p) f | o => o end.
Lemma shift_exec it l o m x : near o -> lexec l o = Def (m, x) -> lexec (it :: l) (shift o) = Def (it :: m, x).
Proof.
  destruct o as [n|num append pos| | | |known| |pos f|f| |]; try contradiction; intros K; cbn [shift lexec length].
  - change (S (length l) <=? S pos)%nat with (length l <=? pos)%nat. destruct (_ || _); intros E; injection E as <- <-; [reflexivity|]. destruct append; reflexivity.
  - change (S (length l) <=? S pos)%nat with (length l <=? pos)%nat. destruct (length l <=? pos)%nat; [discriminate|]. intros E. injection E as <- <-. reflexivity.
Qed.
Lemma loc_cons it l m : loc l m -> loc (it :: l) (it :: m).
Proof.
  intros (ops & xs & F & E). exists (map shift ops), xs. split; [apply Forall_map; eapply Forall_impl; [|exact F]; intros o; destruct o; cbn; tauto|].
  revert l m xs E. induction F as [|o ops F1 F2 IH]; intros l m xs E; cbn [map lrun] in *; [injection E as <- <-; reflexivity|].
  destruct (lexec l o) as [[l1 x]|u] eqn:EX; cbn [obind] in E; [|discriminate]. rewrite (shift_exec it _ _ _ _ F1 EX). cbn [obind]. destruct (lrun l1 ops) as [[l2 ys]|u] eqn:ER; cbn [obind] in E; [|discriminate]. rewrite (IH _ _ _ ER). cbn [obind]. injection E as <- <-. reflexivity.
Qed.
Lemma loc_head f it l : keeps f -> loc (it :: l) (f it :: l).
Proof. intros K. exists [LSet 0 f], [RDone]. split; [constructor; [exact K|constructor]|reflexivity]. Qed.
Lemma loc_step f it l m : keeps f -> loc l m -> loc (it :: l) (f it :: m).
Proof. intros K H. exact (loc_trans _ _ _ (loc_cons it _ _ H) (loc_head f it m K)). Qed.
Lemma loc_app q l m : loc l m -> loc (q ++ l) (q ++ m).
Proof. intros H. induction q; [exact H|]. apply loc_cons, IHq. Qed.
Lemma loc_missing num append pos l : (pos < length l)%nat -> loc l (add_missing num append pos l).
Proof.
  intros HP. destruct (num <? 0)%Z eqn:EN.
  - replace (add_missing num append pos l) with l; [apply loc_refl|]. unfold add_missing. replace (Z.to_nat num) with 0%nat by lia. symmetry. apply firstn_skipn.
  - exists [LMissing num append pos], [RCode SV_OK]. split; [constructor; [exact I|constructor]|]. cbn [lrun lexec]. rewrite EN. assert (E : (length l <=? pos)%nat = false) by (apply Nat.leb_gt; exact HP). rewrite E. reflexivity.
Qed.
Lemma loc_before k it l : loc (it :: l) (repeat missing_item k ++ it :: l).
Proof. pose proof (loc_missing (Z.of_nat k) false 0 (it :: l) ltac:(cbn; lia)) as H. unfold add_missing in H. rewrite Nat2Z.id in H. exact H. Qed.
Lemma loc_map f l : keeps f -> loc l (map f l).
Proof. intros K. induction l; [apply loc_refl|]. apply loc_step; assumption. Qed.

Lemma keeps_id : keeps (fun it => it).
Proof. intros it. tauto. Qed.
Lemma keeps_comp f g : keeps f -> keeps g -> keeps (fun it => g (f it)).
Proof. intros F G it. destruct (F it) as [F1 F2]. destruct (G (f it)) as [G1 G2]. split; [tauto|auto]. Qed.
Lemma keeps_status s : s <> SMiss -> keeps (set_i_status s).
Proof. intros H it. cbn. split; [tauto|congruence]. Qed.
Lemma keeps_used b : keeps (set_i_used b).
Proof. intros it. cbn. tauto. Qed.
Lemma keeps_linked b : keeps (set_i_linked b).
Proof. intros it. cbn. tauto. Qed.
Lemma keeps_decoded b : keeps (set_i_decoded b).
Proof. intros it. cbn. tauto. Qed.
Lemma keeps_hash b : keeps (set_i_hash b).
Proof. intros it. cbn. tauto. Qed.
Lemma keeps_second b : keeps (set_i_second b).
Proof. intros it. cbn. tauto. Qed.

Lemma on_next_loc f l : keeps f -> loc l (on_next_sei f l).
Proof. intros K. induction l as [|it l IH]; cbn [on_next_sei]; [apply loc_refl|]. destruct (_ && _); [apply loc_head, K|apply loc_cons, IH]. Qed.
Lemma next_status_loc s l : s <> SMiss -> loc l (on_next_sei (set_i_status s) l).
Proof. intros H. apply on_next_loc, keeps_status, H. Qed.
Lemma remove_used_loc l : loc l (remove_used l).
Proof. apply loc_map, keeps_used. Qed.
Lemma set_linked_loc k l : loc l (set_nth k (set_i_linked true) l).
Proof.
  unfold set_nth. destruct (skipn k l) as [|x r] eqn:E; [apply loc_refl|].
  rewrite <- (firstn_skipn k l) at 1. rewrite E. apply loc_app, loc_head, keeps_linked.
Qed.
Lemma mark_last_loc s l : s <> SMiss -> loc l (mark_last s l).
Proof.
  intros HS. unfold mark_last. destruct (rev l) as [|it r] eqn:ER; apply (f_equal (@rev _)) in ER; rewrite rev_involutive in ER; subst l; [apply loc_refl|].
  cbn [rev]. apply loc_app. exact (loc_head _ it [] (keeps_status s HS)).
Qed.

Section Fns.
Variable C : crypto.
Variable Ov : ovf.

Lemma gop_loop_loc hs l : forall h is num, holds (gop_loop hs h is num l) (fun '(_, m, _) => loc l m) (fun _ => True).
Proof.
  induction l as [|it l IH]; intros; cbn [gop_loop]; [apply loc_refl|].
  destruct (negb (pending it)).
  { apply holds_bind. eapply holds_impl; [apply IH| |auto]. intros [[h2 m] st] H. apply loc_cons, H. }
  destruct (i_nalu it) as [n|]; [|exact I]. cbv zeta.
  repeat match goal with |- holds (if ?b then _ else _) _ _ => destruct b; [apply loc_refl|] end.
  destruct (if n_first_in_gop n then _ else _) as [x|]; [|apply loc_refl].
  destruct (read_hash hs x) as [y|]; [|exact I]. cbn [obind]. destruct (update_hash true y h) as [h2 st].
  destruct (negb (is_ok st)); [apply loc_refl|]. apply holds_bind. eapply holds_impl; [apply IH| |auto].
  intros [[h3 m] st3] H. exact (loc_step _ it _ _ (keeps_used true) H).
Qed.
Lemma mark_without_loc l : holds (mark_without l) (fun '(m, _, _) => loc l m) (fun _ => True).
Proof.
  induction l as [|it l IH]; cbn [mark_without]; [apply loc_refl|].
  destruct (negb (pending it)).
  { apply holds_bind. eapply holds_impl; [apply IH| |auto]. intros [[m k] f] H. apply loc_cons, H. }
  destruct (i_nalu it) as [n|] eqn:EN; [|exact I].
  assert (HK : keeps (set_i_status SInvalid)) by (apply keeps_status; discriminate).
  destruct (n_gop_sei n); [apply loc_refl|]. cbv zeta. destruct l as [|nx l']; [exact (loc_head _ it [] HK)|].
  destruct (i_nalu nx); [|exact I]. destruct (_ && _); [exact (loc_head _ it _ HK)|].
  apply holds_bind. eapply holds_impl; [exact IH| |auto]. intros [[m k] f] H. exact (loc_step _ it _ _ HK H).
Qed.
Definition upto (o : option nat) (k : nat) : Prop := match o with Some i => (i < k)%nat | None => True end.
Lemma hl_loop_loc hs exp l : forall pos ps seen s, upto (h_last s) pos -> holds (hl_loop hs exp pos ps seen s l) (fun '(s', m) => loc l m /\ upto (h_last s') (pos + length m)) (fun _ => True).
Proof.
  induction l as [|it l IH]; intros pos ps seen s US; cbn [hl_loop]; [split; [apply loc_refl|rewrite Nat.add_0_r; exact US]|]. cbv zeta.
  assert (UP : forall o k k', upto o k -> (k <= k')%nat -> upto o k') by (intros [i|] k k' A B; cbn in *; [lia|exact A]).
  destruct (_ || _).
  { apply holds_bind. eapply holds_impl; [apply IH, (UP _ _ _ US); lia| |auto]. intros [s2 m] [H U]. split; [apply loc_cons, H|]. apply (UP _ _ _ U). cbn. lia. }
  destruct (i_nalu it) as [n|] eqn:EN; [|exact I].
  assert (HK : forall b : bool, keeps (set_i_status (if b then SValid else SInvalid))) by (intros b; apply keeps_status; destruct b; discriminate).
  destruct (_ || _); [split; [apply loc_refl|cbn; lia]|].
  destruct (if n_first_in_gop n then _ else _) as [x|]; [|exact I].
  destruct (read_hash hs x) as [y|]; [|exact I]. cbn [obind]. destruct (search y _ _) as [i found].
  assert (HL : forall s2 pos2 b c, upto (h_last s2) pos2 -> holds (if ps then Def (s2, l) else hl_loop hs exp pos2 b c s2 l) (fun '(s', m) => loc l m /\ upto (h_last s') (pos2 + length m)) (fun _ => True)).
  { intros. destruct ps; [split; [apply loc_refl|apply (UP _ _ _ H); lia]|apply IH; assumption]. }
  destruct found; apply holds_bind.
  - set (mi := Z.to_nat _). eapply holds_impl; [apply HL; cbn; lia| |auto]. intros [s3 m] [H U]. cbn [holds]. split.
    + eapply loc_trans; [exact (loc_step _ it _ _ (HK (h_order s)) H)|apply loc_before].
    + apply (UP _ _ _ U). rewrite app_length, repeat_length. cbn [length]. lia.
  - eapply holds_impl; [apply HL with (pos2 := S pos); cbn; lia| |auto]. intros [s3 m] [H U]. split; [exact (loc_step _ it _ _ (HK false) H)|]. apply (UP _ _ _ U). cbn. lia.
Qed.
Lemma mark_used_loc s l : s <> SMiss -> holds (mark_used s l) (fun '(m, _) => loc l m) (fun _ => True).
Proof.
  intros HS. induction l as [|it l IH]; cbn [mark_used]; [apply loc_refl|]. apply holds_bind.
  eapply holds_impl; [exact IH| |auto]. intros [m k] H.
  destruct (_ && _); [|apply loc_cons, H].
  destruct (i_nalu it) eqn:EN; [|exact I]. exact (loc_step _ it _ _ (keeps_status s HS) H).
Qed.

(** What a function does to the list of a session. *)
Definition vls (v v' : valid) : Prop := eds (v_items v) (v_items v').
Lemma vls_trans a b c : vls a b -> vls b c -> vls a c.
Proof. apply eds_trans. Qed.
Lemma vls_same a b : v_items b = v_items a -> vls a b.
Proof. unfold vls. intros ->. apply eds_refl. Qed.
Lemma vls_loc a b : loc (v_items a) (v_items b) -> vls a b.
Proof. apply loc_eds. Qed.

Lemma verify_without_vls v : holds (verify_without v) (fun '(v', _) => vls v v') (fun _ => True).
Proof.
  unfold verify_without. apply holds_bind. eapply holds_impl; [apply mark_without_loc| |auto].
  intros [[m k] f] H. cbn. apply vls_loc. destruct (_ && _); exact H.
Qed.
Lemma add_missing_len num a k l : (length l <= length (add_missing num a k l))%nat.
Proof. unfold add_missing. cbv zeta. set (j := if a then S k else k). rewrite !app_length. pose proof (f_equal (@length _) (firstn_skipn j l)) as E. rewrite app_length in E. lia. Qed.
Lemma verify_list_vls v o : holds (verify_list v o) (fun '(v', _, _, _) => vls v v') (fun _ => True).
Proof.
  unfold verify_list. destruct (_ =? _)%nat; [exact I|]. cbv zeta. destruct (next_sei (v_items v)); [|apply vls_same; reflexivity].
  apply holds_bind. eapply holds_impl; [apply hl_loop_loc; exact I| |auto]. intros [s l] [H U]. cbn [Nat.add] in U. apply holds_bind.
  assert (G : holds (if (h_latest s =? -1)%Z
      then match l with [] => Undef NullDeref | it :: _ => Def (add_missing (Z.of_nat (length (expected_hashes v)) - h_inv s)
         (match i_second it with Some _ => true | None => false end) 0 l) end else Def l) (fun m => loc l m /\ (length l <= length m)%nat) (fun _ => True)).
  { destruct (_ =? _)%Z; [|split; [apply loc_refl|lia]]. destruct l; [exact I|]. split; [apply loc_missing; cbn; lia|apply add_missing_len]. }
  eapply holds_impl; [exact G| |auto]. intros l2 [H2 LN]. cbn [holds]. unfold vls. cbn [v_items set_v_items]. apply loc_eds.
  eapply loc_trans; [exact H|]. eapply loc_trans; [exact H2|].
  eapply loc_trans; [|apply next_status_loc; discriminate].
  dif; [|apply loc_refl]. destruct (h_last s); [|apply loc_refl]. apply loc_missing. cbn in U. lia.
Qed.

Lemma verify_with_vls v : holds (verify_with v) (fun '(v', _, _, _) => vls v v') (fun _ => True).
Proof.
  unfold verify_with. cbv zeta.
  assert (FIN : forall v s exp fu, s <> SMiss -> holds (
    do (v, num) <- (if (v_verified v =? 1)%Z then
                      match next_sei (v_items v) with
                      | None => Def (v, (-1)%Z)
                      | Some _ =>
                          do (l, k) <- mark_used s (v_items v);
                          Def (set_v_items (on_next_sei (set_i_status SValid) l) v, k)
                      end
                    else do (l, k) <- mark_used s (v_items v); Def (set_v_items l v, k));
    match fu with
    | Some k =>
        if v_first v then Def (v, false, exp, num)
        else
          match nth_error (v_items v) k with
          | Some it =>
              match i_nalu it with
              | None => Undef NullDeref
              | Some n => Def (on_items (add_missing (exp - num) (n_first_in_gop n) k) v, false, exp, num)
              end
          | None => Def (v, false, exp, num)
          end
    | None => Def (v, false, exp, num)
    end) (fun '(v', _, _, _) => vls v v') (fun _ => True)).
  { clear v. intros v s exp fu HS. apply holds_bind.
    assert (G : holds (if (v_verified v =? 1)%Z then
                      match next_sei (v_items v) with
                      | None => Def (v, (-1)%Z)
                      | Some _ =>
                          do (l, k) <- mark_used s (v_items v);
                          Def (set_v_items (on_next_sei (set_i_status SValid) l) v, k)
                      end
                    else do (l, k) <- mark_used s (v_items v); Def (set_v_items l v, k)) (fun '(v', _) => vls v v') (fun _ => True)).
    { destruct (_ =? _)%Z.
      - destruct (next_sei _); [|apply vls_same; reflexivity]. apply holds_bind. eapply holds_impl; [apply mark_used_loc, HS| |auto].
        intros [l k] H. cbn. apply vls_loc. cbn. eapply loc_trans; [exact H|]. apply next_status_loc. discriminate.
      - apply holds_bind. eapply holds_impl; [apply mark_used_loc, HS| |auto]. intros [l k] H. cbn. apply vls_loc, H. }
    eapply holds_impl; [exact G| |auto]. intros [v1 num] H.
    destruct fu; [|exact H]. destruct (v_first v1); [exact H|]. destruct (nth_error _ _) as [it|] eqn:EN; [|exact H].
    destruct (i_nalu it); [|exact I]. cbn. eapply vls_trans; [exact H|]. apply vls_loc, loc_missing. apply nth_error_Some. congruence. }
  destruct (v_verified v =? 1)%Z eqn:EV.
  - dif; [apply verify_list_vls|].
    specialize (FIN v (if gop_ok v && linked_ok v then SValid else SInvalid) (Z.of_N (d_num_sent (v_dec v))) (first_used (v_items v))
      ltac:(destruct (_ && _); discriminate)). rewrite EV in FIN. exact FIN.
  - destruct (next_sei (v_items v)); [|exact I]. destruct (v_verified v =? 0)%Z.
    + set (v1 := on_items _ v). assert (H1 : vls v v1) by (apply vls_loc, next_status_loc; discriminate).
      eapply holds_impl; [apply (FIN v1 SInvalid (-1)%Z (first_used (v_items v1))); discriminate| |auto].
      intros [[[v2 a] b] c] H. eapply vls_trans; eassumption.
    + set (v1 := on_items remove_used _).
      assert (H1 : vls v v1).
      { apply vls_loc. unfold v1. cbn. eapply loc_trans; [|apply remove_used_loc]. apply next_status_loc. discriminate. }
      apply holds_bind. eapply holds_impl; [apply verify_without_vls| |auto].
      intros [v2 f] H. cbn. eapply vls_trans; eassumption.
Qed.

Lemma validate_vls v : holds (validate v) (fun v' => vls v v') (fun _ => True).
Proof.
  unfold validate. apply holds_bind.
  assert (G : holds (if gs_lost (v_gs v) && negb (gs_trans (v_gs v))
     then do (v, f) <- verify_without v; Def (v, f, -1, -1)%Z
     else do (v, f, e, r) <- verify_with v; Def (set_v_gop (d_counter (v_dec v)) v, f, e, r))
     (fun '(v', _, _, _) => vls v v') (fun _ => True)).
  { dif; apply holds_bind.
    - eapply holds_impl; [apply verify_without_vls| |auto]. intros [v' f] H. exact H.
    - eapply holds_impl; [apply verify_with_vls| |auto]. intros [[[v' f] e] r] H. exact H. }
  eapply holds_impl; [exact G| |auto]. clear G. intros [[[v1 success] exp] recv] H1.
  destruct (get_stats (v_items v1)) as [[inv mis] hv]. cbv zeta.
  set (v2 := on_items remove_used v1).
  assert (H2 : vls v v2) by (eapply vls_trans; [apply H1|]; apply vls_loc, remove_used_loc).
  clearbody v2. clear H1 v1. cbn [holds].
  set (v3 := if v_first v2 then v2 else set_v_synced true v2).
  assert (H3 : vls v v3) by (unfold v3; destruct (v_first v2); exact H2). clearbody v3. clear H2.
  destruct (v_first v3).
  - assert (HR : vls v (on_items remove_missing_items (set_v_synced false v3))) by (eapply vls_trans; [exact H3|]; apply eds_remove_missing).
    repeat brk; first [exact HR|exact H3].
  - repeat brk; exact H3.
Qed.
Lemma update_link_vls v : holds (update_link v) (fun v' => vls v v') (fun _ => True).
Proof.
  unfold update_link. destruct (find_link (v_items v)) as [o|]; [|exact I]. cbn [obind].
  destruct o as [k|]; [|apply vls_same; reflexivity]. destruct (nth_error _ _) as [it|]; [|apply vls_same; reflexivity].
  destruct (i_linked it); [apply vls_same; reflexivity|]. apply holds_bind.
  eapply holds_impl; [apply update_links_items| |auto]. intros v' E. apply vls_loc. cbn. rewrite E. apply set_linked_loc.
Qed.
Lemma prepare_gop_vls v : holds (prepare_gop C v) (fun '(v', _) => vls v v') (fun _ => True).
Proof.
  unfold prepare_gop. apply holds_bind. eapply holds_impl; [apply gop_loop_loc| |auto]. intros [[h l] st] H. cbv zeta.
  assert (HR : eds (v_items v) (remove_used l)) by (apply loc_eds; eapply loc_trans; [exact H|apply remove_used_loc]).
  destruct (negb (is_ok st)); [exact HR|]. destruct (finalize_hash C true h) as [[h2 st2] x].
  destruct (negb (is_ok st2)); [exact HR|]. cbn [v_computed]. destruct (put_at 0 _ x); [|exact I]. apply loc_eds, H.
Qed.
Lemma prepare_vls v : holds (prepare C Ov v) (fun '(v', _) => vls v v') (fun _ => True).
Proof.
  unfold prepare. cbv zeta. apply holds_bind.
  match goal with |- holds ?x _ _ => assert (G : holds x (fun '(v', _) => vls v v') (fun _ => True)) end.
  { destruct (next_sei (v_items v)) as [it|]; [|apply vls_same; reflexivity].
    destruct (i_nalu it) as [n|]; [|exact I]. apply holds_bind.
    match goal with |- holds ?x _ _ => assert (G : holds x (fun '(v', _) => vls v v') (fun _ => True)) end.
    { destruct (i_decoded it); [apply vls_same; reflexivity|]. apply holds_bind.
      eapply holds_impl; [apply decode_sei_items| |auto]. intros [v1 st] E. change (v_items v1 = v_items v) in E.
      destruct (negb (is_ok st)); [apply vls_same, E|].
      destruct (read_hash _ _); [|exact I]. cbn [obind]. destruct (put_at 0 _ _); [|exact I]. apply vls_loc. cbn. rewrite E.
      apply on_next_loc, keeps_decoded. }
    eapply holds_impl; [exact G| |auto]. intros [v1 st] H1. destruct (negb (is_ok st)); [exact H1|].
    apply holds_bind. eapply holds_impl; [apply detect_lost_items| |auto]. intros v2 E2.
    eapply holds_impl; [apply prepare_gop_vls| |auto]. intros [v3 st3] H3.
    eapply vls_trans; [exact H1|]. eapply vls_trans; [apply vls_same, E2|exact H3]. }
  eapply holds_impl; [exact G| |auto]. intros [v1 st] H1. destruct (negb (is_ok st)); [exact H1|].
  dif; [exact H1|]. dif; [|exact H1]. pose proof (verify_hash_items C v1) as E.
  destruct (verify_hash C v1) as [v2 st2]. cbn [fst] in E. cbn. eapply vls_trans; [exact H1|apply vls_same, E].
Qed.
Lemma hash_item_keeps v it : holds (hash_item C v it) (fun '(v', it', _) => v_items v' = v_items v /\ exists f, keeps f /\ it' = f it) (fun _ => True).
Proof.
  assert (ID : exists f, keeps f /\ it = f it) by (exists (fun it => it); split; [apply keeps_id|reflexivity]).
  unfold hash_item. destruct (i_nalu it) as [n|] eqn:EN; [|cbn; auto]. destruct (_ || _); [cbn; auto|].
  destruct (hash_wrapper C _ _ _) as [[[k st] h]|]; [|exact I]. cbn [obind]. cbv zeta.
  match goal with |- holds (obind ?x _) _ _ => assert (G : holds x (fun it' => exists f, keeps f /\ it' = f it) (fun _ => True)) end.
  { destruct h as [x|]; [|exact ID]. destruct (put_at 0 _ _) as [y|]; [|exact I]. exists (set_i_hash y). split; [apply keeps_hash|reflexivity]. }
  apply holds_bind. eapply holds_impl; [exact G| |auto]. intros it1 HK.
  destruct (negb (is_ok st)); [cbn; auto|]. dif; [|cbn; auto].
  destruct (hash_wrapper C _ _ _) as [[[k2 st2] h2]|]; [|exact I]. cbn. split; [reflexivity|]. destruct HK as (f & KF & ->). set (y := Some _). exists (fun it => set_i_second y (f it)). split; [exact (keeps_comp f _ KF (keeps_second y))|reflexivity].
Qed.
Lemma validate_loop_vls f : forall v stop, holds (validate_loop C Ov f v stop) (fun '(v', _) => vls v v') (fun _ => True).
Proof.
  induction f as [|f IH]; intros v stop; cbn [validate_loop]; pose proof (has_pending_items v) as E;
    destruct (has_pending v) as [v1 found]; cbn [fst] in E.
  { destruct (_ || _); [apply vls_same, E|exact I]. }
  destruct (_ || _); [apply vls_same, E|].
  set (v2 := if v_result v1 then _ else _).
  assert (E2 : v_items v2 = v_items v) by (unfold v2; destruct (v_result v1); exact E). clearbody v2. clear E v1.
  apply holds_bind. eapply holds_impl; [apply prepare_vls| |auto]. intros [v3 st] H3.
  assert (H03 : vls v v3) by (eapply vls_trans; [apply vls_same, E2|apply H3]). clear H3 E2.
  destruct (negb (is_ok st)); [exact H03|]. apply holds_bind.
  eapply holds_impl; [apply update_link_vls| |auto]. intros v4 H4.
  assert (H04 : vls v v4) by (eapply vls_trans; [exact H03|apply H4]). clear H4. apply holds_bind.
  assert (G : holds (if v_signing v4 then validate v4 else Def (on_latest (set_l_auth NotSigned) v4)) (fun v' => vls v v') (fun _ => True)).
  { destruct (v_signing v4); [|exact H04]. eapply holds_impl; [apply validate_vls| |auto].
    intros v5 H5. eapply vls_trans; eassumption. }
  eapply holds_impl; [exact G| |auto]. intros v5 H5. eapply holds_impl; [apply IH| |auto].
  intros [v6 st6] H6. eapply vls_trans; [|exact H6]. exact H5.
Qed.
Lemma maybe_validate_vls f v n : holds (maybe_validate C Ov f v n) (fun '(v', _) => vls v v') (fun _ => True).
Proof.
  unfold maybe_validate. cbv zeta. apply holds_bind. eapply holds_impl; [apply recurrent_items| |auto].
  intros [v1 f2] E1. destruct (negb _).
  - destruct (v_first_sei v1); [|apply vls_same, E1]. cbn. unfold vls. cbn. rewrite <- E1.
    destruct (n_golden n); [|apply eds_refl]. destruct (v_verified v1 =? 1)%Z; cbn.
    + apply loc_eds, mark_last_loc. discriminate.
    + apply loc_eds, mark_last_loc. destruct (_ =? _)%Z; discriminate.
  - eapply holds_impl; [apply validate_loop_vls| |auto]. intros [v2 st] H. eapply vls_trans; [apply vls_same, E1|exact H].
Qed.
Lemma register_keeps v n : holds (register C v n) (fun '(v', it, _) => v_items v' = v_items v /\ exists f, keeps f /\ it = f (item_create n)) (fun _ => True).
Proof.
  unfold register. destruct (_ =? _)%Z; [cbn; split; [reflexivity|]; exists (fun it => it); split; [apply keeps_id|reflexivity]|].
  destruct (update_hashable n) as [n2|]; [|exact I]. cbn [obind]. eapply holds_impl; [apply hash_item_keeps| |auto]. intros [[v1 it] st] (E & f & KF & ->). split; [exact E|].
  exists (fun it => f (match i_nalu it with None => it | Some _ => set_i_nalu (Some n2) it end)). split; [|reflexivity].
  apply (keeps_comp (fun it => match i_nalu it with None => it | Some _ => set_i_nalu (Some n2) it end) f); [|exact KF]. intros it. destruct (i_nalu it) eqn:EI; cbn; [split; [split; discriminate|auto]|tauto].
Qed.
Lemma rehash_loc l : forall v st, holds (rehash C v l st) (fun '(v', m, _) => v_items v' = v_items v /\ loc l m) (fun _ => True).
Proof.
  induction l as [|it l IH]; intros; cbn [rehash]; [cbn; split; [reflexivity|apply loc_refl]|].
  destruct (i_nalu it) as [n|] eqn:EN; [|exact I]. destruct (_ <=? _)%Z.
  - apply holds_bind. eapply holds_impl; [apply IH| |auto]. intros [[v1 m] st1] (E & H). cbn. split; [exact E|]. apply loc_cons, H.
  - apply holds_bind. eapply holds_impl; [apply hash_item_keeps| |auto]. intros [[v1 it1] st1] (G1 & f & KF & ->).
    destruct (negb (is_ok st1)).
    { cbn. split; [exact G1|]. apply loc_head, KF. }
    apply holds_bind. eapply holds_impl; [apply IH| |auto]. intros [[v2 m] st2] (E & H). cbn. split; [congruence|]. apply loc_step; assumption.
Qed.
Lemma reregister_vls v : holds (reregister C v) (fun '(v', _) => vls v v') (fun _ => True).
Proof.
  unfold reregister. apply holds_bind. eapply holds_impl; [apply rehash_loc| |auto].
  intros [[v1 m] st] (E & H). cbn. apply vls_loc, H.
Qed.
Lemma prepare_golden_vls v l it : v_items v = l ++ [it] -> holds (prepare_golden C Ov v l it) (fun '(v', _) => vls v v') (fun _ => True).
Proof.
  intros EV. unfold prepare_golden. destruct (i_nalu it) as [n|] eqn:EN; [|exact I]. apply holds_bind.
  eapply holds_impl; [apply decode_sei_items| |auto]. intros [v1 st] E1.
  destruct (negb (is_ok st)); [apply vls_same, E1|]. cbv zeta. apply holds_bind.
  eapply holds_impl; [apply hash_item_keeps| |auto]. intros [[v2 it2] st2] (G1 & f & KF & ->).
  assert (HV : vls v (set_v_items (l ++ [f (set_i_decoded true it)]) v2)).
  { apply vls_loc. cbn. rewrite EV. apply loc_app. exact (loc_head _ it [] (keeps_comp _ _ (keeps_decoded true) KF)). }
  destruct (negb (is_ok st2)); [exact HV|].
  destruct (read_hash _ _); [|exact I]. cbn [obind]. destruct (put_at 0 _ _); [|exact I]. cbn [obind].
  set (v3 := on_gs _ _). pose proof (prepare_vls v3) as P1.
  destruct (prepare C Ov v3) as [[v4 st4]|]; [|exact I]. cbn in P1 |- *. eapply vls_trans; [exact HV|exact P1].
Qed.

(** Adding a NALU. *)
Lemma add_body_vls f v n : holds (add_body C Ov f v n) (fun '(v', _) => eds (list_append (v_items v) n) (v_items v')) (fun _ => True).
Proof.
  unfold add_body. cbv zeta. destruct (n_valid n <? 0)%Z; [apply eds_refl|].
  apply holds_bind. eapply holds_impl; [apply register_keeps| |auto]. intros [[v1 it] st] (E1 & f0 & KF & EI). cbn in E1.
  set (v2 := set_v_items (v_items v ++ [it]) v1).
  assert (H2 : eds (list_append (v_items v) n) (v_items v2)) by (unfold v2, list_append; cbn; subst it; apply loc_eds, loc_app; exact (loc_head f0 (item_create n) [] KF)).
  assert (E2 : v_items v2 = v_items v ++ [it]) by reflexivity. clearbody v2. clear E1 EI v1.
  destruct (negb (is_ok st)); [exact H2|]. apply holds_bind.
  match goal with |- holds ?x _ _ => assert (G : holds x (fun '(v', _) => eds (list_append (v_items v) n) (v_items v')) (fun _ => True)) end.
  { dif; [|exact H2]. apply holds_bind. eapply holds_impl; [apply recurrent_items| |auto]. intros [v3 b] E3.
    destruct (negb b); [cbn; rewrite E3; exact H2|].
    set (v4 := on_dec _ v3). assert (E4 : v_items v4 = v_items v2) by exact E3. clearbody v4. clear E3 v3. apply holds_bind.
    assert (G : holds (if n_golden n then prepare_golden C Ov v4 (v_items v) it else Def (v4, SV_OK)) (fun '(v', _) => vls v4 v') (fun _ => True)).
    { destruct (n_golden n); [|apply vls_same; reflexivity]. apply prepare_golden_vls. congruence. }
    eapply holds_impl; [exact G| |auto]. intros [v5 st5] H5. unfold vls in H5. rewrite E4 in H5.
    assert (H05 : eds (list_append (v_items v) n) (v_items v5)) by (eapply eds_trans; [exact H2|exact H5]).
    destruct (negb (is_ok st5)); [exact H05|].
    destruct (_ && _); [exact H05|].
    eapply holds_impl; [apply reregister_vls| |auto]. intros [v6 st6] H6. eapply eds_trans; [exact H05|apply H6]. }
  eapply holds_impl; [exact G| |auto]. clear G. intros [v3 st3] H3. destruct (_ || _); [exact H3|].
  eapply holds_impl; [apply maybe_validate_vls| |auto]. intros [v4 st4] H4. eapply eds_trans; [exact H3|exact H4].
Qed.
Definition tids (l m : list item) : Prop := exists ops xs, Forall tidy ops /\ lrun l ops = Def (m, xs).
Lemma eds_tids l m : eds l m -> tids l m.
Proof. intros (ops & xs & F & E). exists ops, xs. split; [|exact E]. eapply Forall_impl; [|exact F]. intros o. destruct o; cbn; tauto. Qed.
Lemma tids_trans a b c : tids a b -> tids b c -> tids a c.
Proof. intros (o1 & x1 & F1 & E1) (o2 & x2 & F2 & E2). exists (o1 ++ o2), (x1 ++ x2). split; [apply Forall_app; auto|]. rewrite lrun_app, E1. cbn [obind]. rewrite E2. reflexivity. Qed.
Lemma clean_tids l : tids l (fst (clean_up l)).
Proof. exists [LStrings; LCleanUp], [RStrings (validation_str l ++ [0]) (nalu_str l ++ [0]); RNum (snd (clean_up l))]. split; [repeat constructor|]. cbn [lrun lexec obind]. destruct (clean_up l). reflexivity. Qed.

(** A call is a visit. *)
Definition visits (l m : list item) (ns : list nalu) : Prop := exists vs xs, Forall proper vs /\ fed vs = ns /\ lrun l (flat vs) = Def (m, xs).
Lemma visits_nil l : visits l l [].
Proof. exists [], []. split; [constructor|]. split; reflexivity. Qed.
Lemma visits_app a b c n k : visits a b n -> visits b c k -> visits a c (n ++ k).
Proof.
  intros (v1 & x1 & P1 & F1 & E1) (v2 & x2 & P2 & F2 & E2). exists (v1 ++ v2), (x1 ++ x2). split; [apply Forall_app; auto|]. unfold fed, flat in *. rewrite !flat_map_app, lrun_app, E1. cbn [obind]. rewrite E2, F1, F2. auto.
Qed.
Lemma add_h26x_visits f v data n : parse_nalu data (v_codec v) true true = Def n ->
  holds (add_h26x C Ov f v data) (fun '(v', _) => v_legacy v' = false -> exists l, eds (list_append (v_items v) n) l /\ exists known m st, copy_last known l = Def (m, st) /\ eds m (v_items v')) (fun _ => True).
Proof.
  intros EP. unfold add_h26x. rewrite EP. cbn [obind]. cbv zeta. set (v1 := on_acc _ _).
  assert (E1 : v_items v1 = v_items v) by reflexivity. clearbody v1. apply holds_bind.
  eapply holds_impl; [apply add_body_vls| |auto]. intros [v2 st] H. rewrite E1 in H.
  destruct (v_legacy v2) eqn:EL; [cbn; congruence|]. apply holds_bind. destruct (copy_last (d_algo_known (v_dec v2)) (v_items v2)) as [[l cst]|] eqn:EC; [|exact I].
  cbn [holds]. intros _. exists (v_items v2). split; [exact H|]. eexists _, l, cst. split; [exact EC|]. cbn [v_items set_v_items]. dif; [apply eds_refl|apply loc_eds, mark_last_loc; discriminate].
Qed.
Lemma visit_of l n m known k st p : eds (list_append l n) m -> copy_last known m = Def (k, st) -> tids k p -> visits l p [n].
Proof.
  intros (o1 & x1 & F1 & E1) EC (o2 & x2 & F2 & E2). exists [Feed n o1 known o2], (RDone :: x1 ++ RCode st :: RDone :: x2). split; [repeat constructor; assumption|]. split; [reflexivity|].
  unfold flat. cbn [flat_map flat1]. rewrite app_nil_r. cbn [lrun lexec obind]. rewrite lrun_app, E1. cbn [obind lrun lexec]. rewrite EC. cbn [obind]. rewrite E2. reflexivity.
Qed.
Lemma report_tids v : tids (v_items v) (v_items (update_report v)).
Proof. pose proof (update_report_latest v) as (_ & _ & E & _). rewrite E. apply clean_tids. Qed.
Lemma add_nalu_visits f v data want v' r : add_nalu C Ov f v data want = Def (v', r) -> v_legacy v' = false ->
  exists ns, visits (v_items v) (v_items v') ns /\ Forall2 (fun n d => parse_nalu d (v_codec v) true true = Def n) ns (given (VAdd data want)).
Proof.
  unfold add_nalu. destruct data as [|b0 data0]; [intros E _; injection E as <- <-; exists []; split; [apply visits_nil|constructor]|]. set (data := b0 :: data0) in *. cbv zeta. set (w := create_report _).
  assert (EI : v_items w = v_items v) by (unfold w, create_report; destruct (v_report _); reflexivity). assert (EC : v_codec w = v_codec v) by (unfold w, create_report; destruct (v_report _); reflexivity). clearbody w.
  destruct (v_legacy w) eqn:EL; [intros E; injection E as <- <-; congruence|]. destruct (parse_nalu data (v_codec v) true true) as [n|u] eqn:EP; [|unfold add_h26x; rewrite EC, EP; discriminate].
  pose proof (add_h26x_visits f w data n ltac:(rewrite EC; exact EP)) as H. destruct (add_h26x C Ov f w data) as [[v1 st]|u]; [|discriminate]. cbn [obind holds] in *. rewrite EI in H.
  destruct (v_legacy v1) eqn:EL1; [intros E; injection E as <- <-; congruence|]. specialize (H eq_refl) as (l & H1 & known & m & st2 & H2 & H3).
  assert (GO : tids (v_items v1) (v_items v') -> exists ns, visits (v_items v) (v_items v') ns /\ Forall2 (fun n d => parse_nalu d (v_codec v) true true = Def n) ns [data]).
  { intros T. exists [n]. split; [|repeat constructor; exact EP]. eapply visit_of; [exact H1|exact H2|]. eapply tids_trans; [apply eds_tids, H3|exact T]. }
  destruct (negb (is_ok st)); [intros E _; injection E as <- <-; apply GO, eds_tids, eds_refl|].
  destruct (v_result v1); [|intros E _; injection E as <- <-; apply GO, eds_tids, eds_refl].
  assert (HG : v_items (fst (get_report (update_report v1))) = v_items (update_report v1)) by (unfold get_report; destruct (negb _); reflexivity).
  destruct want; [destruct (get_report _) as [v2 p]|]; intros E _; injection E as <- <-; apply GO; cbn [v_items on_dec set_v_dec]; cbn [fst] in HG; try rewrite HG; apply report_tids.
Qed.
Lemma exec_visits f v o v' r : vexec C Ov f v o = Def (v', r) -> v_legacy v' = false ->
  exists ns, visits (v_items v) (v_items v') ns /\ Forall2 (fun n d => parse_nalu d (v_codec v) true true = Def n) ns (given o).
Proof.
  destruct o as [d w|k| |]; cbn [vexec].
  - apply add_nalu_visits.
  - assert (E : v_items (fst (set_public_key C v k)) = v_items v) by (unfold set_public_key; repeat brk; reflexivity).
    destruct (set_public_key C v k) as [v1 st]. intros H _. injection H as <- <-. cbn [fst] in E. rewrite E. exists []. split; [apply visits_nil|constructor].
  - intros E _. injection E as <- <-. exists []. split; [|constructor]. exists [Clear], [RDone]. split; [repeat constructor|]. split; reflexivity.
  - destruct (v_legacy v) eqn:EL; [intros E; injection E as <- <-; congruence|]. assert (E : v_items (fst (get_report v)) = v_items v) by (unfold get_report; destruct (negb _); reflexivity).
    destruct (get_report v) as [v1 p]. intros H _. injection H as <- <-. cbn [fst] in E. rewrite E. exists []. split; [apply visits_nil|constructor].
Qed.
Lemma run_visits f : forall ops v v' res, vrun C Ov f v ops = Def (v', res) -> v_legacy v' = false ->
  exists ns, visits (v_items v) (v_items v') ns /\ Forall2 (fun n d => parse_nalu d (v_codec v) true true = Def n) ns (flat_map given ops).
Proof.
  induction ops as [|o ops IH]; intros v v' res E EL; cbn [vrun] in E.
  - injection E as <- <-. exists []. split; [apply visits_nil|constructor].
  - destruct (vexec C Ov f v o) as [[v1 x]|u] eqn:EX; [|discriminate]. cbn [obind] in E. destruct (vrun C Ov f v1 ops) as [[v2 xs]|u] eqn:ER; [|discriminate]. injection E as <- <-.
    destruct (run_codec C Ov _ _ _ _ _ ER EL) as [EL1 _]. destruct (exec_codec C Ov _ _ _ _ _ EX EL1) as [_ EC].
    destruct (exec_visits _ _ _ _ _ EX EL1) as (n1 & V1 & P1). destruct (IH _ _ _ ER EL) as (n2 & V2 & P2). exists (n1 ++ n2). split; [eapply visits_app; eassumption|].
    cbn [flat_map]. apply Forall2_app; [exact P1|]. rewrite <- EC. exact P2.
Qed.

(** Every history of a session is a history of the list in memory. *)
Lemma session_visits f c ops v res : vrun C Ov f (vcreate C c) ops = Def (v, res) -> v_legacy v = false ->
  exists vs xs, Forall proper vs /\ Forall2 (fun n d => parse_nalu d c true true = Def n) (fed vs) (flat_map given ops) /\ lrun [] (flat vs) = Def (v_items v, xs).
Proof. intros E EL. destruct (run_visits _ _ _ _ _ E EL) as (ns & (vs & xs & P & F & R) & Q). exists vs, xs. rewrite F. auto. Qed.
End Fns.
Lemma own_copies C Ov fuel c ops v res : vrun C Ov fuel (vcreate C c) ops = Def (v, res) -> v_legacy v = false ->
  exists vs xs, Forall proper vs /\ Forall2 (fun n d => parse_nalu d c true true = Def n) (fed vs) (flat_map given ops) /\
    forall alloc, (forall t used, ~ In (alloc t used) used) ->
    exists m, hrun alloc hcreate (flat vs) = Def (m, xs) /\ stored m (v_items v) /\ owned m /\ m_lost m = 0%nat /\
    exists m', hexec alloc m LFreeItems = Def (m', RDone) /\ m_heap m' = [] /\ m_lost m' = 0%nat.
Proof.
  intros E EL. destruct (session_visits C Ov _ _ _ _ _ E EL) as (vs & xs & P & F & R). exists vs, xs. split; [exact P|]. split; [exact F|].
  intros alloc fresh. pose proof (all_ok alloc fresh vs P) as H. rewrite R in H. destruct H as (m & H1 & H2 & H3 & H4). exists m. do 4 (split; [assumption|]). exact (emptied alloc fresh vs P m xs H1).
Qed.

(** Two allocators. *)
Lemma top_fresh used : ~ In (4096 + 32 * fold_right N.max 0 used) used.
Proof. assert (H : forall a, In a used -> a <= fold_right N.max 0 used) by (induction used as [|b u IH]; cbn; [contradiction|]; intros a [<-|IN]; [lia|]; specialize (IH a IN); lia). intros IN. specialize (H _ IN). lia. Qed.
Lemma low_fresh (l used : list N) d : (find (fun a => negb (existsb (N.eqb a) used)) l = None -> ~ In d used) -> ~ In (match find (fun a => negb (existsb (N.eqb a) used)) l with Some a => a | None => d end) used.
Proof.
  intros H. destruct (find _ l) as [a|] eqn:E; [|auto]. apply find_some in E as [_ E]. apply negb_true_iff in E. intros IN.
  assert (X : existsb (N.eqb a) used = true) by (apply existsb_exists; exists a; split; [exact IN|apply N.eqb_refl]). congruence.
Qed.

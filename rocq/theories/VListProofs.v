(** How the validator changes its list of NALUs: lemmas. *)
From Verif Require Import Base BaseProofs Nalu Crypto Types Hash Tlv TlvProofs SignerProofs VTypes NaluList Validator.
Local Open Scope N_scope.

(** The characters of the NALUs in a list, missing ones left out. *)
Definition kind (it : item) : list N := match i_nalu it with Some n => [type_char (Some n)] | None => [] end.
Definition names (l : list item) : list N := flat_map kind l.

(** What of a NALU is never changed. *)
Definition kd (it : item) : list N * option N := (kind it, option_map n_tlv_size (i_nalu it)).

(** An item after a change of its status or hashes. *)
Definition it_ev (a b : item) : Prop :=
  kd b = kd a /\
  (i_nalu b = None -> (i_status b = i_status a \/ i_status b = SErr) /\ i_decoded b = i_decoded a) /\
  (i_nalu b <> None -> i_status b = SMiss -> i_status a = SMiss).
(** A list after changes: items kept in order, missing items inserted or removed. *)
Inductive ev : list item -> list item -> Prop :=
| ev_nil : ev [] []
| ev_keep a b l m : it_ev a b -> ev l m -> ev (a :: l) (b :: m)
| ev_ins b l m : i_nalu b = None -> i_status b = SMiss -> i_decoded b = false -> ev l m -> ev l (b :: m)
| ev_del a l m : i_nalu a = None -> ev l m -> ev (a :: l) m.

Definition item_wf (it : item) : Prop :=
  (i_status it = SMiss -> i_nalu it = None) /\ (i_nalu it = None -> (i_status it = SMiss \/ i_status it = SErr) /\ i_decoded it = false) /\
  (forall n, i_nalu it = Some n -> n_tlv_size n < 9223372036854775808).

Lemma kind_none a b : kd b = kd a -> i_nalu b = None <-> i_nalu a = None.
Proof. unfold kd, kind. destruct (i_nalu a), (i_nalu b); split; congruence. Qed.
Lemma it_ev_refl a : it_ev a a.
Proof. split; [reflexivity|]. auto. Qed.
Lemma it_ev_same a b : i_nalu b = i_nalu a -> i_status b = i_status a -> i_decoded b = i_decoded a -> it_ev a b.
Proof. intros E1 E2 E3. unfold it_ev, kd, kind. rewrite E1, E2, E3. auto. Qed.
Lemma it_ev_status a s : i_nalu a <> None -> s <> SMiss -> it_ev a (set_i_status s a).
Proof. intros H1 H2. split; [reflexivity|]. cbn. split; congruence. Qed.
Lemma it_ev_trans a b c : it_ev a b -> it_ev b c -> it_ev a c.
Proof.
  intros (A1 & A2 & A3) (B1 & B2 & B3). pose proof (kind_none _ _ A1) as K1. pose proof (kind_none _ _ B1) as K2.
  split; [congruence|]. split.
  - intros H. destruct (B2 H) as [E ED]. destruct (A2 (proj1 K2 H)) as [E' ED']. split; [|congruence].
    destruct E as [->|E]; auto.
  - intros H1 H2. apply A3; [tauto|]. apply B3; assumption.
Qed.
Lemma ev_refl l : ev l l.
Proof. induction l; constructor; [apply it_ev_refl|assumption]. Qed.
Lemma ev_map f l : (forall a, it_ev a (f a)) -> ev l (map f l).
Proof. intros H. induction l; constructor; auto. Qed.

Lemma it_ev_wf a b : it_ev a b -> item_wf a -> item_wf b.
Proof.
  intros (H1 & H2 & H3) (W1 & W2 & WT). pose proof (kind_none _ _ H1) as K. split; [|split].
  - intros E. destruct (i_nalu b) eqn:EB; [|reflexivity]. assert (HN : i_nalu b <> None) by congruence.
    exfalso. rewrite <- EB in H3. pose proof (H3 ltac:(congruence) E) as E2. apply W1, K in E2. congruence.
  - intros E. destruct (H2 E) as [E2 ED]. destruct (W2 (proj1 K E)) as [W3 W4]. split; [|congruence].
    destruct E2 as [->|E2]; auto.
  - intros n E. unfold kd in H1. rewrite E in H1. destruct (i_nalu a) as [m|] eqn:EA; [|discriminate].
    injection H1 as _ E2. rewrite E2. apply WT. reflexivity.
Qed.
Lemma ev_wf l m : ev l m -> Forall item_wf l -> Forall item_wf m.
Proof.
  induction 1; intros W; auto.
  - apply Forall_cons_iff in W as [W1 W2]. constructor; [eapply it_ev_wf; eassumption|auto].
  - constructor; [|auto]. split; [auto|]. split; [auto|congruence].
  - apply Forall_cons_iff in W as [W1 W2]. auto.
Qed.
Lemma ev_names l m : ev l m -> names m = names l.
Proof.
  induction 1; cbn [names flat_map] in *.
  - reflexivity.
  - destruct H as [H _]. apply (f_equal fst) in H. cbn in H. unfold names in IHev. rewrite H, IHev. reflexivity.
  - unfold kind at 1. rewrite H. exact IHev.
  - unfold kind at 1. rewrite H. exact IHev.
Qed.

Lemma ev_app l m l' m' : ev l m -> ev l' m' -> ev (l ++ l') (m ++ m').
Proof. induction 1; intros H'; cbn [app]; [exact H'|constructor; auto..]. Qed.
Lemma ev_missing k l m : ev l m -> ev l (repeat missing_item k ++ m).
Proof. intros H. induction k; [exact H|]. cbn. apply ev_ins; [reflexivity|reflexivity|reflexivity|exact IHk]. Qed.

(** Adding missing items. *)
Lemma add_missing_ev num app pos l : ev l (add_missing num app pos l).
Proof.
  unfold add_missing. cbv zeta. rewrite <- (firstn_skipn (if app then S pos else pos) l) at 1.
  apply ev_app; [apply ev_refl|]. apply ev_missing, ev_refl.
Qed.

Ltac brk := match goal with |- context [match ?x with _ => _ end] =>
  lazymatch x with context [match _ with _ => _ end] => fail | _ => destruct x end end.

(** [ev] is not transitive as an inductive, but what is used of it is. *)
Definition evs (l m : list item) : Prop := names m = names l /\ (Forall item_wf l -> Forall item_wf m).
Lemma ev_evs l m : ev l m -> evs l m.
Proof. intros H. split; [apply ev_names, H|apply ev_wf, H]. Qed.
Lemma evs_refl l : evs l l.
Proof. split; auto. Qed.
Lemma evs_trans a b c : evs a b -> evs b c -> evs a c.
Proof. intros [A1 A2] [B1 B2]. split; [congruence|auto]. Qed.

(** ** The functions *)

Ltac dif := match goal with |- context [if ?b then _ else _] => destruct b end.

Lemma on_next_sei_ev f l : (forall a, i_nalu a <> None -> it_ev a (f a)) -> ev l (on_next_sei f l).
Proof.
  intros H. induction l as [|it l IH]; cbn [on_next_sei]; [constructor|].
  destruct (item_sei it && pending it) eqn:E; constructor; try apply it_ev_refl; auto using ev_refl.
  apply H. unfold item_sei in E. destruct (i_nalu it); [discriminate|]. cbn in E. discriminate.
Qed.
Lemma next_status_ev s l : s <> SMiss -> ev l (on_next_sei (set_i_status s) l).
Proof. intros H. apply on_next_sei_ev. intros a Ha. apply it_ev_status; assumption. Qed.
Lemma remove_used_ev l : ev l (remove_used l).
Proof. apply ev_map. intros a. apply it_ev_same; reflexivity. Qed.
Lemma remove_missing_ev fr fp fs l : Forall item_wf l -> ev l (remove_missing fr fp fs l).
Proof.
  intros W. revert fr fp fs. induction W as [|it l W0 W IH]; intros; cbn [remove_missing]; [constructor|].
  destruct (fp && fs); [apply ev_refl|].
  destruct (vstat_eqb (i_status it) SMiss && fr) eqn:EM.
  - apply ev_del; [|apply IH]. apply andb_true_iff in EM as [EM _]. destruct W0 as [W0 _]. apply W0.
    destruct (i_status it); try discriminate. reflexivity.
  - cbv zeta. constructor; [|apply IH]. set (mk := _ && _).
    unfold vstat_eqb in EM. destruct (i_nalu it) as [n|] eqn:EN.
    + assert (HN : i_nalu it <> None) by congruence.
      assert (H1 : it_ev it (if mk then set_i_status SUnknown it else it)).
      { destruct mk; [apply it_ev_status; [exact HN|discriminate]|apply it_ev_refl]. }
      eapply it_ev_trans; [exact H1|]. destruct (vstat_eqb _ SInvalid); [|apply it_ev_refl].
      apply it_ev_status; [|discriminate]. destruct mk; exact HN.
    + destruct (proj1 (proj2 W0) EN) as [HS HD]. subst mk. rewrite HD. cbn [andb].
      destruct (vstat_eqb (i_status it) SInvalid) eqn:EI; [|apply it_ev_refl]. destruct HS as [HS|HS]; rewrite HS in EI; discriminate.
Qed.

Lemma set_linked_ev k l : ev l (set_nth k (set_i_linked true) l).
Proof.
  unfold set_nth. destruct (skipn k l) as [|x r] eqn:E; [apply ev_refl|].
  rewrite <- (firstn_skipn k l) at 1. rewrite E. apply ev_app; [apply ev_refl|]. constructor; [apply it_ev_same; reflexivity|apply ev_refl].
Qed.

Section Fns.
Variable C : crypto.
Variable Ov : ovf.

Lemma gop_loop_ev hs l : forall h is num, holds (gop_loop hs h is num l) (fun '(_, m, _) => ev l m) (fun _ => True).
Proof.
  induction l as [|it l IH]; intros; cbn [gop_loop]; [constructor|].
  destruct (negb (pending it)).
  { apply holds_bind. eapply holds_impl; [apply IH| |auto]. intros [[h2 m] st] H. cbn. constructor; [apply it_ev_refl|exact H]. }
  destruct (i_nalu it) as [n|]; [|exact I]. cbv zeta.
  repeat match goal with |- holds (if ?b then _ else _) _ _ => destruct b; [apply ev_refl|] end.
  destruct (if n_first_in_gop n then _ else _) as [x|]; [|apply ev_refl].
  destruct (read_hash hs x) as [y|]; [|exact I]. cbn [obind]. destruct (update_hash true y h) as [h2 st].
  destruct (negb (is_ok st)); [apply ev_refl|]. apply holds_bind. eapply holds_impl; [apply IH| |auto].
  intros [[h3 m] st3] H. cbn. constructor; [apply it_ev_same; reflexivity|exact H].
Qed.

Lemma mark_without_ev l : holds (mark_without l) (fun '(m, _, _) => ev l m) (fun _ => True).
Proof.
  induction l as [|it l IH]; cbn [mark_without]; [constructor|].
  destruct (negb (pending it)).
  { apply holds_bind. eapply holds_impl; [apply IH| |auto]. intros [[m k] f] H. cbn. constructor; [apply it_ev_refl|exact H]. }
  destruct (i_nalu it) as [n|] eqn:EN; [|exact I].
  assert (HI : it_ev it (set_i_status SInvalid it)) by (apply it_ev_status; congruence).
  destruct (n_gop_sei n); [apply ev_refl|]. cbv zeta. destruct l as [|nx l']; [constructor; [exact HI|constructor]|].
  destruct (i_nalu nx); [|exact I]. destruct (_ && _); [constructor; [exact HI|apply ev_refl]|].
  apply holds_bind. eapply holds_impl; [exact IH| |auto]. intros [[m k] f] H. cbn. constructor; assumption.
Qed.

Lemma hl_loop_ev hs exp l : forall pos ps seen s, holds (hl_loop hs exp pos ps seen s l) (fun '(_, m) => ev l m) (fun _ => True).
Proof.
  induction l as [|it l IH]; intros; cbn [hl_loop]; [constructor|]. cbv zeta.
  destruct (_ || _).
  { apply holds_bind. eapply holds_impl; [apply IH| |auto]. intros [s2 m] H. cbn. constructor; [apply it_ev_refl|exact H]. }
  destruct (i_nalu it) as [n|] eqn:EN; [|exact I].
  assert (HI : forall b : bool, it_ev it (set_i_status (if b then SValid else SInvalid) it)).
  { intros b. apply it_ev_status; [congruence|destruct b; discriminate]. }
  destruct (_ || _); [apply ev_refl|].
  destruct (if n_first_in_gop n then _ else _) as [x|]; [|exact I].
  destruct (read_hash hs x) as [y|]; [|exact I]. cbn [obind]. destruct (search y _ _) as [i found].
  assert (HL : forall s2 pos2 b c, holds (if ps then Def (s2, l) else hl_loop hs exp pos2 b c s2 l) (fun '(_, m) => ev l m) (fun _ => True)).
  { intros. destruct ps; [apply ev_refl|apply IH]. }
  destruct found; apply holds_bind; (eapply holds_impl; [apply HL| |auto]); intros [s3 m] H; cbn [holds].
  - apply ev_missing. constructor; [apply HI|exact H].
  - constructor; [apply (HI false)|exact H].
Qed.

Lemma mark_used_ev s l : s <> SMiss -> holds (mark_used s l) (fun '(m, _) => ev l m) (fun _ => True).
Proof.
  intros HS. induction l as [|it l IH]; cbn [mark_used]; [constructor|]. apply holds_bind.
  eapply holds_impl; [exact IH| |auto]. intros [m k] H.
  destruct (_ && _); [|constructor; [apply it_ev_refl|exact H]].
  destruct (i_nalu it) eqn:EN; [|exact I]. cbn. constructor; [apply it_ev_status; congruence|exact H].
Qed.

(** What a function does to the list of a session. *)
Definition vev (v v' : valid) : Prop := evs (v_items v) (v_items v').
Lemma vev_trans a b c : vev a b -> vev b c -> vev a c.
Proof. apply evs_trans. Qed.
Lemma vev_same a b : v_items b = v_items a -> vev a b.
Proof. unfold vev. intros ->. apply evs_refl. Qed.
Lemma vev_ev a b : ev (v_items a) (v_items b) -> vev a b.
Proof. apply ev_evs. Qed.

Lemma detect_lost_items v : holds (detect_lost Ov v) (fun v' => v_items v' = v_items v) (fun _ => True).
Proof.
  unfold detect_lost. destruct (add_int64 Ov _ _); [|exact I]. cbn [obind].
  match goal with |- holds (obind ?a _) _ _ => destruct a; [|exact I] end. reflexivity.
Qed.
Lemma decode_sei_items v n : holds (decode_sei C Ov v n) (fun '(v', _) => v_items v' = v_items v) (fun _ => True).
Proof.
  unfold decode_sei. destruct (tlv_decode C _ _ _) as [[d st]|]; [|exact I]. cbn [obind].
  destruct (negb (is_ok st)); [reflexivity|]. apply holds_bind. eapply holds_impl; [apply detect_lost_items| |auto].
  intros v' E. cbn [holds]. destruct (_ && _); exact E.
Qed.

Lemma verify_without_vev v : holds (verify_without v) (fun '(v', _) => vev v v') (fun _ => True).
Proof.
  unfold verify_without. apply holds_bind. eapply holds_impl; [apply mark_without_ev| |auto].
  intros [[m k] f] H. cbn. apply vev_ev. destruct (_ && _); exact H.
Qed.

Lemma verify_list_vev v o : holds (verify_list v o) (fun '(v', _, _, _) => vev v v') (fun _ => True).
Proof.
  unfold verify_list. destruct (_ =? _)%nat; [exact I|]. cbv zeta. destruct (next_sei (v_items v)); [|apply vev_same; reflexivity].
  apply holds_bind. eapply holds_impl; [apply hl_loop_ev| |auto]. intros [s l] H. apply holds_bind.
  assert (G : holds (if (h_latest s =? -1)%Z
      then match l with [] => Undef NullDeref | it :: _ => Def (add_missing (Z.of_nat (length (expected_hashes v)) - h_inv s)
         (match i_second it with Some _ => true | None => false end) 0 l) end else Def l) (fun m => evs l m) (fun _ => True)).
  { destruct (_ =? _)%Z; [|apply evs_refl]. destruct l; [exact I|]. apply ev_evs, add_missing_ev. }
  eapply holds_impl; [exact G| |auto]. intros l2 H2. cbn [holds]. unfold vev.
  assert (H3 : evs (v_items v) l2) by (eapply evs_trans; [apply ev_evs, H|exact H2]).
  eapply evs_trans; [exact H3|]. cbn [v_items set_v_items].
  eapply evs_trans; [|apply ev_evs, next_status_ev; discriminate].
  dif; [|apply evs_refl]. destruct (h_last s); [apply ev_evs, add_missing_ev|apply evs_refl].
Qed.

Lemma verify_with_vev v : holds (verify_with v) (fun '(v', _, _, _) => vev v v') (fun _ => True).
Proof.
  unfold verify_with. cbv zeta.
  assert (FIN : forall v s exp fu, s <> SMiss -> holds (
    do (v, num) <- (if (v_verified v =? 1)%Z then
                      match next_sei (v_items v) with
                      | None => Def (v, (-1)%Z)
                      | Some _ =>
                          do (l, k) <- mark_used s (v_items v);
                          Def (set_v_items (on_next_sei (set_i_status SValid) l) v, k)
                      end
                    else do (l, k) <- mark_used s (v_items v); Def (set_v_items l v, k));
    match fu with
    | Some k =>
        if v_first v then Def (v, false, exp, num)
        else
          match nth_error (v_items v) k with
          | Some it =>
              match i_nalu it with
              | None => Undef NullDeref
              | Some n => Def (on_items (add_missing (exp - num) (n_first_in_gop n) k) v, false, exp, num)
              end
          | None => Def (v, false, exp, num)
          end
    | None => Def (v, false, exp, num)
    end) (fun '(v', _, _, _) => vev v v') (fun _ => True)).
  { clear v. intros v s exp fu HS. apply holds_bind.
    assert (G : holds (if (v_verified v =? 1)%Z then
                      match next_sei (v_items v) with
                      | None => Def (v, (-1)%Z)
                      | Some _ =>
                          do (l, k) <- mark_used s (v_items v);
                          Def (set_v_items (on_next_sei (set_i_status SValid) l) v, k)
                      end
                    else do (l, k) <- mark_used s (v_items v); Def (set_v_items l v, k)) (fun '(v', _) => vev v v') (fun _ => True)).
    { destruct (_ =? _)%Z.
      - destruct (next_sei _); [|apply vev_same; reflexivity]. apply holds_bind. eapply holds_impl; [apply mark_used_ev, HS| |auto].
        intros [l k] H. cbn. unfold vev. cbn. eapply evs_trans; [apply ev_evs, H|]. apply ev_evs, next_status_ev. discriminate.
      - apply holds_bind. eapply holds_impl; [apply mark_used_ev, HS| |auto]. intros [l k] H. cbn. apply vev_ev, H. }
    eapply holds_impl; [exact G| |auto]. intros [v1 num] H. 
    destruct fu; [|exact H]. destruct (v_first v1); [exact H|]. destruct (nth_error _ _) as [it|]; [|exact H].
    destruct (i_nalu it); [|exact I]. cbn. eapply vev_trans; [exact H|]. apply vev_ev, add_missing_ev. }
  destruct (v_verified v =? 1)%Z eqn:EV.
  - dif; [apply verify_list_vev|].
    specialize (FIN v (if gop_ok v && linked_ok v then SValid else SInvalid) (Z.of_N (d_num_sent (v_dec v))) (first_used (v_items v))
      ltac:(destruct (_ && _); discriminate)). rewrite EV in FIN. exact FIN.
  - destruct (next_sei (v_items v)); [|exact I]. destruct (v_verified v =? 0)%Z.
    + set (v1 := on_items _ v). assert (H1 : vev v v1) by (apply vev_ev, next_status_ev; discriminate).
      eapply holds_impl; [apply (FIN v1 SInvalid (-1)%Z (first_used (v_items v1))); discriminate| |auto].
      intros [[[v2 a] b] c] H. eapply vev_trans; eassumption.
    + set (v1 := on_items remove_used _).
      assert (H1 : vev v v1).
      { unfold vev, v1. cbn. eapply evs_trans; [|apply ev_evs, remove_used_ev]. apply ev_evs, next_status_ev. discriminate. }
      apply holds_bind. eapply holds_impl; [apply verify_without_vev| |auto].
      intros [v2 f] H. cbn. eapply vev_trans; eassumption.
Qed.

(** From here on the list has to be well-formed: removing missing items must not remove others. *)
Definition wfv (v : valid) : Prop := Forall item_wf (v_items v).
Definition vevw (v v' : valid) : Prop := wfv v -> names (v_items v') = names (v_items v) /\ wfv v'.
Lemma vev_w v v' : vev v v' -> vevw v v'.
Proof. intros [H1 H2] W. split; [exact H1|exact (H2 W)]. Qed.
Lemma vevw_trans a b c : vevw a b -> vevw b c -> vevw a c.
Proof. intros H1 H2 W. destruct (H1 W) as [E1 W1]. destruct (H2 W1) as [E2 W2]. split; [congruence|exact W2]. Qed.
Lemma vevw_same a b : v_items b = v_items a -> vevw a b.
Proof. intros E. apply vev_w, vev_same, E. Qed.

Lemma validate_vev v : holds (validate v) (fun v' => vevw v v') (fun _ => True).
Proof.
  unfold validate. apply holds_bind.
  assert (G : holds (if gs_lost (v_gs v) && negb (gs_trans (v_gs v))
     then do (v, f) <- verify_without v; Def (v, f, -1, -1)%Z
     else do (v, f, e, r) <- verify_with v; Def (set_v_gop (d_counter (v_dec v)) v, f, e, r))
     (fun '(v', _, _, _) => vev v v') (fun _ => True)).
  { dif; apply holds_bind.
    - eapply holds_impl; [apply verify_without_vev| |auto]. intros [v' f] H. exact H.
    - eapply holds_impl; [apply verify_with_vev| |auto]. intros [[[v' f] e] r] H. exact H. }
  eapply holds_impl; [exact G| |auto]. clear G. intros [[[v1 success] exp] recv] H1.
  destruct (get_stats (v_items v1)) as [[inv mis] hv]. cbv zeta.
  set (v2 := on_items remove_used v1).
  assert (H2 : vevw v v2).
  { eapply vevw_trans; [apply vev_w, H1|]. apply vev_w, vev_ev, remove_used_ev. }
  clearbody v2. clear H1 v1. cbn [holds].
  set (v3 := if v_first v2 then v2 else set_v_synced true v2).
  assert (H3 : vevw v v3) by (unfold v3; destruct (v_first v2); exact H2). clearbody v3. clear H2.
  destruct (v_first v3).
  - assert (HR : vevw v (on_items remove_missing_items (set_v_synced false v3))).
    { intros W. destruct (H3 W) as [E W3]. pose proof (remove_missing_ev true false false _ W3) as EV.
      split; [cbn; rewrite <- E; apply (ev_names _ _ EV)|exact (ev_wf _ _ EV W3)]. }
    repeat brk; first [exact HR|exact H3].
  - repeat brk; exact H3.
Qed.
Lemma update_links_items v h : holds (update_links v h) (fun v' => v_items v' = v_items v) (fun _ => True).
Proof.
  unfold update_links. destruct h as [h|]; [|reflexivity]. destruct (read_hash _ _); [|exact I]. cbn [obind].
  destruct (shift_linked _ _ _); [reflexivity|exact I].
Qed.
Lemma update_link_vev v : holds (update_link v) (fun v' => vev v v') (fun _ => True).
Proof.
  unfold update_link. destruct (find_link (v_items v)) as [o|]; [|exact I]. cbn [obind].
  destruct o as [k|]; [|apply vev_same; reflexivity]. destruct (nth_error _ _) as [it|]; [|apply vev_same; reflexivity].
  destruct (i_linked it); [apply vev_same; reflexivity|]. apply holds_bind.
  eapply holds_impl; [apply update_links_items| |auto]. intros v' E. apply vev_ev. cbn. rewrite E. apply set_linked_ev.
Qed.

Lemma prepare_gop_vev v : holds (prepare_gop C v) (fun '(v', _) => vev v v') (fun _ => True).
Proof.
  unfold prepare_gop. apply holds_bind. eapply holds_impl; [apply gop_loop_ev| |auto]. intros [[h l] st] H. cbv zeta.
  assert (HR : evs (v_items v) (remove_used l)).
  { eapply evs_trans; [apply ev_evs, H|apply ev_evs, remove_used_ev]. }
  destruct (negb (is_ok st)); [exact HR|]. destruct (finalize_hash C true h) as [[h2 st2] x].
  destruct (negb (is_ok st2)); [exact HR|]. cbn [v_computed]. destruct (put_at 0 _ x); [|exact I]. apply ev_evs, H.
Qed.

Lemma verify_hash_items v : v_items (fst (verify_hash C v)) = v_items v.
Proof. unfold verify_hash. destruct (d_sig (v_dec v)), (d_vkey (v_dec v)); try reflexivity. dif; reflexivity. Qed.

Lemma prepare_vev v : holds (prepare C Ov v) (fun '(v', _) => vev v v') (fun _ => True).
Proof.
  unfold prepare. cbv zeta. apply holds_bind.
  match goal with |- holds ?x _ _ => assert (G : holds x (fun '(v', _) => vev v v') (fun _ => True)) end.
  { destruct (next_sei (v_items v)) as [it|]; [|apply vev_same; reflexivity].
    destruct (i_nalu it) as [n|]; [|exact I]. apply holds_bind.
    match goal with |- holds ?x _ _ => assert (G : holds x (fun '(v', _) => vev v v') (fun _ => True)) end.
    { destruct (i_decoded it); [apply vev_same; reflexivity|]. apply holds_bind.
      eapply holds_impl; [apply decode_sei_items| |auto]. intros [v1 st] E. change (v_items v1 = v_items v) in E.
      destruct (negb (is_ok st)); [apply vev_same, E|].
      destruct (read_hash _ _); [|exact I]. cbn [obind]. destruct (put_at 0 _ _); [|exact I]. apply vev_ev. cbn. rewrite E.
      apply on_next_sei_ev. intros i Hi. split; [reflexivity|]. cbn. split; [congruence|auto]. }
    eapply holds_impl; [exact G| |auto]. intros [v1 st] H1. destruct (negb (is_ok st)); [exact H1|].
    apply holds_bind. eapply holds_impl; [apply detect_lost_items| |auto]. intros v2 E2.
    eapply holds_impl; [apply prepare_gop_vev| |auto]. intros [v3 st3] H3.
    eapply vev_trans; [exact H1|]. eapply vev_trans; [apply vev_same, E2|exact H3]. }
  eapply holds_impl; [exact G| |auto]. intros [v1 st] H1. destruct (negb (is_ok st)); [exact H1|].
  dif; [exact H1|]. dif; [|exact H1]. pose proof (verify_hash_items v1) as E.
  destruct (verify_hash C v1) as [v2 st2]. cbn [fst] in E. cbn. eapply vev_trans; [exact H1|apply vev_same, E].
Qed.

Lemma hash_item_same v it : holds (hash_item C v it)
  (fun '(v', it', _) => v_items v' = v_items v /\ i_nalu it' = i_nalu it /\ i_status it' = i_status it /\ i_decoded it' = i_decoded it)
  (fun _ => True).
Proof.
  unfold hash_item. destruct (i_nalu it) as [n|] eqn:EN; [|cbn; auto]. destruct (_ || _); [cbn; auto|].
  destruct (hash_wrapper C _ _ _) as [[[k st] h]|]; [|exact I]. cbn [obind]. cbv zeta.
  match goal with |- holds (obind ?x _) _ _ => assert (G : holds x (fun it' => i_nalu it' = i_nalu it /\ i_status it' = i_status it /\ i_decoded it' = i_decoded it) (fun _ => True)) end.
  { destruct h as [x|]; [|cbn; auto]. destruct (put_at 0 _ _); [|exact I]. cbn. auto. }
  apply holds_bind. eapply holds_impl; [exact G| |auto]. intros it1 (E1 & E2 & E3). rewrite EN in E1.
  destruct (negb (is_ok st)); [cbn; auto|]. dif; [|cbn; auto].
  destruct (hash_wrapper C _ _ _) as [[[k2 st2] h2]|]; [|exact I]. cbn. auto.
Qed.

Lemma recurrent_items v : holds (recurrent_decoded C v) (fun '(v', _) => v_items v' = v_items v) (fun _ => True).
Proof.
  unfold recurrent_decoded. dif; [reflexivity|]. destruct (recurrent_loop C _ _) as [[d b]|]; [reflexivity|exact I].
Qed.
Lemma has_pending_items v : v_items (fst (has_pending v)) = v_items v.
Proof. unfold has_pending. destruct (pending_loop _ _ _). reflexivity. Qed.

Lemma validate_loop_vev f : forall v stop, holds (validate_loop C Ov f v stop) (fun '(v', _) => vevw v v') (fun _ => True).
Proof.
  induction f as [|f IH]; intros v stop; cbn [validate_loop]; pose proof (has_pending_items v) as E;
    destruct (has_pending v) as [v1 found]; cbn [fst] in E.
  { destruct (_ || _); [apply vevw_same, E|exact I]. }
  destruct (_ || _); [apply vevw_same, E|].
  set (v2 := if v_result v1 then _ else _).
  assert (E2 : v_items v2 = v_items v) by (unfold v2; destruct (v_result v1); exact E). clearbody v2. clear E v1.
  apply holds_bind. eapply holds_impl; [apply prepare_vev| |auto]. intros [v3 st] H3.
  assert (H03 : vevw v v3) by (eapply vevw_trans; [apply vevw_same, E2|apply vev_w, H3]). clear H3 E2.
  destruct (negb (is_ok st)); [exact H03|]. apply holds_bind.
  eapply holds_impl; [apply update_link_vev| |auto]. intros v4 H4.
  assert (H04 : vevw v v4) by (eapply vevw_trans; [exact H03|apply vev_w, H4]). clear H4. apply holds_bind.
  assert (G : holds (if v_signing v4 then validate v4 else Def (on_latest (set_l_auth NotSigned) v4)) (fun v' => vevw v v') (fun _ => True)).
  { destruct (v_signing v4); [|exact H04]. eapply holds_impl; [apply validate_vev| |auto].
    intros v5 H5. eapply vevw_trans; eassumption. }
  eapply holds_impl; [exact G| |auto]. intros v5 H5. eapply holds_impl; [apply IH| |auto].
  intros [v6 st6] H6. eapply vevw_trans; [|exact H6]. exact H5.
Qed.

(** The NALU pointers of a list; the last one. *)
Definition nalus (l : list item) : list (option nalu) := map i_nalu l.
Definition last_is (l : list item) : Prop := exists l0 n, nalus l = l0 ++ [Some n].
Lemma last_split l : last_is l -> exists l0 it, l = l0 ++ [it] /\ i_nalu it <> None.
Proof.
  intros (l0 & n & E). unfold nalus in E. destruct (rev l) as [|it r] eqn:ER.
  - apply (f_equal (@rev _)) in ER. rewrite rev_involutive in ER. subst l. destruct l0; discriminate.
  - apply (f_equal (@rev _)) in ER. rewrite rev_involutive in ER. cbn [rev] in ER. subst l. exists (rev r), it. split; [reflexivity|].
    rewrite map_app in E. cbn in E. apply app_inj_tail in E as [_ E]. congruence.
Qed.
Lemma last_app l it : i_nalu it <> None -> last_is (l ++ [it]).
Proof.
  intros H. destruct (i_nalu it) as [n|] eqn:E; [|congruence]. exists (nalus l), n. unfold nalus. rewrite map_app. cbn. rewrite E. reflexivity.
Qed.

Lemma mark_last_some s l : s <> SMiss -> last_is l -> ev l (mark_last s l).
Proof.
  intros HS HL. apply last_split in HL as (l0 & it & -> & HN). unfold mark_last. rewrite rev_app_distr. cbn [rev app]. rewrite rev_involutive.
  apply ev_app; [apply ev_refl|]. constructor; [|constructor]. apply it_ev_status; assumption.
Qed.
Lemma mark_last_err l : ev l (mark_last SErr l).
Proof.
  unfold mark_last. destruct (rev l) as [|it r] eqn:ER; apply (f_equal (@rev _)) in ER; rewrite rev_involutive in ER; subst l; [constructor|].
  cbn [rev]. apply ev_app; [apply ev_refl|]. constructor; [|constructor]. split; [reflexivity|]. cbn. split; [auto|discriminate].
Qed.

Lemma maybe_validate_vev f v n : last_is (v_items v) ->
  holds (maybe_validate C Ov f v n) (fun '(v', _) => vevw v v') (fun _ => True).
Proof.
  intros HL. unfold maybe_validate. cbv zeta. apply holds_bind. eapply holds_impl; [apply recurrent_items| |auto].
  intros [v1 f2] E1. destruct (negb _).
  - destruct (v_first_sei v1); [|apply vevw_same, E1]. cbn. apply vev_w. unfold vev. cbn. rewrite <- E1 in HL |- *.
    destruct (n_golden n); [|apply evs_refl]. destruct (v_verified v1 =? 1)%Z; cbn.
    + apply ev_evs, mark_last_some; [discriminate|exact HL].
    + apply ev_evs, mark_last_some; [destruct (_ =? _)%Z; discriminate|exact HL].
  - eapply holds_impl; [apply validate_loop_vev| |auto]. intros [v2 st] H. eapply vevw_trans; [apply vevw_same, E1|exact H].
Qed.

Lemma update_hashable_kind n : holds (update_hashable n) (fun m => type_char (Some m) = type_char (Some n) /\ n_valid m = n_valid n /\ n_tlv_size m = n_tlv_size n)
  (fun _ => True).
Proof.
  unfold update_hashable. destruct (_ || _); [cbn; auto|]. destruct (tlv_find_tag _ _ _ _) as [o|]; [|exact I]. cbn [obind].
  destruct o; cbn; auto.
Qed.

Lemma register_items v n : n_tlv_size n < 9223372036854775808 -> holds (register C v n)
  (fun '(v', it, _) => v_items v' = v_items v /\ kind it = [type_char (Some n)] /\ i_nalu it <> None /\ item_wf it) (fun _ => True).
Proof.
  intros HT. assert (HS : status_of n <> SMiss).
  { unfold status_of. repeat dif; discriminate. }
  unfold register. destruct (_ =? _)%Z.
  { cbn [holds]. split; [reflexivity|]. split; [reflexivity|]. split; [discriminate|]. split; cbn; [congruence|]. split; [discriminate|congruence]. }
  apply holds_bind. eapply holds_impl; [apply update_hashable_kind| |auto]. intros m (E1 & E2 & E3).
  eapply holds_impl; [apply hash_item_same| |auto]. intros [[v1 it] st] (G1 & G2 & G3 & G4). cbn in G2, G3, G4.
  split; [exact G1|]. unfold kind, item_wf. rewrite G2, G3. split; [rewrite E1; reflexivity|]. split; [discriminate|]. split; [congruence|].
  split; [discriminate|]. intros k EK. injection EK as <-. lia.
Qed.

Lemma rehash_ev l : forall v st, holds (rehash C v l st) (fun '(v', m, _) => v_items v' = v_items v /\ ev l m /\ nalus m = nalus l) (fun _ => True).
Proof.
  induction l as [|it l IH]; intros; cbn [rehash]; [cbn; split; [reflexivity|split; [constructor|reflexivity]]|].
  destruct (i_nalu it) as [n|] eqn:EN; [|exact I]. destruct (_ <=? _)%Z.
  - apply holds_bind. eapply holds_impl; [apply IH| |auto]. intros [[v1 m] st1] (E & H & HN). cbn. split; [exact E|]. unfold nalus in HN. rewrite HN.
    split; [constructor; [apply it_ev_refl|exact H]|reflexivity].
  - apply holds_bind. eapply holds_impl; [apply hash_item_same| |auto]. intros [[v1 it1] st1] (G1 & G2 & G3 & G4).
    destruct (negb (is_ok st1)).
    { cbn. rewrite G2. split; [exact G1|]. split; [constructor; [apply it_ev_same; congruence|apply ev_refl]|reflexivity]. }
    apply holds_bind. eapply holds_impl; [apply IH| |auto]. intros [[v2 m] st2] (E & H & HN). cbn. unfold nalus in HN. rewrite HN, G2. split; [congruence|].
    split; [constructor; [apply it_ev_same; congruence|exact H]|reflexivity].
Qed.
Lemma reregister_vev v : holds (reregister C v) (fun '(v', _) => vev v v' /\ nalus (v_items v') = nalus (v_items v)) (fun _ => True).
Proof.
  unfold reregister. apply holds_bind. eapply holds_impl; [apply rehash_ev| |auto].
  intros [[v1 m] st] (E & H & HN). cbn. split; [apply vev_ev, H|exact HN].
Qed.

(** Preparing keeps the NALU pointers. *)
Lemma gop_loop_nalus hs l : forall h is num, holds (gop_loop hs h is num l) (fun '(_, m, _) => nalus m = nalus l) (fun _ => True).
Proof.
  induction l as [|it l IH]; intros; cbn [gop_loop]; [reflexivity|].
  destruct (negb (pending it)).
  { apply holds_bind. eapply holds_impl; [apply IH| |auto]. intros [[h2 m] st] H. unfold nalus in H. cbn. rewrite H. reflexivity. }
  destruct (i_nalu it) as [n|] eqn:EN; [|exact I]. cbv zeta.
  repeat match goal with |- holds (if ?b then _ else _) _ _ => destruct b; [reflexivity|] end.
  destruct (if n_first_in_gop n then _ else _) as [x|]; [|reflexivity].
  destruct (read_hash hs x) as [y|]; [|exact I]. cbn [obind]. destruct (update_hash true y h) as [h2 st].
  destruct (negb (is_ok st)); [reflexivity|]. apply holds_bind. eapply holds_impl; [apply IH| |auto].
  intros [[h3 m] st3] H. unfold nalus in H. cbn. rewrite H. reflexivity.
Qed.
Lemma remove_used_nalus l : nalus (remove_used l) = nalus l.
Proof. unfold nalus, remove_used. rewrite map_map. reflexivity. Qed.
Lemma on_next_nalus f l : (forall a, i_nalu (f a) = i_nalu a) -> nalus (on_next_sei f l) = nalus l.
Proof.
  intros H. unfold nalus. induction l as [|it l IH]; cbn [on_next_sei]; [reflexivity|]. dif; cbn [map]; [rewrite H; reflexivity|congruence].
Qed.
Lemma prepare_nalus v : holds (prepare C Ov v) (fun '(v', _) => nalus (v_items v') = nalus (v_items v)) (fun _ => True).
Proof.
  unfold prepare. cbv zeta. apply holds_bind.
  match goal with |- holds ?x _ _ => assert (G : holds x (fun '(v', _) => nalus (v_items v') = nalus (v_items v)) (fun _ => True)) end.
  { destruct (next_sei (v_items v)) as [it|]; [|reflexivity].
    destruct (i_nalu it) as [n|]; [|exact I]. apply holds_bind.
    match goal with |- holds ?x _ _ => assert (G : holds x (fun '(v', _) => nalus (v_items v') = nalus (v_items v)) (fun _ => True)) end.
    { destruct (i_decoded it); [reflexivity|]. apply holds_bind.
      eapply holds_impl; [apply decode_sei_items| |auto]. intros [v1 st] E. change (v_items v1 = v_items v) in E.
      destruct (negb (is_ok st)); [cbn; rewrite E; reflexivity|].
      destruct (read_hash _ _); [|exact I]. cbn [obind]. destruct (put_at 0 _ _); [|exact I]. cbn. rewrite on_next_nalus by reflexivity.
      rewrite E. reflexivity. }
    eapply holds_impl; [exact G| |auto]. intros [v1 st] H1. destruct (negb (is_ok st)); [exact H1|].
    apply holds_bind. eapply holds_impl; [apply detect_lost_items| |auto]. intros v2 E2.
    unfold prepare_gop. apply holds_bind. eapply holds_impl; [apply gop_loop_nalus| |auto]. intros [[h l] st1] H. cbv zeta.
    rewrite E2, H1 in H.
    destruct (negb (is_ok st1)); [cbn; rewrite remove_used_nalus; exact H|]. destruct (finalize_hash C true h) as [[h2 st2] x].
    destruct (negb (is_ok st2)); [cbn; rewrite remove_used_nalus; exact H|]. cbn [v_computed]. destruct (put_at 0 _ x); [|exact I]. exact H. }
  eapply holds_impl; [exact G| |auto]. intros [v1 st] H1. destruct (negb (is_ok st)); [exact H1|].
  dif; [exact H1|]. dif; [|exact H1]. pose proof (verify_hash_items v1) as E.
  destruct (verify_hash C v1) as [v2 st2]. cbn [fst] in E. cbn. rewrite E. exact H1.
Qed.

Lemma nalus_last l m : nalus m = nalus l -> last_is l -> last_is m.
Proof. intros E (l0 & n & H). exists l0, n. congruence. Qed.

Lemma prepare_golden_vev v l it : v_items v = l ++ [it] -> last_is (v_items v) ->
  holds (prepare_golden C Ov v l it) (fun '(v', _) => vev v v' /\ last_is (v_items v')) (fun _ => True).
Proof.
  intros EV HL. unfold prepare_golden. destruct (i_nalu it) as [n|] eqn:EN; [|exact I]. apply holds_bind.
  eapply holds_impl; [apply decode_sei_items| |auto]. intros [v1 st] E1.
  destruct (negb (is_ok st)); [cbn; split; [apply vev_same, E1|rewrite E1; exact HL]|]. cbv zeta. apply holds_bind.
  eapply holds_impl; [apply hash_item_same| |auto]. intros [[v2 it2] st2] (G1 & G2 & G3 & G4). cbn in G2, G3, G4.
  assert (HV : vev v (set_v_items (l ++ [it2]) v2)).
  { apply vev_ev. cbn. rewrite EV. apply ev_app; [apply ev_refl|]. constructor; [|constructor].
    split; [unfold kd, kind; rewrite G2, EN; reflexivity|]. split; [congruence|]. congruence. }
  assert (HL2 : last_is (l ++ [it2])) by (apply last_app; congruence).
  destruct (negb (is_ok st2)); [cbn; split; [exact HV|exact HL2]|].
  destruct (read_hash _ _); [|exact I]. cbn [obind]. destruct (put_at 0 _ _); [|exact I]. cbn [obind].
  set (v3 := on_gs _ _). pose proof (prepare_vev v3) as P1. pose proof (prepare_nalus v3) as P2.
  destruct (prepare C Ov v3) as [[v4 st4]|]; [|exact I]. cbn in P1, P2 |- *. split; [eapply vev_trans; [exact HV|exact P1]|].
  eapply nalus_last; [exact P2|exact HL2].
Qed.

(** Adding a NALU appends it. *)
Definition grown (n : nalu) (v v' : valid) : Prop :=
  wfv v -> names (v_items v') = names (v_items v) ++ [type_char (Some n)] /\ wfv v'.
Lemma grown_w n a b c : grown n a b -> vevw b c -> grown n a c.
Proof. intros H1 H2 W. destruct (H1 W) as [E1 W1]. destruct (H2 W1) as [E2 W2]. split; [congruence|exact W2]. Qed.
Lemma names_app l m : names (l ++ m) = names l ++ names m.
Proof. apply flat_map_app. Qed.

Lemma add_body_grown f v n : n_tlv_size n < 9223372036854775808 -> holds (add_body C Ov f v n) (fun '(v', _) => grown n v v') (fun _ => True).
Proof.
  intros HT. unfold add_body. cbv zeta. destruct (n_valid n <? 0)%Z.
  { cbn. intros W. cbn. unfold list_append. rewrite names_app. split; [reflexivity|]. unfold wfv. cbn. apply Forall_app. split; [exact W|].
    constructor; [|constructor]. split; cbn; [unfold status_of; repeat dif; discriminate|]. split; [discriminate|congruence]. }
  apply holds_bind. eapply holds_impl; [apply register_items, HT| |auto]. intros [[v1 it] st] (E1 & K1 & N1 & W1). cbn in E1.
  set (v2 := set_v_items (v_items v ++ [it]) v1).
  assert (H2 : grown n v v2).
  { intros W. cbn. rewrite names_app. cbn. rewrite K1. split; [reflexivity|]. unfold wfv. cbn. apply Forall_app. split; [exact W|]. constructor; [exact W1|constructor]. }
  assert (L2 : last_is (v_items v2)) by (apply last_app, N1).
  assert (E2 : v_items v2 = v_items v ++ [it]) by reflexivity. clearbody v2. clear E1 K1 W1 v1.
  destruct (negb (is_ok st)); [exact H2|]. apply holds_bind.
  match goal with |- holds ?x _ _ => assert (G : holds x (fun '(v', _) => grown n v v' /\ last_is (v_items v')) (fun _ => True)) end.
  { dif; [|split; assumption]. apply holds_bind. eapply holds_impl; [apply recurrent_items| |auto]. intros [v3 b] E3.
    assert (H3 : grown n v v3) by (eapply grown_w; [exact H2|apply vevw_same, E3]).
    destruct (negb b); [cbn; rewrite E3; split; assumption|].
    set (v4 := on_dec _ v3). assert (H4 : grown n v v4) by exact H3. assert (L4 : last_is (v_items v4)) by (cbn; rewrite E3; exact L2).
    assert (E4 : v_items v4 = v_items v ++ [it]) by (cbn; congruence). clearbody v4. clear H3 E3 v3. apply holds_bind.
    assert (G : holds (if n_golden n then prepare_golden C Ov v4 (v_items v) it else Def (v4, SV_OK))
       (fun '(v', _) => vev v4 v' /\ last_is (v_items v')) (fun _ => True)).
    { destruct (n_golden n); [|cbn; split; [apply vev_same; reflexivity|exact L4]]. apply prepare_golden_vev; assumption. }
    eapply holds_impl; [exact G| |auto]. intros [v5 st5] [H5 L5].
    assert (H05 : grown n v v5) by (eapply grown_w; [exact H4|apply vev_w, H5]).
    destruct (negb (is_ok st5)); [cbn; split; assumption|].
    destruct (_ && _); [cbn; split; assumption|].
    eapply holds_impl; [apply reregister_vev| |auto]. intros [v6 st6] [H6 N6]. split; [eapply grown_w; [exact H05|apply vev_w, H6]|].
    eapply nalus_last; eassumption. }
  eapply holds_impl; [exact G| |auto]. clear G. intros [v3 st3] [H3 L3]. destruct (_ || _); [exact H3|].
  eapply holds_impl; [apply maybe_validate_vev, L3| |auto]. intros [v4 st4] H4. eapply grown_w; eassumption.
Qed.

Lemma copy_rev_ev b l : Forall item_wf l -> holds (copy_rev b l) (fun '(m, st) => st = SV_OK /\ ev l m) (fun _ => True).
Proof.
  induction 1 as [|it l W0 W IH]; cbn [copy_rev]; [exact I|]. destruct (i_nalu it) as [n|] eqn:EN; apply holds_bind.
  - destruct W0 as (_ & _ & WT). specialize (WT n EN). unfold copy_nalu.
    destruct (N.leb_spec 9223372036854775808 (n_tlv_size n)); [lia|].
    repeat match goal with |- holds (if ?b then _ else _) _ _ => destruct b end; cbn [holds]; try exact I.
    split; [reflexivity|]. constructor; [|apply ev_refl]. split; [unfold kd, kind; cbn; rewrite EN; reflexivity|]. cbn. split; [discriminate|auto].
  - eapply holds_impl; [apply IH| |auto]. intros [m st] [E H]. cbn. split; [exact E|]. constructor; [apply it_ev_refl|exact H].
Qed.
Lemma ev_rev l m : ev l m -> ev (rev l) (rev m).
Proof.
  induction 1; cbn [rev].
  - constructor.
  - apply ev_app; [exact IHev|]. constructor; [assumption|constructor].
  - rewrite <- (app_nil_r (rev l)). apply ev_app; [exact IHev|]. apply ev_ins; auto. constructor.
  - rewrite <- (app_nil_r (rev m)). apply ev_app; [exact IHev|]. apply ev_del; auto. constructor.
Qed.
Lemma copy_last_ev b l : Forall item_wf l -> holds (copy_last b l) (fun '(m, st) => st = SV_OK /\ ev l m) (fun _ => True).
Proof.
  intros W. unfold copy_last. apply holds_bind. eapply holds_impl; [apply copy_rev_ev, Forall_rev, W| |auto]. intros [m st] [E H]. cbn.
  split; [exact E|]. apply ev_rev in H. rewrite rev_involutive in H. exact H.
Qed.

Lemma add_h26x_grown f v data n : parse_nalu data (v_codec v) true true = Def n -> n_tlv_size n < 9223372036854775808 -> wfv v ->
  holds (add_h26x C Ov f v data)
    (fun '(v', st) => names (v_items v') = names (v_items v) ++ [type_char (Some n)] /\ wfv v') (fun _ => True).
Proof.
  intros EP HT W. unfold add_h26x. rewrite EP. cbn [obind]. cbv zeta. set (v1 := on_acc _ _).
  assert (E1 : v_items v1 = v_items v) by reflexivity. clearbody v1. apply holds_bind.
  eapply holds_impl; [apply add_body_grown, HT| |auto]. intros [v2 st] H.
  unfold grown, wfv in H. rewrite E1 in H. destruct (H W) as [H2 W2]. clear H.
  destruct (v_legacy v2) eqn:EL; [split; assumption|]. apply holds_bind. eapply holds_impl; [apply copy_last_ev, W2| |auto].
  intros [l cst] [_ H]. cbn [holds].
  assert (G : evs (v_items v2) (if is_ok (if is_ok st then cst else st) then l else mark_last SErr l)).
  { eapply evs_trans; [apply ev_evs, H|]. dif; [apply evs_refl|apply ev_evs, mark_last_err]. }
  destruct G as [G1 G2]. split; [cbn [v_items set_v_items]; rewrite G1; exact H2|exact (G2 W2)].
Qed.

End Fns.

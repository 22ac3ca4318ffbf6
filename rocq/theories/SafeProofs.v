(** A validator that is given NALUs without harm: the session. Lemmas. *)
From Verif Require Import Base BaseProofs Nalu Crypto Types Hash Tlv TlvProofs CodecSpec SeiSpec VTypes NaluList Validator ValidSpec MatchSpec MatchProofs SignerProofs VReset
  SafeSpec SafeDec SafeList SafeRound SafeCheck SafeParse.
Local Open Scope N_scope.

(** ** Lists whose items differ in two flags only *)
Definition bare (it : item) : item := set_i_used false (set_i_decoded false it).
Definition bares (l l' : list item) : Prop := Forall2 (fun a b => bare b = bare a) l l'.
Lemma bares_refl l : bares l l.
Proof. unfold bares. induction l; constructor; auto. Qed.
Lemma bares_trans a b c : bares a b -> bares b c -> bares a c.
Proof. unfold bares. intros H. revert c. induction H; intros c X; inversion X; subst; constructor; [congruence|auto]. Qed.
Lemma bare_fields a b : bare b = bare a -> i_nalu b = i_nalu a /\ i_status b = i_status a /\ i_hash b = i_hash a /\ i_second b = i_second a.
Proof. intros H. destruct a, b. cbn in H. injection H as -> -> -> -> _. auto. Qed.
Lemma bare_pending a b : bare b = bare a -> pending b = pending a.
Proof. intros H. apply bare_fields in H as (_ & H & _). unfold pending. rewrite H. reflexivity. Qed.
Lemma bare_sei a b : bare b = bare a -> item_sei b = item_sei a.
Proof. intros H. apply bare_fields in H as (H & _). unfold item_sei. rewrite H. reflexivity. Qed.
Lemma bares_forall (P : item -> Prop) l l' : (forall a b, bare b = bare a -> P a -> P b) -> bares l l' -> Forall P l -> Forall P l'.
Proof. intros HP H. induction H; intros F; [constructor|]. apply Forall_cons_iff in F as [? ?]. constructor; eauto. Qed.
Lemma bares_tidy l l' : bares l l' -> tidy l -> tidy l'.
Proof.
  intros H (a & b & -> & HA & HB). apply Forall2_app_inv_l in H as (a' & b' & H1 & H2 & ->). exists a', b'. split; [reflexivity|]. split.
  - eapply bares_forall; [|exact H1|exact HA]. intros x y E X. rewrite (bare_pending _ _ E). exact X.
  - eapply bares_forall; [|exact H2|exact HB]. intros x y E X. apply bare_fields in E as (E & _). congruence.
Qed.
Lemma bares_next l l' : bares l l' -> next_sei l <> None -> next_sei l' <> None.
Proof.
  unfold next_sei. induction 1 as [|x y l l' E H IH]; [auto|]. cbn [find]. rewrite (bare_pending _ _ E), (bare_sei _ _ E). destruct (_ && _); [discriminate|exact IH].
Qed.
Lemma un_bares l l' : un l' = un l -> bares l l'.
Proof.
  revert l'. induction l as [|x l IH]; intros [|y l'] E; try discriminate; [constructor|]. cbn [un map] in E.
  pose proof (f_equal (fun z => match z with a :: _ => a | [] => x end) E) as E1. pose proof (f_equal (@tl item) E) as E2. cbn beta iota in E1. cbn [tl] in E2. constructor; [|apply IH; exact E2].
  clear - E1. change (set_i_decoded false (set_i_used false y) = set_i_decoded false (set_i_used false x)). f_equal. exact E1.
Qed.
Lemma decoded_bares l : bares l (on_next_sei (set_i_decoded true) l).
Proof. induction l as [|x l IH]; cbn [on_next_sei]; [constructor|]. destruct (_ && _); constructor; try reflexivity; [apply bares_refl|exact IH]. Qed.
Lemma decoded_low l : Forall2 low l (on_next_sei (set_i_decoded true) l).
Proof. induction l as [|x l IH]; cbn [on_next_sei]; [constructor|]. destruct (_ && _); constructor; try (apply low_refl); [repeat split; auto|apply lows_refl|exact IH]. Qed.
Lemma decoded_used l : map i_used (on_next_sei (set_i_decoded true) l) = map i_used l.
Proof. induction l as [|x l IH]; cbn [on_next_sei]; [reflexivity|]. destruct (_ && _); cbn [map]; [reflexivity|f_equal; exact IH]. Qed.

Definition lastu (l : list item) : Prop := forall a x, l = a ++ [x] -> i_used x = false.
Definition some (l : list item) : Prop := exists it, In it l /\ i_nalu it <> None.
Definition clear (it : item) : Prop := i_nalu it <> None /\ i_status it <> SInvalid.
Lemma unused_lastu l : Forall (fun it => i_used it = false) l -> lastu l.
Proof. intros H a x ->. apply Forall_app in H as [_ H]. apply Forall_cons_iff in H as [H _]. exact H. Qed.
Lemma snoc_lastu l x : i_used x = false -> lastu (l ++ [x]).
Proof. intros H a y E. apply app_inj_tail in E as [_ <-]. exact H. Qed.
Lemma fresh_lastu p q : q <> [] -> Forall fresh q -> lastu (p ++ q).
Proof.
  intros HQ HF. destruct (exists_last HQ) as (q0 & x & ->). rewrite app_assoc. apply snoc_lastu. apply Forall_app in HF as [_ HF]. apply Forall_cons_iff in HF as [[HF _] _]. exact HF.
Qed.
Lemma map_lastu l l' : map i_used l' = map i_used l -> lastu l -> lastu l'.
Proof.
  intros H HL a x ->. rewrite map_app in H. cbn [map] in H. destruct (List.rev l) as [|y r] eqn:ER.
  - apply (f_equal (@List.rev item)) in ER. rewrite rev_involutive in ER. subst l. destruct (map i_used a); discriminate.
  - apply (f_equal (@List.rev item)) in ER. rewrite rev_involutive in ER. cbn [List.rev] in ER. subst l. rewrite map_app in H. cbn [map] in H. apply app_inj_tail in H as [_ H]. rewrite H. apply (HL (List.rev r)). reflexivity.
Qed.
Lemma bares_some l l' : bares l l' -> some l -> some l'.
Proof.
  intros H (x & X1 & X2). induction H as [|a b l l' E H IH]; [destruct X1|]. destruct X1 as [<-|X1]; [exists b; split; [left; reflexivity|]; apply bare_fields in E as (E & _); congruence|].
  destruct (IH X1) as (y & Y1 & Y2). exists y. split; [right; exact Y1|exact Y2].
Qed.

Lemma init_type h : h_type (init_hash false h) = h_type h /\ h_oid (init_hash false h) = h_oid h /\ h_prim (init_hash false h) = h_prim h.
Proof. unfold init_hash. destruct (get_ctx false h); repeat split; reflexivity. Qed.

Section Session.
Context {KK : okkeys}.
Variable C : crypto.
Hypothesis HC : crypto_ok C.
Variable Ov : ovf.
Variable oid : list N.
Variable hs : nat.
Hypothesis HO : c_oid C oid = OidDigest hs.
Hypothesis HW0 : oid <> [].
Hypothesis HV : forall k s h, c_verify C k s h = 0%Z \/ c_verify C k s h = 1%Z.
Notation base := (base_ok C oid hs).
Notation known v := (d_algo_known (v_dec v)).
Let HS : (0 < hs <= 64)%nat := shs C HC oid hs HO.

(** ** What holds between calls *)
Record core (v : valid) : Prop := mkCore {
  co_dok : dok C oid (v_dec v);
  co_alg : h_type (d_handle (v_dec v)) = oid \/ (d_has_pub (v_dec v) = false /\ known v = false);
  co_bud : length (v_buddies v) = 128%nat;
  co_com : length (v_computed v) = 64%nat;
  co_lin : length (v_links v) = 128%nat;
  co_has : length (v_hash v) = 64%nat;
  co_leg : v_legacy v = false;
  co_sta : v_started v = false -> v_signing v = false
}.
Record linv (v : valid) : Prop := mkLinv {
  li_base : Forall (base (known v)) (v_items v);
  li_used : Forall used_ok (v_items v);
  li_odd : odd (v_items v);
  li_sync : v_synced v = true -> tidy (v_items v);
  li_first : v_first v = true -> v_synced v = false /\ Forall clear (v_items v);
  li_new : known v = false \/ v_signing v = false -> v_first v = true;
  li_plain : v_signing v = false -> Forall (fun it => item_sei it = false) (v_items v);
  li_young : known v = false -> v_signing v = true -> d_has_pub (v_dec v) = false
}.
Definition inv (v : valid) : Prop := core v /\ linv v.
Definition now (v : valid) : Prop := inv v /\ lastu (v_items v) /\ some (v_items v).
Definition view (v : valid) := (v_dec v, v_buddies v, v_computed v, v_hash v, v_links v, v_legacy v, v_started v, v_signing v, v_first v, v_synced v, v_items v).
Lemma inv_view v v' : view v' = view v -> inv v -> inv v'.
Proof.
  unfold view. intros E [[] []]. injection E as E1 E2 E3 E4 E5 E6 E7 E8 E9 E10 E11.
  split; constructor; rewrite ?E1, ?E2, ?E3, ?E4, ?E5, ?E6, ?E7, ?E8, ?E9, ?E10, ?E11; assumption.
Qed.
Lemma now_view v v' : view v' = view v -> now v -> now v'.
Proof. intros E (H1 & H2 & H3). assert (EI : v_items v' = v_items v) by (unfold view in E; congruence). unfold now. rewrite EI. split; [eapply inv_view; eassumption|auto]. Qed.

(** With a known algorithm. *)
Lemma core_type v : core v -> known v = true -> h_type (d_handle (v_dec v)) = oid /\ vhs v = hs.
Proof.
  intros [[] A _ _ _ _ _ _] HK. assert (T : h_type (d_handle (v_dec v)) = oid) by (destruct A as [A|[_ A]]; congruence). split; [exact T|].
  unfold vhs. rewrite dk_vhs. unfold hash_size. rewrite T. apply (soid_size C oid hs HO).
Qed.
Lemma core_dec v d : core v -> known v = true -> dok C oid d -> dstep oid (v_dec v) d -> core (set_v_dec d v).
Proof.
  intros K HK DK (D1 & D2 & D3). destruct (core_type v K HK) as [T _]. destruct K. constructor; cbn [set_v_dec v_dec v_buddies v_computed v_links v_hash v_legacy v_started v_signing]; auto.
Qed.
Lemma now_dec v d : now v -> known v = true -> dok C oid d -> dstep oid (v_dec v) d -> now (set_v_dec d v) /\ known (set_v_dec d v) = true.
Proof.
  intros ([K L] & H2 & H3) HK DK HD. assert (KD : d_algo_known d = true) by (apply HD; exact HK). split; [|exact KD]. split; [|split; assumption]. split; [apply core_dec; assumption|].
  destruct L. constructor; cbn [set_v_dec v_dec v_items v_synced v_first v_signing]; rewrite ?KD; auto; try congruence.
  intros [X|X]; [discriminate|auto].
Qed.

(** Undefined outcomes that remain. *)
Definition bad (u : ub) : Prop := u = Diverges \/ (Ov = OvfUndef /\ u = SignedOverflow).
Lemma add_ok a b : holds (add_int64 Ov a b) (fun _ => True) bad.
Proof. unfold add_int64. destruct (_ || _); [|exact I]. destruct Ov eqn:E; cbn; try exact I. right. auto. Qed.
Lemma detect_ok v : holds (detect_lost Ov v) (fun v' => exists b, v' = on_gs (set_gs_lost (b && v_synced v)) v) bad.
Proof.
  unfold detect_lost. apply holds_bind. eapply holds_impl; [apply add_ok| |auto]. intros s _. apply holds_bind.
  assert (X : holds (if (s <? 9223372036854775807 / 2)%Z then add_int64 Ov (Z.of_N (d_counter (v_dec v)) - Z.of_N (u32 (v_gop v + 1)))%Z 9223372036854775807 else Def (Z.of_N (d_counter (v_dec v)) - Z.of_N (u32 (v_gop v + 1)))%Z) (fun _ => True) bad)
    by (destruct (_ <? _)%Z; [apply add_ok|exact I]).
  eapply holds_impl; [exact X| |auto]. intros pm _. cbn. eauto.
Qed.

(** ** Preparing a round *)
Lemma dok_handle d h : dok C oid d -> h_type h = h_type (d_handle d) -> h_oid h = h_oid (d_handle d) -> hok oid h -> dok C oid (set_d_handle h d).
Proof.
  intros [] H1 H2 H3. constructor; cbn [set_d_handle d_handle d_vhs d_linked d_gop]; auto; [congruence|rewrite H1; assumption|]. unfold hash_size in *. rewrite H1. assumption.
Qed.
Lemma init_hok d : dok C oid d -> h_type (d_handle d) = oid -> let h := init_hash true (d_handle d) in h_type h = h_type (d_handle d) /\ h_oid h = h_oid (d_handle d) /\ hok oid h.
Proof.
  intros [] HT. unfold init_hash, get_ctx. destruct (h_prim (d_handle d)) as [x|] eqn:E; cbn [set_ctx h_type h_oid]; (split; [reflexivity|]); (split; [reflexivity|]); unfold hok; cbn [h_prim x_oid]; [exact dk_prim|exact HT].
Qed.
Lemma final_ok h : hok oid h -> exists h' st x, finalize_hash C true h = (h', st, x) /\ h_type h' = h_type h /\ h_oid h' = h_oid h /\ hok oid h' /\ (length x <= 64)%nat.
Proof.
  intros H. unfold finalize_hash, get_ctx. destruct (h_prim h) as [x|] eqn:E.
  2:{ do 3 eexists. split; [reflexivity|]. do 2 (split; [reflexivity|]). split; [exact H|cbn; lia]. }
  destruct (x_final x); do 3 eexists; (split; [reflexivity|]); do 2 (split; [reflexivity|]); [split; [exact H|cbn; lia]|].
  unfold hok in *. rewrite E in H. cbn [set_ctx h_prim x_oid]. split; [exact H|]. rewrite H. rewrite (ok_hash_len C HC _ _ _ HO). pose proof (ok_size C HC _ _ HO) as S. unfold max_hash_size in S. lia.
Qed.
Lemma dstep_handle d h : h_type h = h_type (d_handle d) -> dstep oid d (set_d_handle h d).
Proof. intros H. unfold dstep. cbn [set_d_handle d_handle d_algo_known d_has_pub]. rewrite H. auto. Qed.

(** The settings that a round does not change before the verdict. *)
Definition fixd (v : valid) := (v_signing v, v_first v, v_synced v, known v).

(** A session after new items, which differ in flags only. *)
Lemma now_items v l' : now v -> bares (v_items v) l' -> Forall used_ok l' -> odd l' -> lastu l' -> now (set_v_items l' v).
Proof.
  intros ([K L] & H2 & H3) HB HU HD HL. split; [|split; [exact HL|eapply bares_some; eassumption]]. split; [destruct K; constructor; assumption|].
  destruct L. constructor; cbn [set_v_items v_dec v_items v_synced v_first v_signing]; auto.
  - eapply bares_forall; [|exact HB|exact li_base0]. intros a b E B. destruct (bare_fields _ _ E) as (E1 & E2 & E3 & E4). apply (base_same C oid hs _ a); auto.
    intros N0. destruct B as (B & _). rewrite N0 in B. rewrite E2. exact B.
  - intros S. eapply bares_tidy; eauto.
  - intros F. destruct (li_first0 F) as [F1 F2]. split; [exact F1|]. eapply bares_forall; [|exact HB|exact F2]. intros a b E [X1 X2]. destruct (bare_fields _ _ E) as (E1 & E2 & _). split; congruence.
  - intros S. eapply bares_forall; [|exact HB|exact (li_plain0 S)]. intros a b E X. rewrite (bare_sei _ _ E). exact X.
Qed.
Lemma unused_bares l : bares l (remove_used l).
Proof. unfold bares, remove_used. induction l; cbn [map]; constructor; auto. Qed.
Lemma now_unused v : now v -> now (on_items remove_used v).
Proof.
  intros H. apply now_items; [exact H|apply unused_bares| | |].
  - eapply Forall_impl; [|apply unused_all]. intros it E X. congruence.
  - eapply odd_low; [apply unused_low|]. apply H.
  - apply unused_lastu, unused_all.
Qed.
Lemma mk_used p : Forall used_ok p -> Forall used_ok (map mk p).
Proof. intros H. apply Forall_map. eapply Forall_impl; [|exact H]. intros it U. unfold mk. destruct (pending it) eqn:E; [|exact U]. intros _. exact E. Qed.
Lemma mk_bares p : bares p (map mk p).
Proof. unfold bares. induction p; cbn [map]; constructor; auto. unfold mk. destruct (pending a); reflexivity. Qed.
Lemma bares_app a b c d : bares a c -> bares b d -> bares (a ++ b) (c ++ d).
Proof. apply Forall2_app. Qed.

Definition roundp (v : valid) : Prop := exists p q, v_items v = p ++ q /\ taken p q /\ next_sei q <> None.
Lemma prepare_gop_ok v : now v -> known v = true -> next_sei (v_items v) <> None ->
  exists v' st, prepare_gop C v = Def (v', st) /\ now v' /\ fixd v' = fixd v /\ v_gs v' = v_gs v /\ (st = SV_OK -> roundp v').
Proof.
  intros H HK HN. pose proof H as ([K L] & HLa & HSo). destruct (core_type v K HK) as [T VH]. unfold prepare_gop. rewrite VH.
  destruct (init_hok (v_dec v) (co_dok v K) T) as (I1 & I2 & I3).
  pose proof (li_base v L) as B. rewrite HK in B.
  destruct (gop_collect C oid hs HS (v_items v) (init_hash true (d_handle (v_dec v))) 0 0 B (le_n _) (Nat.le_0_l _)) as (h1 & l1 & st1 & E1 & A1 & A2 & A3 & A4 & A5 & A6).
  rewrite E1. cbn [obind].
  assert (DH : forall h w, v_dec w = v_dec v \/ (exists h0, v_dec w = set_d_handle h0 (v_dec v)) -> h_type h = h_type (d_handle (v_dec v)) -> h_oid h = h_oid (d_handle (v_dec v)) -> hok oid h ->
     now (set_v_items (v_items w) v) -> view (set_v_items (v_items w) (set_v_dec (v_dec v) w)) = view (set_v_items (v_items w) v) -> now (set_v_dec (set_d_handle h (v_dec v)) w)).
  { intros h w _ HT2 HO2 HH NW EV. destruct (now_dec (set_v_items (v_items w) v) (set_d_handle h (v_dec v)) NW HK) as [G _]; [apply dok_handle; [apply (co_dok v K)|exact HT2|exact HO2|exact HH]|apply dstep_handle; exact HT2|].
    eapply now_view; [|exact G]. unfold view in *. cbn in *. congruence. }
  destruct (is_ok st1) eqn:ES; cbn [negb].
  2:{ do 2 eexists. split; [reflexivity|]. split; [|split; [reflexivity|split; [reflexivity|intros ->; discriminate]]].
      change (now (set_v_items (remove_used l1) (set_v_dec (set_d_handle h1 (v_dec v)) v))).
      assert (N1 : now (set_v_items (remove_used l1) v)).
      { replace (remove_used l1) with (remove_used (v_items v)) by (symmetry; exact A4). apply (now_unused v H). }
      apply (DH h1 (set_v_items (remove_used l1) v)); auto; congruence. }
  assert (ST1 : st1 = SV_OK) by (destruct st1; discriminate || reflexivity). subst st1.
  destruct (collected_taken _ _ (li_odd v L) (A6 eq_refl)) as (p & q & -> & EI & TK).
  assert (EB : bares (v_items v) (map mk p ++ q)) by (rewrite EI; apply bares_app; [apply mk_bares|apply bares_refl]).
  assert (NQ : next_sei q <> None).
  { pose proof (bares_next _ _ EB HN) as X. rewrite next_app in X; [exact X|]. destruct TK as (_ & _ & T3 & _). apply Forall_forall. intros it HI. unfold nosei, item_sei.
    destruct (pending it) eqn:EP; [|apply andb_false_r]. destruct (i_nalu it) as [n|] eqn:EN; [|reflexivity]. rewrite (pass_nosei _ T3 it n HI EP EN). reflexivity. }
  pose proof TK as (T1 & T2 & T3 & _).
  assert (N1 : now (set_v_items (map mk p ++ q) v)).
  { apply now_items; [exact H|exact EB| | |].
    - pose proof (li_used v L) as U. rewrite EI in U. apply Forall_app in U as [U1 U2]. apply Forall_app. split; [apply mk_used, U1|exact U2].
    - exists (map mk p), q. auto.
    - apply fresh_lastu; [|exact T2]. intros ->. apply NQ. reflexivity. }
  assert (HH1 : hok oid h1) by (apply A3, I3).
  destruct (final_ok h1 HH1) as (h2 & st2 & x & -> & F1 & F2 & F3 & F4). cbv iota beta zeta.
  destruct (is_ok st2) eqn:ES2; cbn [negb].
  2:{ do 2 eexists. split; [reflexivity|]. split; [|split; [reflexivity|split; [reflexivity|intros ->; discriminate]]].
      change (now (set_v_items (remove_used (map mk p ++ q)) (set_v_dec (set_d_handle h2 (v_dec v)) v))).
      apply (DH h2 (set_v_items (remove_used (map mk p ++ q)) v)); auto; [congruence|congruence|]. apply (now_unused _ N1). }
  destruct (put_ok 0 (v_computed v) x) as (y & EY & LY); [rewrite (co_com v K); lia|].
  change (v_computed (on_dec (set_d_handle h2) (set_v_items (map mk p ++ q) (on_dec (set_d_handle h1) v)))) with (v_computed v). rewrite EY. cbn [obind].
  do 2 eexists. split; [reflexivity|]. split; [|split; [reflexivity|split; [reflexivity|intros _; exists (map mk p), q; auto]]].
  assert (N2 : now (set_v_dec (set_d_handle h2 (v_dec v)) (set_v_items (map mk p ++ q) v))) by (apply DH; auto; congruence).
  destruct N2 as ([K2 L2] & N3 & N4). split; [|split; [exact N3|exact N4]]. split; [|destruct L2; constructor; assumption].
  destruct K2. constructor; try assumption. cbn [set_v_computed v_computed]. rewrite LY. apply (co_com v K).
Qed.

Lemma next_memory v it : linv v -> next_sei (v_items v) = Some it -> exists n fs, i_nalu it = Some n /\ memory C oid n fs /\ length (i_hash it) = 64%nat.
Proof.
  intros L E. unfold next_sei in E. apply find_some in E as [EI E]. apply andb_prop in E as [E _]. pose proof (li_base v L) as B. rewrite Forall_forall in B. destruct (B it EI) as (B1 & B2 & _).
  unfold item_sei in E. destruct (i_nalu it) as [n|]; [|discriminate]. destruct B1 as [(_ & _ & NK) _]. rewrite E in NK. destruct NK as (_ & _ & _ & _ & fs & M). exists n, fs. auto.
Qed.
Definition sgs (v : valid) := (gs_sei (v_gs v)).

Lemma decode_sei_ok v n fs : now v -> known v = true -> memory C oid n fs ->
  holds (decode_sei C Ov v n) (fun '(v', st) => now v' /\ fixd v' = fixd v /\ sgs v' = sgs v /\ v_items v' = v_items v) bad.
Proof.
  intros H HK M. pose proof H as ([K L] & _). unfold decode_sei. destruct (memory_decode C HC oid hs HO HW0 (v_dec v) n fs M (co_dok v K)) as (d & st & -> & DK & DS). cbn [obind].
  destruct (now_dec v d H HK DK DS) as [N1 N2]. destruct (is_ok st); cbn [negb]; [|split; [exact N1|]; split; [unfold fixd; cbn [set_v_dec v_dec v_signing v_first v_synced]; rewrite HK; cbn [set_v_dec v_dec] in N2; rewrite N2; reflexivity|auto]].
  apply holds_bind. eapply holds_impl; [apply detect_ok| |auto]. intros w (b & ->). cbn [holds].
  assert (FX : fixd (set_v_dec d v) = fixd v) by (unfold fixd; cbn [set_v_dec v_dec v_signing v_first v_synced] in *; rewrite HK, N2; reflexivity).
  destruct (_ && _); (split; [eapply now_view; [|exact N1]; reflexivity|]); (split; [exact FX|split; reflexivity]).
Qed.

Lemma prepare_ok v : now v -> known v = true -> next_sei (v_items v) <> None -> sgs v = true ->
  holds (prepare C Ov v) (fun '(v', st) => now v' /\ fixd v' = fixd v /\
    (st = SV_OK -> roundp v' /\ (v_verified v' = 0%Z \/ v_verified v' = 1%Z) /\ (gs_lost (v_gs v') = true -> v_synced v' = true))) bad.
Proof.
  intros H HK HN HG. pose proof H as ([K L] & _). destruct (core_type v K HK) as [T VH]. unfold prepare. rewrite VH.
  destruct (next_sei (v_items v)) as [it|] eqn:EN; [|congruence]. clear HN.
  destruct (next_memory v it L EN) as (n & fs & -> & M & LH). apply holds_bind, holds_bind.
  assert (STEP : holds (if i_decoded it then Def (v, SV_OK)
     else do (v0, st) <- decode_sei C Ov (on_dec (set_d_l_changed false) v) n;
       if negb (is_ok st) then Def (v0, st)
       else do x <- read_hash hs (i_hash it); do y <- put_at 0 (v_hash v0) x; Def (set_v_hash y (on_items (on_next_sei (set_i_decoded true)) v0), SV_OK))
     (fun '(v', st) => now v' /\ fixd v' = fixd v /\ sgs v' = sgs v /\ (next_sei (v_items v') <> None)) bad).
  { destruct (i_decoded it). { cbn. split; [exact H|]. do 2 (split; [reflexivity|]). rewrite EN. discriminate. }
    destruct (now_dec v (set_d_l_changed false (v_dec v)) H HK) as [N1 N2]; [destruct (co_dok v K); constructor; assumption|apply dstep_same; reflexivity|].
    apply holds_bind. eapply holds_impl; [apply (decode_sei_ok (on_dec (set_d_l_changed false) v) n fs N1 N2 M)| |auto]. intros [w st] (W1 & W2 & W3 & W4).
    assert (W5 : fixd w = fixd v) by exact W2. assert (W6 : next_sei (v_items w) = Some it) by (rewrite W4; exact EN).
    destruct (is_ok st); cbn [negb]; [|cbn [holds]; split; [exact W1|]; split; [exact W5|]; split; [exact W3|]; rewrite W6; discriminate].
    rewrite read_ok by lia. cbn [obind]. pose proof W1 as ([KW LW] & LA & SO).
    destruct (put_ok 0 (v_hash w) (firstn hs (i_hash it))) as (y & -> & LY); [rewrite (co_has w KW), firstn_length; lia|]. cbn [obind holds].
    assert (N3 : now (set_v_items (on_next_sei (set_i_decoded true) (v_items w)) w)).
    { apply now_items; [exact W1|apply decoded_bares| | |].
      - pose proof (li_used w LW) as U. clear -U. induction (v_items w) as [|x l IH]; cbn [on_next_sei]; [constructor|]. apply Forall_cons_iff in U as [U0 U]. destruct (_ && _); constructor; auto.
      - eapply odd_low; [apply decoded_low|apply (li_odd w LW)].
      - eapply map_lastu; [apply decoded_used|exact LA]. }
    split; [|split; [exact W5|split; [exact W3|]]].
    - destruct N3 as ([K3 L3] & N4 & N5). split; [|split; [exact N4|exact N5]]. split; [|destruct L3; constructor; assumption].
      destruct K3. constructor; try assumption. cbn [set_v_hash v_hash]. rewrite LY. apply (co_has w KW).
    - eapply bares_next; [apply decoded_bares|]. change (next_sei (v_items w) <> None). rewrite W6. discriminate. }
  eapply holds_impl; [exact STEP| |auto]. clear STEP. intros [w st] (W1 & W2 & W3 & W4).
  assert (ERR : forall w st, now w -> fixd w = fixd v -> is_ok st = false -> now w /\ fixd w = fixd v /\ (st = SV_OK -> roundp w /\ (v_verified w = 0%Z \/ v_verified w = 1%Z) /\ (gs_lost (v_gs w) = true -> v_synced w = true))).
  { intros w0 st0 X1 X2 X3. split; [exact X1|]. split; [exact X2|]. intros ->. discriminate. }
  destruct (is_ok st) eqn:ES; cbn [negb]; [|cbn [holds]; rewrite ES; cbn [negb holds]; apply ERR; assumption].
  apply holds_bind. eapply holds_impl; [apply detect_ok| |auto]. intros w1 (b & ->).
  assert (KW : known w = true) by (unfold fixd in W2; congruence).
  set (w1 := on_gs (set_gs_lost (b && v_synced w)) w).
  assert (N1 : now w1) by (eapply now_view; [|exact W1]; reflexivity).
  destruct (prepare_gop_ok w1 N1 KW W4) as (w2 & st2 & -> & P1 & P2 & P3 & P4). cbn [holds].
  assert (F2 : fixd w2 = fixd v) by (rewrite P2; exact W2).
  destruct (is_ok st2) eqn:ES2; cbn [negb]; [|cbn [holds]; apply ERR; assumption].
  destruct (v_signing w2 && negb (d_has_pub (v_dec w2))); [cbn [holds]; apply ERR; auto|].
  assert (GS : gs_sei (v_gs w2) = true) by (rewrite P3; unfold sgs in *; cbn; congruence). rewrite GS.
  assert (GL : gs_lost (v_gs w2) = true -> v_synced w2 = true).
  { rewrite P3. assert (SY : v_synced w2 = v_synced w) by (unfold fixd in *; congruence). rewrite SY. subst w1. cbn. intros X. apply andb_prop in X as [_ X]. exact X. }
  cbn [holds]. unfold verify_hash.
  assert (FIN : forall z, now (set_v_verified z w2)) by (intros z; eapply now_view; [|exact P1]; reflexivity).
  destruct (d_sig (v_dec w2)); [|apply ERR; auto]. destruct (d_vkey (v_dec w2)); [|apply ERR; auto]. destruct (_ =? 0); [apply ERR; auto|].
  split; [apply FIN|]. split; [exact F2|]. intros _. split; [|split; [apply HV|exact GL]]. apply P4. destruct st2; discriminate || reflexivity.
Qed.

(** ** The rounds *)
Lemma pending_sei (P : Prop) sg l : forall s, Forall (base true) l -> (forall it, In it l -> item_sei it = true -> pending it = true -> P) ->
  (g_sei s = true \/ g_last s = Some true \/ g_after s = true -> P /\ g_has s = true) ->
  forall s' found, pending_loop sg s l = (s', found) -> g_sei s' = true \/ g_last s' = Some true \/ g_after s' = true -> P /\ g_has s' = true.
Proof.
  induction l as [|it l IH]; intros s HB HP HI s' found; cbn [pending_loop]; [intros E; injection E as <- _; exact HI|].
  apply Forall_cons_iff in HB as [(B1 & _) HB].
  set (s1 := match i_nalu it with None => s | Some n => _ end).
  assert (I1 : g_sei s1 = true \/ g_last s1 = Some true \/ g_after s1 = true -> P /\ g_has s1 = true).
  { subst s1. destruct (i_nalu it) as [n|] eqn:EN; [|exact HI]. destruct B1 as [(_ & _ & NK) _].
    assert (SP : n_gop_sei n = true -> pending it = true -> P /\ (g_has s || (0 <? n_valid n)%Z && n_hashable n && n_gop_sei n = true)).
    { intros G EP. rewrite G in NK. destruct NK as (N1 & N2 & _). split; [apply (HP it); [left; reflexivity|unfold item_sei; rewrite EN; exact G|exact EP]|]. rewrite N1, N2, G. apply orb_true_r. }
    assert (SI : g_sei s = true \/ g_last s = Some true \/ g_after s = true -> P /\ (g_has s || (0 <? n_valid n)%Z && n_hashable n && n_gop_sei n = true)).
    { intros X. destruct (HI X) as [X1 X2]. rewrite X2. auto. }
    destruct (pending it && n_hashable n) eqn:EP; cbn [g_sei g_last g_after g_has]; [|exact SI]. apply andb_prop in EP as [EP _].
    intros [X|[X|X]].
    - apply orb_prop in X as [X|X]; auto.
    - injection X as X. auto.
    - apply orb_prop in X as [X|X]; [auto|]. destruct (g_last s) as [[]|]; try discriminate. auto. }
  clearbody s1. destruct (_ || g_after s1); [intros E; injection E as <- _; exact I1|]. apply IH; auto. intros it' H'. apply HP. right. exact H'.
Qed.
Lemma pending_found sg l : forall s s', pending_loop sg s l = (s', true) -> sg = true -> g_sei s' = true \/ g_after s' = true.
Proof.
  induction l as [|it l IH]; intros s s'; cbn [pending_loop]; [discriminate|]. set (s1 := match i_nalu it with None => s | Some n => _ end).
  intros E ->. clearbody s1. destruct ((if true then (0 <? g_ends s1)%nat && g_sei s1 else (2 <=? g_ends s1)%nat) || g_after s1) eqn:EF; [|eapply IH; eauto]. injection E as <-. apply orb_prop in EF as [EF|EF]; [|auto]. apply andb_prop in EF as [_ EF]. auto.
Qed.
Lemma has_pending_ok v v1 found : now v -> has_pending v = (v1, found) -> view v1 = view v /\ v_gs v1 = v_gs v1 /\
  (found = true -> v_signing v = true -> known v = true -> next_sei (v_items v) <> None /\ sgs v1 = true).
Proof.
  intros ([K L] & _). unfold has_pending. destruct (pending_loop (v_signing v) (mkPg 0 false false None false) (v_items v)) as [s f] eqn:E. intros X. injection X as <- <-.
  split; [reflexivity|]. split; [reflexivity|]. intros -> SG HK. pose proof (li_base v L) as B. rewrite HK in B.
  destruct (pending_sei (next_sei (v_items v) <> None) (v_signing v) (v_items v) (mkPg 0 false false None false)) with (s' := s) (found := true) as [G1 G2]; auto.
  - intros it HI S1 P1. unfold next_sei. clear -HI S1 P1. induction (v_items v) as [|x l IH]; [destruct HI|]. cbn [find]. destruct (item_sei x && pending x) eqn:E; [discriminate|].
    destruct HI as [->|HI]; [rewrite S1, P1 in E; discriminate|auto].
  - cbn. intros [X|[X|X]]; discriminate.
  - destruct (pending_found _ _ _ _ E SG) as [X|X]; auto.
Qed.

Lemma relinked_bare l l' : relinked l l' -> Forall2 (fun a b => i_nalu b = i_nalu a /\ i_status b = i_status a /\ i_hash b = i_hash a /\ i_second b = i_second a /\ i_used b = i_used a) l l'.
Proof.
  assert (R : forall k : list item, Forall2 (fun a b => i_nalu b = i_nalu a /\ i_status b = i_status a /\ i_hash b = i_hash a /\ i_second b = i_second a /\ i_used b = i_used a) k k) by (induction k; constructor; auto 10).
  intros [->|(a & x & b & _ & -> & ->)]; [apply R|]. apply Forall2_app; [apply R|]. constructor; [cbn; auto 10|apply R].
Qed.
(** Lists whose items have the same NALUs, states, flags, while hashes may differ. *)
Definition alike (a b : item) : Prop := i_nalu b = i_nalu a /\ i_status b = i_status a /\ i_used b = i_used a.
Lemma alike_low a b : alike a b -> low a b.
Proof. intros (H1 & H2 & H3). unfold low, flags, pending. rewrite H1, H2, H3. auto. Qed.
Lemma forall2_impl {A B} (P Q : A -> B -> Prop) l m : (forall a b, P a b -> Q a b) -> Forall2 P l m -> Forall2 Q l m.
Proof. intros H. induction 1; constructor; auto. Qed.
Lemma alike_forall (P : item -> Prop) l m : (forall a b, alike a b -> P a -> P b) -> Forall2 alike l m -> Forall P l -> Forall P m.
Proof. intros HP. induction 1; intros F; [constructor|]. apply Forall_cons_iff in F as [? ?]. constructor; eauto. Qed.
Lemma alike_map l m : Forall2 alike l m -> map i_used m = map i_used l.
Proof. induction 1 as [|a b l m (_ & _ & H) HF IH]; [reflexivity|]. cbn [map]. rewrite H, IH. reflexivity. Qed.
Lemma alike_some l m : Forall2 alike l m -> some l -> some m.
Proof.
  intros H (x & X1 & X2). induction H as [|a b l m (E & _) H IH]; [destruct X1|]. destruct X1 as [<-|X1]; [exists b; split; [left; reflexivity|]; congruence|].
  destruct (IH X1) as (y & Y1 & Y2). exists y. split; [right; exact Y1|exact Y2].
Qed.
(** The part of the invariant on the list, for such a list. *)
Lemma now_alike v v' : now v -> core v' -> fixd v' = fixd v -> d_has_pub (v_dec v') = d_has_pub (v_dec v) -> Forall2 alike (v_items v) (v_items v') -> Forall (base (known v')) (v_items v') -> now v'.
Proof.
  intros ([K L] & HL & HSo) K' FX HP HA HB. unfold fixd in FX. injection FX as F1 F2 F3 F4. destruct L. split; [|split; [eapply map_lastu; [apply alike_map; exact HA|exact HL]|eapply alike_some; eassumption]]. split; [exact K'|].
  assert (LW : Forall2 low (v_items v) (v_items v')) by (eapply forall2_impl; [apply alike_low|exact HA]).
  constructor; rewrite ?F1, ?F2, ?F3, ?F4, ?HP; auto.
  - rewrite <- F4. exact HB.
  - eapply alike_forall; [|exact HA|exact li_used0]. intros a b (A1 & A2 & A3) U. unfold used_ok, pending in *. rewrite A2, A3. exact U.
  - eapply odd_low; eassumption.
  - intros S. eapply tidy_low; eauto.
  - intros F. destruct (li_first0 F) as [G1 G2]. split; [exact G1|]. eapply alike_forall; [|exact HA|exact G2]. intros a b (A1 & A2 & _) [C1 C2]. split; congruence.
  - intros S. eapply alike_forall; [|exact HA|exact (li_plain0 S)]. intros a b (A1 & _) X. unfold item_sei in *. rewrite A1. exact X.
Qed.

Lemma loop_ok fuel : forall v stop, now v -> (v_signing v = true -> known v = true) ->
  holds (validate_loop C Ov fuel v stop) (fun '(v', _) => now v') bad.
Proof.
  induction fuel as [|fuel IH]; intros v stop H HK; cbn [validate_loop]; destruct (has_pending v) as [v1 found] eqn:EH.
  all: destruct (has_pending_ok v v1 found H EH) as (EV & _ & HF); assert (N1 : now v1) by (eapply now_view; eassumption).
  all: destruct (negb found || stop) eqn:ES; [exact N1|]; try (left; reflexivity).
  assert (found = true) as -> by (destruct found; [reflexivity|discriminate]). specialize (HF eq_refl).
  set (v2 := if v_result v1 then v1 else _). assert (V2 : view v2 = view v1 /\ v_gs v2 = v_gs v1) by (subst v2; destruct (v_result v1); auto). destruct V2 as [V2 G2].
  assert (N2 : now v2) by (eapply now_view; eassumption).
  assert (EV2 : view v2 = view v) by congruence. assert (S2 : v_signing v2 = v_signing v) by (unfold view in EV2; congruence). assert (K2 : known v2 = known v) by (unfold view in EV2; congruence).
  assert (I2 : v_items v2 = v_items v) by (unfold view in EV2; congruence). clearbody v2. apply holds_bind.
  destruct (v_signing v) eqn:SG.
  - specialize (HK eq_refl). destruct (HF eq_refl HK) as [HN HG].
    eapply holds_impl; [apply (prepare_ok v2 N2)|cbn beta|auto]; [congruence|rewrite I2; exact HN|unfold sgs in *; rewrite G2; exact HG|].
    intros [w st] (W1 & W2 & W3). destruct (is_ok st) eqn:EO; cbn [negb]; [|exact W1]. assert (st = SV_OK) by (destruct st; discriminate || reflexivity). subst st.
    destruct (W3 eq_refl) as ((p & q & EI & TK & NQ) & VE & GL). pose proof W1 as ([KW LW] & _).
    assert (KN : known w = true) by (unfold fixd in W2; congruence). assert (SW : v_signing w = true) by (unfold fixd in W2; congruence).
    destruct (core_type w KW KN) as [T VH]. pose proof (li_base w LW) as BW. rewrite KN, EI in BW.
    pose proof (li_used w LW) as UW. rewrite EI in UW. apply Forall_app in UW as [UP _].
    destruct (lined_up_ok C oid hs HS w p q (v_items w) KN VH (co_lin w KW) EI TK BW UP NQ eq_refl) as (x & EX & X1 & X2 & X3 & p' & X4 & X5 & X6 & X7 & X8).
    apply holds_bind. rewrite EX. cbn [holds].
    assert (SX : v_signing x = true) by (unfold frm in X1; congruence). rewrite SX.
    assert (VX : vhs x = hs) by (unfold frm in X1; unfold vhs; replace (v_dec x) with (v_dec w) by congruence; exact VH).
    assert (R8 : forall k : list item, Forall2 (fun a b => i_nalu b = i_nalu a /\ i_status b = i_status a) k k) by (induction k; constructor; auto).
    destruct (validate_ok C oid hs HS x p' q VX X4 X5) as (y & EY & Y1 & Y2 & Y3 & Y4 & Y5 & Y6 & Y7).
    + unfold frm in X1. replace (v_verified x) with (v_verified w) by congruence. exact VE.
    + rewrite X2, X4. intros S. pose proof (li_sync w LW S) as TI. rewrite EI in TI. destruct TI as (a & b & EA & T1 & T2).
      assert (FF : Forall2 (fun a b => i_nalu b = i_nalu a /\ i_status b = i_status a) (p ++ q) (p' ++ q)) by (apply Forall2_app; [exact X8|apply R8]).
      rewrite EA in FF. apply Forall2_app_inv_l in FF as (a' & b' & FA & FB & ->). exists a', b'. split; [reflexivity|]. split.
      * clear -T1 FA. induction FA as [|m m' a a' [_ E] FA IH]; [constructor|]. apply Forall_cons_iff in T1 as [T0 T1]. constructor; [unfold pending in *; rewrite E; exact T0|auto].
      * clear -T2 FB. induction FB as [|m m' a a' [E _] FA IH]; [constructor|]. apply Forall_cons_iff in T2 as [T0 T2]. constructor; [congruence|auto].
    + unfold frm in X1. replace (v_gs x) with (v_gs w) by congruence. rewrite X2. exact GL.
    + intros F. assert (FW : v_first w = true) by (unfold frm in X1; congruence). destruct (li_first w LW FW) as [F1 F2]. split; [congruence|]. rewrite X6, X7. rewrite EI in F2. apply Forall_app in F2 as [F2 _]. clear -F2.
      induction F2 as [|it p [_ H] HF IH]; [reflexivity|]. rewrite !marks_cons, IH. unfold sel. replace (vstat_eqb (i_status it) SInvalid) with false; [rewrite orb_false_r; reflexivity|]. destruct (i_status it); congruence || reflexivity.
    + apply holds_bind. rewrite EY. cbn [holds].
      assert (SY : v_signing y = true) by (unfold frm' in Y1; congruence).
      assert (KY : known y = true) by (unfold frm', frm in *; congruence).
      cbv zeta. rewrite SY. apply IH; [|intros _; exact KY].
      match goal with |- now ?t => set (z := t) end. unfold frm' in Y1. injection Y1 as D1 D2 D3 D4 D5 D6 D7 D8 D9 D10 D11. unfold frm in X1. injection X1 as C1 C2 C3 C4 C5 C6 C7 C8 C9 C10 C11 C12.
      split; [|split; [apply unused_lastu; exact Y3|destruct Y6 as (s & S1 & S3 & _); exists s; auto]]. split.
      * destruct KW. constructor; change (v_dec z) with (v_dec y); change (v_buddies z) with (v_buddies y); change (v_computed z) with (v_computed y); change (v_links z) with (v_links y);
          change (v_hash z) with (v_hash y); change (v_legacy z) with (v_legacy y); change (v_started z) with (v_started y); change (v_signing z) with (v_signing y); congruence || (rewrite ?D1, ?C1; assumption) || (rewrite D10; assumption) || idtac.
        intros ST. rewrite D11, C12 in ST. specialize (co_sta0 ST). congruence.
      * constructor; change (v_dec z) with (v_dec y); change (v_items z) with (v_items y); change (v_synced z) with (v_synced y); change (v_signing z) with (v_signing y); change (v_first z) with false; auto; try congruence.
        all: try (rewrite KY; exact Y2); try (rewrite KY, SY; intros [X|X]; discriminate).
        eapply Forall_impl; [|exact Y3]. intros it E U. congruence.
  - assert (PL : holds (prepare C Ov v2) (fun '(w, st) => view w = view v2) bad).
    { pose proof N2 as ([_ LL] & _). pose proof (li_plain v2 LL S2) as PL. unfold prepare. replace (next_sei (v_items v2)) with (@None item).
      2:{ unfold next_sei. clear -PL. induction PL as [|x l H HF IH]; [reflexivity|]. cbn [find]. rewrite H. exact IH. }
      cbn [obind is_ok svrc_eqb negb]. rewrite S2. cbn [andb]. destruct (gs_sei (v_gs v2)); [|reflexivity]. cbn [holds]. unfold verify_hash.
      destruct (d_sig (v_dec v2)); [|reflexivity]. destruct (d_vkey (v_dec v2)); [|reflexivity]. destruct (_ =? 0); reflexivity. }
    eapply holds_impl; [exact PL| |auto]. intros [w st] EW. assert (NW : now w) by (eapply now_view; eassumption).
    destruct (is_ok st); cbn [negb]; [|exact NW]. pose proof NW as ([KW LW] & _). apply holds_bind.
    destruct (link_ok C oid hs HS w (li_base w LW) (li_used w LW)) as (x & -> & X1 & X2 & X3 & X4 & _); [intros KN; apply (core_type w KW KN)|apply (co_lin w KW)|].
    cbn [holds]. apply relinked_bare in X4. unfold frm in X1. injection X1 as C1 C2 C3 C4 C5 C6 C7 C8 C9 C10 C11 C12.
    assert (SW : v_signing w = false) by (unfold view in EW; congruence). assert (FW : v_first w = true) by (apply (li_new w LW); auto).
    apply holds_bind. rewrite C7, SW. cbn [holds]. cbv zeta.
    assert (NX : now x).
    { apply (now_alike w x NW); [|unfold fixd; congruence|congruence|eapply forall2_impl; [|exact X4]; intros a b (A1 & A2 & _ & _ & A5); repeat split; assumption|].
      - destruct KW. constructor; congruence || (rewrite C1; assumption) || (rewrite C12, C7; assumption) || assumption.
      - rewrite C1. pose proof (li_base w LW) as B. clear -X4 B. induction X4 as [|a b l m (A1 & A2 & A3 & A4 & _) HF IH]; [constructor|]. apply Forall_cons_iff in B as [B0 B]. constructor; [|auto].
        apply (base_same C oid hs _ a); auto. intros E. destruct B0 as (B1 & _). rewrite E in B1. rewrite A2. exact B1. }
    match goal with |- holds (validate_loop _ _ _ ?t _) _ _ => set (z := t) end.
    assert (VZ : view z = view x) by (unfold view; subst z; cbn; rewrite C7, SW; cbn; congruence).
    apply IH; [eapply now_view; eassumption|]. unfold view in VZ. intros S. congruence.
Qed.

(** ** Adding a NALU *)
Lemma inv_dok v d : inv v -> dok C oid d -> dalg d = dalg (v_dec v) -> inv (set_v_dec d v).
Proof.
  intros [K L] DK E. unfold dalg in E. injection E as E1 E2 E3 _ _. destruct K, L.
  split; constructor; cbn [set_v_dec v_dec v_buddies v_computed v_links v_hash v_legacy v_started v_signing v_items v_synced v_first]; rewrite ?E1, ?E2, ?E3; auto.
Qed.
Lemma now_dok v d : now v -> dok C oid d -> dalg d = dalg (v_dec v) -> now (set_v_dec d v).
Proof. intros (H1 & H2 & H3) DK E. split; [apply inv_dok; assumption|auto]. Qed.

Record arrival (n n2 : nalu) : Prop := mkArr {
  ar_ok : nalu_ok C oid n2;
  ar_valid : (0 <= n_valid n)%Z;
  ar_upd : (n_valid n =? 0)%Z = false -> update_hashable n = Def n2;
  ar_zero : (n_valid n =? 0)%Z = true -> n2 = n;
  ar_sei : n_gop_sei n2 = n_gop_sei n;
  ar_hash : hashes n2;
  ar_vv : n_valid n2 = n_valid n;
  ar_fs : n_gop_sei n = true -> n_golden n = false /\ N.land (n_reserved n) 48 <> 0 /\ status_of n = SPend /\
    exists fs, memory C oid n2 fs /\ (has_rec fs = true \/ n_with_epb n2 = true \/ (n_epb n2 <= 0)%Z)
}.
Lemma arrives c d : nlen d < 2 ^ 63 -> other_nalu c d \/ formed_sei_of okkey oksig C c oid d -> exists n n2, parse_nalu d c true true = Def n /\ arrival n n2.
Proof.
  intros HD [HU|HF].
  - destruct (other_ok C oid c d HD HU) as (n & E & G & NK & V & HH). exists n, n. split; [exact E|]. constructor; auto; [|congruence].
    intros _. unfold update_hashable. rewrite G. cbn [negb]. rewrite orb_true_r. reflexivity.
  - destruct (sei_ok C oid c d HF) as (n & n2 & fs & E & V & G & GO & R & U & G2 & NK & M & HH & ST & X). exists n, n2. split; [exact E|].
    assert (V2 : n_valid n2 = 1%Z /\ n_hashable n2 = true) by (destruct NK as (_ & _ & NK); rewrite G2 in NK; destruct NK as (? & ? & _); auto).
    constructor; auto; try congruence; try lia. intros _. split; [exact GO|]. split; [exact R|]. split; [|eauto]. rewrite <- ST. unfold status_of. destruct V2 as [-> ->]. reflexivity.
Qed.

(** The item of a new NALU. *)
Record newitem (v : valid) (n n2 : nalu) (it : item) : Prop := mkNew {
  ni_nalu : i_nalu it = Some n2;
  ni_status : i_status it = status_of n;
  ni_used : i_used it = false;
  ni_hash : length (i_hash it) = 64%nat;
  ni_second : i_second it = None \/ known v = true /\ n_gop_sei n2 = false /\ exists x, i_second it = Some x /\ length x = hs
}.
Lemma register_ok v n n2 : core v -> arrival n n2 ->
  exists v' it, register C v n = Def (v', it, SV_OK) /\ hframe v' = hframe v /\ length (v_buddies v') = 128%nat /\ newitem v n n2 it.
Proof.
  intros K A. unfold register. destruct (n_valid n =? 0)%Z eqn:EZ.
  - exists v, (item_create n). split; [reflexivity|]. split; [reflexivity|]. split; [apply (co_bud v K)|]. rewrite <- (ar_zero _ _ A EZ). constructor; try reflexivity. left. reflexivity.
  - rewrite (ar_upd _ _ A EZ). cbn [obind]. set (it := set_i_nalu (Some n2) (item_create n)).
    destruct (hash_item_ok C HC oid hs HO v it n2 eq_refl (ar_ok _ _ A) (ar_hash _ _ A)) as (v' & it' & -> & F & B & HI & LH & SE).
    + rewrite (ar_vv _ _ A). pose proof (ar_valid _ _ A). lia.
    + intros HK. destruct (core_type v K HK). auto.
    + apply (co_bud v K).
    + reflexivity.
    + exists v', it'. split; [reflexivity|]. split; [exact F|]. split; [exact B|]. destruct HI as (I1 & I2 & I3 & _). constructor; auto.
Qed.
Lemma status_clear n : status_of n <> SInvalid.
Proof. unfold status_of. destruct (_ <? _)%Z; [discriminate|]. destruct (_ =? _)%Z; [discriminate|]. destruct (n_hashable n); discriminate. Qed.
Lemma new_base v n n2 it b : arrival n n2 -> newitem v n n2 it -> known v = b -> (b = false -> young C oid n2) -> base b it.
Proof.
  intros A [] HK HY. unfold base_ok, item_sei. rewrite ni_nalu0. split; [split; [apply (ar_ok _ _ A)|exact HY]|]. split; [exact ni_hash0|].
  destruct ni_second0 as [->|(N1 & N2 & x & -> & LX)]; [split; [discriminate|auto]|]. split; [intros y E; injection E as <-; split; congruence|intros E; congruence].
Qed.
Lemma now_snoc v v3 n n2 it : inv v -> arrival n n2 -> newitem v n n2 it -> core v3 -> v_items v3 = v_items v ++ [it] -> v_first v3 = v_first v -> v_synced v3 = v_synced v ->
  known v3 = known v -> v_signing v3 = v_signing v || n_gop_sei n -> (known v = false -> young C oid n2) -> (known v = false -> v_signing v3 = true -> d_has_pub (v_dec v3) = false) -> now v3.
Proof.
  intros [K []] A NI K3 EI EF ES EK EG HY HP. pose proof (new_base v n n2 it _ A NI eq_refl HY) as B. destruct NI.
  assert (NN : i_nalu it <> None) by congruence.
  split; [split; [exact K3|]|rewrite EI; split; [apply snoc_lastu; exact ni_used0|exists it; split; [apply in_or_app; right; left; reflexivity|exact NN]]].
  constructor; rewrite ?EI, ?EF, ?ES, ?EK.
  - apply Forall_app. auto.
  - apply Forall_app. split; [assumption|]. constructor; [|constructor]. intros X. congruence.
  - apply odd_snoc; [assumption|]. split; assumption.
  - intros S. apply tidy_snoc; auto.
  - intros F. destruct (li_first0 F) as [F1 F2]. split; [exact F1|]. apply Forall_app. split; [exact F2|]. constructor; [|constructor]. split; [exact NN|]. rewrite ni_status0. apply status_clear.
  - intros [X|X]; apply li_new0; [auto|]. right. rewrite EG in X. apply orb_false_elim in X as [X _]. exact X.
  - rewrite EG. intros X. apply orb_false_elim in X as [X1 X2]. apply Forall_app. split; [auto|]. constructor; [|constructor]. unfold item_sei. rewrite ni_nalu0, (ar_sei _ _ A). exact X2.
  - intros X S. apply HP; assumption.
Qed.

(** Hashing all items again. *)
Definition pre (it : item) : Prop := exists n, i_nalu it = Some n /\ nalu_ok C oid n /\ hashes n /\ length (i_hash it) = 64%nat /\ i_second it = None.
Lemma pre_base b it n : i_nalu it = Some n -> nalu_ok C oid n -> length (i_hash it) = 64%nat -> (i_second it = None \/ n_gop_sei n = false /\ exists x, i_second it = Some x /\ length x = hs) -> b = true -> base b it.
Proof.
  intros E NK LH SE ->. unfold base_ok, item_sei. rewrite E. split; [split; [exact NK|discriminate]|]. split; [exact LH|]. destruct SE as [->|(G & x & -> & LX)]; [split; [discriminate|auto]|].
  split; [intros y X; injection X as <-; auto|congruence].
Qed.
Lemma rehash_ok l : forall v st, Forall pre l -> known v = true -> vhs v = hs -> h_type (d_handle (v_dec v)) = oid -> length (v_buddies v) = 128%nat ->
  exists v' l' st', rehash C v l st = Def (v', l', st') /\ hframe v' = hframe v /\ length (v_buddies v') = 128%nat /\ Forall2 alike l l' /\ Forall (base true) l'.
Proof.
  induction l as [|it l IH]; intros v st HP HK HVH HT HB; cbn [rehash]; [exists v, [], st; repeat split; auto|].
  apply Forall_cons_iff in HP as [(n & EN & NK & HH & LH & SE) HP]. rewrite EN.
  destruct (Z.leb_spec (n_valid n) 0) as [LV|LV].
  - destruct (IH v st HP HK HVH HT HB) as (v' & l' & st' & -> & F & B & A & BS). cbn [obind]. exists v', (it :: l'), st'. split; [reflexivity|]. split; [exact F|]. split; [exact B|]. split; [constructor; [repeat split|exact A]|].
    constructor; [eapply pre_base; eauto|exact BS].
  - destruct (hash_item_ok C HC oid hs HO v it n EN NK HH LV) as (v1 & it' & -> & F & B & (I1 & I2 & I3 & _) & LH' & SE'); auto. cbn [obind is_ok svrc_eqb negb].
    assert (FD : v_dec v1 = v_dec v) by (unfold hframe in F; congruence).
    destruct (IH v1 SV_OK HP) as (v' & l' & st' & -> & F' & B' & A' & BS'); [congruence|unfold vhs in *; congruence|congruence|exact B|]. cbn [obind].
    exists v', (it' :: l'), st'. split; [reflexivity|]. split; [congruence|]. split; [exact B'|]. split; [constructor; [repeat split; assumption|exact A']|]. constructor; [|exact BS'].
    eapply (pre_base true it' n); auto; [congruence|]. rewrite SE in SE'. destruct SE' as [SE'|(_ & SE')]; auto.
Qed.
Lemma rereg_ok v w n n2 it : inv v -> arrival n n2 -> newitem v n n2 it -> known v = false -> core w -> known w = true -> v_signing w = true -> v_first w = v_first v -> v_synced w = v_synced v ->
  v_items w = v_items v ++ [it] -> exists w' st, reregister C w = Def (w', st) /\ now w' /\ v_first_sei w' = v_first_sei w /\ known w' = true.
Proof.
  intros [K []] A NI HK KW KK0 SW EF ES EI. destruct (core_type w KW KK0) as [T VH]. assert (FV : v_first v = true) by auto. destruct (li_first0 FV) as [F1 F2]. rewrite HK in li_base0.
  unfold reregister. rewrite EI.
  assert (PR : Forall pre (v_items v ++ [it])).
  { apply Forall_app. split.
    - rewrite Forall_forall in *. intros x HI. destruct (li_base0 x HI) as (B1 & B2 & B3 & _). destruct (F2 x HI) as [NN _]. destruct (i_nalu x) as [m|] eqn:EM; [|congruence]. destruct B1 as [B1 Y]. destruct (Y eq_refl) as [HH _].
      exists m. split; [exact EM|]. split; [exact B1|]. split; [exact HH|]. split; [exact B2|]. destruct (i_second x) as [y|]; [|reflexivity]. destruct (B3 y eq_refl). discriminate.
    - constructor; [|constructor]. destruct NI. exists n2. split; [assumption|]. split; [apply (ar_ok _ _ A)|]. split; [apply (ar_hash _ _ A)|]. split; [assumption|]. destruct ni_second0 as [E|(E & _)]; congruence. }
  destruct (rehash_ok _ w SV_UNKNOWN_FAILURE PR KK0 VH T (co_bud w KW)) as (w' & l' & st & -> & F & B & AL & BS). cbn [obind]. exists (set_v_items l' w'), st. split; [reflexivity|].
  unfold hframe in F. injection F as D1 D2 D3 D4 D5 D6 D7 D8 D9 D10 D11 D12 D13 D14.
  split; [|split; [exact D13|cbn [set_v_items v_dec]; congruence]].
  destruct NI. assert (NN : i_nalu it <> None) by congruence.
  assert (LW : Forall2 low (v_items v ++ [it]) l') by (eapply forall2_impl; [apply alike_low|exact AL]).
  split; [split|].
  - destruct KW. constructor; cbn [set_v_items v_dec v_buddies v_computed v_links v_hash v_legacy v_started v_signing]; congruence || (rewrite D1; assumption) || (rewrite D14, D5; assumption) || assumption.
  - constructor; cbn [set_v_items v_dec v_items v_synced v_first v_signing]; rewrite ?D1, ?D5, ?D8, ?D11, ?KK0, ?SW, ?EF, ?ES.
    + exact BS.
    + eapply alike_forall; [|exact AL|apply Forall_app; split; [exact li_used0|constructor; [intros X; congruence|constructor]]]. intros a b (A1 & A2 & A3) U. unfold used_ok, pending in *. rewrite A2, A3. exact U.
    + eapply odd_low; [exact LW|]. apply odd_snoc; [assumption|split; assumption].
    + intros S. congruence.
    + intros _. split; [exact F1|]. eapply alike_forall; [|exact AL|apply Forall_app; split; [exact F2|constructor; [split; [exact NN|rewrite ni_status0; apply status_clear]|constructor]]]. intros a b (A1 & A2 & _) [C1 C2]. split; congruence.
    + intros [X|X]; discriminate.
    + discriminate.
    + discriminate.
  - cbn [set_v_items v_items]. split; [eapply map_lastu; [apply alike_map; exact AL|apply snoc_lastu; assumption]|]. eapply alike_some; [exact AL|]. exists it. split; [apply in_or_app; right; left; reflexivity|exact NN].
Qed.

(** Looking for the fields that are not in every SEI. *)
Lemma recurrent_young l : forall d, Forall (base false) l -> dok C oid d -> recurrent_loop C d l = Def (d, false).
Proof.
  induction l as [|it l IH]; intros d HB DK; cbn [recurrent_loop]; [reflexivity|]. apply Forall_cons_iff in HB as [(B1 & _) HB]. destruct (i_nalu it) as [n|]; [|apply IH; assumption].
  destruct (n_gop_sei n) eqn:G; cbn [andb]; [|apply IH; assumption]. destruct (pending it); [|apply IH; assumption]. destruct B1 as [_ Y]. destruct (Y eq_refl) as [_ Y2]. destruct (Y2 G) as (_ & fs & M & R).
  destruct (memory_optional C HC oid hs HO HW0 d n fs M DK) as (d' & -> & _ & _ & _ & E). rewrite (E R), R. cbn [obind]. apply IH; assumption.
Qed.
Lemma recurrent_app l m d d1 : recurrent_loop C d l = Def (d1, false) -> recurrent_loop C d (l ++ m) = recurrent_loop C d1 m.
Proof.
  revert d. induction l as [|it l IH]; intros d; cbn [recurrent_loop app]; [intros E; injection E as ->; reflexivity|]. destruct (i_nalu it) as [n|]; [|apply IH].
  destruct (_ && _); [|apply IH]. destruct (decode_optional C d (n_tlv_mem n) (n_tlv_size n)) as [[d2 []]|]; cbn [obind]; try discriminate. apply IH.
Qed.
Lemma recurrent_known l : forall d b, Forall (base b) l -> dok C oid d -> exists d' r, recurrent_loop C d l = Def (d', r) /\ dok C oid d' /\ dstep oid d d'.
Proof.
  induction l as [|it l IH]; intros d b HB DK; cbn [recurrent_loop]; [exists d, false; split; [reflexivity|split; [exact DK|apply dstep_refl]]|].
  apply Forall_cons_iff in HB as [(B1 & _) HB]. destruct (i_nalu it) as [n|]; [|eapply IH; eassumption].
  destruct (n_gop_sei n) eqn:G; cbn [andb]; [|eapply IH; eassumption]. destruct (pending it); [|eapply IH; eassumption]. destruct B1 as [(_ & _ & NK) _]. rewrite G in NK. destruct NK as (_ & _ & _ & _ & fs & M).
  destruct (memory_optional C HC oid hs HO HW0 d n fs M DK) as (d' & -> & DK' & DS' & _). cbn [obind]. destruct (has_rec fs); [exists d', true; auto|].
  destruct (IH d' b HB DK') as (d2 & r & E & K2 & S2). exists d2, r. split; [exact E|]. split; [exact K2|]. eapply dstep_trans; eassumption.
Qed.

Lemma maybe_ok fuel v n : now v -> (v_first_sei v = true -> n_golden n = false) -> holds (maybe_validate C Ov fuel v n) (fun '(v', _) => now v') bad.
Proof.
  intros H HG. unfold maybe_validate. set (f1 := match rev (v_items v) with it :: _ => feasible it | [] => false end). clearbody f1. pose proof H as ([K L] & _).
  assert (X : exists w b, recurrent_decoded C v = Def (w, b) /\ now w /\ v_first_sei w = v_first_sei v /\ (b = true -> v_signing w = true -> known w = true)).
  { unfold recurrent_decoded. destruct (d_has_pub (v_dec v)) eqn:EP; cbn [orb].
    { exists v, true. split; [reflexivity|]. split; [exact H|]. split; [reflexivity|]. intros _ S. destruct (known v) eqn:EK; [reflexivity|]. rewrite (li_young v L EK S) in EP. discriminate. }
    destruct (v_signing v) eqn:SG; cbn [negb]. 2:{ exists v, true. split; [reflexivity|]. split; [exact H|]. split; [reflexivity|]. congruence. }
    destruct (known v) eqn:EK.
    - destruct (recurrent_known (v_items v) (v_dec v) _ (li_base v L) (co_dok v K)) as (d & r & -> & DK & DS). cbn [obind]. destruct (now_dec v d H EK DK DS) as [N1 N2].
      exists (set_v_dec d v), r. split; [reflexivity|]. split; [exact N1|]. split; [reflexivity|]. intros _ _. exact N2.
    - pose proof (li_base v L) as B. rewrite EK in B. rewrite (recurrent_young _ _ B (co_dok v K)). cbn [obind]. exists (set_v_dec (v_dec v) v), false. split; [reflexivity|].
      split; [apply now_dok; [exact H|apply (co_dok v K)|reflexivity]|]. split; [reflexivity|discriminate]. }
  destruct X as (w & b & -> & NW & FS & HK). cbn [obind].
  destruct (f1 && b) eqn:EF; cbn [negb].
  - apply andb_prop in EF as [_ ->]. apply loop_ok; [exact NW|auto].
  - destruct (v_first_sei w) eqn:E1; [|exact NW]. rewrite HG by congruence. cbn [holds].
    eapply now_view; [|apply (now_dok w (set_d_l_changed false (v_dec w)) NW)]; [reflexivity|destruct NW as ([KW _] & _); destruct (co_dok w KW); constructor; assumption|reflexivity].
Qed.

Lemma body_ok fuel v n n2 : inv v -> v_started v = true -> arrival n n2 -> holds (add_body C Ov fuel v n) (fun '(v', _) => now v') bad.
Proof.
  intros HI HST A. pose proof HI as [K L]. unfold add_body. destruct (Z.ltb_spec (n_valid n) 0) as [X|_]; [pose proof (ar_valid _ _ A); lia|].
  set (v1 := set_v_signing (v_signing v || n_gop_sei n) (set_v_first_sei (negb (v_signing v) && n_gop_sei n) v)).
  assert (K1 : core v1) by (destruct K; constructor; try assumption; intros X; change (v_started v1) with (v_started v) in X; congruence).
  destruct (register_ok v1 n n2 K1 A) as (v2 & it & -> & F & B2 & NI). cbn [obind is_ok svrc_eqb negb].
  unfold hframe in F. injection F as D1 D2 D3 D4 D5 D6 D7 D8 D9 D10 D11 D12 D13 D14.
  change (v_dec v1) with (v_dec v) in D1. change (v_computed v1) with (v_computed v) in D2. change (v_hash v1) with (v_hash v) in D3. change (v_legacy v1) with (v_legacy v) in D4.
  change (v_signing v1) with (v_signing v || n_gop_sei n) in D5. change (v_first v1) with (v_first v) in D8. change (v_links v1) with (v_links v) in D10. change (v_synced v1) with (v_synced v) in D11.
  change (v_first_sei v1) with (negb (v_signing v) && n_gop_sei n) in D13. change (v_started v1) with (v_started v) in D14.
  assert (NI2 : newitem v n n2 it) by (destruct NI; constructor; auto).
  set (v3 := set_v_items (v_items v ++ [it]) v2).
  assert (K3 : forall d, dok C oid d -> (h_type (d_handle d) = oid \/ d_has_pub d = false /\ d_algo_known d = false) -> core (set_v_dec d v3)).
  { intros d DK AL. destruct K. constructor; auto; cbn; congruence. }
  assert (K30 : core v3). { specialize (K3 (v_dec v) (co_dok v K) (co_alg v K)). destruct K3. constructor; auto; change (v_dec v3) with (v_dec v2); rewrite D1; assumption. }
  assert (FSEI : forall w, v_first_sei w = v_first_sei v3 -> v_first_sei w = true -> n_golden n = false).
  { intros w E X. rewrite E in X. change (v_first_sei v3) with (v_first_sei v2) in X. rewrite D13 in X. apply andb_prop in X as [_ X]. apply (ar_fs _ _ A X). }
  assert (NOW3 : (known v = false -> young C oid n2) -> (known v = false -> v_signing v || n_gop_sei n = true -> d_has_pub (v_dec v) = false) -> now v3).
  { intros HY HP. eapply (now_snoc v v3 n n2 it HI A NI2 K30); auto; try (change (v_dec v3) with (v_dec v2); rewrite D1; reflexivity).
    change (v_dec v3) with (v_dec v2); change (v_signing v3) with (v_signing v2). rewrite D1, D5. exact HP. }
  change (v_dec v3) with (v_dec v2). change (v_signing v3) with (v_signing v2). rewrite D1, D5.
  destruct (known v) eqn:EK; cbn [negb andb].
  { assert (N3 : now v3) by (apply NOW3; discriminate). cbn [obind is_ok svrc_eqb negb orb]. rewrite (co_leg v3 K30). apply maybe_ok; [exact N3|apply FSEI; reflexivity]. }
  destruct (v_signing v || n_gop_sei n) eqn:EG.
  2:{ apply orb_false_elim in EG as [EG1 EG2]. assert (N3 : now v3) by (apply NOW3; [intros _; split; [apply (ar_hash _ _ A)|rewrite (ar_sei _ _ A), EG2; discriminate]|congruence]).
      cbn [obind is_ok svrc_eqb negb orb]. rewrite (co_leg v3 K30). apply maybe_ok; [exact N3|apply FSEI; reflexivity]. }
  (* the algorithm becomes known *)
  assert (REREG : forall d, n_gop_sei n = true -> dok C oid d -> h_type (d_handle d) = oid ->
     holds (do (v0, st) <- (do (v0, b) <- Def (set_v_dec d v3, true);
        if negb b then Def (v0, SV_OK)
        else do (v1, st) <- (if n_golden n then prepare_golden C Ov (on_dec (set_d_algo_known true) v0) (v_items v) it else Def (on_dec (set_d_algo_known true) v0, SV_OK));
          if negb (is_ok st) then Def (v1, st)
          else if (N.land (n_reserved n) 48 =? 0) && negb (n_golden n) then Def (set_v_legacy true (set_v_acc accum_init v1), SV_OK) else reregister C v1);
        if negb (is_ok st) || v_legacy v0 then Def (v0, st) else maybe_validate C Ov fuel v0 n) (fun '(v', _) => now v') bad).
  { intros d SG DK HT. destruct (ar_fs _ _ A SG) as (GO & RE & _). rewrite GO. cbn [obind negb is_ok svrc_eqb]. destruct (N.eqb_spec (N.land (n_reserved n) 48) 0) as [X|_]; [congruence|]. cbn [andb].
    set (w := on_dec (set_d_algo_known true) (set_v_dec d v3)).
    assert (KW : core w). { assert (D' : dok C oid (set_d_algo_known true d)) by (destruct DK; constructor; assumption). exact (K3 (set_d_algo_known true d) D' (or_introl HT)). }
    destruct (rereg_ok v w n n2 it HI A NI2 EK KW) as (w' & st & -> & NW & FW & _); auto. cbn [obind].
    destruct (is_ok st); cbn [negb orb]; [|exact NW]. replace (v_legacy w') with false by (symmetry; destruct NW as ([KW' _] & _); apply (co_leg w' KW')). apply maybe_ok; [exact NW|apply FSEI; rewrite FW; reflexivity]. }
  unfold recurrent_decoded. change (v_dec v3) with (v_dec v2). change (v_signing v3) with (v_signing v2). change (v_items v3) with (v_items v ++ [it]). rewrite D1, D5. cbn [negb]. rewrite orb_false_r.
  destruct (d_has_pub (v_dec v)) eqn:EP.
  - assert (SG : n_gop_sei n = true). { destruct (v_signing v) eqn:S; [|exact EG]. rewrite (li_young v L EK S) in EP. discriminate. }
    assert (HT : h_type (d_handle (v_dec v)) = oid) by (destruct (co_alg v K) as [X|[X _]]; [exact X|congruence]).
    specialize (REREG (v_dec v) SG (co_dok v K) HT). replace (set_v_dec (v_dec v) v3) with v3 in REREG; [exact REREG|]. unfold v3. rewrite <- D1. destruct v2; reflexivity.
  - pose proof (li_base v L) as B. rewrite EK in B. rewrite (recurrent_app _ _ _ _ (recurrent_young _ _ B (co_dok v K))).
    assert (V3 : set_v_dec (v_dec v) v3 = v3) by (unfold v3; rewrite <- D1; destruct v2; reflexivity).
    assert (STAY : now v3 -> holds (do (v0, st) <- (do (v0, b) <- Def (set_v_dec (v_dec v) v3, false);
        if negb b then Def (v0, SV_OK)
        else do (v1, st) <- (if n_golden n then prepare_golden C Ov (on_dec (set_d_algo_known true) v0) (v_items v) it else Def (on_dec (set_d_algo_known true) v0, SV_OK));
          if negb (is_ok st) then Def (v1, st)
          else if (N.land (n_reserved n) 48 =? 0) && negb (n_golden n) then Def (set_v_legacy true (set_v_acc accum_init v1), SV_OK) else reregister C v1);
        if negb (is_ok st) || v_legacy v0 then Def (v0, st) else maybe_validate C Ov fuel v0 n) (fun '(v', _) => now v') bad).
    { intros N3. rewrite V3. cbn [obind negb is_ok svrc_eqb orb]. rewrite (co_leg v3 K30). apply maybe_ok; [exact N3|apply FSEI; reflexivity]. }
    cbn [recurrent_loop]. rewrite (ni_nalu _ _ _ _ NI). rewrite (ar_sei _ _ A).
    destruct (n_gop_sei n) eqn:SG; cbn [andb].
    2:{ apply STAY. apply NOW3; [|congruence]. intros _. split; [apply (ar_hash _ _ A)|rewrite (ar_sei _ _ A), SG; discriminate]. }
    destruct (ar_fs _ _ A SG) as (_ & _ & ST & fs & M & MR). assert (PI : pending it = true) by (unfold pending; rewrite (ni_status _ _ _ _ NI), ST; reflexivity). rewrite PI.
    destruct (memory_optional C HC oid hs HO HW0 (v_dec v) n2 fs M (co_dok v K)) as (d & -> & DK & DS & HR1 & HR2). cbn [obind].
    destruct (has_rec fs) eqn:ER; [apply REREG; auto|]. rewrite (HR2 eq_refl). apply STAY. apply NOW3; [|congruence].
    intros _. split; [apply (ar_hash _ _ A)|]. intros _. split; [destruct MR as [MR|MR]; [congruence|exact MR]|eauto].
Qed.

(** ** The copy of the last NALU, and the end of a call *)
Definition kept (b : bool) (x y : item) : Prop :=
  low x y /\ (base b x -> base b y) /\ (used_ok x -> used_ok y) /\ (clear x -> clear y) /\ item_sei y = item_sei x.
Lemma kept_refl b x : kept b x x.
Proof. split; [apply low_refl|auto]. Qed.
Lemma kepts_refl b l : Forall2 (kept b) l l.
Proof. induction l; constructor; auto using kept_refl. Qed.
Lemma kept_trans b x y z : kept b x y -> kept b y z -> kept b x z.
Proof.
  intros ((L1 & L2 & L3 & L4) & X2 & X3 & X4 & X5) ((M1 & M2 & M3 & M4) & Y2 & Y3 & Y4 & Y5). split; [|split; [auto|]; split; [auto|]; split; [auto|congruence]].
  split; [congruence|]. auto.
Qed.
Lemma kepts_trans b l m k : Forall2 (kept b) l m -> Forall2 (kept b) m k -> Forall2 (kept b) l k.
Proof. intros H. revert k. induction H; intros k X; inversion X; subst; constructor; [eapply kept_trans; eassumption|auto]. Qed.
Lemma kept_forall b (P : item -> Prop) l m : (forall x y, kept b x y -> P x -> P y) -> Forall2 (kept b) l m -> Forall P l -> Forall P m.
Proof. intros HP. induction 1; intros F; [constructor|]. apply Forall_cons_iff in F as [? ?]. constructor; eauto. Qed.
Lemma inv_kept v l : inv v -> Forall2 (kept (known v)) (v_items v) l -> inv (set_v_items l v).
Proof.
  intros [K []] H. split; [destruct K; constructor; assumption|]. assert (LW : Forall2 low (v_items v) l) by (eapply forall2_impl; [|exact H]; intros x y X; apply X).
  constructor; cbn [set_v_items v_items v_dec v_synced v_first v_signing]; auto.
  - eapply kept_forall; [|exact H|exact li_base0]. intros x y X. apply X.
  - eapply kept_forall; [|exact H|exact li_used0]. intros x y X. apply X.
  - eapply odd_low; eassumption.
  - intros S. eapply tidy_low; eauto.
  - intros F. destruct (li_first0 F) as [F1 F2]. split; [exact F1|]. eapply kept_forall; [|exact H|exact F2]. intros x y X. apply X.
  - intros S. eapply kept_forall; [|exact H|exact (li_plain0 S)]. intros x y (_ & _ & _ & _ & X). congruence.
Qed.
Lemma copy_nalu_ok b n : nalu_ok C oid n -> (b = false -> young C oid n) ->
  exists m, copy_nalu b n = Def (Some m, SV_OK) /\ nalu_ok C oid m /\ (b = false -> young C oid m) /\ n_gop_sei m = n_gop_sei n /\ n_first_in_gop m = n_first_in_gop n.
Proof.
  intros NK HY.
  assert (ME : forall fs m, memory C oid n fs -> n_tlv_mem m = firstn (N.to_nat (n_tlv_size n)) (n_tlv_mem n) -> n_tlv_size m = n_tlv_size n -> memory C oid m fs).
  { intros fs m (max & sig & r & E1 & E2 & E3) M1 M2. exists max, sig, []. rewrite M1, M2, app_nil_r. split; [|auto]. rewrite E1, E2. unfold nlen. rewrite Nnat.Nat2N.id, firstn_app, Nat.sub_diag, firstn_all, firstn_O, app_nil_r. reflexivity. }
  assert (SZ : n_tlv_size n < 9223372036854775808 /\ n_tlv_size n <= nlen (n_tlv_mem n)).
  { destruct NK as (_ & _ & NK). destruct (n_gop_sei n); [|rewrite NK; lia]. destruct NK as (_ & _ & _ & _ & fs & max & sig & r & E1 & E2 & E3 & _). split; [exact E3|]. rewrite E1, E2. unfold nlen. rewrite app_length. lia. }
  unfold copy_nalu. destruct (N.leb_spec 9223372036854775808 (n_tlv_size n)); [lia|]. destruct (N.ltb_spec (nlen (n_tlv_mem n)) (n_tlv_size n)); [lia|].
  assert (EB : negb b && n_hashable n && n_gop_sei n && negb (n_with_epb n) && (0 <? n_epb n)%Z = false).
  { destruct b; [reflexivity|]. destruct (HY eq_refl) as [_ Y]. destruct (n_gop_sei n); [|rewrite andb_false_r; reflexivity]. destruct (Y eq_refl) as [[->|LE] _]; [rewrite !andb_false_r; reflexivity|].
    destruct (Z.ltb_spec 0 (n_epb n)); [lia|]. rewrite andb_false_r. reflexivity. }
  rewrite EB. eexists. split; [reflexivity|]. split; [|split; [|split; reflexivity]].
  - destruct NK as (N1 & N2 & NK). split; [exact N1|]. split; [exact N2|]. cbn [n_gop_sei n_valid n_hashable n_first_in_gop n_golden n_tlv_size]. destruct (n_gop_sei n); [|exact NK].
    destruct NK as (N3 & N4 & N5 & N6 & fs & M). split; [exact N3|]. split; [exact N4|]. split; [exact N5|]. split; [exact N6|]. exists fs. apply (ME fs); [exact M|reflexivity|reflexivity].
  - intros ->. destruct (HY eq_refl) as [Y1 Y2]. split.
    + intros HH HVV. destruct (Y1 HH HVV) as (x & X1 & X2). cbn [n_hashable n_valid] in HH, HVV. exists x. split; [|exact X2]. unfold hash_input in *. cbn [n_hash_size n_hash_mem orb negb]. rewrite HH. cbn [negb orb]. exact X1.
    + cbn [n_gop_sei n_with_epb n_epb]. intros G. destruct (Y2 G) as (Y3 & fs & M & R). split; [exact Y3|]. exists fs. split; [|exact R]. apply (ME fs); [exact M|reflexivity|reflexivity].
Qed.
Lemma kept_copy b it n m : i_nalu it = Some n -> nalu_ok C oid m -> (b = false -> young C oid m) -> n_gop_sei m = n_gop_sei n -> n_first_in_gop m = n_first_in_gop n -> kept b it (set_i_nalu (Some m) it).
Proof.
  intros E M1 M2 M3 M4. split; [|split; [|split; [|split]]].
  - unfold low, flags, pending. cbn [set_i_nalu i_nalu i_used i_status]. rewrite E, M3, M4. split; [reflexivity|]. split; [discriminate|auto].
  - intros (B1 & B2 & B3 & B4). unfold base_ok, item_sei in *. cbn [set_i_nalu i_nalu i_hash i_second]. rewrite E, ?M3 in *. auto.
  - intros X. exact X.
  - intros [_ X]. split; [discriminate|exact X].
  - unfold item_sei. cbn [set_i_nalu i_nalu]. rewrite E. exact M3.
Qed.
Lemma copy_rev_ok b l : Forall (base b) l -> some l -> exists l', copy_rev b l = Def (l', SV_OK) /\ Forall2 (kept b) l l' /\ map i_used l' = map i_used l /\ some l'.
Proof.
  induction l as [|it l IH]; intros HB (y & Y1 & Y2); [destruct Y1|]. apply Forall_cons_iff in HB as [B HB]. cbn [copy_rev]. destruct (i_nalu it) as [n|] eqn:E.
  - destruct B as (B1 & _). rewrite E in B1. destruct B1 as [NK HY]. destruct (copy_nalu_ok b n NK HY) as (m & -> & M1 & M2 & M3 & M4). cbn [obind]. eexists. split; [reflexivity|].
    split; [constructor; [eapply kept_copy; eassumption|apply kepts_refl]|]. split; [reflexivity|]. eexists. split; [left; reflexivity|discriminate].
  - destruct (IH HB) as (l' & -> & F & M & z & Z1 & Z2); [destruct Y1 as [<-|Y1]; [congruence|exists y; auto]|]. cbn [obind]. eexists. split; [reflexivity|].
    split; [constructor; [apply kept_refl|exact F]|]. split; [cbn [map]; rewrite M; reflexivity|]. exists z. split; [right; exact Z1|exact Z2].
Qed.
Lemma forall2_rev {A B} (P : A -> B -> Prop) l m : Forall2 P l m -> Forall2 P (rev l) (rev m).
Proof. induction 1; cbn [rev]; [constructor|]. apply Forall2_app; [assumption|]. constructor; [assumption|constructor]. Qed.
Lemma some_rev l : some l -> some (rev l).
Proof. intros (x & X1 & X2). exists x. split; [apply in_rev in X1; exact X1|exact X2]. Qed.
Lemma copy_last_def b l : Forall (base b) l -> some l -> exists l', copy_last b l = Def (l', SV_OK) /\ Forall2 (kept b) l l' /\ map i_used l' = map i_used l.
Proof.
  intros HB HSo. destruct (copy_rev_ok b (rev l)) as (l' & E & F & M & _); [apply Forall_rev; exact HB|apply some_rev; exact HSo|]. unfold copy_last. rewrite E. cbn [obind]. exists (rev l'). split; [reflexivity|].
  split; [apply forall2_rev in F; rewrite rev_involutive in F; exact F|]. rewrite map_rev, M, map_rev, rev_involutive. reflexivity.
Qed.
Lemma mark_last_kept b l : lastu l -> Forall2 (kept b) l (mark_last SErr l).
Proof.
  intros HL. unfold mark_last. destruct (rev l) as [|it r] eqn:E; [apply (f_equal (@rev item)) in E; rewrite rev_involutive in E; subst l; constructor|].
  apply (f_equal (@rev item)) in E. rewrite rev_involutive in E. cbn [rev] in *. subst l. apply Forall2_app; [apply kepts_refl|]. constructor; [|constructor]. assert (U : i_used it = false) by (eapply HL; reflexivity).
  split; [|split; [|split; [|split]]].
  - split; [reflexivity|]. split; [auto|]. split; [auto|]. discriminate.
  - apply base_same; try reflexivity. intros _. split; discriminate.
  - intros _ X. cbn [set_i_status i_used] in X. congruence.
  - intros [X _]. split; [exact X|discriminate].
  - reflexivity.
Qed.

Lemma h26x_ok fuel v d n n2 : inv v -> v_started v = true -> parse_nalu d (v_codec v) true true = Def n -> arrival n n2 -> holds (add_h26x C Ov fuel v d) (fun '(v', _) => inv v') bad.
Proof.
  intros HI HST EP A. unfold add_h26x. rewrite EP. cbn [obind]. cbv zeta. set (v1 := on_acc _ _).
  assert (I1 : inv v1) by (eapply inv_view; [|exact HI]; reflexivity). apply holds_bind.
  eapply holds_impl; [apply (body_ok fuel v1 n n2 I1 HST A)| |auto]. intros [v2 st] N2. pose proof N2 as ([K2 L2] & HL & HSo). rewrite (co_leg v2 K2).
  destruct (copy_last_def _ (v_items v2) (li_base v2 L2) HSo) as (l' & -> & F & M). cbn [obind].
  destruct (is_ok (if is_ok st then SV_OK else st)); cbn [holds].
  - apply inv_kept; [split; assumption|exact F].
  - apply inv_kept; [split; assumption|]. eapply kepts_trans; [exact F|]. apply mark_last_kept. eapply map_lastu; eassumption.
Qed.
Lemma inv_suffix v l a : inv v -> v_items v = a ++ l -> inv (set_v_items l v).
Proof.
  intros [K []] E. split; [destruct K; constructor; assumption|]. rewrite E in *. constructor; cbn [set_v_items v_items v_dec v_synced v_first v_signing]; auto.
  - apply Forall_app in li_base0. apply li_base0.
  - apply Forall_app in li_used0. apply li_used0.
  - eapply odd_suffix; eassumption.
  - intros S. eapply tidy_suffix; eauto.
  - intros F. destruct (li_first0 F) as [F1 F2]. split; [exact F1|]. apply Forall_app in F2. apply F2.
  - intros S. specialize (li_plain0 S). apply Forall_app in li_plain0. apply li_plain0.
Qed.
Lemma update_ok v : inv v -> inv (update_report v).
Proof.
  intros HI. unfold update_report. cbv zeta. match goal with |- context [clean_up (v_items ?x)] => set (v2 := x) end. assert (E : view v2 = view v) by (unfold v2; destruct (_ =? _)%Z; reflexivity). clearbody v2.
  assert (I2 : inv v2) by (eapply inv_view; eassumption). destruct (clean_up_split (v_items v2)) as (a & EA & _). destruct (clean_up (v_items v2)) as [l k] eqn:EC. cbn [fst] in EA.
  eapply inv_view; [|apply (inv_suffix v2 l a I2 EA)]. reflexivity.
Qed.
Lemma get_ok v : inv v -> inv (fst (get_report v)).
Proof. intros HI. unfold get_report. destruct (negb (v_report v)); [exact HI|]. cbn [fst]. eapply inv_view; [|exact HI]. reflexivity. Qed.
Lemma dok_set d d' : dok C oid d -> d_handle d' = d_handle d -> d_vhs d' = d_vhs d -> d_linked d' = d_linked d -> d_gop d' = d_gop d ->
  (d_has_pub d', d_pub d', d_vkey d', d_sig d') = (d_has_pub d, d_pub d, d_vkey d, d_sig d) -> dok C oid d'.
Proof. intros DK E1 E2 E3 E4 E5. apply (dok_same C oid d); auto; [rewrite E3|rewrite E4]; apply DK. Qed.

Definition fine (c : codec) (v : valid) : Prop := inv v /\ v_codec v = c.
Lemma nalu_add_ok fuel c v d want : fine c v -> harmless_of okkey oksig C c oid (VAdd d want) -> holds (add_nalu C Ov fuel v d want) (fun '(v', r) => inv v' /\ r <> VLegacy) bad.
Proof.
  intros [HI EC] [HD HH]. unfold add_nalu. destruct d as [|b0 d0]; [split; [exact HI|discriminate]|]. set (d := b0 :: d0) in *. clearbody d. cbv zeta.
  set (v1 := create_report (set_v_started true v)).
  assert (P1 : inv v1 /\ v_codec v1 = c /\ v_started v1 = true).
  { assert (I0 : inv (set_v_started true v)). { destruct HI as [K L]. split; [destruct K; constructor; auto; discriminate|destruct L; constructor; assumption]. }
    unfold v1, create_report. destruct (v_report (set_v_started true v)); [auto|]. split; [|split; [exact EC|reflexivity]].
    eapply (inv_view (set_v_dec _ (set_v_started true v))); [|apply inv_dok; [exact I0| |]]; [reflexivity| |reflexivity]. eapply dok_set; [apply (co_dok v); apply HI|reflexivity..]. }
  clearbody v1. destruct P1 as (I1 & C1 & S1). pose proof I1 as [K1 _]. rewrite (co_leg v1 K1).
  destruct (arrives c d HD HH) as (n & n2 & EP & A). rewrite <- C1 in EP. apply holds_bind.
  eapply holds_impl; [apply (h26x_ok fuel v1 d n n2 I1 S1 EP A)| |auto]. intros [v2 st] I2. pose proof I2 as [K2 _]. rewrite (co_leg v2 K2).
  destruct (is_ok st); cbn [negb]; [|split; [exact I2|discriminate]]. destruct (v_result v2); [|split; [exact I2|discriminate]].
  pose proof (update_ok v2 I2) as I3. set (v3 := update_report v2) in *. clearbody v3.
  assert (I4 : inv (fst (if want then get_report v3 else (v3, None)))) by (destruct want; [apply get_ok; exact I3|exact I3]).
  destruct (if want then get_report v3 else (v3, None)) as [v4 r]. cbn [fst] in I4. cbn [holds]. split; [|discriminate].
  apply inv_dok; [exact I4| |reflexivity]. eapply dok_set; [apply (co_dok v4); apply I4|reflexivity..].
Qed.
Lemma exec_ok fuel c v o : fine c v -> harmless_of okkey oksig C c oid o -> holds (vexec C Ov fuel v o) (fun '(v', r) => fine c v' /\ r <> VLegacy) bad.
Proof.
  intros HF HH.
  assert (X : holds (vexec C Ov fuel v o) (fun '(v', r) => inv v' /\ r <> VLegacy) bad).
  { destruct o as [d want|key| |]; cbn [vexec].
    - apply nalu_add_ok with c; assumption.
    - destruct HF as [HI _]. cbn [harmless_of] in HH; destruct HH as [HH HHK]. destruct (set_public_key C v key) as [v' st] eqn:E. split; [|discriminate]. unfold set_public_key in E. destruct key as [|k0 key]; [injection E as <- _; exact HI|].
      destruct (d_pub (v_dec v)) eqn:EDP; [|injection E as <- _; exact HI]. destruct (v_started v) eqn:S; [injection E as <- _; exact HI|].
      set (v1 := on_dec (set_d_pub (k0 :: key)) v) in *. assert (NP : d_has_pub (v_dec v) = false).
      { destruct (d_has_pub (v_dec v)) eqn:EP; [|reflexivity]. destruct (dk_key C oid _ (co_dok v (proj1 HI)) EP) as (_ & X & _). congruence. }
      assert (I1 : inv v1).
      { destruct HI as [K L]. destruct L. split; [|constructor; assumption]. destruct K. constructor; try assumption. destruct co_dok0. constructor; try assumption. intros X. change (d_has_pub (v_dec v) = true) in X. congruence. }
      destruct (c_pub_ok C (k0 :: key)); [|injection E as <- _; exact I1]. injection E as <- _. destruct I1 as [K1 L1].
      assert (SG : v_signing v = false) by (apply (co_sta v); [apply HI|exact S]).
      assert (HT : h_type (d_handle (v_dec v)) = oid) by (destruct (dk_two C oid _ (co_dok v1 K1)) as [T|T]; [exact T|]; change (h_type (d_handle (v_dec v)) = sha256_der) in T; congruence).
      split.
      + destruct K1. constructor; auto. destruct co_dok0. constructor; try assumption. intros _. split; [exact HHK|]. split; [discriminate|reflexivity].
      + destruct L1. constructor; auto. intros _ X. change (v_signing v = true) in X. congruence.
    - destruct HF as [[K L] _]. split; [|discriminate]. split.
      + destruct K. constructor; auto.
        * unfold vreset. cbn. destruct co_dok0. destruct (init_type (d_handle (v_dec v))) as (T1 & T2 & T3). constructor; cbn; rewrite ?T1, ?T2; auto.
          -- unfold hash_size in *. rewrite T1. exact dk_vhs.
          -- rewrite T3. exact dk_prim.
        * unfold vreset. cbn. destruct (init_type (d_handle (v_dec v))) as (T1 & _). rewrite T1. destruct co_alg0 as [X|[X _]]; auto.
      + constructor; unfold vreset; cbn; auto; try discriminate.
        * exists [], []. split; [reflexivity|]. split; constructor.
    - destruct HF as [[K L] _]. rewrite (co_leg v K). destruct (get_report v) as [v' r] eqn:E. split; [|discriminate]. change v' with (fst (v', r)). rewrite <- E. apply get_ok. split; assumption. }
  destruct (vexec C Ov fuel v o) as [[v' r]|u] eqn:E; [|exact X]. destruct X as [I1 X]. split; [|exact X]. split; [exact I1|]. destruct HF as [_ <-]. eapply exec_codec; [exact E|]. apply (co_leg v'). apply I1.
Qed.
Lemma run_ok fuel c ops : forall v, fine c v -> Forall (harmless_of okkey oksig C c oid) ops -> holds (vrun C Ov fuel v ops) (fun '(v', rs) => fine c v' /\ ~ In VLegacy rs) bad.
Proof.
  induction ops as [|o ops IH]; intros v HF HH; cbn [vrun]; [split; [exact HF|intros []]|]. apply Forall_cons_iff in HH as [H1 HH]. apply holds_bind. eapply holds_impl; [apply (exec_ok fuel c v o HF H1)| |auto].
  intros [v' r] [F1 N1]. apply holds_bind. eapply holds_impl; [apply (IH v' F1 HH)| |auto]. intros [v2 rs] [F2 X]. cbn [holds]. split; [exact F2|]. intros [E|E]; auto.
Qed.
Lemma create_fine c : fine c (vcreate C c).
Proof.
  split; [|reflexivity]. split.
  - constructor; try reflexivity; [|right; split; reflexivity]. constructor; try reflexivity; [right; reflexivity|discriminate].
  - constructor; cbn; auto; try discriminate. exists [], []. split; [reflexivity|]. split; constructor.
Qed.
Lemma session_ok fuel c ops : Forall (harmless_of okkey oksig C c oid) ops -> holds (vrun C Ov fuel (vcreate C c) ops) (fun '(v, rs) => fine c v /\ ~ In VLegacy rs) bad.
Proof. apply run_ok, create_fine. Qed.
End Session.

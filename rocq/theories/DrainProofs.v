(** Pulling the SEIs of a session until none is left: lemmas. *)
From Verif Require Import Base BaseProofs Epb EpbProofs Nalu Crypto Types Hash Tlv EncProofs CodecSpec
  CodecProofs SeiSpec SeiProofs Signer GenProofs SignerProofs SessProofs SignSpec StepProofs RunProofs.
Local Open Scope N_scope.

Lemma run_app C a : forall b s, run C (a ++ b) s =
  do (s1, x) <- run C a s; do (s2, y) <- run C b s1; Def (s2, x ++ y).
Proof.
  induction a as [|o a IH]; intros b s.
  - cbn [app run obind]. destruct (run C b s) as [[s2 y]|u]; reflexivity.
  - cbn [app run]. destruct (exec C o s) as [[s1 x]|u]; [|reflexivity]. cbn [obind]. rewrite IH.
    destruct (run C a s1) as [[s2 y]|u]; [|reflexivity]. cbn [obind].
    destruct (run C b s2) as [[s3 z]|u]; reflexivity.
Qed.

Section Drain.
Variable C : crypto.
Hypothesis HC : crypto_ok C.

Lemma get_exact clean c s L : sinv C clean c s L ->
  holds (get_sei s true []) (fun '(s', r) => rs_code r = SV_OK /\ sinv C true c s' (tl L) /\
    g_counter (s_gop s') = g_counter (s_gop s) /\ rs_pending r = nlen (tl L) /\
    rs_sei r = (match L with [] => [] | q :: _ => fin c q end) /\ rs_size r = nlen (rs_sei r)) (fun _ => True).
Proof.
  intros HI. pose proof HI as [HS HG HCD HCL]. unfold get_sei. cbv zeta.
  pose proof (slots_len C s L HS) as SL. apply holds_bind.
  eapply holds_impl; [apply (complete_all_ok C s L HS)| |auto].
  intros [s1 st] (-> & C1 & C2 & C3 & C4 & _ & C5). cbn [is_ok svrc_eqb negb].
  assert (I1 : sinv C true c s1 L).
  { constructor; [exact C1|rewrite <- HG; apply C5|rewrite C2; exact HCD|auto]. }
  destruct (Nat.ltb_spec (r_done (s_run s1)) 1) as [HZ|HZ].
  - assert (L = []) as -> by (destruct L; [reflexivity|cbn in C4; lia]).
    cbn [holds rs_code tl rs_pending rs_sei rs_size]. split; [reflexivity|]. split; [exact I1|].
    rewrite C3. unfold nlen. rewrite SL. repeat split.
  - cbn [obind negb]. destruct L as [|q L']; [cbn in C4; lia|].
    destruct (fetch_ok C s1 [] q L' C1 C4 true) as (s2 & F1 & F2 & F3 & F4 & F5 & F6 & F7).
    cbn [length app] in F1, F6, F7. rewrite F1. cbn [obind holds rs_code rs_sei rs_pending rs_size tl].
    assert (FG : r_golden (s_run s2) = false).
    { destruct F4 as (_ & _ & _ & -> & _). apply I1. }
    assert (FC : sc_codec (s_cfg s2) = c) by congruence.
    split; [reflexivity|]. split; [constructor; auto|]. split; [congruence|].
    split; [unfold nlen; rewrite (slots_len C s2 L' F6); reflexivity|].
    split; [rewrite C2, HCD; reflexivity|]. reflexivity.
Qed.

Lemma drain_exact n : forall clean c s L, sinv C clean c s L -> (length L <= n)%nat ->
  holds (run C (repeat (OGet true []) n) s) (fun '(s', rs) => returned rs = map (fin c) L /\
    g_counter (s_gop s') = g_counter (s_gop s) /\
    map rs_pending rs = map (fun i => nlen L - 1 - N.of_nat i) (seq 0 n)) (fun _ => True).
Proof.
  induction n as [|n IH]; intros clean c s L HI HL.
  - destruct L; [|cbn in HL; lia]. cbn. auto.
  - cbn [repeat run exec]. apply holds_bind. eapply holds_impl; [apply (get_exact _ c s L HI)| |auto].
    intros [s1 r] (E0 & I1 & G1 & P1 & S1 & Z1). apply holds_bind.
    eapply holds_impl; [apply (IH true c s1 (tl L) I1)| |auto].
    { destruct L; cbn [length tl] in *; lia. }
    intros [s2 rs] (R2 & G2 & P2). cbn [holds]. split; [|split; [congruence|]].
    + destruct L as [|q L'].
      * rewrite returned_nil by exact S1. exact R2.
      * rewrite (returned_fin c q) by exact S1. rewrite R2. reflexivity.
    + cbn [map seq]. rewrite P1, P2. f_equal.
      * rewrite N.sub_0_r. destruct L; unfold nlen; cbn [length tl]; lia.
      * rewrite <- seq_shift, map_map. apply map_ext. intros i.
        destruct L; unfold nlen; cbn [length tl]; lia.
Qed.

Lemma session_drained c coin ops s' rs : signing_works C -> Forall (op_ok C) ops -> settled true ops ->
  Forall (fun o => o <> OPrepend) ops ->
  run C (ops ++ repeat (OGet true []) 60) (create c coin) = Def (s', rs) ->
  exists l n, returned rs = map (fun '(epb, golden, fs) => sei c epb golden fs) l /\
    Forall (fun '(epb, golden, fs) => sei_counter fs = None <-> golden = true) l /\
    somes (map (fun '(epb, golden, fs) => sei_counter fs) l) = map (fun i => N.of_nat i mod 2 ^ 32) (seq 1 n) /\
    g_counter (s_gop s') = N.of_nat n mod 2 ^ 32 /\ rs_pending (last rs (code SV_OK)) = 0.
Proof.
  intros HW HO HS HN E. rewrite run_app in E.
  pose proof (run_track C HC ops true c _ [] (create_good C HC c coin) HO HS) as H.
  destruct (run C ops (create c coin)) as [[s1 x]|u]; [|discriminate]. cbn [obind] in E.
  destruct H as (cl & L & HI & _ & F). destruct (F HN (works_no_fail C HW)) as (F1 & G & n & B1 & B2 & B3 & B4 & B5).
  cbn [app] in B1. subst G.
  pose proof (drain_exact 60 cl c s1 L HI (sg_60 _ _ _ (si_good _ _ _ _ _ HI))) as D.
  destruct (run C (repeat (OGet true []) 60) s1) as [[s2 y]|u]; [|discriminate].
  cbn [obind] in E. injection E as <- <-. destruct D as (D1 & D2 & D3).
  assert (FC : forall q, sei_counter (q_fs q ++ [q_field q]) = sei_counter (q_fs q)).
  { intros q. unfold sei_counter.
    assert (X : forall l : list (N * list N), find (fun f => fst f =? 1) (l ++ [q_field q]) = find (fun f => fst f =? 1) l).
    { induction l as [|f l IH]; [reflexivity|]. cbn [app find]. rewrite IH. reflexivity. }
    rewrite X. reflexivity. }
  set (d := fun q => (q_epb q, q_golden q, q_fs q ++ [q_field q])).
  exists (map d (F1 ++ L)), n. split; [|split; [|split; [|split]]].
  - unfold returned. rewrite map_app, filter_app. fold (returned x) (returned y).
    rewrite B2, D1, <- map_app, map_map. reflexivity.
  - apply Forall_map. eapply Forall_impl; [|exact B3].
    intros q. cbn. rewrite FC. destruct (q_golden q); intros Hq; split; intros; congruence || contradiction.
  - rewrite map_map. replace (map (fun q => let '(_, _, fs) := d q in sei_counter fs) (F1 ++ L))
      with (map (fun q => sei_counter (q_fs q)) (F1 ++ L)) by (apply map_ext; intros q; cbn; rewrite FC; reflexivity).
    rewrite B4. change (g_counter (s_gop (create c coin))) with 0.
    rewrite count_up_seq, <- seq_shift, map_map. apply map_ext. intros i. unfold u32.
    change (2 ^ 32) with 4294967296. f_equal. lia.
  - rewrite D2, B5. change (g_counter (s_gop (create c coin))) with 0.
    destruct (Nat.eqb_spec n 0) as [->|]; reflexivity.
  - assert (LY : length y = 60%nat).
    { rewrite <- (map_length rs_pending), D3, map_length, seq_length. reflexivity. }
    destruct y as [|y0 y'] using rev_ind; [discriminate|]. clear IHy'.
    rewrite app_assoc, last_last. rewrite map_app in D3. cbn [map] in D3.
    rewrite app_length in LY. cbn [length] in LY. assert (length y' = 59%nat) as L59 by lia.
    change (seq 0 60) with (seq 0 (59 + 1)) in D3. rewrite seq_app, map_app in D3.
    apply app_inj_tail in D3 as [_ D3]. cbn [seq map Nat.add] in D3. rewrite D3.
    pose proof (sg_60 _ _ _ (si_good _ _ _ _ _ HI)) as L60. unfold nlen. lia.
Qed.

End Drain.

(** ** Settings are locked *)
Section Locked.
Variable C : crypto.

Definition kept (s s' : signer) : Prop := r_started (s_run s) = true -> r_started (s_run s') = true.
Lemma kept_trans a b c : kept a b -> kept b c -> kept a c.
Proof. unfold kept. auto. Qed.

Lemma sign_kept s h : kept s (fst (plugin_sign C s h)).
Proof.
  unfold plugin_sign, kept.
  destruct (sc_key (s_cfg s)); [|auto]. destruct h; [auto|].
  destruct (_ <=? _)%nat; [auto|]. cbv zeta. destruct (c_sign C _ _ _) as [sig|]; [|auto].
  match goal with |- context [if ?b then _ else _] => destruct b end; [auto|]. destruct sig; auto.
Qed.
Lemma generate_kept s : holds (generate_sei C s) (fun '(s', st, p) => kept s s') (fun _ => True).
Proof.
  unfold generate_sei. destruct (_ <=? _)%nat; [cbn; unfold kept; auto|].
  destruct (build_sei s) as [[[[g st] alloc] lt] bytes].
  destruct (alloc <? nlen bytes); [exact I|]. destruct (negb _); [cbn; unfold kept; auto|].
  destruct (parse_nalu _ _ _ _); [|exact I]. cbn [obind].
  destruct (hash_and_add C _ _ _) as [[g2 st2]|]; [|exact I]. cbn [obind].
  destruct (negb _); [cbn; unfold kept; auto|].
  destruct (take_mem _ _) as [[h r]|]; [|exact I]. cbn [obind]. cbv zeta.
  match goal with |- context [plugin_sign C ?x h] => pose proof (sign_kept x h) as K end.
  destruct (plugin_sign C _ h) as [s1 st1]. cbn [fst] in K.
  destruct (is_ok st1); cbn [holds]; exact K.
Qed.
Lemma payload_kept s p : kept s (add_payload s p).
Proof. unfold add_payload, kept. destruct p; [|auto]. destruct (_ <=? _)%nat; auto. Qed.

Lemma complete_sei_kept s : holds (complete_sei s) (fun '(s', _) => kept s s') (fun _ => True).
Proof.
  unfold complete_sei, kept. destruct (r_slots (s_run s)) as [|x l]; [cbn; auto|].
  destruct (nth_error _ _) as [sl|]; [|destruct (_ <=? _)%nat; cbn; auto].
  destruct (r_sig (s_run s)), (sl_sei sl); try exact I; try (cbn [holds]; auto; fail).
  destruct (tlv_write_list _ _ _ _ _ _ _) as [[lt o] g].
  destruct (sl_alloc sl <? _); cbn; auto.
Qed.
Lemma get_kept s : kept s (fst (plugin_get s)).
Proof.
  unfold plugin_get, kept. destruct (_ || _); [auto|]. destruct (r_queue (s_run s)); [auto|].
  destruct (_ <? _)%nat; auto.
Qed.
Lemma complete_loop_kept f : forall s, holds (complete_loop f s) (fun '(s', _) => kept s s') (fun _ => True).
Proof.
  induction f as [|f IH]; intros s; cbn [complete_loop]; pose proof (get_kept s) as K;
    destruct (plugin_get s) as [s1 b]; cbn [fst] in K; destruct (negb b); try exact K; try exact I.
  apply holds_bind. eapply holds_impl; [apply complete_sei_kept| |auto]. intros [s2 st] K2.
  destruct (is_ok st); [|cbn; eapply kept_trans; eassumption].
  eapply holds_impl; [apply IH| |auto]. intros [s3 st3] K3. eapply kept_trans; [exact K|]. eapply kept_trans; eassumption.
Qed.
Lemma fetch_kept s i w : holds (fetch s i w) (fun '(s', _, _) => kept s s') (fun _ => True).
Proof.
  unfold fetch, kept. destruct (nth_error _ _) as [sl|]; [|exact I]. destruct (negb w); [cbn; auto|].
  destruct (sl_sei sl); try exact I. destruct (take_mem _ _) as [[b r]|]; cbn; auto.
Qed.
Lemma latest_kept s w : holds (get_latest s w) (fun '(s', _) => kept s s') (fun _ => True).
Proof.
  unfold get_latest. apply holds_bind. eapply holds_impl; [apply complete_loop_kept| |auto]. intros [s1 st] K1.
  destruct (negb _); [exact K1|]. destruct (_ <? _)%nat; [exact K1|].
  apply holds_bind. eapply holds_impl; [apply fetch_kept| |auto]. intros [[s2 b] z] K2. cbn.
  eapply kept_trans; eassumption.
Qed.

Lemma prepare_kept s : kept s (fst (prepare s)) /\ (snd (prepare s) = SV_OK -> r_started (s_run (fst (prepare s))) = true).
Proof.
  unfold prepare, kept. destruct (sc_key (s_cfg s)); [|cbn; split; [auto|discriminate]].
  destruct (_ && _); cbn; auto.
Qed.

Lemma close_kept s n ts : holds (close_gop C s n ts) (fun '(s', _) => kept s s') (fun _ => True).
Proof.
  unfold close_gop. destruct (_ && _); [|cbn; unfold kept; auto]. apply holds_bind.
  assert (G : holds
    (if r_gen (s_run s)
     then
      let s := match ts with Some t => on_gop (set_g_ts (Some t)) s | None => s end in
      let '(h, st, v) := finalize_hash C true (k_handle (g_h (s_gop s))) in
      let g := s_gop s in
      let g := set_g_h (set_k_handle h (g_h g)) g in
      if negb (is_ok st) then Def (set_s_gop g s, st)
      else
       do comp <- put_mem (g_computed g) v;
       do (s, st, p) <- generate_sei C (set_s_gop (set_g_computed comp g) s);
       if is_ok st then Def (add_payload s p, SV_OK) else Def (s, st)
     else Def (s, SV_OK)) (fun '(s', _) => kept s s') (fun _ => True)).
  { destruct (r_gen (s_run s)); [|cbn; unfold kept; auto]. cbv zeta.
    set (s1 := match ts with Some t => _ | None => s end).
    assert (K1 : kept s s1) by (unfold s1, kept; destruct ts; auto). clearbody s1.
    destruct (finalize_hash C true _) as [[h st] v]. destruct (negb _); [cbn; exact K1|].
    destruct (put_mem _ _) as [comp|]; [|exact I]. cbn [obind]. apply holds_bind.
    eapply holds_impl; [apply generate_kept| |auto]. intros [[s2 st2] p] K2.
    assert (K3 : kept s s2) by (eapply kept_trans; [exact K1|]; exact K2).
    destruct (is_ok st2); cbn [holds]; [|exact K3]. eapply kept_trans; [exact K3|apply payload_kept]. }
  eapply holds_impl; [exact G| |auto]. intros [s1 st] K1. destruct (is_ok st); exact K1.
Qed.

Lemma add_kept s d ts last : holds (add_part C s d ts last)
  (fun '(s', st) => kept s s' /\ (st = SV_OK -> r_started (s_run s') = true)) (fun _ => True).
Proof.
  unfold add_part. destruct d as [|b d]; [cbn; split; [unfold kept; auto|discriminate]|].
  set (data := b :: d). clearbody data. apply holds_bind.
  assert (T : holds (take_part s data last) (fun '(s', n) => kept s s') (fun _ => True)).
  { unfold take_part. destruct (n_last_part _).
    - destruct (parse_nalu _ _ _ _); cbn; unfold kept; auto.
    - destruct last; [destruct (strip_trailing data)|]; cbn; unfold kept; auto. }
  eapply holds_impl; [exact T| |auto]. intros [s1 n] K1.
  destruct (prepare_kept s1) as [K2 P2]. destruct (prepare s1) as [s2 st]. cbn [fst snd] in K2, P2.
  assert (K12 : kept s s2) by (eapply kept_trans; eassumption).
  destruct (is_ok st) eqn:ES; cbn [negb].
  2:{ cbn. split; [exact K12|]. intros ->. discriminate. }
  apply is_ok_eq in ES. subst st. specialize (P2 eq_refl).
  assert (G : forall (x : out (signer * svrc)), holds x (fun '(s', st) => kept s2 s') (fun _ => True) ->
    holds x (fun '(s', st) => kept s s' /\ (st = SV_OK -> r_started (s_run s') = true)) (fun _ => True)).
  { intros x Hx. eapply holds_impl; [exact Hx| |auto]. intros [s' st'] K. split; [eapply kept_trans; eassumption|auto]. }
  apply G. destruct (n_valid n <? 0)%Z; [cbn; unfold kept; auto|]. apply holds_bind.
  assert (CF : holds (count_frame s2 n) (fun s' => kept s2 s') (fun _ => True)).
  { unfold count_frame. destruct (_ && _); [|cbn; unfold kept; auto]. cbv zeta.
    match goal with |- context [(?x =? 2147483647)%Z] => destruct (x =? 2147483647)%Z end; [exact I|].
    cbn [holds]. unfold kept. match goal with |- context [if ?b then _ else _] => destruct b end; auto. }
  eapply holds_impl; [exact CF| |auto]. intros s3 K3. apply holds_bind.
  eapply holds_impl; [apply close_kept| |auto]. intros [s4 st4] K4.
  assert (K24 : kept s2 s4) by (eapply kept_trans; eassumption).
  destruct (negb _); [exact K24|]. destruct (hash_and_add C _ _ _) as [[g st5]|]; [|exact I]. cbn [obind]. cbv zeta.
  destruct (negb _); [exact K24|]. destruct (_ && _); [|exact K24].
  destruct (take_mem _ _) as [[h r]|]; [|exact I]. cbn [obind].
  destruct (shift_linked _ _ _); [|exact I]. exact K24.
Qed.

Lemma exec_kept o s : o <> OReset -> holds (exec C o s) (fun '(s', _) => kept s s') (fun _ => True).
Proof.
  intros HO. destruct o; try contradiction; cbn [exec].
  - apply holds_bind. eapply holds_impl; [apply add_kept| |auto]. intros [s1 st] [K _]. exact K.
  - unfold get_sei. apply holds_bind. eapply holds_impl; [apply complete_loop_kept| |auto]. intros [s1 st] K1.
    destruct (negb _); [exact K1|]. destruct (_ <? _)%nat; [exact K1|].
    destruct (match peek with [] => _ | _ => _ end) as [show|]; [|exact I]. cbn [obind].
    destruct (negb show); [exact K1|]. apply holds_bind.
    eapply holds_impl; [apply fetch_kept| |auto]. intros [[s2 b] z] K2. cbn. eapply kept_trans; eassumption.
  - unfold get_prepend. apply holds_bind. eapply holds_impl; [apply latest_kept| |auto]. intros [s1 r] K1.
    destruct (_ && _); [|exact K1]. eapply holds_impl; [apply latest_kept| |auto]. intros [s2 r2] K2.
    eapply kept_trans; eassumption.
  - apply holds_bind. unfold end_of_stream. destruct (prepare_kept s) as [K1 _].
    destruct (prepare s) as [s1 st]. cbn [fst] in K1. destruct (negb _); [exact K1|]. apply holds_bind.
    eapply holds_impl; [apply generate_kept| |auto]. intros [[s2 st2] p] K2.
    destruct (negb _); [cbn; eapply kept_trans; eassumption|].
    eapply holds_impl; [apply complete_loop_kept| |auto]. intros [s3 st3] K3. cbn.
    eapply kept_trans; [exact K1|]. eapply kept_trans; [exact K2|]. eapply kept_trans; [apply payload_kept|exact K3].
  - apply holds_bind. unfold golden_sei. cbv zeta. set (s0 := on_cfg _ _).
    assert (K0 : kept s s0) by (unfold kept, s0; auto). clearbody s0.
    destruct (prepare_kept s0) as [K1 _].
    destruct (prepare s0) as [s1 st]. cbn [fst] in K1. apply holds_bind.
    assert (K01 : kept s s1) by (eapply kept_trans; eassumption).
    assert (G : holds (if negb (is_ok st) then Def (s1, st)
       else do (s', st, p) <- generate_sei C s1; if is_ok st then Def (add_payload s' p, SV_OK) else Def (s', st))
      (fun '(s', _) => kept s s') (fun _ => True)).
    { destruct (negb _); [exact K01|]. apply holds_bind. eapply holds_impl; [apply generate_kept| |auto].
      intros [[s2 st2] p] K2. assert (K02 : kept s s2) by (eapply kept_trans; eassumption).
      destruct (is_ok st2); [|exact K02]. eapply kept_trans; [exact K02|apply payload_kept]. }
    eapply holds_impl; [exact G| |auto]. intros [s2 st2] K2. exact K2.
  - cbn. unfold set_private_key, kept. destruct pem; [auto|]. destruct (c_priv C _) as [[pub [|m]]|]; auto.
    destruct pub; auto.
  - cbn. unfold kept. auto.
  - cbn. unfold kept. auto.
  - destruct l; cbn; unfold kept; auto.
  - destruct (_ <? _); cbn; unfold kept; auto.
  - cbn. unfold kept. auto.
  - destruct (r_started _); cbn; unfold kept; auto.
  - cbn. unfold kept. auto.
  - cbn. unfold set_hash, kept. destruct (r_started _) eqn:E; cbn; [auto|]. discriminate.
Qed.

Lemma run_kept ops : Forall (fun o => o <> OReset) ops -> forall s s' rs, run C ops s = Def (s', rs) -> kept s s'.
Proof.
  induction 1 as [|o ops HO _ IH]; intros s s' rs E; cbn [run] in E.
  - injection E as <- <-. unfold kept. auto.
  - pose proof (exec_kept o s HO) as K. destruct (exec C o s) as [[s1 x]|]; [|discriminate]. cbn [obind] in E.
    destruct (run C ops s1) as [[s2 l]|] eqn:ER; [|discriminate]. injection E as <- <-.
    eapply kept_trans; [exact K|]. eapply IH, ER.
Qed.

Lemma settings_locked s0 d ts last s1 r ops s2 rs : exec C (OAdd d ts last) s0 = Def (s1, r) ->
  rs_code r = SV_OK -> Forall (fun o => o <> OReset) ops -> run C ops s1 = Def (s2, rs) ->
  forall name b, exec C (OHashAlgo name) s2 = Def (s2, code SV_NOT_SUPPORTED) /\
    exec C (OUsingGolden b) s2 = Def (s2, code SV_NOT_SUPPORTED).
Proof.
  intros E HR HO ER name b. cbn [exec] in E. pose proof (add_kept s0 d ts last) as K.
  destruct (add_part C s0 d ts last) as [[s st]|]; [|discriminate]. cbn in E. injection E as <- <-.
  destruct K as [_ K]. specialize (K HR). pose proof (run_kept ops HO s s2 rs ER K) as K2.
  cbn [exec]. unfold set_hash. rewrite K2. split; reflexivity.
Qed.
End Locked.

(** Proofs for C14: adding a NALU again after it was refused. *)
From Coq Require Import ZArith List Bool Lia.
From Verif Require Import Base BaseProofs Nalu Crypto Types Hash Tlv TlvProofs Signer SignerProofs SessProofs SignSpec PartsSpec
  StepProofs RunProofs DrainProofs PartsProofs.
Import ListNotations.
Local Open Scope N_scope.

Section Retry.
Variable C : crypto.

(** ** The flag that switches the check off is only set when peeking *)
Definition free (s s' : signer) : Prop := r_avoid (s_run s) = false -> r_avoid (s_run s') = false.
Lemma free_trans a b c : free a b -> free b c -> free a c.
Proof. unfold free. auto. Qed.

Lemma sign_free s h : free s (fst (plugin_sign C s h)).
Proof.
  unfold plugin_sign, free.
  destruct (sc_key (s_cfg s)); [|auto]. destruct h; [auto|].
  destruct (_ <=? _)%nat; [auto|]. cbv zeta. destruct (c_sign C _ _ _) as [sig|]; [|auto].
  match goal with |- context [if ?b then _ else _] => destruct b end; [auto|]. destruct sig; auto.
Qed.
Lemma generate_free s : holds (generate_sei C s) (fun '(s', st, p) => free s s') (fun _ => True).
Proof.
  unfold generate_sei. destruct (_ <=? _)%nat; [cbn; unfold free; auto|].
  destruct (build_sei s) as [[[[g st] alloc] lt] bytes].
  destruct (alloc <? nlen bytes); [exact I|]. destruct (negb _); [cbn; unfold free; auto|].
  destruct (parse_nalu _ _ _ _); [|exact I]. cbn [obind].
  destruct (hash_and_add C _ _ _) as [[g2 st2]|]; [|exact I]. cbn [obind].
  destruct (negb _); [cbn; unfold free; auto|].
  destruct (take_mem _ _) as [[h r]|]; [|exact I]. cbn [obind]. cbv zeta.
  match goal with |- context [plugin_sign C ?x h] => pose proof (sign_free x h) as K end.
  destruct (plugin_sign C _ h) as [s1 st1]. cbn [fst] in K.
  destruct (is_ok st1); cbn [holds]; exact K.
Qed.
Lemma payload_free s p : free s (add_payload s p).
Proof. unfold add_payload, free. destruct p; [|auto]. destruct (_ <=? _)%nat; auto. Qed.

Lemma complete_sei_free s : holds (complete_sei s) (fun '(s', _) => free s s') (fun _ => True).
Proof.
  unfold complete_sei, free. destruct (r_slots (s_run s)) as [|x l]; [cbn; auto|].
  destruct (nth_error _ _) as [sl|]; [|destruct (_ <=? _)%nat; cbn; auto].
  destruct (r_sig (s_run s)), (sl_sei sl); try exact I; try (cbn [holds]; auto; fail).
  destruct (tlv_write_list _ _ _ _ _ _ _) as [[lt o] g].
  destruct (sl_alloc sl <? _); cbn; auto.
Qed.
Lemma get_free s : free s (fst (plugin_get s)).
Proof.
  unfold plugin_get, free. destruct (_ || _); [auto|]. destruct (r_queue (s_run s)); [auto|].
  destruct (_ <? _)%nat; auto.
Qed.
Lemma complete_loop_free f : forall s, holds (complete_loop f s) (fun '(s', _) => free s s') (fun _ => True).
Proof.
  induction f as [|f IH]; intros s; cbn [complete_loop]; pose proof (get_free s) as K;
    destruct (plugin_get s) as [s1 b]; cbn [fst] in K; destruct (negb b); try exact K; try exact I.
  apply holds_bind. eapply holds_impl; [apply complete_sei_free| |auto]. intros [s2 st] K2.
  destruct (is_ok st); [|cbn; eapply free_trans; eassumption].
  eapply holds_impl; [apply IH| |auto]. intros [s3 st3] K3. eapply free_trans; [exact K|]. eapply free_trans; eassumption.
Qed.
Lemma fetch_free s i w : holds (fetch s i w) (fun '(s', _, _) => free s s') (fun _ => True).
Proof.
  unfold fetch, free. destruct (nth_error _ _) as [sl|]; [|exact I]. destruct (negb w); [cbn; auto|].
  destruct (sl_sei sl); try exact I. destruct (take_mem _ _) as [[b r]|]; cbn; auto.
Qed.
Lemma latest_free s w : holds (get_latest s w) (fun '(s', _) => free s s') (fun _ => True).
Proof.
  unfold get_latest. apply holds_bind. eapply holds_impl; [apply complete_loop_free| |auto]. intros [s1 st] K1.
  destruct (negb _); [exact K1|]. destruct (_ <? _)%nat; [exact K1|].
  apply holds_bind. eapply holds_impl; [apply fetch_free| |auto]. intros [[s2 b] z] K2. cbn.
  eapply free_trans; eassumption.
Qed.

Lemma prepare_free s : free s (fst (prepare s)).
Proof.
  unfold prepare, free. destruct (sc_key (s_cfg s)); [|auto].
  cbv zeta. destruct (_ && _); cbn; auto.
Qed.

Lemma close_free s n ts : holds (close_gop C s n ts) (fun '(s', _) => free s s') (fun _ => True).
Proof.
  unfold close_gop. destruct (_ && _); [|cbn; unfold free; auto]. apply holds_bind.
  assert (G : holds
    (if r_gen (s_run s)
     then
      let s := match ts with Some t => on_gop (set_g_ts (Some t)) s | None => s end in
      let '(h, st, v) := finalize_hash C true (k_handle (g_h (s_gop s))) in
      let g := s_gop s in
      let g := set_g_h (set_k_handle h (g_h g)) g in
      if negb (is_ok st) then Def (set_s_gop g s, st)
      else
       do comp <- put_mem (g_computed g) v;
       do (s, st, p) <- generate_sei C (set_s_gop (set_g_computed comp g) s);
       if is_ok st then Def (add_payload s p, SV_OK) else Def (s, st)
     else Def (s, SV_OK)) (fun '(s', _) => free s s') (fun _ => True)).
  { destruct (r_gen (s_run s)); [|cbn; unfold free; auto]. cbv zeta.
    set (s1 := match ts with Some t => _ | None => s end).
    assert (K1 : free s s1) by (unfold s1, free; destruct ts; auto). clearbody s1.
    destruct (finalize_hash C true _) as [[h st] v]. destruct (negb _); [cbn; exact K1|].
    destruct (put_mem _ _) as [comp|]; [|exact I]. cbn [obind]. apply holds_bind.
    eapply holds_impl; [apply generate_free| |auto]. intros [[s2 st2] p] K2.
    assert (K3 : free s s2) by (eapply free_trans; [exact K1|]; exact K2).
    destruct (is_ok st2); cbn [holds]; [|exact K3]. eapply free_trans; [exact K3|apply payload_free]. }
  eapply holds_impl; [exact G| |auto]. intros [s1 st] K1. destruct (is_ok st); exact K1.
Qed.

Lemma add_free s d ts last : holds (add_part C s d ts last)
  (fun '(s', st) => free s s') (fun _ => True).
Proof.
  unfold add_part. destruct d as [|b d]; [cbn; unfold free; auto|].
  set (data := b :: d). clearbody data. apply holds_bind.
  assert (T : holds (take_part s data last) (fun '(s', n) => free s s') (fun _ => True)).
  { unfold take_part. destruct (n_last_part _).
    - destruct (parse_nalu _ _ _ _); cbn; unfold free; auto.
    - destruct last; [destruct (strip_trailing data)|]; cbn; unfold free; auto. }
  eapply holds_impl; [exact T| |auto]. intros [s1 n] K1.
  pose proof (prepare_free s1) as K2. destruct (prepare s1) as [s2 st]. cbn [fst] in K2.
  assert (K12 : free s s2) by (eapply free_trans; eassumption).
  destruct (is_ok st) eqn:ES; cbn [negb].
  2:{ exact K12. }
  clear ES.
  assert (G : forall (x : out (signer * svrc)), holds x (fun '(s', st) => free s2 s') (fun _ => True) ->
    holds x (fun '(s', st) => free s s') (fun _ => True)).
  { intros x Hx. eapply holds_impl; [exact Hx| |auto]. intros [s' st'] K. eapply free_trans; eassumption. }
  apply G. destruct (n_valid n <? 0)%Z; [cbn; unfold free; auto|]. apply holds_bind.
  assert (CF : holds (count_frame s2 n) (fun s' => free s2 s') (fun _ => True)).
  { unfold count_frame. destruct (_ && _); [|cbn; unfold free; auto]. cbv zeta.
    match goal with |- context [(?x =? 2147483647)%Z] => destruct (x =? 2147483647)%Z end; [exact I|].
    cbn [holds]. unfold free. match goal with |- context [if ?b then _ else _] => destruct b end; auto. }
  eapply holds_impl; [exact CF| |auto]. intros s3 K3. apply holds_bind.
  eapply holds_impl; [apply close_free| |auto]. intros [s4 st4] K4.
  assert (K24 : free s2 s4) by (eapply free_trans; eassumption).
  destruct (negb _); [exact K24|]. destruct (hash_and_add C _ _ _) as [[g st5]|]; [|exact I]. cbn [obind]. cbv zeta.
  destruct (negb _); [exact K24|]. destruct (_ && _); [|exact K24].
  destruct (take_mem _ _) as [[h r]|]; [|exact I]. cbn [obind].
  destruct (shift_linked _ _ _); [|exact I]. exact K24.
Qed.

Lemma exec_free o s : ~ peeks o -> holds (exec C o s) (fun '(s', _) => free s s') (fun _ => True).
Proof.
  intros HO. destruct o; cbn [exec].
  - apply holds_bind. eapply holds_impl; [apply add_free| |auto]. intros [s1 st] K. exact K.
  - unfold get_sei. apply holds_bind. eapply holds_impl; [apply complete_loop_free| |auto]. intros [s1 st] K1.
    destruct (negb _); [exact K1|]. destruct (_ <? _)%nat; [exact K1|].
    destruct peek; [|exfalso; apply HO; exact I]. cbn [obind negb]. apply holds_bind.
    eapply holds_impl; [apply fetch_free| |auto]. intros [[s2 b] z] K2. cbn. eapply free_trans; eassumption.
  - unfold get_prepend. apply holds_bind. eapply holds_impl; [apply latest_free| |auto]. intros [s1 r] K1.
    destruct (_ && _); [|exact K1]. eapply holds_impl; [apply latest_free| |auto]. intros [s2 r2] K2.
    eapply free_trans; eassumption.
  - apply holds_bind. unfold end_of_stream. pose proof (prepare_free s) as K1.
    destruct (prepare s) as [s1 st]. cbn [fst] in K1. destruct (negb _); [exact K1|]. apply holds_bind.
    eapply holds_impl; [apply generate_free| |auto]. intros [[s2 st2] p] K2.
    destruct (negb _); [cbn; eapply free_trans; eassumption|].
    eapply holds_impl; [apply complete_loop_free| |auto]. intros [s3 st3] K3. cbn.
    eapply free_trans; [exact K1|]. eapply free_trans; [exact K2|]. eapply free_trans; [apply payload_free|exact K3].
  - apply holds_bind. unfold golden_sei. cbv zeta. set (s0 := on_cfg _ _).
    assert (K0 : free s s0) by (unfold free, s0; auto). clearbody s0.
    pose proof (prepare_free s0) as K1.
    destruct (prepare s0) as [s1 st]. cbn [fst] in K1. apply holds_bind.
    assert (K01 : free s s1) by (eapply free_trans; eassumption).
    assert (G : holds (if negb (is_ok st) then Def (s1, st)
       else do (s', st, p) <- generate_sei C s1; if is_ok st then Def (add_payload s' p, SV_OK) else Def (s', st))
      (fun '(s', _) => free s s') (fun _ => True)).
    { destruct (negb _); [exact K01|]. apply holds_bind. eapply holds_impl; [apply generate_free| |auto].
      intros [[s2 st2] p] K2. assert (K02 : free s s2) by (eapply free_trans; eassumption).
      destruct (is_ok st2); [|exact K02]. eapply free_trans; [exact K02|apply payload_free]. }
    eapply holds_impl; [exact G| |auto]. intros [s2 st2] K2. exact K2.
  - cbn. unfold free, reset. auto.
  - cbn. unfold set_private_key, free. destruct pem; [auto|]. destruct (c_priv C _) as [[pub [|m]]|]; auto.
    destruct pub; auto.
  - cbn. unfold free. auto.
  - cbn. unfold free. auto.
  - destruct l; cbn; unfold free; auto.
  - destruct (_ <? _); cbn; unfold free; auto.
  - cbn. unfold free. auto.
  - destruct (r_started _); cbn; unfold free; auto.
  - cbn. unfold free. auto.
  - cbn. unfold set_hash, free. destruct (r_started _); cbn; [auto|].
    destruct (set_hash_algo C _ _) as [h st]. destruct (negb _); [auto|]. destruct (_ || _); auto.
Qed.

Lemma run_free ops : Forall (fun o => ~ peeks o) ops -> forall s s' rs, run C ops s = Def (s', rs) -> free s s'.
Proof.
  induction 1 as [|o ops HO _ IH]; intros s s' rs E; cbn [run] in E.
  - injection E as <- <-. unfold free. auto.
  - pose proof (exec_free o s HO) as K. destruct (exec C o s) as [[s1 x]|]; [|discriminate]. cbn [obind] in E.
    destruct (run C ops s1) as [[s2 l]|] eqn:ER; [|discriminate]. injection E as <- <-.
    eapply free_trans; [exact K|]. eapply IH, ER.
Qed.


(** ** Fetching does not look at signing_started, and leaves the settings alone *)
Definition St (s : signer) : signer := on_run (set_r_started true) s.

Lemma pget_St s : plugin_get (St s) = let '(s, b) := plugin_get s in (St s, b).
Proof.
  unfold plugin_get. change (s_cfg (St s)) with (s_cfg s). change (r_queue (s_run (St s))) with (r_queue (s_run s)).
  destruct (_ || _); [reflexivity|]. destruct (r_queue (s_run s)); [reflexivity|]. destruct (_ <? _)%nat; reflexivity.
Qed.
Lemma complete_St s : complete_sei (St s) = omap (fun '(s, st) => (St s, st)) (complete_sei s).
Proof.
  unfold complete_sei. cbv zeta. change (r_slots (s_run (St s))) with (r_slots (s_run s)).
  change (r_done (s_run (St s))) with (r_done (s_run s)). change (r_sig (s_run (St s))) with (r_sig (s_run s)).
  change (s_cfg (St s)) with (s_cfg s). change (s_gop (St s)) with (s_gop s).
  change (r_recurrent (s_run (St s))) with (r_recurrent (s_run s)).
  destruct (r_slots (s_run s)) as [|s0 sl]; [reflexivity|].
  destruct (nth_error _ _) as [q|]; [|destruct (_ <=? _)%nat; reflexivity].
  destruct (r_sig (s_run s)) as [|b sg]; destruct (sl_sei q); try reflexivity.
  destruct (tlv_write_list _ _ _ _ _ _ _) as [[lt o] g].
  match goal with |- context [if ?b then Undef _ else _] => destruct b end; reflexivity.
Qed.
Lemma loop_St f : forall s, complete_loop f (St s) = omap (fun '(s, st) => (St s, st)) (complete_loop f s).
Proof.
  induction f as [|f IH]; intros s; cbn [complete_loop]; rewrite pget_St; destruct (plugin_get s) as [s1 got];
    destruct got; cbn [negb]; try reflexivity.
  rewrite complete_St. unfold omap. rewrite !obind_assoc. destruct (complete_sei s1) as [[s2 st]|]; [|reflexivity].
  cbn [obind]. destruct (is_ok st); [apply IH|reflexivity].
Qed.
Lemma all_St s : complete_all (St s) = omap (fun '(s, st) => (St s, st)) (complete_all s).
Proof. apply loop_St. Qed.
Lemma fetch_St s i w : fetch (St s) i w = omap (fun '(s, b, n) => (St s, b, n)) (fetch s i w).
Proof.
  unfold fetch. change (r_slots (s_run (St s))) with (r_slots (s_run s)).
  destruct (nth_error _ _) as [q|]; [|reflexivity]. destruct w; cbn [negb]; [|reflexivity].
  destruct (sl_sei q); try reflexivity. destruct (take_mem _ _) as [[? ?]|]; reflexivity.
Qed.
Lemma get_St s w p : get_sei (St s) w p = omap (fun '(s, r) => (St s, r)) (get_sei s w p).
Proof.
  unfold get_sei. change (r_slots (s_run (St s))) with (r_slots (s_run s)). cbv zeta.
  rewrite all_St. unfold omap. rewrite !obind_assoc. destruct (complete_all s) as [[s1 st]|]; [|reflexivity]. cbn [obind].
  destruct (negb (is_ok st)); [reflexivity|].
  change (r_done (s_run (St s1))) with (r_done (s_run s1)).
  match goal with |- context [if ?b then _ else _] => destruct b end; [reflexivity|].
  change (s_cfg (St s1)) with (s_cfg s1).
  rewrite obind_assoc.
  match goal with |- obind ?a _ = obind ?a _ => destruct a as [show|]; [|reflexivity] end. cbn [obind].
  destruct show; cbn [negb]; [|reflexivity]. rewrite fetch_St. unfold omap. rewrite !obind_assoc.
  destruct (fetch s1 0 w) as [[[s2 b] n]|]; reflexivity.
Qed.
Lemma latest_St s w : get_latest (St s) w = omap (fun '(s, r) => (St s, r)) (get_latest s w).
Proof.
  unfold get_latest.
  rewrite all_St. unfold omap. rewrite !obind_assoc. destruct (complete_all s) as [[s1 st]|]; [|reflexivity]. cbn [obind].
  destruct (negb (is_ok st)); [reflexivity|].
  change (r_done (s_run (St s1))) with (r_done (s_run s1)).
  match goal with |- context [if ?b then _ else _] => destruct b end; [reflexivity|].
  rewrite fetch_St. unfold omap. rewrite !obind_assoc.
  destruct (fetch s1 _ w) as [[[s2 b] n]|]; reflexivity.
Qed.
Lemma prepend_St s : get_prepend (St s) = omap (fun '(s, r) => (St s, r)) (get_prepend s).
Proof.
  unfold get_prepend. rewrite latest_St. unfold omap. rewrite !obind_assoc.
  destruct (get_latest s false) as [[s1 r]|]; [|reflexivity]. cbn [obind].
  destruct (_ && _); [|reflexivity]. apply latest_St.
Qed.

Definition cfg_same (s s' : signer) : Prop := s_cfg s' = s_cfg s.
Lemma complete_cfg s : holds (complete_sei s) (fun '(s', _) => cfg_same s s') (fun _ => True).
Proof.
  unfold complete_sei, cfg_same. destruct (r_slots (s_run s)) as [|x l]; [cbn; auto|].
  destruct (nth_error _ _) as [sl|]; [|destruct (_ <=? _)%nat; cbn; auto].
  destruct (r_sig (s_run s)), (sl_sei sl); try exact I; try (cbn [holds]; auto; fail).
  destruct (tlv_write_list _ _ _ _ _ _ _) as [[lt o] g].
  destruct (sl_alloc sl <? _); cbn; auto.
Qed.
Lemma pget_cfg s : cfg_same s (fst (plugin_get s)).
Proof.
  unfold plugin_get, cfg_same. destruct (_ || _); [auto|]. destruct (r_queue (s_run s)); [auto|].
  destruct (_ <? _)%nat; auto.
Qed.
Lemma cfg_same_trans a b c : cfg_same a b -> cfg_same b c -> cfg_same a c.
Proof. unfold cfg_same. congruence. Qed.
Lemma loop_cfg f : forall s, holds (complete_loop f s) (fun '(s', _) => cfg_same s s') (fun _ => True).
Proof.
  induction f as [|f IH]; intros s; cbn [complete_loop]; pose proof (pget_cfg s) as K;
    destruct (plugin_get s) as [s1 b]; cbn [fst] in K; destruct (negb b); try exact K; try exact I.
  apply holds_bind. eapply holds_impl; [apply complete_cfg| |auto]. intros [s2 st] K2.
  destruct (is_ok st); [|cbn; eapply cfg_same_trans; eassumption].
  eapply holds_impl; [apply IH| |auto]. intros [s3 st3] K3. eapply cfg_same_trans; [exact K|]. eapply cfg_same_trans; eassumption.
Qed.
Lemma fetch_cfg s i w : holds (fetch s i w) (fun '(s', _, _) => cfg_same s s') (fun _ => True).
Proof.
  unfold fetch, cfg_same. destruct (nth_error _ _) as [sl|]; [|exact I]. destruct (negb w); [cbn; auto|].
  destruct (sl_sei sl); try exact I. destruct (take_mem _ _) as [[b r]|]; cbn; auto.
Qed.
Lemma latest_cfg s w : holds (get_latest s w) (fun '(s', _) => cfg_same s s') (fun _ => True).
Proof.
  unfold get_latest. apply holds_bind. eapply holds_impl; [apply loop_cfg| |auto]. intros [s1 st] K1.
  destruct (negb _); [exact K1|]. destruct (_ <? _)%nat; [exact K1|].
  apply holds_bind. eapply holds_impl; [apply fetch_cfg| |auto]. intros [[s2 b] z] K2. cbn.
  eapply cfg_same_trans; eassumption.
Qed.
Lemma pull_cfg o s : is_pull o -> holds (exec C o s) (fun '(s', _) => cfg_same s s') (fun _ => True).
Proof.
  intros HO. destruct o; try contradiction; cbn [exec].
  - unfold get_sei. apply holds_bind. eapply holds_impl; [apply loop_cfg| |auto]. intros [s1 st] K1.
    destruct (negb _); [exact K1|]. destruct (_ <? _)%nat; [exact K1|].
    destruct (match peek with [] => _ | _ => _ end) as [show|]; [|exact I]. cbn [obind].
    destruct (negb show); [exact K1|]. apply holds_bind.
    eapply holds_impl; [apply fetch_cfg| |auto]. intros [[s2 b] z] K2. cbn. eapply cfg_same_trans; eassumption.
  - unfold get_prepend. apply holds_bind. eapply holds_impl; [apply latest_cfg| |auto]. intros [s1 r] K1.
    destruct (_ && _); [|exact K1]. eapply holds_impl; [apply latest_cfg| |auto]. intros [s2 r2] K2.
    eapply cfg_same_trans; eassumption.
Qed.

Lemma pull_St o s : is_pull o -> exec C o (St s) = omap (fun '(s, r) => (St s, r)) (exec C o s).
Proof. intros HO. destruct o; try contradiction; cbn [exec]; [apply get_St|apply prepend_St]. Qed.

(** A run of fetches behaves the same on the touched state. *)
Definition touch (x : option mdctx) (l : nalu) (s : signer) : signer := St (Us x l s).
Lemma pulls_touch ps : Forall is_pull ps -> forall x l s s' rs, run C ps s = Def (s', rs) ->
  run C ps (touch x l s) = Def (touch x l s', rs) /\ s_cfg s' = s_cfg s /\ r_last (s_run s') = r_last (s_run s) /\
  h_sec (k_handle (g_h (s_gop s'))) = h_sec (k_handle (g_h (s_gop s))).
Proof.
  induction 1 as [|o ps HO _ IH]; intros x l s s' rs E; cbn [run] in E |- *.
  - injection E as <- <-. auto.
  - assert (HO' : match o with OAdd _ _ _ | OReset | OHashAlgo _ => False | _ => True end) by (destruct o; try contradiction; exact I).
    destruct (exec C o s) as [[s1 r]|] eqn:EX; [|discriminate]. cbn [obind] in E.
    destruct (run C ps s1) as [[s2 rs0]|] eqn:ER; [|discriminate]. injection E as <- <-.
    destruct (IH x l _ _ _ ER) as (R & E1 & E2 & E3).
    pose proof (pull_cfg o s HO) as HC. rewrite EX in HC. cbn [holds] in HC.
    destruct (U_keeps (exec C o) (exec_U C o HO') _ _ _ EX) as [G1 G2]. unfold lkept in G1. unfold cfg_same in HC.
    unfold touch. rewrite (pull_St o _ HO), (exec_U C o HO'), EX. unfold omap. cbn [obind]. unfold touch in R. rewrite R.
    cbn [obind]. split; [reflexivity|]. split; [congruence|]. split; congruence.
Qed.

(** ** Which NALU is unfinished *)
Lemma add_part_lp s d ts last s1 st : d <> [] -> add_part C s d ts last = Def (s1, st) -> lp s1 = last.
Proof.
  intros HD H. rewrite add_part_rest in H by exact HD.
  destruct (take_part s d last) as [[s2 n]|] eqn:ET; [|discriminate]. cbn [obind] in H.
  assert (HL2 : lp s2 = last).
  { unfold take_part in ET. destruct (n_last_part _).
    - destruct (parse_nalu _ _ _ _); [|discriminate]. cbn [obind] in ET. injection ET as <- <-. reflexivity.
    - destruct (if last then _ else _); [|discriminate]. cbn [obind] in ET. injection ET as <- <-. reflexivity. }
  unfold add_rest in H.
  assert (HP : lp (fst (prepare s2)) = lp s2).
  { clear. unfold prepare, lp. destruct (sc_key _); [|reflexivity]. cbv zeta. destruct (_ && _); reflexivity. }
  destruct (prepare s2) as [s3 st3]. cbn [fst] in HP.
  assert (H3 : lp s3 = last) by congruence.
  destruct (negb (is_ok st3)); [injection H as <- <-; exact H3|].
  destruct (_ <? 0)%Z; [injection H as <- <-; exact H3|].
  destruct (count_frame s3 n) as [s4|] eqn:ECF; [|discriminate]. cbn [obind] in H.
  assert (H4 : lp s4 = last).
  { rewrite <- H3. unfold count_frame in ECF. destruct (_ && _); [|injection ECF as <-; reflexivity]. cbv zeta in ECF.
    match type of ECF with (if ?b then _ else _) = _ => destruct b end; [discriminate|]. injection ECF as <-.
    unfold lp. match goal with |- context [if ?b then _ else _] => destruct b end; reflexivity. }
  destruct (close_gop C s4 n ts) as [[s5 st5]|] eqn:ECG; [|discriminate]. cbn [obind] in H.
  destruct (U_keeps (fun s => close_gop C s n ts) (fun x l s => close_U C x l s n ts) _ _ _ ECG) as [G5 _].
  assert (H5 : lp s5 = last) by (unfold lp; rewrite G5; exact H4).
  destruct (negb (is_ok st5)); [injection H as <- <-; exact H5|].
  destruct (hash_and_add C _ _ _) as [[g st6]|]; [|discriminate]. cbn [obind] in H. cbv zeta in H.
  destruct (negb (is_ok st6)); [injection H as <- <-; exact H5|].
  destruct (_ && _); [|injection H as <- <-; exact H5].
  destruct (take_mem _ _) as [[h q]|]; [|discriminate]. cbn [obind] in H.
  destruct (shift_linked _ _ _); [|discriminate]. cbn [obind] in H. injection H as <- <-. exact H5.
Qed.

Lemma run_length ops : forall s s' rs, run C ops s = Def (s', rs) -> length rs = length ops.
Proof.
  induction ops as [|o ops IH]; intros s s' rs E; cbn [run] in E.
  - injection E as <- <-. reflexivity.
  - destruct (exec C o s) as [[s1 r]|]; [|discriminate]. cbn [obind] in E.
    destruct (run C ops s1) as [[s2 rs0]|] eqn:ER; [|discriminate]. injection E as <- <-. cbn [length]. rewrite (IH _ _ _ ER). reflexivity.
Qed.

Lemma finished_run ops : forall s s' rs, run C ops s = Def (s', rs) -> lp s' = finished (lp s) ops.
Proof.
  induction ops as [|o ops IH]; intros s s' rs E; cbn [run] in E.
  - injection E as <- <-. reflexivity.
  - destruct (exec C o s) as [[s1 r]|] eqn:EX; [|discriminate]. cbn [obind] in E.
    destruct (run C ops s1) as [[s2 rs0]|] eqn:ER; [|discriminate]. injection E as <- <-.
    rewrite (IH _ _ _ ER). clear IH ER.
    destruct o; try (
      match type of EX with exec C ?o s = _ => destruct (U_keeps (exec C o) (exec_U C o I) _ _ _ EX) as [G _] end;
      unfold lp; rewrite G; reflexivity).
    + destruct data as [|b d]; cbn [finished].
      { cbn in EX. injection EX as <- <-. reflexivity. }
      cbn [exec] in EX. destruct (add_part C s (b :: d) ts last) as [[s3 st]|] eqn:EA; [|discriminate].
      cbn in EX. injection EX as <- <-. assert (ND : b :: d <> []) by discriminate. rewrite (add_part_lp _ _ _ _ _ _ ND EA). reflexivity.
    + cbn in EX. injection EX as <- <-. reflexivity.
    + cbn [exec] in EX. injection EX as <- <-. assert (G : lp (fst (set_hash C s name)) = lp s); [|rewrite G; reflexivity].
      unfold set_hash. destruct (r_started _); [reflexivity|].
      destruct (set_hash_algo C _ _) as [h st]. destruct (negb _); [reflexivity|]. destruct (_ || _); reflexivity.
Qed.

(** ** A query that reports a SEI leaves the session waiting *)
Definition waits (s : signer) : Prop :=
  sc_key (s_cfg s) <> None /\ r_avoid (s_run s) = false /\ (0 < r_done (s_run s))%nat.

Lemma query_done s s' r : exec C (OGet false []) s = Def (s', r) -> 0 < rs_size r -> (0 < r_done (s_run s'))%nat.
Proof.
  cbn [exec]. unfold get_sei. destruct (complete_all s) as [[s1 st]|]; [|discriminate]. cbn [obind].
  destruct (negb (is_ok st)); [intros E; injection E as <- <-; cbn; lia|].
  destruct (Nat.ltb_spec (r_done (s_run s1)) 1); [intros E; injection E as <- <-; cbn; lia|].
  cbn [obind negb]. unfold fetch. destruct (nth_error _ _); [|discriminate]. cbn [negb obind].
  intros E; injection E as <- <-. intros _. lia.
Qed.

Hypothesis HC : crypto_ok C.

Lemma query_waits c coin pre s rs r : Forall (op_ok C) pre -> settled true pre -> Forall (fun o => ~ peeks o) pre ->
  run C (pre ++ [OGet false []]) (create c coin) = Def (s, rs ++ [r]) -> 0 < rs_size r -> waits s.
Proof.
  intros HO HSE HP E HR.
  assert (HP' : Forall (fun o => ~ peeks o) (pre ++ [OGet false []])).
  { apply Forall_app. split; [exact HP|]. constructor; [intros []|constructor]. }
  pose proof (run_free _ HP' _ _ _ E eq_refl) as HA.
  assert (HO' : Forall (op_ok C) (pre ++ [OGet false []])).
  { apply Forall_app. split; [exact HO|]. constructor; [exact I|constructor]. }
  assert (HS' : settled true (pre ++ [OGet false []])).
  { clear -HSE. revert HSE. generalize true. induction pre as [|o pre IH]; intros b H; cbn [app]; [destruct b; cbn; auto|].
    apply settled_cons in H as [H1 H2]. apply settled_cons. auto. }
  pose proof (run_track C HC _ true c _ [] (create_good C HC c coin) HO' HS') as HT. rewrite E in HT. cbn [holds] in HT.
  destruct HT as (cl & L & HI & _).
  assert (HD : (0 < r_done (s_run s))%nat).
  { rewrite run_app in E. destruct (run C pre (create c coin)) as [[s0 rs0]|]; [|discriminate]. cbn [obind run] in E.
    destruct (exec C (OGet false []) s0) as [[s1 r1]|] eqn:EX; [|discriminate]. cbn [obind] in E.
    injection E as <- E. apply app_inj_tail in E as [_ ->]. exact (query_done _ _ _ EX HR). }
  destruct HI as [[SG SA SK SD S6 SS SQ SLL SW ST] _ _ _]. split; [|split; [exact HA|exact HD]].
  destruct (sc_key (s_cfg s)); [discriminate|]. subst L. cbn in SD. lia.
Qed.

Lemma waits_refuse s d ts last s' st : waits s -> d <> [] -> add_part C s d ts last = Def (s', st) ->
  st = SV_NOT_SUPPORTED.
Proof.
  intros (H1 & H2 & H3) HD H. rewrite add_part_rest in H by exact HD.
  destruct (take_part s d last) as [[s2 n]|] eqn:ET; [|discriminate]. cbn [obind] in H.
  assert (E2 : s_cfg s2 = s_cfg s /\ r_avoid (s_run s2) = false /\ r_done (s_run s2) = r_done (s_run s)).
  { unfold take_part in ET. destruct (n_last_part _).
    - destruct (parse_nalu _ _ _ _); [|discriminate]. cbn [obind] in ET. injection ET as <- <-. auto.
    - destruct (if last then _ else _); [|discriminate]. cbn [obind] in ET. injection ET as <- <-. auto. }
  destruct E2 as (E21 & E22 & E23). unfold add_rest, prepare in H. rewrite E21 in H.
  destruct (sc_key (s_cfg s)); [|congruence]. cbv zeta in H.
  change (r_avoid (s_run (on_run (set_r_started true) s2))) with (r_avoid (s_run s2)) in H.
  change (r_done (s_run (on_run (set_r_started true) s2))) with (r_done (s_run s2)) in H.
  rewrite E22, E23 in H. destruct (Nat.ltb_spec 0 (r_done (s_run s))); [|lia]. cbn in H. congruence.
Qed.

Lemma waits_whole s d ts n : waits s -> d <> [] -> lp s = true ->
  parse_nalu d (sc_codec (s_cfg s)) true false = Def n ->
  add_part C s d ts true =
    Def (touch (h_sec (k_handle (g_h (s_gop s)))) (drop_pointers (set_parts (n_first_part n) true n)) s, SV_NOT_SUPPORTED).
Proof.
  intros (H1 & H2 & H3) HD HL HP. rewrite add_part_rest by exact HD. unfold take_part. unfold lp in HL. rewrite HL, HP.
  cbn [obind]. unfold add_rest, prepare. cbn [s_cfg on_run set_s_run].
  destruct (sc_key (s_cfg s)) eqn:EK; [|congruence]. cbv zeta. cbn [s_run set_s_run on_run r_avoid r_done set_r_last set_r_started].
  rewrite H2. destruct (Nat.ltb_spec 0 (r_done (s_run s))); [|lia]. cbn [negb andb is_ok].
  do 2 f_equal. destruct s as [cf [[[oid ty pr se] b hr] gl nh co li nu cn ts0 ht en] []]; reflexivity.
Qed.

Lemma touched_add s d ts x l : sc_key (s_cfg s) <> None -> d <> [] -> lp s = true -> n_last_part l = true ->
  x = h_sec (k_handle (g_h (s_gop s))) ->
  add_part C (touch x l s) d ts true = add_part C s d ts true.
Proof.
  intros HK HD HL HL' ->. rewrite !add_part_rest by exact HD. unfold take_part. unfold lp in HL. rewrite HL.
  change (r_last (s_run (touch (h_sec (k_handle (g_h (s_gop s)))) l s))) with l. rewrite HL'.
  change (s_cfg (touch (h_sec (k_handle (g_h (s_gop s)))) l s)) with (s_cfg s).
  destruct (parse_nalu _ _ _ _) as [n|]; [|reflexivity]. cbn [obind].
  assert (E : forall m, on_run (set_r_last m) (touch (h_sec (k_handle (g_h (s_gop s)))) l s) = St (on_run (set_r_last m) s)).
  { intros m. destruct s as [cf [[[oid ty pr se] b hr] gl nh co li nu cn ts0 ht en] []]; reflexivity. }
  rewrite E. set (s2 := on_run _ s).
  assert (HK2 : sc_key (s_cfg s2) <> None) by exact HK.
  unfold add_rest. assert (EP : prepare (St s2) = prepare s2).
  { unfold prepare. change (s_cfg (St s2)) with (s_cfg s2). destruct (sc_key (s_cfg s2)); [|congruence]. reflexivity. }
  rewrite EP. reflexivity.
Qed.

Lemma retry_state s d ts ps rest s' rs : waits s -> d <> [] -> lp s = true -> Forall is_pull ps ->
  run C (ps ++ OAdd d ts true :: rest) s = Def (s', rs) ->
  run C (OAdd d ts true :: ps ++ OAdd d ts true :: rest) s = Def (s', code SV_NOT_SUPPORTED :: rs).
Proof.
  intros HW HD HL HP E. pose proof HW as (H1 & H2 & H3). rewrite run_app in E.
  destruct (run C ps s) as [[s1 rs1]|] eqn:EPS; [|discriminate]. cbn [obind] in E.
  destruct (pulls_touch ps HP None last_nalu_init s s1 rs1 EPS) as (_ & EC & EL & EX).
  assert (HPARSE : exists n, parse_nalu d (sc_codec (s_cfg s)) true false = Def n).
  { cbn [run] in E. destruct (exec C (OAdd d ts true) s1) as [[s2 r2]|] eqn:EE; [|discriminate].
    cbn [exec] in EE. destruct (add_part C s1 d ts true) as [[s3 st3]|] eqn:EA; [|discriminate].
    rewrite add_part_rest in EA by exact HD. unfold take_part in EA. unfold lp in HL. rewrite EL, HL, EC in EA.
    destruct (parse_nalu d _ true false); [eauto|discriminate]. }
  destruct HPARSE as [n HN].
  cbn [run exec]. rewrite (waits_whole s d ts n HW HD HL HN). cbn [obind fst snd].
  set (l := drop_pointers _). set (x := h_sec _).
  destruct (pulls_touch ps HP x l s s1 rs1 EPS) as (R & _ & _ & _).
  rewrite run_app, R. cbn [obind]. cbn [run exec] in E |- *.
  rewrite touched_add.
  - destruct (add_part C s1 d ts true) as [[s3 st3]|]; [|discriminate]. cbn [obind fst snd] in E |- *.
    destruct (run C rest s3) as [[s4 rs4]|]; [|discriminate]. cbn [obind] in E |- *. injection E as <- <-. reflexivity.
  - rewrite EC. exact H1.
  - exact HD.
  - unfold lp. rewrite EL. exact HL.
  - reflexivity.
  - unfold x. rewrite EX. reflexivity.
Qed.

(** C14: refusal, and the repeated call. *)
Lemma session_refused c coin pre d ts last s rs r r2 : Forall (op_ok C) pre -> settled true pre ->
  Forall (fun o => ~ peeks o) pre -> d <> [] ->
  run C (pre ++ [OGet false []; OAdd d ts last]) (create c coin) = Def (s, rs ++ [r; r2]) ->
  0 < rs_size r -> rs_code r2 = SV_NOT_SUPPORTED.
Proof.
  intros HO HSE HP HD E HR.
  change [OGet false []; OAdd d ts last] with ([OGet false []] ++ [OAdd d ts last]) in E.
  rewrite app_assoc, run_app in E.
  destruct (run C (pre ++ [OGet false []]) (create c coin)) as [[s1 rs1]|] eqn:E1; [|discriminate]. cbn [obind run] in E.
  destruct (exec C (OAdd d ts last) s1) as [[s2 r3]|] eqn:EX; [|discriminate]. cbn [obind] in E.
  injection E as <- E. change [r; r2] with ([r] ++ [r2]) in E. rewrite app_assoc in E.
  apply app_inj_tail in E as [E ->]. subst rs1.
  pose proof (query_waits _ _ _ _ _ _ HO HSE HP E1 HR) as HW. cbn [exec] in EX.
  destruct (add_part C s1 d ts last) as [[s4 st]|] eqn:EA; [|discriminate].
  pose proof (waits_refuse _ _ _ _ _ _ HW HD EA) as ->. cbn in EX. injection EX as <- <-. reflexivity.
Qed.

Lemma session_retry c coin pre pulls rest d ts s rs1 r rs2 : Forall (op_ok C) pre -> settled true pre ->
  Forall (fun o => ~ peeks o) pre -> finished true pre = true -> Forall is_pull pulls -> d <> [] ->
  run C (pre ++ [OGet false []] ++ pulls ++ OAdd d ts true :: rest) (create c coin) = Def (s, rs1 ++ r :: rs2) ->
  length rs1 = length pre -> 0 < rs_size r ->
  run C (pre ++ [OGet false []; OAdd d ts true] ++ pulls ++ OAdd d ts true :: rest) (create c coin) =
    Def (s, rs1 ++ r :: code SV_NOT_SUPPORTED :: rs2).
Proof.
  intros HO HSE HP HF HPU HD E HLEN HR. cbn [app] in E |- *.
  change (OGet false [] :: ?a) with ([OGet false []] ++ a) in E |- *. rewrite app_assoc, run_app in E |- *.
  destruct (run C (pre ++ [OGet false []]) (create c coin)) as [[s1 rs0]|] eqn:E1; [|discriminate]. cbn [obind] in E |- *.
  destruct (run C (pulls ++ _) s1) as [[s2 rs3]|] eqn:E2; [|discriminate]. cbn [obind] in E. injection E as -> E.
  assert (HL0 : length rs0 = S (length pre)).
  { pose proof (run_length _ _ _ _ E1) as G. rewrite app_length in G. cbn [length] in G. lia. }
  change (r :: rs2) with ([r] ++ rs2) in E. rewrite app_assoc in E.
  assert (E0 : rs0 = rs1 ++ [r] /\ rs3 = rs2).
  { apply (f_equal (firstn (length rs0))) in E as EA. apply (f_equal (skipn (length rs0))) in E as EB.
    assert (length rs0 = length (rs1 ++ [r])) as HLL by (rewrite app_length; cbn [length]; lia).
    rewrite firstn_app, firstn_all, Nat.sub_diag, app_nil_r in EA. rewrite HLL, firstn_app, firstn_all, Nat.sub_diag, app_nil_r in EA.
    rewrite skipn_app, skipn_all, Nat.sub_diag in EB. rewrite HLL, skipn_app, skipn_all, Nat.sub_diag in EB. auto. }
  destruct E0 as [-> ->].
  pose proof (query_waits _ _ _ _ _ _ HO HSE HP E1 HR) as HW.
  assert (HL : lp s1 = true).
  { rewrite (finished_run _ _ _ _ E1). change (lp (create c coin)) with true.
    clear -HF. revert HF. generalize true at 1 3. induction pre as [|o pre IH]; intros b; cbn [app finished]; [auto|].
    destruct o as [[|]| | | | | | | | | | | | | |]; apply IH. }
  rewrite (retry_state s1 d ts pulls rest s rs2 HW HD HL HPU E2). cbn [obind].
  rewrite <- app_assoc. reflexivity.
Qed.

End Retry.

(** The central signing thread: histories. *)
From Coq Require Import Permutation.
From Verif Require Import Base BaseProofs Crypto Signer SessProofs PlugTypes Plugin Threaded PlugSpec PlugProofs ThreadSpec ThreadMem ThreadSim ThreadIds.

Section Steps.
Variable C : crypto.
Variables (key pub : list N) (max hs : nat).
Hypothesis HK : c_priv C key = Some (pub, max).
Notation astep := (astep C key max).
Notation rel := (rel key max hs).

Record aok (a : astate) : Prop := mkAok { ak_ids : ids_ok (a_ids a) (a_last a); ak_stop : a_run a = false -> a_ids a = [] }.

Lemma in_neq_nil {A} (P : A -> bool) l : filter P l <> [] -> l <> [].
Proof. destruct l; [intros H; exact H|discriminate]. Qed.

Ltac fields := cbn [a_run a_in a_cur a_out a_ids a_last a_coin fst snd cd_td cd_last cd_cur cd_ids set_cd_td set_cd_last set_cd_cur set_cd_ids].

Lemma sim c a e : rel c a -> aok a -> in_lifetime hs e -> (e = TExit -> a_run a = true) ->
  exists c', tstep C c e = Def (c', snd (astep a e)) /\ rel c' (fst (astep a e)) /\ aok (fst (astep a e)).
Proof.
  intros R K IL XX. destruct R as [R1 R2 R3 R4 R5 R6 R7 R8 R9 R10 R11 R12]. destruct K as [K1 K2]. destruct a as [run ins cur outs ids last coin]. cbn [a_run a_in a_cur a_out a_ids a_last a_coin] in *.
  assert (RR : rel c (mkA run ins cur outs ids last coin)) by (constructor; assumption).
  assert (KK : aok (mkA run ins cur outs ids last coin)) by (constructor; assumption).
  destruct e as [k| | | |id|id h|id room| |]; cbn [tstep ThreadSim.astep in_lifetime] in *.
  - destruct IL.
  - (* exit *) rewrite (XX eq_refl) in *. unfold central_exit. rewrite R1. cbn [obind]. eexists. split; [reflexivity|]. split.
    + constructor; fields; try assumption; try reflexivity.
      * intros [X|X]; [discriminate|]. apply R8. left. reflexivity.
      * eapply bufs_same; [| | | | |exact R12]; reflexivity.
    + constructor; fields; [|reflexivity]. destruct K1 as [A1 A2 A3 A4]. constructor; [constructor|intros []|exact A3|reflexivity].
  - (* join *) unfold central_join. rewrite R1, R2, R3. destruct run; cbn [orb]; [exists c; auto|]. destruct cur as [j|]; cbn [some]; [exists c; auto|].
    eexists. split; [reflexivity|]. split; [|constructor; assumption]. constructor; fields; try assumption; try reflexivity.
    + intros [X|X]; congruence.
    + cbn. discriminate.
    + congruence.
    + discriminate.
    + apply bufs_empty; reflexivity.
  - (* setup *) rewrite R1. destruct run; cbn [fst snd]; [|exists c; auto]. unfold central_setup. rewrite R2. cbn [negb]. rewrite R4, R6. cbv zeta.
    destruct (next_ok ids last K1) as (id & EN & RI & N1 & _). unfold next_id in EN. rewrite EN. cbn [obind]. unfold next_id. rewrite EN.
    destruct (N.eqb_spec id last) as [->|NE]; cbn [fst snd]; [exists c; auto|].
    eexists. split; [reflexivity|]. split.
    + constructor; fields; try assumption; try reflexivity. discriminate.
    + constructor; fields; [|discriminate]. eapply ids_add; eauto.
  - (* teardown *) unfold central_teardown. destruct (reset_ok max hs (cd_td c) ins outs id R12 IL) as (t' & ET & B & T1 & T2 & T3 & T4 & T5 & T6). rewrite ET. cbn [obind].
    assert (ED : delete_item (cd_ids c) id = Def (if run then Some (remove_id id ids) else None)).
    { rewrite R4. destruct run; [|reflexivity]. cbn. destruct (N.eqb_spec id 0); [congruence|reflexivity]. }
    rewrite ED. cbn [obind fst snd]. eexists. split; [reflexivity|]. split.
    + constructor; fields; rewrite ?T1, ?T2, ?T3, ?T4, ?T5, ?T6; try assumption.
      * reflexivity.
      * intros X. rewrite (R5 X). reflexivity.
      * intros X. apply R10. eapply in_neq_nil. exact X.
    + constructor; fields; [apply ids_remove; assumption|]. intros X. rewrite (K2 X). reflexivity.
  - (* sign *) destruct IL as [NZ LH]. destruct h as [|h0 hr]; [eexists; split; [reflexivity|]; split; [|exact KK]; destruct c; exact RR|].
    set (h := h0 :: hr) in *. assert (HN : h <> []) by discriminate.
    assert (SH : forall t, sign_hash t id h = sign_hash t id h) by reflexivity.
    destruct (Nat.leb_spec 60 (length ins)) as [G|G].
    { unfold sign_hash at 1, h. cbv iota. change max_buffer with 60%nat. rewrite (in_len _ _ _ _ _ R12). destruct (Nat.leb_spec 60 (length ins)); [|lia]. cbn [obind fst snd].
      eexists. split; [reflexivity|]. split; [|exact KK]. destruct c; exact RR. }
    destruct run; cbn [negb].
    2:{ unfold sign_hash at 1, h. cbv iota. change max_buffer with 60%nat. rewrite (in_len _ _ _ _ _ R12), R2. destruct (Nat.leb_spec 60 (length ins)); [lia|]. cbn [obind fst snd negb].
      eexists. split; [reflexivity|]. split; [|exact KK]. destruct c; exact RR. }
    destruct (sign_hash_ok key max hs (cd_td c) ins outs id h R12 NZ LH R2 (R8 (or_introl eq_refl)) R9 HN G) as (t' & ET & B & T1 & T2 & T3 & T4 & T5 & T6).
    rewrite ET. cbn [obind fst snd]. eexists. split; [reflexivity|]. split; [|constructor; fields; assumption]. constructor; fields; rewrite ?T1, ?T2, ?T3, ?T4, ?T5, ?T6; try assumption.
    + intros hh. destruct (td_hash (cd_td c)) as [h1|] eqn:EH; [intros E; injection E as <-; auto|]. intros E. injection E as <-. apply repeat_length.
    + intros _. destruct (td_hash (cd_td c)); discriminate.
    + intros i x EX. destruct (R11 i x EX) as (A1 & A2 & A3). rewrite A2. auto.
  - (* get *) destruct run; cbn [negb].
    2:{ unfold get_signature. rewrite R2. cbn [negb obind fst snd]. eexists. split; [reflexivity|]. split; [|exact KK]. destruct c; exact RR. }
    destruct outs as [|r outs].
    { unfold get_signature. rewrite R2, (out_len _ _ _ _ _ R12). cbn [negb obind fst snd length Nat.eqb]. eexists. split; [reflexivity|]. split; [|exact KK]. destruct c; exact RR. }
    destruct (N.eqb_spec (o_id r) id) as [<-|NE]; cbn [negb].
    + destruct (get_ok max hs (cd_td c) ins r outs room R12 R2) as (t' & ET & B & T1 & T2 & T3 & T4 & T5 & T6). rewrite ET. cbn [obind fst snd].
      eexists. split; [reflexivity|]. split; [|constructor; fields; assumption]. constructor; fields; rewrite ?T1, ?T2, ?T3, ?T4, ?T5, ?T6; assumption.
    + unfold get_signature. rewrite R2, (out_len _ _ _ _ _ R12). cbn [negb length Nat.eqb].
      destruct (bf_out _ _ _ _ _ R12) as (x & y & EO & _ & _ & F & _). inversion F as [|sl r' x' outs' (Q1 & _) F' E1 E2]. subst. rewrite EO. cbn [app].
      rewrite Q1. destruct (N.eqb_spec (o_id r) id); [congruence|]. cbn [negb obind fst snd]. eexists. split; [reflexivity|]. split; [|exact KK]. destruct c; exact RR.
  - (* take *) unfold central_take. rewrite R2, R3, (in_len _ _ _ _ _ R12). destruct run; cbn [andb]; [|exists c; auto]. destruct cur as [j|]; cbn [some negb andb]; [exists c; auto|].
    destruct ins as [|[id h] ins]; cbn [length Nat.ltb Nat.leb]; [exists c; auto|].
    destruct (take_ok max hs (cd_td c) id h ins outs R12 R9 (R10 ltac:(discriminate))) as (t' & ET & B & T1 & T2 & T3 & T4 & T5 & T6). rewrite ET. cbn [obind fst snd].
    eexists. split; [reflexivity|]. split; [|constructor; fields; assumption]. constructor; fields; rewrite ?T1, ?T2, ?T3, ?T4, ?T5, ?T6; try assumption; try reflexivity.
    + intros _. apply R8. left. reflexivity.
    + intros hh E. injection E as <-. destruct (bf_in _ _ _ _ _ R12) as (x & y & _ & _ & _ & F & _). inversion F as [|? ? ? ? (_ & _ & Q & _)]. exact Q.
    + discriminate.
    + intros i x E. injection E as <- <-. split; [reflexivity|]. split; [reflexivity|]. destruct (bf_ids _ _ _ _ _ R12) as [I1 _]. inversion I1. assumption.
  - (* finish *) unfold central_finish. rewrite R3. destruct cur as [[id h]|]; cbn [some negb]; [|exists c; auto].
    destruct (R11 id h eq_refl) as (A1 & A2 & A3). unfold worker_sign. assert (RK : td_key (cd_td c) = Some key) by (apply R8; right; discriminate).
    rewrite A2. rewrite RK. rewrite HK. rewrite R7.
    destruct (ossl_sign C key max coin h) as [st sig] eqn:ES. cbn [obind]. cbv zeta. fields. rewrite A1, R4.
    assert (BT : bufs max hs (set_td_signing false (set_td_coin (coin + 1) (cd_td c))) ins outs) by (eapply bufs_same; [| | | | |exact R12]; reflexivity).
    assert (EA : is_active (if run then Some ids else None) id = existsb (N.eqb id) ids).
    { destruct run; [|rewrite (R5 eq_refl); reflexivity]. cbn. destruct (N.eqb_spec id 0); [congruence|reflexivity]. }
    rewrite EA. destruct (existsb (N.eqb id) ids) eqn:EX; cbn [negb].
    2:{ eexists. split; [reflexivity|]. split; [|constructor; fields; assumption]. constructor; fields; try assumption; try reflexivity; [intros [X|X]; [auto|congruence]|discriminate]. }
    replace (td_out_idx (set_td_signing false (set_td_coin (coin + 1) (cd_td c)))) with (length outs) by (symmetry; apply (out_len _ _ _ _ _ R12)).
    change max_buffer with 60%nat.
    destruct (Nat.leb_spec 60 (length outs)) as [G|G].
    + destruct (reset_ok max hs _ ins outs id BT A3) as (t' & ET & B & T1 & T2 & T3 & T4 & T5 & T6). rewrite ET. cbn [obind fst snd].
      eexists. split; [reflexivity|]. split; [|constructor; fields; assumption]. constructor; fields; rewrite ?T1, ?T2, ?T3, ?T4, ?T5, ?T6; try assumption; try reflexivity.
      * intros _. exact RK.
      * intros X. apply R10. eapply in_neq_nil. exact X.
      * discriminate.
    + assert (LS : is_ok st = true -> (length sig <= max)%nat). { intros O. destruct st; try discriminate O. apply (ossl_len C key max coin h sig ES). }
      destruct (put_ok max hs _ ins outs id h st sig BT A3 G LS) as (t' & ET & B & T1 & T2 & T3 & T4 & T5 & T6). rewrite ET. cbn [obind fst snd].
      eexists. split; [reflexivity|]. split; [|constructor; fields; assumption]. constructor; fields; rewrite ?T1, ?T2, ?T3, ?T4, ?T5, ?T6; try assumption; try reflexivity.
      * intros _. exact RK.
      * discriminate.
Qed.

Fixpoint arun (a : astate) (evs : list tev) : astate * list tres :=
  match evs with
  | [] => (a, [])
  | e :: evs => let '(a, r) := astep a e in let '(a, rs) := arun a evs in (a, r :: rs)
  end.

Lemma run_after_exit a e : a_run (fst (astep a e)) = match e with TExit => false | _ => a_run a end.
Proof.
  destruct a as [run ins cur outs ids last coin]. destruct e as [k| | | |id|id h|id room| |]; cbn [ThreadSim.astep fst a_run]; try reflexivity.
  - destruct (run || some cur); reflexivity.
  - destruct run; [|reflexivity]. destruct (next_id ids last) as [id|]; [|reflexivity]. destruct (id =? last)%N; reflexivity.
  - destruct h; [reflexivity|]. destruct (60 <=? length ins)%nat; [reflexivity|]. destruct run; reflexivity.
  - destruct run; [|reflexivity]. destruct outs as [|r outs]; [reflexivity|]. cbn [negb]. destruct (negb _); reflexivity.
  - destruct run, cur, ins; reflexivity.
  - destruct cur as [[id h]|]; [|reflexivity]. destruct (ossl_sign _ _ _ _ _). destruct (negb _); [reflexivity|]. destruct (60 <=? _)%nat; reflexivity.
Qed.

Lemma sim_run evs : forall c a, rel c a -> aok a -> Forall (in_lifetime hs) evs -> (exits evs <= if a_run a then 1 else 0)%nat ->
  exists c', trun C c evs = Def (c', snd (arun a evs)) /\ rel c' (fst (arun a evs)) /\ aok (fst (arun a evs)).
Proof.
  induction evs as [|e evs IH]; intros c a R K F X; [exists c; auto|]. apply Forall_cons_iff in F as [F0 F]. cbn [trun arun].
  destruct (sim c a e R K F0) as (c' & E & R' & K'). { intros ->. cbn in X. destruct (a_run a); [reflexivity|lia]. }
  rewrite E. cbn [obind]. pose proof (run_after_exit a e) as RE. destruct (astep a e) as [a' r] eqn:EA. cbn [fst snd] in *.
  destruct (IH c' a' R' K' F) as (c2 & E2 & R2 & K2). { destruct e; cbn in X; rewrite RE; try exact X. destruct (a_run a); lia. }
  rewrite E2. cbn [obind]. destruct (arun a' evs) as [a2 rs]. exists c2. auto.
Qed.

Definition a_zero (last coin : N) : astate := mkA true [] None [] [] last coin.
Lemma start_rel last coin : key <> [] -> (last <= id_max)%N -> rel (started C key last coin) (a_zero last coin) /\ aok (a_zero last coin).
Proof.
  intros KN LM. split.
  - unfold started, central_init. cbn [cd_td set_cd_last central_zero td_thread cd_ids td_key orb]. destruct key as [|k0 kr] eqn:EK; [congruence|]. rewrite <- EK in *. rewrite HK.
    constructor; fields; try reflexivity; try discriminate; try (cbn; congruence). apply bufs_empty; reflexivity.
  - constructor; [|reflexivity]. constructor; [constructor|intros []|exact LM|reflexivity].
Qed.
End Steps.

(** The results a validating session reports: lemmas. *)
From Verif Require Import Base BaseProofs Nalu Crypto Types Hash Tlv TlvProofs SignerProofs VTypes NaluList Validator VListProofs
  VFrameProofs ValidSpec.
Local Open Scope N_scope.

(** What everything below the validation of a GOP leaves alone. *)
Definition gr (v : valid) : bool * bool * bool * bool * latest :=
  (v_signing v, v_first v, v_first_sei v, v_result v, v_latest v).
Global Hint Extern 1 (gr _ = _) => eassumption : frame.

Section Fns.
Variable C : crypto.
Variable Ov : ovf.

Lemma detect_lost_gr k v : gr v = k -> holds (detect_lost Ov v) (fun v' => gr v' = k) (fun _ => True).
Proof. intros H. unfold detect_lost. fr_go. Qed.
Hint Resolve detect_lost_gr : frame.
Lemma decode_sei_gr k v n : gr v = k -> holds (decode_sei C Ov v n) (fun '(v', _) => gr v' = k) (fun _ => True).
Proof. intros H. unfold decode_sei. fr_go. Qed.
Hint Resolve decode_sei_gr : frame.
Lemma update_links_gr k v h : gr v = k -> holds (update_links v h) (fun v' => gr v' = k) (fun _ => True).
Proof. intros H. unfold update_links. fr_go. Qed.
Hint Resolve update_links_gr : frame.
Lemma update_link_gr k v : gr v = k -> holds (update_link v) (fun v' => gr v' = k) (fun _ => True).
Proof. intros H. unfold update_link. fr_go. Qed.
Hint Resolve update_link_gr : frame.
Lemma prepare_gop_gr k v : gr v = k -> holds (prepare_gop C v) (fun '(v', _) => gr v' = k) (fun _ => True).
Proof. intros H. unfold prepare_gop. fr_go. Qed.
Hint Resolve prepare_gop_gr : frame.
Lemma verify_without_gr k v : gr v = k -> holds (verify_without v) (fun '(v', _) => gr v' = k) (fun _ => True).
Proof. intros H. unfold verify_without. fr_go. Qed.
Hint Resolve verify_without_gr : frame.
Lemma verify_list_gr k v o : gr v = k -> holds (verify_list v o) (fun '(v', _, _, _) => gr v' = k) (fun _ => True).
Proof. intros H. unfold verify_list. fr_go. Qed.
Hint Resolve verify_list_gr : frame.
Lemma verify_with_gr k v : gr v = k -> holds (verify_with v) (fun '(v', _, _, _) => gr v' = k) (fun _ => True).
Proof. intros H. unfold verify_with. fr_go. Qed.
Hint Resolve verify_with_gr : frame.
Lemma verify_hash_gr k v : gr v = k -> gr (fst (verify_hash C v)) = k.
Proof. intros H. unfold verify_hash. fr_go. Qed.
Lemma prepare_gr k v : gr v = k -> holds (prepare C Ov v) (fun '(v', _) => gr v' = k) (fun _ => True).
Proof.
  intros H. unfold prepare. fr_go.
  all: match goal with |- context [verify_hash C ?w] => pose proof (verify_hash_gr k w ltac:(assumption)); destruct (verify_hash C w); assumption end.
Qed.
Hint Resolve prepare_gr : frame.
Lemma hash_item_gr k v it : gr v = k -> holds (hash_item C v it) (fun '(v', _, _) => gr v' = k) (fun _ => True).
Proof. intros H. unfold hash_item. fr_go. Qed.
Hint Resolve hash_item_gr : frame.
Lemma prepare_golden_gr k v l it : gr v = k -> holds (prepare_golden C Ov v l it) (fun '(v', _) => gr v' = k) (fun _ => True).
Proof. intros H. unfold prepare_golden. fr_go. Qed.
Hint Resolve prepare_golden_gr : frame.
Lemma recurrent_gr k v : gr v = k -> holds (recurrent_decoded C v) (fun '(v', _) => gr v' = k) (fun _ => True).
Proof. intros H. unfold recurrent_decoded. fr_go. Qed.
Hint Resolve recurrent_gr : frame.
Lemma has_pending_gr v : gr (fst (has_pending v)) = gr v.
Proof. unfold has_pending. destruct (pending_loop _ _ _). reflexivity. Qed.
Lemma register_gr k v n : gr v = k -> holds (register C v n) (fun '(v', _, _) => gr v' = k) (fun _ => True).
Proof. intros H. unfold register. fr_go. Qed.
Hint Resolve register_gr : frame.
Lemma rehash_gr k l : forall v st, gr v = k -> holds (rehash C v l st) (fun '(v', _, _) => gr v' = k) (fun _ => True).
Proof. induction l as [|it l IH]; intros v st H; cbn [rehash]; fr_go. Qed.
Hint Resolve rehash_gr : frame.
Lemma reregister_gr k v : gr v = k -> holds (reregister C v) (fun '(v', _) => gr v' = k) (fun _ => True).
Proof. intros H. unfold reregister. fr_go. Qed.
Hint Resolve reregister_gr : frame.

Definition flags (v : valid) : bool * bool * bool * bool := (v_signing v, v_first v, v_first_sei v, v_result v).
(** One GOP is validated. *)
Lemma validate_auth v : l_auth (v_latest v) <> VersionMismatch ->
  holds (validate v) (fun v' => flags v' = flags v /\
    (verdict (l_auth (v_latest v')) \/ (v_first v = true /\ l_auth (v_latest v') = SigPresent))) (fun _ => True).
Proof.
  intros HV. unfold validate. apply holds_bind.
  assert (G : holds (if gs_lost (v_gs v) && negb (gs_trans (v_gs v))
     then do (v, f) <- verify_without v; Def (v, f, -1, -1)%Z
     else do (v, f, e, r) <- verify_with v; Def (set_v_gop (d_counter (v_dec v)) v, f, e, r))
     (fun '(v', _, _, _) => gr v' = gr v) (fun _ => True)).
  { dif; apply holds_bind.
    - eapply holds_impl; [apply verify_without_gr; reflexivity| |auto]. intros [v' f] H. exact H.
    - eapply holds_impl; [apply verify_with_gr; reflexivity| |auto]. intros [[[v' f] e] r] H. exact H. }
  eapply holds_impl; [exact G| |auto]. clear G. intros [[[v1 success] exp] recv] H1.
  unfold gr in H1. injection H1 as A1 A2 A3 A4 A5.
  destruct (get_stats (v_items v1)) as [[inv mis] hv]. cbv zeta. set (v2 := on_items remove_used v1).
  assert (E2 : v_first v2 = v_first v) by exact A2. assert (L2 : v_latest v2 = v_latest v) by exact A5.
  assert (F1 : flags v2 = flags v) by (unfold flags, v2; cbn; congruence). clearbody v2.
  assert (K : forall w res e r, flags w = flags v -> v_latest w = v_latest v -> (verdict res \/ (v_first v = true /\ res = SigPresent)) ->
     holds (let res := if d_l_changed (v_dec w) then NotOk else res in
  let old := l_auth (v_latest w) in
  let auth := if (ar_n old <=? 1) || (ar_n res <? ar_n old) then res else old in
  let lexp := if gs_lost (v_gs w) then (-1)%Z
              else if (l_exp (v_latest w) =? -1)%Z then (-1)%Z else (l_exp (v_latest w) + e)%Z in
  Def (on_latest (fun l => set_l_exp lexp (set_l_recv (l_recv l + r)%Z (set_l_auth auth l))) w))
   (fun v' => flags v' = flags v /\
    (verdict (l_auth (v_latest v')) \/ (v_first v = true /\ l_auth (v_latest v') = SigPresent))) (fun _ => True)).
  { intros w res e r K1 K2 K3. cbn [holds]. split; [exact K1|]. cbn [on_latest v_latest set_v_latest set_l_exp set_l_recv set_l_auth l_auth].
    rewrite K2. unfold verdict in *. destruct (d_l_changed (v_dec w)); [destruct (l_auth (v_latest v)); cbn; auto; congruence|].
    destruct (l_auth (v_latest v)); destruct K3 as [[->|[->| ->]]|[K3 ->]]; cbn; auto; congruence. }
  cbv zeta in K. rewrite E2. destruct (v_first v) eqn:EF; cbn [negb andb].
  - rewrite E2. destruct (0 <? inv)%Z; cbn [negb andb]; [|destruct ((0 <? mis)%Z && success); [|destruct hv]]; (apply K; [exact F1|exact L2|unfold verdict; auto]).
  - assert (F2 : flags (set_v_synced true v2) = flags v) by exact F1.
    destruct (0 <? inv)%Z; cbn [negb andb]; [|destruct ((1 <? exp)%Z && (exp <=? mis)%Z); [|destruct ((0 <? mis)%Z && success)]];
      (change (v_first (set_v_synced true v2)) with (v_first v2); rewrite E2; apply K; [exact F2|exact L2|unfold verdict; auto]).
Qed.

(** The results of a session that found a result. *)
Definition res_ok (v : valid) : Prop := v_result v = true ->
  (v_signing v = false /\ l_auth (v_latest v) = NotSigned) \/
  (v_signing v = true /\ (l_auth (v_latest v) = SigPresent \/ (verdict (l_auth (v_latest v)) /\ v_first v = false))).
Definition ver_ok (v : valid) : Prop := v_result v = true -> verdict (l_auth (v_latest v)).

Lemma verdict_vm a : verdict a -> a <> VersionMismatch.
Proof. intros [->|[->| ->]]; discriminate. Qed.

Lemma loop_auth f : forall v stop, l_auth (v_latest v) <> VersionMismatch ->
  holds (validate_loop C Ov f v stop) (fun '(v', st) =>
    v_signing v' = v_signing v /\ l_auth (v_latest v') <> VersionMismatch /\
    (v_signing v = true -> v_first v = false -> v_first v' = false) /\
    (is_ok st = true -> res_ok v -> res_ok v') /\
    (is_ok st = true -> v_signing v = true -> v_first v = false -> ver_ok v -> ver_ok v')) (fun _ => True).
Proof.
  induction f as [|f IH]; intros v stop HV; cbn [validate_loop]; pose proof (has_pending_gr v) as E;
    destruct (has_pending v) as [v1 found]; cbn [fst] in E; unfold gr in E; injection E as A1 A2 A3 A4 A5.
  { dif; [|exact I]. unfold holds, res_ok, ver_ok. rewrite A1, A2, A4, A5. auto 10. }
  destruct (_ || _). { unfold holds, res_ok, ver_ok. rewrite A1, A2, A4, A5. auto 10. }
  cbv zeta. set (v2 := if v_result v1 then _ else _).
  assert (E2 : v_signing v2 = v_signing v /\ v_first v2 = v_first v /\ l_auth (v_latest v2) <> VersionMismatch).
  { unfold v2. destruct (v_result v1); cbn; rewrite ?A5; auto. split; [auto|]. split; [auto|discriminate]. }
  clearbody v2. clear A1 A2 A3 A4 A5 v1. destruct E2 as (B1 & B2 & B3). apply holds_bind.
  eapply holds_impl; [apply (prepare_gr (gr v2)); reflexivity| |auto]. intros [v3 st] H3.
  unfold gr in H3. injection H3 as C1 C2 C3 C4 C5.
  destruct (negb (is_ok st)) eqn:ES.
  { cbn [holds]. rewrite C1, C2, C5. rewrite B2. apply negb_true_iff in ES. rewrite ES. repeat split; auto; discriminate. }
  apply holds_bind. eapply holds_impl; [apply (update_link_gr (gr v3)); reflexivity| |auto]. intros v4 H4.
  unfold gr in H4. injection H4 as D1 D2 D3 D4 D5. apply holds_bind.
  assert (G : holds (if v_signing v4 then validate v4 else Def (on_latest (set_l_auth NotSigned) v4))
    (fun v' => v_signing v' = v_signing v /\ v_first v' = v_first v /\
       (v_signing v = true -> verdict (l_auth (v_latest v')) \/ (v_first v = true /\ l_auth (v_latest v') = SigPresent)) /\
       (v_signing v = false -> l_auth (v_latest v') = NotSigned)) (fun _ => True)).
  { destruct (v_signing v4) eqn:EG.
    - eapply holds_impl; [apply validate_auth; rewrite D5, C5; exact B3| |auto]. intros v5 [F1 F2]. unfold flags in F1. injection F1 as G1 G2 G3 G4.
      assert (v_signing v = true) by congruence. split; [congruence|]. split; [congruence|]. split; [|congruence].
      replace (v_first v) with (v_first v4) by congruence. auto.
    - cbn. split; [congruence|]. split; [congruence|]. split; [congruence|reflexivity]. }
  eapply holds_impl; [exact G| |auto]. clear G. intros v5 (G1 & G2 & G3 & G4).
  set (v6 := on_latest _ _).
  assert (K : v_signing v6 = v_signing v /\ v_first v6 = negb (v_signing v) /\ l_auth (v_latest v6) = l_auth (v_latest v5) /\ v_result v6 = true).
  { unfold v6. cbn. rewrite G1. auto. }
  clearbody v6. destruct K as (K1 & K2 & K3 & K4).
  assert (HV6 : l_auth (v_latest v6) <> VersionMismatch).
  { rewrite K3. destruct (v_signing v); [|rewrite G4 by reflexivity; discriminate].
    destruct (G3 eq_refl) as [G|[_ G]]; [apply verdict_vm, G|congruence]. }
  eapply holds_impl; [apply IH, HV6| |auto]. intros [v7 st7] (I1 & I2 & I3 & I4 & I5). rewrite K1, K2 in *.
  split; [congruence|]. split; [exact I2|]. split.
  { intros S F. apply I3; [congruence|]. rewrite S. reflexivity. }
  split.
  - intros S _. apply I4; [exact S|]. intros _. destruct (v_signing v) eqn:EG.
    + right. split; [congruence|]. rewrite K2, K3. destruct (G3 eq_refl) as [G|[_ G]]; auto.
    + left. split; [congruence|]. rewrite K3. auto.
  - intros S SG F _. apply I5; [exact S|exact SG|rewrite SG; reflexivity|]. intros _. rewrite K3.
    destruct (G3 SG) as [G|[G _]]; [exact G|congruence].
Qed.

(** Adding a NALU. *)
Lemma maybe_validate_auth f v n : l_auth (v_latest v) <> VersionMismatch -> v_result v = false ->
  (v_first_sei v = true -> v_signing v = true) ->
  holds (maybe_validate C Ov f v n) (fun '(v', st) =>
    v_signing v' = v_signing v /\ l_auth (v_latest v') <> VersionMismatch /\
    (v_signing v = true -> v_first v = false -> v_first v' = false) /\
    (n_golden n = false -> is_ok st = true -> res_ok v') /\
    (is_ok st = true -> v_signing v = true -> v_first v = false -> v_first_sei v = false -> ver_ok v')) (fun _ => True).
Proof.
  intros HV HR HS. unfold maybe_validate. cbv zeta. apply holds_bind.
  eapply holds_impl; [apply (recurrent_gr (gr v)); reflexivity| |auto]. intros [v1 b] H1.
  unfold gr in H1. injection H1 as A1 A2 A3 A4 A5. destruct (negb _).
  - destruct (v_first_sei v1) eqn:EF.
    + cbn [holds]. destruct (n_golden n); [destruct (v_verified v1 =? 1)%Z|]; cbn; unfold res_ok, ver_ok; cbn;
        (split; [congruence|]); (split; [discriminate|]); (split; [congruence|]); (split; [|intros; congruence]); try (intros; congruence).
      intros _ _ _. right. rewrite A1. split; [apply HS; congruence|auto].
    + cbn [holds]. unfold res_ok, ver_ok. rewrite A1, A2, A4, A5, HR. repeat split; auto; discriminate.
  - eapply holds_impl; [apply loop_auth; congruence| |auto]. intros [v2 st] (I1 & I2 & I3 & I4 & I5).
    rewrite A1, A2 in *. split; [exact I1|]. split; [exact I2|]. split; [exact I3|]. split.
    + intros _ S. apply I4; [exact S|]. unfold res_ok. rewrite A4, HR. discriminate.
    + intros S SG F _. apply I5; auto. unfold ver_ok. rewrite A4, HR. discriminate.
Qed.

Lemma add_h26x_auth f v d : l_auth (v_latest v) <> VersionMismatch ->
  holds (add_h26x C Ov f v d) (fun '(v', st) => v_legacy v' = true \/
    (l_auth (v_latest v') <> VersionMismatch /\
     (v_signing v = true -> v_signing v' = true) /\
     (v_signing v = true -> v_first v = false -> v_first v' = false) /\
     (nalu_golden (v_codec v) d = false -> is_ok st = true -> res_ok v') /\
     (is_ok st = true -> v_signing v = true -> v_first v = false -> ver_ok v'))) (fun _ => True).
Proof.
  intros HV. unfold add_h26x, nalu_golden. destruct (parse_nalu d (v_codec v) true true) as [n|]; [|exact I]. cbn [obind]. cbv zeta.
  set (v1 := on_acc _ _).
  assert (E1 : gr v1 = (v_signing v, v_first v, v_first_sei v, false, v_latest v)) by reflexivity.
  clearbody v1. unfold gr in E1. injection E1 as A1 A2 A3 A4 A5. apply holds_bind.
  assert (G : holds (add_body C Ov f v1 n) (fun '(v', st) => v_legacy v' = true \/
    (l_auth (v_latest v') <> VersionMismatch /\
     (v_signing v = true -> v_signing v' = true) /\
     (v_signing v = true -> v_first v = false -> v_first v' = false) /\
     (n_golden n = false -> is_ok st = true -> res_ok v') /\
     (is_ok st = true -> v_signing v = true -> v_first v = false -> ver_ok v'))) (fun _ => True)).
  { unfold add_body. cbv zeta. destruct (_ <? 0)%Z.
    { cbn. right. rewrite A1, A2, A5. split; [exact HV|]. split; [auto|]. split; [auto|]. split; discriminate. }
    set (v2 := set_v_signing _ _).
    assert (E2 : gr v2 = (v_signing v || n_gop_sei n, v_first v, negb (v_signing v) && n_gop_sei n, false, v_latest v)).
    { unfold gr, v2. cbn. rewrite A1, A2, A4, A5. reflexivity. }
    clearbody v2. apply holds_bind. eapply holds_impl; [apply (register_gr _ v2 n E2)| |auto]. intros [[v3 it] st] E3.
    destruct (negb (is_ok st)) eqn:ES.
    { cbn. right. apply negb_true_iff in ES. rewrite ES. unfold gr in E3. injection E3 as B1 B2 B3 B4 B5. rewrite B1, B2, B5.
      split; [exact HV|]. split; [intros ->; reflexivity|]. split; [auto|]. split; discriminate. }
    apply holds_bind.
    match goal with |- holds ?x _ _ => assert (G : holds x (fun '(v', _) => v_legacy v' = true \/
       gr v' = (v_signing v || n_gop_sei n, v_first v, negb (v_signing v) && n_gop_sei n, false, v_latest v)) (fun _ => True)) end.
    { dif; [|right; exact E3]. apply holds_bind. eapply holds_impl; [apply (recurrent_gr _ (set_v_items _ v3) E3)| |auto]. intros [v4 b] E4.
      destruct (negb b); [right; exact E4|]. apply holds_bind.
      assert (G : holds (if n_golden n then prepare_golden C Ov (on_dec (set_d_algo_known true) v4) (v_items v1) it else Def (on_dec (set_d_algo_known true) v4, SV_OK))
         (fun '(v', _) => gr v' = (v_signing v || n_gop_sei n, v_first v, negb (v_signing v) && n_gop_sei n, false, v_latest v)) (fun _ => True)).
      { dif; [apply prepare_golden_gr|]; exact E4. }
      eapply holds_impl; [exact G| |auto]. intros [v5 st5] E5. destruct (negb (is_ok st5)); [right; exact E5|].
      dif; [left; reflexivity|]. eapply holds_impl; [apply (reregister_gr _ v5 E5)| |auto]. intros [v6 st6] E6. right. exact E6. }
    eapply holds_impl; [exact G| |auto]. clear G. intros [v4 st4] E4. destruct (v_legacy v4) eqn:EL; [rewrite orb_true_r; left; exact EL|].
    destruct E4 as [E4|E4]; [congruence|]. unfold gr in E4. injection E4 as B1 B2 B3 B4 B5. rewrite orb_false_r.
    destruct (negb (is_ok st4)) eqn:ES4.
    { cbn. right. apply negb_true_iff in ES4. rewrite ES4, B1, B2, B5.
      split; [exact HV|]. split; [intros ->; reflexivity|]. split; [auto|]. split; discriminate. }
    eapply holds_impl; [apply maybe_validate_auth| |auto]; [congruence|exact B4| |].
    { rewrite B1, B3. destruct (n_gop_sei n); [rewrite orb_true_r; reflexivity|rewrite andb_false_r; discriminate]. }
    intros [v5 st5] (I1 & I2 & I3 & I4 & I5). right. rewrite B1, B2, B3 in *. split; [exact I2|]. split; [intros S; rewrite I1, S; reflexivity|].
    split; [intros S; rewrite S in *; apply I3; reflexivity|]. split; [exact I4|]. intros S1 S2 S3. rewrite S2, S3 in *. apply I5; auto. }
  eapply holds_impl; [exact G| |auto]. clear G. intros [v2 st] G. destruct (v_legacy v2) eqn:EL; [left; exact EL|].
  destruct G as [G|G]; [congruence|]. destruct (copy_last _ _) as [[l cst]|]; [|exact I]. cbn [obind holds]. right.
  destruct G as (G1 & G2 & G3 & G4 & G5). split; [exact G1|]. split; [exact G2|]. split; [exact G3|].
  assert (S : is_ok (if is_ok st then cst else st) = true -> is_ok st = true) by (destruct (is_ok st) eqn:E; [auto|congruence]).
  split; [intros HG HO; exact (G4 HG (S HO))|intros HO; exact (G5 (S HO))].
Qed.

(** *** Sessions *)
Definition auth_inv (v : valid) : Prop :=
  l_auth (v_latest v) <> VersionMismatch /\ a_auth (v_acc v) <> VersionMismatch /\
  (v_report v = false -> a_auth (v_acc v) = NotSigned).
Definition stick (v : valid) : Prop := verdict (a_auth (v_acc v)) -> v_signing v = true /\ v_first v = false.

Lemma update_report_auth v :
  l_auth (v_latest (update_report v)) = l_auth (v_latest v) /\
  a_auth (v_acc (update_report v)) = (if (ar_n (a_auth (v_acc v)) <=? 1) || (ar_n (l_auth (v_latest v)) <? ar_n (a_auth (v_acc v)))
     then l_auth (v_latest v) else a_auth (v_acc v)) /\
  v_signing (update_report v) = v_signing v /\ v_first (update_report v) = v_first v /\ v_codec (update_report v) = v_codec v /\
  v_report (update_report v) = v_report v.
Proof.
  unfold update_report. cbv zeta. change (compare_versions [] (d_sver _) =? 2)%Z with false. cbv iota.
  cbn [v_items on_latest set_v_latest v_dec v_acc v_latest]. destruct (clean_up (v_items v)) as [l k].
  cbn [v_latest set_v_acc set_v_items v_signing v_first v_codec v_acc set_l_vstr set_l_nstr l_auth].
  split; [reflexivity|]. split; [|auto]. unfold accumulate. cbn [l_auth set_l_vstr set_l_nstr].
  match goal with |- a_auth (match ?x with _ => _ end) = _ => destruct x eqn:E end; cbn; auto.
Qed.

Definition acc_step (a l : authres) : authres := if (ar_n a <=? 1) || (ar_n l <? ar_n a) then l else a.
Lemma verdict_dec a : {verdict a} + {~ verdict a}.
Proof. unfold verdict. destruct a; auto 6; right; intuition discriminate. Qed.
Lemma acc_step_left a l : verdict a -> verdict l -> verdict (acc_step a l) /\ ar_n (acc_step a l) <= ar_n a.
Proof. unfold verdict. intros [->|[->| ->]] [->|[->| ->]]; cbn; split; auto; lia. Qed.
Lemma acc_step_right a l : a <> VersionMismatch -> verdict l -> verdict (acc_step a l) /\ ar_n (acc_step a l) <= ar_n l.
Proof. unfold verdict. intros HA. destruct a; try congruence; intros [->|[->| ->]]; cbn; split; auto; lia. Qed.
Lemma acc_step_or a l : acc_step a l = l \/ acc_step a l = a.
Proof. unfold acc_step. destruct (_ || _); auto. Qed.

(** What one NALU does to the overall result. *)
Definition add_post (golden : bool) (v v' : valid) (r : option report) : Prop :=
  auth_inv v' /\ v_codec v' = v_codec v /\
  match r with
  | Some p => l_auth (p_latest p) = l_auth (v_latest v') /\ a_auth (p_acc p) = a_auth (v_acc v')
  | None => True
  end /\
  (golden = false -> stick v -> stick v' /\
    (verdict (a_auth (v_acc v)) -> verdict (a_auth (v_acc v')) /\ ar_n (a_auth (v_acc v')) <= ar_n (a_auth (v_acc v))) /\
    match r with
    | Some p => verdict (l_auth (p_latest p)) -> verdict (a_auth (v_acc v')) /\ ar_n (a_auth (v_acc v')) <= ar_n (l_auth (p_latest p))
    | None => True
    end).
Lemma add_auth f v d want v' st r : auth_inv v -> add_nalu C Ov f v d want = Def (v', VRes st r) ->
  add_post (nalu_golden (v_codec v) d) v v' r.
Proof.
  intros HI. unfold add_post. destruct d as [|d0 d1].
  { cbn. intros E. injection E as <- <- <-. split; [exact HI|]. split; [reflexivity|]. split; [exact I|]. intros _ HS.
    split; [exact HS|]. split; [|exact I]. intros HV. split; [exact HV|lia]. }
  set (d := d0 :: d1). unfold add_nalu.
  change (match d with [] => _ | _ => ?k end) with k. cbv zeta. set (v1 := create_report (set_v_started true v)).
  assert (E1 : v_codec v1 = v_codec v /\ v_signing v1 = v_signing v /\ v_first v1 = v_first v /\ v_report v1 = true /\
               l_auth (v_latest v1) <> VersionMismatch /\ a_auth (v_acc v1) = a_auth (v_acc v)).
  { destruct HI as (H1 & H2 & H3). unfold v1, create_report. cbn [v_report set_v_started]. destruct (v_report v) eqn:ER; cbn; [auto 10|].
    rewrite H3 by reflexivity. repeat split; auto; discriminate. }
  clearbody v1. destruct E1 as (E1 & E2 & E3 & E4 & E5 & E6). destruct HI as (_ & H2 & _).
  destruct (v_legacy v1); [discriminate|].
  pose proof (add_h26x_auth f v1 d E5) as HA. pose proof (add_h26x_fr C Ov f v1 d) as HF. rewrite E1, E2, E3 in *.
  destruct (add_h26x C Ov f v1 d) as [[v2 st2]|]; [|discriminate]. cbn [holds obind] in *.
  destruct (v_legacy v2) eqn:EL; [discriminate|]. destruct HA as [HA|(A1 & A2 & A3 & A4 & A5)]; [congruence|].
  destruct HF as [HF|(F1 & F2 & F3 & F4)]; [congruence|].
  assert (AC : a_auth (v_acc v2) = a_auth (v_acc v)) by (rewrite F4; unfold bump; cbn; exact E6).
  assert (I2 : auth_inv v2) by (split; [exact A1|split; [congruence|congruence]]).
  assert (S2 : stick v -> stick v2).
  { intros HS HV. rewrite AC in HV. destruct (HS HV). split; auto. }
  assert (NONE : VRes st2 None = VRes st r -> add_post (nalu_golden (v_codec v) d) v v2 r).
  { intros H. injection H as <- <-. split; [exact I2|]. split; [congruence|]. split; [exact I|]. intros _ HS. split; [auto|].
    rewrite AC. split; [intros HV; split; [exact HV|lia]|exact I]. }
  destruct (is_ok st2) eqn:ES; cbn [negb]; [|intros H; injection H as <- H; apply NONE; congruence].
  destruct (v_result v2) eqn:ER.
  2:{ intros H. injection H as <- <- <-. split; [exact I2|]. split; [congruence|]. split; [exact I|]. intros _ HS. split; [auto|].
      rewrite AC. split; [intros HV; split; [exact HV|lia]|exact I]. }
  cbv zeta. destruct (update_report_auth v2) as (U1 & U2 & U3 & U4 & U5 & U6). set (v3 := update_report v2) in *.
  fold (acc_step (a_auth (v_acc v2)) (l_auth (v_latest v2))) in U2. rewrite AC in U2.
  assert (P3 : auth_inv v3 /\ v_codec v3 = v_codec v /\ (nalu_golden (v_codec v) d = false -> stick v -> stick v3 /\
    (verdict (a_auth (v_acc v)) -> verdict (a_auth (v_acc v3)) /\ ar_n (a_auth (v_acc v3)) <= ar_n (a_auth (v_acc v))) /\
    (verdict (l_auth (v_latest v3)) -> verdict (a_auth (v_acc v3)) /\ ar_n (a_auth (v_acc v3)) <= ar_n (l_auth (v_latest v3))))).
  { split; [split; [congruence|]|split; [congruence|]].
    { split; [|congruence]. rewrite U2. destruct (acc_step_or (a_auth (v_acc v)) (l_auth (v_latest v2))) as [-> | ->]; assumption. }
    intros HG HS. specialize (A4 HG eq_refl).
    assert (HV : verdict (a_auth (v_acc v)) -> verdict (l_auth (v_latest v2))).
    { intros HV. destruct (HS HV) as [S1 S3]. apply (A5 eq_refl S1 S3 ER). }
    split; [|split].
    - intros H. rewrite U3, U4. rewrite U2 in H. destruct (acc_step_or (a_auth (v_acc v)) (l_auth (v_latest v2))) as [E|E]; rewrite E in H.
      + destruct (A4 ER) as [[_ G]|[G1 [G|[_ G]]]]; [unfold verdict in H; rewrite G in H; intuition discriminate| |auto].
        unfold verdict in H. rewrite G in H. intuition discriminate.
      + destruct (HS H). auto.
    - intros H. rewrite U2. apply acc_step_left; auto.
    - intros H. rewrite U2, U1. rewrite U1 in H. apply acc_step_right; auto. }
  destruct P3 as (P1 & P2 & P3).
  destruct want.
  - unfold get_report. rewrite U6, F2, E4. cbn [negb]. intros H. injection H as <- <- <-. cbn. unfold auth_inv, stick in *. cbn. auto.
  - intros H. injection H as <- <- <-. unfold auth_inv, stick in *. cbn. split; [exact P1|]. split; [exact P2|]. split; [exact I|].
    intros HG HS. destruct (P3 HG HS) as (Q1 & Q2 & Q3). auto.
Qed.

Definition no_reset (o : vop) : Prop := o <> VReset.

Lemma other_auth f v o v' x : auth_inv v -> (forall d w, o <> VAdd d w) -> vexec C Ov f v o = Def (v', x) ->
  auth_inv v' /\ v_codec v' = v_codec v /\ (o <> VReset -> v_acc v' = v_acc v \/ exists n, v_acc v' = set_a_pend n (v_acc v)) /\
  (o <> VReset -> v_signing v' = v_signing v /\ v_first v' = v_first v).
Proof.
  intros HI HO. destruct o as [d w|key| |]; cbn [vexec].
  - intros _. exfalso. exact (HO d w eq_refl).
  - unfold set_public_key. destruct key; [intros E; injection E as <- <-; auto|]. destruct (d_pub (v_dec v)); [|intros E; injection E as <- <-; auto].
    destruct (v_started v); [intros E; injection E as <- <-; auto|]. destruct (c_pub_ok C _); intros E; injection E as <- <-; unfold auth_inv; cbn; auto.
  - intros E. injection E as <- <-. unfold auth_inv. cbn. repeat split; try discriminate; congruence.
  - destruct (v_legacy v); [intros E; injection E as <- <-; auto|]. unfold get_report. destruct (negb (v_report v)); intros E; injection E as <- <-; [auto|].
    unfold auth_inv in *. cbn. split; [exact HI|]. split; [auto|]. split; [|auto]. intros _. right. eexists. reflexivity.
Qed.

Lemma run_no_vm f ops : forall v v' res, auth_inv v -> ~ In VLegacy res -> vrun C Ov f v ops = Def (v', res) ->
  Forall (fun p => l_auth (p_latest p) <> VersionMismatch /\ a_auth (p_acc p) <> VersionMismatch) (reports ops res).
Proof.
  induction ops as [|o ops IH]; intros v v' res HI HL; cbn [vrun].
  { intros E. injection E as <- <-. constructor. }
  destruct (vexec C Ov f v o) as [[v1 x]|] eqn:EX; [|discriminate]. cbn [obind].
  destruct (vrun C Ov f v1 ops) as [[v2 xs]|] eqn:ER; [|discriminate]. cbn [obind]. intros E. injection E as <- <-.
  assert (HL1 : ~ In VLegacy xs) by (intros G; apply HL; right; exact G).
  assert (HL0 : x <> VLegacy) by (intros G; apply HL; left; exact G).
  destruct o as [d w|key| |] eqn:EO.
  2-4: assert (I1 : auth_inv v1) by (eapply (other_auth f v o); [exact HI|subst o; discriminate|subst o; exact EX]);
       cbn [reports]; destruct x as [st r|]; eapply IH; eauto.
  destruct x as [st r|]; [|congruence]. destruct (add_auth f v d w v1 st r HI EX) as (I1 & _ & HR & _). cbn [reports].
  destruct r as [p|]; [constructor|]; [|eapply IH; eauto..]. destruct HR as [-> ->]. destruct I1 as (J1 & J2 & _). auto.
Qed.

(** The overall result only gets worse. *)
Lemma run_sticks f ops : forall v v' res, auth_inv v -> stick v -> Forall no_reset ops -> Forall (not_golden (v_codec v)) ops ->
  ~ In VLegacy res -> vrun C Ov f v ops = Def (v', res) ->
  (verdict (a_auth (v_acc v)) -> Forall (fun p => verdict (a_auth (p_acc p)) /\ ar_n (a_auth (p_acc p)) <= ar_n (a_auth (v_acc v))) (reports ops res)) /\
  ForallOrdPairs (fun p q => forall a, a = l_auth (p_latest p) \/ a = a_auth (p_acc p) -> verdict a ->
      verdict (a_auth (p_acc q)) /\ ar_n (a_auth (p_acc q)) <= ar_n a) (reports ops res) /\
  Forall (fun p => verdict (l_auth (p_latest p)) -> verdict (a_auth (p_acc p)) /\ ar_n (a_auth (p_acc p)) <= ar_n (l_auth (p_latest p))) (reports ops res).
Proof.
  induction ops as [|o ops IH]; intros v v' res HI HS HN HG HL; cbn [vrun].
  { intros E. injection E as <- <-. repeat split; constructor. }
  destruct (vexec C Ov f v o) as [[v1 x]|] eqn:EX; [|discriminate]. cbn [obind].
  destruct (vrun C Ov f v1 ops) as [[v2 xs]|] eqn:ER; [|discriminate]. cbn [obind]. intros E. injection E as <- <-.
  assert (HL1 : ~ In VLegacy xs) by (intros G; apply HL; right; exact G).
  assert (HL0 : x <> VLegacy) by (intros G; apply HL; left; exact G).
  apply Forall_cons_iff in HN as [HN0 HN]. apply Forall_cons_iff in HG as [HG0 HG].
  destruct o as [d w|key| |] eqn:EO.
  2-4: assert (HO : forall d w, o <> VAdd d w) by (subst o; discriminate); rewrite <- EO in EX;
       destruct (other_auth f v o v1 x HI HO EX) as (I1 & CC & AA & SS).
  - destruct x as [st r|]; [|congruence]. destruct (add_auth f v d w v1 st r HI EX) as (I1 & CC & HR & HP).
    destruct (HP HG0 HS) as (Q1 & Q2 & Q3). rewrite <- CC in HG.
    destruct (IH v1 v2 xs I1 Q1 HN HG HL1 ER) as (R1 & R2 & R3). cbn [reports]. destruct r as [p|].
    + destruct HR as [HR1 HR2]. split; [|split].
      * intros HV. destruct (Q2 HV) as [V1 V2]. constructor; [rewrite HR2; auto|]. eapply Forall_impl; [|exact (R1 V1)].
        cbv beta. intros q [K1 K2]. split; [exact K1|lia].
      * constructor; [|exact R2]. apply Forall_forall. intros q Hq a [-> | ->] HV.
        -- destruct (Q3 HV) as [V1 V2]. pose proof (proj1 (Forall_forall _ _) (R1 V1) q Hq) as [K1 K2]. split; [exact K1|lia].
        -- rewrite HR2 in *. exact (proj1 (Forall_forall _ _) (R1 HV) q Hq).
      * constructor; [|exact R3]. rewrite HR2. exact Q3.
    + split; [|auto]. intros HV. destruct (Q2 HV) as [V1 V2]. eapply Forall_impl; [|exact (R1 V1)].
      cbv beta. intros q [K1 K2]. split; [exact K1|lia].
  - assert (Q : stick v1 /\ a_auth (v_acc v1) = a_auth (v_acc v)).
    { destruct (SS ltac:(subst o; discriminate)) as [S1 S2]. destruct (AA ltac:(subst o; discriminate)) as [A|[k A]]; unfold stick; rewrite A, S1, S2; auto. }
    destruct Q as [Q1 Q2]. rewrite <- CC in HG. destruct (IH v1 v2 xs I1 Q1 HN HG HL1 ER) as (R1 & R2 & R3). rewrite Q2 in R1. cbn [reports]. destruct x; auto.
  - exfalso. apply HN0. reflexivity.
  - assert (Q : stick v1 /\ a_auth (v_acc v1) = a_auth (v_acc v)).
    { destruct (SS ltac:(subst o; discriminate)) as [S1 S2]. destruct (AA ltac:(subst o; discriminate)) as [A|[k A]]; unfold stick; rewrite A, S1, S2; auto. }
    destruct Q as [Q1 Q2]. rewrite <- CC in HG. destruct (IH v1 v2 xs I1 Q1 HN HG HL1 ER) as (R1 & R2 & R3). rewrite Q2 in R1. cbn [reports]. destruct x; auto.
Qed.
End Fns.

(** *** Whole sessions *)
Lemma create_inv C c : auth_inv (vcreate C c) /\ stick (vcreate C c).
Proof. split; [repeat split; try discriminate|]. intros [H|[H|H]]; discriminate. Qed.
Lemma session_no_vm C Ov fuel c ops v res : ~ In VLegacy res -> vrun C Ov fuel (vcreate C c) ops = Def (v, res) ->
  Forall (fun p => l_auth (p_latest p) <> VersionMismatch /\ a_auth (p_acc p) <> VersionMismatch) (reports ops res).
Proof. intros HL. apply run_no_vm; [apply create_inv|exact HL]. Qed.
Lemma session_sticks C Ov fuel c ops v res :
  Forall no_reset ops -> Forall (not_golden c) ops -> ~ In VLegacy res ->
  vrun C Ov fuel (vcreate C c) ops = Def (v, res) ->
  Forall (fun p => verdict (l_auth (p_latest p)) -> verdict (a_auth (p_acc p)) /\ ar_n (a_auth (p_acc p)) <= ar_n (l_auth (p_latest p))) (reports ops res) /\
  ForallOrdPairs (fun p q => forall a, a = l_auth (p_latest p) \/ a = a_auth (p_acc p) -> verdict a ->
      verdict (a_auth (p_acc q)) /\ ar_n (a_auth (p_acc q)) <= ar_n a) (reports ops res).
Proof.
  intros HN HG HL HR. destruct (create_inv C c) as [HI HS]. destruct (run_sticks C Ov fuel ops (vcreate C c) v res HI HS HN HG HL HR) as (_ & H1 & H2). split; assumption.
Qed.
Lemma ordpairs_impl {A} (P Q : A -> A -> Prop) (l : list A) : (forall x y, P x y -> Q x y) -> ForallOrdPairs P l -> ForallOrdPairs Q l.
Proof. intros H. induction 1; constructor; auto. eapply Forall_impl; [|eassumption]. auto. Qed.
Lemma session_not_ok C Ov fuel c ops v res :
  Forall no_reset ops -> Forall (not_golden c) ops -> ~ In VLegacy res ->
  vrun C Ov fuel (vcreate C c) ops = Def (v, res) ->
  Forall (fun p => l_auth (p_latest p) = NotOk -> a_auth (p_acc p) = NotOk) (reports ops res) /\
  ForallOrdPairs (fun p q => l_auth (p_latest p) = NotOk \/ a_auth (p_acc p) = NotOk -> a_auth (p_acc q) = NotOk) (reports ops res).
Proof.
  intros HN HG HL HR. destruct (session_sticks C Ov fuel c ops v res HN HG HL HR) as [H1 H2].
  assert (K : forall a, verdict a /\ ar_n a <= 2 -> a = NotOk) by (intros a [[->|[->| ->]] H]; cbn in H; [reflexivity|lia|lia]).
  split.
  - eapply Forall_impl; [|exact H1]. cbv beta. intros p H E. rewrite E in H. apply K, H. left. reflexivity.
  - eapply ordpairs_impl; [|exact H2]. cbv beta. intros p q H E. apply K, (H NotOk); [intuition|left; reflexivity].
Qed.

(** The call that completes a GOP of a recording of an older version: lemmas. *)
From Verif Require Import Base BaseProofs Epb EpbProofs Nalu NaluSpec NaluProofs Crypto Types Hash Tlv TlvProofs EncProofs CodecSpec CodecProofs
  SeiSpec SeiProofs Signer SignSpec GopSpec GopProofs VTypes NaluList Validator SeiHashProofs VListProofs VUnsigned E2eSpec E2eDec E2eList E2eVal E2eStep MatchProofs
  LegacyTypes Legacy LegacySpec LegacyDec LegacyList LegacyVal LegacyStep.
Local Open Scope N_scope.

Section LGop.
Variable C : crypto.
Hypothesis HC : crypto_ok C.
Variable c : codec.
Variable w : settings.
Variable hs : nat.
Hypothesis OS : old_settings C w hs.
Hypothesis FR : w_frame w = true \/ hs = 32%nat.
Variable f : nat.

Let H := c_hash C (w_oid w).
Let Hhs : (0 < hs <= 64)%nat := o_small C HC w hs OS.
Let HL : forall x, length (H x) = hs := o_len C HC w hs OS.
Notation gdec := (gdec w hs).
Notation lst := (lst c w hs).
Notation refd := (refd C w hs).

Definition qsame (q q2 : lsv) : Prop :=
  q_codec q2 = q_codec q /\ q_buddies q2 = q_buddies q /\ q_has_ref q2 = q_has_ref q /\ q_signing q2 = q_signing q /\
  q_first q2 = q_first q /\ q_reset q2 = q_reset q /\ q_acc q2 = q_acc q.

Definition prepared (xs : list (list N)) (pre : list litem) (s : litem) (u : list litem) (i : litem) (q : lsv) : Prop :=
  gdec (q_dec q) /\ length (q_hashes q) = 128%nat /\ length (q_hash q) = 64%nat /\ q_verified q = 1%Z /\ gs_lost (q_gs q) = false /\
  d_num_sent (q_dec q) = nlen xs mod 2 ^ 16 /\ d_hash_type (q_dec q) = (if w_frame w then 1 else 0) /\
  (w_frame w = true -> d_list (q_dec q) = old_list C w xs) /\
  q_items q = if w_frame w then pre ++ set_x_decoded true s :: u ++ [i]
              else map lused pre ++ set_x_used true (set_x_decoded true s) :: u ++ [set_x_used true i].

Lemma prepare_ok b k q xs x pre s u i : lst b k q -> q_signing q = true -> gs_sei (q_gs q) = true -> gs_lost (q_gs q) = false -> gs_trans (q_gs q) = false ->
  q_items q = pre ++ s :: u ++ [i] -> uses hs (hashes H xs) pre -> has_sei C w hs k (xs ++ [x]) s -> Forall lcalm u -> lfresh (H x) i -> hash_to_use hs i = Def (hash_of H xs x) ->
  exists q2, l_prepare C q = Def (q2, SV_OK) /\ prepared (xs ++ [x]) pre s u i q2 /\ qsame q q2 /\ q_synced q2 = q_synced q /\ d_counter (q_dec q2) = k mod 2 ^ 32.
Proof.
  intros L SG GS GL GT EI U (LS & SO & SU & SD & n & sig & ts & sp & S1 & S2 & S3 & S4 & S5 & S6 & S7 & S8) CU FI HI.
  change (read_hash hs (x_hash s) = Def (H sp)) in S4.
  unfold l_prepare. assert (QH : qhs q = hs) by exact (gd_vhs _ _ _ (s_dec _ _ _ _ _ _ L)). rewrite QH.
  rewrite EI, (next_at pre (plain_nosei _ (uses_plain _ _ _ U)) s _ LS). cbn [obind]. rewrite nth_at, SD, S1. cbn [deref obind].
  unfold l_decode_sei. destruct S2 as (T1 & T2 & T3 & T4 & T5 & T6 & T7 & T8 & T9 & (r & T10) & T11). rewrite T9, T10.
  destruct (old_dec C w hs OS (q_dec q) k (xs ++ [x]) ts sig (s_dec _ _ _ _ _ _ L)) as (d & D1 & D2 & D3 & D4 & D5 & D6 & D7 & D8); [lia|exact S6|exact S7|].
  rewrite (l_tlv_fields C w hs _ _ r (d, SV_OK)); [|intros X; apply app_eq_nil in X as [_ X]; discriminate|exact S3|exact D1].
  cbn [obind is_ok svrc_eqb negb]. rewrite D3.
  change (q_synced (set_q_dec d q)) with (q_synced q).
  set (e := u32 (d_counter (q_dec q) + 1)).
  set (pm := (Z.of_N (k mod 2 ^ 32) - Z.of_N e)%Z). set (pm2 := if (pm <? 0)%Z then (pm + 9223372036854775807)%Z else pm).
  assert (LO : (0 <? pm2)%Z && q_synced q = false).
  { rewrite (s_synced _ _ _ _ _ _ L). destruct b; [apply andb_false_r|]. cbn [negb]. unfold pm2, pm, e. rewrite (s_cnt _ _ _ _ _ _ L eq_refl), Z.sub_diag. reflexivity. }
  rewrite LO, andb_false_r. clearbody e. clear pm pm2 LO.
  set (q1 := q_on_gs (set_gs_lost false) (set_q_dec d q)). change (q_items q1) with (q_items q).
  unfold q_on_items. change (q_items q1) with (q_items q). rewrite EI, set_nth_at. cbn [obind is_ok svrc_eqb negb].
  set (q2 := set_q_items (pre ++ set_x_decoded true s :: u ++ [i]) q1). change (q_dec q2) with d. rewrite D7.
  assert (EP : firstn (N.to_nat (nlen sig)) (padded (w_max_sig w) sig) = sig).
  { unfold nlen, padded. rewrite Nat2N.id. apply firstn_app_len. reflexivity. }
  assert (VF : forall q3, q_signing q3 = true -> q_dec q3 = d -> gs_sei (q_gs q3) = true -> firstn hs (q_hash q3) = old_digest C w (xs ++ [x]) sp ->
    (if q_signing q3 && negb (d_has_pub (q_dec q3)) then Def (q3, SV_NOT_SUPPORTED)
     else do golden <- (if gs_sei (q_gs q3) then Def true
                  else match q_items q3 with
                       | [] => Undef NullDeref
                       | it :: _ => do n <- deref (x_nalu it); Def (n_golden n)
                       end);
       if golden then Def (l_verify_hash C q3) else Def (q3, SV_OK)) = Def (set_q_verified 1 q3, SV_OK)).
  { intros q3 V1 V2 V3 V4. rewrite V1, V2, (gd_has _ _ _ D2), V3. cbn [andb negb obind]. unfold l_verify_hash, qhs. rewrite V2, D5, (gd_vkey _ _ _ D2), D6, (gd_vhs _ _ _ D2), V4, EP.
    destruct (N.eqb_spec (nlen sig) 0) as [X|_]; [unfold nlen in X; lia|]. rewrite S8. reflexivity. }
  assert (LQ : length (q_hash q) = 64%nat) by exact (s_hash _ _ _ _ _ _ L).
  destruct (w_frame w) eqn:EW.
  - change (1 =? 1) with true. cbn iota. rewrite S4. cbn [obind].
    destruct (firstn_put (q_hash q) (H sp) hs (HL _)) as (y & Y1 & Y2 & Y3); [lia|].
    match goal with |- context [q_hash ?z] => change (q_hash z) with (q_hash q) end. rewrite Y1. cbn [obind is_ok svrc_eqb negb].
    change (q_dec (set_q_hash y q2)) with d. rewrite D7. change (1 =? 0) with false. rewrite andb_false_r. cbn [obind is_ok svrc_eqb negb].
    rewrite VF; [|exact SG|reflexivity|exact GS|]. 2:{ change (q_hash (set_q_hash y q2)) with y. unfold old_digest. rewrite EW. exact Y2. }
    eexists. split; [reflexivity|]. split; [|split; [repeat split|split; [reflexivity|exact D3]]].
    unfold prepared. rewrite EW. split; [exact D2|]. split; [exact (s_hashes _ _ _ _ _ _ L)|]. split; [cbn; lia|]. split; [reflexivity|]. split; [reflexivity|]. split; [exact D4|]. split; [exact D7|]. split; [exact D8|reflexivity].
  - destruct FR as [X|H32]; [congruence|]. change (0 =? 1) with false. cbn iota. cbn [obind is_ok svrc_eqb negb]. change (q_dec q2) with d. rewrite D7, SU. change (0 =? 0) with true. cbn [negb andb].
    assert (LS' : lsei (set_x_decoded true s)).
    { destruct LS as (n0 & Z0). exists n0. exact Z0. }
    destruct (gop_hash_all C HC w hs OS H32 (hashes H xs) pre (set_x_decoded true s) u i (hash_of H xs x) (H x) (H sp) q2 U LS' CU FI HI S4 D2 (s_hashes _ _ _ _ _ _ L) eq_refl) as (g & G1 & G2 & G3).
    rewrite G3. cbn [obind is_ok svrc_eqb negb].
    match goal with |- context [q_hashes ?z] => change (q_hashes z) with g end.
    assert (RG : read_hash hs g = Def (firstn hs g)) by (unfold read_hash; destruct (Nat.leb_spec hs (length g)); [reflexivity|lia]). rewrite RG. cbn [obind].
    assert (LG : length (firstn hs g) = hs) by (rewrite firstn_length; lia).
    destruct (firstn_put (q_hash q) (firstn hs g) hs LG) as (y & Y1 & Y2 & Y3); [lia|].
    match goal with |- context [q_hash ?z] => change (q_hash z) with (q_hash q) end. rewrite Y1. cbn [obind is_ok svrc_eqb negb].
    rewrite VF; [|exact SG|reflexivity|exact GS|]. 2:{ cbn [q_hash set_q_hash]. unfold old_digest. rewrite EW, Y2, G2. fold H. rewrite hashes_snoc, <- app_assoc. reflexivity. }
    eexists. split; [reflexivity|]. split; [|split; [repeat split|split; [reflexivity|exact D3]]].
    unfold prepared. rewrite EW. split; [exact D2|]. split; [exact G1|]. split; [cbn; lia|]. split; [reflexivity|]. split; [reflexivity|]. split; [exact D4|]. split; [exact D7|]. split; [discriminate|reflexivity].
Qed.

Lemma validate_ok xs x pre s u i q : prepared (xs ++ [x]) pre s u i q -> uses hs (hashes H xs) pre -> lsei s -> x_own s = true -> Forall lcalm u -> lfresh (H x) i -> x_used i = false -> hash_to_use hs i = Def (hash_of H xs x) ->
  exists q2, l_validate q = Def q2 /\ validated (hashes H xs) (H x) i (q_items q2) /\ qsame q q2 /\ q_synced q2 = true /\ q_dec q2 = q_dec q /\ q_hashes q2 = q_hashes q /\ q_hash q2 = q_hash q /\
    l_auth (q_latest q2) = AuthOk /\ l_recv (q_latest q2) = Z.of_nat (length (xs ++ [x])).
Proof.
  intros (P1 & P2 & P3 & P4 & P5 & P6 & P7 & P8 & P9) U LS SO CU FI IU HI.
  assert (LS' : lsei (set_x_decoded true s)) by (destruct LS as (n0 & Z0); exists n0; exact Z0).
  assert (LX : length (hashes H xs) = length xs) by (destruct xs; [reflexivity|]; cbn; rewrite map_length; reflexivity).
  assert (W : exists L e, (if gs_lost (q_gs q) && negb (gs_trans (q_gs q))
       then do (q, f) <- l_without (q_on_items l_remove_used q); Def (q, f, -1, -1)%Z
       else if d_hash_type (q_dec q) =? 1 then l_with_list q else l_with_gop q) = Def (set_q_items L q, true, e, Z.of_nat (length (xs ++ [x])))%Z /\ validated (hashes H xs) (H x) i L /\
       ((1 <? e) && (e - 1 <=? 0))%Z = false).
  { rewrite P5. cbn [andb]. rewrite P7. rewrite app_length. cbn [length]. destruct (w_frame w) eqn:EW.
    - change (1 =? 1) with true. cbn iota.
      destruct (with_list C HC w hs OS (hashes H xs) pre (set_x_decoded true s) u i (hash_of H xs x) (H x) q U LS' SO CU FI IU HI P1) as (L & W1 & W2); [|exact P4|exact P9|].
      { rewrite P8 by reflexivity. unfold old_list. fold H. rewrite hashes_snoc. reflexivity. }
      exists L. eexists. split; [rewrite W1, LX; do 2 f_equal; lia|]. split; [exact W2|]. lia.
    - change (0 =? 1) with false. cbn iota.
      destruct (with_gop C w hs (hashes H xs) pre (set_x_decoded true s) u i (H x) q (nlen (xs ++ [x])) U LS' SO CU FI P4 P9 P6) as (L & W1 & W2).
      { rewrite LX. unfold nlen. rewrite app_length. cbn [length]. lia. }
      exists L. eexists. split; [rewrite W1, LX; do 2 f_equal; lia|]. split; [exact W2|]. lia. }
  destruct W as (L & e & W1 & W2 & W3). unfold l_validate. rewrite W1. cbn [obind]. clear W1.
  pose proof W2 as (pre' & i' & V1 & V2 & V3 & V4 & V5 & V6). change (q_items (set_q_items L q)) with L. rewrite V1, (stats_kept pre' i' _ V2 V4), <- V1. cbn [obind].
  change (0 <? 0)%Z with false. cbn [negb andb]. rewrite andb_true_r, <- andb_assoc. rewrite W3, andb_false_r.
  change (q_first (set_q_items L q)) with (q_first q). destruct (q_first q) eqn:EQ.
  - change (q_first (set_q_items L q)) with (q_first q). rewrite EQ. change (q_dec (set_q_synced true (set_q_items L q))) with (q_dec q). rewrite (gd_changed _ _ _ P1).
    eexists. split; [reflexivity|]. split; [exact W2|]. repeat split; assumption.
  - change (q_first (set_q_synced true (set_q_items L q))) with (q_first q). rewrite EQ. change (q_dec (set_q_synced true (set_q_items L q))) with (q_dec q). rewrite (gd_changed _ _ _ P1).
    eexists. split; [reflexivity|]. split; [exact W2|]. repeat split; assumption.
Qed.

Lemma loop_eq fu q stop : l_validate_loop C fu q stop = do (q, found) <- l_has_pending q;
  if negb found || stop then Def (q, SV_OK)
  else
    match fu with
    | O => Undef Diverges
    | S fuel' =>
        let q := q_on_dec (set_d_l_changed false)
                   (q_on_latest (fun l => set_l_pend (-1)%Z (set_l_recv (-1)%Z (set_l_exp (-1)%Z
                                            (set_l_auth NotOk l)))) q) in
        do (q, st) <- l_prepare C q;
        if negb (is_ok st) then Def (q, st)
        else
          do q <- (if q_signing q then l_validate q else Def (q_on_latest (set_l_auth NotSigned) q));
          let stop := negb (q_signing q) in
          let q := set_q_first (negb (q_signing q)) q in
          do q <- (if q_reset q then
                     do l <- l_retry (q_items q); Def (set_q_items l (set_q_first true q))
                   else Def q);
          let q := set_q_result true (set_q_verified (-1)%Z q) in
          l_validate_loop C fuel' (q_on_latest (set_l_pend (l_num_pending (q_items q))) q) stop
    end.
Proof. destruct fu; reflexivity. Qed.

(** The report on a GOP, see [old_answers]. *)
Definition found_ok (xs : list (list N)) (q : report) : Prop :=
  l_auth (p_latest q) = AuthOk /\ a_auth (p_acc q) = AuthOk /\
  l_recv (p_latest q) = Z.of_nat (length xs) /\ l_pend (p_latest q) = 1%Z /\
  p_changed q = false /\ Forall (fun s => In s [46; 95; 85; 80]) (l_vstr (p_latest q)) /\
  times 46 (l_vstr (p_latest q)) = length xs /\ times 80 (l_vstr (p_latest q)) = 1%nat.

Lemma first_step b k q p x xs pre s u : lst b k q -> q_signing q = true -> refd xs q -> q_items q = pre ++ s :: u -> uses hs (hashes H xs) pre ->
  has_sei C w hs k (xs ++ [x]) s -> Forall lcalm u -> seen c p -> legal c p -> p_first p = true -> p_bytes p = Some x ->
  exists q2 rep, l_add_nalu C (S f) q (p_data p) true = Def (q2, SV_OK, Some rep) /\ found_ok (xs ++ [x]) rep /\ lst false (k + 1) q2 /\
    q_signing q2 = true /\ gs_after (q_gs q2) = false /\ refd [x] q2 /\ uses hs (hashes H [x]) (q_items q2).
Proof.
  intros L SG RF EI U HSE CU PS PL PF PB. destruct (pic_parse c p PS PL) as (n & EP & S1 & S2 & S3 & S4 & S5 & S6 & K).
  destruct K as [(S7 & S8 & x' & X & S9 & S10)|(_ & _ & X & _)]; [|congruence]. assert (x' = x) by congruence. subst x'.
  pose proof HSE as (LS & SO & _).
  unfold l_add_nalu. pose proof (pic_ne c p PS PL) as NE. destruct (p_data p) as [|d0 dr] eqn:ED; [congruence|]. rewrite <- ED in *. clear ED d0 dr NE.
  unfold l_add_h26x. rewrite (s_codec _ _ _ _ _ _ L), EP. cbn [obind]. unfold l_add_body. cbv zeta. rewrite S8. change (1 <? 0)%Z with false. cbn iota.
  rewrite S1, orb_false_r, andb_false_r.
  match goal with |- context [l_register C ?y n] => set (q1 := y) end. change q1 with (entered (q_signing q) false q). clear q1. set (q1 := entered (q_signing q) false q).
  unfold l_register. rewrite S8. change (1 =? 0)%Z with false. cbn iota. unfold update_hashable. rewrite S7, S1. cbn [negb orb obind].
  set (it0 := set_x_nalu (NOk n) (litem_create n)).
  rewrite PF in S6.
  destruct (q_hash_first C HC w hs OS q1 it0 n x xs (s_dec _ _ _ _ _ _ L) (s_bud _ _ _ _ _ _ L) RF eq_refl S1 S4 S5 S7 S9 S10 S6) as (bb & it & -> & B1 & B2 & (X1 & X2 & X3 & X4 & X5 & X6 & X7) & X8 & X9).
  cbn [obind is_ok svrc_eqb negb]. change (q_items (q_on_acc _ _)) with (q_items q). rewrite EI.
  assert (EL : (pre ++ s :: u) ++ [it] = pre ++ s :: u ++ [it]) by (rewrite <- app_assoc; reflexivity). rewrite EL.
  set (q2 := set_q_items (pre ++ s :: u ++ [it]) (set_q_has_ref true (set_q_buddies bb q1))).
  assert (L2 : lst b k q2) by (apply lst_items, lst_bud; [exact B1|]; apply lst_entered; exact L).
  assert (FI : lfresh (H x) it).
  { exists n. split; [exact X1|]. split; [exact S7|]. split; [exact S1|]. split; [exact S6|]. split; [rewrite X3; cbn; unfold status_of; rewrite S8, S7; reflexivity|].
    split; [rewrite X4; reflexivity|]. split; [rewrite X5; reflexivity|exact X8]. }
  assert (IU : x_used it = false) by (rewrite X6; reflexivity).
  assert (HI : hash_to_use hs it = Def (hash_of H xs x)) by (unfold hash_to_use; rewrite X4; cbn [it0 set_x_nalu litem_create x_need]; exact X9).
  unfold l_maybe_validate. change (q_items q2) with (pre ++ s :: u ++ [it]).
  rewrite <- EL, (feasible_first _ it _ FI). cbn [obind]. unfold l_recurrent. rewrite (gd_has _ _ _ (s_dec _ _ _ _ _ _ L2)). cbn [orb obind andb negb].
  rewrite loop_eq. destruct (pend_first q2 SG hs _ pre s u it _ eq_refl U LS CU FI) as (g & -> & GS & GL & GT). cbn [obind negb orb]. cbv zeta.
  match goal with |- context [l_prepare C ?z] => set (q3 := z) end.
  assert (L3 : lst b k q3).
  { pose proof (s_dec _ _ _ _ _ _ L2) as G2. destruct L2. constructor; try assumption. clear -G2. destruct G2. constructor; try assumption. reflexivity. }
  destruct (prepare_ok b k q3 xs x pre s u it L3 SG GS GL GT eq_refl U HSE CU FI HI) as (q4 & E4 & PR & (A1 & A2 & A3 & A4 & A5 & A6 & A7) & A8 & A9). rewrite E4. cbn [obind is_ok svrc_eqb negb].
  rewrite A4. change (q_signing q3) with (q_signing q). rewrite SG.
  destruct (validate_ok xs x pre s u it q4 PR U LS SO CU FI IU HI) as (q5 & E5 & VL & (C1 & C2 & C3 & C4 & C5 & C6 & C7) & C8 & C9 & C10 & C11 & C12 & C13). rewrite E5. cbn [obind].
  rewrite C4, A4. change (q_signing q3) with (q_signing q). rewrite SG. cbn [negb].
  change (q_reset (set_q_first false q5)) with (q_reset q5). rewrite C6, A6. change (q_reset q3) with (q_reset q). rewrite (s_reset _ _ _ _ _ _ L). cbn [obind].
  destruct VL as (pr & i' & V1 & V2 & V3 & V4 & V5 & V6).
  match goal with |- context [l_num_pending ?z] => change z with (q_items q5) end. rewrite V1, (num_kept pr i' _ V2 V4).
  match goal with |- context [l_validate_loop C f ?z] => set (q6 := z) end.
  assert (I6 : q_items q6 = pr ++ [i']) by exact V1.
  assert (G6 : q_signing q6 = true) by (change (q_signing q6) with (q_signing q5); rewrite C4, A4; exact SG).
  rewrite loop_eq. destruct (pend_after q6 G6 pr i' _ I6 V2 V4) as (g2 & -> & GA). cbn [obind negb orb].
  change (q_items (set_q_gs g2 q6)) with (q_items q6). rewrite I6.
  assert (FO : Forall (fun it => x_own it = true) pr) by (eapply Forall_impl; [|exact V2]; intros a (m & _ & _ & Y & _); exact Y).
  assert (V5' : x_nalu i' = NOk n) by (rewrite V5; exact X1).
  destruct (close_last pr i' n V5' FO) as (m & M1 & M2 & M3); [rewrite S3; apply N.le_0_l|rewrite S3; reflexivity|].
  rewrite M1. cbn [obind is_ok svrc_eqb]. rewrite M2. cbn [negb].
  set (q7 := set_q_items (pr ++ [closed i' m]) (set_q_gs g2 q6)). change (q_result q7) with true. cbn iota.
  assert (K7 : lkept (H x) (closed i' m)).
  { destruct V4 as (n0 & K1 & K2 & K3 & K4 & K5 & K6 & K8 & K9 & K10). destruct M3 as (Y1 & Y2 & Y3 & Y4 & _). exists m. split; [reflexivity|]. split; [congruence|]. split; [congruence|]. split; [congruence|].
    repeat (split; [assumption|]). exact K10. }
  unfold l_update_report. change (q_items q7) with (pr ++ [closed i' m]).
  destruct (str_ok (pr ++ [closed i' m])) as (str & ES).
  { apply Forall_app. split; [eapply Forall_impl; [|exact V2]; intros a (m0 & Y & _); exists m0; exact Y|]. constructor; [exists m; reflexivity|constructor]. }
  rewrite ES. cbn [obind]. change (compare_versions [] (d_sver _) =? 2)%Z with false. cbv iota.
  match goal with |- context [l_clean_up (q_items ?z)] => change (q_items z) with (pr ++ [closed i' m]) end.
  destruct (clean_kept pr (closed i' m) _ V2 K7) as (kk & ->). destruct (shown_kept pr (closed i' m) _ V2 K7) as (W1 & W2 & W3).
  match goal with |- context [accumulate ?x ?y ?z] => set (acc := accumulate x y z) end.
  assert (Q7 : q_acc q7 = q_acc q3) by (change (q_acc q7) with (q_acc q5); rewrite C7, A7; reflexivity).
  assert (D7 : q_dec q7 = q_dec q4) by exact C9.
  assert (AA : a_auth acc = AuthOk).
  { unfold acc, accumulate. cbn [a_auth]. match goal with |- context [l_auth (q_latest ?z)] => change (l_auth (q_latest z)) with (l_auth (q_latest q5)) end. rewrite C12.
    match goal with |- context [a_auth (q_acc ?z)] => change (q_acc z) with (q_acc q7) end. rewrite Q7. change (a_auth (q_acc q3)) with (a_auth (q_acc q)). rewrite (s_auth _ _ _ _ _ _ L). destruct b; reflexivity. }
  destruct PR as (P1 & P2 & P3 & P4 & P5 & P6 & P7 & P8 & P9).
  assert (AC : a_changed acc = false).
  { unfold acc, accumulate. cbn [a_changed]. match goal with |- context [q_acc ?z] => change (q_acc z) with (q_acc q7) end. match goal with |- context [q_dec ?z] => change (q_dec z) with (q_dec q7) end.
    rewrite Q7, D7, (gd_changed _ _ _ P1). change (a_changed (q_acc q3)) with (a_changed (q_acc q)). rewrite (s_chg _ _ _ _ _ _ L). reflexivity. }
  rewrite AA. cbn [obind]. set (q8 := set_q_acc _ _). cbn [l_get_report]. unfold l_get_report. cbn iota zeta.
  assert (LX : length (filter (fun it => vstat_eqb (x_status it) SValid) pr) = length (xs ++ [x])).
  { rewrite V3, app_length. cbn [length]. destruct xs; cbn [hashes length]; [reflexivity|]. rewrite map_length. lia. }
  do 2 eexists. split; [reflexivity|]. split.
  { repeat split.
    - exact C12.
    - exact AA.
    - exact C13.
    - cbn [p_changed]. change (d_l_changed (q_dec q7) = false). rewrite D7. exact (gd_changed _ _ _ P1).
    - exact W1.
    - rewrite <- LX. exact W2.
    - exact W3. }
  split; [|split; [exact G6|split; [exact GA|split]]].
  - constructor.
    + change (q_codec q5 = c). rewrite C1, A1. exact (s_codec _ _ _ _ _ _ L).
    + change (gdec (set_d_l_has_ts false (q_dec q7))). rewrite D7. destruct P1. constructor; assumption.
    + change (length (q_buddies q5) = 128%nat). rewrite C2, A2. exact B1.
    + change (length (q_hashes q5) = 128%nat). rewrite C10. exact P2.
    + change (length (q_hash q5) = 64%nat). rewrite C11. exact P3.
    + reflexivity.
    + change (q_reset q5 = false). rewrite C6, A6. exact (s_reset _ _ _ _ _ _ L).
    + exact C8.
    + exact AA.
    + exact AC.
    + intros _. change (u32 (d_counter (q_dec q7) + 1) = (k + 1) mod 2 ^ 32). rewrite D7, A9. unfold u32. rewrite N.add_mod_idemp_l by discriminate. reflexivity.
  - split; [change (q_has_ref q5 = true); rewrite C3, A3; reflexivity|]. change (firstn hs (q_buddies q5) = H x). rewrite C2, A2. exact B2.
  - change (uses hs (hashes H [x]) [closed i' m]). cbn [hashes map]. apply uses_hash; [| |constructor].
    + destruct K7 as (n0 & K1 & K2 & K3 & K4 & K5 & K6 & K8 & K9 & K10). exists n0. repeat (split; [assumption|]). split; [reflexivity|]. split; intros _; exact K6.
    + destruct K7 as (n0 & K1 & K2 & K3 & K4 & K5 & K6 & K8 & K9 & K10). unfold hash_to_use. rewrite K6, K9. unfold read_hash. rewrite HL, Nat.leb_refl, firstn_all2 by (rewrite HL; lia). reflexivity.
Qed.

End LGop.

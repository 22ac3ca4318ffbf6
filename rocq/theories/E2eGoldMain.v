(** A validator that gets a golden SEI first, and then the stream: proofs. *)
From Verif Require Import Base BaseProofs Nalu Crypto Types CodecSpec SeiSpec Signer SignSpec GopSpec EosSpec GoldSpec StartSpec RunProofs DrainProofs GopProofs GoldProofs SessProofs VTypes NaluList Validator
  E2eSpec DamageSpec LossSpec E2eDec E2eList E2eVal E2eStep E2eSei E2eRaw E2eMain E2eSeg E2eGold.
Local Open Scope N_scope.

Local Existing Instance zero_gop.
Section Main.
Variable C : crypto.
Hypothesis HC : crypto_ok C.
Hypothesis HKW : keys_work C.
Variable Ov : ovf.
Variable c : codec.
Variable w : settings.
Variable hs : nat.
Hypothesis HO : c_oid C (w_oid w) = OidDigest hs.
Hypothesis HW0 : w_oid w <> [].
Hypothesis HWl : nlen (w_oid w) < 254.
Hypothesis HP0 : w_pub w <> [].
Hypothesis HPl : nlen (w_pub w) < 65535.
Hypothesis HPk : c_pub_ok C (w_pub w) = true.
Hypothesis HR5 : length (w_prod w) = 5%nat.
Hypothesis HRb : Forall (Forall (fun b => 0 < b < 256)) (w_prod w).
Hypothesis HMx : N.of_nat (w_max_sig w) + 5 < 65536.
Hypothesis HRc : w_rec w <> 0.
Variable f : nat.

Let H := c_hash C (w_oid w).
Notation its_h := (its (first_hash H hs) (other_hash H hs)).
Notation vgoodo := (vgoodo C Ov c w hs).

(** NALUs that are not hashed. *)
Lemma its_drop o p l o1 : p_bytes p = None -> its_h o [p] l o1 -> its_h o [] l o1.
Proof.
  intros B I. remember [p] as ps eqn:E. induction I; try discriminate; try (injection E as -> ->; congruence).
  - apply its_skip; auto.
  - injection E as -> ->. apply its_skip; assumption.
Qed.
Lemma plain_run b0 P k prev : forall b v, vgoodo b0 P v k prev None -> its_h prev [] (v_items v) None -> Forall (seen c) b -> Forall (legal c) b ->
  Forall (fun p => p_first p = false /\ p_bytes p = None) b ->
  exists v', vrun C Ov (S f) v (map sends (map Pic b)) = Def (v', map (fun _ => VRes SV_OK None) b) /\ vgoodo b0 P v' k prev None /\ its_h prev [] (v_items v') None.
Proof.
  induction b as [|p b IH]; intros v G I SN LG FB; cbn [map vrun].
  - exists v. auto.
  - apply Forall_cons_iff in SN as [S1 SN]. apply Forall_cons_iff in LG as [L1 LG]. apply Forall_cons_iff in FB as [(B1 & B2) FB].
    destruct (pic_stepo C HC Ov c w hs HO HWl HPl HR5 HMx f b0 P v k prev None prev [] p G I) as (v1 & E & G1 & I1); [intros _; right; exact B2|exact S1|exact L1|].
    unfold after in G1, I1. rewrite B2 in G1, I1. cbn [app] in I1. apply its_drop in I1; [|exact B2].
    destruct (IH v1 G1 I1 SN LG FB) as (v2 & E2 & G2 & I2).
    cbn [sends vexec]. rewrite E. cbn [obind]. rewrite E2. cbn [obind]. exists v2. auto.
Qed.

(** NALUs from the beginning of a GOP. *)
Lemma gop_run b0 P k prev b v : vgoodo b0 P v k prev None -> its_h prev [] (v_items v) None -> Forall (seen c) b -> Forall (legal c) b ->
  (exists p r x, b = p :: r /\ p_first p = true /\ p_bytes p = Some x) ->
  exists v' x', vrun C Ov (S f) v (map sends (map Pic b)) = Def (v', map (fun _ => VRes SV_OK None) b) /\ vgoodo b0 P v' k prev (Some x') /\ its_h prev b (v_items v') (Some x').
Proof.
  intros G I SN LG (p & r & x & -> & PF & PB).
  apply Forall_cons_iff in SN as [S1 SN]. apply Forall_cons_iff in LG as [L1 LG].
  destruct (pic_stepo C HC Ov c w hs HO HWl HPl HR5 HMx f b0 P v k prev None prev [] p G I) as (v1 & E & G1 & I1); [intros _; left; exact PF|exact S1|exact L1|].
  unfold after in G1, I1. rewrite PB, PF in G1, I1. cbn [app] in I1.
  destruct (pics_step C HC Ov c w hs HO HWl HPl HR5 HMx f b0 P r v1 k prev x prev [p] G1 I1 SN LG) as (v2 & x2 & rs & E2 & G2 & I2 & ->).
  exists v2, x2. split; [|split; [exact G2|exact I2]]. cbn [map vrun sends vexec]. rewrite E. cbn [obind]. rewrite E2. reflexivity.
Qed.

(** From the first GOP that arrives: the SEI of GOP [k] of the session closes it. *)
Lemma mainG so k lo fr bh g h gs hss xs r v : arrives (w_epb w) so None g h h gs hss xs r -> vgoodo true True v (k - 1) None None -> v_items v = [] -> 1 <= k ->
  Forall is_gop (g :: gs) -> Forall is_gop (h :: hss) -> hashed h = hashed g ->
  Forall (fun p => p_first p = false /\ p_bytes p = None) bh ->
  Forall (seen c) (concat (g :: gs)) -> Forall (seen c) (bh ++ concat (h :: hss)) -> Forall (legal c) (bh ++ concat (h :: hss)) ->
  Forall2 (sei_with C c w) (gops_fields C w k lo fr so (g :: gs)) xs -> Forall (slim w) (gops_fields C w k lo fr so (g :: gs)) ->
  exists v' res, vrun C Ov (S f) v (map feeds (map Seen bh ++ r)) = Def (v', res) /\ told true True (map Seen bh ++ r) res /\ closes (hears C w) (map Seen bh ++ r) res /\
    forall gh, length gh = hs -> eos C Ov c w f True k lo fr so None gh (g :: gs) (h :: hss) v'.
Proof.
  intros IO G EI K1 IG IH EF FB SS SN LG F2 FS. apply Forall_app in SN as [SN0 SN], LG as [LG0 LG].
  destruct (plain_run true True (k - 1) None bh v G) as (v1 & E1 & G1 & I1); [rewrite EI; constructor|exact SN0|exact LG0|exact FB|].
  enough (X : exists v' res, vrun C Ov (S f) v1 (map feeds r) = Def (v', res) /\ told true True r res /\ closes (hears C w) r res /\
    forall gh, length gh = hs -> eos C Ov c w f True k lo fr so None gh (g :: gs) (h :: hss) v').
  { destruct X as (v' & res & E2 & A2 & A3 & A4). exists v'. eexists. split; [rewrite map_app, feeds_pics; apply (run_all C Ov f _ _ _ _ _ E1 _ _ E2)|].
    split; [apply told_app; [reflexivity|exact A2]|]. split; [apply closes_app; [apply map_length|exact A3]|exact A4]. }
  apply Forall_cons_iff in IG as [IG0 IG], IH as [IH0 IH]. cbn [concat] in SN, LG, SS.
  assert (HH : exists p r x, h = p :: r /\ p_first p = true /\ p_bytes p = Some x).
  { destruct IH0 as (p & r0 & -> & PF & PB & _). destruct (p_bytes p) as [x|] eqn:EB; [|congruence]. eauto 6. }
  inversion IO as [sp1 hp1 g1 h1 b1 X1 X2 X3 X4 X5 X6 X7 X8 X9|sp1 hp1 g1 h1 b1 g' a' b' gs1 hss1 sx y xs1 r1 D IO1 X1 X2 X3 X4 X5 X6 X7 X8 X9]; subst; clear IO.
  - cbn [concat] in SN, LG. rewrite app_nil_r in SN, LG.
    destruct (gop_run true True (k - 1) None h v1 G1 I1 SN LG HH) as (v2 & x & E2 & G2 & I2).
    exists v2. eexists. split; [rewrite feeds_pics; exact E2|]. split; [|split].
    { pose proof (told_app true True [] [] h _ eq_refl Logic.I) as A. rewrite !app_nil_r in A. exact A. }
    { pose proof (closes_app (hears C w) h [] (map (fun _ => VRes SV_OK None) h) [] (map_length _ _) Logic.I) as A. rewrite !app_nil_r in A. exact A. }
    intros gh LH z y LI SW D FE. cbn [last lstart lhash last_fields] in *. cbv zeta in *. rewrite <- EF in SW, FE, LI.
    rewrite <- (app_nil_r h) in I2.
    pose proof (lists_in C HC w hs HO HWl HPl HR5 HMx HRc k (due (w_rec w) lo (fr + frames g)) so (hashed h) gh None LI) as IN.
    assert (FI : fine C w (gop_fields_with C w k (due (w_rec w) lo (fr + frames g)) so (hashed h) gh None) so (hashed h) gh None (hashed h)) by (split; [right; reflexivity|split; [reflexivity|right; exact IN]]).
    destruct (sei_step C HC HKW Ov c w hs HO HW0 HWl HP0 HPl HPk HR5 HRb HMx f true True v2 k _ None so (hashed h) gh x None h [] z y G2 LH (or_introl FI) K1 Logic.I IH0 (or_introl eq_refl) I2 SW D FE)
      as (v3 & q & x0 & E3 & KB & FO & AO & HE & _).
    exists v3, q. split; [exact E3|]. split; [exact KB|]. split; [intros _; exact (FO FI)|]. split; [intros _ _ _; exact (AO Logic.I FI)|].
    intros _ _. left. rewrite <- EF. apply finds_tells; [|exact (FO FI)]. exact (listed_short C HC w hs HO HWl HPl HR5 HMx k _ so (hashed h) gh None IN).
  - cbn [concat] in SN, LG. rewrite <- !app_assoc in SN, LG. rewrite app_assoc in SN, LG. apply Forall_app in SN as [SN1 SN2], LG as [LG1 LG2].
    destruct (gop_run true True (k - 1) None (h ++ a') v1 G1 I1 SN1 LG1) as (v2 & x & E2 & G2 & I2); [destruct HH as (p & r0 & x & -> & ? & ?); cbn [app]; eauto 6|].
    pose proof IG as IG'. apply Forall_cons_iff in IG' as [IG1 _]. pose proof IH as IH'. apply Forall_cons_iff in IH' as [IH1 _].
    pose proof IG1 as (p & r0 & EP & PF & PB & PR). pose proof (gop_starts _ _ IH1) as SA.
    assert (EG3 : g' :: gs1 = (p :: r0) :: gs1) by (rewrite EP; reflexivity).
    rewrite EG3, gops_next, <- EG3 in F2, FS.
    apply f2_cons in F2 as [SW F2r]. apply Forall_cons_iff in FS as [FS0 FS].
    apply Forall_app in SS as [SS0 SS].
    assert (TS : match GopSpec.p_ts p with Some t => (-9223372036854775808 <= t < 9223372036854775808)%Z | None => True end).
    { assert (SP : seen c p) by (apply (proj1 (Forall_forall _ _) SS); cbn [concat]; rewrite EP; left; reflexivity).
      destruct SP as (T & _). exact T. }
    rewrite <- EF in SW, FS0, F2r, FS, IO1.
    match type of SW with sei_with _ _ _ ?z _ => assert (FI : fine C w z so (hashed h) (H (concat (hashes H (hashed h)))) None (hashed h)) by (split; [right; reflexivity|split; [reflexivity|left; reflexivity]]) end.
    destruct (sei_step C HC HKW Ov c w hs HO HW0 HWl HP0 HPl HPk HR5 HRb HMx f true True v2 k _ (GopSpec.p_ts p) so (hashed h) (H (concat (hashes H (hashed h)))) x None h a' sx y G2 (H_len C HC w hs HO _) (or_introl FI) K1 TS IH0 SA I2 SW D FS0)
      as (v3 & rep & x0 & E3 & KB & FO & AO & HE & HD & G4 & I3).
    rewrite HD in F2r, FS, IO1.
    match type of G4 with E2eStep.vgoodo _ _ _ _ _ _ (True /\ ?z) _ _ _ _ => set (okf := z) in G4 end.
    destruct (main2 C HC HKW Ov c w hs HO HW0 HWl HP0 HPl HPk HR5 HRb HMx HRc f _ _ _ _ _ _ _ _ _ IO1 (True /\ okf) a' v3 (k + 1) (fr + frames g + (if p_frame p then 1 else 0)) (fr + frames g) x eq_refl IG IH SS SN2 LG2) as (v4 & res & E4 & (A4 & A5) & A6); [lia|replace (k + 1 - 1) with k by lia; exact G4|exact I3|exact F2r|exact FS|].
    eexists v4, (_ ++ VRes SV_OK (Some rep) :: res). split; [|split; [|split]].
    + rewrite app_assoc, <- map_app, map_app, feeds_pics. apply (run_all C Ov f _ _ _ _ _ E2). cbn [map feeds vrun vexec]. rewrite E3. cbn [obind]. rewrite E4. reflexivity.
    + rewrite app_assoc, <- map_app. apply told_app; [reflexivity|]. cbn [told]. split.
      * exists rep. split; [reflexivity|]. split; [exact KB|]. split; [intros _; exact (FO FI)|]. intros _ _. exact (AO Logic.I FI).
      * eapply told_impl; [|exact A4]. tauto.
    + rewrite app_assoc, <- map_app. apply closes_app; [apply map_length|]. cbn [closes]. split; [|exact A5].
      exists rep. split; [reflexivity|]. intros LI _ _. left. rewrite <- EF.
      apply finds_tells; [|exact (FO FI)]. exact (listed_short C HC w hs HO HWl HPl HR5 HMx k true so (hashed h) [] (GopSpec.p_ts p) (lists_in C HC w hs HO HWl HPl HR5 HMx HRc k true so (hashed h) [] (GopSpec.p_ts p) (eq_ind_r (lists C w) LI EF))).
    + intros gh LH z zy LI SW2 D2 FE2.
      assert (EL : last_fields C w k lo fr so gh (g :: g' :: gs1) = last_fields C w (k + 1) (fr + frames g + (if p_frame p then 1 else 0)) (fr + frames g) (Some x0) (H (concat (hashes H (hashed h)))) (g' :: gs1)) by (rewrite EP, <- HD, EF; reflexivity).
      rewrite EL in SW2, FE2.
      destruct (A6 (H (concat (hashes H (hashed h)))) (H_len C HC w hs HO _) z zy LI SW2 D2 FE2) as (v5 & q & B1 & B2 & B3 & B4 & B5).
      exists v5, q. split; [exact B1|]. split; [exact B2|]. cbn [lstart lhash]. rewrite <- EF, HD. split; [exact B3|]. split; [|exact B5].
      intros _ _ SG. apply f2_cons in SG as [_ SG]. apply B4; [exact (conj Logic.I FI)|left; reflexivity|exact SG].
Qed.

(** NALUs that are not hashed, before any SEI. *)
Lemma pre_run0 : forall b v, vraw C c w hs v -> Forall calm (v_items v) -> Forall (seen c) b -> Forall (legal c) b ->
  Forall (fun p => p_first p = false /\ p_bytes p = None) b ->
  exists v', vrun C Ov (S f) v (map sends (map Pic b)) = Def (v', map (fun _ => VRes SV_OK None) b) /\ vraw C c w hs v' /\ Forall calm (v_items v') /\
    d_counter (v_dec v') = d_counter (v_dec v) /\ length (v_items v') = (length (v_items v) + length b)%nat.
Proof.
  induction b as [|p b IH]; intros v G Q SN LG FB; cbn [map vrun length].
  - exists v. rewrite Nat.add_0_r. auto.
  - apply Forall_cons_iff in SN as [S1 SN]. apply Forall_cons_iff in LG as [L1 LG]. apply Forall_cons_iff in FB as [(B1 & B2) FB].
    destruct (raw_step C HC Ov c w hs HO HWl HPl HR5 HMx f v p G S1 L1) as (v1 & r & it & E & G1 & (_ & IO) & X). destruct X as [(-> & EI & EC)|(X & _)]; [|congruence].
    destruct (IH v1 G1) as (v2 & E2 & G2 & Q2 & C2 & L2); [|assumption|assumption|assumption|].
    { rewrite EI. apply Forall_app. split; [exact Q|]. constructor; [|constructor]. destruct IO as [(X & _)|(y & X & _)]; [exact X|congruence]. }
    cbn [sends vexec]. rewrite E. cbn [obind]. rewrite E2. cbn [obind]. exists v2. split; [reflexivity|]. split; [exact G2|]. split; [exact Q2|].
    rewrite L2, EI, app_length. cbn [length]. split; [|lia]. congruence.
Qed.

(** A new validator that may have the public key. *)
Lemma start_gold pre z y ops so k lo fr bh g h gs hss xs r : golden_with C c w z -> delivered (w_epb w) z y ->
  few_escapes (w_epb w) (recurrent_fields w) (w_max_sig w) -> plain_nalus c pre ->
  (ops = [] /\ w_add_pub w = true) \/ (ops = [VSetKey (w_pub w)] /\ w_oid w = sha256_der) ->
  k = 1 \/ (1 <= k /\ Ov <> OvfUndef) ->
  arrives (w_epb w) so None g h h gs hss xs r ->
  Forall is_gop (g :: gs) -> Forall is_gop (h :: hss) -> hashed h = hashed g ->
  Forall (fun p => p_first p = false /\ p_bytes p = None) bh ->
  Forall (seen c) (concat (g :: gs)) -> Forall (seen c) (bh ++ concat (h :: hss)) -> Forall (legal c) (bh ++ concat (h :: hss)) ->
  Forall2 (sei_with C c w) (gops_fields C w k lo fr so (g :: gs)) xs -> Forall (slim w) (gops_fields C w k lo fr so (g :: gs)) ->
  exists v q res, vrun C Ov (S f) (vcreate C c) (ops ++ map sends (map Pic pre) ++ VAdd y true :: map feeds (map Seen bh ++ r)) =
      Def (v, map (fun _ => VRes SV_OK None) ops ++ map (fun _ => VRes SV_OK None) pre ++ VRes SV_OK (Some q) :: res) /\ greets (length pre) q /\ told true True (map Seen bh ++ r) res /\ closes (hears C w) (map Seen bh ++ r) res.
Proof.
  intros GW HD HF (PS & PL & PF) HOp HK AR IG IH EF FB SS SN LG F2 FS.
  assert (HL : (hs <= 64)%nat) by (pose proof (ok_size C HC _ _ HO) as X; unfold max_hash_size in X; lia).
  assert (MN : forall v0, vraw C c w hs v0 -> v_items v0 = [] -> d_counter (v_dec v0) = 0 -> exists v q res,
    vrun C Ov (S f) v0 (map sends (map Pic pre) ++ VAdd y true :: map feeds (map Seen bh ++ r)) = Def (v, map (fun _ => VRes SV_OK None) pre ++ VRes SV_OK (Some q) :: res) /\ greets (length pre) q /\ told true True (map Seen bh ++ r) res /\ closes (hears C w) (map Seen bh ++ r) res).
  { intros v0 G I0 C0.
    destruct (pre_run0 pre v0 G) as (va & EA & GA & QA & CA & LA); try assumption; [rewrite I0; constructor|].
    rewrite I0 in LA. cbn [length Nat.add] in LA.
    destruct (gold_step C HC HKW Ov c w hs HO HW0 HWl HP0 HPl HPk HR5 HRb HMx f va z y GA QA (eq_trans CA C0) GW HD HF) as (v1 & q & E1 & GR & G1 & I1). rewrite LA in GR.
    destruct (mainG so k lo fr bh g h gs hss xs r v1 AR) as (v2 & res & E2 & T1 & T2 & _); try assumption.
    - apply G1. destruct HK as [->|[_ HK]]; [left; reflexivity|right; exact HK].
    - destruct HK as [->|[HK _]]; [lia|exact HK].
    - exists v2, q, res. split; [|auto]. apply (run_all C Ov f _ _ _ _ _ EA). cbn [vrun vexec]. rewrite E1. cbn [obind]. rewrite E2. reflexivity. }
  destruct HOp as [(-> & HA)|(-> & HA)].
  - cbn [app map]. apply MN; [apply create_raw; assumption|reflexivity|reflexivity].
  - destruct (setkey_raw C c w hs HL HP0 HPk) as (v0 & E0 & G1 & I0); [rewrite <- HA; exact HO|exact HA|].
    destruct (MN v0 G1 I0) as (v & q & res & E & A).
    + revert E0. unfold set_public_key. destruct (w_pub w) as [|k0 kr] eqn:EP; [congruence|]. cbn [d_pub v_dec vcreate dec_init v_started]. rewrite HPk. intros [= <-]. reflexivity.
    + exists v, q, res. split; [|exact A]. cbn [app map vrun vexec]. rewrite E0. cbn [obind]. rewrite E. reflexivity.
Qed.

End Main.

(** ** From the API *)
Lemma golden_same C c w w2 z : same_start w w2 -> golden_with C c w z -> golden_with C c w2 z.
Proof.
  intros (A1 & A2 & A3 & A4 & A5 & A6) (sig & key & B1 & B2). exists sig, key.
  assert (E : recurrent_fields w2 = recurrent_fields w) by (unfold recurrent_fields; rewrite A1, A3, A4, A6; reflexivity).
  rewrite E, <- A1, <- A2, <- A5, <- A6. auto.
Qed.

(** What the settings of a session guarantee. *)
Lemma setup_facts C c coin setup s a : crypto_ok C -> keys_work C -> Forall (op_ok C) setup -> Forall (fun o => is_setting o = true) setup ->
  Exists (fun o => exists pem, o = OKey pem) setup -> run C setup (create c coin) = Def (s, a) -> Forall (fun r => rs_code r = SV_OK) a ->
  let w := fold_left (ask C) setup defaults in
  exists hs, c_oid C (w_oid w) = OidDigest hs /\ w_oid w <> [] /\ nlen (w_oid w) < 254 /\ w_pub w <> [] /\ nlen (w_pub w) < 65535 /\ c_pub_ok C (w_pub w) = true /\
    length (w_prod w) = 5%nat /\ Forall (Forall (fun b => 0 < b < 256)) (w_prod w) /\ N.of_nat (w_max_sig w) + 5 < 65536 /\ w_rec w <> 0.
Proof.
  intros HC HKW S1 S2 S3 E OK w.
  assert (SG : signs C c coin setup [] [] a).
  { repeat split; try assumption; try constructor. exists s. cbn [concat app flat_map]. rewrite app_nil_r. exact E. }
  destruct (signs_settings C HC _ _ _ _ _ _ SG) as (hs & HO & HRc & HMx). fold w in HO, HRc, HMx.
  destruct (asks_good C HC setup defaults S1) as (HW0 & HWl & HR5 & HRb).
  { repeat split; try discriminate; repeat constructor. }
  destruct (asks_key C setup defaults S1 (or_intror S3)) as [key HK]. fold w in HK.
  destruct (ok_priv C HC _ _ _ HK) as (HP0 & HPl & _ & _). destruct (HKW _ _ _ HK) as [HPk _].
  exists hs. repeat (split; [assumption|]). assumption.
Qed.

(** A golden SEI kept from another session, and a stream or the rest of it from a GOP on. *)
Lemma gold_stored C Ov f c coin setup before gs0 g gs rs coin2 setup2 rs2 pre z y bh h hss r ops : crypto_ok C -> keys_work C ->
  gs0 = [] \/ Ov <> OvfUndef ->
  signs C c coin setup before (gs0 ++ g :: gs) rs -> makes_golden C c coin2 setup2 rs2 -> In z (returned rs2) ->
  let w := fold_left (ask C) setup defaults in
  same_start (fold_left (ask C) setup2 defaults) w -> delivered (w_epb w) z y -> few_escapes (w_epb w) (recurrent_fields w) (w_max_sig w) -> plain_nalus c pre ->
  Forall is_gop (h :: hss) -> hashed h = hashed g -> Forall (fun p => p_first p = false /\ p_bytes p = None) bh ->
  Forall (seen c) (bh ++ concat (h :: hss)) -> Forall (legal c) (bh ++ concat (h :: hss)) ->
  Forall (fun fs => few_escapes (w_epb w) fs (w_max_sig w)) (gops_fields C w 1 0 (frames before) None (gs0 ++ g :: gs)) ->
  arrives (w_epb w) (hd_error (hashed (last gs0 []))) None g h h gs hss (skipn (length gs0) (returned rs)) r ->
  (ops = [] /\ w_add_pub w = true) \/ (ops = [VSetKey (w_pub w)] /\ w_oid w = sha256_der) ->
  exists v q res, vrun C Ov (S f) (vcreate C c) (ops ++ map sends (map Pic pre) ++ VAdd y true :: map feeds (map Seen bh ++ r)) =
      Def (v, map (fun _ => VRes SV_OK None) ops ++ map (fun _ => VRes SV_OK None) pre ++ VRes SV_OK (Some q) :: res) /\ greets (length pre) q /\ told true True (map Seen bh ++ r) res /\ closes (hears C w) (map Seen bh ++ r) res.
Proof.
  intros HC HKW HOv SG MG HZ w SS HD HF PP IH EF FB SN LG FE AR HOp.
  destruct (golden_made C HC _ _ _ _ MG) as (z' & EZ & GW). rewrite EZ in HZ. destruct HZ as [->|[]].
  apply (golden_same C c _ w) in GW; [|exact SS].
  pose proof (session_gops C HC c coin setup before (gs0 ++ g :: gs)) as SE.
  destruct SG as (S1 & S2 & S3 & S4 & S5 & S6 & (s & S7) & S8).
  assert (F2 : Forall2 (sei_with C c w) (gops_fields C w 1 0 (frames before) None (gs0 ++ g :: gs)) (returned rs)) by exact (proj1 (SE s rs S1 S2 S3 S4 S5 S6 S7 S8)).
  assert (RS : exists s0 a, run C setup (create c coin) = Def (s0, a) /\ Forall (fun r => rs_code r = SV_OK) a).
  { rewrite run_app in S7. destruct (run C setup (create c coin)) as [[s0 a]|u] eqn:E0; [|discriminate]. cbn [obind] in S7.
    destruct (run C _ s0) as [[s1 b]|u]; [|discriminate]. cbn [obind] in S7. injection S7 as <- <-. apply Forall_app in S8 as [S8 _]. eauto. }
  destruct RS as (s0 & a & RS & RO).
  destruct (setup_facts C c coin setup s0 a HC HKW S1 S2 S3 RS RO) as (hs & HO & HW0 & HWl & HP0 & HPl & HPk & HR5 & HRb & HMx & HRc). fold w in HO, HW0, HWl, HP0, HPl, HPk, HR5, HRb, HMx, HRc.
  apply Forall_app in S6 as [S60 S6]. pose proof S6 as S6'. apply Forall_cons_iff in S6' as [IG _].
  rewrite concat_app in S4. apply Forall_app in S4 as [_ S4]. apply Forall_app in S4 as [_ S4].
  destruct gs0 as [|g0 gs0'].
  - cbn [app length skipn last hashed hd_error] in *.
    exact (start_gold C HC HKW Ov c w hs HO HW0 HWl HP0 HPl HPk HR5 HRb HMx HRc f pre z y ops None 1 0 (frames before) bh g h gs hss (returned rs) r GW HD HF PP HOp (or_introl eq_refl) AR S6 IH EF FB S4 SN LG F2 FE).
  - destruct HOv as [HOv|HOv]; [discriminate|]. set (gs0 := g0 :: gs0') in *. assert (N0 : gs0 <> []) by discriminate. clearbody gs0.
    assert (G0 : g <> []) by (destruct IG as (p & r' & -> & _); discriminate).
    assert (NE : Forall (fun g => g <> []) gs0) by (eapply Forall_impl; [|exact S60]; intros ? (p & r' & -> & _); discriminate).
    destruct (fields_split C w g gs G0 gs0 1 0 (frames before) None N0 NE) as (A & lo0 & fr' & so & gs1 & gl & p & E1 & E2 & E3 & E4 & E5); [lia|].
    rewrite E5 in F2, FE.
    assert (EA : length gs0 = length (A ++ [gop_fields C w (1 + nlen gs1) (due (w_rec w) lo0 (fr' + head_frame g)) so (hashed gl) (GopSpec.p_ts p)])) by (rewrite E1, !app_length, E2; reflexivity).
    change (A ++ ?x :: ?r) with (A ++ [x] ++ r) in F2, FE. rewrite app_assoc in F2, FE.
    apply forall2_app in F2 as [_ F2]. rewrite <- EA in F2. apply Forall_app in FE as [_ FE'].
    assert (K1 : 1 <= 1 + nlen gs0) by lia.
    assert (EL : last gs0 [] = gl) by (rewrite E1; apply last_last). rewrite EL in AR.
    exact (start_gold C HC HKW Ov c w hs HO HW0 HWl HP0 HPl HPk HR5 HRb HMx HRc f pre z y ops (hd_error (hashed gl)) (1 + nlen gs0) (fr' + head_frame g) fr' bh g h gs hss _ r GW HD HF PP HOp (or_intror (conj K1 HOv)) AR S6 IH EF FB S4 SN LG F2 FE').
Qed.

(** A golden SEI at the beginning of the session. *)
Lemma gold_first C Ov f c coin setup before g gs rs pre z xs y bh h hss r ops : crypto_ok C -> keys_work C ->
  signs_golden C c coin setup before (g :: gs) rs -> returned rs = z :: xs ->
  let w := framed (fold_left (ask C) setup defaults) in
  delivered (w_epb w) z y -> few_escapes (w_epb w) (recurrent_fields w) (w_max_sig w) -> plain_nalus c pre ->
  Forall is_gop (h :: hss) -> hashed h = hashed g -> Forall (fun p => p_first p = false /\ p_bytes p = None) bh ->
  Forall (seen c) (bh ++ concat (h :: hss)) -> Forall (legal c) (bh ++ concat (h :: hss)) ->
  Forall (fun fs => few_escapes (w_epb w) fs (w_max_sig w)) (gops_fields C w 1 0 (frames before) None (g :: gs)) ->
  arrives (w_epb w) None None g h h gs hss xs r ->
  (ops = [] /\ w_add_pub w = true) \/ (ops = [VSetKey (w_pub w)] /\ w_oid w = sha256_der) ->
  exists v q res, vrun C Ov (S f) (vcreate C c) (ops ++ map sends (map Pic pre) ++ VAdd y true :: map feeds (map Seen bh ++ r)) =
      Def (v, map (fun _ => VRes SV_OK None) ops ++ map (fun _ => VRes SV_OK None) pre ++ VRes SV_OK (Some q) :: res) /\ greets (length pre) q /\ told true True (map Seen bh ++ r) res /\ closes (hears C w) (map Seen bh ++ r) res.
Proof.
  intros HC HKW SG EZ w HD HF PP IH EF FB SN LG FE AR HOp.
  destruct (golden_session C HC _ _ _ _ _ _ SG) as (z' & xs' & EZ' & GW & F2). rewrite EZ in EZ'. injection EZ' as <- <-. fold w in F2.
  apply (golden_same C c _ w) in GW; [|unfold w; destruct (fold_left (ask C) setup defaults); repeat split].
  destruct SG as (S1 & S2 & S3 & S4 & S5 & S6 & (s & S7) & S8).
  assert (RS : exists s0 a, run C setup (create c coin) = Def (s0, a) /\ Forall (fun r => rs_code r = SV_OK) a).
  { rewrite run_app in S7. destruct (run C setup (create c coin)) as [[s0 a]|u] eqn:E0; [|discriminate]. cbn [obind] in S7.
    destruct (run C _ s0) as [[s1 b]|u]; [|discriminate]. cbn [obind] in S7. injection S7 as <- <-. apply Forall_app in S8 as [S8 _]. eauto. }
  destruct RS as (s0 & a & RS & RO).
  destruct (setup_facts C c coin setup s0 a HC HKW S1 S2 S3 RS RO) as (hs & HO & HW0 & HWl & HP0 & HPl & HPk & HR5 & HRb & HMx & HRc).
  apply Forall_app in S4 as [_ S4].
  assert (EW : w_oid w = w_oid (fold_left (ask C) setup defaults) /\ w_pub w = w_pub (fold_left (ask C) setup defaults) /\ w_prod w = w_prod (fold_left (ask C) setup defaults) /\
    w_max_sig w = w_max_sig (fold_left (ask C) setup defaults) /\ w_rec w = w_rec (fold_left (ask C) setup defaults)) by (unfold w; destruct (fold_left (ask C) setup defaults); repeat split).
  clearbody w. destruct EW as (W1 & W2 & W3 & W4 & W5). rewrite <- W1 in HO, HW0, HWl. rewrite <- W2 in HP0, HPl, HPk. rewrite <- W3 in HR5, HRb. rewrite <- W4 in HMx. rewrite <- W5 in HRc.
  exact (start_gold C HC HKW Ov c w hs HO HW0 HWl HP0 HPl HPk HR5 HRb HMx HRc f pre z y ops None 1 0 (frames before) bh g h gs hss xs r GW HD HF PP HOp (or_introl eq_refl) AR S6 IH EF FB S4 SN LG F2 FE).
Qed.

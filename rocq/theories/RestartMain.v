(** A new validator gets a stream that was signed after a reset. *)
From Verif Require Import Base BaseProofs Epb EpbProofs Nalu NaluSpec NaluProofs Crypto Types Hash Tlv TlvProofs EncProofs CodecSpec CodecProofs
  SeiSpec SeiProofs GenProofs SessProofs Signer SignSpec DrainProofs GopSpec GopProofs VTypes NaluList Validator SeiHashProofs VListProofs VUnsigned
  E2eSpec DamageSpec E2eDec E2eList E2eVal E2eAny E2eStep E2eSei E2eRaw E2eMain E2eSeg RestartSpec RestartProofs.
Local Open Scope N_scope.

Local Existing Instance zero_gop.
Section Two.
Variables (C : crypto) (Ov : ovf) (f : nat) (c : codec) (coin : N) (setup : list sop) (ss1 ss2 : list stream) (b : list piece) (g : list piece) (gs : list (list piece)) (rs : list sres).
Hypothesis HC : crypto_ok C.
Hypothesis HKW : keys_work C.
Hypothesis HOv : Ov <> OvfUndef.
Hypothesis SG : signs_each C c coin setup (ss1 ++ (b, g :: gs) :: ss2) rs.
Let w := fold_left (ask C) setup defaults.
Hypothesis HU : w_using w = false.
Hypothesis HR1 : w_rec w = 1.
Hypothesis LG : Forall (legal c) (b ++ concat (g :: gs)).
Hypothesis FE : Forall (fun fs => few_escapes (w_epb w) fs (w_max_sig w))
  (gops_fields C w (1 + N.of_nat (seis_made ss1)) (last_made_at 0 0 ss1) (pictures_in ss1 + frames b) None (g :: gs)).

Lemma each_settings : exists hs, c_oid C (w_oid w) = OidDigest hs /\ w_rec w <> 0 /\ N.of_nat (w_max_sig w) + 5 < 65536.
Proof.
  destruct SG as (HO & HI & HK & _ & (s & E) & OK). rewrite run_app in E.
  destruct (run C setup (create c coin)) as [[s0 a]|u] eqn:E0; [|discriminate]. cbn [obind] in E.
  destruct (run C (streams_ops (ss1 ++ (b, g :: gs) :: ss2)) s0) as [[s1 d]|u] eqn:E1; [|discriminate]. cbn [obind] in E.
  injection E as <- <-. apply Forall_app in OK as [O0 O1].
  apply (signs_settings C HC c coin setup [] [] a). split; [exact HO|]. split; [exact HI|]. split; [exact HK|].
  split; [constructor|]. split; [constructor|]. split; [constructor|]. split; [|exact O0].
  exists s0. cbn [app concat flat_map]. rewrite app_nil_r. exact E0.
Qed.

Lemma each_valid l ops : transmits (w_epb w) b (g :: gs) (firstn (length gs) (skipn (seis_made ss1) (returned rs))) l ->
  (ops = [] /\ w_add_pub w = true) \/ (ops = [VSetKey (w_pub w)] /\ w_oid w = sha256_der) ->
  exists v res, vrun C Ov (S f) (vcreate C c) (ops ++ map sends l) = Def (v, map (fun _ => VRes SV_OK None) ops ++ res) /\ answers false l res.
Proof.
  intros TR HOp. destruct each_settings as (hs & HO & HRc & HMx).
  pose proof (each_stream C HC c coin setup ss1 b (g :: gs) ss2 rs SG) as F2. cbv zeta in F2. change (fold_left (ask C) setup defaults) with w in F2.
  replace (length (g :: gs) - 1)%nat with (length gs) in F2 by (cbn [length]; lia).
  destruct SG as (S1 & S2 & S3 & S4 & (s & S7) & S8).
  destruct (asks_good C HC setup defaults S1) as (HW0 & HWl & HR5 & HRb).
  { repeat split; try discriminate; repeat constructor. }
  change (fold_left (ask C) setup defaults) with w in HW0, HWl, HR5, HRb.
  destruct (asks_key C setup defaults S1 (or_intror S3)) as [key HK]. change (fold_left (ask C) setup defaults) with w in HK.
  destruct (ok_priv C HC _ _ _ HK) as (HP0 & HPl & _ & _). destruct (HKW _ _ _ HK) as [HPk _].
  assert (HL : (hs <= 64)%nat) by (pose proof (ok_size C HC _ _ HO) as X; unfold max_hash_size in X; lia).
  apply Forall_app in S4 as [S40 S4]. apply Forall_cons_iff in S4 as [(S4 & FB & S6) _]. cbn [fst snd] in S4, FB, S6.
  assert (LM : last_made_at 0 0 ss1 <= pictures_in ss1).
  { rewrite <- (N.add_0_l (pictures_in ss1)). apply last_made_le; [|lia]. eapply Forall_impl; [|exact S40]. intros y H; apply H. }
  pose proof S6 as S6'. apply Forall_cons_iff in S6' as [IG _].
  pose proof S4 as S4'. apply Forall_app in S4' as [SB SC].
  destruct TR as (r & -> & IO). destruct (same_order _ _ _ _ _ _ IO None None (or_intror eq_refl)) as (ev & AR & M & T).
  assert (TA : forall res, told false True (map Seen b ++ ev) res -> answers false (map Pic b ++ r) res).
  { clear - T. induction b as [|p q IH]; intros res; [apply T; exact I|]. cbn [map app]. destruct res as [|r0 res]; cbn [told answers]; [auto|].
    intros [T1 T2]. split; [exact T1|apply IH, T2]. }
  assert (MN : forall v0, vraw C c w hs v0 -> v_items v0 = [] -> exists v res, vrun C Ov (S f) v0 (map sends (map Pic b ++ r)) = Def (v, res) /\ answers false (map Pic b ++ r) res).
  { intros v0 G I0.
    destruct (main0 C HC HKW Ov c w hs HO HW0 HWl HP0 HPl HPk HR5 HRb HMx HU HRc f None (1 + N.of_nat (seis_made ss1)) (last_made_at 0 0 ss1) (pictures_in ss1 + frames b) b g g gs gs _ ev v0 AR G I0 S6 S6 eq_refl FB SC S4 LG)
      as (v & res & E & (TD & _) & _); [split; [lia|left; exact HOv]| |exact F2|exact FE|].
    - intros nx r' HN. rewrite HR1. apply due_one.
      assert (FN : p_frame nx = true).
      { destruct gs as [|g2 gs']; [discriminate|]. cbn [hd_error] in HN. injection HN as ->. apply Forall_cons_iff in S6 as [_ S6]. apply Forall_cons_iff in S6 as [(p1 & r1 & EG & PF & _) _].
        injection EG as <- <-. apply (first_frame c nx); [| |exact PF].
        - apply (proj1 (Forall_forall _ _) SC). cbn [concat]. apply in_or_app. right. left. reflexivity.
        - apply (proj1 (Forall_forall _ _) LG). apply in_or_app. right. cbn [concat]. apply in_or_app. right. left. reflexivity. }
      rewrite FN. lia.
    - exists v, res. split; [|apply TA, TD]. rewrite <- E, !map_app, M, feeds_pics. reflexivity. }
  destruct HOp as [(-> & HA)|(-> & HA)].
  - cbn [app map]. apply MN; [apply create_raw; assumption|reflexivity].
  - destruct (setkey_raw C c w hs HL HP0 HPk) as (v0 & E0 & G1 & I0); [rewrite <- HA; exact HO|exact HA|].
    destruct (MN v0 G1 I0) as (v & res & E & AN).
    exists v, res. split; [|exact AN]. cbn [app map vrun vexec]. rewrite E0. cbn [obind]. rewrite E. reflexivity.
Qed.
End Two.

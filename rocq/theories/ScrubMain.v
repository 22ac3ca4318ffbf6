(** A validator that was used for anything and is then reset gets a part of a signed stream. *)
From Verif Require Import Base BaseProofs Epb EpbProofs Nalu NaluSpec NaluProofs Crypto Types Hash Tlv TlvProofs EncProofs CodecSpec CodecProofs
  SeiSpec SeiProofs GenProofs SessProofs Signer SignSpec DrainProofs GopSpec GopProofs VTypes NaluList Validator ValidSpec SeiHashProofs VListProofs VUnsigned VReset VTerm
  E2eSpec DamageSpec E2eDec E2eList E2eVal E2eAny E2eStep E2eSei E2eRaw E2eMain E2eSeg SignerProofs SafeSpec SafeDec SafeProofs SafeMain.
Local Open Scope N_scope.

Section Scrub.
Variables (C : crypto) (Ov : ovf) (f : nat) (c : codec) (coin : N) (setup : list sop) (before : list piece) (gs0 : list (list piece)) (g : list piece) (gs : list (list piece)) (rs : list sres).
Hypothesis HC : crypto_ok C.
Hypothesis HKW : keys_work C.
Hypothesis HV : forall k s h, c_verify C k s h = 0%Z \/ c_verify C k s h = 1%Z.
Hypothesis SG : signs C c coin setup before (gs0 ++ g :: gs) rs.
Let w := fold_left (ask C) setup defaults.
Hypothesis HA : w_add_pub w = true.
Hypothesis HU : w_using w = false.
Hypothesis HR1 : w_rec w = 1.
Variable bh : list piece.
Hypothesis LG : Forall (legal c) (bh ++ concat (g :: gs)).
Hypothesis SB : Forall (seen c) bh.
Hypothesis FB : Forall (fun p => p_first p = false /\ p_bytes p = None) bh.
Hypothesis FE : Forall (fun fs => few_escapes (w_epb w) fs (w_max_sig w)) (gops_fields C w 1 0 (frames before) None (gs0 ++ g :: gs)).

Local Instance these : okkeys := {| okkey := eq (w_pub w); oksig := eq (w_max_sig w) |}.

Lemma reset_raw hs v : c_oid C (w_oid w) = OidDigest hs -> fine C (w_oid w) hs c v -> @vraw (v_gop v) C c w hs (vreset v).
Proof.
  intros HO [[K _] EC]. assert (HL : (hs <= 64)%nat) by (pose proof (ok_size C HC _ _ HO) as X; unfold max_hash_size in X; lia).
  destruct K as [D A K1 K2 K3 K4 K5 K6]. constructor; try reflexivity; try assumption.
  - destruct (init_type (d_handle (v_dec v))) as (T1 & T2 & T3). destruct D as [D1 D2 D3 D4 D5 D6 D7 D8]. unfold pre_dec, vreset. cbn. rewrite T1, T2, T3.
    split; [reflexivity|]. split; [destruct (d_sig (v_dec v)); [symmetry; exact D8|exact I]|]. split; [exact D5|]. split; [exact D6|]. split; [reflexivity|]. split; [exact D1|]. split; [exact D4|].
    destruct (d_has_pub (v_dec v)) eqn:EP; [|left; auto]. right. destruct (D7 eq_refl) as (E1 & _ & E2). assert (HT : h_type (d_handle (v_dec v)) = w_oid w) by (destruct A as [A|[A _]]; congruence).
    split; [reflexivity|]. split; [symmetry; exact E1|]. split; [rewrite E2; f_equal; symmetry; exact E1|]. split; [congruence|]. rewrite D3. unfold hash_size. rewrite HT. unfold oid_size. rewrite HO. reflexivity.
  - apply zero_links. exact HL.
  - repeat split; constructor.
Qed.

(** The whole stream. *)
Lemma whole_raw {SGop : start_gop} hs l v0 : gs0 = [] -> c_oid C (w_oid w) = OidDigest hs -> apart Ov 1 first_gop -> transmits (w_epb w) bh (g :: gs) (returned rs) l ->
  vraw C c w hs v0 -> v_items v0 = [] -> exists v res, vrun C Ov (S f) v0 (map sends l) = Def (v, res) /\ answers false l res.
Proof.
  intros E0 HO HAp TR G I0. rewrite E0 in *. cbn [app] in *.
  destruct (signs_settings C HC _ _ _ _ _ _ SG) as (hs' & HO' & HRc & HMx). fold w in HO', HRc, HMx. assert (hs' = hs) as -> by congruence. clear HO'.
  pose proof (session_gops C HC c coin setup before (g :: gs)) as SE.
  destruct SG as (S1 & S2 & S3 & S4 & S5 & S6 & (s & S7) & S8).
  destruct (asks_good C HC setup defaults S1) as (HW0 & HWl & HR5 & HRb).
  { repeat split; try discriminate; repeat constructor. }
  fold w in HW0, HWl, HR5, HRb.
  destruct (asks_key C setup defaults S1 (or_intror S3)) as [key HK]. fold w in HK.
  destruct (ok_priv C HC _ _ _ HK) as (HP0 & HPl & _ & _). destruct (HKW _ _ _ HK) as [HPk _].
  assert (F2 : Forall2 (sei_with C c w) (gops_fields C w 1 0 (frames before) None (g :: gs)) (returned rs)) by exact (proj1 (SE s rs S1 S2 S3 S4 S5 S6 S7 S8)).
  apply Forall_app in S4 as [_ S4].
  destruct TR as (r & -> & IO). destruct (same_order _ _ _ _ _ _ IO None None (or_intror eq_refl)) as (ev & AR & M & T).
  assert (TA : forall res, told false True (map Seen bh ++ ev) res -> answers false (map Pic bh ++ r) res).
  { clear - T. induction bh as [|p b IH]; intros res; [apply T; exact I|]. cbn [map app]. destruct res as [|r0 res]; cbn [told answers]; [auto|].
    intros [T1 T2]. split; [exact T1|apply IH, T2]. }
  destruct (main0 C HC HKW Ov c w hs HO HW0 HWl HP0 HPl HPk HR5 HRb HMx HU HRc f None 1 0 (frames before) bh g g gs gs _ ev v0 AR G I0 S6 S6 eq_refl FB S4)
    as (v & res & E & (TD & _) & _); [apply Forall_app; split; [exact SB|exact S4]|exact LG|split; [lia|exact HAp]| |exact F2|exact FE|].
  - intros nx r' HN. rewrite HR1. apply due_one.
    assert (FN : p_frame nx = true).
    { destruct gs as [|g2 gs']; [discriminate|]. cbn [hd_error] in HN. injection HN as ->. apply Forall_cons_iff in S6 as [_ S6]. apply Forall_cons_iff in S6 as [(p1 & r1 & EG & PF & _) _].
      injection EG as <- <-. apply (first_frame c nx); [| |exact PF].
      - apply (proj1 (Forall_forall _ _) S4). cbn [concat]. apply in_or_app. right. left. reflexivity.
      - apply (proj1 (Forall_forall _ _) LG). apply in_or_app. right. cbn [concat]. apply in_or_app. right. left. reflexivity. }
    rewrite FN. lia.
  - exists v, res. split; [|apply TA, TD]. rewrite <- E, !map_app, M, feeds_pics. reflexivity.
Qed.

Lemma history a : Forall (harmless_of (eq (w_pub w)) (eq (w_max_sig w)) C c (w_oid w)) a ->
  exists hs, c_oid C (w_oid w) = OidDigest hs /\ w_oid w <> [] /\ holds (vrun C Ov (S f) (vcreate C c) a) (fun '(v, ra) => fine C (w_oid w) hs c v /\ ~ In VLegacy ra) (bad Ov).
Proof.
  intros HH. destruct (signs_settings C HC _ _ _ _ _ _ SG) as (hs & HO & _ & _). fold w in HO.
  destruct SG as (S1 & _). destruct (asks_good C HC setup defaults S1) as (HW0 & _); [repeat split; try discriminate; repeat constructor|]. fold w in HW0.
  exists hs. split; [exact HO|]. split; [exact HW0|]. exact (session_ok C HC Ov (w_oid w) hs HO HW0 HV (S f) c a HH).
Qed.
Lemma ends a : Ov = OvfWrap -> Forall (harmless_of (eq (w_pub w)) (eq (w_max_sig w)) C c (w_oid w)) a -> Forall octets a -> (S (length (filter is_add a)) < S f)%nat ->
  exists v ra, vrun C Ov (S f) (vcreate C c) a = Def (v, ra).
Proof.
  intros HOv HH HB HF. destruct (history a HH) as (hs & _ & _ & X). pose proof (run_ends C Ov (S f) c a) as T.
  destruct (vrun C Ov (S f) (vcreate C c) a) as [[v ra]|u]; [eauto|]. cbn [holds] in X. destruct X as [->|[X _]]; [|congruence]. exfalso. apply T; auto. congruence.
Qed.

Lemma scrub_gop a v ra l : Forall (harmless_of (eq (w_pub w)) (eq (w_max_sig w)) C c (w_oid w)) a -> vrun C Ov (S f) (vcreate C c) a = Def (v, ra) ->
  apart Ov ((1 + nlen gs0) mod 2 ^ 32) (v_gop v) -> transmits (w_epb w) bh (g :: gs) (skipn (length gs0) (returned rs)) l ->
  exists v2 res, vrun C Ov (S f) (vcreate C c) (a ++ VReset :: map sends l) = Def (v2, ra ++ VRes SV_OK None :: res) /\ answers false l res.
Proof.
  intros HH E HAp TR. destruct (history a HH) as (hs & HO & _ & X). rewrite E in X. destruct X as [FN _]. pose proof (reset_raw hs v HO FN) as G.
  assert (X : exists v2 res, vrun C Ov (S f) (vreset v) (map sends l) = Def (v2, res) /\ answers false l res).
  { assert (D : gs0 = [] \/ gs0 <> []) by (clear; destruct gs0; [left; reflexivity|right; discriminate]). destruct D as [E0|N0].
    - rewrite E0 in TR, HAp. cbn [length skipn] in TR. apply (@whole_raw (v_gop v) hs l (vreset v) E0 HO HAp TR G eq_refl).
    - apply (@seg_gop_raw (v_gop v) C Ov f c coin setup before gs0 g gs rs HC HKW SG N0 HU HR1 bh LG SB FB FE hs l (vreset v) HO HAp TR G eq_refl). }
  destruct X as (v2 & res & E2 & AN). exists v2, res. split; [|exact AN]. apply (run_all C Ov f _ _ _ _ _ E). cbn [vrun vexec obind]. rewrite E2. reflexivity.
Qed.
Lemma heals a l : Ov = OvfWrap -> Forall (harmless_of (eq (w_pub w)) (eq (w_max_sig w)) C c (w_oid w)) a -> Forall octets a -> (S (length (filter is_add a)) < S f)%nat ->
  transmits (w_epb w) bh (g :: gs) (skipn (length gs0) (returned rs)) l ->
  exists v ra v2 res, vrun C Ov (S f) (vcreate C c) a = Def (v, ra) /\ vrun C Ov (S f) (vcreate C c) (a ++ VReset :: map sends l) = Def (v2, ra ++ VRes SV_OK None :: res) /\ answers false l res.
Proof.
  intros HOv HH HB HF TR. destruct (ends a HOv HH HB HF) as (v & ra & E). destruct (scrub_gop a v ra l HH E) as (v2 & res & E2 & A); [left; congruence|exact TR|].
  exists v, ra, v2, res. auto.
Qed.
Lemma scrub_sei a v ra x y p l : Ov <> OvfUndef -> gs0 <> [] -> Forall (harmless_of (eq (w_pub w)) (eq (w_max_sig w)) C c (w_oid w)) a -> vrun C Ov (S f) (vcreate C c) a = Def (v, ra) ->
  nth_error (returned rs) (length gs0 - 1) = Some x -> delivered (w_epb w) x y ->
  transmits (w_epb w) [] (g :: gs) (skipn (length gs0) (returned rs)) (Pic p :: l) ->
  exists v2 q res, vrun C Ov (S f) (vcreate C c) (a ++ VReset :: map sends (map Pic bh) ++ VAdd y true :: sends (Pic p) :: map sends l) =
      Def (v2, ra ++ VRes SV_OK None :: map (fun _ => VRes SV_OK None) bh ++ VRes SV_OK None :: VRes SV_OK (Some q) :: res) /\
    l_auth (p_latest q) = SigPresent /\ p_changed q = false /\ answers true l res.
Proof.
  intros HOv N0 HH E NX HD TR. destruct (history a HH) as (hs & HO & _ & X). rewrite E in X. destruct X as [FN _]. pose proof (reset_raw hs v HO FN) as G.
  destruct (@seg_sei_raw (v_gop v) C Ov f c coin setup before gs0 g gs rs HC HKW SG N0 HU HR1 bh LG SB FB FE hs x y p l (vreset v) HO HOv NX HD TR G eq_refl) as (v2 & q & res & E2 & AN).
  exists v2, q, res. split; [|exact AN]. apply (run_all C Ov f _ _ _ _ _ E). cbn [vrun vexec obind]. rewrite E2. reflexivity.
Qed.
End Scrub.

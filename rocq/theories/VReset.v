(** NALUs that are no Signed Video SEIs, and sessions after a reset: lemmas. *)
From Verif Require Import Base BaseProofs Nalu NaluProofs Crypto Types VTypes NaluList Validator ValidSpec SignerProofs VListProofs VFrameProofs VUnsigned.
From Coq Require Import Lia.
Local Open Scope N_scope.

(** The header [h] is that of a SEI. *)
Definition sei_header (c : codec) (h : list N) : Prop :=
  match c with
  | H264 => nth 0 h 0 mod 32 = 6
  | H265 => nth 0 h 0 / 2 mod 64 = 39 \/ nth 0 h 0 / 2 mod 64 = 40
  end.
(** User data with another identifier than that of Signed Video, after a size in as many bytes as it needs. *)
Definition other_user_data (r : list N) : Prop :=
  exists k b u t, r = repeat 255 k ++ b :: u ++ t /\ b <> 255 /\ length u = 16%nat /\ u <> uuid_sv.
(** A start code, a header, a byte, and anything; if it is a SEI with user data, then that of others. *)
Definition other_nalu (c : codec) (d : list N) : Prop :=
  exists s h x r, (s = [0; 0; 1] \/ s = [0; 0; 0; 1]) /\ d = s ++ h ++ x :: r /\ length h = header_len c /\ bytes_ok d /\
    (sei_header c h -> x = 5 -> other_user_data r).

Lemma payload_size k b t : b <> 255 -> exists n j, get_payload_size (repeat 255 k ++ b :: t) = Def (n, j, t).
Proof.
  intros HB. induction k as [|k (n & j & IH)]; cbn [repeat app get_payload_size].
  - destruct (N.eqb_spec b 255); [contradiction|]. eauto.
  - change (255 =? 255) with true. cbv iota. rewrite IH. cbn [obind]. eauto.
Qed.
Lemma parse_header_other c h x r : length h = header_len c ->
  exists t p v, parse_header c (h ++ x :: r) = Def (t, p, v) /\ (t = TSei -> sei_header c h).
Proof.
  destruct c; cbn [header_len].
  - destruct h as [|h0 [|h1 h]]; try discriminate. intros _. cbn [app parse_header parse_h264_header sei_header nth].
    destruct (h0 mod 32) as [|p]; [do 3 eexists; split; [reflexivity|discriminate]|].
    do 5 (try (destruct p as [p|p|]; try (do 3 eexists; split; [reflexivity|first [discriminate|intros; reflexivity]]))).
  - destruct h as [|h0 [|h1 [|h2 h]]]; try discriminate. intros _. cbn [app parse_header parse_h265_header sei_header nth].
    destruct (_ || _); [do 3 eexists; split; [reflexivity|discriminate]|].
    destruct ((h0 / 2) mod 64) as [|p]; [do 3 eexists; split; [reflexivity|discriminate]|].
    do 6 (try (destruct p as [p|p|]; try (do 3 eexists; split; [reflexivity|first [discriminate|intros; auto]]))).
Qed.
Lemma other_unsigned c d : other_nalu c d -> unsigned_nalu c d.
Proof.
  intros (s & h & x & r & HS & HD & HL & HB & HU). right.
  assert (ST : start_code_len d = Def (length s)).
  { subst d. destruct HS as [->| ->]; [|apply start4]. destruct h as [|h0 h]; [destruct c; discriminate|]. apply start3. unfold bytes_ok in HB. rewrite Forall_forall in HB. apply HB. cbn. auto 10. }
  unfold parse_nalu. destruct d as [|d0 d1] eqn:ED; [destruct HS as [->| ->]; discriminate|]. rewrite <- ED in *. clear ED d0 d1.
  rewrite ST. cbn [obind]. cbv zeta.
  assert (SK : skipn (length s) d = h ++ x :: r) by (rewrite HD; rewrite skipn_app, skipn_all, Nat.sub_diag; reflexivity). rewrite SK.
  destruct (parse_header_other c h x r HL) as (t & p & v & -> & HT). cbn [obind].
  assert (NZ : exists b, In b d /\ b <> 0) by (exists 1; split; [subst d; destruct HS as [->| ->]; cbn; auto 10|discriminate]).
  destruct (strip_nonzero d NZ) as (tr & ->). cbn [obind]. destruct (ntype_eqb t TSei) eqn:ET; cbn [negb]; [|eexists; split; reflexivity].
  replace (skipn (header_len c) (h ++ x :: r)) with (x :: r) by (rewrite <- HL, skipn_app, skipn_all, Nat.sub_diag; reflexivity).
  destruct (N.eqb_spec x 5) as [->|HX]; [|eexists; split; reflexivity].
  assert (t = TSei) by (destruct t; (reflexivity || discriminate)). destruct (HU (HT H) eq_refl) as (k & b & u & tl & -> & HB5 & HU1 & HU2).
  destruct (payload_size k b (u ++ tl) HB5) as (n & j & ->). cbn [obind]. rewrite app_length, HU1. cbn [Nat.ltb Nat.leb Nat.add].
  replace (firstn 16 (u ++ tl)) with u by (rewrite <- HU1, firstn_app, firstn_all, Nat.sub_diag; cbn; symmetry; apply app_nil_r).
  destruct (bytes_eqb u uuid_sv) eqn:EQ; [apply bytes_eqb_eq in EQ; contradiction|]. cbn [andb]. unfold remove_epb. cbn. eexists. split; reflexivity.
Qed.

Section Reset.
Variable C : crypto.
Variable Ov : ovf.
Lemma reset_uns v : v_legacy v = false -> uns (vreset v).
Proof. intros H. unfold uns. cbn. repeat split; auto. Qed.
Lemma exec_codec f v o v' r : vexec C Ov f v o = Def (v', r) -> v_legacy v' = false -> v_legacy v = false /\ v_codec v' = v_codec v.
Proof.
  destruct o as [d w|k| |]; cbn [vexec].
  - unfold add_nalu. destruct d as [|d0 d1]; [intros H; injection H as <- <-; auto|]. cbv zeta. set (v1 := create_report (set_v_started true v)).
    assert (E1 : v_codec v1 = v_codec v /\ v_legacy v1 = v_legacy v) by (unfold v1, create_report; dif; split; reflexivity). clearbody v1. destruct E1 as [E1 E2].
    destruct (v_legacy v1) eqn:EL; [intros H; injection H as <- <-; congruence|]. pose proof (add_h26x_fr C Ov f v1 (d0 :: d1)) as HF.
    destruct (add_h26x C Ov f v1 (d0 :: d1)) as [[v2 st]|]; [|discriminate]. cbn [obind holds] in *. destruct (v_legacy v2) eqn:EL2; [intros H; injection H as <- <-; congruence|].
    destruct HF as [HF|(HF & _)]; [congruence|]. destruct (is_ok st); cbn [negb]; [|intros H; injection H as <- <-; intros; split; congruence].
    destruct (v_result v2); [|intros H; injection H as <- <-; intros; split; congruence].
    assert (UR : v_codec (update_report v2) = v_codec v2) by (unfold update_report; cbv zeta; dif; destruct (clean_up _); reflexivity).
    destruct w; [unfold get_report; dif|]; intros H; injection H as <- <-; intros; cbn; split; congruence.
  - unfold set_public_key. destruct k as [|k0 k1]; [intros H; injection H as <- <-; auto|]. destruct (d_pub (v_dec v)); [|intros H; injection H as <- <-; auto].
    destruct (v_started v); [intros H; injection H as <- <-; auto|]. destruct (c_pub_ok C _); intros H; injection H as <- <-; auto.
  - intros H. injection H as <- <-. auto.
  - destruct (v_legacy v) eqn:EL; [intros H; injection H as <- <-; congruence|]. unfold get_report. dif; intros H; injection H as <- <-; auto.
Qed.
Lemma run_codec f ops : forall v v' res, vrun C Ov f v ops = Def (v', res) -> v_legacy v' = false -> v_legacy v = false /\ v_codec v' = v_codec v.
Proof.
  induction ops as [|o ops IH]; intros v v' res; cbn [vrun]; [intros H; injection H as <- <-; auto|].
  destruct (vexec C Ov f v o) as [[v1 x]|] eqn:E1; [|discriminate]. cbn [obind]. destruct (vrun C Ov f v1 ops) as [[v2 xs]|] eqn:E2; [|discriminate]. cbn [obind]. intros H. injection H as <- <-. intros HL.
  destruct (IH _ _ _ E2 HL) as [L1 C1]. destruct (exec_codec _ _ _ _ _ E1 L1) as [L2 C2]. split; [exact L2|congruence].
Qed.
Lemma after_reset f c a b v1 ra : vrun C Ov (S f) (vcreate C c) a = Def (v1, ra) -> v_legacy v1 = false -> Forall (adds_unsigned c) b ->
  exists v2 rb, vrun C Ov (S f) v1 (VReset :: b) = Def (v2, VRes SV_OK None :: rb) /\ ~ In VLegacy rb /\ Forall says_unsigned (all_reports rb).
Proof.
  intros H HL HB. cbn [vrun vexec obind]. destruct (run_uns C Ov f b (vreset v1) (reset_uns v1 HL)) as (v2 & rb & E & L & R).
  { replace (v_codec (vreset v1)) with c; [exact HB|]. cbn. symmetry. apply (run_codec _ _ _ _ _ H HL). }
  rewrite E. cbn [obind]. exists v2, rb. auto.
Qed.
Lemma other_defined fuel c ops : Forall (fun o => match o with VAdd d _ => other_nalu c d | _ => True end) ops -> (1 <= fuel)%nat ->
  exists v res, vrun C Ov fuel (vcreate C c) ops = Def (v, res).
Proof.
  intros H HF. destruct fuel as [|f]; [lia|]. destruct (run_uns C Ov f ops (vcreate C c) (create_uns C c)) as (v & res & E & _).
  { eapply Forall_impl; [|exact H]. intros [d w|k| |]; cbn; auto. apply other_unsigned. }
  eauto.
Qed.
End Reset.

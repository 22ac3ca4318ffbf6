(** C27: an untampered stream is found authentic. *)
From Verif Require Import Base BaseProofs Nalu NaluSpec Crypto Types CodecSpec SeiSpec Signer SignSpec RunProofs GopSpec GopProofs Toy
  PropsSigner PropsGop VTypes NaluList Validator VToy PropsSei E2eSpec E2eMain.
Local Open Scope N_scope.

(** A session that signs the GOPs [gs] with every call answered OK; the NALUs and the SEIs arrive at a new validator
    unchanged and in order, each SEI some NALUs later (with or without the emulation prevention bytes that
    signed_video_set_sei_epb leaves to others). Then every NALU is answered with OK, and with every SEI comes a report
    that finds the GOP it closes authentic, and also everything so far, with no NALU missing, added or modified.

    Partial: the hashed NALUs have legal headers, the SEIs have few enough escapes for the validator to find the signature,
    golden SEIs are not used, and if the public key is not in the stream the hash algorithm is the default. The first, second
    and last of these are needed: see below. *)
Theorem C27_untampered_partial C Ov f c coin setup before gs rs l ops : crypto_ok C -> keys_work C ->
  signs C c coin setup before gs rs ->
  let w := fold_left (ask C) setup defaults in
  w_using w = false -> Forall (legal c) (before ++ concat gs) ->
  Forall (fun fs => few_escapes (w_epb w) fs (w_max_sig w)) (gops_fields C w 1 0 (frames before) None gs) ->
  transmits (w_epb w) before gs (returned rs) l ->
  (ops = [] /\ w_add_pub w = true) \/ (ops = [VSetKey (w_pub w)] /\ w_oid w = sha256_der) ->
  exists v res,
    vrun C Ov (S f) (vcreate C c) (ops ++ map sends l) = Def (v, map (fun _ => VRes SV_OK None) ops ++ res) /\
    answers false l res.
Proof. exact (e2e C Ov f c coin setup before gs rs l ops). Qed.

(** The hypotheses are met by the three GOPs of [demo_gops]. The SEI of the first comes at once, that of the second at
    the very end. *)
Lemma toy_keys h : keys_work (toy_with h).
Proof.
  intros key pub max. cbn [c_priv toy_with]. destruct key as [|b key]; [discriminate|].
  destruct (length (b :: key) <? 100)%nat; [|discriminate]. intros E. injection E as <- <-. split; [reflexivity|].
  intros coin x sig. cbn [c_sign c_verify toy_with]. destruct (forallb _ x); [|discriminate]. intros E. injection E as <-.
  cbn [skipn map hd]. rewrite (proj2 (bytes_eqb_eq _ _) eq_refl). reflexivity.
Qed.
Definition demo_seis : list (list N) := Eval vm_compute in returned demo_results.
Definition demo_arrivals : list arrival :=
  match demo_gops, demo_seis with
  | [g1; g2; g3], [y1; y2] =>
      map Pic demo_before ++ map Pic g1 ++ map Pic [] ++ Sei y1 (hashed g1) (hashed []) :: map Pic g2 ++ map Pic g3 ++ Sei y2 (hashed g2) (hashed g3) :: map Pic []
  | _, _ => []
  end.
Ltac legal_tac := repeat (apply Forall_cons; [split; [discriminate|]; split; [vm_compute; reflexivity|];
  let E := fresh in intros n E; vm_compute in E; injection E as <-; split; [reflexivity|intros; reflexivity]|]); apply Forall_nil.
Example demo_untampered : exists v res,
  vrun toy OvfUndef 1 (vcreate toy H264) (map sends demo_arrivals) = Def (v, res) /\ answers false demo_arrivals res /\
  length demo_arrivals = 10%nat.
Proof.
  destruct (C27_untampered_partial toy OvfUndef 0 H264 0 demo_setup demo_before demo_gops demo_results demo_arrivals [] toy_ok (toy_keys _) demo_signs)
    as (v & res & E & A).
  - reflexivity.
  - unfold demo_before, demo_gops. cbn [app concat]. legal_tac.
  - apply Forall_forall. intros fs Hfs.
    assert (K : forallb (fun fs => nlen (esc 0 (wires fs)) <? nlen (wires fs) + 8 + 65) (gops_fields toy demo_settings 1 0 (frames demo_before) None demo_gops) = true) by (vm_compute; reflexivity).
    rewrite forallb_forall in K. intros _. apply N.ltb_lt. exact (K fs Hfs).
  - replace (returned demo_results) with demo_seis by (vm_compute; reflexivity).
    eexists. split; [reflexivity|].
    apply (next_gop true _ _ [] _); [left; reflexivity|].
    apply (next_gop true _ _ (nth 2 demo_gops []) []); [left; reflexivity|]. apply last_gop.
  - left. split; reflexivity.
  - exists v, res. split; [exact E|]. split; [exact A|reflexivity].
Qed.

(** ** The conditions are needed *)
Ltac signs_tac := split; [|split; [|split; [|split; [|split; [|split; [|split]]]]]];
  [repeat (apply Forall_cons; [first [exact key1_ok|exact I]|]); try apply Forall_nil
  |repeat constructor
  |apply Exists_cons_hd; exists key1; reflexivity
  |cbn [app concat]; repeat (apply Forall_cons;
      [split; [cbn; (exact I || lia)|eexists; split; [vm_compute; reflexivity|]; split; [reflexivity|]; split; [reflexivity|];
        cbn [n_hashable pcs p_bytes]; try reflexivity; eexists; split; vm_compute; reflexivity]|]); apply Forall_nil
  |repeat constructor
  |repeat (apply Forall_cons; [eexists _, _; split; [reflexivity|]; split; [reflexivity|]; split; [discriminate|];
      repeat (apply Forall_cons; [reflexivity|]); apply Forall_nil|]); apply Forall_nil
  |
  |].
(** What a session with the pictures [gs] returns, and the arrival of everything with the SEIs at the end. *)
Definition sign_all (C : crypto) (setup : list sop) (gs : list (list piece)) : list sres :=
  results_of (run C (setup ++ flat_map feed (concat gs)) (create H264 0)).
Lemma sign_all_runs C setup gs : match run C (setup ++ flat_map feed (concat gs)) (create H264 0) with Def _ => true | _ => false end = true ->
  exists s, run C (setup ++ flat_map feed (concat gs)) (create H264 0) = Def (s, sign_all C setup gs).
Proof. unfold sign_all. destruct (run _ _ _) as [[s rs]|u]; [|discriminate]. intros _. exists s. reflexivity. Qed.
Lemma sign_all_fine rs : forallb (fun r => svrc_eqb (rs_code r) SV_OK) rs = true -> Forall (fun r => rs_code r = SV_OK) rs.
Proof.
  intros H. apply Forall_forall. intros r Hr. rewrite forallb_forall in H. specialize (H r Hr). destruct (rs_code r); discriminate H || reflexivity.
Qed.

(** A stream in which a P slice has the forbidden bit set is signed, but the slice is not hashed by the validator: the stream is
    not found authentic. *)
Definition odd_slice : list N := [0; 0; 0; 1; 0xC1; 0x9a; 1; 0x80].
Definition odd_gops : list (list piece) :=
  [[pcs (idr [1; 2]) None true; pcs odd_slice None false; pcs (pic [3]) None false]; [pcs (idr [4]) None true; pcs odd_slice None false];
   [pcs (idr [5]) None true]].
Definition odd_seis : list (list N) := Eval vm_compute in returned (sign_all toy [OKey key1] odd_gops).
Definition odd_arrivals : list arrival :=
  match odd_gops, odd_seis with
  | [g1; g2; g3], [y1; y2] =>
      map Pic [] ++ map Pic g1 ++ map Pic [] ++ Sei y1 (hashed g1) (hashed []) :: map Pic g2 ++ map Pic [] ++ Sei y2 (hashed g2) (hashed []) :: map Pic g3
  | _, _ => []
  end.
Theorem C27_illegal_header_refuted : exists C c setup gs rs l v res q,
  crypto_ok C /\ keys_work C /\ signs C c 0 setup [] gs rs /\
  let w := fold_left (ask C) setup defaults in
  w_using w = false /\ w_add_pub w = true /\ transmits (w_epb w) [] gs (returned rs) l /\
  Forall (fun fs => few_escapes (w_epb w) fs (w_max_sig w)) (gops_fields C w 1 0 0 None gs) /\
  vrun C OvfUndef 9 (vcreate C c) (map sends l) = Def (v, res) /\
  In (VRes SV_OK (Some q)) res /\ l_auth (p_latest q) = OkMissing.
Proof.
  exists toy, H264, [OKey key1], odd_gops, (sign_all toy [OKey key1] odd_gops), odd_arrivals. do 3 eexists.
  split; [exact toy_ok|]. split; [apply toy_keys|]. split.
  - signs_tac.
    + apply sign_all_runs. vm_compute. reflexivity.
    + apply sign_all_fine. vm_compute. reflexivity.
  - cbv zeta. split; [reflexivity|]. split; [reflexivity|]. split.
    + replace (returned (sign_all toy [OKey key1] odd_gops)) with odd_seis by (vm_compute; reflexivity).
      eexists. split; [reflexivity|]. apply (next_gop true _ _ [] _); [left; reflexivity|].
      apply (next_gop true _ _ [] _); [left; reflexivity|]. apply last_gop.
    + split.
      * apply Forall_forall. intros fs Hfs.
        assert (K : forallb (fun fs => nlen (esc 0 (wires fs)) <? nlen (wires fs) + 8 + 65) (gops_fields toy (fold_left (ask toy) [OKey key1] defaults) 1 0 0 None odd_gops) = true) by (vm_compute; reflexivity).
        rewrite forallb_forall in K. intros _. apply N.ltb_lt. exact (K fs Hfs).
      * split; [vm_compute; reflexivity|]. split; [do 6 right; left; reflexivity|]. reflexivity.
Qed.

(** With an unusual hash function the SEI of an ordinary GOP has so many escapes that the GOP is never found authentic. *)
Definition two_gops : list (list piece) :=
  [[pcs (idr [1; 2]) None true; pcs (pic [3]) None false; pcs (pic [3]) None false]; [pcs (idr [4]) None true]].
Definition sparse_seis : list (list N) := Eval vm_compute in returned (sign_all sparse [OKey key1] two_gops).
Definition big_seis : list (list N) := Eval vm_compute in returned (sign_all toy [OKey key1; OHashAlgo (Some toy_name)] two_gops).
Definition arrivals_with (seis : list (list N)) : list arrival :=
  match two_gops, seis with
  | [g1; g2], [y1] => map Pic [] ++ map Pic g1 ++ map Pic [] ++ Sei y1 (hashed g1) (hashed []) :: map Pic g2
  | _, _ => []
  end.
Theorem C27_escapes_refuted : exists C c setup gs rs l v res q,
  crypto_ok C /\ keys_work C /\ signs C c 0 setup [] gs rs /\
  let w := fold_left (ask C) setup defaults in
  w_using w = false /\ w_add_pub w = true /\ transmits (w_epb w) [] gs (returned rs) l /\ Forall (legal c) (concat gs) /\
  vrun C OvfUndef 9 (vcreate C c) (map sends l) = Def (v, res) /\
  nth_error l 3 = Some (Sei (hd [] (returned rs)) (hashed (hd [] gs)) []) /\
  nth_error res 3 = Some (VRes SV_OK (Some q)) /\ l_auth (p_latest q) = SigPresent.
Proof.
  exists sparse, H264, [OKey key1], two_gops, (sign_all sparse [OKey key1] two_gops), (arrivals_with sparse_seis). do 3 eexists.
  split; [exact sparse_ok|]. split; [apply toy_keys|]. split.
  - signs_tac.
    + apply sign_all_runs. vm_compute. reflexivity.
    + apply sign_all_fine. vm_compute. reflexivity.
  - cbv zeta. split; [reflexivity|]. split; [reflexivity|]. split.
    + replace (returned (sign_all sparse [OKey key1] two_gops)) with sparse_seis by (vm_compute; reflexivity).
      eexists. split; [reflexivity|]. apply (next_gop true _ _ [] _); [left; reflexivity|]. apply last_gop.
    + split; [unfold two_gops; cbn [concat app]; legal_tac|]. split; [vm_compute; reflexivity|].
      split; [vm_compute; reflexivity|]. split; [reflexivity|reflexivity].
Qed.

(** A validator that is given the public key hashes the first GOP with SHA-256, whatever algorithm the SEI is about to name. If that
    one has longer hashes the first SEI makes the validator read memory that was never written. *)
Theorem C27_key_by_hand_refuted : exists C c setup gs rs l,
  crypto_ok C /\ keys_work C /\ signs C c 0 setup [] gs rs /\
  let w := fold_left (ask C) setup defaults in
  w_using w = false /\ transmits (w_epb w) [] gs (returned rs) l /\ Forall (legal c) (concat gs) /\
  Forall (fun fs => few_escapes (w_epb w) fs (w_max_sig w)) (gops_fields C w 1 0 0 None gs) /\
  vrun C OvfUndef 9 (vcreate C c) (VSetKey (w_pub w) :: map sends l) = Undef Uninit.
Proof.
  exists toy, H264, [OKey key1; OHashAlgo (Some toy_name)], two_gops, (sign_all toy [OKey key1; OHashAlgo (Some toy_name)] two_gops), (arrivals_with big_seis).
  split; [exact toy_ok|]. split; [apply toy_keys|]. split.
  - signs_tac.
    + apply sign_all_runs. vm_compute. reflexivity.
    + apply sign_all_fine. vm_compute. reflexivity.
  - cbv zeta. split; [reflexivity|]. split.
    + replace (returned (sign_all toy [OKey key1; OHashAlgo (Some toy_name)] two_gops)) with big_seis by (vm_compute; reflexivity).
      eexists. split; [reflexivity|]. apply (next_gop true _ _ [] _); [left; reflexivity|]. apply last_gop.
    + split; [unfold two_gops; cbn [concat app]; legal_tac|]. split.
      * apply Forall_forall. intros fs Hfs.
        assert (K : forallb (fun fs => nlen (esc 0 (wires fs)) <? nlen (wires fs) + 8 + 65) (gops_fields toy (fold_left (ask toy) [OKey key1; OHashAlgo (Some toy_name)] defaults) 1 0 0 None two_gops) = true) by (vm_compute; reflexivity).
        rewrite forallb_forall in K. intros _. apply N.ltb_lt. exact (K fs Hfs).
      * vm_compute. reflexivity.
Qed.

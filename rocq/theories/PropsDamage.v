(** C49: damage to a signed stream stays within its GOP. *)
From Verif Require Import Base BaseProofs Nalu NaluSpec Crypto Types CodecSpec SeiSpec Signer SignSpec RunProofs GopSpec GopProofs Toy
  PropsSigner PropsGop VTypes NaluList Validator VToy PropsSei E2eSpec DamageSpec PropsE2e E2eMain.
Local Open Scope N_scope.

(** A session signs the GOPs [gs] with every call answered OK. What arrives are the SEIs, and GOPs [hss], as many as were
    signed, that have nothing else to do with [gs] except that the first is as it was signed: NALUs may be lost, changed,
    added or put in another order. Every GOP begins with a NALU that begins a GOP. Then whatever was damaged so far, a GOP
    that arrived as it was signed is found authentic, with no NALU missing, added or modified, if the first
    NALU of the GOP before it (whose hash is the link between the GOPs) also did. As long as nothing was damaged the accumulated
    verdict says so too. Every other SEI is answered with a report as well, and NALUs that came early are still waiting.

    Partial: as in C27, and all SEIs arrive, and the first GOP is not damaged. These are needed: see below. *)
Theorem C49_damage_stays_partial C Ov f c coin setup before gs rs bh hss l ops : crypto_ok C -> keys_work C ->
  signs C c coin setup before gs rs ->
  let w := fold_left (ask C) setup defaults in
  w_using w = false -> Forall (legal c) (concat (firstn 1 gs)) ->
  Forall is_gop hss -> match gs, hss with g :: _, h :: _ => hashed h = hashed g | _, _ => True end ->
  Forall (fun p => p_first p = false /\ p_bytes p = None) bh ->
  Forall (seen c) (bh ++ concat hss) -> Forall (legal c) (bh ++ concat hss) ->
  Forall (fun fs => few_escapes (w_epb w) fs (w_max_sig w)) (gops_fields C w 1 0 (frames before) None gs) ->
  comes (w_epb w) bh gs hss (returned rs) l ->
  (ops = [] /\ w_add_pub w = true) \/ (ops = [VSetKey (w_pub w)] /\ w_oid w = sha256_der) ->
  exists v res,
    vrun C Ov (S f) (vcreate C c) (ops ++ map feeds l) = Def (v, map (fun _ => VRes SV_OK None) ops ++ res) /\
    told false True l res.
Proof. exact (damage_told C Ov f c coin setup before gs rs bh hss l ops). Qed.

(** Five GOPs are signed. In the second a P slice is lost and one is changed, before the fourth the SEI comes late. *)
Definition long_gops : list (list piece) :=
  [[pcs (idr [1]) None true; pcs (pic [1; 1]) None false; pcs (pic [1; 2]) None false];
   [pcs (idr [2]) None true; pcs (pic [2; 1]) None false; pcs (pic [2; 2]) None false];
   [pcs (idr [3]) None true; pcs (pic [3; 1]) None false];
   [pcs (idr [4]) None true; pcs (pic [4; 1]) None false];
   [pcs (idr [5]) None true]].
Definition hurt_gops : list (list piece) :=
  [[pcs (idr [1]) None true; pcs (pic [1; 1]) None false; pcs (pic [1; 2]) None false];
   [pcs (idr [2]) None true; pcs (pic [2; 77]) None false];
   [pcs (idr [3]) None true; pcs (pic [3; 1]) None false];
   [pcs (idr [4]) None true; pcs (pic [4; 1]) None false];
   [pcs (idr [5]) None true]].
Definition gop_setup : list sop := [OKey key1; OLevel LGop].
Definition long_seis : list (list N) := Eval vm_compute in returned (sign_all toy gop_setup long_gops).
(** The arrival of five GOPs instead of [long_gops] with [k] NALUs between the GOP that a SEI closes and the SEI. *)
Definition five (hss : list (list piece)) (k1 k2 k3 k4 : nat) : list event :=
  match long_gops, hss, long_seis with
  | [g1; g2; g3; g4; g5], [h1; h2; h3; h4; h5], [y1; y2; y3; y4] =>
      let f g := hd_error (hashed g) in
      map Seen h1 ++ map Seen (firstn k1 h2) ++ Closed y1 (hashed g1) (hashed h1) None None (hashed (firstn k1 h2)) ::
      map Seen (skipn k1 h2) ++ map Seen (firstn k2 h3) ++ Closed y2 (hashed g2) (hashed h2) (f g1) (f h1) (hashed (firstn k2 h3)) ::
      map Seen (skipn k2 h3) ++ map Seen (firstn k3 h4) ++ Closed y3 (hashed g3) (hashed h3) (f g2) (f h2) (hashed (firstn k3 h4)) ::
      map Seen (skipn k3 h4) ++ map Seen (firstn k4 h5) ++ Closed y4 (hashed g4) (hashed h4) (f g3) (f h3) (hashed (firstn k4 h5)) ::
      map Seen (skipn k4 h5)
  | _, _, _ => []
  end.
Lemma long_signs : signs toy H264 0 gop_setup [] long_gops (sign_all toy gop_setup long_gops).
Proof.
  signs_tac.
  - apply sign_all_runs. vm_compute. reflexivity.
  - apply sign_all_fine. vm_compute. reflexivity.
Qed.
Lemma long_escapes : Forall (fun fs => few_escapes true fs (w_max_sig (fold_left (ask toy) gop_setup defaults)))
  (gops_fields toy (fold_left (ask toy) gop_setup defaults) 1 0 0 None long_gops).
Proof.
  apply Forall_forall. intros fs Hfs.
  assert (K : forallb (fun fs => nlen (esc 0 (wires fs)) <? nlen (wires fs) + 8 + 65) (gops_fields toy (fold_left (ask toy) gop_setup defaults) 1 0 0 None long_gops) = true) by (vm_compute; reflexivity).
  rewrite forallb_forall in K. intros _. apply N.ltb_lt. exact (K fs Hfs).
Qed.
Ltac seen_tac := cbn [app concat]; repeat (apply Forall_cons;
  [split; [cbn; (exact I || lia)|eexists; split; [vm_compute; reflexivity|]; split; [reflexivity|]; split; [reflexivity|];
    cbn [n_hashable pcs p_bytes]; try reflexivity; eexists; split; vm_compute; reflexivity]|]); apply Forall_nil.
Ltac gops_tac := repeat (apply Forall_cons; [eexists _, _; split; [reflexivity|]; split; [reflexivity|]; split; [discriminate|];
  repeat (apply Forall_cons; [reflexivity|]); apply Forall_nil|]); apply Forall_nil.
Lemma comes_five h1 h2 h3 h4 h5 k1 k2 k3 k4 : comes true [] long_gops [h1; h2; h3; h4; h5] long_seis (five [h1; h2; h3; h4; h5] k1 k2 k3 k4).
Proof.
  eexists. split; [reflexivity|]. unfold long_gops, long_seis.
  rewrite <- (firstn_skipn k1 h2) at 1. eapply (arrives_next true); [left; reflexivity|]. rewrite (firstn_skipn k1 h2).
  rewrite <- (firstn_skipn k2 h3) at 1. eapply (arrives_next true); [left; reflexivity|]. rewrite (firstn_skipn k2 h3).
  rewrite <- (firstn_skipn k3 h4) at 1. eapply (arrives_next true); [left; reflexivity|]. rewrite (firstn_skipn k3 h4).
  rewrite <- (firstn_skipn k4 h5) at 1. eapply (arrives_next true); [left; reflexivity|]. apply arrives_last.
Qed.
Example C49_case : exists v res,
  vrun toy OvfUndef 1 (vcreate toy H264) (map feeds (five hurt_gops 1 0 2 1)) = Def (v, res) /\ told false True (five hurt_gops 1 0 2 1) res /\
  flat_map (fun r => match r with VRes _ (Some q) => [l_auth (p_latest q)] | _ => [] end) res = [NotSigned; AuthOk; NotOk; AuthOk; AuthOk].
Proof.
  destruct (C49_damage_stays_partial toy OvfUndef 0 H264 0 gop_setup [] long_gops _ [] hurt_gops (five hurt_gops 1 0 2 1) [] toy_ok (toy_keys _) long_signs)
    as (v & res & E & A).
  - reflexivity.
  - unfold long_gops. cbn [app concat firstn]. legal_tac.
  - gops_tac.
  - reflexivity.
  - constructor.
  - unfold hurt_gops. seen_tac.
  - unfold hurt_gops. cbn [app concat]. legal_tac.
  - exact long_escapes.
  - replace (returned (sign_all toy gop_setup long_gops)) with long_seis by (vm_compute; reflexivity). apply comes_five.
  - left. split; reflexivity.
  - exists v, res. split; [exact E|]. split; [exact A|].
    assert (K : match vrun toy OvfUndef 1 (vcreate toy H264) (map feeds (five hurt_gops 1 0 2 1)) with
                | Def (_, res) => flat_map (fun r => match r with VRes _ (Some q) => [l_auth (p_latest q)] | _ => [] end) res = [NotSigned; AuthOk; NotOk; AuthOk; AuthOk]
                | Undef _ => False end) by (vm_compute; reflexivity).
    cbn [app] in E. rewrite E in K. exact K.
Qed.

(** ** The conditions are needed *)
(** The third GOP arrives as it was signed but the first NALU of the second was changed: the third is found not
    authentic. *)
Definition hurt_first : list (list piece) :=
  match long_gops with g1 :: (p :: g2) :: gs => g1 :: (pcs (idr [77]) None true :: g2) :: gs | gs => gs end.
Theorem C49_first_nalu_refuted : exists C c setup gs hss rs l v res y x sp hp later q,
  crypto_ok C /\ keys_work C /\ signs C c 0 setup [] gs rs /\
  comes true [] gs hss (returned rs) l /\ Forall is_gop hss /\ Forall (seen c) (concat hss) /\ Forall (legal c) (concat hss) /\
  vrun C OvfUndef 9 (vcreate C c) (map feeds l) = Def (v, res) /\
  nth_error l 10 = Some (Closed y x x sp hp later) /\ sp <> hp /\
  nth_error res 10 = Some (VRes SV_OK (Some q)) /\ l_auth (p_latest q) = NotOk.
Proof.
  exists toy, H264, gop_setup, long_gops, hurt_first, (sign_all toy gop_setup long_gops), (five hurt_first 0 0 0 0). do 8 eexists.
  split; [exact toy_ok|]. split; [apply toy_keys|]. split; [exact long_signs|]. split.
  { replace (returned (sign_all toy gop_setup long_gops)) with long_seis by (vm_compute; reflexivity). apply comes_five. }
  split; [gops_tac|]. split; [unfold hurt_first, long_gops; seen_tac|]. split; [unfold hurt_first, long_gops; cbn [concat app]; legal_tac|].
  split; [vm_compute; reflexivity|]. split; [vm_compute; reflexivity|]. split; [discriminate|]. split; [vm_compute; reflexivity|]. vm_compute. reflexivity.
Qed.

(** One P slice of the first GOP is lost. No later GOP is found authentic though all of them arrive as they were signed:
    from now on the validator compares every SEI with the GOP before the one it describes. *)
Definition hurt_start : list (list piece) :=
  match long_gops with (p :: _ :: g1) :: gs => (p :: g1) :: gs | gs => gs end.
Theorem C49_first_gop_refuted : exists C c setup gs hss rs l v res,
  crypto_ok C /\ keys_work C /\ signs C c 0 setup [] gs rs /\
  comes true [] gs hss (returned rs) l /\ Forall is_gop hss /\ Forall (seen c) (concat hss) /\ Forall (legal c) (concat hss) /\
  tl hss = tl gs /\ map (@hd_error _) hss = map (@hd_error _) gs /\ length gs = 5%nat /\
  vrun C OvfUndef 9 (vcreate C c) (map feeds l) = Def (v, res) /\
  flat_map (fun r => match r with VRes _ (Some q) => [l_auth (p_latest q)] | _ => [] end) res = [SigPresent; NotOk; NotOk; NotOk].
Proof.
  exists toy, H264, gop_setup, long_gops, hurt_start, (sign_all toy gop_setup long_gops), (five hurt_start 0 0 0 0). do 2 eexists.
  split; [exact toy_ok|]. split; [apply toy_keys|]. split; [exact long_signs|]. split.
  { replace (returned (sign_all toy gop_setup long_gops)) with long_seis by (vm_compute; reflexivity). apply comes_five. }
  split; [gops_tac|]. split; [unfold hurt_start, long_gops; seen_tac|]. split; [unfold hurt_start, long_gops; cbn [concat app]; legal_tac|].
  do 3 (split; [reflexivity|]). split; [vm_compute; reflexivity|]. vm_compute. reflexivity.
Qed.

(** Only the SEI of the second GOP is lost. A build in which the difference of GOP counters wraps around never again finds a GOP
    authentic; if the difference were computed as in mathematics all would be well one SEI later. *)
Definition verdicts (x : out (valid * list vres)) : list authres :=
  match x with Def (_, rs) => flat_map (fun r => match r with VRes _ (Some q) => [l_auth (p_latest q)] | _ => [] end) rs | Undef _ => [] end.
Theorem C49_lost_sei_refuted : exists C c setup gs rs l,
  crypto_ok C /\ keys_work C /\ signs C c 0 setup [] gs rs /\ comes true [] gs gs (returned rs) l /\
  let l' := filter (fun e => match e with Closed y _ _ _ _ _ => negb (bytes_eqb y (nth 1 (returned rs) [])) | _ => true end) l in
  length l' = (length l - 1)%nat /\
  verdicts (vrun C OvfIdeal 9 (vcreate C c) (map feeds l')) = [AuthOk; NotOk; AuthOk] /\
  verdicts (vrun C OvfWrap 9 (vcreate C c) (map feeds l')) = [AuthOk; NotOk; NotOk].
Proof.
  exists toy, H264, gop_setup, long_gops, (sign_all toy gop_setup long_gops), (five long_gops 0 0 0 0).
  split; [exact toy_ok|]. split; [apply toy_keys|]. split; [exact long_signs|].
  replace (returned (sign_all toy gop_setup long_gops)) with long_seis by (vm_compute; reflexivity).
  split; [apply comes_five|]. split; [reflexivity|]. split; vm_compute; reflexivity.
Qed.

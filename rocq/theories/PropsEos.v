(** C51: the end of a stream. *)
From Verif Require Import Base BaseProofs Nalu NaluSpec Crypto Types CodecSpec SeiSpec Signer SignSpec RunProofs GopSpec EosSpec GopProofs Toy
  PropsSigner PropsGop VTypes NaluList Validator VToy PropsSei MatchSpec E2eSpec DamageSpec LossSpec EndSpec PropsE2e E2eMain E2eEnd PropsDamage PropsLoss.
Local Open Scope N_scope.

(** A session signs the GOPs [gs] and is ended with [signed_video_set_end_of_stream], with every call answered OK. GOPs [hss]
    arrive, as many as were signed, and all SEIs. The last SEI, [z], comes at the end. Then the report at [z] is
    about the last GOP: see [ends_with] in EndSpec.v. The reports before it are as in C49 and C52.

    Partial: as in C49, and the last SEI lists the hashes of the NALUs (frame level). Without the list the claim is
    false: see below. *)
Theorem C51_stream_end_partial C Ov f c coin setup before gs rs bh hss xs z y l ops : crypto_ok C -> keys_work C ->
  finishes C c coin setup before gs rs -> gs <> [] ->
  let w := fold_left (ask C) setup defaults in
  w_using w = false -> Forall (legal c) (concat (firstn 1 gs)) ->
  Forall is_gop hss -> match gs, hss with g :: _, h :: _ => hashed h = hashed g | _, _ => True end ->
  Forall (fun p => p_first p = false /\ p_bytes p = None) bh ->
  Forall (seen c) (bh ++ concat hss) -> Forall (legal c) (bh ++ concat hss) ->
  Forall (fun fs => few_escapes (w_epb w) fs (w_max_sig w)) (gops_fields C w 1 0 (frames before) None gs) ->
  few_escapes (w_epb w) (last_fields C w 1 0 (frames before) None (zeros (oid_size C (w_oid w))) gs) (w_max_sig w) ->
  lists C w (hashed (last gs [])) ->
  returned rs = xs ++ [z] -> comes (w_epb w) bh gs hss xs l -> delivered (w_epb w) z y ->
  (ops = [] /\ w_add_pub w = true) \/ (ops = [VSetKey (w_pub w)] /\ w_oid w = sha256_der) ->
  exists v res q,
    vrun C Ov (S f) (vcreate C c) (ops ++ map feeds l ++ [VAdd y true]) =
      Def (v, map (fun _ => VRes SV_OK None) ops ++ res ++ [VRes SV_OK (Some q)]) /\
    told false True l res /\ closes (hears C w) l res /\ ends_with C w gs hss q.
Proof. exact (stream_end C Ov f c coin setup before gs rs bh hss xs z y l ops). Qed.

(** What the SEI at the end carries: everything on the last GOP, but the GOP hash of the one before it (zeros if there is
    none). See [last_fields] in EosSpec.v. *)
Theorem C51_last_sei C c coin setup before gs rs : crypto_ok C ->
  finishes C c coin setup before gs rs -> gs <> [] ->
  let w := fold_left (ask C) setup defaults in
  exists ra rb y, rs = ra ++ rb /\ signs C c coin setup before gs ra /\ returned rb = [y] /\
    sei_with C c w (last_fields C w 1 0 (frames before) None (zeros (oid_size C (w_oid w))) gs) y.
Proof. exact (fun HC => session_ends C HC c coin setup before gs rs). Qed.

(** Three GOPs. *)
Definition end_gops : list (list piece) :=
  [[pcs (idr [1]) None true; pcs (pic [1; 1]) None false];
   [pcs (idr [2]) None true; pcs (pic [2; 1]) None false];
   [pcs (idr [3]) None true; pcs (pic [3; 1]) None false; pcs (pic [3; 2]) None false]].
Definition finish_all (setup : list sop) (gs : list (list piece)) : list sres :=
  results_of (run toy (setup ++ flat_map feed ([] ++ concat gs) ++ [OEos; OGet true []]) (create H264 0)).
Lemma finish_all_runs setup gs :
  match run toy (setup ++ flat_map feed ([] ++ concat gs) ++ [OEos; OGet true []]) (create H264 0) with Def _ => true | _ => false end = true ->
  exists s, run toy (setup ++ flat_map feed ([] ++ concat gs) ++ [OEos; OGet true []]) (create H264 0) = Def (s, finish_all setup gs).
Proof. unfold finish_all. destruct (run _ _ _) as [[s rs]|u]; [|discriminate]. intros _. exists s. reflexivity. Qed.
Ltac finish_tac := signs_tac; [apply finish_all_runs; vm_compute; reflexivity|apply sign_all_fine; vm_compute; reflexivity].
Lemma frame_finishes : finishes toy H264 0 frame_setup [] end_gops (finish_all frame_setup end_gops).
Proof. finish_tac. Qed.
Lemma gop_finishes : finishes toy H264 0 gop_setup [] end_gops (finish_all gop_setup end_gops).
Proof. finish_tac. Qed.
Lemma one_finishes : finishes toy H264 0 gop_setup [] (firstn 1 end_gops) (finish_all gop_setup (firstn 1 end_gops)).
Proof. finish_tac. Qed.
Definition end_frame_seis : list (list N) := Eval vm_compute in returned (finish_all frame_setup end_gops).
Definition end_gop_seis : list (list N) := Eval vm_compute in returned (finish_all gop_setup end_gops).
Definition one_sei : list (list N) := Eval vm_compute in returned (finish_all gop_setup (firstn 1 end_gops)).
(** Each SEI comes right after its GOP. *)
Definition three (hss : list (list piece)) (ys : list (list N)) : list event :=
  match end_gops, hss, ys with
  | [g1; g2; g3], [h1; h2; h3], [y1; y2; _] =>
      let f g := hd_error (hashed g) in
      map Seen h1 ++ map Seen [] ++ Closed y1 (hashed g1) (hashed h1) None None (hashed []) ::
      map Seen h2 ++ map Seen [] ++ Closed y2 (hashed g2) (hashed h2) (f g1) (f h1) (hashed []) ::
      map Seen h3
  | _, _, _ => []
  end.
Lemma comes_three h1 h2 h3 y1 y2 y3 : comes true [] end_gops [h1; h2; h3] [y1; y2] (three [h1; h2; h3] [y1; y2; y3]).
Proof.
  eexists. split.
  2:{ eapply (next_at _ _ _ _ _ _ _ _ []); [reflexivity|]. eapply (next_at _ _ _ _ _ _ _ _ []); [reflexivity|]. apply arrives_last. }
  reflexivity.
Qed.
Lemma end_escapes setup : setup = frame_setup \/ setup = gop_setup -> let w := fold_left (ask toy) setup defaults in
  Forall (fun fs => few_escapes true fs (w_max_sig w)) (gops_fields toy w 1 0 0 None end_gops) /\
  few_escapes true (last_fields toy w 1 0 0 None (zeros (oid_size toy (w_oid w))) end_gops) (w_max_sig w).
Proof.
  intros S w. assert (K : forallb (fun fs => nlen (esc 0 (wires fs)) <? nlen (wires fs) + 8 + 65)
    (last_fields toy w 1 0 0 None (zeros (oid_size toy (w_oid w))) end_gops :: gops_fields toy w 1 0 0 None end_gops) = true) by (unfold w; destruct S as [->| ->]; vm_compute; reflexivity).
  assert (EM : w_max_sig w = 65%nat) by (unfold w; destruct S as [->| ->]; reflexivity). rewrite EM.
  rewrite forallb_forall in K. split; [apply Forall_forall; intros fs Hfs|]; intros _; apply N.ltb_lt; apply K; [right; exact Hfs|left; reflexivity].
Qed.

(** A P slice is lost from the second and from the last GOP. *)
Definition end_lost : list (list piece) :=
  [[pcs (idr [1]) None true; pcs (pic [1; 1]) None false];
   [pcs (idr [2]) None true];
   [pcs (idr [3]) None true; pcs (pic [3; 2]) None false]].
Example C51_case : exists v res q, let w := fold_left (ask toy) frame_setup defaults in let y := nth 2 end_frame_seis [] in
  vrun toy OvfUndef 1 (vcreate toy H264) (map feeds (three end_lost end_frame_seis) ++ [VAdd y true]) = Def (v, res ++ [VRes SV_OK (Some q)]) /\
  ends_with toy w end_gops end_lost q /\ l_auth (p_latest q) = OkMissing /\ l_vstr (p_latest q) = [46; 77; 46; 46].
Proof.
  destruct (C51_stream_end_partial toy OvfUndef 0 H264 0 frame_setup [] end_gops _ [] end_lost (firstn 2 end_frame_seis) (nth 2 end_frame_seis []) (nth 2 end_frame_seis [])
    (three end_lost end_frame_seis) [] toy_ok (toy_keys _) frame_finishes) as (v & res & q & E & _ & _ & A).
  - discriminate.
  - reflexivity.
  - unfold end_gops. cbn [app concat firstn]. legal_tac.
  - gops_tac.
  - reflexivity.
  - constructor.
  - unfold end_lost. seen_tac.
  - unfold end_lost. cbn [app concat]. legal_tac.
  - apply (end_escapes frame_setup). auto.
  - apply (end_escapes frame_setup). auto.
  - split; [reflexivity|]. split; [reflexivity|]. vm_compute. discriminate.
  - vm_compute. reflexivity.
  - apply comes_three.
  - left. reflexivity.
  - left. split; reflexivity.
  - exists v, res, q. split; [exact E|]. split; [exact A|].
    assert (K : match vrun toy OvfUndef 1 (vcreate toy H264) (map feeds (three end_lost end_frame_seis) ++ [VAdd (nth 2 end_frame_seis []) true]) with
                | Def (_, res) => last (shown res) (NotSigned, []) = (OkMissing, [46; 77; 46; 46])
                | Undef _ => False end) by (vm_compute; reflexivity).
    cbn [app] in E. cbn [map app] in E. rewrite E in K. unfold shown in K. rewrite flat_map_app in K. cbn [flat_map app] in K.
    rewrite last_last in K. injection K as K1 K2. auto.
Qed.

(** ** The list is needed *)
(** For the runs below: all reports but the last, and the last. *)
Definition split_run (ops : list vop) : list vres * option report :=
  match vrun toy OvfUndef 9 (vcreate toy H264) ops with
  | Def (_, rs) => match last rs (VRes SV_OK None) with VRes SV_OK (Some q) => (removelast rs, Some q) | _ => ([], None) end
  | Undef _ => ([], None)
  end.
Lemma split_runs ops (P : list vres -> report -> Prop) :
  match snd (split_run ops) with Some q => P (fst (split_run ops)) q | None => False end ->
  exists v res q, vrun toy OvfUndef 9 (vcreate toy H264) ops = Def (v, res ++ [VRes SV_OK (Some q)]) /\ P res q.
Proof.
  unfold split_run. destruct (vrun _ _ _ _ _) as [[v rs]|u]; [|cbn [fst snd]; contradiction].
  destruct (last rs (VRes SV_OK None)) as [e o|] eqn:E; [destruct e; try (cbn [fst snd]; contradiction); destruct o as [q|]|]; cbn [fst snd]; try contradiction. intros Hp. exists v, (removelast rs), q. split; [|exact Hp].
  rewrite <- E. rewrite <- (app_removelast_last (VRes SV_OK None)); [reflexivity|]. intros ->. discriminate E.
Qed.
Definition all_ok (rs : list vres) : bool :=
  forallb (fun r => match r with VRes SV_OK (Some p) => ar_n (l_auth (p_latest p)) =? ar_n AuthOk | VRes SV_OK None => true | _ => false end) rs.
Lemma all_ok_spec rs : all_ok rs = true -> Forall (fun r => match r with VRes SV_OK (Some p) => l_auth (p_latest p) = AuthOk | VRes SV_OK None => True | _ => False end) rs.
Proof.
  unfold all_ok. rewrite forallb_forall, Forall_forall. intros K r Hr. specialize (K r Hr). destruct r as [e o|]; try discriminate; destruct e; try discriminate; destruct o as [p|]; try discriminate; try exact I.
  destruct (l_auth (p_latest p)); cbn in K; try discriminate; reflexivity.
Qed.

(** At GOP level everything arrives as it was signed. All GOPs but the last are found authentic, the last is not. *)
Theorem C51_gop_level_refuted : exists C c setup gs rs xs z l,
  crypto_ok C /\ keys_work C /\ finishes C c 0 setup [] gs rs /\
  let w := fold_left (ask C) setup defaults in
  Forall (legal c) (concat gs) /\ Forall (fun fs => few_escapes true fs (w_max_sig w)) (gops_fields C w 1 0 0 None gs) /\
  few_escapes true (last_fields C w 1 0 0 None (zeros (oid_size C (w_oid w))) gs) (w_max_sig w) /\
  returned rs = xs ++ [z] /\ comes true [] gs gs xs l /\
  exists v res q, vrun C OvfUndef 9 (vcreate C c) (map feeds l ++ [VAdd z true]) = Def (v, res ++ [VRes SV_OK (Some q)]) /\
    Forall (fun r => match r with VRes SV_OK (Some p) => l_auth (p_latest p) = AuthOk | VRes SV_OK None => True | _ => False end) res /\
    l_auth (p_latest q) = NotOk /\ a_auth (p_acc q) = NotOk.
Proof.
  exists toy, H264, gop_setup, end_gops, (finish_all gop_setup end_gops), (firstn 2 end_gop_seis), (nth 2 end_gop_seis []), (three end_gops end_gop_seis).
  split; [exact toy_ok|]. split; [apply toy_keys|]. split; [exact gop_finishes|]. cbv zeta.
  split; [unfold end_gops; cbn [concat app]; legal_tac|]. split; [apply (end_escapes gop_setup); auto|]. split; [apply (end_escapes gop_setup); auto|].
  split; [vm_compute; reflexivity|]. split; [apply comes_three|].
  apply (split_runs _ (fun res q => _ /\ l_auth (p_latest q) = NotOk /\ a_auth (p_acc q) = NotOk)).
  match goal with |- match snd ?x with _ => _ end => assert (K : match snd x with Some q => all_ok (fst x) = true /\ l_auth (p_latest q) = NotOk /\ a_auth (p_acc q) = NotOk | None => False end) by (vm_compute; repeat split; reflexivity); destruct (snd x) end; [|exact K].
  destruct K as [K1 K2]. split; [apply all_ok_spec; exact K1|exact K2].
Qed.

(** At GOP level a stream of one GOP gets no verdict but "signature present", and no NALU is validated. *)
Theorem C51_one_gop_refuted : exists C c setup g rs z v q,
  crypto_ok C /\ keys_work C /\ finishes C c 0 setup [] [g] rs /\
  let w := fold_left (ask C) setup defaults in
  Forall (legal c) g /\ few_escapes true (last_fields C w 1 0 0 None (zeros (oid_size C (w_oid w))) [g]) (w_max_sig w) /\
  returned rs = [z] /\
  vrun C OvfUndef 9 (vcreate C c) (map (fun p => VAdd (p_data p) true) g ++ [VAdd z true]) = Def (v, map (fun _ => VRes SV_OK None) g ++ [VRes SV_OK (Some q)]) /\
  l_auth (p_latest q) = SigPresent /\ l_vstr (p_latest q) = [80; 80; 85].
Proof.
  exists toy, H264, gop_setup, (nth 0 end_gops []), (finish_all gop_setup (firstn 1 end_gops)), (nth 0 one_sei []).
  do 2 eexists. split; [exact toy_ok|]. split; [apply toy_keys|]. split; [exact one_finishes|]. cbv zeta.
  split; [unfold end_gops; cbn [nth]; legal_tac|].
  split; [intros _; apply N.ltb_lt; vm_compute; reflexivity|]. split; [vm_compute; reflexivity|].
  split; [vm_compute; reflexivity|]. split; vm_compute; reflexivity.
Qed.

(** ** The stale GOP hash can be used *)
(** Instead of the last GOP a copy of the one before it arrives. Every report says authentic, with the hashes listed and without. *)
Definition replay (gs : list (list piece)) : list (list piece) := removelast gs ++ [last (removelast gs) []].
Theorem C51_replay_refuted : exists C c gs, crypto_ok C /\ keys_work C /\ Forall (legal c) (concat gs) /\
  hashed (last gs []) <> hashed (last (replay gs) []) /\
  forall setup, setup = frame_setup \/ setup = gop_setup -> exists rs xs z l,
    finishes C c 0 setup [] gs rs /\ returned rs = xs ++ [z] /\ comes true [] gs (replay gs) xs l /\
    exists v res q, vrun C OvfUndef 9 (vcreate C c) (map feeds l ++ [VAdd z true]) = Def (v, res ++ [VRes SV_OK (Some q)]) /\
      Forall (fun r => match r with VRes SV_OK (Some p) => l_auth (p_latest p) = AuthOk | VRes SV_OK None => True | _ => False end) res /\
      l_auth (p_latest q) = AuthOk /\ a_auth (p_acc q) = AuthOk.
Proof.
  exists toy, H264, end_gops. split; [exact toy_ok|]. split; [apply toy_keys|].
  split; [unfold end_gops; cbn [concat app]; legal_tac|]. split; [vm_compute; discriminate|].
  intros setup S.
  assert (K : forall seis, seis = end_frame_seis \/ seis = end_gop_seis ->
    exists v res q, vrun toy OvfUndef 9 (vcreate toy H264) (map feeds (three (replay end_gops) seis) ++ [VAdd (nth 2 seis []) true]) = Def (v, res ++ [VRes SV_OK (Some q)]) /\
      Forall (fun r => match r with VRes SV_OK (Some p) => l_auth (p_latest p) = AuthOk | VRes SV_OK None => True | _ => False end) res /\
      l_auth (p_latest q) = AuthOk /\ a_auth (p_acc q) = AuthOk).
  { intros seis Se. apply (split_runs _ (fun res q => _ /\ l_auth (p_latest q) = AuthOk /\ a_auth (p_acc q) = AuthOk)).
    match goal with |- match snd ?x with _ => _ end => assert (K : match snd x with Some q => all_ok (fst x) = true /\ l_auth (p_latest q) = AuthOk /\ a_auth (p_acc q) = AuthOk | None => False end) by (destruct Se as [->| ->]; vm_compute; repeat split; reflexivity); destruct (snd x) end; [|exact K].
    destruct K as [K1 K2]. split; [apply all_ok_spec; exact K1|exact K2]. }
  destruct S as [->| ->].
  - exists (finish_all frame_setup end_gops), (firstn 2 end_frame_seis), (nth 2 end_frame_seis []), (three (replay end_gops) end_frame_seis).
    split; [exact frame_finishes|]. split; [vm_compute; reflexivity|]. split; [apply comes_three|]. apply K; auto.
  - exists (finish_all gop_setup end_gops), (firstn 2 end_gop_seis), (nth 2 end_gop_seis []), (three (replay end_gops) end_gop_seis).
    split; [exact gop_finishes|]. split; [vm_compute; reflexivity|]. split; [apply comes_three|]. apply K; auto.
Qed.

(** C52: if the SEI lists the hashes of the NALUs, the report tells which NALUs were lost, changed or added. *)
From Verif Require Import Base BaseProofs Nalu NaluSpec Crypto Types CodecSpec SeiSpec Signer SignSpec RunProofs GopSpec GopProofs Toy
  PropsSigner PropsGop VTypes NaluList Validator VToy PropsSei MatchSpec E2eSpec DamageSpec LossSpec E2eLoss PropsE2e E2eMain PropsDamage.
Local Open Scope N_scope.

(** A session signs the GOPs [gs] with every call answered OK, and GOPs [hss] arrive instead, as many as were signed, with NALUs
    lost, changed, added or put in another order. Then for every GOP whose SEI lists its hashes, and that still begins with the
    NALU it was signed with, after a GOP of which the same holds, the report at the SEI shows each NALU that arrived as
    authentic or not, as it is. If all are authentic, it shows how many were lost, and the verdict is OK or OK_WITH_MISSING_INFO;
    if not, it is NOT_OK. The only way out are two different strings with the same hash among those hashed for that GOP.

    Partial: as in C49. *)
Theorem C52_losses_told_partial C Ov f c coin setup before gs rs bh hss l ops : crypto_ok C -> keys_work C ->
  signs C c coin setup before gs rs ->
  let w := fold_left (ask C) setup defaults in
  w_using w = false -> Forall (legal c) (concat (firstn 1 gs)) ->
  Forall is_gop hss -> match gs, hss with g :: _, h :: _ => hashed h = hashed g | _, _ => True end ->
  Forall (fun p => p_first p = false /\ p_bytes p = None) bh ->
  Forall (seen c) (bh ++ concat hss) -> Forall (legal c) (bh ++ concat hss) ->
  Forall (fun fs => few_escapes (w_epb w) fs (w_max_sig w)) (gops_fields C w 1 0 (frames before) None gs) ->
  comes (w_epb w) bh gs hss (returned rs) l ->
  (ops = [] /\ w_add_pub w = true) \/ (ops = [VSetKey (w_pub w)] /\ w_oid w = sha256_der) ->
  exists v res,
    vrun C Ov (S f) (vcreate C c) (ops ++ map feeds l) = Def (v, map (fun _ => VRes SV_OK None) ops ++ res) /\
    closes (hears C w) l res.
Proof. exact (damage_closes C Ov f c coin setup before gs rs bh hss l ops). Qed.

(** Five GOPs are signed at frame level. A P slice is lost from the second, one is added to the third and one is changed in
    the fourth. *)
Definition frame_setup : list sop := [OKey key1; OLevel LFrame].
Definition lost_gops : list (list piece) :=
  [[pcs (idr [1]) None true; pcs (pic [1; 1]) None false; pcs (pic [1; 2]) None false];
   [pcs (idr [2]) None true; pcs (pic [2; 2]) None false];
   [pcs (idr [3]) None true; pcs (pic [77]) None false; pcs (pic [3; 1]) None false];
   [pcs (idr [4]) None true; pcs (pic [4; 77]) None false];
   [pcs (idr [5]) None true]].
Definition frame_seis : list (list N) := Eval vm_compute in returned (sign_all toy frame_setup long_gops).
Definition lost_events : list event :=
  match long_gops, lost_gops, frame_seis with
  | [g1; g2; g3; g4; g5], [h1; h2; h3; h4; h5], [y1; y2; y3; y4] =>
      let f g := hd_error (hashed g) in
      map Seen h1 ++ map Seen [] ++ Closed y1 (hashed g1) (hashed h1) None None (hashed []) ::
      map Seen h2 ++ map Seen h3 ++ Closed y2 (hashed g2) (hashed h2) (f g1) (f h1) (hashed h3) ::
      map Seen [] ++ map Seen [] ++ Closed y3 (hashed g3) (hashed h3) (f g2) (f h2) (hashed []) ::
      map Seen h4 ++ map Seen [] ++ Closed y4 (hashed g4) (hashed h4) (f g3) (f h3) (hashed []) ::
      map Seen h5
  | _, _, _ => []
  end.
Lemma frame_signs : signs toy H264 0 frame_setup [] long_gops (sign_all toy frame_setup long_gops).
Proof.
  signs_tac.
  - apply sign_all_runs. vm_compute. reflexivity.
  - apply sign_all_fine. vm_compute. reflexivity.
Qed.
Lemma frame_escapes : Forall (fun fs => few_escapes true fs (w_max_sig (fold_left (ask toy) frame_setup defaults)))
  (gops_fields toy (fold_left (ask toy) frame_setup defaults) 1 0 0 None long_gops).
Proof.
  apply Forall_forall. intros fs Hfs.
  assert (K : forallb (fun fs => nlen (esc 0 (wires fs)) <? nlen (wires fs) + 8 + 65) (gops_fields toy (fold_left (ask toy) frame_setup defaults) 1 0 0 None long_gops) = true) by (vm_compute; reflexivity).
  rewrite forallb_forall in K. intros _. apply N.ltb_lt. exact (K fs Hfs).
Qed.
Lemma next_at epb sp hp g h b g' h' a b' gs hs x xs r : h' = a ++ b' ->
  arrives epb (hd_error (hashed g)) (hd_error (hashed h)) g' h' b' gs hs xs r ->
  arrives epb sp hp g h b (g' :: gs) (h' :: hs) (x :: xs) (map Seen b ++ map Seen a ++ Closed x (hashed g) (hashed h) sp hp (hashed a) :: r).
Proof. intros -> A. apply arrives_next; [left; reflexivity|exact A]. Qed.
Lemma lost_comes : comes true [] long_gops lost_gops frame_seis lost_events.
Proof.
  eexists. split.
  2:{ eapply (next_at _ _ _ _ _ _ _ _ []); [reflexivity|]. eapply (next_at _ _ _ _ _ _ _ _ _ []); [symmetry; apply app_nil_r|].
      eapply (next_at _ _ _ _ _ _ _ _ []); [reflexivity|]. eapply (next_at _ _ _ _ _ _ _ _ []); [reflexivity|]. apply arrives_last. }
  reflexivity.
Qed.
(** No two different strings that are hashed have the same hash here. *)
Definition apart_all (sent got : list (list N)) : bool :=
  let H := c_hash toy (w_oid (fold_left (ask toy) frame_setup defaults)) in
  match sent with
  | x0 :: _ => forallb (fun a => forallb (fun b => bytes_eqb a b || negb (bytes_eqb (H (H x0 ++ H a)) (H (H x0 ++ H b)))) sent) got
  | [] => true
  end &&
  (bytes_eqb (concat (hashes H got)) (concat (hashes H sent)) || negb (bytes_eqb (H (concat (hashes H got))) (H (concat (hashes H sent))))).
Lemma no_clash sent got : apart_all sent got = true -> ~ clash (c_hash toy (w_oid (fold_left (ask toy) frame_setup defaults))) sent got.
Proof.
  unfold apart_all. set (H := c_hash toy _). cbv zeta. intros K. apply andb_prop in K as [K1 K2]. intros [(x0 & a & b & E & IA & IB & NE & EH)|(NE & EH)].
  - destruct sent as [|z sent]; [discriminate|]. cbn [hd_error] in E. injection E as ->. rewrite forallb_forall in K1. specialize (K1 a IA).
    rewrite forallb_forall in K1. specialize (K1 b IB). apply orb_prop in K1 as [K1|K1]; [apply bytes_eqb_eq in K1; contradiction|].
    rewrite EH in K1. replace (bytes_eqb (H (H x0 ++ H b)) (H (H x0 ++ H b))) with true in K1 by (symmetry; apply bytes_eqb_eq; reflexivity). discriminate.
  - apply orb_prop in K2 as [K2|K2]; [apply bytes_eqb_eq in K2; contradiction|].
    rewrite EH in K2. replace (bytes_eqb (H (concat (hashes H sent))) (H (concat (hashes H sent)))) with true in K2 by (symmetry; apply bytes_eqb_eq; reflexivity). discriminate.
Qed.
Definition shown (rs : list vres) : list (authres * list N) :=
  flat_map (fun r => match r with VRes _ (Some q) => [(l_auth (p_latest q), l_vstr (p_latest q))] | _ => [] end) rs.
Example C52_case : exists v res, let w := fold_left (ask toy) frame_setup defaults in
  vrun toy OvfUndef 1 (vcreate toy H264) (map feeds lost_events) = Def (v, res) /\ closes (hears toy w) lost_events res /\
  Forall (fun e => match e with
                   | Closed _ sent got sb gb _ => lists toy w sent /\ hd_error got = hd_error sent /\ gb = sb /\ ~ clash (c_hash toy (w_oid w)) sent got
                   | _ => True end) lost_events /\
  shown res = [(AuthOk, [46; 46; 46; 46]); (OkMissing, [46; 77; 46; 80; 80; 80; 46]); (NotOk, [46; 78; 46; 46; 46]); (NotOk, [46; 78; 46])].
Proof.
  destruct (C52_losses_told_partial toy OvfUndef 0 H264 0 frame_setup [] long_gops _ [] lost_gops lost_events [] toy_ok (toy_keys _) frame_signs)
    as (v & res & E & A).
  - reflexivity.
  - unfold long_gops. cbn [app concat firstn]. legal_tac.
  - gops_tac.
  - reflexivity.
  - constructor.
  - unfold lost_gops. seen_tac.
  - unfold lost_gops. cbn [app concat]. legal_tac.
  - exact frame_escapes.
  - replace (returned (sign_all toy frame_setup long_gops)) with frame_seis by (vm_compute; reflexivity). exact lost_comes.
  - left. split; reflexivity.
  - exists v, res. split; [exact E|]. split; [exact A|]. split.
    + unfold lost_events, long_gops, lost_gops, frame_seis. cbn [map app hashed flat_map p_bytes pcs hd_error].
      repeat (apply Forall_cons; [first [exact I|split; [split; [reflexivity|split; [reflexivity|vm_compute; discriminate]]|split; [reflexivity|split; [reflexivity|apply no_clash; vm_compute; reflexivity]]]]|]). apply Forall_nil.
    + assert (K : match vrun toy OvfUndef 1 (vcreate toy H264) (map feeds lost_events) with
                  | Def (_, res) => shown res = [(AuthOk, [46; 46; 46; 46]); (OkMissing, [46; 77; 46; 80; 80; 80; 46]); (NotOk, [46; 78; 46; 46; 46]); (NotOk, [46; 78; 46])]
                  | Undef _ => False end) by (vm_compute; reflexivity).
      cbn [app] in E. rewrite E in K. exact K.
Qed.

(** What it means that none is wrong: NALUs were lost, but nothing else happened. *)
Theorem C52_only_lost (A : Type) (sent got : list A) bs : told_apart sent got bs -> (wrong bs = O <-> subseq got sent).
Proof. exact (apart_lost sent got bs). Qed.
Example C52_only_lost_case : told_apart [1; 2; 3; 4] [1; 3; 5; 2; 4] [true; true; false; false; true].
Proof.
  apply (apart_good []); [auto|]. apply (apart_good [2]); [cbn; lia|]. apply apart_bad; [cbn; lia|]. apply apart_bad; [cbn; lia|].
  apply (apart_good []); [auto|]. constructor.
Qed.

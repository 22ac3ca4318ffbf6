(** The end of a signed stream at the validator: lemmas. *)
From Verif Require Import Base BaseProofs Nalu NaluSpec Crypto Types CodecSpec SeiSpec Signer SignSpec RunProofs GopSpec EosSpec GopProofs
  VTypes NaluList Validator MatchSpec E2eSpec DamageSpec LossSpec EndSpec E2eDec E2eMain.
Local Open Scope N_scope.

Lemma before_last_more g g' gs : before_last (g :: g' :: gs) = match gs with [] => g | _ => before_last (g' :: gs) end.
Proof. destruct gs; reflexivity. Qed.
Lemma lstart_is : forall gs g' g o, lstart o (g :: g' :: gs) = hd_error (hashed (before_last (g :: g' :: gs))).
Proof.
  induction gs as [|g2 gs IH]; intros g' g o; [reflexivity|]. rewrite before_last_more.
  change (lstart o (g :: g' :: g2 :: gs)) with (lstart (hd_error (hashed g)) (g' :: g2 :: gs)). apply IH.
Qed.
Lemma lhash_is C w : forall gs g' g gh, lhash C w gh (g :: g' :: gs) = c_hash C (w_oid w) (concat (hashes (c_hash C (w_oid w)) (hashed (before_last (g :: g' :: gs))))).
Proof.
  induction gs as [|g2 gs IH]; intros g' g gh; [reflexivity|]. rewrite before_last_more.
  change (lhash C w gh (g :: g' :: g2 :: gs)) with (lhash C w (c_hash C (w_oid w) (concat (hashes (c_hash C (w_oid w)) (hashed g)))) (g' :: g2 :: gs)). apply IH.
Qed.
Lemma lstart_none gs : lstart None gs = hd_error (hashed (before_last gs)).
Proof. destruct gs as [|g [|g' gs]]; [reflexivity..|]. apply lstart_is. Qed.
Lemma comes_len epb bh gs hss xs l : comes epb bh gs hss xs l -> length hss = length gs.
Proof.
  destruct gs as [|g gs], hss as [|h hss]; cbn [comes]; try contradiction; [reflexivity|]. intros (r & _ & A). cbn [length]. f_equal.
  clear l. induction A; [reflexivity|]. cbn [length]. congruence.
Qed.

Lemma stream_end C Ov f c coin setup before gs rs bh hss xs z y l ops : crypto_ok C -> keys_work C -> finishes C c coin setup before gs rs -> gs <> [] ->
  let w := fold_left (ask C) setup defaults in
  w_using w = false -> Forall (legal c) (concat (firstn 1 gs)) ->
  Forall is_gop hss -> match gs, hss with g :: _, h :: _ => hashed h = hashed g | _, _ => True end ->
  Forall (fun p => p_first p = false /\ p_bytes p = None) bh -> Forall (seen c) (bh ++ concat hss) -> Forall (legal c) (bh ++ concat hss) ->
  Forall (fun fs => few_escapes (w_epb w) fs (w_max_sig w)) (gops_fields C w 1 0 (frames before) None gs) ->
  few_escapes (w_epb w) (last_fields C w 1 0 (frames before) None (zeros (oid_size C (w_oid w))) gs) (w_max_sig w) ->
  lists C w (hashed (last gs [])) ->
  returned rs = xs ++ [z] -> comes (w_epb w) bh gs hss xs l -> delivered (w_epb w) z y ->
  (ops = [] /\ w_add_pub w = true) \/ (ops = [VSetKey (w_pub w)] /\ w_oid w = sha256_der) ->
  exists v res q, vrun C Ov (S f) (vcreate C c) (ops ++ map feeds l ++ [VAdd y true]) =
      Def (v, map (fun _ => VRes SV_OK None) ops ++ res ++ [VRes SV_OK (Some q)]) /\
    told false True l res /\ closes (hears C w) l res /\ ends_with C w gs hss q.
Proof.
  intros HC HKW FI NE w HU LG0 IH EF FB SN LG FE FE2 LI ER TR DL HOp.
  destruct (session_ends C HC c coin setup before gs rs FI NE) as (ra & rb & z' & -> & SG & RB & SW). fold w in SW.
  rewrite returned_app, RB in ER. apply app_inj_tail in ER as [<- ->].
  destruct (damage C Ov f c coin setup before gs ra bh hss l ops HC HKW SG HU LG0 IH EF FB SN LG FE TR HOp) as (v & res & E & (T1 & T2) & T3).
  fold w in T2, T3. destruct (T3 NE z y LI SW DL FE2) as (v' & q & B1 & B2 & B3 & B4 & B5).
  exists v', res, q. split; [|split; [exact T1|split; [exact T2|]]].
  - rewrite !app_assoc. apply (run_all C Ov f _ _ _ _ _ E). cbn [vrun vexec]. rewrite B1. reflexivity.
  - pose proof (comes_len _ _ _ _ _ _ TR) as CL. unfold ends_with. cbv zeta. rewrite !lstart_none in *.
    split; [exact B2|]. split; [exact B3|]. split; [intros X; apply B4; [exact I|right; reflexivity|exact X]|].
    intros HD LK. destruct (B5 HD LK) as [X|[X|X]]; [left; exact X|right; left; exact X|].
    destruct gs as [|g [|g' gs]]; [contradiction| |right; right; rewrite <- (lhash_is C w gs g' g (zeros (oid_size C (w_oid w)))); exact X].
    destruct hss as [|h [|? ?]]; try discriminate. left. cbn [last] in *. rewrite EF in *.
    apply finds_tells; [|apply B3; split; [reflexivity|right; reflexivity]].
    destruct (signs_settings C HC _ _ _ _ _ _ SG) as (hs & HO & _). fold w in HO. pose proof (ok_size C HC _ _ HO) as SZ.
    destruct LI as (_ & _ & LI). unfold oid_size in LI. rewrite HO in LI. nia.
Qed.

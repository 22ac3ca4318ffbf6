(** C56: a validator that is reset validates the next recording whatever came before. *)
From Verif Require Import Base BaseProofs Nalu NaluSpec Crypto Types CodecSpec SeiSpec Signer SignSpec RunProofs GopSpec GopProofs Toy
  PropsSigner PropsGop VTypes NaluList Validator ValidSpec VReset VTerm VToy PropsSei E2eSpec DamageSpec PropsE2e E2eMain E2eSeg PropsAuth PropsDamage SafeSpec SafeMain ScrubMain PropsDefined.
Local Open Scope N_scope.

(** A session signs the GOPs [gs0], [g] and [gs], with every call answered OK. A validator is first given anything that is harmless in the sense
    of C54, with the key and the size of signatures of this session: parts of the same stream, damaged, reordered and repeated, SEIs with wrong
    signatures, other streams, resets, questions for the report. Then the session is reset and gets the GOPs [g] and [gs]
    with their SEIs: the whole stream, or the end of it if [gs0] is not empty. All these calls succeed and every GOP is
    found authentic, as in C27.

    Partial: as in C27 and C50; the public key is in the SEIs; the difference of ints that overflows wraps around. *)
Theorem C56_heals_partial C f c coin setup before gs0 g gs rs bh a l : crypto_ok C -> keys_work C -> (forall k s h, c_verify C k s h = 0%Z \/ c_verify C k s h = 1%Z) ->
  signs C c coin setup before (gs0 ++ g :: gs) rs ->
  let w := fold_left (ask C) setup defaults in
  w_add_pub w = true -> w_using w = false -> w_rec w = 1 ->
  Forall (legal c) (bh ++ concat (g :: gs)) -> Forall (seen c) bh -> Forall (fun p => p_first p = false /\ p_bytes p = None) bh ->
  Forall (fun fs => few_escapes (w_epb w) fs (w_max_sig w)) (gops_fields C w 1 0 (frames before) None (gs0 ++ g :: gs)) ->
  transmits (w_epb w) bh (g :: gs) (skipn (length gs0) (returned rs)) l ->
  Forall (harmless_of (eq (w_pub w)) (eq (w_max_sig w)) C c (w_oid w)) a -> Forall octets a -> (S (length (filter is_add a)) < S f)%nat ->
  exists v ra v2 res, vrun C OvfWrap (S f) (vcreate C c) a = Def (v, ra) /\
    vrun C OvfWrap (S f) (vcreate C c) (a ++ VReset :: map sends l) = Def (v2, ra ++ VRes SV_OK None :: res) /\ answers false l res.
Proof.
  intros HC HK HV SG w HA HU HR LG SB FB FE TR HH HB HF.
  exact (heals C OvfWrap f c coin setup before gs0 g gs rs HC HK HV SG HA HU HR bh LG SB FB FE a l eq_refl HH HB HF TR).
Qed.
(** Nothing needs to be assumed on the overflow if the first counter that comes is not larger than the last one that came plus one: when an older part of the
    recording is shown, the same part again or the one that comes next. *)
Theorem C56_back_partial C Ov f c coin setup before gs0 g gs rs bh a v ra l : crypto_ok C -> keys_work C -> (forall k s h, c_verify C k s h = 0%Z \/ c_verify C k s h = 1%Z) ->
  signs C c coin setup before (gs0 ++ g :: gs) rs ->
  let w := fold_left (ask C) setup defaults in
  w_add_pub w = true -> w_using w = false -> w_rec w = 1 ->
  Forall (legal c) (bh ++ concat (g :: gs)) -> Forall (seen c) bh -> Forall (fun p => p_first p = false /\ p_bytes p = None) bh ->
  Forall (fun fs => few_escapes (w_epb w) fs (w_max_sig w)) (gops_fields C w 1 0 (frames before) None (gs0 ++ g :: gs)) ->
  transmits (w_epb w) bh (g :: gs) (skipn (length gs0) (returned rs)) l ->
  Forall (harmless_of (eq (w_pub w)) (eq (w_max_sig w)) C c (w_oid w)) a -> vrun C Ov (S f) (vcreate C c) a = Def (v, ra) ->
  Ov <> OvfUndef \/ (1 + nlen gs0) mod 2 ^ 32 <= (v_gop v + 1) mod 2 ^ 32 ->
  exists v2 res, vrun C Ov (S f) (vcreate C c) (a ++ VReset :: map sends l) = Def (v2, ra ++ VRes SV_OK None :: res) /\ answers false l res.
Proof.
  intros HC HK HV SG w HA HU HR LG SB FB FE TR HH E HAp.
  exact (scrub_gop C Ov f c coin setup before gs0 g gs rs HC HK HV SG HA HU HR bh LG SB FB FE a v ra l HH E HAp TR).
Qed.
(** The same for a part that begins with the SEI of the GOP before it. *)
Theorem C56_from_sei_partial C Ov f c coin setup before gs0 g gs rs bh a v ra x y p l : crypto_ok C -> keys_work C -> (forall k s h, c_verify C k s h = 0%Z \/ c_verify C k s h = 1%Z) ->
  Ov <> OvfUndef -> signs C c coin setup before (gs0 ++ g :: gs) rs -> gs0 <> [] ->
  let w := fold_left (ask C) setup defaults in
  w_add_pub w = true -> w_using w = false -> w_rec w = 1 ->
  Forall (legal c) (bh ++ concat (g :: gs)) -> Forall (seen c) bh -> Forall (fun p => p_first p = false /\ p_bytes p = None) bh ->
  Forall (fun fs => few_escapes (w_epb w) fs (w_max_sig w)) (gops_fields C w 1 0 (frames before) None (gs0 ++ g :: gs)) ->
  nth_error (returned rs) (length gs0 - 1) = Some x -> delivered (w_epb w) x y ->
  transmits (w_epb w) [] (g :: gs) (skipn (length gs0) (returned rs)) (E2eSpec.Pic p :: l) ->
  Forall (harmless_of (eq (w_pub w)) (eq (w_max_sig w)) C c (w_oid w)) a -> vrun C Ov (S f) (vcreate C c) a = Def (v, ra) ->
  exists v2 q res, vrun C Ov (S f) (vcreate C c) (a ++ VReset :: map sends (map E2eSpec.Pic bh) ++ VAdd y true :: sends (E2eSpec.Pic p) :: map sends l) =
      Def (v2, ra ++ VRes SV_OK None :: map (fun _ => VRes SV_OK None) bh ++ VRes SV_OK None :: VRes SV_OK (Some q) :: res) /\
    l_auth (p_latest q) = SigPresent /\ p_changed q = false /\ answers true l res.
Proof.
  intros HC HK HV HOv SG N0 w HA HU HR LG SB FB FE NX HD TR HH E.
  exact (scrub_sei C Ov f c coin setup before gs0 g gs rs HC HK HV SG HA HU HR bh LG SB FB FE a v ra x y p l HOv N0 HH E NX HD TR).
Qed.

(** ** A case *)
(** The history is the one of C54, in which a lot goes wrong, with a report asked for and a reset in the middle. Then four GOPs come, or the last two of them. *)
Definition history : list vop := adds (map case_nalu (firstn 9 mess)) ++ [VGetReport; VReset] ++ adds (map case_nalu mess).
Lemma history_harmless : Forall (harmless_of (eq (w_pub four_settings)) (eq (w_max_sig four_settings)) toy H264 sha256_der) history /\ Forall octets history.
Proof.
  destruct (case_harmless_of (eq (w_pub four_settings)) (eq (w_max_sig four_settings)) mess eq_refl eq_refl) as [X1 X2]; [vm_compute; reflexivity|].
  destruct (case_harmless_of (eq (w_pub four_settings)) (eq (w_max_sig four_settings)) (firstn 9 mess) eq_refl eq_refl) as [Y1 Y2]; [vm_compute; reflexivity|].
  split; (apply Forall_app; split; [assumption|]; repeat (apply Forall_cons; [exact I|]); assumption).
Qed.
Definition tail_of (n : nat) : list arrival :=
  match skipn n four_gops, skipn n four_seis with
  | [g1; g2; g3; g4], [y1; y2; y3] =>
      map E2eSpec.Pic g1 ++ map E2eSpec.Pic (firstn 1 g2) ++ Sei y1 (hashed g1) (hashed (firstn 1 g2)) :: map E2eSpec.Pic (skipn 1 g2) ++
      map E2eSpec.Pic (firstn 1 g3) ++ Sei y2 (hashed g2) (hashed (firstn 1 g3)) :: map E2eSpec.Pic (skipn 1 g3) ++
      map E2eSpec.Pic (firstn 1 g4) ++ Sei y3 (hashed g3) (hashed (firstn 1 g4)) :: map E2eSpec.Pic (skipn 1 g4)
  | [g3; g4], [y3] => map E2eSpec.Pic g3 ++ map E2eSpec.Pic (firstn 1 g4) ++ Sei y3 (hashed g3) (hashed (firstn 1 g4)) :: map E2eSpec.Pic (skipn 1 g4)
  | _, _ => []
  end.
Lemma all_sent : transmits true [] four_gops four_seis (tail_of 0).
Proof.
  exists (tail_of 0). split; [reflexivity|]. unfold four_gops, four_seis. cbn [map].
  apply (next_gop true _ _ [_] _); [left; reflexivity|]. apply (next_gop true _ _ [_] _); [left; reflexivity|]. apply (next_gop true _ _ [_] _); [left; reflexivity|]. apply last_gop.
Qed.
Lemma end_sent : transmits true [] (skipn 2 four_gops) (skipn 2 four_seis) (tail_of 2).
Proof. exists (tail_of 2). split; [reflexivity|]. unfold four_gops, four_seis. cbn [map skipn]. apply (next_gop true _ _ [_] _); [left; reflexivity|]. apply last_gop. Qed.
Lemma four_escapes : Forall (fun fs => few_escapes true fs 65) (gops_fields toy four_settings 1 0 0 None four_gops).
Proof.
  apply Forall_forall. intros fs Hfs.
  assert (K : forallb (fun fs => nlen (esc 0 (wires fs)) <? nlen (wires fs) + 8 + 65) four_fields = true) by (vm_compute; reflexivity).
  rewrite forallb_forall in K. intros _. apply N.ltb_lt. exact (K fs Hfs).
Qed.
Lemma toy_verifies : forall k s h, c_verify toy k s h = 0%Z \/ c_verify toy k s h = 1%Z.
Proof. intros k s h; cbn; destruct (bytes_eqb _ _); auto. Qed.
Example C56_case : exists v ra v2 res, vrun toy OvfWrap 40 (vcreate toy H264) history = Def (v, ra) /\
    vrun toy OvfWrap 40 (vcreate toy H264) (history ++ VReset :: map sends (tail_of 0)) = Def (v2, ra ++ VRes SV_OK None :: res) /\ answers false (tail_of 0) res /\
    length (tail_of 0) = 19%nat.
Proof.
  destruct history_harmless as [HH HB].
  destruct (C56_heals_partial toy 39 H264 0 [OKey key1] [] [] (nth 0 four_gops []) (skipn 1 four_gops) four_rs [] history (tail_of 0) toy_ok (toy_keys _) toy_verifies four_signs)
    as (v & ra & v2 & res & E1 & E2 & A).
  - reflexivity.
  - reflexivity.
  - reflexivity.
  - unfold four_gops. cbn [app concat nth skipn map]. legal_tac.
  - constructor.
  - constructor.
  - exact four_escapes.
  - exact all_sent.
  - exact HH.
  - exact HB.
  - vm_compute. lia.
  - exists v, ra, v2, res. auto.
Qed.
(** In the history the last counter was 2, so the part that begins with the third GOP can come, and the whole stream. *)
Example C56_back_case : exists v ra v2 res, vrun toy OvfUndef 40 (vcreate toy H264) history = Def (v, ra) /\ v_gop v = 2 /\
    vrun toy OvfUndef 40 (vcreate toy H264) (history ++ VReset :: map sends (tail_of 2)) = Def (v2, ra ++ VRes SV_OK None :: res) /\ answers false (tail_of 2) res /\
    length (tail_of 2) = 9%nat.
Proof.
  destruct history_harmless as [HH HB].
  assert (X : match vrun toy OvfUndef 40 (vcreate toy H264) history with Def (v, _) => v_gop v =? 2 | Undef _ => false end = true) by (vm_compute; reflexivity).
  destruct (vrun toy OvfUndef 40 (vcreate toy H264) history) as [[v ra]|u] eqn:E; [|discriminate]. apply N.eqb_eq in X.
  destruct (C56_back_partial toy OvfUndef 39 H264 0 [OKey key1] [] (firstn 2 four_gops) (nth 2 four_gops []) (skipn 3 four_gops) four_rs [] history v ra (tail_of 2) toy_ok (toy_keys _) toy_verifies four_signs)
    as (v2 & res & E2 & A).
  - reflexivity.
  - reflexivity.
  - reflexivity.
  - unfold four_gops. cbn [app concat nth skipn map]. legal_tac.
  - constructor.
  - constructor.
  - exact four_escapes.
  - exact end_sent.
  - exact HH.
  - exact E.
  - right. rewrite X. vm_compute. discriminate.
  - exists v, ra, v2, res. auto.
Qed.
Definition third_first : piece := nth 0 (nth 2 four_gops []) (pcs [] None false).
Example C56_sei_case : exists v ra v2 q res, vrun toy OvfWrap 40 (vcreate toy H264) history = Def (v, ra) /\
    vrun toy OvfWrap 40 (vcreate toy H264) (history ++ VReset :: VAdd (nth 1 four_seis []) true :: map sends (tail_of 2)) =
      Def (v2, ra ++ VRes SV_OK None :: VRes SV_OK None :: VRes SV_OK (Some q) :: res) /\ l_auth (p_latest q) = SigPresent /\ answers true (tl (tail_of 2)) res.
Proof.
  destruct history_harmless as [HH HB].
  assert (X : match vrun toy OvfWrap 40 (vcreate toy H264) history with Def (v, _) => true | Undef _ => false end = true) by (vm_compute; reflexivity).
  destruct (vrun toy OvfWrap 40 (vcreate toy H264) history) as [[v ra]|u] eqn:E; [|discriminate]. clear X.
  destruct (C56_from_sei_partial toy OvfWrap 39 H264 0 [OKey key1] [] (firstn 2 four_gops) (nth 2 four_gops []) (skipn 3 four_gops) four_rs [] history v ra
    (nth 1 four_seis []) (nth 1 four_seis []) third_first (tl (tail_of 2)) toy_ok (toy_keys _) toy_verifies ltac:(discriminate) four_signs)
    as (v2 & q & res & E2 & A & _ & B).
  - discriminate.
  - reflexivity.
  - reflexivity.
  - reflexivity.
  - unfold four_gops. cbn [app concat nth skipn map]. legal_tac.
  - constructor.
  - constructor.
  - exact four_escapes.
  - vm_compute. reflexivity.
  - left. reflexivity.
  - exact end_sent.
  - exact HH.
  - exact E.
  - exists v, ra, v2, q, res. auto.
Qed.

(** ** What is needed *)
(** After the first GOP of the stream the session is reset and the third one comes: the validator has kept the counter, and the difference overflows. *)
Theorem C56_overflow_refuted : exists C c setup gs0 g gs rs a l, crypto_ok C /\ keys_work C /\ signs C c 0 setup [] (gs0 ++ g :: gs) rs /\
  Forall (harmless_of (eq (w_pub (fold_left (ask C) setup defaults))) (eq (w_max_sig (fold_left (ask C) setup defaults))) C c (w_oid (fold_left (ask C) setup defaults))) a /\
  transmits true [] (g :: gs) (skipn (length gs0) (returned rs)) l /\
  verdicts (vrun C OvfUndef 40 (vcreate C c) a) = [NotSigned; AuthOk] /\ vrun C OvfUndef 40 (vcreate C c) (a ++ VReset :: map sends l) = Undef SignedOverflow.
Proof.
  set (h := [Idr [1]; Pic [1; 1]; Pic [1; 2]; Pic [1; 3]; Idr [2]; sent 0]).
  exists toy, H264, [OKey key1], (firstn 2 four_gops), (nth 2 four_gops []), (skipn 3 four_gops), four_rs, (adds (map case_nalu h)), (tail_of 2).
  split; [exact toy_ok|]. split; [apply toy_keys|]. split; [exact four_signs|].
  split; [exact (proj1 (case_harmless_of (eq (w_pub four_settings)) (eq (w_max_sig four_settings)) h eq_refl eq_refl ltac:(vm_compute; reflexivity)))|].
  split; [exact end_sent|]. split; vm_compute; reflexivity.
Qed.

Lemma small_sei (K : list N -> Prop) (M : nat -> Prop) fs max sig : M max -> Forall (formed_field toy sha256_der) fs -> Forall (key_in K) fs ->
  meta_okb fs && (nlen (wires fs) <? 1048576) && (nlen (esc 0 (wires fs)) <? nlen (wires fs) + 8 + N.of_nat max) && existsb (N.eqb 7) (map fst fs) && byte_list sig &&
    (length sig <=? max)%nat && (max <? 100)%nat && (nlen (sei H264 true false (fs ++ [(5, sig_value max sig)])) <? 10000) = true ->
  harmless_of K M toy H264 sha256_der (VAdd (sei H264 true false (fs ++ [(5, sig_value max sig)])) true).
Proof.
  intros HM HF HK H. repeat (apply andb_prop in H as [H ?]). split; [change (2 ^ 63) with 9223372036854775808; lia|]. right.
  exists true, fs, max, sig. cbv zeta. split; [left; reflexivity|]. split; [apply meta_okb_ok; assumption|]. split; [exact HF|].
  split; [intros _; match goal with E : existsb _ _ = true |- _ => apply existsb_exists in E as (z & Z1 & Z2); apply N.eqb_eq in Z2; rewrite Z2; exact Z1 end|].
  split; [change (2 ^ 20) with 1048576; lia|]. split; [change (2 ^ 16) with 65536; lia|]. split; [apply byte_list_ok; assumption|]. split; [lia|]. split; [|split; [exact HK|exact HM]].
  intros _. apply N.ltb_lt. assumption.
Qed.
Lemma first_fields : Forall (formed_field toy sha256_der) (nth 0 four_fields []) /\ Forall (key_in (eq (w_pub four_settings))) (nth 0 four_fields []).
Proof.
  split.
  - pose proof (gops_formed toy toy_ok four_settings 32 eq_refl ltac:(discriminate) eq_refl eq_refl ltac:(repeat constructor) four_gops 1 0 0 None) as F. exact (proj1 (Forall_inv F)).
  - exact (Forall_inv (gops_key toy four_settings four_gops 1 0 0 None)).
Qed.

(** Signatures of another size in the history: the buffer for the signature was made for the first SEI, a reset does not remove it, and every SEI with a signature
    field of another size is answered with SV_MEMORY. The whole stream is not validated at all, whoever sent that first SEI. *)
Theorem C56_size_refuted : exists C c setup gs rs a l, crypto_ok C /\ keys_work C /\ signs C c 0 setup [] gs rs /\
  Forall (harmless_of (eq (w_pub (fold_left (ask C) setup defaults))) (fun _ => True) C c (w_oid (fold_left (ask C) setup defaults))) a /\
  transmits true [] gs (returned rs) l /\
  match vrun C OvfWrap 40 (vcreate C c) (a ++ VReset :: map sends l) with
  | Def (_, rs) => flat_map (fun r => match r with VRes SV_OK None | VLegacy => [] | VRes e q => [(e, option_map (fun q => l_auth (p_latest q)) q)] end) (skipn (S (length a)) rs)
  | Undef _ => []
  end = [(SV_OK, Some NotSigned); (SV_MEMORY, None); (SV_MEMORY, None); (SV_MEMORY, None)].
Proof.
  exists toy, H264, [OKey key1], four_gops, four_rs, [VAdd (idr [9]) true; VAdd (sei H264 true false (nth 0 four_fields [] ++ [(5, sig_value 66 (nth 0 sigs []))])) true; VAdd (idr [10]) true], (tail_of 0).
  split; [exact toy_ok|]. split; [apply toy_keys|]. split; [exact four_signs|].
  split.
  { destruct (case_harmless_of (eq (w_pub four_settings)) (fun _ => True) [Idr [9]; Idr [10]] eq_refl I ltac:(vm_compute; reflexivity)) as [X _].
    apply Forall_cons_iff in X as [X1 X]. apply Forall_cons_iff in X as [X2 _].
    apply Forall_cons; [exact X1|]. apply Forall_cons; [|apply Forall_cons; [exact X2|constructor]].
    apply small_sei; [exact I|exact (proj1 first_fields)|exact (proj2 first_fields)|vm_compute; reflexivity]. }
  split; [exact all_sent|]. vm_compute. reflexivity.
Qed.
(** Another public key in the history: the key survives the reset as well, and the first GOP of the new stream is not found authentic. *)
Theorem C56_key_refuted : exists C c setup gs rs a l, crypto_ok C /\ keys_work C /\ signs C c 0 setup [] gs rs /\
  Forall (harmless_of (fun _ => True) (eq (w_max_sig (fold_left (ask C) setup defaults))) C c (w_oid (fold_left (ask C) setup defaults))) a /\
  transmits true [] gs (returned rs) l /\
  match vrun C OvfWrap 40 (vcreate C c) (a ++ VReset :: map sends l) with
  | Def (v, rs) => verdicts (Def (v, skipn (S (length a)) rs))
  | Undef _ => []
  end = [NotSigned; NotOk; AuthOk; AuthOk].
Proof.
  set (fs := map (fun f => if fst f =? 2 then (2, 2 :: 75 :: key2) else f) (nth 0 four_fields [])).
  exists toy, H264, [OKey key1], four_gops, four_rs, [VAdd (idr [9]) true; VAdd (sei H264 true false (fs ++ [(5, sig_value 65 (nth 0 sigs []))])) true; VAdd (idr [10]) true], (tail_of 0).
  split; [exact toy_ok|]. split; [apply toy_keys|]. split; [exact four_signs|].
  split.
  { destruct (case_harmless_of (fun _ => True) (eq (w_max_sig four_settings)) [Idr [9]; Idr [10]] I eq_refl ltac:(vm_compute; reflexivity)) as [X _].
    apply Forall_cons_iff in X as [X1 X]. apply Forall_cons_iff in X as [X2 _].
    apply Forall_cons; [exact X1|]. apply Forall_cons; [|apply Forall_cons; [exact X2|constructor]].
    assert (FM : forall P Q : N * list N -> Prop, Q (2, 2 :: 75 :: key2) -> (forall f, P f -> Q f) -> Forall P (nth 0 four_fields []) -> Forall Q fs).
    { intros P Q HQ HPQ F. unfold fs. apply Forall_map. eapply Forall_impl; [|exact F]. intros f Pf. cbv beta. destruct (fst f =? 2); [exact HQ|apply HPQ, Pf]. }
    apply small_sei; [reflexivity| | |vm_compute; reflexivity].
    - apply (FM (formed_field toy sha256_der)); [|auto|exact (proj1 first_fields)]. right. left. split; [reflexivity|]. eexists. split; [reflexivity|]. split; [discriminate|]. vm_compute. reflexivity.
    - apply (FM (key_in (eq (w_pub four_settings)))); [|intros f; apply key_in_impl; auto|exact (proj2 first_fields)]. intros _. eexists. split; [reflexivity|exact I]. }
  split; [exact all_sent|]. vm_compute. reflexivity.
Qed.

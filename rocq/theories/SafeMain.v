(** The theorems on a validator that is given NALUs without harm, and the SEIs of the signer. *)
From Verif Require Import Base BaseProofs Nalu Crypto Types CodecSpec CodecProofs SeiSpec SignSpec GopSpec GopProofs Signer SignerProofs VTypes NaluList Validator ValidSpec VReset VTerm
  E2eSpec E2eMain SafeSpec SafeDec SafeProofs.
Local Open Scope N_scope.

Lemma defined C oid hs f c ops : crypto_ok C -> c_oid C oid = OidDigest hs -> oid <> [] -> (forall k s h, c_verify C k s h = 0%Z \/ c_verify C k s h = 1%Z) ->
  Forall (harmless C c oid) ops -> Forall octets ops -> (S (length (filter is_add ops)) < f)%nat ->
  exists v rs, vrun C OvfWrap f (vcreate C c) ops = Def (v, rs) /\ ~ In VLegacy rs.
Proof.
  intros HC HO HW HV HH HB HF. pose proof (@session_ok {| okkey := fun _ => True; oksig := fun _ => True |} C HC OvfWrap oid hs HO HW HV f c ops HH) as X. pose proof (run_ends C OvfWrap f c ops ltac:(discriminate) HB HF) as T.
  destruct (vrun C OvfWrap f (vcreate C c) ops) as [[v rs]|u]; [destruct X; eauto|]. cbn [holds] in X. destruct X as [->|[X _]]; [congruence|discriminate].
Qed.
Lemma only_overflow C oid hs f c ops : crypto_ok C -> c_oid C oid = OidDigest hs -> oid <> [] -> (forall k s h, c_verify C k s h = 0%Z \/ c_verify C k s h = 1%Z) ->
  Forall (harmless C c oid) ops -> Forall octets ops -> (S (length (filter is_add ops)) < f)%nat ->
  (exists v rs, vrun C OvfUndef f (vcreate C c) ops = Def (v, rs) /\ ~ In VLegacy rs) \/ vrun C OvfUndef f (vcreate C c) ops = Undef SignedOverflow.
Proof.
  intros HC HO HW HV HH HB HF. pose proof (@session_ok {| okkey := fun _ => True; oksig := fun _ => True |} C HC OvfUndef oid hs HO HW HV f c ops HH) as X. pose proof (run_ends C OvfUndef f c ops ltac:(discriminate) HB HF) as T.
  destruct (vrun C OvfUndef f (vcreate C c) ops) as [[v rs]|u]; [destruct X; eauto|]. cbn [holds] in X. destruct X as [->|[_ ->]]; [congruence|auto].
Qed.

(** The fields of a GOP are formed. *)
Section Fields.
Variable C : crypto.
Hypothesis HC : crypto_ok C.
Variable w : settings.
Variable hs : nat.
Hypothesis HO : c_oid C (w_oid w) = OidDigest hs.
Hypothesis HP0 : w_pub w <> [].
Hypothesis HPk : c_pub_ok C (w_pub w) = true.
Hypothesis HR5 : length (w_prod w) = 5%nat.
Hypothesis HRb : Forall (Forall (fun b => 0 < b < 256)) (w_prod w).

Lemma recurrent_formed : Forall (formed_field C (w_oid w)) (recurrent_fields w).
Proof.
  unfold recurrent_fields. apply Forall_app. split.
  - destruct (w_add_pub w); [|constructor]. constructor; [|constructor]. right. left. split; [reflexivity|]. exists (w_pub w). auto.
  - constructor; [|constructor; [|constructor]].
    + right. right. left. split; [reflexivity|]. exists (w_prod w). auto.
    + do 5 right. split; reflexivity.
Qed.
Lemma general_formed k prev xs ts : formed_field C (w_oid w) (1, general_field C w k prev xs ts).
Proof.
  assert (LH : forall x, length (c_hash C (w_oid w) x) = oid_size C (w_oid w)) by (intros x; unfold oid_size; rewrite HO; apply (ok_hash_len C HC); exact HO).
  left. split; [reflexivity|]. unfold general_field. cbv zeta. cbn [snd].
  exists (digits 4 (k mod 2 ^ 32) ++ digits 2 (nlen xs mod 2 ^ 16) ++ [1; 1; 29]), (match ts with Some t => 1 :: digits 8 (Z.to_N (t mod 2 ^ 64)) | None => [0] end),
    (match prev with Some x => c_hash C (w_oid w) x | None => zeros (oid_size C (w_oid w)) end), (c_hash C (w_oid w) (concat (hashes (c_hash C (w_oid w)) xs))).
  split; [cbn [app]; rewrite <- !app_assoc; reflexivity|]. split; [rewrite !app_length, !digits_len; reflexivity|]. split; [|split; [|apply LH]].
  - destruct ts as [t|]; [|left; reflexivity]. right. eexists. split; [|reflexivity]. apply digits_len.
  - destruct prev; [apply LH|apply repeat_length].
Qed.
Lemma fields_formed k rec prev xs ts : Forall (formed_field C (w_oid w)) (gop_fields C w k rec prev xs ts) /\
  (Exists recurrent_field (gop_fields C w k rec prev xs ts) -> In 7 (map fst (gop_fields C w k rec prev xs ts))).
Proof.
  unfold gop_fields. cbv zeta. set (l := list_field C w _ xs).
  assert (HL : Forall (formed_field C (w_oid w)) l /\ Forall (fun f => ~ recurrent_field f) l).
  { unfold l, list_field. cbv zeta. destruct (w_frame w && (nlen (concat (hashes (c_hash C (w_oid w)) xs)) <=? 19200) && _) eqn:E; [|split; constructor]. apply andb_prop in E as [E _]. apply andb_prop in E as [_ E].
    split; (constructor; [|constructor]); [|intros [X|[X|X]]; discriminate]. do 3 right. left. split; [reflexivity|]. eexists. split; [reflexivity|]. lia. }
  clearbody l. destruct HL as [L1 L2]. split.
  - apply Forall_app. split; [|exact L1]. apply Forall_app. split; [|constructor; [apply general_formed|constructor]]. destruct (_ && _); [apply recurrent_formed|constructor].
  - destruct (rec && negb (w_using w)).
    + intros _. rewrite !map_app. apply in_or_app. left. apply in_or_app. left. unfold recurrent_fields. rewrite map_app. apply in_or_app. right. right. left. reflexivity.
    + cbn [app]. intros X. exfalso. inversion X as [x y [Y|[Y|Y]]|x y Y]; subst; try discriminate. rewrite Forall_forall in L2. rewrite Exists_exists in Y. destruct Y as (f & F1 & F2). exact (L2 f F1 F2).
Qed.
Lemma fields_key k rec prev xs ts : Forall (key_in (eq (w_pub w))) (gop_fields C w k rec prev xs ts).
Proof.
  unfold gop_fields. cbv zeta. set (l := list_field C w _ xs).
  assert (HL : Forall (key_in (eq (w_pub w))) l).
  { unfold l, list_field. cbv zeta. destruct (w_frame w && (nlen (concat (hashes (c_hash C (w_oid w)) xs)) <=? 19200) && _); [|constructor]. constructor; [intros X; discriminate X|constructor]. }
  clearbody l. apply Forall_app. split; [|exact HL]. apply Forall_app. split; [|constructor; [intros X; discriminate X|constructor]]. destruct (_ && _); [|constructor].
  unfold recurrent_fields. apply Forall_app. split; [|constructor; [intros X; discriminate X|constructor; [intros X; discriminate X|constructor]]].
  destruct (w_add_pub w); [|constructor]. constructor; [|constructor]. intros _. exists (w_pub w). split; reflexivity.
Qed.
Lemma gops_key gs : forall k lo f prev, Forall (Forall (key_in (eq (w_pub w)))) (gops_fields C w k lo f prev gs).
Proof.
  induction gs as [|g gs IH]; intros k lo f prev; cbn [gops_fields]; [constructor|]. destruct gs as [|[|nx r] gs]; [constructor|constructor|]. cbv zeta. constructor; [apply fields_key|apply IH].
Qed.
Lemma gops_formed gs : forall k lo f prev, Forall (fun fs => Forall (formed_field C (w_oid w)) fs /\ (Exists recurrent_field fs -> In 7 (map fst fs))) (gops_fields C w k lo f prev gs).
Proof.
  induction gs as [|g gs IH]; intros k lo f prev; cbn [gops_fields]; [constructor|]. destruct gs as [|[|nx r] gs]; [constructor|constructor|]. cbv zeta. constructor; [apply fields_formed|apply IH].
Qed.
End Fields.

Lemma key_in_impl (K L : list N -> Prop) f : (forall k, K k -> L k) -> key_in K f -> key_in L f.
Proof. intros H X E. destruct (X E) as (k & E2 & Y). eauto. Qed.
Lemma signed_formed_of C c coin setup before gs rs : crypto_ok C -> keys_work C -> signs C c coin setup before gs rs ->
  let w := fold_left (ask C) setup defaults in
  Forall (fun fs => few_escapes (w_epb w) fs (w_max_sig w)) (gops_fields C w 1 0 (frames before) None gs) ->
  (exists hs, c_oid C (w_oid w) = OidDigest hs) /\ w_oid w <> [] /\ Forall (formed_sei_of (eq (w_pub w)) (eq (w_max_sig w)) C c (w_oid w)) (returned rs).
Proof.
  intros HC HKW SG w FE. destruct (signs_settings C HC _ _ _ _ _ _ SG) as (hs & HO & _ & _). fold w in HO.
  pose proof (session_gops C HC c coin setup before gs) as SE. destruct SG as (S1 & S2 & S3 & S4 & S5 & S6 & (s & S7) & S8).
  destruct (asks_good C HC setup defaults S1) as (HW0 & HWl & HR5 & HRb); [repeat split; try discriminate; repeat constructor|]. fold w in HW0, HWl, HR5, HRb.
  destruct (asks_key C setup defaults S1 (or_intror S3)) as [key HK]. fold w in HK. destruct (ok_priv C HC _ _ _ HK) as (HP0 & _). destruct (HKW _ _ _ HK) as [HPk _].
  assert (F2 : Forall2 (sei_with C c w) (gops_fields C w 1 0 (frames before) None gs) (returned rs)) by exact (proj1 (SE s rs S1 S2 S3 S4 S5 S6 S7 S8)).
  split; [eauto|]. split; [exact HW0|]. pose proof (gops_formed C HC w hs HO HP0 HPk HR5 HRb gs 1 0 (frames before) None) as GF.
  pose proof (gops_key C w gs 1 0 (frames before) None) as GK. revert FE GF GK. induction F2 as [|fs x l m (sig & k & _ & SS) F2 IH]; intros FE GF GK; constructor.
  - apply Forall_inv in FE, GF, GK. destruct GF as [G1 G2]. destruct SS as (E & M & B & _ & HM & BO & _ & SL & _). exists (w_epb w), fs, (w_max_sig w), sig. cbv zeta. split; [left; exact E|]. auto 13.
  - apply IH; [apply Forall_inv_tail in FE; exact FE|apply Forall_inv_tail in GF; exact GF|apply Forall_inv_tail in GK; exact GK].
Qed.
Lemma formed_impl (K L : list N -> Prop) (M M2 : nat -> Prop) C c oid y : (forall k, K k -> L k) -> (forall n, M n -> M2 n) -> formed_sei_of K M C c oid y -> formed_sei_of L M2 C c oid y.
Proof.
  intros H HM (epb & fs & max & sig & H1 & H2 & H3 & H4 & H5 & H6 & H7 & H8 & H9 & H10 & H11). exists epb, fs, max, sig. cbv zeta. do 9 (split; [assumption|]). split; [|auto].
  eapply Forall_impl; [|exact H10]. intros f. apply key_in_impl, H.
Qed.
Lemma signed_formed C c coin setup before gs rs : crypto_ok C -> keys_work C -> signs C c coin setup before gs rs ->
  let w := fold_left (ask C) setup defaults in
  Forall (fun fs => few_escapes (w_epb w) fs (w_max_sig w)) (gops_fields C w 1 0 (frames before) None gs) ->
  (exists hs, c_oid C (w_oid w) = OidDigest hs) /\ w_oid w <> [] /\ Forall (formed_sei C c (w_oid w)) (returned rs).
Proof.
  intros HC HKW SG w FE. destruct (signed_formed_of C c coin setup before gs rs HC HKW SG FE) as (H1 & H2 & H3). split; [exact H1|]. split; [exact H2|].
  eapply Forall_impl; [|exact H3]. intros y. apply formed_impl; auto.
Qed.

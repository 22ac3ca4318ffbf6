(** C54: a validator that is given SEIs in the right format never misbehaves. *)
From Verif Require Import Base BaseProofs Nalu Crypto Types CodecSpec SeiSpec SignSpec GopSpec Signer VTypes NaluList Validator ValidSpec VReset VTerm E2eSpec SafeSpec SafeMain
  Toy VToy PropsSei PropsGop PropsE2e PropsAuth.
Local Open Scope N_scope.

(** C54. The validator is given, in any order and any number, NALUs that are no SEI of this library and SEIs made of fields in the right format, with
    signatures that may be wrong; the session is reset and reports are asked for at any time. As long as checking a signature says right or wrong, no
    call reads or writes what it must not, none runs for ever, and the stream is not mistaken for one of an old version.
    Partial: signed integers wrap here, see the next theorem; golden SEIs and SEIs with fields of vendors are left out. *)
Theorem C54_defined_partial C oid hs fuel c ops : crypto_ok C -> c_oid C oid = OidDigest hs -> oid <> [] -> (forall k s h, c_verify C k s h = 0%Z \/ c_verify C k s h = 1%Z) ->
  Forall (harmless C c oid) ops -> Forall octets ops -> (S (length (filter is_add ops)) < fuel)%nat ->
  exists v rs, vrun C OvfWrap fuel (vcreate C c) ops = Def (v, rs) /\ ~ In VLegacy rs.
Proof. exact (defined C oid hs fuel c ops). Qed.

(** With the integers of the language, the only thing that can go wrong is an overflow when lost NALUs are counted. *)
Theorem C54_only_overflow C oid hs fuel c ops : crypto_ok C -> c_oid C oid = OidDigest hs -> oid <> [] -> (forall k s h, c_verify C k s h = 0%Z \/ c_verify C k s h = 1%Z) ->
  Forall (harmless C c oid) ops -> Forall octets ops -> (S (length (filter is_add ops)) < fuel)%nat ->
  (exists v rs, vrun C OvfUndef fuel (vcreate C c) ops = Def (v, rs) /\ ~ In VLegacy rs) \/ vrun C OvfUndef fuel (vcreate C c) ops = Undef SignedOverflow.
Proof. exact (only_overflow C oid hs fuel c ops). Qed.

(** All SEIs a signer hands out are such SEIs. *)
Theorem C54_signed_seis C c coin setup before gs rs : crypto_ok C -> keys_work C -> signs C c coin setup before gs rs ->
  let w := fold_left (ask C) setup defaults in
  Forall (fun fs => few_escapes (w_epb w) fs (w_max_sig w)) (gops_fields C w 1 0 (frames before) None gs) ->
  (exists hs, c_oid C (w_oid w) = OidDigest hs) /\ w_oid w <> [] /\ Forall (formed_sei C c (w_oid w)) (returned rs).
Proof. exact (signed_formed C c coin setup before gs rs). Qed.

(** ** A case *)
Definition four_gops : list (list piece) :=
  map (fun i => [pcs (idr [i]) None true; pcs (pic [i; 1]) None false; pcs (pic [i; 2]) None false; pcs (pic [i; 3]) None false]) [1; 2; 3; 4].
Definition four_rs : list sres := Eval vm_compute in sign_all toy [OKey key1] four_gops.
Definition four_seis : list (list N) := Eval vm_compute in returned four_rs.
Definition four_settings : settings := fold_left (ask toy) [OKey key1] defaults.
Definition four_fields : list (list (N * list N)) := Eval vm_compute in gops_fields toy four_settings 1 0 0 None four_gops.
Lemma four_signs : signs toy H264 0 [OKey key1] [] four_gops four_rs.
Proof.
  signs_tac.
  - destruct (sign_all_runs toy [OKey key1] four_gops) as [s E]; [vm_compute; reflexivity|]. exists s. exact E.
  - apply sign_all_fine. vm_compute. reflexivity.
Qed.
(** A SEI with the fields of GOP [i] and any signature. *)
Definition with_sig (i : nat) (sig : list N) : list N := sei H264 true false (nth i four_fields [] ++ [(5, sig_value 65 sig)]).
Lemma with_sig_formed (K : list N -> Prop) (M : nat -> Prop) i sig : K (w_pub four_settings) -> M 65%nat -> (i < 3)%nat -> bytes_ok sig -> (length sig <= 65)%nat -> formed_sei_of K M toy H264 sha256_der (with_sig i sig).
Proof.
  intros HKP HM HI HB HL. exists true, (nth i four_fields []), 65%nat, sig. cbv zeta.
  assert (IN : In (nth i four_fields []) four_fields) by (apply nth_In; exact HI).
  assert (K0 : forallb (fun fs => meta_okb fs && (nlen (wires fs) <? 1048576) && (nlen (esc 0 (wires fs)) <? nlen (wires fs) + 8 + 65)) four_fields = true) by (vm_compute; reflexivity).
  rewrite forallb_forall in K0. specialize (K0 _ IN). apply andb_prop in K0 as [K0 K3]. apply andb_prop in K0 as [K1 K2].
  pose proof (gops_formed toy toy_ok four_settings 32 eq_refl ltac:(discriminate) eq_refl eq_refl ltac:(repeat constructor) four_gops 1 0 0 None) as F. rewrite Forall_forall in F.
  destruct (F (nth i four_fields [])) as [F1 F2]; [exact IN|].
  split; [left; reflexivity|]. split; [apply meta_okb_ok; exact K1|]. split; [exact F1|]. split; [exact F2|]. split; [apply N.ltb_lt; exact K2|]. split; [reflexivity|]. split; [exact HB|]. split; [exact HL|].
  split; [intros _; apply N.ltb_lt; exact K3|]. split; [|exact HM].
  pose proof (gops_key toy four_settings four_gops 1 0 0 None) as G. rewrite Forall_forall in G. eapply Forall_impl; [|exact (G _ IN)]. intros f. apply key_in_impl. intros ? <-. exact HKP.
Qed.
Lemma picture_other b x : b = 0x65 \/ b = 0x41 -> bytes_ok x -> other_nalu H264 ([0; 0; 0; 1; b] ++ 0x88 :: x ++ [0x80]) /\ other_nalu H264 ([0; 0; 0; 1; b] ++ 0x9a :: x ++ [0x80]).
Proof.
  intros HB HX. split.
  - exists [0; 0; 0; 1], [b], 0x88, (x ++ [0x80]). split; [auto|]. split; [reflexivity|]. split; [reflexivity|]. split; [|destruct HB as [->| ->]; cbn; discriminate].
    destruct HB as [->| ->]; repeat (apply Forall_cons; [reflexivity|]); apply Forall_app; (split; [exact HX|repeat constructor]).
  - exists [0; 0; 0; 1], [b], 0x9a, (x ++ [0x80]). split; [auto|]. split; [reflexivity|]. split; [reflexivity|]. split; [|destruct HB as [->| ->]; cbn; discriminate].
    destruct HB as [->| ->]; repeat (apply Forall_cons; [reflexivity|]); apply Forall_app; (split; [exact HX|repeat constructor]).
Qed.
Inductive item_of_case := Idr (x : list N) | Pic (x : list N) | SeiOf (i : nat) (sig : list N).
Definition case_nalu (o : item_of_case) : list N := match o with Idr x => idr x | Pic x => pic x | SeiOf i sig => with_sig i sig end.
Definition case_small (o : item_of_case) : bool :=
  match o with
  | Idr x | Pic x => byte_list x && (length x <? 100)%nat
  | SeiOf i sig => (i <? 3)%nat && byte_list sig && (length sig <=? 65)%nat && byte_list (with_sig i sig) && (nlen (with_sig i sig) <? 1000)
  end.
Lemma case_harmless_of (K : list N -> Prop) (M : nat -> Prop) l : K (w_pub four_settings) -> M 65%nat -> forallb case_small l = true -> Forall (harmless_of K M toy H264 sha256_der) (adds (map case_nalu l)) /\ Forall octets (adds (map case_nalu l)).
Proof.
  intros HKP HM. induction l as [|o l IH]; [split; constructor|]. cbn [forallb map adds]. intros H. apply andb_prop in H as [H1 H2]. destruct (IH H2) as [I1 I2].
  assert (X : harmless_of K M toy H264 sha256_der (VAdd (case_nalu o) true) /\ octets (VAdd (case_nalu o) true)).
  { destruct o as [x|x|i sig]; cbn [case_small case_nalu harmless_of octets] in *.
    - apply andb_prop in H1 as [B L]. apply byte_list_ok in B. split; [split; [|left; apply (picture_other 0x65 x); auto]|].
      + unfold idr, nlen. rewrite !app_length. cbn [length]. change (2 ^ 63) with 9223372036854775808. lia.
      + unfold idr. cbn [app]. repeat (apply Forall_cons; [reflexivity|]). apply Forall_app. split; [exact B|repeat constructor].
    - apply andb_prop in H1 as [B L]. apply byte_list_ok in B. split; [split; [|left; apply (picture_other 0x41 x); auto]|].
      + unfold pic, nlen. rewrite !app_length. cbn [length]. change (2 ^ 63) with 9223372036854775808. lia.
      + unfold pic. cbn [app]. repeat (apply Forall_cons; [reflexivity|]). apply Forall_app. split; [exact B|repeat constructor].
    - apply andb_prop in H1 as [H1 L2]. apply andb_prop in H1 as [H1 B2]. apply andb_prop in H1 as [H1 L]. apply andb_prop in H1 as [HI B].
      split; [split; [change (2 ^ 63) with 9223372036854775808; lia|right; apply with_sig_formed; [exact HKP|exact HM|..]; [lia|apply byte_list_ok; exact B|lia]]|apply byte_list_ok; exact B2]. }
  destruct X as [X1 X2]. split; constructor; assumption.
Qed.
Lemma case_harmless l : forallb case_small l = true -> Forall (harmless toy H264 sha256_der) (adds (map case_nalu l)) /\ Forall octets (adds (map case_nalu l)).
Proof. apply case_harmless_of; exact I. Qed.
(** The right signatures. *)
Definition right_sig (i : nat) : list N := Eval cbv beta in firstn 33 (skipn 5 (snd (last (all_fields (nth i four_seis [])) (0, [])))).
Definition sigs : list (list N) := Eval vm_compute in [right_sig 0; right_sig 1; right_sig 2].
Definition sent (i : nat) : item_of_case := SeiOf i (nth i sigs []).
Example sent_seis : map (fun i => case_nalu (sent i)) [0; 1; 2]%nat = four_seis.
Proof. vm_compute. reflexivity. Qed.
(** Pictures are modified, lost and swapped, the first SEI comes after a lost picture, the second has a wrong signature and comes twice, the third comes before the second. *)
Definition mess : list item_of_case :=
  [Idr [1]; Pic [77]; Pic [1; 3]; sent 0; Idr [2]; Pic [2; 2]; Pic [2; 1]; SeiOf 1 [66; 7]; Idr [3]; sent 2; SeiOf 1 [66; 7]; Pic [3; 1]; sent 1; Idr [4]; Pic [4; 1]].
Example C54_case : crypto_ok toy /\ c_oid toy sha256_der = OidDigest 32 /\ (forall k s h, c_verify toy k s h = 0%Z \/ c_verify toy k s h = 1%Z) /\
  Forall (harmless toy H264 sha256_der) (adds (map case_nalu mess)) /\ Forall octets (adds (map case_nalu mess)) /\ length (filter is_add (adds (map case_nalu mess))) = 15%nat.
Proof.
  split; [exact toy_ok|]. split; [reflexivity|]. split; [intros k s h; cbn; destruct (bytes_eqb _ _); auto|].
  destruct (case_harmless mess) as [X1 X2]; [vm_compute; reflexivity|]. split; [exact X1|]. split; [exact X2|reflexivity].
Qed.
(** The reports of this session. *)
Example C54_case_reports : match vrun toy OvfUndef 30 (vcreate toy H264) (adds (map case_nalu mess)) with
  | Def (_, rs) => map (fun p => (l_auth (p_latest p), l_vstr (p_latest p))) (all_reports rs)
  | Undef _ => []
  end = [(SigPresent, [46; 80; 77; 46; 85]); (NotOk, [78; 77; 46; 85; 80; 80; 80; 78]); (NotOk, [78; 77; 78; 78; 78; 80; 46]); (NotOk, [78; 46; 78]); (NotOk, [77; 77; 77; 78; 46; 80])].
Proof. vm_compute. reflexivity. Qed.

(** ** What is needed *)

(** An overflow does happen: a part of a stream that begins with the second GOP. *)
Theorem C54_overflow_refuted : exists C c oid hs ops, crypto_ok C /\ c_oid C oid = OidDigest hs /\ oid <> [] /\ (forall k s h, c_verify C k s h = 0%Z \/ c_verify C k s h = 1%Z) /\
  Forall (harmless C c oid) ops /\ Forall octets ops /\ vrun C OvfUndef (10 + length ops) (vcreate C c) ops = Undef SignedOverflow.
Proof.
  set (l := [Idr [2]; Pic [2; 1]; Pic [2; 2]; Pic [2; 3]; sent 1; Idr [3]; Pic [3; 1]; Pic [3; 2]; Pic [3; 3]; sent 2]).
  exists toy, H264, sha256_der, 32%nat, (adds (map case_nalu l)).
  split; [exact toy_ok|]. split; [reflexivity|]. split; [discriminate|]. split; [intros k s h; cbn; destruct (bytes_eqb _ _); auto|].
  destruct (case_harmless l) as [X1 X2]; [vm_compute; reflexivity|]. split; [exact X1|]. split; [exact X2|]. vm_compute. reflexivity.
Qed.

(** The claim is false if checking a signature can end with an error, as OpenSSL does for signatures that are not in the format of the algorithm. After a
    first GOP with a modified and a lost picture, a second SEI with such a signature makes the validator use a NALU that is not there. *)
Theorem C54_failing_refuted : exists C c oid hs ops, crypto_ok C /\ c_oid C oid = OidDigest hs /\ oid <> [] /\ Forall (harmless C c oid) ops /\ Forall octets ops /\
  vrun C OvfWrap (10 + length ops) (vcreate C c) ops = Undef NullDeref.
Proof.
  set (l := [Idr [1]; Pic [77]; Pic [1; 3]; sent 0; Idr [2]; Pic [2; 1]; Pic [2; 2]; Pic [2; 3]; SeiOf 1 [66; 7]]).
  exists failing, H264, sha256_der, 32%nat, (adds (map case_nalu l)).
  split; [destruct toy_ok as [a1 a2 a3 a4 a5 a6 a7]; constructor; [exact a1|exact a2|exact a3|exact a4|exact a5|exact a6|exact a7]|]. split; [reflexivity|]. split; [discriminate|].
  destruct (case_harmless l) as [X1 X2]; [vm_compute; reflexivity|]. split; [exact X1|]. split; [exact X2|]. vm_compute. reflexivity.
Qed.

(** It is false as well if a SEI can have a public key that cannot be read. Then the next NALU, whatever it is, makes the validator take the stream for
    one of an old version. *)
Theorem C54_key_refuted : exists C c oid fs sig v, crypto_ok C /\ (forall k s h, c_verify C k s h = 0%Z \/ c_verify C k s h = 1%Z) /\ meta_ok fs /\ bytes_ok sig /\
  Forall (fun f => formed_field C oid f \/ exists key, f = (2, 2 :: key) /\ key <> []) fs /\ In 7 (map fst fs) /\
  vrun C OvfUndef 9 (vcreate C c) (adds [sei c true false (fs ++ [(5, sig_value 65 sig)]); idr [2]]) = Def (v, [VRes SV_OK None; VLegacy]).
Proof.
  exists toy, H264, sha256_der, (map (fun f => if fst f =? 2 then (2, [2; 1; 2; 3]) else f) (nth 0 four_fields [])), (nth 0 sigs []). eexists.
  split; [exact toy_ok|]. split; [intros k s h; cbn; destruct (bytes_eqb _ _); auto|]. split; [apply meta_okb_ok; vm_compute; reflexivity|]. split; [apply byte_list_ok; vm_compute; reflexivity|].
  split; [|split; [vm_compute; auto|vm_compute; reflexivity]].
  pose proof (gops_formed toy toy_ok four_settings 32 eq_refl ltac:(discriminate) eq_refl eq_refl ltac:(repeat constructor) four_gops 1 0 0 None) as F.
  apply Forall_inv in F. destruct F as [F _]. change (gop_fields _ _ _ _ _ _ _) with (nth 0 four_fields []) in F. rewrite Forall_forall in *. intros f Hf. apply in_map_iff in Hf as (g & <- & Hg).
  destruct (fst g =? 2); [right; exists [1; 2; 3]; split; [reflexivity|discriminate]|left; apply F; exact Hg].
Qed.

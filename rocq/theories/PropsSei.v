(** C08, C09, C10: a SEI of the signer as the validator sees it. *)
From Verif Require Import Base BaseProofs Nalu Crypto Types Tlv CodecSpec CodecProofs SeiSpec Signer SignSpec RunProofs
  Toy PropsSigner VTypes NaluList Validator SeiHashProofs.
Local Open Scope N_scope.

(** C09. Every SEI handed out by a signing session, delivered as it is or with escapes added by others,
    is recognised by the validator as a valid Signed Video SEI, golden or not as it was made, and the
    TLV data it finds are exactly the metadata followed by the signature field. *)
Theorem C09_parsed C c coin ops s rs : crypto_ok C -> Forall (op_ok C) ops -> settled true ops ->
  run C ops (create c coin) = Def (s, rs) ->
  Forall (fun x => exists epb golden fs max key oid sig, signed_sei C c x epb golden fs max key oid sig /\
    forall y, delivered epb x y ->
    exists n, parse_nalu y c true true = Def n /\ n_valid n = 1%Z /\ n_type n = TSei /\ n_gop_sei n = true /\
      n_hashable n = true /\ n_golden n = golden /\ n_first_in_gop n = false /\
      firstn (N.to_nat (n_tlv_size n)) (n_tlv_mem n) = wires (fs ++ [(5, sig_value max sig)])) (returned rs).
Proof.
  exact (fun HC H1 H2 H3 => Forall_impl _
    (fun x '(ex_intro _ e (ex_intro _ g (ex_intro _ fs (ex_intro _ m (ex_intro _ k (ex_intro _ o (ex_intro _ sg H))))))) =>
       ex_intro _ e (ex_intro _ g (ex_intro _ fs (ex_intro _ m (ex_intro _ k (ex_intro _ o (ex_intro _ sg
         (conj H (fun y HD => delivered_parsed C c x y e g fs m k o sg H HD)))))))))
    (session_signed C HC c coin ops s rs H1 H2 H3)).
Qed.

(** C08. The validator finds the signature where the signer put it: what it hashes of the SEI ends right
    before the signature field. Partial: if the signer adds emulation prevention, this needs fewer
    escapes in front of the signature than the signature field has bytes. *)
Theorem C08_signature_found_partial C c coin ops s rs : crypto_ok C -> Forall (op_ok C) ops -> settled true ops ->
  run C ops (create c coin) = Def (s, rs) ->
  Forall (fun x => exists epb golden fs max key oid sig, signed_sei C c x epb golden fs max key oid sig /\
    forall y, delivered epb x y -> few_escapes epb fs max ->
    exists n n2, parse_nalu y c true true = Def n /\ update_hashable n = Def n2 /\
      hash_input n2 = Def (signed_part c epb golden fs (5, sig_value max sig))) (returned rs).
Proof.
  exact (fun HC H1 H2 H3 => Forall_impl _
    (fun x '(ex_intro _ e (ex_intro _ g (ex_intro _ fs (ex_intro _ m (ex_intro _ k (ex_intro _ o (ex_intro _ sg H))))))) =>
       ex_intro _ e (ex_intro _ g (ex_intro _ fs (ex_intro _ m (ex_intro _ k (ex_intro _ o (ex_intro _ sg
         (conj H (fun y HD HF => delivered_hashed C c x y e g fs m k o sg H HD HF)))))))))
    (session_signed C HC c coin ops s rs H1 H2 H3)).
Qed.

(** C10. The hash the validator stores for the SEI is the hash the signature was made of. Partial for the
    same reason. [v] is any validating session that knows the hash algorithm. *)
Theorem C10_same_hash_partial C c coin ops s rs : crypto_ok C -> Forall (op_ok C) ops -> settled true ops ->
  run C ops (create c coin) = Def (s, rs) ->
  Forall (fun x => exists epb golden fs max key oid sig, signed_sei C c x epb golden fs max key oid sig /\
    forall y v hs, delivered epb x y -> few_escapes epb fs max ->
    d_algo_known (v_dec v) = true -> h_type (d_handle (v_dec v)) = oid -> c_oid C oid = OidDigest hs ->
    exists n it, parse_nalu y c true true = Def n /\ register C v n = Def (v, it, SV_OK) /\
      firstn hs (i_hash it) = c_hash C oid (signed_part c epb golden fs (5, sig_value max sig))) (returned rs).
Proof.
  exact (fun HC H1 H2 H3 => Forall_impl _
    (fun x '(ex_intro _ e (ex_intro _ g (ex_intro _ fs (ex_intro _ m (ex_intro _ k (ex_intro _ o (ex_intro _ sg H))))))) =>
       ex_intro _ e (ex_intro _ g (ex_intro _ fs (ex_intro _ m (ex_intro _ k (ex_intro _ o (ex_intro _ sg
         (conj H (fun y v hs HD HF HK HT HO => delivered_registered C HC c x y e g fs m k o sg v hs H HD HF HK HT HO)))))))))
    (session_signed C HC c coin ops s rs H1 H2 H3)).
Qed.

(** C08 and C10 in full, i.e. without the condition on escapes, are false: the search for the signature
    stops after as many raw bytes as the TLV data have without escapes. In the following session the
    metadata have as many escapes as the signature field has bytes, so the signature is not found: the
    validator hashes the SEI to its end and gets another hash than the one that was signed. *)
Definition sparse : crypto :=
  toy_with (fun n d => firstn n (zeros (n - 3) ++ 9 :: digits 2 (toy_sum d) ++ repeat 9 n)).
Lemma sparse_ok : crypto_ok sparse.
Proof.
  apply toy_with_ok. intros n d. split.
  - rewrite firstn_length. cbn [app]. rewrite app_length. cbn [length]. rewrite app_length.
    unfold zeros. rewrite !repeat_length, digits_len. lia.
  - apply bytes_ok_firstn. apply bytes_ok_app. split; [apply bytes_ok_zeros|]. apply Forall_cons; [reflexivity|].
    apply bytes_ok_app. split; [apply digits_ok|]. apply Forall_forall. intros x Hx. apply repeat_spec in Hx.
    subst x. reflexivity.
Qed.
Definition many_escapes : list sop :=
  let long := Some (repeat 65 100) in
  [OKey key1; OLevel LFrame; OProduct [long; long; long; long; long]; OAdd (idr [1; 2]) None true;
   OAdd (pic [3]) None true; OAdd (pic [3]) None true; OAdd (idr [4]) None true; OGet true []].
Lemma many_escapes_ok : Forall (op_ok sparse) many_escapes /\ settled true many_escapes.
Proof.
  split; [|cbn; auto 20].
  unfold many_escapes. repeat (apply Forall_cons); try apply Forall_nil; cbn [op_ok]; auto.
  - split; [discriminate|]. exists (75 :: map u8 key1), 64%nat. reflexivity.
  - assert (H : Forall (fun b => 0 < b < 256) (repeat 65 100))
      by (apply Forall_forall; intros x Hx; apply repeat_spec in Hx; subst x; split; reflexivity).
    split; [reflexivity|]. repeat (apply Forall_cons; [exact H|]). apply Forall_nil.
Qed.

(** The fields of TLV data. *)
Definition split_fields : nat -> list N -> list (N * list N) := fix go f l :=
  match f, l with
  | S f, t :: r =>
      let k := wire_width t in
      let n := N.to_nat (value_of (firstn k r)) in
      (t, firstn n (skipn k r)) :: go f (skipn n (skipn k r))
  | _, _ => []
  end.
Definition first_sei (r : out (signer * list sres)) : list N :=
  match r with Def (_, rs) => hd [] (returned rs) | _ => [] end.
Definition parsed (x : list N) : nalu :=
  match parse_nalu x H264 true true with Def n => n | _ => nalu_init end.
Definition all_fields (x : list N) : list (N * list N) :=
  split_fields 20 (firstn (N.to_nat (n_tlv_size (parsed x))) (n_tlv_mem (parsed x))).

(** Boolean versions of the conditions on metadata. *)
Definition byte_list (l : list N) : bool := forallb (fun b => b <? 256) l.
Definition meta_okb (fs : list (N * list N)) : bool :=
  forallb (fun f => existsb (N.eqb (fst f)) [1; 2; 3; 4; 6; 7; 129] &&
    (nlen (snd f) <? 256 ^ N.of_nat (wire_width (fst f))) && byte_list (snd f)) fs.
Lemma byte_list_ok l : byte_list l = true -> bytes_ok l.
Proof. intros H. apply Forall_forall. intros x Hx. apply N.ltb_lt. unfold byte_list in H. rewrite forallb_forall in H. apply H, Hx. Qed.
Lemma meta_okb_ok fs : meta_okb fs = true -> meta_ok fs.
Proof.
  intros H. unfold meta_okb in H. rewrite forallb_forall in H.
  assert (G : forall f, In f fs -> In (fst f) [1; 2; 3; 4; 6; 7; 129] /\
    nlen (snd f) < 256 ^ N.of_nat (wire_width (fst f)) /\ bytes_ok (snd f)).
  { intros f Hf. specialize (H f Hf). apply andb_prop in H as [H H3]. apply andb_prop in H as [H1 H2].
    split; [|split; [apply N.ltb_lt, H2|apply byte_list_ok, H3]].
    apply existsb_exists in H1 as (t & Ht & E). apply N.eqb_eq in E. rewrite E. exact Ht. }
  split; [|split]; apply Forall_forall; intros f Hf; destruct (G f Hf) as (A & B & D).
  - split; [|exact B]. revert A. cbn [In]. tauto.
  - exact D.
  - intros E. rewrite E in A. cbn [In] in A. repeat destruct A as [A|A]; try discriminate. exact A.
Qed.

Definition handed_out (r : out (signer * list sres)) : list (list N) :=
  match r with Def (_, rs) => returned rs | _ => [] end.
Lemma handed_out_some r x l : handed_out r = x :: l -> exists s rs, r = Def (s, rs) /\ returned rs = x :: l.
Proof. destruct r as [[s rs]|]; cbn [handed_out]; [eauto|discriminate]. Qed.

Definition missed : list N := Eval vm_compute in first_sei (run sparse many_escapes (create H264 0)).
Definition missed_meta : list (N * list N) := Eval vm_compute in removelast (all_fields missed).
Definition missed_sig : list N := Eval vm_compute in firstn 33 (skipn 5 (snd (last (all_fields missed) (0, [])))).
Definition missed_nalu : nalu := Eval vm_compute in parsed missed.

Lemma missed_signed : signed_sei sparse H264 missed true false missed_meta 65 key1 sha256_der missed_sig.
Proof.
  split; [vm_compute; reflexivity|]. split; [apply meta_okb_ok; vm_compute; reflexivity|].
  split; [vm_compute; reflexivity|]. split; [eexists; reflexivity|]. split; [vm_compute; reflexivity|].
  split; [apply byte_list_ok; vm_compute; reflexivity|]. split; [discriminate|].
  split; [vm_compute; lia|]. exists 0. vm_compute. reflexivity.
Qed.
Lemma missed_hash : exists y, hash_input missed_nalu = Def y /\ y <> [] /\
  firstn 32 (c_hash sparse sha256_der y ++ zeros 32) <>
    c_hash sparse sha256_der (signed_part H264 true false missed_meta (5, sig_value 65 missed_sig)).
Proof.
  eexists. split; [vm_compute; reflexivity|]. split; [discriminate|].
  intros E. apply bytes_eqb_eq in E. vm_compute in E. discriminate E.
Qed.
Lemma missed_registered v : d_algo_known (v_dec v) = true -> h_type (d_handle (v_dec v)) = sha256_der ->
  exists it, register sparse v missed_nalu = Def (v, it, SV_OK) /\
  firstn 32 (i_hash it) <>
    c_hash sparse sha256_der (signed_part H264 true false missed_meta (5, sig_value 65 missed_sig)).
Proof.
  intros HK HT. destruct missed_hash as (y & H1 & H2 & H3). unfold register.
  change (n_valid missed_nalu =? 0)%Z with false. cbv iota.
  replace (update_hashable missed_nalu) with (Def missed_nalu) by (vm_compute; reflexivity). cbn [obind].
  rewrite (hash_item_sei sparse sparse_ok v _ missed_nalu y 32); try reflexivity; try assumption.
  - eexists. split; [reflexivity|]. cbn [set_i_hash i_hash]. rewrite HT. exact H3.
  - rewrite HT. reflexivity.
Qed.

Theorem C08_signature_found_refuted : exists C c coin ops s rs x golden fs max key oid sig n,
  crypto_ok C /\ Forall (op_ok C) ops /\ settled true ops /\ run C ops (create c coin) = Def (s, rs) /\
  returned rs = [x] /\ signed_sei C c x true golden fs max key oid sig /\
  parse_nalu x c true true = Def n /\ update_hashable n = Def n /\
  hash_input n <> Def (signed_part c true golden fs (5, sig_value max sig)).
Proof.
  destruct (handed_out_some (run sparse many_escapes (create H264 0)) missed []) as (s & rs & E & R);
    [vm_compute; reflexivity|].
  exists sparse, H264, 0, many_escapes, s, rs, missed, false, missed_meta, 65%nat, key1, sha256_der, missed_sig, missed_nalu.
  split; [exact sparse_ok|]. split; [apply many_escapes_ok|]. split; [apply many_escapes_ok|].
  split; [exact E|]. split; [exact R|]. split; [exact missed_signed|].
  split; [vm_compute; reflexivity|]. split; [vm_compute; reflexivity|].
  destruct missed_hash as (y & H1 & H2 & H3). rewrite H1. intros G. injection G as G. subst y.
  apply H3. vm_compute. reflexivity.
Qed.

Theorem C10_same_hash_refuted : exists C c coin ops s rs x golden fs max key oid sig n hs,
  crypto_ok C /\ Forall (op_ok C) ops /\ settled true ops /\ run C ops (create c coin) = Def (s, rs) /\
  returned rs = [x] /\ signed_sei C c x true golden fs max key oid sig /\ c_oid C oid = OidDigest hs /\
  parse_nalu x c true true = Def n /\
  forall v, d_algo_known (v_dec v) = true -> h_type (d_handle (v_dec v)) = oid ->
    exists it, register C v n = Def (v, it, SV_OK) /\
    firstn hs (i_hash it) <> c_hash C oid (signed_part c true golden fs (5, sig_value max sig)).
Proof.
  destruct (handed_out_some (run sparse many_escapes (create H264 0)) missed []) as (s & rs & E & R);
    [vm_compute; reflexivity|].
  exists sparse, H264, 0, many_escapes, s, rs, missed, false, missed_meta, 65%nat, key1, sha256_der, missed_sig,
    missed_nalu, 32%nat.
  split; [exact sparse_ok|]. split; [apply many_escapes_ok|]. split; [apply many_escapes_ok|].
  split; [exact E|]. split; [exact R|]. split; [exact missed_signed|]. split; [reflexivity|].
  split; [vm_compute; reflexivity|]. exact missed_registered.
Qed.

(** The ordinary case meets the hypotheses of C08, C09 and C10: a SEI of a session with the toy
    library, which has few escapes, as it is and as others would escape it. *)
Definition ordinary : list N := Eval vm_compute in
  first_sei (run toy [OKey key1; OLevel LFrame; OAdd (idr [1; 2]) None true; OAdd (pic [3]) None true;
                      OAdd (idr [4]) None true; OGet true []] (create H264 0)).
Definition ordinary_meta : list (N * list N) := Eval vm_compute in removelast (all_fields ordinary).
Definition ordinary_sig : list N := Eval vm_compute in
  firstn 33 (skipn 5 (snd (last (all_fields ordinary) (0, [])))).
Example ordinary_signed : signed_sei toy H264 ordinary true false ordinary_meta 65 key1 sha256_der ordinary_sig.
Proof.
  split; [vm_compute; reflexivity|]. split; [apply meta_okb_ok; vm_compute; reflexivity|].
  split; [vm_compute; reflexivity|]. split; [eexists; reflexivity|]. split; [vm_compute; reflexivity|].
  split; [apply byte_list_ok; vm_compute; reflexivity|]. split; [discriminate|].
  split; [vm_compute; lia|]. exists 0. vm_compute. reflexivity.
Qed.
Example ordinary_few : delivered true ordinary ordinary /\ few_escapes true ordinary_meta 65.
Proof. split; [left; reflexivity|intros _; vm_compute; reflexivity]. Qed.

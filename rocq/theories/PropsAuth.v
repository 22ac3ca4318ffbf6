(** C28: what is reported authentic is authentic. *)
From Verif Require Import Base BaseProofs Nalu Crypto Types Signer SignSpec Toy VTypes NaluList Validator ValidSpec MatchSpec VToy PropsKey AuthSpec AuthProofs AuthBytes.
Local Open Scope N_scope.

(** C28. In every session, whatever NALUs are added: every report shows the waiting NALUs, and for each one shown
    authentic ('.') there is evidence in the NALUs added so far. A SEI: a public key set by the user or found in a SEI, and
    a signature found in a SEI, verify its hash. A picture: some SEI was added whose signature was verified, and if it has a
    GOP hash, either that is the hash of hashes of NALUs added among which is the picture, or the hash of the picture is
    in its list of hashes (or, if it has no list, in that of some other SEI). Partial: sessions without golden
    SEIs, up to the first NALU that is refused; hashes are compared in their first [K] bytes, which are all if there is one
    digest; a hash that was never computed counts as zero; the list of another SEI need not be signed
    (C28_list_refuted); and nothing is said on the verdict of the report (C28_verdict_refuted, C28_failed_refuted). *)
Theorem C28_authentic_partial C Ov K fuel c ops v res : crypto_ok C -> (forall oid n, c_oid C oid = OidDigest n -> (K <= n)%nat) -> Ov <> OvfIdeal ->
  Forall asking ops -> Forall of_bytes ops -> Forall (not_golden c) ops ->
  vrun C Ov fuel (vcreate C c) ops = Def (v, res) -> ~ In VLegacy res -> faithful c (vouched C c K) [] [] ops res.
Proof. exact (fun HC HK HO => session_faithful C c K Ov HC HK HO fuel ops v res). Qed.

Lemma toy_sizes oid n : c_oid toy oid = OidDigest n -> (32 <= n)%nat.
Proof. cbn. destruct (bytes_eqb oid sha256_der); [intros E; injection E as <-; lia|]. destruct (bytes_eqb oid toy_der); [|discriminate]. intros E. injection E as <-. lia. Qed.
(** Three GOPs, the second of them modified: the report shows the modified pictures invalid, the others authentic. *)
Definition mixed : list vop := adds (gop_i 1 ++ [gsei 1; idr [2]; pic [66]; pic [2; 2]; gsei 2] ++ gop_i 3 ++ [gsei 3]).
Example C28_case : crypto_ok toy /\ Forall asking mixed /\ Forall of_bytes mixed /\ Forall (not_golden H264) mixed /\
  says (vrun toy OvfUndef 9 (vcreate toy H264) mixed) =
  [None; None; None; Some (AuthOk, AuthOk, [46; 46; 46; 46], [73; 80; 80; 83]);
   None; None; None; Some (NotOk, NotOk, [78; 78; 78; 46], [73; 80; 80; 83]);
   None; None; None; Some (AuthOk, NotOk, [46; 46; 46; 46], [73; 80; 80; 83])].
Proof.
  split; [apply toy_ok|]. split; [repeat (apply Forall_cons; [reflexivity|]); apply Forall_nil|]. split; [repeat (apply Forall_cons; [repeat (apply Forall_cons; [reflexivity|]); apply Forall_nil|]); apply Forall_nil|].
  split; [repeat (apply Forall_cons; [vm_compute; reflexivity|]); apply Forall_nil|]. vm_compute. reflexivity.
Qed.

(** C28. If there is only one digest, NALUs with the GOP hash of the pictures [L0] consist of the same bytes, in the same
    order, unless hashes of NALUs added hit the hash of those of [L0], or one of the NALUs hits the hash of one of [L0]: then two
    different strings with the same hash are at hand, and [hit], [hit_gop] (AuthSpec.v) say which. No NALU has exactly
    the length of two hashes. *)
Theorem C28_gop_same_bytes C c oid n hist L0 xs0 d : crypto_ok C -> (forall o m, c_oid C o = OidDigest m -> o = oid /\ m = n) ->
  Forall2 (picture_hash C c) L0 xs0 -> Forall (unlike c n) L0 -> Forall (unlike c n) (added hist) ->
  in_gop C c n hist (c_hash C oid (concat xs0)) d ->
  (exists L, subseq L (added hist) /\ In d L /\ Forall2 (same_bytes c) L L0) \/
  hit_gop C c n oid hist xs0 \/ exists a d0 x0, In a (added hist) /\ In (d0, x0) (combine L0 xs0) /\ hit C c n oid a d0 x0.
Proof. exact (fun HC H1 => gop_same C c n oid HC H1 hist L0 xs0 d). Qed.
(** C28. A NALU whose hash is in the list of hashes of the pictures [L0] consists of the bytes of one of them, or hits
    its hash. *)
Theorem C28_list_same_bytes C c oid n L0 xs0 d : crypto_ok C -> (forall o m, c_oid C o = OidDigest m -> o = oid /\ m = n) ->
  Forall2 (picture_hash C c) L0 xs0 -> Forall (unlike c n) L0 -> unlike c n d -> in_list C c n (concat xs0) d ->
  exists d0 x0, In (d0, x0) (combine L0 xs0) /\ (same_bytes c d d0 \/ hit C c n oid d d0 x0).
Proof. exact (fun HC H1 => list_same C c n oid HC H1 L0 xs0 d). Qed.

(** The toy library with only one digest. *)
Definition toy1 : crypto :=
  mkCrypto (fun oid => if bytes_eqb oid sha256_der then OidDigest 32 else OidBad) (c_name toy) (c_hash toy) (c_pub_ok toy) (c_verify toy) (c_priv toy) (c_sign toy).
Lemma toy1_one o m : c_oid toy1 o = OidDigest m -> o = sha256_der /\ m = 32%nat.
Proof. cbn. destruct (bytes_eqb o sha256_der) eqn:E; [|discriminate]. intros H. injection H as <-. apply bytes_eqb_eq in E. auto. Qed.
Lemma toy1_ok : crypto_ok toy1.
Proof.
  destruct toy_ok as [a1 a2 a3 a4 a5 a6 a7]. constructor; [| | |reflexivity|exact a5|exact a6|exact a7]; intros oid n; [|intros d|intros d]; intros E; destruct (toy1_one _ _ E) as [-> ->]; [apply (a1 sha256_der)|apply (a2 sha256_der)|apply (a3 sha256_der 32%nat)]; reflexivity.
Qed.
Definition two : list (list N) := [idr [2]; pic [2; 1]].
Definition two_bytes : list (list N) := Eval vm_compute in
  flat_map (fun d => match parse_nalu d H264 true true with Def n => match hash_input n with Def b => [b] | _ => [] end | _ => [] end) two.
Definition own (i : nat) : list N := c_hash toy1 sha256_der (nth i two_bytes []).
Definition two_hashes : list (list N) := [own 0; c_hash toy1 sha256_der (own 0 ++ own 1)].
Lemma two_hashed i : (i < 2)%nat -> hashed H264 (nth i two []) (nth i two_bytes []).
Proof. intros H. destruct i as [|[|i]]; [| |lia]; do 2 eexists; split; [vm_compute; reflexivity|split; vm_compute; reflexivity|vm_compute; reflexivity|split; vm_compute; reflexivity]. Qed.
Lemma two_pics : Forall2 (picture_hash toy1 H264) two two_hashes.
Proof.
  constructor; [|constructor; [|constructor]].
  - exists (nth 0 two_bytes []), sha256_der. split; [apply (two_hashed 0); lia|]. split; [exists 32%nat; reflexivity|]. vm_compute. reflexivity.
  - exists (nth 1 two_bytes []), sha256_der. split; [apply (two_hashed 1); lia|]. split; [exists 32%nat; reflexivity|]. change (starts_gop H264 (pic [2; 1])) with false. exists (own 0). split; vm_compute; reflexivity.
Qed.
Lemma two_unlike : Forall (unlike H264 32) two.
Proof. constructor; [|constructor; [|constructor]]; intros b (m & m2 & E1 & E2 & E3); vm_compute in E1; injection E1 as <-; vm_compute in E2; injection E2 as <-; vm_compute in E3; injection E3 as <-; discriminate. Qed.
Lemma two_known i : (i < 2)%nat -> length (nth i two_hashes []) = 32%nat /\ known_hash 32 (picture_hash toy1 H264) (nth i two []) (nth i two_hashes []).
Proof.
  intros H. pose proof two_pics as P. inversion P as [|? ? ? ? P1 P2]; subst. inversion P2 as [|? ? ? ? P3 P4]; subst.
  destruct i as [|[|i]]; [| |lia]; (split; [vm_compute; reflexivity|]); eexists; (split; [left; eassumption|reflexivity]).
Qed.
(** Being hit is not automatic: with the toy library this picture does not hit the hash of another one. *)
Definition one_bytes : list N := Eval vm_compute in
  match parse_nalu (idr [1]) H264 true true with Def n => match hash_input n with Def b => b | _ => [] end | _ => [] end.
Lemma one_hashed : hashed H264 (idr [1]) one_bytes.
Proof. do 2 eexists. split; [vm_compute; reflexivity|split; vm_compute; reflexivity]. Qed.
Example C28_not_hit : picture_hash toy1 H264 (idr [2]) (own 0) /\ ~ hit toy1 H264 32 sha256_der (idr [1]) (idr [2]) (own 0) /\ ~ same_bytes H264 (idr [1]) (idr [2]).
Proof.
  assert (B1 : forall b, hashed H264 (idr [1]) b -> b = one_bytes) by (intros b H; exact (hashed_fun H264 _ _ _ H one_hashed)).
  assert (B2 : forall b, hashed H264 (idr [2]) b -> b = nth 0 two_bytes []) by (intros b H; refine (hashed_fun H264 _ _ _ H _); apply (two_hashed 0); lia).
  split; [|split].
  - exists (nth 0 two_bytes []), sha256_der. split; [apply (two_hashed 0); lia|]. split; [exists 32%nat; reflexivity|]. vm_compute. reflexivity.
  - intros [E|(u & v & (b0 & H0 & F0) & (b & H & F) & _ & E & _)]; [vm_compute in E; discriminate|]. apply B2 in H0. apply B1 in H. subst b0 b.
    destruct F0 as [->|[F0 _]]; [|vm_compute in F0; discriminate]. destruct F as [->|[F _]]; [|vm_compute in F; discriminate]. vm_compute in E. discriminate.
  - intros (b & H & H0). apply B1 in H. apply B2 in H0. subst b. vm_compute in H0. discriminate.
Qed.
Example C28_same_case : crypto_ok toy1 /\ Forall2 (picture_hash toy1 H264) two two_hashes /\ Forall (unlike H264 32) two /\ Forall (unlike H264 32) (added (adds two)) /\
  in_gop toy1 H264 32 (adds two) (c_hash toy1 sha256_der (concat two_hashes)) (pic [2; 1]) /\ in_list toy1 H264 32 (concat two_hashes) (pic [2; 1]).
Proof.
  split; [exact toy1_ok|]. split; [exact two_pics|]. split; [exact two_unlike|]. split; [exact two_unlike|]. split.
  - exists two, two_hashes, sha256_der, 32%nat. split; [repeat constructor|]. split; [right; left; reflexivity|]. split; [exists sha256_der; reflexivity|].
    split; [constructor; [apply (two_known 0); lia|constructor; [apply (two_known 1); lia|constructor]]|]. split; [exists 32%nat; reflexivity|reflexivity].
  - exists [own 0], (nth 1 two_hashes []), []. split; [reflexivity|]. split; [constructor; [reflexivity|constructor]|]. split; [exists sha256_der; reflexivity|]. apply (two_known 1). lia.
Qed.

(** C28 in full is false. First: if checking a signature fails with an error, rather than that it does not match, the
    verdict is OK, although the pictures were modified. Here the library says so of the damaged signature in the second SEI. The
    report shows the pictures invalid and the SEI with an error, and says OK, also accumulated. *)
Definition failing : crypto :=
  mkCrypto (c_oid toy) (c_name toy) (c_hash toy) (c_pub_ok toy) (fun p s h => if bytes_eqb s (hd 0 (skipn 1 p) :: h) then 1%Z else (-1)%Z) (c_priv toy) (c_sign toy).
Definition damaged : list N := Eval vm_compute in firstn (length (gsei 2) - 66) (gsei 2) ++ [66] ++ skipn (length (gsei 2) - 65) (gsei 2).
Theorem C28_failed_refuted : exists C c ops, crypto_ok C /\ Forall asking ops /\ Forall (not_golden c) ops /\
  exists said, says (vrun C OvfUndef 9 (vcreate C c) ops) = said ++ [Some (AuthOk, AuthOk, [78; 78; 78; 69], [73; 80; 80; 83])].
Proof.
  exists failing, H264, (adds (gop_i 1 ++ [gsei 1; idr [2]; pic [66]; pic [67]; damaged])). split.
  { destruct toy_ok as [a1 a2 a3 a4 a5 a6 a7]. constructor; [exact a1|exact a2|exact a3|exact a4|exact a5|exact a6|exact a7]. }
  split; [repeat (apply Forall_cons; [reflexivity|]); apply Forall_nil|]. split; [repeat (apply Forall_cons; [vm_compute; reflexivity|]); apply Forall_nil|].
  exists [None; None; None; Some (AuthOk, AuthOk, [46; 46; 46; 46], [73; 80; 80; 83]); None; None; None]. vm_compute. reflexivity.
Qed.

(** Second: a SEI signed with another key, between two GOPs. The report shows it invalid and says OK. *)
Definition other_seis : list (list N) := Eval vm_compute in
  match run toy ([OKey key2; OAddPub false; OLevel LFrame] ++ flat_map (fun d => [OAdd d None true; OGet true []]) (gop_i 1 ++ forged ++ [idr [3]]))
          (create H264 0) with
  | Def (_, rs) => returned rs
  | Undef _ => []
  end.
Theorem C28_verdict_refuted : exists C c ops, crypto_ok C /\ (forall k s h, c_verify C k s h = 0%Z \/ c_verify C k s h = 1%Z) /\ Forall asking ops /\ Forall (not_golden c) ops /\
  exists said, says (vrun C OvfUndef 9 (vcreate C c) ops) = said ++ [Some (AuthOk, AuthOk, [78; 80], [83; 73])].
Proof.
  exists toy, H264, (adds (gop_i 1 ++ [gsei 1; nth 1 other_seis []; idr [2]])). split; [apply toy_ok|]. split; [intros k s h; cbn; destruct (bytes_eqb _ _); auto|].
  split; [repeat (apply Forall_cons; [reflexivity|]); apply Forall_nil|]. split; [repeat (apply Forall_cons; [vm_compute; reflexivity|]); apply Forall_nil|].
  exists [None; None; None; Some (AuthOk, AuthOk, [46; 46; 46; 46], [73; 80; 80; 83]); None]. vm_compute. reflexivity.
Qed.

(** Third: the list of hashes of a SEI with a bad signature is kept and used with the next SEI. The second GOP comes with a SEI
    signed with another key and is reported not OK. In the third GOP the pictures were replaced by those of the list. Their
    SEI is the genuine one, with a GOP hash of other pictures and no list. The GOP is reported OK and all its pictures
    authentic. *)
Theorem C28_list_refuted : exists C c pub ops L, crypto_ok C /\ (forall k s h, c_verify C k s h = 0%Z \/ c_verify C k s h = 1%Z) /\ Forall asking ops /\ Forall (not_golden c) ops /\
  L = [idr [2]; pic [66]; pic [67]; gsei 3] /\ (exists ops0, ops = VSetKey pub :: adds ops0 ++ adds L) /\ gsei 3 = nth 2 (seis_for [OKey key1; OLevel LGop] 3) [] /\
  exists said, says (vrun C OvfUndef 9 (vcreate C c) ops) =
    said ++ [Some (NotOk, NotOk, [78; 78; 78; 78], [73; 80; 80; 83]); None; None; None; Some (AuthOk, NotOk, [46; 46; 46; 46], [73; 80; 80; 83])].
Proof.
  exists toy, H264, pub1, (VSetKey pub1 :: adds (gop_i 1 ++ [gsei 1] ++ gop_i 2 ++ [nth 1 other_seis []]) ++ adds (forged ++ [gsei 3])), (forged ++ [gsei 3]). split; [apply toy_ok|]. split; [intros k s h; cbn; destruct (bytes_eqb _ _); auto|].
  split; [apply Forall_cons; [exact I|]; repeat (apply Forall_cons; [reflexivity|]); apply Forall_nil|]. split; [apply Forall_cons; [exact I|]; repeat (apply Forall_cons; [vm_compute; reflexivity|]); apply Forall_nil|].
  split; [reflexivity|]. split; [eexists; reflexivity|]. split; [vm_compute; reflexivity|].
  exists [None; None; None; None; Some (AuthOk, AuthOk, [46; 46; 46; 46], [73; 80; 80; 83]); None; None; None]. vm_compute. reflexivity.
Qed.

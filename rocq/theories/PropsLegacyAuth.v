(** C67: what is reported authentic in a recording of an older version is authentic. *)
From Verif Require Import Base BaseProofs Nalu Crypto Types Signer SignSpec Toy VTypes NaluList Validator ValidSpec MatchSpec AuthSpec AuthProofs PropsAuth
  LegacyTypes Legacy LegacyAuthSpec LegacyAuth LegacyBytes LegacyVerdict.
From Verif Require LegacySpec LegacyToy.
Local Open Scope N_scope.

(** C67. In every session, whatever NALUs are added, once the recording turned out to be one of an older version: a report shows
    NALUs that were added, in their order, and for each one shown authentic ('.') there is evidence in the NALUs added so far
    (LegacyAuthSpec.v): a signature that came with the video verifies, under the public key of the user or that of the video, over
    the hash of the SEI that is shown, over a hash chained over hashes of NALUs added of which one is that of the picture, or over the hash of
    a SEI with a list of hashes in which that of the picture is. Partial: only digests of 32 bytes (others overlap
    in memory, C63_long_hash_refuted); the library's verification says yes or no; sessions without golden SEIs, in
    which no NALU was refused; a hash that was never computed counts as zero; the list of another SEI need not be signed.
    The verdict of the report is the subject of C67_verdict. *)
Theorem C67_authentic_partial C Ov fuel c ops d w res p : crypto_ok C -> (forall oid n, c_oid C oid = OidDigest n -> n = 32%nat) ->
  (forall k s h, c_verify C k s h = 1%Z \/ c_verify C k s h = 0%Z) -> Ov <> OvfIdeal ->
  Forall asking ops -> Forall of_bytes (ops ++ [VAdd d true]) -> Forall (not_golden c) (ops ++ [VAdd d true]) ->
  wrun C Ov fuel (wcreate C c) (ops ++ [VAdd d true]) = Def (w, res ++ [(SV_OK, Some p)]) ->
  Forall2 (fun o x => taken o (fst x)) ops res -> w_leg w <> None ->
  exists ws, subseq ws (added (ops ++ [VAdd d true])) /\
    shows c (old_vouched C c (ops ++ [VAdd d true])) ws (l_vstr (p_latest p)) (l_nstr (p_latest p)).
Proof. exact (fun HC H32 HV HO => old_authentic C c HC H32 HV Ov HO fuel ops d w res p). Qed.

Lemma toy1_32 oid n : c_oid toy1 oid = OidDigest n -> n = 32%nat.
Proof. intros E. apply (toy1_one oid n E). Qed.
Lemma toy1_verify k s h : c_verify toy1 k s h = 1%Z \/ c_verify toy1 k s h = 0%Z.
Proof. cbn. destruct (bytes_eqb s _); auto. Qed.
(** A recording of an older version, with or without lists of hashes; a picture of its second GOP is modified. *)
Definition old_ops (frame : bool) : list vop :=
  let l := map E2eSpec.sends (LegacyToy.o_all (LegacyToy.old_w frame sha256_der)) in firstn 7 l ++ [VAdd (pic [99]) true; nth 8 l VReset].
Definition old_last : list N := LegacyToy.o_i3.
Lemma ops_bytes l : forallb (fun o => match o with VAdd d _ => forallb (fun b => b <? 256) d | _ => true end) l = true -> Forall of_bytes l.
Proof. intros E. apply Forall_forall. rewrite forallb_forall in E. intros [d w| | |] H; cbn; try exact I. apply LegacyToy.bytes_small, (E _ H). Qed.
Lemma ops_golden l : forallb (fun o => match o with VAdd d _ => negb (nalu_golden H264 d) | _ => true end) l = true -> Forall (not_golden H264) l.
Proof. intros E. apply Forall_forall. rewrite forallb_forall in E. intros [d w| | |] H; cbn; try exact I. specialize (E _ H). cbv beta iota in E. destruct (nalu_golden H264 d); [discriminate|reflexivity]. Qed.
Fixpoint all_taken (ops : list vop) (res : list (svrc * option report)) : bool :=
  match ops, res with
  | [], [] => true
  | o :: ops, x :: res => match o with VAdd (_ :: _) _ => is_ok (fst x) | _ => true end && all_taken ops res
  | _, _ => false
  end.
Lemma all_taken_ok : forall ops res, all_taken ops res = true -> Forall2 (fun o x => taken o (fst x)) ops res.
Proof.
  induction ops as [|o ops IH]; intros [|x res] E; try discriminate; [constructor|]. cbn [all_taken] in E. apply andb_prop in E as [E1 E2]. constructor; [|apply IH, E2].
  destruct o as [[|d0 d1] w| | |]; cbn; try exact I. destruct x as [[] r]; cbn in *; try discriminate. reflexivity.
Qed.
Lemma tells_last (z : out (wsess * list (svrc * option report))) ops vs ns :
  match z with
  | Def (w, xs) => match rev xs with
                   | (SV_OK, Some p) :: r => match w_leg w with Some _ => all_taken ops (rev r) && bytes_eqb (l_vstr (p_latest p)) vs && bytes_eqb (l_nstr (p_latest p)) ns | None => false end
                   | _ => false
                   end
  | Undef _ => false
  end = true ->
  exists w res p, z = Def (w, res ++ [(SV_OK, Some p)]) /\ Forall2 (fun o x => taken o (fst x)) ops res /\ w_leg w <> None /\ l_vstr (p_latest p) = vs /\ l_nstr (p_latest p) = ns.
Proof.
  destruct z as [[w xs]|]; [|discriminate]. destruct (rev xs) as [|[[] [p|]] r] eqn:ER; try discriminate. destruct (w_leg w) eqn:EL; [|discriminate]. intros E. apply andb_prop in E as [E E3]. apply andb_prop in E as [E1 E2].
  exists w, (rev r), p. apply (f_equal (@rev _)) in ER. rewrite rev_involutive in ER. cbn [rev] in ER. rewrite ER. split; [reflexivity|]. split; [apply all_taken_ok, E1|]. split; [congruence|]. split; [apply bytes_eqb_eq, E2|apply bytes_eqb_eq, E3].
Qed.
Example C67_case frame : Forall asking (old_ops frame) /\ Forall of_bytes (old_ops frame ++ [VAdd old_last true]) /\
  Forall (not_golden H264) (old_ops frame ++ [VAdd old_last true]) /\
  exists w res p, wrun toy1 OvfUndef 9 (wcreate toy1 H264) (old_ops frame ++ [VAdd old_last true]) = Def (w, res ++ [(SV_OK, Some p)]) /\
    Forall2 (fun o x => taken o (fst x)) (old_ops frame) res /\ w_leg w <> None /\
    (l_vstr (p_latest p), l_nstr (p_latest p)) = (if frame then [46; 46; 78; 46; 80] else [78; 78; 78; 78; 80], [73; 80; 80; 83; 73]).
Proof.
  split; [apply Forall_forall; intros o; destruct frame; intros H; repeat (destruct H as [<-|H]; [reflexivity|]); destruct H|].
  split; [apply ops_bytes; destruct frame; vm_compute; reflexivity|]. split; [apply ops_golden; destruct frame; vm_compute; reflexivity|].
  destruct (tells_last (wrun toy1 OvfUndef 9 (wcreate toy1 H264) (old_ops frame ++ [VAdd old_last true])) (old_ops frame) (if frame then [46; 46; 78; 46; 80] else [78; 78; 78; 78; 80]) [73; 80; 80; 83; 73])
    as (w & res & p & E1 & E2 & E3 & E4 & E5); [destruct frame; vm_compute; reflexivity|]. exists w, res, p. rewrite E4, E5. auto.
Qed.

(** C67. With one digest: if a hash chained over hashes of the NALUs [L0] was signed, and [d] is in a chain with that hash, then [d]
    consists of the bytes of one of [L0], unless it hits its hash or something hashed in the chain collides with something hashed
    in the chain of [L0] (LegacyAuthSpec.v says which strings these are). No NALU has exactly the length of two hashes. *)
Theorem C67_chain_same_bytes C c oid hist L0 xs0 d : crypto_ok C -> (forall o m, c_oid C o = OidDigest m -> o = oid /\ m = 32%nat) ->
  Forall2 (old_hash C c) L0 xs0 -> Forall (unlike c 32) L0 -> unlike c 32 d -> in_chain C c hist (LegacySpec.chained (c_hash C oid) xs0) d ->
  (exists d0 x0, In (d0, x0) (combine L0 xs0) /\ (same_bytes c d d0 \/ old_hit C c oid d d0 x0)) \/ chain_hit C c oid hist xs0.
Proof. exact (fun HC H1 => old_chain_same C c oid HC H1 hist L0 xs0 d). Qed.
(** C67. The same for a list of hashes. *)
Theorem C67_list_same_bytes C c oid L0 xs0 d : crypto_ok C -> (forall o m, c_oid C o = OidDigest m -> o = oid /\ m = 32%nat) ->
  Forall2 (old_hash C c) L0 xs0 -> Forall (unlike c 32) L0 -> unlike c 32 d -> in_old_list C c (concat xs0) d ->
  exists d0 x0, In (d0, x0) (combine L0 xs0) /\ (same_bytes c d d0 \/ old_hit C c oid d d0 x0).
Proof. exact (fun HC H1 => old_list_same C c oid HC H1 L0 xs0 d). Qed.

Lemma two_old : Forall2 (old_hash toy1 H264) two two_hashes.
Proof.
  constructor; [|constructor; [|constructor]].
  - exists (nth 0 two_bytes []), sha256_der. split; [apply (two_hashed 0); lia|]. split; [exists 32%nat; reflexivity|]. left. reflexivity.
  - exists (nth 1 two_bytes []), sha256_der. split; [apply (two_hashed 1); lia|]. split; [exists 32%nat; reflexivity|]. right. split; [vm_compute; reflexivity|]. exists (own 0). split; vm_compute; reflexivity.
Qed.
Lemma two_old_known i : (i < 2)%nat -> length (nth i two_hashes []) = 32%nat /\ old_known toy1 H264 (nth i two []) (nth i two_hashes []).
Proof.
  intros HI. pose proof two_old as P. inversion P as [|? ? ? ? P1 P2]; subst. inversion P2 as [|? ? ? ? P3 P4]; subst.
  destruct i as [|[|i]]; [| |lia]; (split; [vm_compute; reflexivity|]); eexists; (split; [left; eassumption|reflexivity]).
Qed.
Example C67_same_case : crypto_ok toy1 /\ Forall2 (old_hash toy1 H264) two two_hashes /\ Forall (unlike H264 32) two /\ unlike H264 32 (pic [2; 1]) /\
  in_chain toy1 H264 (map (fun d => VAdd d true) two) (LegacySpec.chained (c_hash toy1 sha256_der) two_hashes) (pic [2; 1]) /\
  in_old_list toy1 H264 (concat two_hashes) (pic [2; 1]).
Proof.
  split; [apply toy1_ok|]. split; [apply two_old|]. split; [apply two_unlike|]. split; [pose proof two_unlike as U; inversion U as [|? ? _ U2]; inversion U2; assumption|].
  destruct (two_old_known 0 ltac:(lia)) as [A1 A2]. destruct (two_old_known 1 ltac:(lia)) as [B1 B2]. split.
  - exists sha256_der, two_hashes, (nth 1 two_hashes []). split; [exists 32%nat; reflexivity|]. split; [reflexivity|]. split; [|split; [right; left; reflexivity|exact B2]].
    constructor; [split; [exact A1|exists (nth 0 two []); split; [left; reflexivity|exact A2]]|]. constructor; [|constructor]. split; [exact B1|exists (nth 1 two []); split; [right; left; reflexivity|exact B2]].
  - exists [nth 0 two_hashes []], (nth 1 two_hashes []), []. split; [reflexivity|]. split; [constructor; [rewrite B1; exact A1|constructor]|]. split; [exact B1|exact B2].
Qed.

(** C67. The verdict: in every session, whatever was added before and whatever cryptography is used, once the recording turned out to be
    one of an older version, a report with the verdict "authentic", with or without missing NALUs, shows no NALU as not authentic ('N')
    and none with an error ('E'), and does not say that the public key changed. *)
Theorem C67_verdict C Ov fuel c ops d want w res st p :
  wrun C Ov fuel (wcreate C c) (ops ++ [VAdd d want]) = Def (w, res ++ [(st, Some p)]) -> w_leg w <> None ->
  l_auth (p_latest p) = AuthOk \/ l_auth (p_latest p) = OkMissing -> ~ In 78 (l_vstr (p_latest p)) /\ ~ In 69 (l_vstr (p_latest p)) /\ p_changed p = false.
Proof. exact (old_verdict C Ov c fuel ops d want w res st p). Qed.

(** The recording as it was made gets the verdict "authentic"; with one picture modified it gets "not authentic"; with
    one picture left out and lists of hashes it is authentic with missing NALUs. *)
Definition old_got (frame : bool) (k : N) : list vop :=
  let l := map E2eSpec.sends (LegacyToy.o_all (LegacyToy.old_w frame sha256_der)) in
  firstn 7 l ++ (if k =? 0 then [nth 7 l VReset] else if k =? 1 then [VAdd (pic [99]) true] else []) ++ [nth 8 l VReset].
Definition last_told (z : out (wsess * list (svrc * option report))) : option (bool * svrc * option (authres * list N)) :=
  match z with
  | Def (w, xs) => match rev xs with
                   | (st, r) :: _ => Some (match w_leg w with Some _ => true | None => false end, st,
                                           match r with Some p => Some (l_auth (p_latest p), l_vstr (p_latest p)) | None => None end)
                   | [] => None
                   end
  | Undef _ => None
  end.
Example C67_verdict_case :
  let t frame k := last_told (wrun toy1 OvfUndef 9 (wcreate toy1 H264) (old_got frame k ++ [VAdd old_last true])) in
  t true 0 = Some (true, SV_OK, Some (AuthOk, [46; 46; 46; 46; 80])) /\
  t false 0 = Some (true, SV_OK, Some (AuthOk, [46; 46; 46; 46; 80])) /\
  t true 1 = Some (true, SV_OK, Some (NotOk, [46; 46; 78; 46; 80])) /\
  t true 2 = Some (true, SV_OK, Some (OkMissing, [46; 46; 46; 77; 80])).
Proof. vm_compute. repeat split; reflexivity. Qed.

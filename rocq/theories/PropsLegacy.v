(** C62 to C66: recordings signed by older versions. *)
From Verif Require Import Base BaseProofs Nalu Crypto Types CodecSpec SeiSpec Signer SignSpec GopSpec Toy PropsSigner PropsGop
  VTypes NaluList Validator E2eSpec PropsE2e LegacyTypes Legacy LegacySpec LegacyToy LegacyRun LegacySame.
Local Open Scope N_scope.

Definition w_adds (l : list (list N)) : list vop := map (fun d => VAdd d true) l.
(** Return codes, verdicts (for the last GOP and for all) and validation strings. *)
Definition tells_of (x : svrc * option report) : svrc * option (authres * authres * list N) :=
  (fst x, option_map (fun p => (l_auth (p_latest p), a_auth (p_acc p), l_vstr (p_latest p))) (snd x)).
Definition w_says (C : crypto) (c : codec) (ops : list vop) : out (list (svrc * option (authres * authres * list N))) :=
  do (_, rs) <- wrun C OvfUndef 9 (wcreate C c) ops; Def (map tells_of rs).
Definition quiet : svrc * option (authres * authres * list N) := (SV_OK, None).

(** ** C62: memory *)

(** C62 is false. Two NALUs of a recording follow the SEI that belongs behind them: while the next one is added the
    validator uses the memory of a local variable of an earlier call. Anyone can make such a recording, as it may
    come with its own public key. *)
Theorem C62_safe_refuted : exists w y, old_settings toy w 32 /\ old_sei_for toy H264 w 2 (o_bytes [o_i1; o_p1; o_p2; o_i2]) y /\
  forall Ov, wrun toy Ov 9 (wcreate toy H264) (w_adds [y; o_i1; o_p1]) = Undef UseAfterFree.
Proof.
  exists (old_w true sha256_der), (o_s2 (old_w true sha256_der)). split.
  { constructor; try reflexivity; repeat split; try discriminate; try reflexivity; try (vm_compute; reflexivity);
      try (apply bytes_small; reflexivity). repeat (apply Forall_cons; [repeat constructor|]); apply Forall_nil. }
  split; [apply old_make_for; vm_compute; reflexivity|]. intros []; vm_compute; reflexivity.
Qed.
(** The call before fails, although nothing is wrong with the NALU. *)
Example C62_before : w_says toy H264 (w_adds [o_s2 (old_w true sha256_der); o_i1]) = Def [quiet; (SV_UNKNOWN_FAILURE, None)].
Proof. vm_compute. reflexivity. Qed.

(** ** C63: untampered recordings *)

(** A recording of an older version that nobody touched, from any of its SEIs that has its GOP before or is the first of
    the recording; NALUs that are not hashed may come in front. Missing: recordings without lists of hashes whose
    digest has not 32 bytes, and recordings that begin at a GOP without its SEI, for which it is false (below). *)
Theorem C63_untampered_partial C Ov c w hs f un k l : crypto_ok C -> old_settings C w hs -> w_frame w = true \/ hs = 32%nat ->
  Forall (seen c) un -> Forall (legal c) un -> Forall (fun p => p_bytes p = None /\ p_first p = false) un -> old_stream C c w k [] l ->
  exists w2 rs, wrun C Ov (S f) (wcreate C c) (map sends (map Pic un ++ l)) = Def (w2, rs) /\ old_answers [] (map Pic un ++ l) rs.
Proof. exact (old_run_answers C Ov c w hs f un k l). Qed.
Lemma old_w_settings frame : old_settings toy (old_w frame sha256_der) 32.
Proof.
  constructor; try reflexivity; repeat split; try discriminate; try reflexivity; try (vm_compute; reflexivity);
    try (apply bytes_small; reflexivity). repeat (apply Forall_cons; [repeat constructor|]); apply Forall_nil.
Qed.
Example C63_untampered_demo frame : exists w2 rs, wrun toy OvfUndef 1 (wcreate toy H264) (map sends (o_all (old_w frame sha256_der))) = Def (w2, rs) /\
  old_answers [] (o_all (old_w frame sha256_der)) rs.
Proof.
  apply (C63_untampered_partial toy OvfUndef H264 (old_w frame sha256_der) 32 0 [] 1); try apply old_w_settings; try apply toy_ok;
    try (apply o_all_stream; left; reflexivity); try apply Forall_nil. right. reflexivity.
Qed.

(** Recordings without lists of hashes, with a digest of 64 bytes: the hashes overlap in memory, and none of the GOPs is
    found authentic. *)
Theorem C63_long_hash_refuted : exists w l, old_settings toy w 64 /\ w_frame w = false /\ old_stream toy H264 w 1 [] l /\
  exists v rs, wrun toy OvfUndef 9 (wcreate toy H264) (map sends l) = Def (v, rs) /\
    existsb (fun x => match snd x with Some q => match l_auth (p_latest q) with AuthOk => true | _ => false end | None => false end) rs = false /\
    existsb (fun x => match snd x with Some q => match l_auth (p_latest q) with NotOk => true | _ => false end | None => false end) rs = true.
Proof.
  exists (old_w false toy_der), (o_all (old_w false toy_der)). split.
  { constructor; try reflexivity; repeat split; try discriminate; try reflexivity; try (vm_compute; reflexivity);
      try (apply bytes_small; reflexivity). repeat (apply Forall_cons; [repeat constructor|]); apply Forall_nil. }
  split; [reflexivity|]. split; [apply o_all_stream; right; reflexivity|].
  destruct (wrun toy OvfUndef 9 (wcreate toy H264) (map sends (o_all (old_w false toy_der)))) as [[v rs]|u] eqn:E; [|vm_compute in E; discriminate].
  exists v, rs. split; [reflexivity|].
  vm_compute in E. injection E as <- <-. split; reflexivity.
Qed.

(** A recording that begins with a GOP whose SEI in front is missing: all GOPs are found not authentic, to the end,
    although the SEIs of all but the first are there. *)
Theorem C63_cut_refuted : exists w y l, old_settings toy w 32 /\ old_stream toy H264 w 1 [] (y :: l) /\
  w_says toy H264 (map sends l) = Def
    [quiet; quiet; quiet; (SV_OK, Some (SigPresent, SigPresent, [80; 77; 77; 80; 80; 85]));
     quiet; quiet; quiet; (SV_OK, Some (NotOk, NotOk, [78; 77; 77; 78; 78; 85; 80; 80; 80; 46]));
     quiet; quiet; quiet; (SV_OK, Some (NotOk, NotOk, [78; 78; 78; 46; 80; 80; 80; 46])); quiet].
Proof.
  exists (old_w true sha256_der), (Sei (o_s1 (old_w true sha256_der)) o_g0 []), (tl (o_all (old_w true sha256_der))). split.
  { constructor; try reflexivity; repeat split; try discriminate; try reflexivity; try (vm_compute; reflexivity);
      try (apply bytes_small; reflexivity). repeat (apply Forall_cons; [repeat constructor|]); apply Forall_nil. }
  split; [apply (o_all_stream true sha256_der); left; reflexivity|]. vm_compute. reflexivity.
Qed.
(** One NALU earlier or later it is found authentic. *)
Example C63_whole : w_says toy H264 (map sends (o_all (old_w true sha256_der))) = Def
    [quiet; (SV_OK, Some (AuthOk, AuthOk, [46; 80])); quiet; quiet;
     quiet; (SV_OK, Some (AuthOk, AuthOk, [46; 46; 46; 46; 80])); quiet; quiet;
     quiet; (SV_OK, Some (AuthOk, AuthOk, [46; 46; 46; 46; 80])); quiet; quiet;
     quiet; (SV_OK, Some (AuthOk, AuthOk, [46; 46; 46; 46; 80]))].
Proof. vm_compute. reflexivity. Qed.
Example C63_later : w_says toy H264 (map sends (tl (tl (o_all (old_w true sha256_der))))) = Def
    [quiet; quiet; quiet; (SV_OK, Some (SigPresent, SigPresent, [78; 78; 85; 80])); quiet; quiet;
     quiet; (SV_OK, Some (AuthOk, AuthOk, [46; 46; 46; 46; 80])); quiet; quiet;
     quiet; (SV_OK, Some (AuthOk, AuthOk, [46; 46; 46; 46; 80]))].
Proof. vm_compute. reflexivity. Qed.

(** ** C64: only recordings of older versions are handed over *)

(** As long as the session is not handed over it answers exactly as the session that C10 to C56 are about, so they hold
    for it as well. *)
Theorem C64_same C Ov fuel c ops v rs : vrun C Ov fuel (vcreate C c) ops = Def (v, rs) -> ~ In VLegacy rs ->
  exists w xs, wrun C Ov fuel (wcreate C c) ops = Def (w, xs) /\ rs = map (fun x => VRes (fst x) (snd x)) xs.
Proof. exact (same_run C Ov fuel ops (wcreate C c) v rs eq_refl). Qed.
Example C64_same_demo : exists w xs, wrun toy OvfUndef 1 (wcreate toy H264) (map sends demo_arrivals) = Def (w, xs) /\
  answers false demo_arrivals (map (fun x => VRes (fst x) (snd x)) xs).
Proof.
  destruct demo_untampered as (v & rs & E & A & _). destruct (C64_same _ _ _ _ _ _ _ E) as (w & xs & E2 & ->).
  - vm_compute in E. injection E as _ <-. intros H. repeat (destruct H as [H|H]; [discriminate|]). exact H.
  - exists w, xs. split; assumption.
Qed.

(** A recording of this version, all of whose SEIs say so, is handed over nevertheless if the first byte of the public key
    in its first SEI is damaged. The second SEI, which is not, is refused then. *)
Theorem C64_damaged_refuted : exists (a : list vop) (x y : list N) (b : list vop), map sends demo_arrivals = a ++ VAdd (x ++ 75 :: y) true :: b /\
  let ops := a ++ VAdd (x ++ 180 :: y) true :: b in
  Forall (fun o => match o with
                   | VAdd d _ => exists n, parse_nalu d H264 true true = Def n /\ (n_gop_sei n = true -> N.land (n_reserved n) 0x30 <> 0)
                   | _ => True
                   end) ops /\
  w_says toy H264 ops = Def [quiet; quiet; quiet; (SV_EXTERNAL_ERROR, None); (SV_EXTERNAL_ERROR, None); quiet; quiet; quiet; quiet; (SV_INCOMPATIBLE_VERSION, None)].
Proof.
  set (ops := map sends demo_arrivals). vm_compute in ops.
  exists (firstn 3 ops), (firstn 29 (match nth 3 ops VReset with VAdd d _ => d | _ => [] end)),
    (skipn 30 (match nth 3 ops VReset with VAdd d _ => d | _ => [] end)), (skipn 4 ops).
  split; [vm_compute; reflexivity|]. split; [|vm_compute; reflexivity].
  repeat (apply Forall_cons; [eexists; split; [vm_compute; reflexivity|vm_compute; try discriminate; congruence]|]). apply Forall_nil.
Qed.

(** ** C65: reset *)

(** After a recording of an older version a validator that is reset refuses a recording of this version: it stays with
    the old code. A new validator finds the same recording authentic. *)
Theorem C65_reset_refuted : exists w l, old_stream toy H264 w 1 [] l /\
  w_says toy H264 (map sends (firstn 2 l) ++ [VReset] ++ map sends demo_arrivals) = Def
    ([quiet; (SV_OK, Some (AuthOk, AuthOk, [46; 80])); quiet] ++
     [quiet; quiet; quiet; (SV_INCOMPATIBLE_VERSION, None); quiet; quiet; quiet; quiet; quiet; (SV_INCOMPATIBLE_VERSION, None)]) /\
  exists v res, vrun toy OvfUndef 1 (vcreate toy H264) (map sends demo_arrivals) = Def (v, res) /\ answers false demo_arrivals res.
Proof.
  exists (old_w true sha256_der), (o_all (old_w true sha256_der)). split; [apply o_all_stream; left; reflexivity|].
  split; [vm_compute; reflexivity|]. destruct demo_untampered as (v & res & E & A & _). exists v, res. split; assumption.
Qed.
(** Another recording of an older version with the same settings is fine. *)
Theorem C65_again_partial C Ov c w hs f un1 k1 l1 un2 k2 l2 : crypto_ok C -> old_settings C w hs -> w_frame w = true \/ hs = 32%nat ->
  let fine un := Forall (seen c) un /\ Forall (legal c) un /\ Forall (fun p => p_bytes p = None /\ p_first p = false) un in
  fine un1 -> fine un2 -> old_stream C c w k1 [] l1 -> l1 <> [] -> old_stream C c w k2 [] l2 ->
  exists w2 rs1 rs2, wrun C Ov (S f) (wcreate C c) (map sends (map Pic un1 ++ l1) ++ VReset :: map sends (map Pic un2 ++ l2)) =
      Def (w2, rs1 ++ (SV_OK, None) :: rs2) /\
    old_answers [] (map Pic un1 ++ l1) rs1 /\ old_answers [] (map Pic un2 ++ l2) rs2.
Proof. exact (old_run_twice C Ov c w hs f un1 k1 l1 un2 k2 l2). Qed.
Example C65_again_demo frame : let l := o_all (old_w frame sha256_der) in exists w2 rs1 rs2,
  wrun toy OvfUndef 1 (wcreate toy H264) (map sends l ++ VReset :: map sends l) = Def (w2, rs1 ++ (SV_OK, None) :: rs2) /\
  old_answers [] l rs1 /\ old_answers [] l rs2.
Proof.
  apply (C65_again_partial toy OvfUndef H264 (old_w frame sha256_der) 32 0 [] 1 _ [] 1); try apply old_w_settings; try apply toy_ok;
    try (apply o_all_stream; left; reflexivity); try (split; [|split]; apply Forall_nil); try discriminate. right. reflexivity.
Qed.
(** It may also have other settings. *)
Example C65_same : w_says toy H264 (map sends (firstn 2 (o_all (old_w true sha256_der))) ++ [VReset] ++ map sends (firstn 6 (o_all (old_w false sha256_der)))) = Def
    ([quiet; (SV_OK, Some (AuthOk, AuthOk, [46; 80])); quiet] ++
     [quiet; (SV_OK, Some (AuthOk, AuthOk, [46; 80])); quiet; quiet; quiet; (SV_OK, Some (AuthOk, AuthOk, [46; 46; 46; 46; 80]))]).
Proof. vm_compute. reflexivity. Qed.

(** ** C66: damage is confined *)

(** One SEI that cannot be decoded makes every later SEI and every later first NALU of a GOP fail. *)
Definition o_broken : list N := old_sei H264 true [(1, [9]); old_sig (old_w true sha256_der) [1; 2; 3]].
Theorem C66_broken_refuted : exists w a y b, old_stream toy H264 w 1 [] (a ++ y :: b) /\
  w_says toy H264 (map sends a ++ VAdd o_broken true :: map sends b) = Def
    ([quiet; (SV_OK, Some (AuthOk, AuthOk, [46; 80])); quiet; quiet] ++
     quiet :: [(SV_INCOMPATIBLE_VERSION, None); quiet; quiet; (SV_INCOMPATIBLE_VERSION, None);
      (SV_INCOMPATIBLE_VERSION, None); quiet; quiet; (SV_INCOMPATIBLE_VERSION, None); (SV_INCOMPATIBLE_VERSION, None)]).
Proof.
  set (w := old_w true sha256_der). exists w, (firstn 4 (o_all w)), (Sei (o_s2 w) o_g1 []), (skipn 5 (o_all w)).
  split; [apply (o_all_stream true sha256_der); left; reflexivity|]. vm_compute. reflexivity.
Qed.

(** One modified NALU at the end of a GOP and its SEI twice: every later report is negative, and repeats all the NALUs
    from there on. *)
Theorem C66_twice_refuted : exists w a p y b, old_stream toy H264 w 1 [] (a ++ p :: y :: b) /\
  w_says toy H264 (map sends a ++ VAdd (pic [99]) true :: sends y :: sends y :: map sends b) = Def
    ([quiet; (SV_OK, Some (AuthOk, AuthOk, [46; 80])); quiet; quiet; quiet] ++
     [(SV_OK, Some (NotOk, NotOk, [46; 46; 78; 46; 80])); (SV_OK, Some (NotOk, NotOk, [78; 46; 46; 77; 77; 77; 80])); quiet; quiet;
      quiet; (SV_OK, Some (NotOk, NotOk, [78; 46; 46; 77; 77; 77; 46; 46; 46; 46; 80])); quiet; quiet;
      quiet; (SV_OK, Some (NotOk, NotOk, [78; 46; 46; 77; 77; 77; 46; 46; 46; 46; 46; 46; 46; 46; 80]))]).
Proof.
  set (w := old_w true sha256_der). exists w, (firstn 3 (o_all w)), (Pic (pcs o_p2 None false)), (Sei (o_s2 w) o_g1 []), (skipn 5 (o_all w)).
  split; [apply (o_all_stream true sha256_der); left; reflexivity|]. vm_compute. reflexivity.
Qed.
(** Without the second copy of the SEI only that GOP is affected. *)
Example C66_once : w_says toy H264 (map sends (firstn 3 (o_all (old_w true sha256_der))) ++ VAdd (pic [99]) true :: map sends (skipn 4 (o_all (old_w true sha256_der)))) = Def
    [quiet; (SV_OK, Some (AuthOk, AuthOk, [46; 80])); quiet; quiet;
     quiet; (SV_OK, Some (NotOk, NotOk, [46; 46; 78; 46; 80])); quiet; quiet;
     quiet; (SV_OK, Some (AuthOk, NotOk, [46; 46; 46; 46; 80])); quiet; quiet;
     quiet; (SV_OK, Some (AuthOk, NotOk, [46; 46; 46; 46; 80]))].
Proof. vm_compute. reflexivity. Qed.

(** C68: pictures that no signature covers, C33: a change of the key, and C32: the overall result, in recordings of older versions. *)
From Coq Require Import Sorted.
From Verif Require Import Base BaseProofs Nalu Crypto Types SignSpec Toy GopSpec PropsGop VTypes NaluList Validator ValidSpec AuthSpec E2eSpec PropsE2e LegacyTypes Legacy LegacySpec LegacyToy PropsLegacy LegacyVerdict LegacyAcc.
Local Open Scope N_scope.

(** Another recording with the same settings. *)
Definition o_other (w : settings) : list arrival := [Sei (old_make w 1 (o_bytes [idr [55]])) (o_bytes [idr [55]]) []; Pic (pcs (idr [55]) None true)].
Lemma o_other_stream frame oid : oid = sha256_der \/ oid = toy_der -> old_stream toy H264 (old_w frame oid) 1 [] (o_other (old_w frame oid)).
Proof. intros HO. unfold o_other. old_step (toy_gop _ 1 2 [] (pcs (idr [55]) None true) [] _ _ _ _ _ _ _ _ _ _ _ _ _ _) HO frame. apply old_end. Qed.

(** C68 is false, with and without lists of hashes. Of one recording someone takes the first SEI, [y], of another with the same settings the first SEI
    and the first picture, [z] and [p]. The first validation, of [p] with [y], cannot succeed; it is answered with "signature present"
    and is to be repeated. The mark that says so is not cleared by a success: from then on [p] is validated again with each copy of [z], with success, and
    nothing behind [p] is looked at. The pictures [e1] and [e2] are in neither recording, and every report says "authentic", for the
    part since the last report and for the whole video. *)
Theorem C68_replayed_refuted frame : exists w y a z p b e1 e2,
  old_stream toy H264 w 1 [] (y :: a) /\ old_stream toy H264 w 1 [] (z :: p :: b) /\
  Forall (fun e => ~ In e (map sends ((y :: a) ++ z :: p :: b))) (e1 ++ e2) /\
  w_says toy H264 ([sends y; sends p; sends z] ++ e1 ++ [sends z] ++ e2 ++ [sends z]) = Def
    [quiet; (SV_OK, Some (SigPresent, SigPresent, [85; 80])); (SV_OK, Some (AuthOk, AuthOk, [80; 46]));
     quiet; quiet; quiet; (SV_OK, Some (AuthOk, AuthOk, [80; 85; 80; 80; 80; 46]));
     quiet; quiet; (SV_OK, Some (AuthOk, AuthOk, [80; 85; 80; 80; 80; 85; 80; 80; 46]))] /\ w = old_w frame sha256_der.
Proof.
  set (w := old_w frame sha256_der). exists w, (hd (Sei [] [] []) (o_other w)), (tl (o_other w)), (Sei (o_s1 w) o_g0 []), (Pic (pcs o_i1 None true)), (skipn 2 (o_all w)),
    (w_adds [idr [66]; pic [67]; pic [68]]), (w_adds [idr [69]; pic [70]]).
  split; [apply (o_other_stream frame sha256_der); left; reflexivity|]. split; [apply (o_all_stream frame sha256_der); left; reflexivity|]. split.
  - assert (N : forall l e, existsb (fun o => match o with VAdd d _ => bytes_eqb d e | _ => false end) l = false -> ~ In (VAdd e true) l).
    { intros l e E H. assert (existsb (fun o => match o with VAdd d _ => bytes_eqb d e | _ => false end) l = true); [|congruence]. apply existsb_exists. exists (VAdd e true). split; [exact H|]. apply bytes_eqb_eq. reflexivity. }
    subst w. repeat (apply Forall_cons; [apply N; destruct frame; vm_compute; reflexivity|]). apply Forall_nil.
  - split; [|reflexivity]. subst w. destruct frame; vm_compute; reflexivity.
Qed.

(** Without the SEI of the other recording the pictures are noticed. *)
Example C68_case frame : let z := VAdd (o_s1 (old_w frame sha256_der)) true in
  w_says toy H264 ([z; VAdd o_i1 true] ++ w_adds [pic [67]; pic [99]] ++ [z; VAdd (idr [69]) true]) = Def
    [quiet; (SV_OK, Some (AuthOk, AuthOk, [46; 80])); quiet; quiet; quiet; (SV_OK, Some (NotOk, NotOk, if frame then [46; 78; 78; 46; 80] else [78; 78; 78; 78; 80]))].
Proof. destruct frame; vm_compute; reflexivity. Qed.

(** ** C32, C33: recordings of older versions *)

(** Someone with a key of their own makes a recording in the old format. *)
Definition own_w (frame : bool) : settings := mkSettings (75 :: key2) 65 [[65]; []; []; []; []] true frame 1 true false 0 sha256_der.
Definition own_sei (w : settings) (k : N) (l : list (list N)) : list N :=
  let fs := old_fields toy w k (o_bytes l) None in
  let d := old_part H264 (w_epb w) fs (old_sig w (repeat 1 (S (oid_size toy (w_oid w))))) in
  match c_sign toy key2 0 (old_digest toy w (o_bytes l) d) with
  | Some sig => old_sei H264 (w_epb w) (fs ++ [old_sig w sig])
  | None => []
  end.
Definition own_video (frame : bool) : list (list N) :=
  let y k l := own_sei (own_w frame) k l in
  [y 1 [idr [55]]; o_i1; y 1 [idr [56]; idr [57]]; o_p1; o_p2; y 2 [o_i1; o_p1; o_p2; o_i2]; o_i2; o_p3; y 3 [o_i2; o_p3; o_i3]; o_i3].
(** For each report: the verdict on the last part, that on the whole, whether the key changed, and whether it ever did. *)
Definition keys_told (C : crypto) (c : codec) (ops : list vop) : out (list (authres * authres * bool * bool * list N)) :=
  do (_, rs) <- wrun C OvfUndef 9 (wcreate C c) ops;
  Def (flat_map (fun x => match snd x with Some p => [(l_auth (p_latest p), a_auth (p_acc p), p_changed p, a_changed (p_acc p), l_vstr (p_latest p))] | None => [] end) rs).

(** C33 is false for recordings of older versions, and C32 as well. The user sets the public key that the video has to be signed with. All the SEIs
    have another key. The first has a single NALU and fails, which is reported NOT_OK because of the key. As in C68 the validation after it
    counts as a first one; it fails too, and the overall result becomes "signature present". All that follows is reported OK, also for
    the whole video; that a key changed is still told. *)
Theorem C33_old_refuted frame :
  keys_told toy H264 (VSetKey (75 :: key1) :: w_adds (own_video frame)) = Def
    [(NotOk, NotOk, true, true, [85; 80]); (SigPresent, SigPresent, false, true, [80; 85]);
     (AuthOk, AuthOk, false, true, [46; 85; 46; 46; 46; 80]); (AuthOk, AuthOk, false, true, [46; 46; 46; 80])].
Proof. destruct frame; vm_compute; reflexivity. Qed.
(** Without the two SEIs at the beginning the overall result stays NOT_OK. *)
Example C33_old_case frame : let y k l := own_sei (own_w frame) k l in
  keys_told toy H264 (VSetKey (75 :: key1) :: w_adds [y 1 [o_i1]; o_i1; o_p1; o_p2; y 2 [o_i1; o_p1; o_p2; o_i2]; o_i2]) = Def
    [(NotOk, NotOk, true, true, [46; 80]); (AuthOk, NotOk, false, true, [46; 46; 46; 46; 80])].
Proof. destruct frame; vm_compute; reflexivity. Qed.

(** C33. What remains, in every session and with any NALUs and cryptography: once a report on a recording of an older version says that the key changed, since
    the last report or ever, this report and all later ones say that it changed at some time, until the session is reset. (A report that says
    that it changed since the last report has not the verdict "authentic", C67_verdict.) *)
Theorem C33_old_told C Ov fuel c ops1 d want w1 res1 st p ops2 w2 res2 :
  wrun C Ov fuel (wcreate C c) (ops1 ++ [VAdd d want]) = Def (w1, res1 ++ [(st, Some p)]) -> w_leg w1 <> None -> p_changed p = true \/ a_changed (p_acc p) = true ->
  Forall (fun o => o <> VReset) ops2 -> wrun C Ov fuel w1 ops2 = Def (w2, res2) ->
  Forall (fun x => match snd x with Some p => a_changed (p_acc p) = true | None => True end) ((st, Some p) :: res2).
Proof. exact (old_changed C Ov c fuel ops1 d want w1 res1 st p ops2 w2 res2). Qed.
Lemma last_changed (z : out (wsess * list (svrc * option report))) :
  match z with Def (w, xs) => match rev xs with (_, Some p) :: _ => match w_leg w with Some _ => p_changed p | None => false end | _ => false end | Undef _ => false end = true ->
  exists w res st p, z = Def (w, res ++ [(st, Some p)]) /\ w_leg w <> None /\ p_changed p = true.
Proof.
  destruct z as [[w xs]|]; [|discriminate]. destruct (rev xs) as [|[st [p|]] r] eqn:ER; try discriminate. destruct (w_leg w) eqn:EL; [|discriminate]. intros E. exists w, (rev r), st, p.
  apply (f_equal (@rev _)) in ER. rewrite rev_involutive in ER. cbn [rev] in ER. rewrite ER. split; [reflexivity|]. split; [congruence|exact E].
Qed.
(** The recording of C33_old_refuted is a case: its first report says so. *)
Example C33_old_told_case frame : exists w1 res1 st p,
  wrun toy OvfUndef 9 (wcreate toy H264) ([VSetKey (75 :: key1); VAdd (hd [] (own_video frame)) true] ++ [VAdd o_i1 true]) = Def (w1, res1 ++ [(st, Some p)]) /\ w_leg w1 <> None /\ p_changed p = true.
Proof. apply last_changed. destruct frame; vm_compute; reflexivity. Qed.

(** C32. For recordings of older versions, with any NALUs and cryptography, in a session that asks for every report and is not reset: the overall result
    in a report is not better than that of the part reported, and once it is one of NOT_OK, OK_WITH_MISSING_INFO and OK, the next report has no
    better one. Partial: only from one report to the next, as "signature present" may come between (C33_old_refuted). *)
Theorem C32_old_partial C Ov fuel c ops1 d want w1 res1 st p ops2 w2 res2 :
  wrun C Ov fuel (wcreate C c) (ops1 ++ [VAdd d want]) = Def (w1, res1 ++ [(st, Some p)]) -> w_leg w1 <> None ->
  Forall asking ops2 -> Forall (fun o => o <> VReset) ops2 -> wrun C Ov fuel w1 ops2 = Def (w2, res2) ->
  ar_n (a_auth (p_acc p)) <= ar_n (l_auth (p_latest p)) /\
  Sorted (fun p p' => verdict (a_auth (p_acc p)) -> ar_n (a_auth (p_acc p')) <= ar_n (a_auth (p_acc p)))
    (p :: flat_map (fun x => match snd x with Some p => [p] | None => [] end) res2).
Proof. exact (old_overall C Ov c fuel ops1 d want w1 res1 st p ops2 w2 res2). Qed.
(** A picture of the second GOP is modified: the third is authentic, the overall result stays NOT_OK. *)
Example C32_old_case : let l := o_all (old_w true sha256_der) in
  w_says toy H264 (map sends (firstn 7 l) ++ VAdd (pic [99]) true :: map sends (skipn 8 l)) = Def
    [quiet; (SV_OK, Some (AuthOk, AuthOk, [46; 80])); quiet; quiet; quiet; (SV_OK, Some (AuthOk, AuthOk, [46; 46; 46; 46; 80])); quiet; quiet;
     quiet; (SV_OK, Some (NotOk, NotOk, [46; 46; 78; 46; 80])); quiet; quiet; quiet; (SV_OK, Some (AuthOk, NotOk, [46; 46; 46; 46; 80]))].
Proof. vm_compute. reflexivity. Qed.

(** C40. For recordings of older versions too, with any NALUs and cryptography, no report has the verdict VERSION_MISMATCH, whatever version the
    recording says it was signed with (C40_never_mismatch is about the others). *)
Theorem C40_old_never_mismatch C Ov fuel c ops d want w res st p :
  wrun C Ov fuel (wcreate C c) (ops ++ [VAdd d want]) = Def (w, res ++ [(st, Some p)]) -> w_leg w <> None ->
  l_auth (p_latest p) <> VersionMismatch.
Proof. exact (old_fits C Ov c fuel ops d want w res st p). Qed.
(** A report on such a recording, with another verdict. *)
Example C40_old_case frame : exists w res st p,
  wrun toy OvfUndef 9 (wcreate toy H264) ([VSetKey (75 :: key1); VAdd (hd [] (own_video frame)) true] ++ [VAdd o_i1 true]) = Def (w, res ++ [(st, Some p)]) /\ w_leg w <> None.
Proof. destruct (C33_old_told_case frame) as (w & res & st & p & E & HL & _). exists w, res, st, p. split; [exact E|exact HL]. Qed.

(** C32, C40: the overall result of a session, and the version of the signing side. *)
From Verif Require Import Base Nalu Crypto Types Signer SignSpec Toy VTypes NaluList Validator ValidSpec VAuthProofs VToy Version VersionProofs.
Local Open Scope N_scope.

(** C32. In a session without reset and without golden SEIs: once a report has given a result for a part
    of the video (NOT_OK, OK_WITH_MISSING_INFO or OK), the overall result in that report and in every
    later one is such a result too and is not better. Partial: not with golden SEIs, see below. *)
Theorem C32_never_improves_partial C Ov fuel c ops v res :
  Forall (fun o => o <> VReset) ops -> Forall (not_golden c) ops -> ~ In VLegacy res ->
  vrun C Ov fuel (vcreate C c) ops = Def (v, res) ->
  Forall (fun p => verdict (l_auth (p_latest p)) ->
      verdict (a_auth (p_acc p)) /\ ar_n (a_auth (p_acc p)) <= ar_n (l_auth (p_latest p))) (reports ops res) /\
  ForallOrdPairs (fun p q => forall a, a = l_auth (p_latest p) \/ a = a_auth (p_acc p) -> verdict a ->
      verdict (a_auth (p_acc q)) /\ ar_n (a_auth (p_acc q)) <= ar_n a) (reports ops res).
Proof. exact (session_sticks C Ov fuel c ops v res). Qed.
(** In particular NOT_OK stays. *)
Theorem C32_not_ok_stays_partial C Ov fuel c ops v res :
  Forall (fun o => o <> VReset) ops -> Forall (not_golden c) ops -> ~ In VLegacy res ->
  vrun C Ov fuel (vcreate C c) ops = Def (v, res) ->
  Forall (fun p => l_auth (p_latest p) = NotOk -> a_auth (p_acc p) = NotOk) (reports ops res) /\
  ForallOrdPairs (fun p q => l_auth (p_latest p) = NotOk \/ a_auth (p_acc p) = NotOk -> a_auth (p_acc q) = NotOk) (reports ops res).
Proof. exact (session_not_ok C Ov fuel c ops v res). Qed.

(** A picture of the second GOP is replaced; the third GOP is fine. *)
Definition replaced : list (list N) :=
  gop_i 1 ++ [idr [2]; gsei 1; pic [2; 7]; pic [2; 2]; idr [3]; gsei 2; pic [3; 1]; pic [3; 2]; idr [4]; gsei 3].
Definition results (ops : list vop) (x : out (valid * list vres)) : list (authres * authres) :=
  match x with Def (_, rs) => map (fun p => (l_auth (p_latest p), a_auth (p_acc p))) (reports ops rs) | _ => [] end.
Example C32_case : Forall (not_golden H264) (adds replaced) /\
  results (adds replaced) (vrun toy OvfUndef 9 (vcreate toy H264) (adds replaced)) =
    [(NotSigned, NotSigned); (AuthOk, AuthOk); (NotOk, NotOk); (AuthOk, NotOk)].
Proof. split; [repeat (apply Forall_cons; [vm_compute; reflexivity|]); apply Forall_nil|vm_compute; reflexivity]. Qed.

(** C32 in full is false: a stream starts with a golden SEI whose signature is wrong, which is reported
    NOT_OK. The first GOP is then received without its beginning, and the report on its SEI makes the
    overall result SIGNATURE_PRESENT; with the next GOP it becomes OK. *)
Definition golden : list N := Eval vm_compute in
  match run toy [OKey key1; OGolden; OGet true []] (create H264 0) with Def (_, rs) => hd [] (returned rs) | _ => [] end.
Definition bad_golden : list N := map (fun b => if b =? 232 then 233 else b) golden.
Definition forgotten : list (list N) := [bad_golden; idr [2]; gsei 1; pic [2; 1]; pic [2; 2]; idr [3]; gsei 2].
Theorem C32_never_improves_refuted : exists C fuel ops v res,
  Forall (fun o => o <> VReset) ops /\ ~ In VLegacy res /\ vrun C OvfUndef fuel (vcreate C H264) ops = Def (v, res) /\
  map (fun p => (l_auth (p_latest p), a_auth (p_acc p))) (reports ops res) = [(NotOk, NotOk); (SigPresent, SigPresent); (AuthOk, AuthOk)].
Proof.
  destruct (vrun toy OvfUndef 9 (vcreate toy H264) (adds forgotten)) as [[v res]|u] eqn:E; [|vm_compute in E; discriminate].
  exists toy, 9%nat, (adds forgotten), v, res. vm_compute in E. injection E as <- <-.
  split; [repeat (apply Forall_cons; [discriminate|]); apply Forall_nil|]. split; [cbn; intuition congruence|].
  split; vm_compute; reflexivity.
Qed.

(** C40. Comparing two version strings orders them by major, then minor, then patch number, for all
    numbers that fit an int. *)
Theorem C40_version_order a1 a2 a3 b1 b2 b3 :
  Forall (fun n => n < 2 ^ 31) [a1; a2; a3; b1; b2; b3] ->
  exists r, compare_strings (Some (print_version a1 a2 a3)) (Some (print_version b1 b2 b3)) = Def r /\
    (r = 0%Z <-> (a1 = b1 /\ a2 = b2 /\ a3 = b3)) /\
    (r = 1%Z <-> (b1 < a1 \/ (b1 = a1 /\ (b2 < a2 \/ (b2 = a2 /\ b3 < a3))))) /\
    (r = 2%Z <-> (a1 < b1 \/ (a1 = b1 /\ (a2 < b2 \/ (a2 = b2 /\ a3 < b3))))).
Proof. exact (compare_order a1 a2 a3 b1 b2 b3). Qed.
(** v2.0.10 against v2.0.9 *)
Example C40_order_case : print_version 2 0 10 = [118; 50; 46; 48; 46; 49; 48] /\
  compare_strings (Some (print_version 2 0 10)) (Some (print_version 2 0 9)) = Def 1%Z.
Proof. split; vm_compute; reflexivity. Qed.

(** No session ever reports VERSION_MISMATCH: the session compares the version of the signing side with
    an empty string, which is not a version. *)
Theorem C40_never_mismatch C Ov fuel c ops v res : ~ In VLegacy res ->
  vrun C Ov fuel (vcreate C c) ops = Def (v, res) ->
  Forall (fun p => l_auth (p_latest p) <> VersionMismatch /\ a_auth (p_acc p) <> VersionMismatch) (reports ops res).
Proof. exact (session_no_vm C Ov fuel c ops v res). Qed.
(** So C40 in full is false: this stream is signed with version 1.1.30, newer than the one validating
    (all digests are zero here, so that the signature of the changed SEI is right). *)
Definition first_sei : list N := Eval vm_compute in
  match run zero_crypto ([OKey key1; OLevel LGop] ++ flat_map (fun d => [OAdd d None true; OGet true []]) (gop_i 1 ++ [idr [2]])) (create H264 0) with
  | Def (_, rs) => hd [] (returned rs)
  | _ => []
  end.
Definition newer : list N := map (fun b => if b =? 29 then 30 else b) first_sei.
Definition newer_ops : list vop := adds (gop_i 1 ++ [newer]).
Theorem C40_mismatch_refuted : exists C fuel ops v res p,
  vrun C OvfUndef fuel (vcreate C H264) ops = Def (v, res) /\ ~ In VLegacy res /\ In p (reports ops res) /\
  p_this p = [1; 1; 29] /\ p_sver p = [1; 1; 30] /\ l_auth (p_latest p) = AuthOk /\ a_auth (p_acc p) = AuthOk.
Proof.
  exists zero_crypto, 9%nat, newer_ops. eexists. eexists. eexists. split; [vm_compute; reflexivity|].
  split; [cbn; intuition congruence|]. split; [left; reflexivity|]. vm_compute. auto.
Qed.

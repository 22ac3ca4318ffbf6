(** C33: another public key turns up in the stream. *)
From Verif Require Import Base Nalu Crypto Types Signer SignSpec Toy VTypes NaluList Validator ValidSpec VUnsigned VKeyProofs VToy.
Local Open Scope N_scope.

(** C33. After the calls [a] signatures are verified with the key [k], set by the user or taken from a
    SEI. If all further calls [b] succeed, then either [k] is still the key in use, or the overall result is
    NOT_OK. Partial: sessions without reset and golden SEIs, and every call has to succeed, see below. A
    memory area of zeros is not a public key. *)
Theorem C33_key_change_partial C Ov fuel c a b v1 ra v2 rb k :
  (forall n, c_pub_ok C (zeros n) = false) ->
  Forall (fun o => o <> VReset) (a ++ b) -> Forall (not_golden c) (a ++ b) -> ~ In VLegacy (ra ++ rb) ->
  vrun C Ov (S fuel) (vcreate C c) a = Def (v1, ra) -> d_vkey (v_dec v1) = Some k ->
  vrun C Ov (S fuel) v1 b = Def (v2, rb) -> Forall call_ok rb ->
  d_vkey (v_dec v2) = Some k \/ a_auth (v_acc v2) = NotOk.
Proof. intros HZ. exact (session_key C Ov HZ fuel c a b v1 ra v2 rb k). Qed.
(** The call in which the key changes returns a report saying NOT_OK, also for the whole session. *)
Theorem C33_reported_partial C Ov fuel c a d v1 ra v2 st r k :
  (forall n, c_pub_ok C (zeros n) = false) ->
  Forall (fun o => o <> VReset) a -> Forall (not_golden c) (a ++ [VAdd d true]) -> ~ In VLegacy ra ->
  vrun C Ov (S fuel) (vcreate C c) a = Def (v1, ra) -> d_vkey (v_dec v1) = Some k ->
  vexec C Ov (S fuel) v1 (VAdd d true) = Def (v2, VRes st r) -> st = SV_OK -> d_vkey (v_dec v2) <> Some k ->
  exists p, r = Some p /\ l_auth (p_latest p) = NotOk /\ a_auth (p_acc p) = NotOk.
Proof. intros HZ. exact (session_flagged C Ov HZ fuel c a d v1 ra v2 st r k). Qed.

(** Someone replaces the second GOP and signs it with their own key. *)
Definition forged : list (list N) := [idr [2]; pic [66]; pic [67]].
Definition forged_seis : list (list N) := Eval vm_compute in
  match run toy ([OKey key2; OLevel LGop] ++ flat_map (fun d => [OAdd d None true; OGet true []]) (gop_i 1 ++ forged ++ [idr [3]]))
          (create H264 0) with
  | Def (_, rs) => returned rs
  | Undef _ => []
  end.
Definition pub1 : list N := 75 :: key1.
Definition pub2 : list N := 75 :: key2.
Definition key_says (x : out (valid * list vres)) :=
  match x with
  | Def (v, rs) => (d_vkey (v_dec v), map (fun p => (l_auth (p_latest p), a_auth (p_acc p), p_changed p, a_changed (p_acc p))) (all_reports rs))
  | Undef _ => (None, [])
  end.
Definition forged_ops : list vop := VSetKey pub1 :: adds (gop_i 1 ++ [gsei 1] ++ forged ++ [nth 1 forged_seis []]).
Lemma toy_zeros n : c_pub_ok toy (zeros n) = false.
Proof. destruct n; reflexivity. Qed.
Example C33_case : Forall (not_golden H264) forged_ops /\
  key_says (vrun toy OvfUndef 9 (vcreate toy H264) forged_ops) =
    (Some pub2, [(AuthOk, AuthOk, false, false); (NotOk, NotOk, true, true)]).
Proof. split; [repeat (apply Forall_cons; [first [exact I|vm_compute; reflexivity]|]); apply Forall_nil|vm_compute; reflexivity]. Qed.

(** C33 in full is false. Before the forged GOP comes a SEI with the other key followed by something that
    cannot be decoded. The call fails, but the other key is in use from then on, and the forged GOP is
    reported OK, with no sign of a changed key. *)
Definition smuggle : list N :=
  [0; 0; 0; 1; 6; 5; 27] ++ firstn 16 (skipn 7 (gsei 1)) ++ [176] ++ [2; 0; 4; 2] ++ pub2 ++ [1; 1; 0] ++ [128].
Theorem C33_key_change_refuted : exists C c ops v res,
  vrun C OvfUndef 9 (vcreate C c) (VSetKey pub1 :: ops) = Def (v, res) /\ hd VLegacy res = VRes SV_OK None /\
  d_vkey (v_dec v) = Some pub2 /\
  map (fun p => (l_auth (p_latest p), a_auth (p_acc p), p_changed p, a_changed (p_acc p))) (all_reports res) =
    [(AuthOk, AuthOk, false, false); (AuthOk, AuthOk, false, false)].
Proof.
  exists toy, H264, (adds (gop_i 1 ++ [gsei 1] ++ [idr [2]; smuggle; pic [66]; pic [67]] ++ [nth 1 forged_seis []])).
  eexists. eexists. split; [vm_compute; reflexivity|]. split; [reflexivity|]. split; reflexivity.
Qed.

(** C48: the verdict of a report fits the statuses of the NALUs it shows. *)
From Verif Require Import Base Nalu Crypto Types Signer SignSpec Toy VTypes NaluList Validator ValidSpec VToy PropsKey AuthSpec PropsAuth PropsBooks PropsVerdict ShownSpec ShownProofs.
Local Open Scope N_scope.

(** C48. In every session, whatever NALUs are added: if a report does not say NOT_OK, then every NALU it shows as not
    authentic ('N') is a SEI. Partial: checking a signature never fails with an error, sessions without golden SEIs, no NALU is
    refused. A SEI can be shown as not authentic although the report says OK (C48_sei_refuted). *)
Theorem C48_bad_pictures_partial C Ov fuel c ops v res : Ov <> OvfIdeal -> (forall k s h, c_verify C k s h = 0%Z \/ c_verify C k s h = 1%Z) ->
  Forall of_bytes ops -> Forall (not_golden c) ops -> vrun C Ov fuel (vcreate C c) ops = Def (v, res) -> all_accepted ops res ->
  forall i p, gives ops res i p -> l_auth (p_latest p) <> NotOk -> only_seis_bad p.
Proof. exact (fun HO HV HB HG HR HA i p HP => proj1 (proj1 (run_one C Ov HO HV c fuel ops (vcreate C c) v res HB HG eq_refl (create_Binv C c) HR HA i p HP))). Qed.

(** C48. If a report says OK_WITH_MISSING_INFO, it shows a missing NALU ('M'). Partial as above. *)
Theorem C48_missing_shown_partial C Ov fuel c ops v res : Ov <> OvfIdeal -> (forall k s h, c_verify C k s h = 0%Z \/ c_verify C k s h = 1%Z) ->
  Forall of_bytes ops -> Forall (not_golden c) ops -> vrun C Ov fuel (vcreate C c) ops = Def (v, res) -> all_accepted ops res ->
  forall i p, gives ops res i p -> l_auth (p_latest p) = OkMissing -> shows_missing p.
Proof. exact (fun HO HV HB HG HR HA i p HP => proj2 (proj1 (run_one C Ov HO HV c fuel ops (vcreate C c) v res HB HG eq_refl (create_Binv C c) HR HA i p HP))). Qed.

(** C48. If a report says NOT_OK, and an earlier one after the last reset said OK, OK_WITH_MISSING_INFO or NOT_OK, then it
    shows why: the public key has changed, or some NALU is shown as not authentic, missing or in error. Partial as above,
    and not for the first such report. *)
Theorem C48_not_ok_shown_partial C Ov fuel c ops v res : Ov <> OvfIdeal -> (forall k s h, c_verify C k s h = 0%Z \/ c_verify C k s h = 1%Z) ->
  Forall of_bytes ops -> Forall (not_golden c) ops -> vrun C Ov fuel (vcreate C c) ops = Def (v, res) -> all_accepted ops res ->
  forall i j p q, gives ops res i p -> gives ops res j q -> (i < j)%nat -> no_reset_between ops i j ->
  verdict (l_auth (p_latest p)) -> l_auth (p_latest q) = NotOk -> p_changed q = true \/ shows_damage q.
Proof. exact (fun HO HV HB HG HR HA => run_two C Ov HO HV c fuel ops (vcreate C c) v res HB HG eq_refl (create_Binv C c) HR HA). Qed.

(** The stream of C42_case, in which a picture was lost, and that of C32_case, in which one was replaced. *)
Definition fit_case (ops : list vop) : Prop :=
  Forall of_bytes ops /\ Forall (not_golden H264) ops /\ exists v res, vrun toy OvfWrap 9 (vcreate toy H264) ops = Def (v, res) /\
    Forall2 (fun o x => match o with VAdd _ _ => exists r, x = VRes SV_OK r | _ => True end) ops res.
Ltac fit_case_of :=
  split; [repeat (apply Forall_cons; [repeat (apply Forall_cons; [reflexivity|]); apply Forall_nil|]); apply Forall_nil|];
  split; [repeat (apply Forall_cons; [vm_compute; reflexivity|]); apply Forall_nil|];
  do 2 eexists; split; [vm_compute; reflexivity|]; repeat (apply Forall2_cons; [eexists; reflexivity|]); apply Forall2_nil.
Example C48_case : fit_case (adds lossy) /\ fit_case (adds replaced).
Proof. split; fit_case_of. Qed.
Example C48_case_accepted ops res : Forall2 (fun o x => match o with VAdd _ _ => exists r, x = VRes SV_OK r | _ => True end) ops res -> all_accepted ops res.
Proof.
  induction 1 as [|o x ops res H F IH]; intros i d w y E1 E2; [destruct i; discriminate|]. destruct i as [|i]; [|exact (IH i d w y E1 E2)]. cbn in E1, E2. injection E1 as ->. injection E2 as ->. exact H.
Qed.
(** Their reports: NOT_SIGNED PPPP, OK ...P., OK_WITH_MISSING_INFO ...MP. ; NOT_SIGNED PPPP, OK ...P., NOT_OK N.NNP. , OK .... *)
Example C48_case_says :
  map (fun p => (l_auth (p_latest p), shown_as p)) (reports_of (adds lossy) (vrun toy OvfWrap 9 (vcreate toy H264) (adds lossy))) =
    [(NotSigned, [(73, 80); (80, 80); (80, 80); (73, 80)]); (AuthOk, [(73, 46); (80, 46); (80, 46); (73, 80); (83, 46)]);
     (OkMissing, [(73, 46); (83, 46); (80, 46); (32, 77); (73, 80); (83, 46)])] /\
  map (fun p => (l_auth (p_latest p), shown_as p)) (reports_of (adds replaced) (vrun toy OvfWrap 9 (vcreate toy H264) (adds replaced))) =
    [(NotSigned, [(73, 80); (80, 80); (80, 80); (73, 80)]); (AuthOk, [(73, 46); (80, 46); (80, 46); (73, 80); (83, 46)]);
     (NotOk, [(73, 78); (83, 46); (80, 78); (80, 78); (73, 80); (83, 46)]); (AuthOk, [(73, 46); (83, 46); (80, 46); (80, 46); (73, 80); (83, 46)])].
Proof. split; vm_compute; reflexivity. Qed.
Example C48_case_crypto : forall k s h, c_verify toy k s h = 0%Z \/ c_verify toy k s h = 1%Z.
Proof. intros k s h. cbn. destruct (bytes_eqb _ _); auto. Qed.

(** C48 in full is false: a SEI signed with another key is shown as not authentic, and the report says OK. *)
Theorem C48_sei_refuted : exists C c ops v res p, (forall k s h, c_verify C k s h = 0%Z \/ c_verify C k s h = 1%Z) /\ Forall (not_golden c) ops /\
  vrun C OvfWrap 9 (vcreate C c) ops = Def (v, res) /\ gives ops res 5 p /\ l_auth (p_latest p) = AuthOk /\ In (83, 78) (shown_as p).
Proof.
  exists toy, H264, (adds (gop_i 1 ++ [gsei 1; nth 1 other_seis []; idr [2]])). do 3 eexists. split; [exact C48_case_crypto|].
  split; [repeat (apply Forall_cons; [vm_compute; reflexivity|]); apply Forall_nil|]. split; [vm_compute; reflexivity|].
  split; [do 3 eexists; split; reflexivity|]. split; [reflexivity|left; reflexivity].
Qed.

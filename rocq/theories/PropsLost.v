(** C38: SEIs that do not arrive. *)
From Verif Require Import Base Nalu Crypto Types Signer SignSpec CodecSpec Toy VTypes NaluList Validator ValidSpec VLost VToy.
Local Open Scope N_scope.

(** C38. In a session that has seen signed video and is synchronised with it, a NALU is added, and the first
    SEI waiting to be validated carries the number [c] although a smaller one is the next after the number
    validated last. If a report comes out of the call, it says that the number of expected NALUs is unknown.
    Partial: the arithmetic of detect_lost_sei is taken to be that of integers, the received number has to
    be larger than the expected one, the NALU added is not a golden SEI. Both are needed, see below. *)
Theorem C38_lost_sei_partial C fuel v d n v' p it m c :
  d <> [] -> parse_nalu d (v_codec v) true true = Def n -> n_golden n = false ->
  v_signing v = true -> v_synced v = true ->
  first_waiting (v_items v ++ [item_create n]) = Some it -> i_nalu it = Some m -> i_decoded it = false ->
  carries m c -> u32 (v_gop v + 1) < c ->
  add_nalu C OvfIdeal fuel v d true = Def (v', VRes SV_OK (Some p)) ->
  l_exp (p_latest p) = (-1)%Z.
Proof. intros H1 H2 H3 H4 H5 H6 H7 H8 H9 H10. exact (add_exp C fuel v d n v' p it m c H1 H2 H4 H3 H6 H7 H8 H9 H10 H5). Qed.

(** The SEI of the second GOP is lost. *)
Definition lost_before : list vop := adds (gop_i 1 ++ [gsei 1] ++ gop_i 2 ++ gop_i 3).
Definition latest_says (x : out (valid * list vres)) :=
  match x with
  | Def (_, rs) => map (fun p => (l_auth (p_latest p), l_exp (p_latest p), l_recv (p_latest p))) (all_reports rs)
  | Undef _ => []
  end.
Example C38_case : exists v res n it m v' p,
  vrun toy OvfIdeal 9 (vcreate toy H264) lost_before = Def (v, res) /\
  parse_nalu (gsei 3) (v_codec v) true true = Def n /\ n_golden n = false /\ v_signing v = true /\ v_synced v = true /\
  first_waiting (v_items v ++ [item_create n]) = Some it /\ i_nalu it = Some m /\ i_decoded it = false /\ carries m 3 /\
  v_gop v = 1 /\ add_nalu toy OvfIdeal 9 v (gsei 3) true = Def (v', VRes SV_OK (Some p)) /\ l_auth (p_latest p) = NotOk.
Proof.
  do 7 eexists. split; [vm_compute; reflexivity|]. split; [vm_compute; reflexivity|]. split; [reflexivity|]. split; [reflexivity|]. split; [reflexivity|].
  split; [vm_compute; reflexivity|]. split; [reflexivity|]. split; [reflexivity|]. split.
  - exists [(2, [2; 75; 65; 66; 67]); (3, [1; 1; 0; 1; 0; 1; 0; 1; 0; 1; 0]); (7, [1; 11; 6; 9; 96; 134; 72; 1; 101; 3; 4; 2; 1])], 3.
    exists ([0; 3; 1; 1; 29; 0; 69; 216] ++ repeat 9 30 ++ [77; 228] ++ repeat 9 30).
    exists [(5, [1; 0; 1; 0; 33; 65; 182; 80] ++ repeat 9 30 ++ repeat 1 32)], [128].
    cbv zeta. split; [vm_compute; reflexivity|]. split; [vm_compute; reflexivity|].
    split; [cbn [app]; repeat (apply Forall_cons; [split; [cbn; tauto|vm_compute; reflexivity]|]); apply Forall_nil|].
    split; [reflexivity|]. cbn. intuition discriminate.
  - split; [reflexivity|]. split; vm_compute; reflexivity.
Qed.

(** C38 in full is false. As written, detect_lost_sei adds INT64_MAX to the difference of received and
    expected counter, so every SEI with a number larger than the expected one gives a signed overflow. *)
Theorem C38_lost_sei_refuted : exists C c ops,
  vrun C OvfUndef 9 (vcreate C c) ops = Undef SignedOverflow /\
  (* If the overflow wraps, as in common builds, the loss is not seen and a number of expected NALUs is given. *)
  latest_says (vrun C OvfWrap 9 (vcreate C c) ops) = [(AuthOk, 3%Z, 3%Z); (NotOk, 3%Z, 3%Z)] /\
  latest_says (vrun C OvfIdeal 9 (vcreate C c) ops) = [(AuthOk, 3%Z, 3%Z); (NotOk, (-1)%Z, 2%Z)].
Proof. exists toy, H264, (lost_before ++ [VAdd (gsei 3) true]). split; [|split]; vm_compute; reflexivity. Qed.
(** Nor is it seen, with any arithmetic, that the last SEI before the counter starts again is lost. *)
Definition late_seis : list (list N) := Eval vm_compute in
  match run toy ([OKey key1; OLevel LGop] ++ flat_map (fun d => [OAdd d None true; OGet true []])
          (flat_map (fun i => gop_i (N.of_nat i)) (seq 1 4) ++ [idr [99]])) (on_gop (set_g_counter (2 ^ 32 - 4)) (create H264 0)) with
  | Def (_, rs) => returned rs
  | Undef _ => []
  end.
Theorem C38_wraparound_refuted : exists C c a b v res v' res',
  vrun C OvfIdeal 9 (vcreate C c) (adds a) = Def (v, res) /\ v_gop v = 2 ^ 32 - 2 /\ v_synced v = true /\
  vrun C OvfIdeal 9 v (adds b) = Def (v', res') /\ v_gop v' = 0 /\
  map (fun p => l_exp (p_latest p)) (all_reports res') = [3%Z].
Proof.
  exists toy, H264, (gop_i 1 ++ [nth 0 late_seis []] ++ gop_i 2 ++ [nth 1 late_seis []]), (gop_i 3 ++ gop_i 4 ++ [nth 3 late_seis []]).
  do 4 eexists. split; [vm_compute; reflexivity|]. split; [reflexivity|]. split; [reflexivity|]. split; [vm_compute; reflexivity|]. split; reflexivity.
Qed.

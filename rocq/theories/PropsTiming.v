(** C61: when signatures come and when SEIs are pulled does not change the SEIs. *)
From Verif Require Import Base Nalu Crypto Types CodecSpec SeiSpec Signer SignSpec RunProofs GopSpec GopProofs Toy
  PropsSigner PropsGop Late LateSpec TimingSpec TimingProofs.
Local Open Scope N_scope.

(** C61. Whenever the signatures come, and whenever and however the user asks for SEIs: the SEIs are, one by one,
    those of a session with the same settings and NALUs in which every signature is there at once and a SEI
    is asked for after each NALU. What the other theorems say about the SEIs of such a session (C18 to
    C22, and the recordings that are validated in C27, C49 to C56) holds for these SEIs, too. *)
Theorem C61_as_in_time C c coin setup polls before gs turns rs : crypto_ok C ->
  signs_anytime C c coin setup polls before gs turns rs -> w_rec (fold_left (ask C) setup defaults) = 1 ->
  exists rs', signs C c coin setup before gs rs' /\ returned rs' = returned rs.
Proof. exact (fun HC => anytime C HC c coin setup polls before gs turns rs). Qed.

(** C61. Two such sessions with the same settings and NALUs give the same SEIs, whatever the timing. *)
Theorem C61_same_seis C c coin setup polls1 polls2 before gs turns1 turns2 rs1 rs2 : crypto_ok C ->
  signs_anytime C c coin setup polls1 before gs turns1 rs1 -> signs_anytime C c coin setup polls2 before gs turns2 rs2 ->
  w_rec (fold_left (ask C) setup defaults) = 1 -> returned rs1 = returned rs2.
Proof. exact (fun HC => anytime_same C HC c coin setup polls1 polls2 before gs turns1 turns2 rs1 rs2). Qed.

(** Four GOPs after a parameter set. The first signature comes in the third GOP, where the SEI is first kept back
    because of the NALU that comes next; the others come at the end. *)
Definition anytime_setup : list sop := [OKey key1; OProduct [Some [65]; None; Some [66; 67]; None; None]; OMaxPayload 300].
Definition anytime_polls : list (poll * poll) := [(mkPoll 0 false, mkPoll 0 false); (mkPoll 3 true, mkPoll 0 false); (mkPoll 1 false, mkPoll 0 false)].
Definition anytime_gops : list (list piece) :=
  [[pcs (idr [1; 2]) (Some 5%Z) true; pcs (pic [3]) None false]; [pcs (idr [4]) (Some 6%Z) true];
   [pcs (idr [9]) (Some (-7)%Z) true; pcs (pic [8]) None false]; [pcs (idr [7]) None true]].
Definition tn (p : piece) (l : list (bool * list N * nat)) : turn :=
  mkTurn p (mkPoll 0 false, mkPoll 0 false) (map (fun '(w, k, n) => (w, k, (mkPoll n false, mkPoll 0 false))) l).
Definition anytime_turns : list turn :=
  match demo_before ++ concat anytime_gops with
  | [b; a1; a2; b1; c1; c2; d1] =>
      [tn b [(true, [], 2%nat)]; tn a1 []; tn a2 []; tn b1 [(true, [], 0%nat)];
       tn c1 [(false, [], 1%nat); (true, [0; 0; 0; 1; 0x67; 0x42; 0x80], 0%nat)]; tn c2 [(true, pic [5], 0%nat)]; tn d1 []]
  | _ => []
  end.
Definition anytime_results : list sres :=
  match run_late toy (combine anytime_setup anytime_polls ++ flat_map turn_ops anytime_turns ++ repeat pull_all 60) (create H264 0)
  with Def (_, rs) => rs | _ => [] end.

Example C61_case : signs_anytime toy H264 0 anytime_setup anytime_polls demo_before anytime_gops anytime_turns anytime_results /\
  w_rec (fold_left (ask toy) anytime_setup defaults) = 1 /\ length (returned anytime_results) = 3%nat /\
  map (fun r => (rs_size r, rs_pending r)) (firstn 18 anytime_results) =
    [(0, 0); (0, 0); (0, 0); (0, 0); (0, 0); (0, 0); (0, 0); (0, 0); (0, 1); (0, 0); (311, 2); (0, 2); (0, 0); (311, 1);
     (0, 0); (260, 1); (285, 0); (0, 0)].
Proof.
  split.
  - unfold signs_anytime. split; [reflexivity|]. split; [reflexivity|]. split; [repeat constructor|].
    split.
    { apply Forall_cons; [exact key1_ok|]. apply Forall_cons; [|apply Forall_cons; [exact I|apply Forall_nil]].
      split; [reflexivity|]. repeat constructor. }
    split; [repeat constructor|]. split; [apply Exists_cons_hd; exists key1; reflexivity|]. split.
    { unfold demo_before, anytime_gops. cbn [app concat].
      repeat (apply Forall_cons;
        [split; [cbn; (exact I || lia)|eexists; split; [vm_compute; reflexivity|]; split; [reflexivity|]; split; [reflexivity|];
          cbn [n_hashable pcs p_bytes]; try reflexivity; eexists; split; vm_compute; reflexivity]|]).
      apply Forall_nil. }
    split; [repeat constructor|]. split.
    { repeat (apply Forall_cons; [eexists _, _; split; [reflexivity|]; split; [reflexivity|]; split; [discriminate|];
        repeat (apply Forall_cons; [reflexivity|]); apply Forall_nil|]). apply Forall_nil. }
    split.
    + unfold anytime_results.
      destruct (run_late toy (combine anytime_setup anytime_polls ++ flat_map turn_ops anytime_turns ++ repeat pull_all 60) (create H264 0))
        as [[s rs]|u] eqn:E; [exists s; reflexivity|vm_compute in E; discriminate].
    + vm_compute. repeat constructor.
  - split; [reflexivity|]. split; [vm_compute; reflexivity|]. vm_compute. reflexivity.
Qed.

Print Assumptions C61_as_in_time.
Print Assumptions C61_same_seis.

(** C13, C14: NALUs added in parts, and adding a NALU again after it was refused. *)
From Verif Require Import Base Nalu Crypto Types Hash Tlv Signer SignSpec PartsSpec RunProofs PartsProofs RetryProofs Toy PropsSigner.
Local Open Scope N_scope.

(** C13. Full statement: replacing any NALU of a session by any parts it is cut into changes neither the
    answers nor the SEIs. [cut_ok] leaves out cuts with an empty part, a first part that ends within the
    start code or the header, a last part consisting of zeros only. *)
Theorem C13_parts_partial C c coin es s rs : crypto_ok C ->
  Forall (call_ok C c) es -> settled true (flat_map as_whole es) ->
  run C (flat_map as_whole es) (create c coin) = Def (s, rs) ->
  exists s' rs', run C (flat_map in_parts es) (create c coin) = Def (s', rs') /\
    same_answers es rs rs' /\ returned rs' = returned rs.
Proof. exact (fun HC => parts_session C HC c coin es s rs). Qed.

(** Two pictures are cut into three and two parts; the first cut is in the middle of a run of zeros. *)
Definition cut_demo : list call :=
  [Other (OKey key1); Other (OLevel LFrame); Nalu [[0; 0; 0; 1; 101; 128; 1; 0]; [0]; [0; 7; 128; 0; 0]] (Some 5%Z);
   Nalu [pic [3]] None; Nalu [[0; 0; 0; 1; 101; 128]; [4; 128]] None; Other (OGet true [])].
Example C13_case : Forall (call_ok toy H264) cut_demo /\ settled true (flat_map as_whole cut_demo) /\
  exists s rs, run toy (flat_map as_whole cut_demo) (create H264 0) = Def (s, rs) /\
    map (@length N) (returned rs) = [298]%nat /\ length (flat_map in_parts cut_demo) = 9%nat.
Proof.
  split; [|split].
  - unfold cut_demo. repeat (apply Forall_cons; [|]); [..|apply Forall_nil]; cbn [call_ok].
    + split; [exact key1_ok|exact I].
    + split; exact I.
    + split; [|cbn; lia]. cbn [cut_ok]. split; [eexists; vm_compute; reflexivity|].
      split; [repeat constructor; discriminate|]. split; [|reflexivity]. exists 7. split; [cbn; auto|discriminate].
    + split; exact I.
    + split; [|exact I]. cbn [cut_ok]. split; [eexists; vm_compute; reflexivity|].
      split; [repeat constructor; discriminate|]. split; [|reflexivity]. exists 4. split; [cbn; auto|discriminate].
    + split; exact I.
  - cbn. auto.
  - eexists _, _. split; [vm_compute; reflexivity|]. split; vm_compute; reflexivity.
Qed.

(** C13 fails for other cuts: with the trailing zeros of a NALU as a part of their own, the session
    reads outside that part, although the NALU as a whole is fine. *)
Theorem C13_any_cut_refuted : exists C c coin ops p q s rs, crypto_ok C /\ Forall (op_ok C) ops /\
  settled true ops /\ p <> [] /\ q <> [] /\
  run C (ops ++ [OAdd (p ++ q) None true]) (create c coin) = Def (s, rs) /\
  exists u, run C (ops ++ [OAdd p None false; OAdd q None true]) (create c coin) = Undef u.
Proof.
  exists toy, H264, 0, [OKey key1], (idr [1; 2]), [0; 0]. eexists _, _.
  split; [exact toy_ok|]. split; [ops_ok|]. split; [cbn; auto|]. split; [discriminate|]. split; [discriminate|].
  split; [vm_compute; reflexivity|]. eexists. vm_compute. reflexivity.
Qed.

(** C14. When signed_video_get_sei reports a SEI (without copying it out), the NALU or part added next is
    refused with SV_NOT_SUPPORTED, if the user has never peeked at the next NALU. *)
Theorem C14_refused C c coin pre d ts last s rs r r2 : crypto_ok C -> Forall (op_ok C) pre -> settled true pre ->
  Forall (fun o => ~ peeks o) pre -> d <> [] ->
  run C (pre ++ [OGet false []; OAdd d ts last]) (create c coin) = Def (s, rs ++ [r; r2]) ->
  0 < rs_size r -> rs_code r2 = SV_NOT_SUPPORTED.
Proof. exact (fun HC => session_refused C HC c coin pre d ts last s rs r r2). Qed.

(** C14. Full statement: pulling after a refusal and making the same call again has the effect of making
    the call only after pulling. Proved for NALUs added as a whole, refused because a SEI waits:
    the refused call only adds its own answer; all other answers and the state at the end are the same. *)
Theorem C14_retry_partial C c coin pre pulls rest d ts s rs1 r rs2 : crypto_ok C -> Forall (op_ok C) pre ->
  settled true pre -> Forall (fun o => ~ peeks o) pre -> finished true pre = true -> Forall is_pull pulls -> d <> [] ->
  run C (pre ++ [OGet false []] ++ pulls ++ OAdd d ts true :: rest) (create c coin) = Def (s, rs1 ++ r :: rs2) ->
  length rs1 = length pre -> 0 < rs_size r ->
  run C (pre ++ [OGet false []; OAdd d ts true] ++ pulls ++ OAdd d ts true :: rest) (create c coin) =
    Def (s, rs1 ++ r :: code SV_NOT_SUPPORTED :: rs2).
Proof. exact (fun HC => session_retry C HC c coin pre pulls rest d ts s rs1 r rs2). Qed.

Definition before : list sop :=
  [OKey key1; OLevel LFrame; OAdd (idr [1; 2]) (Some 5%Z) true; OAdd (pic [3]) None true; OAdd (idr [4]) None true].
Definition after : list sop := [OAdd (idr [6]) None true; OGet true []].
Example C14_case : Forall (op_ok toy) before /\ settled true before /\ Forall (fun o => ~ peeks o) before /\
  finished true before = true /\
  exists s rs1 r rs2,
    run toy (before ++ [OGet false []] ++ [OGet true []] ++ OAdd (pic [9]) None true :: after) (create H264 0) =
      Def (s, rs1 ++ r :: rs2) /\ length rs1 = 5%nat /\ rs_size r = 298 /\ map rs_code rs2 = repeat SV_OK 4.
Proof.
  split; [unfold before; ops_ok|]. split; [cbn; auto|]. split; [repeat constructor; intros []|]. split; [reflexivity|].
  destruct (run toy (before ++ [OGet false []] ++ [OGet true []] ++ OAdd (pic [9]) None true :: after) (create H264 0))
    as [[s rs]|] eqn:E; [|vm_compute in E; discriminate].
  exists s. assert (exists a1 a2 a3 a4 a5 a6 l, rs = [a1; a2; a3; a4; a5; a6] ++ l /\ rs_size a6 = 298 /\ map rs_code l = repeat SV_OK 4)
    as (a1 & a2 & a3 & a4 & a5 & a6 & l & -> & H).
  { vm_compute in E. injection E as _ <-. do 7 eexists. split; [cbn [app]; reflexivity|]. split; reflexivity. }
  exists [a1; a2; a3; a4; a5], a6, l. split; [reflexivity|]. split; [reflexivity|]. exact H.
Qed.

(** C14 fails for a NALU added in parts. The refused first part is added again after pulling, is then taken
    for a later part of the NALU and is answered with an error; had it only been added after the pull it
    would have been accepted. *)
Definition codes (x : out (signer * list sres)) : list svrc := match x with Def (_, rs) => map rs_code rs | _ => [] end.
Theorem C14_parts_refuted : exists C c coin pre p q, crypto_ok C /\ Forall (op_ok C) pre /\ settled true pre /\
  finished true pre = true /\
  codes (run C (pre ++ [OGet false []; OGet true []; OAdd p None false; OAdd q None true]) (create c coin)) =
    codes (run C pre (create c coin)) ++ [SV_OK; SV_OK; SV_OK; SV_OK] /\
  codes (run C (pre ++ [OGet false []; OAdd p None false; OGet true []; OAdd p None false; OAdd q None true]) (create c coin)) =
    codes (run C pre (create c coin)) ++ [SV_OK; SV_NOT_SUPPORTED; SV_OK; SV_EXTERNAL_ERROR; SV_EXTERNAL_ERROR].
Proof.
  exists toy, H264, 0, (before ++ [OAdd [0; 0; 0; 1; 65; 128; 3] None false; OAdd [8; 128] None true]),
    [0; 0; 0; 1; 65; 128; 3], [9; 128].
  split; [exact toy_ok|]. split; [unfold before; ops_ok|]. split; [cbn; auto|]. split; [reflexivity|].
  split; vm_compute; reflexivity.
Qed.

(** C14 fails as well when the refusal comes from the full buffer of 60 SEIs: the GOP hash is already
    finished when the call is refused, so that the repeated call is answered with an error. *)
Definition many : list sop := [OKey key1; OEpb false; OAddPub false] ++ repeat (OAdd (idr [1]) None true) 61.
Theorem C14_full_refuted : exists C c coin pre d, crypto_ok C /\ Forall (op_ok C) pre /\ settled true pre /\
  finished true pre = true /\
  codes (run C (pre ++ repeat (OGet true []) 60 ++ [OAdd d None true]) (create c coin)) =
    codes (run C pre (create c coin)) ++ repeat SV_OK 61 /\
  codes (run C (pre ++ [OAdd d None true] ++ repeat (OGet true []) 60 ++ [OAdd d None true]) (create c coin)) =
    codes (run C pre (create c coin)) ++ [SV_NOT_SUPPORTED] ++ repeat SV_OK 60 ++ [SV_EXTERNAL_ERROR].
Proof.
  exists zero_crypto, H264, 0, many, (idr [1]).
  split; [exact zero_crypto_ok|]. split; [|split; [vm_compute; auto|split; [reflexivity|]]].
  { unfold many. apply Forall_app. split; [apply Forall_cons; [split; [discriminate|exists [75; 65; 66; 67], 64%nat; reflexivity]|ops_ok]|]. apply Forall_forall. intros o Ho. apply repeat_spec in Ho. subst o. exact I. }
  split; vm_compute; reflexivity.
Qed.

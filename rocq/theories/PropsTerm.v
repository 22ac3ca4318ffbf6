(** C35: calls end. *)
From Verif Require Import Base BaseProofs Nalu Crypto Types Signer SignSpec Toy VTypes NaluList Validator ValidSpec VFrameProofs VTerm VToy.
Local Open Scope N_scope.

(** The number of NALUs that a list of calls adds. *)
Definition added (ops : list vop) : nat := length (filter (fun o => match o with VAdd _ _ => true | _ => false end) ops).

(** C35. With the arithmetic that detect_lost_sei has, be its overflow undefined or be it wrapping, no call of
    a session runs forever, whatever bytes it is given: the loop that validates GOPs never has more rounds
    than one more than the number of NALUs added since the session was created.
    Partial: with the arithmetic that detect_lost_sei is meant to have, the statement is false, see below. *)
Theorem C35_calls_end_partial C overflow fuel c ops :
  overflow <> OvfIdeal ->
  Forall (fun o => match o with VAdd d _ => Forall (fun b => b < 256) d | _ => True end) ops ->
  (1 + added ops < fuel)%nat ->
  vrun C overflow fuel (vcreate C c) ops <> Undef Diverges.
Proof. exact (fun HO HB HF => run_ends C overflow fuel c ops HO HB HF). Qed.

(** Signed video, and one lost SEI, with the number of rounds allowed as small as in the theorem. *)
Example C35_case :
  let ops := adds (gop_i 1 ++ [gsei 1] ++ gop_i 2 ++ gop_i 3 ++ [gsei 3] ++ gop_i 4) in
  Forall (fun o => match o with VAdd d _ => Forall (fun b => b < 256) d | _ => True end) ops /\
  added ops = 14%nat /\ exists r, vrun toy OvfWrap 16 (vcreate toy H264) ops = Def r.
Proof.
  cbv zeta. split.
  - apply Forall_forall. intros o H. unfold adds in H. apply in_map_iff in H as (d & <- & H). apply Forall_forall. intros b HB.
    assert (E : forallb (forallb (fun b => b <? 256)) (gop_i 1 ++ [gsei 1] ++ gop_i 2 ++ gop_i 3 ++ [gsei 3] ++ gop_i 4) = true) by (vm_compute; reflexivity).
    rewrite forallb_forall in E. specialize (E d H). rewrite forallb_forall in E. apply N.ltb_lt, E, HB.
  - split; [reflexivity|]. eexists. vm_compute. reflexivity.
Qed.

(** C35 in full is false. Two GOPs are lost with their SEIs. With the arithmetic that is meant in
    detect_lost_sei the call that adds the first picture of the next but one GOP never returns, however many
    rounds the loop is given. The rounds differ only in the reported number of received NALUs, which goes down
    by one each time; it is an int in C and an integer here. *)
Definition two_lost : list (list N) := gop_i 1 ++ [gsei 1] ++ gop_i 2 ++ [gsei 2] ++ gop_i 5 ++ [gsei 5].
Definition two_lost_end : valid * list vres := Eval vm_compute in
  match vrun toy OvfIdeal 2 (vcreate toy H264) (adds two_lost) with Def x => x | Undef _ => (vcreate toy H264, []) end.
Theorem C35_calls_end_refuted : exists C c ops d v res,
  (forall fuel, (2 <= fuel)%nat -> vrun C OvfIdeal fuel (vcreate C c) ops = Def (v, res)) /\
  (forall fuel, add_nalu C OvfIdeal fuel v d true = Undef Diverges).
Proof.
  exists toy, H264, (adds two_lost), (idr [6]), (fst two_lost_end), (snd two_lost_end). split.
  - intros fuel HF. refine (more_run toy OvfIdeal 2 fuel HF (adds two_lost) (vcreate toy H264) _ _). vm_compute. reflexivity.
  - pose (w := match before_loop toy (fst two_lost_end) (idr [6]) with Def (Some w) => w | _ => fst two_lost_end end).
    pose (x := match round toy OvfIdeal w with Def (Some w) => w | _ => fst two_lost_end end).
    apply (add_stuck toy OvfIdeal (fst two_lost_end) (idr [6]) w (l_recv (v_latest x)) x true); [vm_compute; reflexivity|vm_compute; reflexivity|].
    intros r. exists (r + -1)%Z. vm_compute. reflexivity.
Qed.

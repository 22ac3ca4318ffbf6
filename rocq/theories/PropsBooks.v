(** C31, C39, C42: the NALUs a validating session keeps, shows and counts. *)
From Verif Require Import Base Nalu Crypto Types Signer SignSpec Toy VTypes NaluList Validator ValidSpec BookProofs VToy.
Local Open Scope N_scope.

(** C42. In every session, whatever NALUs are added: a NALU waits from when it is added until a report
    shows it before the first pending one. Every report shows exactly the waiting NALUs, in the order
    they were added, so a NALU is never dropped unless a report gave it a result other than pending, and
    a NALU that got one before the first pending one does not show up again. *)
Theorem C42_removed_when_validated C Ov fuel c ops v res : Forall (asks c) ops ->
  vrun C Ov fuel (vcreate C c) ops = Def (v, res) -> books c [] ops res.
Proof. exact (session_books C Ov fuel c ops v res). Qed.

(** C39. validation_str and nalu_str of every report have the same length; a missing NALU in one is a
    space in the other, and a space is a missing NALU (or an error). *)
Theorem C39_strings_line_up C Ov fuel c ops v res : Forall (asks c) ops -> ~ In VLegacy res ->
  vrun C Ov fuel (vcreate C c) ops = Def (v, res) ->
  Forall (fun p => length (l_vstr (p_latest p)) = length (l_nstr (p_latest p)) /\
                   Forall2 aligned (l_vstr (p_latest p)) (l_nstr (p_latest p))) (reports ops res).
Proof. exact (fun HA HL HR => books_lengths c ops [] res HL (session_books C Ov fuel c ops v res HA HR)). Qed.

(** A stream in which a picture of the second GOP was lost, signed on frame level. *)
Definition lossy : list (list N) :=
  gop_i 1 ++ [idr [2]; fsei 1; pic [2; 1]; idr [3]; fsei 2; pic [3; 1]].
Lemma lossy_asks : Forall (asks H264) (adds lossy).
Proof.
  unfold lossy, gop_i, adds. cbn [app map].
  repeat (apply Forall_cons; [split; [reflexivity|intros n E; vm_compute in E; injection E as <-; reflexivity]|]). apply Forall_nil.
Qed.
(** The reports of that stream: PPPP IPPI, then ...P. IPPIS, then ...MP. ISP IS. *)
Example C42_case : says (vrun toy OvfUndef 9 (vcreate toy H264) (adds lossy)) =
  [None; None; None; Some (NotSigned, NotSigned, [80; 80; 80; 80], [73; 80; 80; 73]);
   Some (AuthOk, AuthOk, [46; 46; 46; 80; 46], [73; 80; 80; 73; 83]); None; None;
   Some (OkMissing, OkMissing, [46; 46; 46; 77; 80; 46], [73; 83; 80; 32; 73; 83]); None].
Proof. vm_compute. reflexivity. Qed.

(** C31. As long as every report of a session finds the video signed and shows no missing NALU, the
    number of received NALUs is the number of validated plus pending ones, as unsigned int. Partial: not
    when a report said that the video is not signed, and not when NALUs are missing (C31_counted_partial). *)
Theorem C31_received_partial C Ov fuel c ops v res : Forall (asks c) ops -> ~ In VLegacy res ->
  vrun C Ov fuel (vcreate C c) ops = Def (v, res) ->
  Forall nothing_missing (reports ops res) -> Forall balanced (reports ops res).
Proof. exact (session_sums C Ov fuel c ops v res). Qed.

(** C31. The same with missing NALUs: as long as every report of a session finds the video signed and shows no missing NALU as
    an error, the number of received NALUs and of missing NALUs shown from the first pending one on is the number of
    validated plus pending ones. So a missing NALU counts as pending as long as a NALU before it is pending, and after that not at
    all; it never counts as received or validated. Partial: not when a report said that the video is not signed. *)
Theorem C31_counted_partial C Ov fuel c ops v res : Forall (asks c) ops -> ~ In VLegacy res ->
  vrun C Ov fuel (vcreate C c) ops = Def (v, res) ->
  Forall settled (reports ops res) -> Forall counted (reports ops res).
Proof. exact (session_counted C Ov fuel c ops v res). Qed.

Definition reports_of (ops : list vop) (x : out (valid * list vres)) : list report :=
  match x with Def (_, rs) => reports ops rs | _ => [] end.
Definition balance (p : report) : N * N * N := (a_recv (p_acc p), a_val (p_acc p), a_pend (p_acc p)).
(** A stream that starts with the SEI right after the first GOP: four NALUs, then four validated and none
    pending; later nine, seven of them validated, and the first NALU of the next GOP and the SEI behind it
    counted as pending. *)
Definition plain_ops : list vop := adds (gop_i 1 ++ [gsei 1; idr [2]; pic [2; 1]; pic [2; 2]; idr [3]; gsei 2]).
Example C31_case : map balance (reports_of plain_ops (vrun toy OvfUndef 9 (vcreate toy H264) plain_ops)) = [(4, 4, 0); (9, 7, 2)].
Proof. vm_compute. reflexivity. Qed.

(** A picture of the second GOP is lost: OK, OK_WITH_MISSING_INFO with .M.. shown, OK. Seven received, seven validated. *)
Definition gappy_ops : list vop := adds (gop_i 1 ++ [fsei 1; idr [2]; pic [2; 2]; fsei 2] ++ gop_i 3 ++ [fsei 3]).
Example C31_gap_case : Forall (asks H264) gappy_ops /\
  map balance (reports_of gappy_ops (vrun toy OvfUndef 9 (vcreate toy H264) gappy_ops)) = [(4, 4, 0); (7, 7, 0); (11, 11, 0)] /\
  map (fun p => l_vstr (p_latest p)) (reports_of gappy_ops (vrun toy OvfUndef 9 (vcreate toy H264) gappy_ops)) = [[46; 46; 46; 46]; [46; 77; 46; 46]; [46; 46; 46; 46]] /\
  Forall settled (reports_of gappy_ops (vrun toy OvfUndef 9 (vcreate toy H264) gappy_ops)).
Proof.
  split; [unfold gappy_ops, gop_i, adds; cbn [app map]; repeat (apply Forall_cons; [split; [reflexivity|intros n E; vm_compute in E; injection E as <-; reflexivity]|]); apply Forall_nil|].
  split; [vm_compute; reflexivity|]. split; [vm_compute; reflexivity|].
  remember (reports_of _ _) as l eqn:E. vm_compute in E. rewrite E. clear E.
  repeat (apply Forall_cons; [split; [discriminate|cbn; intuition congruence]|]). apply Forall_nil.
Qed.

(** C31 in full is false. First: a report that finds the video not signed drops the NALUs in front that
    need no validation, here an access unit delimiter, without counting them. The second report then says
    6 received, 3 validated, 2 pending. Second: missing NALUs behind a pending one are counted as
    pending. Here 3 NALUs are received and 4 are pending. *)
Definition aud_ops : list vop := adds ([0; 0; 0; 1; 9; 0x10; 0x80] :: gop_i 1 ++ [idr [2]; gsei 1]).
Definition swapped_ops : list vop := adds [idr [7; 7]; pic [1; 2]; fsei 1].
Theorem C31_received_refuted :
  (exists C fuel ops v res, Forall (asks H264) ops /\ ~ In VLegacy res /\
     vrun C OvfUndef fuel (vcreate C H264) ops = Def (v, res) /\
     (forall p, In p (reports ops res) -> ~ In 32 (l_nstr (p_latest p))) /\ ~ Forall balanced (reports ops res)) /\
  (exists C fuel ops v res, Forall (asks H264) ops /\ ~ In VLegacy res /\
     vrun C OvfUndef fuel (vcreate C H264) ops = Def (v, res) /\
     Forall (fun p => a_auth (p_acc p) <> NotSigned) (reports ops res) /\ ~ Forall balanced (reports ops res)).
Proof.
  split.
  - destruct (vrun toy OvfUndef 9 (vcreate toy H264) aud_ops) as [[v res]|u] eqn:E; [|vm_compute in E; discriminate].
    exists toy, 9%nat, aud_ops, v, res. vm_compute in E. injection E as <- <-.
    split; [unfold aud_ops, gop_i, adds; cbn [app map]; repeat (apply Forall_cons;
      [split; [reflexivity|intros n E; vm_compute in E; injection E as <-; reflexivity]|]); apply Forall_nil|].
    split; [cbn; intuition congruence|]. split; [vm_compute; reflexivity|]. split.
    + intros p [<-|[<-|[]]]; cbn; intuition congruence.
    + intros H. inversion_clear H as [|a b _ H1]. inversion_clear H1 as [|a b H2 _]. vm_compute in H2. discriminate.
  - destruct (vrun toy OvfUndef 9 (vcreate toy H264) swapped_ops) as [[v res]|u] eqn:E; [|vm_compute in E; discriminate].
    exists toy, 9%nat, swapped_ops, v, res. vm_compute in E. injection E as <- <-.
    split; [unfold swapped_ops, gop_i, adds; cbn [app map]; repeat (apply Forall_cons;
      [split; [reflexivity|intros n E; vm_compute in E; injection E as <-; reflexivity]|]); apply Forall_nil|].
    split; [cbn; intuition congruence|]. split; [vm_compute; reflexivity|]. split.
    + apply Forall_cons; [discriminate|apply Forall_nil].
    + intros H. inversion_clear H as [|a b H2 _]. vm_compute in H2. discriminate.
Qed.

(** C29: matching received NALUs with a list of signed hashes. *)
From Verif Require Import Base BaseProofs Nalu Crypto Types Signer SignSpec Toy VTypes NaluList Validator ValidSpec MatchSpec MatchProofs VTerm VToy.
Local Open Scope N_scope.

(** C29. The NALUs of a GOP are collected ([prepare], [update_link]) and the comparison with the list of hashes [E]
    of the SEI ends in [v3]. Then:
    - every NALU compared is now authentic or not authentic, the SEI may have become authentic, nothing else changed
      but that items for missing NALUs were put in;
    - a NALU is authentic exactly if its hash comes after those of the authentic NALUs before it, in the order of the
      signed list;
    - the missing NALUs and the authentic ones are not more than the hashes in the list. They are exactly as many if
      all NALUs are authentic. If none is, the missing and the not authentic ones are at least as many.
    Partial: the missing and the authentic NALUs need not be as many as the hashes, see below. *)
Theorem C29_hash_list_partial C overflow v0 v1 v2 v3 ok expected received E rest :
  Forall (fun it => i_used it = false) (v_items v0) ->
  prepare C overflow v0 = Def (v1, SV_OK) -> update_link v1 = Def v2 -> next_sei (v_items v2) <> None ->
  d_list (v_dec v2) = concat E ++ rest -> Forall (fun e => length e = vhs v2) E -> (length rest < vhs v2)%nat ->
  verify_list v2 true = Def (v3, ok, expected, received) ->
  let l := v_items v3 in let h := own_hash (vhs v2) in
  let authentic := length (filter is_valid (cmp l)) in let wrong := length (filter is_invalid (cmp l)) in
  let missing := fresh l in
  Forall2 verdict_of (v_items v2) (kept l) /\
  (forall u x w, cmp l = u ++ x :: w -> is_valid x = true <-> subseq (map h (filter is_valid u) ++ [h x]) E) /\
  length (cmp l) = (authentic + wrong)%nat /\
  (missing + authentic <= length E)%nat /\
  (wrong = 0 -> missing + authentic = length E)%nat /\
  (authentic = 0 -> missing + wrong >= length E)%nat /\
  ok = true /\ expected = Z.of_nat (length E) /\ received = Z.of_nat (length (cmp l)).
Proof. exact (match_thm C overflow v0 v1 v2 v3 ok expected received E rest). Qed.

(** If the link to the GOP before is broken, the only difference is that the first NALU found authentic is taken as not
    authentic. *)
Theorem C29_broken_link C overflow v0 v1 v2 v3 ok expected received :
  Forall (fun it => i_used it = false) (v_items v0) ->
  prepare C overflow v0 = Def (v1, SV_OK) -> update_link v1 = Def v2 -> next_sei (v_items v2) <> None ->
  verify_list v2 true = Def (v3, ok, expected, received) ->
  verify_list v2 false = Def (set_v_items (spoil (v_items v3)) v3, ok, expected, received).
Proof. exact (spoil_thm C overflow v0 v1 v2 v3 ok expected received). Qed.

(** A session just before it validates the GOP that ends with the SEI [s]. *)
Definition at_sei (l : list (list N)) (s : list N) : option valid :=
  match vrun toy OvfUndef 4 (vcreate toy H264) (adds l) with
  | Def (v, _) => match before_loop toy v s with Def (Some w) => Some (fst (has_pending w)) | _ => None end
  | Undef _ => None
  end.
Definition compared (l : list (list N)) (s : list N) (order : bool) : option (valid * valid * valid * valid * Z * Z) :=
  match at_sei l s with
  | Some v0 =>
      match prepare toy OvfUndef v0 with
      | Def (v1, SV_OK) =>
          match update_link v1 with
          | Def v2 => match verify_list v2 order with Def (v3, true, e, r) => Some (v0, v1, v2, v3, e, r) | _ => None end
          | _ => None
          end
      | _ => None
      end
  | None => None
  end.
Definition marks (l : list item) : list vstat := map i_status l.

(** A NALU of the second GOP is lost and one is put in: the hypotheses are met, the first NALU of the GOP and the last one
    are authentic, the one put in is not. There are three hashes in the list. *)
Definition lost_and_added : list (list N) := gop_i 1 ++ [fsei 1] ++ [idr [2]; pic [7; 7]; pic [2; 2]].
Definition lost_and_added_run : valid * valid * valid * valid := Eval vm_compute in
  match compared lost_and_added (fsei 2) true with Some (v0, v1, v2, v3, _, _) => (v0, v1, v2, v3) | None => let v := vcreate toy H264 in (v, v, v, v) end.
Definition lost_and_added_run_hashes : list (list N) := Eval vm_compute in expected_hashes (snd (fst lost_and_added_run)).
Example C29_case : exists v0 v1 v2 v3 E rest,
  Forall (fun it => i_used it = false) (v_items v0) /\
  prepare toy OvfUndef v0 = Def (v1, SV_OK) /\ update_link v1 = Def v2 /\ next_sei (v_items v2) <> None /\
  d_list (v_dec v2) = concat E ++ rest /\ Forall (fun e => length e = vhs v2) E /\ (length rest < vhs v2)%nat /\
  length E = 3%nat /\ verify_list v2 true = Def (v3, true, 3%Z, 3%Z) /\
  marks (v_items v3) = [SValid; SInvalid; SValid; SValid] /\ length (cmp (v_items v3)) = 3%nat.
Proof.
  exists (fst (fst (fst lost_and_added_run))), (snd (fst (fst lost_and_added_run))), (snd (fst lost_and_added_run)), (snd lost_and_added_run), lost_and_added_run_hashes, [].
  split; [repeat constructor|]. split; [vm_compute; reflexivity|]. split; [vm_compute; reflexivity|]. split; [vm_compute; discriminate|]. split; [vm_compute; reflexivity|].
  split; [unfold lost_and_added_run_hashes; repeat (apply Forall_cons; [vm_compute; reflexivity|]); apply Forall_nil|].
  split; [apply Nat.ltb_lt; vm_compute; reflexivity|]. split; [reflexivity|]. split; [vm_compute; reflexivity|]. split; vm_compute; reflexivity.
Qed.
(** The second NALU of the second GOP is lost: one item for it is put in. *)
Example C29_case_lost : match compared (gop_i 1 ++ [fsei 1] ++ [idr [2]; pic [2; 2]]) (fsei 2) true with
  | Some (_, _, _, v3, e, r) => marks (v_items v3) = [SValid; SMiss; SValid; SValid] /\ e = 3%Z /\ r = 2%Z
  | None => False
  end.
Proof. vm_compute. auto. Qed.
(** With a broken link the first NALU is not authentic. *)
Example C29_case_broken : match compared (gop_i 1 ++ [fsei 1] ++ [idr [2]; pic [2; 2]]) (fsei 2) false with
  | Some (_, _, _, v3, e, r) => marks (v_items v3) = [SInvalid; SMiss; SValid; SValid] /\ e = 3%Z /\ r = 2%Z
  | None => False
  end.
Proof. vm_compute. auto. Qed.

Definition modified_run : valid * valid * valid * valid := Eval vm_compute in
  match compared (gop_i 1 ++ [fsei 1] ++ [idr [2]; pic [2; 1]; pic [2; 9]]) (fsei 2) true with Some (v0, v1, v2, v3, _, _) => (v0, v1, v2, v3) | None => let v := vcreate toy H264 in (v, v, v, v) end.
Definition modified_run_hashes : list (list N) := Eval vm_compute in expected_hashes (snd (fst modified_run)).
(** C29 in full is false: a modified last NALU is found not authentic, but the NALU it stands in for is not reported missing.
    The missing and the authentic NALUs are two, the list has three hashes. *)
Theorem C29_missing_count_refuted : exists C overflow v0 v1 v2 v3 E rest,
  Forall (fun it => i_used it = false) (v_items v0) /\
  prepare C overflow v0 = Def (v1, SV_OK) /\ update_link v1 = Def v2 /\ next_sei (v_items v2) <> None /\
  d_list (v_dec v2) = concat E ++ rest /\ Forall (fun e => length e = vhs v2) E /\ (length rest < vhs v2)%nat /\
  verify_list v2 true = Def (v3, true, 3%Z, 3%Z) /\
  (fresh (v_items v3) + length (filter is_valid (cmp (v_items v3))) < length E)%nat.
Proof.
  exists toy, OvfUndef.
  exists (fst (fst (fst modified_run))), (snd (fst (fst modified_run))), (snd (fst modified_run)), (snd modified_run), modified_run_hashes, [].
  split; [repeat constructor|]. split; [vm_compute; reflexivity|]. split; [vm_compute; reflexivity|]. split; [vm_compute; discriminate|]. split; [vm_compute; reflexivity|].
  split; [unfold modified_run_hashes; repeat (apply Forall_cons; [vm_compute; reflexivity|]); apply Forall_nil|].
  split; [apply Nat.ltb_lt; vm_compute; reflexivity|]. split; [vm_compute; reflexivity|]. apply Nat.ltb_lt. vm_compute. reflexivity.
Qed.

(** A recording in the format of older versions, used in examples and counterexamples only. *)
From Verif Require Import Base BaseProofs Nalu Crypto Types CodecSpec CodecProofs SeiSpec Signer SignSpec GopSpec Toy PropsSigner PropsGop
  VTypes NaluList Validator E2eSpec PropsE2e LegacyTypes Legacy LegacySpec.
Local Open Scope N_scope.

Definition old_w (frame : bool) (oid : list N) : settings :=
  mkSettings (75 :: key1) 65 [[65]; []; []; []; []] true frame 1 true false 0 oid.
(** The signature of the toy library, whose size does not depend on what is signed. *)
Definition old_signature (w : settings) (k : N) (xs : list (list N)) : list N :=
  let fs := old_fields toy w k xs None in
  let d := old_part H264 (w_epb w) fs (old_sig w (repeat 1 (S (oid_size toy (w_oid w))))) in
  match c_sign toy key1 0 (old_digest toy w xs d) with Some sig => sig | None => [] end.
Definition old_make (w : settings) (k : N) (xs : list (list N)) : list N :=
  old_sei H264 (w_epb w) (old_fields toy w k xs None ++ [old_sig w (old_signature w k xs)]).

Definition o_i1 := idr [1; 2]. Definition o_p1 := pic [3]. Definition o_p2 := pic [7].
Definition o_i2 := idr [4]. Definition o_p3 := pic [8]. Definition o_p4 := pic [11].
Definition o_i3 := idr [9]. Definition o_p5 := pic [12]. Definition o_p6 := pic [13]. Definition o_i4 := idr [10].
Definition o_bytes : list (list N) -> list (list N) := map (skipn 4).
Definition o_g0 := o_bytes [o_i1].
Definition o_g1 := o_bytes [o_i1; o_p1; o_p2; o_i2].
Definition o_g2 := o_bytes [o_i2; o_p3; o_p4; o_i3].
Definition o_g3 := o_bytes [o_i3; o_p5; o_p6; o_i4].
Definition o_s1 w := old_make w 1 o_g0.
Definition o_s2 w := old_make w 2 o_g1.
Definition o_s3 w := old_make w 3 o_g2.
Definition o_s4 w := old_make w 4 o_g3.
Definition o_all (w : settings) : list arrival :=
  [Sei (o_s1 w) o_g0 []; Pic (pcs o_i1 None true); Pic (pcs o_p1 None false); Pic (pcs o_p2 None false);
   Sei (o_s2 w) o_g1 []; Pic (pcs o_i2 None true); Pic (pcs o_p3 None false); Pic (pcs o_p4 None false);
   Sei (o_s3 w) o_g2 []; Pic (pcs o_i3 None true); Pic (pcs o_p5 None false); Pic (pcs o_p6 None false);
   Sei (o_s4 w) o_g3 []; Pic (pcs o_i4 None true)].

(** It is such a recording, with or without lists, with a digest of 32 or 64 bytes. *)
Lemma bytes_small l : forallb (fun b => b <? 256) l = true -> bytes_ok l.
Proof. intros E. apply Forall_forall. rewrite forallb_forall in E. intros b Hb. apply N.ltb_lt, E, Hb. Qed.
Lemma old_make_for w k xs : let fs := old_fields toy w k xs None in let sig := old_signature w k xs in
  ((0 <? length sig) && (length sig <=? w_max_sig w))%nat = true -> forallb (fun b => b <? 256) sig = true ->
  (nlen (old_list toy w xs) <=? 19200) = true ->
  (nlen (esc 0 (wires fs)) <? nlen (wires fs) + 8 + N.of_nat (w_max_sig w)) = true ->
  c_verify toy (w_pub w) sig (old_digest toy w xs (old_part H264 (w_epb w) fs (old_sig w sig))) = 1%Z ->
  old_sei_for toy H264 w k xs (old_make w k xs).
Proof.
  intros fs sig H1 H2 H3 H4 H5. exists sig, None. apply andb_prop in H1 as [A B]. apply Nat.ltb_lt in A. apply Nat.leb_le in B.
  split; [split; assumption|]. split; [apply bytes_small, H2|]. split; [exact I|]. split; [intros _; apply N.leb_le, H3|].
  split; [intros _; apply N.ltb_lt, H4|]. split; [reflexivity|exact H5].
Qed.
Ltac seen_tac := repeat (apply Forall_cons;
      [split; [cbn; (exact I || lia)|eexists; split; [vm_compute; reflexivity|]; split; [reflexivity|]; split; [reflexivity|];
        cbn [n_hashable pcs p_bytes]; try reflexivity; eexists; split; vm_compute; reflexivity]|]); apply Forall_nil.
Lemma toy_gop w k k2 xs p r x xs2 l l2 : k2 = k + 1 -> xs2 = xs ++ [x] -> l2 = map Pic (p :: r) ++ l ->
  Forall (seen H264) (p :: r) -> Forall (legal H264) (p :: r) -> p_first p = true -> p_bytes p = Some x ->
  Forall (fun q => p_first q = false) r -> old_sei_for toy H264 w k xs2 (old_make w k xs2) ->
  old_stream toy H264 w k2 (x :: hashed r) l -> old_stream toy H264 w k xs (Sei (old_make w k xs2) xs2 [] :: l2).
Proof. intros -> -> -> H1 H2 H3 H4 H5 H6 H7. exact (old_gop toy H264 w k xs _ [] p x r l H1 H2 (Forall_nil _) H3 H4 H5 H6 H7). Qed.
Tactic Notation "old_step" uconstr(t) hyp(HO) hyp(frame) := refine t; [reflexivity|reflexivity|reflexivity|seen_tac|legal_tac|reflexivity|reflexivity
  |repeat (apply Forall_cons; [reflexivity|]); apply Forall_nil
  |apply old_make_for; destruct HO as [->| ->]; destruct frame; vm_compute; reflexivity|].
Lemma o_all_stream frame oid : oid = sha256_der \/ oid = toy_der -> old_stream toy H264 (old_w frame oid) 1 [] (o_all (old_w frame oid)).
Proof.
  intros HO. unfold o_all, o_s1, o_s2, o_s3, o_s4.
  old_step (toy_gop _ 1 2 [] (pcs o_i1 None true) [pcs o_p1 None false; pcs o_p2 None false] _ _ _ _ _ _ _ _ _ _ _ _ _ _) HO frame.
  old_step (toy_gop _ 2 3 (o_bytes [o_i1; o_p1; o_p2]) (pcs o_i2 None true) [pcs o_p3 None false; pcs o_p4 None false] _ _ _ _ _ _ _ _ _ _ _ _ _ _) HO frame.
  old_step (toy_gop _ 3 4 (o_bytes [o_i2; o_p3; o_p4]) (pcs o_i3 None true) [pcs o_p5 None false; pcs o_p6 None false] _ _ _ _ _ _ _ _ _ _ _ _ _ _) HO frame.
  old_step (toy_gop _ 4 5 (o_bytes [o_i3; o_p5; o_p6]) (pcs o_i4 None true) [] _ _ _ _ _ _ _ _ _ _ _ _ _ _) HO frame.
  apply old_end.
Qed.

(** C18 to C22: what the SEIs of a stream say. *)
From Verif Require Import Base Nalu Crypto Types Tlv CodecSpec SeiSpec Signer SignSpec RunProofs GopSpec GopProofs Toy
  PropsSigner.
Local Open Scope N_scope.

(** A stream of three GOPs after a parameter set, with product information, a limit on the payload and a
    recurrence of 3, used in the examples. *)
Definition pcs (d : list N) (ts : option Z) (first : bool) : piece := mkPiece d ts (Some (skipn 4 d)) first true.
Definition demo_setup : list sop :=
  [OKey key1; OProduct [Some [65]; None; Some [66; 67]; None; None]; OMaxPayload 300; ORecurrence 3].
Definition demo_before : list piece := [mkPiece [0; 0; 0; 1; 0x67; 0x42; 0x80] None None false false].
Definition demo_gops : list (list piece) :=
  [[pcs (idr [1; 2]) (Some 5%Z) true; pcs (pic [3]) None false];
   [pcs (idr [4]) (Some 6%Z) true; pcs (pic [0; 0; 1]) None false; pcs (pic [0; 7]) None false; pcs (pic [8]) None false];
   [pcs (idr [9]) (Some (-7)%Z) true]].
Definition demo_settings : settings := fold_left (ask toy) demo_setup defaults.
Definition results_of (x : out (signer * list sres)) : list sres := match x with Def (_, rs) => rs | _ => [] end.
Definition demo_results : list sres :=
  results_of (run toy (demo_setup ++ flat_map feed (demo_before ++ concat demo_gops)) (create H264 0)).

Lemma demo_signs : signs toy H264 0 demo_setup demo_before demo_gops demo_results.
Proof.
  split; [|split; [|split; [|split; [|split; [|split; [|split]]]]]].
  - apply Forall_cons; [exact key1_ok|]. apply Forall_cons.
    + split; [reflexivity|]. repeat constructor.
    + repeat (apply Forall_cons; [exact I|]). apply Forall_nil.
  - repeat constructor.
  - apply Exists_cons_hd. exists key1. reflexivity.
  - unfold demo_before, demo_gops. cbn [app concat].
    repeat (apply Forall_cons;
      [split; [cbn; (exact I || lia)|eexists; split; [vm_compute; reflexivity|]; split; [reflexivity|]; split; [reflexivity|];
        cbn [n_hashable pcs p_bytes]; try reflexivity; eexists; split; vm_compute; reflexivity]|]).
    apply Forall_nil.
  - repeat constructor.
  - repeat (apply Forall_cons; [eexists _, _; split; [reflexivity|]; split; [reflexivity|]; split; [discriminate|];
      repeat (apply Forall_cons; [reflexivity|]); apply Forall_nil|]). apply Forall_nil.
  - unfold demo_results.
    destruct (run toy (demo_setup ++ flat_map feed (demo_before ++ concat demo_gops)) (create H264 0)) as [[s rs]|u] eqn:E.
    + exists s. reflexivity.
    + vm_compute in E. discriminate.
  - apply Forall_forall. intros r Hr.
    assert (HF : forallb (fun r => svrc_eqb (rs_code r) SV_OK) demo_results = true) by (vm_compute; reflexivity).
    rewrite forallb_forall in HF. specialize (HF r Hr). clear Hr. destruct (rs_code r); discriminate HF || reflexivity.
Qed.

(** C18. The SEI of every GOP of a session consists of exactly the fields that [gop_fields] asks for,
    and a signature: the counter, the number of hashed NALUs, the hash of the GOP, the list of hashes. *)
Theorem C18_sei_describes_gop C c coin setup before gs rs : crypto_ok C -> signs C c coin setup before gs rs ->
  let w := fold_left (ask C) setup defaults in
  length (returned rs) = (length gs - 1)%nat /\
  forall i, (S i < length gs)%nat -> exists fs sig,
    ith_sei c w rs i (fs ++ [(5, sig_value (w_max_sig w) sig)]) /\ sig <> [] /\ (length sig <= w_max_sig w)%nat /\
    fs = gop_fields C w (1 + N.of_nat i)
      (due (w_rec w) (match i with O => 0 | S _ => pictures_to before gs i end) (pictures_to before gs (S i)))
      (match i with O => None | S j => hd_error (hashed (nth j gs [])) end) (hashed (nth i gs []))
      (match nth (S i) gs [] with nx :: _ => p_ts nx | [] => None end).
Proof. exact (fun HC => session_ith C HC c coin setup before gs rs). Qed.

(** The two SEIs of the example: with and without the recurrent fields (the frames 0 and 3 make them
    due, so both have them), with a hash list for two NALUs and without one for four, which would exceed
    the limit of 300 bytes. *)
Example C18_case : map (@length N) (returned demo_results) = [311; 224]%nat /\
  map (map fst) (gops_fields toy demo_settings 1 0 0 None demo_gops) = [[2; 3; 7; 1; 4]; [2; 3; 7; 1]].
Proof. vm_compute. auto. Qed.

(** C19. In the SEI of GOP [i] the hash in front of the hash of the GOP is that of the first NALU of
    GOP [i - 1], and zeros for the first GOP. *)
Theorem C19_linked_hash C c coin setup before gs rs : crypto_ok C -> signs C c coin setup before gs rs ->
  let w := fold_left (ask C) setup defaults in
  forall i, (S i < length gs)%nat -> exists fs info linked gop_hash,
    ith_sei c w rs i fs /\ In (1, info ++ linked ++ gop_hash) fs /\
    linked = (match i with
              | O => zeros (oid_size C (w_oid w))
              | S j => c_hash C (w_oid w) (hd [] (hashed (nth j gs [])))
              end) /\
    gop_hash = c_hash C (w_oid w) (concat (hashes (c_hash C (w_oid w)) (hashed (nth i gs [])))) /\
    length linked = oid_size C (w_oid w) /\ length gop_hash = oid_size C (w_oid w) /\
    (0 < oid_size C (w_oid w))%nat.
Proof. exact (fun HC => session_linked C HC c coin setup before gs rs). Qed.

Example C19_case : let x := nth 1 (returned demo_results) [] in
  let h1 := c_hash toy sha256_der (skipn 4 (idr [1; 2])) in
  existsb (fun i => bytes_eqb (firstn 32 (skipn i x)) h1) (seq 0 224) = true.
Proof. vm_compute. reflexivity. Qed.

(** C20. A SEI has either the complete list of the hashes of its GOP, not longer than 19200 bytes, or no
    list; a list that would be longer is not sent, and at GOP level none is. The list of n NALUs takes n
    times the size of a hash. *)
Theorem C20_hash_list C c coin setup before gs rs : crypto_ok C -> signs C c coin setup before gs rs ->
  let w := fold_left (ask C) setup defaults in
  forall i, (S i < length gs)%nat -> exists fs,
    ith_sei c w rs i fs /\
    let l := concat (hashes (c_hash C (w_oid w)) (hashed (nth i gs []))) in
    nlen l = N.of_nat (oid_size C (w_oid w)) * nlen (hashed (nth i gs [])) /\
    (forall v, In (4, v) fs -> v = 1 :: l /\ nlen l <= 19200 /\ w_frame w = true) /\
    (w_max w = 0 -> w_frame w = true -> nlen l <= 19200 -> In (4, 1 :: l) fs).
Proof. exact (fun HC => session_list C HC c coin setup before gs rs). Qed.

(** With hashes of 64 bytes, 300 NALUs have a list and 301 do not. *)
Example C20_case : forall n, let w := fold_left (ask toy) [OKey key1; OHashAlgo (Some toy_name)] defaults in
  (exists s rs, run toy [OKey key1; OHashAlgo (Some toy_name)] (create H264 0) = Def (s, rs) /\
    Forall (fun r => rs_code r = SV_OK) rs) /\
  map fst (list_field toy w [] (repeat [1] n)) = if (n <=? 300)%nat then [4] else [].
Proof.
  intros n w. split; [eexists _, _; split; [vm_compute; reflexivity|repeat constructor]|].
  unfold list_field. rewrite (hashes_size toy toy_ok w 64) by (vm_compute; reflexivity).
  change (N.of_nat (oid_size toy (w_oid w))) with 64. change (w_frame w) with true. change (w_max w) with 0.
  cbn [andb]. cbv zeta. change (0 =? 0) with true. cbn [orb]. rewrite andb_true_r. unfold nlen. rewrite repeat_length.
  destruct (Nat.leb_spec n 300), (N.leb_spec (64 * N.of_nat n) 19200); reflexivity || lia.
Qed.

(** C21. With a limit on the payload of a SEI: a SEI with a list stays within it, and the list is left
    out only if it is not asked for, too long, or would exceed the limit. Without a list the limit
    can be exceeded. *)
Theorem C21_max_payload C c coin setup before gs rs : crypto_ok C -> signs C c coin setup before gs rs ->
  let w := fold_left (ask C) setup defaults in w_max w <> 0 ->
  forall i, (S i < length gs)%nat -> exists fs others sig,
    let l := concat (hashes (c_hash C (w_oid w)) (hashed (nth i gs []))) in
    ith_sei c w rs i fs /\
    (fs = others ++ [(4, 1 :: l); (5, sig)] \/ fs = others ++ [(5, sig)]) /\
    Forall (fun f => fst f <> 4) others /\
    (In (4, 1 :: l) fs <->
       w_frame w = true /\ nlen l <= 19200 /\ 17 + nlen (wires (others ++ [(4, 1 :: l); (5, sig)])) <= w_max w).
Proof. exact (fun HC => session_max C HC c coin setup before gs rs). Qed.

Example C21_case : w_max demo_settings = 300 /\ w_frame demo_settings = true /\ length demo_gops = 3%nat.
Proof. vm_compute. auto. Qed.

(** C22. The public key (if asked for), the product information and the hash algorithm are in a SEI if
    and only if no golden SEI is used and one of the pictures since the previous SEI, up to the one that
    starts the next GOP, has a number (counted from 0) that is a multiple of the recurrence. *)
Theorem C22_recurrence C c coin setup before gs rs : crypto_ok C -> signs C c coin setup before gs rs ->
  let w := fold_left (ask C) setup defaults in
  forall i, (S i < length gs)%nat -> exists fs,
    ith_sei c w rs i fs /\
    ((exists m, (match i with O => 0 | S _ => pictures_to before gs i end) <= m * w_rec w < pictures_to before gs (S i)) /\
     w_using w = false <-> In (7, [1; nlen (w_oid w)] ++ w_oid w) fs) /\
    (forall v, In (7, v) fs <-> In (3, 1 :: flat_map prod_string (w_prod w)) fs /\ v = [1; nlen (w_oid w)] ++ w_oid w) /\
    (w_add_pub w = true -> forall v, In (2, v) fs <-> In (3, 1 :: flat_map prod_string (w_prod w)) fs /\ v = 2 :: w_pub w) /\
    (w_add_pub w = false -> forall v, ~ In (2, v) fs).
Proof. exact (fun HC => session_recurrence C HC c coin setup before gs rs). Qed.

Example C22_case : pictures_to demo_before demo_gops 1 = 3 /\ pictures_to demo_before demo_gops 2 = 7 /\
  w_rec demo_settings = 3 /\ w_using demo_settings = false.
Proof. vm_compute. auto. Qed.

(** C22. It is needed that a SEI is asked for in time: completing a SEI clears the mark that the fields
    are due, even if the mark was set by a picture that came after that SEI was generated. Pictures are
    counted from 0, the recurrence is 3; the first GOP has pictures 0 and 1, the second one pictures 2, 3
    and 4. Picture 3 makes the fields due, but the SEI of its GOP has none of them if the first SEI is
    pulled after picture 3 and not before it. *)
Theorem C22_pulled_late_refuted : exists C c coin key p0 p1 p2 p3 p4 p5 s rs x fs, crypto_ok C /\
  let setup := [OKey key; OEpb false; ORecurrence 3] in
  let add p := OAdd (p_data p) (p_ts p) true in
  Forall (op_ok C) setup /\ Forall (seen c) [p0; p1; p2; p3; p4; p5] /\
  map p_frame [p0; p1; p2; p3; p4; p5] = [true; true; true; true; true; true] /\
  map p_first [p0; p1; p2; p3; p4; p5] = [true; false; true; false; false; true] /\
  run C (setup ++ [add p0; add p1; add p2; add p3; OGet true []; add p4; add p5; OGet true []]) (create c coin) =
    Def (s, rs) /\
  Forall (fun r => rs_code r = SV_OK) rs /\ returned rs = [x; sei c false false fs] /\
  map fst fs = [1; 4; 5].
Proof.
  pose (ops := [OKey key1; OEpb false; ORecurrence 3; OAdd (idr [1]) None true; OAdd (pic [2]) None true;
    OAdd (idr [3]) None true; OAdd (pic [4]) None true; OGet true []; OAdd (pic [5]) None true;
    OAdd (idr [6]) None true; OGet true []]).
  destruct (run toy ops (create H264 0)) as [[s rs]|] eqn:E; [|vm_compute in E; discriminate].
  pose (split_tlv := fix go (f : nat) (l : list N) : list (N * list N) :=
    match f, l with
    | S f, t :: r => let k := len_bytes t in let n := N.to_nat (value_of (firstn k r)) in
        let r := skipn k r in (t, firstn n r) :: go f (skipn n r)
    | _, _ => [] end).
  pose (fs := split_tlv 9%nat (removelast (skipn 25 (nth 1 (returned rs) [])))).
  exists toy, H264, 0, key1, (pcs (idr [1]) None true), (pcs (pic [2]) None false), (pcs (idr [3]) None true),
    (pcs (pic [4]) None false), (pcs (pic [5]) None false), (pcs (idr [6]) None true), s, rs, (nth 0 (returned rs) []), fs.
  split; [exact toy_ok|]. cbv zeta. split.
  { apply Forall_cons; [exact key1_ok|]. repeat (apply Forall_cons; [exact I|]). apply Forall_nil. }
  split.
  { repeat (apply Forall_cons;
      [split; [cbn; (exact I || lia)|eexists; split; [vm_compute; reflexivity|]; split; [reflexivity|]; split; [reflexivity|];
        cbn; eexists; split; [vm_compute; reflexivity|reflexivity]]|]). apply Forall_nil. }
  split; [reflexivity|]. split; [reflexivity|]. split; [exact E|].
  unfold fs. clear fs. vm_compute in E. injection E as <- <-. split; [repeat constructor|].
  split; vm_compute; reflexivity.
Qed.

Print Assumptions C18_sei_describes_gop.
Print Assumptions C19_linked_hash.
Print Assumptions C20_hash_list.
Print Assumptions C21_max_payload.
Print Assumptions C22_recurrence.
Print Assumptions C22_pulled_late_refuted.

(** C02, C03, C15, C16, C17, C23: properties of whole signing sessions. *)
From Verif Require Import Base EpbProofs Nalu Crypto Types Hash Tlv CodecSpec CodecProofs SeiSpec Signer SignSpec
  RunProofs DrainProofs Toy.
Local Open Scope N_scope.

(** A small session with two GOPs, used in the examples. *)
Definition demo : list sop :=
  [OKey key1; OLevel LFrame; OAdd (idr [1; 2]) (Some 5%Z) true; OAdd (pic [3]) None true;
   OAdd (idr [4]) None true; OGet true []; OAdd (pic [0; 0; 1]) None true;
   OAdd (idr [9]) (Some 7%Z) true; OGet true []].

Lemma toy_works : signing_works toy.
Proof.
  intros key pub max coin oid n d H1 H2. unfold toy, toy_with in *. cbn [c_priv c_sign c_hash] in *.
  destruct (toy_digest_ok (if bytes_eqb oid toy_der then 64%nat else 32%nat) d) as [HL HB].
  generalize dependent (toy_digest (if bytes_eqb oid toy_der then 64%nat else 32%nat) d). intros h HL HB.
  assert (HF : forallb (fun b => b <? 256) h = true).
  { apply forallb_forall. intros x Hx. apply N.ltb_lt. exact (proj1 (Forall_forall _ _) HB x Hx). }
  rewrite HF. eexists _, _. split; [reflexivity|].
  destruct key as [|k key]; [discriminate|].
  match type of H1 with (if ?b then _ else _) = _ => destruct b end; [|discriminate]. injection H1 as <- <-.
  cbn [length]. rewrite HL. destruct (bytes_eqb oid toy_der); lia.
Qed.

Lemma key1_ok : op_ok toy (OKey key1).
Proof. split; [discriminate|]. exists [75; 65; 66; 67], 64%nat. reflexivity. Qed.
Lemma key2_ok : op_ok toy (OKey key2).
Proof. split; [discriminate|]. exists [75; 88; 89], 64%nat. reflexivity. Qed.
Ltac ops_ok := unfold demo; cbn [app map seq];
  repeat (apply Forall_cons; [first [exact I|exact key1_ok|exact key2_ok|cbn; lia]|]); apply Forall_nil.

Lemma demo_ok : Forall (op_ok toy) demo /\ settled true demo /\ Forall (fun o => o <> OPrepend) demo /\
  Forall (fun o => o <> OEpb false) demo.
Proof.
  split; [|split; [|split]].
  - ops_ok.
  - cbn. auto.
  - repeat constructor; discriminate.
  - repeat constructor; discriminate.
Qed.
Definition seis_of (x : out (signer * list sres)) : list (list N) :=
  match x with Def (_, rs) => returned rs | _ => [] end.

(** C02. Whatever is signed and whichever settings are made (other than switching emulation
    prevention off), every SEI handed out is a start code and a body in which neither a start code
    nor any other three bytes 0 0 x with x < 3 occur, and which ends with the stop bit. *)
Theorem C02_no_start_code_in_sei C c coin ops s rs : crypto_ok C ->
  Forall (op_ok C) ops -> settled true ops -> Forall (fun o => o <> OEpb false) ops ->
  run C ops (create c coin) = Def (s, rs) ->
  Forall (fun x => exists body, x = [0; 0; 0; 1] ++ body /\ no_emulation body /\ last body 0 = 128) (returned rs).
Proof. exact (fun HC => session_no_emulation C HC c coin ops s rs). Qed.

Example C02_case : exists s rs, run toy demo (create H264 0) = Def (s, rs) /\
  map (@length N) (returned rs) = [298; 293]%nat.
Proof. eexists _, _. split; [vm_compute; reflexivity|]. vm_compute. reflexivity. Qed.

(** C03. Full statement: no session writes outside the memory of a SEI, i.e.
      forall C c coin ops, crypto_ok C -> Forall (op_ok C) ops -> settled true ops ->
        run C ops (create c coin) <> Undef OobWrite.
    It is false: the buffer is a third larger than the metadata, escapes can make it half as large
    again. A session whose hashes have enough zero bytes overflows it. *)
Theorem C03_buffer_refuted : exists C c coin ops, crypto_ok C /\ Forall (op_ok C) ops /\ settled true ops /\
  run C ops (create c coin) = Undef OobWrite.
Proof.
  exists zero_crypto, H264, 0,
    ([OKey key1; OLevel LFrame; OAdd (idr [1; 2]) None true] ++ repeat (OAdd (pic [3]) None true) 100 ++
     [OAdd (idr [4]) None true; OGet true []]).
  split; [exact zero_crypto_ok|]. split; [|split].
  - apply Forall_cons; [split; [discriminate|exists [75; 65; 66; 67], 64%nat; reflexivity]|].
    do 2 (apply Forall_cons; [exact I|]). apply Forall_app. split.
    + apply Forall_forall. intros o Ho. apply repeat_spec in Ho. subst o. exact I.
    + do 2 (apply Forall_cons; [exact I|]). apply Forall_nil.
  - vm_compute. auto.
  - vm_compute. reflexivity.
Qed.

(** C03, partial: sessions without emulation prevention never write outside a SEI buffer. *)
Theorem C03_plain_partial C c coin ops : crypto_ok C -> Forall (op_ok C) ops -> settled true (OEpb false :: ops) ->
  Forall (fun o => o <> OEpb true) ops -> run C (OEpb false :: ops) (create c coin) <> Undef OobWrite.
Proof. exact (fun HC => session_plain_safe C HC c coin ops). Qed.

(** C03, partial: with emulation prevention a SEI fits its buffer if at most two thirds of the bytes
    of its metadata are zero. [sei_alloc] is the allocated size for a given payload size. *)
Theorem C03_zeros_partial c golden fs : 3 * zero_count (wires fs) <= 2 * nlen (wires fs) ->
  nlen (sei c true golden fs) <= sei_alloc c (17 + nlen (wires fs)).
Proof. exact (alloc_fits c golden fs). Qed.

Example C03_zeros_case :
  let fs := [(1, [3; 0; 0; 0; 1; 0; 4; 1; 1; 29] ++ zeros 33 ++ repeat 7 32); (5, sig_value 65 (repeat 9 65))] in
  3 * zero_count (wires fs) <= 2 * nlen (wires fs) /\ nlen (sei H264 true false fs) = 192 /\
  sei_alloc H264 (17 + nlen (wires fs)) = 233.
Proof. vm_compute. repeat split. all: try discriminate. Qed.

(** C15. Pulling until nothing is left returns every SEI that was generated, once and in the order of
    generation: the GOP counters of the SEIs that have one are 1, 2, ..., n, and n is the value the
    session's counter has at the end; golden SEIs are exactly the ones without. 60 pulls always
    suffice, and the last one says nothing is pending. *)
Theorem C15_all_in_order C c coin ops s rs : crypto_ok C -> signing_works C ->
  Forall (op_ok C) ops -> settled true ops -> Forall (fun o => o <> OPrepend) ops ->
  run C (ops ++ repeat (OGet true []) 60) (create c coin) = Def (s, rs) ->
  exists l n, returned rs = map (fun '(epb, golden, fs) => sei c epb golden fs) l /\
    Forall (fun '(epb, golden, fs) => sei_counter fs = None <-> golden = true) l /\
    somes (map (fun '(epb, golden, fs) => sei_counter fs) l) = map (fun i => N.of_nat i mod 2 ^ 32) (seq 1 n) /\
    g_counter (s_gop s) = N.of_nat n mod 2 ^ 32 /\ rs_pending (last rs (code SV_OK)) = 0.
Proof. exact (fun HC => session_drained C HC c coin ops s rs). Qed.

(** C15. Never more than 60 SEIs are pending. *)
Theorem C15_bounded C c coin ops s rs : crypto_ok C -> Forall (op_ok C) ops -> settled true ops ->
  run C ops (create c coin) = Def (s, rs) -> Forall (fun r => rs_pending r <= 60) rs.
Proof. exact (fun HC => session_pending C HC c coin ops s rs). Qed.

(** Ten GOPs signed before the first SEI is pulled: the calls are refused only once a SEI is
    complete, so all ten wait. *)
Definition backlog : list sop := OKey key1 :: map (fun i => OAdd (idr [i]) None true) (map N.of_nat (seq 1 11)).
Example C15_case : exists s rs, run toy (backlog ++ repeat (OGet true []) 60) (create H264 0) = Def (s, rs) /\
  length (returned rs) = 10%nat /\ g_counter (s_gop s) = 10 /\
  Forall (op_ok toy) backlog /\ settled true backlog /\ Forall (fun o => o <> OPrepend) backlog /\
  signing_works toy.
Proof.
  eexists _, _. split; [vm_compute; reflexivity|]. split; [vm_compute; reflexivity|]. split; [reflexivity|].
  split; [|split; [|split; [|exact toy_works]]].
  - unfold backlog. ops_ok.
  - cbn. auto.
  - repeat constructor; discriminate.
Qed.

(** C15: the deprecated signed_video_get_nalu_to_prepend hands the SEIs out newest first, so the order
    is only kept if it is not used. *)
Theorem C15_prepend_order_refuted : exists C c coin ops s rs, crypto_ok C /\ Forall (op_ok C) ops /\ settled true ops /\
  run C ops (create c coin) = Def (s, rs) /\ exists fs1 fs2, returned rs = [sei c false false fs1; sei c false false fs2] /\
  sei_counter fs1 = Some 2 /\ sei_counter fs2 = Some 1.
Proof.
  pose (ops := [OEpb false; OKey key1; OAdd (idr [1]) None true; OAdd (idr [2]) None true; OAdd (idr [3]) None true;
    OPrepend; OPrepend]).
  destruct (run toy ops (create H264 0)) as [[s rs]|] eqn:E; [|vm_compute in E; discriminate].
  exists toy, H264, 0, ops, s, rs. split; [exact toy_ok|]. split; [|split; [cbn; auto|]].
  { unfold ops. ops_ok. }
  split; [exact E|].
  pose (split_tlv := fix go (f : nat) (l : list N) : list (N * list N) :=
    match f, l with
    | S f, t :: r => let k := len_bytes t in let n := N.to_nat (value_of (firstn k r)) in
        let r := skipn k r in (t, firstn n r) :: go f (skipn n r)
    | _, _ => [] end).
  pose (fields := fun x : list N => split_tlv 9%nat (removelast (skipn 24 x))).
  exists (fields (nth 0 (returned rs) [])), (fields (nth 1 (returned rs) [])).
  vm_compute in E. injection E as <- <-. vm_compute. repeat split.
Qed.

(** C16. Every SEI handed out carries a signature, made with a private key, of the hash of that SEI's
    own content, as long as the key and the emulation prevention setting are only changed when no SEI
    waits for its signature. *)
Theorem C16_own_signature C c coin ops s rs : crypto_ok C -> Forall (op_ok C) ops -> settled true ops ->
  run C ops (create c coin) = Def (s, rs) -> Forall (well_signed C c) (returned rs).
Proof. exact (fun HC => session_signed C HC c coin ops s rs). Qed.

Example C16_case : exists s rs, run toy demo (create H264 0) = Def (s, rs) /\
  (length (returned rs) = 2)%nat /\ Forall (op_ok toy) demo /\ settled true demo /\ crypto_ok toy.
Proof.
  eexists _, _. split; [vm_compute; reflexivity|]. split; [reflexivity|].
  split; [apply demo_ok|]. split; [apply demo_ok|exact toy_ok].
Qed.

(** C16 without that condition is false: setting a new private key drops the signature of a waiting
    SEI, which then gets the signature of the next one. The SEI handed out has a signature no key can
    have made of its content. *)
Theorem C16_new_key_refuted : exists C c coin ops s rs epb golden fs max sig, crypto_ok C /\
  Forall (op_ok C) ops /\ run C ops (create c coin) = Def (s, rs) /\
  returned rs = [sei c epb golden (fs ++ [(5, sig_value max sig)])] /\
  forall key coin oid, In oid [sha256_der; toy_der] ->
    c_sign C key coin (c_hash C oid (signed_part c epb golden fs (5, sig_value max sig))) <> Some sig.
Proof.
  pose (ops := [OEpb false; OKey key1; OAdd (idr [1; 2]) None true; OAdd (idr [3]) None true; OKey key2;
    OAdd (idr [4]) None true; OGet true []]).
  destruct (run toy ops (create H264 0)) as [[s rs]|] eqn:E; [|vm_compute in E; discriminate].
  pose (split_tlv := fix go (f : nat) (l : list N) : list (N * list N) :=
    match f, l with
    | S f, t :: r => let k := len_bytes t in let n := N.to_nat (value_of (firstn k r)) in
        let r := skipn k r in (t, firstn n r) :: go f (skipn n r)
    | _, _ => [] end).
  pose (fs := removelast (split_tlv 9%nat (removelast (skipn 24 (nth 0 (returned rs) []))))).
  pose (sig := firstn 33 (skipn 5 (snd (last (split_tlv 9%nat (removelast (skipn 24 (nth 0 (returned rs) [])))) (0, []))))).
  exists toy, H264, 0, ops, s, rs, false, false, fs, 65%nat, sig.
  split; [exact toy_ok|]. split; [|split; [exact E|]].
  { unfold ops. ops_ok. }
  unfold fs, sig. clear fs sig. vm_compute in E. injection E as <- <-. split; [vm_compute; reflexivity|].
  intros key coin oid HO HF.
  assert (HS : forall (k : list N) h x, c_sign toy k coin h = Some x -> tl x = h).
  { clear. intros k h x. cbn [c_sign toy toy_with]. destruct (forallb _ h); [|discriminate].
    intros E. injection E as <-. reflexivity. }
  apply HS in HF. destruct HO as [<-|[<-|[]]]; vm_compute in HF; discriminate.
Qed.

(** C17. The GOP counters of the SEIs handed out are 1, 2, 3, ... modulo 2^32, provided signing works
    and SEIs are pulled with signed_video_get_sei. *)
Theorem C17_counters C c coin ops s rs : crypto_ok C -> signing_works C ->
  Forall (op_ok C) ops -> settled true ops -> Forall (fun o => o <> OPrepend) ops ->
  run C ops (create c coin) = Def (s, rs) ->
  exists l n, returned rs = map (fun '(epb, golden, fs) => sei c epb golden fs) l /\
    Forall (fun '(epb, golden, fs) => sei_counter fs = None <-> golden = true) l /\
    somes (map (fun '(epb, golden, fs) => sei_counter fs) l) = map (fun i => N.of_nat i mod 2 ^ 32) (seq 1 n).
Proof. exact (fun HC => session_counters C HC c coin ops s rs). Qed.

Example C17_case : signing_works toy /\ Forall (op_ok toy) demo /\ settled true demo /\
  Forall (fun o => o <> OPrepend) demo /\ length (seis_of (run toy demo (create H264 0))) = 2%nat.
Proof.
  split; [exact toy_works|]. split; [apply demo_ok|]. split; [apply demo_ok|]. split; [apply demo_ok|].
  vm_compute. reflexivity.
Qed.

(** C23. After a NALU was accepted for signing, and until the session is reset, setting the hash
    algorithm or the golden SEI mode is refused and changes nothing, whatever was called in between. *)
Theorem C23_settings_locked C s0 d ts last s1 r ops s2 rs : exec C (OAdd d ts last) s0 = Def (s1, r) ->
  rs_code r = SV_OK -> Forall (fun o => o <> OReset) ops -> run C ops s1 = Def (s2, rs) ->
  forall name b, exec C (OHashAlgo name) s2 = Def (s2, code SV_NOT_SUPPORTED) /\
    exec C (OUsingGolden b) s2 = Def (s2, code SV_NOT_SUPPORTED).
Proof. exact (settings_locked C s0 d ts last s1 r ops s2 rs). Qed.

Example C23_case : exists s0 x s1 r s2 rs, run toy [OKey key1] (create H265 3) = Def (s0, x) /\
  exec toy (OAdd [0; 0; 1; 0x26; 1; 0xaf; 1] None true) s0 = Def (s1, r) /\ rs_code r = SV_OK /\
  run toy [OAdd [0; 0; 1; 0x26; 1; 0xaf; 2] None true; OGet true []; OLevel LGop] s1 = Def (s2, rs) /\
  rs_size (nth 1 rs (code SV_OK)) = 266.
Proof.
  eexists _, _, _, _, _, _. split; [vm_compute; reflexivity|]. split; [vm_compute; reflexivity|].
  split; [reflexivity|]. split; [vm_compute; reflexivity|]. vm_compute. reflexivity.
Qed.

Print Assumptions C02_no_start_code_in_sei.
Print Assumptions C03_buffer_refuted.
Print Assumptions C03_plain_partial.
Print Assumptions C03_zeros_partial.
Print Assumptions C15_all_in_order.
Print Assumptions C15_bounded.
Print Assumptions C15_prepend_order_refuted.
Print Assumptions C16_own_signature.
Print Assumptions C16_new_key_refuted.
Print Assumptions C17_counters.
Print Assumptions C23_settings_locked.

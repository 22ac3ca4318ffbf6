(** One call of the signing API: lemmas. *)
From Verif Require Import Base BaseProofs Epb EpbProofs Nalu NaluSpec NaluProofs Crypto Types Hash Tlv
  TlvProofs EncProofs CodecSpec CodecProofs SeiSpec SeiProofs Signer GenProofs SignerProofs SessProofs SignSpec.
Local Open Scope N_scope.

(** ** Parsing never writes out of bounds *)

Lemma header_noW c l : holds (parse_header c l) (fun _ => True) noW.
Proof.
  destruct c; cbn [parse_header].
  - unfold parse_h264_header. destruct l as [|a [|b r]]; try discriminate.
    repeat match goal with |- context [match ?x with _ => _ end] => destruct x end; exact I.
  - unfold parse_h265_header. destruct l as [|a [|b r]]; try discriminate.
    destruct (_ || _); [exact I|]. destruct r; [discriminate|].
    match goal with |- context [let '(_, _) := ?x in _] => destruct x end. exact I.
Qed.

Lemma payload_size_noW p : holds (get_payload_size p) (fun _ => True) noW.
Proof.
  induction p as [|b r IH]; cbn [get_payload_size]; [discriminate|].
  destruct (b =? 255); [|exact I]. apply holds_bind. eapply holds_impl; [exact IH| |auto].
  intros [[a k] q] _. exact I.
Qed.

Lemma read_bytes_noW epb n : forall lt p, holds (read_bytes epb n lt p) (fun _ => True) noW.
Proof.
  induction n as [|n IH]; intros lt p; cbn [read_bytes]; [exact I|].
  apply holds_bind.
  assert (G : holds (read_byte epb lt p) (fun _ => True) noW).
  { unfold read_byte. repeat match goal with |- context [match ?x with _ => _ end] => destruct x end;
      try exact I; discriminate. }
  eapply holds_impl; [exact G| |auto]. intros [[b lt1] q] _. apply holds_bind.
  eapply holds_impl; [apply IH| |auto]. intros [[l lt2] q2] _. exact I.
Qed.

Lemma strip_noW l : holds (strip_trailing l) (fun _ => True) noW.
Proof. unfold strip_trailing. destruct (drop_zeros (rev l)); [discriminate|exact I]. Qed.

Lemma parse_noW d c check auth : holds (parse_nalu d c check auth) (fun _ => True) noW.
Proof.
  unfold parse_nalu. destruct d as [|b0 d']; [exact I|]. set (data := b0 :: d'). clearbody data.
  apply holds_bind. unfold start_code_len at 1. apply holds_bind.
  assert (G : holds (read_32bits data) (fun _ => True) noW).
  { unfold read_32bits. destruct data as [|a [|b [|c0 [|e r]]]]; try discriminate. exact I. }
  eapply holds_impl; [exact G| |auto]. intros [v q] _.
  assert (G2 : forall k, holds (Def k) (fun skip : nat => holds (
    let hd := skipn skip data in
    do (ty, primary, valid) <- parse_header c hd;
    let hashable := ntype_eqb ty TI || ntype_eqb ty TP in
    let first := ntype_eqb ty TI && primary in
    do trimmed <- (if check then strip_trailing data else Def data);
    let hash_size := sub64 (nlen trimmed) (N.of_nat skip) in
    let n := mkNalu (nlen data) hd hash_size ty (if valid then 1 else 0)%Z hashable
               0 0 0 [] 0 0 primary first false true true false false in
    if negb (ntype_eqb ty TSei) then Def n
    else
      match skipn (header_len c) hd with
      | [] => Undef OobRead
      | ud :: p1 =>
          if ud =? 5 then
            do (psize, k, p2) <- get_payload_size p1;
            let poff := (header_len c + 1 + k)%nat in
            let stop := if last trimmed 0 =? 128 then 1%Z else 0%Z in
            let epb := (Z.of_N hash_size - Z.of_nat poff - Z.of_N psize - stop)%Z in
            if (length p2 <? 16)%nat then Undef OobRead
            else
              let is_sv := bytes_eqb (firstn 16 p2) uuid_sv in
              remove_epb
                (mkNalu (nlen data) hd hash_size ty (if valid then 1 else 0)%Z (is_sv && auth)
                   psize 0 0 [] 0 epb primary first is_sv true true false false) poff
          else Def (mkNalu (nlen data) hd hash_size ty (if valid then 1 else 0)%Z false
                      0 0 0 [] 0 0 primary first false true true false false)
      end) (fun _ => True) noW) noW).
  { intros k. cbn [holds]. cbv zeta. apply holds_bind. eapply holds_impl; [apply header_noW| |auto].
    intros [[ty pr] va] _. apply holds_bind.
    assert (GS : holds (if check then strip_trailing data else Def data) (fun _ => True) noW).
    { destruct check; [apply strip_noW|exact I]. }
    eapply holds_impl; [exact GS| |auto]. intros t _.
    destruct (negb (ntype_eqb ty TSei)); [exact I|].
    destruct (skipn (header_len c) (skipn k data)) as [|ud p1]; [discriminate|].
    destruct (ud =? 5); [|exact I]. apply holds_bind.
    eapply holds_impl; [apply payload_size_noW| |auto]. intros [[ps k2] p2] _.
    destruct (length p2 <? 16)%nat; [discriminate|].
    unfold remove_epb. destruct (_ || _); [exact I|].
    match goal with |- context [match ?x with [] => _ | _ => _ end] => destruct x end; [discriminate|].
    match goal with |- context [(?x <=? 0)%Z] => destruct (x <=? 0)%Z end; [exact I|].
    apply holds_bind. eapply holds_impl; [apply read_bytes_noW| |auto]. intros [[wo lt] r] _.
    match goal with |- context [Nat.ltb ?x ?y] => destruct (Nat.ltb x y) end; [discriminate|exact I]. }
  destruct (v =? 1); [apply (G2 4%nat)|]. destruct (v / 256 =? 1); [apply (G2 3%nat)|apply (G2 0%nat)].
Qed.

Lemma noW_nowrite e u : noW u -> nowrite e u.
Proof. unfold noW, nowrite. congruence. Qed.

Section Step.
Variable C : crypto.
Hypothesis HC : crypto_ok C.

Notation sgood := (sgood C).
Notation ggood := (ggood C).

(** ** Parts of a session that do not matter for the buffer *)

Lemma sgood_frame s s' L : sgood s L -> s_cfg s' = s_cfg s -> ggood (s_cfg s) (s_gop s') ->
  g_hash_type (s_gop s') = g_hash_type (s_gop s) ->
  r_slots (s_run s') = r_slots (s_run s) -> r_queue (s_run s') = r_queue (s_run s) ->
  r_done (s_run s') = r_done (s_run s) -> sgood s' L.
Proof.
  intros [] EC EG ET ES EQ ED. constructor; rewrite ?EC, ?ES, ?EQ, ?ED, ?ET; assumption.
Qed.

(** The GOP counter written in a SEI. *)
Lemma counter_of_meta s : enc_ok (s_cfg s) (s_gop s) [] ->
  sei_counter (meta_fields s) =
  if r_golden (s_run s) then None else Some (u32 (g_counter (s_gop s) + 1)).
Proof.
  intros He.
  assert (G : forall l, Forall (fun f : field => fst f <> 1) l -> find (fun f => fst f =? 1) l = None).
  { induction 1 as [|f l Hf _ IH]; [reflexivity|]. cbn [find]. destruct (N.eqb_spec (fst f) 1); [contradiction|exact IH]. }
  assert (GO : Forall (fun f : field => fst f <> 1) (opt_fields s)).
  { unfold opt_fields. destruct (_ && _); [constructor|].
    eapply Forall_impl; [|apply fields_of_tags]. cbn. unfold PUBLIC_KEY, PRODUCT_INFO, CRYPTO_INFO. intros f Hf E. lia. }
  unfold sei_counter, meta_fields.
  assert (FA : forall l m, find (fun f : N * list N => fst f =? 1) l = None ->
    find (fun f => fst f =? 1) (l ++ m) = find (fun f => fst f =? 1) m).
  { induction l as [|f l IH]; intros m H; [reflexivity|]. cbn [find app] in *.
    destruct (fst f =? 1); [discriminate|auto]. }
  rewrite FA by (apply G, GO). unfold mand_fields. destruct (r_golden (s_run s)); [reflexivity|].
  unfold mandatory_tags. cbn [fields_of]. rewrite general_due. cbn [find fst].
  change (GENERAL =? 1) with true. cbv iota.
  change (enc_value (s_cfg s) (sent_gop s) [] GENERAL) with (general_value (s_cfg s) (sent_gop s)).
  destruct (counter_encoding (s_cfg s) (sent_gop s)) as [rest ->]. cbn [app skipn].
  rewrite firstn_app_len by apply digits_len. rewrite value_of_digits.
  - f_equal. unfold u32. change (2 ^ 32) with 4294967296. f_equal. f_equal.
    unfold sent_gop. destruct (too_big s); reflexivity.
  - change (256 ^ N.of_nat 4) with (2 ^ 32). apply N.mod_lt. discriminate.
Qed.

(** ** Generation *)

(** [q] was generated in session [s]. *)
Definition gen_from (s : signer) (q : gen) : Prop :=
  sc_key (s_cfg s) = Some (q_key q) /\ q_epb q = sc_epb (s_cfg s) /\ q_golden q = r_golden (s_run s) /\
  q_oid q = h_type (k_handle (g_h (s_gop s))) /\ sei_counter (q_fs q) =
    (if q_golden q then None else Some (u32 (g_counter (s_gop s) + 1))).

Inductive geff (s : signer) (L : list gen) (s' : signer) (L' : list gen) : Prop :=
| GKeep : L' = L -> g_counter (s_gop s') = g_counter (s_gop s) -> geff s L s' L'
| GFail : L' = L -> sign_fails C -> geff s L s' L'
| GNew q : L' = L ++ [q] -> gen_from s q ->
    g_counter (s_gop s') = (if q_golden q then g_counter (s_gop s) else u32 (g_counter (s_gop s) + 1)) ->
    geff s L s' L'.

Definition run_flags (s s' : signer) : Prop :=
  s_cfg s' = s_cfg s /\ r_golden (s_run s') = r_golden (s_run s).

Lemma generate_step s L key : sgood s L -> sc_key (s_cfg s) = Some key ->
  holds (generate_sei C s) (fun '(s', st, p) => exists L',
    sgood (if is_ok st then add_payload s' p else s') L' /\
    run_flags s s' /\ geff s L s' L' /\
    r_done (s_run s') = r_done (s_run s) /\ (is_ok st = false -> L' = L) /\
    run_flags s (add_payload s' p) /\ s_gop (add_payload s' p) = s_gop s' /\
    r_done (s_run (add_payload s' p)) = r_done (s_run s)) (nowrite (sc_epb (s_cfg s))).
Proof.
  intros HS HK. eapply holds_impl; [apply (generate_spec C HC s L key HS HK)| |auto].
  intros [[s' st] p] [(E1 & -> & -> & ->)|(E1 & E2 & E3 & [(-> & sig & lt & E4 & E5 & E6)|(E4 & E5 & E6 & E7)])].
  - exists L. cbn [is_ok svrc_eqb add_payload]. repeat split; try apply HS; try apply GKeep; reflexivity.
  - cbv zeta in E4, E5. subst p. set (q := new_gen s key sig lt) in *.
    destruct (add_payload_good C s L s' key sig lt HS E1 HK E2 E3 E5 E6) as [A1 A2].
    fold q in A1, A2. exists (L ++ [q]). cbn [is_ok svrc_eqb]. split; [exact A2|].
    assert (RG : r_golden (s_run s') = r_golden (s_run s)) by (rewrite E6; reflexivity).
    assert (RD : r_done (s_run s') = r_done (s_run s)) by (rewrite E6; reflexivity).
    split; [split; assumption|]. split.
    + apply (GNew _ _ _ _ q eq_refl).
      * repeat split; try assumption. apply counter_of_meta. apply HS.
      * apply E3.
    + split; [exact RD|]. split; [discriminate|]. rewrite A1. unfold on_run, run_flags.
      cbn [s_cfg set_s_run s_run set_r_slots r_golden s_gop r_done]. repeat split; assumption.
  - subst p. exists L.
    assert (RG : r_golden (s_run s') = r_golden (s_run s)) by (rewrite E7; reflexivity).
    assert (RD : r_done (s_run s') = r_done (s_run s)) by (rewrite E7; reflexivity).
    assert (GS : sgood s' L) by (apply (failed_good C s L s'); assumption).
    assert (is_ok st = false) as -> by (destruct st; cbn; congruence).
    split; [exact GS|]. split; [split; assumption|]. split; [apply GFail; auto|].
    split; [exact RD|]. split; [reflexivity|]. split; [split; assumption|]. split; [reflexivity|exact RD].
Qed.

(** ** signed_video_add_nalu_part_for_signing_with_timestamp *)

Lemma take_part_ok s L d last : sgood s L ->
  holds (take_part s d last) (fun '(s', n) => sgood s' L /\ run_flags s s' /\ s_gop s' = s_gop s /\
    r_done (s_run s') = r_done (s_run s)) (nowrite (sc_epb (s_cfg s))).
Proof.
  intros HS. unfold take_part.
  assert (G : forall ln, sgood (on_run (set_r_last ln) s) L).
  { intros ln. apply (sgood_frame s); try reflexivity; try assumption. apply HS. }
  destruct (n_last_part _).
  - apply holds_bind. eapply holds_impl; [apply parse_noW| |apply noW_nowrite]. intros n0 _.
    cbn [holds]. split; [apply G|]. repeat split.
  - apply holds_bind.
    assert (GS : holds (if last then do t <- strip_trailing d; Def (nlen t) else Def (nlen d)) (fun _ => True) noW).
    { destruct last; [|exact I]. apply holds_bind. eapply holds_impl; [apply strip_noW| |auto]. intros; exact I. }
    eapply holds_impl; [exact GS| |apply noW_nowrite]. intros sz _. cbn [holds]. split; [apply G|]. repeat split.
Qed.

Lemma prepare_ok s L s' st : sgood s L -> prepare s = (s', st) ->
  sgood s' L /\ run_flags s s' /\ s_gop s' = s_gop s /\ r_done (s_run s') = r_done (s_run s) /\
  (st = SV_OK -> exists key, sc_key (s_cfg s) = Some key).
Proof.
  intros HS. unfold prepare. destruct (sc_key (s_cfg s)) as [key|] eqn:EK.
  - assert (G : sgood (on_run (set_r_started true) s) L).
    { apply (sgood_frame s); try reflexivity; try assumption. apply HS. }
    destruct (_ && _); intros E; injection E as <- <-; (split; [exact G|]); repeat split; eauto.
  - intros E. injection E as <- <-. repeat split; try apply HS. discriminate.
Qed.

Lemma count_frame_ok s L n : sgood s L ->
  holds (count_frame s n) (fun s' => sgood s' L /\ run_flags s s' /\ s_gop s' = s_gop s /\
    r_done (s_run s') = r_done (s_run s)) noW.
Proof.
  intros HS. unfold count_frame. destruct (n_primary n && n_last_part n).
  2:{ cbn. repeat split; try apply HS. }
  cbv zeta. destruct (r_frame (s_run s) =? 2147483647)%Z; [discriminate|]. cbn [holds].
  match goal with |- context [if ?b then set_r_recurrent true _ else _] => destruct b end;
  (split; [apply (sgood_frame s); try reflexivity; try assumption; apply HS|]); repeat split.
Qed.

Lemma geff_pre s0 L s s' L' : run_flags s0 s -> g_counter (s_gop s) = g_counter (s_gop s0) ->
  h_type (k_handle (g_h (s_gop s))) = h_type (k_handle (g_h (s_gop s0))) ->
  geff s L s' L' -> geff s0 L s' L'.
Proof.
  intros [F1 F2] F3 F4 [H1 H2|H1 H2|q H1 H2 H3].
  - apply GKeep; congruence.
  - apply GFail; assumption.
  - apply (GNew _ _ _ _ q H1); [|rewrite H3, F3; reflexivity].
    destruct H2 as (A1 & A2 & A3 & A4 & A5). unfold gen_from. rewrite <- F1, <- F2, <- F3, <- F4. auto.
Qed.
Lemma geff_post s L s' s2 L' : g_counter (s_gop s2) = g_counter (s_gop s') -> geff s L s' L' -> geff s L s2 L'.
Proof.
  intros E [H1 H2|H1 H2|q H1 H2 H3].
  - apply GKeep; congruence.
  - apply GFail; assumption.
  - apply (GNew _ _ _ _ q H1 H2). congruence.
Qed.
Lemma run_flags_trans a b c : run_flags a b -> run_flags b c -> run_flags a c.
Proof. intros [A1 A2] [B1 B2]. split; congruence. Qed.

Lemma ts_good s L t : sgood s L -> (-9223372036854775808 <= t < 9223372036854775808)%Z ->
  sgood (on_gop (set_g_ts (Some t)) s) L.
Proof.
  intros HS Ht. apply (sgood_frame s); try reflexivity; try assumption.
  destruct (sg_g _ _ _ HS). constructor; try assumption.
  destruct gg_enc. constructor; try assumption.
Qed.

Lemma computed_good c g h v : ggood c g -> handle_ok C (sc_hs c) h -> h_oid h = h_oid (k_handle (g_h g)) ->
  length v = sc_hs c -> bytes_ok v ->
  exists d, put_mem (g_computed g) v = Def d /\
    ggood c (set_g_computed d (set_g_h (set_k_handle h (g_h g)) g)).
Proof.
  intros HG Hh HO HL HB. pose proof (ggood_hs C HC c g HG) as Hs. destruct HG. destruct gg_enc.
  rewrite put_mem_def by lia. eexists. split; [reflexivity|].
  constructor; try assumption. constructor; cbn; rewrite ?HO; try assumption.
  - rewrite app_length, skipn_length. lia.
  - apply bytes_ok_app; split; [exact HB|apply bytes_ok_skipn; assumption].
Qed.

Lemma handle_good c g h : ggood c g -> handle_ok C (sc_hs c) h -> h_oid h = h_oid (k_handle (g_h g)) ->
  ggood c (set_g_h (set_k_handle h (g_h g)) g).
Proof.
  intros HG Hh HO. destruct HG. constructor; try assumption.
  apply (enc_ok_h c g); try assumption; [repeat split|apply gg_enc|apply gg_enc].
Qed.

Lemma close_gop_ok s L key n ts : sgood s L -> sc_key (s_cfg s) = Some key ->
  match ts with Some t => (-9223372036854775808 <= t < 9223372036854775808)%Z | None => True end ->
  holds (close_gop C s n ts) (fun '(s', st) => exists L', sgood s' L' /\ run_flags s s' /\ geff s L s' L' /\
    r_done (s_run s') = r_done (s_run s)) (nowrite (sc_epb (s_cfg s))).
Proof.
  intros HS HK Ht. unfold close_gop.
  destruct (_ && _).
  2:{ cbn. exists L. repeat split; try apply HS. apply GKeep; reflexivity. }
  apply holds_bind.
  assert (G : holds
    (if r_gen (s_run s)
     then
      let s := match ts with Some t => on_gop (set_g_ts (Some t)) s | None => s end in
      let '(h, st, v) := finalize_hash C true (k_handle (g_h (s_gop s))) in
      let g := s_gop s in
      let g := set_g_h (set_k_handle h (g_h g)) g in
      if negb (is_ok st) then Def (set_s_gop g s, st)
      else
       do comp <- put_mem (g_computed g) v;
       do (s, st, p) <- generate_sei C (set_s_gop (set_g_computed comp g) s);
       if is_ok st then Def (add_payload s p, SV_OK) else Def (s, st)
     else Def (s, SV_OK))
    (fun '(s', st) => exists L', sgood s' L' /\ run_flags s s' /\ geff s L s' L' /\
    r_done (s_run s') = r_done (s_run s)) (nowrite (sc_epb (s_cfg s)))).
  { destruct (r_gen (s_run s)).
    2:{ cbn. exists L. repeat split; try apply HS. apply GKeep; reflexivity. }
    cbv zeta. set (s1 := match ts with Some t => on_gop (set_g_ts (Some t)) s | None => s end).
    assert (H1 : sgood s1 L /\ run_flags s s1 /\ g_counter (s_gop s1) = g_counter (s_gop s) /\
      g_h (s_gop s1) = g_h (s_gop s) /\ r_done (s_run s1) = r_done (s_run s)).
    { unfold s1. destruct ts as [t|]; [|repeat split; apply HS]. split; [apply ts_good; assumption|repeat split]. }
    clearbody s1. destruct H1 as (HS1 & RF1 & GC1 & GH1 & RD1).
    destruct (finalize_hash C true (k_handle (g_h (s_gop s1)))) as [[h st] v] eqn:EF.
    destruct (handle_ok_finalize C HC _ _ _ _ _ _ (gg_h _ _ _ (sg_g _ _ _ HS1)) EF) as (F1 & F2 & F3).
    destruct (is_ok st) eqn:ES; cbn [negb].
    2:{ cbn [holds]. exists L. split.
        - apply (sgood_frame s1); try reflexivity; try assumption. apply handle_good; try assumption. apply HS1.
        - split; [exact RF1|]. split; [|exact RD1]. apply GKeep; [reflexivity|]. exact GC1. }
    apply is_ok_eq in ES. subst st. destruct (F3 eq_refl) as [V1 V2].
    destruct (computed_good (s_cfg s1) (s_gop s1) h v (sg_g _ _ _ HS1) F1 F2 V1 V2) as (d & ED & GD).
    assert (ED2 : put_mem (g_computed (set_g_h (set_k_handle h (g_h (s_gop s1))) (s_gop s1))) v = Def d) by exact ED.
    rewrite ED2. cbn [obind]. set (s2 := set_s_gop _ s1).
    assert (HS2 : sgood s2 L).
    { unfold s2. apply (sgood_frame s1); try reflexivity; assumption. }
    assert (HK2 : sc_key (s_cfg s2) = Some key) by (unfold s2; cbn; rewrite (proj1 RF1); exact HK).
    assert (HE2 : sc_epb (s_cfg s2) = sc_epb (s_cfg s)) by (unfold s2; cbn; rewrite (proj1 RF1); reflexivity).
    apply holds_bind. rewrite <- HE2.
    eapply holds_impl; [apply (generate_step s2 L key HS2 HK2)| |auto].
    intros [[s3 st] p] (L' & G1 & G2 & G3 & G4 & G5 & G6 & G7 & G8).
    assert (GE : geff s L s3 L').
    { apply (geff_pre s L s2); [exact RF1|exact GC1| |exact G3].
      unfold s2. cbn. destruct F1 as (F1 & _). rewrite <- F1, F2.
      rewrite GH1. destruct (gg_h _ _ _ (sg_g _ _ _ HS)) as (F4 & _). exact F4. }
    destruct (is_ok st).
    - cbn [holds]. exists L'. split; [exact G1|]. split; [eapply run_flags_trans; [exact RF1|exact G6]|].
      split; [|rewrite G8; exact RD1]. eapply geff_post; [rewrite G7; reflexivity|exact GE].
    - cbn [holds]. exists L'. split; [exact G1|]. split; [eapply run_flags_trans; [exact RF1|exact G2]|].
      split; [exact GE|rewrite G4; exact RD1]. }
  eapply holds_impl; [exact G| |auto]. intros [s1 st] (L' & G1 & G2 & G3 & G4).
  destruct (is_ok st).
  - cbn [holds]. exists L'. split; [apply (sgood_frame s1); try reflexivity; try assumption; apply G1|].
    split; [exact G2|]. split; [|exact G4]. eapply geff_post; [|exact G3]. reflexivity.
  - cbn [holds]. exists L'. auto.
Qed.

Lemma shift_linked_ok hs l v : (hs <= 64)%nat -> length l = 128%nat -> length v = hs -> bytes_ok l -> bytes_ok v ->
  exists d, shift_linked hs l v = Def d /\ length d = 128%nat /\ bytes_ok d.
Proof.
  intros Hh HL HV BL BV. unfold shift_linked.
  destruct (put_at_ok 0 l (firstn hs (skipn hs l))) as (d1 & E1 & L1).
  { rewrite firstn_length, skipn_length. lia. }
  rewrite E1. cbn [obind].
  destruct (put_at_ok hs d1 v) as (d2 & E2 & L2); [lia|]. rewrite E2. exists d2.
  split; [reflexivity|]. split; [lia|]. eapply put_at_bytes; [exact E2| |exact BV].
  eapply put_at_bytes; [exact E1|exact BL|]. apply bytes_ok_firstn, bytes_ok_skipn, BL.
Qed.


(** ** The whole call *)

Definition step_post (s : signer) (L : list gen) (s' : signer) (L' : list gen) : Prop :=
  sgood s' L' /\ run_flags s s' /\ geff s L s' L' /\ r_done (s_run s') = r_done (s_run s).

Lemma linked_good c g l : ggood c g -> length l = 128%nat -> bytes_ok l -> ggood c (set_g_linked l g).
Proof. intros [] HL HB. constructor; try assumption. destruct gg_enc. constructor; assumption. Qed.

Lemma take_mem_bytes n l a b : take_mem n l = Def (a, b) -> bytes_ok l -> length a = n /\ bytes_ok a.
Proof.
  unfold take_mem. destruct (Nat.leb_spec n (length l)); [|discriminate]. intros E. injection E as <- <-.
  intros HB. split; [apply firstn_length_le; assumption|apply bytes_ok_firstn, HB].
Qed.
Lemma take_mem_noW n (l : list N) : holds (take_mem n l) (fun _ => True) noW.
Proof. unfold take_mem. destruct (_ <=? _)%nat; [exact I|discriminate]. Qed.

Lemma add_part_ok s L d ts last : sgood s L ->
  match ts with Some t => (-9223372036854775808 <= t < 9223372036854775808)%Z | None => True end ->
  holds (add_part C s d ts last) (fun '(s', st) => exists L', step_post s L s' L') (nowrite (sc_epb (s_cfg s))).
Proof.
  intros HS Ht. unfold add_part.
  assert (KP : forall s', sgood s' L -> run_flags s s' -> s_gop s' = s_gop s -> r_done (s_run s') = r_done (s_run s) ->
    exists L', step_post s L s' L').
  { intros s' A B D E. exists L. split; [exact A|]. split; [exact B|]. split; [|exact E].
    apply GKeep; [reflexivity|rewrite D; reflexivity]. }
  destruct d as [|b0 d]; [cbn [holds]; apply KP; try assumption; repeat split|].
  set (data := b0 :: d). clearbody data. apply holds_bind.
  eapply holds_impl; [apply (take_part_ok s L data last HS)| |auto].
  intros [s1 n] (T1 & T2 & T3 & T4).
  destruct (prepare s1) as [s2 st] eqn:EP.
  destruct (prepare_ok s1 L s2 st T1 EP) as (P1 & P2 & P3 & P4 & P5).
  assert (RF2 : run_flags s s2) by (eapply run_flags_trans; eassumption).
  assert (G2 : s_gop s2 = s_gop s) by congruence. assert (D2 : r_done (s_run s2) = r_done (s_run s)) by congruence.
  destruct (is_ok st) eqn:ES; cbn [negb]; [|cbn [holds]; apply KP; assumption].
  apply is_ok_eq in ES. subst st. destruct (P5 eq_refl) as [key HK].
  destruct (n_valid n <? 0)%Z; [cbn [holds]; apply KP; assumption|].
  apply holds_bind. eapply holds_impl; [apply (count_frame_ok s2 L n P1)| |apply noW_nowrite].
  intros s3 (Q1 & Q2 & Q3 & Q4).
  assert (RF3 : run_flags s s3) by (eapply run_flags_trans; eassumption).
  assert (G3 : s_gop s3 = s_gop s) by congruence. assert (D3 : r_done (s_run s3) = r_done (s_run s)) by congruence.
  assert (HK3 : sc_key (s_cfg s3) = Some key) by (rewrite (proj1 RF3), <- (proj1 T2); exact HK).
  assert (HE3 : sc_epb (s_cfg s) = sc_epb (s_cfg s3)) by (rewrite (proj1 RF3); reflexivity).
  apply holds_bind. rewrite HE3.
  eapply holds_impl; [apply (close_gop_ok s3 L key n ts Q1 HK3 Ht)| |auto].
  intros [s4 st] (L' & R1 & R2 & R3 & R4).
  assert (RF4 : run_flags s s4) by (eapply run_flags_trans; eassumption).
  assert (E4 : geff s L s4 L').
  { apply (geff_pre s L s3); try assumption; rewrite G3; reflexivity. }
  assert (D4 : r_done (s_run s4) = r_done (s_run s)) by congruence.
  destruct (is_ok st); cbn [negb].
  2:{ cbn [holds]. exists L'. split; [exact R1|]. split; [exact RF4|]. split; [exact E4|exact D4]. }
  apply holds_bind.
  eapply holds_impl; [apply (hash_and_add_ok C HC (s_cfg s4) (s_gop s4) n (sg_g _ _ _ R1))| |apply noW_nowrite].
  intros [g st2] (H1 & H2). cbv zeta. set (s5 := set_s_gop g s4).
  assert (S5 : sgood s5 L').
  { apply (sgood_frame s4); try reflexivity; try assumption. apply H2. }
  assert (E5 : geff s L s5 L') by (eapply geff_post; [|exact E4]; apply H2).
  destruct (is_ok st2); cbn [negb].
  2:{ cbn [holds]. exists L'. split; [exact S5|]. split; [exact RF4|]. split; [exact E5|exact D4]. }
  destruct (n_first_in_gop n && n_last_part n).
  2:{ cbn [holds]. exists L'. split; [exact S5|]. split; [exact RF4|]. split; [exact E5|exact D4]. }
  destruct (take_mem (sc_hs (s_cfg s5)) (g_nalu_hash (s_gop s5))) as [[h rest]|u] eqn:ET; cbn [obind].
  2:{ cbn [holds]. pose proof (take_mem_noW (sc_hs (s_cfg s5)) (g_nalu_hash (s_gop s5))) as X. rewrite ET in X.
      apply noW_nowrite, X. }
  destruct (take_mem_bytes _ _ _ _ ET (gg_nh _ _ _ (sg_g _ _ _ S5))) as [HL HB].
  pose proof (gg_enc _ _ _ (sg_g _ _ _ S5)) as EO.
  destruct (shift_linked_ok (sc_hs (s_cfg s5)) (g_linked (s_gop s5)) h (eo_hs _ _ _ EO) (eo_linked _ _ _ EO) HL
    (eo_linked_b _ _ _ EO) HB) as (l & EL & LL & LB).
  rewrite EL. cbn [obind holds]. exists L'. split.
  - apply (sgood_frame s5); try reflexivity; try assumption. apply linked_good; try assumption.
  - split; [exact RF4|]. split; [|exact D4]. eapply geff_post; [|exact E5]. reflexivity.
Qed.

(** ** Effects of any call *)

Definition is_golden (o : sop) : bool := match o with OGolden => true | _ => false end.

Inductive seff (c : codec) (s : signer) (o : sop) (r : sres) (L : list gen) (s' : signer) (L' : list gen) : Prop :=
| SKeep : L' = L -> g_counter (s_gop s') = g_counter (s_gop s) -> rs_sei r = [] -> seff c s o r L s' L'
| SFail : L' = L -> sign_fails C -> rs_sei r = [] -> seff c s o r L s' L'
| SNew q : L' = L ++ [q] -> q_golden q = is_golden o -> rs_sei r = [] ->
    sc_key (s_cfg s) = Some (q_key q) -> q_epb q = sc_epb (s_cfg s) ->
    sei_counter (q_fs q) = (if is_golden o then None else Some (u32 (g_counter (s_gop s) + 1))) ->
    g_counter (s_gop s') = (if is_golden o then g_counter (s_gop s) else u32 (g_counter (s_gop s) + 1)) ->
    seff c s o r L s' L'
| SGet q peek : o = OGet true peek -> L = q :: L' -> rs_sei r = fin c q ->
    g_counter (s_gop s') = g_counter (s_gop s) -> seff c s o r L s' L'
| SPrep q : o = OPrepend -> L = L' ++ [q] -> rs_sei r = fin c q ->
    g_counter (s_gop s') = g_counter (s_gop s) -> seff c s o r L s' L'.

Lemma geff_seff c s o r L s' L' : geff s L s' L' -> is_golden o = r_golden (s_run s) -> rs_sei r = [] ->
  seff c s o r L s' L'.
Proof.
  intros [H1 H2|H1 H2|q H1 (A1 & A2 & A3 & A4 & A5) H3] HO HR.
  - apply SKeep; assumption.
  - apply SFail; assumption.
  - rewrite A3, <- HO in A5, H3. apply (SNew _ _ _ _ _ _ _ q); try assumption. congruence.
Qed.

Definition clean_after (clean : bool) (o : sop) : bool :=
  match o with OAdd _ _ _ | OGolden => false | OGet _ _ | OPrepend => true | _ => clean end.
Definition clean_ok (clean : bool) (o : sop) : Prop :=
  match o with OKey _ | OEpb _ => clean = true | _ => True end.
Lemma settled_cons clean o r : settled clean (o :: r) <-> clean_ok clean o /\ settled (clean_after clean o) r.
Proof. destruct o; cbn [settled clean_ok clean_after]; tauto. Qed.

Record sinv (clean : bool) (c : codec) (s : signer) (L : list gen) : Prop := mkSinv {
  si_good : sgood s L;
  si_golden : r_golden (s_run s) = false;
  si_codec : sc_codec (s_cfg s) = c;
  si_clean : clean = true -> r_done (s_run s) = length L
}.

Definition step_ok (clean : bool) (c : codec) (s : signer) (o : sop) (L : list gen) (s' : signer) (r : sres) : Prop :=
  exists L', sinv (clean_after clean o) c s' L' /\ seff c s o r L s' L' /\ rs_pending r <= 60 /\
    (match o with OEpb b => sc_epb (s_cfg s') = b | _ => sc_epb (s_cfg s') = sc_epb (s_cfg s) end).

Lemma geff_len s L s' L' : geff s L s' L' -> L' = L \/ exists q, L' = L ++ [q].
Proof. intros [H1 H2|H1 H2|q H1 H2 H3]; eauto. Qed.

Lemma pending_bound s L : sgood s L -> nlen (r_slots (s_run s)) <= 60.
Proof. intros HS. pose proof (slots_len C s L HS). pose proof (sg_60 _ _ _ HS). unfold nlen. lia. Qed.

(** Settings that no invariant depends on. *)
Lemma cfg_good f s L :
  (forall c, sc_codec (f c) = sc_codec c /\ sc_epb (f c) = sc_epb c /\ sc_pub (f c) = sc_pub c /\
     sc_prod (f c) = sc_prod c /\ sc_arb (f c) = sc_arb c /\ sc_max_sig (f c) = sc_max_sig c /\
     sc_sig_mem (f c) = sc_sig_mem c /\ sc_hs (f c) = sc_hs c /\ sc_key (f c) = sc_key c) ->
  sgood s L -> sgood (on_cfg f s) L.
Proof.
  intros HF HS. destruct (HF (s_cfg s)) as (F1 & F2 & F3 & F4 & F5 & F6 & F7 & F8 & F9).
  destruct HS as [SG SA SK SD S6 SS SQ SLL SW ST].
  assert (G : ggood (f (s_cfg s)) (s_gop s)).
  { destruct SG as [E H B N0 NH]. constructor; rewrite ?F8; try assumption. destruct E.
    constructor; rewrite ?F8, ?F3, ?F4, ?F5, ?F6; assumption. }
  constructor; unfold on_cfg; cbn [s_cfg s_run s_gop set_s_cfg]; rewrite ?F1, ?F2, ?F3, ?F5, ?F6, ?F7, ?F9; assumption.
Qed.

Lemma cfg_step clean c s o L f st :
  (forall c, sc_codec (f c) = sc_codec c /\ sc_epb (f c) = sc_epb c /\ sc_pub (f c) = sc_pub c /\
     sc_prod (f c) = sc_prod c /\ sc_arb (f c) = sc_arb c /\ sc_max_sig (f c) = sc_max_sig c /\
     sc_sig_mem (f c) = sc_sig_mem c /\ sc_hs (f c) = sc_hs c /\ sc_key (f c) = sc_key c) ->
  clean_after clean o = clean -> (forall b, o <> OEpb b) ->
  sinv clean c s L -> step_ok clean c s o L (on_cfg f s) (code st).
Proof.
  intros HF HC2 HO []. exists L. split; [|split].
  - rewrite HC2. constructor; try assumption; [apply cfg_good; assumption|].
    cbn. destruct (HF (s_cfg s)) as (-> & _). assumption.
  - apply SKeep; reflexivity.
  - split; [cbn; lia|].
    destruct o; try (unfold on_cfg; cbn [s_cfg set_s_cfg]; destruct (HF (s_cfg s)) as (_ & -> & _); reflexivity).
    exfalso. eapply HO. reflexivity.
Qed.

Lemma keep_step clean c s o L st : clean_after clean o = clean -> (forall b, o <> OEpb b) ->
  sinv clean c s L -> step_ok clean c s o L s (code st).
Proof.
  intros HC2 HO HI. exists L. rewrite HC2. split; [exact HI|]. split; [apply SKeep; reflexivity|].
  split; [cbn; lia|]. destruct o; try reflexivity. exfalso. eapply HO. reflexivity.
Qed.

Lemma product_good s L l : length l = 5%nat ->
  Forall (fun x => match x with Some s => Forall (fun b => 0 < b < 256) s | None => True end) l -> sgood s L ->
  sgood (on_cfg (set_sc_prod (map (fun o => Some (match o with Some x => x | None => [] end)) l)) s) L.
Proof.
  intros HL HF HS. destruct HS as [SG SA SK SD S6 SS SQ SLL SW ST].
  constructor; try assumption. destruct SG as [E H B N0 NH]. constructor; try assumption. destruct E.
  constructor; try assumption.
  - cbn. rewrite map_length. exact HL.
  - cbn. apply Forall_map. eapply Forall_impl; [|exact HF]. intros [x|] Hx; [exact Hx|constructor].
Qed.

Lemma epb_good s L b : r_done (s_run s) = length L -> sgood s L -> sgood (on_cfg (set_sc_epb b) s) L.
Proof.
  intros HD HS. destruct HS as [SG SA SK SD S6 SS SQ SLL SW ST].
  constructor; try assumption.
  - destruct SG as [E H B N0 NH]. constructor; try assumption. destruct E. constructor; assumption.
  - cbn. rewrite HD, skipn_all. constructor.
Qed.

Lemma key_good s L pem pub m : c_priv C pem = Some (pub, S m) -> r_done (s_run s) = length L -> sgood s L ->
  sgood (on_run (set_r_queue []) (on_cfg (set_sc_key (Some pem))
    (on_cfg (fun c => set_sc_pub pub (set_sc_sig_mem true (set_sc_max_sig (S m) c))) s))) L.
Proof.
  intros HP HD HS. destruct HS as [SG SA SK SD S6 SS SQ SLL SW ST].
  destruct (ok_priv C HC _ _ _ HP) as (K1 & K2 & K3 & K4).
  constructor; try assumption.
  - destruct SG as [E H B N0 NH]. constructor; try assumption. destruct E. constructor; try assumption.
    cbn. lia.
  - cbn. auto.
  - cbn. rewrite HD, skipn_all. reflexivity.
  - cbn. rewrite HD, skipn_all. constructor.
Qed.

Lemma hash_good s L name s' st : sgood s L -> set_hash C s name = (s', st) ->
  sgood s' L /\ sc_codec (s_cfg s') = sc_codec (s_cfg s) /\ sc_epb (s_cfg s') = sc_epb (s_cfg s) /\
  s_run s' = s_run s /\ g_counter (s_gop s') = g_counter (s_gop s).
Proof.
  intros HS. unfold set_hash. destruct (r_started (s_run s)).
  { intros E. injection E as <- <-. repeat split; apply HS. }
  cbv zeta. destruct (set_hash_algo C name (k_handle (g_h (s_gop s)))) as [h st0] eqn:EH.
  assert (HD : h = k_handle (g_h (s_gop s)) /\ st0 <> SV_OK \/
    exists d n, h = mkHandle d d None (Some (mkCtx d [] false)) /\ st0 = SV_OK /\ c_oid C d = OidDigest n /\
      d <> [] /\ nlen d < 254 /\ bytes_ok d).
  { unfold set_hash_algo in EH.
    assert (X : forall d, d <> [] -> nlen d < 254 -> bytes_ok d ->
      match c_oid C d with OidDigest _ => (mkHandle d d None (Some (mkCtx d [] false)), SV_OK)
       | _ => (k_handle (g_h (s_gop s)), SV_EXTERNAL_ERROR) end = (h, st0) ->
      h = k_handle (g_h (s_gop s)) /\ st0 <> SV_OK \/
    exists d n, h = mkHandle d d None (Some (mkCtx d [] false)) /\ st0 = SV_OK /\ c_oid C d = OidDigest n /\
      d <> [] /\ nlen d < 254 /\ bytes_ok d).
    { intros d D1 D2 D3 E. destruct (c_oid C d) eqn:EO; injection E as <- <-;
        try (left; split; [reflexivity|discriminate]). right. eauto 10. }
    destruct name as [t|].
    - destruct (c_name C t) as [d|] eqn:EN.
      + destruct (ok_name C HC _ _ EN) as (D1 & D2 & D3). apply (X d); auto.
      + injection EH as <- <-. left. split; [reflexivity|discriminate].
    - apply (X sha256_der); auto; try discriminate; try (vm_compute; reflexivity).
      repeat constructor. }
  destruct HD as [[-> HN]|(d & n & -> & -> & D1 & D2 & D3 & D4)].
  - assert (negb (is_ok st0) = true) as -> by (destruct st0; cbn; congruence).
    intros E. injection E as <- <-. split; [|repeat split].
    apply (sgood_frame s); try reflexivity; try assumption. destruct (sg_g _ _ _ HS).
    constructor; try assumption. destruct gg_enc. constructor; assumption.
  - cbn [is_ok svrc_eqb negb]. unfold hash_size, oid_size. cbn [h_type]. rewrite D1.
    pose proof (ok_size C HC _ _ D1) as HSZ. unfold max_hash_size in *.
    assert (((n =? 0)%nat || (64 <? n)%nat) = false) as ->.
    { destruct (Nat.eqb_spec n 0), (Nat.ltb_spec 64 n); cbn; lia. }
    intros E. injection E as <- <-. split; [|repeat split].
    destruct HS as [SG SA SK SD S6 SS SQ SLL SW ST].
    constructor; try assumption. destruct SG as [E H B N0 NH]. constructor; try assumption.
    + destruct E. constructor; cbn; try assumption. lia.
    + cbn. unfold handle_ok. cbn. repeat split; eauto.
Qed.

Lemma reset_good s L : sgood s L -> sgood (reset s) L.
Proof.
  intros HS. destruct HS as [SG SA SK SD S6 SS SQ SLL SW ST]. constructor; try assumption.
  destruct SG as [E H B N0 NH]. destruct (handle_ok_init C _ _ false H) as [I1 I2]. constructor; try assumption.
  destruct E. constructor; cbn; try assumption; rewrite ?I2; try assumption; try lia.
  - exact (bytes_ok_zeros 128).
  - split; [|exact (Forall_nil _)]. lia.
Qed.

Theorem exec_ok clean c s o L : sinv clean c s L -> op_ok C o -> clean_ok clean o ->
  holds (exec C o s) (fun '(s', r) => step_ok clean c s o L s' r) (nowrite (sc_epb (s_cfg s))).
Proof.
  intros HI HO HCO. pose proof HI as [HS HG HCD HCL]. destruct o; cbn [exec].
  - (* OAdd *)
    apply holds_bind. eapply holds_impl; [apply (add_part_ok s L data ts last HS HO)| |auto].
    intros [s' st] (L' & A1 & A2 & A3 & A4). cbn [holds fst snd]. exists L'. split; [|split].
    + constructor; [exact A1|rewrite (proj2 A2); exact HG|rewrite (proj1 A2); exact HCD|discriminate].
    + apply geff_seff; [exact A3| |reflexivity]. cbn. congruence.
    + split; [cbn; lia|]. rewrite (proj1 A2). reflexivity.
  - (* OGet *)
    unfold get_sei. cbv zeta. set (pending := nlen (r_slots (s_run s))).
    assert (HP : pending <= 60) by (apply (pending_bound s L HS)).
    clearbody pending. apply holds_bind.
    eapply holds_impl; [apply (complete_all_ok C s L HS)| |auto].
    intros [s1 st] (-> & C1 & C2 & C3 & C4 & _ & C5). cbn [is_ok svrc_eqb negb].
    assert (I1 : sinv true c s1 L).
    { constructor; [exact C1|rewrite <- HG; apply C5|rewrite C2; exact HCD|auto]. }
    destruct (Nat.ltb_spec (r_done (s_run s1)) 1) as [HZ|HZ].
    { cbn [holds]. exists L. split; [exact I1|]. split; [apply SKeep; rewrite ?C3; reflexivity|].
      split; [exact HP|rewrite C2; reflexivity]. }
    apply holds_bind.
    assert (HSHOW : holds (match peek with
       | [] => Def true
       | _ => do n <- parse_nalu peek (sc_codec (s_cfg s1)) false false;
              Def ((ntype_eqb (n_type n) TI || ntype_eqb (n_type n) TP) && n_primary n)
       end) (fun _ => True) noW).
    { destruct peek; [exact I|]. apply holds_bind. eapply holds_impl; [apply parse_noW| |auto]. intros; exact I. }
    eapply holds_impl; [exact HSHOW| |apply noW_nowrite]. intros show _.
    destruct show; cbn [negb].
    2:{ cbn [holds]. exists L. split; [|split; [|split; [exact HP|cbn; rewrite C2; reflexivity]]].
        - destruct I1. constructor; try assumption. apply (sgood_frame s1); try reflexivity; try assumption. apply C1.
        - apply SKeep; try reflexivity. cbn. rewrite C3. reflexivity. }
    destruct L as [|q L']; [cbn in C4; lia|].
    destruct (fetch_ok C s1 [] q L' C1 C4 want) as (s2 & F1 & F2 & F3 & F4 & F5 & F6 & F7).
    cbn [length app] in F1, F6, F7. rewrite F1. cbn [obind holds].
    assert (FG : r_golden (s_run s2) = false).
    { destruct F4 as (_ & _ & _ & -> & _). apply I1. }
    assert (FC : sc_codec (s_cfg s2) = c) by congruence.
    destruct want.
    + exists L'. split; [constructor; auto|]. split; [|split].
      * apply (SGet _ _ _ _ _ _ _ q peek); try reflexivity; cbn [rs_sei]; rewrite ?F3, ?C3, ?C2, ?HCD; reflexivity.
      * apply (pending_bound s2 L' F6).
      * rewrite F2, C2. reflexivity.
    + exists (q :: L'). split; [constructor; auto|]. split; [|split].
      * apply SKeep; cbn [rs_sei]; rewrite ?F3, ?C3; reflexivity.
      * exact HP.
      * rewrite F2, C2. reflexivity.
  - (* OPrepend *)
    unfold get_prepend. apply holds_bind. unfold get_latest at 1. apply holds_bind.
    eapply holds_impl; [apply (complete_all_ok C s L HS)| |auto].
    intros [s1 st] (-> & C1 & C2 & C3 & C4 & _ & C5). cbn [is_ok svrc_eqb negb].
    assert (I1 : sinv true c s1 L).
    { constructor; [exact C1|rewrite <- HG; apply C5|rewrite C2; exact HCD|auto]. }
    destruct (Nat.ltb_spec (r_done (s_run s1)) 1) as [HZ|HZ].
    { cbn [holds rs_code rs_size is_ok svrc_eqb N.eqb negb andb]. exists L. split; [exact I1|].
      split; [apply SKeep; rewrite ?C3; reflexivity|]. split; [cbn; lia|rewrite C2; reflexivity]. }
    destruct L as [|q0 L0] using rev_ind; [cbn in C4; lia|]. clear IHL0. set (a := L0) in *. set (q := q0) in *. clearbody a q.
    assert (LA : (r_done (s_run s1) - 1)%nat = length a) by (rewrite C4, app_length; cbn [length]; lia).
    rewrite LA.
    destruct (fetch_ok C s1 a q [] C1 C4 false) as (s2 & F1 & F2 & F3 & F4 & F5 & F6 & F7).
    rewrite F1. cbn [obind holds rs_code rs_size is_ok svrc_eqb andb].
    assert (NZ : (nlen (fin (sc_codec (s_cfg s1)) q) =? 0) = false).
    { apply N.eqb_neq. unfold fin, sei. rewrite nlen_app'. unfold nlen. cbn [length]. lia. }
    rewrite NZ. cbn [negb]. unfold get_latest. apply holds_bind.
    assert (HE2 : sc_epb (s_cfg s) = sc_epb (s_cfg s2)) by (rewrite F2, C2; reflexivity). rewrite HE2.
    eapply holds_impl; [apply (complete_all_ok C s2 (a ++ [q]) F6)| |auto].
    intros [s3 st] (-> & K1 & K2 & K3 & K4 & _ & K5). cbn [is_ok svrc_eqb negb].
    assert ((r_done (s_run s3) <? 1)%nat = false) as ->.
    { rewrite K4, app_length. cbn [length]. apply Nat.ltb_ge. lia. }
    assert (LA3 : (r_done (s_run s3) - 1)%nat = length a) by (rewrite K4, app_length; cbn [length]; lia).
    rewrite LA3.
    destruct (fetch_ok C s3 a q [] K1 K4 true) as (s4 & W1 & W2 & W3 & W4 & W5 & W6 & W7).
    rewrite app_nil_r in W6, W7. rewrite W1. cbn [obind holds]. exists a. split; [|split; [|split]].
    + constructor; [exact W6| |rewrite W2, K2, F2, C2; exact HCD|auto].
      destruct W4 as (_ & _ & _ & -> & _). destruct K5 as (_ & _ & _ & -> & _).
      destruct F4 as (_ & _ & _ & -> & _). apply I1.
    + apply (SPrep _ _ _ _ _ _ _ q); try reflexivity; cbn [rs_sei]; rewrite ?W3, ?K3, ?F3, ?C3, ?K2, ?F2, ?C2, ?HCD; reflexivity.
    + cbn. lia.
    + rewrite W2, K2, F2, C2. reflexivity.
  - (* OEos *)
    apply holds_bind. unfold end_of_stream.
    destruct (prepare s) as [s1 st] eqn:EP.
    destruct (prepare_ok s L s1 st HS EP) as (P1 & P2 & P3 & P4 & P5).
    assert (I1 : sinv clean c s1 L).
    { constructor; [exact P1|rewrite (proj2 P2); exact HG|rewrite (proj1 P2); exact HCD|rewrite P4; exact HCL]. }
    assert (KP : forall st, step_ok clean c s OEos L s1 (code st)).
    { intros st'. exists L. split; [exact I1|]. split; [apply SKeep; rewrite ?P3; reflexivity|].
      split; [cbn; lia|]. rewrite (proj1 P2). reflexivity. }
    destruct (is_ok st) eqn:ES; cbn [negb]; [|cbn [holds]; apply KP].
    apply is_ok_eq in ES. subst st. destruct (P5 eq_refl) as [key HK].
    rewrite <- (proj1 P2) in HK.
    assert (HE1 : sc_epb (s_cfg s) = sc_epb (s_cfg s1)) by (rewrite (proj1 P2); reflexivity).
    apply holds_bind. rewrite HE1.
    eapply holds_impl; [apply (generate_step s1 L key P1 HK)| |auto].
    intros [[s2 st] p] (L' & G1 & G2 & G3 & G4 & G5 & G6 & G7 & G8).
    assert (GE : geff s L s2 L').
    { apply (geff_pre s L s1); [exact P2|rewrite P3; reflexivity|rewrite P3; reflexivity|exact G3]. }
    destruct (is_ok st) eqn:EST; cbn [negb].
    + rewrite <- (proj1 G6). eapply holds_impl; [apply (complete_all_ok C _ L' G1)| |auto].
      intros [s3 st3] (-> & K1 & K2 & K3 & K4 & _ & K5). cbn [holds fst snd]. exists L'. split; [|split; [|split]].
      * constructor; [exact K1| |rewrite K2, (proj1 G6); apply I1|auto].
        destruct K5 as (_ & _ & _ & -> & _). rewrite (proj2 G6). apply I1.
      * apply geff_seff; [|cbn; congruence|reflexivity]. eapply geff_post; [|exact GE]. rewrite K3, G7. reflexivity.
      * cbn. lia.
      * rewrite K2, (proj1 G6), (proj1 P2). reflexivity.
    + cbn [holds fst snd]. exists L'. split; [|split; [|split]].
      * constructor; [exact G1|rewrite (proj2 G2); apply I1|rewrite (proj1 G2); apply I1|].
        intros E. rewrite G4, P4, (HCL E).
        rewrite (G5 eq_refl). reflexivity.
      * apply geff_seff; [exact GE|cbn; congruence|reflexivity].
      * cbn. lia.
      * rewrite (proj1 G2), (proj1 P2). reflexivity.
  - (* OGolden *)
    apply holds_bind. unfold golden_sei. cbv zeta.
    set (s0 := on_cfg (set_sc_frame true) (on_run (fun r => set_r_recurrent true (set_r_golden true r)) s)).
    assert (S0 : sgood s0 L).
    { unfold s0. apply cfg_good; [intros; repeat split|].
      apply (sgood_frame s); try reflexivity; try assumption. apply HS. }
    destruct (prepare s0) as [s1 st] eqn:EP.
    destruct (prepare_ok s0 L s1 st S0 EP) as (P1 & P2 & P3 & P4 & P5).
    assert (FIN : forall s2 L2, sgood s2 L2 -> sc_codec (s_cfg s2) = c -> sinv false c (on_run (set_r_golden false) s2) L2).
    { intros s2 L2 A1 A2. constructor; [|reflexivity|exact A2|discriminate].
      apply (sgood_frame s2); try reflexivity; try assumption. apply A1. }
    apply holds_bind.
    assert (G : holds
      (if negb (is_ok st) then Def (s1, st)
       else do (s', st, p) <- generate_sei C s1; if is_ok st then Def (add_payload s' p, SV_OK) else Def (s', st))
      (fun '(s2, st) => exists L2, sgood s2 L2 /\ run_flags s1 s2 /\ geff s0 L s2 L2) (nowrite (sc_epb (s_cfg s)))).
    { destruct (is_ok st) eqn:ES; cbn [negb].
      2:{ cbn [holds]. exists L. split; [exact P1|]. split; [split; reflexivity|]. apply GKeep; rewrite ?P3; reflexivity. }
      apply is_ok_eq in ES. subst st. destruct (P5 eq_refl) as [key HK]. rewrite <- (proj1 P2) in HK.
      assert (HE1 : sc_epb (s_cfg s) = sc_epb (s_cfg s1)) by (rewrite (proj1 P2); reflexivity).
      apply holds_bind. rewrite HE1.
      eapply holds_impl; [apply (generate_step s1 L key P1 HK)| |auto].
      intros [[s2 st] p] (L' & G1 & G2 & G3 & G4 & G5 & G6 & G7 & G8).
      assert (GE : geff s0 L s2 L').
      { apply (geff_pre s0 L s1); [exact P2|rewrite P3; reflexivity|rewrite P3; reflexivity|exact G3]. }
      destruct (is_ok st); cbn [holds]; exists L'.
      - split; [exact G1|]. split; [exact G6|]. eapply geff_post; [|exact GE]. rewrite G7. reflexivity.
      - split; [exact G1|]. split; [exact G2|exact GE]. }
    eapply holds_impl; [exact G| |auto]. intros [s2 st2] (L2 & A1 & A2 & A3). cbn [obind holds fst snd].
    assert (HC2 : sc_codec (s_cfg s2) = c) by (rewrite (proj1 A2), (proj1 P2); exact HCD).
    exists L2. split; [apply FIN; assumption|]. split; [|split; [cbn; lia|]].
    + destruct A3 as [H1 H2|H1 H2|q H1 (B1 & B2 & B3 & B4 & B5) H3].
      * apply SKeep; [assumption|exact H2|reflexivity].
      * apply SFail; [assumption|assumption|reflexivity].
      * assert (BG : q_golden q = true) by exact B3. rewrite BG in B5, H3.
        apply (SNew _ _ _ _ _ _ _ q); try assumption; reflexivity.
    + cbn. rewrite (proj1 A2), (proj1 P2). reflexivity.
  - (* OReset *)
    cbn [holds]. exists L. split; [|split; [|split]].
    + constructor; [apply reset_good, HS|exact HG|exact HCD|exact HCL].
    + apply SKeep; reflexivity.
    + cbn. lia.
    + reflexivity.
  - (* OKey *)
    destruct HO as (HN & pub & m & HP). cbn in HCO. subst clean. specialize (HCL eq_refl).
    unfold set_private_key. destruct pem as [|x pem]; [congruence|]. rewrite HP. cbv zeta.
    destruct (ok_priv C HC _ _ _ HP) as (K1 & _). destruct pub as [|y pub]; [congruence|].
    cbn [holds fst snd]. exists L. split; [|split; [|split]].
    + constructor; [apply key_good; assumption|exact HG|exact HCD|intros _; exact HCL].
    + apply SKeep; reflexivity.
    + cbn. lia.
    + reflexivity.
  - (* OProduct *)
    destruct HO as [HL HF]. cbn [holds]. exists L. split; [|split; [|split]].
    + constructor; [apply product_good; assumption|exact HG|exact HCD|exact HCL].
    + apply SKeep; reflexivity.
    + cbn. lia.
    + reflexivity.
  - cbn [holds]. apply cfg_step; [intros; repeat split|reflexivity|discriminate|exact HI].
  - destruct l; cbn [holds]; [apply cfg_step|apply cfg_step|apply keep_step];
      try exact HI; try reflexivity; try discriminate; intros; repeat split.
  - destruct (n <? 1); cbn [holds]; [apply keep_step|apply cfg_step];
      try exact HI; try reflexivity; try discriminate; intros; repeat split.
  - (* OEpb *)
    cbn in HCO. subst clean. specialize (HCL eq_refl). cbn [holds]. exists L. split; [|split; [|split]].
    + constructor; [apply epb_good; assumption|exact HG|exact HCD|intros _; exact HCL].
    + apply SKeep; reflexivity.
    + cbn. lia.
    + reflexivity.
  - destruct (r_started (s_run s)); cbn [holds]; [apply keep_step|apply cfg_step];
      try exact HI; try reflexivity; try discriminate; intros; repeat split.
  - cbn [holds]. apply cfg_step; [intros; repeat split|reflexivity|discriminate|exact HI].
  - (* OHashAlgo *)
    destruct (set_hash C s name) as [s' st] eqn:EH. destruct (hash_good s L name s' st HS EH) as (A1 & A2 & A3 & A4 & A5).
    cbn [holds fst snd]. exists L. split; [|split; [|split]].
    + constructor; [exact A1|rewrite A4; exact HG|rewrite A2; exact HCD|rewrite A4; exact HCL].
    + apply SKeep; [reflexivity|exact A5|reflexivity].
    + cbn. lia.
    + exact A3.
Qed.

End Step.

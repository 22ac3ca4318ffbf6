(** What decoding a SEI leaves in the session: lemmas. *)
From Verif Require Import Base BaseProofs Nalu Crypto Types Hash Tlv TlvProofs CodecSpec SignerProofs VTypes NaluList Validator VListProofs ValidSpec MatchSpec AuthSpec.
Local Open Scope N_scope.

Lemma piece_refl x : piece x x.
Proof. exists [], []. rewrite app_nil_r. reflexivity. Qed.
Lemma piece_trans x y z : piece x y -> piece y z -> piece x z.
Proof. intros (a & b & ->) (a2 & b2 & ->). exists (a2 ++ a), (b ++ b2). rewrite !app_assoc. reflexivity. Qed.
Lemma piece_firstn n x : piece (firstn n x) x.
Proof. exists [], (skipn n x). cbn. symmetry. apply firstn_skipn. Qed.
Lemma piece_skipn n x : piece (skipn n x) x.
Proof. exists (firstn n x), []. rewrite app_nil_r. symmetry. apply firstn_skipn. Qed.
Lemma piece_cons x a y : piece x y -> piece x (a :: y).
Proof. intros (b & d & ->). exists (a :: b), d. reflexivity. Qed.

Lemma value1 a : value_of [a] = a. Proof. unfold value_of. cbn. lia. Qed.
Lemma value2 a b : value_of [a; b] = a * 256 + b. Proof. unfold value_of. cbn. lia. Qed.

Section Dec.
Variable C : crypto.

(** What the decoders keep: keys and signatures come from the bytes decoded ([S]), sizes fit the digest. *)
Definition dgood (S Kk : list N -> Prop) (d : dec) : Prop :=
  (forall k, d_vkey d = Some k -> Kk k) /\ (forall s, d_sig d = Some s -> S s) /\
  d_vhs d = oid_size C (h_type (d_handle d)) /\ digest C (h_type (d_handle d)) /\
  (forall x, h_prim (d_handle d) = Some x -> digest C (x_oid x)).
Definition dcore (d : dec) := (d_vkey d, d_sig d, d_vhs d, d_handle d).
Lemma dgood_core S Kk d d' : dcore d' = dcore d -> dgood S Kk d -> dgood S Kk d'.
Proof. unfold dcore. intros E. injection E as E1 E2 E3 E4. unfold dgood. rewrite E1, E2, E3, E4. auto. Qed.

Lemma set_algo_ok der h h' st : set_hash_algo_der C der h = Def (h', st) -> digest C (h_type h) ->
  (forall x, h_prim h = Some x -> digest C (x_oid x)) ->
  digest C (h_type h') /\ (forall x, h_prim h' = Some x -> digest C (x_oid x)) /\ (st <> SV_OK -> h_type h' = h_type h).
Proof.
  unfold set_hash_algo_der. destruct der; [intros E; injection E as <- <-; auto|]. destruct (bytes_eqb _ _); [intros E; injection E as <- <-; auto|].
  destruct (c_oid C _) eqn:EO; [intros E; injection E as <- <-; auto|discriminate|]. intros E. injection E as <- <-. intros _ HP. cbn.
  split; [eexists; exact EO|]. split; [exact HP|congruence].
Qed.

Lemma general_core d mem size : holds (decode_general d mem size) (fun '(d', _) => dcore d' = dcore d /\ d_list d' = d_list d) (fun _ => True).
Proof.
  unfold decode_general. destruct (read_8bits mem) as [[ver p]|]; [|exact I]. cbn [obind]. dif; [split; reflexivity|].
  destruct (read_32bits p) as [[ct p1]|]; [|exact I]. cbn [obind]. destruct (read_16bits p1) as [[nm p2]|]; [|exact I]. cbn [obind].
  destruct (take_mem 3 p2) as [[vv p3]|]; [|exact I]. cbn [obind]. cbv zeta. set (d1 := set_d_sver _ _).
  assert (E1 : dcore d1 = dcore d /\ d_list d1 = d_list d) by (split; reflexivity). clearbody d1. rename E1 into H0.
  assert (HF : forall x : out (dec * list N * N), (forall dx, x = Def dx -> dcore (fst (fst dx)) = dcore d /\ d_list (fst (fst dx)) = d_list d) ->
    forall k : dec * list N * N -> out (dec * svrc), (forall dx, dcore (fst (fst dx)) = dcore d /\ d_list (fst (fst dx)) = d_list d -> holds (k dx) (fun '(d', _) => dcore d' = dcore d /\ d_list d' = d_list d) (fun _ => True)) ->
    holds (obind x k) (fun '(d', _) => dcore d' = dcore d /\ d_list d' = d_list d) (fun _ => True)).
  { intros x H1 k H2. destruct x as [dx|]; [|exact I]. cbn [obind]. apply H2. apply H1. reflexivity. }
  apply HF.
  - intros [[d2 p4] us] EX. cbn [fst]. destruct (ver <? 2); [injection EX as <- _ _; exact H0|].
    destruct (read_8bits p3) as [[fl p5]|]; [|discriminate]. cbn [obind] in EX. destruct (fl mod 2 =? 1).
    + destruct (read_64bits p5) as [[ts p6]|]; [|discriminate]. cbn [obind] in EX. injection EX as <- _ _. exact H0.
    + injection EX as <- _ _. exact H0.
  - intros [[d2 p4] us] H2. cbn [fst] in H2. destruct (ver <? 3); [exact H2|]. cbv zeta. destruct (64 <? _); [exact I|].
    destruct (take_mem _ p4) as [[lh p5]|]; [|exact I]. cbn [obind]. destruct (take_mem _ p5) as [[gh p6]|]; [|exact I]. cbn [obind].
    destruct (put_mem (d_linked d2) lh) as [l1|]; [|exact I]. cbn [obind]. destruct (put_mem (d_gop d2) gh) as [g1|]; [|exact I]. exact H2.
Qed.

Lemma take_inv n p a q : take_mem n p = Def (a, q) -> a = firstn n p /\ q = skipn n p /\ (n <= length p)%nat.
Proof. unfold take_mem. destruct (Nat.leb_spec n (length p)); [|discriminate]. intros E. injection E as <- <-. auto. Qed.

(** Any tag: what stays and where new bytes come from. *)
Lemma tag_good S Kk d tag mem size : size < 18446744073709551616 -> dgood S Kk d -> (forall x, piece x mem -> S x /\ Kk x) ->
  holds (decode_tag C d tag mem size) (fun '(d', st) => dgood S Kk d' /\
     (d_list d' = d_list d \/ (tag = 4 /\ st = SV_OK /\ exists v, firstn (N.to_nat size) mem = v :: d_list d'))) (fun _ => True).
Proof.
  intros HZ HG HS. unfold decode_tag.
  repeat lazymatch goal with |- holds (match ?t with _ => _ end) _ _ => destruct t; try exact I end.
  all: try (split; [exact HG|left; reflexivity]).
  - (* 129 *) unfold decode_crypto. destruct (read_8bits mem) as [[ver p]|]; [|exact I]. cbn [obind]. destruct (read_8bits p) as [[n p1]|]; [|exact I]. cbn [obind].
    destruct (take_mem (N.to_nat n) p1) as [[oid q]|]; [|exact I]. cbn [obind]. dif; [split; [exact HG|left; reflexivity]|]. dif; [split; [exact HG|left; reflexivity]|].
    destruct (set_hash_algo_der C oid (d_handle d)) as [[h st]|] eqn:EH; [|exact I]. cbn [obind]. cbv zeta.
    destruct HG as (G1 & G2 & G3 & G4 & G5). destruct (set_algo_ok _ _ _ _ EH G4 G5) as (A1 & A2 & A3). destruct (is_ok st) eqn:ES; cbn [negb holds].
    + split; [|left; reflexivity]. repeat split; auto.
    + split; [|left; reflexivity]. split; [exact G1|]. split; [exact G2|]. split; [|split; assumption]. cbn. rewrite A3; [exact G3|]. intros ->. discriminate.
  - (* signature *) unfold decode_signature. destruct mem as [|b0 [|b1 [|b2 [|b3 [|b4 p]]]]]; try exact I. cbn [read_8bits read_16bits obind]. cbv zeta.
    dif; [split; [exact HG|left; reflexivity]|]. dif; [split; [exact HG|left; reflexivity]|]. dif; [split; [exact HG|left; reflexivity]|].
    destruct HG as (G1 & G2 & G3 & G4 & G5).
    assert (GS : forall n, holds (do (s2, _) <- take_mem n p; Def (set_d_hash_type b2 (set_d_enc b1 (set_d_sig_size (b3 * 256 + b4) (set_d_sig (Some s2) d))), SV_OK))
       (fun '(d', st) => dgood S Kk d' /\ (d_list d' = d_list d \/ (5 = 4 /\ st = SV_OK /\ exists v, firstn (N.to_nat size) (b0 :: b1 :: b2 :: b3 :: b4 :: p) = v :: d_list d'))) (fun _ => True)).
    { intros n. destruct (take_mem n p) as [[s2 q]|] eqn:ET; [|exact I]. cbn [obind holds]. apply take_inv in ET as (-> & -> & _). split; [|left; reflexivity].
      split; [exact G1|]. split; [|split; [exact G3|split; assumption]]. cbn. intros s E. injection E as <-. apply HS. do 5 apply piece_cons. apply piece_firstn. }
    destruct (d_sig d) as [s|] eqn:ED.
    + dif; [split; [repeat split; auto; rewrite ED; auto|left; reflexivity]|]. apply GS.
    + dif; [split; [repeat split; auto; cbn; rewrite ED; discriminate|left; reflexivity]|]. apply GS.
  - (* product *) unfold decode_product. destruct (read_8bits mem) as [[ver p]|]; [|exact I]. cbn [obind]. dif; [split; [exact HG|left; reflexivity]|].
    destruct (decode_strings 5 p) as [[l us]|]; [|exact I]. cbn [obind holds]. split; [eapply dgood_core; [|exact HG]; reflexivity|left; reflexivity].
  - (* arbitrary *) unfold decode_arbitrary. destruct (read_8bits mem) as [[ver p]|]; [|exact I]. cbn [obind]. cbv zeta.
    dif; [split; [eapply dgood_core; [|exact HG]; reflexivity|left; reflexivity]|]. dif; [split; [eapply dgood_core; [|exact HG]; reflexivity|left; reflexivity]|].
    destruct (take_mem _ p) as [[a q]|]; [|exact I]. cbn [obind]. dif; split; try (left; reflexivity); eapply dgood_core; [|exact HG| |exact HG]; reflexivity.
  - (* hash list *) unfold decode_hash_list. destruct mem as [|b0 p]; [exact I|]. cbn [read_8bits obind]. cbv zeta.
    dif; [split; [exact HG|left; reflexivity]|]. destruct (19200 <? sub64 size 1) eqn:EZ; [split; [exact HG|left; reflexivity]|].
    destruct (take_mem _ p) as [[l q]|] eqn:ET; [|exact I]. cbn [obind holds]. apply take_inv in ET as (-> & -> & HL). split; [eapply dgood_core; [|exact HG]; reflexivity|].
    right. split; [reflexivity|]. split; [reflexivity|]. exists b0. cbn [d_list set_d_list].
    assert (size <> 0) by (intros ->; unfold sub64 in EZ; cbn in EZ; discriminate).
    replace (N.to_nat size) with (Datatypes.S (N.to_nat (size - 1))) by lia. cbn [firstn]. f_equal. f_equal. f_equal.
    unfold sub64, u64. lia.
  - (* public key *) unfold decode_public_key. destruct mem as [|b0 p]; [exact I|]. cbn [read_8bits obind]. cbv zeta.
    dif; [split; [exact HG|left; reflexivity]|]. dif; [split; [exact HG|left; reflexivity]|].
    set (pp := if b0 <? 2 then skipn 1 p else p). assert (PP : piece pp (b0 :: p)) by (unfold pp; dif; [eapply piece_trans; [apply piece_skipn|]|]; apply piece_cons, piece_refl).
    clearbody pp. destruct (take_mem _ pp) as [[key q]|] eqn:ET; [|exact I]. cbn [obind]. apply take_inv in ET as (EK & -> & HL).
    assert (PK : piece key (b0 :: p)) by (rewrite EK; eapply piece_trans; [apply piece_firstn|exact PP]).
    set (d1 := if d_has_pub d && _ then _ else d). assert (E1 : dcore d1 = dcore d /\ d_list d1 = d_list d) by (unfold d1; dif; split; reflexivity). clearbody d1. destruct E1 as [E1 E2].
    pose proof (dgood_core S Kk d d1 E1 HG) as G1. clear HG. dif; cbn [holds].
    + split; [|left; exact E2]. eapply dgood_core; [|exact G1]; reflexivity.
    + split; [|left; exact E2]. destruct G1 as (G1 & G2 & G3 & G4 & G5). split; [|split; [exact G2|split; [exact G3|split; assumption]]]. cbn. intros k E. injection E as <-. apply HS, PK.
  - (* general *) eapply holds_impl; [apply general_core| |auto]. intros [d' st] [E1 E2]. split; [eapply dgood_core; eassumption|left; exact E2].
Qed.

Lemma header_walk p tag len hsz q : decode_tlv_header p = Def (Some (tag, len, hsz, q)) -> bytes_ok p ->
  bytes_ok q /\ len < 65536 /\ (tag <> 0 -> exists lb, p = tag :: lb ++ q /\ length lb = wire_width tag /\ value_of lb = len /\ hsz = 1 + N.of_nat (wire_width tag)).
Proof.
  unfold decode_tlv_header. destruct p as [|t p]; [discriminate|]. cbn [read_8bits obind]. destruct (negb (tuple_tag t =? t)) eqn:ET; [discriminate|].
  intros H HB. apply Forall_cons_iff in HB as [B0 HB]. destruct (len_bytes t =? 2)%nat eqn:EL.
  - destruct p as [|a [|b p]]; try discriminate. cbn [read_16bits obind] in H. injection H as <- <- <- <-.
    apply Forall_cons_iff in HB as [B1 HB]. apply Forall_cons_iff in HB as [B2 HB]. split; [exact HB|]. unfold byte_ok in *. split; [lia|]. intros HT. exists [a; b].
    assert (WW : wire_width t = 2%nat). { unfold wire_width. destruct (N.eqb_spec t 1) as [->|]; [discriminate|]. destruct (N.eqb_spec t 7) as [->|]; [discriminate|]. reflexivity. }
    rewrite WW. split; [reflexivity|]. split; [reflexivity|]. split; [apply value2|reflexivity].
  - destruct p as [|a p]; [discriminate|]. cbn [read_8bits obind] in H. injection H as <- <- <- <-.
    apply Forall_cons_iff in HB as [B1 HB]. split; [exact HB|]. unfold byte_ok in *. split; [lia|]. intros HT. exists [a].
    assert (WW : wire_width t = 1%nat).
    { unfold wire_width. destruct (N.eqb_spec t 1) as [->|N1]; [reflexivity|]. destruct (N.eqb_spec t 7) as [->|N7]; [reflexivity|]. exfalso.
      unfold tuple_tag in ET. unfold len_bytes in EL. unfold tuple in *.
      repeat lazymatch type of ET with context [match ?t with _ => _ end] => destruct t; try discriminate; try congruence end. }
    rewrite WW. split; [reflexivity|]. split; [reflexivity|]. split; [apply value1|reflexivity].
Qed.

(** GENERAL of version 3 sets the GOP hash. *)
Lemma read8_inv p x q : read_8bits p = Def (x, q) -> p = x :: q.
Proof. unfold read_8bits. destruct p; [discriminate|]. intros E. injection E as <- <-. reflexivity. Qed.
Lemma read16_inv p x q : read_16bits p = Def (x, q) -> exists a b, p = a :: b :: q.
Proof. unfold read_16bits. destruct p as [|a [|b p]]; try discriminate. intros E. injection E as _ <-. eauto. Qed.
Lemma read32_inv p x q : read_32bits p = Def (x, q) -> exists a b c d, p = a :: b :: c :: d :: q.
Proof. unfold read_32bits. destruct p as [|a [|b [|c [|d p]]]]; try discriminate. intros E. injection E as _ <-. eauto. Qed.
Lemma take_split n p a q : take_mem n p = Def (a, q) -> p = a ++ q /\ length a = n.
Proof. intros H. apply take_inv in H as (-> & -> & H). split; [symmetry; apply firstn_skipn|]. rewrite firstn_length. lia. Qed.
Lemma read64_inv p x q : read_64bits p = Def (x, q) -> exists a, p = a ++ q /\ length a = 8%nat.
Proof.
  unfold read_64bits. do 8 (destruct p as [|? p]; [intros H; cbn in H; discriminate H|]). cbn [read_32bits obind]. intros E. injection E as _ <-. eexists [_;_;_;_;_;_;_;_]. split; reflexivity.
Qed.

Lemma general_gop d mem size d' : size < 65536 -> decode_general d mem size = Def (d', SV_OK) ->
  let v := firstn (N.to_nat size) mem in
  if hd 0 v =? 3 then firstn (length (gop_in v)) (d_gop d') = gop_in v /\ firstn (length (link_in v)) (d_linked d') = link_in v else d_gop d' = d_gop d /\ d_linked d' = d_linked d.
Proof.
  intros HZ. unfold decode_general. destruct (read_8bits mem) as [[ver p]|] eqn:E0; [|discriminate]. cbn [obind]. apply read8_inv in E0 as ->.
  destruct (_ || _) eqn:EV; [discriminate|]. destruct (read_32bits p) as [[ct p1]|] eqn:E1; [|discriminate]. cbn [obind]. apply read32_inv in E1 as (b1 & b2 & b3 & b4 & ->).
  destruct (read_16bits p1) as [[nm p2]|] eqn:E2; [|discriminate]. cbn [obind]. apply read16_inv in E2 as (b5 & b6 & ->).
  destruct (take_mem 3 p2) as [[vv p3]|] eqn:E3; [|discriminate]. cbn [obind]. apply take_split in E3 as [-> E3]. cbv zeta.
  destruct vv as [|b7 [|b8 [|b9 [|? ?]]]]; try discriminate. clear E3. cbn [app]. set (d1 := set_d_sver _ _). assert (G1 : d_gop d1 = d_gop d /\ d_linked d1 = d_linked d) by (split; reflexivity). clearbody d1.
  apply orb_false_iff in EV as [V1 V2]. apply N.ltb_ge in V1, V2.
  destruct (ver <? 2) eqn:EV2.
  { apply N.ltb_lt in EV2. cbn [obind]. replace (ver <? 3) with true by (symmetry; apply N.ltb_lt; lia). cbn [obind]. destruct (10 =? size) eqn:ES; intros H; [|discriminate H]. injection H as <-.
    apply N.eqb_eq in ES. subst size. cbv zeta. change (N.to_nat 10) with 10%nat. cbn [firstn hd].
    replace (ver =? 3) with false by (symmetry; apply N.eqb_neq; lia). exact G1. }
  apply N.ltb_ge in EV2. destruct (read_8bits p3) as [[fl p4]|] eqn:E4; [|discriminate]. cbn [obind]. apply read8_inv in E4 as ->.
  assert (HX : forall d2 p5 used pre, (p4 = pre ++ p5) -> N.to_nat used = (11 + length pre)%nat -> (used = if fl mod 2 =? 1 then 19 else 11) -> d_gop d2 = d_gop d /\ d_linked d2 = d_linked d ->
    (do (d3, us) <- (if ver <? 3 then Def (d2, used) else let hs := sub64 size used / 2 in if 64 <? hs then Undef OobWrite else
        do (lh, p6) <- take_mem (N.to_nat hs) p5; do (gh, p7) <- take_mem (N.to_nat hs) p6; do l1 <- put_mem (d_linked d2) lh; do g1 <- put_mem (d_gop d2) gh;
        Def (set_d_gop g1 (set_d_linked l1 d2), used + 2 * hs));
      Def (d3, if us =? size then SV_OK else SV_AUTHENTICATION_ERROR)) = Def (d', SV_OK) ->
    let v := firstn (N.to_nat size) (ver :: b1 :: b2 :: b3 :: b4 :: b5 :: b6 :: b7 :: b8 :: b9 :: fl :: p4) in
    if hd 0 v =? 3 then firstn (length (gop_in v)) (d_gop d') = gop_in v /\ firstn (length (link_in v)) (d_linked d') = link_in v else d_gop d' = d_gop d /\ d_linked d' = d_linked d).
  { clear HZ. intros d2 p5 used pre EP EU EU2 G2. destruct (ver <? 3) eqn:EV3.
    - cbn [obind]. destruct (used =? size) eqn:ES; intros H; [|discriminate H]. injection H as <-. apply N.eqb_eq in ES. subst size. rewrite EU. cbn [Nat.add firstn hd]. cbv zeta.
      apply N.ltb_lt in EV3. replace (ver =? 3) with false by (symmetry; apply N.eqb_neq; lia). exact G2.
    - cbv zeta. set (hs := sub64 size used / 2). destruct (64 <? hs); [discriminate|]. destruct (take_mem _ p5) as [[lh p6]|] eqn:ET; [|discriminate]. cbn [obind]. apply take_split in ET as [-> L1].
      destruct (take_mem _ p6) as [[gh p7]|] eqn:ET; [|discriminate]. cbn [obind]. apply take_split in ET as [-> L2].
      destruct (put_mem (d_linked d2) lh) as [l1|] eqn:EK; [|discriminate]. cbn [obind]. destruct (put_mem (d_gop d2) gh) as [g1|] eqn:EG; [|discriminate]. cbn [obind]. destruct (used + 2 * hs =? size) eqn:ES; intros H; [|discriminate H]. injection H as <-.
      apply N.eqb_eq in ES. clearbody hs. cbn [d_gop set_d_gop d_linked set_d_linked].
      set (v := firstn _ _). assert (EVv : v = (ver :: b1 :: b2 :: b3 :: b4 :: b5 :: b6 :: b7 :: b8 :: b9 :: fl :: pre ++ lh) ++ gh).
      { unfold v. rewrite EP. replace (ver :: b1 :: b2 :: b3 :: b4 :: b5 :: b6 :: b7 :: b8 :: b9 :: fl :: pre ++ lh ++ gh ++ p7)
          with (((ver :: b1 :: b2 :: b3 :: b4 :: b5 :: b6 :: b7 :: b8 :: b9 :: fl :: pre ++ lh) ++ gh) ++ p7) by (cbn [app]; rewrite <- !app_assoc; reflexivity).
        rewrite firstn_app. rewrite firstn_all2; [replace (N.to_nat size - _)%nat with 0%nat; [cbn [firstn]; apply app_nil_r|]|]; rewrite ?app_length; cbn [length]; rewrite ?app_length; lia. }
      clearbody v. apply N.ltb_ge in EV3. assert (EH : hd 0 v =? 3 = true) by (rewrite EVv; cbn [hd app]; apply N.eqb_eq; lia). rewrite EH.
      assert (EGI : gop_in v = gh /\ link_in v = lh).
      { unfold gop_in, link_in. assert (EN : nth 10 v 0 = fl) by (rewrite EVv; reflexivity). rewrite EN. set (u := if fl mod 2 =? 1 then 19%nat else 11%nat).
        assert (U : u = (11 + length pre)%nat) by (unfold u; rewrite <- EU, EU2; destruct (fl mod 2 =? 1); reflexivity). clearbody u. subst u.
        assert (LV : (length v = 11 + length pre + 2 * N.to_nat hs)%nat) by (rewrite EVv, app_length; cbn [length]; rewrite app_length; lia).
        replace ((length v - (11 + length pre)) / 2)%nat with (N.to_nat hs) by (rewrite LV; replace (11 + length pre + 2 * N.to_nat hs - (11 + length pre))%nat with (N.to_nat hs * 2)%nat by lia; symmetry; apply Nat.div_mul; lia).
        split.
        - rewrite EVv, skipn_app. rewrite skipn_all2; [|cbn [length]; rewrite app_length; lia]. cbn [app]. replace (_ - _)%nat with 0%nat; [reflexivity|]. cbn [length]. rewrite app_length. lia.
        - rewrite EVv. change (ver :: b1 :: b2 :: b3 :: b4 :: b5 :: b6 :: b7 :: b8 :: b9 :: fl :: pre ++ lh) with ((ver :: b1 :: b2 :: b3 :: b4 :: b5 :: b6 :: b7 :: b8 :: b9 :: fl :: pre) ++ lh).
          rewrite <- app_assoc, skipn_app. rewrite skipn_all2 by (cbn [length]; lia). cbn [app length]. replace (11 + length pre - _)%nat with 0%nat by lia. cbn [skipn].
          rewrite firstn_app, firstn_all2 by lia. replace (N.to_nat hs - length lh)%nat with 0%nat by lia. cbn. apply app_nil_r. }
      destruct EGI as [EGI ELI].
      rewrite EGI, ELI. unfold put_mem in EG, EK. destruct (length gh <=? _)%nat; [|discriminate]. destruct (length lh <=? _)%nat; [|discriminate]. injection EG as <-. injection EK as <-.
      rewrite !firstn_app, !Nat.sub_diag, !firstn_all. cbn. rewrite !app_nil_r. split; reflexivity. }
  destruct (fl mod 2 =? 1) eqn:EF.
  - destruct (read_64bits p4) as [[ts p5]|] eqn:E5; [|discriminate]. cbn [obind]. apply read64_inv in E5 as (pre & -> & LP). apply (HX _ _ _ pre); [reflexivity|rewrite LP; reflexivity|reflexivity|exact G1].
  - cbn [obind]. apply (HX _ _ _ []); [reflexivity|reflexivity|reflexivity|exact G1].
Qed.

Lemma other_gop d t m s : t <> 1 -> holds (decode_tag C d t m s) (fun '(d', _) => d_gop d' = d_gop d /\ d_linked d' = d_linked d) (fun _ => True).
Proof.
  intros HT. unfold decode_tag.
  repeat lazymatch goal with |- holds (match ?t with _ => _ end) _ _ => destruct t; try exact I end; try congruence;
    unfold decode_crypto, decode_signature, decode_product, decode_arbitrary, decode_hash_list, decode_public_key; cbv zeta;
    repeat first [exact I | (split; reflexivity)
      | lazymatch goal with |- holds (obind ?x _) _ _ => first [destruct x as [[[? ?] ?]|] | destruct x as [[? ?]|] | destruct x]; cbn [obind] end
      | dif | lazymatch goal with |- context [match d_sig d with _ => _ end] => destruct (d_sig d) end].
Qed.

(** Decoding all fields of a SEI. *)
Lemma loop_walk S Kk f : forall d p rem st, bytes_ok p -> dgood S Kk d -> (forall x, piece x p -> S x /\ Kk x) ->
  holds (tlv_decode_loop C f d p rem st) (fun '(d', st') => dgood S Kk d' /\
    exists fs q r2, walk p rem fs q r2 /\
      (d_list d' = d_list d \/ exists v, In (4, v :: d_list d') fs) /\
      (st' = SV_OK -> r2 = 0 /\ match last_list fs with Some l => d_list d' = l | None => d_list d' = d_list d end /\
         match last_gop fs with Some g => firstn (length g) (d_gop d') = g | None => d_gop d' = d_gop d end /\
         match last_link fs with Some g => firstn (length g) (d_linked d') = g | None => d_linked d' = d_linked d end)) (fun _ => True).
Proof.
  induction f as [|f IH]; intros d p rem st HB HG HS; cbn [tlv_decode_loop]; destruct (N.eqb_spec rem 0) as [E0|E0].
  1, 3: split; [exact HG|]; exists [], p, rem; split; [constructor|]; split; [left; reflexivity|]; intros _; split; [exact E0|]; repeat split.
  1: exact I.
  destruct (decode_tlv_header p) as [[[[[tag len] hsz] q]|]|] eqn:EH; [| |exact I]; cbn [obind].
  2:{ split; [exact HG|]. exists [], p, rem. split; [constructor|]. split; [left; reflexivity|discriminate]. }
  destruct (header_walk _ _ _ _ _ EH HB) as (HQ & HL & HW). destruct (N.eqb_spec tag 0) as [ET|ET]; [subst tag; exact I|]. destruct (HW ET) as (lb & EP & LW & VL & EZ).
  assert (PQ : forall x, piece x q -> piece x p). { intros x (a & b & ->). rewrite EP. exists (tag :: lb ++ a), b. cbn. rewrite !app_assoc. reflexivity. }
  pose proof (tag_good S Kk d tag q len ltac:(lia) HG (fun x Hx => HS x (PQ x Hx))) as HT. pose proof (other_gop d tag q len) as HO.
  destruct (decode_tag C d tag q len) as [[d1 st1]|] eqn:ED; [|exact I]. cbn [obind holds] in *. destruct HT as [G1 L1].
  assert (WK : forall fs q2 r2, walk (skipn (N.to_nat len) q) (rem - hsz - len) fs q2 r2 -> walk p rem ((tag, firstn (N.to_nat len) q) :: fs) q2 r2).
  { intros fs q2 r2 W. rewrite EP, <- VL. constructor; [exact LW|]. rewrite VL, <- EZ. exact W. }
  destruct (is_ok st1) eqn:ES; cbn [holds].
  - assert (st1 = SV_OK) as -> by (destruct st1; try discriminate; reflexivity).
    eapply holds_impl; [apply IH; [unfold bytes_ok; rewrite <- (firstn_skipn (N.to_nat len) q) in HQ; apply Forall_app in HQ; apply HQ|exact G1|]| |auto].
    { intros x Hx. apply HS, PQ. eapply piece_trans; [exact Hx|apply piece_skipn]. }
    intros [d2 st2] (G2 & fs & q2 & r2 & W & L2 & L3). split; [exact G2|]. exists ((tag, firstn (N.to_nat len) q) :: fs), q2, r2. split; [apply WK, W|]. split.
    + destruct L2 as [L2|(v & L2)]; [|right; exists v; right; exact L2]. rewrite L2. destruct L1 as [L1|(-> & _ & v & L1)]; [left; exact L1|right; exists v; left; rewrite L1; reflexivity].
    + intros E. destruct (L3 E) as (R0 & L4 & L5 & L6). split; [exact R0|]. cbn [last_list last_gop last_link]. split; [|split].
      * destruct (last_list fs) as [l|] eqn:EL; [exact L4|]. rewrite L4. destruct (N.eqb_spec tag 4) as [->|N4].
        -- destruct L1 as [L1|(_ & _ & v & L1)].
           ++ (* unchanged: the same list was there *)
              cbn [decode_tag] in ED. unfold decode_hash_list in ED. destruct q as [|b0 q']; [discriminate|]. cbn [read_8bits obind] in ED. cbv zeta in ED.
              destruct (b0 =? 0); [discriminate|]. destruct (19200 <? sub64 len 1) eqn:EZ2; [discriminate|]. destruct (take_mem _ q') as [[l q3]|] eqn:EM; [|discriminate]. cbn [obind] in ED.
              injection ED as <-. apply take_inv in EM as (-> & -> & HM). assert (len <> 0) by (intros ->; cbn in EZ2; discriminate).
              replace (N.to_nat len) with (Datatypes.S (N.to_nat (len - 1))) by lia. cbn [firstn tl d_list set_d_list]. f_equal. unfold sub64, u64. lia.
           ++ rewrite L1. reflexivity.
        -- destruct L1 as [L1|(N5 & _)]; [exact L1|congruence].
      * destruct (last_gop fs) as [g0|] eqn:EG; [exact L5|]. rewrite L5. destruct (N.eqb_spec tag 1) as [->|N1].
        -- cbn [decode_tag] in ED. pose proof (general_gop d q len d1 HL ED) as GG. cbv zeta in GG. cbn [andb]. destruct (hd 0 _ =? 3); apply GG.
        -- cbn [andb]. apply HO, N1.
      * destruct (last_link fs) as [g0|] eqn:EG; [exact L6|]. rewrite L6. destruct (N.eqb_spec tag 1) as [->|N1].
        -- cbn [decode_tag] in ED. pose proof (general_gop d q len d1 HL ED) as GG. cbv zeta in GG. cbn [andb]. destruct (hd 0 _ =? 3); apply GG.
        -- cbn [andb]. apply HO, N1.
  - split; [exact G1|]. exists [(tag, firstn (N.to_nat len) q)], (skipn (N.to_nat len) q), (rem - hsz - len). split; [apply WK; constructor|]. split.
    + destruct L1 as [L1|(_ & -> & _)]; [left; exact L1|discriminate].
    + intros ->. discriminate.
Qed.

Definition dstay (d d' : dec) : Prop := d_gop d' = d_gop d /\ d_list d' = d_list d /\ d_linked d' = d_linked d.
Lemma opt_walk S Kk f : forall d p rem any, bytes_ok p -> dgood S Kk d -> (forall x, piece x p -> S x /\ Kk x) ->
  holds (opt_loop C f d p rem any) (fun '(d', _) => dgood S Kk d' /\ dstay d d') (fun _ => True).
Proof.
  induction f as [|f IH]; intros d p rem any HB HG HS; cbn [opt_loop]; destruct (rem =? 0).
  1, 3: split; [exact HG|repeat split].
  1: exact I.
  destruct (decode_tlv_header p) as [[[[[tag len] hsz] q]|]|] eqn:EH; [| |exact I]; cbn [obind].
  2:{ split; [exact HG|repeat split]. }
  destruct (header_walk _ _ _ _ _ EH HB) as (HQ & HL & HW). destruct (8 <? tag); [exact I|].
  assert (PQ : forall x, piece x q -> piece x p).
  { destruct (N.eqb_spec tag 0) as [->|ET].
    - clear -EH. unfold decode_tlv_header in EH. destruct p as [|t p]; [discriminate|]. cbn [read_8bits obind] in EH. destruct (negb _); [discriminate|].
      destruct (len_bytes t =? 2)%nat; [destruct (read_16bits p) as [[a b]|] eqn:E|destruct (read_8bits p) as [[a b]|] eqn:E]; try discriminate; cbn [obind] in EH; injection EH as _ _ _ <-.
      + apply read16_inv in E as (x & y & ->). intros z Hz. do 3 apply piece_cons. exact Hz.
      + apply read8_inv in E as ->. intros z Hz. do 2 apply piece_cons. exact Hz.
    - destruct (HW ET) as (lb & EP & _). intros x (a & b & ->). rewrite EP. exists (tag :: lb ++ a), b. cbn. rewrite !app_assoc. reflexivity. }
  assert (HN : bytes_ok (skipn (N.to_nat len) q)) by (unfold bytes_ok; rewrite <- (firstn_skipn (N.to_nat len) q) in HQ; apply Forall_app in HQ; apply HQ).
  assert (HN2 : forall x, piece x (skipn (N.to_nat len) q) -> S x /\ Kk x) by (intros x Hx; apply HS, PQ; eapply piece_trans; [exact Hx|apply piece_skipn]).
  destruct (always_present tag) eqn:EA.
  - apply IH; assumption.
  - pose proof (tag_good S Kk d tag q len ltac:(lia) HG (fun x Hx => HS x (PQ x Hx))) as HT. pose proof (other_gop d tag q len) as HO.
    destruct (decode_tag C d tag q len) as [[d1 st1]|] eqn:ED; [|exact I]. cbn [obind holds] in *. destruct HT as [G1 L1].
    assert (ST : dstay d d1).
    { assert (HT : tag <> 1) by (intros ->; discriminate). destruct (HO HT) as [O1 O2]. split; [exact O1|]. split; [|exact O2]. destruct L1 as [L1|(-> & _)]; [exact L1|discriminate]. }
    destruct (is_ok st1); cbn [holds].
    + eapply holds_impl; [apply IH; [exact HN|exact G1|exact HN2]| |auto]. intros [d2 b2] [G2 (S1 & S2 & S3)]. split; [exact G2|]. destruct ST as (S4 & S5 & S6). repeat split; congruence.
    + split; [exact G1|exact ST].
Qed.
End Dec.

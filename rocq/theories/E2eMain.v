(** An untampered stream is found authentic: lemmas. *)
From Verif Require Import Base BaseProofs Epb EpbProofs Nalu NaluSpec NaluProofs Crypto Types Hash Tlv TlvProofs EncProofs CodecSpec CodecProofs
  SeiSpec SeiProofs GenProofs SessProofs Signer SignSpec GopSpec GopProofs EosSpec VTypes NaluList Validator SeiHashProofs VListProofs VKeyProofs VUnsigned
  MatchSpec E2eSpec DamageSpec LossSpec EndSpec E2eDec E2eList E2eVal E2eAny E2eLoss E2eStep E2eSei E2eRaw.
Local Open Scope N_scope.

(** A NALU that starts a GOP starts a picture. *)
Lemma first_primary d c n : parse_nalu d c true false = Def n -> n_first_in_gop n = true -> n_gop_sei n = false -> n_primary n = true.
Proof.
  unfold parse_nalu. destruct d as [|b d]; [intros E; injection E as <-; discriminate|]. set (data := b :: d). clearbody data.
  destruct (start_code_len data) as [k|u]; [|discriminate]. cbn [obind].
  destruct (parse_header c (skipn k data)) as [[[ty pr] va]|u]; [|discriminate]. cbn [obind].
  destruct (strip_trailing data) as [t|u]; [|discriminate]. cbn [obind].
  destruct (negb (ntype_eqb ty TSei)) eqn:ET.
  - intros E F _. injection E as <-. cbn [n_first_in_gop n_primary] in *. apply andb_prop in F as [_ F]. exact F.
  - assert (ty = TSei) as -> by (destruct ty; discriminate || reflexivity). cbn [ntype_eqb andb].
    destruct (skipn (header_len c) (skipn k data)) as [|ud p1]; [discriminate|].
    destruct (ud =? 5); [|intros E F; injection E as <-; discriminate].
    destruct (get_payload_size p1) as [[[ps k2] p2]|u]; [|discriminate]. cbn [obind].
    destruct (length p2 <? 16)%nat; [discriminate|].
    rewrite andb_false_r. unfold remove_epb. cbn [n_hashable negb orb]. intros E F; injection E as <-; discriminate.
Qed.

Lemma gop_starts a b : is_gop (a ++ b) -> starts a.
Proof.
  intros (p & r & E & F & _). destruct a as [|p0 a]; [left; reflexivity|]. cbn [app] in E. injection E as <- _. right. eauto.
Qed.

Lemma told_app1 b l rs rs2 s P : Forall2 early b rs -> (s = true -> rs = map (fun _ => VRes SV_OK None) b) -> told s P l rs2 -> told s P (map Seen b ++ l) (rs ++ rs2).
Proof.
  intros F. revert s. induction F as [|p r b rs E F IH]; intros s HS A; [exact A|]. cbn [map app told]. split.
  - destruct s; [left; specialize (HS eq_refl); cbn [map] in HS; congruence|]. destruct E as [E|(E1 & E2)]; [left; exact E|right; auto].
  - apply IH; [|exact A]. intros X. specialize (HS X). cbn [map] in HS. congruence.
Qed.
Lemma told_app s P l rs b rs0 : rs0 = map (fun _ : piece => VRes SV_OK None) b -> told s P l rs -> told s P (map Seen b ++ l) (rs0 ++ rs).
Proof.
  intros -> A. apply told_app1; [|reflexivity|exact A]. clear. induction b; constructor; auto. left. reflexivity.
Qed.
Lemma told_impl l : forall s (P Q : Prop) rs, (Q -> P) -> told s P l rs -> told s Q l rs.
Proof.
  induction l as [|[p|y se go sb gb la] l IH]; intros s P Q rs I T; destruct rs as [|r rs]; cbn [told] in *; try exact T; destruct T as [T1 T2]; (split; [|eapply IH; [|exact T2]; tauto]).
  - exact T1.
  - destruct T1 as (q & E & K & F & A). exists q. repeat (split; [assumption|]). intros HQ. apply A, I, HQ.
Qed.
Lemma closes_app R b l rs0 rs : length rs0 = length b -> closes R l rs -> closes R (map Seen b ++ l) (rs0 ++ rs).
Proof.
  revert rs0. induction b as [|p b IH]; intros [|r rs0] L A; try discriminate; [exact A|]. cbn [map app closes]. apply IH; [|exact A]. injection L; auto.
Qed.
Lemma feeds_pics b : map feeds (map Seen b) = map sends (map Pic b).
Proof. rewrite !map_map. reflexivity. Qed.

Lemma gops_next C w k lo f prev g nx r gs : gops_fields C w k lo f prev (g :: (nx :: r) :: gs) =
  gop_fields C w k (due (w_rec w) lo (f + frames g + (if p_frame nx then 1 else 0))) prev (hashed g) (GopSpec.p_ts nx)
  :: gops_fields C w (k + 1) (f + frames g + (if p_frame nx then 1 else 0)) (f + frames g) (hd_error (hashed g)) ((nx :: r) :: gs).
Proof. reflexivity. Qed.

Lemma f2_cons {A B} (P : A -> B -> Prop) a l b m : Forall2 P (a :: l) (b :: m) -> P a b /\ Forall2 P l m.
Proof. inversion 1; auto. Qed.

Lemma first_frame c p : seen c p -> legal c p -> p_first p = true -> p_frame p = true.
Proof.
  intros (_ & n & EN & N1 & N2 & _) (_ & _ & L0) PF. destruct (L0 n EN) as [NG _].
  rewrite PF in N1. pose proof (first_primary _ _ _ EN (eq_sym N1) NG) as NP. congruence.
Qed.

Lemma f2_length {A B} (P : A -> B -> Prop) l m : Forall2 P l m -> length l = length m.
Proof. induction 1; cbn; congruence. Qed.

Lemma many_subseq z s n : (n <= times z s)%nat -> subseq (repeat z n) s.
Proof.
  unfold times. revert n. induction s as [|x s IH]; intros n L; cbn [filter length] in L.
  - assert (n = 0)%nat as -> by lia. constructor.
  - destruct (N.eqb_spec z x) as [<-|_].
    + destruct n as [|n]; [constructor; apply IH; lia|]. cbn [repeat]. constructor. apply IH. cbn [length] in L. lia.
    + constructor. apply IH, L.
Qed.
Lemma finds_tells xs q : nlen xs < 65536 -> finds_ok xs q -> tells xs xs q.
Proof.
  intros L (F1 & F2 & F3 & F4 & F5). exists (map (fun _ => true) xs). split; [apply apart_same|]. split; [exact F2|]. split; [rewrite F3, N.mod_small by exact L; unfold nlen; lia|].
  rewrite wrong_none. split.
  - rewrite map_map. assert (ER : map (fun _ : list N => shown_as true) xs = repeat 46 (length xs)) by (clear; induction xs as [|x xs IH]; [reflexivity|]; cbn [map length repeat]; rewrite IH; reflexivity). rewrite ER. apply many_subseq. lia.
  - rewrite (no_times 78 _ _ F4), (no_times 77 _ _ F4) by (cbn; intuition discriminate). split; [reflexivity|]. split; [congruence|]. intros _.
    split; [lia|]. rewrite Nat.ltb_irrefl. exact F1.
Qed.
Section Main.
Context {SGop : start_gop}.
Variable C : crypto.
Hypothesis HC : crypto_ok C.
Hypothesis HKW : keys_work C.
Variable Ov : ovf.
Variable c : codec.
Variable w : settings.
Variable hs : nat.
Hypothesis HO : c_oid C (w_oid w) = OidDigest hs.
Hypothesis HW0 : w_oid w <> [].
Hypothesis HWl : nlen (w_oid w) < 254.
Hypothesis HP0 : w_pub w <> [].
Hypothesis HPl : nlen (w_pub w) < 65535.
Hypothesis HPk : c_pub_ok C (w_pub w) = true.
Hypothesis HR5 : length (w_prod w) = 5%nat.
Hypothesis HRb : Forall (Forall (fun b => 0 < b < 256)) (w_prod w).
Hypothesis HMx : N.of_nat (w_max_sig w) + 5 < 65536.
Hypothesis HU : w_using w = false.
Hypothesis HRc : w_rec w <> 0.
Variable f : nat.

Let H := c_hash C (w_oid w).
Notation its_h := (its (first_hash H hs) (other_hash H hs)).
Notation vgood b P v k prev x := (vgoodo C Ov c w hs b P v k prev (Some x)).
Notation vraw := (vraw C c w hs).
Definition slim (fs : list (N * list N)) : Prop := few_escapes (w_epb w) fs (w_max_sig w).

Lemma run_all v v1 l1 l2 r1 : vrun C Ov (S f) v l1 = Def (v1, r1) -> forall v2 r2, vrun C Ov (S f) v1 l2 = Def (v2, r2) ->
  vrun C Ov (S f) v (l1 ++ l2) = Def (v2, r1 ++ r2).
Proof.
  revert v r1. induction l1 as [|o l1 IH]; intros v r1 E v2 r2 E2; cbn [app vrun] in *.
  - injection E as <- <-. exact E2.
  - destruct (vexec C Ov (S f) v o) as [[va xa]|]; [|discriminate]. cbn [obind] in *. destruct (vrun C Ov (S f) va l1) as [[vb xb]|] eqn:EB; [|discriminate].
    cbn [obind] in E. injection E as <- <-. rewrite (IH va xb EB v2 r2 E2). reflexivity.
Qed.

(** A report on a GOP whose hashes are in the SEI. *)
Lemma inj_dec (F : list N -> list N) (g s : list (list N)) : (exists a b, In a g /\ In b s /\ a <> b /\ F a = F b) \/ (forall a b, In a g -> In b s -> F a = F b -> a = b).
Proof.
  assert (D : {Exists (fun a => Exists (fun b => a <> b /\ F a = F b) s) g} + {~ Exists (fun a => Exists (fun b => a <> b /\ F a = F b) s) g}).
  { apply Exists_dec. intros a. apply Exists_dec. intros b. destruct (list_eq_dec N.eq_dec a b) as [E|E]; [right; tauto|].
    destruct (list_eq_dec N.eq_dec (F a) (F b)) as [E2|E2]; [left; auto|right; tauto]. }
  destruct D as [D|D].
  - left. apply Exists_exists in D as (a & IA & D). apply Exists_exists in D as (b & IB & D1 & D2). eauto 7.
  - right. intros a b IA IB E. destruct (list_eq_dec N.eq_dec a b) as [E2|E2]; [exact E2|]. destruct D. apply Exists_exists. exists a. split; [exact IA|].
    apply Exists_exists. exists b. auto.
Qed.
Lemma map_inj (F : list N -> list N) g : forall s, map F g = map F s -> (forall a b, In a g -> In b s -> F a = F b -> a = b) -> g = s.
Proof.
  induction g as [|a g IH]; intros [|b s] E I; try discriminate; [reflexivity|]. cbn [map] in E. assert (E1 : F a = F b) by congruence. assert (E2 : map F g = map F s) by congruence.
  rewrite (I a b (or_introl eq_refl) (or_introl eq_refl) E1). f_equal. apply IH; [exact E2|]. intros x y X Y. apply I; right; assumption.
Qed.
Lemma app_parts {A} (a : list A) : forall b x y, length a = length b -> a ++ x = b ++ y -> a = b /\ x = y.
Proof. induction a as [|z a IH]; intros [|t b] x y L E; try discriminate; [auto|]. cbn in E, L. injection E as -> E. injection L as L. destruct (IH _ _ _ L E) as [-> ->]. auto. Qed.
Lemma concat_sized (a : list (list N)) : forall b, Forall (fun e => length e = hs) a -> Forall (fun e => length e = hs) b -> concat a = concat b -> a = b.
Proof.
  pose proof (proj1 (hs_small C HC w hs HO)) as HS0.
  induction a as [|x a IH]; intros [|y b] FA FB E; cbn [concat] in E; try reflexivity.
  - apply Forall_cons_iff in FB as [L _]. symmetry in E. apply app_eq_nil in E as [-> _]. cbn in L. lia.
  - apply Forall_cons_iff in FA as [L _]. apply app_eq_nil in E as [-> _]. cbn in L. lia.
  - apply Forall_cons_iff in FA as [LA FA], FB as [LB FB]. apply app_parts in E as [-> E]; [|congruence]. f_equal. apply IH; assumption.
Qed.
Lemma lists_in k rec so sg gh ts : lists C w sg -> In (4, 1 :: concat (hashes H sg)) (gop_fields_with C w k rec so sg gh ts).
Proof.
  intros (L1 & L2 & L3). unfold gop_fields_with. cbv zeta. apply in_app_iff. right. unfold list_field. cbv zeta. rewrite L1, L2. fold H.
  assert (L : length (concat (hashes H sg)) = (hs * length sg)%nat).
  { rewrite <- (hashes_length C w sg). pose proof (hashes_sizes C HC w hs HO sg) as F. fold H in F |- *. clear - F. induction F as [|e l E F IH]; [cbn; lia|]. cbn [concat length]. rewrite app_length, IH, E. lia. }
  unfold oid_size in L3. rewrite HO in L3. destruct (N.leb_spec (nlen (concat (hashes H sg))) 19200) as [_|X]; [left; reflexivity|].
  unfold nlen in *. rewrite L in X. lia.
Qed.
Lemma hears_gen k rec ts so sg gh o got q : let fs := gop_fields_with C w k rec so sg gh ts in
  (fine C w fs so sg gh o got -> finds_ok got q) -> (lossy C w fs so sg gh o got -> heard_as C w sg got (p_latest q) (l_vstr (p_latest q))) ->
  lists C w sg -> hd_error got = hd_error sg -> o = so \/ o = None ->
  tells sg got q \/ (exists x0 a b, hd_error sg = Some x0 /\ In a got /\ In b sg /\ a <> b /\ H (H x0 ++ H a) = H (H x0 ++ H b)) \/
  (concat (hashes H got) <> concat (hashes H sg) /\ H (concat (hashes H got)) = gh).
Proof.
  intros fs FO HE LI HD LK. pose proof (lists_in k rec so sg gh ts LI) as IN. fold fs in IN.
  assert (LB : linked_by so o) by (destruct LK as [->| ->]; [left; reflexivity|right; reflexivity]).
  pose proof (listed_short C HC w hs HO HWl HPl HR5 HMx k rec so sg gh ts IN) as SH.
  destruct (list_eq_dec (list_eq_dec N.eq_dec) got sg) as [-> |NE].
  { left. apply finds_tells; [exact SH|]. apply FO. split; [exact LB|]. split; [reflexivity|]. right. exact IN. }
  destruct got as [|x0 got]; [destruct sg; [congruence|discriminate]|]. destruct sg as [|y0 sg]; [discriminate|]. cbn [hd_error] in HD. injection HD as <-.
  destruct (inj_dec (fun a => H (H x0 ++ H a)) (x0 :: got) (x0 :: sg)) as [(a & b & IA & IB & NE' & EH)|INJ].
  { right. left. exists x0, a, b. auto 10. }
  assert (INJ' : forall a b, In a got -> In b sg -> H (H x0 ++ H a) = H (H x0 ++ H b) -> a = b) by (intros a b IA IB; apply INJ; right; assumption).
  destruct (list_eq_dec N.eq_dec (concat (hashes H (x0 :: got))) (concat (hashes H (x0 :: sg)))) as [EC|NC].
  { exfalso. apply NE. apply concat_sized in EC; [|apply (hashes_sizes C HC w hs HO)..]. cbn [hashes] in EC. f_equal. apply (map_inj (fun a => H (H x0 ++ H a))); [congruence|exact INJ']. }
  destruct (list_eq_dec N.eq_dec (H (concat (hashes H (x0 :: got)))) gh) as [EC|NG]; [right; right; auto|].
  left. destruct HE as (bs & m & T & B2 & B3 & B4 & B5 & B6 & B7 & B8).
  { split; [exact LB|]. split; [reflexivity|]. split; [intros X; apply NG; symmetry; exact X|exact IN]. }
  fold H in T. cbn [hashes] in T. apply apart_cons in T as (b & -> & T). apply apart_map in T; [|exact INJ'].
  exists (true :: b). split; [apply (apart_good []); [auto|exact T]|]. split; [exact B4|]. split; [exact B5|]. split; [exact B6|]. split; [exact B7|].
  rewrite B3, B8. split; intros W.
  - destruct (Nat.eqb_spec (wrong (true :: b)) 0) as [X|_]; [contradiction|reflexivity].
  - specialize (B2 W). rewrite W. cbn [Nat.eqb]. split; [lia|].
    destruct (Nat.eqb_spec m 0) as [X|X], (Nat.ltb_spec (length (x0 :: got)) (length (x0 :: sg))) as [Y|Y]; try reflexivity; lia.
Qed.
Lemma hears_of k rec ts so sg o got q : let fs := gop_fields C w k rec so sg ts in let gh := H (concat (hashes H sg)) in
  (fine C w fs so sg gh o got -> finds_ok got q) -> (lossy C w fs so sg gh o got -> heard_as C w sg got (p_latest q) (l_vstr (p_latest q))) ->
  hears C w sg got so o q.
Proof.
  intros fs gh FO HE LI HD LK. destruct (hears_gen k rec ts so sg gh o got q FO HE LI HD LK) as [X|[X|X]]; [left; exact X|right; left; exact X|right; right; exact X].
Qed.

(** The SEI at the end. [lstart] is the first hashed NALU of the GOP before the last, [lhash] its GOP hash. *)
Fixpoint lstart (o : option (list N)) (gs : list (list piece)) : option (list N) :=
  match gs with [] => o | g :: rest => match rest with [] => o | _ => lstart (hd_error (hashed g)) rest end end.
Fixpoint lhash (gh : list N) (gs : list (list piece)) : list N :=
  match gs with [] => gh | g :: rest => match rest with [] => gh | _ => lhash (H (concat (hashes H (hashed g)))) rest end end.
Definition same_gops (gs hss : list (list piece)) : Prop := Forall2 (fun g h => hashed h = hashed g) gs hss.
Definition eos (P : Prop) k lo fr sp hp gh gs hss v : Prop :=
  forall z y, lists C w (hashed (last gs [])) -> sei_with C c w (last_fields C w k lo fr sp gh gs) z -> delivered (w_epb w) z y ->
    few_escapes (w_epb w) (last_fields C w k lo fr sp gh gs) (w_max_sig w) ->
    exists v' q, add_nalu C Ov (S f) v y true = Def (v', VRes SV_OK (Some q)) /\ keeps_book [] q /\
      (intact (hashed (last gs [])) (hashed (last hss [])) (lstart sp gs) (lstart hp hss) -> finds_ok (hashed (last hss [])) q) /\
      (P -> hp = sp \/ hp = None -> same_gops gs hss -> a_auth (p_acc q) = AuthOk) /\
      (hd_error (hashed (last hss [])) = hd_error (hashed (last gs [])) -> lstart hp hss = lstart sp gs \/ lstart hp hss = None ->
       tells (hashed (last gs [])) (hashed (last hss [])) q \/ clash H (hashed (last gs [])) (hashed (last hss [])) \/
       H (concat (hashes H (hashed (last hss [])))) = lhash gh gs).

Lemma main2 sp hp g h b gs hss xs r : arrives (w_epb w) sp hp g h b gs hss xs r -> forall (P : Prop) a v k lo fr x, h = a ++ b -> Forall is_gop (g :: gs) -> Forall is_gop (h :: hss) ->
  Forall (seen c) (concat (g :: gs)) -> Forall (seen c) (b ++ concat hss) -> Forall (legal c) (b ++ concat hss) -> 1 <= k -> vgood false P v (k - 1) hp x -> its_h hp a (v_items v) (Some x) ->
  Forall2 (sei_with C c w) (gops_fields C w k lo fr sp (g :: gs)) xs -> Forall slim (gops_fields C w k lo fr sp (g :: gs)) ->
  exists v' res, vrun C Ov (S f) v (map feeds r) = Def (v', res) /\ (told true P r res /\ closes (hears C w) r res) /\
    forall gh, length gh = hs -> eos P k lo fr sp hp gh (g :: gs) (h :: hss) v'.
Proof.
  induction 1 as [sp hp g h b|sp hp g h b g' a' b' gs hss sx y xs r D IO IH]; intros P a v k lo fr x EG IG IH0 SS SN LG K1 G I F2 FS.
  - cbn [concat] in SN, LG. rewrite app_nil_r in SN, LG.
    destruct (pics_step C HC Ov c w hs HO HWl HPl HR5 HMx f false P b v (k - 1) hp x hp a G I SN LG) as (v' & x' & rs & E & G1 & I1 & R).
    exists v', rs. split; [rewrite feeds_pics; exact E|]. split.
    { rewrite <- (app_nil_r (map Seen b)), <- (app_nil_r rs).
      split; [apply told_app; [exact R|exact Logic.I]|]. apply closes_app; [rewrite R, map_length; reflexivity|exact Logic.I]. }
    intros gh LH z y LI SW D FE. cbn [last lstart lhash last_fields] in *. cbv zeta in *. apply Forall_cons_iff in IH0 as [IH0 _].
    rewrite <- EG, <- (app_nil_r h) in I1.
    destruct (sei_step C HC HKW Ov c w hs HO HW0 HWl HP0 HPl HPk HR5 HRb HMx f false P v' k _ None sp (hashed g) gh x' hp h [] z y G1 LH (or_intror eq_refl) K1 Logic.I IH0 (or_introl eq_refl) I1 SW D FE)
      as (v2 & q & x0 & E2 & KB & FO & AO & HE & _).
    exists v2, q. split; [exact E2|]. split; [exact KB|].
    assert (IN : In (4, 1 :: concat (hashes H (hashed g))) (gop_fields_with C w k (due (w_rec w) lo (fr + frames g)) sp (hashed g) gh None)) by (apply lists_in; exact LI).
    split; [|split].
    + intros [X Y]. apply FO. split; [destruct Y; [left|right]; auto|]. split; [auto|right; exact IN].
    + intros HP LK SG. apply AO; [exact HP|]. apply f2_cons in SG as [SG _]. split; [destruct LK; [left|right]; auto|]. split; [auto|right; exact IN].
    + intros HD LK. destruct (hears_gen k _ None sp (hashed g) gh hp (hashed h) q FO HE LI HD LK) as [X|[X|[_ X]]]; [left; exact X|right; left; left; exact X|right; right; exact X].
  - cbn [concat] in SN, LG. rewrite <- !app_assoc in SN, LG. rewrite app_assoc in SN, LG. apply Forall_app in SN as [SN1 SN2], LG as [LG1 LG2].
    destruct (pics_step C HC Ov c w hs HO HWl HPl HR5 HMx f false P (b ++ a') v (k - 1) hp x hp a G I SN1 LG1) as (v1 & x1 & rs & E & G1 & I1 & R).
    rewrite app_assoc, <- EG in I1. apply Forall_cons_iff in IG as [IG0 IG]. pose proof IG as IG'. apply Forall_cons_iff in IG' as [IG1 _].
    apply Forall_cons_iff in IH0 as [IH0 IHs]. pose proof IHs as IHs'. apply Forall_cons_iff in IHs' as [IH1 _].
    cbn [concat] in SS. apply Forall_app in SS as [_ SS].
    pose proof IG1 as (p & r0 & EP & PF & PB & PR). pose proof (gop_starts _ _ IH1) as SA.
    assert (EG2 : g' :: gs = (p :: r0) :: gs) by (rewrite EP; reflexivity).
    rewrite EG2, gops_next, <- EG2 in F2, FS.
    apply f2_cons in F2 as [SW F2r]. apply Forall_cons_iff in FS as [FS0 FS].
    assert (TS : match GopSpec.p_ts p with Some t => (-9223372036854775808 <= t < 9223372036854775808)%Z | None => True end).
    { assert (SP : seen c p) by (apply (proj1 (Forall_forall _ _) SS); cbn [concat]; rewrite EP; left; reflexivity).
      destruct SP as (T & _). exact T. }
    destruct (sei_step C HC HKW Ov c w hs HO HW0 HWl HP0 HPl HPk HR5 HRb HMx f false P v1 k _ (GopSpec.p_ts p) sp (hashed g) (H (concat (hashes H (hashed g)))) x1 hp h a' sx y G1 (H_len C HC w hs HO _) (or_intror eq_refl) K1 TS IH0 SA I1 SW D FS0)
      as (v2 & rep & x0 & E2 & KB & FO & AO & HE & HD & G3 & I3).
    pose proof (hears_of k _ (GopSpec.p_ts p) sp (hashed g) hp (hashed h) rep FO HE) as HR.
    rewrite HD in IH.
    assert (OKF : intact (hashed g) (hashed h) sp hp -> fine C w (gop_fields_with C w k (due (w_rec w) lo (fr + frames g + (if p_frame p then 1 else 0))) sp (hashed g) (H (concat (hashes H (hashed g)))) (GopSpec.p_ts p)) sp (hashed g) (H (concat (hashes H (hashed g)))) hp (hashed h)).
    { intros [X Y]. split; [destruct Y; [left|right]; auto|]. split; [auto|left; reflexivity]. }
    match type of G3 with E2eStep.vgoodo _ _ _ _ _ _ (P /\ ?z) _ _ _ _ => set (okf := z) in G3 end.
    destruct (IH (P /\ okf) a' v2 (k + 1) (fr + frames g + (if p_frame p then 1 else 0)) (fr + frames g) x1 eq_refl IG IHs SS SN2 LG2) as (v3 & res & E3 & A3); [lia|replace (k + 1 - 1) with k by lia; exact G3|exact I3|exact F2r|exact FS|].
    destruct A3 as [[A3 A4] A5].
    exists v3, (rs ++ VRes SV_OK (Some rep) :: res). split; [|split; [split|]].
    + rewrite app_assoc, <- map_app, map_app, feeds_pics. apply (run_all _ _ _ _ _ E). cbn [map feeds vrun vexec]. rewrite E2. cbn [obind]. rewrite E3. reflexivity.
    + rewrite app_assoc, <- map_app. apply told_app; [exact R|]. cbn [told]. unfold intact. split.
      * exists rep. split; [reflexivity|]. split; [exact KB|]. split; [intros X; apply FO, OKF, X|]. intros HP X. apply AO; [exact HP|]. apply OKF, X.
      * eapply told_impl; [|exact A3]. intros (HP & X). split; [exact HP|]. apply OKF, X.
    + rewrite app_assoc, <- map_app. apply closes_app; [rewrite R, map_length; reflexivity|]. cbn [closes]. split; [exists rep; auto|exact A4].
    + intros gh LH z zy LI SW2 D2 FE2.
      assert (EL : last_fields C w k lo fr sp gh (g :: g' :: gs) = last_fields C w (k + 1) (fr + frames g + (if p_frame p then 1 else 0)) (fr + frames g) (hd_error (hashed g)) (H (concat (hashes H (hashed g)))) (g' :: gs)) by (rewrite EP; reflexivity).
      rewrite EL in SW2, FE2.
      destruct (A5 (H (concat (hashes H (hashed g)))) (H_len C HC w hs HO _) z zy LI SW2 D2 FE2) as (v4 & q & B1 & B2 & B3 & B4 & B5).
      exists v4, q. split; [exact B1|]. split; [exact B2|]. split; [|split].
      * rewrite <- HD in B3. exact B3.
      * intros HP LK SG. apply f2_cons in SG as [SG0 SG]. apply B4; [|left; congruence|exact SG]. split; [exact HP|]. apply OKF. split; [exact SG0|exact LK].
      * rewrite <- HD in B5. exact B5.
Qed.

(** From the first GOP that arrives: NALU [k] of the session. *)
Lemma main0 so k lo fr bh g h gs hss xs r v : arrives (w_epb w) so None g h h gs hss xs r -> vraw v -> v_items v = [] ->
  Forall is_gop (g :: gs) -> Forall is_gop (h :: hss) -> hashed h = hashed g ->
  Forall (fun p => p_first p = false /\ p_bytes p = None) bh ->
  Forall (seen c) (concat (g :: gs)) -> Forall (seen c) (bh ++ concat (h :: hss)) -> Forall (legal c) (bh ++ concat (h :: hss)) ->
  1 <= k /\ apart Ov (k mod 2 ^ 32) first_gop ->
  (forall nx r', hd_error gs = Some (nx :: r') -> due (w_rec w) lo (fr + frames g + (if p_frame nx then 1 else 0)) = true) ->
  Forall2 (sei_with C c w) (gops_fields C w k lo fr so (g :: gs)) xs -> Forall slim (gops_fields C w k lo fr so (g :: gs)) ->
  exists v' res, vrun C Ov (S f) v (map feeds (map Seen bh ++ r)) = Def (v', res) /\ (told false True (map Seen bh ++ r) res /\ closes (hears C w) (map Seen bh ++ r) res) /\
    forall gh, length gh = hs -> (gs = [] -> due (w_rec w) lo (fr + frames g) = true) -> eos True k lo fr so None gh (g :: gs) (h :: hss) v'.
Proof.
  intros IO G EI IG IH EF FB SS SN LG HK DU F2 FS. apply Forall_app in SN as [SN0 SN], LG as [LG0 LG].
  destruct (before_run C HC Ov c w hs HO HWl HPl HR5 HMx f bh v G) as (v1 & E1 & G1 & Q1); [rewrite EI; constructor|exact SN0|exact LG0|exact FB|].
  enough (X : exists v' res, vrun C Ov (S f) v1 (map feeds r) = Def (v', res) /\ (told false True r res /\ closes (hears C w) r res) /\
    forall gh, length gh = hs -> (gs = [] -> due (w_rec w) lo (fr + frames g) = true) -> eos True k lo fr so None gh (g :: gs) (h :: hss) v').
  { destruct X as (v' & res & E2 & (A2 & A3) & A4). exists v'. eexists. split; [rewrite map_app, feeds_pics; apply (run_all _ _ _ _ _ E1 _ _ E2)|].
    split; [|exact A4]. split; [apply told_app; [reflexivity|exact A2]|]. apply closes_app; [apply map_length|exact A3]. }
  assert (I1 : its raw (fun _ => raw) None [] (v_items v1) None).
  { clear - Q1. induction Q1; constructor; auto. }
  apply Forall_cons_iff in IG as [IG0 IG], IH as [IH0 IH]. cbn [concat] in SN, LG, SS.
  inversion IO as [sp1 hp1 g1 h1 b1 X1 X2 X3 X4 X5 X6 X7 X8 X9|sp1 hp1 g1 h1 b1 g' a' b' gs1 hss1 sx y xs1 r1 D IO1 X1 X2 X3 X4 X5 X6 X7 X8 X9]; subst; clear IO.
  - cbn [concat] in SN, LG. rewrite app_nil_r in SN, LG.
    destruct (raw_run C HC Ov c w hs HO HWl HPl HR5 HMx f h v1 [] None G1 I1 (or_introl eq_refl)) as (v2 & rs & o2 & E2 & G2 & I2 & R2 & O2); [right; destruct IH0 as (p & r & -> & PF & _); cbn [app]; eauto|exact SN|exact LG|].
    exists v2, rs. split; [rewrite feeds_pics; exact E2|]. split.
    { rewrite <- (app_nil_r (map Seen h)), <- (app_nil_r rs).
      split; [apply told_app1; [exact R2|discriminate|exact Logic.I]|]. apply closes_app; [symmetry; exact (f2_length _ _ _ R2)|exact Logic.I]. }
    intros gh LH DU2 z y LI SW D FE. cbn [last lstart lhash last_fields] in *. cbv zeta in *. rewrite (DU2 eq_refl), <- EF in SW, FE.
    assert (OX : exists x, o2 = Some x) by (destruct O2 as [O2|O2]; [destruct IH0 as (p & r & -> & _); discriminate|exact O2]).
    destruct OX as [x ->]. cbn [app] in I2. rewrite <- (app_nil_r h) in I2. rewrite <- EF in LI.
    pose proof (lists_in k true so (hashed h) gh None LI) as IN.
    destruct (first_sei_step C HC HKW Ov c w hs HO HW0 HWl HP0 HPl HPk HR5 HRb HMx f v2 k so gh None x h [] z y G2 LH (conj (or_intror eq_refl) (conj eq_refl (or_intror IN))) HK I2 IH0 (or_introl eq_refl) HU Logic.I SW D FE)
      as (v3 & q & x0 & E3 & KB & FO & AO & _).
    exists v3, q. split; [exact E3|]. split; [exact KB|]. split; [intros _; exact FO|]. split; [intros _ _ _; exact AO|].
    intros _ _. left. rewrite <- EF. apply finds_tells; [|exact FO]. exact (listed_short C HC w hs HO HWl HPl HR5 HMx k true so (hashed h) gh None IN).
  - cbn [concat] in SN, LG. rewrite <- !app_assoc in SN, LG. rewrite app_assoc in SN, LG. apply Forall_app in SN as [SN1 SN2], LG as [LG1 LG2].
    destruct (raw_run C HC Ov c w hs HO HWl HPl HR5 HMx f (h ++ a') v1 [] None G1 I1 (or_introl eq_refl)) as (v2 & rs & o2 & E2 & G2 & I2 & R2 & O2);
      [right; destruct IH0 as (p & r & -> & PF & _); cbn [app]; eauto|exact SN1|exact LG1|].
    assert (OX : exists x, o2 = Some x) by (destruct O2 as [O2|O2]; [destruct IH0 as (p & r & -> & _); discriminate|exact O2]).
    destruct OX as [x ->]. cbn [app] in I2.
    pose proof IG as IG'. apply Forall_cons_iff in IG' as [IG1 _]. pose proof IH as IH'. apply Forall_cons_iff in IH' as [IH1 _].
    pose proof IG1 as (p & r0 & EP & PF & PB & PR). pose proof (gop_starts _ _ IH1) as SA.
    assert (EG3 : g' :: gs1 = (p :: r0) :: gs1) by (rewrite EP; reflexivity).
    rewrite EG3, gops_next, <- EG3 in F2, FS.
    apply f2_cons in F2 as [SW F2r]. apply Forall_cons_iff in FS as [FS0 FS].
    apply Forall_app in SS as [SS0 SS].
    assert (TS : match GopSpec.p_ts p with Some t => (-9223372036854775808 <= t < 9223372036854775808)%Z | None => True end).
    { assert (SP : seen c p) by (apply (proj1 (Forall_forall _ _) SS); cbn [concat]; rewrite EP; left; reflexivity).
      destruct SP as (T & _). exact T. }
    cbn [hd_error] in DU. rewrite (DU p r0 (f_equal Some EP)), <- EF in SW, FS0. rewrite <- EF in F2r, FS, IO1.
    destruct (first_sei_step C HC HKW Ov c w hs HO HW0 HWl HP0 HPl HPk HR5 HRb HMx f v2 k so (H (concat (hashes H (hashed h)))) (GopSpec.p_ts p) x h a' sx y G2 (H_len C HC w hs HO _) (conj (or_intror eq_refl) (conj eq_refl (or_introl eq_refl))) HK I2 IH0 SA HU TS SW D FS0)
      as (v3 & rep & x0 & E3 & KB & FO & AO & HD & G4 & I3).
    rewrite HD in F2r, FS, IO1.
    destruct (main2 _ _ _ _ _ _ _ _ _ IO1 True a' v3 (k + 1) (fr + frames g + (if p_frame p then 1 else 0)) (fr + frames g) x eq_refl IG IH SS SN2 LG2) as (v4 & res & E4 & (A4 & A5) & A6); [lia|replace (k + 1 - 1) with k by lia; exact G4|exact I3|exact F2r|exact FS|].
    exists v4, (rs ++ VRes SV_OK (Some rep) :: res). split; [|split; [split|]].
    + rewrite app_assoc, <- map_app, map_app, feeds_pics. apply (run_all _ _ _ _ _ E2). cbn [map feeds vrun vexec]. rewrite E3. cbn [obind]. rewrite E4. reflexivity.
    + rewrite app_assoc, <- map_app. apply told_app1; [exact R2|discriminate|]. cbn [told]. split.
      * exists rep. split; [reflexivity|]. split; [exact KB|]. split; [intros _; exact FO|]. intros _ _. exact AO.
      * eapply told_impl; [|exact A4]. tauto.
    + rewrite app_assoc, <- map_app. apply closes_app; [symmetry; exact (f2_length _ _ _ R2)|]. cbn [closes]. split; [|exact A5].
      exists rep. split; [reflexivity|]. intros LI _ _. left. rewrite <- EF.
      apply finds_tells; [|exact FO]. exact (listed_short C HC w hs HO HWl HPl HR5 HMx k true so (hashed h) [] (GopSpec.p_ts p) (lists_in k true so (hashed h) [] (GopSpec.p_ts p) (eq_ind_r (lists C w) LI EF))).
    + intros gh LH _ z zy LI SW2 D2 FE2.
      assert (EL : last_fields C w k lo fr so gh (g :: g' :: gs1) = last_fields C w (k + 1) (fr + frames g + (if p_frame p then 1 else 0)) (fr + frames g) (Some x0) (H (concat (hashes H (hashed h)))) (g' :: gs1)) by (rewrite EP, <- HD, EF; reflexivity).
      rewrite EL in SW2, FE2.
      destruct (A6 (H (concat (hashes H (hashed h)))) (H_len C HC w hs HO _) z zy LI SW2 D2 FE2) as (v5 & q & B1 & B2 & B3 & B4 & B5).
      exists v5, q. split; [exact B1|]. split; [exact B2|]. cbn [lstart lhash]. rewrite <- EF, HD. split; [exact B3|]. split; [|exact B5].
      intros _ _ SG. apply f2_cons in SG as [_ SG]. apply B4; [exact Logic.I|left; reflexivity|exact SG].
Qed.

(** From the beginning. *)
Lemma main1 before bh gs hss xs l v : apart Ov 1 first_gop -> comes (w_epb w) bh gs hss xs l -> vraw v -> v_items v = [] -> Forall is_gop gs -> Forall is_gop hss ->
  match gs, hss with g :: _, h :: _ => hashed h = hashed g | _, _ => True end ->
  Forall (fun p => p_first p = false /\ p_bytes p = None) bh ->
  Forall (seen c) (concat gs) -> Forall (legal c) (concat (firstn 1 gs)) -> Forall (seen c) (bh ++ concat hss) -> Forall (legal c) (bh ++ concat hss) ->
  Forall2 (sei_with C c w) (gops_fields C w 1 0 (frames before) None gs) xs -> Forall slim (gops_fields C w 1 0 (frames before) None gs) ->
  exists v' res, vrun C Ov (S f) v (map feeds l) = Def (v', res) /\ (told false True l res /\ closes (hears C w) l res) /\
    forall gh, length gh = hs -> gs <> [] -> eos True 1 0 (frames before) None None gh gs hss v'.
Proof.
  intros HA TR G EI IG IH EF FB SS SL SN LG F2 FS.
  destruct gs as [|g gs], hss as [|h hss]; cbn [comes] in TR; try contradiction.
  { apply Forall_app in SN as [SN0 SN], LG as [LG0 LG].
    destruct (before_run C HC Ov c w hs HO HWl HPl HR5 HMx f bh v G) as (v1 & E1 & G1 & Q1); [rewrite EI; constructor|exact SN0|exact LG0|exact FB|].
    subst l. exists v1. eexists. split; [rewrite feeds_pics; exact E1|]. pose proof (told_app false True [] [] bh _ eq_refl Logic.I) as A. rewrite !app_nil_r in A. split; [|contradiction]. split; [exact A|].
    pose proof (closes_app (hears C w) bh [] (map (fun _ => VRes SV_OK None) bh) [] (map_length _ _) Logic.I) as A2. rewrite !app_nil_r in A2. exact A2. }
  destruct TR as (r & -> & IO).
  assert (DU : forall n, due (w_rec w) 0 (frames before + frames g + n) = true).
  2:{ destruct (main0 None 1 0 (frames before) bh g h gs hss xs r v) as (v' & res & A1 & A2 & A3); try assumption; [split; [lia|exact HA]|intros nx r' _; apply DU|].
      exists v', res. split; [exact A1|]. split; [exact A2|]. intros gh LH _. apply A3; [exact LH|]. intros _. rewrite <- (N.add_0_r (_ + _)). apply DU. }
  intros n0. apply due_spec; [exact HRc|]. exists 0. split; [lia|].
  apply Forall_cons_iff in IG as [IG0 _]. cbn [concat firstn] in SS, SL. rewrite app_nil_r in SL. apply Forall_app in SS as [SS _].
  destruct IG0 as (p0 & rr & EG0 & PF0 & _).
  assert (S0 : seen c p0) by (apply (proj1 (Forall_forall _ _) SS); rewrite EG0; left; reflexivity).
  assert (L0 : legal c p0) by (apply (proj1 (Forall_forall _ _) SL); rewrite EG0; left; reflexivity).
  pose proof (first_frame c p0 S0 L0 PF0) as N2.
  rewrite EG0. unfold frames at 2. cbn [filter]. rewrite N2. unfold nlen. cbn [length]. lia.
Qed.

End Main.
Local Existing Instance zero_gop.
Lemma apart_zero Ov : apart Ov 1 (@first_gop zero_gop).
Proof. right. vm_compute. discriminate. Qed.

(** ** The settings of a session *)
Definition set_good (C : crypto) (w : settings) : Prop :=
  w_oid w <> [] /\ nlen (w_oid w) < 254 /\ length (w_prod w) = 5%nat /\ Forall (Forall (fun b => 0 < b < 256)) (w_prod w).

Lemma ask_good C : crypto_ok C -> forall w o, op_ok C o -> set_good C w -> set_good C (ask C w o).
Proof.
  intros HC w o HO (A1 & A2 & A3 & A4). destruct w as [pub ms prod ap fr rec epb us mx oid]. cbn [w_oid w_prod] in *.
  assert (SD : sha256_der <> [] /\ nlen sha256_der < 254) by (split; [discriminate|vm_compute; reflexivity]).
  destruct o as [d ts lst|b0 pk| | | | |pem|l|b|lv|n|b|b|n|nm]; cbn [ask]; try (repeat split; assumption).
  - destruct (c_priv C pem) as [[p m]|]; repeat split; assumption.
  - cbn [op_ok] in HO. destruct HO as [L F]. split; [exact A1|]. split; [exact A2|]. cbn [w_prod]. split; [rewrite map_length; exact L|].
    clear - F. induction F as [|x l E F IH]; constructor; [|exact IH]. destruct x; [exact E|constructor].
  - destruct lv; repeat split; assumption.
  - destruct nm as [nm|]; [|destruct SD; repeat split; assumption]. destruct (c_name C nm) as [d|] eqn:E; [|repeat split; assumption].
    destruct (ok_name C HC _ _ E) as (B1 & B2 & _). repeat split; assumption.
Qed.

Lemma asks_good C : crypto_ok C -> forall ops w, Forall (op_ok C) ops -> set_good C w -> set_good C (fold_left (ask C) ops w).
Proof.
  intros HC ops. induction ops as [|o ops IH]; intros w HO G; [exact G|]. apply Forall_cons_iff in HO as [HO1 HO2]. cbn [fold_left].
  apply IH; [exact HO2|]. apply ask_good; assumption.
Qed.

Definition has_key (C : crypto) (w : settings) : Prop := exists key, c_priv C key = Some (w_pub w, w_max_sig w).
Lemma ask_key C : forall w o, has_key C w \/ (op_ok C o /\ exists pem, o = OKey pem) -> has_key C (ask C w o).
Proof.
  intros w o HK. destruct w as [pub ms prod ap fr rec epb us mx oid]. destruct HK as [HK|(HO & pem & ->)].
  - destruct o as [d ts lst|b0 pk| | | | |pem|l|b|lv|n|b|b|n|nm]; cbn [ask]; try exact HK.
    + destruct (c_priv C pem) as [[p m]|] eqn:E; [exists pem; exact E|exact HK].
    + destruct lv; exact HK.
    + destruct nm as [nm|]; [destruct (c_name C nm)|]; exact HK.
  - cbn [op_ok] in HO. destruct HO as (_ & p & m & E). cbn [ask]. rewrite E. exists pem. exact E.
Qed.
Lemma asks_key C ops : forall w, Forall (op_ok C) ops -> has_key C w \/ Exists (fun o => exists pem, o = OKey pem) ops -> has_key C (fold_left (ask C) ops w).
Proof.
  induction ops as [|o ops IH]; intros w HO HK; cbn [fold_left].
  - destruct HK as [HK|HK]; [exact HK|inversion HK].
  - apply Forall_cons_iff in HO as [HO1 HO2]. apply IH; [exact HO2|]. destruct HK as [HK|HK]; [left; apply ask_key; auto|].
    inversion HK as [? ? X|? ? X]; subst; [left; apply ask_key; auto|right; exact X].
Qed.

(** A new validator, or one that was given the public key. *)
Lemma zero_links C w hs : (hs <= 64)%nat -> links_ok C w hs (zeros 128) None.
Proof.
  intros L. split; [reflexivity|]. unfold zeros. clear - L.
  assert (E : forall a b, skipn a (repeat 0 b) = repeat 0 (b - a)) by (induction a; intros [|b]; cbn; auto).
  assert (E2 : forall a b, (a <= b)%nat -> firstn a (repeat 0 b) = repeat 0 a).
  { induction a; intros [|b]; cbn [firstn repeat]; intros; auto; try lia. f_equal. apply IHa. lia. }
  rewrite E. apply E2. lia.
Qed.

Lemma create_raw C c w hs : (hs <= 64)%nat -> w_add_pub w = true -> vraw C c w hs (vcreate C c).
Proof.
  intros L HA. constructor; try reflexivity; try (match goal with |- Forall _ _ /\ _ => repeat split; constructor | _ => apply zero_links; assumption end).
  split; [reflexivity|]. repeat (split; [reflexivity|]). left. auto.
Qed.

Lemma setkey_raw C c w hs : (hs <= 64)%nat -> w_pub w <> [] -> c_pub_ok C (w_pub w) = true -> c_oid C sha256_der = OidDigest hs -> w_oid w = sha256_der ->
  exists v, set_public_key C (vcreate C c) (w_pub w) = (v, SV_OK) /\ vraw C c w hs v /\ v_items v = [].
Proof.
  intros L P0 PK EO EW. destruct (w_pub w) as [|k0 kr] eqn:EP; [congruence|]. unfold set_public_key. cbn [d_pub v_dec vcreate dec_init v_started]. rewrite PK.
  eexists. split; [reflexivity|]. split; [|reflexivity].
  constructor; try reflexivity; try (match goal with |- Forall _ _ /\ _ => repeat split; constructor | _ => apply zero_links; assumption end).
  split; [reflexivity|]. repeat (split; [reflexivity|]). right. split; [reflexivity|]. split; [cbn; congruence|]. split; [cbn; congruence|].
  split; [rewrite EW; reflexivity|]. cbn. unfold hash_size, handle_create. cbn [h_oid h_type]. unfold oid_size. rewrite EO. reflexivity.
Qed.

Lemma damage C Ov f c coin setup before gs rs bh hss l ops : crypto_ok C -> keys_work C -> signs C c coin setup before gs rs ->
  let w := fold_left (ask C) setup defaults in
  w_using w = false -> Forall (legal c) (concat (firstn 1 gs)) ->
  Forall is_gop hss -> match gs, hss with g :: _, h :: _ => hashed h = hashed g | _, _ => True end ->
  Forall (fun p => p_first p = false /\ p_bytes p = None) bh -> Forall (seen c) (bh ++ concat hss) -> Forall (legal c) (bh ++ concat hss) ->
  Forall (fun fs => few_escapes (w_epb w) fs (w_max_sig w)) (gops_fields C w 1 0 (frames before) None gs) ->
  comes (w_epb w) bh gs hss (returned rs) l ->
  (ops = [] /\ w_add_pub w = true) \/ (ops = [VSetKey (w_pub w)] /\ w_oid w = sha256_der) ->
  exists v res, vrun C Ov (S f) (vcreate C c) (ops ++ map feeds l) = Def (v, map (fun _ => VRes SV_OK None) ops ++ res) /\ (told false True l res /\ closes (hears C w) l res) /\
    (gs <> [] -> eos C Ov c w f True 1 0 (frames before) None None (zeros (oid_size C (w_oid w))) gs hss v).
Proof.
  intros HC HKW SG w HU LG0 IH EF FB SN LG FE TR HOp.
  destruct (signs_settings C HC _ _ _ _ _ _ SG) as (hs & HO & HRc & HMx). fold w in HO, HRc, HMx.
  pose proof (session_gops C HC c coin setup before gs) as SE.
  destruct SG as (S1 & S2 & S3 & S4 & S5 & S6 & (s & S7) & S8).
  destruct (asks_good C HC setup defaults S1) as (HW0 & HWl & HR5 & HRb).
  { repeat split; try discriminate; repeat constructor. }
  fold w in HW0, HWl, HR5, HRb.
  destruct (asks_key C setup defaults S1 (or_intror S3)) as [key HK]. fold w in HK.
  destruct (ok_priv C HC _ _ _ HK) as (HP0 & HPl & _ & _). destruct (HKW _ _ _ HK) as [HPk _].
  assert (F2 : Forall2 (sei_with C c w) (gops_fields C w 1 0 (frames before) None gs) (returned rs)) by exact (proj1 (SE s rs S1 S2 S3 S4 S5 S6 S7 S8)).
  assert (HL : (hs <= 64)%nat) by (pose proof (ok_size C HC _ _ HO) as X; unfold max_hash_size in X; lia).
  apply Forall_app in S4 as [_ S4].
  destruct HOp as [(-> & HA)|(-> & HA)].
  - cbn [app map]. destruct (main1 C HC HKW Ov c w hs HO HW0 HWl HP0 HPl HPk HR5 HRb HMx HU HRc f before bh gs hss (returned rs) l (vcreate C c) (apart_zero Ov) TR) as (v & res & E & A & B); try assumption; try reflexivity; [apply create_raw; assumption|].
    exists v, res. split; [exact E|]. split; [exact A|]. intros NE. apply B; [|exact NE]. unfold oid_size. rewrite HO. apply repeat_length.
  - destruct (setkey_raw C c w hs HL HP0 HPk) as (v0 & E0 & G0 & I0); [rewrite <- HA; exact HO|exact HA|].
    destruct (main1 C HC HKW Ov c w hs HO HW0 HWl HP0 HPl HPk HR5 HRb HMx HU HRc f before bh gs hss (returned rs) l v0 (apart_zero Ov) TR G0 I0 S6 IH EF FB S4 LG0 SN LG F2 FE) as (v & res & E & A & B).
    exists v, res. split; [|split; [exact A|intros NE; apply B; [|exact NE]; unfold oid_size; rewrite HO; apply repeat_length]]. cbn [app map vrun vexec]. rewrite E0. cbn [obind]. rewrite E. reflexivity.
Qed.

Lemma damage_told C Ov f c coin setup before gs rs bh hss l ops : crypto_ok C -> keys_work C -> signs C c coin setup before gs rs ->
  let w := fold_left (ask C) setup defaults in
  w_using w = false -> Forall (legal c) (concat (firstn 1 gs)) ->
  Forall is_gop hss -> match gs, hss with g :: _, h :: _ => hashed h = hashed g | _, _ => True end ->
  Forall (fun p => p_first p = false /\ p_bytes p = None) bh -> Forall (seen c) (bh ++ concat hss) -> Forall (legal c) (bh ++ concat hss) ->
  Forall (fun fs => few_escapes (w_epb w) fs (w_max_sig w)) (gops_fields C w 1 0 (frames before) None gs) ->
  comes (w_epb w) bh gs hss (returned rs) l ->
  (ops = [] /\ w_add_pub w = true) \/ (ops = [VSetKey (w_pub w)] /\ w_oid w = sha256_der) ->
  exists v res, vrun C Ov (S f) (vcreate C c) (ops ++ map feeds l) = Def (v, map (fun _ => VRes SV_OK None) ops ++ res) /\ told false True l res.
Proof.
  intros HC HKW SG w HU LG0 IH EF FB SN LG FE TR HOp.
  destruct (damage C Ov f c coin setup before gs rs bh hss l ops HC HKW SG HU LG0 IH EF FB SN LG FE TR HOp) as (v & res & E & (T & _) & _). exists v, res. auto.
Qed.

Lemma damage_closes C Ov f c coin setup before gs rs bh hss l ops : crypto_ok C -> keys_work C -> signs C c coin setup before gs rs ->
  let w := fold_left (ask C) setup defaults in
  w_using w = false -> Forall (legal c) (concat (firstn 1 gs)) ->
  Forall is_gop hss -> match gs, hss with g :: _, h :: _ => hashed h = hashed g | _, _ => True end ->
  Forall (fun p => p_first p = false /\ p_bytes p = None) bh -> Forall (seen c) (bh ++ concat hss) -> Forall (legal c) (bh ++ concat hss) ->
  Forall (fun fs => few_escapes (w_epb w) fs (w_max_sig w)) (gops_fields C w 1 0 (frames before) None gs) ->
  comes (w_epb w) bh gs hss (returned rs) l ->
  (ops = [] /\ w_add_pub w = true) \/ (ops = [VSetKey (w_pub w)] /\ w_oid w = sha256_der) ->
  exists v res, vrun C Ov (S f) (vcreate C c) (ops ++ map feeds l) = Def (v, map (fun _ => VRes SV_OK None) ops ++ res) /\ closes (hears C w) l res.
Proof.
  intros HC HKW SG w HU LG0 IH EF FB SN LG FE TR HOp.
  destruct (damage C Ov f c coin setup before gs rs bh hss l ops HC HKW SG HU LG0 IH EF FB SN LG FE TR HOp) as (v & res & E & (_ & T) & _). exists v, res. auto.
Qed.

(** ** Nothing is damaged *)
Lemma same_order epb g b gs xs r : in_order epb g b gs xs r -> forall sp hp, hp = sp \/ hp = None -> exists l, arrives epb sp hp g g b gs gs xs l /\
  map feeds l = map sends r /\ forall (P : Prop) s rs, P -> told s P l rs -> answers s r rs.
Proof.
  assert (PA : forall b r l (P : Prop), (forall s rs, P -> told s P l rs -> answers s r rs) -> forall s rs, P -> told s P (map Seen b ++ l) rs -> answers s (map Pic b ++ r) rs).
  { clear. intros b r0 l P X. induction b as [|p b IH]; intros s rs HP T; [exact (X s rs HP T)|]. cbn [map app] in *. destruct rs as [|a rs]; [contradiction|].
    cbn [told answers] in *. destruct T as [T1 T2]. split; [exact T1|]. apply IH; assumption. }
  induction 1 as [g b|g b a b' gs x y xs r D IO IH]; intros sp hp HP0.
  - exists (map Seen b). split; [constructor|]. split; [apply feeds_pics|]. intros P s rs HP T.
    rewrite <- (app_nil_r (map Pic b)). rewrite <- (app_nil_r (map Seen b)) in T. apply (PA b [] [] P); [|exact HP|exact T].
    intros s0 [|? ?] _ X; exact X.
  - destruct (IH (hd_error (hashed g)) (hd_error (hashed g)) (or_introl eq_refl)) as (l & A & M & T).
    eexists. split; [econstructor; [exact D|exact A]|]. split; [rewrite !map_app; cbn [map feeds sends]; rewrite !feeds_pics, M; reflexivity|].
    intros P s rs HP. apply PA; [|exact HP]. clear s rs. intros s rs _. apply PA; [|exact HP]. clear s rs. intros s rs _.
    destruct rs as [|r0 rs]; [auto|]. cbn [told answers]. intros [(q & -> & (K1 & K2 & K3 & K4 & K5) & F & AO) TL].
    assert (IN : intact (hashed g) (hashed g) sp hp) by (split; [reflexivity|exact HP0]). specialize (F IN). specialize (AO HP IN).
    split; [|apply (T (P /\ intact (hashed g) (hashed g) sp hp)); auto]. exists q. split; [reflexivity|].
    destruct F as (F1 & F2 & F3 & F4 & F5). unfold reports_ok. repeat (split; [assumption|]). assumption.
Qed.

Lemma e2e C Ov f c coin setup before gs rs l ops : crypto_ok C -> keys_work C -> signs C c coin setup before gs rs ->
  let w := fold_left (ask C) setup defaults in
  w_using w = false -> Forall (legal c) (before ++ concat gs) ->
  Forall (fun fs => few_escapes (w_epb w) fs (w_max_sig w)) (gops_fields C w 1 0 (frames before) None gs) ->
  transmits (w_epb w) before gs (returned rs) l ->
  (ops = [] /\ w_add_pub w = true) \/ (ops = [VSetKey (w_pub w)] /\ w_oid w = sha256_der) ->
  exists v res, vrun C Ov (S f) (vcreate C c) (ops ++ map sends l) = Def (v, map (fun _ => VRes SV_OK None) ops ++ res) /\ answers false l res.
Proof.
  intros HC HKW SG w HU LG FE TR HOp. pose proof SG as (S1 & S2 & S3 & S4 & S5 & S6 & _).
  assert (LE : exists ev, comes (w_epb w) before gs gs (returned rs) ev /\ map feeds ev = map sends l /\ forall res, told false True ev res -> answers false l res).
  { destruct gs as [|g gs]; cbn [transmits comes] in *.
    - subst l. exists (map Seen before). split; [reflexivity|]. split; [apply feeds_pics|]. intros res T.
      assert (X : forall b res, told false True (map Seen b) res -> answers false (map Pic b) res); [|apply X; exact T].
      clear. induction b as [|p b IH]; intros [|r res] T; cbn [map told answers] in *; try exact T. destruct T as [T1 T2]. split; [exact T1|apply IH, T2].
    - destruct TR as (r & -> & IO). destruct (same_order _ _ _ _ _ _ IO None None (or_introl eq_refl)) as (ev & A & M & T).
      exists (map Seen before ++ ev). split; [exists ev; auto|]. split; [rewrite !map_app, feeds_pics, M; reflexivity|].
      intros res X. assert (Y : forall b res, told false True (map Seen b ++ ev) res -> answers false (map Pic b ++ r) res); [|apply Y; exact X].
      clear - T. induction b as [|p b IH]; intros res; [apply T; exact I|]. cbn [map app]. destruct res as [|r0 res]; cbn [told answers]; [auto|].
      intros [T1 T2]. split; [exact T1|apply IH, T2]. }
  destruct LE as (ev & CM & MF & TA).
  destruct (damage C Ov f c coin setup before gs rs before gs ev ops HC HKW SG HU) as (v & res & E & (T & _) & _); try assumption.
  - apply Forall_app in LG as [_ LG]. destruct gs as [|g gs]; [constructor|]. cbn [firstn concat] in *. rewrite app_nil_r. apply Forall_app in LG. tauto.
  - destruct gs; auto.
  - exists v, res. split; [rewrite <- MF; exact E|apply TA, T].
Qed.

(** The items of an untampered stream: lemmas on the loops over the list. *)
From Verif Require Import Base BaseProofs Epb EpbProofs Nalu NaluSpec NaluProofs Crypto Types Hash Tlv TlvProofs EncProofs CodecSpec CodecProofs
  SeiSpec SeiProofs Signer SignSpec GopSpec VTypes NaluList Validator E2eSpec.
Local Open Scope N_scope.

(** ** Parsing on the validating side *)

Lemma parse_auth d c n : parse_nalu d c true false = Def n -> n_gop_sei n = false -> parse_nalu d c true true = Def n.
Proof.
  unfold parse_nalu. destruct d as [|b d]; [auto|]. set (data := b :: d). clearbody data.
  destruct (start_code_len data) as [k|u]; [|discriminate]. cbn [obind].
  destruct (parse_header c (skipn k data)) as [[[ty pr] va]|u]; [|discriminate]. cbn [obind].
  destruct (strip_trailing data) as [t|u]; [|discriminate]. cbn [obind].
  destruct (negb (ntype_eqb ty TSei)); [auto|].
  destruct (skipn (header_len c) (skipn k data)) as [|ud p1]; [discriminate|].
  destruct (ud =? 5); [|auto].
  destruct (get_payload_size p1) as [[[ps k2] p2]|u]; [|discriminate]. cbn [obind].
  destruct (length p2 <? 16)%nat; [discriminate|].
  destruct (bytes_eqb (firstn 16 p2) uuid_sv); [|auto].
  cbn [andb]. unfold remove_epb at 1. cbn [n_hashable negb orb]. intros E; injection E as <-. discriminate.
Qed.

Lemma nonzero_h264 r x : parse_h264_header r = Def x -> fst (fst x) = TI \/ fst (fst x) = TP -> exists b, In b r /\ b <> 0.
Proof.
  unfold parse_h264_header. destruct r as [|b0 [|b1 r]]; [discriminate|discriminate|]. cbv zeta.
  intros E HT. exists b0. split; [left; reflexivity|]. intros ->. cbn in E. injection E as <-. cbn in HT. destruct HT; discriminate.
Qed.
Lemma nonzero_h265 r x : parse_h265_header r = Def x -> fst (fst x) = TI \/ fst (fst x) = TP -> exists b, In b r /\ b <> 0.
Proof.
  unfold parse_h265_header. destruct r as [|b0 [|b1 r]]; [discriminate|discriminate|]. cbv zeta.
  destruct ((b1 mod 8 =? 0) || (63 <? (b0 mod 2) * 32 + b1 / 8)) eqn:E0.
  - intros E HT. injection E as <-. cbn in HT. destruct HT; discriminate.
  - intros _ _. exists b1. split; [right; left; reflexivity|]. intros ->. cbn in E0. discriminate.
Qed.

Lemma start_len data k : start_code_len data = Def k -> (k = 0 \/ k = 3 \/ k = 4)%nat /\ (k <= length data)%nat.
Proof.
  unfold start_code_len. destruct data as [|a [|b [|c [|d r]]]]; try discriminate.
  destruct (read_32bits (a :: b :: c :: d :: r)) as [[v q]|]; [|discriminate]. cbn [obind length].
  destruct (v =? 1); [intros E; assert (k = 4%nat) by congruence; lia|].
  destruct (v / 256 =? 1); intros E; [assert (k = 3%nat) by congruence|assert (k = 0%nat) by congruence]; lia.
Qed.

(** What is hashed of a NALU is not empty. *)
Lemma hashed_nonempty d c n x : nlen d < 2 ^ 63 -> parse_nalu d c true false = Def n -> n_hashable n = true ->
  hash_input n = Def x -> x <> [].
Proof.
  intros HD. change (2 ^ 63) with 9223372036854775808 in HD.
  unfold parse_nalu. destruct d as [|b d]; [intros E; injection E as <-; discriminate|]. set (data := b :: d) in *. clearbody data.
  destruct (start_code_len data) as [k|u] eqn:EK; [|discriminate]. cbn [obind]. destruct (start_len _ _ EK) as [_ KL].
  destruct (parse_header c (skipn k data)) as [[[ty pr] va]|u] eqn:EP; [|discriminate]. cbn [obind].
  destruct (strip_trailing data) as [t|u] eqn:ES; [|discriminate]. cbn [obind].
  destruct (negb (ntype_eqb ty TSei)) eqn:ET.
  2:{ destruct (skipn (header_len c) (skipn k data)) as [|ud p1]; [discriminate|].
      destruct (ud =? 5); [|intros E; injection E as <-; discriminate].
      destruct (get_payload_size p1) as [[[ps k2] p2]|u]; [|discriminate]. cbn [obind].
      destruct (length p2 <? 16)%nat; [discriminate|].
      rewrite andb_false_r. unfold remove_epb. cbn [n_hashable negb orb]. intros E; injection E as <-. discriminate. }
  intros E HH. injection E as <-. cbn [n_hashable] in HH.
  assert (HT : ty = TI \/ ty = TP) by (destruct ty; cbn in HH; try discriminate; auto).
  assert (NZ : exists b, In b (skipn k data) /\ b <> 0).
  { destruct c; [eapply nonzero_h264|eapply nonzero_h265]; try exact EP; exact HT. }
  destruct (strip_nonzero _ NZ) as [s S]. pose proof (strip_pre (firstn k data) _ _ S) as SP. rewrite firstn_skipn in SP.
  assert (TT : t = firstn k data ++ s) by congruence. destruct (strip_def _ _ S) as [SN (z & SZ)].
  assert (LS : (length s <= length (skipn k data))%nat) by (rewrite SZ, app_length; lia).
  assert (LD : (length (firstn k data) = k)%nat) by (rewrite firstn_length; lia).
  unfold hash_input. cbn [n_hash_size n_hash_mem].
  assert (HS : sub64 (nlen t) (N.of_nat k) = nlen s).
  { rewrite TT. unfold nlen in *. rewrite app_length, LD. rewrite skipn_length in LS. rewrite sub64_small by lia. lia. }
  rewrite HS. destruct (_ <=? _) eqn:EL; [|discriminate]. intros E. injection E as <-.
  unfold nlen. rewrite Nat2N.id, SZ, firstn_app, firstn_all. destruct s; [congruence|discriminate].
Qed.

Lemma first_hashed d c n : parse_nalu d c true false = Def n -> n_first_in_gop n = true -> n_gop_sei n = false ->
  n_hashable n = true.
Proof.
  unfold parse_nalu. destruct d as [|b d]; [intros E; injection E as <-; discriminate|]. set (data := b :: d). clearbody data.
  destruct (start_code_len data) as [k|u]; [|discriminate]. cbn [obind].
  destruct (parse_header c (skipn k data)) as [[[ty pr] va]|u]; [|discriminate]. cbn [obind].
  destruct (strip_trailing data) as [t|u]; [|discriminate]. cbn [obind].
  destruct (negb (ntype_eqb ty TSei)) eqn:ET.
  - intros E F _. injection E as <-. cbn [n_first_in_gop n_hashable] in *. apply andb_prop in F as [F _]. rewrite F. reflexivity.
  - assert (ty = TSei) as -> by (destruct ty; discriminate || reflexivity). cbn [ntype_eqb andb].
    destruct (skipn (header_len c) (skipn k data)) as [|ud p1]; [discriminate|].
    destruct (ud =? 5); [|intros E F; injection E as <-; discriminate].
    destruct (get_payload_size p1) as [[[ps k2] p2]|u]; [|discriminate]. cbn [obind].
    destruct (length p2 <? 16)%nat; [discriminate|].
    rewrite andb_false_r. unfold remove_epb. cbn [n_hashable negb orb]. intros E F; injection E as <-; discriminate.
Qed.

(** ** Items *)

(** An item that is not part of the validation. *)
Definition calm (it : item) : Prop :=
  i_used it = false /\ i_nalu it <> None /\ In (i_status it) [SIgn; SUnknown; SValid].
(** A hashed NALU of the stream, waiting. *)
Definition waits (first : bool) (it : item) : Prop :=
  i_status it = SPend /\ i_used it = false /\ i_linked it = false /\
  exists n, i_nalu it = Some n /\ n_gop_sei n = false /\ n_first_in_gop n = first /\ n_hashable n = true.
Definition stream_item (it : item) : Prop := calm it \/ exists b, waits b it.

Lemma calm_pending it : calm it -> pending it = false.
Proof. intros (_ & _ & H). unfold pending. cbn in H. destruct H as [<-|[<-|[<-|[]]]]; reflexivity. Qed.
Lemma waits_pending b it : waits b it -> pending it = true.
Proof. intros (H & _). unfold pending. rewrite H. reflexivity. Qed.

Definition ctx_with (h : handle) (oid d : list N) : handle := mkHandle (h_oid h) (h_type h) (Some (mkCtx oid d false)) (h_sec h).
Lemma read_firstn hs (s x : list N) : firstn hs s = x -> length x = hs -> read_hash hs s = Def x.
Proof.
  intros <- L. unfold read_hash. rewrite firstn_length in L. destruct (Nat.leb_spec hs (length s)); [reflexivity|lia].
Qed.
Lemma update_some h oid d x : (0 < length x)%nat -> update_hash true x (ctx_with h oid d) = (ctx_with h oid (d ++ x), SV_OK).
Proof. intros L. destruct x; [cbn in L; lia|]. reflexivity. Qed.

Definition judged (it : item) : item := if i_used it && pending it then set_i_status SValid it else it.

Lemma mark_used_marked l : Forall (fun it => i_used it = true -> pending it = true /\ exists n, i_nalu it = Some n /\ n_gop_sei n = false) l ->
  mark_used SValid l = Def (map judged l, Z.of_nat (length (filter i_used l))).
Proof.
  induction 1 as [|it l S _ IH]; [reflexivity|]. cbn [mark_used map filter]. rewrite IH. cbn [obind]. unfold judged.
  destruct (i_used it) eqn:U; [|reflexivity]. destruct (S eq_refl) as (-> & n & -> & ->). cbn [andb length].
  do 2 f_equal. lia.
Qed.
Lemma mark_used_unused {s} l : Forall (fun it => i_used it = false) l -> mark_used s l = Def (l, 0%Z).
Proof. induction 1 as [|it l S _ IH]; [reflexivity|]. cbn [mark_used]. rewrite IH, S. reflexivity. Qed.
Lemma mark_used_app {s} a b x k y m : mark_used s a = Def (x, k) -> mark_used s b = Def (y, m) ->
  mark_used s (a ++ b) = Def (x ++ y, (k + m)%Z).
Proof.
  revert x k. induction a as [|it a IH]; intros x k; cbn [mark_used app].
  - intros E. injection E as <- <-. intros ->. reflexivity.
  - destruct (mark_used s a) as [[x2 k2]|]; [|discriminate]. cbn [obind]. intros E EB. rewrite (IH _ _ eq_refl EB). cbn [obind].
    destruct (i_used it && pending it).
    + destruct (i_nalu it) as [n|]; [|discriminate]. injection E as <- <-. cbn [app]. do 2 f_equal. destruct (n_gop_sei n); lia.
    + injection E as <- <-. reflexivity.
Qed.

(** The items of the GOP after validation: all authentic or not part of it. *)
Lemma judged_calm l : Forall (fun it => i_used it = false -> calm it) l ->
  Forall (fun it => i_used it = true -> pending it = true /\ exists n, i_nalu it = Some n /\ n_gop_sei n = false) l ->
  Forall calm (map (set_i_used false) (map judged l)).
Proof.
  induction 1 as [|it l A _ IH]; intros B; [constructor|]. apply Forall_cons_iff in B as [B1 B2]. cbn [map].
  constructor; [|apply IH, B2]. unfold judged. destruct (i_used it) eqn:U.
  - destruct (B1 eq_refl) as (-> & n & E & _). cbn [andb]. split; [reflexivity|]. cbn. split; [congruence|]. auto.
  - cbn [andb]. destruct (A eq_refl) as (_ & X & Y). split; [reflexivity|]. split; assumption.
Qed.

Lemma stats_judged l : Forall (fun it => i_used it = true -> pending it = true /\ exists n, i_nalu it = Some n /\ n_gop_sei n = false) l ->
  get_stats (map judged l) = (0%Z, 0%Z, existsb i_used l).
Proof.
  induction 1 as [|it l S _ IH]; [reflexivity|]. cbn [map get_stats existsb]. rewrite IH. unfold judged.
  destruct (i_used it) eqn:U; [|cbn [andb]; rewrite U; reflexivity].
  destruct (S eq_refl) as (-> & n & E & G). cbn [andb set_i_status i_used i_status]. rewrite U. cbn [negb vstat_eqb orb].
  unfold item_sei. cbn [set_i_status i_nalu]. rewrite E, G. reflexivity.
Qed.
Lemma stats_unused l : Forall (fun it => i_used it = false) l -> get_stats l = (0%Z, 0%Z, false).
Proof. induction 1 as [|it l S _ IH]; [reflexivity|]. cbn [get_stats]. rewrite IH, S. reflexivity. Qed.
Lemma stats_app a b v1 v2 : get_stats a = (0%Z, 0%Z, v1) -> get_stats b = (0%Z, 0%Z, v2) -> get_stats (a ++ b) = (0%Z, 0%Z, v1 || v2).
Proof.
  revert v1. induction a as [|it a IH]; intros v1; cbn [get_stats app].
  - intros E. injection E as <-. auto.
  - destruct (get_stats a) as [[i m] v] eqn:E0. destruct (negb (i_used it)).
    + intros E. injection E as -> -> <-. intros EB. rewrite (IH v eq_refl EB). reflexivity.
    + intros E EB.
      assert (NN : forall l, let '(i, m, _) := get_stats l in (0 <= i /\ 0 <= m)%Z).
      { clear. induction l as [|it l IH]; cbn [get_stats]; [lia|]. destruct (get_stats l) as [[i m] v].
        destruct (negb (i_used it)); [exact IH|]. destruct (_ || _); destruct (vstat_eqb _ SMiss); lia. }
      specialize (NN a). rewrite E0 in NN.
      set (b1 := vstat_eqb (i_status it) SInvalid || vstat_eqb (i_status it) SErr) in *. set (b2 := vstat_eqb (i_status it) SMiss) in *.
      set (b3 := vstat_eqb (i_status it) SValid && negb (item_sei it)) in *. clearbody b1 b2 b3.
      pose proof (f_equal (fun x => fst (fst x)) E) as E1. pose proof (f_equal (fun x => snd (fst x)) E) as E2.
      pose proof (f_equal snd E) as E3. cbn [fst snd] in E1, E2, E3.
      destruct b1; [lia|]. destruct b2; [lia|]. rewrite E1, E2 in *. rewrite (IH v eq_refl EB), <- E3, orb_assoc. reflexivity.
Qed.

Lemma find_link_at q it0 r n : Forall calm q -> i_used it0 = true -> i_nalu it0 = Some n -> n_first_in_gop n = true ->
  find_link (q ++ it0 :: r) = Def (Some (length q)).
Proof.
  intros Q U E F. induction Q as [|it q (X & _) _ IH]; cbn [app find_link length].
  - rewrite U, E, F. reflexivity.
  - rewrite X, IH. reflexivity.
Qed.
Lemma first_used_at q it0 r : Forall calm q -> i_used it0 = true -> first_used (q ++ it0 :: r) = Some (length q).
Proof.
  intros Q U. induction Q as [|it q (X & _) _ IH]; cbn [app first_used length]; [rewrite U; reflexivity|]. rewrite X, IH. reflexivity.
Qed.
Lemma nth_at {A} (q : list A) it0 r : nth_error (q ++ it0 :: r) (length q) = Some it0.
Proof. rewrite nth_error_app2 by lia. rewrite Nat.sub_diag. reflexivity. Qed.
Lemma set_nth_at {A} f (q : list A) it0 r : set_nth (length q) f (q ++ it0 :: r) = q ++ f it0 :: r.
Proof.
  unfold set_nth. rewrite skipn_app, skipn_all, Nat.sub_diag. cbn [skipn app]. rewrite firstn_app, firstn_all, Nat.sub_diag.
  cbn [firstn]. rewrite app_nil_r. reflexivity.
Qed.
Lemma add_missing_none num ap pos l : (num <= 0)%Z -> add_missing num ap pos l = l.
Proof.
  intros N. unfold add_missing. replace (Z.to_nat num) with O by lia. cbn [repeat app]. apply firstn_skipn.
Qed.

Lemma shown_judged l : Forall (fun it => i_used it = true -> pending it = true /\ exists n, i_nalu it = Some n /\ n_gop_sei n = false) l ->
  (length (filter i_used l) <= times 46 (validation_str (map (set_i_used false) (map judged l))))%nat.
Proof.
  unfold times, validation_str. induction 1 as [|it l S _ IH]; [cbn; lia|]. cbn [map filter]. unfold judged at 1.
  destruct (i_used it) eqn:U; cbn [andb].
  - destruct (S eq_refl) as (-> & _). cbn [set_i_used set_i_status i_status stat_char N.eqb Pos.eqb length]. lia.
  - destruct (46 =? _); cbn [length]; lia.
Qed.

Section Items.
(** What is known of the item of the first NALU of a GOP, and of another one. *)
Variable PF : list N -> item -> Prop.
Variable PO : list N -> list N -> item -> Prop.

(** The items [l] stand for the NALUs [ps], hashed; the current GOP begins with [o], after them with [o']. *)
Inductive its : option (list N) -> list piece -> list item -> option (list N) -> Prop :=
| its_nil o : its o [] [] o
| its_skip o ps it l o' : calm it -> its o ps l o' -> its o ps (it :: l) o'
| its_plain o p ps it l o' : p_bytes p = None -> p_first p = false -> calm it -> its o ps l o' -> its o (p :: ps) (it :: l) o'
| its_first o p x ps it l o' : p_bytes p = Some x -> p_first p = true -> waits true it -> PF x it ->
    its (Some x) ps l o' -> its o (p :: ps) (it :: l) o'
| its_other x0 p x ps it l o' : p_bytes p = Some x -> p_first p = false -> waits false it ->
    PO x0 x it -> its (Some x0) ps l o' -> its (Some x0) (p :: ps) (it :: l) o'.

Lemma its_app o ps l o1 : its o ps l o1 -> forall ps2 l2 o2, its o1 ps2 l2 o2 -> its o (ps ++ ps2) (l ++ l2) o2.
Proof.
  induction 1; intros ps2 l2 o2 X; cbn [app]; [exact X|apply its_skip; auto|apply its_plain; auto|eapply its_first; eauto|eapply its_other; eauto].
Qed.

Lemma its_split p1 : forall o p2 l o', its o (p1 ++ p2) l o' ->
  exists l1 l2 o1, l = l1 ++ l2 /\ its o p1 l1 o1 /\ its o1 p2 l2 o'.
Proof.
  assert (G : forall o ps l o', its o ps l o' -> forall p1 p2, ps = p1 ++ p2 ->
    exists l1 l2 o1, l = l1 ++ l2 /\ its o p1 l1 o1 /\ its o1 p2 l2 o').
  { induction 1 as [o|o ps it l o' Q I IH|o p ps it l o' B F Q I IH|o p x ps it l o' B F W E I IH|x0 p x ps it l o' B F W E I IH]; intros q1 p2 EQ.
    - symmetry in EQ. apply app_eq_nil in EQ as [-> ->]. exists [], [], o. split; [reflexivity|]. split; constructor.
    - destruct (IH q1 p2 EQ) as (l1 & l2 & o1 & -> & I1 & I2). exists (it :: l1), l2, o1. split; [reflexivity|]. split; [constructor; assumption|exact I2].
    - destruct q1 as [|q q1]; cbn [app] in EQ.
      + subst p2. exists [], (it :: l), o. split; [reflexivity|]. split; [constructor|]. constructor; assumption.
      + injection EQ as -> ->. destruct (IH q1 p2 eq_refl) as (l1 & l2 & o1 & -> & I1 & I2). exists (it :: l1), l2, o1.
        split; [reflexivity|]. split; [constructor; assumption|exact I2].
    - destruct q1 as [|q q1]; cbn [app] in EQ.
      + subst p2. exists [], (it :: l), o. split; [reflexivity|]. split; [constructor|]. econstructor; eassumption.
      + injection EQ as -> ->. destruct (IH q1 p2 eq_refl) as (l1 & l2 & o1 & -> & I1 & I2). exists (it :: l1), l2, o1.
        split; [reflexivity|]. split; [econstructor; eassumption|exact I2].
    - destruct q1 as [|q q1]; cbn [app] in EQ.
      + subst p2. exists [], (it :: l), (Some x0). split; [reflexivity|]. split; [constructor|]. econstructor; eassumption.
      + injection EQ as -> ->. destruct (IH q1 p2 eq_refl) as (l1 & l2 & o1 & -> & I1 & I2). exists (it :: l1), l2, o1.
        split; [reflexivity|]. split; [econstructor; eassumption|exact I2]. }
  intros o p2 l o' I. exact (G o (p1 ++ p2) l o' I p1 p2 eq_refl).
Qed.

Lemma its_nothing o l o' : its o [] l o' -> Forall calm l /\ o' = o.
Proof.
  intros I. remember [] as ps eqn:E. induction I; try discriminate; [split; constructor|].
  destruct (IHI E) as [F ->]. split; [constructor; assumption|reflexivity].
Qed.

Lemma its_stream o ps l o' : its o ps l o' -> Forall stream_item l.
Proof. induction 1; constructor; auto; try (left; assumption); right; eexists; eassumption. Qed.

(** Items for NALUs that do not start a GOP. *)
Inductive rest_of (x0 : list N) : list (list N) -> list item -> Prop :=
| ro_nil : rest_of x0 [] []
| ro_skip xs it l : calm it -> rest_of x0 xs l -> rest_of x0 xs (it :: l)
| ro_cons x xs it l : waits false it -> PO x0 x it -> rest_of x0 xs l -> rest_of x0 (x :: xs) (it :: l).

Lemma its_rest x0 r l o' : its (Some x0) r l o' -> Forall (fun q => p_first q = false) r -> rest_of x0 (hashed r) l /\ o' = Some x0.
Proof.
  intros I. enough (G : forall o, its o r l o' -> forall x0, o = Some x0 -> Forall (fun q => p_first q = false) r -> rest_of x0 (hashed r) l /\ o' = Some x0)
    by (intros F; exact (G _ I x0 eq_refl F)).
  clear. intros o I. induction I; intros y0 EO F.
  - split; [apply ro_nil|exact EO].
  - destruct (IHI y0 EO F) as [R ->]. split; [apply ro_skip; assumption|reflexivity].
  - apply Forall_cons_iff in F as [F1 F2]. destruct (IHI y0 EO F2) as [R ->]. split; [|reflexivity].
    unfold hashed. cbn [flat_map]. rewrite H. cbn [app]. apply ro_skip; assumption.
  - apply Forall_cons_iff in F as [F1 F2]. congruence.
  - apply Forall_cons_iff in F as [F1 F2]. injection EO as ->. destruct (IHI y0 eq_refl F2) as [R ->]. split; [|reflexivity].
    unfold hashed. cbn [flat_map]. rewrite H. cbn [app]. apply ro_cons; assumption.
Qed.

(** The items of a GOP. *)
Lemma its_gop o g l o' : its o g l o' -> is_gop g ->
  exists q it0 t x0 xs, l = q ++ it0 :: t /\ Forall calm q /\ waits true it0 /\ PF x0 it0 /\
    hashed g = x0 :: xs /\ rest_of x0 xs t /\ o' = Some x0.
Proof.
  intros I (p & r & -> & F & B & R). remember (p :: r) as ps eqn:E. revert p r E F B R.
  induction I; intros q r E F B R; try discriminate.
  - destruct (IHI q r E F B R) as (q' & it0 & t & x0 & xs & -> & X1 & X2 & X3 & X5 & X6 & X7).
    exists (it :: q'), it0, t, x0, xs. split; [reflexivity|]. split; [constructor; assumption|]. repeat (split; [assumption|]). exact X7.
  - injection E as -> ->. congruence.
  - injection E as -> ->. destruct (its_rest _ _ _ _ I R) as [RO ->].
    exists [], it, l, x, (hashed r). split; [reflexivity|]. split; [constructor|]. repeat (split; [assumption|]).
    split; [|split; [assumption|reflexivity]]. unfold hashed. cbn [flat_map]. rewrite H. reflexivity.
  - injection E as -> ->. congruence.
Qed.

(** Part of a GOP, from its beginning: nothing, or something that begins with its first NALU. *)
Definition starts (a : list piece) : Prop := a = [] \/ exists p r, a = p :: r /\ p_first p = true.

Lemma its_starts o a l o' : its o a l o' -> starts a ->
  (a = [] /\ Forall calm l) \/ exists q it0 t, l = q ++ it0 :: t /\ Forall calm q /\ waits true it0 /\ its o a (it0 :: t) o'.
Proof.
  intros I [->|(p & r & -> & F)]; [left; split; [reflexivity|apply (its_nothing _ _ _ I)]|]. right.
  remember (p :: r) as ps eqn:E. revert p r E F. induction I; intros p0 r E F; try discriminate.
  - destruct (IHI p0 r E F) as (q & it0 & t & -> & X1 & X2 & X3). exists (it :: q), it0, t.
    split; [reflexivity|]. split; [constructor; assumption|]. split; assumption.
  - injection E as -> ->. congruence.
  - exists [], it, l. split; [reflexivity|]. split; [constructor|]. split; [assumption|]. econstructor; eassumption.
  - injection E as -> ->. congruence.
Qed.

(** ** The loops *)

(** A SEI waiting at the end of the list. *)
Definition sei_waits (it : item) : Prop :=
  i_status it = SPend /\ i_used it = false /\ i_decoded it = false /\
  exists n, i_nalu it = Some n /\ n_gop_sei n = true /\ n_first_in_gop n = false /\ n_hashable n = true /\ (n_valid n = 1)%Z.

Lemma next_calm l r : Forall stream_item l -> next_sei (l ++ r) = next_sei r.
Proof.
  unfold next_sei. induction 1 as [|it l S _ IH]; [reflexivity|]. cbn [app find].
  assert (E : item_sei it && pending it = false).
  { destruct S as [S|(b & S)]; [rewrite (calm_pending _ S); apply andb_false_r|].
    destruct S as (_ & _ & _ & n & E1 & E2 & _). unfold item_sei. rewrite E1, E2. reflexivity. }
  rewrite E. exact IH.
Qed.
Lemma on_next_calm f l r : Forall stream_item l -> on_next_sei f (l ++ r) = l ++ on_next_sei f r.
Proof.
  induction 1 as [|it l S _ IH]; [reflexivity|]. cbn [app on_next_sei].
  assert (E : item_sei it && pending it = false).
  { destruct S as [S|(b & S)]; [rewrite (calm_pending _ S); apply andb_false_r|].
    destruct S as (_ & _ & _ & n & E1 & E2 & _). unfold item_sei. rewrite E1, E2. reflexivity. }
  rewrite E, IH. reflexivity.
Qed.

Definition nfirst (l : list item) : nat :=
  length (filter (fun it => pending it && match i_nalu it with Some n => n_first_in_gop n | None => false end) l).

Definition pg_quiet (s : pgst) : Prop := g_sei s = false /\ g_after s = false /\ g_last s <> Some true.
Lemma pending_stream sg l : Forall stream_item l -> forall s rest, pg_quiet s -> (sg = false -> (g_ends s + nfirst l < 2)%nat) ->
  exists s', pending_loop sg s (l ++ rest) = pending_loop sg s' rest /\ pg_quiet s' /\ g_ends s' = (g_ends s + nfirst l)%nat.
Proof.
  induction 1 as [|it l S _ IH]; intros s rest (Q1 & Q2 & Q3) HE.
  - exists s. split; [reflexivity|]. split; [split; [exact Q1|split; assumption]|]. unfold nfirst. cbn. lia.
  - cbn [app pending_loop]. cbv zeta. unfold nfirst in *. cbn [filter] in *.
    destruct S as [S|(b & S)].
    + rewrite (calm_pending _ S) in *. cbn [andb] in *. destruct S as (_ & SN & _). destruct (i_nalu it) as [n|]; [|congruence].
      set (s1 := mkPg _ _ _ _ _).
      assert (EF : ((if sg then (0 <? g_ends s1)%nat && g_sei s1 else (2 <=? g_ends s1)%nat) || g_after s1) = false).
      { unfold s1. cbn [g_ends g_sei g_after]. rewrite Q1, Q2, andb_false_r, orb_false_r. destruct sg; [reflexivity|].
        specialize (HE eq_refl). apply Nat.leb_gt. lia. }
      rewrite EF. apply (IH s1); [split; [exact Q1|split; assumption]|]. exact HE.
    + rewrite (waits_pending _ _ S) in *. destruct S as (_ & _ & _ & n & N1 & N2 & N3 & N4).
      rewrite N1 in *. rewrite N2, N3, N4 in *. cbn [andb] in *. rewrite orb_false_r.
      set (s1 := mkPg _ _ _ _ _).
      assert (Q : pg_quiet s1 /\ g_ends s1 = ((if b then 1 else 0) + g_ends s)%nat).
      { unfold s1. split; [split; [exact Q1|split; [|discriminate]]|destruct b; reflexivity].
        cbn [g_after]. rewrite Q2. destruct (g_last s) as [[|]|]; [congruence|reflexivity|reflexivity]. }
      destruct Q as [Q QE]. clearbody s1. destruct Q as (P1 & P2 & P3).
      assert (EF : ((if sg then (0 <? g_ends s1)%nat && g_sei s1 else (2 <=? g_ends s1)%nat) || g_after s1) = false).
      { rewrite P1, P2, andb_false_r, orb_false_r. destruct sg; [reflexivity|].
        specialize (HE eq_refl). apply Nat.leb_gt. destruct b; cbn [length] in HE; lia. }
      rewrite EF. destruct (IH s1 rest) as (s' & E1 & E2 & E3); [split; [exact P1|split; assumption]| |].
      { intros X. specialize (HE X). destruct b; cbn [length] in HE; lia. }
      exists s'. split; [exact E1|]. split; [exact E2|]. rewrite E3, QE. destruct b; cbn [length]; lia.
Qed.

Definition pg0 : pgst := mkPg 0 false false None false.

(** No SEI waits: nothing to validate yet. *)
Lemma no_pending sg l : Forall stream_item l -> (sg = false -> (nfirst l < 2)%nat) ->
  exists s, pending_loop sg pg0 l = (s, false) /\ pg_quiet s.
Proof.
  intros F HE. destruct (pending_stream sg l F pg0 []) as (s' & E1 & E2 & _); [repeat split; discriminate|exact HE|].
  rewrite app_nil_r in E1. exists s'. split; [exact E1|exact E2].
Qed.
(** A SEI waits at the end. *)
Lemma sei_pending l it : Forall stream_item l -> (0 < nfirst l)%nat -> sei_waits it ->
  exists s, pending_loop true pg0 (l ++ [it]) = (s, true) /\ g_has s = true /\ g_after s = false.
Proof.
  intros F HE (S1 & _ & _ & n & N1 & N2 & N3 & N4 & N5).
  destruct (pending_stream true l F pg0 [it]) as (s' & -> & (Q1 & Q2 & Q3) & E3); [repeat split; discriminate|discriminate|].
  cbn [pending_loop]. cbv zeta. rewrite N1, N2, N3, N4, N5. unfold pending. rewrite S1. cbn [vstat_eqb andb].
  rewrite Q1, Q2. change (0 <? 1)%Z with true. cbn [andb orb g_ends g_sei g_after].
  assert (EL : match g_last s' with Some b => b | None => false end = false) by (destruct (g_last s') as [[|]|]; [congruence|reflexivity|reflexivity]).
  rewrite EL. cbn [g_ends pg0] in E3. destruct (Nat.ltb_spec 0 (g_ends s')); [|lia]. cbn [andb orb].
  eexists. split; [reflexivity|]. cbn [g_has g_after]. rewrite orb_true_r. split; reflexivity.
Qed.

(** What the loop marks. *)
Definition mark (it : item) : item := if pending it then set_i_used true it else it.


Lemma loop_calm q : Forall calm q -> forall hs h is num r, gop_loop hs h is num (q ++ r) = do (h2, r2, st) <- gop_loop hs h is num r; Def (h2, q ++ r2, st).
Proof.
  induction 1 as [|it q Q _ IH]; intros hs h is num r; cbn [app gop_loop].
  - destruct (gop_loop hs h is num r) as [[[h2 r2] st]|]; reflexivity.
  - rewrite (calm_pending _ Q). cbn [negb]. rewrite IH. destruct (gop_loop hs h is num r) as [[[h2 r2] st]|]; reflexivity.
Qed.


(** Where the loop stops: at the next GOP or at the SEI. *)
Lemma loop_stop o a l o' it : its o a l o' -> starts a ->
  i_status it = SPend -> (exists n, i_nalu it = Some n /\ n_gop_sei n = true /\ n_first_in_gop n = false) -> forall hs h num,
  gop_loop hs h 1 num (l ++ [it]) = Def (h, l ++ [it], SV_OK).
Proof.
  intros I S W1 (n & N1 & N2 & N3) hs h num.
  assert (E1 : gop_loop hs h 1 num [it] = Def (h, [it], SV_OK)).
  { cbn [gop_loop]. unfold pending. rewrite W1. cbn [vstat_eqb negb]. rewrite N1, N2, N3. reflexivity. }
  destruct (its_starts _ _ _ _ I S) as [[-> Q]|(q & it0 & t & -> & Q & W & _)].
  - rewrite (loop_calm _ Q), E1. reflexivity.
  - rewrite <- app_assoc, (loop_calm _ Q). cbn [app gop_loop]. rewrite (waits_pending _ _ W). cbn [negb].
    destruct W as (_ & _ & _ & m & M1 & M2 & M3 & M4). rewrite M1, M3. reflexivity.
Qed.


(** The marked items of the GOP, and what becomes of them. *)
Lemma rest_marked x0 xs t : rest_of x0 xs t ->
  Forall (fun it => i_used it = false -> calm it) (map mark t) /\
  length (filter i_used (map mark t)) = length xs /\
  Forall (fun it => i_used it = true -> pending it = true /\ exists n, i_nalu it = Some n /\ n_gop_sei n = false) (map mark t).
Proof.
  induction 1 as [|xs it l Q I (A & B & D)|x xs it l W E I (A & B & D)]; cbn [map].
  - repeat split; constructor.
  - unfold mark at 1 3 5. rewrite (calm_pending _ Q). pose proof Q as (U & _). split; [constructor; auto|].
    split; [cbn [filter]; rewrite U; exact B|]. constructor; [congruence|exact D].
  - unfold mark at 1 3 5. rewrite (waits_pending _ _ W). split; [constructor; [discriminate|exact A]|].
    split; [cbn [filter set_i_used i_used length]; rewrite B; reflexivity|].
    constructor; [intros _|exact D]. split; [exact (waits_pending _ _ W)|].
    destruct W as (_ & _ & _ & m & M1 & M2 & _). exists m. split; assumption.
Qed.

(** Cleaning up. *)
Lemma clean_calm q r : Forall calm q -> fst (clean_up (q ++ r)) = fst (clean_up r).
Proof.
  induction 1 as [|it q Q _ IH]; [reflexivity|]. cbn [app clean_up]. rewrite (calm_pending _ Q).
  destruct (clean_up (q ++ r)) as [l2 k]. exact IH.
Qed.
Lemma clean_waits b it r : waits b it -> fst (clean_up (it :: r)) = it :: r.
Proof. intros W. cbn [clean_up]. rewrite (waits_pending _ _ W). reflexivity. Qed.
Lemma clean_starts o a l o' q : its o a l o' -> starts a -> Forall calm q ->
  let l2 := fst (clean_up (l ++ q)) in its o a l2 o' /\ Forall stream_item l2.
Proof.
  intros I S Q l2. assert (G : its o a l2 o').
  { subst l2. destruct (its_starts _ _ _ _ I S) as [[-> QC]|(q1 & it0 & t & -> & QC & W & I2)].
    - rewrite clean_calm by exact QC. rewrite <- (app_nil_r q), clean_calm by exact Q. destruct (its_nothing _ _ _ I) as [_ ->]. constructor.
    - rewrite <- app_assoc, clean_calm by exact QC. cbn [app]. rewrite (clean_waits true) by exact W.
      assert (X : its o (a ++ []) ((it0 :: t) ++ q) o').
      { eapply its_app; [exact I2|]. clear -Q. induction Q; constructor; assumption. }
      rewrite app_nil_r in X. exact X. }
  split; [exact G|]. eapply its_stream, G.
Qed.

(** What is shown of the items. *)
Lemma times_app x a b : times x (a ++ b) = (times x a + times x b)%nat.
Proof. unfold times. rewrite filter_app, app_length. reflexivity. Qed.
Lemma shown_calm q : Forall calm q -> Forall (fun s => In s [46; 95; 85; 80]) (validation_str q) /\ times 80 (validation_str q) = O.
Proof.
  induction 1 as [|it q (_ & _ & Q) _ (A & B)]; [split; [constructor|reflexivity]|]. cbn [validation_str map].
  unfold times in *. cbn in Q. destruct Q as [<-|[<-|[<-|[]]]]; (split; [constructor; [cbn; auto|exact A]|exact B]).
Qed.
Lemma its_hashed o a l o' : its o a l o' -> length (filter pending l) = length (hashed a) /\
  times 80 (validation_str l) = length (hashed a) /\ Forall (fun s => In s [46; 95; 85; 80]) (validation_str l).
Proof.
  induction 1 as [o|o ps it l o' Q I (A & B & D)|o p ps it l o' E F Q I (A & B & D)|o p x ps it l o' E F W X I (A & B & D)|x0 p x ps it l o' E F W X I (A & B & D)];
    unfold hashed in *; cbn [flat_map filter validation_str map]; rewrite ?E.
  - repeat split; constructor.
  - pose proof (calm_pending _ Q) as P. rewrite P. destruct (shown_calm [it]) as [S1 S2]; [constructor; [exact Q|constructor]|].
    apply Forall_cons_iff in S1 as [S1 _]. split; [exact A|]. split; [|constructor; assumption].
    change (stat_char (i_status it) :: map (fun it => stat_char (i_status it)) l) with (validation_str [it] ++ validation_str l).
    rewrite times_app, S2, B. reflexivity.
  - pose proof (calm_pending _ Q) as P. rewrite P. destruct (shown_calm [it]) as [S1 S2]; [constructor; [exact Q|constructor]|].
    apply Forall_cons_iff in S1 as [S1 _]. cbn [app]. split; [exact A|]. split; [|constructor; assumption].
    change (stat_char (i_status it) :: map (fun it => stat_char (i_status it)) l) with (validation_str [it] ++ validation_str l).
    rewrite times_app, S2, B. reflexivity.
  - rewrite (waits_pending _ _ W). destruct W as (W & _). rewrite W. cbn [app length stat_char].
    split; [rewrite A; reflexivity|]. split; [exact (f_equal Datatypes.S B)|].
    constructor; [cbn; auto|exact D].
  - rewrite (waits_pending _ _ W). destruct W as (W & _). rewrite W. cbn [app length stat_char].
    split; [rewrite A; reflexivity|]. split; [exact (f_equal Datatypes.S B)|].
    constructor; [cbn; auto|exact D].
Qed.

Lemma nfirst_pos q it0 r : waits true it0 -> (0 < nfirst (q ++ it0 :: r))%nat.
Proof.
  intros W. unfold nfirst. rewrite filter_app, app_length. cbn [filter]. rewrite (waits_pending _ _ W).
  destruct W as (_ & _ & _ & n & -> & _ & -> & _). cbn [andb length]. lia.
Qed.

End Items.

(** ** Hashed items *)

Section Len.
Variable H : list N -> list N.
Variable hs : nat.
Hypothesis Hhs : (0 < hs <= 64)%nat.
Hypothesis HL : forall x, length (H x) = hs.
Definition first_hash (x : list N) (it : item) : Prop := exists s, i_second it = Some s /\ firstn hs s = H x.
Definition other_hash (x0 x : list N) (it : item) : Prop := firstn hs (i_hash it) = H (H x0 ++ H x).

Lemma loop_rest x0 xs t : rest_of other_hash x0 xs t -> forall h oid d num r,
  gop_loop hs (ctx_with h oid d) 1 num (t ++ r) =
  do (h2, r2, st) <- gop_loop hs (ctx_with h oid (d ++ concat (map (fun x => H (H x0 ++ H x)) xs))) 1 (num + length xs) r;
  Def (h2, map mark t ++ r2, st).
Proof.
  induction 1 as [|xs it l Q I IH|x xs it l W E I IH]; intros h oid d num r; cbn [app map concat length].
  - rewrite app_nil_r, Nat.add_0_r. destruct (gop_loop _ _ _ _ _) as [[[h2 r2] st]|]; reflexivity.
  - cbn [gop_loop]. unfold mark at 1. rewrite (calm_pending _ Q). cbn [negb]. rewrite IH.
    destruct (gop_loop _ _ _ _ _) as [[[h2 r2] st]|]; reflexivity.
  - cbn [gop_loop]. unfold mark at 1. rewrite (waits_pending _ _ W). cbn [negb].
    destruct W as (_ & _ & _ & n & N1 & N2 & N3 & N4). rewrite N1, N2, N3. cbn [andb Nat.ltb Nat.leb].
    rewrite (read_firstn hs _ _ E (HL _)). cbn [obind]. rewrite update_some by (rewrite HL; lia). cbn [is_ok svrc_eqb negb].
    rewrite IH, <- app_assoc. replace (S num + length xs)%nat with (num + S (length xs))%nat by lia.
    destruct (gop_loop _ _ _ _ _) as [[[h2 r2] st]|]; reflexivity.
Qed.

Lemma gop_loop_its q it0 t s x0 xs r h oid : Forall calm q -> waits true it0 -> i_second it0 = Some s -> firstn hs s = H x0 ->
  rest_of other_hash x0 xs t -> (forall h num, gop_loop hs h 1 num r = Def (h, r, SV_OK)) ->
  gop_loop hs (ctx_with h oid []) 0 0 (q ++ it0 :: t ++ r) =
  Def (ctx_with h oid (concat (hashes H (x0 :: xs))), q ++ set_i_used true it0 :: map mark t ++ r, SV_OK).
Proof.
  intros Q W S E R K. rewrite (loop_calm _ Q). cbn [gop_loop]. rewrite (waits_pending _ _ W). cbn [negb].
  destruct W as (_ & _ & _ & m & M1 & M2 & M3 & M4). rewrite M1, M2, M3, S. cbn [andb Nat.ltb Nat.leb].
  rewrite (read_firstn hs _ _ E (HL _)). cbn [obind]. rewrite update_some by (rewrite HL; lia). cbn [is_ok svrc_eqb negb app].
  rewrite (loop_rest _ _ _ R), K. cbn [obind]. reflexivity.
Qed.

End Len.

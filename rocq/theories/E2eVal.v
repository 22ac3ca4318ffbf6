(** Validating a GOP that arrived untampered: lemmas. *)
From Verif Require Import Base BaseProofs Epb EpbProofs Nalu NaluSpec NaluProofs Crypto Types Hash Tlv TlvProofs EncProofs CodecSpec CodecProofs
  SeiSpec SeiProofs Signer SignSpec GopSpec EosSpec VTypes NaluList Validator SeiHashProofs E2eSpec E2eDec E2eList.
Local Open Scope N_scope.

Lemma skipn_app_len {A} (a b : list A) k : length a = k -> skipn k (a ++ b) = b.
Proof. intros <-. apply skipn_app_exact. Qed.
Lemma firstn_put (dst src : list N) k : length src = k -> (k <= length dst)%nat ->
  exists y, put_at 0 dst src = Def y /\ firstn k y = src /\ length y = length dst.
Proof.
  intros <- L. rewrite put_at_0 by exact L. eexists. split; [reflexivity|].
  split; [apply firstn_app_len; reflexivity|]. rewrite app_length, skipn_length. lia.
Qed.

Lemma unused_same l : Forall (fun x => i_used x = false) l -> map (set_i_used false) l = l.
Proof.
  induction 1 as [|x l E F IH]; [reflexivity|]. cbn [map]. rewrite IH. f_equal. destruct x. cbn in *. rewrite E. reflexivity.
Qed.

(** The step to counter [k] from the last counter [g] does not overflow, or overflow is not undefined. *)
Definition apart (o : ovf) (k g : N) : Prop := o <> OvfUndef \/ k <= u32 (g + 1).
Lemma add_back Ov k g : k <= u32 (g + 1) -> let pm := (Z.of_N k - Z.of_N (u32 (g + 1)))%Z in add_int64 Ov pm 9223372036854775807 = Def (pm + 9223372036854775807)%Z.
Proof.
  intros O pm. assert (L : u32 (g + 1) < 4294967296) by (unfold u32; apply N.mod_lt; discriminate). assert (HP : (-4294967296 <= pm <= 0)%Z) by (unfold pm; lia).
  unfold add_int64. destruct (Z.ltb_spec (pm + 9223372036854775807) (-9223372036854775808)); [lia|]. destruct (Z.ltb_spec 9223372036854775807 (pm + 9223372036854775807)); [lia|]. reflexivity.
Qed.

Section Val.
Variable C : crypto.
Hypothesis HC : crypto_ok C.
Variable Ov : ovf.
Variable w : settings.
Variable hs : nat.
Hypothesis HO : c_oid C (w_oid w) = OidDigest hs.
Hypothesis HW0 : w_oid w <> [].
Hypothesis HWl : nlen (w_oid w) < 254.
Hypothesis HP0 : w_pub w <> [].
Hypothesis HPl : nlen (w_pub w) < 65535.
Hypothesis HPk : c_pub_ok C (w_pub w) = true.
Hypothesis HR5 : length (w_prod w) = 5%nat.
Hypothesis HRb : Forall (Forall (fun b => 0 < b < 256)) (w_prod w).
Hypothesis HMx : N.of_nat (w_max_sig w) + 5 < 65536.

Let H := c_hash C (w_oid w).
Let Hhs : (0 < hs <= 64)%nat := hs_small C HC w hs HO.
Let HL : forall x, length (H x) = hs := H_len C HC w hs HO.

Notation gdec := (gdec w hs).
Notation says_gop := (says_gop C w hs).

(** The counter of the SEI is the expected one: nothing is lost. *)
Lemma detect_none v : d_counter (v_dec v) = u32 (v_gop v + 1) \/ (v_synced v = false /\ apart Ov (d_counter (v_dec v)) (v_gop v)) ->
  detect_lost Ov v = Def (on_gs (set_gs_lost false) v).
Proof.
  intros [E|[E [O|O]]]; unfold detect_lost; cbv zeta.
  - rewrite E, Z.sub_diag. reflexivity.
  - set (pm := (_ - _)%Z).
    assert (X : forall z, exists z', add_int64 Ov z 9223372036854775807 = Def z').
    { intros z. unfold add_int64. destruct ((_ || _)%bool); [|eauto]. destruct Ov; [congruence|eauto|eauto]. }
    destruct (X pm) as [s ->]. cbn [obind]. rewrite E.
    destruct (s <? 9223372036854775807 / 2)%Z; cbn [obind]; rewrite andb_false_r; reflexivity.
  - pose proof (add_back Ov _ _ O) as X. cbv zeta in X. rewrite X. cbn [obind]. destruct (_ <? _)%Z; cbn [obind]; rewrite ?X; cbn [obind]; rewrite E, andb_false_r; reflexivity.
Qed.

Lemma init_ctx h : match h_prim h with Some x => x_oid x = w_oid w | None => True end -> h_type h = w_oid w ->
  init_hash true h = ctx_with h (w_oid w) [].
Proof. intros P T. unfold init_hash, get_ctx, ctx_with, set_ctx. destruct (h_prim h) as [x|]; [rewrite P|rewrite T]; reflexivity. Qed.

(** What of a session prepare leaves alone. *)
Definition keeps (v u : valid) : Prop :=
  v_codec u = v_codec v /\ v_legacy u = v_legacy v /\ v_report u = v_report v /\ v_signing u = v_signing v /\
  v_buddies u = v_buddies v /\ v_has_ref u = v_has_ref v /\ v_acc u = v_acc v.

(** A SEI item as it waits for validation. *)
Definition sei_item (it : item) (fs : list (N * list N)) (sig sp : list N) : Prop :=
  sei_waits it /\ firstn hs (i_hash it) = H sp /\ length (i_hash it) = 64%nat /\
  exists n r, i_nalu it = Some n /\ n_tlv_size n = nlen (wires (fs ++ [(5, sig_value (w_max_sig w) sig)])) /\
    n_tlv_mem n = wires (fs ++ [(5, sig_value (w_max_sig w) sig)]) ++ r /\ n_golden n = false.

Section Gop.
(** [sprev], [sxs] and the hash [gh] are what was signed, [prev], [x0] and [xs] what was received. *)
Variables (k : N) (rec : bool) (sprev : option (list N)) (sxs : list (list N)) (gh : list N) (prev : option (list N)) (x0 : list N) (xs : list (list N)) (ts : option Z) (sig sp : list N).
Hypothesis HG : length gh = hs.
Hypothesis HT : match ts with Some t => (-9223372036854775808 <= t < 9223372036854775808)%Z | None => True end.
Hypothesis HS0 : sig <> [].
Hypothesis HSl : (length sig <= w_max_sig w)%nat.
Hypothesis HV : c_verify C (w_pub w) sig (H sp) = 1%Z.
Let fs := gop_fields_with C w k rec sprev sxs gh ts.
Hypothesis HWO : Forall wire_ok (fs ++ [(5, sig_value (w_max_sig w) sig)]).

Variables (q t la : list item) (it0 it : item) (s0 : list N).
Hypothesis Q : Forall calm q.
Hypothesis W0 : waits true it0.
Hypothesis S0 : i_second it0 = Some s0.
Hypothesis E0 : firstn hs s0 = H x0.
Hypothesis R : rest_of (other_hash H hs) x0 xs t.
Hypothesis SI : sei_item it fs sig sp.
Variables (o o' : option (list N)) (a : list piece).
Hypothesis IA : its (first_hash H hs) (other_hash H hs) o a la o'.
Hypothesis SA : starts a.

Let L := q ++ it0 :: t ++ la ++ [it].

Lemma L_app : L = (q ++ it0 :: t ++ la) ++ [it].
Proof. unfold L. rewrite <- app_assoc. cbn [app]. rewrite <- app_assoc. reflexivity. Qed.
Lemma rest_stream : Forall stream_item t.
Proof. clear - R. induction R; constructor; auto; [left; assumption|right; eexists; eassumption]. Qed.
Lemma before_stream : Forall stream_item (q ++ it0 :: t ++ la).
Proof.
  apply Forall_app. split; [eapply Forall_impl; [|exact Q]; intros b; left; assumption|].
  constructor; [right; eexists; exact W0|]. apply Forall_app. split; [apply rest_stream|eapply its_stream, IA].
Qed.

Definition marked (b : bool) : list item :=
  q ++ set_i_linked b (set_i_used true it0) :: map mark t ++ la ++ [set_i_decoded true it].

Lemma prepare_ok v : gdec (v_dec v) -> v_items v = L -> v_signing v = true -> gs_sei (v_gs v) = true ->
  gs_no_end (v_gs v) = false ->
  k mod 2 ^ 32 = u32 (v_gop v + 1) \/ (v_synced v = false /\ apart Ov (k mod 2 ^ 32) (v_gop v)) -> length (v_computed v) = 64%nat -> length (v_hash v) = 64%nat ->
  exists u, prepare C Ov v = Def (u, SV_OK) /\ keeps v u /\ gdec (v_dec u) /\ says_gop k sprev sxs gh (v_dec u) /\
    v_items u = marked false /\
    v_verified u = 1%Z /\ gs_lost (v_gs u) = false /\ firstn hs (v_computed u) = H (concat (hashes H (x0 :: xs))) /\
    length (v_computed u) = 64%nat /\ length (v_hash u) = 64%nat /\ v_links u = v_links v /\ v_first u = v_first v /\
    v_latest u = v_latest v /\ v_result u = v_result v /\ (forall l, In (4, 1 :: l) fs -> d_list (v_dec u) = l).
Proof.
  intros G EI ES EG EN EK LC LH. destruct SI as (SW & SH & SHl & n & r & N1 & N2 & N3 & N4).
  pose proof SW as (W1 & W2 & W3 & n' & M1 & M2 & M3 & M4 & M5). assert (n' = n) as -> by congruence.
  unfold prepare. cbv zeta. unfold vhs. rewrite (gd_vhs _ _ _ G), EI, L_app, next_calm by exact before_stream.
  unfold next_sei at 1. cbn [find]. unfold item_sei, pending. rewrite N1, M2, W1. cbn [vstat_eqb andb]. rewrite N1, W3.
  unfold decode_sei.
  set (d0 := set_d_l_changed false (v_dec v)).
  assert (G0 : gdec d0) by (destruct G; constructor; assumption || reflexivity).
  destruct (dec_gop C HC w hs HO HW0 HWl HP0 HPl HPk HR5 HRb HMx d0 k rec sprev sxs gh ts sig HG G0 HSl HT) as (d1 & D1 & G1 & S1 & G2 & G3 & G5).
  change (v_dec (on_dec (set_d_l_changed false) v)) with d0.
  assert (NE : fs ++ [(5, sig_value (w_max_sig w) sig)] <> []) by (destruct fs; discriminate).
  rewrite N2, N3, (decode_wires C d0 _ r (d1, SV_OK) NE HWO D1). cbn [obind is_ok svrc_eqb negb].
  pose proof S1 as (S1a & S1b & S1c & S1d).
  rewrite detect_none by (cbn; rewrite S1a; destruct EK as [EK|EK]; [left; exact EK|right; exact EK]). cbn [obind].
  match goal with |- context [if ?b then on_gs _ _ else _] => change b with (gs_no_end (v_gs v) && false) end. rewrite andb_false_r.
  cbn [is_ok svrc_eqb negb].
  rewrite (read_firstn hs _ _ SH (HL _)). cbn [obind].
  match goal with |- context [put_at 0 ?h (H sp)] => change h with (v_hash v) end.
  destruct (firstn_put (v_hash v) (H sp) hs (HL _)) as (y & Y1 & Y2 & Y3); [lia|]. rewrite Y1. cbn [obind is_ok svrc_eqb negb].
  rewrite detect_none by (cbn; rewrite S1a; destruct EK as [EK|EK]; [left; exact EK|right; exact EK]). cbn [obind].
  match goal with |- context [prepare_gop C ?x] => set (v1 := x) end.
  assert (I1 : v_items v1 = q ++ it0 :: t ++ (la ++ [set_i_decoded true it])).
  { change (v_items v1) with (on_next_sei (set_i_decoded true) (v_items v)). rewrite EI, L_app, on_next_calm by exact before_stream.
    cbn [on_next_sei]. unfold item_sei, pending. rewrite N1, M2, W1. cbn [vstat_eqb andb]. rewrite <- app_assoc. cbn [app]. rewrite <- app_assoc. reflexivity. }
  assert (D : v_dec v1 = d1) by reflexivity.
  unfold prepare_gop. unfold vhs. rewrite D, (gd_vhs _ _ _ G1), (init_ctx _ (gd_prim _ _ _ G1) (gd_type _ _ _ G1)), I1.
  rewrite (gop_loop_its H hs Hhs HL q it0 t s0 x0 xs (la ++ [set_i_decoded true it]) _ _ Q W0 S0 E0 R).
  2:{ intros h num. apply (loop_stop (first_hash H hs) (other_hash H hs) o a la o' _ IA SA); [exact W1|]. exists n. repeat (split; [assumption|]). assumption. }
  cbn [obind is_ok svrc_eqb negb]. unfold finalize_hash. cbn [get_ctx ctx_with h_prim x_final x_oid x_data]. cbn [is_ok svrc_eqb negb].
  match goal with |- context [put_at 0 (v_computed ?x) _] => change (v_computed x) with (v_computed v) end.
  change (c_hash C (w_oid w)) with H.
  destruct (firstn_put (v_computed v) (H (concat (hashes H (x0 :: xs)))) hs (HL _)) as (z & Z1 & Z2 & Z3); [lia|].
  rewrite Z1. cbn [obind is_ok svrc_eqb negb].
  match goal with |- context [v_signing ?x && _] => set (v2 := x) end.
  assert (G4 : gdec (v_dec v2)).
  { destruct G1. constructor; try assumption. reflexivity. }
  rewrite (gd_has _ _ _ G4), andb_false_r.
  change (gs_sei (v_gs v2)) with (gs_sei (v_gs v)). rewrite EG.
  unfold verify_hash. change (d_sig (v_dec v2)) with (d_sig d1). change (d_vkey (v_dec v2)) with (d_vkey d1).
  change (d_sig_size (v_dec v2)) with (d_sig_size d1). rewrite G2, (gd_vkey _ _ _ G1), G3.
  destruct (N.eqb_spec (nlen sig) 0) as [E|_]; [destruct sig; [congruence|discriminate E]|].
  assert (EP : firstn (N.to_nat (nlen sig)) (padded (w_max_sig w) sig) = sig).
  { unfold padded, nlen. rewrite Nat2N.id. apply firstn_app_len. reflexivity. }
  unfold vhs. rewrite EP, (gd_vhs _ _ _ G4). change (v_hash v2) with y. rewrite Y2, HV.
  eexists. split; [reflexivity|]. split; [repeat split|]. split; [exact G4|]. split; [exact S1|].
  split; [|split; [reflexivity|split; [reflexivity|split; [exact Z2|split; [exact (eq_trans Z3 LC)|split; [exact (eq_trans Y3 LH)|]]]]]].
  - destruct W0 as (_ & _ & W3' & _). unfold marked. cbn. rewrite <- W3'. destruct it0; reflexivity.
  - repeat (split; [reflexivity|]). exact G5.
Qed.

(** The links between GOPs. *)
Definition links_ok (l : list N) (prev : option (list N)) : Prop :=
  length l = 128%nat /\ firstn hs (skipn hs l) = match prev with Some x => H x | None => zeros hs end.

Lemma shift_ok l p x : links_ok l p -> length x = hs ->
  exists l2, shift_linked hs l x = Def l2 /\ length l2 = 128%nat /\
    firstn hs l2 = (match p with Some y => H y | None => zeros hs end) /\ firstn hs (skipn hs l2) = x.
Proof.
  intros (A & B) LX. unfold shift_linked.
  assert (LM : length (firstn hs (skipn hs l)) = hs) by (rewrite firstn_length, skipn_length; lia).
  rewrite put_at_0 by lia. cbn [obind]. rewrite LM.
  set (l1 := firstn hs (skipn hs l) ++ skipn hs l).
  assert (L1 : length l1 = 128%nat) by (unfold l1; rewrite app_length, LM, skipn_length; lia).
  unfold put_at. destruct (Nat.leb_spec (hs + length x) (length l1)); [|lia].
  assert (F1 : firstn hs l1 = firstn hs (skipn hs l)) by (apply firstn_app_len; exact LM).
  eexists. split; [reflexivity|]. split; [rewrite !app_length, firstn_length, skipn_length; lia|].
  split.
  - rewrite firstn_app_len by (rewrite firstn_length; lia). rewrite F1. exact B.
  - rewrite skipn_app_len by (rewrite firstn_length; lia). apply firstn_app_len. exact LX.
Qed.

Lemma update_link_ok v : gdec (v_dec v) -> v_items v = marked false -> links_ok (v_links v) prev ->
  exists l2, update_link v = Def (on_items (fun _ => marked true) (set_v_links l2 v)) /\ links_ok l2 (Some x0) /\
    firstn hs l2 = match prev with Some y => H y | None => zeros hs end.
Proof.
  intros G EI LK. unfold update_link. rewrite EI. unfold marked at 1.
  destruct W0 as (A1 & A2 & A3 & n0 & A4 & A5 & A6 & A7).
  rewrite (find_link_at q (set_i_linked false (set_i_used true it0)) _ n0 Q eq_refl A4 A6). cbn [obind].
  unfold marked at 1. rewrite nth_at. cbn [set_i_linked i_linked].
  change (i_second _) with (i_second it0). rewrite S0. unfold update_links, vhs.
  rewrite (gd_vhs _ _ _ G), (read_firstn hs _ _ E0 (HL _)). cbn [obind].
  destruct (shift_ok _ _ (H x0) LK (HL _)) as (l2 & -> & B1 & B2 & B3). cbn [obind].
  exists l2. split; [|split; [split; [exact B1|exact B3]|exact B2]].
  unfold on_items. change (v_items (set_v_links l2 v)) with (v_items v). rewrite EI. unfold marked at 1. rewrite set_nth_at. reflexivity.
Qed.

(** The list after validation. *)
Definition done : list item := map (set_i_used false) (map judged (map mark t)).
Definition judged_list : list item :=
  q ++ judged (set_i_linked true (set_i_used true it0)) :: map judged (map mark t) ++ la ++ [set_i_status SValid (set_i_decoded true it)].
Definition final : list item :=
  map (set_i_used false) q ++ set_i_used false (judged (set_i_linked true (set_i_used true it0))) :: done ++
  map (set_i_used false) la ++ [set_i_used false (set_i_status SValid (set_i_decoded true it))].

Lemma la_unused : Forall (fun x => i_used x = false) la.
Proof. clear - IA. induction IA; constructor; auto; unfold calm, waits in *; tauto. Qed.
Lemma la_same : map (set_i_used false) la = la.
Proof. apply unused_same, la_unused. Qed.
Lemma q_unused : Forall (fun x => i_used x = false) q.
Proof. eapply Forall_impl; [|exact Q]. intros b (X & _). exact X. Qed.
Lemma q_same : map (set_i_used false) q = q.
Proof. apply unused_same, q_unused. Qed.

Lemma head_used : Forall (fun x => i_used x = true -> pending x = true /\ exists n, i_nalu x = Some n /\ n_gop_sei n = false)
  (set_i_linked true (set_i_used true it0) :: map mark t).
Proof.
  destruct (rest_marked (other_hash H hs) _ _ _ R) as (A & B & D). constructor; [|exact D]. intros _.
  split; [exact (waits_pending _ _ W0)|]. destruct W0 as (_ & _ & _ & n0 & E1 & E2 & _). exists n0. split; assumption.
Qed.

Lemma mark_used_ok : mark_used SValid (marked true) =
  Def (q ++ judged (set_i_linked true (set_i_used true it0)) :: map judged (map mark t) ++ la ++ [set_i_decoded true it], Z.of_nat (length (x0 :: xs))).
Proof.
  unfold marked.
  destruct (rest_marked (other_hash H hs) _ _ _ R) as (_ & B & _).
  pose proof (mark_used_marked _ head_used) as M. cbn [filter set_i_linked set_i_used i_used length map] in M. rewrite B in M.
  assert (T : mark_used SValid (la ++ [set_i_decoded true it]) = Def (la ++ [set_i_decoded true it], 0%Z)).
  { apply mark_used_unused. apply Forall_app. split; [apply la_unused|]. constructor; [|constructor].
    destruct SI as ((_ & U & _) & _). exact U. }
  pose proof (mark_used_app _ _ _ _ _ _ (mark_used_unused q q_unused) (mark_used_app _ _ _ _ _ _ M T)) as X.
  cbn [app] in X. rewrite X. reflexivity.
Qed.

Lemma stats_ok : get_stats judged_list = (0%Z, 0%Z, true).
Proof.
  unfold judged_list.
  assert (X : q ++ judged (set_i_linked true (set_i_used true it0)) :: map judged (map mark t) ++ la ++ [set_i_status SValid (set_i_decoded true it)] =
    q ++ map judged (set_i_linked true (set_i_used true it0) :: map mark t) ++ (la ++ [set_i_status SValid (set_i_decoded true it)])) by reflexivity.
  rewrite X. rewrite (stats_app q _ false true); [reflexivity|apply stats_unused, q_unused|].
  apply (stats_app _ _ true false); [exact (stats_judged _ head_used)|]. apply stats_unused. apply Forall_app. split; [apply la_unused|].
  constructor; [|constructor]. destruct SI as ((_ & U & _) & _). exact U.
Qed.

Lemma next_in_marked b (f : item -> item) :
  next_sei (marked b) = Some (set_i_decoded true it) /\
  on_next_sei f (q ++ judged (set_i_linked true (set_i_used true it0)) :: map judged (map mark t) ++ la ++ [set_i_decoded true it]) =
    q ++ judged (set_i_linked true (set_i_used true it0)) :: map judged (map mark t) ++ la ++ [f (set_i_decoded true it)].
Proof.
  destruct SI as (SW & _). destruct SW as (W1 & W2 & W3 & n & M1 & M2 & M3 & M4 & M5).
  assert (NS : forall l r, Forall (fun x => item_sei x && pending x = false) l -> next_sei (l ++ r) = next_sei r /\ on_next_sei f (l ++ r) = l ++ on_next_sei f r).
  { unfold next_sei. induction 1 as [|x l E F (I1 & I2)]; [split; reflexivity|]. cbn [app find on_next_sei]. rewrite E, I1, I2. split; reflexivity. }
  assert (NQ : Forall (fun x => item_sei x && pending x = false) q).
  { eapply Forall_impl; [|exact Q]. intros x X. rewrite (calm_pending _ X). apply andb_false_r. }
  assert (NM : Forall (fun x => item_sei x = false \/ pending x = false) (map mark t)).
  { clear - R. induction R as [|ys x l X R' IH|y ys x l X E R' IH]; cbn [map]; constructor; auto; unfold mark.
    - rewrite (calm_pending _ X). right. exact (calm_pending _ X).
    - rewrite (waits_pending _ _ X). left. destruct X as (_ & _ & _ & n & E1 & E2 & _). unfold item_sei. cbn. rewrite E1. exact E2. }
  assert (NT : Forall (fun x => item_sei x && pending x = false) (map mark t)).
  { eapply Forall_impl; [|exact NM]. intros x [->| ->]; [reflexivity|apply andb_false_r]. }
  assert (NJ : Forall (fun x => item_sei x && pending x = false) (map judged (map mark t))).
  { apply Forall_map. eapply Forall_impl; [|exact NM]. intros x X. unfold judged.
    destruct (i_used x && pending x); [cbn [set_i_status]; unfold pending; cbn; apply andb_false_r|].
    destruct X as [->| ->]; [reflexivity|apply andb_false_r]. }
  assert (NA : Forall (fun x => item_sei x && pending x = false) la).
  { eapply Forall_impl; [|exact (its_stream _ _ _ _ _ _ IA)]. intros x [X|(b' & X)]; [rewrite (calm_pending _ X); apply andb_false_r|].
    destruct X as (_ & _ & _ & n' & E1 & E2 & _). unfold item_sei. rewrite E1, E2. reflexivity. }
  assert (N0 : item_sei it0 = false) by (destruct W0 as (_ & _ & _ & n' & E1 & E2 & _); unfold item_sei; rewrite E1; exact E2).
  assert (SEI : item_sei (set_i_decoded true it) && pending (set_i_decoded true it) = true).
  { unfold item_sei, pending. cbn. rewrite M1, W1, M2. reflexivity. }
  split.
  - unfold marked. change (q ++ ?y :: map mark t ++ la ++ ?z) with (q ++ ([y] ++ map mark t ++ la ++ z)).
    assert (N1 : item_sei (set_i_linked b (set_i_used true it0)) = false) by exact N0.
    rewrite (proj1 (NS q _ NQ)), (proj1 (NS [_] _ (Forall_cons _ (andb_false_intro1 _ _ N1) (Forall_nil _)))).
    rewrite (proj1 (NS _ _ NT)), (proj1 (NS _ _ NA)). unfold next_sei. cbn [find]. rewrite SEI. reflexivity.
  - assert (N0' : item_sei (judged (set_i_linked true (set_i_used true it0))) = false).
    { unfold judged. match goal with |- context [if ?b then _ else _] => destruct b end; exact N0. }
    rewrite (proj2 (NS q _ NQ)). f_equal.
    change (on_next_sei f (?y :: ?r)) with (on_next_sei f ([y] ++ r)).
    rewrite (proj2 (NS [judged (set_i_linked true (set_i_used true it0))] _ (Forall_cons _ (andb_false_intro1 _ _ N0') (Forall_nil _)))). cbn [app]. f_equal.
    rewrite (proj2 (NS _ _ NJ)), (proj2 (NS _ _ NA)). cbn [on_next_sei]. rewrite SEI. reflexivity.
Qed.

(** The verdict. *)
Lemma validate_ok v : sprev = prev \/ prev = None -> sxs = x0 :: xs -> gh = H (concat (hashes H sxs)) -> gdec (v_dec v) -> says_gop k sprev sxs gh (v_dec v) -> v_items v = marked true ->
  v_verified v = 1%Z -> gs_lost (v_gs v) = false -> firstn hs (v_computed v) = H (concat (hashes H (x0 :: xs))) ->
  firstn hs (v_links v) = match prev with Some y => H y | None => zeros hs end ->
  l_auth (v_latest v) = SigPresent -> l_exp (v_latest v) = 0%Z -> l_recv (v_latest v) = 0%Z ->
  exists u, validate v = Def u /\ keeps v u /\ v_dec u = v_dec v /\ v_items u = final /\ v_gop u = k mod 2 ^ 32 /\
    l_auth (v_latest u) = AuthOk /\ l_exp (v_latest u) = Z.of_N (nlen (x0 :: xs) mod 2 ^ 16) /\
    l_recv (v_latest u) = Z.of_nat (length (x0 :: xs)) /\
    v_links u = v_links v /\ v_computed u = v_computed v /\ v_hash u = v_hash v.
Proof.
  intros Esp Esx Egh G SG. rewrite Egh, Esx in SG. destruct SG as (S1 & S2 & S3 & S4). intros EI EV EL EC EK LA LE LR. unfold validate. rewrite EL. cbn [andb].
  assert (X : exists u, verify_with v = Def (u, false, Z.of_N (nlen (x0 :: xs) mod 2 ^ 16), Z.of_nat (length (x0 :: xs))) /\
    u = set_v_items judged_list v).
  { unfold verify_with, linked_ok, gop_ok, vhs. rewrite (gd_vhs _ _ _ G), EC, S4, EK, S3.
    assert (EB : forall l, bytes_eqb l l = true) by (intros l; apply bytes_eqb_eq; reflexivity).
    rewrite (EB (H _)). cbn [andb].
    match goal with |- context [?b1 || ?b2] => assert (LK : b1 || b2 = true) by (destruct Esp as [Esp|Esp]; rewrite Esp, EB; [apply orb_true_r|reflexivity]) end.
    rewrite LK. cbn [andb]. cbv zeta. rewrite EV. cbn [Z.eqb Pos.eqb negb andb]. rewrite S2, EI.
    destruct (next_in_marked true (set_i_status SValid)) as [NX NY]. rewrite NX, mark_used_ok. cbn [obind]. rewrite NY.
    change (q ++ judged _ :: _) with judged_list.
    assert (FU : first_used (marked true) = Some (length q)) by (apply first_used_at; [exact Q|reflexivity]).
    rewrite FU. change (v_first (set_v_items judged_list v)) with (v_first v). destruct (v_first v).
    - eexists. split; [reflexivity|reflexivity].
    - change (v_items (set_v_items judged_list v)) with judged_list. unfold judged_list at 1. rewrite nth_at.
      assert (NZ : exists n0, i_nalu (judged (set_i_linked true (set_i_used true it0))) = Some n0).
      { destruct W0 as (_ & _ & _ & n0 & E1 & _). exists n0. unfold judged. match goal with |- context [if ?b then _ else _] => destruct b end; exact E1. }
      destruct NZ as [n0 ->]. eexists. split; [reflexivity|]. unfold on_items. rewrite add_missing_none; [reflexivity|].
      unfold nlen. pose proof (N.mod_le (N.of_nat (length (x0 :: xs))) (2 ^ 16)). lia. }
  destruct X as (u & -> & ->). cbn [obind].
  match goal with |- context [get_stats (v_items ?x)] => change (v_items x) with judged_list end. rewrite stats_ok.
  cbv zeta. change (0 <? 0)%Z with false. cbn [negb andb].
  match goal with |- context [v_first (on_items remove_used ?x)] => set (v1 := x) end.
  change (v_first (on_items remove_used v1)) with (v_first v).
  assert (NM : ((1 <? Z.of_N (nlen (x0 :: xs) mod 2 ^ 16)) && (Z.of_N (nlen (x0 :: xs) mod 2 ^ 16) <=? 0))%Z = false).
  { destruct (Z.ltb_spec 1 (Z.of_N (nlen (x0 :: xs) mod 2 ^ 16))); [|reflexivity]. apply Z.leb_gt. lia. }
  assert (RU : remove_used judged_list = final).
  { unfold remove_used, judged_list, final, done. rewrite map_app. cbn [map]. rewrite !map_app. reflexivity. }
  destruct (v_first v) eqn:EF; cbn [negb andb].
  - change (v_first (on_items remove_used v1)) with (v_first v). rewrite EF. cbv beta iota zeta.
    match goal with |- context [d_l_changed (v_dec ?x)] => change (d_l_changed (v_dec x)) with (d_l_changed (v_dec v)) end.
    rewrite (gd_changed _ _ _ G).
    match goal with |- context [l_auth (v_latest ?x)] => change (v_latest x) with (v_latest v) end.
    match goal with |- context [gs_lost (v_gs ?x)] => change (gs_lost (v_gs x)) with (gs_lost (v_gs v)) end.
    rewrite LA, EL, LE. cbn [ar_n N.leb N.compare Pos.compare Pos.compare_cont orb].
    eexists. split; [reflexivity|]. split; [repeat split|]. split; [reflexivity|]. split; [exact RU|].
    split; [exact S1|]. split; [reflexivity|]. split; [reflexivity|]. split; [cbn; rewrite LR; reflexivity|]. repeat split.
  - change (v_first (set_v_synced true (on_items remove_used v1))) with (v_first v). rewrite NM, EF. cbv beta iota zeta.
    match goal with |- context [d_l_changed (v_dec ?x)] => change (d_l_changed (v_dec x)) with (d_l_changed (v_dec v)) end.
    rewrite (gd_changed _ _ _ G).
    match goal with |- context [l_auth (v_latest ?x)] => change (v_latest x) with (v_latest v) end.
    match goal with |- context [gs_lost (v_gs ?x)] => change (gs_lost (v_gs x)) with (gs_lost (v_gs v)) end.
    rewrite LA, EL, LE. cbn [ar_n N.leb N.compare Pos.compare Pos.compare_cont orb].
    eexists. split; [reflexivity|]. split; [repeat split|]. split; [reflexivity|]. split; [exact RU|].
    split; [exact S1|]. split; [reflexivity|]. split; [reflexivity|]. split; [cbn; rewrite LR; reflexivity|]. repeat split.
Qed.

(** What the list looks like afterwards: the NALUs of the GOP and the SEI are done. *)
Lemma final_ok : exists head sei, final = head ++ la ++ [sei] /\ Forall calm head /\ calm sei /\ stat_char (i_status sei) = 46 /\
  i_nalu sei = i_nalu it /\ (length (x0 :: xs) <= times 46 (validation_str head))%nat.
Proof.
  destruct (rest_marked (other_hash H hs) _ _ _ R) as (A & B & D).
  exists (q ++ set_i_used false (judged (set_i_linked true (set_i_used true it0))) :: done), (set_i_used false (set_i_status SValid (set_i_decoded true it))).
  assert (J0 : judged (set_i_linked true (set_i_used true it0)) = set_i_status SValid (set_i_linked true (set_i_used true it0))).
  { unfold judged. change (pending _) with (pending it0). rewrite (waits_pending _ _ W0). reflexivity. }
  split; [unfold final; rewrite q_same, la_same, <- app_assoc; cbn [app]; reflexivity|].
  split.
  { apply Forall_app. split; [exact Q|]. constructor.
    - rewrite J0. split; [reflexivity|]. destruct W0 as (_ & _ & _ & n & E & _). cbn. rewrite E. split; [discriminate|auto].
    - apply judged_calm; assumption. }
  split.
  { destruct SI as ((_ & _ & _ & n & E & _) & _). split; [reflexivity|]. cbn. rewrite E. split; [discriminate|auto]. }
  split; [reflexivity|]. split; [reflexivity|].
  pose proof (shown_judged _ D) as S. rewrite B in S. fold done in S.
  unfold validation_str. rewrite map_app, times_app. cbn [map]. rewrite J0.
  change (stat_char _ :: map ?f done) with ([46] ++ map f done). rewrite times_app. change (times 46 [46]) with 1%nat.
  cbn [length]. unfold validation_str in S. lia.
Qed.

End Gop.

End Val.

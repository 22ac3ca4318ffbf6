(** The public key of a validating session: lemmas. *)
From Verif Require Import Base BaseProofs Epb Nalu Crypto Types Hash Tlv TlvProofs SignerProofs VTypes NaluList Validator VListProofs
  VFrameProofs ValidSpec VAuthProofs VUnsigned.
Local Open Scope N_scope.

Section Key.
Variable C : crypto.
Variable Ov : ovf.

(** *** When a key is accepted *)
Lemma add_body_started f v n : holds (add_body C Ov f v n) (fun '(v', _) => v_started v' = v_started v) (fun _ => True).
Proof.
  unfold add_body. destruct (_ <? 0)%Z; [reflexivity|]. cbv zeta. apply holds_bind. set (k := fr v).
  assert (S0 : forall w, fr w = k -> v_started w = v_started v) by (unfold fr, k; intros w E; injection E as _ _ E _ _; exact E).
  eapply holds_impl; [apply (register_fr C k); reflexivity| |auto]. intros [[v1 it] st] H1.
  destruct (negb (is_ok st)); [apply S0; exact H1|]. apply holds_bind.
  match goal with |- holds ?x _ _ => assert (G : holds x (fun '(v', _) => (v_legacy v' = true /\ v_started v' = v_started v) \/ fr v' = k) (fun _ => True)) end.
  { dif; [|right; exact H1]. apply holds_bind. eapply holds_impl; [apply (recurrent_fr C k); exact H1| |auto]. intros [v2 b] H2.
    destruct (negb b); [right; exact H2|]. apply holds_bind.
    assert (G : holds (if n_golden n then prepare_golden C Ov (on_dec (set_d_algo_known true) v2) (v_items v) it else Def (on_dec (set_d_algo_known true) v2, SV_OK))
       (fun '(v', _) => fr v' = k) (fun _ => True)).
    { dif; [apply prepare_golden_fr|]; exact H2. }
    eapply holds_impl; [exact G| |auto]. intros [v3 st3] H3. destruct (negb (is_ok st3)); [right; exact H3|].
    dif; [left; split; [reflexivity|apply (S0 v3 H3)]|]. eapply holds_impl; [apply (reregister_fr C k), H3| |auto]. intros [v4 st4] H4. right. exact H4. }
  eapply holds_impl; [exact G| |auto]. intros [v3 st3] H3.
  destruct (v_legacy v3) eqn:EL; [rewrite orb_true_r; destruct H3 as [[_ H3]|H3]; [exact H3|apply S0, H3]|]. destruct H3 as [[H3 _]|H3]; [congruence|].
  destruct (_ || _); [apply S0, H3|]. eapply holds_impl; [apply (maybe_validate_fr C Ov k), H3| |auto]. intros [v4 st4] H4. apply S0, H4.
Qed.
Lemma add_started f v d w v' x : d <> [] -> add_nalu C Ov f v d w = Def (v', x) -> v_started v' = true.
Proof.
  intros HD. destruct d as [|d0 d1]; [congruence|]. unfold add_nalu. cbv zeta. set (v1 := create_report _).
  assert (E1 : v_started v1 = true) by (unfold v1, create_report; dif; reflexivity). clearbody v1.
  destruct (v_legacy v1); [intros E; injection E as <- <-; exact E1|]. unfold add_h26x.
  destruct (parse_nalu _ _ _ _) as [n|]; [|discriminate]. cbn [obind]. cbv zeta. set (v2 := on_acc _ _).
  assert (E2 : v_started v2 = true) by exact E1. clearbody v2. pose proof (add_body_started f v2 n) as HB.
  destruct (add_body C Ov f v2 n) as [[v3 st]|]; [|discriminate]. cbn [holds obind] in *. rewrite E2 in HB.
  destruct (v_legacy v3) eqn:EL; cbn [obind].
  { rewrite EL. intros E. injection E as <- <-. exact HB. }
  destruct (copy_last _ _) as [[l cst]|]; [|discriminate]. cbn [obind].
  set (v4 := set_v_items _ v3). assert (E4 : v_started v4 = true) by exact HB. assert (L4 : v_legacy v4 = false) by exact EL. clearbody v4. rewrite L4.
  destruct (negb _); [intros E; injection E as <- <-; exact E4|]. destruct (v_result v4); [|intros E; injection E as <- <-; exact E4].
  assert (E5 : v_started (update_report v4) = true).
  { unfold update_report. cbv zeta. dif; cbn [v_items on_latest set_v_latest v_dec]; destruct (clean_up _); exact E4. }
  destruct w; [|intros E; injection E as <- <-; exact E5]. unfold get_report. destruct (negb _); intros E; injection E as <- <-; exact E5.
Qed.

Definition locked (v : valid) : Prop := v_started v = true \/ d_pub (v_dec v) <> [].
Lemma locked_refuses v k : locked v -> snd (set_public_key C v k) <> SV_OK /\ fst (set_public_key C v k) = v.
Proof.
  intros H. unfold set_public_key. destruct k; [split; [discriminate|reflexivity]|]. destruct (d_pub (v_dec v)) eqn:E.
  - destruct H as [H|H]; [|congruence]. rewrite H. split; [discriminate|reflexivity].
  - split; [discriminate|reflexivity].
Qed.
Lemma exec_locked f v o v' x : locked v -> vexec C Ov f v o = Def (v', x) -> locked v'.
Proof.
  intros H. destruct o as [d w|k| |]; cbn [vexec].
  - destruct d as [|d0 d1]; [cbn; intros E; injection E as <- <-; exact H|]. intros E. left. eapply add_started; [|exact E]. discriminate.
  - destruct (locked_refuses v k H) as [_ E]. destruct (set_public_key C v k) as [v1 st]. cbn in E. subst v1. intros E. injection E as <- <-. exact H.
  - intros E. injection E as <- <-. exact H.
  - destruct (v_legacy v); [intros E; injection E as <- <-; exact H|]. unfold get_report. destruct (negb _); intros E; injection E as <- <-; exact H.
Qed.
Lemma run_locked f ops : forall v v' res, locked v -> vrun C Ov f v ops = Def (v', res) -> Forall (fun x => ~ key_set x) (combine ops res).
Proof.
  induction ops as [|o ops IH]; intros v v' res H; cbn [vrun]; [intros E; injection E as <- <-; constructor|].
  destruct (vexec C Ov f v o) as [[v1 x]|] eqn:EX; [|discriminate]. cbn [obind].
  destruct (vrun C Ov f v1 ops) as [[v2 xs]|] eqn:ER; [|discriminate]. cbn [obind]. intros E. injection E as <- <-. cbn [combine].
  constructor; [|eapply IH; [eapply exec_locked; eauto|exact ER]].
  intros (k & E). injection E as -> ->. cbn [vexec] in EX. destruct (locked_refuses v k H) as [K _].
  destruct (set_public_key C v k) as [v3 st]. cbn in K. congruence.
Qed.
Lemma run_once f ops : forall v v' res, vrun C Ov f v ops = Def (v', res) ->
  ForallOrdPairs (fun x y => key_set x \/ nalu_added x -> ~ key_set y) (combine ops res).
Proof.
  induction ops as [|o ops IH]; intros v v' res; cbn [vrun]; [intros E; injection E as <- <-; constructor|].
  destruct (vexec C Ov f v o) as [[v1 x]|] eqn:EX; [|discriminate]. cbn [obind].
  destruct (vrun C Ov f v1 ops) as [[v2 xs]|] eqn:ER; [|discriminate]. cbn [obind]. intros E. injection E as <- <-. cbn [combine].
  constructor; [|eapply IH; exact ER]. apply Forall_forall. intros y Hy HK.
  assert (L1 : locked v1).
  { destruct HK as [(k & E)|(d & w & r & HD & E)]; injection E as -> ->.
    - cbn [vexec] in EX. unfold set_public_key in EX. destruct k as [|k0 k1]; [discriminate|]. destruct (d_pub (v_dec v)); [|discriminate].
      destruct (v_started v); [discriminate|]. destruct (c_pub_ok C _); [|discriminate]. injection EX as <-. right. discriminate.
    - cbn [vexec] in EX. left. eapply add_started; eauto. }
  exact (proj1 (Forall_forall _ _) (run_locked f ops v1 v2 xs L1 ER) y Hy).
Qed.
(** A refused call has no effect. *)
Lemma refused_noop v k v' st : set_public_key C v k = (v', st) -> st = SV_NOT_SUPPORTED \/ st = SV_INVALID_PARAMETER -> v' = v.
Proof.
  unfold set_public_key. destruct k; [intros E; injection E as <- <-; auto|]. destruct (d_pub (v_dec v)); [|intros E; injection E as <- <-; auto].
  destruct (v_started v); [intros E; injection E as <- <-; auto|]. destruct (c_pub_ok C _); intros E; injection E as <- <-; intros [H|H]; discriminate.
Qed.
Lemma run_app f a b : forall v, vrun C Ov f v (a ++ b) =
  obind (vrun C Ov f v a) (fun '(v1, r1) => obind (vrun C Ov f v1 b) (fun '(v2, r2) => Def (v2, r1 ++ r2))).
Proof.
  induction a as [|o a IH]; intros v; cbn [app vrun obind].
  - destruct (vrun C Ov f v b) as [[v2 r2]|]; reflexivity.
  - destruct (vexec C Ov f v o) as [[v1 x]|]; [|reflexivity]. cbn [obind]. rewrite IH. destruct (vrun C Ov f v1 a) as [[v2 r1]|]; [|reflexivity]. cbn [obind].
    destruct (vrun C Ov f v2 b) as [[v3 r2]|]; reflexivity.
Qed.
Lemma run_len f ops : forall v v' res, vrun C Ov f v ops = Def (v', res) -> length res = length ops.
Proof.
  induction ops as [|o ops IH]; intros v v' res; cbn [vrun]; [intros E; injection E as <- <-; reflexivity|].
  destruct (vexec C Ov f v o) as [[v1 x]|]; [|discriminate]. cbn [obind].
  destruct (vrun C Ov f v1 ops) as [[v2 xs]|] eqn:ER; [|discriminate]. cbn [obind]. intros E. injection E as <- <-. cbn. f_equal. eapply IH, ER.
Qed.
Lemma run_refused f a k b v v' ra st rb : vrun C Ov f v (a ++ VSetKey k :: b) = Def (v', ra ++ VRes st None :: rb) -> length ra = length a ->
  st = SV_NOT_SUPPORTED \/ st = SV_INVALID_PARAMETER -> vrun C Ov f v (a ++ b) = Def (v', ra ++ rb).
Proof.
  intros H HL HS. rewrite run_app in *. destruct (vrun C Ov f v a) as [[v1 r1]|] eqn:EA; [|discriminate]. cbn [obind vrun vexec] in *.
  destruct (set_public_key C v1 k) as [v2 st2] eqn:EK. cbn [obind] in H. destruct (vrun C Ov f v2 b) as [[v3 r3]|] eqn:EB; [|discriminate]. cbn [obind] in H.
  injection H as -> H. apply run_len in EA. assert (L : length r1 = length ra) by congruence.
  assert (X : r1 = ra /\ VRes st2 None :: r3 = VRes st None :: rb).
  { clear -H L. revert ra L H. induction r1 as [|y r1 IH]; intros [|z ra] L H; try discriminate; [split; [reflexivity|exact H]|].
    cbn in *. injection H as -> H. injection L as L. destruct (IH ra L H) as [-> E]. split; [reflexivity|exact E]. }
  destruct X as [-> X]. injection X as -> ->. rewrite (refused_noop v1 k v2 st EK HS) in EB. rewrite EB. reflexivity.
Qed.

(** *** A change of the key *)
Hypothesis HZ : forall n, c_pub_ok C (zeros n) = false.

(** [k] is the key in use: signatures are verified with it, and the key stored last is either [k] or
    could not be read. *)
Definition inuse (k : list N) (d : dec) : Prop :=
  d_vkey d = Some k /\ d_has_pub d = true /\ (d_pub d = k \/ c_pub_ok C (d_pub d) = false) /\ d_pub d <> [].
Definition keyed (d : dec) : Prop := d_vkey d = None \/ exists k, inuse k d.
Definition keys (d d' : dec) : Prop :=
  (keyed d -> keyed d') /\ (d_l_changed d = true -> d_l_changed d' = true) /\
  (forall k, inuse k d -> exists k', inuse k' d' /\ (k' = k \/ d_l_changed d' = true)).
Definition kd (d : dec) : list N * option (list N) * bool * bool := (d_pub d, d_vkey d, d_has_pub d, d_l_changed d).

Lemma keys_same d d' : kd d' = kd d -> keys d d'.
Proof.
  unfold kd. intros E. injection E as E1 E2 E3 E4. unfold keys, keyed, inuse. rewrite E1, E2, E3, E4. split; [auto|]. split; [auto|]. intros k H. exists k. auto.
Qed.
Lemma keys_trans d1 d2 d3 : keys d1 d2 -> keys d2 d3 -> keys d1 d3.
Proof.
  intros (A1 & A2 & A3) (B1 & B2 & B3). split; [auto|]. split; [auto|]. intros k H. destruct (A3 k H) as (k' & H1 & H2). destruct (B3 k' H1) as (k2 & H3 & H4).
  exists k2. split; [exact H3|]. destruct H4 as [-> |H4]; [|auto]. destruct H2 as [H2|H2]; auto.
Qed.
Lemma decode_key_keys d mem size : holds (decode_public_key C d mem size) (fun '(d', _) => keys d d') (fun _ => True).
Proof.
  unfold decode_public_key. destruct (read_8bits mem) as [[ver p]|]; [|exact I]. cbn [obind]. cbv zeta.
  destruct (ver =? 0); [apply keys_same; reflexivity|].
  set (n := if ver <? 2 then _ else _). set (q := if ver <? 2 then _ else _). clearbody n q.
  destruct (n =? 0) eqn:EN; [apply keys_same; reflexivity|]. apply N.eqb_neq in EN.
  destruct (take_mem (N.to_nat n) q) as [[key q2]|] eqn:ET; [|exact I]. cbn [obind].
  assert (NE : key <> []).
  { unfold take_mem in ET. destruct (_ <=? _)%nat eqn:EL in ET; [|discriminate]. injection ET as <- _. apply Nat.leb_le in EL.
    intros E. apply (f_equal (@length N)) in E. rewrite firstn_length_le in E by exact EL. cbn in E. lia. }
  set (cur := if nlen (d_pub d) =? n then _ else _). set (ch := d_has_pub d && negb (bytes_eqb key cur)).
  set (d1 := set_d_has_pub true _).
  assert (E1 : d_pub d1 = key /\ d_vkey d1 = d_vkey d /\ d_has_pub d1 = true /\ d_l_changed d1 = d_l_changed d || ch).
  { unfold d1. destruct ch; cbn; rewrite ?orb_true_r, ?orb_false_r; auto. }
  clearbody d1. destruct E1 as (E1 & E2 & E3 & E4).
  assert (E5 : d_l_changed d = true -> d_l_changed d1 = true) by (intros H; rewrite E4, H; reflexivity).
  assert (HS : ch = false -> d_has_pub d = true -> key = d_pub d \/ c_pub_ok C key = false).
  { unfold ch. intros H HP. rewrite HP in H. cbn in H. apply negb_false_iff in H. apply bytes_eqb_eq in H. unfold cur in H.
    destruct (nlen (d_pub d) =? n); [auto|]. right. rewrite H. apply HZ. }
  destruct (c_pub_ok C key) eqn:EK; cbn [negb holds].
  - set (d2 := set_d_vkey (Some key) d1).
    assert (I2 : inuse key d2) by (unfold inuse, d2; cbn; rewrite E1; auto).
    split; [intros _; right; eauto|]. split; [exact E5|]. intros k (K1 & K2 & K3 & _). exists key. split; [exact I2|].
    destruct ch eqn:EC; [right; unfold d2; cbn; rewrite E4, orb_true_r; reflexivity|]. left.
    destruct (HS eq_refl K2) as [H|H]; [|congruence]. destruct K3 as [K3|K3]; congruence.
  - split; [|split; [exact E5|]].
    + intros [H|(k & H & _)]; [left; congruence|]. right. exists k. split; [congruence|]. split; [exact E3|]. split; [right; congruence|congruence].
    + intros k (K1 & K2 & _). exists k. split; [|auto]. split; [congruence|]. split; [exact E3|]. split; [right; congruence|congruence].
Qed.
Ltac same_keys := solve [ exact I | apply keys_same; reflexivity ].
Lemma decode_tag_keys d tag mem size : holds (decode_tag C d tag mem size) (fun '(d', _) => keys d d') (fun _ => True).
Proof.
  destruct (N.eq_dec tag 2) as [->|]; [apply decode_key_keys|].
  assert (G : holds (decode_tag C d tag mem size) (fun '(d', _) => kd d' = kd d) (fun _ => True)).
  { unfold decode_tag. destruct tag as [|tag]; [exact I|].
    assert (D1 : holds (decode_general d mem size) (fun '(d', _) => kd d' = kd d) (fun _ => True)).
    { unfold decode_general. repeat first [ exact I | reflexivity | match goal with
        | |- holds (obind (obind _ _) _) _ _ => rewrite obind_assoc
        | |- holds (obind (Def _) _) _ _ => cbn [obind]
        | |- holds (obind (if ?b then _ else _) _) _ _ => destruct b
        | |- holds (obind ?x _) _ _ => destruct x as [[? ?]|]; cbn [obind]
        | |- holds (obind ?x _) _ _ => destruct x; cbn [obind]
        | |- holds (if ?b then _ else _) _ _ => destruct b
        | |- holds (match ?b with _ => _ end) _ _ => destruct b
        | |- _ => progress cbv zeta
        | |- holds (Def _) _ _ => cbn [holds]
        end ]. }
    repeat first [ exact I | match goal with |- holds (match ?t with _ => _ end) _ _ => destruct t end ]; try congruence; try reflexivity; try exact D1.
    all: unfold decode_product, decode_hash_list, decode_signature, decode_arbitrary, decode_crypto.
    all: repeat first [ exact I | reflexivity | match goal with
        | |- holds (obind (obind _ _) _) _ _ => rewrite obind_assoc
        | |- holds (obind (Def _) _) _ _ => cbn [obind]
        | |- holds (obind (if ?b then _ else _) _) _ _ => destruct b
        | |- holds (obind ?x _) _ _ => destruct x as [[? ?]|]; cbn [obind]
        | |- holds (obind ?x _) _ _ => destruct x; cbn [obind]
        | |- holds (if ?b then _ else _) _ _ => destruct b
        | |- holds (match ?b with _ => _ end) _ _ => destruct b
        | |- _ => progress cbv zeta
        | |- holds (Def _) _ _ => cbn [holds]
        end ]. }
  eapply holds_impl; [exact G| |auto]. intros [d' st] H. apply keys_same, H.
Qed.
Lemma tlv_loop_keys f : forall d p rem st, holds (tlv_decode_loop C f d p rem st) (fun '(d', _) => keys d d') (fun _ => True).
Proof.
  induction f as [|f IH]; intros d p rem st; cbn [tlv_decode_loop]; dif; try (apply keys_same; reflexivity); [exact I|].
  destruct (decode_tlv_header p) as [[[[[tag len] hsz] q]|]|]; [| |exact I]; cbn [obind]; [|apply keys_same; reflexivity].
  apply holds_bind. eapply holds_impl; [apply decode_tag_keys| |auto]. intros [d1 st1] H1. destruct (is_ok st1); [|exact H1].
  eapply holds_impl; [apply IH| |auto]. intros [d2 st2] H2. eapply keys_trans; eassumption.
Qed.
Lemma tlv_decode_keys d mem size : holds (tlv_decode C d mem size) (fun '(d', _) => keys d d') (fun _ => True).
Proof. unfold tlv_decode. dif; [apply keys_same; reflexivity|apply tlv_loop_keys]. Qed.
Lemma opt_loop_keys f : forall d p rem any, holds (opt_loop C f d p rem any) (fun '(d', _) => keys d d') (fun _ => True).
Proof.
  induction f as [|f IH]; intros d p rem any; cbn [opt_loop]; dif; try (apply keys_same; reflexivity); [exact I|].
  destruct (decode_tlv_header p) as [[[[[tag len] hsz] q]|]|]; [| |exact I]; cbn [obind]; [|apply keys_same; reflexivity].
  destruct (8 <? tag); [exact I|]. dif; [apply IH|].
  apply holds_bind. eapply holds_impl; [apply decode_tag_keys| |auto]. intros [d1 st1] H1. destruct (is_ok st1); [|exact H1].
  eapply holds_impl; [apply IH| |auto]. intros [d2 st2] H2. eapply keys_trans; eassumption.
Qed.
Lemma recurrent_loop_keys l : forall d, holds (recurrent_loop C d l) (fun '(d', _) => keys d d') (fun _ => True).
Proof.
  induction l as [|it l IH]; intros d; cbn [recurrent_loop]; [apply keys_same; reflexivity|]. destruct (i_nalu it); [|apply IH]. dif; [|apply IH].
  apply holds_bind. eapply holds_impl; [| |exact (fun _ h => h)].
  { unfold decode_optional. instantiate (1 := fun '(d', _) => keys d d'). dif; [apply keys_same; reflexivity|apply opt_loop_keys]. }
  intros [d1 any] H1. cbv beta iota in H1. destruct any; [exact H1|]. eapply holds_impl; [apply IH| |auto]. intros [d2 b] H2. eapply keys_trans; eassumption.
Qed.
End Key.

(** What keeps the keys. *)
Definition kv (v : valid) := kd (v_dec v).
Global Hint Extern 1 (kv _ = _) => eassumption : frame.
Section Keep.
Variable C : crypto.
Variable Ov : ovf.
Lemma detect_lost_kv k v : kv v = k -> holds (detect_lost Ov v) (fun v' => kv v' = k) (fun _ => True).
Proof. intros H. unfold detect_lost. fr_go. Qed.
Hint Resolve detect_lost_kv : frame.
Lemma update_links_kv k v h : kv v = k -> holds (update_links v h) (fun v' => kv v' = k) (fun _ => True).
Proof. intros H. unfold update_links. fr_go. Qed.
Hint Resolve update_links_kv : frame.
Lemma update_link_kv k v : kv v = k -> holds (update_link v) (fun v' => kv v' = k) (fun _ => True).
Proof. intros H. unfold update_link. fr_go. Qed.
Hint Resolve update_link_kv : frame.
Lemma prepare_gop_kv k v : kv v = k -> holds (prepare_gop C v) (fun '(v', _) => kv v' = k) (fun _ => True).
Proof. intros H. unfold prepare_gop. fr_go. Qed.
Hint Resolve prepare_gop_kv : frame.
Lemma verify_without_kv k v : kv v = k -> holds (verify_without v) (fun '(v', _) => kv v' = k) (fun _ => True).
Proof. intros H. unfold verify_without. fr_go. Qed.
Hint Resolve verify_without_kv : frame.
Lemma verify_list_kv k v o : kv v = k -> holds (verify_list v o) (fun '(v', _, _, _) => kv v' = k) (fun _ => True).
Proof. intros H. unfold verify_list. fr_go. Qed.
Hint Resolve verify_list_kv : frame.
Lemma verify_with_kv k v : kv v = k -> holds (verify_with v) (fun '(v', _, _, _) => kv v' = k) (fun _ => True).
Proof. intros H. unfold verify_with. fr_go. Qed.
Hint Resolve verify_with_kv : frame.
Lemma validate_kv k v : kv v = k -> holds (validate v) (fun v' => kv v' = k) (fun _ => True).
Proof. intros H. unfold validate. fr_go. Qed.
Hint Resolve validate_kv : frame.
Lemma verify_hash_kv k v : kv v = k -> kv (fst (verify_hash C v)) = k.
Proof. intros H. unfold verify_hash. fr_go. Qed.
Lemma hash_item_kv k v it : kv v = k -> holds (hash_item C v it) (fun '(v', _, _) => kv v' = k) (fun _ => True).
Proof. intros H. unfold hash_item. fr_go. Qed.
Hint Resolve hash_item_kv : frame.
Lemma register_kv k v n : kv v = k -> holds (register C v n) (fun '(v', _, _) => kv v' = k) (fun _ => True).
Proof. intros H. unfold register. fr_go. Qed.
Hint Resolve register_kv : frame.
Lemma rehash_kv k l : forall v st, kv v = k -> holds (rehash C v l st) (fun '(v', _, _) => kv v' = k) (fun _ => True).
Proof. induction l as [|it l IH]; intros v st H; cbn [rehash]; fr_go. Qed.
Hint Resolve rehash_kv : frame.
Lemma reregister_kv k v : kv v = k -> holds (reregister C v) (fun '(v', _) => kv v' = k) (fun _ => True).
Proof. intros H. unfold reregister. fr_go. Qed.
Hint Resolve reregister_kv : frame.
Lemma has_pending_kv v : kv (fst (has_pending v)) = kv v.
Proof. unfold has_pending. destruct (pending_loop _ _ _). reflexivity. Qed.
End Keep.

Section Change.
Variable C : crypto.
Variable Ov : ovf.
Hypothesis HZ : forall n, c_pub_ok C (zeros n) = false.

Definition kr (d d' : dec) : Prop :=
  (keyed C d -> keyed C d') /\ (forall k, inuse C k d -> exists k', inuse C k' d' /\ (k' = k \/ d_l_changed d' = true)).
Lemma keys_kr d d' : keys C d d' -> kr d d'.
Proof. intros (A & _ & B). split; assumption. Qed.
Lemma kr_kd d d1 d' : kd d' = kd d1 -> kr d d1 -> kr d d'.
Proof. unfold kd. intros E. injection E as E1 E2 E3 E4. unfold kr, keyed, inuse. rewrite E1, E2, E3, E4. auto. Qed.
Lemma kr_same d d' : kd d' = kd d -> kr d d'.
Proof. intros H. apply keys_kr, keys_same, H. Qed.
Lemma kr_reset d d' : kr (set_d_l_changed false d) d' -> kr d d'.
Proof. intros [A B]. split; [exact A|exact B]. Qed.

Lemma prepare_kr v : holds (prepare C Ov v) (fun '(v', _) => kr (v_dec v) (v_dec v')) (fun _ => True).
Proof.
  unfold prepare. cbv zeta. apply holds_bind.
  match goal with |- holds ?x _ _ => assert (G : holds x (fun '(v', _) => kr (v_dec v) (v_dec v')) (fun _ => True)) end.
  { destruct (next_sei (v_items v)) as [it|]; [|apply kr_same; reflexivity]. destruct (i_nalu it) as [n|]; [|exact I]. apply holds_bind.
    match goal with |- holds ?x _ _ => assert (G : holds x (fun '(v', _) => kr (v_dec v) (v_dec v')) (fun _ => True)) end.
    { destruct (i_decoded it); [apply kr_same; reflexivity|]. apply holds_bind. unfold decode_sei. apply holds_bind.
      eapply holds_impl; [apply (tlv_decode_keys C HZ)| |auto]. intros [d1 st1] H1. apply keys_kr, kr_reset in H1. change (on_dec (set_d_l_changed false) v) with (set_v_dec (set_d_l_changed false (v_dec v)) v) in *.
      destruct (negb (is_ok st1)) eqn:E1; [cbn [holds]; rewrite E1; exact H1|]. apply holds_bind.
      eapply holds_impl; [eapply detect_lost_kv; reflexivity| |auto]. intros v2 H2.
      set (v3 := if gs_no_end (v_gs v2) && gs_lost (v_gs v2) then _ else _). assert (H3 : kr (v_dec v) (v_dec v3)).
      { apply (kr_kd _ d1); [|exact H1]. unfold v3. destruct (_ && _); exact H2. }
      clearbody v3. cbn [holds]. change (negb (is_ok SV_OK)) with false. cbv iota.
      apply holds_bind. destruct (read_hash _ _); [|exact I]. apply holds_bind. destruct (put_at _ _ _); [|exact I]. exact H3. }
    eapply holds_impl; [exact G| |auto]. intros [v1 st1] H1. destruct (negb (is_ok st1)); [exact H1|]. apply holds_bind.
    eapply holds_impl; [eapply detect_lost_kv; reflexivity| |auto]. intros v2 H2.
    eapply holds_impl; [eapply prepare_gop_kv; exact H2| |auto]. intros [v3 st3] H3. exact (kr_kd _ _ _ H3 H1). }
  eapply holds_impl; [exact G| |auto]. intros [v1 st1] H1. destruct (negb (is_ok st1)); [exact H1|]. dif; [exact H1|]. dif; [|exact H1]. cbn [holds].
  pose proof (verify_hash_kv C _ v1 eq_refl) as E. destruct (verify_hash C v1) as [v2 st2]. exact (kr_kd _ _ _ E H1).
Qed.

Lemma validate_changed v :
  holds (validate v) (fun v' => kv v' = kv v /\ v_signing v' = v_signing v /\
    (d_l_changed (v_dec v) = true -> l_auth (v_latest v') = NotOk) /\
    (v_first v = false -> l_auth (v_latest v) = NotOk -> l_auth (v_latest v') = NotOk)) (fun _ => True).
Proof.
  unfold validate. apply holds_bind.
  assert (G : holds (if gs_lost (v_gs v) && negb (gs_trans (v_gs v))
     then do (v, f) <- verify_without v; Def (v, f, -1, -1)%Z
     else do (v, f, e, r) <- verify_with v; Def (set_v_gop (d_counter (v_dec v)) v, f, e, r))
     (fun '(v', _, _, _) => gr v' = gr v /\ kv v' = kv v) (fun _ => True)).
  { assert (HJ : forall {A} (x : out A) P Q, holds x P (fun _ => True) -> holds x Q (fun _ => True) -> holds x (fun a => P a /\ Q a) (fun _ => True)).
    { intros A [a|] P Q; cbn; auto. }
    dif; apply holds_bind.
    - eapply holds_impl; [apply HJ; [apply verify_without_gr; reflexivity|apply verify_without_kv; reflexivity]| |auto]. intros [v' f] H. exact H.
    - eapply holds_impl; [apply HJ; [apply verify_with_gr; reflexivity|apply verify_with_kv; reflexivity]| |auto]. intros [[[v' f] e] r] H. exact H. }
  eapply holds_impl; [exact G| |auto]. clear G. intros [[[v1 success] exp] recv] [H1 D1].
  unfold gr in H1. injection H1 as A1 A2 A3 A4 A5.
  destruct (get_stats (v_items v1)) as [[inv mis] hv]. cbv zeta. set (v2 := on_items remove_used v1).
  assert (E2 : v_first v2 = v_first v) by exact A2. assert (L2 : v_latest v2 = v_latest v) by exact A5.
  assert (F1 : kv v2 = kv v) by exact D1. assert (S2 : v_signing v2 = v_signing v) by exact A1. clearbody v2.
  assert (K : forall w res e r, kv w = kv v -> v_signing w = v_signing v -> v_latest w = v_latest v -> (verdict res \/ (v_first v = true /\ res = SigPresent)) ->
     holds (let res := if d_l_changed (v_dec w) then NotOk else res in
  let old := l_auth (v_latest w) in
  let auth := if (ar_n old <=? 1) || (ar_n res <? ar_n old) then res else old in
  let lexp := if gs_lost (v_gs w) then (-1)%Z
              else if (l_exp (v_latest w) =? -1)%Z then (-1)%Z else (l_exp (v_latest w) + e)%Z in
  Def (on_latest (fun l => set_l_exp lexp (set_l_recv (l_recv l + r)%Z (set_l_auth auth l))) w))
   (fun v' => kv v' = kv v /\ v_signing v' = v_signing v /\
    (d_l_changed (v_dec v) = true -> l_auth (v_latest v') = NotOk) /\
    (v_first v = false -> l_auth (v_latest v) = NotOk -> l_auth (v_latest v') = NotOk)) (fun _ => True)).
  { intros w res e r K1 KS K2 K3. cbn [holds]. split; [exact K1|]. split; [exact KS|]. cbn [on_latest v_latest set_v_latest set_l_exp set_l_recv set_l_auth l_auth].
    rewrite K2. split.
    - intros H. unfold kv, kd in K1. injection K1 as _ _ _ K1. rewrite K1, H. destruct (l_auth (v_latest v)); reflexivity.
    - intros HF H. rewrite H. unfold verdict in K3. destruct (d_l_changed (v_dec w)); [reflexivity|]. destruct K3 as [[->|[->| ->]]|[K3 ->]]; try reflexivity. congruence. }
  cbv zeta in K. rewrite E2. destruct (v_first v) eqn:EF; cbn [negb andb].
  - rewrite E2. destruct (0 <? inv)%Z; cbn [negb andb]; [|destruct ((0 <? mis)%Z && success); [|destruct hv]]; (apply K; [exact F1|exact S2|exact L2|unfold verdict; auto]).
  - assert (F2 : kv (set_v_synced true v2) = kv v) by exact F1.
    destruct (0 <? inv)%Z; cbn [negb andb]; [|destruct ((1 <? exp)%Z && (exp <=? mis)%Z); [|destruct ((0 <? mis)%Z && success)]];
      (change (v_first (set_v_synced true v2)) with (v_first v2); rewrite E2; apply K; [exact F2|exact S2|exact L2|unfold verdict; auto]).
Qed.

(** Either [k] is still in use or the result of the call is NOT_OK. *)
Definition flagged (k : list N) (v : valid) : Prop :=
  exists k', inuse C k' (v_dec v) /\ (k' = k \/ (v_result v = true /\ v_first v = false /\ l_auth (v_latest v) = NotOk)).
Lemma loop_key f : forall v stop, v_signing v = true ->
  holds (validate_loop C Ov f v stop) (fun '(v', st) =>
    (keyed C (v_dec v) -> keyed C (v_dec v')) /\ (forall k, flagged k v -> is_ok st = true -> flagged k v')) (fun _ => True).
Proof.
  induction f as [|f IH]; intros v stop HS; cbn [validate_loop]; pose proof (has_pending_gr v) as E; pose proof (has_pending_kv v) as EK;
    destruct (has_pending v) as [v1 found]; cbn [fst] in E, EK; unfold gr in E; injection E as A1 A2 A3 A4 A5;
    unfold kv, kd in EK; injection EK as B1 B2 B3 B4.
  { dif; [|exact I]. unfold holds, keyed, flagged, inuse. rewrite A2, A4, A5, B1, B2, B3. auto. }
  dif. { unfold holds, keyed, flagged, inuse. rewrite A2, A4, A5, B1, B2, B3. auto. }
  cbv zeta. set (v2 := if v_result v1 then _ else _).
  assert (E2 : v_dec v2 = v_dec v1 /\ v_signing v2 = true /\ v_first v2 = v_first v /\ (v_result v = true -> v_latest v2 = v_latest v)).
  { unfold v2. rewrite A4. destruct (v_result v); cbn; rewrite ?A1; repeat split; auto. discriminate. }
  clearbody v2. destruct E2 as (E1 & E2 & E3 & E4).
  assert (F2 : forall k, flagged k v -> exists k', inuse C k' (v_dec v2) /\ (k' = k \/ (v_first v2 = false /\ l_auth (v_latest v2) = NotOk))).
  { intros k (k' & H1 & H2). exists k'. split; [unfold inuse in *; rewrite E1; congruence|]. destruct H2 as [H2|(H2 & H3 & H4)]; [auto|]. right. rewrite E4 by assumption. split; congruence. }
  assert (K2 : keyed C (v_dec v) -> keyed C (v_dec v2)).
  { unfold keyed, inuse. rewrite E1, B1, B2, B3. auto. }
  clear A1 A2 A3 A4 A5 B1 B2 B3 B4 E1 E3 E4 v1. apply holds_bind.
  assert (HJ : forall {A} (x : out A) P Q, holds x P (fun _ => True) -> holds x Q (fun _ => True) -> holds x (fun a => P a /\ Q a) (fun _ => True)).
  { intros A [a|] P Q; cbn; auto. }
  eapply holds_impl; [apply HJ; [apply (prepare_gr C Ov (gr v2)); reflexivity|apply prepare_kr]| |auto]. intros [v3 st] [H3 R3].
  unfold gr in H3. injection H3 as C1 C2 C3 C4 C5. destruct R3 as [R3 R4].
  destruct (negb (is_ok st)) eqn:ES.
  { cbn [holds]. apply negb_true_iff in ES. rewrite ES. split; [auto|discriminate]. }
  assert (F3 : forall k, flagged k v -> exists k', inuse C k' (v_dec v3) /\ (k' = k \/ d_l_changed (v_dec v3) = true \/ (v_first v3 = false /\ l_auth (v_latest v3) = NotOk))).
  { intros k H. destruct (F2 k H) as (k' & H1 & H2). destruct (R4 k' H1) as (k2 & H3 & H4). exists k2. split; [exact H3|].
    destruct H4 as [-> |H4]; [|auto]. destruct H2 as [H2|[H2 H5]]; [auto|]. right. right. rewrite C2, C5. auto. }
  assert (K3 : keyed C (v_dec v) -> keyed C (v_dec v3)) by auto. clear F2 K2 R3 R4.
  apply holds_bind. eapply holds_impl; [apply HJ; [apply (update_link_gr (gr v3)); reflexivity|apply (update_link_kv (kv v3)); reflexivity]| |auto]. intros v4 [H4 R4].
  unfold gr in H4. injection H4 as D1 D2 D3 D4 D5. unfold kv, kd in R4. injection R4 as G1 G2 G3 G4. apply holds_bind.
  replace (v_signing v4) with true by congruence.
  eapply holds_impl; [apply validate_changed| |auto]. intros v5 (V1 & V2 & V3 & V4).
  assert (S5 : v_signing v5 = true) by congruence. rewrite S5.
  set (v6 := on_latest _ _).
  assert (Q : v_signing v6 = true /\ v_first v6 = false /\ l_auth (v_latest v6) = l_auth (v_latest v5) /\ v_result v6 = true /\ v_dec v6 = v_dec v5).
  { unfold v6. cbn. auto. }
  clearbody v6. destruct Q as (Q1 & Q2 & Q3 & Q4 & Q5). unfold kv, kd in V1. injection V1 as W1 W2 W3 W4.
  assert (IN : forall k, inuse C k (v_dec v3) -> inuse C k (v_dec v6)).
  { intros k. unfold inuse. rewrite Q5, W1, W2, W3, G1, G2, G3. auto. }
  eapply holds_impl; [apply (IH v6 _ Q1)| |auto]. intros [v7 st7] [I1 I2]. split.
  - intros H. apply I1. destruct (K3 H) as [H1|(k & H1)]; [left; congruence|right; eauto].
  - intros k H. apply I2. destruct (F3 k H) as (k' & H1 & H2). exists k'. split; [auto|]. destruct H2 as [H2|[H2|[H2 H5]]]; [auto| |];
      right; (split; [exact Q4|split; [exact Q2|rewrite Q3]]).
    + apply V3. congruence.
    + apply V4; congruence.
Qed.

Lemma maybe_validate_key f v n : v_signing v = true -> v_result v = false -> n_golden n = false ->
  holds (maybe_validate C Ov f v n) (fun '(v', st) =>
    (keyed C (v_dec v) -> keyed C (v_dec v')) /\ (forall k, inuse C k (v_dec v) -> is_ok st = true -> flagged k v')) (fun _ => True).
Proof.
  intros HS HR HG. unfold maybe_validate. cbv zeta. apply holds_bind.
  assert (HJ : forall {A} (x : out A) P Q, holds x P (fun _ => True) -> holds x Q (fun _ => True) -> holds x (fun a => P a /\ Q a) (fun _ => True)).
  { intros A [a|] P Q; cbn; auto. }
  eapply holds_impl.
  { apply HJ; [apply (recurrent_gr C (gr v)); reflexivity|]. instantiate (1 := fun '(v', _) => kr (v_dec v) (v_dec v') /\ (d_has_pub (v_dec v) = true -> v' = v)).
    unfold recurrent_decoded. rewrite HS. cbn [negb]. rewrite orb_false_r. destruct (d_has_pub (v_dec v)) eqn:EH.
    { split; [apply kr_same|]; reflexivity. }
    apply holds_bind. eapply holds_impl; [apply (recurrent_loop_keys C HZ)| |auto]. intros [d b] H. split; [apply keys_kr, H|discriminate]. }
  2:{ auto. }
  intros [v1 f2] [H1 [K1 N1]]. unfold gr in H1. injection H1 as A1 A2 A3 A4 A5.
  assert (F1 : forall k, inuse C k (v_dec v) -> flagged k v1).
  { intros k H. pose proof H as (_ & H2 & _). rewrite (N1 H2). exists k. auto. }
  dif.
  - destruct (v_first_sei v1); [rewrite HG|].
    + cbn [holds on_latest set_v_result v_dec set_v_latest on_dec set_v_dec]. split; [destruct K1 as [K1 _]; exact K1|]. intros k H _.
      destruct (F1 k H) as (k' & H1 & [H2|(H2 & _)]); [|congruence]. exists k'. split; [exact H1|auto].
    + split; [apply K1|]. intros k H _. auto.
  - eapply holds_impl; [apply loop_key; congruence| |auto]. intros [v2 st2] [L1 L2]. split; [intros H; apply L1, K1, H|]. auto.
Qed.

Lemma parse_valid d c n : d <> [] -> parse_nalu d c true true = Def n -> (n_valid n <? 0)%Z = false.
Proof.
  intros HD. unfold parse_nalu. destruct d as [|d0 d]; [congruence|]. set (dd := d0 :: d). clearbody dd.
  destruct (start_code_len dd) as [sk|]; [|discriminate]. cbn [obind].
  destruct (parse_header c _) as [[[ty prim] valid]|]; [|discriminate]. cbn [obind].
  destruct (strip_trailing dd) as [tr|]; [|discriminate]. cbn [obind]. cbv zeta.
  destruct (negb (ntype_eqb ty TSei)); [intros E; injection E as <-; destruct valid; reflexivity|].
  destruct (skipn (header_len c) _) as [|ud p1]; [discriminate|]. destruct (ud =? 5); [|intros E; injection E as <-; destruct valid; reflexivity].
  destruct (get_payload_size p1) as [[[ps k] p2]|]; [|discriminate]. cbn [obind]. destruct (_ <? _)%nat; [discriminate|].
  unfold remove_epb. cbn [n_hashable n_gop_sei n_valid n_hash_mem]. destruct (bytes_eqb (firstn 16 p2) uuid_sv); cbn [negb orb andb].
  - destruct (_ <=? 0)%Z; [intros E; injection E as <-; destruct valid; reflexivity|].
    destruct (skipn _ _); [discriminate|]. cbv zeta. cbn [n_epb]. destruct (_ <=? 0)%Z; [intros E; injection E as <-; destruct valid; reflexivity|].
    destruct (read_bytes _ _ _ _) as [[[wo x] y]|]; [|discriminate]. cbn [obind].
    destruct (_ <? _)%nat; [discriminate|]. intros E. injection E as <-. destruct (_ <=? _); destruct valid; reflexivity.
  - intros E. injection E as <-. destruct valid; reflexivity.
Qed.

Lemma add_body_key f v n : v_signing v || n_gop_sei n = true -> v_result v = false -> n_golden n = false -> (n_valid n <? 0)%Z = false ->
  holds (add_body C Ov f v n) (fun '(v', st) => v_legacy v' = true \/ (v_signing v' = true /\
    (keyed C (v_dec v) -> keyed C (v_dec v')) /\ (forall k, inuse C k (v_dec v) -> is_ok st = true -> flagged k v'))) (fun _ => True).
Proof.
  intros HS HR HG HV. unfold add_body. rewrite HV. cbv zeta. apply holds_bind.
  assert (HJ : forall {A} (x : out A) P Q, holds x P (fun _ => True) -> holds x Q (fun _ => True) -> holds x (fun a => P a /\ Q a) (fun _ => True)).
  { intros A [a|] P Q; cbn; auto. }
  rewrite HS. set (v0 := set_v_signing true _).
  eapply holds_impl; [apply HJ; [apply (register_gr C (gr v0)); reflexivity|apply (register_kv C (kv v0)); reflexivity]| |auto]. intros [[v1 it] st] [H1 K1].
  unfold gr in H1. injection H1 as A1 A2 A3 A4 A5. unfold kv in K1.
  assert (S1 : v_signing v1 = true) by exact A1. assert (R1 : v_result v1 = false) by (rewrite A4; exact HR).
  assert (D1 : kr (v_dec v) (v_dec v1)) by (apply kr_same, K1).
  assert (U1 : forall k, inuse C k (v_dec v) -> inuse C k (v_dec v1)).
  { unfold kd in K1. injection K1 as E1 E2 E3 E4. intros k. unfold inuse. rewrite E1, E2, E3. auto. }
  clear A1 A2 A3 A4 A5 K1. clearbody v0.
  assert (OUT : forall w sx, v_signing w = true -> (keyed C (v_dec v) -> keyed C (v_dec w)) -> is_ok sx = false ->
     v_legacy w = true \/ (v_signing w = true /\ (keyed C (v_dec v) -> keyed C (v_dec w)) /\ (forall k, inuse C k (v_dec v) -> is_ok sx = true -> flagged k w))).
  { intros w sx W1 W2 W3. right. split; [exact W1|]. split; [exact W2|]. rewrite W3. discriminate. }
  destruct (negb (is_ok st)) eqn:ES.
  { apply negb_true_iff in ES. apply OUT; [exact S1|apply D1|exact ES]. }
  apply holds_bind.
  match goal with |- holds ?x _ _ => assert (G : holds x (fun '(v', st') => v_legacy v' = true \/ (v_signing v' = true /\ v_result v' = false /\
     (keyed C (v_dec v) -> keyed C (v_dec v')) /\ (forall k, inuse C k (v_dec v) -> inuse C k (v_dec v')))) (fun _ => True)) end.
  { dif; [|right; split; [exact S1|split; [exact R1|split; [apply D1|exact U1]]]]. apply holds_bind.
    set (vi := set_v_items _ v1). eapply holds_impl.
    { apply HJ; [apply (recurrent_gr C (gr vi)); reflexivity|]. instantiate (1 := fun '(v', _) => kr (v_dec vi) (v_dec v') /\ (d_has_pub (v_dec vi) = true -> v' = vi)).
      unfold recurrent_decoded. change (v_signing vi) with (v_signing v1). rewrite S1. cbn [negb]. rewrite orb_false_r. destruct (d_has_pub (v_dec vi)) eqn:EH.
      { split; [apply kr_same|]; reflexivity. }
      apply holds_bind. eapply holds_impl; [apply (recurrent_loop_keys C HZ)| |auto]. intros [d b] H. split; [apply keys_kr, H|discriminate]. }
    2:{ auto. }
    intros [v2 b] [H2 [K2 N2]]. unfold gr in H2. injection H2 as A1 A2 A3 A4 A5.
    assert (P2 : v_signing v2 = true /\ v_result v2 = false /\ (keyed C (v_dec v) -> keyed C (v_dec v2)) /\ (forall k, inuse C k (v_dec v) -> inuse C k (v_dec v2))).
    { split; [rewrite A1; exact S1|]. split; [rewrite A4; exact R1|]. split.
      - intros H. apply K2, D1, H.
      - intros k H. apply U1 in H. rewrite N2; [exact H|apply H]. }
    destruct P2 as (P1 & P2 & P3 & P4).
    destruct (negb b); [right; auto|]. rewrite HG. cbn [obind]. change (negb (is_ok SV_OK)) with false. cbv iota.
    dif; [left; reflexivity|].
    eapply holds_impl; [apply HJ; [eapply (reregister_gr C); reflexivity|eapply (reregister_kv C); reflexivity]| |auto]. intros [v4 st4] [H4 K4]. right.
    unfold gr in H4. injection H4 as B1 B2 B3 B4 B5. unfold kv, kd in K4. injection K4 as E1 E2 E3 E4.
    split; [rewrite B1; exact P1|]. split; [rewrite B4; exact P2|].
    split; [intros H; apply P3 in H|intros k H; apply P4 in H]; unfold keyed, inuse in *; rewrite E1, E2, E3; exact H. }
  eapply holds_impl; [exact G| |auto]. intros [v3 st3] H3.
  destruct (v_legacy v3) eqn:EL; [rewrite orb_true_r; left; exact EL|]. destruct H3 as [H3|(P1 & P2 & P3 & P4)]; [congruence|]. rewrite orb_false_r.
  destruct (negb (is_ok st3)) eqn:E3. { apply negb_true_iff in E3. apply OUT; auto. }
  eapply holds_impl; [apply HJ; [apply (maybe_validate_key f v3 n P1 P2 HG)|]| |auto].
  { instantiate (1 := fun '(v', _) => v_signing v' = true). unfold maybe_validate. apply holds_bind.
    eapply holds_impl; [apply (recurrent_gr C (gr v3)); reflexivity| |auto]. intros [v4 b4] E. unfold gr in E. injection E as E _ _ _ _. rewrite P1 in E.
    dif; [destruct (v_first_sei v4); [rewrite HG|]; exact E|].
    clear -E. revert v4 E. generalize false. induction f as [|f IH]; intros stop v4 E; cbn [validate_loop]; pose proof (has_pending_gr v4) as EP;
      destruct (has_pending v4) as [v5 found]; cbn [fst] in EP; unfold gr in EP; injection EP as A1 A2 A3 A4 A5.
    { dif; [congruence|exact I]. }
    dif; [congruence|]. cbv zeta. apply holds_bind. set (v6 := if v_result v5 then _ else _).
    assert (S6 : v_signing v6 = true) by (unfold v6; destruct (v_result v5); cbn; congruence). clearbody v6.
    eapply holds_impl; [apply (prepare_gr C Ov (gr v6)); reflexivity| |auto]. intros [v7 st7] E7. unfold gr in E7. injection E7 as E7 _ _ _ _.
    destruct (negb (is_ok st7)); [congruence|]. apply holds_bind.
    eapply holds_impl; [apply (update_link_gr (gr v7)); reflexivity| |auto]. intros v8 E8. unfold gr in E8. injection E8 as E8 _ _ _ _.
    apply holds_bind. replace (v_signing v8) with true by congruence. eapply holds_impl; [apply validate_changed| |auto]. intros v9 (_ & V2 & _).
    apply IH. cbn. congruence. }
  intros [v4 st4] [[L1 L2] L3]. right. split; [exact L3|]. split; [auto|]. auto.
Qed.

(** What a NALU does to the key, in a session that has seen a Signed Video SEI. *)
Definition reported (k : list N) (v : valid) (r : option report) : Prop :=
  exists k', inuse C k' (v_dec v) /\
    (k' = k \/ (a_auth (v_acc v) = NotOk /\ match r with Some p => l_auth (p_latest p) = NotOk | None => True end)).
Lemma add_key f v d want n v' st r : d <> [] -> parse_nalu d (v_codec v) true true = Def n -> v_signing v || n_gop_sei n = true -> n_golden n = false ->
  add_nalu C Ov f v d want = Def (v', VRes st r) ->
  v_signing v' = true /\ (keyed C (v_dec v) -> keyed C (v_dec v')) /\ (forall k, inuse C k (v_dec v) -> st = SV_OK -> reported k v' r /\ (want = true -> d_vkey (v_dec v') = Some k \/ r <> None)).
Proof.
  intros HD HP HS HG. unfold add_nalu. destruct d as [|d0 d1]; [congruence|]. set (d := d0 :: d1) in *. clearbody d. cbv zeta.
  set (v1 := create_report _).
  assert (E1 : v_codec v1 = v_codec v /\ v_signing v1 = v_signing v /\ v_report v1 = true /\
     (d_pub (v_dec v1), d_vkey (v_dec v1), d_has_pub (v_dec v1)) = (d_pub (v_dec v), d_vkey (v_dec v), d_has_pub (v_dec v))).
  { unfold v1, create_report. cbn [v_report set_v_started]. destruct (v_report v) eqn:E; cbn; auto. }
  clearbody v1. destruct E1 as (E1 & E2 & E3 & E4). injection E4 as E4 E5 E6.
  destruct (v_legacy v1); [discriminate|]. pose proof (add_h26x_fr C Ov f v1 d) as HF. unfold add_h26x in *. rewrite E1, HP in *. cbn [obind] in *. cbv zeta in *. set (v2 := on_acc _ _) in *.
  assert (S2 : v_signing v2 || n_gop_sei n = true) by (change (v_signing v2) with (v_signing v1); rewrite E2; exact HS).
  pose proof (add_body_key f v2 n S2 eq_refl HG (parse_valid d _ n HD HP)) as HB.
  change (v_dec v2) with (v_dec v1) in HB. clearbody v2. destruct (add_body C Ov f v2 n) as [[v3 st3]|]; [|discriminate]. cbn [holds obind] in *.
  destruct (v_legacy v3) eqn:EL; cbn [obind holds] in *; [rewrite EL; discriminate|]. destruct HB as [HB|(B1 & B2 & B3)]; [congruence|].
  destruct (copy_last _ _) as [[l cst]|]; [|discriminate]. cbn [obind holds] in *.
  set (st4 := if is_ok st3 then cst else st3) in *. set (v4 := set_v_items _ v3) in *.
  assert (E7 : v_signing v4 = true /\ v_dec v4 = v_dec v3 /\ v_result v4 = v_result v3 /\ v_latest v4 = v_latest v3 /\ v_acc v4 = v_acc v3 /\ v_legacy v4 = false /\ v_first v4 = v_first v3) by (unfold v4; cbn; auto 10).
  clearbody v4. destruct E7 as (E7 & E8 & E9 & E10 & E11 & E12 & E13). destruct HF as [HF|(F1 & F2 & F3 & F4)]; [congruence|]. rewrite E12.
  assert (KD : keyed C (v_dec v) -> keyed C (v_dec v4)).
  { intros H. rewrite E8. apply B2. unfold keyed, inuse in *. rewrite E4, E5, E6. exact H. }
  destruct (is_ok st4) eqn:ES; cbn [negb].
  2:{ intros H. injection H as <- <- <-. split; [exact E7|]. split; [exact KD|]. intros k _ ->. discriminate. }
  assert (S3 : is_ok st3 = true) by (unfold st4 in ES; destruct (is_ok st3) eqn:EX; congruence).
  assert (FK : forall k, inuse C k (v_dec v) -> flagged k v4).
  { intros k H. assert (H1 : inuse C k (v_dec v1)) by (unfold inuse in *; rewrite E4, E5, E6; exact H).
    destruct (B3 k H1 S3) as (k' & H2 & H3). exists k'. rewrite E8, E9, E10. rewrite E13.
    split; [exact H2|]. destruct H3 as [H3|(H3 & H4 & H5)]; [auto|]. right. split; [exact H3|]. auto. }
  destruct (v_result v4) eqn:ER.
  2:{ intros H. injection H as <- <- <-. split; [exact E7|]. split; [exact KD|]. intros k H _. destruct (FK k H) as (k' & H2 & [H3|(H3 & _)]); [|congruence].
      subst k'. split; [exists k; auto|]. left. apply H2. }
  set (v5 := update_report v4).
  assert (U : v_signing v5 = true /\ v_report v5 = true /\ v_dec v5 = v_dec v4 /\ l_auth (v_latest v5) = l_auth (v_latest v4) /\ (l_auth (v_latest v4) = NotOk -> a_auth (v_acc v5) = NotOk)).
  { destruct (update_report_auth v4) as (U1 & U2 & U3 & U4 & U5 & U6). split; [unfold v5; congruence|]. split; [unfold v5; congruence|]. split; [|split; [exact U1|]].
    - unfold v5, update_report. cbv zeta. dif; cbn [v_items on_latest set_v_latest v_dec]; destruct (clean_up _); reflexivity.
    - intros H. unfold v5. rewrite U2, H. destruct (a_auth (v_acc v4)); reflexivity. }
  clearbody v5. destruct U as (U1 & U2 & U3 & U4 & U5).
  assert (FIN : forall w rr, kd (v_dec w) = kd (v_dec v5) -> a_auth (v_acc w) = a_auth (v_acc v5) -> match rr with Some p => p_latest p = v_latest v5 | None => want = false end ->
     forall k, inuse C k (v_dec v) -> reported k w rr /\ (want = true -> d_vkey (v_dec w) = Some k \/ rr <> None)).
  { intros w rr W1 W2 W3 k H. split.
    - destruct (FK k H) as (k' & H1 & H2). exists k'. unfold kd in W1. injection W1 as W4 W5 W6 W7. unfold inuse in *. rewrite W4, W5, W6, U3, W2. split; [exact H1|]. destruct H2 as [H2|(_ & _ & H2)]; [auto|]. right.
      split; [auto|]. destruct rr; [rewrite W3, U4; exact H2|exact I].
    - intros HW. right. destruct rr; [discriminate|congruence]. }
  unfold get_report. rewrite U2. cbn [negb]. destruct want.
  - intros H. injection H as <- <- <-. split; [exact U1|]. split; [change (keyed C (v_dec v) -> keyed C (v_dec v5)); rewrite U3; exact KD|]. intros k H _.
    apply FIN; [reflexivity|reflexivity|reflexivity|exact H].
  - intros H. injection H as <- <- <-. split; [exact U1|]. split; [change (keyed C (v_dec v) -> keyed C (v_dec v5)); rewrite U3; exact KD|]. intros k H _. apply FIN; auto.
Qed.

Definition kinv (v : valid) : Prop := (uns v \/ v_signing v = true) /\ keyed C (v_dec v) /\ auth_inv v /\ stick v.
Definition kept (k : list N) (v : valid) : Prop := inuse C k (v_dec v) \/ a_auth (v_acc v) = NotOk.
Lemma not_ok_only a : verdict a -> ar_n a <= 2 -> a = NotOk.
Proof. intros [->|[->| ->]]; cbn; auto; lia. Qed.

Lemma exec_key f v o v' st r : kinv v -> no_reset o -> not_golden (v_codec v) o -> vexec C Ov (S f) v o = Def (v', VRes st r) ->
  kinv v' /\ v_codec v' = v_codec v /\ (forall k, kept k v -> st = SV_OK -> kept k v') /\
  (forall k d, inuse C k (v_dec v) -> st = SV_OK -> o = VAdd d true -> d_vkey (v_dec v') <> Some k ->
     exists p, r = Some p /\ l_auth (p_latest p) = NotOk /\ a_auth (p_acc p) = NotOk).
Proof.
  intros KI HR HG HE. pose proof KI as (H1 & H2 & H3 & H4). destruct o as [d w|key| |]; [| | exfalso; apply HR; reflexivity|].
  - cbn [vexec] in HE. destruct d as [|d0 d1].
    { cbn in HE. injection HE as <- <- <-. split; [exact KI|]. split; [reflexivity|]. split; [discriminate|]. intros k d _ E. discriminate. }
    set (d := d0 :: d1) in *. assert (HD : d <> []) by discriminate. clearbody d.
    pose proof (add_auth C Ov (S f) v d w v' st r H3 HE) as (P1 & P2 & P3 & P4). cbn [not_golden] in HG. rewrite HG in P4.
    destruct (P4 eq_refl H4) as (P5 & P6 & P7).
    assert (STK : a_auth (v_acc v) = NotOk -> a_auth (v_acc v') = NotOk).
    { intros E. destruct P6 as [P6 P8]; [rewrite E; left; reflexivity|]. rewrite E in P8. apply not_ok_only; assumption. }
    destruct (parse_nalu d (v_codec v) true true) as [n|] eqn:EP.
    2:{ exfalso. unfold add_nalu in HE. destruct d as [|d2 d3]; [congruence|]. set (d := d2 :: d3) in *. clearbody d. cbv zeta in HE. set (v1 := create_report _) in *.
        assert (E1 : v_codec v1 = v_codec v) by (unfold v1, create_report; dif; reflexivity). destruct (v_legacy v1); [discriminate|].
        unfold add_h26x in HE. rewrite E1, EP in HE. discriminate. }
    assert (GN : n_golden n = false) by (unfold nalu_golden in HG; rewrite EP in HG; exact HG).
    destruct (v_signing v || n_gop_sei n) eqn:ES.
    + destruct (add_key (S f) v d w n v' st r HD EP ES GN HE) as (A1 & A2 & A3).
      split; [split; [auto|]; split; [auto|]; split; assumption|]. split; [exact P2|]. split.
      * intros k [K|K] E; [|right; auto]. destruct (A3 k K E) as [(k' & K1 & [->|[K2 _]]) _]; [left; exact K1|right; exact K2].
      * intros k d' K E EO HN. injection EO as _ EW. destruct (A3 k K E) as [(k' & K1 & K2) K3]. destruct (K3 EW) as [K4|K4]; [congruence|].
        destruct r as [p|]; [|congruence]. exists p. split; [reflexivity|]. destruct P3 as [P3 P8].
        destruct K2 as [->|[K2 K5]]; [exfalso; apply HN, K1|]. split; [exact K5|congruence].
    + apply orb_false_iff in ES as [ES EG]. destruct H1 as [H1|H1]; [|congruence].
      assert (AU : unsigned_nalu (v_codec v) d) by (right; exists n; auto).
      destruct (add_uns C Ov f v d w H1 AU) as (v2 & st2 & r2 & E & U1 & U2 & U3 & _). rewrite HE in E. injection E as <- <- <-.
      injection U3 as U3 U4 U5.
      split; [split; [auto|]; split; [|split; assumption]; unfold keyed, inuse in *; rewrite U3, U4, U5; exact H2|]. split; [exact P2|]. split.
      * intros k [K|K] E; [left; unfold inuse in *; rewrite U3, U4, U5; exact K|right; auto].
      * intros k d' K E EO HN. exfalso. apply HN. rewrite U4. apply K.
  - assert (HO : forall d w, VSetKey key <> VAdd d w) by discriminate.
    destruct (other_auth C Ov (S f) v (VSetKey key) v' _ H3 HO HE) as (O1 & O2 & O3 & O4). destruct (O3 ltac:(discriminate)) as [O5|[n O5]];
    destruct (O4 ltac:(discriminate)) as [O6 O7]; (assert (O8 : a_auth (v_acc v') = a_auth (v_acc v)) by (rewrite O5; reflexivity)).
    all: assert (SK : stick v') by (unfold stick in *; rewrite O8, O6, O7; exact H4).
    all: cbn [vexec] in HE; unfold set_public_key in HE; destruct key as [|k0 k1];
      [injection HE as <- <- <-; split; [exact KI|]; split; [reflexivity|]; split; [auto|intros; discriminate]|].
    all: destruct (d_pub (v_dec v)) as [|b0 b1] eqn:EP;
      [|injection HE as <- <- <-; split; [exact KI|]; split; [reflexivity|]; split; [auto|intros; discriminate]].
    all: destruct (v_started v);
      [injection HE as <- <- <-; split; [exact KI|]; split; [reflexivity|]; split; [auto|intros; discriminate]|].
    all: assert (NU : forall k, ~ inuse C k (v_dec v)) by (intros k (_ & _ & _ & H); congruence).
    all: assert (VN : d_vkey (v_dec v) = None) by (destruct H2 as [H2|(k & H2)]; [exact H2|exfalso; exact (NU k H2)]).
    all: assert (UU : forall w, v_signing w = v_signing v -> v_items w = v_items v -> d_algo_known (v_dec w) = d_algo_known (v_dec v) -> v_legacy w = v_legacy v ->
         v_acc w = v_acc v -> v_report w = v_report v -> v_latest w = v_latest v -> uns w \/ v_signing w = true)
       by (intros w Q1 Q2 Q3 Q4 Q5 Q6 Q7; destruct H1 as [H1|H1]; [left; unfold uns in *; rewrite Q1, Q2, Q3, Q4, Q5, Q6, Q7; exact H1|right; congruence]).
    all: assert (KK : forall k, kept k v -> a_auth (v_acc v) = NotOk) by (intros k [K|K]; [exfalso; exact (NU k K)|exact K]).
    all: destruct (c_pub_ok C (k0 :: k1)) eqn:EO; injection HE as <- <- <-.
    all: split; [split; [apply UU; reflexivity|split; [|split; assumption]]|split; [exact O2|split; [intros k K _; right; rewrite O8; exact (KK k K)|intros; discriminate]]].
    all: first [left; exact VN | right; exists (k0 :: k1); unfold inuse; cbn; repeat split; auto; discriminate].
  - cbn [vexec] in HE. destruct (v_legacy v); [discriminate|]. unfold get_report in HE. destruct (v_report v) eqn:ER; cbn [negb] in HE; injection HE as <- <- <-.
    + split; [|split; [reflexivity|split; [|intros; discriminate]]].
      * split; [|split; [exact H2|split]].
        { destruct H1 as [H1|H1]; [left|right; exact H1]. destruct H1 as (J1 & J2 & J3 & J4 & J5 & J6 & J7). unfold uns. cbn. repeat split; auto; apply J7; exact ER. }
        { destruct H3 as (J1 & J2 & J3). unfold auth_inv. cbn. rewrite ER. repeat split; auto. discriminate. }
        { exact H4. }
      * intros k K _. exact K.
    + split; [exact KI|]. split; [reflexivity|]. split; [auto|intros; discriminate].
Qed.

Lemma run_key f ops : forall v v' res, kinv v -> Forall no_reset ops -> Forall (not_golden (v_codec v)) ops -> ~ In VLegacy res ->
  vrun C Ov (S f) v ops = Def (v', res) ->
  kinv v' /\ v_codec v' = v_codec v /\ (forall k, kept k v -> Forall call_ok res -> kept k v').
Proof.
  induction ops as [|o ops IH]; intros v v' res HI HR HG HL; cbn [vrun].
  { intros E. injection E as <- <-. auto. }
  apply Forall_cons_iff in HR as [HR0 HR]. apply Forall_cons_iff in HG as [HG0 HG].
  destruct (vexec C Ov (S f) v o) as [[v1 x]|] eqn:EX; [|discriminate]. cbn [obind].
  destruct (vrun C Ov (S f) v1 ops) as [[v2 xs]|] eqn:ER; [|discriminate]. cbn [obind]. intros E. injection E as <- <-.
  destruct x as [st r|]; [|exfalso; apply HL; left; reflexivity].
  destruct (exec_key f v o v1 st r HI HR0 HG0 EX) as (I1 & C1 & K1 & _). rewrite <- C1 in HG.
  destruct (IH v1 v2 xs I1 HR HG ltac:(intros H; apply HL; right; exact H) ER) as (I2 & C2 & K2).
  split; [exact I2|]. split; [congruence|]. intros k K F. apply Forall_cons_iff in F as [F0 F]. apply K2; [|exact F]. apply K1; [exact K|]. exact F0.
Qed.
Lemma create_kinv c : kinv (vcreate C c).
Proof. destruct (create_inv C c). split; [left; apply create_uns|]. split; [left; reflexivity|]. auto. Qed.

Lemma session_key f c a b v1 ra v2 rb k :
  Forall no_reset (a ++ b) -> Forall (not_golden c) (a ++ b) -> ~ In VLegacy (ra ++ rb) ->
  vrun C Ov (S f) (vcreate C c) a = Def (v1, ra) -> d_vkey (v_dec v1) = Some k ->
  vrun C Ov (S f) v1 b = Def (v2, rb) -> Forall call_ok rb ->
  d_vkey (v_dec v2) = Some k \/ a_auth (v_acc v2) = NotOk.
Proof.
  intros HR HG HL HA HK HB HO. apply Forall_app in HR as [HR1 HR2]. apply Forall_app in HG as [HG1 HG2].
  destruct (run_key f a (vcreate C c) v1 ra (create_kinv c) HR1 HG1 ltac:(intros H; apply HL, in_or_app; auto) HA) as (I1 & C1 & _).
  change (v_codec (vcreate C c)) with c in C1. rewrite <- C1 in HG2.
  destruct (run_key f b v1 v2 rb I1 HR2 HG2 ltac:(intros H; apply HL, in_or_app; auto) HB) as (_ & _ & K).
  assert (U : inuse C k (v_dec v1)).
  { destruct I1 as (_ & [I1|(k1 & I1)] & _); [congruence|]. replace k with k1; [exact I1|]. destruct I1 as [I1 _]. congruence. }
  destruct (K k (or_introl U) HO) as [[K1 _]|K1]; auto.
Qed.
Lemma session_flagged f c a d v1 ra v2 st r k :
  Forall no_reset a -> Forall (not_golden c) (a ++ [VAdd d true]) -> ~ In VLegacy ra ->
  vrun C Ov (S f) (vcreate C c) a = Def (v1, ra) -> d_vkey (v_dec v1) = Some k ->
  vexec C Ov (S f) v1 (VAdd d true) = Def (v2, VRes st r) -> st = SV_OK -> d_vkey (v_dec v2) <> Some k ->
  exists p, r = Some p /\ l_auth (p_latest p) = NotOk /\ a_auth (p_acc p) = NotOk.
Proof.
  intros HR HG HL HA HK HB HO HN. apply Forall_app in HG as [HG1 HG2].
  destruct (run_key f a (vcreate C c) v1 ra (create_kinv c) HR HG1 HL HA) as (I1 & C1 & _).
  change (v_codec (vcreate C c)) with c in C1. rewrite <- C1 in HG2. apply Forall_inv in HG2.
  assert (U : inuse C k (v_dec v1)).
  { destruct I1 as (_ & [I2|(k1 & I2)] & _); [congruence|]. replace k with k1; [exact I2|]. destruct I2 as [I2 _]. congruence. }
  destruct (exec_key f v1 (VAdd d true) v2 st r I1 ltac:(discriminate) HG2 HB) as (_ & _ & _ & K). eapply K; eauto.
Qed.
End Change.

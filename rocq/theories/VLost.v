(** SEIs that are lost: lemmas. *)
From Verif Require Import Base BaseProofs Epb Nalu Crypto Types Hash Tlv TlvProofs CodecSpec CodecProofs SignerProofs VTypes NaluList Validator VListProofs
  VFrameProofs ValidSpec VAuthProofs VKeyProofs.
Local Open Scope N_scope.

(** *** The counter in a SEI *)
Section Counter.
Variable C : crypto.
Lemma other_tag_counter d tag mem size : tag <> 1 -> holds (decode_tag C d tag mem size) (fun '(d', _) => d_counter d' = d_counter d) (fun _ => True).
Proof.
  intros H. unfold decode_tag. destruct tag as [|tag]; [exact I|].
  repeat first [ exact I | match goal with |- holds (match ?t with _ => _ end) _ _ => destruct t end ]; try congruence; try reflexivity.
  all: unfold decode_public_key, decode_product, decode_hash_list, decode_signature, decode_arbitrary, decode_crypto.
  all: repeat first [ exact I | reflexivity | match goal with
        | |- holds (obind (obind _ _) _) _ _ => rewrite obind_assoc
        | |- holds (obind (Def _) _) _ _ => cbn [obind]
        | |- holds (obind (if ?b then _ else _) _) _ _ => destruct b
        | |- holds (obind ?x _) _ _ => destruct x as [[? ?]|]; cbn [obind]
        | |- holds (obind ?x _) _ _ => destruct x; cbn [obind]
        | |- holds (if ?b then _ else _) _ _ => destruct b
        | |- holds (match ?b with _ => _ end) _ _ => destruct b
        | |- _ => progress cbv zeta
        | |- holds (Def _) _ _ => cbn [holds]
        end ].
  all: destruct (_ && _); reflexivity.
Qed.
Lemma general_counter d ver c more r size : c < 2 ^ 32 ->
  holds (decode_general d ((ver :: digits 4 c ++ more) ++ r) size) (fun '(d', st) => is_ok st = true -> d_counter d' = c) (fun _ => True).
Proof.
  intros HC. unfold decode_general. cbn [app read_8bits obind]. destruct (_ || _); [discriminate|].
  rewrite <- app_assoc, digits_be32, read_be32 by exact HC. cbn [obind].
  repeat first [ exact I | reflexivity | intros _; reflexivity | match goal with
        | |- holds (obind (obind _ _) _) _ _ => rewrite obind_assoc
        | |- holds (obind (Def _) _) _ _ => cbn [obind]
        | |- holds (obind (if ?b then _ else _) _) _ _ => destruct b
        | |- holds (obind ?x _) _ _ => destruct x as [[? ?]|]; cbn [obind]
        | |- holds (obind ?x _) _ _ => destruct x; cbn [obind]
        | |- holds (if ?b then _ else _) _ _ => destruct b
        | |- holds (match ?b with _ => _ end) _ _ => destruct b
        | |- _ => progress cbv zeta
        | |- holds (Def _) _ _ => cbn [holds]
        end ].
Qed.
Lemma fields_step t v fs r rem f d st x : field_fits (t, v) -> rem = nlen (concat (map field_bytes fs)) ->
  tlv_decode_loop C (S f) d (field_bytes (t, v) ++ concat (map field_bytes fs) ++ r) (nlen (field_bytes (t, v)) + rem) st = Def x ->
  exists d1 st1, decode_tag C d t (v ++ concat (map field_bytes fs) ++ r) (nlen v) = Def (d1, st1) /\
    if is_ok st1 then tlv_decode_loop C f d1 (concat (map field_bytes fs) ++ r) rem SV_OK = Def x else x = (d1, st1).
Proof.
  intros Hf -> H. cbn [tlv_decode_loop] in H. pose proof (field_bytes_len _ Hf) as HL. cbn [fst snd] in HL.
  destruct (_ =? 0) eqn:E0 in H. { apply N.eqb_eq in E0. lia. }
  rewrite (header_field (t, v) _ Hf) in H. cbn [obind fst snd] in H.
  destruct (decode_tag _ _ _ _ _) as [[d1 st1]|] eqn:ED; [|discriminate]. cbn [obind] in H. exists d1, st1. split; [reflexivity|].
  destruct (is_ok st1); [|congruence]. rewrite <- H. f_equal.
  - unfold nlen. rewrite Nat2N.id. symmetry. apply skipn_app_exact.
  - lia.
Qed.
Lemma fields_loop post : forall d r f st d' st', Forall field_fits post -> ~ In 1 (map fst post) ->
  tlv_decode_loop C f d (concat (map field_bytes post) ++ r) (nlen (concat (map field_bytes post))) st = Def (d', st') ->
  d_counter d' = d_counter d.
Proof.
  induction post as [|[t v] post IH]; intros d r f st d' st' HF HN H.
  - cbn in H. destruct f; cbn in H; congruence.
  - apply Forall_cons_iff in HF as [Hf HF]. cbn [map concat] in H.
    destruct f as [|f].
    { cbn [tlv_decode_loop] in H. destruct (_ =? 0) eqn:E in H; [congruence|discriminate]. }
    unfold nlen in H. rewrite app_length, Nat2N.inj_add, <- app_assoc in H.
    destruct (fields_step t v post r _ f d st (d', st') Hf eq_refl H) as (d1 & st1 & E1 & E2).
    pose proof (other_tag_counter d t (v ++ concat (map field_bytes post) ++ r) (nlen v) ltac:(intros ->; apply HN; left; reflexivity)) as K.
    rewrite E1 in K. cbn in K. destruct (is_ok st1); [|injection E2 as -> ->; exact K].
    rewrite <- K. eapply IH; [exact HF|intros HI; apply HN; right; exact HI|exact E2].
Qed.
Lemma carries_loop pre : forall d ver c more post r f st d' st', c < 2 ^ 32 ->
  Forall field_fits (pre ++ (1, ver :: digits 4 c ++ more) :: post) -> ~ In 1 (map fst (pre ++ post)) ->
  let fs := pre ++ (1, ver :: digits 4 c ++ more) :: post in
  tlv_decode_loop C f d (concat (map field_bytes fs) ++ r) (nlen (concat (map field_bytes fs))) st = Def (d', st') ->
  is_ok st' = true -> d_counter d' = c.
Proof.
  cbv zeta. induction pre as [|[t v] pre IH]; intros d ver c more post r f st d' st' HC HF HN H HO.
  - cbn [app map concat] in H. cbn [app] in HF. apply Forall_cons_iff in HF as [Hf HF]. cbn [app] in HN.
    destruct f as [|f].
    { cbn [tlv_decode_loop] in H. destruct (_ =? 0) eqn:E in H; [|discriminate]. apply N.eqb_eq in E. unfold nlen in E. cbn in E. lia. }
    unfold nlen in H. rewrite app_length, Nat2N.inj_add, <- app_assoc in H.
    destruct (fields_step 1 (ver :: digits 4 c ++ more) post r _ f d st (d', st') Hf eq_refl H) as (d1 & st1 & E1 & E2).
    change (decode_tag C d 1) with (decode_general d) in E1.
    pose proof (general_counter d ver c more (concat (map field_bytes post) ++ r) (nlen (ver :: digits 4 c ++ more)) HC) as K. rewrite E1 in K. cbn [holds] in K.
    destruct (is_ok st1) eqn:ES; [|injection E2 as -> ->; congruence].
    rewrite <- (K eq_refl). eapply fields_loop; [exact HF|exact HN|exact E2].
  - cbn [app map concat] in H. cbn [app] in HF. apply Forall_cons_iff in HF as [Hf HF]. cbn [app map] in HN.
    destruct f as [|f].
    { cbn [tlv_decode_loop] in H. destruct (_ =? 0) eqn:E in H; [|discriminate]. apply N.eqb_eq in E. unfold nlen in E. rewrite app_length in E. cbn in E. lia. }
    unfold nlen in H. rewrite app_length, Nat2N.inj_add, <- app_assoc in H.
    destruct (fields_step t v (pre ++ (1, ver :: digits 4 c ++ more) :: post) r _ f d st (d', st') Hf eq_refl H) as (d1 & st1 & E1 & E2).
    destruct (is_ok st1) eqn:ES; [|injection E2 as -> ->; congruence].
    eapply IH; [exact HC|exact HF| |exact E2|exact HO]. intros HI. apply HN. right. exact HI.
Qed.
Lemma carries_decode n c d d' st : carries n c -> tlv_decode C d (n_tlv_mem n) (n_tlv_size n) = Def (d', st) -> is_ok st = true -> d_counter d' = c.
Proof.
  intros (pre & ver & more & post & rest & E1 & E2 & HF & HC & HN) H HO. rewrite E1, E2 in H. rewrite wires_fields in H by exact HF.
  unfold tlv_decode in H. destruct (_ =? 0) in H; [injection H as <- <-; discriminate|].
  eapply carries_loop; [exact HC| |exact HN|exact H|exact HO]. eapply Forall_impl; [|exact HF]. intros f. apply wire_ok_fits.
Qed.
End Counter.

(** *** What stays *)
Definition gl (v : valid) : N * bool := (v_gop v, v_synced v).
Definition ls (v : valid) : gstate * latest * bool * bool * bool := (v_gs v, v_latest v, v_signing v, v_result v, v_first v).
Global Hint Extern 1 (gl _ = _) => eassumption : frame.
Global Hint Extern 1 (ls _ = _) => eassumption : frame.
Section Keep.
Variable C : crypto.
Variable Ov : ovf.
Lemma hash_item_gl k v it : gl v = k -> holds (hash_item C v it) (fun '(v', _, _) => gl v' = k) (fun _ => True).
Proof. intros H. unfold hash_item. fr_go. Qed.
Hint Resolve hash_item_gl : frame.
Lemma register_gl k v n : gl v = k -> holds (register C v n) (fun '(v', _, _) => gl v' = k) (fun _ => True).
Proof. intros H. unfold register. fr_go. Qed.
Lemma rehash_gl k l : forall v st, gl v = k -> holds (rehash C v l st) (fun '(v', _, _) => gl v' = k) (fun _ => True).
Proof. induction l as [|it l IH]; intros v st H; cbn [rehash]; fr_go. Qed.
Hint Resolve rehash_gl : frame.
Lemma reregister_gl k v : gl v = k -> holds (reregister C v) (fun '(v', _) => gl v' = k) (fun _ => True).
Proof. intros H. unfold reregister. fr_go. Qed.
Lemma recurrent_gl k v : gl v = k -> holds (recurrent_decoded C v) (fun '(v', _) => gl v' = k) (fun _ => True).
Proof. intros H. unfold recurrent_decoded. fr_go. Qed.

Lemma update_links_ls k v h : ls v = k -> holds (update_links v h) (fun v' => ls v' = k) (fun _ => True).
Proof. intros H. unfold update_links. fr_go. Qed.
Hint Resolve update_links_ls : frame.
Lemma update_link_ls k v : ls v = k -> holds (update_link v) (fun v' => ls v' = k) (fun _ => True).
Proof. intros H. unfold update_link. fr_go. Qed.
Lemma prepare_gop_ls k v : ls v = k -> holds (prepare_gop C v) (fun '(v', _) => ls v' = k) (fun _ => True).
Proof. intros H. unfold prepare_gop. fr_go. Qed.
Lemma verify_without_ls k v : ls v = k -> holds (verify_without v) (fun '(v', _) => ls v' = k) (fun _ => True).
Proof. intros H. unfold verify_without. fr_go. Qed.
Hint Resolve verify_without_ls : frame.
Lemma verify_list_ls k v o : ls v = k -> holds (verify_list v o) (fun '(v', _, _, _) => ls v' = k) (fun _ => True).
Proof. intros H. unfold verify_list. fr_go. Qed.
Hint Resolve verify_list_ls : frame.
Lemma verify_with_ls k v : ls v = k -> holds (verify_with v) (fun '(v', _, _, _) => ls v' = k) (fun _ => True).
Proof. intros H. unfold verify_with. fr_go. Qed.
Lemma verify_hash_ls k v : ls v = k -> ls (fst (verify_hash C v)) = k.
Proof. intros H. unfold verify_hash. fr_go. Qed.

(** The part of an item that decides which SEI is validated next. *)
Definition shape (it : item) : option (bool * list N * N) * vstat * bool :=
  (match i_nalu it with Some n => Some (n_gop_sei n, n_tlv_mem n, n_tlv_size n) | None => None end, i_status it, i_decoded it).
Lemma next_shape l : forall l', map shape l = map shape l' -> option_map shape (next_sei l) = option_map shape (next_sei l').
Proof.
  induction l as [|a l IH]; intros [|b l'] H; try discriminate; [reflexivity|]. cbn [map] in H. apply (f_equal (fun x => match x with h :: t => (h, t) | [] => (shape a, []) end)) in H.
  assert (HS : shape a = shape b) by congruence. assert (HT : map shape l = map shape l') by congruence. clear H. unfold next_sei in *. cbn [find].
  assert (E : item_sei a && pending a = item_sei b && pending b).
  { unfold shape in HS. injection HS as H1 H2 H3. unfold item_sei, pending. rewrite H2. destruct (i_nalu a), (i_nalu b); try discriminate; [injection H1 as -> _ _; reflexivity|reflexivity]. }
  rewrite E. destruct (item_sei b && pending b); [cbn [option_map]; congruence|]. apply IH, HT.
Qed.
Lemma waiting_next l : first_waiting l = next_sei l.
Proof.
  unfold first_waiting, next_sei. induction l as [|a l IH]; [reflexivity|]. cbn [find]. rewrite IH.
  unfold item_sei, pending. destruct (i_nalu a); [|reflexivity]. destruct (i_status a); cbn; rewrite ?andb_true_r, ?andb_false_r; reflexivity.
Qed.
Lemma hash_item_shape v it : holds (hash_item C v it) (fun '(v', it', _) => shape it' = shape it /\ v_items v' = v_items v) (fun _ => True).
Proof.
  eapply holds_impl; [apply hash_item_same| |auto]. intros [[v1 it1] st] (G1 & G2 & G3 & G4). split; [|exact G1]. unfold shape. rewrite G2, G3, G4. reflexivity.
Qed.
Lemma register_shape v n : holds (register C v n) (fun '(v', it, _) => shape it = shape (item_create n) /\ v_items v' = v_items v) (fun _ => True).
Proof.
  unfold register. dif; [cbn; auto|]. apply holds_bind.
  assert (G : holds (update_hashable n) (fun n2 => n_gop_sei n2 = n_gop_sei n /\ n_tlv_mem n2 = n_tlv_mem n /\ n_tlv_size n2 = n_tlv_size n) (fun _ => True)).
  { unfold update_hashable. dif; [cbn; auto|]. apply holds_bind. destruct (tlv_find_tag _ _ _ _) as [[o|]|]; [| |exact I]; cbn; auto. }
  eapply holds_impl; [exact G| |auto]. intros n2 (E1 & E2 & E3). eapply holds_impl; [apply hash_item_shape| |auto].
  intros [[v1 it] st] [H1 H2]. split; [|exact H2]. rewrite H1. unfold shape. cbn. rewrite E1, E2, E3. reflexivity.
Qed.
Lemma rehash_shape l : forall v st, holds (rehash C v l st) (fun '(v', m, _) => map shape m = map shape l) (fun _ => True).
Proof.
  induction l as [|it l IH]; intros v st; cbn [rehash]; [reflexivity|]. destruct (i_nalu it) as [n|] eqn:EN; [|exact I]. dif.
  - apply holds_bind. eapply holds_impl; [apply IH| |auto]. intros [[v1 m] st1] E. cbn. congruence.
  - apply holds_bind. eapply holds_impl; [apply hash_item_shape| |auto]. intros [[v1 it1] st1] [E _]. dif; [cbn; congruence|].
    apply holds_bind. eapply holds_impl; [apply IH| |auto]. intros [[v2 m] st2] E2. cbn. congruence.
Qed.
Lemma reregister_shape v : holds (reregister C v) (fun '(v', _) => map shape (v_items v') = map shape (v_items v)) (fun _ => True).
Proof. unfold reregister. apply holds_bind. eapply holds_impl; [apply rehash_shape| |auto]. intros [[v1 m] st] E. exact E. Qed.
(** *** A lost SEI *)
Lemma validate_exp v : holds (validate v) (fun v' => v_signing v' = v_signing v /\
   (gs_lost (v_gs v) = true \/ l_exp (v_latest v) = (-1)%Z -> l_exp (v_latest v') = (-1)%Z)) (fun _ => True).
Proof.
  unfold validate. apply holds_bind.
  assert (G : holds (if gs_lost (v_gs v) && negb (gs_trans (v_gs v))
     then do (v, f) <- verify_without v; Def (v, f, -1, -1)%Z
     else do (v, f, e, r) <- verify_with v; Def (set_v_gop (d_counter (v_dec v)) v, f, e, r))
     (fun '(v', _, _, _) => ls v' = ls v) (fun _ => True)).
  { dif; apply holds_bind.
    - eapply holds_impl; [apply verify_without_ls; reflexivity| |auto]. intros [v' f] H. exact H.
    - eapply holds_impl; [apply verify_with_ls; reflexivity| |auto]. intros [[[v' f] e] r] H. exact H. }
  eapply holds_impl; [exact G| |auto]. clear G. intros [[[v1 success] exp] recv] H1.
  unfold ls in H1. injection H1 as A1 A2 A3 A4 A5.
  destruct (get_stats (v_items v1)) as [[inv mis] hv]. cbv zeta. set (v2 := on_items remove_used v1).
  assert (E2 : v_gs v2 = v_gs v /\ v_latest v2 = v_latest v /\ v_signing v2 = v_signing v /\ v_first v2 = v_first v) by (unfold v2; cbn; auto). clearbody v2. destruct E2 as (E2 & E3 & E4 & E5).
  assert (K : forall w auth e r, v_gs w = v_gs v -> v_latest w = v_latest v -> v_signing w = v_signing v ->
     holds (let lexp := if gs_lost (v_gs w) then (-1)%Z else if (l_exp (v_latest w) =? -1)%Z then (-1)%Z else (l_exp (v_latest w) + e)%Z in
       Def (on_latest (fun l => set_l_exp lexp (set_l_recv (l_recv l + r)%Z (set_l_auth auth l))) w))
       (fun v' => v_signing v' = v_signing v /\ (gs_lost (v_gs v) = true \/ l_exp (v_latest v) = (-1)%Z -> l_exp (v_latest v') = (-1)%Z)) (fun _ => True)).
  { intros w auth e r B1 B2 B3. cbn [holds on_latest set_v_latest v_latest v_signing set_l_exp set_l_recv set_l_auth l_exp]. split; [exact B3|]. rewrite B1, B2. intros [H|H]; [rewrite H; reflexivity|].
    rewrite H. change (-1 =? -1)%Z with true. destruct (gs_lost _); reflexivity. }
  cbv zeta in K. rewrite E5. destruct (v_first v) eqn:EF; cbn [negb andb].
  - rewrite E5. destruct (0 <? inv)%Z; cbn [negb andb]; [|destruct ((0 <? mis)%Z && success); [|destruct hv]]; (apply K; assumption).
  - destruct (0 <? inv)%Z; cbn [negb andb]; [|destruct ((1 <? exp)%Z && (exp <=? mis)%Z); [|destruct ((0 <? mis)%Z && success)]];
      (change (v_first (set_v_synced true v2)) with (v_first v2); rewrite E5; apply K; assumption).
Qed.

Lemma loop_exp f : forall v stop, v_signing v = true -> v_result v = true -> l_exp (v_latest v) = (-1)%Z ->
  holds (validate_loop C Ov f v stop) (fun '(v', st) => l_exp (v_latest v') = (-1)%Z) (fun _ => True).
Proof.
  induction f as [|f IH]; intros v stop HS HR HE; cbn [validate_loop]; pose proof (has_pending_gr v) as E;
    destruct (has_pending v) as [v1 found]; cbn [fst] in E; unfold gr in E; injection E as A1 A2 A3 A4 A5.
  { dif; [congruence|exact I]. }
  dif; [congruence|]. cbv zeta. rewrite A4, HR. apply holds_bind.
  eapply holds_impl; [apply (prepare_gr C Ov (gr v1)); reflexivity| |auto]. intros [v2 st2] E2. unfold gr in E2. injection E2 as B1 B2 B3 B4 B5.
  dif; [congruence|]. apply holds_bind. eapply holds_impl; [apply (update_link_ls (ls v2)); reflexivity| |auto]. intros v3 E3. unfold ls in E3. injection E3 as C1 C2 C3 C4 C5.
  apply holds_bind. replace (v_signing v3) with true by congruence. eapply holds_impl; [apply validate_exp| |auto]. intros v4 [D1 D2].
  apply IH; cbn; [congruence|reflexivity|]. apply D2. right. congruence.
Qed.
End Keep.

Section Lost.
Variable C : crypto.
Lemma detect_ideal v : detect_lost OvfIdeal v = Def (on_gs (set_gs_lost ((u32 (v_gop v + 1) <? d_counter (v_dec v)) && v_synced v)) v).
Proof.
  unfold detect_lost. cbv zeta. assert (AI : forall a b, add_int64 OvfIdeal a b = Def (a + b)%Z) by (intros a b; unfold add_int64; destruct (_ || _); reflexivity).
  rewrite AI. cbn [obind].
  assert (u32 (v_gop v + 1) < 2 ^ 32) by (unfold u32; apply N.mod_lt; discriminate).
  set (e := u32 (v_gop v + 1)) in *. set (c := d_counter (v_dec v)). clearbody e c. change (2 ^ 32) with 4294967296 in *.
  replace ((Z.of_N c - Z.of_N e + 9223372036854775807 <? 9223372036854775807 / 2)%Z) with false.
  2:{ symmetry. apply Z.ltb_ge. change (9223372036854775807 / 2)%Z with 4611686018427387903%Z. lia. }
  cbn [obind]. replace (0 <? Z.of_N c - Z.of_N e)%Z with (e <? c); [reflexivity|]. destruct (N.ltb_spec e c), (Z.ltb_spec 0 (Z.of_N c - Z.of_N e)); lia.
Qed.

Lemma prepare_lost v it n c : next_sei (v_items v) = Some it -> i_nalu it = Some n -> i_decoded it = false -> carries n c ->
  u32 (v_gop v + 1) < c -> v_synced v = true ->
  holds (prepare C OvfIdeal v) (fun '(v', st) => is_ok st = true -> gs_lost (v_gs v') = true) (fun _ => True).
Proof.
  intros HN HI HD HC HL HS. unfold prepare. rewrite HN, HI, HD. cbv zeta. apply holds_bind.
  match goal with |- holds ?x _ _ => assert (G : holds x (fun '(v', st) => is_ok st = true -> gs_lost (v_gs v') = true) (fun _ => True)) end.
  { apply holds_bind. unfold decode_sei. rewrite obind_assoc.
    set (d0 := v_dec (on_dec (set_d_l_changed false) v)).
    destruct (tlv_decode C d0 (n_tlv_mem n) (n_tlv_size n)) as [[d1 st1]|] eqn:ED; [|exact I]. cbn [obind].
    destruct (is_ok st1) eqn:E1; cbn [negb].
    2:{ cbn [obind holds]. rewrite E1. cbn [negb holds]. rewrite E1. cbn [negb holds]. rewrite E1. discriminate. }
    pose proof (carries_decode C n c d0 d1 st1 HC ED E1) as EC.
    set (v1 := set_v_dec d1 _). rewrite detect_ideal.
    assert (P1 : v_gop v1 = v_gop v /\ v_synced v1 = true /\ v_dec v1 = d1) by (unfold v1; cbn; auto). clearbody v1. destruct P1 as (P1 & P2 & P3).
    assert (HB : (u32 (v_gop v1 + 1) <? d_counter (v_dec v1)) && v_synced v1 = true).
    { rewrite P1, P2, P3, EC, andb_true_r. apply N.ltb_lt, HL. }
    rewrite HB. cbn [obind]. set (v2 := if gs_no_end _ && _ then _ else _).
    assert (P4 : v_gop v2 = v_gop v /\ v_synced v2 = true /\ v_dec v2 = d1).
    { unfold v2. dif; cbn; auto. }
    clearbody v2. destruct P4 as (P4 & P5 & P6). cbn [holds obind]. change (negb (is_ok SV_OK)) with false. cbv iota.
    destruct (read_hash _ _); [|exact I]. cbn [obind]. destruct (put_at _ _ _); [|exact I]. cbn [obind holds]. change (negb (is_ok SV_OK)) with false. cbv iota.
    rewrite detect_ideal. cbn [obind]. set (v3 := on_gs _ _).
    assert (P7 : gs_lost (v_gs v3) = true).
    { unfold v3. cbn. rewrite P4, P5, P6, EC, andb_true_r. apply N.ltb_lt, HL. }
    clearbody v3. eapply holds_impl; [apply (prepare_gop_ls C (ls v3)); reflexivity| |auto]. intros [v4 st4] E4 _. unfold ls in E4. injection E4 as -> _ _ _ _. exact P7. }
  eapply holds_impl; [exact G| |auto]. intros [v4 st4] E4. destruct (is_ok st4) eqn:ES; cbn [negb]; [|cbn [holds]; rewrite ES; discriminate].
  specialize (E4 eq_refl). dif; [discriminate|]. dif; [|intros _; exact E4]. cbn [holds]. pose proof (verify_hash_ls C (ls v4) v4 eq_refl) as E.
  destruct (verify_hash C v4) as [v5 st5]. cbn [fst] in E. unfold ls in E. injection E as E _ _ _ _. intros _. rewrite E. exact E4.
Qed.

Lemma maybe_exp f v n it m c : v_signing v = true -> v_result v = false -> n_golden n = false ->
  next_sei (v_items v) = Some it -> i_nalu it = Some m -> i_decoded it = false -> carries m c ->
  u32 (v_gop v + 1) < c -> v_synced v = true ->
  holds (maybe_validate C OvfIdeal f v n) (fun '(v', st) => is_ok st = true -> v_result v' = true -> l_exp (v_latest v') = (-1)%Z) (fun _ => True).
Proof.
  intros HS HR HG HN HI HD HC HL HY. unfold maybe_validate. set (f1 := match rev (v_items v) with it :: _ => feasible it | [] => false end). clearbody f1. cbv zeta. apply holds_bind.
  assert (HJ : forall {A} (x : out A) P Q, holds x P (fun _ => True) -> holds x Q (fun _ => True) -> holds x (fun a => P a /\ Q a) (fun _ => True)).
  { intros A [a|] P Q; cbn; auto. }
  eapply holds_impl; [apply HJ; [apply HJ; [apply (recurrent_gr C (gr v)); reflexivity|apply (recurrent_gl C (gl v)); reflexivity]|apply recurrent_items]| |auto].
  intros [v1 b] [[E1 E2] E3]. unfold gr in E1. injection E1 as A1 A2 A3 A4 A5. unfold gl in E2. injection E2 as B1 B2.
  rewrite <- E3 in HN. rewrite <- B1 in HL. rewrite <- B2 in HY. rewrite <- A1 in HS. rewrite <- A4 in HR. clear E3 B1 B2 A1 A2 A3 A4 A5 v.
  dif.
  { destruct (v_first_sei v1); [rewrite HG; cbn; auto|]. cbn [holds]. congruence. }
  destruct f as [|f]; cbn [validate_loop]; pose proof (has_pending_gr v1) as E;
    (assert (EI : v_items (fst (has_pending v1)) = v_items v1 /\ gl (fst (has_pending v1)) = gl v1) by (unfold has_pending; destruct (pending_loop _ _ _); split; reflexivity));
    destruct (has_pending v1) as [v2 found]; cbn [fst] in E, EI; unfold gr in E; injection E as A1 A2 A3 A4 A5; destruct EI as [EI EG]; unfold gl in EG; injection EG as G1 G2.
  { dif; [cbn; congruence|exact I]. }
  dif; [cbn; congruence|]. rewrite A4, HR. cbv zeta. apply holds_bind. set (v3 := on_latest _ v2).
  assert (P3 : next_sei (v_items v3) = Some it /\ u32 (v_gop v3 + 1) < c /\ v_synced v3 = true /\ v_signing v3 = true).
  { unfold v3. cbn. rewrite EI, G1, G2, A1. auto. }
  clearbody v3. destruct P3 as (P1 & P2 & P3 & P4).
  eapply holds_impl; [apply HJ; [apply (prepare_lost v3 it m c P1 HI HD HC P2 P3)|apply (prepare_gr C OvfIdeal (gr v3)); reflexivity]| |auto].
  intros [v4 st4] [Q1 Q2]. unfold gr in Q2. injection Q2 as Q2 _ _ _ _. destruct (is_ok st4) eqn:ES; cbn [negb]; [|cbn [holds]; rewrite ES; discriminate].
  specialize (Q1 eq_refl). apply holds_bind. eapply holds_impl; [apply (update_link_ls (ls v4)); reflexivity| |auto]. intros v5 E5. unfold ls in E5. injection E5 as C1 C2 C3 C4 C5.
  apply holds_bind. replace (v_signing v5) with true by congruence. eapply holds_impl; [apply validate_exp| |auto]. intros v6 [D1 D2].
  eapply holds_impl; [apply loop_exp; cbn; [congruence|reflexivity|apply D2; left; congruence]| |auto]. intros [v7 st7] H _ _. exact H.
Qed.

Lemma add_body_exp f v n it m c : v_signing v = true -> v_result v = false -> n_golden n = false -> (n_valid n <? 0)%Z = false ->
  next_sei (v_items v ++ [item_create n]) = Some it -> i_nalu it = Some m -> i_decoded it = false -> carries m c ->
  u32 (v_gop v + 1) < c -> v_synced v = true ->
  holds (add_body C OvfIdeal f v n) (fun '(v', st) => v_legacy v' = true \/ (is_ok st = true -> v_result v' = true -> l_exp (v_latest v') = (-1)%Z)) (fun _ => True).
Proof.
  intros HS HR HG HV HN HI HD HC HL HY. unfold add_body. rewrite HV. cbv zeta. apply holds_bind.
  assert (HJ : forall {A} (x : out A) P Q, holds x P (fun _ => True) -> holds x Q (fun _ => True) -> holds x (fun a => P a /\ Q a) (fun _ => True)).
  { intros A [a|] P Q; cbn; auto. }
  rewrite HS. cbn [orb negb andb]. set (v0 := set_v_signing true _).
  eapply holds_impl; [apply HJ; [apply HJ; [apply (register_gr C (gr v0)); reflexivity|apply (register_gl C (gl v0)); reflexivity]|apply register_shape]| |auto].
  intros [[v1 it1] st] [[H1 G1] [SH _]]. unfold gr in H1. injection H1 as A1 A2 A3 A4 A5. unfold gl in G1. injection G1 as B1 B2.
  set (vi := set_v_items _ v1).
  assert (OK : forall w, v_signing w = true -> v_result w = false -> gl w = gl v -> map shape (v_items w) = map shape (v_items v ++ [item_create n]) ->
    holds (maybe_validate C OvfIdeal f w n) (fun '(v', st) => is_ok st = true -> v_result v' = true -> l_exp (v_latest v') = (-1)%Z) (fun _ => True)).
  { intros w W1 W2 W3 W4. apply next_shape in W4. rewrite HN in W4. cbn in W4. destruct (next_sei (v_items w)) as [itw|] eqn:EW; [|discriminate].
    cbn in W4. unfold shape in W4. rewrite HI, HD in W4. injection W4 as W4 W5 W6. destruct (i_nalu itw) as [mw|] eqn:EM; [|discriminate]. injection W4 as W7 W8 W9.
    unfold gl in W3. injection W3 as W3 W10.
    apply (maybe_exp f w n itw mw c); auto; [|congruence|congruence]. unfold carries. rewrite W8, W9. exact HC. }
  assert (P : v_signing vi = true /\ v_result vi = false /\ gl vi = gl v /\ map shape (v_items vi) = map shape (v_items v ++ [item_create n])).
  { unfold vi. cbn [v_signing v_result set_v_items v_items]. rewrite !map_app. cbn [map]. rewrite SH. split; [exact A1|]. split; [rewrite A4; exact HR|]. split; [|reflexivity]. unfold gl. cbn. rewrite B1, B2. reflexivity. }
  clearbody vi. clear v0 A1 A2 A3 A4 A5 B1 B2 SH.
  destruct (negb (is_ok st)) eqn:ES; [right; apply negb_true_iff in ES; congruence|]. apply holds_bind.
  match goal with |- holds ?x _ _ => assert (G : holds x (fun '(v', st') => v_legacy v' = true \/ is_ok st' = false \/
    (v_signing v' = true /\ v_result v' = false /\ gl v' = gl v /\ map shape (v_items v') = map shape (v_items v ++ [item_create n]))) (fun _ => True)) end.
  { dif; [|right; right; exact P]. apply holds_bind.
    eapply holds_impl; [apply HJ; [apply HJ; [apply (recurrent_gr C (gr vi)); reflexivity|apply (recurrent_gl C (gl vi)); reflexivity]|apply recurrent_items]| |auto].
    intros [v2 b] [[H2 K2] I2]. unfold gr in H2. injection H2 as A1 A2 A3 A4 A5.
    assert (P2 : v_signing v2 = true /\ v_result v2 = false /\ gl v2 = gl v /\ map shape (v_items v2) = map shape (v_items v ++ [item_create n])).
    { destruct P as (P1 & P2 & P3 & P4). rewrite A1, A4, K2, I2. auto. }
    destruct (negb b); [right; right; exact P2|]. rewrite HG. cbn [obind]. change (negb (is_ok SV_OK)) with false. cbv iota.
    dif; [left; reflexivity|]. set (w := on_dec _ v2).
    eapply holds_impl; [apply HJ; [apply HJ; [apply (reregister_gr C (gr w)); reflexivity|apply (reregister_gl C (gl w)); reflexivity]|apply reregister_shape]| |auto].
    intros [v4 st4] [[H4 K4] I4]. right. right. unfold gr in H4. injection H4 as B1 B2 B3 B4 B5. destruct P2 as (P2 & P3 & P4 & P5).
    rewrite B1, B4, K4, I4. exact (conj P2 (conj P3 (conj P4 P5))). }
  eapply holds_impl; [exact G| |auto]. intros [v5 st5] H5. destruct (v_legacy v5) eqn:EL; [rewrite orb_true_r; left; exact EL|]. rewrite orb_false_r.
  destruct (is_ok st5) eqn:E5; cbn [negb]; [|right; congruence]. destruct H5 as [H5|[H5|(H1 & H2 & H3 & H4)]]; try congruence.
  eapply holds_impl; [apply OK; assumption| |auto]. intros [v6 st6] H. right. exact H.
Qed.

Lemma add_exp f v d n v' p it m c : d <> [] -> parse_nalu d (v_codec v) true true = Def n -> v_signing v = true -> n_golden n = false ->
  first_waiting (v_items v ++ [item_create n]) = Some it -> i_nalu it = Some m -> i_decoded it = false -> carries m c ->
  u32 (v_gop v + 1) < c -> v_synced v = true ->
  add_nalu C OvfIdeal f v d true = Def (v', VRes SV_OK (Some p)) -> l_exp (p_latest p) = (-1)%Z.
Proof.
  intros HD HP HS HG HN HI HE HC HL HY. rewrite waiting_next in HN. unfold add_nalu. destruct d as [|d0 d1]; [congruence|]. set (d := d0 :: d1) in *. clearbody d. cbv zeta.
  set (v1 := create_report _).
  assert (E1 : v_codec v1 = v_codec v /\ v_signing v1 = v_signing v /\ v_report v1 = true /\ v_items v1 = v_items v /\ gl v1 = gl v).
  { unfold v1, create_report. cbn [v_report set_v_started]. destruct (v_report v) eqn:E; cbn; auto 10. }
  clearbody v1. destruct E1 as (E1 & E2 & E3 & E4 & E5). unfold gl in E5. injection E5 as E5 E6.
  destruct (v_legacy v1); [discriminate|]. unfold add_h26x. rewrite E1, HP. cbn [obind]. cbv zeta. set (v2 := on_acc _ _).
  assert (HB := add_body_exp f v2 n it m c). unfold v2 in HB. cbn [on_acc set_v_acc set_v_result v_signing v_result v_items v_gop v_synced] in HB.
  rewrite E2, E4, E5, E6 in HB. specialize (HB HS eq_refl HG (parse_valid d _ n HD HP) HN HI HE HC HL HY). fold v2 in HB. clearbody v2.
  destruct (add_body C OvfIdeal f v2 n) as [[v3 st3]|]; [|discriminate]. cbn [holds obind] in *.
  destruct (v_legacy v3) eqn:EL; cbn [obind]; [rewrite EL; discriminate|]. destruct HB as [HB|HB]; [congruence|].
  destruct (copy_last _ _) as [[l cst]|]; [|discriminate]. cbn [obind].
  set (st4 := if is_ok st3 then cst else st3). set (v4 := set_v_items _ v3).
  assert (E7 : v_result v4 = v_result v3 /\ v_latest v4 = v_latest v3 /\ v_legacy v4 = false) by (unfold v4; cbn; auto 10).
  clearbody v4. destruct E7 as (E7 & E8 & E9). rewrite E9. destruct (is_ok st4) eqn:ES; cbn [negb].
  2:{ intros H. injection H as _ H. discriminate. }
  assert (S3 : is_ok st3 = true) by (unfold st4 in ES; destruct (is_ok st3) eqn:EX; congruence).
  destruct (v_result v4) eqn:ER; [|intros H; discriminate]. specialize (HB S3 (eq_trans (eq_sym E7) eq_refl)).
  intros H. unfold get_report in H. destruct (negb (v_report (update_report v4))); [discriminate|]. injection H as _ <-. cbn [p_latest].
  unfold on_acc. cbn [v_latest set_v_acc]. unfold update_report. cbv zeta. rewrite <- E8 in HB.
  dif; destruct (clean_up _); cbn; exact HB.
Qed.
End Lost.

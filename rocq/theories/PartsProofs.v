(** NALUs added in parts, and repeated calls: lemmas. *)
From Verif Require Import Base BaseProofs Epb Nalu NaluProofs Crypto Types Hash Tlv TlvProofs EncProofs Signer SignerProofs
  SessProofs SignSpec PartsSpec StepProofs RunProofs DrainProofs.
Local Open Scope N_scope.

Definition omap {A B} (f : A -> B) (x : out A) : out B := do a <- x; Def (f a).

(** ** The scratch parts of a session

    The secondary hash context and last_nalu. *)
Definition Uh (x : option mdctx) (k : hst) : hst := set_k_handle (set_ctx false x (k_handle k)) k.
Definition Ug (x : option mdctx) (g : sgop) : sgop := set_g_h (Uh x (g_h g)) g.
Definition Us (x : option mdctx) (l : nalu) (s : signer) : signer :=
  mkSigner (s_cfg s) (Ug x (s_gop s)) (set_r_last l (s_run s)).

Ltac break := repeat (match goal with
  | |- context [match ?x with _ => _ end] => destruct x eqn:?
  end; try discriminate; try reflexivity).

Lemma enc_size_U c x g t : enc_size c (Ug x g) t = enc_size c g t.
Proof. reflexivity. Qed.
Lemma enc_value_U c x g sig t : enc_value c (Ug x g) sig t = enc_value c g sig t.
Proof. reflexivity. Qed.
Lemma enc_effect_U x g t : enc_effect (Ug x g) t = Ug x (enc_effect g t).
Proof. unfold enc_effect. break. Qed.
Lemma write_one_U c x g sig epb lt t : tlv_write_one c (Ug x g) sig epb lt t =
  let '(lt, o, g) := tlv_write_one c g sig epb lt t in (lt, o, Ug x g).
Proof.
  unfold tlv_write_one. change (tlv_header c (Ug x g) t) with (tlv_header c g t).
  rewrite enc_size_U, enc_value_U, enc_effect_U. break.
Qed.
Lemma write_list_U c x sig epb rec tags : forall g lt, tlv_write_list c (Ug x g) sig epb rec lt tags =
  let '(lt, o, g) := tlv_write_list c g sig epb rec lt tags in (lt, o, Ug x g).
Proof.
  induction tags as [|t r IH]; intros g lt; [reflexivity|]. cbn [tlv_write_list].
  destruct (tag_due rec t); [|apply IH].
  rewrite write_one_U. destruct (tlv_write_one c g sig epb lt t) as [[lt1 o1] g1]. rewrite IH.
  destruct (tlv_write_list c g1 sig epb rec lt1 r) as [[lt2 o2] g2]. reflexivity.
Qed.
Lemma size_list_U c x g rec tags : tlv_size_list c (Ug x g) rec tags = tlv_size_list c g rec tags.
Proof. induction tags as [|t r IH]; [reflexivity|]. cbn [tlv_size_list]. rewrite IH. reflexivity. Qed.

Lemma build_U x l s : build_sei (Us x l s) =
  let '(g, st, al, lt, b) := build_sei s in (Ug x g, st, al, lt, b).
Proof.
  unfold build_sei. cbv zeta.
  change (s_cfg (Us x l s)) with (s_cfg s).
  change (r_golden (s_run (Us x l s))) with (r_golden (s_run s)).
  change (r_recurrent (s_run (Us x l s))) with (r_recurrent (s_run s)).
  change (r_sig (s_run (Us x l s))) with (r_sig (s_run s)).
  change (set_g_hash_type 1 (s_gop (Us x l s))) with (Ug x (set_g_hash_type 1 (s_gop s))).
  assert (EO : optional_size (Us x l s) = optional_size s).
  { unfold optional_size. change (s_gop (Us x l s)) with (Ug x (s_gop s)). rewrite size_list_U. reflexivity. }
  assert (EM : forall g, mandatory_size (Us x l s) (Ug x g) = mandatory_size s g).
  { intros g. unfold mandatory_size. change (r_recurrent (s_run (Us x l s))) with (r_recurrent (s_run s)).
    rewrite size_list_U. reflexivity. }
  rewrite EO, EM, size_list_U.
  match goal with |- context [if ?b then set_g_list None (Ug x ?g) else Ug x ?g] =>
    replace (if b then set_g_list None (Ug x g) else Ug x g) with (Ug x (if b then set_g_list None g else g))
      by (destruct b; reflexivity) end.
  rewrite EM.
  destruct (write_bytes false lt_init _) as [lt1 o1]. destruct (write_bytes true lt1 uuid_sv) as [lt2 o2].
  destruct (0 <? optional_size s).
  - rewrite write_list_U.
    match goal with |- context [tlv_write_list ?a ?b ?c ?d ?e ?f optional_tags] =>
      destruct (tlv_write_list a b c d e f optional_tags) as [[lt3 o3] g3] end.
    cbn [andb]. destruct (nlen o3 =? 0); [reflexivity|]. rewrite write_list_U.
    match goal with |- context [if ?b then tlv_write_list _ _ _ _ _ _ _ else _] => destruct b end; [|reflexivity].
    match goal with |- context [tlv_write_list ?a ?b ?c ?d ?e ?f mandatory_tags] =>
      destruct (tlv_write_list a b c d e f mandatory_tags) as [[lt4 o4] g4] end.
    cbn [andb]. destruct (nlen o4 =? 0); reflexivity.
  - cbn [andb]. rewrite write_list_U.
    match goal with |- context [if ?b then tlv_write_list _ _ _ _ _ _ _ else _] => destruct b end; [|reflexivity].
    match goal with |- context [tlv_write_list ?a ?b ?c ?d ?e ?f mandatory_tags] =>
      destruct (tlv_write_list a b c d e f mandatory_tags) as [[lt4 o4] g4] end.
    cbn [andb]. destruct (nlen o4 =? 0); reflexivity.
Qed.

(** ** The NALU described by its first part *)

Definition kind (n : nalu) := (n_valid n, n_hashable n, n_gop_sei n, n_first_in_gop n, n_primary n).

Lemma start_code_ext p r k : start_code_len p = Def k -> start_code_len (p ++ r) = Def k.
Proof.
  unfold start_code_len, read_32bits.
  destruct p as [|a [|b [|d [|e p]]]]; try discriminate. exact (fun H => H).
Qed.

Lemma parse_prefix p r c n1 n t : p <> [] -> parse_nalu p c false false = Def n1 ->
  parse_nalu (p ++ r) c true false = Def n -> strip_trailing (p ++ r) = Def (p ++ t) -> nlen (p ++ r) < 2 ^ 64 ->
  kind n = kind n1 /\ (n_valid n1 <? 0)%Z = false /\
  (n_hashable n1 = true -> exists D, D <> [] /\ hash_input n1 = Def D /\ hash_input n = Def (D ++ t)).
Proof.
  intros HP H1 H2 HS HN. unfold parse_nalu in H1, H2.
  destruct p as [|b0 p0] eqn:EP; [congruence|]. cbn [app] in H2. change (b0 :: p0 ++ r) with ((b0 :: p0) ++ r) in *.
  rewrite <- EP in *. clear EP b0 p0.
  destruct (start_code_len p) as [skip|] eqn:ES; [|discriminate]. rewrite (start_code_ext _ r _ ES) in H2. cbn [obind] in *.
  destruct (parse_header c (skipn skip p)) as [[[ty pr] va]|] eqn:EH; [|discriminate]. cbn [obind] in H1.
  assert (HSK : (skip < length p)%nat).
  { destruct (le_lt_dec (length p) skip) as [HL|]; [|assumption]. rewrite skipn_all2 in EH by exact HL.
    destruct c; discriminate. }
  rewrite skipn_app in H2. replace (skip - length p)%nat with 0%nat in H2 by lia. cbn [skipn] in H2.
  rewrite (parse_header_ext _ _ r _ EH) in H2. cbn [obind] in H2. rewrite HS in H2. cbn [obind] in H2.
  assert (L1 : sub64 (nlen p) (N.of_nat skip) = nlen (skipn skip p)).
  { unfold nlen in *. rewrite app_length in HN. change (2 ^ 64) with 18446744073709551616 in HN.
    rewrite sub64_small by lia. rewrite skipn_length. lia. }
  assert (L2 : sub64 (nlen (p ++ t)) (N.of_nat skip) = nlen (skipn skip p ++ t)).
  { assert (HT : (length (p ++ t) <= length (p ++ r))%nat).
    { unfold strip_trailing in HS. destruct (drop_zeros (rev (p ++ r))) as [|x l] eqn:EZ; [discriminate|].
      assert (HS' : p ++ t = rev (x :: l)) by congruence. rewrite HS', rev_length. rewrite <- EZ. rewrite <- (rev_length (p ++ r)).
      clear. induction (rev (p ++ r)) as [|x l IH]; [cbn; lia|]. destruct x; cbn [drop_zeros length]; lia. }
    unfold nlen in *. rewrite !app_length in *. change (2 ^ 64) with 18446744073709551616 in HN.
    rewrite sub64_small by lia. rewrite skipn_length. lia. }
  rewrite L1 in H1. rewrite L2 in H2.
  assert (HV : forall v : bool, ((if v then 1 else 0)%Z <? 0)%Z = false) by (intros []; reflexivity).
  destruct (negb (ntype_eqb ty TSei)).
  { injection H1 as <-. injection H2 as <-. cbn [kind n_valid n_hashable n_gop_sei n_first_in_gop n_primary].
    split; [reflexivity|]. split; [apply HV|]. intros _. exists (skipn skip p). split; [|split].
    - intros E. apply (f_equal (@length N)) in E. rewrite skipn_length in E. cbn in E. lia.
    - unfold hash_input. cbn [n_hash_size n_hash_mem]. rewrite N.leb_refl. unfold nlen. rewrite Nat2N.id, firstn_all. reflexivity.
    - unfold hash_input. cbn [n_hash_size n_hash_mem].
      assert (HPRE : exists z, r = t ++ z).
      { destruct (strip_def _ _ HS) as (_ & k & Hk). exists (zeros k). rewrite <- app_assoc in Hk.
        apply app_inv_head in Hk. exact Hk. }
      destruct HPRE as [z ->]. rewrite app_assoc. unfold nlen. rewrite (app_length (_ ++ t) z).
      destruct (N.leb_spec (N.of_nat (length (skipn skip p ++ t))) (N.of_nat (length (skipn skip p ++ t) + length z))); [|lia].
      rewrite Nat2N.id, firstn_app_exact. reflexivity. }
  rewrite skipn_app in H2.
  destruct (skipn (header_len c) (skipn skip p)) as [|ud p1] eqn:EB; [discriminate|]. cbn [app] in H2.
  destruct (ud =? 5).
  - destruct (get_payload_size p1) as [[[ps k] p2]|] eqn:EG; [|discriminate].
    rewrite (get_payload_size_ext _ _ _ _ _ EG) in H2. cbn [obind] in *.
    destruct (Nat.ltb_spec (length p2) 16) as [|H16]; [discriminate|].
    match type of H2 with (if ?b then _ else _) = _ => destruct b; [discriminate|] end.
    rewrite firstn_app in H2. replace (16 - length p2)%nat with 0%nat in H2 by lia.
    cbn [firstn] in H2. rewrite app_nil_r in H2. unfold remove_epb in H1, H2. cbn [n_hashable] in H1, H2.
    rewrite andb_false_r in H1, H2. cbn [negb orb] in H1, H2. injection H1 as <-. injection H2 as <-.
    cbn [kind n_valid n_hashable n_gop_sei n_first_in_gop n_primary].
    split; [reflexivity|]. split; [apply HV|]. discriminate.
  - injection H1 as <-. injection H2 as <-. cbn [kind n_valid n_hashable n_gop_sei n_first_in_gop n_primary].
    split; [reflexivity|]. split; [apply HV|]. discriminate.
Qed.

Section Parts.
Variable C : crypto.

Definition first_last (n : nalu) : Prop := n_first_part n = true /\ n_last_part n = true.

Lemma wrapper_U x k n hs : first_last n -> hash_wrapper C (Uh x k) n hs =
  omap (fun '(k, st, v) => (Uh x k, st, v)) (hash_wrapper C k n hs).
Proof.
  intros [H1 H2]. unfold hash_wrapper, simply_hash. rewrite H2, H1. cbn [negb].
  unfold omap. change (k_has_ref (Uh x k)) with (k_has_ref k). change (k_buddies (Uh x k)) with (k_buddies k).
  change (hash_data C (k_handle (Uh x k))) with (hash_data C (k_handle k)).
  destruct (hash_input n) as [inp|]; cbn [obind].
  2:{ break. }
  destruct (hash_data C (k_handle k) inp) as [st v]. cbn [obind].
  destruct (n_gop_sei n); [reflexivity|].
  destruct (_ && _).
  - destruct (is_ok st); [|reflexivity]. destruct (put_at 0 _ _); reflexivity.
  - destruct (is_ok st); [|reflexivity]. destruct (put_at hs _ _); [|reflexivity]. cbn [obind].
    unfold hash_data. destruct (firstn _ _); reflexivity.
Qed.

Lemma add_list_U x g v : add_to_list (Ug x g) v = Ug x (add_to_list g v).
Proof.
  unfold add_to_list. change (g_list (Ug x g)) with (g_list g).
  destruct g as [[[oid ty pr se] bud hr] gl nh co li nu cn ts ht en]. cbn.
  destruct gl as [[|b m]|].
  - unfold init_hash. cbn. destruct pr as [[? ? ?]|]; cbn; destruct v; cbn; reflexivity.
  - destruct v; cbn; destruct pr as [[? ? []]|]; cbn; reflexivity.
  - destruct v; cbn; destruct pr as [[? ? []]|]; cbn; reflexivity.
Qed.

Lemma hash_add_U x g n hs : first_last n -> hash_and_add C (Ug x g) n hs =
  omap (fun '(g, st) => (Ug x g, st)) (hash_and_add C g n hs).
Proof.
  intros HF. pose proof HF as [H1 H2]. unfold hash_and_add. rewrite H1, H2. cbn [andb negb].
  destruct (n_hashable n); cbn [negb]; [|reflexivity].
  change (g_h (Ug x g)) with (Uh x (g_h g)). rewrite wrapper_U by exact HF.
  destruct (hash_wrapper C (g_h g) n hs) as [[[k st] v]|]; [|reflexivity]. unfold omap. cbn [obind].
  destruct (is_ok st); [|reflexivity].
  destruct v as [v|]; [|reflexivity]. cbn [obind]. do 2 f_equal.
  change (set_g_nalu_hash v (set_g_h (Uh x k) (Ug x g))) with (Ug x (set_g_nalu_hash v (set_g_h k g))).
  rewrite add_list_U. unfold count_nalu. destruct (n_gop_sei n); reflexivity.
Qed.

Lemma sign_U x l s h : plugin_sign C (Us x l s) h = let '(s, st) := plugin_sign C s h in (Us x l s, st).
Proof.
  unfold plugin_sign. change (s_cfg (Us x l s)) with (s_cfg s).
  change (r_queue (s_run (Us x l s))) with (r_queue (s_run s)).
  change (r_coin (s_run (Us x l s))) with (r_coin (s_run s)).
  destruct (sc_key (s_cfg s)) as [key|]; [|reflexivity]. destruct h as [|b h]; [reflexivity|].
  destruct (_ <=? _)%nat; [reflexivity|]. cbv zeta. destruct (c_sign C key _ _) as [sig|]; [|reflexivity].
  destruct (_ <? _)%nat; [reflexivity|]. destruct sig; reflexivity.
Qed.

Lemma parse_flags d c chk auth n : parse_nalu d c chk auth = Def n -> first_last n.
Proof.
  unfold parse_nalu. destruct d as [|b0 d']; [intros E; injection E as <-; split; reflexivity|].
  set (data := b0 :: d'). clearbody data. destruct (start_code_len data) as [skip|]; [|discriminate]. cbn [obind].
  destruct (parse_header c _) as [[[ty pr] va]|]; [|discriminate]. cbn [obind].
  destruct (if chk then strip_trailing data else Def data) as [t|]; [|discriminate]. cbn [obind].
  destruct (negb _); [intros E; injection E as <-; split; reflexivity|].
  destruct (skipn (header_len c) _) as [|ud p1]; [discriminate|].
  destruct (ud =? 5); [|intros E; injection E as <-; split; reflexivity].
  destruct (get_payload_size p1) as [[[ps k] p2]|]; [|discriminate]. cbn [obind].
  destruct (Nat.ltb _ _); [discriminate|]. unfold remove_epb.
  destruct (_ || _); [intros E; injection E as <-; split; reflexivity|].
  destruct (skipn _ _) as [|res tlv]; [discriminate|].
  match goal with |- (if ?b then _ else _) = _ -> _ => destruct b end; [intros E; injection E as <-; split; reflexivity|].
  destruct (read_bytes _ _ _ _) as [[[wo lt] q]|]; [|discriminate]. cbn [obind].
  destruct (Nat.ltb _ _); [discriminate|]. destruct (128 <=? res); intros E; injection E as <-; split; reflexivity.
Qed.

Lemma generate_U x l s : generate_sei C (Us x l s) =
  omap (fun '(s, st, p) => (Us x l s, st, p)) (generate_sei C s).
Proof.
  unfold generate_sei. change (r_slots (s_run (Us x l s))) with (r_slots (s_run s)).
  destruct (_ <=? _)%nat; [reflexivity|]. rewrite build_U.
  destruct (build_sei s) as [[[[g st] al] lt] b]. change (s_cfg (Us x l s)) with (s_cfg s).
  destruct (al <? nlen b); [reflexivity|]. destruct (negb (is_ok st)); [reflexivity|].
  destruct (parse_nalu b _ _ _) as [n|] eqn:EP; [|reflexivity]. cbn [obind].
  rewrite hash_add_U by (eapply parse_flags, EP). unfold omap. rewrite !obind_assoc.
  destruct (hash_and_add C g n _) as [[g2 st2]|]; [|reflexivity]. cbn [obind].
  destruct (negb (is_ok st2)); [reflexivity|]. change (g_nalu_hash (Ug x g2)) with (g_nalu_hash g2).
  destruct (take_mem _ _) as [[hash q]|]; [|reflexivity]. cbn [obind].
  match goal with |- context [plugin_sign C (set_s_gop ?G (Us x l s)) hash] =>
    change (set_s_gop G (Us x l s)) with (Us x l (set_s_gop (set_g_ts None (set_g_list (Some []) (set_g_num 0
                   (set_g_h (set_k_has_ref false (g_h g2)) g2)))) s)) end.
  rewrite sign_U. destruct (plugin_sign C _ hash) as [s1 st3]. destruct (is_ok st3); reflexivity.
Qed.

Lemma payload_U x l s p : add_payload (Us x l s) p = Us x l (add_payload s p).
Proof.
  unfold add_payload. destruct p; [|reflexivity]. change (r_slots (s_run (Us x l s))) with (r_slots (s_run s)).
  destruct (_ <=? _)%nat; reflexivity.
Qed.

Lemma pget_U x l s : plugin_get (Us x l s) = let '(s, b) := plugin_get s in (Us x l s, b).
Proof.
  unfold plugin_get. change (s_cfg (Us x l s)) with (s_cfg s). change (r_queue (s_run (Us x l s))) with (r_queue (s_run s)).
  destruct (_ || _); [reflexivity|]. destruct (r_queue (s_run s)); [reflexivity|]. destruct (_ <? _)%nat; reflexivity.
Qed.

Lemma complete_U x l s : complete_sei (Us x l s) = omap (fun '(s, st) => (Us x l s, st)) (complete_sei s).
Proof.
  unfold complete_sei. cbv zeta. change (r_slots (s_run (Us x l s))) with (r_slots (s_run s)).
  change (r_done (s_run (Us x l s))) with (r_done (s_run s)). change (r_sig (s_run (Us x l s))) with (r_sig (s_run s)).
  change (s_cfg (Us x l s)) with (s_cfg s). change (s_gop (Us x l s)) with (Ug x (s_gop s)).
  change (r_recurrent (s_run (Us x l s))) with (r_recurrent (s_run s)).
  destruct (r_slots (s_run s)) as [|s0 sl]; [reflexivity|].
  destruct (nth_error _ _) as [q|]; [|destruct (_ <=? _)%nat; reflexivity].
  destruct (r_sig (s_run s)) as [|b sg]; destruct (sl_sei q); try reflexivity.
  rewrite write_list_U. destruct (tlv_write_list _ _ _ _ _ _ _) as [[lt o] g].
  match goal with |- context [if ?b then Undef _ else _] => destruct b end; reflexivity.
Qed.

Lemma loop_U x l f : forall s, complete_loop f (Us x l s) = omap (fun '(s, st) => (Us x l s, st)) (complete_loop f s).
Proof.
  induction f as [|f IH]; intros s; cbn [complete_loop]; rewrite pget_U; destruct (plugin_get s) as [s1 got];
    destruct got; cbn [negb]; try reflexivity.
  rewrite complete_U. unfold omap. rewrite !obind_assoc. destruct (complete_sei s1) as [[s2 st]|]; [|reflexivity].
  cbn [obind]. destruct (is_ok st); [apply IH|reflexivity].
Qed.
Lemma all_U x l s : complete_all (Us x l s) = omap (fun '(s, st) => (Us x l s, st)) (complete_all s).
Proof. apply loop_U. Qed.

Lemma prepare_U x l s : prepare (Us x l s) = let '(s, st) := prepare s in (Us x l s, st).
Proof.
  unfold prepare. change (s_cfg (Us x l s)) with (s_cfg s). destruct (sc_key (s_cfg s)); [|reflexivity]. cbv zeta.
  change (s_run (on_run (set_r_started true) (Us x l s))) with (set_r_last l (s_run (on_run (set_r_started true) s))).
  cbn [set_r_last r_avoid r_done]. destruct (_ && _); reflexivity.
Qed.

Lemma fetch_U x l s i w : fetch (Us x l s) i w = omap (fun '(s, b, n) => (Us x l s, b, n)) (fetch s i w).
Proof.
  unfold fetch. change (r_slots (s_run (Us x l s))) with (r_slots (s_run s)).
  destruct (nth_error _ _) as [q|]; [|reflexivity]. destruct w; cbn [negb]; [|reflexivity].
  destruct (sl_sei q); try reflexivity. destruct (take_mem _ _) as [[? ?]|]; reflexivity.
Qed.

Lemma get_U x l s w p : get_sei (Us x l s) w p = omap (fun '(s, r) => (Us x l s, r)) (get_sei s w p).
Proof.
  unfold get_sei. change (r_slots (s_run (Us x l s))) with (r_slots (s_run s)). cbv zeta.
  rewrite all_U. unfold omap. rewrite !obind_assoc. destruct (complete_all s) as [[s1 st]|]; [|reflexivity]. cbn [obind].
  destruct (negb (is_ok st)); [reflexivity|].
  change (r_done (s_run (Us x l s1))) with (r_done (s_run s1)).
  match goal with |- context [if ?b then _ else _] => destruct b end; [reflexivity|].
  change (s_cfg (Us x l s1)) with (s_cfg s1).
  rewrite obind_assoc.
  match goal with |- obind ?a _ = obind ?a _ => destruct a as [show|]; [|reflexivity] end. cbn [obind].
  destruct show; cbn [negb]; [|reflexivity]. rewrite fetch_U. unfold omap. rewrite !obind_assoc.
  destruct (fetch s1 0 w) as [[[s2 b] n]|]; reflexivity.
Qed.
Lemma latest_U x l s w : get_latest (Us x l s) w = omap (fun '(s, r) => (Us x l s, r)) (get_latest s w).
Proof.
  unfold get_latest.
  rewrite all_U. unfold omap. rewrite !obind_assoc. destruct (complete_all s) as [[s1 st]|]; [|reflexivity]. cbn [obind].
  destruct (negb (is_ok st)); [reflexivity|].
  change (r_done (s_run (Us x l s1))) with (r_done (s_run s1)).
  match goal with |- context [if ?b then _ else _] => destruct b end; [reflexivity|].
  rewrite fetch_U. unfold omap. rewrite !obind_assoc.
  destruct (fetch s1 _ w) as [[[s2 b] n]|]; reflexivity.
Qed.
Lemma prepend_U x l s : get_prepend (Us x l s) = omap (fun '(s, r) => (Us x l s, r)) (get_prepend s).
Proof.
  unfold get_prepend. rewrite latest_U. unfold omap. rewrite !obind_assoc.
  destruct (get_latest s false) as [[s1 r]|]; [|reflexivity]. cbn [obind].
  destruct (_ && _); [|reflexivity]. apply latest_U.
Qed.

Lemma count_U x l s n : count_frame (Us x l s) n = omap (Us x l) (count_frame s n).
Proof.
  unfold count_frame. destruct (_ && _); [|reflexivity]. cbv zeta.
  change (r_frame (s_run (Us x l s))) with (r_frame (s_run s)). destruct (_ =? _)%Z; [reflexivity|].
  change (s_cfg (Us x l s)) with (s_cfg s). destruct (_ =? 0); reflexivity.
Qed.

Lemma finalize_U x h : finalize_hash C true (set_ctx false x h) =
  let '(h, st, v) := finalize_hash C true h in (set_ctx false x h, st, v).
Proof. unfold finalize_hash. destruct h as [oid ty [[? ? []]|] se]; reflexivity. Qed.

Lemma close_U x l s n ts : close_gop C (Us x l s) n ts = omap (fun '(s, st) => (Us x l s, st)) (close_gop C s n ts).
Proof.
  unfold close_gop. destruct (_ && _); [|reflexivity].
  change (r_gen (s_run (Us x l s))) with (r_gen (s_run s)).
  assert (G : forall X Y : out (signer * svrc), X = omap (fun '(s, st) => (Us x l s, st)) Y ->
    (do (s, st) <- X; if is_ok st then Def (on_run (set_r_gen true) s, SV_OK) else Def (s, st)) =
    omap (fun '(s, st) => (Us x l s, st))
      (do (s, st) <- Y; if is_ok st then Def (on_run (set_r_gen true) s, SV_OK) else Def (s, st))).
  { intros X Y ->. destruct Y as [[s1 st]|]; [|reflexivity]. unfold omap. cbn [obind]. destruct (is_ok st); reflexivity. }
  apply G. clear G. destruct (r_gen (s_run s)); [|reflexivity]. cbv zeta.
  set (s1 := match ts with Some t => on_gop (set_g_ts (Some t)) s | None => s end).
  replace (match ts with Some t => on_gop (set_g_ts (Some t)) (Us x l s) | None => Us x l s end) with (Us x l s1)
    by (unfold s1; destruct ts; reflexivity).
  change (k_handle (g_h (s_gop (Us x l s1)))) with (set_ctx false x (k_handle (g_h (s_gop s1)))).
  rewrite finalize_U. destruct (finalize_hash C true _) as [[h st] v].
  destruct (is_ok st); cbn [negb].
  2:{ destruct h; reflexivity. }
  change (g_computed (set_g_h (set_k_handle (set_ctx false x h) (g_h (s_gop (Us x l s1)))) (s_gop (Us x l s1))))
    with (g_computed (set_g_h (set_k_handle h (g_h (s_gop s1))) (s_gop s1))).
  destruct (put_mem _ v) as [comp|]; [|reflexivity]. cbn [obind].
  match goal with |- context [generate_sei C (set_s_gop ?G (Us x l s1))] =>
    change (set_s_gop G (Us x l s1)) with
      (Us x l (set_s_gop (set_g_computed comp (set_g_h (set_k_handle h (g_h (s_gop s1))) (s_gop s1))) s1)) end.
  rewrite generate_U. unfold omap. rewrite !obind_assoc.
  destruct (generate_sei C _) as [[[s2 st2] p]|]; [|reflexivity]. cbn [obind].
  destruct (is_ok st2); [|reflexivity]. rewrite payload_U. reflexivity.
Qed.

(** Everything in add_part after the NALU is known. *)
Definition add_rest (s : signer) (n : nalu) (ts : option Z) : out (signer * svrc) :=
  let '(s, st) := prepare s in
  if negb (is_ok st) then Def (s, st)
  else if (n_valid n <? 0)%Z then Def (s, SV_INVALID_PARAMETER)
  else
    do s <- count_frame s n;
    do (s, st) <- close_gop C s n ts;
    if negb (is_ok st) then Def (s, st)
    else
      do (g, st) <- hash_and_add C (s_gop s) n (sc_hs (s_cfg s));
      let s := set_s_gop g s in
      if negb (is_ok st) then Def (s, st)
      else if n_first_in_gop n && n_last_part n then
        do (hash, _) <- take_mem (sc_hs (s_cfg s)) (g_nalu_hash (s_gop s));
        do l <- shift_linked (sc_hs (s_cfg s)) (g_linked (s_gop s)) hash;
        Def (on_gop (set_g_linked l) s, SV_OK)
      else Def (s, SV_OK).
Lemma add_part_rest s d ts last : d <> [] -> add_part C s d ts last =
  do (s, n) <- take_part s d last; add_rest s n ts.
Proof. destruct d; [congruence|reflexivity]. Qed.

Lemma rest_U x l s n ts : first_last n ->
  add_rest (Us x l s) n ts = omap (fun '(s, st) => (Us x l s, st)) (add_rest s n ts).
Proof.
  intros HF. unfold add_rest. rewrite prepare_U. destruct (prepare s) as [s1 st].
  destruct (negb (is_ok st)); [reflexivity|]. destruct (_ <? 0)%Z; [reflexivity|].
  rewrite count_U. unfold omap. rewrite !obind_assoc. destruct (count_frame s1 n) as [s2|]; [|reflexivity]. cbn [obind].
  rewrite close_U. unfold omap. rewrite !obind_assoc. destruct (close_gop C s2 n ts) as [[s3 st3]|]; [|reflexivity].
  cbn [obind]. destruct (negb (is_ok st3)); [reflexivity|].
  change (s_gop (Us x l s3)) with (Ug x (s_gop s3)). rewrite hash_add_U by exact HF.
  change (s_cfg (Us x l s3)) with (s_cfg s3).
  unfold omap. rewrite !obind_assoc. destruct (hash_and_add C (s_gop s3) n _) as [[g st4]|]; [|reflexivity].
  cbn [obind]. destruct (negb (is_ok st4)); [reflexivity|].
  destruct (_ && _); [|reflexivity].
  change (s_cfg (set_s_gop (Ug x g) (Us x l s3))) with (s_cfg (set_s_gop g s3)).
  change (g_nalu_hash (s_gop (set_s_gop (Ug x g) (Us x l s3)))) with (g_nalu_hash (s_gop (set_s_gop g s3))).
  change (g_linked (s_gop (set_s_gop (Ug x g) (Us x l s3)))) with (g_linked (s_gop (set_s_gop g s3))).
  destruct (take_mem _ _) as [[hash q]|]; [|reflexivity]. cbn [obind].
  destruct (shift_linked _ _ _); reflexivity.
Qed.

(** ** The last part *)

Definition hty (g : sgop) : list N := h_type (k_handle (g_h g)).

Lemma hash_add_last g n n' hs D y : first_last n -> n_first_part n' = false -> n_last_part n' = true ->
  kind n' = kind n -> n_hashable n = true -> hash_input n = Def (D ++ y) -> y <> [] -> hash_input n' = Def y ->
  hash_and_add C (Ug (Some (mkCtx (hty g) D false)) g) n' hs =
  omap (fun '(g', st) => (Ug (Some (mkCtx (hty g) (D ++ y) true)) g', st)) (hash_and_add C g n hs).
Proof.
  intros [F1 F2] F3 F4 HK HH HI HY HI'. unfold kind in HK. injection HK as K1 K2 K3 K4 K5.
  assert (HDY : D ++ y <> []) by (destruct D; [exact HY|discriminate]).
  unfold hash_and_add. rewrite F1, F2, F3, K2, HH. cbn [negb andb].
  change (g_h (Ug (Some (mkCtx (hty g) D false)) g)) with (Uh (Some (mkCtx (hty g) D false)) (g_h g)).
  set (x2 := Some (mkCtx (hty g) (D ++ y) true)).
  assert (HW : hash_wrapper C (Uh (Some (mkCtx (hty g) D false)) (g_h g)) n' hs =
    omap (fun '(k, st, v) => (Uh x2 k, st, v)) (hash_wrapper C (g_h g) n hs)).
  { unfold hash_wrapper. rewrite F2, F4, K3, K4. cbn [negb].
    assert (S1 : simply_hash C (k_handle (g_h g)) n = Def (k_handle (g_h g), SV_OK, c_hash C (hty g) (D ++ y))).
    { unfold simply_hash. rewrite F1, HI. cbn [obind]. unfold hash_data. destruct (D ++ y); [congruence|reflexivity]. }
    assert (S2 : simply_hash C (k_handle (Uh (Some (mkCtx (hty g) D false)) (g_h g))) n' =
      Def (set_ctx false x2 (k_handle (g_h g)), SV_OK, c_hash C (hty g) (D ++ y))).
    { unfold simply_hash. rewrite F3. unfold update_nalu_hash. rewrite HI'. cbn [obind].
      unfold update_hash. destruct y as [|b y]; [congruence|]. reflexivity. }
    rewrite S1, S2. cbn [obind is_ok svrc_eqb].
    change (k_has_ref (Uh (Some (mkCtx (hty g) D false)) (g_h g))) with (k_has_ref (g_h g)).
    change (k_buddies (Uh (Some (mkCtx (hty g) D false)) (g_h g))) with (k_buddies (g_h g)).
    destruct (n_gop_sei n); [reflexivity|].
    destruct (_ && _).
    - destruct (put_at 0 _ _); reflexivity.
    - destruct (put_at hs _ _); [|reflexivity]. unfold omap. cbn [obind]. unfold hash_data.
      destruct (firstn _ _); reflexivity. }
  rewrite HW. unfold omap. rewrite !obind_assoc.
  destruct (hash_wrapper C (g_h g) n hs) as [[[k st] v]|]; [|reflexivity]. cbn [obind].
  destruct (is_ok st); [|reflexivity]. destruct v as [v|]; [|reflexivity]. cbn [obind]. do 2 f_equal.
  change (set_g_nalu_hash v (set_g_h (Uh x2 k) (Ug (Some (mkCtx (hty g) D false)) g)))
    with (Ug x2 (set_g_nalu_hash v (set_g_h k g))).
  rewrite add_list_U. unfold count_nalu. rewrite K3. destruct (n_gop_sei n); reflexivity.
Qed.

Hypothesis HC : crypto_ok C.

Lemma sgood_U s L x l : sgood C s L -> x_oid x = hty (s_gop s) -> sgood C (Us (Some x) l s) L.
Proof.
  intros HS HX. apply (sgood_frame C s); try reflexivity; try assumption.
  apply (handle_good C (s_cfg s) (s_gop s)); [apply HS| |reflexivity].
  apply handle_ok_set; [apply (gg_h _ _ _ (sg_g _ _ _ HS))|exact HX].
Qed.

(** Adding the last part of a NALU whose earlier parts are in the hash context, and adding the NALU as
    a whole. *)
Lemma rest_last s L x l n n' ts D y s1 st : sgood C s L ->
  match ts with Some t => (-9223372036854775808 <= t < 9223372036854775808)%Z | None => True end ->
  first_last n -> n_first_part n' = false -> n_last_part n' = true ->
  kind n' = kind n -> x_oid x = hty (s_gop s) ->
  (snd (prepare s) = SV_OK -> n_hashable n = true -> x = mkCtx (hty (s_gop s)) D false) ->
  (n_hashable n = true -> hash_input n = Def (D ++ y) /\ y <> [] /\ hash_input n' = Def y) ->
  add_rest s n ts = Def (s1, st) ->
  exists x2, add_rest (Us (Some x) l s) n' ts = Def (Us (Some x2) l s1, st).
Proof.
  intros HS Ht HF F3 F4 HK HXO HXD HH. pose proof HF as [F1 F2]. pose proof HK as HK'. unfold kind in HK'.
  injection HK' as K1 K2 K3 K4 K5.
  unfold add_rest. rewrite prepare_U. destruct (prepare s) as [s2 st2] eqn:EP. cbn [snd] in HXD.
  destruct (is_ok st2) eqn:ES; cbn [negb].
  2:{ intros E. injection E as <- <-. eauto. }
  rewrite K1. destruct (_ <? 0)%Z.
  { intros E. injection E as <- <-. eauto. }
  apply is_ok_eq in ES. subst st2.
  destruct (prepare_ok C s L s2 SV_OK HS EP) as (P1 & P2 & P3 & P4 & P5). destruct (P5 eq_refl) as [key HKEY].
  assert (EC : count_frame (Us (Some x) l s2) n' = omap (Us (Some x) l) (count_frame s2 n)).
  { rewrite count_U. unfold count_frame. rewrite K5, F2, F4. reflexivity. }
  rewrite EC. unfold omap. rewrite !obind_assoc.
  pose proof (count_frame_ok C s2 L n P1) as HCF.
  destruct (count_frame s2 n) as [s3|]; [|discriminate]. cbn [obind holds] in *. destruct HCF as (Q1 & Q2 & Q3 & Q4).
  assert (HKEY3 : sc_key (s_cfg s3) = Some key) by (rewrite (proj1 Q2), (proj1 P2); exact HKEY).
  assert (EG : close_gop C (Us (Some x) l s3) n' ts = close_gop C (Us (Some x) l s3) n ts).
  { unfold close_gop. rewrite K4, F2, F4. reflexivity. }
  rewrite EG.
  assert (HX3 : x_oid x = hty (s_gop s3)) by (rewrite Q3, P3; exact HXO).
  pose proof (close_gop_ok C HC (Us (Some x) l s3) L key n ts (sgood_U s3 L x l Q1 HX3) HKEY3 Ht) as HG1.
  pose proof (close_gop_ok C HC s3 L key n ts Q1 HKEY3 Ht) as HG2.
  rewrite close_U in HG1 |- *. unfold omap in *. rewrite !obind_assoc.
  destruct (close_gop C s3 n ts) as [[s4 st4]|]; [|discriminate]. cbn [obind holds] in *.
  destruct HG1 as (L1 & G1 & _). destruct HG2 as (L2 & G2 & _).
  destruct (negb (is_ok st4)).
  { intros E. injection E as <- <-. eauto. }
  assert (HX4 : hty (s_gop s4) = hty (s_gop s)).
  { pose proof (gg_h _ _ _ (sg_g _ _ _ G1)) as (_ & _ & _ & (z & Z1 & Z2) & _). cbn in Z1. injection Z1 as <-.
    transitivity (x_oid x); [symmetry; exact Z2|exact HXO]. }
  change (s_cfg (Us (Some x) l s4)) with (s_cfg s4).
  change (s_gop (Us (Some x) l s4)) with (Ug (Some x) (s_gop s4)).
  assert (HA : exists x2, hash_and_add C (Ug (Some x) (s_gop s4)) n' (sc_hs (s_cfg s4)) =
    omap (fun '(g', st) => (Ug (Some x2) g', st)) (hash_and_add C (s_gop s4) n (sc_hs (s_cfg s4)))).
  { destruct (n_hashable n) eqn:EH.
    - destruct (HH eq_refl) as (I1 & I2 & I3). rewrite (HXD eq_refl eq_refl). rewrite <- HX4. eexists.
      apply (hash_add_last (s_gop s4) n n' _ D y); assumption.
    - exists x. unfold hash_and_add. rewrite K2, EH. reflexivity. }
  destruct HA as [x2 HA]. rewrite HA. unfold omap. rewrite !obind_assoc.
  destruct (hash_and_add C (s_gop s4) n _) as [[g st5]|]; [|discriminate]. cbn [obind].
  destruct (negb (is_ok st5)).
  { intros E. injection E as <- <-. exists x2. reflexivity. }
  rewrite K4, F2, F4. destruct (_ && _).
  2:{ intros E. injection E as <- <-. exists x2. reflexivity. }
  change (s_cfg (set_s_gop (Ug (Some x2) g) (Us (Some x) l s4))) with (s_cfg (set_s_gop g s4)).
  change (g_nalu_hash (s_gop (set_s_gop (Ug (Some x2) g) (Us (Some x) l s4)))) with (g_nalu_hash (s_gop (set_s_gop g s4))).
  change (g_linked (s_gop (set_s_gop (Ug (Some x2) g) (Us (Some x) l s4)))) with (g_linked (s_gop (set_s_gop g s4))).
  destruct (take_mem _ _) as [[hash q]|]; [|discriminate]. cbn [obind].
  destruct (shift_linked _ _ _); [|discriminate]. cbn [obind]. intros E. injection E as <- <-. exists x2. reflexivity.
Qed.

(** ** The parts before the last *)

Lemma prepare_twice s : prepare (fst (prepare s)) = prepare s.
Proof.
  unfold prepare. destruct (sc_key (s_cfg s)) as [k|] eqn:E; [|cbn [fst]; rewrite E; reflexivity]. cbv zeta.
  destruct (negb _ && _) eqn:E2; cbn [fst s_cfg on_run set_s_run]; rewrite E; cbv zeta.
  - change (on_run (set_r_started true) (on_run (set_r_started true) s)) with (on_run (set_r_started true) s).
    rewrite E2. reflexivity.
  - change (on_run (set_r_started true) (on_run (set_r_started true) s)) with (on_run (set_r_started true) s).
    rewrite E2. reflexivity.
Qed.

Lemma prepare_same s : s_gop (fst (prepare s)) = s_gop s /\ s_cfg (fst (prepare s)) = s_cfg s.
Proof. unfold prepare. destruct (sc_key (s_cfg s)); [|auto]. cbv zeta. destruct (_ && _); auto. Qed.

Lemma add_rest_prepared s n ts : add_rest (fst (prepare s)) n ts = add_rest s n ts.
Proof. unfold add_rest. rewrite prepare_twice. reflexivity. Qed.

(** A part that is not the last one only extends the hash context. *)
Lemma rest_open s n ts D h : n_last_part n = false -> (n_valid n <? 0)%Z = false ->
  handle_ok C h (k_handle (g_h (s_gop s))) ->
  (n_hashable n = true -> exists y, y <> [] /\ hash_input n = Def y) ->
  (n_first_part n = false -> snd (prepare s) = SV_OK -> n_hashable n = true ->
     h_sec (k_handle (g_h (s_gop s))) = Some (mkCtx (hty (s_gop s)) D false)) ->
  exists x, x_oid x = hty (s_gop s) /\
    add_rest s n ts = Def (Us (Some x) (r_last (s_run s)) (fst (prepare s)), snd (prepare s)) /\
    (snd (prepare s) = SV_OK -> n_hashable n = true -> forall y, hash_input n = Def y ->
      x = mkCtx (hty (s_gop s)) ((if n_first_part n then [] else D) ++ y) false).
Proof.
  intros HL HV (H1 & H2 & H3 & (x0 & H4 & H5) & H6) HI HX. unfold add_rest.
  destruct (prepare_same s) as [G1 G2].
  assert (HLAST : r_last (s_run (fst (prepare s))) = r_last (s_run s)).
  { unfold prepare. destruct (sc_key (s_cfg s)); [|auto]. cbv zeta. destruct (_ && _); auto. }
  assert (KEEP : forall s', h_sec (k_handle (g_h (s_gop s'))) = Some x0 -> Us (Some x0) (r_last (s_run s')) s' = s').
  { intros [cf [[[oid ty pr se] b hr] gl nh co li nu cn ts0 ht en] []]. cbn. intros ->. reflexivity. }
  destruct (prepare s) as [s2 st] eqn:EP. cbn [fst snd] in *.
  assert (KP : Def (s2, st) = Def (Us (Some x0) (r_last (s_run s)) s2, st)).
  { rewrite <- HLAST. rewrite KEEP; [reflexivity|]. rewrite G1. exact H4. }
  destruct (is_ok st) eqn:ES; cbn [negb].
  2:{ exists x0. split; [exact H5|]. split; [exact KP|]. intros ->. discriminate. }
  rewrite HV. unfold count_frame, close_gop. rewrite HL, !andb_false_r. cbn [obind is_ok svrc_eqb negb].
  apply is_ok_eq in ES. subst st. unfold hash_and_add. rewrite HL. cbn [negb].
  destruct (n_hashable n) eqn:EH; cbn [negb].
  2:{ cbn [obind is_ok svrc_eqb negb]. exists x0. split; [exact H5|]. split; [|discriminate].
      rewrite <- KP. destruct s2. reflexivity. }
  destruct (HI eq_refl) as (y & HY & EI). rewrite G1.
  set (g0 := if n_first_part n && true then _ else s_gop s).
  assert (G0 : h_sec (k_handle (g_h g0)) = Some (mkCtx (hty (s_gop s)) (if n_first_part n then [] else D) false) /\
    forall z, Uh z (g_h g0) = Uh z (g_h (s_gop s))).
  { unfold g0. destruct (n_first_part n) eqn:EF; cbn [andb].
    - cbn [g_h set_g_h k_handle set_k_handle]. unfold init_hash. cbn [get_ctx]. rewrite H4. cbn. rewrite H5. auto.
    - split; [apply HX; reflexivity|reflexivity]. }
  assert (G0' : forall k, set_g_h k g0 = set_g_h k (s_gop s)).
  { unfold g0. destruct (n_first_part n && true); reflexivity. }
  clearbody g0. destruct G0 as [G3 G4].
  unfold hash_wrapper. rewrite HL. cbn [negb]. unfold update_nalu_hash. rewrite EI. cbn [obind].
  unfold update_hash. destruct y as [|b y]; [congruence|]. cbn [get_ctx]. rewrite G3. cbn [x_final obind is_ok svrc_eqb negb x_oid x_data].
  eexists. split; [|split; [|intros _ _ y' Hy'; injection Hy' as <-; reflexivity]]; [reflexivity|].
  do 2 f_equal. rewrite G0'.
  match goal with |- context [set_k_handle (set_ctx false ?z (k_handle (g_h g0))) (g_h g0)] =>
    change (set_k_handle (set_ctx false z (k_handle (g_h g0))) (g_h g0)) with (Uh z (g_h g0)) end.
  rewrite G4. unfold Us, Ug. rewrite <- HLAST, G1. destruct s2 as [cf g r]; destruct r; reflexivity.
Qed.

Lemma Us_Us x l x' l' s : Us x l (Us x' l' s) = Us x l s.
Proof. destruct s as [cf [[[oid ty pr se] b hr] gl nh co li nu cn ts0 ht en] []]. reflexivity. Qed.
Lemma Us_last x l s : on_run (set_r_last l) (Us x l s) = Us x l s.
Proof. destruct s as [cf [[[oid ty pr se] b hr] gl nh co li nu cn ts0 ht en] []]. reflexivity. Qed.
Lemma Us_set x l l' s : on_run (set_r_last l) (Us x l' s) = Us x l s.
Proof. destruct s as [cf [[[oid ty pr se] b hr] gl nh co li nu cn ts0 ht en] []]. reflexivity. Qed.
Lemma Us_id s : s = Us (h_sec (k_handle (g_h (s_gop s)))) (r_last (s_run s)) s.
Proof. destruct s as [cf [[[oid ty pr se] b hr] gl nh co li nu cn ts0 ht en] []]. reflexivity. Qed.

Lemma handle_U c g x l (s : signer) : handle_ok C c (k_handle (g_h (s_gop s))) -> x_oid x = hty (s_gop s) ->
  g = s_gop (Us (Some x) l s) -> handle_ok C c (k_handle (g_h g)).
Proof. intros H HX ->. apply (handle_ok_set C _ _ false x H HX). Qed.

Lemma whole_input d n : n_hash_mem n = d -> n_hash_size n = nlen d -> hash_input n = Def d.
Proof. intros H1 H2. unfold hash_input. rewrite H1, H2, N.leb_refl. unfold nlen. rewrite Nat2N.id, firstn_all. reflexivity. Qed.

Lemma middle_parts s ts hs ps : Forall (fun p => p <> []) ps -> handle_ok C hs (k_handle (g_h (s_gop s))) ->
  forall x l D, n_last_part l = false -> (n_valid l <? 0)%Z = false -> x_oid x = hty (s_gop s) ->
  (snd (prepare s) = SV_OK -> n_hashable l = true -> x = mkCtx (hty (s_gop s)) D false) ->
  exists x' l', run C (map (fun p => OAdd p ts false) ps) (Us (Some x) l (fst (prepare s))) =
      Def (Us (Some x') l' (fst (prepare s)), repeat (code (snd (prepare s))) (length ps)) /\
    n_last_part l' = false /\ kind l' = kind l /\ x_oid x' = hty (s_gop s) /\
    (snd (prepare s) = SV_OK -> n_hashable l = true -> x' = mkCtx (hty (s_gop s)) (D ++ concat ps) false).
Proof.
  intros HP HH. induction HP as [|p ps HP HPS IH]; intros x l D HL HV HX HD.
  - exists x, l. cbn [map run length repeat concat]. rewrite app_nil_r. repeat split; assumption.
  - cbn [map run exec]. rewrite add_part_rest by exact HP. unfold take_part.
    set (s2 := fst (prepare s)) in *.
    change (r_last (s_run (Us (Some x) l s2))) with l. rewrite HL. cbn [obind]. rewrite Us_set.
    set (ln := set_parts false false l). set (n := set_hashable_data p (nlen p) (drop_pointers ln)).
    assert (G2 : s_gop s2 = s_gop s) by apply prepare_same.
    assert (EP : prepare (Us (Some x) ln s2) = (Us (Some x) ln s2, snd (prepare s))).
    { rewrite prepare_U. unfold s2. rewrite prepare_twice. destruct (prepare s); reflexivity. }
    destruct (rest_open (Us (Some x) ln s2) n ts D hs) as (x1 & X1 & X2 & X3).
    + reflexivity.
    + exact HV.
    + apply (handle_U hs _ x ln s2); [rewrite G2; exact HH|rewrite G2; exact HX|reflexivity].
    + intros _. exists p. split; [exact HP|]. apply whole_input; reflexivity.
    + intros _ HO HHA. rewrite EP in HO. cbn [snd] in HO. rewrite (HD HO HHA).
      change (hty (s_gop (Us (Some (mkCtx (hty (s_gop s)) D false)) ln s2))) with (hty (s_gop s2)).
      rewrite G2. reflexivity.
    + rewrite X2, EP. cbn [fst snd obind]. rewrite Us_Us. change (r_last (s_run (Us (Some x) ln s2))) with ln.
      assert (HTY : hty (s_gop (Us (Some x) ln s2)) = hty (s_gop s)) by (rewrite <- G2; reflexivity).
      rewrite HTY in X1, X3.
      destruct (IH x1 ln (D ++ p)) as (x' & l' & R & L1 & L2 & L3 & L4); [reflexivity|exact HV|exact X1| |].
      * intros HO HHA. rewrite (X3 ltac:(rewrite EP; exact HO) HHA p); [reflexivity|]. apply whole_input; reflexivity.
      * exists x', l'. rewrite R. cbn [obind length repeat]. split; [reflexivity|]. split; [exact L1|].
        split; [exact L2|]. split; [exact L3|]. cbn [concat]. rewrite app_assoc. exact L4.
Qed.

(** A NALU in at least two parts and the same NALU as a whole. *)
Lemma parts_whole s L p ps pl ts s1 st n1 : sgood C s L ->
  match ts with Some t => (-9223372036854775808 <= t < 9223372036854775808)%Z | None => True end ->
  n_last_part (r_last (s_run s)) = true -> p <> [] -> parse_nalu p (sc_codec (s_cfg s)) false false = Def n1 ->
  Forall (fun q => q <> []) ps -> (exists b, In b pl /\ b <> 0) ->
  nlen (p ++ concat ps ++ pl) < 2 ^ 64 ->
  add_part C s (p ++ concat ps ++ pl) ts true = Def (s1, st) ->
  exists x l, run C (map (fun p => OAdd p ts false) (p :: ps) ++ [OAdd pl ts true]) s =
      Def (Us (Some x) l s1, repeat (code (snd (prepare s))) (length (p :: ps)) ++ [code st]) /\
    n_last_part l = true /\ n_last_part (r_last (s_run s1)) = true /\ x_oid x = hty (s_gop s1) /\
    (snd (prepare s) = SV_OK \/ (snd (prepare s) = SV_NOT_SUPPORTED /\ st = SV_NOT_SUPPORTED)).
Proof.
  intros HS Ht HLAST HPN HP1 HPS HPL HN HW.
  assert (HPL0 : pl <> []) by (destruct HPL as (b & Hb & _); intros ->; exact Hb).
  rewrite add_part_rest in HW by (destruct p; [congruence|discriminate]).
  unfold take_part in HW. rewrite HLAST in HW.
  destruct (parse_nalu (p ++ concat ps ++ pl) (sc_codec (s_cfg s)) true false) as [n|] eqn:EPW; [|discriminate].
  cbn [obind] in HW.
  destruct (strip_nonzero _ HPL) as [t ET].
  assert (EST : strip_trailing (p ++ concat ps ++ pl) = Def (p ++ concat ps ++ t)).
  { rewrite !app_assoc. apply strip_pre, ET. }
  destruct (parse_prefix p (concat ps ++ pl) (sc_codec (s_cfg s)) n1 n (concat ps ++ t)) as (K & HV & HI); try assumption.
  pose proof (parse_flags _ _ _ _ _ EPW) as HF.
  pose proof (parse_flags _ _ _ _ _ HP1) as HF1.
  assert (HHO : handle_ok C (sc_hs (s_cfg s)) (k_handle (g_h (s_gop s)))) by apply HS.
  (* the whole NALU *)
  set (nw := set_parts (n_first_part n) true n) in *.
  set (lw := drop_pointers nw) in *.
  assert (EW : on_run (set_r_last lw) s = Us (h_sec (k_handle (g_h (s_gop s)))) lw s).
  { rewrite (Us_id s) at 1. apply Us_set. }
  assert (HFW : first_last nw) by (split; [apply HF|reflexivity]).
  rewrite EW, rest_U in HW by exact HFW. unfold omap in HW.
  destruct (add_rest s nw ts) as [[s1' st']|] eqn:ER; [|discriminate]. cbn [obind] in HW. injection HW as HW1 HW2.
  subst st'.
  (* the first part *)
  cbn [map app run exec]. rewrite add_part_rest by exact HPN. unfold take_part. rewrite HLAST, HP1. cbn [obind].
  set (nf := set_parts (n_first_part n1) false n1). set (lf := drop_pointers nf).
  set (sf := on_run (set_r_last lf) s).
  assert (EF : sf = Us (h_sec (k_handle (g_h (s_gop s)))) lf s).
  { unfold sf. rewrite (Us_id s) at 1. apply Us_set. }
  assert (EPF : prepare sf = (Us (h_sec (k_handle (g_h (s_gop s)))) lf (fst (prepare s)), snd (prepare s))).
  { rewrite EF, prepare_U. destruct (prepare s); reflexivity. }
  destruct (rest_open sf nf ts [] (sc_hs (s_cfg s))) as (x1 & X1 & X2 & X3).
  { reflexivity. }
  { exact HV. }
  { exact HHO. }
  { intros HHA. destruct (HI HHA) as (D & D1 & D2 & _). exists D. auto. }
  { intros E. change (n_first_part nf) with (n_first_part n1) in E. rewrite (proj1 HF1) in E. discriminate. }
  rewrite X2. cbn [obind fst snd]. rewrite EPF. cbn [fst snd]. rewrite Us_Us.
  change (r_last (s_run sf)) with lf. change (hty (s_gop sf)) with (hty (s_gop s)) in X1, X3.
  (* the parts between *)
  set (D1 := match hash_input n1 with Def D => D | _ => [] end).
  destruct (middle_parts s ts (sc_hs (s_cfg s)) ps HPS HHO x1 lf D1) as (x2 & l2 & R & L1 & L2 & L3 & L4);
    [reflexivity|exact HV|exact X1| |].
  { intros HO HHA. rewrite EPF in X3. cbn [snd] in X3. destruct (HI HHA) as (D & _ & D2 & _).
    change (n_first_part nf) with (n_first_part n1) in X3. rewrite (proj1 HF1) in X3.
    unfold D1. rewrite D2. apply (X3 HO HHA). exact D2. }
  rewrite run_app, R. cbn [obind run exec]. rewrite add_part_rest by exact HPL0.
  (* the last part *)
  unfold take_part. change (r_last (s_run (Us (Some x2) l2 (fst (prepare s))))) with l2. rewrite L1, ET. cbn [obind].
  rewrite Us_set. set (ll := set_parts false true l2). set (nl := set_hashable_data pl (nlen t) (drop_pointers ll)).
  assert (HGS : sgood C (fst (prepare s)) L).
  { destruct (prepare s) as [a b] eqn:EPS. apply (prepare_ok C s L a b HS EPS). }
  assert (G2 : s_gop (fst (prepare s)) = s_gop s) by apply prepare_same.
  assert (KL : kind nl = kind nw).
  { transitivity (kind l2); [reflexivity|]. rewrite L2. transitivity (kind n1); [reflexivity|]. rewrite <- K. reflexivity. }
  assert (KH : n_hashable l2 = n_hashable nw).
  { change (n_hashable nl = n_hashable nw). unfold kind in KL. injection KL as _ KH _ _ _. exact KH. }
  destruct (strip_def _ _ ET) as (HT0 & kz & Hkz).
  destruct (rest_last (fst (prepare s)) L x2 ll nw nl ts (D1 ++ concat ps) t s1' st) as (x3 & X4); try assumption.
  { reflexivity. }
  { reflexivity. }
  { rewrite G2. exact L3. }
  { rewrite prepare_twice, G2. intros HO HHA. apply L4; [exact HO|].
    assert (E : n_hashable l2 = n_hashable lf) by (unfold kind in L2; injection L2 as _ E _ _ _; exact E).
    rewrite <- E, KH. exact HHA. }
  { intros HHA. assert (HHA1 : n_hashable n1 = true).
    { assert (E : n_hashable n = n_hashable n1) by (unfold kind in K; injection K as _ E _ _ _; exact E).
      rewrite <- E. exact HHA. }
    destruct (HI HHA1) as (D & _ & D2 & D3). unfold D1. rewrite D2.
    split; [change (hash_input nw) with (hash_input n); rewrite D3, <- app_assoc; reflexivity|].
    split; [exact HT0|]. unfold hash_input. change (n_hash_size nl) with (nlen t). change (n_hash_mem nl) with pl.
    clear - Hkz. subst pl. unfold nlen. rewrite app_length.
    destruct (N.leb_spec (N.of_nat (length t)) (N.of_nat (length t + length (zeros kz)))); [|lia].
    rewrite Nat2N.id, firstn_app_exact. reflexivity. }
  { rewrite add_rest_prepared. exact ER. }
  rewrite X4. cbn [obind fst snd]. exists x3, ll. subst s1. rewrite Us_Us.
  assert (HFIN : sgood C (Us (Some x3) ll s1') [] \/ exists L', sgood C (Us (Some x3) ll s1') L').
  { right.
    assert (HU : sgood C (Us (Some x2) l2 (fst (prepare s))) L).
    { apply sgood_U; [exact HGS|]. rewrite G2. exact L3. }
    pose proof (add_part_ok C HC _ L pl ts true HU Ht) as HA. rewrite add_part_rest in HA by exact HPL0.
    unfold take_part in HA. change (r_last (s_run (Us (Some x2) l2 (fst (prepare s))))) with l2 in HA.
    rewrite L1, ET in HA. cbn [obind] in HA. rewrite Us_set in HA. fold ll in HA. fold nl in HA.
    rewrite X4 in HA. cbn [holds] in HA. destruct HA as (L' & A1 & _). exists L'. exact A1. }
  split; [rewrite app_comm_cons; reflexivity|]. split; [reflexivity|]. split; [reflexivity|]. split.
  - assert (HG2 : exists L', sgood C (Us (Some x3) ll s1') L') by (destruct HFIN as [H|H]; eauto).
    destruct HG2 as (L' & HG2).
    pose proof (gg_h _ _ _ (sg_g _ _ _ HG2)) as (_ & _ & _ & (z & Z1 & Z2) & _). cbn in Z1. injection Z1 as <-. exact Z2.
  - unfold add_rest in ER. revert ER. clear. unfold prepare at 2 3. destruct (sc_key (s_cfg s)) eqn:E; cbv zeta.
    + destruct (negb _ && _) eqn:E2; cbn [snd]; [right|left; reflexivity]. split; [reflexivity|].
      unfold prepare in ER. rewrite E, E2 in ER. cbn in ER. congruence.
    + right. split; [reflexivity|]. unfold prepare in ER. rewrite E in ER. cbn in ER. congruence.
Qed.

(** ** Sessions *)

Definition sim (s s' : signer) : Prop := exists x l, s' = Us x l s /\
  n_last_part l = true /\ n_last_part (r_last (s_run s)) = true.

Lemma golden_U x l s : golden_sei C (Us x l s) = omap (fun '(s, st) => (Us x l s, st)) (golden_sei C s).
Proof.
  unfold golden_sei.
  change (on_cfg (set_sc_frame true) (on_run (fun r => set_r_recurrent true (set_r_golden true r)) (Us x l s)))
    with (Us x l (on_cfg (set_sc_frame true) (on_run (fun r => set_r_recurrent true (set_r_golden true r)) s))).
  cbv zeta. rewrite prepare_U. destruct (prepare _) as [s1 st]. destruct (negb (is_ok st)); [reflexivity|].
  rewrite generate_U. unfold omap. rewrite !obind_assoc. destruct (generate_sei C s1) as [[[s2 st2] p]|]; [|reflexivity].
  cbn [obind]. rewrite payload_U. destruct (is_ok st2); reflexivity.
Qed.
Lemma eos_U x l s : end_of_stream C (Us x l s) = omap (fun '(s, st) => (Us x l s, st)) (end_of_stream C s).
Proof.
  unfold end_of_stream. rewrite prepare_U. destruct (prepare s) as [s1 st]. destruct (negb (is_ok st)); [reflexivity|].
  rewrite generate_U. unfold omap. rewrite !obind_assoc. destruct (generate_sei C s1) as [[[s2 st2] p]|]; [|reflexivity].
  cbn [obind]. rewrite payload_U. destruct (is_ok st2); cbn [negb]; [|reflexivity]. apply all_U.
Qed.
Lemma key_U x l s pem : set_private_key C (Us x l s) pem = let '(s, st) := set_private_key C s pem in (Us x l s, st).
Proof.
  unfold set_private_key. destruct pem as [|b p]; [reflexivity|]. destruct (c_priv C (b :: p)) as [[pub [|m]]|]; try reflexivity.
  destruct pub; reflexivity.
Qed.

(** Parts of [s_run] that matter here. *)
Definition lp (s : signer) : bool := n_last_part (r_last (s_run s)).
Definition lkept (s s' : signer) : Prop := r_last (s_run s') = r_last (s_run s).

Lemma sign_lkept s h : lkept s (fst (plugin_sign C s h)).
Proof.
  unfold plugin_sign, lkept. destruct (sc_key _); [|reflexivity]. destruct h; [reflexivity|].
  destruct (_ <=? _)%nat; [reflexivity|]. cbv zeta. destruct (c_sign _ _ _ _) as [sig|]; [|reflexivity].
  destruct (_ <? _)%nat; [reflexivity|]. destruct sig; reflexivity.
Qed.

(** Calls that do not look at last_nalu commute with a change of it, hence keep it. *)
Lemma U_keeps {A} (f : signer -> out (signer * A)) :
  (forall x l s, f (Us x l s) = omap (fun '(s, a) => (Us x l s, a)) (f s)) ->
  forall s s' a, f s = Def (s', a) -> lkept s s' /\ h_sec (k_handle (g_h (s_gop s'))) = h_sec (k_handle (g_h (s_gop s))).
Proof.
  intros H s s' a E. pose proof (H (h_sec (k_handle (g_h (s_gop s)))) (r_last (s_run s)) s) as G.
  rewrite <- Us_id, E in G. unfold omap in G. cbn [obind] in G. injection G as G. rewrite G. split; reflexivity.
Qed.

Lemma exec_U o : match o with OAdd _ _ _ | OReset | OHashAlgo _ => False | _ => True end ->
  forall x l s, exec C o (Us x l s) = omap (fun '(s, r) => (Us x l s, r)) (exec C o s).
Proof.
  intros HO x l s. destruct o; try contradiction; cbn [exec]; try reflexivity.
  - apply get_U.
  - apply prepend_U.
  - rewrite eos_U. unfold omap. rewrite !obind_assoc. destruct (end_of_stream C s) as [[s1 st]|]; reflexivity.
  - rewrite golden_U. unfold omap. rewrite !obind_assoc. destruct (golden_sei C s) as [[s1 st]|]; reflexivity.
  - rewrite key_U. destruct (set_private_key C s pem); reflexivity.
  - destruct l0; reflexivity.
  - destruct (n <? 1); reflexivity.
  - change (r_started (s_run (Us x l s))) with (r_started (s_run s)). destruct (r_started (s_run s)); reflexivity.
Qed.

Lemma add_whole_last s d ts s1 st : d <> [] -> add_part C s d ts true = Def (s1, st) -> lp s = true -> lp s1 = true.
Proof.
  intros HD H HL. rewrite add_part_rest in H by exact HD. unfold take_part in H. unfold lp in HL. rewrite HL in H.
  destruct (parse_nalu d _ true false) as [n|] eqn:EP; [|discriminate]. cbn [obind] in H.
  pose proof (parse_flags _ _ _ _ _ EP) as HF.
  assert (HFW : first_last (set_parts (n_first_part n) true n)) by (split; [apply HF|reflexivity]).
  assert (G := U_keeps (fun s => add_rest s (set_parts (n_first_part n) true n) ts)
    (fun x l s => rest_U x l s _ ts HFW) _ _ _ H).
  destruct G as [G _]. unfold lkept in G. unfold lp. rewrite G. reflexivity.
Qed.

Lemma exec_sim s s' o s1 r : sim s s' -> match o with OAdd _ _ false => False | _ => True end ->
  exec C o s = Def (s1, r) -> exists s1', exec C o s' = Def (s1', r) /\ sim s1 s1'.
Proof.
  intros (x & l & -> & HL & HL0) HO HE.
  destruct o; try (
    match type of HE with exec C ?o s = _ =>
      rewrite (exec_U o I); rewrite HE; eexists; (split; [reflexivity|]); exists x, l; (split; [reflexivity|]);
      (split; [exact HL|]);
      destruct (U_keeps (exec C o) (exec_U o I) _ _ _ HE) as [G _]; rewrite G; exact HL0
    end).
  - (* OAdd *)
    destruct last; [|contradiction]. cbn [exec] in *. destruct data as [|b0 d].
    { cbn [add_part obind fst snd] in *. injection HE as <- <-. eexists. split; [reflexivity|]. exists x, l. auto. }
    assert (HD : b0 :: d <> []) by discriminate. revert HE HD. generalize (b0 :: d) as data. clear b0 d. intros data HE HD.
    destruct (add_part C s data ts true) as [[s1' st]|] eqn:EA; [|discriminate]. cbn [obind fst snd] in HE.
    injection HE as -> <-. pose proof (add_whole_last _ _ _ _ _ HD EA HL0) as HL1.
    rewrite add_part_rest in EA |- * by exact HD. unfold take_part in *.
    change (r_last (s_run (Us x l s))) with l. rewrite HL0 in EA. rewrite HL. change (s_cfg (Us x l s)) with (s_cfg s).
    destruct (parse_nalu data (sc_codec (s_cfg s)) true false) as [n|] eqn:EP; [|discriminate]. cbn [obind] in *.
    pose proof (parse_flags _ _ _ _ _ EP) as HF. set (n' := set_parts (n_first_part n) true n) in *.
    assert (HFW : first_last n') by (split; [apply HF|reflexivity]).
    rewrite Us_set. rewrite (Us_id s), Us_set in EA. rewrite rest_U in EA |- * by exact HFW. unfold omap in *.
    destruct (add_rest s n' ts) as [[s2 st2]|]; [|discriminate]. cbn [obind fst snd] in *. injection EA as <- ->.
    eexists. split; [reflexivity|]. exists x, (drop_pointers n'). rewrite Us_Us. split; [reflexivity|]. split; [reflexivity|exact HL1].
  - (* OReset *)
    cbn [exec] in *. injection HE as <- <-. eexists. split; [reflexivity|].
    exists (h_sec (k_handle (g_h (s_gop (reset (Us x l s)))))), last_nalu_init. split; [|split; reflexivity].
    destruct s as [cf [[[oid ty pr se] b hr] gl nh co li nu cn ts0 ht en] []]. destruct se as [[? ? ?]|], x as [[? ? ?]|]; reflexivity.
  - (* OHashAlgo *)
    cbn [exec] in *. unfold set_hash in *. change (r_started (s_run (Us x l s))) with (r_started (s_run s)).
    destruct (r_started (s_run s)).
    { cbn in *. injection HE as <- <-. eexists. split; [reflexivity|]. exists x, l. auto. }
    assert (EH : set_hash_algo C name (k_handle (g_h (s_gop (Us x l s)))) =
      (let '(h, st) := set_hash_algo C name (k_handle (g_h (s_gop s))) in
       (if is_ok st then h else set_ctx false x h, st))).
    { unfold set_hash_algo. destruct (match name with None => _ | Some _ => _ end); [|reflexivity].
      destruct (c_oid C l0); reflexivity. }
    cbv zeta in HE |- *. rewrite EH. destruct (set_hash_algo C name (k_handle (g_h (s_gop s)))) as [h st].
    destruct (is_ok st) eqn:ES; cbn [negb] in *.
    + destruct (_ || _); cbn in HE |- *; injection HE as <- <-; eexists; (split; [reflexivity|]);
        exists (h_sec h), l; (split; [|split; [exact HL|exact HL0]]);
        destruct s as [cf [[[oid ty pr se] b hr] gl nh co li nu cn ts0 ht en] []]; destruct h; reflexivity.
    + cbn in HE |- *. injection HE as <- <-. eexists. split; [reflexivity|]. exists x, l.
      split; [|split; [exact HL|exact HL0]].
      destruct s as [cf [[[oid ty pr se] b hr] gl nh co li nu cn ts0 ht en] []]; destruct h; reflexivity.
Qed.

Lemma settled_parts ps ts l clean r : settled clean (map (fun p => OAdd p ts false) ps ++ OAdd l ts true :: r) <-> settled false r.
Proof. revert clean. induction ps as [|p ps IH]; intros clean; cbn [map app settled]; [reflexivity|apply IH]. Qed.

Lemma settled_in_parts es : forall clean, settled clean (flat_map as_whole es) -> settled clean (flat_map in_parts es).
Proof.
  induction es as [|e es IH]; intros clean; cbn [flat_map]; [auto|].
  destruct e as [ps ts|o]; cbn [as_whole in_parts].
  - cbn [app settled]. intros H. rewrite <- app_assoc. cbn [app]. apply settled_parts, IH, H.
  - cbn [app]. intros H. apply settled_cons in H as [H1 H2]. apply settled_cons. auto.
Qed.

Lemma sim_trans a b c : sim a b -> sim b c -> sim a c.
Proof.
  intros (x & l & -> & H1 & H2) (x' & l' & -> & H3 & H4). exists x', l'. rewrite Us_Us. auto.
Qed.

Lemma cut_two c p q ps : cut_ok c (p :: q :: ps) ->
  (exists n, parse_nalu p c false false = Def n) /\ p <> [] /\ Forall (fun q => q <> []) (removelast (q :: ps)) /\
  (exists b, In b (last (q :: ps) []) /\ b <> 0) /\ nlen (concat (p :: q :: ps)) < 2 ^ 64.
Proof.
  unfold cut_ok. intros (H1 & H2 & H3 & H4). split; [exact H1|]. apply Forall_cons_iff in H2 as [H2 H2'].
  split; [exact H2|]. split; [|split; [exact H3|exact H4]].
  rewrite (app_removelast_last [] (l := q :: ps)) in H2' by discriminate. apply Forall_app in H2' as [H2' _]. exact H2'.
Qed.

Lemma session_parts es : forall clean c s s' L, sinv C clean c s' L -> sim s s' ->
  Forall (call_ok C c) es -> settled clean (flat_map as_whole es) ->
  forall s1 rs, run C (flat_map as_whole es) s = Def (s1, rs) ->
  exists s1' rs', run C (flat_map in_parts es) s' = Def (s1', rs') /\ same_answers es rs rs' /\ sim s1 s1'.
Proof.
  induction es as [|e es IH]; intros clean c s s' L HI HSIM HOK HSET s1 rs HR.
  { cbn in HR |- *. injection HR as <- <-. exists s', []. split; [reflexivity|]. split; [constructor|exact HSIM]. }
  apply Forall_cons_iff in HOK as [HOK1 HOK]. cbn [flat_map] in *.
  assert (STEP : forall o, match o with OAdd _ _ false => False | _ => True end -> op_ok C o ->
    settled clean (o :: flat_map as_whole es) -> run C (o :: flat_map as_whole es) s = Def (s1, rs) ->
    exists s1' r rs0 rs', rs = r :: rs0 /\ run C (o :: flat_map in_parts es) s' = Def (s1', r :: rs') /\
      same_answers es rs0 rs' /\ sim s1 s1').
  { intros o HO HOP HS2 HR2. apply settled_cons in HS2 as [HS2 HS3]. cbn [run] in HR2 |- *.
    destruct (exec C o s) as [[s2 r]|] eqn:EX; [|discriminate]. cbn [obind] in HR2.
    destruct (run C (flat_map as_whole es) s2) as [[s3 rs0]|] eqn:ER; [|discriminate]. cbn [obind] in HR2.
    injection HR2 as -> <-.
    destruct (exec_sim s s' o s2 r HSIM HO EX) as (s2' & EX' & HS').
    pose proof (exec_ok C HC clean c s' o L HI HOP HS2) as HX. rewrite EX' in HX. cbn [holds] in HX.
    destruct HX as (L' & HI' & _).
    destruct (IH _ c s2 s2' L' HI' HS' HOK HS3 _ _ ER) as (s1' & rs' & R' & A' & M').
    exists s1', r, rs0, rs'. rewrite EX'. cbn [obind]. rewrite R'. auto. }
  destruct e as [ps ts|o].
  - destruct HOK1 as [HCUT HOP].
    destruct ps as [|p [|q ps]]; [contradiction| |].
    + cbn [as_whole in_parts removelast last map app concat] in *. rewrite app_nil_r in *.
      destruct (STEP (OAdd p ts true) I HOP HSET HR) as (s1' & r & rs0 & rs' & -> & R' & A' & M').
      exists s1', (r :: rs'). split; [exact R'|]. split; [|exact M'].
      apply (SameNalu [p] ts es SV_OK); [exact A'|left; reflexivity].
    + destruct (cut_two _ _ _ _ HCUT) as ([n1 HP1] & HPN & HMID & HLAST & HLEN).
      cbn [as_whole in_parts] in *. cbn [app run] in HR.
      destruct (exec C (OAdd (concat (p :: q :: ps)) ts true) s) as [[s2 r]|] eqn:EX; [|discriminate]. cbn [obind] in HR.
      destruct (run C (flat_map as_whole es) s2) as [[s3 rs0]|] eqn:ER; [|discriminate]. cbn [obind] in HR.
      injection HR as -> <-.
      destruct (exec_sim s s' (OAdd (concat (p :: q :: ps)) ts true) s2 r HSIM I EX) as (s2' & EX' & HS').
      cbn [exec] in EX'. destruct (add_part C s' (concat (p :: q :: ps)) ts true) as [[s2'' st]|] eqn:EA; [|discriminate].
      cbn [obind fst snd] in EX'. injection EX' as -> <-.
      pose proof HI as [HGOOD _ HCODEC _].
      set (mid := removelast (q :: ps)) in *. set (pl := last (q :: ps) []) in *.
      assert (HCAT : concat (p :: q :: ps) = p ++ concat mid ++ pl).
      { cbn [concat]. change (q ++ concat ps) with (concat (q :: ps)).
        rewrite (app_removelast_last [] (l := q :: ps)) at 1 by discriminate.
        rewrite concat_app. cbn [concat]. rewrite app_nil_r. reflexivity. }
      rewrite HCAT in EA, HLEN. rewrite <- HCODEC in HP1.
      assert (HL' : n_last_part (r_last (s_run s')) = true).
      { destruct HSIM as (x & l & -> & H1 & _). exact H1. }
      destruct (parts_whole s' L p mid pl ts s2' st n1 HGOOD HOP HL' HPN HP1 HMID HLAST HLEN EA)
        as (x & l & R & M1 & M2 & M3 & M4).
      assert (ERM : removelast (p :: q :: ps) = p :: mid) by reflexivity.
      assert (ELA : last (p :: q :: ps) [] = pl) by reflexivity.
      rewrite ERM, ELA. rewrite run_app, R. cbn [obind].
      assert (HSM : sim s2 (Us (Some x) l s2')).
      { apply (sim_trans _ s2'); [exact HS'|]. exists (Some x), l. auto. }
      assert (HI2 : exists L', sinv C false c (Us (Some x) l s2') L').
      { pose proof (run_track C HC (map (fun p => OAdd p ts false) (p :: mid) ++ [OAdd pl ts true]) clean c s' L HI) as HT.
        rewrite R in HT. cbn [holds] in HT.
        destruct HT as (cl & L' & HI' & _).
        - apply Forall_app. split; [|constructor; [exact HOP|constructor]].
          apply Forall_forall. intros o Ho. apply in_map_iff in Ho as (z & <- & _). exact HOP.
        - rewrite settled_parts. exact I.
        - exists L'. destruct HI'. constructor; try assumption. discriminate. }
      destruct HI2 as (L' & HI2). cbn [app settled] in HSET.
      destruct (IH _ c s2 _ L' HI2 HSM HOK HSET _ _ ER) as (s1' & rs' & R' & A' & M').
      rewrite R'. cbn [obind]. eexists _, _. split; [reflexivity|]. split; [|exact M'].
      rewrite <- app_assoc. cbn [app].
      assert (HLN : (length (p :: q :: ps) - 1)%nat = length (p :: mid)).
      { unfold mid. cbn [length]. pose proof (app_removelast_last [] (l := q :: ps) ltac:(discriminate)) as E.
        apply (f_equal (@length _)) in E. rewrite app_length in E. cbn [length] in E. lia. }
      rewrite <- HLN. apply SameNalu; [exact A'|]. exact M4.
  - destruct HOK1 as [HOP HO]. cbn [as_whole in_parts app] in *.
    destruct (STEP o) as (s1' & r & rs0 & rs' & -> & R' & A' & M'); [destruct o; try exact I; contradiction|exact HOP|exact HSET|exact HR|].
    exists s1', (r :: rs'). split; [exact R'|]. split; [|exact M']. apply SameOther, A'.
Qed.

Lemma create_sim c coin : sim (create c coin) (create c coin).
Proof. exists (Some (mkCtx sha256_der [] false)), last_nalu_init. repeat split. Qed.

Lemma same_returned es rs rs' : same_answers es rs rs' -> returned rs' = returned rs.
Proof.
  induction 1 as [|o es r rs rs' H IH|ps ts es st r rs rs' H IH HST]; [reflexivity| |].
  - unfold returned in *. cbn [map filter]. rewrite IH. reflexivity.
  - assert (G : forall k, returned (repeat (code st) k ++ r :: rs') = returned (r :: rs')).
    { induction k as [|k IHk]; [reflexivity|]. cbn [repeat app]. unfold returned in *. cbn [map filter rs_sei code]. exact IHk. }
    rewrite G. unfold returned in *. cbn [map filter]. rewrite IH. reflexivity.
Qed.

(** C13 *)
Lemma parts_session c coin es s rs : Forall (call_ok C c) es -> settled true (flat_map as_whole es) ->
  run C (flat_map as_whole es) (create c coin) = Def (s, rs) ->
  exists s' rs', run C (flat_map in_parts es) (create c coin) = Def (s', rs') /\
    same_answers es rs rs' /\ returned rs' = returned rs.
Proof.
  intros H1 H2 H3.
  destruct (session_parts es true c _ _ [] (create_good C HC c coin) (create_sim c coin) H1 H2 _ _ H3)
    as (s' & rs' & R & A & _).
  exists s', rs'. split; [exact R|]. split; [exact A|]. apply (same_returned es), A.
Qed.

End Parts.

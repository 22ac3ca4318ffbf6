(** Adding a NALU for validation ends: lemmas. *)
From Verif Require Import Base BaseProofs Epb Nalu Crypto Types Hash Tlv TlvProofs SignerProofs VTypes NaluList Validator VListProofs
  VFrameProofs ValidSpec VAuthProofs VKeyProofs VLost.
Local Open Scope N_scope.

(** *** Functions that do not loop *)
Definition nd {A} (x : out A) : Prop := x <> Undef Diverges.
Lemma nd_def {A} (a : A) : nd (Def a).
Proof. discriminate. Qed.
Lemma nd_bind {A B} (x : out A) (k : A -> out B) : nd x -> (forall a, x = Def a -> nd (k a)) -> nd (obind x k).
Proof. destruct x as [a|u]; cbn; intros H1 H2; [apply H2; reflexivity|]. intros E. injection E as ->. apply H1. reflexivity. Qed.
Ltac nd_step := match goal with
  | |- nd (Def _) => discriminate
  | |- nd (Undef ?u) => discriminate
  | |- nd (obind _ _) => apply nd_bind; [|intros ? _]
  | |- nd (let '(_, _) := ?x in _) => destruct x
  | |- nd (match ?x with _ => _ end) => lazymatch x with context [match _ with _ => _ end] => fail | _ => destruct x end
  | |- nd _ => solve [auto with nd]
  | |- nd ?x => match x with context [match ?y with _ => _ end] => lazymatch y with context [match _ with _ => _ end] => fail | _ => destruct y end end
  end.
Ltac nd_go := cbv zeta; repeat (nd_step; cbv beta zeta).

Lemma nd_read8 p : nd (read_8bits p). Proof. unfold read_8bits. nd_go. Qed.
Lemma nd_read16 p : nd (read_16bits p). Proof. unfold read_16bits. nd_go. Qed.
Lemma nd_read32 p : nd (read_32bits p). Proof. unfold read_32bits. nd_go. Qed.
Global Hint Resolve nd_read8 nd_read16 nd_read32 : nd.
Lemma nd_read64 p : nd (read_64bits p). Proof. unfold read_64bits. nd_go. Qed.
Lemma nd_take n p : nd (take_mem n p). Proof. unfold take_mem. nd_go. Qed.
Lemma nd_put d s : nd (put_mem d s). Proof. unfold put_mem. nd_go. Qed.
Lemma nd_put_at o d s : nd (put_at o d s). Proof. unfold put_at. nd_go. Qed.
Lemma nd_read_hash o d : nd (read_hash o d). Proof. unfold read_hash. nd_go. Qed.
Lemma nd_read_byte e lt p : nd (read_byte e lt p). Proof. unfold read_byte. nd_go. Qed.
Global Hint Resolve nd_read64 nd_take nd_put nd_put_at nd_read_hash nd_read_byte : nd.
Lemma nd_read_bytes e k : forall lt p, nd (read_bytes e k lt p).
Proof. induction k as [|k IH]; intros lt p; cbn [read_bytes]; nd_go. Qed.
Lemma nd_cstr p : nd (cstr p).
Proof. induction p as [|b p IH]; cbn [cstr]; [discriminate|]. destruct b; [discriminate|]. apply nd_bind; [exact IH|discriminate]. Qed.
Global Hint Resolve nd_read_bytes nd_cstr : nd.
Lemma nd_strings k : forall p, nd (decode_strings k p).
Proof. induction k as [|k IH]; intros p; cbn [decode_strings]; nd_go. Qed.
Global Hint Resolve nd_strings : nd.
Lemma nd_hash_input n : nd (hash_input n). Proof. unfold hash_input. nd_go. Qed.
Global Hint Resolve nd_hash_input : nd.
Lemma nd_payload p : nd (get_payload_size p).
Proof. induction p as [|b p IH]; cbn [get_payload_size]; nd_go. Qed.
Global Hint Resolve nd_payload : nd.
Lemma nd_strip d : nd (strip_trailing d). Proof. unfold strip_trailing. nd_go. Qed.
Lemma nd_start d : nd (start_code_len d). Proof. unfold start_code_len. nd_go. Qed.
Lemma nd_header c d : nd (parse_header c d). Proof. destruct c; cbn; [unfold parse_h264_header|unfold parse_h265_header]; destruct d as [|a [|b d]]; nd_go. Qed.
Global Hint Resolve nd_strip nd_start nd_header : nd.
Lemma nd_remove_epb n k : nd (remove_epb n k). Proof. unfold remove_epb. nd_go. Qed.
Global Hint Resolve nd_remove_epb : nd.
Lemma nd_parse d c a b : nd (parse_nalu d c a b).
Proof. unfold parse_nalu. nd_go. Qed.

Section Dec.
Variable C : crypto.
Lemma nd_algo o h : nd (set_hash_algo_der C o h). Proof. unfold set_hash_algo_der. nd_go. Qed.
Hint Resolve nd_algo : nd.
Lemma nd_general d m s : nd (decode_general d m s). Proof. unfold decode_general. nd_go. Qed.
Lemma nd_product d m s : nd (decode_product d m s). Proof. unfold decode_product. nd_go. Qed.
Lemma nd_arb d m s : nd (decode_arbitrary d m s). Proof. unfold decode_arbitrary. nd_go. Qed.
Lemma nd_pub d m s : nd (decode_public_key C d m s). Proof. unfold decode_public_key. nd_go. Qed.
Lemma nd_hl d m s : nd (decode_hash_list d m s). Proof. unfold decode_hash_list. nd_go. Qed.
Lemma nd_sig d m s : nd (decode_signature d m s). Proof. unfold decode_signature. nd_go. Qed.
Lemma nd_crypto d m s : nd (decode_crypto C d m s). Proof. unfold decode_crypto. nd_go. Qed.
Lemma nd_tag d t m s : nd (decode_tag C d t m s).
Proof.
  unfold decode_tag. repeat match goal with |- nd (match ?x with _ => _ end) => destruct x end;
    first [discriminate|apply nd_general|apply nd_product|apply nd_arb|apply nd_pub|apply nd_hl|apply nd_sig|apply nd_crypto].
Qed.
Lemma nd_tlv_header p : nd (decode_tlv_header p). Proof. unfold decode_tlv_header. nd_go. Qed.
(** A header takes at least two bytes. *)
Lemma header_shrinks p t len hsz q : decode_tlv_header p = Def (Some (t, len, hsz, q)) -> (length q < length p)%nat.
Proof.
  unfold decode_tlv_header, read_8bits, read_16bits. destruct p as [|a p]; [discriminate|]. cbn [obind]. destruct (negb _); [discriminate|].
  destruct (_ =? 2)%nat; destruct p as [|b p]; try discriminate; [destruct p as [|c p]; [discriminate|]|]; cbn [obind]; intros H; injection H as _ _ _ <-; cbn; lia.
Qed.
Lemma nd_decode_loop f : forall d p rem st, (length p < f)%nat -> nd (tlv_decode_loop C f d p rem st).
Proof.
  induction f as [|f IH]; intros d p rem st H; [lia|]. cbn [tlv_decode_loop]. destruct (rem =? 0); [discriminate|].
  apply nd_bind; [apply nd_tlv_header|]. intros [[[[t len] hsz] q]|] E; [|discriminate]. apply header_shrinks in E.
  apply nd_bind; [apply nd_tag|]. intros [d1 st1] _. destruct (is_ok st1); [|discriminate]. apply IH. rewrite skipn_length. lia.
Qed.
Lemma nd_tlv_decode d m s : nd (tlv_decode C d m s).
Proof. unfold tlv_decode. destruct (s =? 0); [discriminate|]. apply nd_decode_loop. lia. Qed.
Lemma nd_opt_loop f : forall d p rem st, (length p < f)%nat -> nd (opt_loop C f d p rem st).
Proof.
  induction f as [|f IH]; intros d p rem st H; [lia|]. cbn [opt_loop]. destruct (rem =? 0); [discriminate|].
  apply nd_bind; [apply nd_tlv_header|]. intros [[[[t len] hsz] q]|] E; [|discriminate]. apply header_shrinks in E.
  destruct (8 <? t); [discriminate|]. destruct (always_present t); [apply IH; rewrite skipn_length; lia|].
  apply nd_bind; [apply nd_tag|]. intros [d1 st1] _. destruct (is_ok st1); [|discriminate]. apply IH. rewrite skipn_length. lia.
Qed.
Lemma nd_optional d m s : nd (decode_optional C d m s).
Proof. unfold decode_optional. destruct (s =? 0); [discriminate|]. apply nd_opt_loop. lia. Qed.
Lemma read_byte_shrinks e lt p b lt2 q : read_byte e lt p = Def (b, lt2, q) -> (length q < length p)%nat.
Proof.
  unfold read_byte. destruct p as [|c p]; [discriminate|]. destruct (_ && _); [destruct p as [|c2 p]; [discriminate|]|]; intros H; injection H as _ _ <-; cbn; lia.
Qed.
Lemma read_bytes_shrinks e k : forall lt p b lt2 q, read_bytes e k lt p = Def (b, lt2, q) -> (length q <= length p)%nat.
Proof.
  induction k as [|k IH]; intros lt p b lt2 q; cbn [read_bytes]; [intros H; injection H as _ _ <-; lia|].
  destruct (read_byte e lt p) as [[[c l1] p1]|] eqn:E; [|discriminate]. cbn [obind]. apply read_byte_shrinks in E.
  destruct (read_bytes e k l1 p1) as [[[l l2] p2]|] eqn:E2; [|discriminate]. cbn [obind]. apply IH in E2. intros H; injection H as _ _ <-. lia.
Qed.
Lemma nd_find_loop f : forall lt p off size tag e, (length p < f)%nat -> nd (find_tag_loop f lt p off size tag e).
Proof.
  induction f as [|f IH]; intros lt p off size tag e H; [lia|]. cbn [find_tag_loop]. destruct (size <=? off); [discriminate|].
  apply nd_bind; [apply nd_read_byte|]. intros [[t l1] p1] E1. apply read_byte_shrinks in E1. destruct (t =? tag); [discriminate|].
  apply nd_bind; [apply nd_read_byte|]. intros [[x l2] p2] E2. apply read_byte_shrinks in E2.
  apply nd_bind; [nd_go|]. intros [[len l3] p3] E3.
  assert (L3 : (length p3 <= length p2)%nat).
  { destruct (_ =? 2)%nat in E3; [|injection E3 as _ _ <-; lia]. destruct (read_byte e l2 p2) as [[[y l4] q]|] eqn:E; [|discriminate]. apply read_byte_shrinks in E. cbn in E3. injection E3 as _ _ <-. lia. }
  apply nd_bind; [apply nd_read_bytes|]. intros [[y l4] p4] E4. apply read_bytes_shrinks in E4. apply IH. lia.
Qed.
Lemma nd_find_tag m s t e : nd (tlv_find_tag m s t e).
Proof. unfold tlv_find_tag. destruct (s =? 0); [discriminate|]. apply nd_find_loop. lia. Qed.
Hint Resolve nd_find_tag nd_tlv_decode nd_optional nd_parse : nd.

(** *** The validator *)
Variable Ov : ovf.
Lemma nd_simply h n : nd (simply_hash C h n). Proof. unfold simply_hash, update_nalu_hash. nd_go. Qed.
Hint Resolve nd_simply : nd.
Lemma nd_wrapper k n hs : nd (hash_wrapper C k n hs). Proof. unfold hash_wrapper, update_nalu_hash. nd_go. Qed.
Hint Resolve nd_wrapper : nd.
Lemma nd_hash_item v it : nd (hash_item C v it). Proof. unfold hash_item. nd_go. Qed.
Hint Resolve nd_hash_item : nd.
Lemma nd_update_hashable n : nd (update_hashable n). Proof. unfold update_hashable. nd_go. Qed.
Hint Resolve nd_update_hashable : nd.
Lemma nd_register v n : nd (register C v n). Proof. unfold register. nd_go. Qed.
Lemma nd_rehash l : forall v st, nd (rehash C v l st).
Proof. induction l as [|it l IH]; intros v st; cbn [rehash]; nd_go. Qed.
Hint Resolve nd_rehash : nd.
Lemma nd_reregister v : nd (reregister C v). Proof. unfold reregister. nd_go. Qed.
Lemma nd_add64 a b : nd (add_int64 Ov a b). Proof. unfold add_int64. nd_go. Qed.
Hint Resolve nd_add64 : nd.
Lemma nd_detect v : nd (detect_lost Ov v). Proof. unfold detect_lost. nd_go. Qed.
Hint Resolve nd_detect : nd.
Lemma nd_decode_sei v n : nd (decode_sei C Ov v n). Proof. unfold decode_sei. nd_go. Qed.
Lemma nd_gop_loop hs l : forall h is num, nd (gop_loop hs h is num l).
Proof. induction l as [|it l IH]; intros h is num; cbn [gop_loop]; nd_go. Qed.
Hint Resolve nd_decode_sei nd_gop_loop : nd.
Lemma nd_prepare_gop v : nd (prepare_gop C v). Proof. unfold prepare_gop. nd_go. Qed.
Hint Resolve nd_prepare_gop : nd.
Lemma nd_prepare v : nd (prepare C Ov v). Proof. unfold prepare. nd_go. Qed.
Hint Resolve nd_prepare : nd.
Lemma nd_golden v l it : nd (prepare_golden C Ov v l it). Proof. unfold prepare_golden. nd_go. Qed.
Lemma nd_find_link l : nd (find_link l).
Proof. induction l as [|it l IH]; cbn [find_link]; nd_go. Qed.
Lemma nd_shift hs a b : nd (shift_linked hs a b). Proof. unfold shift_linked. nd_go. Qed.
Hint Resolve nd_find_link nd_shift : nd.
Lemma nd_update_links v h : nd (update_links v h). Proof. unfold update_links. nd_go. Qed.
Hint Resolve nd_update_links : nd.
Lemma nd_update_link v : nd (update_link v). Proof. unfold update_link. nd_go. Qed.
Lemma nd_mark_without l : nd (mark_without l).
Proof. induction l as [|it l IH]; cbn [mark_without]; nd_go. Qed.
Hint Resolve nd_mark_without : nd.
Lemma nd_without v : nd (verify_without v). Proof. unfold verify_without. nd_go. Qed.
Lemma nd_hl_loop hs exp l : forall pos ps seen s, nd (hl_loop hs exp pos ps seen s l).
Proof. induction l as [|it l IH]; intros pos ps seen s; cbn [hl_loop]; nd_go. Qed.
Lemma nd_mark_used s l : nd (mark_used s l).
Proof. induction l as [|it l IH]; cbn [mark_used]; nd_go. Qed.
Hint Resolve nd_without nd_hl_loop nd_mark_used : nd.
Lemma nd_list v o : nd (verify_list v o). Proof. unfold verify_list. nd_go. Qed.
Hint Resolve nd_list : nd.
Lemma nd_with v : nd (verify_with v). Proof. unfold verify_with. nd_go. Qed.
Hint Resolve nd_with : nd.
Lemma nd_validate v : nd (validate v). Proof. unfold validate. nd_go. Qed.
Lemma nd_recurrent_loop l : forall d, nd (recurrent_loop C d l).
Proof. induction l as [|it l IH]; intros d; cbn [recurrent_loop]; nd_go. Qed.
Hint Resolve nd_recurrent_loop : nd.
Lemma nd_recurrent v : nd (recurrent_decoded C v). Proof. unfold recurrent_decoded. nd_go. Qed.
Lemma nd_copy_nalu b n : nd (copy_nalu b n). Proof. unfold copy_nalu. nd_go. Qed.
Hint Resolve nd_copy_nalu : nd.
Lemma nd_copy_rev b l : nd (copy_rev b l).
Proof. induction l as [|it l IH]; cbn [copy_rev]; nd_go. Qed.
Hint Resolve nd_copy_rev : nd.
Lemma nd_copy_last b l : nd (copy_last b l). Proof. unfold copy_last. nd_go. Qed.

(** *** Counting *)
Definition has (it : item) : bool := match i_nalu it with Some _ => true | None => false end.
Definition busy (it : item) : bool := has it && pending it.
Definition cnt (f : item -> bool) (l : list item) : nat := length (filter f l).
Lemma cnt_cons f a l : cnt f (a :: l) = ((if f a then 1 else 0) + cnt f l)%nat.
Proof. unfold cnt. cbn [filter]. destruct (f a); reflexivity. Qed.
Lemma cnt_app f l m : cnt f (l ++ m) = (cnt f l + cnt f m)%nat.
Proof. induction l as [|a l IH]; [reflexivity|]. cbn [app]. rewrite !cnt_cons, IH. lia. Qed.
Lemma busy_le l : (cnt busy l <= cnt has l)%nat.
Proof. induction l as [|a l IH]; [reflexivity|]. rewrite !cnt_cons. unfold busy at 1. destruct (has a), (pending a); cbn [andb]; lia. Qed.
Lemma cnt_missing f k : f missing_item = false -> cnt f (repeat missing_item k) = O.
Proof. intros H. induction k; [reflexivity|]. cbn [repeat]. rewrite cnt_cons, H. exact IHk. Qed.
Lemma cnt_add f num ap pos l : f missing_item = false -> cnt f (add_missing num ap pos l) = cnt f l.
Proof.
  intros H. unfold add_missing. cbv zeta. rewrite !cnt_app, cnt_missing by exact H. set (k := if ap then S pos else pos).
  rewrite <- (firstn_skipn k l) at 3. rewrite cnt_app. lia.
Qed.
(** Neither more NALUs nor more pending ones, nor other NALUs. *)
Definition okp (P : nalu -> Prop) (it : item) : Prop := match i_nalu it with Some n => P n | None => True end.
Definition keep (l m : list item) : Prop := forall P, Forall (okp P) l -> Forall (okp P) m.
Definition sub (l m : list item) : Prop := (cnt busy m <= cnt busy l)%nat /\ (cnt has m <= cnt has l)%nat /\ keep l m.
Lemma sub_refl l : sub l l. Proof. unfold keep; split; [lia|]. split; [lia|]. intros P H. exact H. Qed.
Lemma sub_trans a b c : sub a b -> sub b c -> sub a c.
Proof. intros (A1 & A2 & A3) (B1 & B2 & B3). split; [lia|]. split; [lia|]. intros P H. apply B3, A3, H. Qed.
Lemma sub_cons a b l m : i_nalu b = i_nalu a -> (busy b = true -> busy a = true) -> sub l m -> sub (a :: l) (b :: m).
Proof.
  intros HI H1 (H3 & H4 & H5). unfold sub. rewrite !cnt_cons. replace (has b) with (has a) by (unfold has; rewrite HI; reflexivity). split; [destruct (busy a), (busy b); intuition (try discriminate; lia)|]. split; [lia|].
  intros P H. apply Forall_cons_iff in H as [H6 H7]. apply Forall_cons; [unfold okp in *; rewrite HI; exact H6|apply H5, H7].
Qed.
Lemma sub_status a s l m : s <> SPend -> sub l m -> sub (a :: l) (set_i_status s a :: m).
Proof. intros H. apply sub_cons; [reflexivity|]. unfold busy, pending. cbn. destruct s; try congruence; cbn; rewrite andb_false_r; discriminate. Qed.
Lemma keep_missing k l m : keep l m -> keep l (repeat missing_item k ++ m).
Proof. intros H P HP. apply Forall_app. split; [|apply H, HP]. apply Forall_forall. intros x Hx. apply repeat_spec in Hx. subst x. exact I. Qed.
Lemma add_sub num ap pos l : sub l (add_missing num ap pos l).
Proof.
  unfold sub. rewrite !cnt_add by reflexivity. split; [auto|]. split; [auto|]. intros P H. unfold add_missing. cbv zeta. set (k := if ap then S pos else pos).
  rewrite <- (firstn_skipn k l) in H. apply Forall_app in H as [H1 H2]. apply Forall_app. split; [exact H1|]. apply (keep_missing _ (skipn k l)); [intros Q HQ; exact HQ|exact H2].
Qed.
Lemma miss_sub k l m : sub l m -> sub l (repeat missing_item k ++ m).
Proof. intros (H1 & H2 & H3). unfold sub. rewrite !cnt_app, !cnt_missing by reflexivity. split; [auto|]. split; [auto|]. apply keep_missing, H3. Qed.
Lemma next_sub s l : s <> SPend -> sub l (on_next_sei (set_i_status s) l) /\
  (next_sei l <> None -> (cnt busy (on_next_sei (set_i_status s) l) < cnt busy l)%nat).
Proof.
  intros H. unfold next_sei. induction l as [|a l [IH1 IH2]]; cbn [on_next_sei find]; [split; [apply sub_refl|congruence]|]. destruct (item_sei a && pending a) eqn:E.
  - split; [apply sub_status; [exact H|apply sub_refl]|]. intros _. rewrite !cnt_cons. apply andb_prop in E as [E1 E2].
    replace (busy a) with true. 2:{ symmetry. unfold busy, has. rewrite E2. unfold item_sei in E1. destruct (i_nalu a); [reflexivity|discriminate]. }
    replace (busy (set_i_status s a)) with false; [lia|]. symmetry. unfold busy, pending. cbn. destruct s; try congruence; cbn; apply andb_false_r.
  - split; [apply sub_cons; auto|]. intros HN. specialize (IH2 HN). rewrite !cnt_cons. lia.
Qed.
Lemma next_busy l : next_sei l <> None -> (0 < cnt busy l)%nat.
Proof. intros H. destruct (next_sub SErr l ltac:(discriminate)) as [_ H2]. specialize (H2 H). lia. Qed.
Lemma remove_used_cnt f l : (forall a, f (set_i_used false a) = f a) -> cnt f (remove_used l) = cnt f l.
Proof. intros H. unfold remove_used. induction l as [|a l IH]; [reflexivity|]. cbn [map]. rewrite !cnt_cons, IH, H. reflexivity. Qed.
Lemma remove_used_sub l : sub l (remove_used l).
Proof. unfold sub. rewrite !remove_used_cnt by reflexivity. split; [auto|]. split; [auto|]. intros P H. unfold remove_used. apply Forall_map. exact H. Qed.
Lemma remove_missing_has l : forall a b c, (cnt has (remove_missing a b c l) <= cnt has l)%nat /\ keep l (remove_missing a b c l).
Proof.
  induction l as [|it l IH]; intros a b c; cbn [remove_missing]; [split; [lia|intros P H; exact H]|]. destruct (b && c); [split; [lia|intros P H; exact H]|].
  destruct (_ && a).
  { rewrite cnt_cons. destruct (IH true b c) as [H1 H2]. split; [lia|]. intros P H. apply Forall_cons_iff in H as [_ H]. apply H2, H. }
  cbv zeta. rewrite !cnt_cons. match goal with |- context [has ?x] => assert (E : i_nalu x = i_nalu it) end.
  { destruct (i_decoded it && _); cbn; [reflexivity|]. destruct (vstat_eqb (i_status it) SInvalid); reflexivity. }
  match goal with |- context [has ?x] => set (y := x) in * end. clearbody y.
  match goal with |- context [remove_missing false ?x ?y l] => destruct (IH false x y) as [H1 H2] end.
  split; [unfold has at 1 3; rewrite E; lia|]. intros P H. apply Forall_cons_iff in H as [H3 H4]. apply Forall_cons; [unfold okp in *; rewrite E; exact H3|apply H2, H4].
Qed.
Lemma mark_without_sub l : holds (mark_without l) (fun '(m, _, _) => sub l m) (fun _ => True).
Proof.
  induction l as [|it l IH]; cbn [mark_without]; [apply sub_refl|]. destruct (negb (pending it)) eqn:EP.
  - apply holds_bind. eapply holds_impl; [exact IH| |auto]. intros [[m k] f] H. apply sub_cons; auto.
  - destruct (i_nalu it); [|exact I]. destruct (n_gop_sei n); [apply sub_refl|]. cbv zeta. destruct l as [|nx r]; [apply sub_status; [discriminate|apply sub_refl]|].
    destruct (i_nalu nx); [|exact I]. destruct (_ && _); [apply sub_status; [discriminate|apply sub_refl]|].
    apply holds_bind. eapply holds_impl; [exact IH| |auto]. intros [[m k] f] H. apply sub_status; [discriminate|exact H].
Qed.
(** The hash list is compared with NALUs up to the first pending SEI, which stays pending. *)
Lemma hl_sub hs exp l : forall pos ps seen s,
  holds (hl_loop hs exp pos ps seen s l) (fun '(_, m) => sub l m /\ (next_sei l <> None -> next_sei m <> None)) (fun _ => True).
Proof.
  induction l as [|it l IH]; intros pos ps seen s; cbn [hl_loop]; [split; [apply sub_refl|auto]|]. cbv zeta.
  assert (NX : forall a b l m, item_sei a = item_sei b -> (pending a = false \/ item_sei a = false) -> (pending b = false \/ item_sei b = false \/ True) ->
     (next_sei l <> None -> next_sei m <> None) -> next_sei (a :: l) <> None -> next_sei (b :: m) <> None).
  { intros a b l1 m1 H1 H2 _ H3. unfold next_sei in *. cbn [find]. replace (item_sei a && pending a) with false.
    - destruct (item_sei b && pending b); [discriminate|exact H3].
    - symmetry. destruct H2 as [->| ->]; [apply andb_false_r|reflexivity]. }
  assert (NM : forall k m, next_sei m <> None -> next_sei (repeat missing_item k ++ m) <> None).
  { intros k m H. induction k; [exact H|]. cbn [repeat app]. unfold next_sei in *. cbn [find]. exact IHk. }
  destruct (negb (pending it) || negb (i_used it)) eqn:EP.
  { apply holds_bind. eapply holds_impl; [apply IH| |auto]. intros [s1 m] [H1 H2]. split; [apply sub_cons; auto|]. unfold next_sei in *. cbn [find]. destruct (_ && _); [discriminate|exact H2]. }
  destruct (i_nalu it) as [n|] eqn:EN; [|exact I]. destruct (n_gop_sei n || _) eqn:EG; [split; [apply sub_refl|auto]|].
  apply orb_false_elim in EG as [EG _].
  assert (ES : item_sei it = false) by (unfold item_sei; rewrite EN; exact EG).
  destruct (if n_first_in_gop n then _ else _) as [x|]; [|exact I]. apply holds_bind. destruct (read_hash hs x) as [y|]; [|exact I]. cbn [holds].
  destruct (search y _ _) as [i found]. destruct found; apply holds_bind.
  - match goal with |- holds ?x _ _ => assert (G : holds x (fun '(_, m) => sub l m /\ (next_sei l <> None -> next_sei m <> None)) (fun _ => True)) end.
    { destruct ps; [split; [apply sub_refl|auto]|]. apply IH. }
    eapply holds_impl; [exact G| |auto]. intros [s3 r2] [H1 H2]. split.
    + apply miss_sub, sub_status; [destruct (h_order s); discriminate|exact H1].
    + intros HN. apply NM. eapply (NX it); [reflexivity|right; exact ES|auto|exact H2|exact HN].
  - match goal with |- holds ?x _ _ => assert (G : holds x (fun '(_, m) => sub l m /\ (next_sei l <> None -> next_sei m <> None)) (fun _ => True)) end.
    { destruct ps; [split; [apply sub_refl|auto]|]. apply IH. }
    eapply holds_impl; [exact G| |auto]. intros [s3 r2] [H1 H2]. split; [apply sub_status; [discriminate|exact H1]|].
    intros HN. eapply (NX it); [reflexivity|right; exact ES|auto|exact H2|exact HN].
Qed.
Lemma next_add num ap pos l : next_sei l <> None -> next_sei (add_missing num ap pos l) <> None.
Proof.
  unfold add_missing. cbv zeta. set (k := if ap then S pos else pos). rewrite <- (firstn_skipn k l) at 1. generalize (firstn k l) as a, (skipn k l) as b. intros a b.
  unfold next_sei. induction a as [|x a IH]; cbn [app find].
  - intros H. generalize (Z.to_nat num). intros j. induction j as [|j IHj]; [exact H|]. cbn [repeat app find]. exact IHj.
  - destruct (_ && _); [discriminate|exact IH].
Qed.
Lemma mark_used_sub s l : s <> SPend -> holds (mark_used s l) (fun '(m, _) => sub l m /\ (cnt busy m < cnt busy l)%nat \/ (sub l m /\ (next_sei l <> None -> next_sei m <> None))) (fun _ => True).
Proof.
  intros HS. induction l as [|it l IH]; cbn [mark_used]; [right; split; [apply sub_refl|auto]|]. apply holds_bind. eapply holds_impl; [exact IH| |auto]. intros [r2 k] H.
  destruct (i_used it && pending it) eqn:E.
  - destruct (i_nalu it) as [n|] eqn:EN; [|exact I]. cbn [holds]. left. assert (H1 : sub l r2) by (destruct H as [[H _]|[H _]]; exact H). split; [apply sub_status; assumption|]. destruct H1 as [H1 _].
    rewrite !cnt_cons. apply andb_prop in E as [_ E]. replace (busy it) with true by (unfold busy, has; rewrite EN, E; reflexivity).
    replace (busy (set_i_status s it)) with false; [lia|]. unfold busy, pending. cbn. destruct s; try congruence; cbn; rewrite andb_false_r; reflexivity.
  - cbn [holds]. destruct H as [[H1 H2]|[H1 H2]]; [left; split; [apply sub_cons; auto|rewrite !cnt_cons; lia]|]. right. split; [apply sub_cons; auto|].
    unfold next_sei in *. cbn [find]. destruct (item_sei it && pending it); [discriminate|exact H2].
Qed.

Definition down (v v' : valid) : Prop := sub (v_items v) (v_items v') /\ (cnt busy (v_items v') < cnt busy (v_items v))%nat.
Lemma verify_list_down v o : next_sei (v_items v) <> None -> holds (verify_list v o) (fun '(v', _, _, _) => down v v') (fun _ => True).
Proof.
  intros HN. unfold verify_list. destruct (_ =? 0)%nat; [exact I|]. cbv zeta. destruct (next_sei (v_items v)) as [it|] eqn:EN; [|congruence]. apply holds_bind.
  eapply holds_impl; [apply hl_sub| |auto]. intros [s l] [H1 H2]. rewrite EN in H2. specialize (H2 ltac:(discriminate)). apply holds_bind.
  match goal with |- holds ?x _ _ => assert (G : holds x (fun m => sub (v_items v) m /\ next_sei m <> None) (fun _ => True)) end.
  { destruct (_ =? -1)%Z; [|split; [exact H1|exact H2]]. destruct l as [|a l]; [exact I|]. split; [eapply sub_trans; [exact H1|apply add_sub]|apply next_add, H2]. }
  eapply holds_impl; [exact G| |auto]. intros l1 [H3 H4]. set (l2 := if (_ =? _)%Z then _ else _).
  assert (H5 : sub (v_items v) l2 /\ next_sei l2 <> None).
  { unfold l2. dif; [|auto]. destruct (h_last s); [|auto]. split; [eapply sub_trans; [exact H3|apply add_sub]|apply next_add, H4]. }
  clearbody l2. destruct H5 as [H5 H6]. destruct (next_sub SValid l2 ltac:(discriminate)) as [H7 H8]. specialize (H8 H6). unfold down. cbn [holds v_items set_v_items]. split; [eapply sub_trans; eassumption|]. destruct H5. lia.
Qed.
Lemma verify_without_sub v : holds (verify_without v) (fun '(v', _) => sub (v_items v) (v_items v')) (fun _ => True).
Proof.
  unfold verify_without. apply holds_bind. eapply holds_impl; [apply mark_without_sub| |auto]. intros [[m k] f] H. cbn [holds]. dif; exact H.
Qed.
Lemma verify_with_down v : next_sei (v_items v) <> None -> holds (verify_with v) (fun '(v', _, _, _) => down v v') (fun _ => True).
Proof.
  intros HN. unfold verify_with. cbv zeta.
  pose (finish := fun (w : valid) (s : vstat) (exp : Z) =>
    do (v, num) <- (if (v_verified w =? 1)%Z then
                      match next_sei (v_items w) with
                      | None => Def (w, (-1)%Z)
                      | Some _ =>
                          do (l, k) <- mark_used s (v_items w);
                          Def (set_v_items (on_next_sei (set_i_status SValid) l) w, k)
                      end
                    else do (l, k) <- mark_used s (v_items w); Def (set_v_items l w, k));
    match first_used (v_items w) with
    | Some k =>
        if v_first v then Def (v, false, exp, num)
        else
          match nth_error (v_items v) k with
          | Some it =>
              match i_nalu it with
              | None => Undef NullDeref
              | Some n => Def (on_items (add_missing (exp - num) (n_first_in_gop n) k) v, false, exp, num)
              end
          | None => Def (v, false, exp, num)
          end
    | None => Def (v, false, exp, num)
    end).
  assert (T : forall w w' (s : vstat) e, sub (v_items v) (v_items w) -> (sub (v_items w) (v_items w') /\ (cnt busy (v_items w') < cnt busy (v_items v))%nat) -> forall k n, down v (on_items (add_missing e n k) w') /\ down v w').
  { intros w w' s e H1 [H2 H3] k n. split; unfold down; cbn [on_items set_v_items v_items].
    - rewrite cnt_add by reflexivity. split; [eapply sub_trans; [|apply add_sub]; eapply sub_trans; eassumption|exact H3].
    - split; [eapply sub_trans; eassumption|exact H3]. }
  assert (F : forall w s e, s <> SPend -> sub (v_items v) (v_items w) -> ((cnt busy (v_items w) < cnt busy (v_items v))%nat \/ ((v_verified w =? 1)%Z = true /\ next_sei (v_items w) <> None)) ->
     holds (finish w s e) (fun '(v', _, _, _) => down v v') (fun _ => True)).
  { intros w s e HS H1 H2. unfold finish. cbv zeta. apply holds_bind.
    match goal with |- holds ?x _ _ => assert (G : holds x (fun '(w', _) => sub (v_items w) (v_items w') /\ (cnt busy (v_items w') < cnt busy (v_items v))%nat) (fun _ => True)) end.
    { destruct (v_verified w =? 1)%Z eqn:EV.
      - destruct (next_sei (v_items w)) as [a|] eqn:EA.
        + apply holds_bind. eapply holds_impl; [apply mark_used_sub, HS| |auto]. intros [l k] H. destruct (next_sub SValid l ltac:(discriminate)) as [N1 N2]. cbn [holds v_items set_v_items].
          rewrite EA in H. destruct H1 as [H1 H1'].
          destruct H as [[SS L1]|[SS L1]]; (split; [eapply sub_trans; eassumption|]); destruct N1 as [N1 _]; [lia|]. specialize (L1 ltac:(discriminate)). specialize (N2 L1). destruct SS as [SS _]. lia.
        + destruct H2 as [H2|[_ H2]]; [|congruence]. cbn [holds]. split; [apply sub_refl|lia].
      - destruct H2 as [H2|[H2 _]]; [|congruence]. apply holds_bind. eapply holds_impl; [apply mark_used_sub, HS| |auto]. intros [l k] H. cbn [holds v_items set_v_items].
        assert (HH : sub (v_items w) l) by (destruct H as [[H _]|[H _]]; exact H). split; [exact HH|]. destruct HH as [HH _]. lia. }
    eapply holds_impl; [exact G| |auto]. intros [w' num] H3. destruct (first_used (v_items w)) as [k|].
    - destruct (v_first w'); [apply (T w w' s 0%Z H1 H3 O false)|]. destruct (nth_error (v_items w') k) as [it|]; [|apply (T w w' s 0%Z H1 H3 O false)].
      destruct (i_nalu it) as [n|]; [|exact I]. apply (T w w' s _ H1 H3 k _).
    - apply (T w w' s 0%Z H1 H3 O false). }
  destruct (v_verified v =? 1)%Z eqn:EV.
  - dif; [apply verify_list_down, HN|]. pose proof (F v (if gop_ok v && linked_ok v then SValid else SInvalid) (Z.of_N (d_num_sent (v_dec v)))) as K. unfold finish in K. rewrite EV in K.
    apply K; [destruct (_ && _); discriminate|apply sub_refl|right; auto].
  - destruct (next_sei (v_items v)) as [a|] eqn:EA; [|congruence]. destruct (v_verified v =? 0)%Z.
    + apply (F (on_items (on_next_sei (set_i_status SInvalid)) v) SInvalid (-1)%Z); [discriminate|apply next_sub; discriminate|]. left. cbn [on_items set_v_items v_items]. destruct (next_sub SInvalid (v_items v) ltac:(discriminate)) as [_ H]. apply H. congruence.
    + apply holds_bind. eapply holds_impl; [apply verify_without_sub| |auto]. intros [v' f] H. cbn [on_items set_v_items v_items holds] in *.
      destruct (next_sub SErr (v_items v) ltac:(discriminate)) as [H1 H2]. assert (H3 : next_sei (v_items v) <> None) by congruence. specialize (H2 H3).
      pose proof (remove_used_sub (on_next_sei (set_i_status SErr) (v_items v))) as H4. unfold down. split; [eapply sub_trans; [exact H1|]; eapply sub_trans; [exact H4|exact H]|]. destruct H as [H _], H1 as [H1 _], H4 as [H4 _]. lia.
Qed.

(** *** One round *)
Definition sh (it : item) : option nalu * vstat := (i_nalu it, i_status it).
Lemma sh_cnt l : forall m, map sh m = map sh l -> cnt busy m = cnt busy l /\ cnt has m = cnt has l /\ (next_sei l <> None -> next_sei m <> None).
Proof.
  induction l as [|a l IH]; intros [|b m] H; try discriminate; [auto|]. cbn [map] in H.
  assert (H1 : sh b = sh a) by (injection H; intros; unfold sh; congruence). assert (H2 : map sh m = map sh l) by (injection H; auto). clear H.
  destruct (IH m H2) as (E1 & E2 & E3). unfold sh in H1. injection H1 as H3 H4. rewrite !cnt_cons, E1, E2.
  assert (A1 : has b = has a) by (unfold has; rewrite H3; reflexivity). assert (A2 : pending b = pending a) by (unfold pending; rewrite H4; reflexivity).
  assert (A3 : item_sei b = item_sei a) by (unfold item_sei; rewrite H3; reflexivity).
  unfold busy at 1 3. rewrite A1, A2. split; [reflexivity|]. split; [reflexivity|]. unfold next_sei in *. cbn [find]. rewrite A2, A3. destruct (item_sei a && pending a); [intros _ HE; discriminate HE|exact E3].
Qed.
Lemma gop_loop_sh hs l : forall h is num, holds (gop_loop hs h is num l) (fun '(_, m, _) => map sh m = map sh l) (fun _ => True).
Proof.
  induction l as [|it l IH]; intros h is num; cbn [gop_loop]; [reflexivity|]. destruct (negb (pending it)).
  { apply holds_bind. eapply holds_impl; [apply IH| |auto]. intros [[h1 m] st] H. cbn. congruence. }
  destruct (i_nalu it) as [n|] eqn:EN; [|exact I]. cbv zeta. destruct (1 <? _)%nat; [reflexivity|]. destruct (_ && _); [reflexivity|]. destruct (n_gop_sei n); [reflexivity|].
  destruct (if n_first_in_gop n then _ else _) as [x|]; [|reflexivity]. apply holds_bind. destruct (read_hash hs x) as [y|]; [|exact I]. cbn [holds].
  destruct (update_hash true y h) as [h1 st1]. destruct (negb (is_ok st1)); [reflexivity|]. apply holds_bind. eapply holds_impl; [apply IH| |auto]. intros [[h2 m] st2] H. cbn. unfold sh at 1. cbn. rewrite H. reflexivity.
Qed.
Lemma used_sh l : map sh (remove_used l) = map sh l.
Proof. unfold remove_used. rewrite map_map. reflexivity. Qed.
Lemma prepare_gop_sh v : holds (prepare_gop C v) (fun '(v', _) => map sh (v_items v') = map sh (v_items v)) (fun _ => True).
Proof.
  unfold prepare_gop. apply holds_bind. eapply holds_impl; [apply gop_loop_sh| |auto]. intros [[h l] st] H. cbv zeta. dif; [cbn; rewrite used_sh; exact H|].
  destruct (finalize_hash C true h) as [[h2 st2] x]. cbv zeta. dif; [cbn; rewrite used_sh; exact H|]. apply holds_bind. destruct (put_at _ _ _); [|exact I]. exact H.
Qed.
Lemma decoded_sh l : map sh (on_next_sei (set_i_decoded true) l) = map sh l.
Proof. induction l as [|a l IH]; [reflexivity|]. cbn [on_next_sei]. destruct (_ && _); [reflexivity|]. cbn [map]. rewrite IH. reflexivity. Qed.
Lemma add64_pos a : (- 2 ^ 32 < a < 2 ^ 32)%Z -> Ov <> OvfIdeal ->
  holds (do s <- add_int64 Ov a 9223372036854775807; if (s <? 9223372036854775807 / 2)%Z then add_int64 Ov a 9223372036854775807 else Def a) (fun r => (r <= 0)%Z) (fun _ => True).
Proof.
  intros H HO. change (2 ^ 32)%Z with 4294967296%Z in H. unfold add_int64. change (9223372036854775807 / 2)%Z with 4611686018427387903%Z.
  destruct (Z.ltb_spec 0 a) as [HP|HP].
  - replace ((a + 9223372036854775807 <? -9223372036854775808)%Z || (9223372036854775807 <? a + 9223372036854775807)%Z) with true.
    2:{ symmetry. apply orb_true_iff. right. apply Z.ltb_lt. lia. }
    destruct Ov; [exact I|congruence|]. cbn [obind]. unfold wrap64. set (w := (_ mod _ - _)%Z). assert (E : w = (a - 9223372036854775809)%Z).
    { unfold w. replace (a + 9223372036854775807 + 9223372036854775808)%Z with (a - 1 + 1 * 18446744073709551616)%Z by lia. rewrite Z.mod_add by lia. rewrite Z.mod_small by lia. lia. }
    clearbody w. destruct (Z.ltb_spec w 4611686018427387903); cbn; lia.
  - replace ((a + 9223372036854775807 <? -9223372036854775808)%Z || (9223372036854775807 <? a + 9223372036854775807)%Z) with false.
    2:{ symmetry. apply orb_false_iff. split; apply Z.ltb_ge; lia. }
    cbn [obind]. destruct (Z.ltb_spec (a + 9223372036854775807) 4611686018427387903); cbn; lia.
Qed.
Lemma detect_never v : d_counter (v_dec v) < 2 ^ 32 -> Ov <> OvfIdeal -> holds (detect_lost Ov v) (fun v' => gs_lost (v_gs v') = false /\ v_items v' = v_items v /\ v_dec v' = v_dec v) (fun _ => True).
Proof.
  intros HC HO. unfold detect_lost. cbv zeta. set (pm := (_ - _)%Z).
  assert (HP : (- 2 ^ 32 < pm < 2 ^ 32)%Z).
  { unfold pm. assert (u32 (v_gop v + 1) < 2 ^ 32) by (unfold u32; apply N.mod_lt; discriminate). change (2 ^ 32) with 4294967296 in *. change (2 ^ 32)%Z with 4294967296%Z. lia. }
  pose proof (add64_pos pm HP HO) as G. destruct (add_int64 Ov pm _) as [s|]; [|exact I]. cbn [obind] in *. apply holds_bind. eapply holds_impl; [exact G| |auto].
  intros r Hr. cbn. split; [|split; reflexivity]. apply andb_false_iff. left. apply Z.ltb_ge. exact Hr.
Qed.

(** *** Counters *)
Definition cok (d : dec) : Prop := d_counter d < 2 ^ 32.
Lemma tag_cok d t m s : bytes_ok m -> cok d -> holds (decode_tag C d t m s) (fun '(d', _) => cok d') (fun _ => True).
Proof.
  intros HB HD. destruct (N.eq_dec t 1) as [->|HT].
  - cbn [decode_tag]. unfold decode_general. destruct m as [|a m]; [exact I|]. cbn [read_8bits obind]. destruct (_ || _); [exact HD|].
    destruct m as [|b1 [|b2 [|b3 [|b4 m]]]]; try exact I. cbn [read_32bits obind]. destruct (read_16bits m) as [[num p]|]; [|exact I]. cbn [obind]. destruct (take_mem 3 p) as [[ver q]|]; [|exact I]. cbn [obind].
    set (c := (_ + b4)). assert (HC : c < 2 ^ 32).
    { unfold c. repeat (apply Forall_cons_iff in HB as [? HB]). unfold byte_ok in *. change (2 ^ 32) with 4294967296. lia. }
    clearbody c. cbv zeta. set (d1 := set_d_sver _ _). assert (H1 : cok d1) by exact HC. clearbody d1. apply holds_bind.
    match goal with |- holds ?x _ _ => assert (G : holds x (fun '(d', _, _) => cok d') (fun _ => True)) end.
    { destruct (a <? 2); [exact H1|]. apply holds_bind. destruct (read_8bits q) as [[fl q1]|]; [|exact I]. cbn [holds]. destruct (_ =? 1); [|exact H1]. apply holds_bind. destruct (read_64bits q1) as [[ts q2]|]; [|exact I]. exact H1. }
    eapply holds_impl; [exact G| |auto]. intros [[d2 q3] used] H2. apply holds_bind.
    match goal with |- holds ?x _ _ => assert (G2 : holds x (fun '(d', _) => cok d') (fun _ => True)) end.
    { destruct (a <? 3); [exact H2|]. destruct (64 <? _); [exact I|]. apply holds_bind. destruct (take_mem _ q3) as [[lh q4]|]; [|exact I]. cbn [holds]. apply holds_bind. destruct (take_mem _ q4) as [[gh q5]|]; [|exact I]. cbn [holds].
      apply holds_bind. destruct (put_mem _ lh); [|exact I]. cbn [holds]. apply holds_bind. destruct (put_mem _ gh); [|exact I]. exact H2. }
    eapply holds_impl; [exact G2| |auto]. intros [d3 u3] H3. exact H3.
  - pose proof (other_tag_counter C d t m s HT) as G. eapply holds_impl; [exact G| |auto]. intros [d' st] E. unfold cok. rewrite E. exact HD.
Qed.
Lemma bytes_skipn k l : bytes_ok l -> bytes_ok (skipn k l).
Proof. intros H. rewrite <- (firstn_skipn k l) in H. apply Forall_app in H. apply H. Qed.
Lemma header_bytes p t len hsz q : decode_tlv_header p = Def (Some (t, len, hsz, q)) -> bytes_ok p -> bytes_ok q.
Proof.
  unfold decode_tlv_header, read_8bits, read_16bits. destruct p as [|a p]; [discriminate|]. cbn [obind]. destruct (negb _); [discriminate|].
  destruct (_ =? 2)%nat; destruct p as [|b p]; try discriminate; [destruct p as [|c p]; [discriminate|]|]; cbn [obind]; intros H; injection H as _ _ _ <-; intros HB;
    repeat (apply Forall_cons_iff in HB as [_ HB]); exact HB.
Qed.
Lemma decode_loop_cok f : forall d p rem st, bytes_ok p -> cok d -> holds (tlv_decode_loop C f d p rem st) (fun '(d', _) => cok d') (fun _ => True).
Proof.
  induction f as [|f IH]; intros d p rem st HB HD; cbn [tlv_decode_loop]; destruct (rem =? 0); try exact HD; try exact I.
  apply holds_bind. destruct (decode_tlv_header p) as [[[[[t len] hsz] q]|]|] eqn:E; [|exact HD|exact I]. cbn [holds]. pose proof (header_bytes _ _ _ _ _ E HB) as HQ.
  apply holds_bind. eapply holds_impl; [apply tag_cok; assumption| |auto]. intros [d1 st1] H1. destruct (is_ok st1); [|exact H1]. apply IH; [apply bytes_skipn, HQ|exact H1].
Qed.
Lemma tlv_decode_cok d m s : bytes_ok m -> cok d -> holds (tlv_decode C d m s) (fun '(d', _) => cok d') (fun _ => True).
Proof. intros HB HD. unfold tlv_decode. destruct (s =? 0); [exact HD|]. apply decode_loop_cok; assumption. Qed.
Lemma opt_loop_cok f : forall d p rem st, bytes_ok p -> cok d -> holds (opt_loop C f d p rem st) (fun '(d', _) => cok d') (fun _ => True).
Proof.
  induction f as [|f IH]; intros d p rem st HB HD; cbn [opt_loop]; destruct (rem =? 0); try exact HD; try exact I.
  apply holds_bind. destruct (decode_tlv_header p) as [[[[[t len] hsz] q]|]|] eqn:E; [|exact HD|exact I]. cbn [holds]. pose proof (header_bytes _ _ _ _ _ E HB) as HQ.
  destruct (8 <? t); [exact I|]. destruct (always_present t); [apply IH; [apply bytes_skipn, HQ|exact HD]|].
  apply holds_bind. eapply holds_impl; [apply tag_cok; assumption| |auto]. intros [d1 st1] H1. destruct (is_ok st1); [|exact H1]. apply IH; [apply bytes_skipn, HQ|exact H1].
Qed.
Lemma optional_cok d m s : bytes_ok m -> cok d -> holds (decode_optional C d m s) (fun '(d', _) => cok d') (fun _ => True).
Proof. intros HB HD. unfold decode_optional. destruct (s =? 0); [exact HD|]. apply opt_loop_cok; assumption. Qed.

Definition bt (n : nalu) : Prop := bytes_ok (n_tlv_mem n).
Definition good (v : valid) : Prop := cok (v_dec v) /\ Forall (okp bt) (v_items v).
Definition cn (v : valid) : N := d_counter (v_dec v).
Hint Extern 1 (cn _ = _) => eassumption : frame.
Lemma good_same v v' : cn v' = cn v -> keep (v_items v) (v_items v') -> good v -> good v'.
Proof. intros H1 H2 [H3 H4]. split; [unfold cok; unfold cn in H1; rewrite H1; exact H3|apply H2, H4]. Qed.
Lemma keep_sh l m : map sh m = map sh l -> keep l m.
Proof.
  revert m. induction l as [|a l IH]; intros [|b m] H; try discriminate; [intros P HP; exact HP|]. cbn [map] in H.
  assert (H1 : sh b = sh a) by (injection H; intros; unfold sh; congruence). assert (H2 : map sh m = map sh l) by (injection H; auto). clear H.
  intros P HP. apply Forall_cons_iff in HP as [P1 P2]. unfold sh in H1. injection H1 as H3 _. apply Forall_cons; [unfold okp in *; rewrite H3; exact P1|]. apply (IH m H2 P P2).
Qed.
Lemma hash_item_cn k v it : cn v = k -> holds (hash_item C v it) (fun '(v', _, _) => cn v' = k) (fun _ => True).
Proof. intros H. unfold hash_item. fr_go. Qed.
Hint Resolve hash_item_cn : frame.
Lemma register_cn k v n : cn v = k -> holds (register C v n) (fun '(v', _, _) => cn v' = k) (fun _ => True).
Proof. intros H. unfold register. fr_go. Qed.
Lemma rehash_cn k l : forall v st, cn v = k -> holds (rehash C v l st) (fun '(v', _, _) => cn v' = k) (fun _ => True).
Proof. induction l as [|it l IH]; intros v st H; cbn [rehash]; fr_go. Qed.
Hint Resolve rehash_cn : frame.
Lemma reregister_cn k v : cn v = k -> holds (reregister C v) (fun '(v', _) => cn v' = k) (fun _ => True).
Proof. intros H. unfold reregister. fr_go. Qed.
Lemma update_links_cn k v h : cn v = k -> holds (update_links v h) (fun v' => cn v' = k) (fun _ => True).
Proof. intros H. unfold update_links. fr_go. Qed.
Hint Resolve update_links_cn : frame.
Lemma update_link_cn k v : cn v = k -> holds (update_link v) (fun v' => cn v' = k) (fun _ => True).
Proof. intros H. unfold update_link. fr_go. Qed.
Lemma prepare_gop_cn k v : cn v = k -> holds (prepare_gop C v) (fun '(v', _) => cn v' = k) (fun _ => True).
Proof. intros H. unfold prepare_gop. fr_go. Qed.
Lemma verify_without_cn k v : cn v = k -> holds (verify_without v) (fun '(v', _) => cn v' = k) (fun _ => True).
Proof. intros H. unfold verify_without. fr_go. Qed.
Hint Resolve verify_without_cn : frame.
Lemma verify_list_cn k v o : cn v = k -> holds (verify_list v o) (fun '(v', _, _, _) => cn v' = k) (fun _ => True).
Proof. intros H. unfold verify_list. fr_go. Qed.
Hint Resolve verify_list_cn : frame.
Lemma verify_with_cn k v : cn v = k -> holds (verify_with v) (fun '(v', _, _, _) => cn v' = k) (fun _ => True).
Proof. intros H. unfold verify_with. fr_go. Qed.
Hint Resolve verify_with_cn : frame.
Lemma validate_cn k v : cn v = k -> holds (validate v) (fun v' => cn v' = k) (fun _ => True).
Proof. intros H. unfold validate. fr_go. Qed.
Lemma verify_hash_cn k v : cn v = k -> cn (fst (verify_hash C v)) = k.
Proof. intros H. unfold verify_hash. fr_go. Qed.

Lemma HJ {A} (x : out A) P Q R : holds x P R -> holds x Q (fun _ => True) -> holds x (fun a => P a /\ Q a) R.
Proof. destruct x; cbn; auto. Qed.
Lemma nd_holds {A} (x : out A) P : nd x -> holds x P (fun _ => True) -> holds x P (fun u => u <> Diverges).
Proof. destruct x as [a|u]; cbn; [auto|]. intros H _ E. apply H. rewrite E. reflexivity. Qed.
Lemma nd_of {A} (x : out A) P : holds x P (fun u => u <> Diverges) -> nd x.
Proof. destruct x as [a|u]; cbn; [discriminate|]. intros H E. injection E as ->. apply H. reflexivity. Qed.

Lemma next_bt l it n : Forall (okp bt) l -> next_sei l = Some it -> i_nalu it = Some n -> bytes_ok (n_tlv_mem n).
Proof.
  intros H HN HI. unfold next_sei in HN. apply find_some in HN as [HN _]. rewrite Forall_forall in H. specialize (H _ HN). unfold okp in H. rewrite HI in H. exact H.
Qed.
Lemma decode_sei_good v n : good v -> bytes_ok (n_tlv_mem n) -> holds (decode_sei C Ov v n) (fun '(v', _) => good v' /\ v_items v' = v_items v) (fun _ => True).
Proof.
  intros [G1 G2] HB. unfold decode_sei. apply holds_bind. eapply holds_impl; [apply tlv_decode_cok; assumption| |auto]. intros [d st] HD. cbv zeta.
  destruct (negb (is_ok st)); [split; [split; [exact HD|exact G2]|reflexivity]|]. apply holds_bind. unfold detect_lost. cbv zeta. apply holds_bind.
  destruct (add_int64 _ _ _) as [s1|]; [|exact I]. cbn [holds]. apply holds_bind. match goal with |- holds ?x _ _ => destruct x as [pm2|] end; [|exact I]. cbn [holds].
  dif; (split; [split; [exact HD|exact G2]|reflexivity]).
Qed.
Lemma prepare_round v : Ov <> OvfIdeal -> good v ->
  holds (prepare C Ov v) (fun '(v', st) => good v' /\ map sh (v_items v') = map sh (v_items v) /\ (is_ok st = true -> next_sei (v_items v) <> None -> gs_lost (v_gs v') = false)) (fun u => u <> Diverges).
Proof.
  intros HO HG. apply nd_holds; [apply nd_prepare|]. unfold prepare. cbv zeta. apply holds_bind.
  match goal with |- holds ?x _ _ => assert (G : holds x (fun '(v', st) => good v' /\ map sh (v_items v') = map sh (v_items v) /\ (is_ok st = true -> next_sei (v_items v) <> None -> gs_lost (v_gs v') = false)) (fun _ => True)) end.
  { destruct (next_sei (v_items v)) as [it|] eqn:EN; [|split; [exact HG|split; [reflexivity|congruence]]]. destruct (i_nalu it) as [n|] eqn:EI; [|exact I]. assert (HB : bytes_ok (n_tlv_mem n)) by (eapply next_bt; [apply HG|exact EN|exact EI]). apply holds_bind.
    match goal with |- holds ?x _ _ => assert (G : holds x (fun '(v', st) => good v' /\ map sh (v_items v') = map sh (v_items v)) (fun _ => True)) end.
    { destruct (i_decoded it); [split; [exact HG|reflexivity]|]. apply holds_bind. eapply holds_impl; [apply decode_sei_good; [exact HG|exact HB]| |auto]. intros [v1 st1] [H1 H2].
      destruct (negb (is_ok st1)); [split; [exact H1|rewrite H2; reflexivity]|]. apply holds_bind. destruct (read_hash _ _); [|exact I]. cbn [holds]. apply holds_bind. destruct (put_at _ _ _); [|exact I]. cbn [holds].
      assert (E : map sh (on_next_sei (set_i_decoded true) (v_items v1)) = map sh (v_items v)) by (rewrite decoded_sh, H2; reflexivity).
      split; [|exact E]. split; [apply H1|]. cbn. apply (keep_sh (v_items v) _ E). apply HG. }
    eapply holds_impl; [exact G| |auto]. intros [v1 st1] [H1 H2]. destruct (is_ok st1) eqn:ES; cbn [negb]; [|cbn [holds]; rewrite ES; split; [exact H1|split; [exact H2|discriminate]]]. apply holds_bind.
    eapply holds_impl; [apply detect_never; [apply H1|exact HO]| |auto].
    intros v2 (D1 & D2 & D3).
    eapply holds_impl; [apply HJ; [apply HJ; [apply prepare_gop_sh|apply (prepare_gop_ls C (ls v2)); reflexivity]|apply (prepare_gop_cn (cn v2)); reflexivity]| |auto].
    intros [v3 st3] [[E1 E2] E3]. unfold ls in E2. injection E2 as E2 _ _ _ _. rewrite D2, H2 in E1. split; [|split; [exact E1|intros _ _; rewrite E2; exact D1]].
    split; [|apply (keep_sh (v_items v) _ E1), HG]. unfold cok, cn in *. rewrite E3, D3. apply H1. }
  eapply holds_impl; [exact G| |auto]. intros [v1 st1] (H1 & H2 & H3). destruct (is_ok st1) eqn:ES; cbn [negb]; [|cbn [holds]; rewrite ES; split; [exact H1|split; [exact H2|discriminate]]].
  specialize (H3 eq_refl). dif; [split; [exact H1|auto]|]. dif; [|split; [exact H1|auto]]. cbn [holds].
  pose proof (verify_hash_items C v1) as I1. pose proof (verify_hash_ls C (ls v1) v1 eq_refl) as I2. pose proof (verify_hash_cn (cn v1) v1 eq_refl) as I3.
  destruct (verify_hash C v1) as [v2 st2]. cbn [fst] in *. unfold ls in I2. injection I2 as I2 _ _ _ _. rewrite I1, I2. split; [|auto].
  apply (good_same v1); [exact I3|rewrite I1; intros P HP; exact HP|exact H1].
Qed.
Lemma set_linked_sh k l : map sh (set_nth k (set_i_linked true) l) = map sh l.
Proof.
  unfold set_nth. destruct (skipn k l) as [|x r] eqn:E; [reflexivity|]. rewrite <- (firstn_skipn k l) at 2. rewrite E, !map_app. reflexivity.
Qed.
Lemma update_link_round v : good v -> holds (update_link v) (fun v' => good v' /\ map sh (v_items v') = map sh (v_items v) /\ ls v' = ls v) (fun u => u <> Diverges).
Proof.
  intros HG. apply nd_holds; [apply nd_update_link|].
  assert (G : holds (update_link v) (fun v' => map sh (v_items v') = map sh (v_items v)) (fun _ => True)).
  { unfold update_link. apply holds_bind. destruct (find_link _) as [[k|]|]; [|reflexivity|exact I]. cbn [holds]. destruct (nth_error _ _) as [it|]; [|reflexivity]. dif; [reflexivity|]. apply holds_bind.
    eapply holds_impl; [apply update_links_items| |auto]. intros v1 E. cbn. rewrite set_linked_sh, E. reflexivity. }
  eapply holds_impl; [apply HJ; [apply HJ; [exact G|apply (update_link_ls (ls v)); reflexivity]|apply (update_link_cn (cn v)); reflexivity]| |auto].
  intros v1 [[E1 E2] E3]. split; [|auto]. apply (good_same v); [exact E3|apply keep_sh, E1|exact HG].
Qed.
Lemma validate_round v : good v -> next_sei (v_items v) <> None -> gs_lost (v_gs v) = false ->
  holds (validate v) (fun v' => good v' /\ (cnt has (v_items v') <= cnt has (v_items v))%nat /\ (v_first v = false -> (cnt busy (v_items v') < cnt busy (v_items v))%nat)) (fun u => u <> Diverges).
Proof.
  intros HG HN HL. apply nd_holds; [apply nd_validate|].
  assert (G : holds (validate v) (fun v' => keep (v_items v) (v_items v') /\ (cnt has (v_items v') <= cnt has (v_items v))%nat /\ (v_first v = false -> (cnt busy (v_items v') < cnt busy (v_items v))%nat)) (fun _ => True)).
  { unfold validate. rewrite HL. cbn [andb]. apply holds_bind. apply holds_bind.
    eapply holds_impl; [apply HJ; [apply verify_with_down, HN|apply (verify_with_gr (gr v)); reflexivity]| |auto]. intros [[[v1 ok] exp] recv] [[D1 D2] E]. unfold gr in E. injection E as _ E _ _ _. cbn [holds].
    change (v_items (set_v_gop (d_counter (v_dec v1)) v1)) with (v_items v1). destruct (get_stats (v_items v1)) as [[inv mis] hv]. cbv zeta.
    set (v2 := on_items remove_used _). assert (S2 : sub (v_items v1) (v_items v2)) by (apply remove_used_sub). assert (F2 : v_first v2 = v_first v) by exact E. clearbody v2.
    assert (K : forall w f, v_items w = v_items v2 -> keep (v_items v) (v_items (on_latest f w)) /\ (cnt has (v_items (on_latest f w)) <= cnt has (v_items v))%nat /\ (v_first v = false -> (cnt busy (v_items (on_latest f w)) < cnt busy (v_items v))%nat)).
    { intros w f H. cbn [on_latest set_v_latest v_items]. rewrite H. destruct D1 as (A1 & A2 & A3), S2 as (B1 & B2 & B3). split; [intros P HP; apply B3, A3, HP|]. split; [lia|]. intros _. lia. }
    assert (K2 : forall w f, v_items w = remove_missing_items (v_items v2) -> v_first v = true -> keep (v_items v) (v_items (on_latest f w)) /\ (cnt has (v_items (on_latest f w)) <= cnt has (v_items v))%nat /\ (v_first v = false -> (cnt busy (v_items (on_latest f w)) < cnt busy (v_items v))%nat)).
    { intros w f H H0. cbn [on_latest set_v_latest v_items]. rewrite H. destruct D1 as (A1 & A2 & A3), S2 as (B1 & B2 & B3). unfold remove_missing_items. destruct (remove_missing_has (v_items v2) true false false) as [R1 R2].
      split; [intros P HP; apply R2, B3, A3, HP|]. split; [lia|]. congruence. }
    rewrite F2. destruct (v_first v) eqn:EF; cbn [negb andb].
    - rewrite F2. destruct (0 <? inv)%Z; cbn [negb andb]; [|destruct ((0 <? mis)%Z && ok); [|destruct hv]];
        first [ apply K; reflexivity | apply K2; reflexivity ].
    - destruct (0 <? inv)%Z; cbn [negb andb]; [|destruct ((1 <? exp)%Z && (exp <=? mis)%Z); [|destruct ((0 <? mis)%Z && ok)]];
        (change (v_first (set_v_synced true v2)) with (v_first v2); rewrite F2; apply K; reflexivity). }
  eapply holds_impl; [apply HJ; [exact G|apply (validate_cn (cn v)); reflexivity]| |auto]. intros v1 [(A1 & A2 & A3) A4]. split; [|auto]. apply (good_same v); assumption.
Qed.

Lemma pending_next l : forall s, (g_sei s = false) -> (g_after s = false) -> (g_last s <> Some true) -> snd (pending_loop true s l) = true -> next_sei l <> None.
Proof.
  induction l as [|it l IH]; intros s H1 H2 H3; cbn [pending_loop]; [discriminate|]. unfold next_sei in *. cbn [find]. destruct (item_sei it && pending it) eqn:E; [intros _ HE; discriminate HE|]. cbv zeta.
  set (s1 := match i_nalu it with Some _ => _ | None => _ end).
  assert (P : g_sei s1 = false /\ g_after s1 = false /\ g_last s1 <> Some true).
  { unfold s1. unfold item_sei in E. destruct (i_nalu it) as [n|]; [|auto]. destruct (pending it && n_hashable n) eqn:EP; [|cbn; auto]. apply andb_prop in EP as [EP _]. rewrite EP, andb_true_r in E. cbn. rewrite H1, H2, E.
    split; [reflexivity|]. split; [|congruence]. destruct (g_last s) as [[|]|]; [congruence|reflexivity|reflexivity]. }
  clearbody s1. destruct P as (P1 & P2 & P3). rewrite P1, P2, andb_false_r. cbn [orb]. apply IH; assumption.
Qed.
Lemma has_pending_next v : v_signing v = true -> snd (has_pending v) = true -> next_sei (v_items v) <> None.
Proof.
  intros HS. unfold has_pending. rewrite HS. pose proof (pending_next (v_items v) (mkPg 0 false false None false) eq_refl eq_refl ltac:(discriminate)) as H.
  destruct (pending_loop _ _ _) as [s found]. exact H.
Qed.
Lemma loop_ends f : forall v stop, Ov <> OvfIdeal -> good v ->
  ((v_signing v = true /\ v_first v = false /\ (cnt busy (v_items v) <= f)%nat) \/ (v_signing v = true /\ (cnt has (v_items v) < f)%nat) \/ (v_signing v = false /\ (stop = true \/ (0 < f)%nat))) ->
  holds (validate_loop C Ov f v stop) (fun '(v', _) => good v' /\ (cnt has (v_items v') <= cnt has (v_items v))%nat) (fun u => u <> Diverges).
Proof.
  induction f as [|f IH]; intros v stop HO HG HM; cbn [validate_loop]; pose proof (has_pending_gr v) as E; pose proof (has_pending_next v) as HN;
    (assert (EI : v_items (fst (has_pending v)) = v_items v /\ cn (fst (has_pending v)) = cn v) by (unfold has_pending; destruct (pending_loop _ _ _); split; reflexivity));
    destruct (has_pending v) as [v1 found]; cbn [fst snd] in E, EI, HN; unfold gr in E; injection E as A1 A2 A3 A4 A5; destruct EI as [EI EC].
  - assert (G1 : good v1) by (apply (good_same v); [exact EC|rewrite EI; intros P HP; exact HP|exact HG]).
    destruct (negb found || stop) eqn:EF; [cbn [holds]; rewrite EI; auto|]. apply orb_false_elim in EF as [EF ->]. apply negb_false_iff in EF.
    exfalso. destruct HM as [(H1 & _ & H2)|[(_ & H2)|(_ & [H2|H2])]]; [|lia|discriminate|lia]. specialize (HN H1 EF). apply next_busy in HN. lia.
  - assert (G1 : good v1) by (apply (good_same v); [exact EC|rewrite EI; intros P HP; exact HP|exact HG]).
    destruct (negb found || stop) eqn:EF; [cbn [holds]; rewrite EI; auto|]. apply orb_false_elim in EF as [EF ->]. apply negb_false_iff in EF.
    set (v2 := if v_result v1 then v1 else _).
    assert (P2 : good v2 /\ v_items v2 = v_items v1 /\ v_signing v2 = v_signing v1 /\ v_first v2 = v_first v1) by (unfold v2; destruct (v_result v1); auto).
    cbv zeta. clearbody v2. destruct P2 as (P2 & P3 & P4 & P5). rewrite EI in P3. rewrite A1 in P4. rewrite A2 in P5. clear v1 A1 A2 A3 A4 A5 EI EC G1.
    destruct (v_signing v) eqn:ES.
    + specialize (HN eq_refl EF). rewrite <- P3 in HN. apply holds_bind. eapply holds_impl; [apply HJ; [apply prepare_round; assumption|apply (prepare_gr C Ov (gr v2)); reflexivity]| |auto].
      intros [v3 st3] [(Q1 & Q2 & Q3) Q4]. unfold gr in Q4. injection Q4 as B1 B2 _ _ _. destruct (sh_cnt _ _ Q2) as (C1 & C2 & C3). specialize (C3 HN).
      specialize (fun e => Q3 e HN). rewrite P3 in *. destruct (is_ok st3); cbn [negb]; [|cbn [holds]; split; [exact Q1|lia]]. specialize (Q3 eq_refl).
      apply holds_bind. eapply holds_impl; [apply update_link_round, Q1| |auto]. intros v4 (R1 & R2 & R3). unfold ls in R3. injection R3 as R3 _ R4 _ R5.
      destruct (sh_cnt _ _ R2) as (D1 & D2 & D3). specialize (D3 C3). rewrite R4, B1, P4. apply holds_bind.
      eapply holds_impl; [apply HJ; [apply validate_round; [exact R1|exact D3|congruence]|apply validate_exp]| |auto]. intros v5 [(T1 & T2 & T3) [T4 _]].
      set (v6 := on_latest _ _). assert (V6 : good v6 /\ v_items v6 = v_items v5 /\ v_signing v6 = true /\ v_first v6 = false).
      { unfold v6. cbn. rewrite T4, R4, B1, P4. auto. }
      clearbody v6. destruct V6 as (V1 & V2 & V3 & V4).
      eapply holds_impl; [apply (IH v6); [exact HO|exact V1|]| |auto].
      * left. split; [exact V3|]. split; [exact V4|]. rewrite V2. destruct HM as [(_ & H1 & H2)|[(_ & H2)|(H1 & _)]]; [|pose proof (busy_le (v_items v5)); lia|congruence].
        assert (F4 : v_first v4 = false) by congruence. specialize (T3 F4). lia.
      * intros [v7 st7] [U1 U2]. split; [exact U1|]. rewrite V2 in U2. lia.
    + apply holds_bind. eapply holds_impl; [apply HJ; [apply prepare_round; assumption|apply (prepare_gr C Ov (gr v2)); reflexivity]| |auto].
      intros [v3 st3] [(Q1 & Q2 & Q3) Q4]. unfold gr in Q4. injection Q4 as B1 B2 _ _ _. destruct (sh_cnt _ _ Q2) as (C1 & C2 & C3).
      rewrite P3 in *. destruct (is_ok st3); cbn [negb]; [|cbn [holds]; split; [exact Q1|lia]].
      apply holds_bind. eapply holds_impl; [apply update_link_round, Q1| |auto]. intros v4 (R1 & R2 & R3). unfold ls in R3. injection R3 as R3 _ R4 _ R5.
      destruct (sh_cnt _ _ R2) as (D1 & D2 & D3). rewrite R4, B1, P4. cbn [obind].
      set (v6 := on_latest _ (set_v_result _ _)). assert (V6 : good v6 /\ v_items v6 = v_items v4 /\ v_signing v6 = false).
      { unfold v6. cbn. rewrite R4, B1, P4. auto. }
      assert (ST : negb (v_signing (on_latest (set_l_auth NotSigned) v4)) = true) by (cbn; rewrite R4, B1, P4; reflexivity). rewrite ST.
      clearbody v6. destruct V6 as (V1 & V2 & V3).
      eapply holds_impl; [apply (IH v6); [exact HO|exact V1|auto]| |auto]. intros [v7 st7] [U1 U2]. split; [exact U1|]. rewrite V2 in U2. lia.
Qed.

(** *** A call *)
Lemma shape_keep l : forall m, map shape m = map shape l -> cnt has m = cnt has l /\ (Forall (okp bt) l -> Forall (okp bt) m).
Proof.
  induction l as [|a l IH]; intros [|b m] E; try discriminate; [auto|]. cbn [map] in E.
  assert (HS : shape b = shape a) by congruence. assert (HT : map shape m = map shape l) by congruence. clear E. destruct (IH m HT) as [I1 I2]. rewrite !cnt_cons, I1.
  assert (Q : has b = has a /\ (okp bt a -> okp bt b)).
  { unfold shape in HS. injection HS as H1 H2 H3. unfold has, okp, bt. destruct (i_nalu b), (i_nalu a); try discriminate; [injection H1 as _ -> _; auto|auto]. }
  destruct Q as [Q1 Q2]. rewrite Q1. split; [reflexivity|]. intros H. inversion H; subst. constructor; auto.
Qed.
Definition room (k : nat) (v : valid) : Prop := good v /\ (cnt has (v_items v) <= k)%nat.
Lemma room_shape k v v' : cn v' = cn v -> map shape (v_items v') = map shape (v_items v) -> room k v -> room k v'.
Proof.
  intros H1 H2 [[G1 G2] G3]. destruct (shape_keep _ _ H2) as [I1 I2]. split; [split; [|auto]|lia]. unfold cok, cn in *. rewrite H1. exact G1.
Qed.
Lemma room_same k v v' : cn v' = cn v -> v_items v' = v_items v -> room k v -> room k v'.
Proof. intros H1 H2. apply room_shape; congruence. Qed.
Lemma recurrent_room k v : room k v -> holds (recurrent_decoded C v) (fun '(v', _) => room k v') (fun u => u <> Diverges).
Proof.
  intros HR. apply nd_holds; [apply nd_recurrent|]. unfold recurrent_decoded. dif; [exact HR|]. apply holds_bind.
  assert (G : forall l d, Forall (okp bt) l -> cok d -> holds (recurrent_loop C d l) (fun '(d', _) => cok d') (fun _ => True)).
  { induction l as [|it l IH]; intros d HL HD; cbn [recurrent_loop]; [exact HD|]. inversion HL as [|x y HB HL']; subst. unfold okp in HB. destruct (i_nalu it) as [n|]; [|apply IH; assumption].
    dif; [|apply IH; assumption]. apply holds_bind. eapply holds_impl; [apply optional_cok; [exact HB|exact HD]| |auto]. intros [d1 any] H1. destruct any; [exact H1|apply IH; assumption]. }
  eapply holds_impl; [apply G; apply HR| |auto]. intros [d b] HD. cbn [holds]. destruct HR as [[_ G2] G3]. split; [split; [exact HD|exact G2]|exact G3].
Qed.
Lemma mark_last_room s l : Forall (okp bt) l -> cnt has (mark_last s l) = cnt has l /\ Forall (okp bt) (mark_last s l).
Proof.
  intros H. unfold mark_last. pose proof (rev_involutive l) as E. destruct (rev l) as [|it r]; cbn [rev] in *; rewrite <- E in *; [split; [reflexivity|constructor]|].
  apply Forall_app in H as [H1 H2]. rewrite !cnt_app, !cnt_cons. split; [reflexivity|]. apply Forall_app. split; [exact H1|]. inversion H2; subst. constructor; [assumption|constructor].
Qed.
Lemma clean_room l : (cnt has (fst (clean_up l)) <= cnt has l)%nat /\ (Forall (okp bt) l -> Forall (okp bt) (fst (clean_up l))).
Proof.
  induction l as [|it l IH]; cbn [clean_up]; [auto|]. destruct (pending it); [auto|]. destruct (clean_up l) as [l2 k]. cbn [fst] in *. rewrite cnt_cons. split; [lia|]. intros H. inversion H; subst. apply IH. assumption.
Qed.
Lemma maybe_room f k v n : Ov <> OvfIdeal -> (k < f)%nat -> room k v -> holds (maybe_validate C Ov f v n) (fun '(v', _) => room k v') (fun u => u <> Diverges).
Proof.
  intros HO HF HR. unfold maybe_validate. cbv zeta. apply holds_bind. eapply holds_impl; [apply recurrent_room, HR| |auto]. intros [v1 f2] H1.
  dif.
  - dif; [|exact H1]. cbn [holds]. set (v2 := if n_golden n then _ else _).
    assert (R2 : room k v2).
    { unfold v2. assert (M : forall s, room k (on_items (mark_last s) v1)).
      { intros s. destruct H1 as [[A1 A2] A3].
        assert (E : cnt has (mark_last s (v_items v1)) = cnt has (v_items v1) /\ Forall (okp bt) (mark_last s (v_items v1))).
        { apply mark_last_room, A2. }
        destruct E as [E1 E2]. split; [split; [exact A1|exact E2]|]. cbn [on_items set_v_items v_items]. lia. }
      destruct (n_golden n); [destruct (v_verified v1 =? 1)%Z; [|destruct (v_verified v1 =? 0)%Z]|]; try (eapply room_same; [| |apply M]; reflexivity). eapply room_same; [| |exact H1]; reflexivity. }
    clearbody v2. eapply room_same; [| |exact R2]; reflexivity.
  - destruct H1 as [G1 G2]. eapply holds_impl; [apply loop_ends; [exact HO|exact G1|]| |auto].
    + destruct (v_signing v1); [right; left; split; [reflexivity|lia]|right; right; split; [reflexivity|right; lia]].
    + intros [v2 st] [H1 H2]. split; [exact H1|lia].
Qed.
Lemma golden_room k v l it n : Ov <> OvfIdeal -> i_nalu it = Some n -> bt n -> v_items v = l ++ [it] -> room k v -> holds (prepare_golden C Ov v l it) (fun '(v', _) => room k v') (fun u => u <> Diverges).
Proof.
  intros HO HI HB HL HR. apply nd_holds; [apply nd_golden|]. unfold prepare_golden. rewrite HI. apply holds_bind. eapply holds_impl; [apply decode_sei_good; [apply HR|exact HB]| |auto]. intros [v1 st1] [H1 H2].
  assert (R1 : room k v1) by (split; [exact H1|rewrite H2; apply HR]). dif; [exact R1|]. cbv zeta. apply holds_bind.
  eapply holds_impl; [apply HJ; [apply hash_item_shape|apply (hash_item_cn (cn v1)); reflexivity]| |auto]. intros [[v2 it2] st2] [[E1 E2] E3].
  set (v3 := set_v_items _ v2).
  assert (R3 : room k v3).
  { assert (Q : cnt has (l ++ [it2]) = cnt has (l ++ [it]) /\ (Forall (okp bt) (l ++ [it]) -> Forall (okp bt) (l ++ [it2]))).
    { rewrite !cnt_app, !cnt_cons. unfold shape in E1. cbn [i_nalu set_i_decoded] in E1. injection E1 as E1 _ _.
      assert (Q : has it2 = has it /\ (okp bt it -> okp bt it2)).
      { unfold has, okp, bt in *. rewrite HI in *. destruct (i_nalu it2); [|discriminate]. injection E1 as _ -> _. auto. }
      destruct Q as [Q1 Q2]. rewrite Q1. split; [reflexivity|]. intros H. apply Forall_app in H as [H3 H4]. apply Forall_app. split; [exact H3|]. inversion H4; subst. constructor; auto. }
    destruct Q as [Q1 Q2], R1 as [[A1 A2] A3]. rewrite H2, HL in A2, A3. split; [split|]; unfold v3; cbn [set_v_items v_items v_dec].
    - unfold cok, cn in *. rewrite E3. exact A1.
    - apply Q2, A2.
    - lia. }
  clearbody v3. dif; [exact R3|]. apply holds_bind. destruct (read_hash _ _); [|exact I]. cbn [holds]. apply holds_bind. destruct (put_at _ _ _); [|exact I]. cbn [holds].
  match goal with |- holds (prepare C Ov ?w) _ _ => assert (R4 : room k w) by (eapply room_same; [| |exact R3]; reflexivity); generalize dependent w end. intros w R4.
  eapply holds_impl; [apply prepare_round; [exact HO|apply R4]| |auto]. intros [v5 st5] (P1 & P2 & _). split; [exact P1|]. destruct (sh_cnt _ _ P2) as (_ & -> & _). apply R4.
Qed.
Lemma add_body_room f k v n : Ov <> OvfIdeal -> bt n -> (S k < f)%nat -> room k v -> holds (add_body C Ov f v n) (fun '(v', _) => room (S k) v') (fun u => u <> Diverges).
Proof.
  intros HO HB HF HR. unfold add_body. cbv zeta. dif.
  { cbn [holds]. destruct HR as [[A1 A2] A3]. unfold list_append. split; [split; [exact A1|]|]; cbn [set_v_items v_items].
    - apply Forall_app. split; [exact A2|]. constructor; [exact HB|constructor].
    - rewrite cnt_app, cnt_cons. cbn. lia. }
  set (v0 := set_v_signing _ _). assert (R0 : room k v0) by (eapply room_same; [| |exact HR]; reflexivity). assert (I0 : v_items v0 = v_items v) by reflexivity. clearbody v0. apply holds_bind.
  eapply holds_impl; [apply HJ; [apply nd_holds; [apply nd_register|apply register_shape]|apply (register_cn (cn v0)); reflexivity]| |auto]. intros [[v1 it] st1] [[E1 E2] E3].
  set (v2 := set_v_items _ v1).
  assert (HN : exists m, i_nalu it = Some m /\ bt m).
  { unfold shape, bt in *. cbn in E1. injection E1 as E1 _ _. destruct (i_nalu it) as [m|]; [|discriminate]. injection E1 as _ E1 _. exists m. split; [reflexivity|]. unfold bt in HB. congruence. }
  destruct HN as (m & HN1 & HN2). assert (L2 : v_items v2 = v_items v ++ [it]) by reflexivity.
  assert (R2 : room (S k) v2).
  { destruct R0 as [[A1 A2] A3]. rewrite I0 in *. split; [split|]; rewrite ?L2.
    - unfold v2, cok, cn in *. cbn. rewrite E3. exact A1.
    - apply Forall_app. split; [exact A2|]. constructor; [unfold okp; rewrite HN1; exact HN2|constructor].
    - rewrite cnt_app, cnt_cons. cbn. destruct (has it); lia. }
  clearbody v2. dif; [exact R2|]. apply holds_bind.
  match goal with |- holds ?x _ _ => assert (G : holds x (fun '(v', _) => room (S k) v') (fun u => u <> Diverges)) end.
  { dif; [|exact R2]. apply holds_bind.
    assert (RD : holds (recurrent_decoded C v2) (fun '(v', _) => room (S k) v' /\ v_items v' = v_items v2) (fun u => u <> Diverges)).
    { pose proof (recurrent_room (S k) v2 R2) as Q. unfold recurrent_decoded in *. dif; [split; [exact R2|reflexivity]|]. destruct (recurrent_loop _ _ _) as [[d b]|]; [|exact Q]. cbn [obind holds] in *. split; [exact Q|reflexivity]. }
    eapply holds_impl; [exact RD| |auto]. intros [v3 b] [R3 L3]. dif; [exact R3|]. set (v4 := on_dec _ v3).
    assert (R4 : room (S k) v4) by (eapply room_same; [| |exact R3]; reflexivity). assert (L4 : v_items v4 = v_items v ++ [it]) by (cbn; congruence). clearbody v4. apply holds_bind.
    match goal with |- holds ?x _ _ => assert (G : holds x (fun '(v', _) => room (S k) v') (fun u => u <> Diverges)) end.
    { destruct (n_golden n); [|exact R4]. apply golden_room with (n := m); assumption. }
    eapply holds_impl; [exact G| |auto]. intros [v5 st5] R5. dif; [exact R5|]. dif; [cbn [holds]; eapply room_same; [| |exact R5]; reflexivity|].
    eapply holds_impl; [apply HJ; [apply nd_holds; [apply nd_reregister|apply reregister_shape]|apply (reregister_cn (cn v5)); reflexivity]| |auto]. intros [v6 st6] [S1 S2].
    eapply room_shape; eassumption. }
  eapply holds_impl; [exact G| |auto]. intros [v7 st7] R7. dif; [exact R7|]. apply maybe_room; assumption.
Qed.
Lemma copy_room b l : holds (copy_last b l) (fun '(m, _) => (cnt has m <= cnt has l)%nat /\ (Forall (okp bt) l -> Forall (okp bt) m)) (fun u => u <> Diverges).
Proof.
  apply nd_holds; [apply nd_copy_last|]. unfold copy_last. apply holds_bind.
  assert (G : forall r, holds (copy_rev b r) (fun '(m, _) => (cnt has m <= cnt has r)%nat /\ (Forall (okp bt) r -> Forall (okp bt) m)) (fun _ => True)).
  { induction r as [|it r IH]; cbn [copy_rev]; [exact I|]. destruct (i_nalu it) as [n|] eqn:EN.
    - apply holds_bind. unfold copy_nalu. dif; [|dif; [exact I|dif; [exact I|]]]; cbn [holds]; rewrite !cnt_cons; unfold has; cbn [i_nalu set_i_nalu]; rewrite EN; (split; [lia|]); intros H; inversion H as [|x y H1 H2]; subst; (constructor; [|exact H2]); unfold okp in *; cbn [i_nalu set_i_nalu]; [exact I|].
      rewrite EN in H1. unfold bt in *. cbn. rewrite <- (firstn_skipn (N.to_nat (n_tlv_size n)) (n_tlv_mem n)) in H1. apply Forall_app in H1. apply H1.
    - apply holds_bind. eapply holds_impl; [apply IH| |auto]. intros [m st] [H1 H2]. cbn [holds]. rewrite !cnt_cons. split; [lia|]. intros H. inversion H; subst. constructor; auto. }
  eapply holds_impl; [apply G| |auto]. intros [m st] [H1 H2]. cbn [holds].
  assert (R : forall x, cnt has (rev x) = cnt has x). { induction x as [|a x IH]; [reflexivity|]. cbn [rev]. rewrite cnt_app, !cnt_cons, IH. cbn. lia. }
  rewrite R in *. split; [exact H1|]. intros H. apply Forall_rev, H2, Forall_rev, H.
Qed.
Lemma read_bytes_ok e k : forall lt p, bytes_ok p -> holds (read_bytes e k lt p) (fun '(b, _, _) => bytes_ok b) (fun _ => True).
Proof.
  induction k as [|k IH]; intros lt p H; cbn [read_bytes]; [constructor|]. apply holds_bind.
  assert (G : holds (read_byte e lt p) (fun '(c, _, q) => c < 256 /\ bytes_ok q) (fun _ => True)).
  { unfold read_byte. destruct p as [|c r]; [exact I|]. inversion H as [|x y H1 H2]; subst. dif; [|split; assumption]. destruct r; [exact I|]. inversion H2; subst. split; assumption. }
  eapply holds_impl; [exact G| |auto]. intros [[c lt1] q] [H1 H2]. apply holds_bind. eapply holds_impl; [apply IH, H2| |auto]. intros [[l lt2] q2] H3. constructor; assumption.
Qed.
Lemma parse_bt d c a b : bytes_ok d -> holds (parse_nalu d c a b) bt (fun u => u <> Diverges).
Proof.
  intros HD. apply nd_holds; [apply nd_parse|]. unfold parse_nalu. destruct d as [|d0 d1]; [constructor|]. set (d := d0 :: d1) in *. clearbody d. apply holds_bind. destruct (start_code_len d) as [skip|]; [|exact I]. cbn [holds].
  apply holds_bind. destruct (parse_header _ _) as [[[ty pr] va]|]; [|exact I]. cbn [holds]. apply holds_bind. destruct (if a then _ else _) as [tr|]; [|exact I]. cbn [holds]. cbv zeta. dif; [constructor|].
  destruct (skipn (header_len c) (skipn skip d)) as [|ud p1]; [exact I|]. dif; [|constructor]. apply holds_bind. destruct (get_payload_size p1) as [[[ps k] p2]|]; [|exact I]. cbn [holds]. cbv zeta. dif; [exact I|].
  unfold remove_epb. dif; [constructor|]. cbn [n_hash_mem n_epb n_payload_size]. assert (HS : bytes_ok (skipn skip d)) by apply bytes_skipn, HD.
  match goal with |- context [skipn ?o (skipn skip d)] => pose proof (bytes_skipn o _ HS) as HT; destruct (skipn o (skipn skip d)) as [|res tlv] end; [exact I|]. inversion HT; subst. cbv zeta. dif; [assumption|].
  apply holds_bind. eapply holds_impl; [apply read_bytes_ok, HS| |auto]. intros [[wo x] y] HW. dif; [exact I|]. cbn [holds]. dif; unfold bt; cbn [n_tlv_mem]; apply bytes_skipn, HW.
Qed.
Lemma add_nalu_room f k v d w : Ov <> OvfIdeal -> bytes_ok d -> (S k < f)%nat -> room k v -> holds (add_nalu C Ov f v d w) (fun '(v', _) => room (S k) v') (fun u => u <> Diverges).
Proof.
  intros HO HB HF HR. assert (UP : forall v, room k v -> room (S k) v) by (intros u [U1 U2]; split; [exact U1|lia]).
  unfold add_nalu. destruct d as [|d0 d1]; [apply UP, HR|]. set (d := d0 :: d1) in *. clearbody d. cbv zeta.
  set (v1 := create_report _). assert (R1 : room k v1) by (unfold v1, create_report; destruct (v_report _); (eapply room_same; [| |exact HR]; reflexivity)). clearbody v1.
  dif; [apply UP, R1|]. apply holds_bind. unfold add_h26x. apply holds_bind. eapply holds_impl; [apply parse_bt, HB| |auto]. intros n HN. set (v2 := on_acc _ _).
  assert (R2 : room k v2) by (eapply room_same; [| |exact R1]; reflexivity). clearbody v2. cbv zeta. apply holds_bind. eapply holds_impl; [apply add_body_room; eassumption| |auto]. intros [v3 st3] R3.
  assert (T : forall v st, room (S k) v -> holds (if v_legacy v then Def (v, VLegacy) else if negb (is_ok st) then Def (v, VRes st None) else if v_result v then
     let v := update_report v in let '(v, r) := if w then get_report v else (v, None) in Def (on_dec (set_d_l_has_ts false) v, VRes SV_OK r) else Def (v, VRes SV_OK None))
     (fun '(v', _) => room (S k) v') (fun u => u <> Diverges)).
  { clear. intros v st R. dif; [exact R|]. dif; [exact R|]. dif; [|exact R]. cbv zeta.
    assert (R1 : room (S k) (update_report v)).
    { unfold update_report. cbv zeta. set (v1 := if (_ =? 2)%Z then _ else _). assert (R1 : room (S k) v1) by (unfold v1; dif; (eapply room_same; [| |exact R]; reflexivity)). clearbody v1.
      pose proof (clean_room (v_items v1)) as Q. destruct (clean_up (v_items v1)) as [l n]. cbn [fst] in Q. destruct Q as [Q1 Q2], R1 as [[A1 A2] A3].
      split; [split; [exact A1|apply Q2, A2]|]. cbn [set_v_acc set_v_items v_items]. lia. }
    generalize dependent (update_report v). intros v1 R1. destruct w; [|eapply room_same; [| |exact R1]; reflexivity].
    unfold get_report. dif; (eapply room_same; [| |exact R1]; reflexivity). }
  dif; [apply T, R3|]. apply holds_bind. eapply holds_impl; [apply copy_room| |auto]. intros [l cst] [C1 C2]. cbn [holds]. apply T.
  destruct R3 as [[A1 A2] A3]. specialize (C2 A2). split; [split; [exact A1|]|]; cbn [set_v_items v_items].
  - dif; [exact C2|apply mark_last_room, C2].
  - dif; [lia|]. destruct (mark_last_room SErr l C2) as [-> _]. lia.
Qed.
Definition is_add (o : vop) : bool := match o with VAdd _ _ => true | _ => false end.
Definition octets (o : vop) : Prop := match o with VAdd d _ => bytes_ok d | _ => True end.
Lemma exec_room f k v o : Ov <> OvfIdeal -> octets o -> (S k < f)%nat -> room k v -> holds (vexec C Ov f v o) (fun '(v', _) => room (if is_add o then S k else k) v') (fun u => u <> Diverges).
Proof.
  intros HO HB HF HR. destruct o as [d w|key| |]; cbn [vexec is_add].
  - apply add_nalu_room; assumption.
  - unfold set_public_key. destruct key as [|k0 k1]; [exact HR|]. destruct (d_pub (v_dec v)); [|exact HR]. destruct (v_started v); [exact HR|]. cbv zeta. destruct (c_pub_ok C _); (eapply room_same; [| |exact HR]; reflexivity).
  - destruct HR as [[A1 A2] A3]. split; [split; [exact A1|constructor]|cbn; lia].
  - destruct (v_legacy v); [exact HR|]. unfold get_report. dif; [exact HR|]. eapply room_same; [| |exact HR]; reflexivity.
Qed.
Lemma run_room f ops : Ov <> OvfIdeal -> forall k v, Forall octets ops -> (S (k + length (filter is_add ops)) < f)%nat -> room k v -> nd (vrun C Ov f v ops).
Proof.
  intros HO. induction ops as [|o ops IH]; intros k v HB HF HR; cbn [vrun]; [apply nd_def|]. inversion HB as [|x y B1 B2]; subst. cbn [filter] in HF.
  pose proof (exec_room f k v o HO B1) as HE. apply nd_bind.
  - eapply nd_of, HE; [|exact HR]. destruct (is_add o); cbn [length] in HF; lia.
  - intros [v1 x] EX. rewrite EX in HE. cbn [holds] in HE. apply nd_bind; [|intros [v2 xs] _; apply nd_def]. eapply IH; [exact B2| |apply HE; [|exact HR]]; destruct (is_add o); cbn [length] in HF; lia.
Qed.
Theorem run_ends f c ops : Ov <> OvfIdeal -> Forall octets ops -> (S (length (filter is_add ops)) < f)%nat -> vrun C Ov f (vcreate C c) ops <> Undef Diverges.
Proof.
  intros HO HB HF. apply (run_room f ops HO 0 _ HB HF). split; [split; [reflexivity|constructor]|cbn; lia].
Qed.
End Dec.

(** ** Loops that do not end *)
Section Stuck.
Variable C : crypto.
Variable Ov : ovf.
(** A round of the loop of maybe_validate_gop after which another one follows. *)
Definition round (v : valid) : out (option valid) :=
  let '(v, found) := has_pending v in
  if negb found then Def None
  else
    let v := if v_result v then v
             else on_latest (fun l => set_l_pend (-1)%Z (set_l_recv 0%Z (set_l_exp 0%Z (set_l_auth SigPresent l)))) v in
    do (v, st) <- prepare C Ov v;
    if negb (is_ok st) then Def None
    else
      do v <- update_link v;
      do v <- (if v_signing v then validate v else Def (on_latest (set_l_auth NotSigned) v));
      if v_signing v then
        let v := set_v_result true (set_v_verified (-1)%Z (set_v_first false v)) in
        Def (Some (on_latest (set_l_pend (num_pending (v_items v))) v))
      else Def None.
Lemma loop_round f v w : round v = Def (Some w) -> validate_loop C Ov (S f) v false = validate_loop C Ov f w false /\ validate_loop C Ov 0 v false = Undef Diverges.
Proof.
  unfold round. cbn [validate_loop]. destruct (has_pending v) as [v1 found]. destruct found; cbn [negb orb]; [|discriminate]. cbv zeta. intros H. split; [|reflexivity].
  revert H. match goal with |- context [prepare C Ov ?x] => destruct (prepare C Ov x) as [[v2 st]|] end; [|discriminate]. cbn [obind]. destruct (is_ok st); cbn [negb]; [|discriminate].
  destruct (update_link v2) as [v3|]; [|discriminate]. cbn [obind]. destruct (if v_signing v3 then _ else _) as [v4|]; [|discriminate]. cbn [obind].
  destruct (v_signing v4); [|discriminate]. intros H. injection H as <-. reflexivity.
Qed.
(** The number of received NALUs of the report may differ from round to round; nothing depends on it. *)
Lemma stuck v r x : round v = Def (Some (on_latest (set_l_recv r) x)) -> (forall r, exists r', round (on_latest (set_l_recv r) x) = Def (Some (on_latest (set_l_recv r') x))) ->
  forall f, validate_loop C Ov f v false = Undef Diverges.
Proof.
  intros H1 H2 f. assert (G : forall f r, validate_loop C Ov f (on_latest (set_l_recv r) x) false = Undef Diverges).
  { clear -H2. intros f. induction f as [|f IH]; intros r; destruct (H2 r) as [r' H]; [apply (loop_round 0 _ _ H)|]. destruct (loop_round f _ _ H) as [-> _]. apply IH. }
  destruct f as [|f]; [apply (loop_round 0 v _ H1)|]. destruct (loop_round f v _ H1) as [-> _]. apply G.
Qed.

(** The state in which a call that adds a NALU comes to the loop. *)
Definition before_body (v : valid) (n : nalu) : out (option valid) :=
  let l := v_items v in
  if (n_valid n <? 0)%Z then Def None
  else
    let v := set_v_signing (v_signing v || n_gop_sei n) (set_v_first_sei (negb (v_signing v) && n_gop_sei n) v) in
    do (v, it, st) <- register C v n;
    let v := set_v_items (l ++ [it]) v in
    if negb (is_ok st) || v_legacy v || negb (d_algo_known (v_dec v)) then Def None
    else
      let f1 := match rev (v_items v) with it :: _ => feasible it | [] => false end in
      do (v, f2) <- recurrent_decoded C v;
      Def (if f1 && f2 then Some v else None).
Lemma body_stuck f v n w : before_body v n = Def (Some w) -> validate_loop C Ov f w false = Undef Diverges -> add_body C Ov f v n = Undef Diverges.
Proof.
  unfold before_body, add_body. cbv zeta. destruct (_ <? 0)%Z; [discriminate|]. match goal with |- context [register C ?x n] => destruct (register C x n) as [[[v1 it] st]|] end; [|discriminate]. cbn [obind].
  destruct (is_ok st); cbn [negb orb]; [|discriminate]. cbn [v_legacy v_dec set_v_items]. destruct (v_legacy v1) eqn:EL; [discriminate|]. destruct (d_algo_known (v_dec v1)); cbn [negb orb andb]; [|discriminate]. cbn [obind]. change (is_ok SV_OK) with true. cbn [negb orb].
  change (v_legacy (set_v_items (v_items v ++ [it]) v1)) with (v_legacy v1). rewrite EL. unfold maybe_validate. cbv zeta. destruct (recurrent_decoded C _) as [[v2 f2]|]; [|discriminate]. cbn [obind].
  destruct (_ && f2); cbn [negb]; [|discriminate]. intros H. injection H as ->. auto.
Qed.
Definition before_loop (v : valid) (data : list N) : out (option valid) :=
  match data with
  | [] => Def None
  | _ =>
      let v := create_report (set_v_started true v) in
      if v_legacy v then Def None
      else
        do n <- parse_nalu data (v_codec v) true true;
        before_body (on_acc (fun a => set_a_recv (u32 (a_recv a + 1)) a) (set_v_result false v)) n
  end.
Lemma add_stuck v d w r x y : before_loop v d = Def (Some w) -> round w = Def (Some (on_latest (set_l_recv r) x)) -> (forall r, exists r', round (on_latest (set_l_recv r) x) = Def (Some (on_latest (set_l_recv r') x))) -> forall f, add_nalu C Ov f v d y = Undef Diverges.
Proof.
  intros HB H1 H2 f. pose proof (stuck w r x H1 H2 f) as HL. revert HB. unfold before_loop, add_nalu. destruct d as [|d0 d1]; [discriminate|]. cbv zeta. destruct (v_legacy _); [discriminate|]. unfold add_h26x.
  destruct (parse_nalu _ _ _ _) as [n|]; [|discriminate]. cbn [obind]. cbv zeta. intros HB. rewrite (body_stuck f _ n w HB HL). reflexivity.
Qed.

(** More rounds allowed do not change what was reached with fewer. *)
Definition more {A} (x y : out A) : Prop := forall a, x = Def a -> y = Def a.
Lemma more_refl {A} (x : out A) : more x x. Proof. intros a H. exact H. Qed.
Lemma more_bind {A B} (x y : out A) (k h : A -> out B) : more x y -> (forall a, more (k a) (h a)) -> more (obind x k) (obind y h).
Proof. intros H1 H2 b. destruct x as [a|]; [|discriminate]. cbn [obind]. rewrite (H1 a eq_refl). cbn [obind]. apply H2. Qed.
Lemma more_loop f g : (f <= g)%nat -> forall v s, more (validate_loop C Ov f v s) (validate_loop C Ov g v s).
Proof.
  revert g. induction f as [|f IH]; intros g HG v s.
  - destruct g as [|g]; [apply more_refl|]. cbn [validate_loop]. destruct (has_pending v) as [v1 found]. destruct (negb found || s); [apply more_refl|]. intros a H. discriminate.
  - destruct g as [|g]; [lia|]. cbn [validate_loop]. destruct (has_pending v) as [v1 found]. destruct (negb found || s); [apply more_refl|]. cbv zeta. apply more_bind; [apply more_refl|]. intros [v2 st].
    destruct (negb (is_ok st)); [apply more_refl|]. apply more_bind; [apply more_refl|]. intros v3. apply more_bind; [apply more_refl|]. intros v4. apply IH. lia.
Qed.
Lemma more_exec f g : (f <= g)%nat -> forall v o, more (vexec C Ov f v o) (vexec C Ov g v o).
Proof.
  intros HG v o. destruct o as [d w|k| |]; try apply more_refl. cbn [vexec]. unfold add_nalu. destruct d as [|d0 d1]; [apply more_refl|]. cbv zeta. destruct (v_legacy _); [apply more_refl|].
  apply more_bind; [|intros [v1 st]; apply more_refl]. unfold add_h26x. apply more_bind; [apply more_refl|]. intros n. cbv zeta. apply more_bind; [|intros [v1 st]; apply more_refl].
  unfold add_body. destruct (_ <? 0)%Z; [apply more_refl|]. cbv zeta. apply more_bind; [apply more_refl|]. intros [[v1 it] st]. destruct (negb (is_ok st)); [apply more_refl|]. apply more_bind; [apply more_refl|]. intros [v2 st2].
  destruct (_ || _); [apply more_refl|]. unfold maybe_validate. cbv zeta. apply more_bind; [apply more_refl|]. intros [v3 b]. destruct (negb _); [apply more_refl|]. apply more_loop, HG.
Qed.
Lemma more_run f g : (f <= g)%nat -> forall ops v, more (vrun C Ov f v ops) (vrun C Ov g v ops).
Proof.
  intros HG. induction ops as [|o ops IH]; intros v; cbn [vrun]; [apply more_refl|]. apply more_bind; [apply more_exec, HG|]. intros [v1 x]. apply more_bind; [apply IH|]. intros [v2 xs]. apply more_refl.
Qed.
End Stuck.

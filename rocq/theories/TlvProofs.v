(** Lemmas about TLV encoding and decoding. *)
From Verif Require Import Base BaseProofs Epb EpbProofs Nalu Crypto Types Tlv.
Local Open Scope N_scope.

(** ** Reading is monotone in the memory behind the pointer *)
Lemma read_8bits_app p x q r : read_8bits p = Def (x, q) -> read_8bits (p ++ r) = Def (x, q ++ r).
Proof. destruct p; cbn; congruence. Qed.
Lemma read_16bits_app p x q r : read_16bits p = Def (x, q) -> read_16bits (p ++ r) = Def (x, q ++ r).
Proof. destruct p as [|a [|b p]]; cbn; congruence. Qed.
Lemma read_32bits_app p x q r : read_32bits p = Def (x, q) -> read_32bits (p ++ r) = Def (x, q ++ r).
Proof. destruct p as [|a [|b [|c [|d p]]]]; cbn; congruence. Qed.
Lemma read_64bits_app p x q r : read_64bits p = Def (x, q) -> read_64bits (p ++ r) = Def (x, q ++ r).
Proof.
  unfold read_64bits. destruct (read_32bits p) as [[hi p1]|] eqn:E1; cbn [obind]; [|discriminate].
  rewrite (read_32bits_app _ _ _ r E1); cbn [obind].
  destruct (read_32bits p1) as [[lo p2]|] eqn:E2; cbn [obind]; [|discriminate].
  rewrite (read_32bits_app _ _ _ r E2); cbn [obind]. congruence.
Qed.
Lemma take_mem_mono n p x q r : take_mem n p = Def (x, q) -> take_mem n (p ++ r) = Def (x, q ++ r).
Proof.
  unfold take_mem. destruct (Nat.leb_spec n (length p)); [|discriminate].
  rewrite app_length. destruct (Nat.leb_spec n (length p + length r)); [|lia].
  rewrite firstn_app, skipn_app. replace (n - length p)%nat with 0%nat by lia. cbn.
  rewrite app_nil_r. congruence.
Qed.
Lemma cstr_app p s r : cstr p = Def s -> cstr (p ++ r) = Def s.
Proof.
  revert s; induction p as [|b p IH]; intros s; cbn [cstr app]; [discriminate|].
  destruct b; [auto|]. destruct (cstr p) as [s1|]; cbn [obind]; [|discriminate].
  rewrite (IH s1 eq_refl). auto.
Qed.
Lemma skipn_app_nil {A} n (p r : list A) : skipn n p = [] ->
  skipn n (p ++ r) = skipn (n - length p) r.
Proof. intros H. rewrite skipn_app, H. reflexivity. Qed.

Lemma decode_strings_mono k p l u r : decode_strings k p = Def (l, u) ->
  decode_strings k (p ++ r) = Def (l, u).
Proof.
  revert p l u; induction k as [|k IH]; intros p l u; cbn [decode_strings]; [auto|].
  destruct (read_8bits p) as [[n q]|] eqn:E; cbn [obind]; [|discriminate].
  rewrite (read_8bits_app _ _ _ r E); cbn [obind].
  destruct (cstr q) as [s|] eqn:E1; cbn [obind]; [|discriminate].
  rewrite (cstr_app _ _ r E1); cbn [obind].
  destruct (decode_strings k (skipn (N.to_nat n) q)) as [[l1 u1]|] eqn:E2; cbn [obind]; [|discriminate].
  intros H. rewrite skipn_app.
  destruct k as [|k].
  - cbn [decode_strings obind] in *. congruence.
  - assert (Hle : (N.to_nat n <= length q)%nat).
    { destruct (Nat.le_gt_cases (N.to_nat n) (length q)) as [L|L]; [exact L|exfalso].
      rewrite skipn_all2 in E2 by lia. cbn in E2. discriminate. }
    replace (N.to_nat n - length q)%nat with 0%nat by lia. cbn [skipn].
    rewrite (IH _ _ _ E2). cbn [obind]. exact H.
Qed.

Ltac rd E r := match type of E with
  | read_8bits _ = _ => rewrite (read_8bits_app _ _ _ r E)
  | read_16bits _ = _ => rewrite (read_16bits_app _ _ _ r E)
  | read_32bits _ = _ => rewrite (read_32bits_app _ _ _ r E)
  | read_64bits _ = _ => rewrite (read_64bits_app _ _ _ r E)
  | take_mem _ _ = _ => rewrite (take_mem_mono _ _ _ _ r E)
  | cstr _ = _ => rewrite (cstr_app _ _ r E)
  | decode_strings _ _ = _ => rewrite (decode_strings_mono _ _ _ _ r E)
  end; cbn [obind].

Ltac step r := match goal with
  | |- obind (read_8bits ?p) _ = Def _ -> _ =>
      let E := fresh "E" in destruct (read_8bits p) as [[? ?]|] eqn:E; cbn [obind]; [rd E r|discriminate]
  | |- obind (read_16bits ?p) _ = Def _ -> _ =>
      let E := fresh "E" in destruct (read_16bits p) as [[? ?]|] eqn:E; cbn [obind]; [rd E r|discriminate]
  | |- obind (read_32bits ?p) _ = Def _ -> _ =>
      let E := fresh "E" in destruct (read_32bits p) as [[? ?]|] eqn:E; cbn [obind]; [rd E r|discriminate]
  | |- obind (read_64bits ?p) _ = Def _ -> _ =>
      let E := fresh "E" in destruct (read_64bits p) as [[? ?]|] eqn:E; cbn [obind]; [rd E r|discriminate]
  | |- obind (take_mem ?n ?p) _ = Def _ -> _ =>
      let E := fresh "E" in destruct (take_mem n p) as [[? ?]|] eqn:E; cbn [obind]; [rd E r|discriminate]
  | |- obind (decode_strings ?n ?p) _ = Def _ -> _ =>
      let E := fresh "E" in destruct (decode_strings n p) as [[? ?]|] eqn:E; cbn [obind]; [rd E r|discriminate]
  end.

Lemma obind_assoc {A B D} (x : out A) (f : A -> out B) (g : B -> out D) :
  obind (obind x f) g = obind x (fun a => obind (f a) g).
Proof. destruct x; reflexivity. Qed.

Section Mono.
Variable C : crypto.

Lemma decode_general_mono d p n r x : decode_general d p n = Def x ->
  decode_general d (p ++ r) n = Def x.
Proof.
  unfold decode_general.
  destruct (read_8bits p) as [[n0 l]|] eqn:E; cbn [obind]; [|discriminate]. rd E r.
  destruct ((n0 <? 1) || (3 <? n0)); [auto|].
  destruct (read_32bits l) as [[n1 l0]|] eqn:E0; cbn [obind]; [|discriminate]. rd E0 r.
  destruct (read_16bits l0) as [[n2 l2]|] eqn:E1; cbn [obind]; [|discriminate]. rd E1 r.
  destruct (take_mem 3 l2) as [[ver l1]|] eqn:E2; cbn [obind]; [|discriminate]. rd E2 r.
  destruct (n0 <? 2) eqn:V2; cbn [obind].
  - assert (n0 <? 3 = true) as -> by lia. cbn [obind]. auto.
  - rewrite !obind_assoc.
    destruct (read_8bits l1) as [[fl q]|] eqn:E3; cbn [obind]; [|discriminate]. rd E3 r.
    destruct (fl mod 2 =? 1).
    + rewrite !obind_assoc.
      destruct (read_64bits q) as [[ts q2]|] eqn:E4; cbn [obind]; [|discriminate]. rd E4 r.
      destruct (n0 <? 3); cbn [obind]; [auto|].
      destruct (64 <? sub64 n 19 / 2); cbn [obind]; [discriminate|]. rewrite !obind_assoc.
      destruct (take_mem (N.to_nat (sub64 n 19 / 2)) q2) as [[lh q3]|] eqn:E6; cbn [obind]; [|discriminate].
      rd E6 r. rewrite !obind_assoc.
      destruct (take_mem (N.to_nat (sub64 n 19 / 2)) q3) as [[gh q4]|] eqn:E7; cbn [obind]; [|discriminate].
      rd E7 r. auto.
    + cbn [obind]. destruct (n0 <? 3); cbn [obind]; [auto|].
      destruct (64 <? sub64 n 11 / 2); cbn [obind]; [discriminate|]. rewrite !obind_assoc.
      destruct (take_mem (N.to_nat (sub64 n 11 / 2)) q) as [[lh q3]|] eqn:E6; cbn [obind]; [|discriminate].
      rd E6 r. rewrite !obind_assoc.
      destruct (take_mem (N.to_nat (sub64 n 11 / 2)) q3) as [[gh q4]|] eqn:E7; cbn [obind]; [|discriminate].
      rd E7 r. auto.
Qed.

Lemma decode_product_mono d p n r x : decode_product d p n = Def x ->
  decode_product d (p ++ r) n = Def x.
Proof.
  unfold decode_product. step r. destruct (n0 =? 0); [auto|]. step r. auto.
Qed.

Lemma decode_arbitrary_mono d p n r x : decode_arbitrary d p n = Def x ->
  decode_arbitrary d (p ++ r) n = Def x.
Proof.
  unfold decode_arbitrary. step r. destruct (n0 =? 0); [auto|].
  destruct (u16 (sub64 n 1) =? 0); [auto|]. step r. auto.
Qed.

Lemma decode_public_key_mono d p n r x : decode_public_key C d p n = Def x ->
  decode_public_key C d (p ++ r) n = Def x.
Proof.
  unfold decode_public_key. step r. destruct (n0 =? 0); [auto|].
  match goal with |- context [if ?b =? 0 then _ else _] => set (m := b) end.
  destruct (m =? 0) eqn:M; [auto|].
  destruct (n0 <? 2).
  - destruct l as [|a l].
    + cbn [skipn app]. destruct (take_mem (N.to_nat m) []) as [[? ?]|] eqn:E1; cbn [obind]; [|discriminate].
      unfold take_mem in E1. cbn [length] in E1. destruct (Nat.leb_spec (N.to_nat m) 0); [lia|discriminate].
    + cbn [skipn app]. step r. auto.
  - step r. auto.
Qed.

Lemma decode_hash_list_mono d p n r x : decode_hash_list d p n = Def x ->
  decode_hash_list d (p ++ r) n = Def x.
Proof.
  unfold decode_hash_list. step r. destruct (n0 =? 0); [auto|].
  destruct (19200 <? sub64 n 1); [auto|]. step r. auto.
Qed.

Lemma decode_signature_mono d p n r x : decode_signature d p n = Def x ->
  decode_signature d (p ++ r) n = Def x.
Proof.
  unfold decode_signature. do 4 step r. destruct (n0 =? 0); [auto|]. destruct (2 <=? n2); [auto|].
  destruct (sub64 n 5 <? n3); [auto|]. destruct (d_sig d) as [s|].
  - destruct (negb (nlen s =? sub64 n 5)); [auto|]. step r. auto.
  - destruct (n <? 5); [auto|]. step r. auto.
Qed.

Lemma decode_crypto_mono d p n r x : decode_crypto C d p n = Def x ->
  decode_crypto C d (p ++ r) n = Def x.
Proof. unfold decode_crypto. do 3 step r. auto. Qed.

Lemma decode_tag_mono d t p n r x : decode_tag C d t p n = Def x ->
  decode_tag C d t (p ++ r) n = Def x.
Proof.
  intros H. unfold decode_tag in *.
  repeat match goal with |- context [match ?t with _ => _ end] =>
    is_var t; destruct t end; try exact H;
  first [ apply decode_general_mono | apply decode_public_key_mono | apply decode_product_mono
        | apply decode_hash_list_mono | apply decode_signature_mono | apply decode_arbitrary_mono
        | apply decode_crypto_mono ]; exact H.
Qed.

(** ** Decoding a list of fields *)

(** A field: tag and value. *)
Definition field : Type := N * list N.

(** Tags with a decoder. *)
Definition known_tag (t : N) : Prop := In t [1; 2; 3; 4; 5; 6; 7; 129].

(** The bytes of one field: tag, big-endian length in one or two bytes, value. *)
Definition field_bytes (f : field) : list N :=
  let (t, v) := f in
  t :: (if (len_bytes t =? 2)%nat then be16 (nlen v) else [nlen v]) ++ v.

(** The value fits the length field of its tag. *)
Definition field_fits (f : field) : Prop :=
  known_tag (fst f) /\ nlen (snd f) < (if (len_bytes (fst f) =? 2)%nat then 65536 else 256).

(** Decoding every field in order by its own decoder on exactly its own value. *)
Fixpoint decode_fields (d : dec) (fs : list field) : out (dec * svrc) :=
  match fs with
  | [] => Def (d, SV_OK)
  | (t, v) :: r =>
      do (d1, st) <- decode_tag C d t v (nlen v);
      if is_ok st then decode_fields d1 r else Def (d1, st)
  end.

Lemma header_field f r : field_fits f ->
  decode_tlv_header (field_bytes f ++ r) =
  Def (Some (fst f, nlen (snd f), N.of_nat (1 + len_bytes (fst f)), snd f ++ r)).
Proof.
  destruct f as [t v]. intros [K F]. cbn [fst snd] in *. unfold field_bytes, decode_tlv_header.
  cbn [app read_8bits obind].
  assert (T : tuple_tag t =? t = true /\ (len_bytes t = 1%nat \/ len_bytes t = 2%nat)).
  { unfold known_tag in K. cbn in K. repeat (destruct K as [<-|K]; [split; [reflexivity|cbn; auto]|]).
    destruct K. }
  destruct T as [T L]. rewrite T. cbn [negb]. destruct L as [L|L]; rewrite L in *; cbn [Nat.eqb] in *.
  - reflexivity.
  - rewrite <- app_assoc, read_be16 by exact F. reflexivity.
Qed.

Lemma field_bytes_len f : field_fits f ->
  nlen (field_bytes f) = N.of_nat (1 + len_bytes (fst f)) + nlen (snd f).
Proof.
  destruct f as [t v]. intros [K F]. cbn [fst snd] in *. unfold field_bytes, nlen.
  assert (L : len_bytes t = 1%nat \/ len_bytes t = 2%nat).
  { unfold known_tag in K. cbn in K. repeat (destruct K as [<-|K]; [cbn; auto|]). destruct K. }
  destruct L as [L|L]; rewrite L; cbn [Nat.eqb length app]; rewrite ?app_length; cbn [length be16]; lia.
Qed.

Lemma tlv_decode_loop_fields fs : forall d r fuel st0 x,
  Forall field_fits fs -> decode_fields d fs = Def x ->
  (length (concat (map field_bytes fs)) <= fuel)%nat ->
  (fs = [] -> x = (d, st0)) ->
  tlv_decode_loop C fuel d (concat (map field_bytes fs) ++ r)
    (nlen (concat (map field_bytes fs))) st0 = Def x.
Proof.
  induction fs as [|f fs IH]; intros d r fuel st0 x HF HD Hfuel H0.
  - cbn. destruct fuel; cbn; rewrite (H0 eq_refl); reflexivity.
  - apply Forall_cons_iff in HF as [Hf HF]. cbn [map concat].
    destruct f as [t v].
    pose proof (field_bytes_len _ Hf) as HL. cbn [fst snd] in HL.
    cbn [map concat] in Hfuel. rewrite app_length in Hfuel.
    assert (L3 : (2 <= length (field_bytes (t, v)))%nat).
    { destruct Hf as [K _]. cbn [fst] in K. unfold field_bytes. cbn [length]. rewrite app_length.
      unfold known_tag in K; cbn in K. repeat (destruct K as [<-|K]; [cbn; lia|]). destruct K. }
    destruct fuel as [|fuel]; [lia|].
    cbn [tlv_decode_loop].
    assert (E0 : nlen (field_bytes (t, v) ++ concat (map field_bytes fs)) =? 0 = false).
    { apply N.eqb_neq. unfold nlen. rewrite app_length. lia. }
    rewrite E0, <- app_assoc, (header_field (t, v) _ Hf). cbn [obind fst snd].
    cbn [decode_fields] in HD.
    destruct (decode_tag C d t v (nlen v)) as [[d1 st]|] eqn:ED; cbn [obind] in HD; [|discriminate].
    rewrite (decode_tag_mono _ _ _ _ _ _ ED). cbn [obind].
    destruct (is_ok st) eqn:OK; [|exact HD].
    assert (ES : skipn (N.to_nat (nlen v)) (v ++ concat (map field_bytes fs) ++ r)
                 = concat (map field_bytes fs) ++ r).
    { unfold nlen. rewrite Nat2N.id. apply skipn_app_exact. }
    rewrite ES.
    assert (EN : nlen (field_bytes (t, v) ++ concat (map field_bytes fs))
                 - N.of_nat (1 + len_bytes t) - nlen v = nlen (concat (map field_bytes fs))).
    { unfold nlen in *. rewrite app_length. lia. }
    rewrite EN. apply IH; [exact HF|exact HD|lia|].
    intros ->. cbn [decode_fields] in HD. congruence.
Qed.

Lemma tlv_decode_fields d fs r x :
  fs <> [] -> Forall field_fits fs -> decode_fields d fs = Def x ->
  tlv_decode C d (concat (map field_bytes fs) ++ r) (nlen (concat (map field_bytes fs))) = Def x.
Proof.
  intros NE HF HD. unfold tlv_decode.
  assert (nlen (concat (map field_bytes fs)) =? 0 = false) as ->.
  { destruct fs as [|[t v] fs]; [congruence|]. apply N.eqb_neq. cbn. unfold nlen. cbn [length]. lia. }
  apply tlv_decode_loop_fields; [exact HF|exact HD|rewrite app_length; lia|congruence].
Qed.

End Mono.

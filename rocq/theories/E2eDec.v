(** Decoding the fields of the SEIs of a stream: lemmas. *)
From Verif Require Import Base BaseProofs Epb EpbProofs Nalu Crypto Types Hash Tlv TlvProofs EncProofs CodecSpec CodecProofs
  SeiSpec SeiProofs Signer SignSpec GopSpec EosSpec.
Local Open Scope N_scope.

Section Dec.
Variable C : crypto.
Hypothesis HC : crypto_ok C.
Variable w : settings.
Variable hs : nat.
Hypothesis HO : c_oid C (w_oid w) = OidDigest hs.
Hypothesis HW0 : w_oid w <> [].
Hypothesis HWl : nlen (w_oid w) < 254.
Hypothesis HP0 : w_pub w <> [].
Hypothesis HPl : nlen (w_pub w) < 65535.
Hypothesis HPk : c_pub_ok C (w_pub w) = true.
Hypothesis HR5 : length (w_prod w) = 5%nat.
Hypothesis HRb : Forall (Forall (fun b => 0 < b < 256)) (w_prod w).
Hypothesis HMx : N.of_nat (w_max_sig w) + 5 < 65536.

Let H := c_hash C (w_oid w).

Lemma hs_small : (0 < hs <= 64)%nat.
Proof. exact (ok_size C HC _ _ HO). Qed.
Lemma H_len x : length (H x) = hs.
Proof. apply (ok_hash_len C HC), HO. Qed.
Lemma size_hs : oid_size C (w_oid w) = hs.
Proof. unfold oid_size. rewrite HO. reflexivity. Qed.

Definition gen_dec (k : N) (prev : option (list N)) (xs : list (list N)) (gh : list N) (ts : option Z) (d : dec) : dec :=
  (fun d => set_d_gop (gh ++ skipn hs (d_gop d))
     (set_d_linked ((match prev with Some x => H x | None => zeros hs end) ++ skipn hs (d_linked d))
        (match ts with
         | Some t => set_d_l_ts t (set_d_l_has_ts true (set_d_ts t (set_d_has_ts true d)))
         | None => set_d_l_has_ts false (set_d_has_ts false d)
         end)))
       (set_d_sver lib_version (set_d_version lib_version (set_d_num_sent (nlen xs mod 2 ^ 16)
          (set_d_counter (k mod 2 ^ 32) d)))).

Lemma dec_general d k prev xs gh ts : length gh = hs -> length (d_linked d) = 64%nat -> length (d_gop d) = 64%nat ->
  match ts with Some t => (-9223372036854775808 <= t < 9223372036854775808)%Z | None => True end ->
  decode_general d (general_field_with C w k prev xs gh ts) (nlen (general_field_with C w k prev xs gh ts)) =
  Def (gen_dec k prev xs gh ts d, SV_OK).
Proof.
  intros LC Ll Lg HT. pose proof hs_small as [S1 S2].
  unfold general_field_with. cbv zeta. change (c_hash C (w_oid w)) with H. rewrite size_hs.
  set (lk := match prev with Some x => H x | None => zeros hs end).
  assert (LL : length lk = hs).
  { subst lk. destruct prev; [apply H_len|apply repeat_length]. }
  set (whole := [3] ++ digits 4 (k mod 2 ^ 32) ++ digits 2 (nlen xs mod 2 ^ 16) ++ [1; 1; 29] ++
    match ts with Some t => 1 :: digits 8 (Z.to_N (t mod 2 ^ 64)) | None => [0] end ++ lk ++ gh).
  assert (LW : nlen whole = (match ts with Some _ => 19 | None => 11 end) + 2 * N.of_nat hs).
  { subst whole. unfold nlen. rewrite !app_length, !digits_len, LL, LC.
    destruct ts; cbn [length]; rewrite ?digits_len; lia. }
  rewrite LW. subst whole. unfold decode_general. cbn [app read_8bits obind].
  assert ((3 <? 1) || (3 <? 3) = false) as -> by reflexivity.
  rewrite digits_be32. rewrite read_be32 by (change (2 ^ 32) with 4294967296; lia). cbn [obind].
  rewrite digits_be16 by (change (2 ^ 16) with 65536; lia).
  rewrite read_be16 by (change (2 ^ 16) with 65536; lia). cbn [obind].
  change (1 :: 1 :: 29 :: match ts with Some t => 1 :: digits 8 (Z.to_N (t mod 2 ^ 64)) | None => [0] end ++ lk ++ gh)
    with ([1; 1; 29] ++ match ts with Some t => 1 :: digits 8 (Z.to_N (t mod 2 ^ 64)) | None => [0] end ++ lk ++ gh).
  rewrite take_mem_n by reflexivity. cbn [obind].
  assert (3 <? 2 = false) as -> by reflexivity. assert (3 <? 3 = false) as -> by reflexivity.
  destruct ts as [t|]; cbn [app read_8bits obind].
  - assert (1 mod 2 =? 1 = true) as -> by reflexivity.
    rewrite digits_be64. change (Z.to_N (t mod 2 ^ 64)) with (z_to_u64 t).
    rewrite read_be64 by apply z_to_u64_lt. cbn [obind]. rewrite u64_z_round by assumption.
    assert (EH : sub64 (19 + 2 * N.of_nat hs) 19 / 2 = N.of_nat hs) by (rewrite sub64_small by lia; lia).
    rewrite EH. destruct (N.ltb_spec 64 (N.of_nat hs)); [lia|].
    rewrite Nat2N.id, take_mem_n by (symmetry; exact LL). cbn [obind].
    rewrite <- (app_nil_r gh) at 1.
    rewrite take_mem_n by (symmetry; exact LC). cbn [obind].
    rewrite !put_mem_def by (cbn; lia). cbn [obind].
    rewrite N.eqb_refl, LL, LC. reflexivity.
  - assert (0 mod 2 =? 1 = false) as -> by reflexivity. cbn [obind].
    assert (EH : sub64 (11 + 2 * N.of_nat hs) 11 / 2 = N.of_nat hs) by (rewrite sub64_small by lia; lia).
    rewrite EH. destruct (N.ltb_spec 64 (N.of_nat hs)); [lia|].
    rewrite Nat2N.id, take_mem_n by (symmetry; exact LL). cbn [obind].
    rewrite <- (app_nil_r gh) at 1.
    rewrite take_mem_n by (symmetry; exact LC). cbn [obind].
    rewrite !put_mem_def by (cbn; lia). cbn [obind].
    rewrite N.eqb_refl, LL, LC. reflexivity.
Qed.

Lemma dec_public_key d : (d_has_pub d = true -> d_pub d = w_pub w) ->
  decode_public_key C d (2 :: w_pub w) (nlen (2 :: w_pub w)) =
  Def (set_d_vkey (Some (w_pub w)) (set_d_has_pub true (set_d_pub (w_pub w) d)), SV_OK).
Proof.
  intros HD. unfold decode_public_key. cbn [read_8bits obind].
  assert (2 <? 2 = false) as -> by reflexivity. assert (2 =? 0 = false) as -> by reflexivity.
  assert (EN : nlen (2 :: w_pub w) = 1 + nlen (w_pub w)) by (unfold nlen; cbn [length]; lia).
  rewrite EN. rewrite sub64_small by lia. unfold u16. replace (1 + nlen (w_pub w) - 1) with (nlen (w_pub w)) by lia.
  rewrite N.mod_small by lia.
  destruct (N.eqb_spec (nlen (w_pub w)) 0) as [Z|Z].
  { destruct (w_pub w) eqn:E; [congruence|]. unfold nlen in Z. cbn [length] in Z. lia. }
  rewrite take_mem_exact. cbn [obind]. rewrite HPk. cbn [negb].
  assert (EB : d_has_pub d && negb (bytes_eqb (w_pub w) (if nlen (d_pub d) =? nlen (w_pub w) then d_pub d
                    else zeros (N.to_nat (nlen (w_pub w))))) = false).
  { destruct (d_has_pub d); [|reflexivity]. rewrite HD by reflexivity. rewrite N.eqb_refl. cbn [andb].
    apply negb_false_iff. apply bytes_eqb_eq. reflexivity. }
  rewrite EB. rewrite N.add_0_r, N.eqb_refl. reflexivity.
Qed.

Lemma prod_strings : flat_map prod_string (w_prod w) = flat_map pstr_value (map Some (w_prod w)).
Proof.
  clear HR5. induction (w_prod w) as [|s l IH]; [reflexivity|]. apply Forall_cons_iff in HRb as [Hs Hl].
  cbn [map flat_map]. rewrite IH by exact Hl. f_equal. rewrite pstr_value_eq, <- sent_len. reflexivity.
Qed.

Lemma dec_product d : exists l,
  decode_product d (1 :: flat_map prod_string (w_prod w)) (nlen (1 :: flat_map prod_string (w_prod w))) =
  Def (set_d_rprod l (set_d_prod l d), SV_OK).
Proof.
  exists (map (fun o => Some (sent o)) (map Some (w_prod w))).
  unfold decode_product. cbn [read_8bits obind]. assert (1 =? 0 = false) as -> by reflexivity.
  assert (RB : Forall (fun o => match o with Some s => Forall (fun b => 0 < b < 256) s | None => True end) (map Some (w_prod w))).
  { apply Forall_map. exact HRb. }
  pose proof (rt_strings (map Some (w_prod w)) [] RB) as R. rewrite app_nil_r, map_length, HR5 in R.
  rewrite prod_strings, R. cbn [obind].
  assert (EN : nlen (1 :: flat_map pstr_value (map Some (w_prod w))) = 1 + nlen (flat_map pstr_value (map Some (w_prod w))))
    by (unfold nlen; cbn [length]; lia).
  rewrite EN, N.eqb_refl. reflexivity.
Qed.

Lemma dec_crypto d : h_type (d_handle d) = h_oid (d_handle d) ->
  exists h', h_type h' = w_oid w /\ h_oid h' = w_oid w /\ h_prim h' = h_prim (d_handle d) /\
  decode_crypto C d ([1; nlen (w_oid w)] ++ w_oid w) (nlen ([1; nlen (w_oid w)] ++ w_oid w)) =
  Def (set_d_vhs hs (set_d_algo_known true (set_d_handle h' d)), SV_OK).
Proof.
  intros HT. destruct (set_hash_algo_der_digest C _ hs (d_handle d) HO HT HW0) as (h' & E & T1 & T2 & T3 & _).
  exists h'. repeat (split; [assumption|]).
  unfold decode_crypto. cbn [app read_8bits obind]. rewrite take_mem_exact. cbn [obind].
  assert (1 =? 0 = false) as -> by reflexivity.
  destruct (N.eqb_spec (nlen (w_oid w)) 0) as [Z|Z].
  { destruct (w_oid w) eqn:EE; [congruence|]. unfold nlen in Z. cbn [length] in Z. lia. }
  rewrite E. cbn [obind is_ok svrc_eqb negb].
  assert (EH : hash_size C h' = hs) by (unfold hash_size; rewrite T1; apply size_hs).
  assert (EN : nlen (1 :: nlen (w_oid w) :: w_oid w) = 2 + nlen (w_oid w)) by (unfold nlen; cbn [length]; lia).
  rewrite EH, EN, N.eqb_refl. reflexivity.
Qed.

Lemma dec_list d l : nlen l <= 19200 ->
  decode_hash_list d (1 :: l) (nlen (1 :: l)) = Def (set_d_list l d, SV_OK).
Proof.
  intros HL. unfold decode_hash_list. cbn [read_8bits obind]. assert (1 =? 0 = false) as -> by reflexivity.
  assert (EN : nlen (1 :: l) = 1 + nlen l) by (unfold nlen; cbn [length]; lia).
  rewrite EN, sub64_small by lia. replace (1 + nlen l - 1) with (nlen l) by lia.
  destruct (N.ltb_spec 19200 (nlen l)); [lia|]. rewrite take_mem_exact. reflexivity.
Qed.

Lemma dec_signature d sig : (length sig <= w_max_sig w)%nat ->
  match d_sig d with Some s => length s = w_max_sig w | None => True end ->
  decode_signature d (sig_value (w_max_sig w) sig) (nlen (sig_value (w_max_sig w) sig)) =
  Def (set_d_hash_type 1 (set_d_enc 0 (set_d_sig_size (nlen sig) (set_d_sig (Some (padded (w_max_sig w) sig)) d))), SV_OK).
Proof.
  intros HL HS.
  assert (LP : length (padded (w_max_sig w) sig) = w_max_sig w) by (unfold padded; rewrite app_length, repeat_length; lia).
  assert (EN : nlen (sig_value (w_max_sig w) sig) = 5 + N.of_nat (w_max_sig w)).
  { unfold sig_value, nlen. rewrite !app_length, digits_len, LP. cbn [length]. lia. }
  rewrite EN. unfold decode_signature, sig_value. cbn [app read_8bits obind].
  rewrite digits_be16 by (unfold nlen; lia). rewrite read_be16 by (unfold nlen; lia). cbn [obind].
  assert (1 =? 0 = false) as -> by reflexivity. assert (2 <=? 1 = false) as -> by reflexivity.
  rewrite sub64_small by lia. replace (5 + N.of_nat (w_max_sig w) - 5) with (N.of_nat (w_max_sig w)) by lia.
  destruct (N.ltb_spec (N.of_nat (w_max_sig w)) (nlen sig)) as [L|_]; [unfold nlen in L; lia|].
  rewrite Nat2N.id. pose proof (take_mem_n (w_max_sig w) (padded (w_max_sig w) sig) [] (eq_sym LP)) as T. rewrite app_nil_r in T.
  destruct (d_sig d) as [s|].
  - assert (E1 : negb (nlen s =? N.of_nat (w_max_sig w)) = false).
    { unfold nlen. rewrite HS, N.eqb_refl. reflexivity. }
    rewrite E1, T. reflexivity.
  - destruct (N.ltb_spec (5 + N.of_nat (w_max_sig w)) 5); [lia|]. rewrite T. reflexivity.
Qed.

(** ** All fields *)

(** What is known about the decoded data once the recurrent fields have been seen. *)
Record gdec (d : dec) : Prop := mkGdec {
  gd_oid : h_oid (d_handle d) = w_oid w;
  gd_type : h_type (d_handle d) = w_oid w;
  gd_prim : match h_prim (d_handle d) with Some x => x_oid x = w_oid w | None => True end;
  gd_vhs : d_vhs d = hs;
  gd_known : d_algo_known d = true;
  gd_pub : d_pub d = w_pub w;
  gd_has : d_has_pub d = true;
  gd_vkey : d_vkey d = Some (w_pub w);
  gd_sig : match d_sig d with Some s => length s = w_max_sig w | None => True end;
  gd_linked : length (d_linked d) = 64%nat;
  gd_gop : length (d_gop d) = 64%nat;
  gd_changed : d_l_changed d = false
}.

Lemma dec_cons d t v r d1 : decode_tag C d t v (nlen v) = Def (d1, SV_OK) -> decode_fields C d ((t, v) :: r) = decode_fields C d1 r.
Proof. intros E. cbn [decode_fields]. rewrite E. reflexivity. Qed.

Lemma dec_recurrent d r : gdec d -> exists d', gdec d' /\ decode_fields C d (recurrent_fields w ++ r) = decode_fields C d' r.
Proof.
  intros G. unfold recurrent_fields.
  assert (X : exists d1, gdec d1 /\ decode_fields C d (((if w_add_pub w then [(2, 2 :: w_pub w)] else []) ++
      [(3, 1 :: flat_map prod_string (w_prod w)); (7, [1; nlen (w_oid w)] ++ w_oid w)]) ++ r) =
    decode_fields C d1 ([(3, 1 :: flat_map prod_string (w_prod w)); (7, [1; nlen (w_oid w)] ++ w_oid w)] ++ r)).
  { destruct (w_add_pub w).
    - exists (set_d_vkey (Some (w_pub w)) (set_d_has_pub true (set_d_pub (w_pub w) d))). split.
      + destruct G. constructor; try assumption; reflexivity.
      + rewrite <- !app_assoc. cbn [app]. apply dec_cons. exact (dec_public_key d (fun _ => gd_pub d G)).
    - exists d. split; [exact G|reflexivity]. }
  destruct X as (d1 & G1 & ->).
  destruct (dec_product d1) as [l EP]. cbn [app]. erewrite dec_cons by exact EP.
  set (d2 := set_d_rprod l (set_d_prod l d1)).
  assert (T2 : h_type (d_handle d2) = h_oid (d_handle d2)).
  { change (d_handle d2) with (d_handle d1). rewrite (gd_oid _ G1), (gd_type _ G1). reflexivity. }
  destruct (dec_crypto d2 T2) as (h' & H1 & H2 & H3 & EC).
  exists (set_d_vhs hs (set_d_algo_known true (set_d_handle h' d2))). split.
  - destruct G1. constructor; try assumption; try reflexivity.
    change (match h_prim h' with Some x => x_oid x = w_oid w | None => True end). rewrite H3. exact gd_prim0.
  - apply dec_cons. exact EC.
Qed.

Lemma gdec_general d k prev xs gh ts : length gh = hs -> gdec d -> gdec (gen_dec k prev xs gh ts d).
Proof.
  intros LC G. pose proof hs_small as [S1 S2]. unfold gen_dec. destruct G.
  assert (L1 : forall x, length x = hs -> length (x ++ skipn hs (d_linked d)) = 64%nat).
  { intros x Hx. rewrite app_length, skipn_length. lia. }
  assert (L2 : forall x, length x = hs -> length (x ++ skipn hs (d_gop d)) = 64%nat).
  { intros x Hx. rewrite app_length, skipn_length. lia. }
  destruct ts; (constructor; cbn; try assumption;
    [apply L1; destruct prev; [apply H_len|apply repeat_length]|apply L2, LC]).
Qed.

(** A SEI of the stream is decoded without error. *)
Definition says_gop (k : N) (prev : option (list N)) (xs : list (list N)) (gh : list N) (d : dec) : Prop :=
  d_counter d = k mod 2 ^ 32 /\ d_num_sent d = nlen xs mod 2 ^ 16 /\
  firstn hs (d_linked d) = (match prev with Some x => H x | None => zeros hs end) /\
  firstn hs (d_gop d) = gh.

Lemma dec_gop d k rec prev xs gh ts sig : length gh = hs -> gdec d -> (length sig <= w_max_sig w)%nat ->
  match ts with Some t => (-9223372036854775808 <= t < 9223372036854775808)%Z | None => True end ->
  exists d', decode_fields C d (gop_fields_with C w k rec prev xs gh ts ++ [(5, sig_value (w_max_sig w) sig)]) = Def (d', SV_OK) /\
    gdec d' /\ says_gop k prev xs gh d' /\ d_sig d' = Some (padded (w_max_sig w) sig) /\ d_sig_size d' = nlen sig /\
    (forall l, In (4, 1 :: l) (gop_fields_with C w k rec prev xs gh ts) -> d_list d' = l).
Proof.
  intros LC G HL HT. unfold gop_fields_with. cbv zeta.
  set (others := (if rec && negb (w_using w) then recurrent_fields w else []) ++ [(1, general_field_with C w k prev xs gh ts)]).
  assert (X : exists d1, gdec d1 /\ forall r, decode_fields C d (others ++ r) = decode_fields C d1 ((1, general_field_with C w k prev xs gh ts) :: r)).
  { subst others. destruct (rec && negb (w_using w)).
    - destruct (dec_recurrent d [] G) as (d1 & G1 & _).
      assert (EX : exists d1, gdec d1 /\ forall r, decode_fields C d (recurrent_fields w ++ r) = decode_fields C d1 r).
      { clear d1 G1. destruct (dec_recurrent d [] G) as (d1 & G1 & E1).
        rewrite app_nil_r in E1. exists d1. split; [exact G1|]. intros r.
        assert (AP : forall a b e e1, decode_fields C e a = Def (e1, SV_OK) -> decode_fields C e (a ++ b) = decode_fields C e1 b).
        { clear. induction a as [|[t v] a IH]; intros b e e1; cbn [decode_fields app]; [intros E; injection E as ->; reflexivity|].
          destruct (decode_tag C e t v (nlen v)) as [[e2 st]|]; [|discriminate]. cbn [obind].
          destruct (is_ok st) eqn:ES; [apply IH|]. intros E. injection E as E1 E2. subst st. discriminate ES. }
        apply AP. exact E1. }
      destruct EX as (d2 & G2 & E2). exists d2. split; [exact G2|]. intros r. rewrite <- app_assoc. apply E2.
    - exists d. split; [exact G|]. reflexivity. }
  destruct X as (d1 & G1 & E1). rewrite <- app_assoc, E1.
  erewrite dec_cons by (exact (dec_general d1 k prev xs gh ts LC (gd_linked _ G1) (gd_gop _ G1) HT)).
  pose proof (gdec_general d1 k prev xs gh ts LC G1) as G2. set (d2 := gen_dec k prev xs gh ts d1) in *.
  assert (S2 : says_gop k prev xs gh d2).
  { subst d2. unfold says_gop, gen_dec. destruct ts; cbn; (split; [reflexivity|]; split; [reflexivity|]);
    (split; apply firstn_app_len; [destruct prev; [apply H_len|apply repeat_length]|exact LC]). }
  assert (OT : forall x, In x others -> fst x <> 4).
  { subst others. intros x HX. apply in_app_iff in HX as [HX|[<-|[]]]; [|discriminate].
    destruct (rec && negb (w_using w)); [|destruct HX]. unfold recurrent_fields in HX. apply in_app_iff in HX as [HX|[<-|[<-|[]]]]; try discriminate.
    destruct (w_add_pub w); [destruct HX as [<-|[]]; discriminate|destruct HX]. }
  assert (X : exists d3, gdec d3 /\ says_gop k prev xs gh d3 /\
    (forall l, In (4, 1 :: l) (others ++ list_field C w others xs) -> d_list d3 = l) /\
    decode_fields C d2 (list_field C w others xs ++ [(5, sig_value (w_max_sig w) sig)]) =
    decode_fields C d3 [(5, sig_value (w_max_sig w) sig)]).
  { unfold list_field. cbv zeta. destruct (_ && _ && _) eqn:EL.
    - apply andb_prop in EL as [EL _]. apply andb_prop in EL as [_ EL]. apply N.leb_le in EL.
      eexists. split; [|split; [|split; [|cbn [app]; apply dec_cons; exact (dec_list d2 _ EL)]]].
      + destruct G2. constructor; assumption.
      + exact S2.
      + intros l HI. apply in_app_iff in HI as [HI|[HI|[]]]; [destruct (OT _ HI); reflexivity|]. injection HI as <-. reflexivity.
    - exists d2. split; [exact G2|]. split; [exact S2|]. split; [|reflexivity].
      intros l HI. rewrite app_nil_r in HI. destruct (OT _ HI). reflexivity. }
  destruct X as (d3 & G3 & S3 & L3 & ->).
  erewrite dec_cons by (exact (dec_signature d3 sig HL (gd_sig _ G3))). cbn [decode_fields].
  eexists. split; [reflexivity|]. split; [|split; [exact S3|split; [reflexivity|split; [reflexivity|exact L3]]]].
  destruct G3. constructor; try assumption.
  cbn. unfold padded. rewrite app_length, repeat_length. lia.
Qed.

(** ** The recurrent fields alone *)

Definition opt_tags (fs : list (N * list N)) : Prop := Forall (fun f => fst f <= 8) fs.

Lemma opt_step f d t v r rem any : field_fits (t, v) -> t <= 8 ->
  opt_loop C (S f) d (field_bytes (t, v) ++ r) (nlen (field_bytes (t, v)) + rem) any =
  (if always_present t then opt_loop C f d r rem any
   else do (d1, st) <- decode_tag C d t (v ++ r) (nlen v);
        if is_ok st then opt_loop C f d1 r rem true else Def (d1, any)).
Proof.
  intros Hf Ht. pose proof (field_bytes_len _ Hf) as HL. cbn [fst snd] in HL. cbn [opt_loop].
  destruct (N.eqb_spec (nlen (field_bytes (t, v)) + rem) 0) as [E|_]; [rewrite HL in E; lia|].
  rewrite header_field by exact Hf. cbn [obind fst snd].
  destruct (N.ltb_spec 8 t); [lia|].
  assert (ES : skipn (N.to_nat (nlen v)) (v ++ r) = r).
  { unfold nlen. rewrite Nat2N.id. apply skipn_app_exact. }
  assert (ER : nlen (field_bytes (t, v)) + rem - N.of_nat (1 + len_bytes t) - nlen v = rem) by (rewrite HL; lia).
  rewrite ES, ER. reflexivity.
Qed.

(** Decoding only the recurrent fields, in the order in which the signer writes them. *)
Fixpoint opt_fields_dec (d : dec) (fs : list (N * list N)) (any : bool) : out (dec * bool) :=
  match fs with
  | [] => Def (d, any)
  | (t, v) :: r =>
      if always_present t then opt_fields_dec d r any
      else do (d1, st) <- decode_tag C d t v (nlen v);
           if is_ok st then opt_fields_dec d1 r true else Def (d1, any)
  end.

Lemma opt_all fs : forall f d r any x, Forall field_fits fs -> Forall (fun f => fst f <= 8) fs -> (length fs <= f)%nat ->
  opt_fields_dec d fs any = Def x -> opt_loop C f d (fields_bytes fs ++ r) (nlen (fields_bytes fs)) any = Def x.
Proof.
  induction fs as [|[t v] fs IH]; intros f d r any x HF H8 HL HD.
  - cbn [opt_fields_dec] in HD. destruct f; exact HD.
  - apply Forall_cons_iff in HF as [Hf HF]. apply Forall_cons_iff in H8 as [Ht H8]. destruct f as [|f]; [cbn in HL; lia|].
    cbn [length] in HL. unfold fields_bytes. cbn [map concat]. fold (fields_bytes fs).
    rewrite <- app_assoc, nlen_app', opt_step by assumption. cbn [opt_fields_dec] in HD.
    destruct (always_present t).
    + apply IH; try assumption. lia.
    + destruct (decode_tag C d t v (nlen v)) as [[d1 st]|] eqn:ET; [|discriminate]. cbn [obind] in HD.
      rewrite (decode_tag_mono C d t v (nlen v) (fields_bytes fs ++ r) _ ET). cbn [obind].
      destruct (is_ok st); [|exact HD]. apply IH; try assumption. lia.
Qed.

Lemma dec_optional d fs r x : fs <> [] -> Forall wire_ok fs -> Forall (fun f => fst f <= 8) fs ->
  opt_fields_dec d fs false = Def x -> decode_optional C d (wires fs ++ r) (nlen (wires fs)) = Def x.
Proof.
  intros NE HF H8 HD. rewrite wires_fields by exact HF. unfold decode_optional.
  assert (HF2 : Forall field_fits fs) by (eapply Forall_impl; [|exact HF]; intros f; apply wire_ok_fits).
  assert (G : (length fs <= length (fields_bytes fs))%nat).
  { clear. induction fs as [|[t v] fs IH]; [cbn; lia|]. unfold fields_bytes in *. cbn [map concat].
    rewrite app_length. assert (L : (1 <= length (field_bytes (t, v)))%nat) by (unfold field_bytes; cbn [length app]; lia). cbn [length]. lia. }
  destruct (N.eqb_spec (nlen (fields_bytes fs)) 0) as [E|_].
  { destruct fs; [congruence|]. unfold nlen in E. cbn [length] in G. lia. }
  apply opt_all; try assumption. eapply Nat.le_trans; [exact G|]. rewrite app_length. lia.
Qed.

(** From a decoder that has seen nothing yet. *)
Lemma dec_first d : w_add_pub w = true ->
  h_type (d_handle d) = h_oid (d_handle d) -> match h_prim (d_handle d) with Some x => x_oid x = w_oid w | None => True end -> d_has_pub d = false ->
  match d_sig d with Some s => length s = w_max_sig w | None => True end ->
  length (d_linked d) = 64%nat -> length (d_gop d) = 64%nat -> d_l_changed d = false ->
  forall k prev xs gh ts sig, w_using w = false -> exists d', gdec d' /\
    opt_fields_dec d (gop_fields_with C w k true prev xs gh ts ++ [(5, sig_value (w_max_sig w) sig)]) false = Def (d', true).
Proof.
  intros HA HT HN HH HS L1 L2 HCh k prev xs gh ts sig HU.
  unfold gop_fields_with. cbv zeta. rewrite HU. cbn [negb andb]. unfold recurrent_fields at 1. rewrite HA.
  cbn [app opt_fields_dec]. assert (always_present 2 = false) as -> by reflexivity.
  change (decode_tag C d 2) with (decode_public_key C d).
  rewrite (dec_public_key d) by (intros E; congruence). cbn [obind is_ok svrc_eqb].
  assert (always_present 3 = false) as -> by reflexivity.
  match goal with |- context [decode_tag C ?e 3] => set (d1 := e) end.
  destruct (dec_product d1) as [l EP]. change (decode_tag C d1 3) with (decode_product d1). rewrite EP. cbn [obind is_ok svrc_eqb].
  assert (always_present 7 = false) as -> by reflexivity.
  match goal with |- context [decode_tag C ?e 7] => set (d2 := e) end.
  destruct (dec_crypto d2 HT) as (h' & H1 & H2 & H3 & EC). cbn [app] in EC.
  change (decode_tag C d2 7) with (decode_crypto C d2). rewrite EC. cbn [obind is_ok svrc_eqb].
  assert (always_present 1 = true) as -> by reflexivity.
  exists (set_d_vhs hs (set_d_algo_known true (set_d_handle h' d2))). split.
  - constructor; try assumption; try reflexivity; cbn. rewrite H3. exact HN.
  - match goal with |- opt_fields_dec _ (?a ++ _) _ = _ => assert (EL : a = [] \/ exists l, a = [(4, l)]) end.
    { unfold list_field. cbv zeta. destruct (_ && _ && _); [right; eexists; reflexivity|left; reflexivity]. }
    destruct EL as [EL|[l4 EL]]; rewrite EL; reflexivity.
Qed.

Lemma opt_tags_ok k rec prev xs gh ts sig : Forall (fun f : N * list N => fst f <= 8) (gop_fields_with C w k rec prev xs gh ts ++ [(5, sig_value (w_max_sig w) sig)]).
Proof.
  unfold gop_fields_with. cbv zeta. apply Forall_app. split; [|apply Forall_cons; [cbn; lia|apply Forall_nil]].
  apply Forall_app. split; [apply Forall_app; split|].
  - destruct (rec && negb (w_using w)); [|apply Forall_nil]. unfold recurrent_fields. apply Forall_app. split.
    + destruct (w_add_pub w); [apply Forall_cons; [cbn; lia|]|]; apply Forall_nil.
    + repeat (apply Forall_cons; [cbn; lia|]). apply Forall_nil.
  - apply Forall_cons; [cbn; lia|apply Forall_nil].
  - unfold list_field. cbv zeta. destruct (_ && _ && _); [apply Forall_cons; [cbn; lia|]|]; apply Forall_nil.
Qed.

End Dec.

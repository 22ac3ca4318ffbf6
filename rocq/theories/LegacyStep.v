(** Validation of a recording of an older version, call by call: lemmas. *)
From Verif Require Import Base BaseProofs Epb EpbProofs Nalu NaluSpec NaluProofs Crypto Types Hash Tlv TlvProofs EncProofs CodecSpec CodecProofs
  SeiSpec SeiProofs Signer SignSpec GopSpec GopProofs VTypes NaluList Validator SeiHashProofs VListProofs VUnsigned E2eSpec E2eDec E2eList E2eVal E2eStep MatchProofs
  LegacyTypes Legacy LegacySpec LegacyDec LegacyList LegacyVal.
Local Open Scope N_scope.

(** The copy of the NALU of the last item, and leaving the call. *)
Definition nlike (n m : nalu) : Prop :=
  n_gop_sei m = n_gop_sei n /\ n_first_in_gop m = n_first_in_gop n /\ n_hashable m = n_hashable n /\ n_valid m = n_valid n /\
  n_first_part m = n_first_part n /\ n_last_part m = n_last_part n /\ n_reserved m = n_reserved n /\ n_golden m = n_golden n /\
  n_tlv_size m = n_tlv_size n /\ n_tlv_mem m = firstn (N.to_nat (n_tlv_size n)) (n_tlv_mem n).
Definition closed (it : litem) (m : nalu) : litem := set_x_own true (set_x_nalu (NOk m) it).

Lemma leave_own l : Forall (fun it => x_own it = true) l -> leave l = l.
Proof. induction 1 as [|it l E _ IH]; [reflexivity|]. cbn [leave map]. fold (leave l). rewrite IH, E. destruct (x_nalu it); reflexivity. Qed.
Lemma close_last l it n : x_nalu it = NOk n -> Forall (fun it => x_own it = true) l -> n_tlv_size n <= nlen (n_tlv_mem n) -> n_tlv_size n < 2 ^ 63 ->
  exists m, l_copy_last (l ++ [it]) = Def (l ++ [closed it m], SV_OK) /\ leave (l ++ [closed it m]) = l ++ [closed it m] /\ nlike n m.
Proof.
  intros E F S1 S2. change (2 ^ 63) with 9223372036854775808 in S2. unfold l_copy_last. rewrite rev_app_distr. cbn [rev app l_copy_rev]. rewrite E. cbn [look obind]. unfold copy_nalu.
  destruct (N.leb_spec 9223372036854775808 (n_tlv_size n)); [lia|]. destruct (N.ltb_spec (nlen (n_tlv_mem n)) (n_tlv_size n)); [lia|].
  cbn [negb andb obind rev]. rewrite rev_involutive. eexists. split; [reflexivity|]. split.
  - apply leave_own. apply Forall_app. split; [exact F|]. constructor; [reflexivity|constructor].
  - repeat split.
Qed.
Lemma nlike_old n m l : nlike n m -> old_nalu n l -> old_nalu m l.
Proof.
  intros (M1 & M2 & M3 & M4 & M5 & M6 & M7 & M8 & M9 & M10) (S1 & S2 & S3 & S4 & S5 & S6 & S7 & S8 & S9 & (r & S10) & S11). unfold old_nalu.
  rewrite M1, M2, M3, M4, M5, M6, M7, M8, M9. repeat (split; [assumption|]). split; [|exact S11]. exists []. rewrite M10, S9, S10, app_nil_r.
  unfold nlen. rewrite Nat2N.id. apply firstn_app_len. reflexivity.
Qed.

Definition hash_of (H : list N -> list N) (xs : list (list N)) (x : list N) : list N :=
  match xs with [] => H x | x0 :: _ => H (H x0 ++ H x) end.
Lemma hashes_snoc H xs x : hashes H (xs ++ [x]) = hashes H xs ++ [hash_of H xs x].
Proof. destruct xs as [|x0 r]; [reflexivity|]. cbn [app hashes hash_of]. rewrite map_app. reflexivity. Qed.

Section LStep.
Variable C : crypto.
Hypothesis HC : crypto_ok C.
Variable c : codec.
Variable w : settings.
Variable hs : nat.
Hypothesis OS : old_settings C w hs.
Variable f : nat.

Let H := c_hash C (w_oid w).
Let Hhs : (0 < hs <= 64)%nat := o_small C HC w hs OS.
Let HL : forall x, length (H x) = hs := o_len C HC w hs OS.
Notation gdec := (gdec w hs).

Lemma q_put_same q b r : q_put_hst (mkHst (d_handle (q_dec q)) b r) q = set_q_has_ref r (set_q_buddies b q).
Proof. destruct q as [? d]. destruct d. reflexivity. Qed.

(** ** Hashing *)

Lemma o_simply h n x : h_type h = w_oid w -> n_first_part n = true -> hash_input n = Def x -> x <> [] -> simply_hash C h n = Def (h, SV_OK, H x).
Proof. apply simply_ok. Qed.
Lemma o_buddies b x : length b = 128%nat -> exists b2, put_at hs b (H x) = Def b2 /\ length b2 = 128%nat /\ firstn hs b2 = firstn hs b /\
  firstn (2 * hs) b2 = firstn hs b ++ H x.
Proof. pose proof OS as [O1 (_ & O2 & _) _ (_ & O3 & _) (O4 & _) O5]. apply buddies_two; assumption. Qed.

Lemma q_wrap_other q n x : gdec (q_dec q) -> length (q_buddies q) = 128%nat -> n_gop_sei n = false -> n_first_part n = true -> n_last_part n = true ->
  hash_input n = Def x -> x <> [] -> (n_first_in_gop n = false \/ q_has_ref q = true) ->
  exists b2, hash_wrapper C (q_hst q) n hs = Def (mkHst (d_handle (q_dec q)) b2 (q_has_ref q), SV_OK, Some (H (firstn hs (q_buddies q) ++ H x))) /\
    length b2 = 128%nat /\ firstn hs b2 = firstn hs (q_buddies q).
Proof.
  intros G LB S1 S2 S3 E N0 FR. unfold hash_wrapper, q_hst. rewrite S3, S1. cbn [negb k_has_ref k_handle k_buddies].
  assert (EF : n_first_in_gop n && negb (q_has_ref q) = false) by (destruct FR as [->| ->]; [reflexivity|apply andb_false_r]).
  rewrite EF, (o_simply _ _ _ (gd_type _ _ _ G) S2 E N0). cbn [obind is_ok svrc_eqb].
  destruct (o_buddies (q_buddies q) x LB) as (b2 & E1 & E2 & E3 & E4). rewrite E1. cbn [obind]. rewrite E4.
  unfold hash_data. destruct (firstn hs (q_buddies q) ++ H x) as [|z r] eqn:EZ.
  { apply (f_equal (@length N)) in EZ. rewrite app_length, HL in EZ. cbn in EZ. lia. }
  rewrite <- EZ. rewrite (gd_type _ _ _ G). exists b2. split; [reflexivity|]. split; assumption.
Qed.
Lemma q_wrap_first q n x : gdec (q_dec q) -> length (q_buddies q) = 128%nat -> n_gop_sei n = false -> n_first_part n = true -> n_last_part n = true ->
  hash_input n = Def x -> x <> [] -> n_first_in_gop n = true -> q_has_ref q = false ->
  exists b2, hash_wrapper C (q_hst q) n hs = Def (mkHst (d_handle (q_dec q)) b2 true, SV_OK, Some (H x)) /\
    length b2 = 128%nat /\ firstn hs b2 = H x.
Proof.
  intros G LB S1 S2 S3 E N0 F1 F2. unfold hash_wrapper, q_hst. rewrite S3, S1. cbn [negb k_has_ref k_handle k_buddies].
  rewrite F1, F2. cbn [andb negb]. rewrite (o_simply _ _ _ (gd_type _ _ _ G) S2 E N0). cbn [obind is_ok svrc_eqb].
  rewrite (firstn_all2 (H x)) by (rewrite HL; lia).
  destruct (firstn_put (q_buddies q) (H x) hs (HL _)) as (b2 & E1 & E2 & E3); [lia|]. rewrite E1. cbn [obind].
  exists b2. split; [reflexivity|]. split; [lia|exact E2].
Qed.
Lemma q_wrap_sei q n x : gdec (q_dec q) -> n_gop_sei n = true -> n_first_part n = true -> n_last_part n = true ->
  hash_input n = Def x -> x <> [] -> hash_wrapper C (q_hst q) n hs = Def (q_hst q, SV_OK, Some (H x)).
Proof.
  intros G S1 S2 S3 E N0. unfold hash_wrapper, q_hst. rewrite S3, S1. cbn [negb k_handle].
  rewrite (o_simply _ _ _ (gd_type _ _ _ G) S2 E N0). reflexivity.
Qed.

(** The reference, after the hashed NALUs [xs] of a GOP. *)
Definition refd (xs : list (list N)) (q : lsv) : Prop :=
  match xs with [] => q_has_ref q = false | x0 :: _ => q_has_ref q = true /\ firstn hs (q_buddies q) = H x0 end.
Definition xlike (it it2 : litem) : Prop :=
  x_nalu it2 = x_nalu it /\ x_own it2 = x_own it /\ x_status it2 = x_status it /\ x_need it2 = x_need it /\ x_bad it2 = x_bad it /\
  x_used it2 = x_used it /\ x_decoded it2 = x_decoded it.

Lemma q_hash_other q it n x xs : gdec (q_dec q) -> length (q_buddies q) = 128%nat -> refd xs q -> xs <> [] -> gs_after (q_gs q) = false -> length (x_hash it) = 64%nat ->
  n_gop_sei n = false -> n_first_part n = true -> n_last_part n = true -> n_hashable n = true ->
  hash_input n = Def x -> x <> [] -> n_first_in_gop n = false ->
  exists b it2, l_hash_item C q n it = Def (set_q_has_ref (q_has_ref q) (set_q_buddies b q), it2, SV_OK) /\
    length b = 128%nat /\ firstn hs b = firstn hs (q_buddies q) /\ xlike it it2 /\ x_second it2 = x_second it /\ read_hash hs (x_hash it2) = Def (hash_of H xs x).
Proof.
  intros G LB RF XS GA LI S1 S2 S3 S4 E N0 F. unfold l_hash_item, qhs. rewrite S4, (gd_vhs _ _ _ G). cbn [negb].
  destruct (q_wrap_other q n x G LB S1 S2 S3 E N0 (or_introl F)) as (b2 & -> & B1 & B2). cbn [obind]. rewrite q_put_same.
  destruct (firstn_put (x_hash it) (H (firstn hs (q_buddies q) ++ H x)) hs (HL _)) as (y & Y1 & Y2 & Y3); [lia|]. rewrite Y1. cbn [obind is_ok svrc_eqb negb].
  rewrite F. cbn [orb]. change (gs_after (q_gs (set_q_has_ref (q_has_ref q) (set_q_buddies b2 q)))) with (gs_after (q_gs q)). rewrite GA. cbn [andb].
  exists b2, (set_x_hash y it). split; [reflexivity|]. split; [exact B1|]. split; [exact B2|]. split; [repeat split|]. split; [reflexivity|].
  cbn [set_x_hash x_hash]. unfold read_hash. destruct (Nat.leb_spec hs (length y)); [|lia]. rewrite Y2.
  destruct xs as [|x0 r]; [congruence|]. destruct RF as (_ & ->). reflexivity.
Qed.
Lemma q_hash_first q it n x xs : gdec (q_dec q) -> length (q_buddies q) = 128%nat -> refd xs q -> length (x_hash it) = 64%nat ->
  n_gop_sei n = false -> n_first_part n = true -> n_last_part n = true -> n_hashable n = true ->
  hash_input n = Def x -> x <> [] -> n_first_in_gop n = true ->
  exists b it2, l_hash_item C q n it = Def (set_q_has_ref true (set_q_buddies b q), it2, SV_OK) /\
    length b = 128%nat /\ firstn hs b = H x /\ xlike it it2 /\ x_second it2 = Some (H x) /\ read_hash hs (x_hash it2) = Def (hash_of H xs x).
Proof.
  intros G LB RF LI S1 S2 S3 S4 E N0 F. unfold l_hash_item, qhs. rewrite S4, (gd_vhs _ _ _ G). cbn [negb].
  assert (X : exists b r, hash_wrapper C (q_hst q) n hs = Def (mkHst (d_handle (q_dec q)) b r, SV_OK, Some (hash_of H xs x)) /\ length b = 128%nat).
  { destruct xs as [|x0 rr].
    - destruct (q_wrap_first q n x G LB S1 S2 S3 E N0 F RF) as (b2 & X1 & X2 & X3). do 2 eexists. split; [exact X1|exact X2].
    - destruct RF as (R1 & R2). destruct (q_wrap_other q n x G LB S1 S2 S3 E N0 (or_intror R1)) as (b2 & X1 & X2 & X3). rewrite R2 in X1. do 2 eexists. split; [exact X1|exact X2]. }
  destruct X as (b & r & -> & B1). cbn [obind]. rewrite q_put_same.
  assert (LH : length (hash_of H xs x) = hs) by (unfold hash_of; destruct xs; apply HL).
  destruct (firstn_put (x_hash it) (hash_of H xs x) hs LH) as (y & Y1 & Y2 & Y3); [lia|]. rewrite Y1. cbn [obind is_ok svrc_eqb negb].
  rewrite F. cbn [orb]. set (q1 := set_q_has_ref false (set_q_has_ref r (set_q_buddies b q))).
  destruct (q_wrap_first q1 n x G B1 S1 S2 S3 E N0 F eq_refl) as (b3 & X1 & X2 & X3).
  change (d_vhs (q_dec q1)) with (d_vhs (q_dec q)). rewrite (gd_vhs _ _ _ G), X1. cbn [obind]. rewrite q_put_same.
  exists b3, (set_x_second (Some (H x)) (set_x_hash y it)). split; [unfold q1; destruct q; reflexivity|]. split; [exact X2|]. split; [exact X3|].
  split; [repeat split|]. split; [reflexivity|]. cbn [set_x_second set_x_hash x_hash]. unfold read_hash. destruct (Nat.leb_spec hs (length y)); [|lia]. rewrite Y2. reflexivity.
Qed.
Lemma q_hash_sei q it n x : gdec (q_dec q) -> length (x_hash it) = 64%nat -> n_gop_sei n = true -> n_first_part n = true -> n_last_part n = true -> n_hashable n = true ->
  n_first_in_gop n = false -> hash_input n = Def x -> x <> [] ->
  exists it2, l_hash_item C q n it = Def (q, it2, SV_OK) /\ xlike it it2 /\ x_second it2 = x_second it /\ read_hash hs (x_hash it2) = Def (H x).
Proof.
  intros G LI S1 S2 S3 S4 F E N0. unfold l_hash_item, qhs. rewrite S4, (gd_vhs _ _ _ G). cbn [negb]. rewrite (q_wrap_sei q n x G S1 S2 S3 E N0). cbn [obind].
  destruct (firstn_put (x_hash it) (H x) hs (HL _)) as (y & Y1 & Y2 & Y3); [lia|]. rewrite Y1. cbn [obind is_ok svrc_eqb negb]. rewrite F, S1, andb_false_r. cbn [orb].
  exists (set_x_hash y it). split; [destruct q as [? d]; destruct d; reflexivity|]. split; [repeat split|]. split; [reflexivity|].
  cbn [set_x_hash x_hash]. unfold read_hash. destruct (Nat.leb_spec hs (length y)); [|lia]. rewrite Y2. reflexivity.
Qed.

(** ** The state of a session *)

(** [b] tells whether nothing was validated yet, [k] is the counter that the next SEI should have. *)
Record lst (b : bool) (k : N) (q : lsv) : Prop := mkLst {
  s_codec : q_codec q = c;
  s_dec : gdec (q_dec q);
  s_bud : length (q_buddies q) = 128%nat;
  s_hashes : length (q_hashes q) = 128%nat;
  s_hash : length (q_hash q) = 64%nat;
  s_first : q_first q = b;
  s_reset : q_reset q = false;
  s_synced : q_synced q = negb b;
  s_auth : a_auth (q_acc q) = if b then NotSigned else AuthOk;
  s_chg : a_changed (q_acc q) = false;
  s_cnt : b = false -> u32 (d_counter (q_dec q) + 1) = k mod 2 ^ 32 }.

(** What a NALU that completes nothing leaves. *)
Definition entered (sg fs : bool) (q : lsv) : lsv :=
  set_q_signing sg (set_q_first_sei fs (q_on_acc (fun a => set_a_recv (u32 (a_recv a + 1)) a) (set_q_result false q))).
Lemma lst_entered b k q sg fs : lst b k q -> lst b k (entered sg fs q).
Proof. intros []. constructor; assumption. Qed.
Lemma lst_items b k q l : lst b k q -> lst b k (set_q_items l q).
Proof. intros []. constructor; assumption. Qed.
Lemma lst_bud b k q r y : length y = 128%nat -> lst b k q -> lst b k (set_q_has_ref r (set_q_buddies y q)).
Proof. intros L []. constructor; assumption. Qed.
Lemma lst_gs b k q g : lst b k q -> lst b k (set_q_gs g q).
Proof. intros []. constructor; assumption. Qed.

Lemma pic_ne p : seen c p -> legal c p -> p_data p <> [].
Proof. intros _ (D0 & _). exact D0. Qed.

(** A NALU that is not hashed. *)
Lemma calm_step b k q p want : lst b k q -> Forall (fun it => x_own it = true) (q_items q) -> seen c p -> legal c p -> p_bytes p = None ->
  exists it, lcalm it /\ l_add_nalu C (S f) q (p_data p) want = Def (set_q_items (q_items q ++ [it]) (entered (q_signing q) false q), SV_OK, None).
Proof.
  intros L FO PS PL PB. destruct (pic_parse c p PS PL) as (n & EP & S1 & S2 & S3 & S4 & S5 & S6 & K).
  destruct K as [(_ & _ & x & X & _)|(S7 & S8 & _ & S9)]; [congruence|].
  unfold l_add_nalu. pose proof (pic_ne p PS PL) as NE. destruct (p_data p) as [|d0 dr] eqn:ED; [congruence|]. rewrite <- ED in *. clear ED d0 dr NE.
  unfold l_add_h26x. rewrite (s_codec _ _ _ L), EP. cbn [obind]. unfold l_add_body. cbv zeta.
  destruct (Z.ltb_spec (n_valid n) 0); [lia|]. rewrite S1, orb_false_r, andb_false_r.
  match goal with |- context [l_register C ?y n] => set (q1 := y) end. change q1 with (entered (q_signing q) false q). clear q1. set (q1 := entered (q_signing q) false q).
  set (it := litem_create n).
  assert (ER : l_register C q1 n = Def (q1, it, SV_OK)).
  { unfold l_register. destruct (Z.eqb_spec (n_valid n) 0); [reflexivity|]. unfold update_hashable. rewrite S7. cbn [negb orb obind]. unfold l_hash_item. rewrite S7. reflexivity. }
  rewrite ER. cbn [obind is_ok svrc_eqb negb].
  change (q_items (q_on_acc _ _)) with (q_items q). 
  assert (CA : forall m, nlike n m -> lcalm (closed it m)).
  { intros m (M1 & M2 & M3 & M4 & _). exists m. split; [reflexivity|]. split; [congruence|]. split; [congruence|]. split; [|repeat split].
    cbn [closed set_x_own set_x_nalu x_status it litem_create]. unfold status_of. rewrite S7. destruct S8 as [-> | ->]; [right|left]; reflexivity. }
  unfold l_maybe_validate. change (q_items (set_q_items (q_items q ++ [it]) q1)) with (q_items q ++ [it]).
  assert (EF : l_feasible (rev (q_items q ++ [it])) = Def false).
  { rewrite rev_app_distr. cbn [rev app l_feasible]. cbn [it litem_create x_nalu look obind]. rewrite S7. reflexivity. }
  rewrite EF. cbn [obind]. unfold l_recurrent. change (q_dec (set_q_items (q_items q ++ [it]) q1)) with (q_dec q). rewrite (gd_has _ _ _ (s_dec _ _ _ L)). cbn [orb obind andb negb].
  change (q_first_sei (set_q_items (q_items q ++ [it]) q1)) with false. cbn iota. cbn [obind].
  change (q_items (set_q_items (q_items q ++ [it]) q1)) with (q_items q ++ [it]).
  destruct (close_last (q_items q) it n eq_refl FO) as (m & M1 & M2 & M3); [rewrite S3; apply N.le_0_l|rewrite S3; reflexivity|].
  rewrite M1. cbn [obind is_ok svrc_eqb]. rewrite M2. exists (closed it m). split; [exact (CA m M3)|]. reflexivity.
Qed.

(** A hashed NALU that does not start a GOP. *)
Lemma hash_step k q p x xs want : lst false k q -> q_signing q = true -> gs_after (q_gs q) = false -> refd xs q -> xs <> [] -> uses hs (hashes H xs) (q_items q) ->
  seen c p -> legal c p -> p_bytes p = Some x -> p_first p = false ->
  exists q2, l_add_nalu C (S f) q (p_data p) want = Def (q2, SV_OK, None) /\ lst false k q2 /\ q_signing q2 = true /\ gs_after (q_gs q2) = false /\
    refd (xs ++ [x]) q2 /\ uses hs (hashes H (xs ++ [x])) (q_items q2).
Proof.
  intros L SG GA RF XS U PS PL PB PF. pose proof (uses_own _ _ _ U) as FO. destruct (pic_parse c p PS PL) as (n & EP & S1 & S2 & S3 & S4 & S5 & S6 & K).
  destruct K as [(S7 & S8 & x' & X & S9 & S10)|(_ & _ & X & _)]; [|congruence]. assert (x' = x) by congruence. subst x'.
  unfold l_add_nalu. pose proof (pic_ne p PS PL) as NE. destruct (p_data p) as [|d0 dr] eqn:ED; [congruence|]. rewrite <- ED in *. clear ED d0 dr NE.
  unfold l_add_h26x. rewrite (s_codec _ _ _ L), EP. cbn [obind]. unfold l_add_body. cbv zeta. rewrite S8. change (1 <? 0)%Z with false. cbn iota.
  rewrite S1, orb_false_r, andb_false_r.
  match goal with |- context [l_register C ?y n] => set (q1 := y) end. change q1 with (entered (q_signing q) false q). clear q1. set (q1 := entered (q_signing q) false q).
  unfold l_register. rewrite S8. change (1 =? 0)%Z with false. cbn iota. unfold update_hashable. rewrite S7, S1. cbn [negb orb obind].
  set (it0 := set_x_nalu (NOk n) (litem_create n)).
  rewrite PF in S6.
  destruct (q_hash_other q1 it0 n x xs (s_dec _ _ _ L) (s_bud _ _ _ L) RF XS GA eq_refl S1 S4 S5 S7 S9 S10 S6) as (bb & it & -> & B1 & B2 & (X1 & X2 & X3 & X4 & X5 & X6 & X7) & X8 & X9).
  cbn [obind is_ok svrc_eqb negb]. change (q_items (q_on_acc _ _)) with (q_items q).
  set (q2 := set_q_has_ref (q_has_ref q1) (set_q_buddies bb q1)).
  unfold l_maybe_validate. change (q_items (set_q_items (q_items q ++ [it]) q2)) with (q_items q ++ [it]).
  rewrite (feasible_wait (q_items q) it n (uses_plain _ _ _ U) X1 S1 S6). cbn [obind]. unfold l_recurrent. change (q_dec (set_q_items (q_items q ++ [it]) q2)) with (q_dec q).
  rewrite (gd_has _ _ _ (s_dec _ _ _ L)). cbn [orb obind andb negb].
  change (q_first_sei (set_q_items (q_items q ++ [it]) q2)) with false. cbn iota. cbn [obind].
  change (q_items (set_q_items (q_items q ++ [it]) q2)) with (q_items q ++ [it]).
  destruct (close_last (q_items q) it n X1 FO) as (m & M1 & M2 & M3); [rewrite S3; apply N.le_0_l|rewrite S3; reflexivity|].
  rewrite M1. cbn [obind is_ok svrc_eqb]. rewrite M2. cbn [negb]. change (q_result (set_q_items _ (set_q_items _ q2))) with false. cbn iota.
  eexists. split; [reflexivity|]. split; [apply lst_items, lst_items, lst_bud; [exact B1|]; apply lst_entered; exact L|]. split; [exact SG|]. split; [exact GA|]. split.
  - destruct xs as [|x0 r]; [congruence|]. cbn [app refd]. destruct RF as [R1 R2]. split; [exact R1|]. cbn. rewrite B2. exact R2.
  - change (q_items (set_q_items (q_items q ++ [closed it m]) _)) with (q_items q ++ [closed it m]). rewrite hashes_snoc. apply uses_app; [exact U|]. apply uses_hash; [| |constructor].
    + destruct M3 as (Y1 & Y2 & Y3 & Y4 & _). exists m. split; [reflexivity|]. split; [congruence|]. split; [congruence|].
      split; [cbn; rewrite X3; cbn; unfold status_of; rewrite S8, S7; reflexivity|]. split; [cbn; rewrite X5; reflexivity|]. split; [cbn; rewrite X6; reflexivity|]. split; [reflexivity|].
      split; [congruence|]. unfold x_has2. cbn. rewrite X8. discriminate.
    + unfold hash_to_use. cbn [closed set_x_own set_x_nalu x_need x_second x_hash]. rewrite X4. cbn [it0 set_x_nalu litem_create x_need]. exact X9.
Qed.

(** A SEI. *)
Definition has_sei (k : N) (xs : list (list N)) (s : litem) : Prop :=
  lsei s /\ x_own s = true /\ x_used s = false /\ x_decoded s = false /\ exists n sig ts sp, let l := old_fields C w k xs ts ++ [old_sig w sig] in
    x_nalu s = NOk n /\ old_nalu n (wires l) /\ Forall wire_ok l /\ read_hash hs (x_hash s) = Def (H sp) /\ (0 < length sig <= w_max_sig w)%nat /\
    match ts with Some t => (-9223372036854775808 <= t < 9223372036854775808)%Z | None => True end /\
    (w_frame w = true -> nlen (old_list C w xs) <= 19200) /\
    c_verify C (w_pub w) sig (old_digest C w xs sp) = 1%Z.

Lemma sei_step b k q y xs x want : lst b k q -> refd xs q -> uses hs (hashes H xs) (q_items q) -> old_sei_for C c w k (xs ++ [x]) y ->
  exists q2 s, l_add_nalu C (S f) q y want = Def (q2, SV_OK, None) /\ lst b k q2 /\ q_signing q2 = true /\ refd xs q2 /\
    q_items q2 = q_items q ++ [s] /\ has_sei k (xs ++ [x]) s.
Proof.
  intros L RF U SF. pose proof (uses_own _ _ _ U) as FO.
  destruct (old_parse C HC w hs OS c k _ y SF) as (n & n2 & sig & ts & sp & E1 & E2 & E3 & E4 & E5 & E6 & E7 & E8 & E9 & E10 & E11 & E12 & E13 & E14 & E15 & E16).
  unfold l_add_nalu. destruct y as [|d0 dr] eqn:ED; [congruence|]. rewrite <- ED in *. clear ED d0 dr.
  unfold l_add_h26x. rewrite (s_codec _ _ _ L), E1. cbn [obind]. unfold l_add_body. cbv zeta. rewrite E2. change (1 <? 0)%Z with false. cbn iota.
  rewrite E3, orb_true_r, andb_true_r.
  match goal with |- context [l_register C ?y n] => set (q1 := y) end. change q1 with (entered true (negb (q_signing q)) q). clear q1. set (q1 := entered true (negb (q_signing q)) q).
  unfold l_register. rewrite E2. change (1 =? 0)%Z with false. cbn iota. rewrite E7. cbn [obind].
  set (it0 := set_x_nalu (NOk n2) (litem_create n)).
  pose proof E10 as (S1 & S2 & S3 & S4 & S5 & S6 & S7 & S8 & S9 & (r & S10) & S11).
  destruct (q_hash_sei q1 it0 n2 sp (s_dec _ _ _ L) eq_refl S1 S6 S7 S3 S5 E8 E9) as (it & -> & (X1 & X2 & X3 & X4 & X5 & X6 & X7) & X8 & X9).
  cbn [obind is_ok svrc_eqb negb]. change (q_items (q_on_acc _ _)) with (q_items q).
  assert (LS : lsei it).
  { exists n2. split; [exact X1|]. repeat (split; [assumption|]). split; [rewrite X3; cbn; unfold status_of; rewrite E2, E6; reflexivity|]. split; [exact X4|]. split; [exact X5|exact X8]. }
  unfold l_maybe_validate. set (q2 := set_q_items (q_items q ++ [it]) q1). change (q_items q2) with (q_items q ++ [it]).
  rewrite (feasible_sei (q_items q) it LS). cbn [obind]. unfold l_recurrent. change (q_dec q2) with (q_dec q). rewrite (gd_has _ _ _ (s_dec _ _ _ L)). cbn [orb obind andb negb].
  cbn [l_validate_loop]. destruct (pend_sei q2 eq_refl hs _ (q_items q) it eq_refl U LS) as (g & -> & GA). cbn [obind negb orb].
  change (q_items (set_q_gs g q2)) with (q_items q ++ [it]).
  destruct (close_last (q_items q) it n2 X1 FO) as (m & M1 & M2 & M3).
  { rewrite S9, S10. unfold nlen. rewrite app_length. lia. }
  { rewrite S9. eapply N.lt_trans; [exact S11|reflexivity]. }
  rewrite M1. cbn [obind is_ok svrc_eqb]. rewrite M2. cbn [negb]. change (q_result (set_q_items _ (set_q_gs g q2))) with false. cbn iota.
  do 2 eexists. split; [reflexivity|]. split; [apply lst_items, lst_gs, lst_items, lst_entered; exact L|]. split; [reflexivity|]. split; [exact RF|]. split; [reflexivity|].
  pose proof (nlike_old _ _ _ M3 E10) as OM. split.
  - pose proof OM as (Y1 & Y2 & Y3 & Y4 & Y5 & _). destruct LS as (n0 & Z1 & Z2 & Z3 & Z4 & Z5 & Z6 & Z7 & Z8 & Z9). exists m. split; [reflexivity|]. repeat (split; [assumption|]). exact Z9.
  - split; [reflexivity|]. split; [cbn; rewrite X6; reflexivity|]. split; [cbn; rewrite X7; reflexivity|]. exists m, sig, ts, sp.
    split; [reflexivity|]. split; [exact OM|]. split; [exact E15|]. split; [exact X9|]. split; [exact E11|]. split; [exact E12|]. split; [exact E13|exact E14].
Qed.

End LStep.

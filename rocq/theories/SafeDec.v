(** Decoding SEIs in the right format, whatever they say: lemmas. *)
From Verif Require Import Base BaseProofs Epb EpbProofs Nalu NaluProofs Crypto Types Hash Tlv TlvProofs EncProofs CodecSpec CodecProofs
  SeiSpec SeiProofs SessProofs Signer SignSpec GopSpec VTypes NaluList Validator ValidSpec VReset E2eDec SafeSpec.
Local Open Scope N_scope.

(** The public keys and the sizes of the signature fields that turn up. *)
Class okkeys := { okkey : list N -> Prop; oksig : nat -> Prop }.

Section Dec.
Context {KK : okkeys}.
Variable C : crypto.
Hypothesis HC : crypto_ok C.
Variable oid : list N.
Variable hs : nat.
Hypothesis HO : c_oid C oid = OidDigest hs.
Hypothesis HW0 : oid <> [].

Lemma soid_size : oid_size C oid = hs.
Proof. unfold oid_size. rewrite HO. reflexivity. Qed.
Lemma shs : (0 < hs <= 64)%nat.
Proof. exact (ok_size C HC _ _ HO). Qed.

(** Everything the decoders need to find. *)
Record dok (d : dec) : Prop := mkDok {
  dk_type : h_type (d_handle d) = h_oid (d_handle d);
  dk_two : h_type (d_handle d) = oid \/ h_type (d_handle d) = sha256_der;
  dk_vhs : d_vhs d = hash_size C (d_handle d);
  dk_prim : match h_prim (d_handle d) with Some x => x_oid x = oid | None => True end;
  dk_linked : length (d_linked d) = 64%nat;
  dk_gop : length (d_gop d) = 64%nat;
  dk_key : d_has_pub d = true -> okkey (d_pub d) /\ d_pub d <> [] /\ d_vkey d = Some (d_pub d);
  dk_sig : match d_sig d with Some s => oksig (length s) | None => True end
}.
Definition ff (f : N * list N) : Prop := formed_field C oid f /\ key_in okkey f.
(** What decoding fields does to the rest. *)
Definition dstep (d d' : dec) : Prop :=
  (h_type (d_handle d) = oid -> h_type (d_handle d') = oid) /\
  (d_algo_known d = true -> d_algo_known d' = true) /\ (d_has_pub d = true -> d_has_pub d' = true).
Definition dalg (d : dec) := (d_handle d, d_algo_known d, d_has_pub d, d_pub d, d_vkey d).
Lemma dstep_refl d : dstep d d.
Proof. repeat split; auto. Qed.
Lemma dstep_trans a b c : dstep a b -> dstep b c -> dstep a c.
Proof. intros (A1 & A2 & A3) (B1 & B2 & B3). repeat split; auto. Qed.
Lemma dstep_same a b : dalg b = dalg a -> dstep a b.
Proof. intros H. unfold dalg in H. injection H as H1 H2 H3 _ _. unfold dstep. rewrite H1, H2, H3. auto. Qed.
Lemma dok_same a b : dok a -> d_handle b = d_handle a -> d_vhs b = d_vhs a -> length (d_linked b) = 64%nat -> length (d_gop b) = 64%nat ->
  (d_has_pub b, d_pub b, d_vkey b, d_sig b) = (d_has_pub a, d_pub a, d_vkey a, d_sig a) -> dok b.
Proof. intros [] H1 H2 H3 H4 H5. injection H5 as H5 H6 H7 H8. constructor; rewrite ?H1, ?H2, ?H5, ?H6, ?H7, ?H8; assumption. Qed.

Lemma read8 b r : read_8bits (b :: r) = Def (b, r).
Proof. reflexivity. Qed.
Lemma read16 a b r : exists n, read_16bits (a :: b :: r) = Def (n, r).
Proof. eexists. reflexivity. Qed.
Lemma read32 l r : length l = 4%nat -> exists n, read_32bits (l ++ r) = Def (n, r).
Proof. intros H. do 5 (destruct l as [|? l]; try discriminate). eexists. reflexivity. Qed.
Lemma read64 l r : length l = 8%nat -> exists n, read_64bits (l ++ r) = Def (n, r).
Proof. intros H. do 9 (destruct l as [|? l]; try discriminate). eexists. reflexivity. Qed.

Lemma general_ok d v a ts link gop : v = 3 :: a ++ ts ++ link ++ gop -> length a = 9%nat -> (ts = [0] \/ exists t, length t = 8%nat /\ ts = 1 :: t) ->
  length link = hs -> length gop = hs -> dok d -> exists d', decode_general d v (nlen v) = Def (d', SV_OK) /\ dok d' /\ dalg d' = dalg d.
Proof.
  intros -> LA HT LL LG DK. pose proof shs as [S1 S2].
  assert (EN : nlen (3 :: a ++ ts ++ link ++ gop) = 10 + nlen ts + 2 * N.of_nat hs).
  { unfold nlen. cbn [length]. rewrite !app_length. lia. }
  rewrite EN. do 10 (destruct a as [|? a]; try discriminate). clear LA EN.
  unfold decode_general. cbn [app]. rewrite read8. cbn [obind]. change ((3 <? 1) || (3 <? 3)) with false. cbv iota.
  destruct (read32 [n; n0; n1; n2] (n3 :: n4 :: n5 :: n6 :: n7 :: ts ++ link ++ gop) eq_refl) as (c0 & E0). cbn [app] in E0. rewrite E0. cbn [obind].
  destruct (read16 n3 n4 (n5 :: n6 :: n7 :: ts ++ link ++ gop)) as (c1 & E1). rewrite E1. cbn [obind].
  change (n5 :: n6 :: n7 :: ts ++ link ++ gop) with ([n5; n6; n7] ++ ts ++ link ++ gop). rewrite take_mem_n by reflexivity. cbn [obind].
  change (3 <? 2) with false. change (3 <? 3) with false. cbv iota. destruct DK as [D1 D2 D3 D4 D5 D6 D7 D8].
  assert (FIN : forall d1 used k, d_linked d1 = d_linked d -> d_gop d1 = d_gop d -> d_handle d1 = d_handle d -> d_vhs d1 = d_vhs d -> dalg d1 = dalg d -> d_sig d1 = d_sig d ->
     used + 2 * N.of_nat hs = k -> used < 100 ->
     exists d', (do (d, used) <- (let h := sub64 k used / 2 in if 64 <? h then Undef OobWrite else
           do (lh, p) <- take_mem (N.to_nat h) (link ++ gop); do (gh, p) <- take_mem (N.to_nat h) p; do l1 <- put_mem (d_linked d1) lh; do g1 <- put_mem (d_gop d1) gh;
           Def (set_d_gop g1 (set_d_linked l1 d1), used + 2 * h));
         Def (d, if used =? k then SV_OK else SV_AUTHENTICATION_ERROR)) = Def (d', SV_OK) /\ dok d' /\ dalg d' = dalg d).
  { intros d1 used k H1 H2 H3 H4 H5 H9 HK HU. cbv zeta.
    assert (EH : sub64 k used / 2 = N.of_nat hs) by (rewrite <- HK, sub64_small by lia; lia). rewrite EH.
    destruct (N.ltb_spec 64 (N.of_nat hs)); [lia|]. rewrite Nat2N.id, take_mem_n by (symmetry; exact LL). cbn [obind].
    pose proof (take_mem_n hs gop [] (eq_sym LG)) as T. rewrite app_nil_r in T. rewrite T. cbn [obind]. rewrite H1, H2, !put_mem_def by lia. cbn [obind].
    rewrite HK, N.eqb_refl. eexists. split; [reflexivity|]. split; [|exact H5].
    injection H5 as _ _ H6 H7 H8.
    constructor; cbn [set_d_gop set_d_linked d_handle d_vhs d_linked d_gop d_has_pub d_pub d_vkey d_sig]; rewrite ?H3, ?H4, ?H6, ?H7, ?H8, ?H9; try assumption; rewrite app_length, skipn_length; lia. }
  destruct HT as [->|(t & LT & ->)]; cbn [app]; rewrite read8; cbn [obind].
  - change (0 mod 2 =? 1) with false. cbv iota. cbn [obind]. apply FIN; try reflexivity; unfold nlen; cbn [length]; lia.
  - change (1 mod 2 =? 1) with true. cbv iota. destruct (read64 t (link ++ gop) LT) as (z & ->). cbn [obind]. apply FIN; try reflexivity; unfold nlen; cbn [length]; lia.
Qed.

Lemma key_ok d key : key <> [] -> nlen (2 :: key) < 65536 -> c_pub_ok C key = true -> okkey key -> dok d ->
  exists d', decode_public_key C d (2 :: key) (nlen (2 :: key)) = Def (d', SV_OK) /\ dok d' /\ dstep d d'.
Proof.
  intros K0 KL KP KO [D1 D2 D3 D4 D5 D6 D7 D8]. unfold decode_public_key. rewrite read8. cbn [obind]. change (2 <? 2) with false. change (2 =? 0) with false. cbv iota zeta.
  assert (EN : nlen (2 :: key) = 1 + nlen key) by (unfold nlen; cbn [length]; lia).
  rewrite EN in *. rewrite sub64_small by lia. unfold u16. replace (1 + nlen key - 1) with (nlen key) by lia. rewrite N.mod_small by lia.
  destruct (N.eqb_spec (nlen key) 0) as [Z|Z]; [destruct key; [congruence|unfold nlen in Z; cbn [length] in Z; lia]|].
  rewrite take_mem_exact. cbn [obind]. rewrite KP. cbn [negb]. rewrite N.add_0_r, N.eqb_refl. eexists. split; [reflexivity|].
  destruct (d_has_pub d && _); (split; [constructor; try assumption; intros _; split; [exact KO|]; split; [exact K0|reflexivity]|repeat split; auto]).
Qed.

Lemma product_ok d l : length l = 5%nat -> Forall (Forall (fun b => 0 < b < 256)) l -> dok d ->
  exists d', decode_product d (1 :: flat_map prod_string l) (nlen (1 :: flat_map prod_string l)) = Def (d', SV_OK) /\ dok d' /\ dalg d' = dalg d.
Proof.
  intros L5 HB [D1 D2 D3 D4 D5 D6 D7 D8].
  unfold decode_product. rewrite read8. cbn [obind]. change (1 =? 0) with false. cbv iota.
  assert (RB : Forall (fun o => match o with Some s => Forall (fun b => 0 < b < 256) s | None => True end) (map Some l)) by (apply Forall_map; exact HB).
  assert (PS : flat_map prod_string l = flat_map pstr_value (map Some l)).
  { clear -HB. induction l as [|s l IH]; [reflexivity|]. apply Forall_cons_iff in HB as [Hs Hl].
    cbn [map flat_map]. rewrite IH by exact Hl. f_equal. rewrite pstr_value_eq, <- sent_len. reflexivity. }
  pose proof (rt_strings (map Some l) [] RB) as R. rewrite app_nil_r, map_length, L5 in R.
  rewrite PS, R. cbn [obind].
  assert (EN : nlen (1 :: flat_map pstr_value (map Some l)) = 1 + nlen (flat_map pstr_value (map Some l))) by (unfold nlen; cbn [length]; lia).
  rewrite EN, N.eqb_refl. eexists. split; [reflexivity|]. split; [constructor; assumption|reflexivity].
Qed.

Lemma list_ok d l : nlen l <= 19200 -> dok d ->
  exists d', decode_hash_list d (1 :: l) (nlen (1 :: l)) = Def (d', SV_OK) /\ dok d' /\ dalg d' = dalg d.
Proof. intros HL [D1 D2 D3 D4 D5 D6 D7 D8]. unfold decode_hash_list. rewrite read8. cbn [obind]. change (1 =? 0) with false. cbv iota zeta.
  assert (EN : nlen (1 :: l) = 1 + nlen l) by (unfold nlen; cbn [length]; lia).
  rewrite EN, sub64_small by lia. replace (1 + nlen l - 1) with (nlen l) by lia.
  destruct (N.ltb_spec 19200 (nlen l)); [lia|]. rewrite take_mem_exact. eexists. split; [reflexivity|]. split; [constructor; assumption|reflexivity]. Qed.

Lemma arbitrary_ok d a : a <> [] -> nlen (1 :: a) < 65536 -> dok d ->
  exists d', decode_arbitrary d (1 :: a) (nlen (1 :: a)) = Def (d', SV_OK) /\ dok d' /\ dalg d' = dalg d.
Proof.
  intros A0 AL [D1 D2 D3 D4 D5 D6 D7 D8]. unfold decode_arbitrary. rewrite read8. cbn [obind]. cbv zeta. change (1 =? 0) with false. cbv iota.
  assert (EN : nlen (1 :: a) = 1 + nlen a) by (unfold nlen; cbn [length]; lia).
  rewrite EN in *. rewrite sub64_small by lia. unfold u16. replace (1 + nlen a - 1) with (nlen a) by lia. rewrite N.mod_small by lia.
  destruct (N.eqb_spec (nlen a) 0) as [Z|Z]; [destruct a; [congruence|unfold nlen in Z; cbn [length] in Z; lia]|].
  rewrite take_mem_exact. cbn [obind]. rewrite N.eqb_refl. eexists. split; [reflexivity|]. split; [constructor; assumption|reflexivity].
Qed.

Lemma crypto_ok_dec d : dok d ->
  exists d', decode_crypto C d ([1; nlen oid] ++ oid) (nlen ([1; nlen oid] ++ oid)) = Def (d', SV_OK) /\ dok d' /\ dstep d d' /\ h_type (d_handle d') = oid.
Proof.
  intros [D1 D2 D3 D4 D5 D6 D7 D8]. destruct (set_hash_algo_der_digest C _ hs (d_handle d) HO D1 HW0) as (h' & E & T1 & T2 & T3 & _).
  unfold decode_crypto. cbn [app]. rewrite read8. cbn [obind]. rewrite read8. cbn [obind]. rewrite take_mem_exact. cbn [obind].
  change (1 =? 0) with false. cbv iota.
  destruct (N.eqb_spec (nlen oid) 0) as [Z|Z]; [destruct oid; [congruence|unfold nlen in Z; cbn [length] in Z; lia]|].
  rewrite E. cbn [obind is_ok svrc_eqb negb].
  assert (EN : nlen (1 :: nlen oid :: oid) = 2 + nlen oid) by (unfold nlen; cbn [length]; lia).
  rewrite EN, N.eqb_refl. eexists. split; [reflexivity|]. split; [|split; [repeat split; auto|exact T1]].
  constructor; cbn [set_d_vhs set_d_algo_known set_d_handle d_handle d_vhs d_linked d_gop]; try assumption; try reflexivity.
  - congruence.
  - left. exact T1.
  - rewrite T3. exact D4.
Qed.

Lemma sig_ok d max sig : (length sig <= max)%nat -> N.of_nat max + 5 < 2 ^ 16 -> oksig max -> dok d ->
  exists d' st, decode_signature d (sig_value max sig) (nlen (sig_value max sig)) = Def (d', st) /\ dok d' /\ dalg d' = dalg d.
Proof.
  intros HL HM HMK DK. change (2 ^ 16) with 65536 in HM.
  assert (LP : length (padded max sig) = max) by (unfold padded; rewrite app_length, repeat_length; lia).
  assert (EN : nlen (sig_value max sig) = 5 + N.of_nat max).
  { unfold sig_value, nlen. rewrite !app_length, digits_len, LP. cbn [length]. lia. }
  rewrite EN. unfold decode_signature, sig_value. cbn [app]. rewrite !read8. cbn [obind]. rewrite read8. cbn [obind]. rewrite read8. cbn [obind].
  rewrite digits_be16 by (unfold nlen; lia). rewrite read_be16 by (unfold nlen; lia). cbn [obind].
  change (1 =? 0) with false. change (2 <=? 1) with false. cbv iota zeta.
  rewrite sub64_small by lia. replace (5 + N.of_nat max - 5) with (N.of_nat max) by lia.
  destruct (N.ltb_spec (N.of_nat max) (nlen sig)) as [L|_]; [unfold nlen in L; lia|].
  rewrite Nat2N.id. pose proof (take_mem_n max (padded max sig) [] (eq_sym LP)) as T. rewrite app_nil_r in T. rewrite T.
  destruct DK as [D1 D2 D3 D4 D5 D6 D7 D8].
  assert (HML : oksig (length (padded max sig))) by (rewrite LP; exact HMK).
  destruct (d_sig d) as [s|] eqn:ESG; [destruct (negb _)|destruct (N.ltb_spec (5 + N.of_nat max) 5); [lia|]]; cbn [obind]; do 2 eexists; (split; [reflexivity|]); (split; [constructor; try assumption; rewrite ESG; assumption|reflexivity]).
Qed.

(** ** All fields *)
Lemma field_ok d f : ff f -> wire_ok f -> dok d ->
  exists d', decode_tag C d (fst f) (snd f) (nlen (snd f)) = Def (d', SV_OK) /\ dok d' /\ dstep d d' /\
    (fst f = 7 -> h_type (d_handle d') = oid) /\ (always_present (fst f) = true -> dalg d' = dalg d) /\
    (always_present (fst f) = false <-> recurrent_field f) /\ fst f <= 8.
Proof.
  destruct f as [t v]. unfold recurrent_field, ff, formed_field. cbn [fst snd].
  intros [[[-> (a & ts & link & gop & E & LA & HT & LL & LG)]|[[-> (key & E & K0 & KP)]|[[-> (l & E & L5 & LB)]|[[-> (l & E & LL)]|[[-> (a & E & A0)]|[-> E]]]]]] KI] [_ WB] DK; cbn [decode_tag fst snd] in *.
  - rewrite soid_size in LL, LG. destruct (general_ok d v a ts link gop E LA HT LL LG DK) as (d' & -> & K & A). exists d'. split; [reflexivity|]. split; [exact K|]. split; [apply dstep_same, A|]. split; [discriminate|]. split; [auto|]. split; [split; [discriminate|intros [H|[H|H]]; discriminate]|lia].
  - subst v. destruct (KI eq_refl) as (key' & KE & KI'). injection KE as <-. destruct (key_ok d key K0 WB KP KI' DK) as (d' & -> & K & A). exists d'. split; [reflexivity|]. split; [exact K|]. split; [exact A|]. split; [discriminate|]. split; [discriminate|]. split; [split; auto|lia].
  - subst v. destruct (product_ok d l L5 LB DK) as (d' & -> & K & A). exists d'. split; [reflexivity|]. split; [exact K|]. split; [apply dstep_same, A|]. split; [discriminate|]. split; [discriminate|]. split; [split; auto|lia].
  - subst v. destruct (list_ok d l LL DK) as (d' & -> & K & A). exists d'. split; [reflexivity|]. split; [exact K|]. split; [apply dstep_same, A|]. split; [discriminate|]. split; [auto|]. split; [split; [discriminate|intros [H|[H|H]]; discriminate]|lia].
  - subst v. destruct (arbitrary_ok d a A0 WB DK) as (d' & -> & K & A). exists d'. split; [reflexivity|]. split; [exact K|]. split; [apply dstep_same, A|]. split; [discriminate|]. split; [auto|]. split; [split; [discriminate|intros [H|[H|H]]; discriminate]|lia].
  - subst v. destruct (crypto_ok_dec d DK) as (d' & -> & K & A & T). exists d'. split; [reflexivity|]. split; [exact K|]. split; [exact A|]. split; [auto|]. split; [discriminate|]. split; [split; auto|lia].
Qed.

Lemma fields_ok fs : forall d, Forall ff fs -> Forall wire_ok fs -> dok d ->
  exists d', decode_fields C d fs = Def (d', SV_OK) /\ dok d' /\ dstep d d'.
Proof.
  induction fs as [|[t v] fs IH]; intros d HF HW DK; cbn [decode_fields]; [exists d; split; [reflexivity|]; split; [exact DK|apply dstep_refl]|].
  apply Forall_cons_iff in HF as [F0 HF]. apply Forall_cons_iff in HW as [W0 HW].
  destruct (field_ok d (t, v) F0 W0 DK) as (d1 & E & K1 & S1 & _). cbn [fst snd] in E. rewrite E. cbn [obind is_ok svrc_eqb].
  destruct (IH d1 HF HW K1) as (d2 & E2 & K2 & S2). exists d2. split; [exact E2|]. split; [exact K2|]. eapply dstep_trans; eassumption.
Qed.
Lemma fields_app a b : forall d d1, decode_fields C d a = Def (d1, SV_OK) -> decode_fields C d (a ++ b) = decode_fields C d1 b.
Proof.
  induction a as [|[t v] a IH]; intros d d1; cbn [decode_fields app]; [intros E; injection E as ->; reflexivity|].
  destruct (decode_tag C d t v (nlen v)) as [[e2 st]|]; [|discriminate]. cbn [obind].
  destruct (is_ok st) eqn:ES; [apply IH|]. intros E. injection E as E1 E2. subst st. discriminate ES.
Qed.
(** The fields of a whole SEI. *)
Lemma sei_fields d fs max sig : Forall ff fs -> Forall wire_ok fs -> (length sig <= max)%nat -> N.of_nat max + 5 < 2 ^ 16 -> oksig max -> dok d ->
  exists d' st, decode_fields C d (fs ++ [(5, sig_value max sig)]) = Def (d', st) /\ dok d' /\ dstep d d'.
Proof.
  intros HF HW HL HM HMK DK. destruct (fields_ok fs d HF HW DK) as (d1 & E1 & K1 & S1). rewrite (fields_app _ _ _ _ E1). cbn [decode_fields].
  destruct (sig_ok d1 max sig HL HM HMK K1) as (d2 & st & E2 & K2 & A2). change (decode_tag C d1 5 (sig_value max sig) (nlen (sig_value max sig))) with (decode_signature d1 (sig_value max sig) (nlen (sig_value max sig))).
  rewrite E2. cbn [obind]. destruct (is_ok st); do 2 eexists; (split; [reflexivity|]); (split; [exact K2|]); (eapply dstep_trans; [exact S1|apply dstep_same, A2]).
Qed.

(** The recurrent fields only. *)
Definition has_rec (fs : list (N * list N)) : bool := existsb (fun f => negb (always_present (fst f))) fs.
Lemma opt_ok fs : forall d any, Forall ff fs -> Forall wire_ok fs -> dok d ->
  exists d', opt_fields_dec C d fs any = Def (d', any || has_rec fs) /\ dok d' /\ dstep d d' /\
    (In 7 (map fst fs) -> h_type (d_handle d') = oid) /\ (has_rec fs = false -> d' = d).
Proof.
  induction fs as [|[t v] fs IH]; intros d any HF HW DK; cbn [opt_fields_dec].
  { exists d. rewrite orb_false_r. split; [reflexivity|]. split; [exact DK|]. split; [apply dstep_refl|]. split; [intros []|auto]. }
  apply Forall_cons_iff in HF as [F0 HF]. apply Forall_cons_iff in HW as [W0 HW]. cbn [has_rec existsb fst map In]. fold (has_rec fs).
  destruct (field_ok d (t, v) F0 W0 DK) as (d1 & E & K1 & S1 & T1 & A1 & R1 & _). cbn [fst snd] in *.
  destruct (always_present t) eqn:EA; cbn [negb orb].
  - destruct (IH d any HF HW DK) as (d2 & -> & K2 & S2 & T2 & A2). exists d2.
    split; [reflexivity|]. split; [exact K2|]. split; [exact S2|]. split; [intros [->|H7]; [discriminate EA|auto]|exact A2].
  - rewrite E. cbn [obind is_ok svrc_eqb]. destruct (IH d1 true HF HW K1) as (d2 & -> & K2 & S2 & T2 & A2). exists d2.
    rewrite orb_true_r. split; [reflexivity|]. split; [exact K2|]. split; [eapply dstep_trans; eassumption|]. split; [|discriminate].
    intros [->|H7]; [apply S2, T1; reflexivity|auto].
Qed.
Lemma has_rec_iff fs : Forall ff fs -> Forall wire_ok fs -> has_rec fs = true <-> Exists recurrent_field fs.
Proof.
  intros HF HW. unfold has_rec. rewrite existsb_exists, Exists_exists. rewrite Forall_forall in HF, HW.
  assert (G : forall f, In f fs -> negb (always_present (fst f)) = true <-> recurrent_field f).
  { intros f HI. clear -HF HW HI. specialize (HF f HI). destruct HF as [HF _]. destruct f as [t v]. unfold recurrent_field, formed_field in *. cbn [fst snd] in *.
    destruct HF as [[-> _]|[[-> _]|[[-> _]|[[-> _]|[[-> _]|[-> _]]]]]]; cbn; intuition (try discriminate; try lia). }
  split; intros (f & HI & H); exists f; (split; [exact HI|]); apply (G f HI); exact H.
Qed.
Lemma opt_app fs rest : forall d any d1 b, opt_fields_dec C d fs any = Def (d1, b) -> Forall (fun f => always_present (fst f) = true) rest ->
  opt_fields_dec C d (fs ++ rest) any = Def (d1, b).
Proof.
  intros d any d1 b E HR. revert d any E. induction fs as [|[t v] fs IH]; intros d any; cbn [opt_fields_dec app].
  - intros E. rewrite <- E. clear E. induction HR as [|[t v] r H HR IH]; cbn [opt_fields_dec]; [reflexivity|]. cbn [fst] in H. rewrite H. exact IH.
  - destruct (always_present t); [apply IH|]. destruct (decode_tag C d t v (nlen v)) as [[d2 st]|]; [|discriminate]. cbn [obind]. destruct (is_ok st); [apply IH|auto].
Qed.

(** ** The memory of a SEI *)
Definition memory (n : nalu) (fs : list (N * list N)) : Prop :=
  exists max sig r, n_tlv_mem n = wires (fs ++ [(5, sig_value max sig)]) ++ r /\ n_tlv_size n = nlen (wires (fs ++ [(5, sig_value max sig)])) /\
    n_tlv_size n < 9223372036854775808 /\ Forall ff fs /\ Forall wire_ok fs /\ (length sig <= max)%nat /\ N.of_nat max + 5 < 2 ^ 16 /\
    (has_rec fs = true -> In 7 (map fst fs)) /\ oksig max.

Lemma memory_decode d n fs : memory n fs -> dok d ->
  exists d' st, tlv_decode C d (n_tlv_mem n) (n_tlv_size n) = Def (d', st) /\ dok d' /\ dstep d d'.
Proof.
  intros (max & sig & r & E1 & E2 & _ & HF & HW & HL & HM & _ & HMK) DK. change (2 ^ 16) with 65536 in HM. destruct (sig_wire max sig HL HM) as [W _].
  destruct (sei_fields d fs max sig HF HW HL HM HMK DK) as (d' & st & E & K & S1). exists d', st. split; [|auto].
  rewrite E1, E2, wires_fields by (apply Forall_app; auto). apply tlv_decode_fields; [destruct fs; discriminate| |exact E].
  eapply Forall_impl; [|apply Forall_app; split; [exact HW|apply Forall_cons; [exact W|apply Forall_nil]]]. intros f. apply wire_ok_fits.
Qed.
Lemma memory_optional d n fs : memory n fs -> dok d ->
  exists d', decode_optional C d (n_tlv_mem n) (n_tlv_size n) = Def (d', has_rec fs) /\ dok d' /\ dstep d d' /\
    (has_rec fs = true -> h_type (d_handle d') = oid) /\ (has_rec fs = false -> d' = d).
Proof.
  intros (max & sig & r & E1 & E2 & _ & HF & HW & HL & HM & H7 & _) DK. change (2 ^ 16) with 65536 in HM. destruct (sig_wire max sig HL HM) as [W _].
  destruct (opt_ok fs d false HF HW DK) as (d' & E & K & S1 & T1 & N1). exists d'. split; [|split; [exact K|]; split; [exact S1|]; split; [intros R; apply T1, H7, R|exact N1]].
  rewrite E1, E2.
  assert (G1 : nlen (w_oid defaults) < 254) by (vm_compute; reflexivity). assert (G2 : nlen (w_pub defaults) < 65535) by (vm_compute; reflexivity).
  assert (G3 : N.of_nat (w_max_sig defaults) + 5 < 65536) by (vm_compute; reflexivity).
  apply (dec_optional C defaults hs G1 G2 eq_refl G3).
  - destruct fs; discriminate.
  - apply Forall_app. auto.
  - apply Forall_app. split; [|repeat constructor; vm_compute; discriminate].
    apply Forall_forall. intros f HI. rewrite Forall_forall in HF. specialize (HF f HI). destruct HF as [HF _]. destruct f as [t v]. unfold formed_field in HF. cbn [fst snd] in *.
    destruct HF as [[-> _]|[[-> _]|[[-> _]|[[-> _]|[[-> _]|[-> _]]]]]]; lia.
  - apply opt_app; [exact E|]. repeat constructor.
Qed.
End Dec.

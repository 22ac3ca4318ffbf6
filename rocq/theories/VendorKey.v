(** The check of the public key: proofs. *)
From Verif Require Import Base BaseProofs Crypto Types Tlv Vendor VendorSpec VendorProofs.
Local Open Scope N_scope.

Section Key.
Variable C : crypto.
Variable X : vcrypto.

Lemma cstr_string l : cstr (l ++ [0]) = Def (c_string l).
Proof.
  induction l as [|b l IH]; [reflexivity|]. cbn [app cstr c_string]. destruct b; [reflexivity|]. rewrite IH. reflexivity.
Qed.

Lemma scan_len old : forall s, length (scan_chip X old s) = length old.
Proof. induction old as [|b old IH]; intros s; cbn; [reflexivity|]. rewrite IH. reflexivity. Qed.

Lemma scan_digits old : forall s, chip_digits X s (scan_chip X old s).
Proof. induction old as [|b old IH]; intros s; cbn; [exact Logic.I|]. split; [|apply IH]. intros v ->. reflexivity. Qed.

(** What the parts of a check leave alone. *)
Definition same_base (h h2 : vhandle) : Prop := vh_att h2 = vh_att h /\ vh_chain h2 = vh_chain h /\ vh_key h2 = vh_key h.
Lemma same_refl h : same_base h h.
Proof. repeat split. Qed.

Lemma parse_ok h s h2 r : length (vh_chip h) = 18%nat -> parse_certs X h s = Def (h2, r) ->
  same_base h h2 /\ vh_pkv h2 = vh_pkv h /\ length (vh_chip h2) = 18%nat /\
  match r with
  | inl _ => True
  | inr pub => exists cert more cn, x_certs X s = cert :: more /\ (length more <= 1)%nat /\ x_verify X (cert :: more) = Some true /\
      x_cn X cert = Name cn /\ names_chip X cn (vh_chip h2) /\ firstn 4 (vh_chip h2) = [4; 0; 80; 1] /\ x_sn X cert = Name (vh_serial h2) /\ x_pub X cert = Some (pub, true)
  end.
Proof.
  intros LC. unfold parse_certs. cbv zeta.
  assert (T : forall st, Def (h, inl st) = Def (h2, r) -> same_base h h2 /\ vh_pkv h2 = vh_pkv h /\ length (vh_chip h2) = 18%nat /\
    match r with inl _ => True | inr pub => exists cert more cn, x_certs X s = cert :: more /\ (length more <= 1)%nat /\ x_verify X (cert :: more) = Some true /\
      x_cn X cert = Name cn /\ names_chip X cn (vh_chip h2) /\ firstn 4 (vh_chip h2) = [4; 0; 80; 1] /\ x_sn X cert = Name (vh_serial h2) /\ x_pub X cert = Some (pub, true) end).
  { intros st E. injection E as <- <-. split; [apply same_refl|]. auto. }
  destruct (2 <? length (firstn 3 (x_certs X s)))%nat eqn:E3; [apply T|]. apply Nat.ltb_ge in E3.
  assert (F3 : firstn 3 (x_certs X s) = x_certs X s). { apply firstn_all2. rewrite firstn_length in E3. lia. }
  rewrite F3 in *. destruct (x_verify X (x_certs X s)) as [[]|] eqn:EV; [|apply T|apply T]. destruct (x_certs X s) as [|cert more] eqn:EC; [discriminate|].
  destruct (x_cn X cert) as [| |cn] eqn:ECN; [apply T|apply T|]. destruct (strstr cn edge_vault) as [t|] eqn:ES; [|apply T].
  destruct (negb (length (skipn (length edge_vault) t) =? 36)%nat) eqn:E36; [apply T|].
  set (h1 := set_vh_chip (scan_chip X (vh_chip h) (skipn (length edge_vault) t)) h).
  assert (L1 : length (vh_chip h1) = 18%nat) by (unfold h1; cbn [vh_chip set_vh_chip]; rewrite scan_len; exact LC).
  assert (DG : chip_digits X (skipn (length edge_vault) t) (vh_chip h1)) by apply scan_digits.
  assert (B1 : same_base h h1) by (repeat split). assert (K1 : vh_pkv h1 = vh_pkv h) by reflexivity. clearbody h1.
  assert (T1 : forall h1, same_base h h1 -> vh_pkv h1 = vh_pkv h -> length (vh_chip h1) = 18%nat -> forall st, Def (h1, inl st) = Def (h2, r) -> same_base h h2 /\ vh_pkv h2 = vh_pkv h /\ length (vh_chip h2) = 18%nat /\
    match r with inl _ => True | inr pub => exists cert0 more0 cn0, cert :: more = cert0 :: more0 /\ (length more0 <= 1)%nat /\ x_verify X (cert0 :: more0) = Some true /\
      x_cn X cert0 = Name cn0 /\ names_chip X cn0 (vh_chip h2) /\ firstn 4 (vh_chip h2) = [4; 0; 80; 1] /\ x_sn X cert0 = Name (vh_serial h2) /\ x_pub X cert0 = Some (pub, true) end).
  { intros h' A1 A2 A3 st E. injection E as <- <-. auto. }
  destruct (negb (starts_with [4; 0; 80; 1] (vh_chip h1))) eqn:EP; [apply T1; assumption|]. apply negb_false_iff, starts_prefix in EP as (cr & EP).
  destruct (x_sn X cert) as [| |sn] eqn:ESN; [apply T1; assumption|apply T1; assumption|].
  intros E.
  assert (SE : exists h3, same_base h h3 /\ vh_pkv h3 = vh_pkv h /\ vh_chip h3 = vh_chip h1 /\ vh_serial h3 = sn /\
    match x_pub X cert with None => Def (h3, inl SV_EXTERNAL_ERROR) | Some (pub, true) => if x_init X pub then Def (h3, inr pub) else Def (h3, inl SV_EXTERNAL_ERROR) | Some (_, false) => Def (h3, inl SV_VENDOR_ERROR) end = Def (h2, r)).
  { destruct (bytes_eqb (vh_serial h1) sn) eqn:EB.
    - apply bytes_eqb_eq in EB. exists h1. repeat split; try apply B1; auto.
    - destruct (20 <=? length sn)%nat; [discriminate|]. exists (set_vh_serial sn h1). repeat split; try apply B1; auto. }
  clear E. destruct SE as (h3 & B3 & K3 & C3 & S3 & E). assert (L3 : length (vh_chip h3) = 18%nat) by congruence.
  destruct (x_pub X cert) as [[pub []]|] eqn:EPB; [|revert E; apply T1; assumption|revert E; apply T1; assumption]. destruct (x_init X pub); [|revert E; apply T1; assumption].
  injection E as <- <-. split; [exact B3|]. split; [exact K3|]. split; [exact L3|]. exists cert, more, cn. split; [reflexivity|]. split; [cbn [length] in E3; lia|]. split; [exact EV|]. split; [exact ECN|]. split.
  - destruct (strstr_some _ _ _ ES) as (a & b & -> & ->). rewrite skipn_app, skipn_all, Nat.sub_diag, skipn_O in E36, DG. exists a, b. split; [reflexivity|]. split; [apply negb_false_iff, Nat.eqb_eq in E36; exact E36|rewrite C3; exact DG].
  - split; [rewrite C3, EP; reflexivity|]. split; [rewrite S3; exact ESN|exact EPB].
Qed.

Lemma chain_ok h h2 st : length (vh_chip h) = 18%nat -> check_chain X h = Def (h2, st) ->
  same_base h h2 /\ vh_pkv h2 = vh_pkv h /\ length (vh_chip h2) = 18%nat /\
  (st = SV_OK -> exists m s pub, vh_chain h = Some m /\ cstr m = Def s /\ vh_md h2 = Some pub /\ exists cert more cn, x_certs X s = cert :: more /\ (length more <= 1)%nat /\ x_verify X (cert :: more) = Some true /\
      x_cn X cert = Name cn /\ names_chip X cn (vh_chip h2) /\ firstn 4 (vh_chip h2) = [4; 0; 80; 1] /\ x_sn X cert = Name (vh_serial h2) /\ x_pub X cert = Some (pub, true)).
Proof.
  intros LC. unfold check_chain. destruct (vh_chain h) as [m|] eqn:EC.
  2:{ intros E. injection E as <- <-. split; [apply same_refl|]. split; [reflexivity|]. split; [exact LC|discriminate]. }
  destruct (cstr m) as [s|] eqn:ES; [|discriminate]. cbn [obind]. destruct (parse_certs X h s) as [[h1 r]|] eqn:EP; [|discriminate]. cbn [obind].
  destruct (parse_ok _ _ _ _ LC EP) as ((A1 & A2 & A3) & B & L & R). destruct r as [st1|pub]; intros E; injection E as <- <-.
  - split; [repeat split; assumption|]. split; [exact B|]. split; [exact L|].
    assert (NOK : st1 <> SV_OK).
    { revert EP. unfold parse_certs. cbv zeta. repeat (match goal with |- context [match ?x with _ => _ end] => destruct x; try discriminate; try (intros Q; injection Q as _ <-; discriminate) end). }
    congruence.
  - split; [repeat split; assumption|]. split; [exact B|]. split; [exact L|]. intros _. exists m, s, pub. auto.
Qed.

Lemma attestation_shape a ts p n : (24 <= length a)%nat -> nth 8 a 0 = 1 -> take_mem 12 (skipn 9 a) = Def (ts, p) -> read_16bits p = Def (n, skipn 2 p) ->
  bytes_ok a -> n = nlen (skipn 2 p) -> attestation_of a ts (skipn 2 p).
Proof.
  intros L N8 T R BO EN. do 24 (destruct a as [|? a]; [cbn in L; lia|]). cbn [nth] in N8. subst. cbn [skipn] in T. unfold take_mem in T. cbn [length firstn skipn Nat.leb] in T. injection T as <- <-.
  cbn [read_16bits skipn] in *. injection R as R.
  assert (B : n21 < 256 /\ n22 < 256) by (repeat (apply Forall_cons_iff in BO as [? BO]); unfold byte_ok in *; split; assumption).
  assert (Q : be16 (nlen (n23 :: a)) = [n21; n22]). { rewrite <- R. unfold be16, u8. f_equal; [lia|]. f_equal. lia. }
  exists [n0; n1; n2; n3; n4; n5; n6; n7]. rewrite Q. split; [reflexivity|]. split; [reflexivity|]. split; [reflexivity|cbn [length]; lia].
Qed.

Lemma deserialize_ok h h2 st : deserialize h = Def (h2, st) -> (forall a, vh_att h = Some a -> bytes_ok a) ->
  same_base h h2 /\ vh_pkv h2 = vh_pkv h /\ vh_chip h2 = vh_chip h /\ vh_md h2 = vh_md h /\ vh_serial h2 = vh_serial h /\
  (st = SV_OK -> exists a, vh_att h = Some a /\ attestation_of a (vh_ts h2) (vh_sig h2)).
Proof.
  unfold deserialize. intros E BO. destruct (vh_att h) as [a|] eqn:EA.
  2:{ injection E as <- <-. repeat (split; [reflexivity || apply same_refl|]). discriminate. }
  destruct (Nat.ltb_spec (length a) 24) as [L|L]; [injection E as <- <-; repeat (split; [reflexivity || apply same_refl|]); discriminate|].
  destruct (N.eqb_spec (nth 8 a 0) 1) as [N8|N8]; cbn [negb] in E; [|injection E as <- <-; repeat (split; [reflexivity || apply same_refl|]); discriminate].
  destruct (take_mem 12 (skipn 9 a)) as [[ts p]|] eqn:ET; [|discriminate]. cbn [obind] in E. destruct (read_16bits p) as [[n q]|] eqn:ER; [|discriminate]. cbn [obind] in E.
  assert (EQ : q = skipn 2 p) by (destruct p as [|b1 [|b2 p]]; try discriminate ER; cbn in ER; injection ER as _ <-; reflexivity). subst q.
  destruct (N.eqb_spec n (nlen (skipn 2 p))) as [EN|NE]; cbn [negb] in E; [|injection E as <- <-; repeat (split; [reflexivity || (repeat split; assumption)|]); discriminate].
  destruct (512 <? n); [discriminate|]. injection E as <- <-. repeat (split; [reflexivity || (repeat split; assumption)|]). intros _. exists a. split; [reflexivity|]. cbn [vh_ts vh_sig set_vh_ts set_vh_sig].
  eapply attestation_shape; eauto.
Qed.

Lemma signed_data_is point chip ts : signed_data C point chip ts = statement_about C point chip ts.
Proof. reflexivity. Qed.

Lemma key_ok ctx h h2 st : check_key C X ctx h = Def (h2, st) -> same_base h h2 /\ vh_chip h2 = vh_chip h /\ vh_serial h2 = vh_serial h /\
  (st = SV_OK -> exists pub g pem, vh_md h = Some pub /\ ctx = Some (g, pem) /\ length (x_point X pem) = 65%nat /\ (0 <= x_digest_verify X pub (vh_sig h) (statement_about C (x_point X pem) (vh_chip h) (vh_ts h)))%Z /\
    vh_pkv h2 = Z.land (vh_pkv h) (x_digest_verify X pub (vh_sig h) (statement_about C (x_point X pem) (vh_chip h) (vh_ts h)))) /\
  (st <> SV_OK -> h2 = h) /\ (vh_pkv h = 0%Z -> vh_pkv h2 = 0%Z).
Proof.
  unfold check_key. assert (T : forall st0, st0 <> SV_OK -> Def (h, st0) = Def (h2, st) -> same_base h h2 /\ vh_chip h2 = vh_chip h /\ vh_serial h2 = vh_serial h /\
  (st = SV_OK -> exists pub g pem, vh_md h = Some pub /\ ctx = Some (g, pem) /\ length (x_point X pem) = 65%nat /\ (0 <= x_digest_verify X pub (vh_sig h) (statement_about C (x_point X pem) (vh_chip h) (vh_ts h)))%Z /\
    vh_pkv h2 = Z.land (vh_pkv h) (x_digest_verify X pub (vh_sig h) (statement_about C (x_point X pem) (vh_chip h) (vh_ts h)))) /\
  (st <> SV_OK -> h2 = h) /\ (vh_pkv h = 0%Z -> vh_pkv h2 = 0%Z)).
  { intros st0 N0 E. injection E as <- <-. split; [apply same_refl|]. split; [reflexivity|]. split; [reflexivity|]. split; [congruence|]. auto. }
  destruct (vh_md h) as [pub|]; [|apply T; discriminate]. destruct (vh_key h) as [g|]; [|apply T; discriminate]. destruct ctx as [[g0 pem]|]; [|discriminate]. destruct (negb (g =? g0)); [discriminate|].
  cbv zeta. destruct (Nat.eqb_spec (length (x_point X pem)) 65) as [L|L]; cbn [negb]; [|apply T; discriminate]. destruct (negb (hd 0 (x_point X pem) =? 4)); [apply T; discriminate|].
  destruct (Z.ltb_spec (x_digest_verify X pub (vh_sig h) (signed_data C (x_point X pem) (vh_chip h) (vh_ts h))) 0) as [NG|NG]; [apply T; discriminate|]. intros E. injection E as <- <-. split; [repeat split|]. split; [reflexivity|]. split; [reflexivity|]. split.
  - intros _. exists pub, g0, pem. rewrite <- signed_data_is. auto 10.
  - split; [congruence|]. cbn [vh_pkv set_vh_pkv]. intros ->. apply Z.land_0_l.
Qed.

Lemma supplemental_ok ctx h h2 st : length (vh_chip h) = 18%nat -> (forall a, vh_att h = Some a -> bytes_ok a) -> supplemental C X ctx h = Def (h2, st) ->
  same_base h h2 /\ length (vh_chip h2) = 18%nat /\ (vh_pkv h = 0%Z -> vh_pkv h2 = 0%Z) /\
  (st = SV_OK -> vh_pkv h2 = 0%Z \/
    exists a m s g pem pub sig ts chip cert more cn, vh_att h = Some a /\ vh_chain h = Some m /\ cstr m = Def s /\ ctx = Some (g, pem) /\
      x_certs X s = cert :: more /\ (length more <= 1)%nat /\ x_verify X (cert :: more) = Some true /\ x_cn X cert = Name cn /\ names_chip X cn chip /\
      length chip = 18%nat /\ firstn 4 chip = [4; 0; 80; 1] /\ x_sn X cert = Name (vh_serial h2) /\ x_pub X cert = Some (pub, true) /\ attestation_of a ts sig /\ length (x_point X pem) = 65%nat /\ (0 <= x_digest_verify X pub sig (statement_about C (x_point X pem) chip ts))%Z /\
      vh_pkv h2 = Z.land (vh_pkv h) (x_digest_verify X pub sig (statement_about C (x_point X pem) chip ts))).
Proof.
  intros LC BO. unfold supplemental. destruct (check_chain X h) as [[h1 st1]|] eqn:E1; [|discriminate]. cbn [obind]. destruct (chain_ok _ _ _ LC E1) as (B1 & K1 & L1 & R1).
  destruct (is_ok st1) eqn:O1.
  - assert (st1 = SV_OK) by (destruct st1; try discriminate O1; reflexivity). subst st1. specialize (R1 eq_refl).
    destruct (deserialize h1) as [[h3 st3]|] eqn:E3; [|discriminate]. cbn [obind]. destruct (deserialize_ok _ _ _ E3) as (B3 & K3 & C3 & M3 & S3 & R3). { intros a EA. apply BO. rewrite <- (proj1 B1). exact EA. }
    assert (B13 : same_base h h3) by (destruct B1 as (? & ? & ?), B3 as (? & ? & ?); repeat split; congruence).
    destruct (is_ok st3) eqn:O3.
    + assert (st3 = SV_OK) by (destruct st3; try discriminate O3; reflexivity). subst st3. specialize (R3 eq_refl).
      destruct (check_key C X ctx h3) as [[h4 st4]|] eqn:E4; [|discriminate]. cbn [obind]. destruct (key_ok _ _ _ _ E4) as (B4 & C4 & S4 & R4 & U4 & Z4).
      assert (B14 : same_base h h4) by (destruct B13 as (? & ? & ?), B4 as (? & ? & ?); repeat split; congruence).
      destruct (svrc_eqb st4 SV_VENDOR_ERROR) eqn:EV; intros E; injection E as <- <-.
      * split; [exact B14|]. split; [cbn; congruence|]. split; [reflexivity|]. intros _. left. reflexivity.
      * split; [exact B14|]. split; [congruence|]. split; [intros Z0; apply Z4; congruence|]. intros EO. subst st4. right. destruct (R4 eq_refl) as (pub & g & pem & M4 & -> & LP & PV & K4).
        destruct R1 as (m & s & pub1 & EC & ES & EM & cert & more & cn & Q1 & Q2 & Q3 & Q4 & Q5 & Q6 & Q7 & Q8). destruct R3 as (a & EA & AT).
        assert (pub1 = pub) by congruence. subst pub1. exists a, m, s, g, pem, pub, (vh_sig h3), (vh_ts h3), (vh_chip h3), cert, more, cn.
        rewrite <- (proj1 B1). rewrite S4, S3. rewrite C3 in *. repeat (split; [assumption || reflexivity|]). rewrite K4, K3, K1. reflexivity.
    + cbn [obind]. destruct (svrc_eqb st3 SV_VENDOR_ERROR) eqn:EV; intros E; injection E as <- <-.
      * split; [exact B13|]. split; [cbn; congruence|]. split; [reflexivity|]. intros _. left. reflexivity.
      * split; [exact B13|]. split; [congruence|]. split; [congruence|]. intros ->. discriminate O3.
  - cbn [obind]. rewrite O1. cbn [obind]. destruct (svrc_eqb st1 SV_VENDOR_ERROR) eqn:EV; intros E; injection E as <- <-.
    + split; [exact B1|]. split; [exact L1|]. split; [reflexivity|]. intros _. left. reflexivity.
    + split; [exact B1|]. split; [exact L1|]. split; [congruence|]. intros ->. discriminate O1.
Qed.

(** ** Sessions *)

Lemma decode_parts h mem size h2 st : axis_decode h mem size = Def (h2, st) -> bytes_ok mem ->
  vh_pkv h2 = vh_pkv h /\ vh_key h2 = vh_key h /\ vh_chip h2 = vh_chip h /\
  ((vh_att h2 = vh_att h) \/ (vh_att h = None /\ exists a, vh_att h2 = Some a /\ bytes_ok a)) /\
  ((vh_chain h2 = vh_chain h) \/ (vh_chain h = None /\ exists a c rest, vh_att h2 = Some a /\ vh_chain h2 = Some (c ++ [0]) /\ mem = vendor_tag a c ++ rest /\ size = nlen (vendor_tag a c))).
Proof.
  intros E BO. unfold axis_decode in E. destruct mem as [|v mem]; [discriminate|]. cbn [read_8bits obind] in E. assert (K0 : forall h, vh_pkv h = vh_pkv h /\ vh_key h = vh_key h /\ vh_chip h = vh_chip h) by auto.
  destruct (N.eqb_spec v 1) as [->|]; cbn [negb] in E; [|injection E as <- <-; auto 10]. destruct mem as [|n mem]; [discriminate|]. cbn [read_8bits obind] in E.
  destruct (N.eqb_spec n 0) as [->|NZ]; [injection E as <- <-; auto 10|]. assert (BM : bytes_ok mem) by (apply Forall_cons_iff in BO as [_ BO]; apply Forall_cons_iff in BO; apply BO).
  assert (SA : exists h1 a, vh_pkv h1 = vh_pkv h /\ vh_key h1 = vh_key h /\ vh_chip h1 = vh_chip h /\ vh_chain h1 = vh_chain h /\ vh_att h1 = Some a /\ (vh_att h1 = vh_att h \/ vh_att h = None /\ bytes_ok a) /\
    (if negb (n =? nlen a) then Def (h1, SV_NOT_SUPPORTED) else do d <- differ (N.to_nat n) mem a; if d then Def (h1, SV_NOT_SUPPORTED) else
      if size <=? n + 2 then Def (h1, SV_AUTHENTICATION_ERROR) else
        do h3 <- match vh_chain h1 with Some _ => Def h1 | None => do (c, _) <- take_mem (N.to_nat (size - n - 2)) (skipn (N.to_nat n) mem); Def (set_vh_chain (Some (c ++ [0])) h1) end;
        do d <- differ (N.to_nat (size - n - 2)) (skipn (N.to_nat n) mem) (match vh_chain h3 with Some c => c | None => [] end); if d then Def (h3, SV_NOT_SUPPORTED) else Def (h3, SV_OK)) = Def (h2, st)).
  { destruct (vh_att h) as [a|] eqn:EA.
    - cbn [obind] in E. rewrite EA in E. exists h, a. repeat (split; [reflexivity || assumption|]). split; [left; congruence|exact E].
    - unfold take_mem in E at 1. destruct (N.to_nat n <=? length mem)%nat; [|discriminate]. cbn [obind] in E. exists (set_vh_att (Some (firstn (N.to_nat n) mem)) h), (firstn (N.to_nat n) mem). do 5 (split; [reflexivity|]). split; [|exact E]. right. split; [reflexivity|].
      unfold bytes_ok in *. rewrite <- (firstn_skipn (N.to_nat n) mem) in BM. apply Forall_app in BM. apply BM. }
  clear E. destruct SA as (h1 & a & A1 & A2 & A3 & A4 & A5 & A6 & E).
  assert (P1 : (vh_att h1 = vh_att h) \/ (vh_att h = None /\ exists a, vh_att h1 = Some a /\ bytes_ok a)) by (destruct A6 as [A6|[A6 A7]]; [left; exact A6|right; split; [exact A6|exists a; auto]]).
  destruct (N.eqb_spec n (nlen a)) as [EN|NEN]; cbn [negb] in E; [|injection E as <- <-; auto 10].
  destruct (differ (N.to_nat n) mem a) as [d|] eqn:ED; [|discriminate]. cbn [obind] in E. destruct d; [injection E as <- <-; auto 10|].
  destruct (N.leb_spec size (n + 2)) as [LS|LS]; [injection E as <- <-; auto 10|].
  destruct (vh_chain h1) as [c|] eqn:EC.
  - cbn [obind] in E. destruct (differ (N.to_nat (size - n - 2)) _ _) as [d|]; [|discriminate]. cbn [obind] in E. destruct d; injection E as <- <-; (repeat (split; [assumption|])); left; congruence.
  - destruct (take_mem (N.to_nat (size - n - 2)) (skipn (N.to_nat n) mem)) as [[c cr]|] eqn:ET; [|discriminate]. cbn [obind] in E. destruct (differ (N.to_nat (size - n - 2)) _ _) as [d|]; [|discriminate]. cbn [obind] in E.
    assert (R : vh_pkv (set_vh_chain (Some (c ++ [0])) h1) = vh_pkv h /\ vh_key (set_vh_chain (Some (c ++ [0])) h1) = vh_key h /\ vh_chip (set_vh_chain (Some (c ++ [0])) h1) = vh_chip h /\
      ((vh_att (set_vh_chain (Some (c ++ [0])) h1) = vh_att h) \/ (vh_att h = None /\ exists a, vh_att (set_vh_chain (Some (c ++ [0])) h1) = Some a /\ bytes_ok a)) /\
      ((vh_chain (set_vh_chain (Some (c ++ [0])) h1) = vh_chain h) \/ (vh_chain h = None /\ exists a c0 rest, vh_att (set_vh_chain (Some (c ++ [0])) h1) = Some a /\ vh_chain (set_vh_chain (Some (c ++ [0])) h1) = Some (c0 ++ [0]) /\ 1 :: n :: mem = vendor_tag a c0 ++ rest /\ size = nlen (vendor_tag a c0)))).
    { repeat (split; [assumption|]). right. split; [congruence|]. exists a, c, cr. split; [exact A5|]. split; [reflexivity|].
      unfold differ in ED. destruct (take_mem (N.to_nat n) mem) as [[x xr]|] eqn:EX; [|discriminate]. cbn [obind] in ED. destruct (take_mem (N.to_nat n) a) as [[y yr]|] eqn:EY; [|discriminate]. cbn [obind] in ED. injection ED as ED. apply negb_false_iff, bytes_eqb_eq in ED. subst y.
      unfold take_mem in EX, EY, ET. destruct (N.to_nat n <=? length mem)%nat eqn:LM; [|discriminate]. injection EX as EX _. destruct (N.to_nat n <=? length a)%nat; [|discriminate]. injection EY as EY _.
      destruct (N.to_nat (size - n - 2) <=? _)%nat eqn:LK; [|discriminate]. injection ET as ET1 ET2. assert (EA : a = x). { rewrite <- EY. symmetry. apply firstn_all2. unfold nlen in EN. lia. }
      split.
      - unfold vendor_tag. cbn [app]. rewrite EN. do 2 f_equal. rewrite <- app_assoc. rewrite <- (firstn_skipn (N.to_nat n) mem) at 1. rewrite EX, <- EA. f_equal. rewrite <- ET1, <- ET2. symmetry. apply firstn_skipn.
      - unfold vendor_tag, nlen in *. cbn [length]. rewrite app_length. apply (f_equal (@length N)) in ET1. rewrite firstn_length in ET1. lia. }
    destruct d; injection E as <- <-; exact R.
Qed.

Record sess_inv (evs : list vev) (s : vsess) : Prop := mkSessInv {
  si_chip : length (vh_chip (vs_h s)) = 18%nat;
  si_att : forall a, vh_att (vs_h s) = Some a -> bytes_ok a;
  si_chain : vh_chain (vs_h s) = None \/ exists a c, vh_att (vs_h s) = Some a /\ vh_chain (vs_h s) = Some (c ++ [0]) /\ tag_received evs a c;
  si_key : option_map snd (vs_ctx s) = key_in_use C None evs;
  si_prod : vs_prod s = product None evs
}.

Lemma key_snoc evs e : forall cur, key_in_use C cur (evs ++ [e]) = match e with VKey pem _ => if c_pub_ok C pem then Some pem else key_in_use C cur evs | _ => key_in_use C cur evs end.
Proof. induction evs as [|e0 evs IH]; intros cur; [destruct e; reflexivity|]. destruct e0; cbn [app key_in_use]; apply IH. Qed.
Lemma product_snoc evs e : forall cur, product cur (evs ++ [e]) = match e with VProduct man sn => Some (man, sn) | _ => product cur evs end.
Proof. induction evs as [|e0 evs IH]; intros cur; [destruct e; reflexivity|]. destruct e0; cbn [app product]; apply IH. Qed.
Lemma tag_more evs e a c : tag_received evs a c -> tag_received (evs ++ [e]) a c.
Proof. intros (r & H). exists r. apply in_or_app. auto. Qed.

Lemma give_base h g pem ch h2 st : give_key X h g pem ch = (h2, st) -> vh_att h2 = vh_att h /\ vh_chain h2 = vh_chain h /\ vh_chip h2 = vh_chip h.
Proof.
  unfold give_key. destruct (vh_pkv h =? 0)%Z; [intros E; injection E as <- _; auto|]. cbv zeta. destruct ch, (vh_key h); destruct (x_kind X pem) as [| |[]]; intros E; injection E as <- _; auto.
Qed.

Lemma inv_step evs s e s2 r : sess_inv evs s -> tag_bytes e -> vev_step C X s e = Def (s2, r) -> sess_inv (evs ++ [e]) s2.
Proof.
  intros [I1 I2 I3 I4 I5] BE E. assert (I3' : forall e, vh_chain (vs_h s) = None \/ exists a c, vh_att (vs_h s) = Some a /\ vh_chain (vs_h s) = Some (c ++ [0]) /\ tag_received (evs ++ [e]) a c).
  { intros e0. destruct I3 as [I3|(a & c & A1 & A2 & A3)]; [left; exact I3|]. right. exists a, c. split; [exact A1|]. split; [exact A2|]. apply tag_more, A3. }
  destruct e as [pem ch|mem size|man sn| | |]; cbn [vev_step] in E.
  - destruct (c_pub_ok C pem) eqn:EP; cbn [negb] in E.
    + destruct (is_axis _).
      * cbn [vs_h set_vs_next set_vs_ctx vs_next] in E. destruct (give_key X (vs_h s) (vs_next s) pem ch) as [h st] eqn:EG. injection E as <- <-. destruct (give_base _ _ _ _ _ _ EG) as (G1 & G2 & G3).
        constructor; cbn [vs_h vs_ctx vs_prod set_vs_h set_vs_next set_vs_ctx]; rewrite ?G1, ?G2, ?G3, ?key_snoc, ?product_snoc, ?EP; auto.
      * injection E as <- <-. constructor; cbn [vs_h vs_ctx vs_prod set_vs_h set_vs_next set_vs_ctx]; rewrite ?key_snoc, ?product_snoc, ?EP; auto.
    + injection E as <- <-. constructor; rewrite ?key_snoc, ?product_snoc, ?EP; auto.
  - destruct (axis_decode (vs_h s) mem size) as [[h st]|] eqn:ED; [|discriminate]. cbn [obind] in E. injection E as <- <-. destruct (decode_parts _ _ _ _ _ ED BE) as (D1 & D2 & D3 & D4 & D5).
    constructor; cbn [vs_h vs_ctx vs_prod set_vs_h]; rewrite ?key_snoc, ?product_snoc; auto.
    + congruence.
    + destruct D4 as [D4|[D4 (a & D6 & D7)]]; [rewrite D4; exact I2|]. intros b Hb. congruence.
    + destruct D5 as [D5|[D5 (a & c & rest & D6 & D7 & D8 & D9)]].
      * rewrite D5. destruct (I3' (VTag mem size)) as [J|(a & c & A1 & A2 & A3)]; [left; exact J|]. right. exists a, c. split; [|auto]. destruct D4 as [D4|[D4 _]]; congruence.
      * right. exists a, c. split; [exact D6|]. split; [exact D7|]. exists rest. apply in_or_app. right. left. congruence.
  - injection E as <- <-. constructor; cbn [vs_h vs_ctx vs_prod set_vs_prod]; rewrite ?key_snoc, ?product_snoc; auto.
  - assert (SAME : sess_inv (evs ++ [VCheck]) s) by (constructor; rewrite ?key_snoc, ?product_snoc; auto).
    destruct (vs_prod s) as [[man sn]|] eqn:EP; [|injection E as <- <-; exact SAME]. destruct (bytes_eqb man axis_name); [|injection E as <- <-; exact SAME].
    destruct (supplemental C X (vs_ctx s) (vs_h s)) as [[h st]|] eqn:ES; [|discriminate]. cbn [obind] in E. destruct (supplemental_ok _ _ _ _ I1 I2 ES) as ((G1 & G2 & G3) & L & _).
    assert (forall x, sess_inv (evs ++ [VCheck]) (set_vs_latest x (set_vs_h h s)) /\ sess_inv (evs ++ [VCheck]) (set_vs_h h s)) as Q.
    { intros x. split; constructor; cbn [vs_h vs_ctx vs_prod set_vs_latest set_vs_h]; rewrite ?G1, ?G2, ?key_snoc, ?product_snoc; auto; congruence. }
    destruct (is_ok st); injection E as <- <-; apply Q. exact PkOk.
  - injection E as <- <-. assert (forall x, sess_inv (evs ++ [VReport]) (set_vs_acc x s) /\ sess_inv (evs ++ [VReport]) s) as Q by (intros x; split; constructor; cbn [vs_h vs_ctx vs_prod set_vs_acc]; rewrite ?key_snoc, ?product_snoc; auto).
    destruct (vs_acc s); apply Q. exact PkOk.
  - injection E as <- <-. constructor; cbn [vs_h vs_ctx vs_prod set_vs_acc set_vs_latest]; rewrite ?key_snoc, ?product_snoc; auto.
Qed.

Lemma vev_app l1 : forall s l2, vev_run C X s (l1 ++ l2) = do (s, r1) <- vev_run C X s l1; do (s, r2) <- vev_run C X s l2; Def (s, r1 ++ r2).
Proof.
  induction l1 as [|e l1 IH]; intros s l2; cbn [app vev_run obind].
  - destruct (vev_run C X s l2) as [[s2 r2]|]; reflexivity.
  - destruct (vev_step C X s e) as [[s1 r]|]; [|reflexivity]. cbn [obind]. rewrite IH. destruct (vev_run C X s1 l1) as [[s2 r1]|]; [|reflexivity]. cbn [obind]. destruct (vev_run C X s2 l2) as [[s3 r2]|]; reflexivity.
Qed.

Lemma inv_run evs : forall e0 s s2 rs, sess_inv e0 s -> Forall tag_bytes evs -> vev_run C X s evs = Def (s2, rs) -> sess_inv (e0 ++ evs) s2.
Proof.
  induction evs as [|e evs IH]; intros e0 s s2 rs I0 F E; cbn [vev_run] in E.
  - injection E as <- <-. rewrite app_nil_r. exact I0.
  - apply Forall_cons_iff in F as [F0 F]. destruct (vev_step C X s e) as [[s1 r]|] eqn:ES; [|discriminate]. cbn [obind] in E. destruct (vev_run C X s1 evs) as [[s3 r3]|] eqn:ER; [|discriminate]. cbn [obind] in E. injection E as <- <-.
    replace (e0 ++ e :: evs) with ((e0 ++ [e]) ++ evs) by (rewrite <- app_assoc; reflexivity). eapply IH; [|exact F|exact ER]. eapply inv_step; eassumption.
Qed.
Lemma inv_start : sess_inv [] sess_setup.
Proof. constructor; try reflexivity; [discriminate|left; reflexivity]. Qed.

Lemma check_result evs s s2 rs sn : Forall tag_bytes evs -> vcrypto_ok X -> vev_run C X sess_setup evs = Def (s, rs) -> product None evs = Some (axis_name, sn) -> vev_step C X s VCheck = Def (s2, SV_OK) ->
  (vh_pkv (vs_h s2) = 0%Z /\ vs_latest s2 = PkNotOk) \/
  exists att certs pem sn2, tag_received evs att certs /\ key_in_use C None evs = Some pem /\ attested C X att (c_string certs) pem sn2 /\ (vs_latest s2 = PkOk -> sn2 = sn).
Proof.
  intros F XO E P S. pose proof (inv_run _ _ _ _ _ inv_start F E) as [I1 I2 I3 I4 I5]. cbn [app] in *. cbn [vev_step] in S. rewrite I5, P in S. rewrite bytes_eqb_refl in S.
  destruct (supplemental C X (vs_ctx s) (vs_h s)) as [[h st]|] eqn:ES; [|discriminate]. cbn [obind] in S. destruct (is_ok st) eqn:EO; [|injection S as <- ->; discriminate EO].
  assert (st = SV_OK) by (destruct st; try discriminate EO; reflexivity). subst st. injection S as <-. cbn [vs_h vs_latest set_vs_h set_vs_latest].
  destruct (supplemental_ok _ _ _ _ I1 I2 ES) as (_ & _ & _ & R). specialize (R eq_refl). destruct (Z.eqb_spec (vh_pkv h) 0) as [Z0|NZ].
  - left. split; [exact Z0|]. destruct (negb _); [reflexivity|]. rewrite Z0. reflexivity.
  - right. destruct R as [R|R]; [contradiction|]. destruct R as (a & m & str & g & pem & pub & sig & ts & chip & cert & more & cn & R1 & R2 & R3 & R4 & R5 & R6 & R7 & R8 & R9 & R10 & R11 & R12 & R13 & R14 & R15 & R17 & R16).
    destruct I3 as [I3|(a2 & c & A1 & A2 & A3)]; [congruence|]. assert (a2 = a) by congruence. subst a2. assert (m = c ++ [0]) by congruence. subst m. rewrite cstr_string in R3. injection R3 as <-.
    exists a, c, pem, (vh_serial h). split; [exact A3|]. split; [rewrite <- I4, R4; reflexivity|]. split.
    + exists cert, more, cn, pub, chip, ts, sig. repeat (split; [assumption|]). destruct (Z.lt_ge_cases 0 (x_digest_verify X pub sig (statement_about C (x_point X pem) chip ts))) as [L|L]; [exact L|]. exfalso.
      assert (ZZ : (x_digest_verify X pub sig (statement_about C (x_point X pem) chip ts) = 0)%Z) by lia. rewrite ZZ, Z.land_0_r in R16. contradiction.
    + destruct (bytes_eqb sn (vh_serial h)) eqn:EB; cbn [negb]; [apply bytes_eqb_eq in EB; auto|discriminate].
Qed.

(** ** A failed check stays failed *)

Lemma give_zero h g pem ch h2 st : give_key X h g pem ch = (h2, st) -> vh_pkv h = 0%Z -> vh_pkv h2 = 0%Z.
Proof. unfold give_key. intros E Z0. rewrite Z0 in E. injection E as <- _. exact Z0. Qed.

Lemma zero_step evs s e s2 r : sess_inv evs s -> tag_bytes e -> vev_step C X s e = Def (s2, r) -> vh_pkv (vs_h s) = 0%Z ->
  vh_pkv (vs_h s2) = 0%Z /\ (vs_latest s <> PkOk -> vs_latest s2 <> PkOk).
Proof.
  intros [I1 I2 I3 I4 I5] BE E Z0. destruct e as [pem ch|mem size|man sn| | |]; cbn [vev_step] in E.
  - destruct (negb (c_pub_ok C pem)); [injection E as <- <-; auto|]. destruct (is_axis _); [|injection E as <- <-; auto].
    destruct (give_key _ _ _ _ _) as [h st] eqn:EG. injection E as <- <-. split; [|auto]. exact (give_zero _ _ _ _ _ _ EG Z0).
  - destruct (axis_decode (vs_h s) mem size) as [[h st]|] eqn:ED; [|discriminate]. cbn [obind] in E. injection E as <- <-. destruct (decode_parts _ _ _ _ _ ED BE) as (D1 & _). split; [cbn; congruence|auto].
  - injection E as <- <-. auto.
  - destruct (vs_prod s) as [[man sn]|]; [|injection E as <- <-; auto]. destruct (bytes_eqb man axis_name); [|injection E as <- <-; auto].
    destruct (supplemental C X (vs_ctx s) (vs_h s)) as [[h st]|] eqn:ES; [|discriminate]. cbn [obind] in E. destruct (supplemental_ok _ _ _ _ I1 I2 ES) as (_ & _ & K & _). specialize (K Z0).
    destruct (is_ok st); injection E as <- <-; cbn [vs_h vs_latest set_vs_latest set_vs_h]; (split; [exact K|]); [|auto]. intros _. rewrite K. destruct (negb _); discriminate.
  - injection E as <- <-. destruct (vs_acc s); auto.
  - injection E as <- <-. cbn. split; [exact Z0|discriminate].
Qed.

Lemma zero_run evs : forall e0 s s2 rs, sess_inv e0 s -> Forall tag_bytes evs -> vev_run C X s evs = Def (s2, rs) -> vh_pkv (vs_h s) = 0%Z ->
  vh_pkv (vs_h s2) = 0%Z /\ (vs_latest s <> PkOk -> vs_latest s2 <> PkOk).
Proof.
  induction evs as [|e evs IH]; intros e0 s s2 rs I0 F E Z0; cbn [vev_run] in E.
  - injection E as <- <-. auto.
  - apply Forall_cons_iff in F as [F0 F]. destruct (vev_step C X s e) as [[s1 r]|] eqn:ES; [|discriminate]. cbn [obind] in E. destruct (vev_run C X s1 evs) as [[s3 r3]|] eqn:ER; [|discriminate]. cbn [obind] in E. injection E as <- <-.
    destruct (zero_step _ _ _ _ _ I0 F0 ES Z0) as [Z1 L1]. destruct (IH _ _ _ _ (inv_step _ _ _ _ _ I0 F0 ES) F ER Z1) as [Z2 L2]. auto.
Qed.

Lemma failed_final evs1 evs2 sn s1 s2 s3 r1 r2 : Forall tag_bytes (evs1 ++ evs2) -> vcrypto_ok X ->
  vev_run C X sess_setup evs1 = Def (s1, r1) -> product None evs1 = Some (axis_name, sn) -> vev_step C X s1 VCheck = Def (s2, SV_OK) ->
  (forall att certs pem sn2, tag_received evs1 att certs -> key_in_use C None evs1 = Some pem -> ~ attested C X att (c_string certs) pem sn2) ->
  vev_run C X s2 evs2 = Def (s3, r2) -> vs_latest s2 = PkNotOk /\ vs_latest s3 <> PkOk.
Proof.
  intros F XO E1 P S NA E2. apply Forall_app in F as [F1 F2]. destruct (check_result _ _ _ _ _ F1 XO E1 P S) as [[Z0 L0]|(att & certs & pem & sn2 & A1 & A2 & A3 & _)]; [|destruct (NA _ _ _ _ A1 A2 A3)].
  split; [exact L0|]. pose proof (inv_run _ _ _ _ _ inv_start F1 E1) as I1. cbn [app] in I1. pose proof (inv_step _ _ VCheck _ _ I1 Logic.I S) as I2.
  apply (zero_run _ _ _ _ _ I2 F2 E2 Z0). rewrite L0. discriminate.
Qed.

Lemma zero_check evs s s2 sn : sess_inv evs s -> product None evs = Some (axis_name, sn) -> vh_pkv (vs_h s) = 0%Z -> vev_step C X s VCheck = Def (s2, SV_OK) -> vs_latest s2 = PkNotOk.
Proof.
  intros [I1 I2 I3 I4 I5] P Z0 S. cbn [vev_step] in S. rewrite I5, P, bytes_eqb_refl in S. destruct (supplemental C X (vs_ctx s) (vs_h s)) as [[h st]|] eqn:ES; [|discriminate]. cbn [obind] in S. destruct (is_ok st) eqn:EO; [|injection S as <- ->; discriminate EO].
  destruct (supplemental_ok _ _ _ _ I1 I2 ES) as (_ & _ & K & _). specialize (K Z0). injection S as <-. cbn [vs_latest set_vs_latest]. rewrite K. destruct (negb _); reflexivity.
Qed.

(** A usable key reaches the vendor code, and another one takes its place. *)
Definition key_given (s : vsess) : Prop := vh_pkv (vs_h s) = 0%Z \/ vh_key (vs_h s) <> None.

Lemma given_step evs s e s2 r : sess_inv evs s -> tag_bytes e -> vev_step C X s e = Def (s2, r) -> key_given s -> key_given s2.
Proof.
  intros I0 BE E G. destruct (Z.eqb_spec (vh_pkv (vs_h s)) 0) as [Z0|NZ]; [left; exact (proj1 (zero_step _ _ _ _ _ I0 BE E Z0))|]. destruct G as [G|G]; [contradiction|]. destruct I0 as [I1 I2 I3 I4 I5].
  destruct e as [pem ch|mem size|man sn| | |]; cbn [vev_step] in E.
  - destruct (negb (c_pub_ok C pem)); [injection E as <- <-; right; exact G|]. destruct (is_axis _); [|injection E as <- <-; right; exact G].
    cbn [vs_h set_vs_next set_vs_ctx vs_next] in E. unfold give_key in E. rewrite (proj2 (Z.eqb_neq _ _) NZ) in E. destruct (x_kind X pem) as [| |[]]; injection E as <- <-; unfold key_given; cbn; auto. right. discriminate.
  - destruct (axis_decode (vs_h s) mem size) as [[h st]|] eqn:ED; [|discriminate]. cbn [obind] in E. injection E as <- <-. destruct (decode_parts _ _ _ _ _ ED BE) as (_ & D2 & _). right. cbn. congruence.
  - injection E as <- <-. right. exact G.
  - destruct (vs_prod s) as [[man sn]|]; [|injection E as <- <-; right; exact G]. destruct (bytes_eqb man axis_name); [|injection E as <- <-; right; exact G].
    destruct (supplemental C X (vs_ctx s) (vs_h s)) as [[h st]|] eqn:ES; [|discriminate]. cbn [obind] in E. destruct (supplemental_ok _ _ _ _ I1 I2 ES) as ((_ & _ & K) & _).
    destruct (is_ok st); injection E as <- <-; right; cbn; congruence.
  - injection E as <- <-. destruct (vs_acc s); right; exact G.
  - injection E as <- <-. right. exact G.
Qed.

Lemma given_run evs : forall e0 s s2 rs, sess_inv e0 s -> Forall tag_bytes evs -> vev_run C X s evs = Def (s2, rs) -> key_given s -> key_given s2.
Proof.
  induction evs as [|e evs IH]; intros e0 s s2 rs I0 F E G; cbn [vev_run] in E.
  - injection E as <- <-. exact G.
  - apply Forall_cons_iff in F as [F0 F]. destruct (vev_step C X s e) as [[s1 r]|] eqn:ES; [|discriminate]. cbn [obind] in E. destruct (vev_run C X s1 evs) as [[s3 r3]|] eqn:ER; [|discriminate]. cbn [obind] in E. injection E as <- <-.
    exact (IH _ _ _ _ (inv_step _ _ _ _ _ I0 F0 ES) F ER (given_step _ _ _ _ _ I0 F0 ES G)).
Qed.

Lemma first_key evs s sn pem ch s2 r : sess_inv evs s -> product None evs = Some (axis_name, sn) -> c_pub_ok C pem = true -> vev_step C X s (VKey pem ch) = Def (s2, r) -> key_given s2.
Proof.
  intros [I1 I2 I3 I4 I5] P CO E. cbn [vev_step] in E. rewrite CO in E. cbn [negb] in E. unfold is_axis in E. cbn [vs_prod set_vs_next set_vs_ctx] in E. rewrite I5, P, bytes_eqb_refl in E.
  cbn [vs_h set_vs_next set_vs_ctx vs_next] in E. unfold give_key in E. destruct (Z.eqb_spec (vh_pkv (vs_h s)) 0) as [Z0|NZ]; [injection E as <- <-; left; exact Z0|].
  destruct ch, (vh_key (vs_h s)); destruct (x_kind X pem) as [| |[]]; injection E as <- <-; unfold key_given; cbn; auto; right; discriminate.
Qed.

Lemma second_key evs s sn pem s2 r : sess_inv evs s -> product None evs = Some (axis_name, sn) -> c_pub_ok C pem = true -> key_given s -> vev_step C X s (VKey pem true) = Def (s2, r) -> vh_pkv (vs_h s2) = 0%Z.
Proof.
  intros [I1 I2 I3 I4 I5] P CO G E. cbn [vev_step] in E. rewrite CO in E. cbn [negb] in E. unfold is_axis in E. cbn [vs_prod set_vs_next set_vs_ctx] in E. rewrite I5, P, bytes_eqb_refl in E.
  cbn [vs_h set_vs_next set_vs_ctx vs_next] in E. unfold give_key in E. destruct (Z.eqb_spec (vh_pkv (vs_h s)) 0) as [Z0|NZ]; [injection E as <- <-; exact Z0|]. destruct G as [G|G]; [contradiction|].
  destruct (vh_key (vs_h s)) as [k|]; [|contradiction]. destruct (x_kind X pem) as [| |[]]; injection E as <- <-; reflexivity.
Qed.

Lemma key_changed e1 pem1 ch1 e2 pem2 e3 s0 s1 r sn1 sn2 sn3 : Forall tag_bytes (e1 ++ e2 ++ e3) -> product None e1 = Some (axis_name, sn1) -> c_pub_ok C pem1 = true -> c_pub_ok C pem2 = true ->
  product (Some (axis_name, sn1)) e2 = Some (axis_name, sn2) -> product (Some (axis_name, sn2)) e3 = Some (axis_name, sn3) ->
  vev_run C X sess_setup (e1 ++ VKey pem1 ch1 :: e2 ++ VKey pem2 true :: e3) = Def (s0, r) -> vev_step C X s0 VCheck = Def (s1, SV_OK) -> vs_latest s1 = PkNotOk.
Proof.
  intros F P1 C1 C2 P2 P3 E S. apply Forall_app in F as [F1 F]. apply Forall_app in F as [F2 F3].
  assert (PA : forall a b cur, product cur (a ++ b) = product (product cur a) b). { induction a as [|x a IH]; intros b cur; [reflexivity|]. destruct x; cbn [app product]; apply IH. }
  rewrite vev_app in E. destruct (vev_run C X sess_setup e1) as [[sa ra]|] eqn:EA; [|discriminate]. cbn [obind vev_run] in E. pose proof (inv_run _ _ _ _ _ inv_start F1 EA) as IA. cbn [app] in IA.
  destruct (vev_step C X sa (VKey pem1 ch1)) as [[sb rb]|] eqn:EB; [|discriminate]. cbn [obind] in E. pose proof (inv_step _ _ (VKey pem1 ch1) _ _ IA Logic.I EB) as IB. pose proof (first_key _ _ _ _ _ _ _ IA P1 C1 EB) as GB.
  rewrite vev_app in E. destruct (vev_run C X sb e2) as [[sc rc]|] eqn:EC; [|discriminate]. cbn [obind vev_run] in E. pose proof (inv_run _ _ _ _ _ IB F2 EC) as IC. pose proof (given_run _ _ _ _ _ IB F2 EC GB) as GC.
  assert (PC : product None ((e1 ++ [VKey pem1 ch1]) ++ e2) = Some (axis_name, sn2)) by (rewrite !PA, P1; exact P2).
  destruct (vev_step C X sc (VKey pem2 true)) as [[sd rd]|] eqn:ED; [|discriminate]. cbn [obind] in E. pose proof (inv_step _ _ (VKey pem2 true) _ _ IC Logic.I ED) as ID. pose proof (second_key _ _ _ _ _ _ IC PC C2 GC ED) as Z0.
  destruct (vev_run C X sd e3) as [[se re]|] eqn:EE; [|discriminate]. cbn [obind] in E. injection E as <- _. pose proof (inv_run _ _ _ _ _ ID F3 EE) as IE.
  refine (zero_check _ _ _ sn3 IE _ (proj1 (zero_run _ _ _ _ _ ID F3 EE Z0)) S). rewrite PA, PA, PC. exact P3.
Qed.

(** The accumulated report keeps a failure until the session is reset. *)
Lemma acc_keeps evs : forall s s2 rs, vev_run C X s evs = Def (s2, rs) -> ~ In VReset evs -> vs_acc s = PkNotOk -> vs_acc s2 = PkNotOk.
Proof.
  induction evs as [|e evs IH]; intros s s2 rs E NR A; cbn [vev_run] in E; [injection E as <- <-; exact A|].
  destruct (vev_step C X s e) as [[s1 r]|] eqn:ES; [|discriminate]. cbn [obind] in E. destruct (vev_run C X s1 evs) as [[s3 r3]|] eqn:ER; [|discriminate]. cbn [obind] in E. injection E as <- <-.
  apply (IH _ _ _ ER); [intros H; apply NR; right; exact H|]. destruct e as [pem ch|mem size|man sn| | |]; cbn [vev_step] in ES.
  - destruct (negb _); [injection ES as <- <-; exact A|]. destruct (is_axis _); [|injection ES as <- <-; exact A]. destruct (give_key _ _ _ _ _). injection ES as <- <-. exact A.
  - destruct (axis_decode _ _ _) as [[h st]|]; [|discriminate]. injection ES as <- <-. exact A.
  - injection ES as <- <-. exact A.
  - destruct (vs_prod s) as [[man sn]|]; [|injection ES as <- <-; exact A]. destruct (bytes_eqb man axis_name); [|injection ES as <- <-; exact A]. destruct (supplemental _ _ _ _) as [[h st]|]; [|discriminate]. cbn [obind] in ES. destruct (is_ok st); injection ES as <- <-; exact A.
  - injection ES as <- <-. rewrite A. exact A.
  - destruct NR. left. reflexivity.
Qed.

(** Where a positive answer comes from. *)
Lemma check_attested evs s s2 rs sn : Forall tag_bytes evs -> vcrypto_ok X -> vev_run C X sess_setup evs = Def (s, rs) ->
  product None evs = Some (axis_name, sn) -> vev_step C X s VCheck = Def (s2, SV_OK) -> vs_latest s2 = PkOk ->
  exists att certs pem, tag_received evs att certs /\ key_in_use C None evs = Some pem /\ attested C X att (c_string certs) pem sn.
Proof.
  intros F XO E P S L. destruct (check_result _ _ _ _ _ F XO E P S) as [[_ L0]|(att & certs & pem & sn2 & A1 & A2 & A3 & A4)]; [congruence|]. rewrite (A4 L) in A3. exists att, certs, pem. auto.
Qed.

Lemma check_positive evs s s2 st : Forall tag_bytes evs -> vcrypto_ok X -> vev_run C X sess_setup evs = Def (s, st) -> forall r, vev_step C X s VCheck = Def (s2, r) -> vs_latest s2 = PkOk -> vs_latest s = PkOk \/
  exists sn att certs pem, product None evs = Some (axis_name, sn) /\ tag_received evs att certs /\ key_in_use C None evs = Some pem /\ attested C X att (c_string certs) pem sn.
Proof.
  intros F XO E r S L. pose proof (inv_run _ _ _ _ _ inv_start F E) as [I1 I2 I3 I4 I5]. cbn [app] in I5. destruct (product None evs) as [[man sn]|] eqn:P.
  2:{ cbn [vev_step] in S. rewrite I5 in S. injection S as <- <-. auto. }
  destruct (bytes_eqb man axis_name) eqn:EM.
  2:{ cbn [vev_step] in S. rewrite I5, EM in S. injection S as <- <-. auto. }
  apply bytes_eqb_eq in EM. subst man. destruct (is_ok r) eqn:EO.
  - assert (r = SV_OK) by (destruct r; try discriminate EO; reflexivity). subst r. right. destruct (check_result _ _ _ _ _ F XO E P S) as [[_ L0]|(att & certs & pem & sn2 & A1 & A2 & A3 & A4)]; [congruence|].
    rewrite (A4 L) in A3. exists sn, att, certs, pem. auto.
  - left. cbn [vev_step] in S. rewrite I5, bytes_eqb_refl in S. destruct (supplemental _ _ _ _) as [[h st1]|]; [|discriminate]. cbn [obind] in S. destruct (is_ok st1) eqn:E1; injection S as <- <-; [discriminate EO|exact L].
Qed.

Lemma positive_origin evs : forall s rs, Forall tag_bytes evs -> vcrypto_ok X -> vev_run C X sess_setup evs = Def (s, rs) -> vs_latest s = PkOk \/ vs_acc s = PkOk ->
  exists e1 e2 sn att certs pem, evs = e1 ++ VCheck :: e2 /\ product None e1 = Some (axis_name, sn) /\ tag_received e1 att certs /\ key_in_use C None e1 = Some pem /\ attested C X att (c_string certs) pem sn.
Proof.
  induction evs as [|e evs IH] using rev_ind; intros s rs F XO E L.
  - injection E as <- <-. destruct L; discriminate.
  - apply Forall_app in F as [F F0]. rewrite vev_app in E. destruct (vev_run C X sess_setup evs) as [[s1 r1]|] eqn:E1; [|discriminate]. cbn [obind vev_run] in E. destruct (vev_step C X s1 e) as [[s2 r2]|] eqn:ES; [|discriminate]. cbn [obind] in E. injection E as <- _.
    assert (K : vs_latest s1 = PkOk \/ vs_acc s1 = PkOk -> exists e1 e2 sn att certs pem, evs ++ [e] = e1 ++ VCheck :: e2 /\ product None e1 = Some (axis_name, sn) /\ tag_received e1 att certs /\ key_in_use C None e1 = Some pem /\ attested C X att (c_string certs) pem sn).
    { intros H. destruct (IH _ _ F XO eq_refl H) as (e1 & e2 & sn & att & certs & pem & -> & R). exists e1, (e2 ++ [e]), sn, att, certs, pem. split; [rewrite <- app_assoc; reflexivity|exact R]. }
    destruct e as [pem ch|mem size|man sn| | |].
    + cbn [vev_step] in ES. destruct (negb _); [injection ES as <- <-; auto|]. destruct (is_axis _); [|injection ES as <- <-; auto]. destruct (give_key _ _ _ _ _). injection ES as <- <-. auto.
    + cbn [vev_step] in ES. destruct (axis_decode _ _ _) as [[h st]|]; [|discriminate]. injection ES as <- <-. auto.
    + injection ES as <- <-. auto.
    + destruct L as [L|L].
      * destruct (check_positive _ _ _ _ F XO E1 _ ES L) as [L1|(sn & att & certs & pem & R)]; [auto|]. exists evs, [], sn, att, certs, pem. auto.
      * apply K. right. cbn [vev_step] in ES. destruct (vs_prod s1) as [[man sn]|]; [|injection ES as <- <-; exact L]. destruct (bytes_eqb man axis_name); [|injection ES as <- <-; exact L]. destruct (supplemental _ _ _ _) as [[h st]|]; [|discriminate]. cbn [obind] in ES. destruct (is_ok st); injection ES as <- <-; exact L.
    + cbn [vev_step] in ES. injection ES as <- <-. apply K. destruct (vs_acc s1) eqn:EA; auto; cbn [vs_latest vs_acc set_vs_acc] in L; destruct L as [L|L]; auto; congruence.
    + injection ES as <- <-. destruct L; discriminate.
Qed.
End Key.

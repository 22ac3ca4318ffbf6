(** Proofs about the vendor code. *)
From Verif Require Import Base BaseProofs Epb EpbProofs Crypto Types Tlv Vendor VendorSpec.
Local Open Scope N_scope.

(** ** Strings *)

Lemma starts_prefix pat : forall s, starts_with pat s = true <-> exists r, s = pat ++ r.
Proof.
  induction pat as [|p pat IH]; intros s; cbn [starts_with].
  - split; [intros _; exists s; reflexivity|reflexivity].
  - destruct s as [|c s].
    + split; [discriminate|]. intros (r & E). discriminate E.
    + rewrite andb_true_iff, N.eqb_eq, IH. split.
      * intros [-> (r & ->)]. exists r. reflexivity.
      * intros (r & E). injection E as <- ->. eauto.
Qed.

Lemma strstr_some s pat t : strstr s pat = Some t -> exists a r, s = a ++ t /\ t = pat ++ r.
Proof.
  revert t. induction s as [|c s IH]; intros t; cbn [strstr].
  - destruct (starts_with pat []) eqn:E; [|discriminate]. intros H. injection H as <-. apply starts_prefix in E as (r & E). exists [], r. auto.
  - destruct (starts_with pat (c :: s)) eqn:E.
    + intros H. injection H as <-. apply starts_prefix in E as (r & E). exists [], r. auto.
    + intros H. destruct (IH _ H) as (a & r & -> & E2). exists (c :: a), r. auto.
Qed.

(** A string in front in which the pattern cannot begin. *)
Lemma strstr_skip pat t : forall a, (forall x y, a = x ++ y -> y <> [] -> starts_with pat (y ++ t) = false) -> strstr (a ++ t) pat = strstr t pat.
Proof.
  induction a as [|c a IH]; intros H; [reflexivity|]. cbn [app strstr]. pose proof (H [] (c :: a) eq_refl ltac:(discriminate)) as H0. cbn [app] in H0. rewrite H0. apply IH. intros x y E NE. apply (H (c :: x) y); [cbn; rewrite E; reflexivity|exact NE].
Qed.
Lemma strstr_here pat t : starts_with pat t = true -> strstr t pat = Some t.
Proof. intros H. destruct t; cbn [strstr]; rewrite H; reflexivity. Qed.

(** A newline stops a match. *)
Lemma no_match_line pat y t : ~ In 10 pat -> (length y < length pat)%nat -> starts_with pat (y ++ 10 :: t) = false.
Proof.
  revert y. induction pat as [|p pat IH]; intros y NI L; [cbn in L; lia|]. destruct y as [|c y]; cbn [app starts_with].
  - destruct (N.eqb_spec p 10) as [->|NE]; [destruct NI; left; reflexivity|reflexivity].
  - rewrite IH; [apply andb_false_r|intros X; apply NI; right; exact X|cbn in L; lia].
Qed.
Lemma match_in_line pat y t : starts_with pat (y ++ t) = true -> (length pat <= length y)%nat -> exists r, y = pat ++ r.
Proof.
  intros H L. apply starts_prefix in H as (r & E). exists (skipn (length pat) y).
  pose proof (f_equal (firstn (length pat)) E) as F. rewrite !firstn_app in F. replace (length pat - length y)%nat with 0%nat in F by lia. rewrite Nat.sub_diag, firstn_all in F. cbn [firstn] in F. rewrite !app_nil_r in F. rewrite <- F at 1. symmetry. apply firstn_skipn.
Qed.
Lemma skip_line pat y t : ~ In 10 pat -> ~ occurs pat y -> strstr (y ++ 10 :: t) pat = strstr (10 :: t) pat.
Proof.
  intros NI NO. apply strstr_skip. intros x z E NE. destruct (Nat.lt_ge_cases (length z) (length pat)) as [L|L]; [apply no_match_line; assumption|].
  destruct (starts_with pat (z ++ 10 :: t)) eqn:S; [|reflexivity]. destruct (match_in_line _ _ _ S L) as (r & ->). destruct NO. exists x, r. exact E.
Qed.
Lemma skip_nl pat t : ~ In 10 pat -> pat <> [] -> strstr (10 :: t) pat = strstr t pat.
Proof.
  intros NI NE. cbn [strstr]. destruct pat as [|p pat]; [congruence|]. cbn [starts_with]. destruct (N.eqb_spec p 10) as [->|]; [destruct NI; left; reflexivity|reflexivity].
Qed.

Lemma begin_no_nl : ~ In 10 begin_cert.
Proof. cbv. intuition discriminate. Qed.
Lemma begin_nonzero : ~ In 0 begin_cert.
Proof. cbv. intuition discriminate. Qed.

Lemma next_cert_app c n t : pem_cert c -> next_cert (S n) (c ++ t) = next_cert n t.
Proof.
  intros (body & -> & NO & NZ). assert (E1 : (begin_cert ++ [10] ++ body ++ [10]) ++ t = begin_cert ++ 10 :: body ++ 10 :: t) by (rewrite <- !app_assoc; reflexivity). rewrite E1.
  cbn [next_cert]. rewrite (strstr_here begin_cert (begin_cert ++ _)) by (apply starts_prefix; eauto).
  assert (E2 : strstr (tl (begin_cert ++ 10 :: body ++ 10 :: t)) begin_cert = strstr t begin_cert).
  { change (tl (begin_cert ++ 10 :: body ++ 10 :: t)) with (tl begin_cert ++ 10 :: body ++ 10 :: t). rewrite (skip_line begin_cert (tl begin_cert)); [|exact begin_no_nl|].
    - rewrite skip_nl; [|exact begin_no_nl|discriminate]. rewrite skip_line; [|exact begin_no_nl|exact NO]. apply skip_nl; [exact begin_no_nl|discriminate].
    - intros (a & b & E). apply (f_equal (@length N)) in E. rewrite !app_length in E. cbv [begin_cert tl length] in E. lia. }
  destruct n; cbn [next_cert]; rewrite E2; reflexivity.
Qed.

Lemma cstr_ok s r : ~ In 0 s -> cstr (s ++ 0 :: r) = Def s.
Proof.
  induction s as [|c s IH]; intros NZ; [reflexivity|]. cbn [app cstr]. destruct c; [destruct NZ; left; reflexivity|]. rewrite IH; [reflexivity|]. intros X. apply NZ. right. exact X.
Qed.

(** ** Attestation reports *)

Lemma untrusted_two c1 c2 t m : pem_cert c1 -> pem_cert c2 -> starts_with begin_cert t = true -> ~ In 0 t -> vh_chain m = Some ((c1 ++ c2 ++ t) ++ [0]) ->
  untrusted_size m = Def (length (c1 ++ c2)).
Proof.
  intros P1 P2 S NZ E. unfold untrusted_size. rewrite E.
  assert (Z : forall c, pem_cert c -> ~ In 0 c).
  { intros c (b & -> & _ & NB) H. rewrite !in_app_iff in H. destruct H as [H|[H|[H|H]]]; [exact (begin_nonzero H)|destruct H as [H|[]]; discriminate H|exact (NB H)|destruct H as [H|[]]; discriminate H]. }
  rewrite cstr_ok by (rewrite !in_app_iff; intros [H|[H|H]]; [exact (Z _ P1 H)|exact (Z _ P2 H)|exact (NZ H)]).
  cbn [obind]. rewrite (next_cert_app c1 1 _ P1), (next_cert_app c2 0 _ P2). cbn [next_cert]. rewrite (strstr_here _ _ S). f_equal. rewrite !app_length. lia.
Qed.

Definition with_nl (s : list N) : list N := s ++ (if last s 0 =? 10 then [] else [10]).
Lemma set_report_new h att s : vh_att h = None -> vh_chain h = None -> att <> [] -> s <> [] -> set_report h (Some att) (Some s) = (set_vh_chain (Some (with_nl s ++ [0])) (set_vh_att (Some att) h), SV_OK).
Proof.
  intros A1 A2 N1 N2. unfold set_report, with_nl. rewrite A1. destruct att; [congruence|]. cbn [vh_chain set_vh_att]. rewrite A2. destruct s; [congruence|]. rewrite <- app_assoc. reflexivity.
Qed.

Lemma take_app a r : take_mem (length a) (a ++ r) = Def (a, r).
Proof. unfold take_mem. rewrite app_length. destruct (Nat.leb_spec (length a) (length a + length r)); [|lia]. rewrite firstn_app, firstn_all, Nat.sub_diag, app_nil_r, skipn_app, skipn_all, Nat.sub_diag. reflexivity. Qed.
Lemma differ_app a b r r2 : length a = length b -> differ (length a) (a ++ r) (b ++ r2) = Def (negb (bytes_eqb a b)).
Proof. intros L. unfold differ. rewrite take_app. cbn [obind]. rewrite L, take_app. reflexivity. Qed.
Lemma differ_whole a b r : length a = length b -> differ (length a) (a ++ r) b = Def (negb (bytes_eqb a b)).
Proof. intros L. pose proof (differ_app a b r [] L) as H. rewrite app_nil_r in H. exact H. Qed.
Lemma bytes_eqb_false a b : a <> b -> bytes_eqb a b = false.
Proof. intros H. destruct (bytes_eqb a b) eqn:E; [apply bytes_eqb_eq in E; contradiction|reflexivity]. Qed.

Lemma decode_fresh h att c rest : vh_att h = None -> vh_chain h = None -> att <> [] -> nlen att < 256 -> c <> [] ->
  axis_decode h (vendor_tag att c ++ rest) (nlen (vendor_tag att c)) = Def (set_vh_chain (Some (c ++ [0])) (set_vh_att (Some att) h), SV_OK).
Proof.
  intros A1 A2 N1 L N2. unfold axis_decode, vendor_tag. cbn [app read_8bits obind]. change (1 =? 1) with true. cbn [negb].
  assert (NZ : nlen att =? 0 = false) by (destruct att; [congruence|unfold nlen; cbn [length]; lia]). rewrite NZ, A1. assert (NL : N.to_nat (nlen att) = length att) by (unfold nlen; lia). rewrite NL.
  rewrite <- app_assoc, take_app. cbn [obind vh_att set_vh_att]. rewrite N.eqb_refl. cbn [negb].
  rewrite differ_whole by reflexivity. rewrite bytes_eqb_refl. cbn [negb obind]. rewrite skipn_app, skipn_all, Nat.sub_diag. cbn [app skipn].
  assert (LC : (length c > 0)%nat) by (destruct c; [congruence|cbn; lia]).
  assert (SZ : nlen (1 :: nlen att :: att ++ c) = nlen att + nlen c + 2) by (unfold nlen; cbn [length]; rewrite app_length; lia). rewrite SZ.
  destruct (N.leb_spec (nlen att + nlen c + 2) (nlen att + 2)) as [B|B]; [unfold nlen in B; lia|]. replace (N.to_nat (nlen att + nlen c + 2 - nlen att - 2)) with (length c) by (unfold nlen; lia).
  cbn [vh_chain set_vh_att]. rewrite A2, take_app. cbn [obind vh_chain set_vh_chain]. rewrite differ_app by reflexivity. rewrite bytes_eqb_refl. reflexivity.
Qed.

Lemma decode_again h att c a2 c2 rest : holds h att c -> a2 <> [] -> nlen a2 < 256 -> c2 <> [] -> (length c2 <= length c)%nat ->
  axis_decode h (vendor_tag a2 c2 ++ rest) (nlen (vendor_tag a2 c2)) =
    Def (h, if bytes_eqb a2 att && bytes_eqb c2 (firstn (length c2) c) then SV_OK else SV_NOT_SUPPORTED).
Proof.
  intros [H1 H2] N1 L N2 LC. unfold axis_decode, vendor_tag. cbn [app read_8bits obind]. change (1 =? 1) with true. cbn [negb].
  assert (NZ : nlen a2 =? 0 = false) by (destruct a2; [congruence|unfold nlen; cbn [length]; lia]). rewrite NZ, H1. cbn [obind]. rewrite H1.
  assert (NL : N.to_nat (nlen a2) = length a2) by (unfold nlen; lia). rewrite NL.
  destruct (N.eqb_spec (nlen a2) (nlen att)) as [EL|NEL]; cbn [negb].
  - assert (EL2 : length a2 = length att) by (unfold nlen in EL; lia). rewrite <- app_assoc. rewrite differ_whole by exact EL2. cbn [obind].
    destruct (bytes_eqb a2 att) eqn:EA; cbn [negb andb]; [|reflexivity]. rewrite skipn_app, skipn_all, Nat.sub_diag. cbn [app skipn].
    assert (LC2 : (length c2 > 0)%nat) by (destruct c2; [congruence|cbn; lia]).
    assert (SZ : nlen (1 :: nlen a2 :: a2 ++ c2) = nlen a2 + nlen c2 + 2) by (unfold nlen; cbn [length]; rewrite app_length; lia). rewrite SZ.
    destruct (N.leb_spec (nlen a2 + nlen c2 + 2) (nlen a2 + 2)) as [B|B]; [unfold nlen in B; lia|]. replace (N.to_nat (nlen a2 + nlen c2 + 2 - nlen a2 - 2)) with (length c2) by (unfold nlen; lia).
    rewrite H2. cbn [obind]. rewrite H2. rewrite <- (firstn_skipn (length c2) c) at 1. rewrite <- app_assoc. rewrite differ_app by (rewrite firstn_length; lia). cbn [obind]. destruct (bytes_eqb c2 _); reflexivity.
  - rewrite bytes_eqb_false by (intros ->; congruence). reflexivity.
Qed.

Lemma report_round_trip h0 att c1 c2 root : vh_att h0 = None -> vh_chain h0 = None -> att <> [] -> nlen att < 256 ->
  pem_cert c1 -> pem_cert c2 -> starts_with begin_cert root = true -> ~ In 0 root ->
  exists h v, set_report h0 (Some att) (Some (c1 ++ c2 ++ root)) = (h, SV_OK) /\ axis_value h = Def v /\
    forall g rest, vh_att g = None -> vh_chain g = None ->
      exists g', axis_decode g (v ++ rest) (nlen v) = Def (g', SV_OK) /\ holds g' att (c1 ++ c2) /\ vh_pkv g' = vh_pkv g /\ vh_key g' = vh_key g /\
        forall rest2, axis_decode g' (v ++ rest2) (nlen v) = Def (g', SV_OK).
Proof.
  intros A1 A2 NE L P1 P2 S NZ. assert (NC : c1 ++ c2 <> []) by (destruct P1 as (b & -> & _); discriminate).
  assert (NS : c1 ++ c2 ++ root <> []) by (destruct P1 as (b & -> & _); discriminate).
  assert (EN : exists t, with_nl (c1 ++ c2 ++ root) = c1 ++ c2 ++ t /\ starts_with begin_cert t = true /\ ~ In 0 t).
  { unfold with_nl. exists (root ++ (if last (c1 ++ c2 ++ root) 0 =? 10 then [] else [10])). split; [rewrite <- !app_assoc; reflexivity|]. split.
    - apply starts_prefix in S as (r & ->). apply starts_prefix. eexists. rewrite <- app_assoc. reflexivity.
    - rewrite in_app_iff. intros [H|H]; [exact (NZ H)|]. destruct (_ =? _) in H; [destruct H|destruct H as [H|[]]; discriminate H]. }
  destruct EN as (t & ET & S2 & NZ2).
  eexists. exists (vendor_tag att (c1 ++ c2)). split; [apply set_report_new; assumption|]. rewrite ET. split.
  - unfold axis_value. rewrite (untrusted_two c1 c2 t); [|assumption|assumption|assumption|assumption|reflexivity]. cbn [obind vh_att vh_chain set_vh_att set_vh_chain].
    unfold vendor_tag. assert (EU : u8 (nlen att) = nlen att) by (unfold u8; apply N.mod_small; exact L). rewrite EU. do 3 f_equal. f_equal. rewrite (app_assoc c1), <- app_assoc, firstn_app, firstn_all, Nat.sub_diag. cbn [firstn]. apply app_nil_r.
  - intros g rest G1 G2. eexists. split; [apply decode_fresh; assumption|]. split; [split; reflexivity|]. split; [reflexivity|]. split; [reflexivity|]. intros rest2.
    rewrite (decode_again _ att (c1 ++ c2)); [|split; reflexivity|assumption|assumption|assumption|lia]. rewrite bytes_eqb_refl, firstn_all, bytes_eqb_refl. reflexivity.
Qed.

Lemma other_refused h att c a2 c2 rest : holds h att c -> a2 <> [] -> nlen a2 < 256 -> c2 <> [] -> (length c2 <= length c)%nat ->
  a2 <> att \/ (forall more, c <> c2 ++ more) -> axis_decode h (vendor_tag a2 c2 ++ rest) (nlen (vendor_tag a2 c2)) = Def (h, SV_NOT_SUPPORTED).
Proof.
  intros H N1 L N2 LC D. rewrite (decode_again h att c a2 c2 rest H N1 L N2 LC). destruct D as [D|D]; [rewrite (bytes_eqb_false _ _ D); reflexivity|].
  rewrite (bytes_eqb_false c2); [rewrite andb_false_r; reflexivity|]. intros E. apply (D (skipn (length c2) c)). rewrite E at 1. symmetry. apply firstn_skipn.
Qed.

(** The same through the byte writer of the SEI. *)
Lemma encoded_round_trip h0 att c1 c2 root : vh_att h0 = None -> vh_chain h0 = None -> att <> [] -> nlen att < 256 -> bytes_ok (att ++ c1 ++ c2) ->
  pem_cert c1 -> pem_cert c2 -> starts_with begin_cert root = true -> ~ In 0 root ->
  exists h, set_report h0 (Some att) (Some (c1 ++ c2 ++ root)) = (h, SV_OK) /\
    forall epb lt, exists lt2 bytes, axis_encode h epb lt = Def (lt2, bytes) /\
    forall g rest, vh_att g = None -> vh_chain g = None ->
      exists n v g2, read_bytes epb n lt (bytes ++ rest) = Def (v, lt2, rest) /\ axis_decode g v (nlen v) = Def (g2, SV_OK) /\ holds g2 att (c1 ++ c2) /\
        axis_decode g2 v (nlen v) = Def (g2, SV_OK).
Proof.
  intros A1 A2 NE L BO P1 P2 S NZ. destruct (report_round_trip h0 att c1 c2 root A1 A2 NE L P1 P2 S NZ) as (h & v & E1 & E2 & E3). exists h. split; [exact E1|].
  intros epb lt. exists (fst (write_bytes epb lt v)), (snd (write_bytes epb lt v)). split; [unfold axis_encode; rewrite E2; cbn [obind]; destruct (write_bytes epb lt v); reflexivity|].
  intros g rest G1 G2. exists (length v), v. destruct (E3 g [] G1 G2) as (g2 & D1 & D2 & _ & _ & D3). rewrite app_nil_r in D1. exists g2.
  assert (BV : bytes_ok v).
  { assert (NC : c1 ++ c2 <> []) by (destruct P1 as (b & -> & _); discriminate).
    assert (v = vendor_tag att (c1 ++ c2)).
    { assert (EN : exists t, with_nl (c1 ++ c2 ++ root) = c1 ++ c2 ++ t /\ starts_with begin_cert t = true /\ ~ In 0 t).
      { unfold with_nl. exists (root ++ (if last (c1 ++ c2 ++ root) 0 =? 10 then [] else [10])). split; [rewrite <- !app_assoc; reflexivity|]. split.
        - apply starts_prefix in S as (r & ->). apply starts_prefix. eexists. rewrite <- app_assoc. reflexivity.
        - rewrite in_app_iff. intros [H|H]; [exact (NZ H)|]. destruct (_ =? _) in H; [destruct H|destruct H as [H|[]]; discriminate H]. }
      destruct EN as (t & ET & S2 & NZ2). rewrite set_report_new in E1; [|assumption|assumption|assumption|destruct P1 as (b & -> & _); discriminate]. injection E1 as <-. rewrite ET in E2. revert E2.
      unfold axis_value. rewrite (untrusted_two c1 c2 t); [|assumption|assumption|assumption|assumption|reflexivity]. cbn [obind vh_att vh_chain set_vh_att set_vh_chain]. intros E2. injection E2 as <-.
      unfold vendor_tag. f_equal. f_equal; [unfold u8; apply N.mod_small; exact L|]. f_equal. rewrite (app_assoc c1), <- app_assoc, firstn_app, firstn_all, Nat.sub_diag. cbn [firstn]. apply app_nil_r. }
    subst v. unfold vendor_tag. apply Forall_cons; [reflexivity|]. apply Forall_cons; [exact L|]. exact BO. }
  split; [apply read_write_bytes; exact BV|]. split; [exact D1|]. split; [exact D2|]. specialize (D3 []). rewrite app_nil_r in D3. exact D3.
Qed.

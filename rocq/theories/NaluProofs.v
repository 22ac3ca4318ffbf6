(** Lemmas about NALU parsing. *)
From Verif Require Import Base BaseProofs Epb EpbProofs Nalu NaluSpec.
Local Open Scope N_scope.

Lemma in_upto n x : x < N.of_nat n -> In x (map N.of_nat (seq 0 n)).
Proof.
  intros H. apply in_map_iff. exists (N.to_nat x). rewrite N2Nat.id. split; [reflexivity|].
  apply in_seq. lia.
Qed.

(** All header values checked, lifted to all inputs. *)
Definition t_eqb (a b : ntype * bool) : bool :=
  ntype_eqb (fst a) (fst b) && Bool.eqb (snd a) (snd b).
Lemma t_eqb_eq a b : t_eqb a b = true -> a = b.
Proof. destruct a as [[] []], b as [[] []]; cbn; congruence. Qed.

Definition h264_core (b0 : N) : ntype * bool :=
  let '(t, v) :=
        match b0 mod 32 with
        | 1 => (TP, true)
        | 2 | 3 | 4 => (TOther, true)
        | 5 => (TI, 0 <? (b0 / 32) mod 4)
        | 6 => (TSei, (b0 / 32) mod 4 =? 0)
        | 7 | 8 | 13 | 15 => (TPs, 0 <? (b0 / 32) mod 4)
        | 9 => (TAud, true)
        | 10 | 11 | 12 => (TOther, (b0 / 32) mod 4 =? 0)
        | _ => (TUndef, false)
        end in (t, v && negb (128 <=? b0)).

Definition h264_check : bool :=
  forallb (fun f => forallb (fun ref => forallb (fun ty =>
    t_eqb (h264_core (h264_bits f ref ty))
      (let (t, v) := lookup h264_table ty ref 0 in (t, v && (f =? 0))))
    (map N.of_nat (seq 0 32))) (map N.of_nat (seq 0 4))) (map N.of_nat (seq 0 2)).
Lemma h264_check_true : h264_check = true.
Proof. vm_compute. reflexivity. Qed.

Lemma h264_header_table f ref ty b1 rest : f < 2 -> ref < 4 -> ty < 32 ->
  parse_header H264 (h264_bits f ref ty :: b1 :: rest) =
  Def (fst (lookup h264_table ty ref 0), 128 <=? b1, snd (lookup h264_table ty ref 0) && (f =? 0)).
Proof.
  intros Hf Hr Ht. pose proof h264_check_true as H. unfold h264_check in H.
  rewrite forallb_forall in H. specialize (H f (in_upto 2 f Hf)).
  rewrite forallb_forall in H. specialize (H ref (in_upto 4 ref Hr)).
  rewrite forallb_forall in H. specialize (H ty (in_upto 32 ty Ht)).
  apply t_eqb_eq in H. cbn [parse_header]. unfold parse_h264_header.
  set (b0 := h264_bits f ref ty) in *. unfold h264_core in H.
  destruct (match b0 mod 32 with
        | 1 => (TP, true)
        | 2 | 3 | 4 => (TOther, true)
        | 5 => (TI, 0 <? (b0 / 32) mod 4)
        | 6 => (TSei, (b0 / 32) mod 4 =? 0)
        | 7 | 8 | 13 | 15 => (TPs, 0 <? (b0 / 32) mod 4)
        | 9 => (TAud, true)
        | 10 | 11 | 12 => (TOther, (b0 / 32) mod 4 =? 0)
        | _ => (TUndef, false)
        end) as [t v].
  destruct (lookup h264_table ty ref 0) as [t' v']. cbn [fst snd]. congruence.
Qed.

Definition h265_core (ty layer tid : N) : ntype * bool :=
  match ty with
  | 0 | 1 => (TP, true)
  | 2 | 3 => (TOther, negb (tid =? 0))
  | 4 | 5 => (TOther, if layer =? 0 then negb (tid =? 0) else true)
  | 6 | 7 | 8 | 9 => (TOther, negb (tid =? 0))
  | 16 | 17 | 18 | 19 | 20 | 21 => (TI, tid =? 0)
  | 32 | 33 => (TPs, tid =? 0)
  | 34 => (TPs, true)
  | 35 => (TAud, true)
  | 36 | 37 => (TOther, (tid =? 0) && (layer =? 0))
  | 38 => (TOther, true)
  | 39 | 40 => (TSei, true)
  | _ => (TUndef, false)
  end.
Definition h265_check : bool :=
  forallb (fun ty => forallb (fun layer => forallb (fun tid =>
    t_eqb (h265_core ty layer tid) (lookup h265_table ty tid layer))
    (map N.of_nat (seq 0 7))) (map N.of_nat (seq 0 64))) (map N.of_nat (seq 0 64)).
Lemma h265_check_true : h265_check = true.
Proof. vm_compute. reflexivity. Qed.

Lemma h265_header_table f ty layer tid1 b2 rest : f < 2 -> ty < 64 -> layer < 64 -> tid1 < 8 ->
  let h := h265_bits f ty layer tid1 in
  parse_header H265 (h / 256 :: h mod 256 :: b2 :: rest) =
  Def (if tid1 =? 0 then (TUndef, false, false)
       else (fst (lookup h265_table ty (tid1 - 1) layer), 128 <=? b2,
             snd (lookup h265_table ty (tid1 - 1) layer) && (f =? 0))).
Proof.
  intros Hf Ht Hl Hi h. cbn [parse_header]. unfold parse_h265_header.
  assert (E1 : (h / 256 / 2) mod 64 = ty) by (unfold h, h265_bits; lia).
  assert (E2 : (h / 256) mod 2 * 32 + h mod 256 / 8 = layer) by (unfold h, h265_bits; lia).
  assert (E3 : (h mod 256) mod 8 = tid1) by (unfold h, h265_bits; lia).
  assert (E4 : (128 <=? h / 256) = negb (f =? 0)).
  { destruct (N.leb_spec 128 (h / 256)), (N.eqb_spec f 0); try reflexivity; exfalso;
    unfold h, h265_bits in *; lia. }
  rewrite E1, E2, E3, E4.
  assert (63 <? layer = false) as -> by (apply N.ltb_ge; lia). rewrite orb_false_r.
  destruct (N.eqb_spec tid1 0) as [Z|Z]; [reflexivity|].
  pose proof h265_check_true as H. unfold h265_check in H.
  rewrite forallb_forall in H. specialize (H ty (in_upto 64 ty Ht)).
  rewrite forallb_forall in H. specialize (H layer (in_upto 64 layer Hl)).
  rewrite forallb_forall in H. assert (Hi' : tid1 - 1 < N.of_nat 7) by lia.
  specialize (H (tid1 - 1) (in_upto 7 _ Hi')).
  apply t_eqb_eq in H. rewrite <- H.
  change (match ty with
              | 0 | 1 => (TP, true)
              | 2 | 3 => (TOther, negb (tid1 - 1 =? 0))
              | 4 | 5 => (TOther, if layer =? 0 then negb (tid1 - 1 =? 0) else true)
              | 6 | 7 | 8 | 9 => (TOther, negb (tid1 - 1 =? 0))
              | 16 | 17 | 18 | 19 | 20 | 21 => (TI, tid1 - 1 =? 0)
              | 32 | 33 => (TPs, tid1 - 1 =? 0)
              | 34 => (TPs, true)
              | 35 => (TAud, true)
              | 36 | 37 => (TOther, (tid1 - 1 =? 0) && (layer =? 0))
              | 38 => (TOther, true)
              | 39 | 40 => (TSei, true)
              | _ => (TUndef, false)
              end) with (h265_core ty layer (tid1 - 1)).
  destruct (h265_core ty layer (tid1 - 1)) as [t v]. rewrite negb_involutive. reflexivity.
Qed.

(** ** Start codes and trailing zeros *)

Lemma start4 l : start_code_len (0 :: 0 :: 0 :: 1 :: l) = Def 4%nat.
Proof. reflexivity. Qed.
Lemma start3 b l : byte_ok b -> start_code_len (0 :: 0 :: 1 :: b :: l) = Def 3%nat.
Proof.
  unfold byte_ok. intros H. unfold start_code_len. cbn [read_32bits obind].
  destruct (N.eqb_spec (0 * 16777216 + 0 * 65536 + 1 * 256 + b) 1); [lia|].
  destruct (N.eqb_spec ((0 * 16777216 + 0 * 65536 + 1 * 256 + b) / 256) 1); [reflexivity|lia].
Qed.

(** The body of a NALU that does not itself begin like a start code. *)
Definition no_start_code (b : list N) : Prop :=
  match b with
  | b0 :: b1 :: b2 :: b3 :: _ => ~ (b0 = 0 /\ b1 = 0 /\ b2 = 0 /\ b3 = 1) /\ ~ (b0 = 0 /\ b1 = 0 /\ b2 = 1)
  | _ => False
  end.
Lemma start0 l : bytes_ok l -> no_start_code l -> start_code_len l = Def 0%nat.
Proof.
  unfold bytes_ok. intros Hb H. destruct l as [|b0 [|b1 [|b2 [|b3 l]]]]; try contradiction.
  cbn [no_start_code] in H. destruct H as [H4 H3].
  repeat match goal with H : Forall _ (_ :: _) |- _ => apply Forall_cons_iff in H; destruct H end.
  unfold byte_ok in *. unfold start_code_len. cbn [read_32bits obind].
  destruct (N.eqb_spec (b0 * 16777216 + b1 * 65536 + b2 * 256 + b3) 1); [exfalso; apply H4; lia|].
  destruct (N.eqb_spec ((b0 * 16777216 + b1 * 65536 + b2 * 256 + b3) / 256) 1); [exfalso; apply H3; lia|].
  reflexivity.
Qed.

(** Parsing in terms of the skipped prefix and the body. *)
Definition parse_body (body : list N) (dsize : N) (c : codec) (check is_auth : bool) : out nalu :=
  do (ty, primary, valid) <- parse_header c body;
  let hashable := ntype_eqb ty TI || ntype_eqb ty TP in
  let first := ntype_eqb ty TI && primary in
  do trimmed <- (if check then strip_trailing body else Def body);
  let hash_size := nlen trimmed in
  let n := mkNalu dsize body hash_size ty (if valid then 1 else 0)%Z hashable
             0 0 0 [] 0 0 primary first false true true false false in
  if negb (ntype_eqb ty TSei) then Def n
  else
    match skipn (header_len c) body with
    | [] => Undef OobRead
    | ud :: p1 =>
        if ud =? 5 then
          do (psize, k, p2) <- get_payload_size p1;
          let poff := (header_len c + 1 + k)%nat in
          let stop := if last trimmed 0 =? 128 then 1%Z else 0%Z in
          let epb := (Z.of_N hash_size - Z.of_nat poff - Z.of_N psize - stop)%Z in
          if (length p2 <? 16)%nat then Undef OobRead
          else
            let is_sv := bytes_eqb (firstn 16 p2) uuid_sv in
            remove_epb
              (mkNalu dsize body hash_size ty (if valid then 1 else 0)%Z (is_sv && is_auth)
                 psize 0 0 [] 0 epb primary first is_sv true true false false) poff
        else Def (mkNalu dsize body hash_size ty (if valid then 1 else 0)%Z false
                    0 0 0 [] 0 0 primary first false true true false false)
    end.

Lemma drop_zeros_app l r : drop_zeros l <> [] -> drop_zeros (l ++ r) = drop_zeros l ++ r.
Proof.
  induction l as [|b l IH]; intros H; [exfalso; apply H; reflexivity|]. cbn [app drop_zeros] in *. destruct b; auto.
Qed.
Lemma drop_zeros_all l r : drop_zeros l = [] -> drop_zeros (l ++ r) = drop_zeros r.
Proof.
  induction l as [|b l IH]; intros H; [reflexivity|]. cbn [app drop_zeros] in *.
  destruct b; [auto|congruence].
Qed.

Lemma strip_pre pre body t : strip_trailing body = Def t -> strip_trailing (pre ++ body) = Def (pre ++ t).
Proof.
  unfold strip_trailing. rewrite rev_app_distr. destruct (drop_zeros (rev body)) as [|x l] eqn:E; [discriminate|].
  intros H. injection H as <-. rewrite drop_zeros_app by (rewrite E; discriminate). rewrite E.
  cbn [app]. f_equal. cbn [rev]. rewrite rev_app_distr, rev_involutive, app_assoc. reflexivity.
Qed.

Lemma strip_def body t : strip_trailing body = Def t -> t <> [] /\ exists k, body = t ++ zeros k.
Proof.
  unfold strip_trailing. destruct (drop_zeros (rev body)) as [|x l] eqn:E; [discriminate|].
  intros H. injection H as <-. split.
  - intros E2. apply (f_equal (@length N)) in E2. rewrite ?app_length, ?rev_length in E2. cbn in E2. lia.
  - assert (G : forall m, drop_zeros m = x :: l -> exists k, m = zeros k ++ x :: l).
    { induction m as [|b m IH]; cbn [drop_zeros]; intros HM; [discriminate|].
      destruct b; [|exists O; exact HM]. destruct (IH HM) as [k ->]. exists (S k). reflexivity. }
    destruct (G _ E) as [k Hk]. exists k. rewrite <- (rev_involutive body), Hk, rev_app_distr. f_equal.
    clear. unfold zeros. induction k as [|k IH]; [reflexivity|]. cbn [repeat rev]. rewrite IH.
    clear IH. induction k as [|k IH]; [reflexivity|]. cbn [repeat app]. rewrite IH. reflexivity.
Qed.

Lemma last_app_ne (a b : list N) d : b <> [] -> last (a ++ b) d = last b d.
Proof.
  intros H. induction a as [|x a IH]; [reflexivity|]. cbn [app last].
  destruct (a ++ b) eqn:E; [|exact IH]. destruct a; [cbn in E; congruence|discriminate].
Qed.

Lemma strip_pre_undef pre body u : strip_trailing body = Undef u ->
  match strip_trailing (pre ++ body) with Undef _ => True | Def t => (length t <= length pre)%nat end.
Proof.
  unfold strip_trailing. destruct (drop_zeros (rev body)) as [|x l] eqn:E; [|discriminate].
  intros _. rewrite rev_app_distr, drop_zeros_all by exact E.
  destruct (drop_zeros (rev pre)) as [|y m] eqn:E2; [exact I|].
  assert (G : forall m, (length (drop_zeros m) <= length m)%nat).
  { clear. induction m as [|b m IH]; cbn; [lia|]. destruct b; cbn; lia. }
  rewrite rev_length, <- E2, <- (rev_length pre). apply G.
Qed.

Lemma parse_nalu_split pre body c check is_auth : start_code_len (pre ++ body) = Def (length pre) ->
  nlen (pre ++ body) < 2 ^ 64 ->
  (check = true -> is_def (strip_trailing body)) -> body <> [] ->
  parse_nalu (pre ++ body) c check is_auth = parse_body body (nlen (pre ++ body)) c check is_auth.
Proof.
  intros HS HB HT HN. unfold parse_nalu.
  destruct (pre ++ body) as [|x l] eqn:E; [destruct pre; cbn in E; congruence|]. rewrite <- E in *.
  rewrite HS. cbn [obind]. rewrite skipn_app_exact. unfold parse_body.
  destruct (parse_header c body) as [[[ty primary] valid]|]; cbn [obind]; [|reflexivity].
  destruct check.
  - destruct (HT eq_refl) as [t Ht]. rewrite Ht, (strip_pre _ _ _ Ht). cbn [obind].
    destruct (strip_def _ _ Ht) as [NE [k Hk]].
    assert (EL : sub64 (nlen (pre ++ t)) (N.of_nat (length pre)) = nlen t).
    { unfold sub64, u64, nlen in *. rewrite Hk, !app_length in *. change (2 ^ 64) with 18446744073709551616 in HB.
      rewrite (N.mod_small (N.of_nat (length pre))) by lia. lia. }
    rewrite EL, last_app_ne by exact NE. reflexivity.
  - cbn [obind].
    assert (EL : sub64 (nlen (pre ++ body)) (N.of_nat (length pre)) = nlen body).
    { unfold sub64, u64, nlen in *. rewrite app_length in *. change (2 ^ 64) with 18446744073709551616 in HB.
      rewrite (N.mod_small (N.of_nat (length pre))) by lia. lia. }
    rewrite EL, last_app_ne by exact HN. reflexivity.
Qed.

Lemma view_dsize body d d' c check is_auth n : parse_body body d c check is_auth = Def n ->
  exists n', parse_body body d' c check is_auth = Def n' /\ view n = view n' /\
    n_hash_mem n = n_hash_mem n' /\ n_hash_size n = n_hash_size n' /\ n_tlv_mem n = n_tlv_mem n'.
Proof.
  unfold parse_body. intros H.
  destruct (parse_header c body) as [[[ty primary] valid]|]; cbn [obind] in *; [|discriminate].
  destruct (if check then strip_trailing body else Def body) as [t|]; cbn [obind] in *; [|discriminate].
  destruct (negb (ntype_eqb ty TSei)).
  { injection H as <-. eexists. split; [reflexivity|]. repeat split. }
  destruct (skipn (header_len c) body) as [|ud p1]; [discriminate|].
  destruct (ud =? 5).
  2:{ injection H as <-. eexists. split; [reflexivity|]. repeat split. }
  destruct (get_payload_size p1) as [[[psize k] p2]|]; cbn [obind] in *; [|discriminate].
  destruct (length p2 <? 16)%nat; [discriminate|].
  unfold remove_epb in *. cbn [n_hashable n_gop_sei n_valid n_hash_mem n_payload_size n_epb n_data_size
    n_hash_size n_type n_primary n_first_in_gop n_first_part n_last_part] in *.
  destruct (_ || _ || _).
  { injection H as <-. eexists. split; [reflexivity|]. repeat split. }
  destruct (skipn _ body) as [|res tlv]; [discriminate|].
  destruct (_ <=? 0)%Z.
  { injection H as <-. eexists. split; [reflexivity|]. repeat split. }
  destruct (read_bytes _ _ _ _) as [[[wo x] y]|]; cbn [obind] in *; [|discriminate].
  destruct (length wo <? _)%nat; [discriminate|].
  destruct (128 <=? res); injection H as <-; (eexists; split; [reflexivity|]; repeat split).
Qed.

Lemma strip_nonzero body : (exists b, In b body /\ b <> 0) -> exists t, strip_trailing body = Def t.
Proof.
  intros [b [HI HB]]. unfold strip_trailing. apply in_rev in HI.
  destruct (drop_zeros (rev body)) eqn:E; [|eexists; reflexivity]. exfalso.
  induction (rev body) as [|x l IH]; [contradiction|]. cbn [drop_zeros] in E.
  destruct x; [|discriminate]. destruct HI as [H|H]; [congruence|auto].
Qed.

Lemma strip_zeros body k : strip_trailing (body ++ zeros k) = strip_trailing body.
Proof.
  unfold strip_trailing. rewrite rev_app_distr. rewrite drop_zeros_all; [reflexivity|].
  assert (rev (zeros k) = zeros k) as ->.
  { unfold zeros. induction k as [|k IH]; [reflexivity|]. cbn [repeat rev]. rewrite IH.
    clear IH. induction k as [|k IH]; [reflexivity|]. cbn [repeat app]. rewrite IH. reflexivity. }
  induction k as [|k IH]; [reflexivity|exact IH].
Qed.

Lemma parse_header_ext c body r x : parse_header c body = Def x -> parse_header c (body ++ r) = Def x.
Proof.
  destruct c; cbn [parse_header].
  - unfold parse_h264_header. destruct body as [|b0 [|b1 l]]; [discriminate|discriminate|].
    intros H. exact H.
  - unfold parse_h265_header. destruct body as [|b0 [|b1 [|b2 l]]]; [discriminate|discriminate| |].
    + cbn [app]. destruct (_ || _); [intros H; exact H|discriminate].
    + intros H; exact H.
Qed.

Lemma get_payload_size_ext p r s k q : get_payload_size p = Def (s, k, q) ->
  get_payload_size (p ++ r) = Def (s, k, q ++ r).
Proof.
  revert s k q. induction p as [|b p IH]; intros s k q H; [discriminate|]. cbn [get_payload_size app] in *.
  destruct (b =? 255).
  - destruct (get_payload_size p) as [[[s1 k1] q1]|]; [|discriminate]. cbn [obind] in H.
    injection H as <- <- <-. rewrite (IH _ _ _ eq_refl). reflexivity.
  - injection H as <- <- <-. reflexivity.
Qed.

Lemma read_byte_ext epb lt p r b lt1 q : read_byte epb lt p = Def (b, lt1, q) ->
  read_byte epb lt (p ++ r) = Def (b, lt1, q ++ r).
Proof.
  unfold read_byte. destruct p as [|c p]; [discriminate|]. cbn [app].
  destruct (epb && (c =? 3) && (lt =? 0)); [|intros H; injection H as <- <- <-; reflexivity].
  destruct p; [discriminate|]. intros H; injection H as <- <- <-; reflexivity.
Qed.
Lemma read_bytes_ext epb n : forall lt p r l lt1 q, read_bytes epb n lt p = Def (l, lt1, q) ->
  read_bytes epb n lt (p ++ r) = Def (l, lt1, q ++ r).
Proof.
  induction n as [|n IH]; intros lt p r l lt1 q H; cbn [read_bytes] in *.
  { injection H as <- <- <-. reflexivity. }
  destruct (read_byte epb lt p) as [[[b lt2] q2]|] eqn:E; [|discriminate]. cbn [obind] in H.
  rewrite (read_byte_ext _ _ _ _ _ _ _ E). cbn [obind].
  destruct (read_bytes epb n lt2 q2) as [[[l3 lt3] q3]|] eqn:E3; [|discriminate]. cbn [obind] in H.
  rewrite (IH _ _ _ _ _ _ E3). cbn [obind]. injection H as <- <- <-. reflexivity.
Qed.
Lemma read_bytes_length epb n : forall lt p l lt1 q, read_bytes epb n lt p = Def (l, lt1, q) -> length l = n.
Proof.
  induction n as [|n IH]; intros lt p l lt1 q H; cbn [read_bytes] in *.
  { injection H as <- <- <-. reflexivity. }
  destruct (read_byte epb lt p) as [[[b lt2] q2]|] eqn:E; [|discriminate]. cbn [obind] in H.
  destruct (read_bytes epb n lt2 q2) as [[[l3 lt3] q3]|] eqn:E3; [|discriminate]. cbn [obind] in H.
  injection H as <- <- <-. cbn [length]. f_equal. eauto.
Qed.

(** Two parses that see the same bytes up to memory behind them. *)
Definition ext (n n' : nalu) (r : list N) : Prop :=
  view n = view n' /\ n_hash_size n = n_hash_size n' /\
  (n_hash_mem n' = n_hash_mem n \/ n_hash_mem n' = n_hash_mem n ++ r) /\
  (n_tlv_mem n' = n_tlv_mem n \/ n_tlv_mem n' = n_tlv_mem n ++ r).

Lemma parse_body_ext body d d' k c is_auth n : parse_body body d c true is_auth = Def n ->
  exists n', parse_body (body ++ zeros k) d' c true is_auth = Def n' /\ ext n n' (zeros k) /\
    n_hash_size n <= nlen (n_hash_mem n).
Proof.
  unfold parse_body. intros H.
  destruct (parse_header c body) as [[[ty primary] valid]|] eqn:EH; cbn [obind] in *; [|discriminate].
  rewrite (parse_header_ext _ _ _ _ EH), strip_zeros. cbn [obind].
  destruct (strip_trailing body) as [t|] eqn:ET; cbn [obind] in *; [|discriminate].
  destruct (strip_def _ _ ET) as [_ [z Hz]].
  assert (HL : nlen t <= nlen body).
  { rewrite Hz. unfold nlen. rewrite app_length. lia. }
  destruct (negb (ntype_eqb ty TSei)).
  { injection H as <-. eexists. split; [reflexivity|]. split; [repeat split; auto|exact HL]. }
  destruct (skipn (header_len c) body) as [|ud p1] eqn:ES; [discriminate|].
  assert (HS : (header_len c < length body)%nat).
  { destruct (Nat.lt_ge_cases (header_len c) (length body)); [assumption|].
    rewrite skipn_all2 in ES by assumption. discriminate. }
  rewrite skipn_app, ES. replace (header_len c - length body)%nat with O by lia. cbn [skipn app].
  destruct (ud =? 5).
  2:{ injection H as <-. eexists. split; [reflexivity|]. split; [repeat split; auto|exact HL]. }
  destruct (get_payload_size p1) as [[[psize kk] p2]|] eqn:EG; cbn [obind] in *; [|discriminate].
  rewrite (get_payload_size_ext _ _ _ _ _ EG). cbn [obind].
  destruct (Nat.ltb_spec (length p2) 16) as [|HP]; [discriminate|].
  assert (length (p2 ++ zeros k) <? 16 = false)%nat as -> by (apply Nat.ltb_ge; rewrite app_length; lia).
  assert (firstn 16 (p2 ++ zeros k) = firstn 16 p2) as ->.
  { rewrite firstn_app. replace (16 - length p2)%nat with O by lia. cbn [firstn]. apply app_nil_r. }
  unfold remove_epb in *. cbn [n_hashable n_gop_sei n_valid n_hash_mem n_payload_size n_epb n_data_size
    n_hash_size n_type n_primary n_first_in_gop n_first_part n_last_part] in *.
  destruct (_ || _ || _).
  { injection H as <-. eexists. split; [reflexivity|]. split; [repeat split; auto|exact HL]. }
  set (off := (_ + 16)%nat) in *.
  destruct (skipn off body) as [|res tlv] eqn:EO; [discriminate|].
  assert (HO : (off < length body)%nat).
  { destruct (Nat.lt_ge_cases off (length body)); [assumption|].
    rewrite skipn_all2 in EO by assumption. discriminate. }
  rewrite skipn_app, EO. replace (off - length body)%nat with O by lia. cbn [skipn app].
  destruct (_ <=? 0)%Z.
  { injection H as <-. eexists. split; [reflexivity|]. split; [repeat split; auto|exact HL]. }
  destruct (read_bytes _ _ _ _) as [[[wo x] y]|] eqn:ER; cbn [obind] in *; [|discriminate].
  pose proof (read_bytes_length _ _ _ _ _ _ _ ER) as HW.
  rewrite (read_bytes_ext _ _ _ _ _ _ _ _ ER). cbn [obind].
  destruct (length wo <? _)%nat; [discriminate|].
  destruct (128 <=? res); injection H as <-; (eexists; split; [reflexivity|]; split; [repeat split; auto|]).
  - exact HL.
  - cbn [n_hash_size n_hash_mem]. unfold nlen. rewrite HW. lia.
Qed.

Lemma ext_same n n' r : ext n n' r -> n_hash_size n <= nlen (n_hash_mem n) -> same_nalu n n'.
Proof.
  intros (HV & HS & HM & HT) HL. split; [exact HV|]. split.
  - unfold hash_input. rewrite <- HS. destruct HM as [->| ->]; [reflexivity|].
    assert (n_hash_size n <=? nlen (n_hash_mem n ++ r) = true) as ->.
    { apply N.leb_le. unfold nlen in *. rewrite app_length. lia. }
    assert (n_hash_size n <=? nlen (n_hash_mem n) = true) as -> by (apply N.leb_le; exact HL).
    f_equal. rewrite firstn_app. unfold nlen in HL.
    replace (N.to_nat (n_hash_size n) - length (n_hash_mem n))%nat with O by lia.
    cbn [firstn]. symmetry. apply app_nil_r.
  - intros m. assert (n_tlv_size n = n_tlv_size n') as <- by (unfold view in HV; congruence).
    unfold take_mem. destruct (Nat.leb_spec (N.to_nat (n_tlv_size n)) (length (n_tlv_mem n))); [|discriminate].
    intros H1; injection H1 as <-. destruct HT as [->| ->].
    + destruct (Nat.leb_spec (N.to_nat (n_tlv_size n)) (length (n_tlv_mem n))); [|lia]. eauto.
    + rewrite app_length. destruct (Nat.leb_spec (N.to_nat (n_tlv_size n)) (length (n_tlv_mem n) + length r)); [|lia].
      eexists. split; [reflexivity|]. cbn [fst]. rewrite firstn_app.
      replace (N.to_nat (n_tlv_size n) - length (n_tlv_mem n))%nat with O by lia.
      cbn [firstn]. symmetry. apply app_nil_r.
Qed.

(** ** The statements used in the property file *)

Lemma start_code_split pre body : In pre [[]; [0; 0; 1]; [0; 0; 0; 1]] -> bytes_ok body ->
  no_start_code body -> start_code_len (pre ++ body) = Def (length pre).
Proof.
  intros HP HB HN. destruct HP as [<-|[<-|[<-|[]]]]; cbn [app length].
  - apply start0; assumption.
  - destruct body as [|b l]; [contradiction|]. apply start3. apply Forall_cons_iff in HB. tauto.
  - apply start4.
Qed.

Lemma no_start_code_ext body r : no_start_code body -> no_start_code (body ++ r).
Proof. destruct body as [|b0 [|b1 [|b2 [|b3 l]]]]; cbn; tauto. Qed.

Lemma start_and_trailing c is_auth pre pre' body k n :
  In pre [[]; [0; 0; 1]; [0; 0; 0; 1]] -> In pre' [[]; [0; 0; 1]; [0; 0; 0; 1]] ->
  bytes_ok body -> no_start_code body -> (exists b, In b body /\ b <> 0) ->
  nlen (pre ++ body) < 2 ^ 64 -> nlen (pre' ++ body ++ zeros k) < 2 ^ 64 ->
  parse_nalu (pre ++ body) c true is_auth = Def n ->
  exists n', parse_nalu (pre' ++ body ++ zeros k) c true is_auth = Def n' /\ same_nalu n n'.
Proof.
  intros HP HP' HB HN HZ HL HL' H.
  destruct (strip_nonzero _ HZ) as [t Ht].
  assert (HNE : body <> []) by (destruct body; [contradiction|discriminate]).
  rewrite parse_nalu_split in H; auto using start_code_split; [|intros _; exists t; exact Ht].
  destruct (parse_body_ext _ _ (nlen (pre' ++ body ++ zeros k)) k _ _ _ H) as (n' & H' & HE & HS).
  exists n'. split; [|eapply ext_same; eassumption].
  rewrite parse_nalu_split; [exact H'| |exact HL'| |].
  - apply start_code_split; [exact HP'| |apply no_start_code_ext; exact HN].
    apply bytes_ok_app. split; [exact HB|apply bytes_ok_zeros].
  - intros _. rewrite strip_zeros. exists t; exact Ht.
  - destruct body; discriminate.
Qed.

Lemma start_codes_untrimmed c is_auth pre pre' body n :
  In pre [[]; [0; 0; 1]; [0; 0; 0; 1]] -> In pre' [[]; [0; 0; 1]; [0; 0; 0; 1]] ->
  bytes_ok body -> no_start_code body ->
  nlen (pre ++ body) < 2 ^ 64 -> nlen (pre' ++ body) < 2 ^ 64 ->
  parse_nalu (pre ++ body) c false is_auth = Def n ->
  exists n', parse_nalu (pre' ++ body) c false is_auth = Def n' /\ same_nalu n n'.
Proof.
  intros HP HP' HB HN HL HL' H.
  assert (HNE : body <> []) by (destruct body; [contradiction|discriminate]).
  rewrite parse_nalu_split in H; auto using start_code_split; [|discriminate].
  destruct (view_dsize _ _ (nlen (pre' ++ body)) _ _ _ _ H) as (n' & H' & HV & HM & HS & HT).
  exists n'. split.
  - rewrite parse_nalu_split; auto using start_code_split. discriminate.
  - split; [exact HV|]. split; [unfold hash_input; rewrite HM, HS; reflexivity|].
    rewrite HT. assert (n_tlv_size n = n_tlv_size n') as -> by (unfold view in HV; congruence). eauto.
Qed.

Lemma parse_body_fields body d c check is_auth n : parse_body body d c check is_auth = Def n ->
  exists ty pr v t, parse_header c body = Def (ty, pr, v) /\
    (if check then strip_trailing body else Def body) = Def t /\
    n_type n = ty /\ n_primary n = pr /\ n_valid n = (if v then 1 else 0)%Z /\
    n_first_in_gop n = (ntype_eqb ty TI && pr) /\
    (ty <> TSei -> n_hashable n = (ntype_eqb ty TI || ntype_eqb ty TP) /\ n_hash_mem n = body /\
                   n_hash_size n = nlen t /\ n_gop_sei n = false).
Proof.
  unfold parse_body. intros H.
  destruct (parse_header c body) as [[[ty primary] valid]|]; cbn [obind] in *; [|discriminate].
  destruct (if check then strip_trailing body else Def body) as [t|]; cbn [obind] in *; [|discriminate].
  exists ty, primary, valid, t. split; [reflexivity|]. split; [reflexivity|].
  destruct (ntype_eqb ty TSei) eqn:ET; cbn [negb] in H.
  2:{ injection H as <-. repeat split. }
  assert (ty = TSei) by (destruct ty; cbn in ET; congruence).
  destruct (skipn (header_len c) body) as [|ud p1]; [discriminate|].
  destruct (ud =? 5).
  2:{ injection H as <-. repeat split; contradiction. }
  destruct (get_payload_size p1) as [[[psize k] p2]|]; cbn [obind] in *; [|discriminate].
  destruct (length p2 <? 16)%nat; [discriminate|].
  unfold remove_epb in *. cbn [n_hashable n_gop_sei n_valid n_hash_mem n_payload_size n_epb n_data_size
    n_hash_size n_type n_primary n_first_in_gop n_first_part n_last_part] in *.
  destruct (_ || _ || _).
  { injection H as <-. repeat split; contradiction. }
  destruct (skipn _ body) as [|res tlv]; [discriminate|].
  destruct (_ <=? 0)%Z.
  { injection H as <-. repeat split; contradiction. }
  destruct (read_bytes _ _ _ _) as [[[wo x] y]|]; cbn [obind] in *; [|discriminate].
  destruct (length wo <? _)%nat; [discriminate|].
  destruct (128 <=? res); injection H as <-; repeat split; contradiction.
Qed.

Lemma parse_nalu_skip pre body c check is_auth n : start_code_len (pre ++ body) = Def (length pre) ->
  body <> [] -> parse_nalu (pre ++ body) c check is_auth = Def n ->
  exists ty pr v, parse_header c body = Def (ty, pr, v) /\ n_type n = ty /\ n_primary n = pr /\
    n_valid n = (if v then 1 else 0)%Z /\ n_first_in_gop n = (ntype_eqb ty TI && pr) /\
    (ty <> TSei -> n_hashable n = (ntype_eqb ty TI || ntype_eqb ty TP)).
Proof.
  intros HS HN. unfold parse_nalu. intros H.
  destruct (pre ++ body) as [|x0 l0] eqn:E; [destruct pre; cbn in E; congruence|]. rewrite <- E in *.
  rewrite HS in H. cbn [obind] in H. rewrite skipn_app_exact in H.
  destruct (parse_header c body) as [[[ty primary] valid]|]; cbn [obind] in *; [|discriminate].
  destruct (if check then strip_trailing _ else _) as [t|]; cbn [obind] in *; [|discriminate].
  exists ty, primary, valid. split; [reflexivity|].
  destruct (ntype_eqb ty TSei) eqn:ET; cbn [negb] in H.
  2:{ injection H as <-. repeat split. }
  assert (ty = TSei) by (destruct ty; cbn in ET; congruence).
  destruct (skipn (header_len c) body) as [|ud p1]; [discriminate|].
  destruct (ud =? 5).
  2:{ injection H as <-. repeat split; contradiction. }
  destruct (get_payload_size p1) as [[[psize k] p2]|]; cbn [obind] in *; [|discriminate].
  destruct (length p2 <? 16)%nat; [discriminate|].
  unfold remove_epb in *. cbn [n_hashable n_gop_sei n_valid n_hash_mem n_payload_size n_epb n_data_size
    n_hash_size n_type n_primary n_first_in_gop n_first_part n_last_part] in *.
  destruct (_ || _ || _).
  { injection H as <-. repeat split; contradiction. }
  destruct (skipn _ body) as [|res tlv]; [discriminate|].
  destruct (_ <=? 0)%Z.
  { injection H as <-. repeat split; contradiction. }
  destruct (read_bytes _ _ _ _) as [[[wo x] y]|]; cbn [obind] in *; [|discriminate].
  destruct (length wo <? _)%nat; [discriminate|].
  destruct (128 <=? res); injection H as <-; repeat split; contradiction.
Qed.

Lemma hashed_bytes c is_auth pre body n :
  In pre [[]; [0; 0; 1]; [0; 0; 0; 1]] -> bytes_ok body -> no_start_code body ->
  (exists b, In b body /\ b <> 0) -> nlen (pre ++ body) < 2 ^ 64 ->
  parse_nalu (pre ++ body) c true is_auth = Def n -> n_type n <> TSei ->
  exists t k, hash_input n = Def t /\ body = t ++ zeros k /\ last t 0 <> 0.
Proof.
  intros HP HB HN HZ HL H HT.
  destruct (strip_nonzero _ HZ) as [t Ht].
  assert (HNE : body <> []) by (destruct body; [contradiction|discriminate]).
  rewrite parse_nalu_split in H; auto using start_code_split; [|intros _; exists t; exact Ht].
  destruct (parse_body_fields _ _ _ _ _ _ H) as (ty & pr & v & t' & _ & Ht' & Hty & _ & _ & _ & HF).
  rewrite Ht in Ht'. injection Ht' as <-. subst ty. destruct (HF HT) as (_ & HM & HS & _).
  destruct (strip_def _ _ Ht) as [HTN [k Hk]]. exists t, k. split; [|split; [exact Hk|]].
  - unfold hash_input. rewrite HM, HS, Hk. unfold nlen.
    destruct (N.leb_spec (N.of_nat (length t)) (N.of_nat (length (t ++ zeros k)))) as [_|G];
      [|rewrite app_length in G; lia].
    rewrite Nat2N.id, firstn_app_exact. reflexivity.
  - unfold strip_trailing in Ht. destruct (drop_zeros (rev body)) as [|x l] eqn:E; [discriminate|].
    injection Ht as <-. cbn [rev]. rewrite last_last.
    intros ->. clear - E. induction (rev body) as [|y m IH]; [discriminate|]. cbn [drop_zeros] in E.
    destruct y; [auto|congruence].
Qed.

Lemma h264_parse f ref ty b1 rest pre check is_auth n : f < 2 -> ref < 4 -> ty < 32 ->
  In pre [[0; 0; 1]; [0; 0; 0; 1]] ->
  parse_nalu (pre ++ h264_bits f ref ty :: b1 :: rest) H264 check is_auth = Def n ->
  n_type n = fst (lookup h264_table ty ref 0) /\
  n_valid n = (if snd (lookup h264_table ty ref 0) && (f =? 0)%N then 1 else 0)%Z /\
  n_first_in_gop n = (ntype_eqb (n_type n) TI && (128 <=? b1)) /\
  (n_type n <> TSei -> n_hashable n = (ntype_eqb (n_type n) TI || ntype_eqb (n_type n) TP)).
Proof.
  intros Hf Hr Ht HP H.
  assert (HS : start_code_len (pre ++ h264_bits f ref ty :: b1 :: rest) = Def (length pre)).
  { destruct HP as [<-|[<-|[]]]; [apply start3; unfold h264_bits, byte_ok; lia|apply start4]. }
  destruct (parse_nalu_skip _ _ _ _ _ _ HS ltac:(discriminate) H) as (t & p & v & H1 & H2 & H3 & H4 & H5 & H6).
  rewrite h264_header_table in H1 by assumption. injection H1 as <- <- <-.
  rewrite H2. repeat split; auto.
Qed.

Lemma h265_parse f ty layer tid1 b2 rest pre check is_auth n :
  f < 2 -> ty < 64 -> layer < 64 -> 0 < tid1 < 8 -> In pre [[0; 0; 1]; [0; 0; 0; 1]] ->
  let h := h265_bits f ty layer tid1 in
  parse_nalu (pre ++ h / 256 :: h mod 256 :: b2 :: rest) H265 check is_auth = Def n ->
  n_type n = fst (lookup h265_table ty (tid1 - 1) layer) /\
  n_valid n = (if snd (lookup h265_table ty (tid1 - 1) layer) && (f =? 0)%N then 1 else 0)%Z /\
  n_first_in_gop n = (ntype_eqb (n_type n) TI && (128 <=? b2)) /\
  (n_type n <> TSei -> n_hashable n = (ntype_eqb (n_type n) TI || ntype_eqb (n_type n) TP)).
Proof.
  intros Hf Ht Hl Hi HP h H.
  assert (HS : start_code_len (pre ++ h / 256 :: h mod 256 :: b2 :: rest) = Def (length pre)).
  { destruct HP as [<-|[<-|[]]]; [apply start3|apply start4].
    unfold byte_ok. assert (h < 65536) by (unfold h, h265_bits; lia). lia. }
  destruct (parse_nalu_skip _ _ _ _ _ _ HS ltac:(discriminate) H) as (t & p & v & H1 & H2 & H3 & H4 & H5 & H6).
  unfold h in H1. rewrite (h265_header_table f ty layer tid1 b2 rest) in H1 by (assumption || lia).
  destruct (N.eqb_spec tid1 0) as [|_]; [lia|]. injection H1 as <- <- <-.
  rewrite H2. repeat split; auto.
Qed.

Lemma slices_hashed pre check is_auth n :
  In pre [[0; 0; 1]; [0; 0; 0; 1]] ->
  (forall f ref ty b1 rest, f < 2 -> ref < 4 -> In ty [1; 5] ->
     parse_nalu (pre ++ h264_bits f ref ty :: b1 :: rest) H264 check is_auth = Def n -> n_hashable n = true) /\
  (forall f ty layer tid1 b2 rest, f < 2 -> In ty [0; 1; 16; 17; 18; 19; 20; 21] -> layer < 64 ->
     0 < tid1 < 8 -> let h := h265_bits f ty layer tid1 in
     parse_nalu (pre ++ h / 256 :: h mod 256 :: b2 :: rest) H265 check is_auth = Def n ->
     n_hashable n = true).
Proof.
  intros HP. split.
  - intros f ref ty b1 rest Hf Hr Ht H.
    assert (ty < 32) by (cbn in Ht; lia).
    destruct (h264_parse _ _ _ _ _ _ _ _ _ Hf Hr ltac:(eassumption) HP H) as (H1 & _ & _ & H4).
    cbn [In] in Ht. destruct Ht as [<-|[<-|[]]]; cbn in H1; rewrite H4, H1 by (rewrite H1; discriminate); reflexivity.
  - intros f ty layer tid1 b2 rest Hf Ht Hl Hi h H.
    assert (ty < 64) by (cbn in Ht; lia).
    destruct (h265_parse _ _ _ _ _ _ _ _ _ _ Hf ltac:(eassumption) Hl Hi HP H) as (H1 & _ & _ & H4).
    cbn [In] in Ht. repeat (destruct Ht as [<-|Ht]); try contradiction Ht;
    cbn in H1; rewrite H4, H1 by (rewrite H1; discriminate); reflexivity.
Qed.

(** A GOP is authentic only after the GOP it was signed after: lemmas. *)
From Verif Require Import Base BaseProofs Epb Nalu Crypto Types Hash Tlv TlvProofs CodecSpec SignerProofs VTypes NaluList Validator VListProofs
  VFrameProofs ValidSpec MatchSpec BookProofs VAuthProofs VKeyProofs VTerm AuthSpec AuthDec AuthProofs LinkSpec LinkList.
Local Open Scope N_scope.

Definition nouse (l : list item) : Prop := Forall (fun it => fgop it = true -> i_used it = false) l.
(** The items after those of a GOP were marked: at most the first of them starts a GOP. *)
Definition uform (l : list item) : Prop :=
  exists l1 l2, l = l1 ++ l2 /\ Forall (fun it => pending it = false) l1 /\ nouse l1 /\
    match l2 with [] => True | it :: r => nouse r /\ (fgop it = true -> i_used it = true -> pending it = true /\ i_second it <> None) end.
Definition ulinked (l : list item) : Prop :=
  exists l1 l2, l = l1 ++ l2 /\ Forall (fun it => pending it = false) l1 /\ nouse l1 /\
    match l2 with [] => True | it :: r => nouse r /\ (fgop it = true -> i_used it = true -> i_linked it = true) end.
Lemma nouse_uform l : nouse l -> uform l.
Proof.
  intros H. exists [], l. split; [reflexivity|]. split; [constructor|]. split; [constructor|]. destruct l as [|it l]; [exact I|]. apply Forall_cons_iff in H as [H0 H]. split; [exact H|]. intros E U. rewrite (H0 E) in U. discriminate.
Qed.
Lemma alike_used it : alike it (set_i_used true it).
Proof. unfold alike. auto. Qed.
Lemma gop_num hs : forall l h is num, (0 < num)%nat -> nouse l -> holds (gop_loop hs h is num l) (fun '(_, m, _) => Forall2 alike l m /\ nouse m) (fun _ => True).
Proof.
  induction l as [|it l IH]; intros h is num HN HU; cbn [gop_loop]; [split; [constructor|exact HU]|]. pose proof HU as HU0. apply Forall_cons_iff in HU as [H0 HU]. destruct (negb (pending it)).
  { apply holds_bind. eapply holds_impl; [apply IH; assumption| |auto]. intros [[h2 m] st] [A1 A2]. cbn. split; [constructor; [apply alike_refl|exact A1]|constructor; assumption]. }
  destruct (i_nalu it) as [n|] eqn:EN; [|exact I]. cbv zeta. assert (R : Forall2 alike (it :: l) (it :: l) /\ nouse (it :: l)) by (split; [apply alikes_refl|exact HU0]).
  dif; [exact R|]. replace (0 <? num)%nat with true by (symmetry; apply Nat.ltb_lt; exact HN). rewrite andb_true_r. destruct (n_first_in_gop n) eqn:EF; [exact R|]. dif; [exact R|].
  apply holds_bind. destruct (read_hash _ _) as [x|]; [|exact I]. cbn [holds]. destruct (update_hash _ _ _) as [h1 st1]. dif; [exact R|]. apply holds_bind. eapply holds_impl; [apply IH; [lia|exact HU]| |auto].
  intros [[h2 m] st] [A1 A2]. cbn. split; [constructor; [apply alike_used|exact A1]|]. constructor; [|exact A2]. unfold fgop. cbn. rewrite EN. congruence.
Qed.
Lemma gop_head hs : forall l h, nouse l -> holds (gop_loop hs h 0 0 l) (fun '(_, m, _) => Forall2 alike l m /\ uform m) (fun _ => True).
Proof.
  induction l as [|it l IH]; intros h HU; cbn [gop_loop]; [split; [constructor|apply nouse_uform, HU]|]. pose proof HU as HU0. apply Forall_cons_iff in HU as [H0 HU]. destruct (pending it) eqn:EP; cbn [negb].
  2:{ apply holds_bind. eapply holds_impl; [apply IH; assumption| |auto]. intros [[h2 m] st] [A1 (l1 & l2 & -> & A2 & A3 & A4)]. cbn. split; [constructor; [apply alike_refl|exact A1]|].
      exists (it :: l1), l2. split; [reflexivity|]. split; [constructor; assumption|]. split; [constructor; assumption|exact A4]. }
  destruct (i_nalu it) as [n|] eqn:EN; [|exact I]. cbv zeta. assert (R : Forall2 alike (it :: l) (it :: l) /\ uform (it :: l)) by (split; [apply alikes_refl|apply nouse_uform, HU0]).
  dif; [exact R|]. dif; [exact R|]. dif; [exact R|]. destruct (if n_first_in_gop n then i_second it else Some (i_hash it)) as [y|] eqn:EY; [|exact R].
  apply holds_bind. destruct (read_hash _ _) as [x|]; [|exact I]. cbn [holds]. destruct (update_hash _ _ _) as [h1 st1]. dif; [exact R|]. apply holds_bind. eapply holds_impl; [apply gop_num; [lia|exact HU]| |auto].
  intros [[h2 m] st] [A1 A2]. cbn. split; [constructor; [apply alike_used|exact A1]|]. exists [], (set_i_used true it :: m). split; [reflexivity|]. split; [constructor|]. split; [constructor|]. split; [exact A2|].
  intros EF _. split; [exact EP|]. unfold fgop in EF. cbn in EF |- *. rewrite EN in EF. rewrite EF in EY. congruence.
Qed.
Lemma find_no : forall l k, nouse l -> find_link l <> Def (Some k).
Proof.
  induction l as [|it l IH]; intros k HU; cbn [find_link]; [discriminate|]. apply Forall_cons_iff in HU as [H0 HU].
  assert (G : (do o <- find_link l; Def (option_map S o)) <> Def (Some k)). { destruct (find_link l) as [[j|]|] eqn:EJ; cbn; try discriminate. exact (fun _ => IH j HU eq_refl). }
  destruct (i_used it) eqn:EU; [|exact G]. destruct (i_nalu it) as [n|] eqn:EN; [|discriminate]. destruct (n_first_in_gop n) eqn:EF; [|exact G]. unfold fgop in H0. rewrite EN in H0. specialize (H0 EF). congruence.
Qed.
Lemma find_at l1 : forall l2 k, nouse l1 -> match l2 with [] => True | _ :: r => nouse r end -> find_link (l1 ++ l2) = Def (Some k) ->
  exists it r, l2 = it :: r /\ fgop it = true /\ i_used it = true /\ k = length l1.
Proof.
  induction l1 as [|x l1 IH]; intros l2 k H1 H2; cbn [app find_link].
  - destruct l2 as [|it r]; cbn [find_link]; [discriminate|]. intros E. exists it, r. split; [reflexivity|]. assert (G : (do o <- find_link r; Def (option_map S o)) <> Def (Some k)). { destruct (find_link r) as [[j|]|] eqn:EJ; cbn; try discriminate. exfalso. apply (find_no r j H2 EJ). }
    destruct (i_used it); [|contradiction]. unfold fgop. destruct (i_nalu it) as [n|]; [|discriminate]. destruct (n_first_in_gop n); [|contradiction]. injection E as <-. auto.
  - apply Forall_cons_iff in H1 as [H0 H1]. intros E.
    assert (G : (do o <- find_link (l1 ++ l2); Def (option_map S o)) = Def (Some k) -> exists it r, l2 = it :: r /\ fgop it = true /\ i_used it = true /\ k = S (length l1)).
    { destruct (find_link (l1 ++ l2)) as [[j|]|] eqn:EJ; cbn; try discriminate. intros F. injection F as <-. destruct (IH l2 j H1 H2 EJ) as (it & r & A1 & A2 & A3 & A4). exists it, r. auto. }
    cbn [length]. destruct (i_used x) eqn:EU; [|apply G, E]. destruct (i_nalu x) as [n|] eqn:EN; [|discriminate]. destruct (n_first_in_gop n) eqn:EF; [|apply G, E]. unfold fgop in H0. rewrite EN in H0. specialize (H0 EF). discriminate.
Qed.

(** *** Verdicts *)
Lemma used_evl s (X : item -> Prop) l : s <> SPend -> s <> SMiss -> Forall (fun it => isstart it = true -> i_used it = true -> i_linked it = true) l -> (forall it, s = SValid -> i_used it = true -> isstart it = true -> X it) ->
  holds (mark_used s l) (fun '(m, _) => evl X l m) (fun _ => True).
Proof.
  intros H1 H2 HF HX. induction HF as [|it l H0 HF IH]; cbn [mark_used]; [constructor|]. apply holds_bind. eapply holds_impl; [exact IH| |auto]. intros [m k] HM.
  destruct (i_used it && pending it) eqn:EU; [|cbn; constructor 2; [apply stp_refl|exact HM]]. destruct (i_nalu it) eqn:EN; [|exact I]. cbn. apply andb_true_iff in EU as [EU EP].
  constructor 2; [|exact HM]. right. cbn. do 4 (split; [reflexivity|]). split; [exact EP|]. split; [unfold pending; cbn; destruct s; try reflexivity; congruence|]. split; [exact H2|]. split; [congruence|]. intros ES. split; [auto|]. intros ->. auto.
Qed.
Lemma stat_stp (X : item -> Prop) it s : pending it = true -> i_nalu it <> None -> s <> SPend -> s <> SMiss -> (isstart it = true -> i_linked it = true /\ (s = SValid -> X it)) -> stp X it (set_i_status s it).
Proof. intros H1 H2 H3 H4 H5. right. cbn. do 4 (split; [reflexivity|]). split; [exact H1|]. split; [unfold pending; cbn; destruct s; try reflexivity; congruence|]. auto. Qed.
Lemma hl_no hs exp X l : forall pos ps seen s, nouse l -> holds (hl_loop hs exp pos ps seen s l) (fun '(_, m) => evl X l m) (fun _ => True).
Proof.
  induction l as [|it l IH]; intros pos ps seen s HU; cbn [hl_loop]; [constructor|]. apply Forall_cons_iff in HU as [H0 HU]. cbv zeta. destruct (negb (pending it) || _) eqn:EP.
  - apply holds_bind. eapply holds_impl; [apply IH, HU| |auto]. intros [s2 r2] H. cbn. constructor 2; [apply stp_refl|exact H].
  - apply orb_false_iff in EP as [EP EU]. apply negb_false_iff in EP, EU. destruct (i_nalu it) as [n|] eqn:EN; [|exact I]. dif; [cbn; apply evl_refl|].
    assert (NS : isstart it = false). { unfold isstart. destruct (fgop it) eqn:EF; [rewrite (H0 eq_refl) in EU; discriminate|reflexivity]. }
    destruct (if n_first_in_gop n then i_second it else Some (i_hash it)) as [x|]; [|exact I]. apply holds_bind. destruct (read_hash hs x) as [y|]; [|exact I]. cbn [holds].
    destruct (search _ _ _) as [i found]. assert (HT : forall st, st <> SPend -> st <> SMiss -> stp X it (set_i_status st it)) by (intros st S1 S2; apply stat_stp; auto; congruence).
    destruct found; apply holds_bind; destruct ps; try (eapply holds_impl; [apply IH, HU| |auto]; intros [s3 r2] H); cbn [holds].
    + apply evl_missing. constructor 2; [apply HT; destruct (h_order s); discriminate|apply evl_refl].
    + apply evl_missing. constructor 2; [apply HT; destruct (h_order s); discriminate|exact H].
    + constructor 2; [apply HT; discriminate|apply evl_refl].
    + constructor 2; [apply HT; discriminate|exact H].
Qed.
Lemma hl_evl hs exp o l1 : forall l2 pos ps seen s, h_order s = o -> Forall (fun it => pending it = false) l1 -> match l2 with [] => True | it :: r => nouse r /\ (fgop it = true -> i_used it = true -> i_linked it = true) end ->
  holds (hl_loop hs exp pos ps seen s (l1 ++ l2)) (fun '(_, m) => evl (fun it => listed hs exp it /\ o = true) (l1 ++ l2) m) (fun _ => True).
Proof.
  induction l1 as [|x l1 IH]; intros l2 pos ps seen s HO H1 H2; cbn [app].
  2:{ apply Forall_cons_iff in H1 as [H0 H1]. cbn [hl_loop]. cbv zeta. rewrite H0. cbn [negb orb]. apply holds_bind. eapply holds_impl; [apply IH; assumption| |auto]. intros [s2 r2] H. cbn. constructor 2; [apply stp_refl|exact H]. }
  destruct l2 as [|it l]; cbn [hl_loop]; [constructor|]. destruct H2 as [HU HL]. cbv zeta. destruct (negb (pending it) || _) eqn:EP.
  - apply holds_bind. eapply holds_impl; [apply hl_no, HU| |auto]. intros [s2 r2] H. cbn. constructor 2; [apply stp_refl|exact H].
  - apply orb_false_iff in EP as [EP EU]. apply negb_false_iff in EP, EU. destruct (i_nalu it) as [n|] eqn:EN; [|exact I]. destruct (n_gop_sei n || _) eqn:EG; [cbn; apply evl_refl|]. apply orb_false_iff in EG as [EG _].
    assert (ES : item_sei it = false) by (unfold item_sei; rewrite EN; exact EG).
    assert (LK : isstart it = true -> i_linked it = true) by (intros E; apply HL; [unfold isstart in E; apply andb_true_iff in E; apply E|exact EU]).
    destruct (if n_first_in_gop n then i_second it else Some (i_hash it)) as [x|] eqn:EX; [|exact I]. apply holds_bind. unfold read_hash. destruct (Nat.leb_spec hs (length x)) as [HH|HH]; [|exact I]. cbn [holds].
    destruct (search _ _ _) as [i found] eqn:EF. destruct found.
    + assert (HT : stp (fun it => listed hs exp it /\ o = true) it (set_i_status (if h_order s then SValid else SInvalid) it)).
      { apply stat_stp; auto; [congruence|destruct (h_order s); discriminate|destruct (h_order s); discriminate|]. intros E. split; [auto|]. intros EO. split; [|rewrite <- HO; destruct (h_order s); [reflexivity|discriminate]].
        split; [exact ES|]. exists n, x, (firstn hs x). repeat split; auto. apply search_in in EF. rewrite <- (firstn_skipn (Z.to_nat (h_latest s + 1)) exp). apply in_or_app. right. exact EF. }
      apply holds_bind. destruct ps.
      * cbn [holds]. apply evl_missing. constructor 2; [exact HT|apply evl_refl].
      * eapply holds_impl; [apply hl_no, HU| |auto]. intros [s3 r2] H. cbn [holds]. apply evl_missing. constructor 2; [exact HT|exact H].
    + assert (HT : stp (fun it => listed hs exp it /\ o = true) it (set_i_status SInvalid it)) by (apply stat_stp; auto; [congruence|discriminate|discriminate|intros E; split; [auto|discriminate]]).
      apply holds_bind. destruct ps.
      * cbn [holds]. constructor 2; [exact HT|apply evl_refl].
      * eapply holds_impl; [apply hl_no, HU| |auto]. intros [s3 r2] H. cbn [holds]. constructor 2; [exact HT|exact H].
Qed.
Lemma evl_next X l m : evl X l m -> Forall (fun it => item_sei it = true -> isstart it = false) l -> Forall (fun it => item_sei it = true -> isstart it = false) m.
Proof.
  induction 1 as [|a b l m HS H IH|b l m H1 H2 H IH]; intros HF; [constructor| |].
  - apply Forall_cons_iff in HF as [H0 HF]. constructor; [|auto]. destruct HS as [->|(S1 & _)]; [exact H0|]. destruct (nf_same _ _ (eq_sym S1)) as (_ & _ & -> & -> & _). exact H0.
  - constructor; [|auto]. unfold item_sei. rewrite H1. discriminate.
Qed.

(** *** What a round leaves alone *)
Definition ll (v : valid) : list N * bool := (v_links v, gs_sei (v_gs v)).
Section Frames.
Variable C : crypto.
Variable Ov : ovf.
Hint Extern 1 (ll _ = _) => eassumption : frame.
Lemma detect_ll k v : ll v = k -> holds (detect_lost Ov v) (fun v' => ll v' = k) (fun _ => True).
Proof. intros H. unfold detect_lost. fr_go. Qed.
Hint Resolve detect_ll : frame.
Lemma decode_sei_ll k v n : ll v = k -> holds (decode_sei C Ov v n) (fun '(v', _) => ll v' = k) (fun _ => True).
Proof. intros H. unfold decode_sei. fr_go. Qed.
Hint Resolve decode_sei_ll : frame.
Lemma prepare_gop_ll k v : ll v = k -> holds (prepare_gop C v) (fun '(v', _) => ll v' = k) (fun _ => True).
Proof. intros H. unfold prepare_gop. fr_go. Qed.
Hint Resolve prepare_gop_ll : frame.
Lemma verify_without_ll k v : ll v = k -> holds (verify_without v) (fun '(v', _) => ll v' = k) (fun _ => True).
Proof. intros H. unfold verify_without. fr_go. Qed.
Hint Resolve verify_without_ll : frame.
Lemma verify_list_ll k v o : ll v = k -> holds (verify_list v o) (fun '(v', _, _, _) => ll v' = k) (fun _ => True).
Proof. intros H. unfold verify_list. fr_go. Qed.
Hint Resolve verify_list_ll : frame.
Lemma verify_with_ll k v : ll v = k -> holds (verify_with v) (fun '(v', _, _, _) => ll v' = k) (fun _ => True).
Proof. intros H. unfold verify_with. fr_go. Qed.
Hint Resolve verify_with_ll : frame.
Lemma validate_ll k v : ll v = k -> holds (validate v) (fun v' => ll v' = k) (fun _ => True).
Proof. intros H. unfold validate. fr_go. Qed.
Lemma hash_item_ll k v it : ll v = k -> holds (hash_item C v it) (fun '(v', _, _) => ll v' = k) (fun _ => True).
Proof. intros H. unfold hash_item. fr_go. Qed.
Hint Resolve hash_item_ll : frame.
Lemma register_ll k v n : ll v = k -> holds (register C v n) (fun '(v', _, _) => ll v' = k) (fun _ => True).
Proof. intros H. unfold register. fr_go. Qed.
Lemma rehash_ll k l : forall v st, ll v = k -> holds (rehash C v l st) (fun '(v', _, _) => ll v' = k) (fun _ => True).
Proof. induction l as [|it l IH]; intros v st H; cbn [rehash]; fr_go. Qed.
Lemma recurrent_ll k v : ll v = k -> holds (recurrent_decoded C v) (fun '(v', _) => ll v' = k) (fun _ => True).
Proof. intros H. unfold recurrent_decoded. fr_go. Qed.
Lemma verify_hash_ll v : ll (fst (verify_hash C v)) = ll v.
Proof. unfold verify_hash. destruct (d_sig (v_dec v)), (d_vkey (v_dec v)); try reflexivity. dif; reflexivity. Qed.
End Frames.

(** *** Preparing a round *)
Lemma dec_alike l : Forall2 alike l (on_next_sei (set_i_decoded true) l).
Proof.
  induction l as [|it l IH]; cbn [on_next_sei]; [constructor|]. destruct (item_sei it && pending it) eqn:E; constructor; auto using alike_refl, alikes_refl.
  apply andb_true_iff in E as [E _]. unfold alike. auto.
Qed.
Lemma dec_nouse l : nouse l -> nouse (on_next_sei (set_i_decoded true) l).
Proof. unfold nouse. induction 1 as [|it l H HF IH]; cbn [on_next_sei]; [constructor|]. dif; constructor; assumption. Qed.

(** *** The first NALU of a GOP *)
Lemma start_plain d c n : parse_nalu d c true true = Def n -> n_first_in_gop n = true -> n_hashable n = true /\ n_gop_sei n = false.
Proof.
  unfold parse_nalu. destruct d as [|b d]; [intros E; injection E as <-; discriminate|]. set (data := b :: d). clearbody data.
  destruct (start_code_len data) as [k|u]; [|discriminate]. cbn [obind].
  destruct (parse_header c (skipn k data)) as [[[ty pr] va]|u]; [|discriminate]. cbn [obind].
  destruct (strip_trailing data) as [t|u]; [|discriminate]. cbn [obind].
  destruct (negb (ntype_eqb ty TSei)) eqn:ET.
  - intros E F. injection E as <-. cbn [n_first_in_gop n_hashable n_gop_sei] in *. apply andb_prop in F as [F _]. rewrite F. split; reflexivity.
  - assert (ty = TSei) as -> by (destruct ty; try discriminate; reflexivity). cbv zeta. cbn [ntype_eqb andb].
    destruct (skipn (header_len c) _) as [|ud p1]; [discriminate|]. destruct (ud =? 5); [|intros E; injection E as <-; discriminate].
    destruct (get_payload_size p1) as [[[ps j] p2]|]; [|discriminate]. cbn [obind]. destruct (_ <? _)%nat; [discriminate|].
    unfold remove_epb. cbn [n_hashable n_gop_sei n_valid n_hash_mem]. destruct (bytes_eqb (firstn 16 p2) uuid_sv); cbn [negb orb andb].
    + destruct (_ <=? 0)%Z; [intros E; injection E as <-; discriminate|].
      destruct (skipn _ _); [discriminate|]. cbv zeta. cbn [n_epb]. destruct (_ <=? 0)%Z; [intros E; injection E as <-; discriminate|].
      destruct (read_bytes _ _ _ _) as [[[wo x] y]|]; [|discriminate]. cbn [obind].
      destruct (_ <? _)%nat; [discriminate|]. intros E. injection E as <-. destruct (_ <=? _); discriminate.
    + intros E. injection E as <-. discriminate.
Qed.
Section Round.
Variable C : crypto.
Variable c : codec.
Variable K : nat.
Variable Ov : ovf.
Hypothesis HC : crypto_ok C.
Hypothesis HK : forall oid n, c_oid C oid = OidDigest n -> n = K.
Hypothesis HO : Ov <> OvfIdeal.
Hypothesis HV : forall k s h, c_verify C k s h = 0%Z \/ c_verify C k s h = 1%Z.
Lemma HK' oid n : c_oid C oid = OidDigest n -> (K <= n)%nat.
Proof. intros E. rewrite (HK oid n E). lia. Qed.

Lemma prepare_gop_link v : nouse (v_items v) ->
  holds (prepare_gop C v) (fun '(v', st) => st = SV_OK -> Forall2 alike (v_items v) (v_items v') /\ uform (v_items v') /\ ll v' = ll v) (fun _ => True).
Proof.
  intros HU. unfold prepare_gop. apply holds_bind. eapply holds_impl; [apply gop_head, HU| |auto]. intros [[h m] st] [A1 A2]. cbv zeta. destruct (is_ok st) eqn:E1; cbn [negb]; [|cbn; intros ->; discriminate].
  destruct (finalize_hash C true h) as [[h2 st2] x]. destruct (is_ok st2) eqn:E2; cbn [negb]; [|cbn; intros ->; discriminate]. apply holds_bind. destruct (put_at _ _ _) as [y|]; [|exact I]. cbn. auto.
Qed.
Lemma prepare_link v : nouse (v_items v) ->
  holds (prepare C Ov v) (fun '(v', st) => st = SV_OK -> Forall2 alike (v_items v) (v_items v') /\ uform (v_items v') /\ v_links v' = v_links v /\
    (gs_sei (v_gs v) = true -> v_verified v' = 0%Z \/ v_verified v' = 1%Z)) (fun _ => True).
Proof.
  intros HU. unfold prepare. cbv zeta. apply holds_bind.
  assert (G : holds (match next_sei (v_items v) with
     | None => Def (v, SV_OK)
     | Some it =>
         match i_nalu it with
         | None => Undef NullDeref
         | Some n =>
             do (v0, st) <-
               (if i_decoded it then Def (v, SV_OK)
                else
                  do (v0, st) <- decode_sei C Ov (on_dec (set_d_l_changed false) v) n;
                  if negb (is_ok st) then Def (v0, st)
                  else
                    do x <- read_hash (vhs v) (i_hash it);
                    do y <- put_at 0 (v_hash v0) x;
                    Def (set_v_hash y (on_items (on_next_sei (set_i_decoded true)) v0), SV_OK));
             if negb (is_ok st) then Def (v0, st)
             else do v1 <- detect_lost Ov v0; prepare_gop C v1
         end
     end) (fun '(v', st) => st = SV_OK -> Forall2 alike (v_items v) (v_items v') /\ uform (v_items v') /\ ll v' = ll v) (fun _ => True)).
  { destruct (next_sei (v_items v)) as [it|]; [|cbn; intros _; split; [apply alikes_refl|split; [apply nouse_uform, HU|reflexivity]]]. destruct (i_nalu it) as [n|]; [|exact I]. apply holds_bind.
    assert (G2 : holds (if i_decoded it then Def (v, SV_OK)
                else
                  do (v0, st) <- decode_sei C Ov (on_dec (set_d_l_changed false) v) n;
                  if negb (is_ok st) then Def (v0, st)
                  else
                    do x <- read_hash (vhs v) (i_hash it);
                    do y <- put_at 0 (v_hash v0) x;
                    Def (set_v_hash y (on_items (on_next_sei (set_i_decoded true)) v0), SV_OK))
       (fun '(v', st) => is_ok st = true -> Forall2 alike (v_items v) (v_items v') /\ nouse (v_items v') /\ ll v' = ll v) (fun _ => True)).
    { dif; [cbn; intros _; split; [apply alikes_refl|auto]|]. apply holds_bind.
      pose proof (decode_sei_items C Ov (on_dec (set_d_l_changed false) v) n) as E1. pose proof (decode_sei_ll C Ov (ll v) (on_dec (set_d_l_changed false) v) n eq_refl) as E2.
      destruct (decode_sei C Ov _ n) as [[v1 st]|]; [|exact I]. cbn [holds] in *. cbn [v_items on_dec set_v_dec] in E1. destruct (is_ok st) eqn:ES; cbn [negb]; [|cbn; congruence].
      apply holds_bind. destruct (read_hash _ _) as [x|]; [|exact I]. cbn [holds]. apply holds_bind. destruct (put_at _ _ _) as [y|]; [|exact I]. cbn. intros _. rewrite E1. split; [apply dec_alike|]. split; [apply dec_nouse, HU|exact E2]. }
    eapply holds_impl; [exact G2| |auto]. intros [v1 st] H. destruct (is_ok st) eqn:ES; cbn [negb]; [|cbn; intros ->; discriminate]. destruct (H eq_refl) as (H1 & H2 & H3). apply holds_bind.
    pose proof (detect_lost_items Ov v1) as E1. pose proof (detect_ll Ov (ll v1) v1 eq_refl) as E2. destruct (detect_lost Ov v1) as [v2|]; [|exact I]. cbn [holds] in *. rewrite <- E1 in H1, H2.
    eapply holds_impl; [apply prepare_gop_link, H2| |auto]. intros [v3 st3] H4 E. destruct (H4 E) as (H5 & H6 & H7). split; [eapply alikes_trans; eassumption|]. split; [exact H6|congruence]. }
  eapply holds_impl; [exact G| |auto]. intros [v1 st] H. destruct (is_ok st) eqn:ES; cbn [negb]; [|cbn; intros ->; discriminate]. assert (st = SV_OK) as -> by (destruct st; try discriminate; reflexivity).
  destruct (H eq_refl) as (H1 & H2 & H3). dif; [cbn; discriminate|]. unfold ll in H3. injection H3 as H3 H4. rewrite H4. destruct (gs_sei (v_gs v)).
  - pose proof (verify_hash_items C v1) as E1. pose proof (verify_hash_ll C v1) as E2. unfold ll in E2.
    assert (E3 : snd (verify_hash C v1) = SV_OK -> v_verified (fst (verify_hash C v1)) = 0%Z \/ v_verified (fst (verify_hash C v1)) = 1%Z).
    { unfold verify_hash. destruct (d_sig (v_dec v1)), (d_vkey (v_dec v1)); try discriminate. dif; [discriminate|]. intros _. apply HV. }
    destruct (verify_hash C v1) as [v2 st2]. cbn [fst snd holds] in *. injection E2 as E2 _. intros E. rewrite E1, E2. auto.
  - cbn [holds]. intros _. split; [exact H1|]. split; [exact H2|]. split; [exact H3|discriminate].
Qed.
(** A round is only started with a SEI that can be verified. *)
Lemma pend_has l : forall s, Forall (fun it => pending it = true -> good it = true) l -> (g_sei s = true -> g_has s = true) -> (g_after s = true -> g_has s = true) -> (g_last s = Some true -> g_has s = true) ->
  snd (pending_loop true s l) = true -> g_has (fst (pending_loop true s l)) = true.
Proof.
  induction l as [|it l IH]; intros s HF H1 H2 H3; cbn [pending_loop]; [discriminate|]. apply Forall_cons_iff in HF as [H0 HF]. cbv zeta. set (s1 := match i_nalu it with Some _ => _ | None => _ end).
  assert (P : (g_sei s1 = true -> g_has s1 = true) /\ (g_after s1 = true -> g_has s1 = true) /\ (g_last s1 = Some true -> g_has s1 = true)).
  { unfold s1. unfold good in H0. destruct (i_nalu it) as [n|]; [|auto]. destruct (pending it && n_hashable n) eqn:EP.
    - apply andb_true_iff in EP as [EP EH]. rewrite (H0 EP), EH. cbn [andb]. cbn. destruct (g_has s); cbn; [auto|]. destruct (g_sei s); [discriminate (H1 eq_refl)|]. destruct (g_after s); [discriminate (H2 eq_refl)|]. cbn.
      split; [auto|]. split; [|congruence]. destruct (g_last s) as [[|]|]; [discriminate (H3 eq_refl)|discriminate|discriminate].
    - cbn. split; [intros E; rewrite (H1 E); reflexivity|]. split; [intros E; rewrite (H2 E); reflexivity|intros E; rewrite (H3 E); reflexivity]. }
  clearbody s1. destruct P as (P1 & P2 & P3). destruct ((0 <? g_ends s1)%nat && g_sei s1 || g_after s1) eqn:EF; [|apply IH; assumption]. cbn. intros _. apply orb_true_iff in EF as [EF|EF]; [apply andb_true_iff in EF as [_ EF]|]; auto.
Qed.

(** *** The hashes kept for the link *)
Definition hash_of (o : option (list N)) (x : list N) : Prop := match o with None => x = zeros K | Some d => picture_hash C c d x end.
Definition links_are (a b : option (list N)) (links : list N) : Prop :=
  exists xa xb t, links = xa ++ xb ++ t /\ length xa = K /\ length xb = K /\ hash_of a xa /\ hash_of b xb.
Lemma pic_len d x : picture_hash C c d x -> length x = K.
Proof.
  assert (G : forall oid y, digest C oid -> length (c_hash C oid y) = K) by (intros oid y (n & E); rewrite <- (HK oid n E); apply (ok_hash_len C HC oid n y E)).
  intros (b & oid & _ & HD & HX). destruct (starts_gop c d); [subst x; apply G, HD|]. destruct HX as (r & _ & ->). apply G, HD.
Qed.
Lemma shift_are a b links d x : links_are a b links -> picture_hash C c d x -> holds (shift_linked K links x) (fun l => links_are b (Some d) l) (fun _ => True).
Proof.
  intros (xa & xb & t & -> & LA & LB & HA & HB) HX. pose proof (pic_len _ _ HX) as LX. unfold shift_linked, put_at.
  assert (E1 : firstn K (skipn K (xa ++ xb ++ t)) = xb). { rewrite skipn_app, LA, Nat.sub_diag, skipn_all2 by lia. cbn [skipn app]. rewrite firstn_app, LB, Nat.sub_diag, firstn_all2 by lia. cbn. apply app_nil_r. }
  rewrite E1. destruct (_ <=? _)%nat; [|exact I]. cbn [obind firstn app]. change (0 + length xb)%nat with (length xb). rewrite LB. rewrite skipn_app, LA, Nat.sub_diag, skipn_all2 by lia. cbn [skipn app].
  destruct (_ <=? _)%nat; [|exact I]. cbn [holds]. exists xb, x, t. split; [|auto]. rewrite firstn_app, LB, Nat.sub_diag, (firstn_all2 xb) by lia. cbn [firstn]. rewrite app_nil_r. f_equal. f_equal. rewrite LX.
  replace (K + K)%nat with (length (xb ++ xb)) by (rewrite app_length; lia). rewrite app_assoc, skipn_app, Nat.sub_diag, skipn_all. reflexivity.
Qed.

Lemma vhs_one S Kk d : dgood C S Kk d -> d_vhs d = K.
Proof. intros (_ & _ & -> & (n & E) & _). unfold oid_size. rewrite E. apply (HK _ _ E). Qed.
Notation tk := (tk C c K).
Notation follows := (follows C c K).
Lemma tk_nalu hist L Cur d it : tk hist L Cur d it -> i_nalu it <> None.
Proof. intros ((n & E & _) & _). congruence. Qed.
Lemma lt_nalu Q pd it : lt Q c pd it -> i_nalu it <> None.
Proof. intros (H & _). exact H. Qed.
Lemma lnk_all (P : placed -> item -> Prop) (F : item -> Prop) a b w l a' b' e : (forall pd it, P pd it -> F it) -> (forall it, i_nalu it = None -> In (i_status it) [SMiss; SErr; SUnknown] -> F it) -> lnk P a b w l a' b' e -> Forall F l.
Proof.
  intros H1 H2 T. induction T as [a b w l e T|a b d it w l a' b' e HP HS T IH|a b d it w l a' b' e HP HS HL HQ T IH|a b it w l a' b' e E1 E2 T IH].
  - induction T; constructor; eauto.
  - constructor; eauto.
  - constructor; eauto.
  - constructor; eauto.
Qed.
Lemma lnk_seis Q a b w l a' b' e : lnk (lt Q c) a b w l a' b' e -> Forall (fun it => item_sei it = true -> isstart it = false) l.
Proof. apply lnk_all; [intros pd it (_ & _ & _ & _ & H & _); exact H|]. intros it E _. unfold isstart, fgop. rewrite E. reflexivity. Qed.
Lemma lnk_good Q a b w l a' b' e : lnk (lt Q c) a b w l a' b' e -> Forall (fun it => pending it = true -> good it = true) l.
Proof.
  apply lnk_all.
  - intros pd it (_ & _ & H & _) E. destruct (good it); [reflexivity|]. destruct (H eq_refl). congruence.
  - intros it _ H E. rewrite (pend_no _ H) in E. discriminate.
Qed.
Lemma trk_nouse hist Cur g l : trk (tk hist [] Cur) g l -> nouse l.
Proof.
  induction 1 as [|d it g l (_ & _ & T3 & _) T IH|it g l H1 H2 T IH]; constructor; auto.
  - intros _. destruct (i_used it); [|reflexivity]. destruct (T3 eq_refl) as [[] _].
  - unfold fgop. rewrite H1. discriminate.
Qed.

(** *** Linking *)
Lemma link_link Q hist L Cur w e v a0 b0 a b : trk (tk hist L Cur) (map snd w) (v_items v) -> dinv C c hist (v_dec v) -> uform (v_items v) ->
  lnk (lt Q c) a0 b0 w (v_items v) a b e -> links_are a b (v_links v) ->
  holds (update_link v) (fun v' => ulinked (v_items v') /\ exists a2 b2, lnk (lt Q c) a0 b0 w (v_items v') a2 b2 e /\ links_are a2 b2 (v_links v') /\ (a = None -> b = None -> a2 = None)) (fun _ => True).
Proof.
  intros T (DG & _) (l1 & l2 & EL & U1 & U2 & U3) LN LK. unfold update_link. apply holds_bind. destruct (find_link (v_items v)) as [o|] eqn:EF; [|exact I]. cbn [holds].
  destruct o as [k|].
  2:{ cbn. split; [|exists a, b; auto]. exists l1, l2. split; [exact EL|]. split; [exact U1|]. split; [exact U2|]. destruct l2 as [|it r]; [exact I|]. destruct U3 as [U3 U4]. split; [exact U3|]. intros E1 E2. exfalso. clear -EF EL U2 E1 E2.
      rewrite EL in EF. clear EL. revert EF. induction U2 as [|x l1 H0 H IH]; cbn [app find_link].
      - rewrite E2. unfold fgop in E1. destruct (i_nalu it); [|discriminate]. rewrite E1. discriminate.
      - intros EF. assert (G : (do o <- find_link (l1 ++ it :: r); Def (option_map S o)) = Def None -> False) by (destruct (find_link (l1 ++ it :: r)) as [[|]|]; cbn; [discriminate|intros _; apply IH; reflexivity|discriminate]).
        destruct (i_used x); [|auto]. destruct (i_nalu x) as [n|]; [|discriminate]. destruct (n_first_in_gop n); [discriminate|auto]. }
  rewrite EL in EF. destruct (find_at l1 l2 k U2) as (it & r & -> & F1 & F2 & ->); [destruct l2; [exact I|apply U3]|exact EF|]. destruct U3 as [U3 U4]. destruct (U4 F1 F2) as [P1 P2].
  rewrite EL at 1. rewrite nth_error_app2, Nat.sub_diag by lia. cbn [nth_error].
  destruct (i_linked it) eqn:EI.
  { cbn. split; [|exists a, b; auto]. exists l1, (it :: r). split; [exact EL|]. split; [exact U1|]. split; [exact U2|]. split; [exact U3|]. intros _ _. exact EI. }
  pose proof (lnk_and _ _ _ _ _ _ _ _ _ (tk_nalu hist L Cur) (lt_nalu Q) T LN) as LN2. rewrite EL in LN2.
  assert (GS : isstart it = true).
  { unfold isstart. rewrite F1. cbn [andb]. pose proof (lnk_good _ _ _ _ _ _ _ _ LN) as GF. rewrite EL in GF. apply Forall_app in GF as [_ GF]. apply Forall_cons_iff in GF as [GF _]. apply GF, P1. }
  destruct (lnk_link (fun pd it => tk hist L Cur (snd pd) it /\ lt Q c pd it) it r e l1 (fun pd x Hx => conj (proj1 Hx : tk hist L Cur (snd pd) (set_i_linked true x)) (proj2 Hx : lt Q c pd (set_i_linked true x))) (fun pd x Hx => lt_nalu Q pd x (proj2 Hx)) GS EI U1 w a0 b0 a b LN2) as (d & D1 & [D2 D2'] & D3).
  cbn [fst snd] in D2. destruct D2 as ((n & EN & _ & HF & HN) & _). destruct (i_second it) as [x|] eqn:ES; [|congruence].
  assert (HX : picture_hash C c d x).
  { unfold hash_known in HN. destruct (n_gop_sei n) eqn:EG.
    - exfalso. destruct D2' as (_ & _ & _ & _ & G & _). unfold item_sei in G. rewrite EN in G. rewrite (G EG) in GS. discriminate.
    - unfold fgop in F1. rewrite EN in F1. rewrite F1 in HN. apply HN, ES. }
  unfold update_links, vhs. rewrite (vhs_one _ _ _ DG). pose proof (pic_len _ _ HX) as LX. unfold read_hash. rewrite LX, Nat.leb_refl. cbn [obind]. rewrite firstn_all2 by lia.
  pose proof (shift_are _ _ _ _ _ LK HX) as SH. destruct (shift_linked K (v_links v) x) as [y|]; [|exact I]. cbn [holds obind] in *.
  cbn [v_items v_links on_items set_v_items set_v_links]. unfold set_nth. rewrite EL, skipn_app, skipn_all, Nat.sub_diag, firstn_app, Nat.sub_diag, firstn_all. cbn [skipn app firstn]. rewrite app_nil_r.
  split.
  - exists l1, (set_i_linked true it :: r). split; [reflexivity|]. split; [exact U1|]. split; [exact U2|]. split; [exact U3|]. intros _ _. reflexivity.
  - exists b, (Some d). split; [|split; [exact SH|auto]]. eapply lnk_impl; [|exact D3]. intros pd z _ [_ HZ]. exact HZ.
Qed.

(** *** Verdicts *)
Lemma ulinked_all l : ulinked l -> Forall (fun it => isstart it = true -> i_used it = true -> i_linked it = true) l.
Proof.
  intros (l1 & l2 & -> & _ & U2 & U3). assert (N0 : forall k, nouse k -> Forall (fun it => isstart it = true -> i_used it = true -> i_linked it = true) k).
  { intros k H. eapply Forall_impl; [|exact H]. intros it H0 E U. unfold isstart in E. apply andb_true_iff in E as [E _]. rewrite (H0 E) in U. discriminate. }
  apply Forall_app. split; [apply N0, U2|]. destruct l2 as [|it r]; [constructor|]. destruct U3 as [U3 U4]. constructor; [|apply N0, U3]. intros E. unfold isstart in E. apply andb_true_iff in E as [E _]. auto.
Qed.
Lemma next_all s l : Forall (fun it => isstart it = true -> i_used it = true -> i_linked it = true) l -> Forall (fun it => isstart it = true -> i_used it = true -> i_linked it = true) (on_next_sei (set_i_status s) l).
Proof. induction 1 as [|it l H HF IH]; cbn [on_next_sei]; [constructor|]. dif; constructor; assumption. Qed.
Lemma evl_impl (X Y : item -> Prop) l m : (forall it, X it -> Y it) -> evl X l m -> evl Y l m.
Proof.
  intros H. induction 1 as [|a b l m HS HE IH|b l m E1 E2 HE IH]; [constructor|constructor 2; [|exact IH]|constructor 3; assumption]. destruct HS as [->|(S1 & S2 & S3 & S4 & S5 & S6 & S7 & S8 & S9)]; [left; reflexivity|right].
  do 8 (split; [assumption|]). intros E. destruct (S9 E). auto.
Qed.
Lemma tail_evl (X : item -> Prop) l v (fu : option nat) e m : evl X l (v_items v) ->
  holds (match fu with
    | Some k =>
        if v_first v then Def (v, false, e, m)
        else
          match nth_error (v_items v) k with
          | Some it =>
              match i_nalu it with
              | None => Undef NullDeref
              | Some n => Def (on_items (add_missing (e - m) (n_first_in_gop n) k) v, false, e, m)
              end
          | None => Def (v, false, e, m)
          end
    | None => Def (v, false, e, m)
    end) (fun '(v', _, _, _) => evl X l (v_items v')) (fun _ => True).
Proof.
  intros HJ. destruct fu as [k|]; [|exact HJ]. dif; [exact HJ|]. destruct (nth_error (v_items v) k) as [it|]; [|exact HJ]. destruct (i_nalu it) as [n|]; [|exact I]. cbn [holds v_items on_items set_v_items].
  eapply evl_trans; [exact HJ|apply evl_add].
Qed.
Definition may (v : valid) (it : item) : Prop :=
  next_sei (v_items v) <> None /\ v_verified v = 1%Z /\ linked_ok v = true /\
  (gop_ok v = true /\ i_used it = true \/ listed (vhs v) (expected_hashes v) it /\ vhs v <> 0%nat /\ (0 <? nlen (d_list (v_dec v))) = true).
Lemma with_evl v : ulinked (v_items v) -> Forall (fun it => item_sei it = true -> isstart it = false) (v_items v) -> (next_sei (v_items v) = None \/ v_verified v = 0%Z \/ v_verified v = 1%Z) ->
  holds (verify_with v) (fun '(v', _, _, _) => evl (may v) (v_items v) (v_items v')) (fun _ => True).
Proof.
  intros UL SE HN. pose proof (ulinked_all _ UL) as UA. unfold verify_with. cbv zeta. destruct (v_verified v =? 1)%Z eqn:EV; [apply Z.eqb_eq in EV|].
  - destruct (gop_ok v && linked_ok v) eqn:EO; cbn [negb andb].
    + apply andb_true_iff in EO as [EG EL]. destruct (next_sei (v_items v)) as [it|] eqn:EN; cbn [obind]; [|apply tail_evl, evl_refl]. rewrite !obind_assoc. apply holds_bind.
      eapply holds_impl; [apply (used_evl SValid (may v)); [discriminate|discriminate|exact UA|]| |auto]; [intros x _ U _; split; [congruence|auto]|]. intros [m k] HM. cbn [obind].
      apply tail_evl. cbn [v_items set_v_items]. eapply evl_trans; [exact HM|]. apply evl_sei; [discriminate|discriminate|]. eapply evl_next; eassumption.
    + destruct (0 <? nlen (d_list (v_dec v))) eqn:EZ.
      * unfold verify_list. destruct (vhs v =? 0)%nat eqn:EH; [exact I|]. apply Nat.eqb_neq in EH. cbv zeta. destruct (next_sei (v_items v)) as [it|] eqn:EN; [|apply evl_refl].
        apply holds_bind. destruct UL as (l1 & l2 & EL & U1 & U2 & U3).
        assert (HL : holds (hl_loop (vhs v) (expected_hashes v) 0 false false (mkHl (-1) 0 0 0 (linked_ok v) None) (v_items v)) (fun '(_, m) => evl (may v) (v_items v) m) (fun _ => True)).
        { rewrite EL at 1. eapply holds_impl; [apply (hl_evl (vhs v) (expected_hashes v) (linked_ok v)); [reflexivity|exact U1|exact U3]| |auto]. intros [hs m] H. rewrite <- EL in H. eapply evl_impl; [|exact H]. intros x [X1 X2]. split; [congruence|]. split; [exact EV|]. split; [exact X2|]. right. auto. }
        eapply holds_impl; [exact HL| |auto]. intros [hs l] HM. set (l0 := if (h_latest hs =? -1)%Z then _ else _). apply holds_bind.
        assert (HL1 : holds l0 (fun m => evl (may v) (v_items v) m) (fun _ => True)).
        { unfold l0. dif; [|exact HM]. destruct l as [|it0 l']; [exact I|]. cbn [holds]. eapply evl_trans; [exact HM|apply evl_add]. }
        eapply holds_impl; [exact HL1| |auto]. intros m HM2. cbn [holds v_items set_v_items].
        match goal with |- evl _ _ (on_next_sei _ ?z) => assert (HZ : evl (may v) (v_items v) z) end.
        { dif; [|exact HM2]. destruct (h_last hs); [|exact HM2]. eapply evl_trans; [exact HM2|apply evl_add]. }
        eapply evl_trans; [exact HZ|]. apply evl_sei; [discriminate|discriminate|]. eapply evl_next; eassumption.
      * destruct (next_sei (v_items v)) as [it|] eqn:EN; cbn [obind]; [|apply tail_evl, evl_refl]. rewrite !obind_assoc. apply holds_bind.
        eapply holds_impl; [apply (used_evl SInvalid (may v)); [discriminate|discriminate|exact UA|]| |auto]; [intros x E; discriminate|]. intros [m k] HM. cbn [obind].
        apply tail_evl. cbn [v_items set_v_items]. eapply evl_trans; [exact HM|]. apply evl_sei; [discriminate|discriminate|]. eapply evl_next; eassumption.
  - destruct (next_sei (v_items v)) as [it|] eqn:EN; [|exact I]. destruct HN as [HN|[HN|HN]]; [discriminate HN| |rewrite HN in EV; discriminate]. rewrite HN. change (0 =? 0)%Z with true. cbv iota.
    cbn [v_verified v_items on_items set_v_items]. rewrite EV. rewrite !obind_assoc. apply holds_bind.
    eapply holds_impl; [apply (used_evl SInvalid (may v)); [discriminate|discriminate|apply next_all, UA|]| |auto]; [intros x E; discriminate|]. intros [m k] HM. cbn [obind].
    apply tail_evl. cbn [v_items set_v_items]. eapply evl_trans; [|exact HM]. apply evl_sei; [discriminate|discriminate|exact SE].
Qed.
Lemma with_link hist w e v a0 b0 a b : ready C c K hist (map snd w) v -> ulinked (v_items v) -> (next_sei (v_items v) = None \/ v_verified v = 0%Z \/ v_verified v = 1%Z) ->
  lnk (lt (follows hist) c) a0 b0 w (v_items v) a b e -> links_are a b (v_links v) ->
  holds (verify_with v) (fun '(v', _, _, _) => lnk (lt (follows hist) c) a0 b0 w (v_items v') a b e) (fun _ => True).
Proof.
  intros (L & Cur & T & (DG & DC & DL) & EC & EL & HN) UL HV1 LN (xa & xb & t & EK & LA & LB & HA & HB). eapply holds_impl; [apply with_evl; [exact UL|eapply lnk_seis; exact LN|exact HV1]| |auto].
  intros [[[v' f1] f2] f3] HE. pose proof (lnk_and _ _ _ _ _ _ _ _ _ (tk_nalu hist L Cur) (lt_nalu _) T LN) as LN2. eapply lnk_evl; [exact HE| |exact LN2]. clear LN2 LN HE f1 f2 f3 v'.
  intros p d it HI HT HP HS -> (M1 & M2 & M3 & M4). destruct p as [q|]; [|exact I]. destruct HN as [HN|(H1 & s & fs & H2 & H3 & H4 & H5 & H6 & H7 & H8 & H9)]; [contradiction|].
  exists s, fs. split; [exact H3|]. split; [exact H4|]. split; [apply H6, M2|]. split; [exact H5|]. destruct HT as (T1 & T2 & T3 & T4 & T5). split.
  - intros g HG HKG. destruct M4 as [[M4 U]|(M4 & M5 & M6)].
    + left. destruct (T3 U) as [U1 U2]. apply (H7 M4 g HG HKG d U1).
    + right. assert (HIL : in_list C c K (d_list (v_dec v)) d) by (eapply (pic_listed C c K HK'); [exact T1|apply (vhs_size C _ _ _ DG)| |exact M4]; fold (vhs v); lia).
      destruct (last_list fs) as [l0|]; [rewrite <- H8; exact HIL|]. destruct H8 as [H8|H8]; [|eauto]. rewrite H8 in M6. discriminate M6.
  - intros l HL HKL. exists xa. split; [exact HA|]. unfold linked_ok, vhs in M3. rewrite (vhs_one _ _ _ DG), EK in M3. rewrite firstn_app, LA, Nat.sub_diag, firstn_all2 in M3 by lia. cbn [firstn] in M3. rewrite app_nil_r in M3.
    apply orb_true_iff in M3 as [M3|M3]; apply bytes_eqb_eq in M3; [right; exact M3|left]. unfold agree. rewrite <- (H9 l HL), firstn_firstn, Nat.min_l, M3 by exact HKL. symmetry. apply firstn_all2. rewrite firstn_length. lia.
Qed.
Lemma unused_alike l : Forall2 alike l (remove_used l).
Proof. unfold remove_used. induction l as [|it l IH]; cbn [map]; constructor; auto. unfold alike. auto. Qed.
Lemma validate_link hist w e v a0 b0 a b : ready C c K hist (map snd w) v -> ulinked (v_items v) -> (next_sei (v_items v) = None \/ v_verified v = 0%Z \/ v_verified v = 1%Z) ->
  lnk (lt (follows hist) c) a0 b0 w (v_items v) a b e -> links_are a b (v_links v) -> (v_first v = true -> a = None) ->
  holds (validate v) (fun v' => lnk (lt (follows hist) c) a0 b0 w (v_items v') a b e) (fun _ => True).
Proof.
  intros HR UL HV1 LN LK HF. assert (EL : gs_lost (v_gs v) = false) by (destruct HR as (L & Cur & _ & _ & _ & EL & _); exact EL). unfold validate. rewrite EL. cbn [andb]. rewrite !obind_assoc.
  apply holds_bind. pose proof (verify_with_gr (gr v) v eq_refl) as HG. pose proof (with_link _ _ _ _ _ _ _ _ HR UL HV1 LN LK) as HW. destruct (verify_with v) as [[[[v1 f] e1] r]|]; [|exact I]. cbn [holds obind] in *. rename HW into T.
  assert (F1 : v_first v1 = true -> a = None) by (unfold gr in HG; intros E; apply HF; congruence). clear HG HF. destruct (get_stats _) as [[inv0 mis] hv].
  apply (lnk_alike _ _ _ _ _ _ _ _ _ _ (unused_alike _)) in T. set (v2 := on_items remove_used _). assert (E2 : v_items v2 = remove_used (v_items v1)) by reflexivity. assert (F2 : v_first v2 = true -> a = None) by exact F1. clearbody v2. rewrite <- E2 in T. clear E2.
  set (v3 := if v_first v2 then v2 else _). assert (E3 : v_items v3 = v_items v2) by (unfold v3; dif; reflexivity). assert (F3 : v_first v3 = true -> a = None) by (unfold v3; intros E; apply F2; destruct (v_first v2) eqn:EF2; [reflexivity|cbn in E; congruence]). clearbody v3. rewrite <- E3 in T.
  set (r1 := if (0 <? inv0)%Z then _ else _). set (r2 := if negb (v_first _) && _ && _ && _ then _ else _). set (r3 := match r2 with AuthOk => _ | _ => _ end). clearbody r1 r2 r3.
  assert (G : forall q : valid * _ * Z * Z, lnk (lt (follows hist) c) a0 b0 w (v_items (fst (fst (fst q)))) a b e ->
     holds (let '(v4, res, exp, recv) := q in
        Def (on_latest (fun l => set_l_exp (if gs_lost (v_gs v4) then (-1)%Z else if (l_exp (v_latest v4) =? -1)%Z then (-1)%Z else (l_exp (v_latest v4) + exp)%Z)
           (set_l_recv (l_recv l + recv)%Z (set_l_auth (let res := if d_l_changed (v_dec v4) then NotOk else res in if (ar_n (l_auth (v_latest v4)) <=? 1) || (ar_n res <? ar_n (l_auth (v_latest v4))) then res else l_auth (v_latest v4)) l))) v4))
       (fun v' => lnk (lt (follows hist) c) a0 b0 w (v_items v') a b e) (fun _ => True)).
  { intros [[[v4 res] x1] x2] H. exact H. }
  apply G. destruct (v_first v3) eqn:EF; [|exact T]. specialize (F3 eq_refl). subst a. destruct (match r3 with AuthOk => _ | _ => _ end); try exact T; cbn [fst v_items on_items set_v_items set_v_synced]; apply lnk_back, T.
Qed.

(** *** The loop *)
Definition linv (hist : list vop) (w : list placed) (e : option (list N)) (v : valid) : Prop :=
  exists a0 b0 a b, lnk (lt (follows hist) c) a0 b0 w (v_items v) a b e /\ links_are a b (v_links v) /\ (v_first v = true \/ v_signing v = false -> a = None /\ b = None).
Definition both (hist : list vop) (w : list placed) (e : option (list N)) (v : valid) : Prop := inv C c K hist (map snd w) v /\ linv hist w e v.
Lemma linv_same hist w e v v' : Forall2 alike (v_items v) (v_items v') -> (v_links v', v_first v') = (v_links v, v_first v) -> (v_signing v' = false -> v_signing v = false) -> linv hist w e v -> linv hist w e v'.
Proof.
  intros HA E HS (a0 & b0 & a & b & H1 & H2 & H3). injection E as E1 E2. exists a0, b0, a, b. split; [eapply lnk_alike; eassumption|]. rewrite E1, E2. split; [exact H2|]. intros [H|H]; apply H3; auto.
Qed.
Lemma loop_both hist w e : forall fuel v stop, both hist w e v ->
  holds (validate_loop C Ov fuel v stop) (fun '(v', st) => st = SV_OK -> both hist w e v') (fun _ => True).
Proof.
  induction fuel as [|fuel IH]; intros v stop [HI HL]; cbn [validate_loop].
  all: pose proof (has_pending_next v) as HP; assert (PH : v_signing v = true -> snd (has_pending v) = true -> gs_sei (v_gs (fst (has_pending v))) = true)
    by (intros ES; unfold has_pending; rewrite ES; destruct HL as (a0 & b0 & a & b & HL & _);
        pose proof (pend_has (v_items v) (mkPg 0 false false None false) (lnk_good _ _ _ _ _ _ _ _ HL) ltac:(discriminate) ltac:(discriminate) ltac:(discriminate)) as Q;
        destruct (pending_loop _ _ _) as [ps found]; exact Q).
  all: assert (E0 : (v_items (fst (has_pending v)), v_signing (fst (has_pending v)), gs_lost (v_gs (fst (has_pending v)))) = (v_items v, v_signing v, false)) by (unfold has_pending; destruct (pending_loop _ _ _); reflexivity).
  all: assert (HI1 : inv C c K hist (map snd w) (fst (has_pending v))) by (unfold has_pending; destruct (pending_loop _ _ _); exact HI);
    assert (HL1 : linv hist w e (fst (has_pending v))) by (unfold has_pending; destruct (pending_loop _ _ _); exact HL).
  all: destruct (has_pending v) as [v1 found]; cbn [fst snd] in *; injection E0 as E1 E2 E3; rewrite <- E1, <- E2 in HP; rewrite <- E2 in PH; clear HI HL E1 E2 v.
  all: destruct (negb found || stop) eqn:EFS; [intros _; split; assumption|]; try exact I.
  apply orb_false_iff in EFS as [EFS _]. apply negb_false_iff in EFS.
  set (v2 := if v_result v1 then v1 else _). assert (HI2 : inv C c K hist (map snd w) v2) by (unfold v2; dif; exact HI1). assert (HL2 : linv hist w e v2) by (unfold v2; dif; exact HL1).
  assert (E2 : (v_items v2, v_signing v2, gs_lost (v_gs v2), gs_sei (v_gs v2)) = (v_items v1, v_signing v1, gs_lost (v_gs v1), gs_sei (v_gs v1))) by (unfold v2; dif; reflexivity).
  clearbody v2. injection E2 as A1 A2 A3 A4. rewrite <- A1, <- A2 in HP. rewrite <- A2, <- A4 in PH. rewrite <- A3 in E3. clear HI1 HL1 A1 A2 A3 A4 v1.
  pose proof HI2 as (T & SG & DI & EC & EV & HS). destruct HL2 as (a0 & b0 & a & b & LN & LK & LF).
  assert (GO : forall v3 a3 b3 a4 b4, trk (tk hist [] (fun _ => False)) (map snd w) (v_items v3) -> dinv C c hist (v_dec v3) -> v_codec v3 = c -> v_signing v3 = v_signing v2 ->
     lnk (lt (follows hist) c) a3 b3 w (v_items v3) a4 b4 e -> links_are a4 b4 (v_links v3) -> (v_signing v3 = false -> a4 = None /\ b4 = None) ->
     forall stop2, holds (validate_loop C Ov fuel (on_latest (set_l_pend (num_pending (v_items (set_v_result true (set_v_verified (-1)%Z (set_v_first (negb (v_signing v3)) v3))))))
        (set_v_result true (set_v_verified (-1)%Z (set_v_first (negb (v_signing v3)) v3)))) stop2) (fun '(v', st) => st = SV_OK -> both hist w e v') (fun _ => True)).
  { intros v3 a3 b3 a4 b4 G1 G2 G3 G4 G5 G6 G7 stop2. apply IH. split.
    - split; [exact G1|]. split; [exact SG|]. split; [exact G2|]. split; [exact G3|]. split; [reflexivity|]. cbn [v_signing on_latest set_v_latest set_v_result set_v_verified set_v_first]. rewrite G4. exact HS.
    - exists a3, b3, a4, b4. cbn [v_items v_links v_signing v_first on_latest set_v_latest set_v_result set_v_verified set_v_first]. split; [exact G5|]. split; [exact G6|]. intros [H|H]; apply G7; [apply negb_true_iff, H|exact H]. }
  pose proof (trk_nouse _ _ _ _ T) as NU.
  destruct (v_signing v2) eqn:ES.
  - specialize (HP eq_refl EFS). specialize (PH eq_refl EFS).
    apply holds_bind. pose proof (prepare_spec C c K Ov HC HK' HO hist _ v2 HI2 E3) as H1. pose proof (prepare_gr C Ov (gr v2) v2 eq_refl) as H2. pose proof (prepare_link v2 NU) as H3. destruct (prepare C Ov v2) as [[v3 st]|]; [|exact I]. cbn [holds] in *.
    destruct (is_ok st) eqn:EO; cbn [negb]; [|intros ->; discriminate]. assert (st = SV_OK) as -> by (destruct st; try discriminate; reflexivity). specialize (H1 eq_refl). destruct (H3 eq_refl) as (P1 & P2 & P3 & P4). specialize (P4 PH). clear H3.
    assert (S3 : v_signing v3 = true) by (unfold gr in H2; congruence). assert (F3 : v_first v3 = v_first v2) by (unfold gr in H2; congruence). clear H2.
    apply (lnk_alike _ _ _ _ _ _ _ _ _ _ P1) in LN. rewrite <- P3 in LK.
    apply holds_bind. pose proof (link_ready C c K _ _ _ H1) as H4. pose proof (link_evm v3) as H5. pose proof (update_link_gr (gr v3) v3 eq_refl) as H5g.
    assert (H6 : holds (update_link v3) (fun v' => ulinked (v_items v') /\ exists a2 b2, lnk (lt (follows hist) c) a0 b0 w (v_items v') a2 b2 e /\ links_are a2 b2 (v_links v') /\ (a = None -> b = None -> a2 = None)) (fun _ => True)).
    { destruct H1 as (L & Cur & T3 & D3 & _). eapply link_link; eassumption. }
    destruct (update_link v3) as [v4|]; [|exact I]. cbn [holds] in *. destruct H5 as [H5 _]. injection H5 as _ _ _ V4 _ S4. destruct H6 as (UL & a2 & b2 & LN4 & LK4 & N4).
    assert (F4 : v_first v4 = v_first v2) by (unfold gr in H5g; congruence). clear H5g.
    rewrite S4, S3. apply holds_bind. pose proof (validate_spec C c K HK' _ _ _ H4) as H6. pose proof (validate_dk (dk v4) v4 eq_refl) as H7. pose proof (validate_ll (ll v4) v4 eq_refl) as H8.
    assert (H9 : holds (validate v4) (fun v' => lnk (lt (follows hist) c) a0 b0 w (v_items v') a2 b2 e) (fun _ => True)).
    { apply validate_link; auto; [right; rewrite V4; exact P4|]. rewrite F4. intros E. destruct (LF (or_introl E)). auto. }
    destruct (validate v4) as [v5|]; [|exact I]. cbn [holds] in *. unfold dk in H7. injection H7 as D1 D2 D3. unfold ll in H8. injection H8 as L1 _.
    destruct H4 as (L & Cur & _ & DI4 & EC4 & _). eapply GO; [exact H6|rewrite D1; exact DI4|congruence|congruence|exact H9|rewrite L1; exact LK4|congruence].
  - apply holds_bind. pose proof (prepare_none C Ov v2 (plain_none _ _ _ _ _ _ _ _ T (HS eq_refl))) as H1. pose proof (prepare_link v2 NU) as H3. destruct (prepare C Ov v2) as [[v3 st]|]; [|exact I]. cbn [holds] in *. destruct H1 as [H1 H2].
    destruct (is_ok st) eqn:EO; cbn [negb]; [|intros ->; discriminate]. assert (st = SV_OK) as -> by (destruct st; try discriminate; reflexivity). destruct (H3 eq_refl) as (_ & _ & P3 & _). unfold dk in H2. injection H2 as D1 D2 D3.
    assert (EU : forall x, update_link v3 = Def x -> x = v3).
    { intros x. unfold update_link. rewrite H1. pose proof (fun k => find_no _ k NU) as FN. destruct (find_link (v_items v2)) as [[k|]|]; cbn [obind]; [exfalso; apply (FN k); reflexivity|congruence|discriminate]. }
    apply holds_bind. destruct (update_link v3) as [v4|] eqn:EUL; [|exact I]. rewrite (EU v4 eq_refl). cbn [holds]. rewrite D3, ES. cbn [obind].
    apply (GO (on_latest (set_l_auth NotSigned) v3) a0 b0 a b); cbn [v_items v_dec v_codec v_signing v_links on_latest set_v_latest]; [rewrite H1; exact T|congruence|congruence|congruence|rewrite H1; exact LN|rewrite P3; exact LK|]. intros _. apply LF. right. reflexivity.
Qed.

(** *** Adding a NALU *)
Lemma hash_alike v it : holds (hash_item C v it) (fun '(_, it', _) => alike it it' /\ i_used it' = i_used it) (fun _ => True).
Proof.
  assert (R : forall it', i_nalu it' = i_nalu it -> i_status it' = i_status it -> i_linked it' = i_linked it -> i_decoded it' = i_decoded it -> i_used it' = i_used it -> alike it it' /\ i_used it' = i_used it).
  { intros it' E1 E2 E3 E4 E5. split; [|exact E5]. unfold alike, nf. rewrite E1. auto. }
  unfold hash_item. destruct (i_nalu it) as [n|] eqn:EN; [|cbn; apply R; auto]. dif; [cbn; apply R; auto|]. apply holds_bind. destruct (hash_wrapper _ _ _ _) as [[[k st] h]|]; [|exact I]. cbn [holds]. cbv zeta.
  apply holds_bind. set (it1 := match h with Some x => _ | None => _ end).
  assert (G : holds it1 (fun it' => i_nalu it' = Some n /\ i_status it' = i_status it /\ i_linked it' = i_linked it /\ i_decoded it' = i_decoded it /\ i_used it' = i_used it) (fun _ => True)).
  { unfold it1. destruct h as [x|]; [|cbn; auto]. apply holds_bind. destruct (put_at _ _ _); [|exact I]. cbn. auto. }
  clearbody it1. destruct it1 as [it1|]; [|exact I]. cbn [holds] in *. destruct G as (G1 & G2 & G3 & G4 & G5). dif; [cbn; apply R; auto|]. dif; [|cbn; apply R; auto].
  apply holds_bind. destruct (hash_wrapper _ _ _ _) as [[[k2 st2] h2]|]; [|exact I]. cbn [holds]. apply (R (set_i_second _ it1)); cbn; auto.
Qed.
Lemma rehash_alike : forall l v st, holds (rehash C v l st) (fun '(_, m, _) => Forall2 alike l m) (fun _ => True).
Proof.
  induction l as [|it l IH]; intros v st; cbn [rehash]; [constructor|]. destruct (i_nalu it) as [n|] eqn:EN; [|exact I]. dif.
  - apply holds_bind. eapply holds_impl; [apply IH| |auto]. intros [[v1 r] st1] H. cbn. constructor; [apply alike_refl|exact H].
  - apply holds_bind. eapply holds_impl; [apply hash_alike| |auto]. intros [[v1 it1] st1] [H1 _]. dif; [cbn; constructor; [exact H1|apply alikes_refl]|].
    apply holds_bind. eapply holds_impl; [apply IH| |auto]. intros [[v2 r] st2] H. cbn. constructor; assumption.
Qed.
Lemma copy_alike known l : holds (copy_last known l) (fun '(m, st) => st = SV_OK -> Forall2 alike l m) (fun _ => True).
Proof.
  unfold copy_last. apply holds_bind.
  assert (G : forall k, holds (copy_rev known k) (fun '(m, st) => st = SV_OK -> Forall2 alike k m) (fun _ => True)).
  { induction k as [|it k IH]; cbn [copy_rev]; [exact I|]. destruct (i_nalu it) as [n|] eqn:EN.
    - destruct (copy_nalu known n) as [[n2 st]|] eqn:EC; [|exact I]. cbn. intros ->. constructor; [|apply alikes_refl]. unfold alike, nf. cbn. rewrite EN. split; [|auto].
      revert EC. unfold copy_nalu. repeat dif; try discriminate; intros E; injection E as <-; reflexivity.
    - apply holds_bind. eapply holds_impl; [exact IH| |auto]. intros [r2 st] H. cbn. intros E. constructor; [apply alike_refl|auto]. }
  eapply holds_impl; [apply G| |auto]. intros [m st] H. cbn. intros E. specialize (H E). rewrite <- (rev_involutive l). clear -H.
  assert (Q : forall a b, Forall2 alike a b -> Forall2 alike (rev a) (rev b)). { induction 1; cbn [rev]; [constructor|]. apply Forall2_app; [assumption|constructor; [assumption|constructor]]. }
  apply Q, H.
Qed.
Lemma new_fresh Q e d n it : parse_nalu d c true true = Def n -> d <> [] -> nf it = Some (n_valid n, n_first_in_gop n, n_gop_sei n) -> i_status it = status_of n -> i_linked it = false -> i_decoded it = false ->
  fresh (lt Q c) e [(e, d)] [it] (next_start c e d).
Proof.
  intros EP HD EN ES EL ED. pose proof (start_plain d c n EP) as SP. pose proof (parse_valid d c n HD EP) as PV.
  assert (GF : fgop it = n_first_in_gop n /\ good it = (0 <? n_valid n)%Z /\ item_sei it = n_gop_sei n /\ i_nalu it <> None).
  { unfold nf in EN. unfold fgop, good, item_sei. destruct (i_nalu it) as [m|]; [|discriminate]. cbn in EN. injection EN as -> -> ->. repeat split; discriminate. }
  destruct GF as (F1 & F2 & F3 & F4). assert (GS : isstart it = gop_start c d) by (unfold isstart, gop_start; rewrite EP, F1, F2; reflexivity).
  assert (EX : next_start c e d = if isstart it then Some d else e) by (unfold next_start; rewrite GS; reflexivity). rewrite EX.
  assert (IS : isstart it = true -> i_status it = SPend).
  { unfold isstart. rewrite F1, F2. intros E. apply andb_true_iff in E as [E1 E2]. apply Z.ltb_lt in E2. rewrite ES. unfold status_of. rewrite PV. destruct (n_valid n =? 0)%Z eqn:E0; [apply Z.eqb_eq in E0; lia|]. rewrite (proj1 (SP E1)). reflexivity. }
  constructor 2; [|intros E; unfold pending; rewrite (IS E); auto|constructor].
  unfold lt. cbn [fst snd]. split; [exact F4|]. split; [exact GS|]. split.
  { rewrite F2. intros E. apply Z.ltb_ge in E. apply Z.ltb_ge in PV. assert (E0 : n_valid n = 0%Z) by lia. unfold pending. rewrite ES. unfold status_of. rewrite E0. cbn. split; [reflexivity|discriminate]. }
  split; [auto|]. split.
  { rewrite F3. intros E. unfold isstart. rewrite F1. destruct (n_first_in_gop n); [|reflexivity]. destruct (SP eq_refl). congruence. }
  split; [rewrite ES; unfold status_of; repeat dif; discriminate|]. intros E _. exfalso. revert E. rewrite ES. unfold status_of. repeat dif; discriminate.
Qed.
Lemma register_link v n : holds (register C v n) (fun '(v', it, _) => ll v' = ll v /\ gr v' = gr v /\ nf it = Some (n_valid n, n_first_in_gop n, n_gop_sei n) /\ i_status it = status_of n /\ i_linked it = false /\ i_decoded it = false) (fun _ => True).
Proof.
  pose proof (register_ll C (ll v) v n eq_refl) as H1. pose proof (register_gr C (gr v) v n eq_refl) as H2.
  assert (H3 : holds (register C v n) (fun '(_, it, _) => nf it = Some (n_valid n, n_first_in_gop n, n_gop_sei n) /\ i_status it = status_of n /\ i_linked it = false /\ i_decoded it = false) (fun _ => True)).
  { unfold register. destruct (n_valid n =? 0)%Z eqn:EV; [cbn; auto|]. apply holds_bind. destruct (update_hashable n) as [n2|] eqn:EU; [|exact I]. cbn [holds]. destruct (hashable_flags _ _ EU) as [F1 F2]. unfold flags in F1. injection F1 as F1a F1b F1c F1d _ _ _ _ _.
    assert (HG : holds (hash_item C v (set_i_nalu (Some n2) (item_create n))) (fun '(_, it', _) => alike (set_i_nalu (Some n2) (item_create n)) it' /\ i_decoded it' = false) (fun _ => True)).
    { pose proof (hash_alike v (set_i_nalu (Some n2) (item_create n))) as HA.
      assert (HD : holds (hash_item C v (set_i_nalu (Some n2) (item_create n))) (fun '(_, it', _) => i_decoded it' = false) (fun _ => True)).
      { unfold hash_item. cbn [i_nalu set_i_nalu]. dif; [reflexivity|]. apply holds_bind. destruct (hash_wrapper _ _ _ _) as [[[k st] h]|]; [|exact I]. cbn [holds]. cbv zeta. apply holds_bind. destruct h as [x|]; [apply holds_bind; destruct (put_at _ _ _); [|exact I]|]; cbn [holds].
        all: dif; [reflexivity|]; dif; [|reflexivity]; apply holds_bind; destruct (hash_wrapper _ _ _ _) as [[[k2 st2] h2]|]; [|exact I]; reflexivity. }
      destruct (hash_item C v _) as [[[v' it] st]|]; [|exact I]. cbn [holds] in *. split; [apply HA|exact HD]. }
    eapply holds_impl; [exact HG| |auto]. intros [[v' it] st] [(A1 & A2 & A3 & A4) A5]. split; [rewrite <- A1; unfold nf; cbn; rewrite F1a, F1c, F1d; reflexivity|]. split; [rewrite A2; reflexivity|]. split; [rewrite A3; reflexivity|exact A5]. }
  destruct (register C v n) as [[[v' it] st]|]; [|exact I]. cbn [holds] in *. auto.
Qed.
Lemma maybe_both hist w e f v n : n_golden n = false -> both hist w e v ->
  holds (maybe_validate C Ov f v n) (fun '(v', st) => st = SV_OK -> both hist w e v') (fun _ => True).
Proof.
  intros HG [HI HL]. pose proof HI as (T & SG & DI & EC & EV & HS). unfold maybe_validate. cbv zeta. apply holds_bind.
  pose proof (recurrent_spec C c K _ _ _ _ _ T DI) as H1. pose proof (recurrent_ll C (ll v) v eq_refl) as H2. pose proof (recurrent_gr C (gr v) v eq_refl) as H3. destruct (recurrent_decoded C v) as [[v1 f2]|]; [|exact I]. cbn [holds] in *. destruct H1 as [E1 D1].
  assert (HI1 : inv C c K hist (map snd w) v1) by (injection E1 as E1 E2 E3 E4 E5; eapply inv_ext; [|exact D1|exact HI]; congruence).
  assert (HL1 : linv hist w e v1).
  { unfold ll in H2. unfold gr in H3. injection E1 as E1 _ _ E4 _. apply (linv_same _ _ _ v); [rewrite E1; apply alikes_refl|congruence|congruence|exact HL]. }
  dif; [|apply loop_both; split; assumption]. dif; [|intros _; split; assumption]. rewrite HG. intros _. split.
  - eapply inv_ext; [reflexivity| |exact HI1]. cbn. destruct D1 as (D1 & D2 & D3). split; [|split; [exact D2|exact D3]]. eapply dgood_core; [|exact D1]. reflexivity.
  - apply (linv_same _ _ _ v1); [apply alikes_refl|reflexivity|auto|exact HL1].
Qed.
Lemma body_both hist w e d f v n : parse_nalu d c true true = Def n -> d <> [] -> bytes_ok d -> n_golden n = false -> In d (added hist) -> subseq (map snd w ++ [d]) (added hist) -> both hist w e v ->
  holds (add_body C Ov f v n) (fun '(v', st) => v_legacy v' = true \/ (st = SV_OK -> both hist (w ++ [(e, d)]) (next_start c e d) v')) (fun _ => True).
Proof.
  intros EP HD HB HG HI SG [(T & _ & DI & EC & EV & HS) HL]. unfold add_body. cbv zeta. rewrite (parse_valid d c n HD EP). apply holds_bind.
  set (v1 := set_v_signing _ _). assert (E1 : (v_items v1, v_codec v1, v_verified v1, v_dec v1, v_signing v1, (v_links v1, v_first v1)) = (v_items v, v_codec v, v_verified v, v_dec v, v_signing v || n_gop_sei n, (v_links v, v_first v))) by reflexivity. clearbody v1.
  injection E1 as E1 E2 E3 E4 E5 E6 E7. pose proof (register_spec C c K HC HK' hist [] (fun _ => False) d v1 n EP HD HB HI ltac:(rewrite E4; exact DI)) as H1. pose proof (register_link v1 n) as H3. destruct (register C v1 n) as [[[v2 it] st]|]; [|exact I]. cbn [holds] in *. destruct H1 as [H1 H2].
  destruct (is_ok st) eqn:ES; cbn [negb]; [|right; intros ->; discriminate]. assert (st = SV_OK) as -> by (destruct st; try discriminate; reflexivity). specialize (H2 eq_refl).
  assert (DI2 : dinv C c hist (v_dec v2)) by (eapply dinv_hk; [exact H1|rewrite E4; exact DI]). unfold hk in H1. injection H1 as H1a H1b H1c H1d _ _ _ _ _ _ _ _. destruct H3 as (K1 & K2 & K3 & K4 & K5 & K6). unfold ll in K1. unfold gr in K2.
  assert (HI2 : both hist (w ++ [(e, d)]) (next_start c e d) (set_v_items (v_items v ++ [it]) v2)).
  { split.
    - split; [rewrite map_app; cbn; apply trk_app; [exact T|constructor 2; [exact H2|constructor]]|]. rewrite map_app. cbn [map snd]. split; [exact SG|]. split; [exact DI2|]. cbn. split; [congruence|]. split; [congruence|]. rewrite H1d, E5. intros E. apply orb_false_iff in E as [X1 X2].
      apply Forall_app. split; [auto|]. constructor; [|constructor]. unfold sv_sei. rewrite EP. exact X2.
    - destruct HL as (a0 & b0 & a & b & L1 & L2 & L3). exists a0, b0, a, b. cbn [v_items v_links v_first v_signing set_v_items]. split; [eapply lnk_app; [exact L1|]; eapply new_fresh; eassumption|]. split; [replace (v_links v2) with (v_links v) by congruence; exact L2|].
      replace (v_first v2) with (v_first v) by congruence. rewrite H1d, E5. intros [H|H]; apply L3; [auto|right]. apply orb_false_iff in H. apply H. }
  set (v3 := set_v_items _ v2) in *. clearbody v3. clear v2 H1a H1b H1c H1d DI2 K1 K2. set (w2 := w ++ [(e, d)]) in *. set (e2 := next_start c e d) in *. clearbody w2 e2.
  assert (G : holds (if negb (d_algo_known (v_dec v3)) && v_signing v3 then
           do (u, b) <- recurrent_decoded C v3;
           if negb b then Def (u, SV_OK)
           else
             do (v, st) <- (if n_golden n then prepare_golden C Ov (on_dec (set_d_algo_known true) u) (v_items v) it else Def ((on_dec (set_d_algo_known true) u), SV_OK));
             if negb (is_ok st) then Def (v, st)
             else if (N.land (n_reserved n) 48 =? 0) && negb (n_golden n)
             then Def (set_v_legacy true (set_v_acc accum_init v), SV_OK)
             else reregister C v
         else Def (v3, SV_OK)) (fun '(v', st) => v_legacy v' = true \/ (st = SV_OK -> both hist w2 e2 v')) (fun _ => True)).
  { dif; [|right; auto]. pose proof HI2 as [(T3 & SG3 & DI3 & EC3 & EV3 & HS3) HL3]. apply holds_bind. pose proof (recurrent_spec C c K _ _ _ _ _ T3 DI3) as R1. pose proof (recurrent_ll C (ll v3) v3 eq_refl) as R2. pose proof (recurrent_gr C (gr v3) v3 eq_refl) as R3.
    destruct (recurrent_decoded C v3) as [[v4 b]|]; [|exact I]. cbn [holds] in *. destruct R1 as [E6' D4].
    assert (HI4 : both hist w2 e2 v4).
    { injection E6' as E6a E6b E6c E6d E6e. split; [eapply inv_ext; [|exact D4|apply HI2]; congruence|]. unfold ll in R2. unfold gr in R3. apply (linv_same _ _ _ v3); [rewrite E6a; apply alikes_refl|congruence|congruence|exact HL3]. }
    destruct (negb b); [right; auto|]. rewrite HG. cbn [obind negb]. change (is_ok SV_OK) with true. cbn [negb andb]. dif; [left; reflexivity|].
    set (v5 := on_dec _ v4). assert (HI5 : both hist w2 e2 v5).
    { split; [|apply (linv_same _ _ _ v4); [apply alikes_refl|reflexivity|auto|apply HI4]]. eapply inv_ext; [reflexivity| |apply HI4]. destruct D4 as (Q1 & Q2 & Q3). split; [|split; [exact Q2|exact Q3]]. eapply dgood_core; [|exact Q1]. reflexivity. }
    clearbody v5. pose proof HI5 as [(T5 & SG5 & DI5 & EC5 & EV5 & HS5) HL5]. unfold reregister. apply holds_bind. pose proof (rehash_spec C c K HC HK' hist _ _ _ _ _ SV_UNKNOWN_FAILURE T5 DI5) as R4.
    pose proof (rehash_ll C (ll v5) (v_items v5) v5 SV_UNKNOWN_FAILURE eq_refl) as R5. pose proof (rehash_gr C (gr v5) (v_items v5) v5 SV_UNKNOWN_FAILURE eq_refl) as R6. pose proof (rehash_alike (v_items v5) v5 SV_UNKNOWN_FAILURE) as R7.
    destruct (rehash C v5 (v_items v5) SV_UNKNOWN_FAILURE) as [[[v6 l6] st6]|]; [|exact I]. cbn [holds] in *. destruct R4 as [H6 H7]. cbn [holds]. right. intros E. assert (DI6 : dinv C c hist (v_dec v6)) by (eapply dinv_hk; [exact H6|exact DI5]). unfold hk in H6. injection H6 as H6a H6b H6c H6d _ _ _ _ _ _ _ _.
    split.
    - split; [apply H7, E|]. split; [exact SG5|]. split; [exact DI6|]. cbn. split; [congruence|]. split; [congruence|]. rewrite H6d. exact HS5.
    - unfold ll in R5. unfold gr in R6. apply (linv_same _ _ _ v5); cbn [v_items v_links v_first v_signing set_v_items]; [exact R7|congruence|congruence|exact HL5]. }
  apply holds_bind. eapply holds_impl; [exact G| |auto]. intros [v7 st7] [H7|H7]; [rewrite H7, orb_true_r; left; exact H7|]. destruct (v_legacy v7) eqn:EL; [rewrite orb_true_r; left; exact EL|]. rewrite orb_false_r.
  destruct (is_ok st7) eqn:ES7; cbn [negb]; [|right; intros ->; discriminate]. assert (st7 = SV_OK) as -> by (destruct st7; try discriminate; reflexivity).
  eapply holds_impl; [apply maybe_both; [exact HG|apply H7; reflexivity]| |auto]. intros [v8 st8] H8. right. exact H8.
Qed.
Lemma h26x_both hist w e d f v : d <> [] -> bytes_ok d -> nalu_golden c d = false -> In d (added hist) -> subseq (map snd w ++ [d]) (added hist) -> both hist w e v ->
  holds (add_h26x C Ov f v d) (fun '(v', st) => v_legacy v' = true \/ (st = SV_OK -> both hist (w ++ [(e, d)]) (next_start c e d) v')) (fun _ => True).
Proof.
  intros HD HB HG HI SG HV1. assert (EC : v_codec v = c) by apply HV1. unfold add_h26x. rewrite EC. apply holds_bind. destruct (parse_nalu d c true true) as [n|] eqn:EP; [|exact I]. cbn [holds]. cbv zeta.
  set (v1 := on_acc _ _). assert (HV2 : both hist w e v1) by exact HV1. clearbody v1. apply holds_bind.
  eapply holds_impl; [apply (body_both hist w e d f v1 n EP HD HB); [unfold nalu_golden in HG; rewrite EP in HG; exact HG|exact HI|exact SG|exact HV2]| |auto]. intros [v2 st] H2.
  destruct (v_legacy v2) eqn:EL; [left; exact EL|]. destruct H2 as [H2|H2]; [congruence|]. set (w2 := w ++ [(e, d)]) in *. set (e2 := next_start c e d) in *. clearbody w2 e2.
  destruct (is_ok st) eqn:ES.
  - assert (st = SV_OK) as -> by (destruct st; try discriminate; reflexivity). specialize (H2 eq_refl). pose proof H2 as [(T2 & SG2 & DI2 & EC2 & EV2 & HS2) HL2].
    apply holds_bind. pose proof (copy_spec C c K HK' hist _ _ (d_algo_known (v_dec v2)) _ _ T2) as H3. pose proof (copy_alike (d_algo_known (v_dec v2)) (v_items v2)) as H4. destruct (copy_last _ _) as [[l st2]|]; [|exact I]. cbn [holds] in *. right. intros ->. change (is_ok SV_OK) with true. cbv iota.
    split; [split; [apply H3; reflexivity|]; split; [exact SG2|]; split; [exact DI2|]; split; [exact EC2|]; split; [exact EV2|exact HS2]|]. apply (linv_same _ _ _ v2); [apply H4; reflexivity|reflexivity|auto|exact HL2].
  - apply holds_bind. destruct (copy_last _ _) as [[l st2]|]; [|exact I]. cbn. right. intros ->. discriminate.
Qed.

(** *** Reports *)
Lemma in_order_lnk hist L Cur Q a b w l a' b' e : trk (tk hist L Cur) (map snd w) l -> lnk (lt Q c) a b w l a' b' e -> in_order c Q w (validation_str l) (nalu_str l).
Proof.
  intros T LN. pose proof (lnk_and _ _ _ _ _ _ _ _ _ (tk_nalu hist L Cur) (lt_nalu Q) T LN) as H. clear T LN. unfold validation_str, nalu_str.
  assert (ONE : forall p d it w l, tk hist L Cur d it /\ lt Q c (p, d) it -> in_order c Q w (map (fun it => stat_char (i_status it)) l) (map (fun it => type_char (i_nalu it)) l) ->
     in_order c Q ((p, d) :: w) (map (fun it => stat_char (i_status it)) (it :: l)) (map (fun it => type_char (i_nalu it)) (it :: l))).
  { clear. intros p d it w l [((n & B1 & B2 & B3 & B4) & _) (_ & P2 & _ & _ & _ & _ & P7)] IH. cbn [map]. constructor 2; [rewrite B1; eapply from_shown, B3| |exact IH]. cbn [fst snd] in *. intros E G. apply P7; [apply stat_valid, E|congruence]. }
  assert (MIS : forall it w l, i_nalu it = None -> In (i_status it) [SMiss; SErr; SUnknown] -> in_order c Q w (map (fun it => stat_char (i_status it)) l) (map (fun it => type_char (i_nalu it)) l) ->
     in_order c Q w (map (fun it => stat_char (i_status it)) (it :: l)) (map (fun it => type_char (i_nalu it)) (it :: l))).
  { clear. intros it w l H1 H2 IH. cbn [map]. rewrite H1. cbn [type_char]. constructor 3; [exact IH|]. destruct H2 as [H2|[H2|[H2|[]]]]; rewrite <- H2; discriminate. }
  induction H as [a b w l e F|a b d it w l a' b' e HP HS T IH|a b d it w l a' b' e HP HS HL HQ T IH|a b it w l a' b' e H1 H2 T IH]; [|apply ONE; assumption|apply ONE; assumption|apply MIS; assumption].
  induction F as [b|b d it w l e HP HS F IH|b it w l e H1 H2 F IH]; [constructor|apply ONE; assumption|apply MIS; assumption].
Qed.
Lemma waiting_map (w : list placed) : forall vs ns, map snd (waiting_from w vs ns) = waiting_from (map snd w) vs ns.
Proof.
  intros vs. revert w. induction vs as [|s vs IH]; intros w [|t ns]; cbn [waiting_from]; try reflexivity. dif; [reflexivity|]. rewrite IH. f_equal. dif; [reflexivity|]. destruct w; reflexivity.
Qed.
Lemma add_both hist w e d f v v' x : d <> [] -> bytes_ok d -> nalu_golden c d = false -> In d (added hist) -> subseq (map snd w ++ [d]) (added hist) -> both hist w e v ->
  add_nalu C Ov f v d true = Def (v', x) ->
  match x with
  | VRes SV_OK None => both hist (w ++ [(e, d)]) (next_start c e d) v'
  | VRes SV_OK (Some p) => in_order c (follows hist) (w ++ [(e, d)]) (l_vstr (p_latest p)) (l_nstr (p_latest p)) /\
      both hist (waiting_from (w ++ [(e, d)]) (l_vstr (p_latest p)) (l_nstr (p_latest p))) (next_start c e d) v'
  | _ => True
  end.
Proof.
  intros HD HB HG HI SG HV1. destruct d as [|d0 d1]; [congruence|]. set (d := d0 :: d1) in *. unfold add_nalu. change (match d with [] => _ | _ => ?k end) with k. cbv zeta.
  set (v1 := create_report (set_v_started true v)).
  assert (HV2 : both hist w e v1 /\ v_report v1 = true).
  { unfold v1, create_report. cbn [v_report set_v_started]. destruct (v_report v) eqn:ER; [split; [exact HV1|exact ER]|]. split; [|reflexivity]. destruct HV1 as [HV1 HL1]. split; [|apply (linv_same _ _ _ v); [apply alikes_refl|reflexivity|auto|exact HL1]].
    apply (inv_ext _ _ _ _ _ v); [reflexivity| |exact HV1]. cbn. apply (dinv_dcore _ _ _ (v_dec v)); [reflexivity|apply HV1]. }
  clearbody v1. destruct HV2 as [HV2 HR1]. destruct (v_legacy v1); [intros E; injection E as <- <-; exact I|].
  pose proof (h26x_both hist w e d f v1 HD HB HG HI SG HV2) as H1. pose proof (add_h26x_fr C Ov f v1 d) as HF. destruct (add_h26x C Ov f v1 d) as [[v2 st]|]; [|discriminate]. cbn [holds obind] in *.
  destruct (v_legacy v2) eqn:EL; [intros E; injection E as <- <-; exact I|]. destruct H1 as [H1|H1]; [congruence|].
  destruct HF as [HF|(F1 & F2 & F3 & F4)]; [congruence|].
  destruct (is_ok st) eqn:ES; cbn [negb]; [|intros E; injection E as <- <-; destruct st; try exact I; discriminate]. assert (st = SV_OK) as -> by (destruct st; try discriminate; reflexivity). specialize (H1 eq_refl). set (w2 := w ++ [(e, d)]) in *. set (e2 := next_start c e d) in *. clearbody w2 e2.
  destruct (v_result v2); [|intros E; injection E as <- <-; exact H1]. cbv zeta. destruct (update_report_latest v2) as (U1 & U2 & U3 & U4 & U5 & U6).
  pose proof H1 as [(T & SG2 & DI & EC & EV & HS) HL2]. destruct (clean_trk _ _ _ _ _ _ _ _ T) as [CT1 CT2].
  assert (EX : (v_dec (update_report v2), v_codec (update_report v2), v_verified (update_report v2), v_signing (update_report v2), (v_links (update_report v2), v_first (update_report v2))) = (v_dec v2, v_codec v2, v_verified v2, v_signing v2, (v_links v2, v_first v2))).
  { unfold update_report. cbv zeta. destruct (clean_up _) as [l k]. repeat dif; reflexivity. }
  injection EX as X1 X2 X3 X4 X5 X6.
  assert (HU : both hist (waiting_from w2 (validation_str (v_items v2)) (nalu_str (v_items v2))) e2 (update_report v2)).
  { split.
    - rewrite waiting_map. split; [rewrite U3; exact CT1|]. split; [eapply subseq_trans; [exact CT2|exact SG2]|]. rewrite X1, X2, X3, X4. split; [exact DI|]. split; [exact EC|]. split; [exact EV|]. intros E. eapply Forall_sub; [exact CT2|auto].
    - destruct HL2 as (a0 & b0 & a & b & L1 & L2 & L3). apply lnk_clean in L1 as (a2 & b2 & L1). exists a2, b2, a, b. rewrite U3, X4, X5, X6. auto. }
  destruct (get_report (update_report v2)) as [v3 r] eqn:EG. intros E. injection E as <- <-. destruct r as [p|].
  - pose proof EG as EG2. apply get_report_strings in EG2 as (G1 & _). rewrite G1, U1, U2. split; [destruct HL2 as (a0 & b0 & a & b & L1 & L2 & L3); eapply in_order_lnk; eassumption|].
    unfold get_report in EG. destruct (negb _); [discriminate|]. injection EG as <- _. destruct HU as [HU HLU]. split; [|apply (linv_same _ _ _ (update_report v2)); [apply alikes_refl|reflexivity|auto|exact HLU]].
    apply (inv_ext _ _ _ _ _ (update_report v2)); [reflexivity| |exact HU]. apply (dinv_dcore _ _ _ (v_dec (update_report v2))); [reflexivity|apply HU].
  - exfalso. unfold get_report in EG. rewrite U4, F2, HR1 in EG. discriminate.
Qed.

(** *** The session *)
Lemma follows_app h h2 q d : follows h q d -> follows (h ++ h2) q d.
Proof.
  intros (s & fs & A1 & A2 & A3 & A4 & A5 & A6). exists s, fs. split; [rewrite added_app, in_app_iff; auto|]. split; [exact A2|]. split; [apply signed_app, A3|]. split; [exact A4|]. split; [|exact A6].
  intros g G1 G2. destruct (A5 g G1 G2) as [H|H]; [left; apply gop_app, H|right]. destruct (last_list fs); [exact H|]. destruct H as (l & L1 & L2). exists l. auto using some_app.
Qed.
Lemma both_app h h2 w e v : both h w e v -> both (h ++ h2) w e v.
Proof.
  intros [HI (a0 & b0 & a & b & L1 & L2 & L3)]. split; [apply inv_app, HI|]. exists a0, b0, a, b. split; [|auto]. eapply lnk_impl; [|exact L1]. intros [p d] it _ (P1 & P2 & P3 & P4 & P5 & P6 & P7). do 6 (split; [assumption|]).
  intros E1 E2. specialize (P7 E1 E2). cbn [fst snd] in *. destruct p; [apply follows_app, P7|exact I].
Qed.
Lemma zero_links : links_are None None (zeros 128).
Proof.
  pose proof (HK _ _ (ok_sha256 C HC)) as EK. exists (zeros 32), (zeros 32), (zeros 64). unfold hash_of. rewrite <- EK. repeat split.
Qed.
Lemma empty_linv hist v : v_items v = [] -> v_links v = zeros 128 -> linv hist [] None v.
Proof. intros E1 E2. exists None, None, None, None. rewrite E1, E2. split; [constructor; constructor|]. split; [apply zero_links|auto]. Qed.
Lemma run_ordered f : forall ops hist w e v v' res, both hist w e v -> Forall asking ops -> Forall of_bytes ops -> Forall (not_golden c) ops ->
  vrun C Ov f v ops = Def (v', res) -> ~ In VLegacy res -> ordered c follows hist e w ops res.
Proof.
  induction ops as [|o ops IH]; intros hist w e v v' res HI HA HB HG; cbn [vrun].
  { intros E. injection E as <- <-. intros _. exact I. }
  destruct (vexec C Ov f v o) as [[v1 x]|] eqn:EX; [|discriminate]. cbn [obind]. destruct (vrun C Ov f v1 ops) as [[v2 xs]|] eqn:ER; [|discriminate]. cbn [obind]. intros E. injection E as <- <-. intros HL.
  apply Forall_cons_iff in HA as [HA0 HA]. apply Forall_cons_iff in HB as [HB0 HB]. apply Forall_cons_iff in HG as [HG0 HG].
  assert (NX : forall w1 e1, both (hist ++ [o]) w1 e1 v1 -> ordered c follows (hist ++ [o]) e1 w1 ops xs) by (intros w1 e1 H; eapply IH; eauto; intros Q; apply HL; right; exact Q). clear IH.
  assert (HI2 : both (hist ++ [o]) w e v) by apply both_app, HI.
  destruct o as [d want|key| |]; cbn [vexec] in EX.
  - cbn [asking of_bytes not_golden] in *. subst want. destruct d as [|d0 d1].
    + cbn in EX. injection EX as <- <-. cbn [ordered]. apply NX, HI2.
    + set (d := d0 :: d1) in *. pose proof HI as [(_ & SG & _) _].
      pose proof (add_both (hist ++ [VAdd d true]) w e d f v v1 x ltac:(discriminate) HB0 HG0) as H.
      rewrite added_app in H. cbn [added flat_map app] in H. specialize (H ltac:(apply in_or_app; right; left; reflexivity) ltac:(apply subseq_grow, SG) HI2 EX).
      cbn [ordered]. cbv zeta. unfold d at 1. destruct x as [st [p|]|]; [| |exact I].
      * destruct st; try exact I. destruct H as [H1 H2]. split; [exact H1|]. apply NX, H2.
      * destruct st; try exact I. apply NX, H.
  - assert (HV1 : both (hist ++ [VSetKey key]) w e v1).
    { assert (SM : linv (hist ++ [VSetKey key]) w e v1).
      { apply (linv_same _ _ _ v); [| | |apply HI2]; revert EX; unfold set_public_key; destruct key as [|k0 k1]; try (destruct (d_pub (v_dec v)); [destruct (v_started v); [|destruct (c_pub_ok C (k0 :: k1))]|]); intros E; injection E as <- <-; auto using alikes_refl. }
      split; [|exact SM]. destruct HI2 as [HI2 _].
      revert EX. unfold set_public_key. destruct key as [|k0 k1]; [intros E; injection E as <- <-; exact HI2|]. set (key := k0 :: k1) in *. destruct (d_pub (v_dec v)); [|intros E; injection E as <- <-; exact HI2].
      destruct (v_started v); [intros E; injection E as <- <-; exact HI2|]. destruct (c_pub_ok C key); intros E; injection E as <- <-.
      - apply (inv_ext _ _ _ _ _ v); [reflexivity| |exact HI2]. cbn. destruct HI2 as (_ & _ & ((D1 & D2 & D3 & D4 & D5) & D6 & D7) & _). split; [|split; [exact D6|exact D7]]. split; [|split; [exact D2|split; [exact D3|split; [exact D4|exact D5]]]].
        cbn. intros k E. injection E as <-. left. exists key. split; [apply in_or_app; right; left; reflexivity|reflexivity].
      - apply (inv_ext _ _ _ _ _ v); [reflexivity| |exact HI2]. cbn. apply (dinv_dcore _ _ _ (v_dec v)); [reflexivity|apply HI2]. }
    cbn [ordered]. apply NX, HV1.
  - injection EX as <- <-. cbn [ordered]. apply NX. split; [|apply empty_linv; reflexivity]. destruct HI2 as [(_ & _ & ((D1 & D2 & D3 & D4 & D5) & D6 & D7) & EC & _) _]. split; [constructor|]. split; [constructor|].
    split; [|split; [exact EC|split; [reflexivity|constructor]]]. cbn. split; [|split; [exact D6|left; reflexivity]]. split; [exact D1|]. split; [exact D2|].
    cbn. assert (EH : h_type (init_hash false (d_handle (v_dec v))) = h_type (d_handle (v_dec v)) /\ h_prim (init_hash false (d_handle (v_dec v))) = h_prim (d_handle (v_dec v))).
    { unfold init_hash, get_ctx. destruct (h_sec _); split; reflexivity. }
    destruct EH as [-> ->]. split; [exact D3|]. split; [exact D4|exact D5].
  - cbn [ordered]. destruct (v_legacy v); [injection EX as <- <-; exfalso; apply HL; left; reflexivity|]. destruct (get_report v) as [v3 r] eqn:EG. injection EX as <- <-. apply NX.
    unfold get_report in EG. destruct (negb (v_report v)); injection EG as <- <-; exact HI2.
Qed.
Lemma session_ordered f ops v res : Forall asking ops -> Forall of_bytes ops -> Forall (not_golden c) ops ->
  vrun C Ov f (vcreate C c) ops = Def (v, res) -> ~ In VLegacy res -> ordered c follows [] None [] ops res.
Proof. intros H1 H2 H3 H4 H5. eapply run_ordered; eauto. split; [apply (create_inv C c K HC)|apply empty_linv; reflexivity]. Qed.
End Round.

(** The central signing thread behaves like a machine with two lists: simulation. *)
From Coq Require Import Permutation.
From Verif Require Import Base BaseProofs Crypto Signer SessProofs PlugTypes Plugin Threaded PlugSpec PlugProofs ThreadSpec ThreadMem.

(** ** The machine with lists *)
Record ares := mkRes { o_id : N; o_hash : list N; o_st : svrc; o_sig : list N }.
Record astate := mkA {
  a_run : bool; a_in : list (N * list N); a_cur : option (N * list N); a_out : list ares;
  a_ids : list N; a_last : N; a_coin : N
}.

Definition some {A} (o : option A) : bool := match o with Some _ => true | None => false end.
Definition not_id (id : N) (j : N * list N) : bool := negb (fst j =? id)%N.
Definition not_oid (id : N) (r : ares) : bool := negb (o_id r =? id)%N.
Definition next_id (ids : list N) (last : N) : out N :=
  find_id (S (length ids)) (Some ids) last (if (u32 (last + 1) =? 0)%N then 1%N else u32 (last + 1)).

Section Sim.
Variable C : crypto.
Variables (key pub : list N) (max hs : nat).
Hypothesis HK : c_priv C key = Some (pub, max).

Definition astep (a : astate) (e : tev) : astate * tres :=
  let '(mkA run ins cur outs ids last coin) := a in
  match e with
  | TInit _ => (a, RInit false)
  | TExit => (mkA false ins cur outs [] last coin, RDone)
  | TJoin => (if run || some cur then a else mkA run [] cur [] ids last coin, RDone)
  | TSetup =>
      if run then
        match next_id ids last with
        | Def id => if (id =? last)%N then (a, RSetup None) else (mkA run ins cur outs (ids ++ [id]) id coin, RSetup (Some id))
        | Undef _ => (a, RSetup None)
        end
      else (a, RSetup None)
  | TTeardown id => (mkA run (filter (not_id id) ins) cur (filter (not_oid id) outs) (remove_id id ids) last coin, RDone)
  | TSign id h =>
      match h with
      | [] => (a, RSign SV_INVALID_PARAMETER)
      | _ =>
          if (60 <=? length ins)%nat then (a, RSign SV_NOT_SUPPORTED)
          else if negb run then (a, RSign SV_EXTERNAL_ERROR)
          else (mkA run (ins ++ [(id, h)]) cur outs ids last coin, RSign SV_OK)
      end
  | TGet id room =>
      if negb run then (a, RGet (mkGres None None SV_EXTERNAL_ERROR))
      else match outs with
           | [] => (a, RGet (mkGres None None SV_OK))
           | r :: outs =>
               if negb (o_id r =? id)%N then (a, RGet (mkGres None None SV_OK))
               else (mkA run ins cur outs ids last coin,
                     RGet (if negb (is_ok (o_st r)) then mkGres (Some 0%nat) None SV_EXTERNAL_ERROR
                           else if (room <? length (o_sig r))%nat then mkGres (Some 0%nat) None SV_INVALID_PARAMETER
                           else mkGres (Some (length (o_sig r))) (Some (o_sig r)) SV_OK))
           end
  | TTake =>
      match run, cur, ins with
      | true, None, j :: ins => (mkA run ins (Some j) outs ids last coin, RDone)
      | _, _, _ => (a, RDone)
      end
  | TFinish =>
      match cur with
      | None => (a, RDone)
      | Some (id, h) =>
          let '(st, sig) := ossl_sign C key max coin h in
          let coin := (coin + 1)%N in
          if negb (existsb (N.eqb id) ids) then (mkA run ins None outs ids last coin, RDone)
          else if (60 <=? length outs)%nat then (mkA run (filter (not_id id) ins) None (filter (not_oid id) outs) ids last coin, RDone)
          else (mkA run ins None (outs ++ [mkRes id h st sig]) ids last coin, RDone)
      end
  end.

(** ** The relation *)
Definition in_rep (h : heap) (s : hslot) (j : N * list N) : Prop :=
  hs_id s = fst j /\ hs_size s = hs /\ length (snd j) = hs /\ exists p, hs_ptr s = Some p /\ nth_error h p = Some (snd j).
Definition out_rep (h : heap) (s : sslot) (r : ares) : Prop :=
  ss_id s = o_id r /\ ss_err s = negb (is_ok (o_st r)) /\
  (is_ok (o_st r) = true -> ss_size s = length (o_sig r) /\ exists p b, ss_ptr s = Some p /\ nth_error h p = Some b /\ firstn (length (o_sig r)) b = o_sig r).

Record bufs (t : tdata) (ins : list (N * list N)) (outs : list ares) : Prop := mkBufs {
  bf_in : exists x y, td_in t = x ++ y /\ (length x + length y = 60)%nat /\ td_in_idx t = length x /\ Forall2 (in_rep (td_heap t)) x ins /\ Forall (fun s => hs_id s = 0%N) y;
  bf_out : exists x y, td_out t = x ++ y /\ (length x + length y = 60)%nat /\ td_out_idx t = length x /\ Forall2 (out_rep (td_heap t)) x outs /\ Forall (fun s => ss_id s = 0%N) y;
  bf_mem : mem_ok hs max (td_heap t) (td_in t) (td_out t);
  bf_ids : Forall (fun j => fst j <> 0%N) ins /\ Forall (fun r => o_id r <> 0%N) outs
}.

Record rel (c : cdata) (a : astate) : Prop := mkRel {
  rl_thread : td_thread (cd_td c) = a_run a;
  rl_run : td_running (cd_td c) = a_run a;
  rl_signing : td_signing (cd_td c) = some (a_cur a);
  rl_ids : cd_ids c = if a_run a then Some (a_ids a) else None;
  rl_ids0 : a_run a = false -> a_ids a = [];
  rl_last : cd_last c = a_last a;
  rl_coin : td_coin (cd_td c) = a_coin a;
  rl_key : a_run a = true \/ a_cur a <> None -> td_key (cd_td c) = Some key;
  rl_hash : forall hh, td_hash (cd_td c) = Some hh -> length hh = hs;
  rl_hash_in : a_in a <> [] -> td_hash (cd_td c) <> None;
  rl_cur : forall id h, a_cur a = Some (id, h) -> cd_cur c = id /\ td_hash (cd_td c) = Some h /\ id <> 0%N;
  rl_bufs : bufs (cd_td c) (a_in a) (a_out a)
}.

Lemma f2_len {A B} (R : A -> B -> Prop) a b : Forall2 R a b -> length a = length b.
Proof. induction 1; cbn; congruence. Qed.
Lemma in_len t ins outs : bufs t ins outs -> td_in_idx t = length ins.
Proof. intros B. destruct (bf_in _ _ _ B) as (x & y & _ & _ & E & F & _). rewrite E. eapply f2_len. exact F. Qed.
Lemma out_len t ins outs : bufs t ins outs -> td_out_idx t = length outs.
Proof. intros B. destruct (bf_out _ _ _ B) as (x & y & _ & _ & E & F & _). rewrite E. eapply f2_len. exact F. Qed.
Lemma in_max t ins outs : bufs t ins outs -> (length ins <= 60)%nat.
Proof. intros B. destruct (bf_in _ _ _ B) as (x & y & _ & L & E & F & _). apply f2_len in F. lia. Qed.
Lemma out_max t ins outs : bufs t ins outs -> (length outs <= 60)%nat.
Proof. intros B. destruct (bf_out _ _ _ B) as (x & y & _ & L & E & F & _). apply f2_len in F. lia. Qed.

Lemma in_rep_agree h h' p a q : agree_but p h h' -> ~ In p (ptrs hs_ptr a) -> Forall2 (in_rep h) a q -> Forall2 (in_rep h') a q.
Proof.
  intros AG NI F. induction F as [|s j a q (H1 & H2 & H3 & p' & E & N) F IH]; constructor.
  - repeat split; try assumption. exists p'. split; [exact E|]. apply AG; [|exact N]. intros ->. apply NI. cbn. rewrite E. left. reflexivity.
  - apply IH. intros H. apply NI. cbn. apply in_or_app. right. exact H.
Qed.
Lemma out_rep_agree h h' p a q : agree_but p h h' -> ~ In p (ptrs ss_ptr a) -> Forall2 (out_rep h) a q -> Forall2 (out_rep h') a q.
Proof.
  intros AG NI F. induction F as [|s j a q (H1 & H2 & H3) F IH]; constructor.
  - split; [exact H1|]. split; [exact H2|]. intros O. destruct (H3 O) as (SZ & p' & b & E & N & X). split; [exact SZ|]. exists p', b. split; [exact E|]. split; [|exact X].
    apply AG; [|exact N]. intros ->. apply NI. cbn. rewrite E. left. reflexivity.
  - apply IH. intros H. apply NI. cbn. apply in_or_app. right. exact H.
Qed.

Lemma ptrs_head {A} (f : A -> option nat) a b p : ~ In p (ptrs f (a ++ b)) -> ~ In p (ptrs f a).
Proof. intros H X. apply H. rewrite ptrs_app. apply in_or_app. left. exact X. Qed.

(** Submitting a hash. *)
Lemma sign_hash_ok t ins outs id h : bufs t ins outs -> id <> 0%N -> h = [] \/ length h = hs -> td_running t = true -> td_key t = Some key ->
  (forall hh, td_hash t = Some hh -> length hh = hs) -> h <> [] -> (length ins < 60)%nat ->
  exists t', sign_hash t id h = Def (t', SV_OK) /\ bufs t' (ins ++ [(id, h)]) outs /\
    td_thread t' = td_thread t /\ td_running t' = td_running t /\ td_signing t' = td_signing t /\ td_key t' = td_key t /\ td_coin t' = td_coin t /\
    td_hash t' = (match td_hash t with Some hh => Some hh | None => Some (zeros hs) end).
Proof.
  intros B NZ HH R K HS NE LT. destruct h as [|h0 hr]; [congruence|]. unfold sign_hash. cbv iota. set (h := h0 :: hr) in *. assert (LH : length h = hs) by (destruct HH as [X|X]; [discriminate|exact X]).
  clearbody h. rewrite (in_len _ _ _ B). change max_buffer with 60%nat. destruct (Nat.leb_spec 60 (length ins)) as [X|_]; [lia|].
  rewrite R. cbn [negb]. rewrite K. destruct (bf_in _ _ _ B) as (x & y & EI & LL & EX & F & Z). pose proof (f2_len _ _ _ F) as LX.
  pose proof (bf_mem _ _ _ B) as M. rewrite EI in M.
  destruct y as [|sl y]; [cbn in LL; lia|]. apply Forall_cons_iff in Z as [Z0 Z].
  set (t1 := match td_hash t with Some _ => t | None => set_td_hash (Some (zeros (length h))) t end).
  assert (T1 : td_in t1 = td_in t /\ td_heap t1 = td_heap t /\ td_out t1 = td_out t /\ td_out_idx t1 = td_out_idx t) by (unfold t1; destruct (td_hash t); cbn; auto).
  destruct T1 as (T1 & T2 & T3 & T4). rewrite T1, EI, <- LX. rewrite at_mid by reflexivity. cbn [obind].
  assert (HB : exists h1 p blk, (match hs_ptr sl with Some _ => (td_heap t1, sl) | None => let '(h2, p) := calloc (td_heap t1) (length h) in (h2, mkHslot (Some p) (length h) (hs_id sl)) end)
      = (h1, mkHslot (Some p) hs 0%N) /\ nth_error h1 p = Some blk /\ length blk = hs /\ mem_ok hs max h1 (x ++ mkHslot (Some p) hs 0%N :: y) (td_out t) /\
      ~ In p (ptrs hs_ptr x) /\ ~ In p (ptrs ss_ptr (td_out t)) /\ Forall2 (in_rep h1) x ins /\ (forall xo, ~ In p (ptrs ss_ptr xo) -> Forall2 (out_rep (td_heap t)) xo outs -> Forall2 (out_rep h1) xo outs)).
  { rewrite T2, LH. destruct (hs_ptr sl) as [p|] eqn:EP.
    - destruct (mem_sep_in _ _ _ _ _ _ _ _ M EP) as (NI & NO & blk & NB & LB & SZ). exists (td_heap t), p, blk.
      assert (ESL : sl = mkHslot (Some p) hs 0%N) by (destruct sl; cbn in *; congruence). rewrite <- ESL. repeat (split; [assumption || reflexivity|]). auto.
    - destruct (calloc (td_heap t) hs) as [h1 p] eqn:EC. destruct (calloc_agree _ _ _ _ EC) as (EPL & NB & AG). exists h1, p, (zeros hs). rewrite Z0. split; [reflexivity|].
      split; [exact NB|]. split; [apply repeat_length|]. pose proof (mem_alloc_in hs max _ _ _ _ _ _ 0%N _ _ M EP EC Z0) as M1. split; [exact M1|].
      destruct (mem_sep_in _ _ _ _ _ _ _ p M1 eq_refl) as (NI & NO & _). split; [exact NI|]. split; [exact NO|].
      split; [eapply in_rep_agree; [apply (AG p)|exact NI|exact F]|]. intros xo NX FO. eapply out_rep_agree; [apply (AG p)|exact NX|exact FO]. }
  destruct HB as (h1 & p & blk & EHB & NB & LB & M1 & NI & NO & F1 & FO1). rewrite EHB. rewrite put_mid by reflexivity. cbn [obind hs_size].
  rewrite LH, Nat.eqb_refl. cbn [negb hs_ptr td_heap set_td_in set_td_heap].
  destruct (store_ok h1 p blk h NB) as (h2 & E2 & N2 & AG2); [lia|]. pose proof (store_shape h1 p blk h h2 NB ltac:(lia) E2) as SH. rewrite E2. cbn [obind td_in set_td_in]. rewrite put_mid by reflexivity. cbn [obind].
  eexists. split; [reflexivity|].
  assert (N3 : nth_error h2 p = Some h) by (rewrite N2, skipn_all2 by lia; rewrite app_nil_r; reflexivity).
  split; [|unfold t1; destruct (td_hash t) eqn:ETH; cbn; rewrite ?LH, ?ETH; repeat split; assumption].
  constructor; cbn [td_in td_in_idx td_out td_out_idx td_heap set_td_in_idx set_td_in set_td_heap].
  - exists (x ++ [mkHslot (Some p) hs id]), y. split; [rewrite <- app_assoc; reflexivity|]. split; [rewrite app_length; cbn in *; lia|]. split; [rewrite app_length; cbn; lia|]. split; [|exact Z].
    apply Forall2_app; [eapply in_rep_agree; eassumption|]. constructor; [|constructor]. repeat split; try assumption. exists p. auto.
  - destruct (bf_out _ _ _ B) as (xo & yo & EO & LO & IO & FO & ZO). exists xo, yo. rewrite T3, T4. repeat (split; [assumption|]). split; [|exact ZO].
    rewrite EO in NO. apply ptrs_head in NO. eapply out_rep_agree; [exact AG2|exact NO|]. apply FO1; assumption.
  - rewrite T3. apply (mem_shape _ _ h1 h2); [exact SH|]. eapply mem_perm; [| |exact M1]; [|reflexivity]. rewrite !map_app. reflexivity.
  - destruct (bf_ids _ _ _ B) as [I1 I2]. split; [|exact I2]. apply Forall_app. split; [exact I1|]. constructor; [exact NZ|constructor].
Qed.

(** Asking for a signature. *)
Lemma get_ok t ins r outs room : bufs t ins (r :: outs) -> td_running t = true ->
  exists t', get_signature t (o_id r) room = Def (t', if negb (is_ok (o_st r)) then mkGres (Some 0%nat) None SV_EXTERNAL_ERROR
                           else if (room <? length (o_sig r))%nat then mkGres (Some 0%nat) None SV_INVALID_PARAMETER
                           else mkGres (Some (length (o_sig r))) (Some (o_sig r)) SV_OK) /\ bufs t' ins outs /\
    td_thread t' = td_thread t /\ td_running t' = td_running t /\ td_signing t' = td_signing t /\ td_key t' = td_key t /\ td_coin t' = td_coin t /\ td_hash t' = td_hash t.
Proof.
  intros B R. unfold get_signature. rewrite R. cbn [negb]. rewrite (out_len _ _ _ B). cbn [length Nat.eqb].
  destruct (bf_out _ _ _ B) as (x & y & EO & LO & IO & F & Z). inversion F as [|sl r' x' outs' (R1 & R2 & R3) F' E1 E2]. subst.
  rewrite EO. cbn [app]. rewrite R1, N.eqb_refl. cbn [negb].
  assert (EG : (if ss_err sl then Def (mkGres (Some 0%nat) None SV_EXTERNAL_ERROR)
      else if (room <? ss_size sl)%nat then Def (mkGres (Some 0%nat) None SV_INVALID_PARAMETER)
      else do x <- load (td_heap t) (ss_ptr sl) (ss_size sl); Def (mkGres (Some (ss_size sl)) (Some x) SV_OK)) =
      Def (if negb (is_ok (o_st r)) then mkGres (Some 0%nat) None SV_EXTERNAL_ERROR
                           else if (room <? length (o_sig r))%nat then mkGres (Some 0%nat) None SV_INVALID_PARAMETER
                           else mkGres (Some (length (o_sig r))) (Some (o_sig r)) SV_OK)).
  { rewrite R2. destruct (is_ok (o_st r)) eqn:EOK; cbn [negb]; [|reflexivity]. destruct (R3 eq_refl) as (SZ & p & b & EP & NB & X). rewrite SZ.
    destruct (room <? length (o_sig r))%nat; [reflexivity|]. rewrite EP.
    assert (LB : (length (o_sig r) <= length b)%nat) by (pose proof (f_equal (@length _) X) as XL; rewrite firstn_length in XL; lia).
    rewrite (load_ok _ _ b _ NB LB). cbn [obind]. rewrite X. reflexivity. }
  rewrite EG. cbn [obind]. eexists. split; [reflexivity|]. split; [|cbn; repeat split; assumption].
  constructor; cbn [td_in td_in_idx td_out td_out_idx td_heap set_td_out_idx set_td_out].
  - exact (bf_in _ _ _ B).
  - exists x', (y ++ [mkSslot (ss_ptr sl) 0 false 0%N]). split; [rewrite <- app_assoc; reflexivity|]. split; [rewrite app_length; cbn in *; lia|]. split; [pose proof (f2_len _ _ _ F'); cbn in *; lia|]. split; [exact F'|].
    apply Forall_app. split; [exact Z|]. constructor; [reflexivity|constructor].
  - eapply mem_perm; [reflexivity| |exact (bf_mem _ _ _ B)]. rewrite EO. cbn [app map]. rewrite !map_app. cbn [map ss_ptr]. apply Permutation_cons_append.
  - destruct (bf_ids _ _ _ B) as [I1 I2]. split; [exact I1|]. inversion I2. assumption.
Qed.

(** Removing everything of a session. *)
Lemma reset_ok t ins outs id : bufs t ins outs -> id <> 0%N ->
  exists t', buffer_reset t id = Def t' /\ bufs t' (filter (not_id id) ins) (filter (not_oid id) outs) /\
    td_thread t' = td_thread t /\ td_running t' = td_running t /\ td_signing t' = td_signing t /\ td_key t' = td_key t /\ td_coin t' = td_coin t /\ td_hash t' = td_hash t.
Proof.
  intros B NZ. unfold buffer_reset. destruct (bf_in _ _ _ B) as (x & y & EI & LL & EX & F & Z). destruct (bf_out _ _ _ B) as (xo & yo & EO & LO & IO & FO & ZO).
  pose proof (purge_ok ss_id (fun s => mkSslot (ss_ptr s) 0 false 0%N) id NZ (fun _ => eq_refl) (2 * max_buffer) xo [] yo ZO) as P1.
  cbn [length app] in P1. rewrite EO, IO. change (0 + length xo)%nat with (length xo) in P1. rewrite P1 by (change max_buffer with 60%nat; lia). cbn [obind].
  pose proof (purge_ok hs_id (set_hs_id 0%N) id NZ (fun _ => eq_refl) (2 * max_buffer) x [] y Z) as P2.
  cbn [length app] in P2. rewrite EI, EX. change (0 + length x)%nat with (length x) in P2. rewrite P2 by (change max_buffer with 60%nat; lia). cbn [obind].
  eexists. split; [reflexivity|]. split; [|cbn; repeat split; assumption].
  constructor; cbn [td_in td_in_idx td_out td_out_idx td_heap set_td_out_idx set_td_out set_td_in set_td_in_idx].
  - eexists _, _. split; [reflexivity|]. split.
    + pose proof (Permutation_length (purge_perm hs_id (set_hs_id 0%N) body id x y (fun s => eq_refl))) as PL. rewrite !map_length, !app_length in PL. rewrite app_length. lia.
    + split; [reflexivity|]. split.
      * apply (filter_rep (in_rep (td_heap t))); [|exact F]. intros s j (H1 & _). unfold other, not_id. rewrite H1. reflexivity.
      * apply Forall_app. split; [exact Z|]. apply Forall_forall. intros s H. apply in_map_iff in H as (s' & <- & _). reflexivity.
  - eexists _, _. split; [reflexivity|]. split.
    + pose proof (Permutation_length (purge_perm ss_id (fun s => mkSslot (ss_ptr s) 0 false 0%N) ss_ptr id xo yo (fun s => eq_refl))) as PL. rewrite !map_length, !app_length in PL. rewrite app_length. lia.
    + split; [reflexivity|]. split.
      * apply (filter_rep (out_rep (td_heap t))); [|exact FO]. intros s j (H1 & _). unfold other, not_oid. rewrite H1. reflexivity.
      * apply Forall_app. split; [exact ZO|]. apply Forall_forall. intros s H. apply in_map_iff in H as (s' & <- & _). reflexivity.
  - eapply mem_perm; [| |exact (bf_mem _ _ _ B)]; rewrite ?EI, ?EO; apply purge_perm; reflexivity.
  - destruct (bf_ids _ _ _ B) as [I1 I2]. split; apply Forall_forall; intros j H; apply filter_In in H as [H _]; rewrite Forall_forall in *; auto.
Qed.

(** Taking a hash. *)
Lemma take_ok t id h ins outs : bufs t ((id, h) :: ins) outs -> (forall hh, td_hash t = Some hh -> length hh = hs) -> td_hash t <> None ->
  exists t', take rotate_central t = Def (t', id) /\ bufs t' ins outs /\
    td_thread t' = td_thread t /\ td_running t' = td_running t /\ td_signing t' = true /\ td_key t' = td_key t /\ td_coin t' = td_coin t /\ td_hash t' = Some h.
Proof.
  intros B HL HN. unfold take. destruct (bf_in _ _ _ B) as (x & y & EI & LL & EX & F & Z). inversion F as [|sl j x' ins' (R1 & R2 & R3 & p & EP & NB) F' E1 E2]. subst.
  cbn [fst snd] in *. rewrite EI. cbn [app]. destruct (td_hash t) as [hh|] eqn:EH; [|congruence]. pose proof (HL hh eq_refl) as LH. rewrite R2, LH, Nat.eqb_refl. cbn [negb].
  rewrite EP. rewrite (load_ok _ _ h _ NB) by lia. cbn [obind]. rewrite firstn_all2 by lia. unfold put_mem. destruct (Nat.leb_spec (length h) (length hh)) as [_|X]; [|lia]. cbn [obind rotate_central].
  rewrite skipn_all2 by lia. rewrite app_nil_r, R1. eexists. split; [reflexivity|]. split; [|cbn; repeat split; assumption].
  constructor; cbn [td_in td_in_idx td_out td_out_idx td_heap set_td_in set_td_in_idx set_td_hash set_td_signing].
  - exists x', (y ++ [set_hs_id 0%N sl]). split; [rewrite <- app_assoc; reflexivity|]. split; [rewrite app_length; cbn in *; lia|]. split; [rewrite EX; cbn; lia|]. split; [exact F'|].
    apply Forall_app. split; [exact Z|]. constructor; [reflexivity|constructor].
  - exact (bf_out _ _ _ B).
  - eapply mem_perm; [|reflexivity|exact (bf_mem _ _ _ B)]. rewrite EI. cbn [app map]. rewrite !map_app. cbn [map]. apply Permutation_cons_append.
  - destruct (bf_ids _ _ _ B) as [I1 I2]. split; [|exact I2]. inversion I1. assumption.
Qed.

(** Storing an outcome. *)
Lemma put_ok t ins outs id h st sig : bufs t ins outs -> id <> 0%N -> (length outs < 60)%nat -> (is_ok st = true -> (length sig <= max)%nat) ->
  exists t', put_out t id st sig max = Def t' /\ bufs t' ins (outs ++ [mkRes id h st sig]) /\
    td_thread t' = td_thread t /\ td_running t' = td_running t /\ td_signing t' = td_signing t /\ td_key t' = td_key t /\ td_coin t' = td_coin t /\ td_hash t' = td_hash t.
Proof.
  intros B NZ LT LS. unfold put_out. destruct (bf_out _ _ _ B) as (x & y & EO & LO & IO & F & Z). pose proof (f2_len _ _ _ F) as LX. rewrite IO, EO.
  pose proof (bf_mem _ _ _ B) as M. rewrite EO in M.
  destruct y as [|sl y]; [cbn in LO; lia|]. apply Forall_cons_iff in Z as [Z0 Z]. rewrite at_mid by reflexivity. cbn [obind ss_ptr].
  set (s0 := mkSslot (ss_ptr sl) (ss_size sl) (negb (is_ok st)) id).
  assert (HB : exists h1 p blk, (match ss_ptr sl with Some _ => (td_heap t, s0) | None => let '(h, p) := calloc (td_heap t) max in (h, set_ss_ptr (Some p) s0) end)
      = (h1, mkSslot (Some p) (ss_size sl) (negb (is_ok st)) id) /\ nth_error h1 p = Some blk /\ length blk = max /\
      mem_ok hs max h1 (td_in t) (x ++ mkSslot (Some p) (ss_size sl) (negb (is_ok st)) id :: y) /\
      ~ In p (ptrs hs_ptr (td_in t)) /\ ~ In p (ptrs ss_ptr x) /\ Forall2 (out_rep h1) x outs /\ (forall xi, ~ In p (ptrs hs_ptr xi) -> Forall2 (in_rep (td_heap t)) xi ins -> Forall2 (in_rep h1) xi ins)).
  { destruct (ss_ptr sl) as [p|] eqn:EP.
    - destruct (mem_sep_out _ _ _ _ _ _ _ _ M EP) as (NI & NO & blk & NB & LB). exists (td_heap t), p, blk. split; [reflexivity|]. repeat (split; [assumption|]).
      split; [|split; [assumption|split; [assumption|split; [assumption|auto]]]]. eapply mem_perm; [reflexivity| |exact M]. rewrite !map_app. cbn [map ss_ptr]. rewrite EP. reflexivity.
    - destruct (calloc (td_heap t) max) as [h1 p] eqn:EC. destruct (calloc_agree _ _ _ _ EC) as (EPL & NB & AG). exists h1, p, (zeros max). split; [reflexivity|].
      split; [exact NB|]. split; [apply repeat_length|]. pose proof (mem_alloc_out hs max _ _ _ _ _ _ _ (ss_size sl) (negb (is_ok st)) id M EP EC) as M1. split; [exact M1|].
      destruct (mem_sep_out _ _ _ _ _ _ _ p M1 eq_refl) as (NI & NO & _). split; [exact NI|]. split; [exact NO|].
      split; [eapply out_rep_agree; [apply (AG p)|exact NO|exact F]|]. intros xi NX FI. eapply in_rep_agree; [apply (AG p)|exact NX|exact FI]. }
  destruct HB as (h1 & p & blk & EHB & NB & LB & M1 & NI & NO & F1 & FI1). rewrite EHB.
  destruct (bf_in _ _ _ B) as (xi & yi & EI & LI & II & FI & ZI). assert (NIX : ~ In p (ptrs hs_ptr xi)) by (rewrite EI in NI; apply ptrs_head in NI; exact NI).
  destruct (bf_ids _ _ _ B) as [I1 I2].
  assert (I3 : Forall (fun r => o_id r <> 0%N) (outs ++ [mkRes id h st sig])) by (apply Forall_app; split; [exact I2|]; constructor; [exact NZ|constructor]).
  destruct (is_ok st) eqn:EOK.
  - specialize (LS eq_refl). cbn [ss_ptr]. destruct (store_ok h1 p blk sig NB) as (h2 & E2 & N2 & AG2); [lia|]. pose proof (store_shape h1 p blk sig h2 NB ltac:(lia) E2) as SH. rewrite E2. cbn [obind]. rewrite put_mid by reflexivity. cbn [obind].
    eexists. split; [reflexivity|]. split; [|cbn; repeat split; assumption].
    constructor; cbn [td_in td_in_idx td_out td_out_idx td_heap set_td_out_idx set_td_out set_td_heap].
    + exists xi, yi. repeat (split; [assumption|]). split; [|exact ZI]. eapply in_rep_agree; [exact AG2|exact NIX|]. apply FI1; assumption.
    + exists (x ++ [set_ss_size (length sig) (mkSslot (Some p) (ss_size sl) (negb true) id)]), y. split; [rewrite <- app_assoc; reflexivity|]. split; [rewrite app_length; cbn in *; lia|]. split; [rewrite app_length; cbn; lia|]. split; [|exact Z].
      apply Forall2_app; [eapply out_rep_agree; eassumption|]. constructor; [|constructor]. split; [reflexivity|]. split; [cbn [o_st]; rewrite EOK; reflexivity|]. intros _. split; [reflexivity|]. eexists p, _. split; [reflexivity|]. split; [exact N2|].
      cbn [o_sig]. rewrite firstn_app, firstn_all, Nat.sub_diag. cbn [firstn]. apply app_nil_r.
    + apply (mem_shape _ _ h1 h2); [exact SH|]. eapply mem_perm; [reflexivity| |exact M1]. rewrite !map_app. reflexivity.
    + split; assumption.
  - cbn [obind]. rewrite put_mid by reflexivity. cbn [obind]. eexists. split; [reflexivity|]. split; [|cbn; repeat split; assumption].
    constructor; cbn [td_in td_in_idx td_out td_out_idx td_heap set_td_out_idx set_td_out set_td_heap].
    + exists xi, yi. repeat (split; [assumption|]). split; [|exact ZI]. apply FI1; assumption.
    + exists (x ++ [mkSslot (Some p) (ss_size sl) (negb false) id]), y. split; [rewrite <- app_assoc; reflexivity|]. split; [rewrite app_length; cbn in *; lia|]. split; [rewrite app_length; cbn; lia|]. split; [|exact Z].
      apply Forall2_app; [exact F1|]. constructor; [|constructor]. split; [reflexivity|]. split; [cbn [o_st]; rewrite EOK; reflexivity|]. cbn [o_st]. rewrite EOK. discriminate.
    + exact M1.
    + split; assumption.
Qed.

(** Changes outside the buffers. *)
Lemma bufs_same t t' ins outs : td_in t' = td_in t -> td_in_idx t' = td_in_idx t -> td_out t' = td_out t -> td_out_idx t' = td_out_idx t -> td_heap t' = td_heap t ->
  bufs t ins outs -> bufs t' ins outs.
Proof. intros E1 E2 E3 E4 E5 [B1 B2 B3 B4]. constructor; rewrite ?E1, ?E2, ?E3, ?E4, ?E5; assumption. Qed.

Lemma bufs_empty t : td_in t = empty_in -> td_in_idx t = 0%nat -> td_out t = empty_out -> td_out_idx t = 0%nat -> bufs t [] [].
Proof.
  intros E1 E2 E3 E4. constructor; rewrite ?E1, ?E2, ?E3, ?E4.
  - exists [], empty_in. split; [reflexivity|]. split; [reflexivity|]. split; [reflexivity|]. split; [constructor|]. apply Forall_forall. intros s H. apply repeat_spec in H. subst s. reflexivity.
  - exists [], empty_out. split; [reflexivity|]. split; [reflexivity|]. split; [reflexivity|]. split; [constructor|]. apply Forall_forall. intros s H. apply repeat_spec in H. subst s. reflexivity.
  - split; [|split; [|split]].
    + replace (ptrs fst (map body empty_in)) with (@nil nat) by reflexivity. replace (ptrs (fun x => x) (map ss_ptr empty_out)) with (@nil nat) by reflexivity. constructor.
    + apply Forall_forall. intros s H p. apply in_map_iff in H as (s' & <- & H). apply repeat_spec in H. subst s'. discriminate.
    + apply Forall_forall. intros s H p. apply in_map_iff in H as (s' & <- & H). apply repeat_spec in H. subst s'. discriminate.
    + apply Forall_forall. intros s H. apply in_map_iff in H as (s' & <- & H). apply repeat_spec in H. subst s'. intros X. cbn in X. congruence.
  - split; constructor.
Qed.
End Sim.

(** The unthreaded plugin is a queue: lemmas. *)
From Coq Require Import Permutation.
From Verif Require Import Base BaseProofs Crypto Types Signer SessProofs PlugTypes Plugin Threaded PlugSpec.

(** ** Arrays and memory *)
Lemma at_mid {A} (a b : list A) x n : length a = n -> at_idx (a ++ x :: b) n = Def x.
Proof. intros <-. unfold at_idx. rewrite nth_error_app2 by lia. rewrite Nat.sub_diag. reflexivity. Qed.
Lemma put_mid {A} (a b : list A) x y n : length a = n -> put_idx (a ++ x :: b) n y = Def (a ++ y :: b).
Proof.
  intros <-. unfold put_idx. destruct (Nat.ltb_spec (length a) (length (a ++ x :: b))) as [_|H]; [|rewrite app_length in H; cbn in H; lia].
  rewrite replace_mid. reflexivity.
Qed.

Definition ptrs {A} (f : A -> option nat) (l : list A) : list nat := flat_map (fun x => match f x with Some p => [p] | None => [] end) l.
Lemma ptrs_app {A} (f : A -> option nat) a b : ptrs f (a ++ b) = ptrs f a ++ ptrs f b.
Proof. apply flat_map_app. Qed.
Lemma ptrs_in {A} (f : A -> option nat) l x p : In x l -> f x = Some p -> In p (ptrs f l).
Proof. intros H E. apply in_flat_map. exists x. rewrite E. split; [exact H|left; reflexivity]. Qed.
Lemma ptrs_ex {A} (f : A -> option nat) l p : In p (ptrs f l) -> exists x, In x l /\ f x = Some p.
Proof. intros H. apply in_flat_map in H as (x & H & E). exists x. split; [exact H|]. destruct (f x) as [q|]; [|destruct E]. destruct E as [->|[]]. reflexivity. Qed.

(** Two memories agree except for block [p]. *)
Definition agree_but (p : nat) (h h' : heap) : Prop := forall j b, j <> p -> nth_error h j = Some b -> nth_error h' j = Some b.

Lemma calloc_agree h n h' p : calloc h n = (h', p) -> p = length h /\ nth_error h' p = Some (zeros n) /\ forall q, agree_but q h h'.
Proof.
  unfold calloc. intros E. injection E as <- <-. split; [reflexivity|]. split.
  - rewrite nth_error_app2 by lia. rewrite Nat.sub_diag. reflexivity.
  - intros q j b _ H. rewrite nth_error_app1; [exact H|]. apply nth_error_Some. congruence.
Qed.

Lemma replace_same {A} (l : list A) i x : (i < length l)%nat -> nth_error (replace_nth i x l) i = Some x.
Proof. revert i. induction l as [|y l IH]; intros [|i] H; cbn in *; try lia; [reflexivity|]. apply IH. lia. Qed.
Lemma replace_other {A} (l : list A) i j x : j <> i -> nth_error (replace_nth i x l) j = nth_error l j.
Proof. revert i j. induction l as [|y l IH]; intros [|i] [|j] H; cbn; try reflexivity; try lia. apply IH. lia. Qed.

Lemma store_ok h p b d : nth_error h p = Some b -> (length d <= length b)%nat ->
  exists h', store h (Some p) d = Def h' /\ nth_error h' p = Some (d ++ skipn (length d) b) /\ agree_but p h h'.
Proof.
  intros E L. unfold store. rewrite E. unfold put_mem. destruct (Nat.leb_spec (length d) (length b)) as [_|]; [|lia]. cbn [obind].
  eexists. split; [reflexivity|]. split.
  - apply replace_same. apply nth_error_Some. congruence.
  - intros j b' N H. rewrite replace_other by exact N. exact H.
Qed.

Lemma load_ok h p b n : nth_error h p = Some b -> (n <= length b)%nat -> load h (Some p) n = Def (firstn n b).
Proof. intros E L. unfold load. rewrite E. unfold take_mem. destruct (Nat.leb_spec n (length b)) as [_|]; [reflexivity|lia]. Qed.

(** All pointers of the array are different and point to blocks of [n] bytes. *)
Definition owned {A} (f : A -> option nat) (n : nat) (h : heap) (l : list A) : Prop :=
  Forall (fun x => forall p, f x = Some p -> exists b, nth_error h p = Some b /\ length b = n) l.
Lemma owned_agree {A} (f : A -> option nat) n h h' p l : agree_but p h h' -> ~ In p (ptrs f l) -> owned f n h l -> owned f n h' l.
Proof.
  intros AG NI O. apply Forall_forall. intros x Hx q E. destruct (proj1 (Forall_forall _ _) O x Hx q E) as (b & H & L).
  exists b. split; [|exact L]. apply AG; [|exact H]. intros ->. apply NI. eapply ptrs_in; eauto.
Qed.

Lemma owned_fresh {A} (f : A -> option nat) n h l : owned f n h l -> ~ In (length h) (ptrs f l).
Proof.
  intros O H. apply ptrs_ex in H as (x & Hx & E). destruct (proj1 (Forall_forall _ _) O x Hx _ E) as (bb & X & _).
  rewrite (proj2 (nth_error_None h (length h))) in X by lia. discriminate.
Qed.

Lemma split_at {A} (l : list A) n : (n < length l)%nat -> exists a x b, l = a ++ x :: b /\ length a = n.
Proof.
  intros H. destruct (nth_error l n) as [x|] eqn:E; [|apply nth_error_None in E; lia].
  apply nth_error_split in E as (a & b & -> & L). eauto.
Qed.

Lemma app_same_len {A} (a b c d : list A) : a ++ b = c ++ d -> length a = length c -> a = c /\ b = d.
Proof. revert c. induction a as [|x a IH]; intros [|y c] E L; cbn in *; try discriminate; [auto|]. injection E as -> E. destruct (IH c E) as [-> ->]; [lia|]. auto. Qed.

(** ** The unthreaded plugin *)
Section Unthreaded.
Variable C : crypto.
Variables (key : list N) (max : nat).

(** An element of the buffer holds [sig]. *)
Definition holds (h : heap) (x : uslot) (sig : list N) : Prop :=
  us_size x = length sig /\ exists p b, us_ptr x = Some p /\ nth_error h p = Some b /\ firstn (length sig) b = sig.

Record urep (u : uplug) (coin : N) (q : list (list N)) : Prop := mkUrep {
  ur_key : u_key u = key; ur_max : u_max u = max; ur_coin : u_coin u = coin;
  ur_len : (length q <= 60)%nat; ur_idx : u_idx u = length q;
  ur_sizes : Forall (fun sig => length sig <= max)%nat q;
  ur_buf : exists a b, u_buf u = a ++ b /\ (length a + length b)%nat = 60%nat /\ Forall2 (holds (u_heap u)) a q;
  ur_nodup : NoDup (ptrs us_ptr (u_buf u));
  ur_owned : owned us_ptr max (u_heap u) (u_buf u)
}.

Lemma setup_rep coin u : usetup C key coin = Some u -> (exists pub, c_priv C key = Some (pub, max)) -> urep u coin [].
Proof.
  unfold usetup. intros E [pub EP]. rewrite EP in E.
  assert (EU : u = mkUplug key max coin 0 (repeat (mkUslot None 0) 60) []) by (destruct key; congruence). subst u. clear E.
  assert (P : ptrs us_ptr (repeat (mkUslot None 0) 60) = []) by reflexivity.
  apply mkUrep; try reflexivity.
  - cbn [length]. lia.
  - constructor.
  - exists [], (repeat (mkUslot None 0) 60). split; [reflexivity|]. split; [reflexivity|constructor].
  - change (NoDup (ptrs us_ptr (repeat (mkUslot None 0) 60))). rewrite P. constructor.
  - apply Forall_forall. intros x Hx p Ep. apply repeat_spec in Hx. subst x. discriminate.
Qed.

Lemma holds_agree h h' p a q : agree_but p h h' -> ~ In p (ptrs us_ptr a) -> Forall2 (holds h) a q -> Forall2 (holds h') a q.
Proof.
  intros AG NI F. induction F as [|x sig a q (HS & p' & b & E & N & X) F IH]; constructor.
  - split; [exact HS|]. exists p', b. split; [exact E|]. split; [|exact X]. apply AG; [|exact N]. intros ->. apply NI. cbn. rewrite E. left. reflexivity.
  - apply IH. intros H. apply NI. cbn. apply in_or_app. right. exact H.
Qed.

(** Signing. *)
Definition qsign (coin : N) (q : list (list N)) (h : list N) : N * list (list N) * svrc :=
  match h with
  | [] => (coin, q, SV_INVALID_PARAMETER)
  | _ =>
      if (60 <=? length q)%nat then (coin, q, SV_NOT_SUPPORTED)
      else let '(st, sig) := ossl_sign C key max coin h in
           if negb (is_ok st) then ((coin + 1)%N, q, st)
           else match sig with [] => ((coin + 1)%N, q, SV_NOT_SUPPORTED) | _ => ((coin + 1)%N, q ++ [sig], SV_OK) end
  end.

Lemma ossl_len coin h sig : ossl_sign C key max coin h = (SV_OK, sig) -> (length sig <= max)%nat /\ c_sign C key coin h = Some sig.
Proof.
  unfold ossl_sign. destruct (c_sign C key coin h) as [s|]; [|discriminate]. destruct (Nat.ltb_spec max (length s)); [discriminate|].
  intros E. injection E as <-. auto.
Qed.

Lemma sign_rep u coin q h : urep u coin q -> let '(coin', q', st) := qsign coin q h in
  exists u', usign C u h = Def (u', st) /\ urep u' coin' q'.
Proof.
  intros [K M CO L IX SZ (a & b & EB & LB & F) ND OW]. unfold qsign, usign. destruct h as [|h0 hr]; [exists u; split; [reflexivity|constructor; eauto]|].
  set (h := h0 :: hr). clearbody h. rewrite IX. change max_plugin_buffer with 60%nat.
  destruct (Nat.leb_spec 60 (length q)) as [|LT]; [exists u; split; [reflexivity|constructor; eauto]|].
  rewrite K, M, CO. destruct (ossl_sign C key max coin h) as [st sig] eqn:ES. cbv zeta.
  assert (LA : length a = length q) by (clear -F; induction F; cbn; congruence).
  destruct (is_ok st) eqn:EO; cbn [negb].
  2:{ eexists. split; [reflexivity|]. constructor; try assumption; try reflexivity. exists a, b. auto. }
  destruct sig as [|s0 sr]; [eexists; split; [reflexivity|]; constructor; try assumption; try reflexivity; exists a, b; auto|].
  set (sig := s0 :: sr) in *. assert (EST : st = SV_OK) by (destruct st; discriminate EO || reflexivity). subst st.
  destruct (ossl_len _ _ _ ES) as [LS _]. clearbody sig.
  destruct b as [|sl b]; [cbn in LB; lia|]. cbn [u_buf set_u_coin u_heap]. rewrite EB. rewrite (at_mid a b sl (length q) LA). cbn [obind].
  rewrite EB in ND, OW. rewrite ptrs_app in ND. cbn [ptrs flat_map] in ND. fold (ptrs us_ptr b) in ND.
  apply Forall_app in OW as [OA OB]. apply Forall_cons_iff in OB as [OX OB]. fold (owned us_ptr max (u_heap u) a) in OA. fold (owned us_ptr max (u_heap u) b) in OB.
  (* the block *)
  assert (HB : exists h1 p blk, (match us_ptr sl with Some p => (u_heap u, p) | None => calloc (u_heap u) (u_max (set_u_coin (coin + 1) u)) end) = (h1, p) /\
     nth_error h1 p = Some blk /\ length blk = max /\ NoDup (ptrs us_ptr a ++ p :: ptrs us_ptr b) /\
     Forall2 (holds h1) a q /\ owned us_ptr max h1 a /\ owned us_ptr max h1 b).
  { destruct (us_ptr sl) as [p|] eqn:EP.
    - destruct (OX p eq_refl) as (blk & N & LK). exists (u_heap u), p, blk. repeat (split; [assumption || reflexivity|]). assumption.
    - cbn [u_max set_u_coin]. rewrite M. destruct (calloc (u_heap u) max) as [h1 p] eqn:EC. destruct (calloc_agree _ _ _ _ EC) as (-> & N & AG).
      exists h1, (length (u_heap u)), (zeros max). split; [reflexivity|]. split; [exact N|]. split; [apply repeat_length|].
      pose proof (owned_fresh _ _ _ _ OA) as NA. pose proof (owned_fresh _ _ _ _ OB) as NB.
      split; [|split; [|split]].
      + cbn [app] in ND. apply NoDup_Add with (a := length (u_heap u)) (l := ptrs us_ptr a ++ ptrs us_ptr b); [apply Add_app|].
        split; [exact ND|]. intros H. apply in_app_or in H as [H|H]; auto.
      + apply (holds_agree (u_heap u) h1 (length (u_heap u))); [apply AG|exact NA|exact F].
      + apply (owned_agree us_ptr max (u_heap u) h1 (length (u_heap u))); [apply AG|exact NA|exact OA].
      + apply (owned_agree us_ptr max (u_heap u) h1 (length (u_heap u))); [apply AG|exact NB|exact OB]. }
  destruct HB as (h1 & p & blk & EHB & NP & LK & ND1 & F1 & OA1 & OB1). rewrite EHB.
  destruct (store_ok h1 p blk sig NP) as (h2 & E2 & N2 & AG2); [lia|]. rewrite E2. cbn [obind].
  rewrite (put_mid a b sl _ (length q) LA). cbn [obind]. eexists. split; [reflexivity|].
  assert (NA : ~ In p (ptrs us_ptr a)). { intros H. apply NoDup_remove_2 in ND1. apply ND1, in_or_app. auto. }
  assert (NB : ~ In p (ptrs us_ptr b)). { intros H. apply NoDup_remove_2 in ND1. apply ND1, in_or_app. auto. }
  constructor; try reflexivity; try assumption.
  - rewrite app_length. cbn [length]. lia.
  - cbn. rewrite app_length. cbn. lia.
  - apply Forall_app. split; [exact SZ|]. constructor; [exact LS|constructor].
  - exists (a ++ [mkUslot (Some p) (length sig)]), b. split; [cbn; rewrite <- app_assoc; reflexivity|]. split; [rewrite app_length; cbn in *; lia|].
    apply Forall2_app; [eapply holds_agree; eauto|]. constructor; [|constructor]. split; [reflexivity|]. exists p, (sig ++ skipn (length sig) blk).
    split; [reflexivity|]. split; [exact N2|]. rewrite firstn_app, firstn_all, Nat.sub_diag. cbn [firstn]. apply app_nil_r.
  - cbn [u_buf set_u_idx set_u_buf]. rewrite ptrs_app. exact ND1.
  - cbn [u_buf set_u_idx set_u_buf u_heap set_u_heap]. apply Forall_app. split; [eapply owned_agree; eauto|]. constructor; [|eapply owned_agree; eauto].
    intros p' E. injection E as <-. eexists. split; [exact N2|]. rewrite app_length, skipn_length. lia.
Qed.

(** Shifting the buffer. *)
Lemma shift_loop_ok l1 : forall pre x l2, shift_loop (length l1) (length pre) (pre ++ x :: l1 ++ l2) = Def (pre ++ l1 ++ last (x :: l1) x :: l2).
Proof.
  induction l1 as [|y l1 IH]; intros pre x l2; [reflexivity|]. cbn [length shift_loop].
  replace (pre ++ x :: (y :: l1) ++ l2) with ((pre ++ [x]) ++ y :: l1 ++ l2) by (rewrite <- app_assoc; reflexivity).
  rewrite at_mid by (rewrite app_length; cbn; lia). cbn [obind].
  rewrite <- app_assoc. cbn [app]. rewrite put_mid by reflexivity. cbn [obind].
  replace (pre ++ y :: y :: l1 ++ l2) with ((pre ++ [y]) ++ y :: l1 ++ l2) by (rewrite <- app_assoc; reflexivity).
  replace (S (length pre)) with (length (pre ++ [y])) by (rewrite app_length; cbn; lia).
  rewrite IH. rewrite <- app_assoc. cbn [app]. f_equal. f_equal. f_equal. f_equal. f_equal.
  destruct l1 as [|z l1]; [reflexivity|]. change (last (x :: y :: z :: l1) x) with (last (z :: l1) x). change (last (y :: z :: l1) y) with (last (z :: l1) y).
  clear. revert z. induction l1; intros; [reflexivity|]. cbn [last] in *. apply IHl1.
Qed.

Lemma shift_rep u coin sig q : urep u coin (sig :: q) -> exists u', shift_out u = Def u' /\ urep u' coin q.
Proof.
  intros [K M CO L IX SZ (a & b & EB & LB & F) ND OW]. inversion F as [|x y a' q' H0 F' E1 E2]. subst.
  assert (LA : length a' = length q) by (clear -F'; induction F'; cbn; congruence).
  unfold shift_out. rewrite IX. cbn [length]. change max_plugin_buffer with 60%nat. destruct (Nat.ltb_spec 60 (S (length q))) as [X|_]; [cbn in L; lia|].
  rewrite EB. cbn [app at_idx nth_error obind]. replace (S (length q) - 1)%nat with (length a') by lia.
  pose proof (shift_loop_ok a' [] x b) as SL. cbn [app length] in SL. rewrite SL. cbn [obind]. rewrite put_mid by reflexivity. cbn [obind].
  eexists. split; [reflexivity|]. inversion SZ; subst.
  assert (PM : Permutation (ptrs us_ptr (u_buf u)) (ptrs us_ptr (a' ++ mkUslot (us_ptr x) 0 :: b))).
  { rewrite EB. unfold ptrs. cbn [app flat_map]. rewrite !flat_map_app. cbn [flat_map us_ptr]. rewrite Permutation_app_comm, <- app_assoc. apply Permutation_app_head. apply Permutation_app_comm. }
  constructor; try reflexivity; try assumption.
  - cbn in L. lia.
  - exists a', (mkUslot (us_ptr x) 0 :: b). split; [reflexivity|]. split; [cbn in *; lia|exact F'].
  - cbn [u_buf set_u_idx set_u_buf]. eapply Permutation_NoDup; eassumption.
  - cbn [u_buf set_u_idx set_u_buf u_heap]. rewrite EB in OW. cbn [app] in OW. apply Forall_cons_iff in OW as [OX OW]. apply Forall_app in OW as [O1 O2].
    apply Forall_app. split; [exact O1|]. constructor; [exact OX|exact O2].
Qed.

Definition qget (q : list (list N)) (room : nat) : list (list N) * option (list N) :=
  match q with [] => ([], None) | sig :: q => (q, if (length sig <=? room)%nat then Some sig else None) end.

Lemma get_rep u coin q room : urep u coin q -> let '(q', r) := qget q room in exists u', uget u room = Def (u', r) /\ urep u' coin q'.
Proof.
  intros R. unfold qget, uget. rewrite (ur_idx _ _ _ R). destruct q as [|sig q]; [exists u; split; [reflexivity|exact R]|].
  change (0 <? length (sig :: q))%nat with true. destruct (shift_rep u coin sig q R) as (u' & ES & R').
  destruct (ur_buf _ _ _ R) as (a & b & EB & LB & F). inversion F as [|x y a' q' (HS & p & blk & EP & N & X) F' E1 E2]. subst.
  rewrite EB. cbn [app]. unfold at_idx. cbn [nth_error obind]. rewrite HS.
  destruct (Nat.leb_spec (length sig) room) as [LE|GT]; destruct (Nat.ltb_spec room (length sig)) as [X1|X1]; try lia.
  - assert (LB2 : (length sig <= length blk)%nat) by (pose proof (f_equal (@length _) X) as XL; rewrite firstn_length in XL; lia).
    rewrite EP, (load_ok _ _ blk _ N LB2). cbn [obind]. rewrite ES. cbn [obind]. rewrite X. exists u'. split; [reflexivity|exact R'].
  - rewrite ES. cbn [obind]. exists u'. auto.
Qed.

(** Whole sessions. *)
Fixpoint qrun (coin : N) (q : list (list N)) (ops : list uop) : list ures :=
  match ops with
  | [] => []
  | USign h :: ops => let '(coin, q, st) := qsign coin q h in RSigned st :: qrun coin q ops
  | UGet room :: ops => let '(q, r) := qget q room in RGot r :: qrun coin q ops
  end.

Lemma run_rep ops : forall u coin q, urep u coin q -> exists u', urun C u ops = Def (u', qrun coin q ops).
Proof.
  induction ops as [|o ops IH]; intros u coin q R; [exists u; reflexivity|]. destruct o as [h|room]; cbn [urun ustep qrun].
  - pose proof (sign_rep u coin q h R) as S1. destruct (qsign coin q h) as [[coin' q'] st]. destruct S1 as (u' & E & R'). rewrite E. cbn [obind].
    destruct (IH u' coin' q' R') as (u2 & E2). rewrite E2. cbn [obind]. eauto.
  - pose proof (get_rep u coin q room R) as S1. destruct (qget q room) as [q' r]. destruct S1 as (u' & E & R'). rewrite E. cbn [obind].
    destruct (IH u' coin q' R') as (u2 & E2). rewrite E2. cbn [obind]. eauto.
Qed.

Lemma qrun_replay ops : forall coin q, (length q <= 60)%nat -> exists sigs, replay C key max q ops sigs (qrun coin q ops).
Proof.
  induction ops as [|o ops IH]; intros coin q L; [exists []; split; [exact L|reflexivity]|]. destruct o as [h|room]; cbn [qrun].
  - unfold qsign. destruct h as [|h0 hr]; [destruct (IH coin q L) as [sigs R]; exists sigs; split; [exact L|]; split; [left; reflexivity|exact R]|].
    set (h := h0 :: hr). destruct (Nat.leb_spec 60 (length q)) as [G|G].
    { destruct (IH coin q L) as [sigs R]. exists sigs. split; [exact L|]. split; [right; left; lia|exact R]. }
    destruct (ossl_sign C key max coin h) as [st sig] eqn:ES. destruct (is_ok st) eqn:EO; cbn [negb].
    + assert (st = SV_OK) by (destruct st; discriminate EO || reflexivity). subst st. destruct (ossl_len _ _ _ ES) as [LS SG].
      destruct sig as [|s0 sr].
      * destruct (IH (coin + 1)%N q L) as [sigs R]. exists sigs. split; [exact L|]. split; [|exact R]. right. right. exists coin. rewrite SG. left. reflexivity.
      * destruct (IH (coin + 1)%N (q ++ [s0 :: sr])) as [sigs R]; [rewrite app_length; cbn; lia|]. exists ((s0 :: sr) :: sigs). split; [exact L|]. split; [exists coin; exact SG|]. split; [exact LS|exact R].
    + destruct (IH (coin + 1)%N q L) as [sigs R]. exists sigs. split; [exact L|].
      assert (NS : not_signed C key max h). { exists coin. unfold ossl_sign in ES. destruct (c_sign C key coin h) as [s|]; [|exact Logic.I]. destruct (Nat.ltb_spec max (length s)); [right; assumption|]. injection ES as <- <-. discriminate. }
      destruct st; try discriminate EO; (split; [right; right; exact NS|exact R]).
  - unfold qget. destruct q as [|sig q].
    + destruct (IH coin [] L) as [sigs R]. exists sigs. split; [exact L|]. split; [reflexivity|exact R].
    + destruct (IH coin q) as [sigs R]; [cbn in L; lia|]. exists sigs. split; [exact L|]. split; [reflexivity|exact R].
Qed.

(** The signing side of the model has the same queue. *)
Lemma signer_same ops : forall s coin q, sc_key (s_cfg s) = Some key -> (exists pub, c_priv C key = Some (pub, max)) -> sc_sig_mem (s_cfg s) = true ->
  r_queue (s_run s) = q -> r_coin (s_run s) = coin -> Forall (fun o => match o with UGet room => room = sc_max_sig (s_cfg s) | _ => True end) ops ->
  signer_plugin C s ops = qrun coin q ops.
Proof.
  induction ops as [|o ops IH]; intros s coin q HK [pub HP] HM HQ HCo HF; [reflexivity|]. apply Forall_cons_iff in HF as [HF0 HF]. destruct o as [h|room]; cbn [signer_plugin qrun].
  - unfold plugin_sign, qsign. rewrite HK, HQ, HCo. destruct h as [|h0 hr]; [f_equal; eauto|]. set (h := h0 :: hr) in *. change max_plugin_buffer with 60%nat.
    destruct (60 <=? length q)%nat; [f_equal; eauto|]. unfold ossl_sign. rewrite HP. destruct (c_sign C key coin h) as [sig|].
    2:{ cbn [negb is_ok svrc_eqb]. f_equal. apply IH; eauto. cbn. rewrite HCo. reflexivity. }
    destruct (max <? length sig)%nat; [cbn [negb is_ok svrc_eqb]; f_equal; apply IH; eauto; cbn; rewrite HCo; reflexivity|].
    cbn [negb is_ok svrc_eqb]. destruct sig as [|s0 sr]; (f_equal; apply IH; eauto; cbn; rewrite ?HCo, ?HQ; reflexivity).
  - subst room. unfold plugin_get, qget. rewrite HK, HM, HQ. cbn [orb negb]. destruct q as [|sig q]; [f_equal; eauto|].
    destruct (Nat.ltb_spec (sc_max_sig (s_cfg s)) (length sig)) as [X|X]; destruct (Nat.leb_spec (length sig) (sc_max_sig (s_cfg s))) as [Y|Y]; try lia; (f_equal; apply IH; eauto).
Qed.
End Unthreaded.

(** ** The statements of PropsPlugin.v *)
Lemma queue_replays C key pub max coin u ops : usetup C key coin = Some u -> c_priv C key = Some (pub, max) ->
  exists u' rs sigs, urun C u ops = Def (u', rs) /\ replay C key max [] ops sigs rs.
Proof.
  intros E P. destruct (run_rep C key max ops u coin [] (setup_rep C key max coin u E (ex_intro _ pub P))) as (u' & R).
  destruct (qrun_replay C key max ops coin []) as (sigs & S1); [cbn; lia|]. eauto.
Qed.
Lemma replay_out C key max ops : forall q sigs rs, replay C key max q ops sigs rs -> Forall (fun sig => length sig <= max)%nat q ->
  Forall (fun o => match o with UGet room => (max <= room)%nat | _ => True end) ops ->
  exists held, given_out rs ++ held = q ++ sigs /\ (length held <= 60)%nat /\ Forall2 (signature_of C key) (submitted ops rs) sigs.
Proof.
  induction ops as [|o ops IH]; intros q sigs rs [L R] F G.
  - destruct rs; [|destruct R]. subst sigs. exists q. rewrite app_nil_r. split; [reflexivity|]. split; [exact L|constructor].
  - apply Forall_cons_iff in G as [G0 G]. destruct o as [h|room]; destruct rs as [|[st|r] rs]; try destruct R.
    + destruct (svrc_eqb st SV_OK) eqn:ES.
      * destruct st; try discriminate ES. destruct sigs as [|sig sigs]; [destruct R|]. destruct R as (S1 & LS & R).
        destruct (IH (q ++ [sig]) sigs rs R) as (held & E & LH & F2); [apply Forall_app; split; [exact F|constructor; [exact LS|constructor]]|exact G|].
        exists held. cbn [given_out submitted]. rewrite <- app_assoc in E. repeat split; try assumption. constructor; assumption.
      * assert (R' : replay C key max q ops sigs rs) by (destruct st; try discriminate ES; apply R).
        destruct (IH q sigs rs R' F G) as (held & E & LH & F2). exists held. repeat split; try assumption. destruct st; try discriminate ES; exact F2.
    + destruct q as [|sig q].
      * destruct R as [-> R]. apply (IH [] sigs rs R F G).
      * destruct R as [-> R]. apply Forall_cons_iff in F as [F0 F]. destruct (Nat.leb_spec (length sig) room) as [_|X]; [|lia].
        destruct (IH q sigs rs R F G) as (held & E & LH & F2). exists held. cbn [given_out app]. rewrite E. auto.
Qed.

Lemma queue_in_order C key pub max coin u ops : usetup C key coin = Some u -> c_priv C key = Some (pub, max) ->
  Forall (fun o => match o with UGet room => (max <= room)%nat | _ => True end) ops ->
  exists u' rs held, urun C u ops = Def (u', rs) /\ Forall2 (signature_of C key) (submitted ops rs) (given_out rs ++ held) /\ (length held <= 60)%nat.
Proof.
  intros E P F. destruct (queue_replays C key pub max coin u ops E P) as (u' & rs & sigs & R & S1).
  destruct (replay_out C key max ops [] sigs rs S1 (Forall_nil _) F) as (held & EH & LH & F2). exists u', rs, held. cbn [app] in EH. rewrite EH. auto.
Qed.
Lemma signer_queue C s key pub max coin u ops : usetup C key coin = Some u -> c_priv C key = Some (pub, max) ->
  sc_key (s_cfg s) = Some key -> sc_sig_mem (s_cfg s) = true -> r_queue (s_run s) = [] -> r_coin (s_run s) = coin ->
  Forall (fun o => match o with UGet room => room = sc_max_sig (s_cfg s) | _ => True end) ops ->
  exists u', urun C u ops = Def (u', signer_plugin C s ops).
Proof.
  intros E P HK HM HQ HC HF. destruct (run_rep C key max ops u coin [] (setup_rep C key max coin u E (ex_intro _ pub P))) as (u' & R).
  exists u'. rewrite R, (signer_same C key max ops s coin [] HK (ex_intro _ pub P) HM HQ HC HF). reflexivity.
Qed.

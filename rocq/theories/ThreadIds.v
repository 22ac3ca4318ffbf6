(** The search for a free session id. *)
From Verif Require Import Base BaseProofs Crypto Signer PlugTypes Plugin Threaded PlugSpec ThreadSpec ThreadSim.
Local Open Scope N_scope.

Definition id_max : N := 4294967295.
Record ids_ok (ids : list N) (last : N) : Prop := mkIdsOk {
  io_nodup : NoDup ids; io_zero : ~ In 0 ids; io_last : last <= id_max; io_first : last = 0 -> ids = []
}.

Lemma nodup_map_on {A B} (f : A -> B) l : NoDup l -> (forall x y, In x l -> In y l -> f x = f y -> x = y) -> NoDup (map f l).
Proof.
  induction 1 as [|x l NI ND IH]; intros H; [constructor|]. cbn. constructor.
  - intros X. apply in_map_iff in X as (y & E & Hy). apply NI. rewrite (H x y); [exact Hy|left; reflexivity|right; exact Hy|congruence].
  - apply IH. intros a b Ha Hb. apply H; right; assumption.
Qed.

Definition succ_id (i : N) : N := if u32 (i + 1) =? 0 then 1 else u32 (i + 1).
(** The id that is tried in round [k]. *)
Definition try_id (last : N) (k : nat) : N := (last - 1 + N.of_nat k) mod id_max + 1.

Lemma try_range last k : 1 <= try_id last k <= id_max.
Proof. unfold try_id, id_max. lia. Qed.
Lemma succ_ok i : 1 <= i <= id_max -> succ_id i = i mod id_max + 1.
Proof. unfold succ_id, u32, id_max. intros H. destruct (N.eqb_spec ((i + 1) mod 4294967296) 0) as [E|E]; lia. Qed.
Lemma succ_try last k : succ_id (try_id last k) = try_id last (S k).
Proof. rewrite succ_ok by apply try_range. unfold try_id, id_max. lia. Qed.
Lemma succ_last last : 1 <= last <= id_max -> succ_id last = try_id last 1.
Proof. intros H. rewrite succ_ok by exact H. unfold try_id, id_max in *. lia. Qed.
Lemma try_last last : 1 <= last <= id_max -> try_id last (N.to_nat id_max) = last.
Proof. intros H. unfold try_id. rewrite N2Nat.id. unfold id_max in *. lia. Qed.
Lemma try_inj last i j : N.of_nat i <= id_max -> N.of_nat j <= id_max -> (1 <= i)%nat -> (1 <= j)%nat -> try_id last i = try_id last j -> i = j.
Proof. unfold try_id, id_max. intros. assert (N.of_nat i = N.of_nat j) by lia. lia. Qed.
Lemma try_all last j : 1 <= last <= id_max -> 1 <= j <= id_max -> exists k, (1 <= k)%nat /\ N.of_nat k <= id_max /\ try_id last k = j.
Proof.
  intros H1 H2. destruct (N.leb_spec j last) as [L|L].
  - exists (N.to_nat (id_max - last + j)). unfold try_id. rewrite N2Nat.id. unfold id_max in *. lia.
  - exists (N.to_nat (j - last)). unfold try_id. rewrite N2Nat.id. unfold id_max in *. lia.
Qed.

Lemma active_in ids id : id <> 0 -> is_active (Some ids) id = true <-> In id ids.
Proof.
  intros NZ. unfold is_active. rewrite existsb_exists. split.
  - intros (x & [X|X] & E); apply N.eqb_eq in E; subst; [congruence|exact X].
  - intros H. exists id. split; [right; exact H|apply N.eqb_refl].
Qed.

Lemma find_ok ids last : ids_ok ids last -> 1 <= last -> forall fuel k, (1 <= k)%nat -> N.of_nat k <= id_max ->
  (forall j, (1 <= j < k)%nat -> In (try_id last j) ids) -> (length ids + 2 <= fuel + k)%nat ->
  exists id, find_id fuel (Some ids) last (try_id last k) = Def id /\ 1 <= id <= id_max /\
    (id <> last -> ~ In id ids) /\ (id = last -> forall j, 1 <= j <= id_max -> j <> last -> In j ids).
Proof.
  intros [ND NZ LM _] L1. induction fuel as [|fuel IH]; intros k K1 KM PR LF.
  - (* pigeonhole *)
    exfalso. assert (D : NoDup (map (try_id last) (seq 1 (k - 1)))).
    { apply nodup_map_on; [apply seq_NoDup|]. intros x y Hx Hy. apply in_seq in Hx, Hy. apply try_inj; lia. }
    assert (I1 : incl (map (try_id last) (seq 1 (k - 1))) ids). { intros x Hx. apply in_map_iff in Hx as (j & <- & Hj). apply in_seq in Hj. apply PR. lia. }
    pose proof (NoDup_incl_length D I1) as X. rewrite map_length, seq_length in X. lia.
  - cbn [find_id]. pose proof (try_range last k) as TR. destruct (is_active (Some ids) (try_id last k)) eqn:EA; cbn [andb].
    2:{ exists (try_id last k). split; [reflexivity|]. split; [exact TR|]. split.
        - intros _ H. apply active_in in H; [congruence|lia].
        - intros EL j J1 J2. destruct (try_all last j ltac:(lia) J1) as (kj & A1 & A2 & A3). rewrite <- A3. apply PR.
          assert (k = N.to_nat id_max) by (apply (try_inj last); [exact KM|rewrite N2Nat.id; lia|exact K1|unfold id_max; lia|rewrite EL; symmetry; apply try_last; lia]).
          assert (kj <> k) by (intros ->; congruence). lia. }
    apply active_in in EA; [|lia]. destruct (N.eqb_spec (try_id last k) last) as [EL|NL]; cbn [negb].
    + exists (try_id last k). split; [reflexivity|]. split; [exact TR|]. split; [congruence|].
      intros _ j J1 J2. destruct (try_all last j ltac:(lia) J1) as (kj & A1 & A2 & A3). rewrite <- A3. apply PR.
      assert (k = N.to_nat id_max) by (apply (try_inj last); [exact KM|rewrite N2Nat.id; lia|exact K1|unfold id_max; lia|rewrite EL; symmetry; apply try_last; lia]).
      assert (kj <> k) by (intros ->; congruence). lia.
    + assert (KN : k <> N.to_nat id_max) by (intros ->; apply NL, try_last; lia).
      assert (ES : (if u32 (try_id last k + 1) =? 0 then u32 (u32 (try_id last k + 1) + 1) else u32 (try_id last k + 1)) = try_id last (S k)).
      { rewrite <- succ_try. unfold succ_id. destruct (N.eqb_spec (u32 (try_id last k + 1)) 0) as [E0|_]; [rewrite E0|]; reflexivity. }
      cbv zeta. rewrite ES. apply IH; [lia|lia| |lia].
      intros j Hj. destruct (Nat.eq_dec j k) as [->|]; [exact EA|]. apply PR. lia.
Qed.

Lemma next_ok ids last : ids_ok ids last -> exists id, next_id ids last = Def id /\ 1 <= id <= id_max /\
    (id <> last -> ~ In id ids) /\ (id = last -> forall j, 1 <= j <= id_max -> j <> last -> In j ids).
Proof.
  intros I0. unfold next_id. fold (succ_id last). destruct (N.eq_dec last 0) as [->|NZ].
  - rewrite (io_first _ _ I0 eq_refl). exists 1. split; [reflexivity|]. split; [unfold id_max; lia|]. split; [intros _ []|discriminate].
  - pose proof (io_last _ _ I0). rewrite succ_last by lia. apply find_ok; [exact I0|lia|lia|unfold id_max; lia|lia|lia].
Qed.

Lemma remove_in id l x : In x (remove_id id l) -> In x l.
Proof. induction l as [|y l IH]; [intros []|]. cbn. destruct (y =? id); [right; assumption|]. intros [->|H]; [left; reflexivity|right; auto]. Qed.
Lemma remove_nodup id l : NoDup l -> NoDup (remove_id id l).
Proof. induction 1 as [|y l NI ND IH]; [constructor|]. cbn. destruct (y =? id); [exact ND|]. constructor; [|exact IH]. intros H. apply NI. eapply remove_in. exact H. Qed.
Lemma remove_filter id l : NoDup l -> remove_id id l = filter (fun j => negb (j =? id)) l.
Proof.
  induction 1 as [|y l NI ND IH]; [reflexivity|]. cbn. destruct (N.eqb_spec y id) as [->|NE]; cbn [negb]; [|rewrite IH; reflexivity].
  clear -NI. induction l as [|z l IH]; [reflexivity|]. cbn. destruct (N.eqb_spec z id) as [->|]; [destruct NI; left; reflexivity|]. cbn [negb]. f_equal. apply IH. intros H. apply NI. right. exact H.
Qed.
Lemma ids_remove ids last id : ids_ok ids last -> ids_ok (remove_id id ids) last.
Proof.
  intros [N1 Z L F]. constructor; [apply remove_nodup; exact N1| |exact L|].
  - intros H. apply Z. eapply remove_in. exact H.
  - intros E. rewrite (F E). reflexivity.
Qed.
Lemma ids_add ids last id : ids_ok ids last -> 1 <= id <= id_max -> ~ In id ids -> ids_ok (ids ++ [id]) id.
Proof.
  intros [N1 Z L F] R NI. constructor; [|  |lia|lia].
  - pose proof (Add_app id ids []) as A. rewrite app_nil_r in A. apply (NoDup_Add A). split; assumption.
  - intros H. apply in_app_or in H as [H|[H|[]]]; [auto|lia].
Qed.

(** Lemmas about emulation prevention. *)
From Verif Require Import Base BaseProofs Epb.
Local Open Scope N_scope.

(** History after a raw byte string. *)
Definition hist (lt : N) (l : list N) : N := fold_left lt_push l lt.
Arguments hist : simpl never.

Lemma hist_app lt a b : hist lt (a ++ b) = hist (hist lt a) b.
Proof. apply fold_left_app. Qed.

Lemma lt_push_lt lt b : lt_push lt b < 65536.
Proof. unfold lt_push. apply N.mod_lt; lia. Qed.

Lemma hist_lt lt l : lt < 65536 -> hist lt l < 65536.
Proof. revert lt; induction l as [|b l IH]; intros lt H; [exact H|]. apply IH, lt_push_lt. Qed.

Lemma write_bytes_app epb lt a b :
  write_bytes epb lt (a ++ b) =
  (fst (write_bytes epb (fst (write_bytes epb lt a)) b),
   snd (write_bytes epb lt a) ++ snd (write_bytes epb (fst (write_bytes epb lt a)) b)).
Proof.
  revert lt; induction a as [|x a IH]; intros lt; cbn [app write_bytes].
  - cbn. destruct (write_bytes epb lt b); reflexivity.
  - destruct (write_byte epb lt x) as [lt1 o1]. rewrite IH.
    destruct (write_bytes epb lt1 a) as [lt2 o2]; cbn [fst snd].
    rewrite app_assoc. reflexivity.
Qed.

Lemma write_byte_hist epb lt b : fst (write_byte epb lt b) = hist lt (snd (write_byte epb lt b)).
Proof. unfold write_byte. destruct (epb && (b <? 4) && (lt =? 0)); reflexivity. Qed.

Lemma write_bytes_hist epb lt l : fst (write_bytes epb lt l) = hist lt (snd (write_bytes epb lt l)).
Proof.
  revert lt; induction l as [|b l IH]; intros lt; [reflexivity|]. cbn [write_bytes].
  pose proof (write_byte_hist epb lt b) as H1.
  destruct (write_byte epb lt b) as [lt1 o1]; cbn in H1.
  specialize (IH lt1). destruct (write_bytes epb lt1 l) as [lt2 o2]; cbn [fst snd] in *.
  rewrite hist_app, <- H1. exact IH.
Qed.

Lemma write_bytes_plain lt l : write_bytes false lt l = (hist lt l, l).
Proof.
  revert lt; induction l as [|b l IH]; intros lt; [reflexivity|]. cbn [write_bytes write_byte andb].
  rewrite IH. reflexivity.
Qed.

Lemma write_bytes_ok epb lt l : bytes_ok l -> bytes_ok (snd (write_bytes epb lt l)).
Proof.
  revert lt; induction l as [|b l IH]; intros lt H; [constructor|]. cbn [write_bytes].
  inversion H as [|? ? Hb Hl]; subst.
  destruct (write_byte epb lt b) as [lt1 o1] eqn:E.
  specialize (IH lt1 Hl). destruct (write_bytes epb lt1 l) as [lt2 o2]; cbn in *.
  apply bytes_ok_app; split; [|exact IH].
  unfold write_byte in E. destruct (epb && (b <? 4) && (lt =? 0)); injection E as <- <-.
  - repeat constructor; assumption.
  - repeat constructor; assumption.
Qed.

(** ** Round trip *)
Lemma lt_push_0 b : byte_ok b -> lt_push 0 b = b.
Proof. unfold byte_ok, lt_push. intros; rewrite N.mod_small; lia. Qed.

Lemma read_write_byte epb lt b r : byte_ok b ->
  read_byte epb lt (snd (write_byte epb lt b) ++ r) = Def (b, fst (write_byte epb lt b), r).
Proof.
  intros Hb. unfold write_byte, read_byte.
  destruct epb; cbn [andb]; [|reflexivity].
  destruct (N.ltb_spec b 4) as [H4|H4]; cbn [andb].
  - destruct (N.eqb_spec lt 0) as [->|H0]; cbn [andb fst snd app].
    + cbn. reflexivity.
    + rewrite andb_false_r. reflexivity.
  - cbn [fst snd app]. destruct (N.eqb_spec b 3); [lia|]. reflexivity.
Qed.

Lemma read_write_bytes epb lt l r : bytes_ok l ->
  read_bytes epb (length l) lt (snd (write_bytes epb lt l) ++ r) = Def (l, fst (write_bytes epb lt l), r).
Proof.
  revert lt; induction l as [|b l IH]; intros lt H; [reflexivity|].
  inversion H as [|? ? Hb Hl]; subst. cbn [write_bytes length read_bytes].
  pose proof (fun r => read_write_byte epb lt b r Hb) as HR.
  destruct (write_byte epb lt b) as [lt1 o1]. cbn [fst snd] in HR.
  specialize (IH lt1 Hl). destruct (write_bytes epb lt1 l) as [lt2 o2]. cbn [fst snd] in *.
  rewrite <- app_assoc, HR. cbn [obind]. rewrite IH. reflexivity.
Qed.

(** A reader may start with another history as long as the last byte of both is not zero. *)
Lemma write_bytes_safe epb lt1 lt2 l : bytes_ok l ->
  lt1 < 65536 -> lt2 < 65536 -> lt1 mod 256 <> 0 -> lt2 mod 256 <> 0 ->
  snd (write_bytes epb lt1 l) = snd (write_bytes epb lt2 l).
Proof.
  intros Hok H1 H2 S1 S2. destruct epb; [|rewrite !write_bytes_plain; reflexivity].
  destruct l as [|b l]; [reflexivity|].
  cbn [write_bytes]. unfold write_byte.
  destruct (N.eqb_spec lt1 0) as [E|_]; [subst; cbn in S1; lia|].
  destruct (N.eqb_spec lt2 0) as [E|_]; [subst; cbn in S2; lia|].
  rewrite !andb_false_r.
  assert (G : forall l a c, bytes_ok l -> a < 65536 -> c < 65536 -> a mod 256 = c mod 256 ->
            (a = c \/ (a <> 0 /\ c <> 0)) ->
            snd (write_bytes true a l) = snd (write_bytes true c l)).
  { clear. induction l as [|b l IH]; intros a c Hok Ha Hc Hm Hd; [reflexivity|].
    destruct Hd as [->|[Na Nc]]; [reflexivity|]. inversion Hok; subst.
    cbn [write_bytes]. unfold write_byte.
    destruct (N.eqb_spec a 0); [lia|]. destruct (N.eqb_spec c 0); [lia|]. rewrite !andb_false_r.
    assert (E : lt_push a b = lt_push c b).
    { unfold lt_push. unfold byte_ok in *. lia. }
    rewrite E. destruct (write_bytes true (lt_push c b) l); reflexivity. }
  inversion Hok as [|? ? Hb Hl]; subst.
  assert (P1 : lt_push lt1 b <> 0) by (unfold lt_push, byte_ok in *; lia).
  assert (P2 : lt_push lt2 b <> 0) by (unfold lt_push, byte_ok in *; lia).
  pose proof (G l (lt_push lt1 b) (lt_push lt2 b) Hl (lt_push_lt _ _) (lt_push_lt _ _)) as E.
  assert (M : lt_push lt1 b mod 256 = lt_push lt2 b mod 256) by (unfold lt_push; lia).
  specialize (E M (or_intror (conj P1 P2))).
  destruct (write_bytes true (lt_push lt1 b) l), (write_bytes true (lt_push lt2 b) l); cbn in *.
  congruence.
Qed.

(** ** No start code emulation *)
Fixpoint ok_from (lt : N) (l : list N) : Prop :=
  match l with
  | [] => True
  | b :: r => ~ (lt = 0 /\ b < 3) /\ ok_from (lt_push lt b) r
  end.

Lemma ok_from_app lt a b : ok_from lt (a ++ b) <-> ok_from lt a /\ ok_from (hist lt a) b.
Proof.
  revert lt; induction a as [|x a IH]; intros lt; cbn [app ok_from]; [cbn; tauto|].
  rewrite IH. cbn [hist fold_left]. unfold hist. tauto.
Qed.

Lemma write_bytes_ok_from lt l : bytes_ok l -> ok_from lt (snd (write_bytes true lt l)).
Proof.
  revert lt; induction l as [|b l IH]; intros lt H; [exact I|]. inversion H as [|? ? Hb Hl]; subst.
  cbn [write_bytes]. pose proof (write_byte_hist true lt b) as Hh.
  destruct (write_byte true lt b) as [lt1 o1] eqn:E. cbn [fst snd] in Hh. specialize (IH lt1 Hl).
  destruct (write_bytes true lt1 l) as [lt2 o2]; cbn [snd] in *.
  apply ok_from_app. rewrite <- Hh. split; [|exact IH].
  unfold write_byte in E. cbn [andb] in E.
  destruct ((b <? 4) && (lt =? 0)) eqn:C; injection E as <- <-; cbn [ok_from].
  - apply andb_prop in C as [C1 C2]. apply N.eqb_eq in C2. subst lt. cbn. repeat split; lia.
  - split; [|exact I]. intros [-> H3]. rewrite N.eqb_refl, andb_true_r in C. lia.
Qed.

(** The specification: no 00 00 00 / 00 00 01 / 00 00 02 anywhere. *)
Definition no_emulation (l : list N) : Prop :=
  forall pre x post, l = pre ++ [0; 0; x] ++ post -> ~ x < 3.

Lemma ok_from_no_emulation lt l : ok_from lt l -> no_emulation l.
Proof.
  intros H pre x post E Hx. subst l.
  apply ok_from_app in H as [_ H]. cbn [app ok_from] in H.
  destruct H as (_ & _ & H & _). apply H. split; [|exact Hx].
  unfold lt_push. lia.
Qed.

(** ** Expansion bound *)
Lemma write_bytes_expansion_pot lt l : bytes_ok l -> lt < 65536 ->
  2 * nlen (snd (write_bytes true lt l)) <=
  3 * nlen l + (if lt =? 0 then 2 else if lt mod 256 =? 0 then 1 else 0).
Proof.
  intros Hok Hlt.
  assert (G : forall l lt, bytes_ok l -> lt < 65536 ->
    2 * nlen (snd (write_bytes true lt l)) + (if lt =? 0 then 0 else if lt mod 256 =? 0 then 1 else 2)
      <= 3 * nlen l + 2).
  { clear. induction l as [|b l IH]; intros lt Hok Hlt.
    - cbn. destruct (lt =? 0); [lia|]. destruct (lt mod 256 =? 0); lia.
    - inversion Hok as [|? ? Hb Hl]; subst. cbn [write_bytes].
      unfold write_byte. cbn [andb].
      destruct ((b <? 4) && (lt =? 0)) eqn:C.
      + apply andb_prop in C as [C1 C2]. apply N.eqb_eq in C2. subst lt.
        specialize (IH (lt_push (lt_push 0 3) b) Hl (lt_push_lt _ _)).
        destruct (write_bytes true (lt_push (lt_push 0 3) b) l) as [lt2 o2]; cbn [snd] in *.
        unfold nlen in *. rewrite app_length. cbn [length].
        assert (NZ : lt_push (lt_push 0 3) b <> 0) by (unfold lt_push, byte_ok in *; lia).
        destruct (N.eqb_spec (lt_push (lt_push 0 3) b) 0); [contradiction|].
        destruct (N.eqb_spec 0 0); [|lia].
        destruct (lt_push (lt_push 0 3) b mod 256 =? 0); lia.
      + specialize (IH (lt_push lt b) Hl (lt_push_lt _ _)).
        destruct (write_bytes true (lt_push lt b) l) as [lt2 o2]; cbn [snd] in *.
        unfold nlen in *. rewrite app_length. cbn [length].
        destruct (N.eqb_spec lt 0) as [->|Hn].
        * rewrite andb_true_r in C.
          rewrite lt_push_0 in IH by assumption.
          destruct (N.eqb_spec b 0); [subst; cbn in C; discriminate|].
          unfold byte_ok in Hb. destruct (N.eqb_spec (b mod 256) 0); lia.
        * destruct (N.eqb_spec (lt mod 256) 0) as [Hm|Hm].
          -- destruct (N.eqb_spec (lt_push lt b) 0) as [Hp|Hp]; [lia|].
             destruct (N.eqb_spec (lt_push lt b mod 256) 0); lia.
          -- assert (Hp : lt_push lt b <> 0) by (unfold lt_push, byte_ok in *; lia).
             destruct (N.eqb_spec (lt_push lt b) 0) as [|_]; [contradiction|].
             destruct (N.eqb_spec (lt_push lt b mod 256) 0); lia. }
  specialize (G l lt Hok Hlt).
  destruct (lt =? 0); [|destruct (lt mod 256 =? 0)]; lia.
Qed.

Lemma write_bytes_longer epb lt l : nlen l <= nlen (snd (write_bytes epb lt l)).
Proof.
  unfold nlen. revert lt; induction l as [|b l IH]; intros lt; cbn [write_bytes]; [cbn; lia|].
  destruct (write_byte epb lt b) as [lt1 o1] eqn:E. specialize (IH lt1).
  destruct (write_bytes epb lt1 l) as [lt2 o2]; cbn [snd] in *. rewrite app_length.
  unfold write_byte in E. destruct (epb && (b <? 4) && (lt =? 0)); injection E as <- <-; cbn [length]; lia.
Qed.

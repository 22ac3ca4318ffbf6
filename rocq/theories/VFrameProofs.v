(** What adding a NALU to a validating session leaves alone: lemmas. *)
From Verif Require Import Base BaseProofs Nalu Crypto Types Hash Tlv TlvProofs SignerProofs VTypes NaluList Validator VListProofs.
Local Open Scope N_scope.

(** The members of a session that validation does not touch. *)
Definition fr (v : valid) : codec * bool * bool * accum * bool :=
  (v_codec v, v_report v, v_started v, v_acc v, v_legacy v).

Create HintDb frame.
Global Hint Extern 1 (fr _ = _) => eassumption : frame.

(** One step through the code of a function. *)
Ltac fr_step :=
  cbv zeta;
  match goal with
  | |- holds (let '(_, _) := ?p in _) _ _ => is_var p; destruct p
  | H : (let '(_, _) := ?p in _) |- _ => is_var p; destruct p
  | |- holds (Def _) _ _ => cbn [holds]
  | |- holds (Undef _) _ _ => exact I
  | |- holds (obind (obind _ _) _) _ _ => rewrite obind_assoc
  | |- holds (obind (Def _) _) _ _ => cbn [obind]
  | |- holds (obind (Undef _) _) _ _ => exact I
  | |- holds (obind (match ?x with _ => _ end) _) _ _ => destruct x
  | |- holds (obind ?x _) _ _ => apply holds_bind; eapply holds_impl; [solve [eauto 3 with frame]| |exact (fun _ h => h)]; intros; cbv beta in *
  | |- holds (obind ?x _) _ _ => destruct x; cbn [obind]
  | |- holds (match ?x with _ => _ end) _ _ =>
      match x with
      | context [match ?y with _ => _ end] => lazymatch y with context [match _ with _ => _ end] => fail | _ => destruct y end
      | _ => destruct x
      end
  | |- holds _ _ _ => eapply holds_impl; [solve [eauto 3 with frame]| |exact (fun _ h => h)]; intros; cbv beta in *
  end.
Ltac fr_done := first [assumption | repeat brk; assumption].
Ltac fr_go := repeat fr_step; try fr_done.

Section Fns.
Variable C : crypto.
Variable Ov : ovf.

Lemma detect_lost_fr k v : fr v = k -> holds (detect_lost Ov v) (fun v' => fr v' = k) (fun _ => True).
Proof. intros H. unfold detect_lost. fr_go. Qed.
Hint Resolve detect_lost_fr : frame.
Lemma decode_sei_fr k v n : fr v = k -> holds (decode_sei C Ov v n) (fun '(v', _) => fr v' = k) (fun _ => True).
Proof. intros H. unfold decode_sei. fr_go. Qed.
Hint Resolve decode_sei_fr : frame.
Lemma update_links_fr k v h : fr v = k -> holds (update_links v h) (fun v' => fr v' = k) (fun _ => True).
Proof. intros H. unfold update_links. fr_go. Qed.
Hint Resolve update_links_fr : frame.
Lemma update_link_fr k v : fr v = k -> holds (update_link v) (fun v' => fr v' = k) (fun _ => True).
Proof. intros H. unfold update_link. fr_go. Qed.
Hint Resolve update_link_fr : frame.
Lemma prepare_gop_fr k v : fr v = k -> holds (prepare_gop C v) (fun '(v', _) => fr v' = k) (fun _ => True).
Proof. intros H. unfold prepare_gop. fr_go. Qed.
Hint Resolve prepare_gop_fr : frame.
Lemma verify_without_fr k v : fr v = k -> holds (verify_without v) (fun '(v', _) => fr v' = k) (fun _ => True).
Proof. intros H. unfold verify_without. fr_go. Qed.
Hint Resolve verify_without_fr : frame.
Lemma verify_list_fr k v o : fr v = k -> holds (verify_list v o) (fun '(v', _, _, _) => fr v' = k) (fun _ => True).
Proof. intros H. unfold verify_list. fr_go. Qed.
Hint Resolve verify_list_fr : frame.
Lemma verify_with_fr k v : fr v = k -> holds (verify_with v) (fun '(v', _, _, _) => fr v' = k) (fun _ => True).
Proof. intros H. unfold verify_with. fr_go. Qed.
Hint Resolve verify_with_fr : frame.
Lemma validate_fr k v : fr v = k -> holds (validate v) (fun v' => fr v' = k) (fun _ => True).
Proof. intros H. unfold validate. fr_go. Qed.
Hint Resolve validate_fr : frame.
Lemma verify_hash_fr k v : fr v = k -> fr (fst (verify_hash C v)) = k.
Proof. intros H. unfold verify_hash. fr_go. Qed.
Lemma prepare_fr k v : fr v = k -> holds (prepare C Ov v) (fun '(v', _) => fr v' = k) (fun _ => True).
Proof.
  intros H. unfold prepare. fr_go.
  all: match goal with |- context [verify_hash C ?w] => pose proof (verify_hash_fr k w ltac:(assumption)); destruct (verify_hash C w); assumption end.
Qed.
Hint Resolve prepare_fr : frame.
Lemma hash_item_fr k v it : fr v = k -> holds (hash_item C v it) (fun '(v', _, _) => fr v' = k) (fun _ => True).
Proof. intros H. unfold hash_item. fr_go. Qed.
Hint Resolve hash_item_fr : frame.
Lemma prepare_golden_fr k v l it : fr v = k -> holds (prepare_golden C Ov v l it) (fun '(v', _) => fr v' = k) (fun _ => True).
Proof. intros H. unfold prepare_golden. fr_go. Qed.
Hint Resolve prepare_golden_fr : frame.
Lemma recurrent_fr k v : fr v = k -> holds (recurrent_decoded C v) (fun '(v', _) => fr v' = k) (fun _ => True).
Proof. intros H. unfold recurrent_decoded. fr_go. Qed.
Hint Resolve recurrent_fr : frame.
Lemma has_pending_fr v : fr (fst (has_pending v)) = fr v.
Proof. unfold has_pending. destruct (pending_loop _ _ _). reflexivity. Qed.
Lemma validate_loop_fr k f : forall v stop, fr v = k -> holds (validate_loop C Ov f v stop) (fun '(v', _) => fr v' = k) (fun _ => True).
Proof.
  induction f as [|f IH]; intros v stop H; cbn [validate_loop]; pose proof (has_pending_fr v) as E;
    destruct (has_pending v) as [v1 found]; cbn [fst] in E; rewrite H in E.
  { dif; [exact E|exact I]. }
  destruct (_ || _); [exact E|]. cbv zeta. apply holds_bind.
  eapply holds_impl; [apply (prepare_fr k)| |auto]. { destruct (v_result v1); exact E. }
  intros [v3 st] H3. destruct (negb (is_ok st)); [exact H3|].
  apply holds_bind. eapply holds_impl; [apply (update_link_fr k), H3| |auto]. intros v4 H4.
  apply holds_bind. eapply holds_impl; [|intros v5 H5; apply IH; exact H5|auto].
  destruct (v_signing v4); [apply validate_fr, H4|exact H4].
Qed.
Hint Resolve validate_loop_fr : frame.
Lemma maybe_validate_fr k f v n : fr v = k -> holds (maybe_validate C Ov f v n) (fun '(v', _) => fr v' = k) (fun _ => True).
Proof. intros H. unfold maybe_validate. fr_go. Qed.
Hint Resolve maybe_validate_fr : frame.
Lemma register_fr k v n : fr v = k -> holds (register C v n) (fun '(v', _, _) => fr v' = k) (fun _ => True).
Proof. intros H. unfold register. fr_go. Qed.
Hint Resolve register_fr : frame.
Lemma rehash_fr k l : forall v st, fr v = k -> holds (rehash C v l st) (fun '(v', _, _) => fr v' = k) (fun _ => True).
Proof. induction l as [|it l IH]; intros v st H; cbn [rehash]; fr_go. Qed.
Hint Resolve rehash_fr : frame.
Lemma reregister_fr k v : fr v = k -> holds (reregister C v) (fun '(v', _) => fr v' = k) (fun _ => True).
Proof. intros H. unfold reregister. fr_go. Qed.
Hint Resolve reregister_fr : frame.
Lemma add_body_fr k f v n : fr v = k -> holds (add_body C Ov f v n) (fun '(v', _) => v_legacy v' = true \/ fr v' = k) (fun _ => True).
Proof.
  intros H. unfold add_body. destruct (_ <? 0)%Z; [right; exact H|]. cbv zeta. apply holds_bind.
  eapply holds_impl; [apply (register_fr k); exact H| |auto]. intros [[v1 it] st] H1.
  destruct (negb (is_ok st)); [right; exact H1|]. apply holds_bind.
  match goal with |- holds ?x _ _ => assert (G : holds x (fun '(v', _) => v_legacy v' = true \/ fr v' = k) (fun _ => True)) end.
  { dif; [|right; exact H1]. apply holds_bind. eapply holds_impl; [apply (recurrent_fr k); exact H1| |auto]. intros [v2 b] H2.
    destruct (negb b); [right; exact H2|]. apply holds_bind.
    assert (G : holds (if n_golden n then prepare_golden C Ov (on_dec (set_d_algo_known true) v2) (v_items v) it else Def (on_dec (set_d_algo_known true) v2, SV_OK))
       (fun '(v', _) => fr v' = k) (fun _ => True)).
    { dif; [apply prepare_golden_fr|]; exact H2. }
    eapply holds_impl; [exact G| |auto]. intros [v3 st3] H3. destruct (negb (is_ok st3)); [right; exact H3|].
    destruct (_ && _); [left; reflexivity|]. eapply holds_impl; [apply (reregister_fr k), H3| |auto]. intros [v4 st4] H4. right. exact H4. }
  eapply holds_impl; [exact G| |auto]. intros [v3 st3] H3.
  destruct (v_legacy v3) eqn:EL; [rewrite orb_true_r; left; exact EL|]. destruct H3 as [H3|H3]; [congruence|].
  destruct (_ || _); [right; exact H3|]. eapply holds_impl; [apply (maybe_validate_fr k), H3| |auto]. intros [v4 st4] H4. right. exact H4.
Qed.
Definition bump (v : valid) : accum := set_a_recv (u32 (a_recv (v_acc v) + 1)) (v_acc v).
Lemma add_h26x_fr f v d : holds (add_h26x C Ov f v d)
  (fun '(v', _) => v_legacy v' = true \/ (v_codec v' = v_codec v /\ v_report v' = v_report v /\ v_started v' = v_started v /\ v_acc v' = bump v)) (fun _ => True).
Proof.
  unfold add_h26x. destruct (parse_nalu _ _ _ _) as [n|]; [|exact I]. cbn [obind]. cbv zeta. apply holds_bind.
  eapply holds_impl; [apply add_body_fr; reflexivity| |auto]. intros [v1 st] H1.
  destruct (v_legacy v1) eqn:EL; [left; exact EL|]. destruct H1 as [H1|H1]; [congruence|]. unfold fr in H1. cbn in H1.
  destruct (copy_last _ _) as [[l cst]|]; [|exact I]. cbn. right.
  injection H1 as E1 E2 E3 E4 _. auto.
Qed.
End Fns.

(** What a report says of a GOP that did not arrive as it was signed, when the SEI lists the hash of every NALU:
    vocabulary. *)
From Verif Require Import Base Nalu Crypto Types CodecSpec SeiSpec Signer SignSpec GopSpec VTypes NaluList Validator MatchSpec E2eSpec DamageSpec.
Local Open Scope N_scope.

(** Which of [got] are authentic, if [sent] was signed: those that occur in [sent] after the last one that was found
    authentic. *)
Inductive told_apart {A} : list A -> list A -> list bool -> Prop :=
| apart_nil sent : told_apart sent [] []
| apart_good s1 x s2 got bs : ~ In x s1 -> told_apart s2 got bs -> told_apart (s1 ++ x :: s2) (x :: got) (true :: bs)
| apart_bad sent x got bs : ~ In x sent -> told_apart sent got bs -> told_apart sent (x :: got) (false :: bs).

(** The character for an authentic NALU is '.', that for a modified or added one 'N'. *)
Definition shown_as (b : bool) : N := if b then 46 else 78.
Definition wrong (bs : list bool) : nat := length (filter negb bs).

(** The report tells the NALUs of the GOP apart: each of those that arrived is shown as it should be, in order ('N' is shown
    for nothing else). If none is wrong then the number of 'M's is the number of NALUs that were lost, and the verdict is
    OK or OK_WITH_MISSING_INFO. Otherwise it is NOT_OK. *)
Definition tells (sent got : list (list N)) (p : report) : Prop :=
  exists bs, told_apart sent got bs /\
    l_recv (p_latest p) = Z.of_nat (length got) /\ l_exp (p_latest p) = Z.of_nat (length sent) /\
    subseq (map shown_as bs) (l_vstr (p_latest p)) /\ times 78 (l_vstr (p_latest p)) = wrong bs /\
    (wrong bs <> O -> l_auth (p_latest p) = NotOk) /\
    (wrong bs = O -> (length got + times 77 (l_vstr (p_latest p)) = length sent)%nat /\
       l_auth (p_latest p) = if (length got <? length sent)%nat then OkMissing else AuthOk).

(** The SEI of a GOP lists the hashes of all its NALUs: frame level, no limit on the size of the SEI, and not more than
    19200 bytes of hashes. *)
Definition lists (C : crypto) (w : settings) (sent : list (list N)) : Prop :=
  w_frame w = true /\ w_max w = 0 /\ N.of_nat (oid_size C (w_oid w)) * nlen sent <= 19200.
(** Two different strings with the same hash, among those hashed for the GOP: two NALUs, each hashed together with the
    first one, or the concatenated hashes of all NALUs. *)
Definition clash (H : list N -> list N) (sent got : list (list N)) : Prop :=
  (exists x0 a b, hd_error sent = Some x0 /\ In a got /\ In b sent /\ a <> b /\ H (H x0 ++ H a) = H (H x0 ++ H b)) \/
  (concat (hashes H got) <> concat (hashes H sent) /\ H (concat (hashes H got)) = H (concat (hashes H sent))).

(** The report tells the NALUs of a GOP apart if the GOP begins with the NALU it was signed with, and so did the GOP
    before, if it arrived. *)
Definition hears (C : crypto) (w : settings) (sent got : list (list N)) (sent_before got_before : option (list N))
    (p : report) : Prop :=
  lists C w sent -> hd_error got = hd_error sent -> got_before = sent_before \/ got_before = None ->
  tells sent got p \/ clash (c_hash C (w_oid w)) sent got.
(** Every SEI is answered with a report for which [R] holds. *)
Fixpoint closes (R : list (list N) -> list (list N) -> option (list N) -> option (list N) -> report -> Prop)
    (l : list event) (rs : list vres) : Prop :=
  match l, rs with
  | [], [] => True
  | Seen _ :: l, _ :: rs => closes R l rs
  | Closed _ sent got sb gb _ :: l, r :: rs => (exists q, r = VRes SV_OK (Some q) /\ R sent got sb gb q) /\ closes R l rs
  | _, _ => False
  end.

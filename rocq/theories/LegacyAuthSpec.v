(** Vocabulary for: what is reported authentic in a recording of an older version is authentic. The rest is in
    AuthSpec.v. *)
From Verif Require Import Base Nalu Crypto Types VTypes Validator AuthSpec.
From Verif Require LegacySpec.
Local Open Scope N_scope.

Section OldEvidence.
Variable C : crypto.
Variable c : codec.

(** [x] is a hash of the NALU [d]: its own, or, if [d] is no SEI, that of a reference [r] and its own. *)
Definition old_hash (d x : list N) : Prop :=
  exists b oid, hashed c d b /\ digest C oid /\
    (x = c_hash C oid b \/ sv_sei c d = false /\ exists r, length r = oid_size C oid /\ x = c_hash C oid (r ++ c_hash C oid b)).
(** The hash in the memory of the session; digests have 32 bytes. *)
Definition old_known (d x : list N) : Prop := known_hash 32 old_hash d x.
(** The hashes [xs] are hashes of NALUs added. *)
Definition of_added (hist : list vop) (xs : list (list N)) : Prop :=
  Forall (fun x => length x = 32%nat /\ exists e, In e (added hist) /\ old_known e x) xs.
(** [h] is the hash chained over hashes of NALUs added, of which one is that of [d]. *)
Definition in_chain (hist : list vop) (h d : list N) : Prop :=
  exists oid xs x, digest C oid /\ h = LegacySpec.chained (c_hash C oid) xs /\ of_added hist xs /\ In x xs /\ old_known d x.
(** A hash of [d] is one of the hashes of the list [l]. *)
Definition in_old_list (l d : list N) : Prop :=
  exists A x b, l = concat A ++ x ++ b /\ Forall (fun y => length y = length x) A /\ length x = 32%nat /\ old_known d x.

(** Why [d] is authentic: a signature that came with the video verifies over a hash [h], with a public key that was set
    by the user or came with the video. [h] is the hash of [d], if that is a SEI; or it is chained over hashes of NALUs added, of
    which one is that of [d]; or it is the hash of a SEI [s], and a hash of [d] is in the list of hashes of [s] or, if [s] has
    none, in that of some other SEI. *)
Definition old_vouched (hist : list vop) (d : list N) : Prop :=
  In d (added hist) /\ exists key sig h, key_seen c hist key /\ seen c hist sig /\ c_verify C key sig h = 1%Z /\
    (sv_sei c d = true /\ old_known d h \/ in_chain hist h d \/
     exists s fs, In s (added hist) /\ sv_sei c s = true /\ old_known s h /\ sei_fields c s fs /\
       match last_list fs with Some l => in_old_list l d | None => exists l, some_list c hist l /\ in_old_list l d end).

(** *** Hashes and bytes, with one digest [oid] of 32 bytes *)
Variable oid : list N.
Notation H := (c_hash C oid).
(** What is hashed for the NALU [d]: its bytes and, unless it is a SEI, a reference with their hash. *)
Definition old_fed (d y : list N) : Prop :=
  exists b, hashed c d b /\ (y = b \/ sv_sei c d = false /\ exists r, length r = 32%nat /\ y = r ++ H b).
(** The NALU [d] hits the hash [x0] of the NALU [d0], as in AuthSpec.v. *)
Definition old_hit (d d0 x0 : list N) : Prop :=
  x0 = zeros 32 \/ exists u v, old_fed d0 u /\ old_fed d v /\ u <> v /\ H u = H v /\ (H u = x0 \/ hashed c d0 u).
(** What is hashed while hashes are chained. *)
Definition link (xs : list (list N)) (u : list N) : Prop :=
  u = [1] \/ exists a x b, xs = a ++ x :: b /\ u = LegacySpec.chained H a ++ x.
(** While hashes of NALUs added are chained, something else is hashed than for [xs0], with the same result. *)
Definition chain_hit (hist : list vop) (xs0 : list (list N)) : Prop :=
  exists xs u v, of_added hist xs /\ link xs0 u /\ link xs v /\ u <> v /\ H u = H v.
End OldEvidence.

(** A NALU that was added was not refused. *)
Definition taken (o : vop) (st : svrc) : Prop := match o with VAdd (_ :: _) _ => st = SV_OK | _ => True end.

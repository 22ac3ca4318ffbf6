(** Conditions on signing sessions and what a SEI says, independent of the signer's internals. *)
From Verif Require Import Base Nalu Crypto Types Tlv CodecSpec SeiSpec Signer.
Local Open Scope N_scope.

(** Arguments a C caller can pass: a timestamp is an int64_t, product information consists of five C
    strings. A private key has to be usable. *)
Definition op_ok (C : crypto) (o : sop) : Prop :=
  match o with
  | OAdd _ (Some t) _ => (-9223372036854775808 <= t < 9223372036854775808)%Z
  | OProduct l => length l = 5%nat /\
      Forall (fun x => match x with Some s => Forall (fun b => 0 < b < 256) s | None => True end) l
  | OKey pem => pem <> [] /\ exists pub m, c_priv C pem = Some (pub, S m)
  | _ => True
  end.

(** The private key and the emulation prevention setting are only changed when no SEI can wait for
    its signature: after creation, or after SEIs were asked for and before the next NALU is added. *)
Fixpoint settled (clean : bool) (ops : list sop) : Prop :=
  match ops with
  | [] => True
  | o :: r =>
      match o with
      | OAdd _ _ _ | OGolden => settled false r
      | OGet _ _ | OPrepend => settled true r
      | OKey _ | OEpb _ => clean = true /\ settled clean r
      | _ => settled clean r
      end
  end.

(** The GOP counter in the metadata of a SEI: bytes 1 to 4 of the field with tag 1. *)
Definition sei_counter (fs : list (N * list N)) : option N :=
  match find (fun f => fst f =? 1) fs with
  | Some (_, v) => Some (value_of (firstn 4 (skipn 1 v)))
  | None => None
  end.

(** The SEIs handed out in a session, in order. *)
Definition returned (rs : list sres) : list (list N) :=
  filter (fun x => match x with [] => false | _ => true end) (map rs_sei rs).

(** Signing a digest with a usable key always gives a signature that fits. *)
Definition signing_works (C : crypto) : Prop :=
  forall key pub max coin oid n d, c_priv C key = Some (pub, max) -> c_oid C oid = OidDigest n ->
    exists b sig, c_sign C key coin (c_hash C oid d) = Some (b :: sig) /\ (length (b :: sig) <= max)%nat.

(** [x] is a SEI with the metadata [fs] and the signature [sig], which was made of its own content with
    the private key [key] and the hash algorithm [oid]. [max] is the largest size of a signature made
    with that key. *)
Definition signed_sei (C : crypto) (c : codec) (x : list N) (epb golden : bool) (fs : list (N * list N))
    (max : nat) (key : list N) (oid : list N) (sig : list N) : Prop :=
  x = sei c epb golden (fs ++ [(5, sig_value max sig)]) /\ meta_ok fs /\ nlen (wires fs) < 2 ^ 20 /\
  (exists pub, c_priv C key = Some (pub, max)) /\ N.of_nat max + 5 < 2 ^ 16 /\
  bytes_ok sig /\ sig <> [] /\ (length sig <= max)%nat /\
  exists coin, c_sign C key coin (c_hash C oid (signed_part c epb golden fs (5, sig_value max sig))) = Some sig.
Definition well_signed (C : crypto) (c : codec) (x : list N) : Prop :=
  exists epb golden fs max key oid sig, signed_sei C c x epb golden fs max key oid sig.

(** The ways in which a SEI can reach the validator unchanged: as it is, or, if the signer was told to
    leave emulation prevention out, with the escapes that others add after the start code. *)
Definition delivered (epb : bool) (x y : list N) : Prop :=
  y = x \/ (epb = false /\ y = firstn 4 x ++ esc 0 (skipn 4 x)).

(** The escapes in front of the signature are fewer than the bytes of the signature field. *)
Definition few_escapes (epb : bool) (fs : list (N * list N)) (max : nat) : Prop :=
  epb = true -> nlen (esc 0 (wires fs)) < nlen (wires fs) + 8 + N.of_nat max.

(** NALUs a validator can be given without harm: vocabulary. *)
From Verif Require Import Base Nalu Crypto Types CodecSpec SeiSpec SignSpec GopSpec VTypes NaluList Validator ValidSpec VReset.
Local Open Scope N_scope.

(** The fields that are not in every SEI: public key, product information, hash algorithm. *)
Definition recurrent_field (f : N * list N) : Prop := fst f = 2 \/ fst f = 3 \/ fst f = 7.

(** A field in the format of this version, whatever it says: general information with two hashes of the right size; a
    public key that can be read; the five strings of the product information; a list of hashes; arbitrary data; the hash
    algorithm [oid]. *)
Definition formed_field (C : crypto) (oid : list N) (f : N * list N) : Prop :=
  (fst f = 1 /\ exists a ts link gop, snd f = 3 :: a ++ ts ++ link ++ gop /\ length a = 9%nat /\
     (ts = [0] \/ exists t, length t = 8%nat /\ ts = 1 :: t) /\
     length link = oid_size C oid /\ length gop = oid_size C oid) \/
  (fst f = 2 /\ exists key, snd f = 2 :: key /\ key <> [] /\ c_pub_ok C key = true) \/
  (fst f = 3 /\ exists l, snd f = 1 :: flat_map prod_string l /\ length l = 5%nat /\ Forall (Forall (fun b => 0 < b < 256)) l) \/
  (fst f = 4 /\ exists l, snd f = 1 :: l /\ nlen l <= 19200) \/
  (fst f = 6 /\ exists a, snd f = 1 :: a /\ a <> []) \/
  (fst f = 7 /\ snd f = [1; nlen oid] ++ oid).

(** A SEI that consists of such fields and a signature, which need not be right. If it has any of the fields that are not
    in every SEI, then it names the hash algorithm. It arrives as it was made, or with the escapes that others add, and
    then it has some of these fields. A public key in it is one of [K], and the size of the
    signature field is one of [M]. *)
Definition key_in (K : list N -> Prop) (f : N * list N) : Prop := fst f = 2 -> exists key, snd f = 2 :: key /\ K key.
Definition formed_sei_of (K : list N -> Prop) (M : nat -> Prop) (C : crypto) (c : codec) (oid : list N) (y : list N) : Prop :=
  exists epb fs max sig, let x := sei c epb false (fs ++ [(5, sig_value max sig)]) in
    (y = x \/ (epb = false /\ y = firstn 4 x ++ esc 0 (skipn 4 x) /\ Exists recurrent_field fs)) /\
    meta_ok fs /\ Forall (formed_field C oid) fs /\ (Exists recurrent_field fs -> In 7 (map fst fs)) /\
    nlen (wires fs) < 2 ^ 20 /\ N.of_nat max + 5 < 2 ^ 16 /\ bytes_ok sig /\ (length sig <= max)%nat /\ few_escapes epb fs max /\
    Forall (key_in K) fs /\ M max.
Definition formed_sei := formed_sei_of (fun _ => True) (fun _ => True).

(** The user adds such a SEI or a NALU that is no Signed Video SEI; sets a key only if the hash algorithm is the default
    one, which the validator assumes until a SEI names another; or makes any other call. *)
Definition harmless_of (K : list N -> Prop) (M : nat -> Prop) (C : crypto) (c : codec) (oid : list N) (o : vop) : Prop :=
  match o with
  | VAdd d _ => nlen d < 2 ^ 63 /\ (other_nalu c d \/ formed_sei_of K M C c oid d)
  | VSetKey key => oid = sha256_der /\ K key
  | VReset | VGetReport => True
  end.
Definition harmless := harmless_of (fun _ => True) (fun _ => True).

(** Vocabulary for: what is reported authentic is authentic. *)
From Verif Require Import Base Nalu Crypto Types CodecSpec VTypes NaluList Validator ValidSpec MatchSpec.
Local Open Scope N_scope.

(** The NALUs added in a session. *)
Definition added (hist : list vop) : list (list N) :=
  flat_map (fun o => match o with VAdd d _ => [d] | _ => [] end) hist.

(** A NALU is a Signed Video SEI; it is the first NALU of a GOP. *)
Definition sv_sei (c : codec) (d : list N) : bool :=
  match parse_nalu d c true true with Def n => n_gop_sei n | Undef _ => false end.
Definition starts_gop (c : codec) (d : list N) : bool :=
  match parse_nalu d c true true with Def n => n_first_in_gop n | Undef _ => false end.
(** The bytes of a NALU that are hashed: of a picture all but start code and trailing zeros (C11), of a SEI those
    before the signature field (C08). *)
Definition hashed (c : codec) (d b : list N) : Prop :=
  exists n n2, parse_nalu d c true true = Def n /\ update_hashable n = Def n2 /\ hash_input n2 = Def b.

(** The memory with the metadata of a SEI and their size: the memory of the SEI, or a copy of just the metadata. *)
Definition tlv_of (c : codec) (d mem : list N) (size : N) : Prop :=
  exists n, parse_nalu d c true true = Def n /\ n_gop_sei n = true /\ size = n_tlv_size n /\
    (mem = n_tlv_mem n \/ mem = firstn (N.to_nat size) (n_tlv_mem n)).
(** Going through metadata field by field: tag, length in one or two bytes, value. [rem] bytes are left. *)
Inductive walk : list N -> N -> list (N * list N) -> list N -> N -> Prop :=
| walk_nil p rem : walk p rem [] p rem
| walk_cons tag len p rem fs r rem2 :
    length len = wire_width tag ->
    walk (skipn (N.to_nat (value_of len)) p) (rem - (1 + N.of_nat (wire_width tag)) - value_of len) fs r rem2 ->
    walk (tag :: len ++ p) rem ((tag, firstn (N.to_nat (value_of len)) p) :: fs) r rem2.
(** The fields of a SEI, to the end. *)
Definition sei_fields (c : codec) (d : list N) (fs : list (N * list N)) : Prop :=
  exists mem size rest, tlv_of c d mem size /\ walk mem size fs rest 0.
(** The list of hashes in the last field HASH_LIST (4), after the version byte. *)
Fixpoint last_list (fs : list (N * list N)) : option (list N) :=
  match fs with
  | [] => None
  | (t, v) :: r => match last_list r with Some l => Some l | None => if t =? 4 then Some (tl v) else None end
  end.
(** The GOP hash in the last field GENERAL (1) of version 3: version, counter (4 bytes), number of NALUs (2), version of
    the signer (3), flags, if the first bit is set a time (8), then linked hash and GOP hash of the same length. *)
Definition gop_in (v : list N) : list N :=
  let u := if nth 10 v 0 mod 2 =? 1 then 19%nat else 11%nat in skipn (u + (length v - u) / 2) v.
Definition link_in (v : list N) : list N :=
  let u := if nth 10 v 0 mod 2 =? 1 then 19%nat else 11%nat in firstn ((length v - u) / 2) (skipn u v).
Fixpoint last_gop (fs : list (N * list N)) : option (list N) :=
  match fs with
  | [] => None
  | (t, v) :: r =>
      match last_gop r with
      | Some g => Some g
      | None => if (t =? 1) && (hd 0 v =? 3) then Some (gop_in v) else None
      end
  end.
(** Likewise the linked hash. *)
Fixpoint last_link (fs : list (N * list N)) : option (list N) :=
  match fs with
  | [] => None
  | (t, v) :: r =>
      match last_link r with
      | Some g => Some g
      | None => if (t =? 1) && (hd 0 v =? 3) then Some (link_in v) else None
      end
  end.

(** A piece of a byte string. *)
Definition piece (x m : list N) : Prop := exists a b, m = a ++ x ++ b.
(** Bytes taken from a SEI that was added; a public key set by the user or taken from a SEI. *)
Definition seen (c : codec) (hist : list vop) (x : list N) : Prop :=
  exists s mem size, In s (added hist) /\ tlv_of c s mem size /\ piece x mem.
Definition key_seen (c : codec) (hist : list vop) (k : list N) : Prop :=
  (exists r, In (VSetKey r) hist /\ r = k) \/ seen c hist k.
(** A list of hashes in some SEI that was added. *)
Definition some_list (c : codec) (hist : list vop) (l : list N) : Prop :=
  exists s mem size fs p rem v, In s (added hist) /\ tlv_of c s mem size /\ walk mem size fs p rem /\ In (4, v :: l) fs.

Section Evidence.
Variable C : crypto.
Variable c : codec.
(** Hashes are compared in their first [K] bytes, [K] being at most the size of any digest: the SEIs can change the
    digest, and with it the size, in the middle of a session. *)
Variable K : nat.

Definition agree (x y : list N) : Prop := firstn K x = firstn K y.
Definition digest (oid : list N) : Prop := exists n, c_oid C oid = OidDigest n.
Definition digest_size (n : nat) : Prop := exists oid, c_oid C oid = OidDigest n.

(** [x] is the hash of the picture NALU [d]: for the first NALU of a GOP its own hash, otherwise the hash of a reference
    [r] and its own hash. *)
Definition picture_hash (d x : list N) : Prop :=
  exists b oid, hashed c d b /\ digest oid /\
    if starts_gop c d then x = c_hash C oid b
    else exists r, length r = oid_size C oid /\ x = c_hash C oid (r ++ c_hash C oid b).
(** [x] is the hash of the SEI [s]. *)
Definition sei_hash (s x : list N) : Prop := exists b oid, hashed c s b /\ digest oid /\ x = c_hash C oid b.
(** The hash in the memory of the session: it may never have been computed, and then is zero. *)
Definition known_hash (h : list N -> list N -> Prop) (d x : list N) : Prop :=
  exists y, (h d y \/ y = zeros 64) /\ agree x y.

(** A signature of the SEI [s] was verified with a public key that was set by the user or came with the video. *)
Definition signed (hist : list vop) (s : list N) : Prop :=
  exists key sig h, key_seen c hist key /\ seen c hist sig /\ known_hash sei_hash s h /\ c_verify C key sig h = 1%Z.
(** The hashes of NALUs added, among them [d], together have the hash [g]. *)
Definition in_gop (hist : list vop) (g d : list N) : Prop :=
  exists L xs oid hs, subseq L (added hist) /\ In d L /\ digest_size hs /\
    Forall2 (fun d x => length x = hs /\ known_hash picture_hash d x) L xs /\ digest oid /\ agree (c_hash C oid (concat xs)) g.
(** The hash of [d] is one of the hashes of the list [l]. *)
Definition in_list (l d : list N) : Prop :=
  exists A x b, l = concat A ++ x ++ b /\ Forall (fun y => length y = length x) A /\ digest_size (length x) /\
    known_hash picture_hash d x.

(** Why [d] is authentic. A SEI: its signature was verified. A picture: the signature of some SEI [s] was verified. If
    [s] has a GOP hash, it is that of NALUs among which is [d]; or the hash of [d] is in the list of hashes of [s], or,
    if [s] has none, in that of some other SEI. *)
Definition vouched (hist : list vop) (d : list N) : Prop :=
  In d (added hist) /\
  if sv_sei c d then signed hist d
  else exists s fs, In s (added hist) /\ sv_sei c s = true /\ signed hist s /\ sei_fields c s fs /\
    forall g, last_gop fs = Some g -> (K <= length g)%nat ->
      in_gop hist g d \/
      match last_list fs with Some l => in_list l d | None => exists l, some_list c hist l /\ in_list l d end.
End Evidence.

(** *** A session's reports against the NALUs added *)
(** The report shows the NALUs [w], in that order, and missing ones; every NALU with '.' satisfies [Q]. *)
Inductive shows (c : codec) (Q : list N -> Prop) : list (list N) -> list N -> list N -> Prop :=
| shows_nil : shows c Q [] [] []
| shows_nalu d w s vs t ns : t = shown c d -> (s = 46 -> Q d) -> shows c Q w vs ns -> shows c Q (d :: w) (s :: vs) (t :: ns)
| shows_missing w s vs ns : shows c Q w vs ns -> s <> 46 -> shows c Q w (s :: vs) (32 :: ns).
(** The NALUs of [w] from the first pending one on. *)
Fixpoint waiting_from {A} (w : list A) (vs ns : list N) : list A :=
  match vs, ns with
  | s :: vs', t :: ns' => if s =? 80 then w else waiting_from (if t =? 32 then w else tl w) vs' ns'
  | _, _ => []
  end.
(** Every report of a session shows the NALUs waiting, and [Q hist] holds for every NALU shown authentic, where [hist] are
    the calls so far. Nothing is said after a NALU was refused. *)
Fixpoint faithful (c : codec) (Q : list vop -> list N -> Prop) (hist : list vop) (w : list (list N)) (ops : list vop) (res : list vres) : Prop :=
  match ops, res with
  | _, [] | [], _ => True
  | o :: ops, x :: res =>
      let hist := hist ++ [o] in
      match o, x with
      | VAdd [] _, _ => faithful c Q hist w ops res
      | VAdd d _, VRes SV_OK None => faithful c Q hist (w ++ [d]) ops res
      | VAdd d _, VRes SV_OK (Some p) =>
          shows c (Q hist) (w ++ [d]) (l_vstr (p_latest p)) (l_nstr (p_latest p)) /\
          faithful c Q hist (waiting_from (w ++ [d]) (l_vstr (p_latest p)) (l_nstr (p_latest p))) ops res
      | VAdd _ _, _ => True
      | VReset, _ => faithful c Q hist [] ops res
      | _, _ => faithful c Q hist w ops res
      end
  end.
(** The user asks for a report with every NALU; the NALUs are bytes. *)
Definition asking (o : vop) : Prop := match o with VAdd _ want => want = true | _ => True end.
Definition of_bytes (o : vop) : Prop := match o with VAdd d _ => bytes_ok d | _ => True end.

(** *** Hashes and bytes *)
(** What is hashed for the NALU [d]: its bytes and, unless it starts a GOP, a reference of [n] bytes with their hash. *)
Definition fed (C : crypto) (c : codec) (n : nat) (oid d y : list N) : Prop :=
  exists b, hashed c d b /\ (y = b \/ starts_gop c d = false /\ exists r, length r = n /\ y = r ++ c_hash C oid b).
(** The NALU [d] hits the hash [x0] of the NALU [d0]: something else is hashed for it than for [d0], with the same result,
    which is [x0] or the hash of the bytes of [d0]. That two strings with the same hash exist somewhere would say nothing:
    there are more strings than hashes. A hash that was never computed is zero, so [x0] is hit as well if it is zero. *)
Definition hit (C : crypto) (c : codec) (n : nat) (oid d d0 x0 : list N) : Prop :=
  x0 = zeros n \/ exists u v, fed C c n oid d0 u /\ fed C c n oid d v /\ u <> v /\ c_hash C oid u = c_hash C oid v /\
    (c_hash C oid u = x0 \/ hashed c d0 u).
(** Hashes of NALUs added, in a row, are not the hashes [xs0] in a row, but have the same hash. *)
Definition hit_gop (C : crypto) (c : codec) (n : nat) (oid : list N) (hist : list vop) (xs0 : list (list N)) : Prop :=
  exists L xs, subseq L (added hist) /\ Forall2 (fun d x => length x = n /\ known_hash n (picture_hash C c) d x) L xs /\
    concat xs <> concat xs0 /\ c_hash C oid (concat xs) = c_hash C oid (concat xs0).
(** The hashed bytes of two NALUs are the same. *)
Definition same_bytes (c : codec) (d d0 : list N) : Prop := exists b, hashed c d b /\ hashed c d0 b.
(** The NALU is not exactly as long as two hashes: it could otherwise be taken for the reference and the hash of another NALU. *)
Definition unlike (c : codec) (n : nat) (d : list N) : Prop := forall b, hashed c d b -> length b <> (2 * n)%nat.

(** What the SEIs of a stream have to say: settings, pictures and the metadata of a GOP, written down
    without the signer's state. *)
From Verif Require Import Base Nalu Crypto Types CodecSpec SeiSpec SignSpec Signer.
Local Open Scope N_scope.

(** ** Settings *)

(** The settings in force. [w_oid] identifies the hash algorithm, [w_max] is the largest payload of a
    SEI (0: no limit), [w_rec] the recurrence. *)
Record settings := mkSettings {
  w_pub : list N; w_max_sig : nat; w_prod : list (list N); w_add_pub : bool; w_frame : bool;
  w_rec : N; w_epb : bool; w_using : bool; w_max : N; w_oid : list N }.

Definition defaults : settings :=
  mkSettings [] 0 [[]; []; []; []; []] true true 1 true false 0 sha256_der.

(** What an accepted call of a setter asks for. *)
Definition ask (C : crypto) (w : settings) (o : sop) : settings :=
  let '(mkSettings pub ms prod ap fr rec epb us mx oid) := w in
  match o with
  | OKey pem =>
      match c_priv C pem with
      | Some (p, m) => mkSettings p m prod ap fr rec epb us mx oid
      | None => w
      end
  | OProduct l =>
      mkSettings pub ms (map (fun x => match x with Some s => s | None => [] end) l) ap fr rec epb us mx oid
  | OAddPub b => mkSettings pub ms prod b fr rec epb us mx oid
  | OLevel LFrame => mkSettings pub ms prod ap true rec epb us mx oid
  | OLevel LGop => mkSettings pub ms prod ap false rec epb us mx oid
  | ORecurrence n => mkSettings pub ms prod ap fr n epb us mx oid
  | OEpb b => mkSettings pub ms prod ap fr rec b us mx oid
  | OUsingGolden b => mkSettings pub ms prod ap fr rec epb b mx oid
  | OMaxPayload n => mkSettings pub ms prod ap fr rec epb us n oid
  | OHashAlgo None => mkSettings pub ms prod ap fr rec epb us mx sha256_der
  | OHashAlgo (Some name) =>
      match c_name C name with
      | Some d => mkSettings pub ms prod ap fr rec epb us mx d
      | None => w
      end
  | _ => w
  end.

Definition is_setting (o : sop) : bool :=
  match o with
  | OKey _ | OProduct _ | OAddPub _ | OLevel _ | ORecurrence _ | OEpb _ | OUsingGolden _ | OMaxPayload _
  | OHashAlgo _ => true
  | _ => false
  end.

(** ** Pictures *)

(** One complete NALU of a stream, with its timestamp: the bytes that are hashed (None if it is not
    hashed), whether it starts a GOP and whether it starts a picture. Which bytes and flags these are
    is the subject of C11 and C12. *)
Record piece := mkPiece {
  p_data : list N; p_ts : option Z; p_bytes : option (list N); p_first : bool; p_frame : bool }.

Definition seen (c : codec) (p : piece) : Prop :=
  match p_ts p with Some t => (-9223372036854775808 <= t < 9223372036854775808)%Z | None => True end /\
  exists n, parse_nalu (p_data p) c true false = Def n /\ p_first p = n_first_in_gop n /\
    p_frame p = n_primary n /\
    (if n_hashable n then exists x, hash_input n = Def x /\ p_bytes p = Some x else p_bytes p = None).

(** Feeding a NALU and asking for a SEI. *)
Definition feed (p : piece) : list sop := [OAdd (p_data p) (p_ts p) true; OGet true []].

Definition is_some {A} (o : option A) : bool := match o with Some _ => true | None => false end.
Definition frames (g : list piece) : N := nlen (filter p_frame g).
Definition hashed (g : list piece) : list (list N) :=
  flat_map (fun p => match p_bytes p with Some x => [x] | None => [] end) g.

(** A GOP: the first NALU starts it and is hashed, none of the others starts a GOP. *)
Definition is_gop (g : list piece) : Prop :=
  exists p r, g = p :: r /\ p_first p = true /\ p_bytes p <> None /\ Forall (fun q => p_first q = false) r.

(** ** The metadata of a GOP *)

(** The hash of the first NALU of a GOP is taken directly, that of any other NALU together with the
    hash of the first one. *)
Definition hashes (H : list N -> list N) (xs : list (list N)) : list (list N) :=
  match xs with
  | [] => []
  | x0 :: r => H x0 :: map (fun x => H (H x0 ++ H x)) r
  end.

(** Some number in [lo, hi) is a multiple of [r]. *)
Definition due (r lo hi : N) : bool :=
  existsb (fun i => (lo + N.of_nat i) mod r =? 0) (seq 0 (N.to_nat (hi - lo))).

(** One string of the product information: at most 254 characters, with size and terminator. *)
Definition prod_string (s : list N) : list N :=
  let t := firstn 254 s in (nlen t + 1) :: t ++ [0].

(** The fields that are not sent with every SEI. *)
Definition recurrent_fields (w : settings) : list (N * list N) :=
  (if w_add_pub w then [(2, 2 :: w_pub w)] else []) ++
  [(3, 1 :: flat_map prod_string (w_prod w)); (7, [1; nlen (w_oid w)] ++ w_oid w)].

(** General information: version of the format, GOP counter [k], number of hashed NALUs, version of
    the library, timestamp, hash of the first NALU of the previous GOP (zeros if there is none), hash
    of the GOP. *)
Definition general_field (C : crypto) (w : settings) (k : N) (prev : option (list N)) (xs : list (list N))
    (ts : option Z) : list N :=
  let H := c_hash C (w_oid w) in
  [3] ++ digits 4 (k mod 2 ^ 32) ++ digits 2 (nlen xs mod 2 ^ 16) ++ [1; 1; 29] ++
  (match ts with Some t => 1 :: digits 8 (Z.to_N (t mod 2 ^ 64)) | None => [0] end) ++
  (match prev with Some x => H x | None => zeros (oid_size C (w_oid w)) end) ++
  H (concat (hashes H xs)).

(** The list of all hashes: only at frame level, if it is not longer than 19200 bytes and if the SEI,
    with a signature of maximum size, stays within the limit set by the user. *)
Definition list_field (C : crypto) (w : settings) (others : list (N * list N)) (xs : list (list N)) :
    list (N * list N) :=
  let l := concat (hashes (c_hash C (w_oid w)) xs) in
  if w_frame w && (nlen l <=? 19200) &&
     ((w_max w =? 0) || (17 + nlen (wires (others ++ [(4, 1 :: l)])) + 8 + N.of_nat (w_max_sig w) <=? w_max w))
  then [(4, 1 :: l)] else [].

(** All fields in front of the signature. [rec] tells if the recurrent fields are due. *)
Definition gop_fields (C : crypto) (w : settings) (k : N) (rec : bool) (prev : option (list N))
    (xs : list (list N)) (ts : option Z) : list (N * list N) :=
  let others := (if rec && negb (w_using w) then recurrent_fields w else []) ++
                [(1, general_field C w k prev xs ts)] in
  others ++ list_field C w others xs.

(** The fields of the SEIs of successive GOPs. A GOP has its SEI when the next one begins, and the SEI
    carries the timestamp of that beginning. [k] is the counter of the next SEI, [prev] the first NALU
    of the previous GOP, [f] the number of pictures before the GOPs, [lo] the number of pictures the
    earlier SEIs account for; a SEI accounts for the pictures up to the first one of the next GOP. *)
Fixpoint gops_fields (C : crypto) (w : settings) (k lo f : N) (prev : option (list N)) (gs : list (list piece)) :
    list (list (N * list N)) :=
  match gs with
  | g :: (((nx :: _) :: _) as rest) =>
      let f' := f + frames g in
      let hi := f' + (if p_frame nx then 1 else 0) in
      gop_fields C w k (due (w_rec w) lo hi) prev (hashed g) (p_ts nx) ::
      gops_fields C w (k + 1) hi f' (hd_error (hashed g)) rest
  | _ => []
  end.

(** [x] is a SEI with these fields and a signature of its content, made with the private key that belongs to
    the public key and with the hash algorithm of the settings. *)
Definition sei_with (C : crypto) (c : codec) (w : settings) (fs : list (N * list N)) (x : list N) : Prop :=
  exists sig key, c_priv C key = Some (w_pub w, w_max_sig w) /\
    signed_sei C c x (w_epb w) false fs (w_max_sig w) key (w_oid w) sig.

(** A session in which everything works: settings, among them a private key; NALUs before the first GOP,
    none of them hashed; then GOPs. A SEI is asked for after each NALU. *)
Definition signs (C : crypto) (c : codec) (coin : N) (setup : list sop) (before : list piece)
    (gs : list (list piece)) (rs : list sres) : Prop :=
  Forall (op_ok C) setup /\ Forall (fun o => is_setting o = true) setup /\
  Exists (fun o => exists pem, o = OKey pem) setup /\
  Forall (seen c) (before ++ concat gs) /\
  Forall (fun p => p_first p = false /\ p_bytes p = None) before /\ Forall is_gop gs /\
  (exists s, run C (setup ++ flat_map feed (before ++ concat gs)) (create c coin) = Def (s, rs)) /\
  Forall (fun r => rs_code r = SV_OK) rs.

(** The number of pictures up to and including the first NALU of GOP [i]; GOPs are counted from 0. *)
Definition pictures_to (before : list piece) (gs : list (list piece)) (i : nat) : N :=
  frames (before ++ concat (firstn i gs) ++ firstn 1 (nth i gs [])).

(** The [i]-th SEI of such a session consists of the fields [fs]. *)
Definition ith_sei (c : codec) (w : settings) (rs : list sres) (i : nat) (fs : list (N * list N)) : Prop :=
  nth_error (returned rs) i = Some (sei c (w_epb w) false fs).

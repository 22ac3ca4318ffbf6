(** TLV encoding and decoding of SEI metadata.
    Models signed_video_tlv.c:30-1279 for a build without vendor code. *)
From Verif Require Import Base Epb Nalu Crypto Types.
Local Open Scope N_scope.

(** Tags: signed_video_defines.h:158-172. *)
Definition GENERAL : N := 1.
Definition PUBLIC_KEY : N := 2.
Definition PRODUCT_INFO : N := 3.
Definition HASH_LIST : N := 4.
Definition SIGNATURE : N := 5.
Definition ARBITRARY : N := 6.
Definition CRYPTO_INFO : N := 7.
Definition VENDOR_AXIS : N := 129.

(** get_tlv_tuple: signed_video_tlv.c:112-209, tables tlv_tuples and vendor_tlv_tuples. The result is
    (tag, bytes_for_length, is_always_present). Tag 0 has an entry (with NULL functions); every
    unknown tag is mapped to the entry of tag 0. *)
Definition tuple (tag : N) : N * nat * bool :=
  match tag with
  | 1 => (1, 1%nat, true)
  | 2 => (2, 2%nat, false)
  | 3 => (3, 2%nat, false)
  | 4 => (4, 2%nat, true)
  | 5 => (5, 2%nat, true)
  | 6 => (6, 2%nat, true)
  | 7 => (7, 1%nat, false)
  | 129 => (129, 2%nat, false)
  | _ => (0, 0%nat, true)
  end.
Definition tuple_tag (tag : N) : N := fst (fst (tuple tag)).
Definition len_bytes (tag : N) : nat := snd (fst (tuple tag)).
Definition always_present (tag : N) : bool := snd (tuple tag).

(** optional_tags, mandatory_tags and the signature tag: signed_video_tlv.c:137-154 and
    signed_video_h26x_sign.c:117,214. *)
Definition optional_tags : list N := [PUBLIC_KEY; PRODUCT_INFO; CRYPTO_INFO].
Definition mandatory_tags : list N := [GENERAL; HASH_LIST; ARBITRARY].
Definition signature_tags : list N := [SIGNATURE].

(** ** Encoders. [enc_size] is the size pass (data == NULL) and [enc_value] the bytes handed to
    write_byte in the write pass. *)

Definition flags_byte (ts : option Z) : N := match ts with Some _ => 1 | None => 0 end.

(** encode_general, size: signed_video_tlv.c:236-250. *)
Definition general_size (c : scfg) (g : sgop) : N :=
  1 + 4 + 2 + 3 + 1 + (match g_ts g with Some _ => 8 | None => 0 end) + N.of_nat (sc_hs c) * 2.
(** encode_general, bytes: signed_video_tlv.c:259-296. *)
Definition general_value (c : scfg) (g : sgop) : list N :=
  [3] ++ be32 (u32 (g_counter g + 1)) ++ be16 (g_num g) ++ map u8 lib_version
  ++ [flags_byte (g_ts g)]
  ++ (match g_ts g with Some t => be64 (z_to_u64 t) | None => [] end)
  ++ firstn (sc_hs c) (g_linked g) ++ firstn (sc_hs c) (g_computed g).

(** One product information string. Size including the terminating NUL, truncated to one byte:
    signed_video_tlv.c:411-418 (and the same four times more). *)
Definition pstr_full (o : option (list N)) : N :=
  match o with Some s => nlen s + 1 | None => 1 end.
Definition pstr_size (o : option (list N)) : N :=
  if 255 <? pstr_full o then 255 else u8 (pstr_full o).
(** Size byte, all but the last character, and the last character: signed_video_tlv.c:459-468. *)
Definition pstr_value (o : option (list N)) : list N :=
  let s := match o with Some s => s | None => [] end in
  let n := N.to_nat (pstr_size o) in
  let last := if (255 <? pstr_full o) || (match o with None => true | _ => false end)
              then 0 else nth (n - 1) (s ++ [0]) 0 in
  [pstr_size o] ++ firstn (n - 1) s ++ [last].

(** encode_product_info: signed_video_tlv.c:387-512. *)
Definition product_size (c : scfg) : N :=
  fold_left (fun a o => a + 1 + pstr_size o) (sc_prod c) 1.
Definition product_value (c : scfg) : list N :=
  [1] ++ flat_map pstr_value (sc_prod c).

(** encode_arbitrary_data: signed_video_tlv.c:576-601. *)
Definition arbitrary_size (c : scfg) : N :=
  match sc_arb c with [] => 0 | l => 1 + nlen l end.
Definition arbitrary_value (c : scfg) : list N :=
  match sc_arb c with [] => [] | l => [1] ++ l end.

(** encode_public_key: signed_video_tlv.c:645-687. *)
Definition public_key_size (c : scfg) : N :=
  match sc_pub c with [] => 0 | l => if sc_add_pub c then 1 + nlen l else 0 end.
Definition public_key_value (c : scfg) : list N :=
  match sc_pub c with [] => [] | l => if sc_add_pub c then [2] ++ l else [] end.

(** encode_hash_list: signed_video_tlv.c:764-800. *)
Definition hash_list_sz (c : scfg) (g : sgop) : N :=
  match g_list g with
  | Some (b :: l) => if sc_frame c then 1 + nlen (b :: l) else 0
  | _ => 0
  end.
Definition hash_list_value (c : scfg) (g : sgop) : list N :=
  match g_list g with
  | Some (b :: l) => if sc_frame c then [1] ++ b :: l else []
  | _ => []
  end.

(** encode_signature: signed_video_tlv.c:840-893. The signature size is cast to uint16_t. *)
Definition signature_size (c : scfg) : N := 1 + 1 + 1 + 2 + N.of_nat (sc_max_sig c).
Definition signature_value (c : scfg) (g : sgop) (sig : list N) : list N :=
  let n := u16 (nlen sig) in
  [1; g_enc g; u8 (g_hash_type g)] ++ be16 n ++ firstn (N.to_nat n) sig
  ++ repeat 1 (sc_max_sig c - N.to_nat n).

(** encode_crypto_info: signed_video_tlv.c:953-994. *)
Definition crypto_size (g : sgop) : N :=
  match h_oid (k_handle (g_h g)) with [] => 0 | o => 1 + 1 + nlen o end.
Definition crypto_value (g : sgop) : list N :=
  match h_oid (k_handle (g_h g)) with [] => [] | o => [1; u8 (nlen o)] ++ o end.

(** The encoder of a tag, size pass and write pass. encode_axis_communications gives 0 in a build
    without vendor code: signed_video_tlv.c:1042-1056. *)
Definition enc_size (c : scfg) (g : sgop) (tag : N) : N :=
  match tag with
  | 1 => general_size c g
  | 2 => public_key_size c
  | 3 => product_size c
  | 4 => hash_list_sz c g
  | 5 => signature_size c
  | 6 => arbitrary_size c
  | 7 => crypto_size g
  | _ => 0
  end.
Definition enc_value (c : scfg) (g : sgop) (sig : list N) (tag : N) : list N :=
  match tag with
  | 1 => general_value c g
  | 2 => public_key_value c
  | 3 => product_value c
  | 4 => hash_list_value c g
  | 5 => signature_value c g sig
  | 6 => arbitrary_value c
  | 7 => crypto_value g
  | _ => []
  end.

(** Side effects of the write pass: encode_general stores the incremented counter
    (signed_video_tlv.c:298), encode_hash_list sets the hash type (line 797). *)
Definition enc_effect (g : sgop) (tag : N) : sgop :=
  match tag with
  | 1 => set_g_counter (u32 (g_counter g + 1)) g
  | 4 => set_g_hash_type 1 g
  | _ => g
  end.

(** tlv_encode_or_get_size_generic, size pass: signed_video_tlv.c:1075-1099. *)
Definition tlv_size_one (c : scfg) (g : sgop) (tag : N) : N :=
  if enc_size c g tag =? 0 then 0 else 1 + N.of_nat (len_bytes tag) + enc_size c g tag.

(** Tag and length bytes: signed_video_tlv.c:1104-1109. *)
Definition tlv_header (c : scfg) (g : sgop) (tag : N) : list N :=
  let v := enc_size c g tag in
  [u8 tag] ++ (if (len_bytes tag =? 2)%nat then [u8 (v / 256)] else []) ++ [u8 v].

(** tlv_encode_or_get_size_generic, write pass: signed_video_tlv.c:1101-1122. Returns the history, the
    bytes by which the write position moves, and the GOP information. *)
Definition tlv_write_one (c : scfg) (g : sgop) (sig : list N) (epb : bool) (lt tag : N)
  : N * list N * sgop :=
  if enc_size c g tag =? 0 then (lt, [], g)
  else
    let '(lt1, h) := write_bytes epb lt (tlv_header c g tag) in
    let '(lt2, v) := write_bytes epb lt1 (enc_value c g sig tag) in
    if nlen v <? enc_size c g tag then (lt2, [], enc_effect g tag)
    else (lt2, h ++ v, enc_effect g tag).

(** Whether a tag of a list is encoded: signed_video_tlv.c:1137-1143. *)
Definition tag_due (recurrent : bool) (tag : N) : bool :=
  (tuple_tag tag =? tag) && (always_present tag || recurrent).

(** tlv_list_encode_or_get_size, size pass: signed_video_tlv.c:1124-1151. *)
Fixpoint tlv_size_list (c : scfg) (g : sgop) (recurrent : bool) (tags : list N) : N :=
  match tags with
  | [] => 0
  | t :: r => (if tag_due recurrent t then tlv_size_one c g t else 0) + tlv_size_list c g recurrent r
  end.
(** tlv_list_encode_or_get_size, write pass: signed_video_tlv.c:1124-1151. *)
Fixpoint tlv_write_list (c : scfg) (g : sgop) (sig : list N) (epb recurrent : bool) (lt : N)
  (tags : list N) : N * list N * sgop :=
  match tags with
  | [] => (lt, [], g)
  | t :: r =>
      if tag_due recurrent t then
        let '(lt1, o1, g1) := tlv_write_one c g sig epb lt t in
        let '(lt2, o2, g2) := tlv_write_list c g1 sig epb recurrent lt1 r in
        (lt2, o1 ++ o2, g2)
      else tlv_write_list c g sig epb recurrent lt r
  end.

(** ** Decoders. [mem] is the memory from |data| to the end of its allocation, [size] is
    data_size. *)

(** strlen and copy of a C string: signed_video_authenticity.c:54-80. *)
Fixpoint cstr (p : list N) : out (list N) :=
  match p with
  | [] => Undef OobRead
  | 0 :: _ => Def []
  | b :: r => do s <- cstr r; Def (b :: s)
  end.

Section Decode.
Variable C : crypto.

(** decode_general: signed_video_tlv.c:306-382. *)
Definition decode_general (d : dec) (mem : list N) (size : N) : out (dec * svrc) :=
  do (version, p) <- read_8bits mem;
  if (version <? 1) || (3 <? version) then Def (d, SV_INCOMPATIBLE_VERSION)
  else
    do (counter, p) <- read_32bits p;
    do (num, p) <- read_16bits p;
    do (ver, p) <- take_mem 3 p;
    let d := set_d_sver ver (set_d_version ver (set_d_num_sent num (set_d_counter counter d))) in
    do (d, p, used) <-
      (if version <? 2 then Def (d, p, 10)
       else
         do (flags, p) <- read_8bits p;
         if flags mod 2 =? 1 then
           do (ts, p) <- read_64bits p;
           let t := u64_to_z ts in
           Def (set_d_l_ts t (set_d_l_has_ts true (set_d_ts t (set_d_has_ts true d))), p, 19)
         else Def (set_d_l_has_ts false (set_d_has_ts false d), p, 11));
    do (d, used) <-
      (if version <? 3 then Def (d, used)
       else
         let hs := sub64 size used / 2 in
         if 64 <? hs then Undef OobWrite
         else
           do (lh, p) <- take_mem (N.to_nat hs) p;
           do (gh, p) <- take_mem (N.to_nat hs) p;
           do l1 <- put_mem (d_linked d) lh;
           do g1 <- put_mem (d_gop d) gh;
           Def (set_d_gop g1 (set_d_linked l1 d), used + 2 * hs));
    Def (d, if used =? size then SV_OK else SV_AUTHENTICATION_ERROR).

(** The five strings of decode_product_info: signed_video_tlv.c:530-549. Returns the strings and the
    number of bytes passed. *)
Fixpoint decode_strings (k : nat) (p : list N) : out (list (option (list N)) * N) :=
  match k with
  | O => Def ([], 0)
  | S k' =>
      do (n, p) <- read_8bits p;
      do s <- cstr p;
      do (l, used) <- decode_strings k' (skipn (N.to_nat n) p);
      Def (Some s :: l, 1 + n + used)
  end.

(** decode_product_info: signed_video_tlv.c:517-571. *)
Definition decode_product (d : dec) (mem : list N) (size : N) : out (dec * svrc) :=
  do (version, p) <- read_8bits mem;
  if version =? 0 then Def (d, SV_INCOMPATIBLE_VERSION)
  else
    do (l, used) <- decode_strings 5 p;
    let d := set_d_rprod l (set_d_prod l d) in
    Def (d, if 1 + used =? size then SV_OK else SV_AUTHENTICATION_ERROR).

(** decode_arbitrary_data: signed_video_tlv.c:606-640. *)
Definition decode_arbitrary (d : dec) (mem : list N) (size : N) : out (dec * svrc) :=
  do (version, p) <- read_8bits mem;
  let n := u16 (sub64 size 1) in
  if version =? 0 then Def (set_d_arb [] d, SV_INCOMPATIBLE_VERSION)
  else if n =? 0 then Def (set_d_arb [] d, SV_AUTHENTICATION_ERROR)
  else
    do (a, _) <- take_mem (N.to_nat n) p;
    if 1 + n =? size then Def (set_d_arb a d, SV_OK)
    else Def (set_d_arb [] d, SV_AUTHENTICATION_ERROR).

(** decode_public_key: signed_video_tlv.c:693-758. *)
Definition decode_public_key (d : dec) (mem : list N) (size : N) : out (dec * svrc) :=
  do (version, p) <- read_8bits mem;
  let n0 := u16 (sub64 size 1) in
  let old := version <? 2 in
  let n := if old then u16 (n0 + 65535) else n0 in
  let p := if old then skipn 1 p else p in
  if version =? 0 then Def (d, SV_INCOMPATIBLE_VERSION)
  else if n =? 0 then Def (d, SV_AUTHENTICATION_ERROR)
  else
    let cur := if nlen (d_pub d) =? n then d_pub d else zeros (N.to_nat n) in
    do (key, _) <- take_mem (N.to_nat n) p;
    let d := if d_has_pub d && negb (bytes_eqb key cur) then set_d_l_changed true d else d in
    let d := set_d_has_pub true (set_d_pub key d) in
    if negb (c_pub_ok C key) then Def (d, SV_EXTERNAL_ERROR)
    else
      let d := set_d_vkey (Some key) d in
      Def (d, if 1 + (if old then 1 else 0) + n =? size then SV_OK else SV_AUTHENTICATION_ERROR).

(** decode_hash_list: signed_video_tlv.c:805-835. *)
Definition decode_hash_list (d : dec) (mem : list N) (size : N) : out (dec * svrc) :=
  do (version, p) <- read_8bits mem;
  let n := sub64 size 1 in
  if version =? 0 then Def (d, SV_INCOMPATIBLE_VERSION)
  else if 19200 <? n then Def (d, SV_MEMORY)
  else
    do (l, _) <- take_mem (N.to_nat n) p;
    Def (set_d_list l d, SV_OK).

(** decode_signature: signed_video_tlv.c:898-948. For data_size < 5 the size for malloc wraps to
    almost 2^64, so the allocation (if attempted) fails: SV_MEMORY. *)
Definition decode_signature (d : dec) (mem : list N) (size : N) : out (dec * svrc) :=
  do (version, p) <- read_8bits mem;
  do (enc, p) <- read_8bits p;
  do (ty, p) <- read_8bits p;
  do (n, p) <- read_16bits p;
  let max := sub64 size 5 in
  if version =? 0 then Def (d, SV_INCOMPATIBLE_VERSION)
  else if 2 <=? ty then Def (d, SV_AUTHENTICATION_ERROR)
  else if max <? n then Def (d, SV_AUTHENTICATION_ERROR)
  else
    match d_sig d with
    | Some s =>
        if negb (nlen s =? max) then Def (d, SV_MEMORY)
        else
          do (s2, _) <- take_mem (N.to_nat max) p;
          Def (set_d_hash_type ty (set_d_enc enc (set_d_sig_size n (set_d_sig (Some s2) d))), SV_OK)
    | None =>
        if size <? 5 then Def (set_d_sig_size 0 d, SV_MEMORY)
        else
          do (s2, _) <- take_mem (N.to_nat max) p;
          Def (set_d_hash_type ty (set_d_enc enc (set_d_sig_size n (set_d_sig (Some s2) d))), SV_OK)
    end.

(** decode_crypto_info: signed_video_tlv.c:999-1034. The object identifier is read (for its name) before
    the checks. *)
Definition decode_crypto (d : dec) (mem : list N) (size : N) : out (dec * svrc) :=
  do (version, p) <- read_8bits mem;
  do (n, p) <- read_8bits p;
  do (oid, _) <- take_mem (N.to_nat n) p;
  if version =? 0 then Def (d, SV_INCOMPATIBLE_VERSION)
  else if n =? 0 then Def (d, SV_AUTHENTICATION_ERROR)
  else
    do (h, st) <- set_hash_algo_der C oid (d_handle d);
    let d := set_d_handle h d in
    if negb (is_ok st) then Def (d, st)
    else
      let d := set_d_vhs (hash_size C h) (set_d_algo_known true d) in
      Def (d, if 2 + n =? size then SV_OK else SV_AUTHENTICATION_ERROR).

(** get_decoder and the call of the decoder: signed_video_tlv.c:184-194, 1198-1203. Calling through the
    NULL entry of tag 0 is undefined. *)
Definition decode_tag (d : dec) (tag : N) (mem : list N) (size : N) : out (dec * svrc) :=
  match tag with
  | 1 => decode_general d mem size
  | 2 => decode_public_key d mem size
  | 3 => decode_product d mem size
  | 4 => decode_hash_list d mem size
  | 5 => decode_signature d mem size
  | 6 => decode_arbitrary d mem size
  | 7 => decode_crypto d mem size
  | 129 => Def (d, SV_NOT_SUPPORTED)
  | _ => Undef NullDeref
  end.

(** decode_tlv_header: signed_video_tlv.c:1153-1178. None stands for SV_INVALID_PARAMETER; otherwise
    tag, length, header size and the memory after the header. *)
Definition decode_tlv_header (p : list N) : out (option (N * N * N * list N)) :=
  do (tag, p) <- read_8bits p;
  if negb (tuple_tag tag =? tag) then Def None
  else if (len_bytes tag =? 2)%nat then
    do (len, p) <- read_16bits p;
    Def (Some (tag, len, 3, p))
  else
    do (len, p) <- read_8bits p;
    Def (Some (tag, len, 2, p)).

(** tlv_decode: signed_video_tlv.c:1180-1209. [rem] is data + data_size - data_ptr, cut off at zero.
    Every round reads a header, so the length of the memory bounds the number of rounds. *)
Fixpoint tlv_decode_loop (fuel : nat) (d : dec) (p : list N) (rem : N) (st : svrc)
  : out (dec * svrc) :=
  if rem =? 0 then Def (d, st)
  else
    match fuel with
    | O => Undef Diverges
    | S fuel' =>
        do h <- decode_tlv_header p;
        match h with
        | None => Def (d, SV_INVALID_PARAMETER)
        | Some (tag, len, hsz, p) =>
            do (d, st) <- decode_tag d tag p len;
            if is_ok st
            then tlv_decode_loop fuel' d (skipn (N.to_nat len) p) (rem - hsz - len) SV_OK
            else Def (d, st)
        end
    end.
Definition tlv_decode (d : dec) (mem : list N) (size : N) : out (dec * svrc) :=
  if size =? 0 then Def (d, SV_INVALID_PARAMETER)
  else tlv_decode_loop (S (length mem)) d mem size SV_INVALID_PARAMETER.

(** tlv_find_tag: signed_video_tlv.c:1211-1243. Returns the offset of the tag from tlv_data, if
    found. [off] counts raw bytes. *)
Fixpoint find_tag_loop (fuel : nat) (lt : N) (p : list N) (off size : N) (tag : N) (epb : bool)
  : out (option N) :=
  if size <=? off then Def None
  else
    match fuel with
    | O => Undef Diverges
    | S fuel' =>
        do (t, lt, p1) <- read_byte epb lt p;
        if t =? tag then Def (Some off)
        else
          do (l1, lt, p2) <- read_byte epb lt p1;
          do (len, lt, p3) <-
            (if (len_bytes t =? 2)%nat
             then do (l2, lt, q) <- read_byte epb lt p2; Def (l1 * 256 + l2, lt, q)
             else Def (l1, lt, p2));
          do (_, lt, p4) <- read_bytes epb (N.to_nat len) lt p3;
          find_tag_loop fuel' lt p4 (off + (nlen p - nlen p4)) size tag epb
    end.
Definition tlv_find_tag (mem : list N) (size tag : N) (epb : bool) : out (option N) :=
  if size =? 0 then Def None
  else find_tag_loop (S (length mem)) lt_init mem 0 size tag epb.

(** tlv_find_and_decode_optional_tags: signed_video_tlv.c:1245-1279. The flag tells if any optional
    tag was decoded. Looking up tag 129 in tlv_tuples is out of bounds. *)
Fixpoint opt_loop (fuel : nat) (d : dec) (p : list N) (rem : N) (any : bool) : out (dec * bool) :=
  if rem =? 0 then Def (d, any)
  else
    match fuel with
    | O => Undef Diverges
    | S fuel' =>
        do h <- decode_tlv_header p;
        match h with
        | None => Def (d, any)
        | Some (tag, len, hsz, p) =>
            if 8 <? tag then Undef OobRead
            else if always_present tag
            then opt_loop fuel' d (skipn (N.to_nat len) p) (rem - hsz - len) any
            else
              do (d, st) <- decode_tag d tag p len;
              if is_ok st
              then opt_loop fuel' d (skipn (N.to_nat len) p) (rem - hsz - len) true
              else Def (d, any)
        end
    end.
Definition decode_optional (d : dec) (mem : list N) (size : N) : out (dec * bool) :=
  if size =? 0 then Def (d, false)
  else opt_loop (S (length mem)) d mem size false.

End Decode.

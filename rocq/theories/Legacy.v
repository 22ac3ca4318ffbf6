(** Validation of recordings signed by older versions: the directory legacy, and how a session is handed
    over to it. Models legacy/legacy_tlv.c, legacy/legacy_h26x_nalu_list.c, legacy/legacy_h26x_common.c and
    legacy/legacy_h26x_auth.c for a build without vendor code, and the lines of signed_video_h26x_auth.c,
    signed_video_h26x_common.c and signed_video_authenticity.c that call them.
    legacy_parse_nalu_info with its helpers (legacy_h26x_common.c:174-545) is word for word
    parse_nalu_info, so [parse_nalu] of Nalu.v is used; likewise [hash_wrapper] of Hash.v for whole NALUs
    (legacy_h26x_common.c:645-791) and the decoders that do not differ. *)
From Verif Require Import Base Epb Nalu Crypto Types Hash Tlv VTypes NaluList Validator LegacyTypes.
Local Open Scope N_scope.

(** GOP_HASH_SALT and DEFAULT_HASH_SIZE: legacy_h26x_common.c:33, signed_video_internal.h:52. *)
Definition gop_hash_salt : N := 1.
Definition default_hash_size : nat := 32.

(** Following the pointer to the NALU of an item. *)
Definition deref (p : nptr) : out nalu :=
  match p with NOk n => Def n | NNull => Undef NullDeref | NDang => Undef UseAfterFree end.
(** The same where the code checks for NULL first. *)
Definition look (p : nptr) : out (option nalu) :=
  match p with NOk n => Def (Some n) | NNull => Def None | NDang => Undef UseAfterFree end.

Definition x_pending (it : litem) : bool := vstat_eqb (x_status it) SPend.
Definition x_has2 (it : litem) : bool := match x_second it with Some _ => true | None => false end.

(** ** The list of NALUs *)

(** legacy_h26x_nalu_list_item_create: legacy_h26x_nalu_list.c:62-73, with
    legacy_get_validation_status_from_nalu, lines 35-56. *)
Definition litem_create (n : nalu) : litem :=
  mkLitem (NOk n) false (status_of n) (zeros 64) None false false false false.
(** An item added by legacy_h26x_nalu_list_add_missing, legacy_h26x_nalu_list.c:310-313. *)
Definition lmissing : litem := mkLitem NNull false SMiss (zeros 64) None false false false false.

(** legacy_h26x_nalu_list_add_missing: legacy_h26x_nalu_list.c:296-331. The anchor item is given by its
    position; callers always pass an item of the list. A negative number is refused without effect and
    callers ignore the return code. *)
Definition l_add_missing (num : Z) (append : bool) (pos : nat) (l : list litem) : list litem :=
  let k := if append then S pos else pos in
  firstn k l ++ repeat lmissing (Z.to_nat num) ++ skipn k l.

(** legacy_h26x_nalu_list_copy_last_item: legacy_h26x_nalu_list.c:253-293, on the list in reverse. *)
Definition l_copy_rev (l : list litem) : out (list litem * svrc) :=
  match l with
  | [] => Undef NullDeref
  | it :: r =>
      do o <- look (x_nalu it);
      match o with
      | None => Def (set_x_own true it :: r, SV_UNKNOWN_FAILURE)
      | Some n =>
          do (n2, st) <- copy_nalu true n;
          Def (set_x_own true (set_x_nalu (match n2 with Some m => NOk m | None => NNull end) it) :: r, st)
      end
  end.
Definition l_copy_last (l : list litem) : out (list litem * svrc) :=
  do (r, st) <- l_copy_rev (rev l); Def (rev r, st).

(** Setting the status of the last item, legacy_h26x_auth.c:1036. *)
Definition l_mark_last (s : vstat) (l : list litem) : list litem :=
  match rev l with
  | [] => []
  | it :: r => rev (set_x_status s it :: r)
  end.

(** When legacy_sv_add_h26x_nalu returns, its local variable |nalu| is gone. Items that still point to it
    keep the address. *)
Definition leave (l : list litem) : list litem :=
  map (fun it => match x_nalu it with
                 | NOk _ => if x_own it then it else set_x_nalu NDang it
                 | _ => it
                 end) l.

(** legacy_h26x_nalu_list_remove_missing_items: legacy_h26x_nalu_list.c:335-364. [front] tells that
    everything before was removed. *)
Fixpoint l_remove_missing (front fp fs : bool) (l : list litem) : list litem :=
  match l with
  | [] => []
  | it :: r =>
      if fp && fs then l
      else
        let it := if fp then it else set_x_bad false it in
        if vstat_eqb (x_status it) SMiss && front then l_remove_missing true fp fs r
        else
          let mark := x_decoded it && negb (vstat_eqb (x_status it) SUnknown) in
          let it := if mark then set_x_status SUnknown it else it in
          it :: l_remove_missing false (fp || x_pending it) (fs || mark) r
  end.

(** legacy_h26x_nalu_list_get_next_sei_item: legacy_h26x_nalu_list.c:367-380. The position of the item. *)
Fixpoint l_next_sei (l : list litem) : out (option nat) :=
  match l with
  | [] => Def None
  | it :: r =>
      do o <- look (x_nalu it);
      if match o with Some n => n_gop_sei n | None => false end && x_pending it then Def (Some O)
      else do k <- l_next_sei r; Def (option_map S k)
  end.

(** legacy_h26x_nalu_list_get_stats: legacy_h26x_nalu_list.c:386-420. Invalid, missing, any valid. *)
Fixpoint l_stats (l : list litem) : out (Z * Z * bool) :=
  match l with
  | [] => Def (0, 0, false)%Z
  | it :: r =>
      do (i, m, v) <- l_stats r;
      do here <- (if vstat_eqb (x_status it) SValid then
                    do o <- look (x_nalu it);
                    Def (negb match o with Some n => n_gop_sei n | None => false end)
                  else Def (x_pending it && x_need it && negb (x_bad it)));
      Def ((if vstat_eqb (x_status it) SInvalid || vstat_eqb (x_status it) SErr then 1 + i else i)%Z,
           (if vstat_eqb (x_status it) SMiss then 1 + m else m)%Z, here || v)
  end.

(** legacy_h26x_nalu_list_num_pending_items: legacy_h26x_nalu_list.c:423-436. *)
Definition l_num_pending (l : list litem) : Z := Z.of_nat (length (filter x_pending l)).

(** legacy_nalu_type_to_char: legacy_h26x_common.c:88-112. Golden SEIs have no letter of their own. *)
Definition l_type_char (o : option nalu) : N :=
  match o with
  | Some n => match n_type n with TSei => if n_gop_sei n then 83 else 122 | _ => type_char o end
  | None => 32
  end.
(** legacy_h26x_nalu_list_get_str: legacy_h26x_nalu_list.c:440-468. *)
Definition l_validation_str (l : list litem) : list N := map (fun it => stat_char (x_status it)) l.
Fixpoint l_nalu_str (l : list litem) : out (list N) :=
  match l with
  | [] => Def []
  | it :: r => do o <- look (x_nalu it); do s <- l_nalu_str r; Def (l_type_char o :: s)
  end.

(** legacy_h26x_nalu_list_clean_up: legacy_h26x_nalu_list.c:471-488. The list left and the number of items
    removed, the missing ones not counted. *)
Fixpoint l_clean_up (l : list litem) : list litem * N :=
  match l with
  | [] => ([], 0)
  | it :: r =>
      if x_pending it || x_need it then (l, 0)
      else let '(l2, k) := l_clean_up r in
           (l2, if vstat_eqb (x_status it) SMiss then k else k + 1)
  end.

Section Legacy.
Variable C : crypto.

Definition q_on_dec (f : dec -> dec) (q : lsv) : lsv := set_q_dec (f (q_dec q)) q.
Definition q_on_gs (f : gstate -> gstate) (q : lsv) : lsv := set_q_gs (f (q_gs q)) q.
Definition q_on_latest (f : latest -> latest) (q : lsv) : lsv := set_q_latest (f (q_latest q)) q.
Definition q_on_acc (f : accum -> accum) (q : lsv) : lsv := set_q_acc (f (q_acc q)) q.
Definition q_on_items (f : list litem -> list litem) (q : lsv) : lsv := set_q_items (f (q_items q)) q.
(** verify_data->hash_size. *)
Definition qhs (q : lsv) : nat := d_vhs (q_dec q).

(** ** Decoding *)

(** legacy_decode_general: legacy_tlv.c:173-236. It differs from decode_general in that it refuses
    version 3. *)
Definition l_decode_general (d : dec) (mem : list N) (size : N) : out (dec * svrc) :=
  do (version, _) <- read_8bits mem;
  if (version <? 1) || (2 <? version) then Def (d, SV_INCOMPATIBLE_VERSION)
  else decode_general d mem size.

(** legacy_get_decoder and the call of the decoder: legacy_tlv.c:142-152, 241-553. The other decoders
    are those of signed_video_tlv.c. legacy_decode_crypto_info, lines 500-535, does not set
    hash_algo_known, which nothing reads after the hand-over; and it leaves gop_info->nalu_hash as it
    is, see [gop_hash_add]. *)
Definition l_decode_tag (d : dec) (tag : N) (mem : list N) (size : N) : out (dec * svrc) :=
  if tag =? 1 then l_decode_general d mem size else decode_tag C d tag mem size.

(** legacy_tlv_decode: legacy_tlv.c:587-616. *)
Fixpoint l_tlv_loop (fuel : nat) (d : dec) (p : list N) (rem : N) (st : svrc) : out (dec * svrc) :=
  if rem =? 0 then Def (d, st)
  else
    match fuel with
    | O => Undef Diverges
    | S fuel' =>
        do h <- decode_tlv_header p;
        match h with
        | None => Def (d, SV_INVALID_PARAMETER)
        | Some (tag, len, hsz, p) =>
            do (d, st) <- l_decode_tag d tag p len;
            if is_ok st
            then l_tlv_loop fuel' d (skipn (N.to_nat len) p) (rem - hsz - len) SV_OK
            else Def (d, st)
        end
    end.
Definition l_tlv_decode (d : dec) (mem : list N) (size : N) : out (dec * svrc) :=
  if size =? 0 then Def (d, SV_INVALID_PARAMETER)
  else l_tlv_loop (S (length mem)) d mem size SV_INVALID_PARAMETER.

(** legacy_decode_sei_data: legacy_h26x_auth.c:56-95. The sum with INT64_MAX cannot overflow, as the
    difference is negative then. legacy_tlv_find_and_decode_optional_tags, legacy_tlv.c:618-652, is
    tlv_find_and_decode_optional_tags word for word and never decodes the GENERAL tag, so
    [decode_optional] is used for it. *)
Definition l_decode_sei (q : lsv) (n : nalu) : out (lsv * svrc) :=
  let exp := u32 (d_counter (q_dec q) + 1) in
  do (d, st) <- l_tlv_decode (q_dec q) (n_tlv_mem n) (n_tlv_size n);
  let q := set_q_dec d q in
  if negb (is_ok st) then Def (q, st)
  else
    let pm := (Z.of_N (d_counter d) - Z.of_N exp)%Z in
    let pm := if (pm <? 0)%Z then (pm + 9223372036854775807)%Z else pm in
    let lost := (0 <? pm)%Z && q_synced q in
    let q := q_on_gs (set_gs_lost lost) q in
    Def (if gs_no_end (q_gs q) && lost then q_on_gs (set_gs_trans true) q else q, SV_OK).

(** ** Hashing *)

(** legacy_hash_and_add_for_auth: legacy_h26x_common.c:793-838, on one item. *)
Definition q_hst (q : lsv) : hst := mkHst (d_handle (q_dec q)) (q_buddies q) (q_has_ref q).
Definition q_put_hst (k : hst) (q : lsv) : lsv :=
  set_q_has_ref (k_has_ref k) (set_q_buddies (k_buddies k) (q_on_dec (set_d_handle (k_handle k)) q)).
Definition l_hash_item (q : lsv) (n : nalu) (it : litem) : out (lsv * litem * svrc) :=
  if negb (n_hashable n) then Def (q, it, SV_OK)
  else
    do (k, st, h) <- hash_wrapper C (q_hst q) n (qhs q);
    let q := q_put_hst k q in
    do it <- (match h with
              | Some x => do y <- put_at 0 (x_hash it) x; Def (set_x_hash y it)
              | None => Def it
              end);
    if negb (is_ok st) then Def (q, it, st)
    else if n_first_in_gop n || (gs_after (q_gs q) && negb (n_gop_sei n)) then
      let q := set_q_has_ref false q in
      do (k, st, h) <- hash_wrapper C (q_hst q) n (qhs q);
      let q := q_put_hst k q in
      Def (q, set_x_second (Some (match h with Some x => x | None => [] end)) it, st)
    else Def (q, it, SV_OK).

(** legacy_register_nalu: legacy_h26x_auth.c:990-1000, with legacy_update_hashable_data, lines 972-987,
    for the item created for [n]. *)
Definition l_register (q : lsv) (n : nalu) : out (lsv * litem * svrc) :=
  if (n_valid n =? 0)%Z then Def (q, litem_create n, SV_OK)
  else do n2 <- update_hashable n; l_hash_item q n2 (set_x_nalu (NOk n2) (litem_create n)).

(** legacy_reset_gop_hash: legacy_h26x_common.c:161-171. *)
Definition gop_hash_reset (q : lsv) : out (lsv * svrc) :=
  let '(st, x) := hash_data C (d_handle (q_dec q)) [gop_hash_salt] in
  if is_ok st then do y <- put_at 0 (q_hashes q) x; Def (set_q_hashes y q, SV_OK) else Def (q, st).

(** Copying a hash to the slot of gop_info->nalu_hash, which legacy_gop_info_create puts
    DEFAULT_HASH_SIZE bytes behind the GOP hash (legacy_h26x_common.c:141-142), and
    legacy_update_gop_hash, legacy_h26x_common.c:615-642. *)
Definition gop_hash_add (q : lsv) (x : list N) : out (lsv * svrc) :=
  do y <- put_at default_hash_size (q_hashes q) x;
  let q := set_q_hashes y q in
  let n := (2 * hash_size C (d_handle (q_dec q)))%nat in
  if (length y <? n)%nat then Undef OobRead
  else
    let '(st, h) := hash_data C (d_handle (q_dec q)) (firstn n y) in
    if is_ok st then do y <- put_at 0 (q_hashes q) h; Def (set_q_hashes y q, SV_OK) else Def (q, st).

(** legacy_remove_used_in_gop_hash: legacy_h26x_auth.c:591-601. *)
Definition l_remove_used (l : list litem) : list litem := map (set_x_used false) l.

(** The hash of an item that a check uses, legacy_h26x_auth.c:191 and 650. *)
Definition hash_to_use (hs : nat) (it : litem) : out (list N) :=
  if x_need it then match x_second it with Some x => read_hash hs x | None => Undef NullDeref end
  else read_hash hs (x_hash it).

(** The loop of legacy_compute_gop_hash, legacy_h26x_auth.c:631-660. [k] is the number of items up to the
    SEI, counted from here, None behind it. *)
Fixpoint gop_hash_loop (hs : nat) (q : lsv) (psei : bool) (k : option nat) (l : list litem)
  : out (lsv * list litem * svrc) :=
  match l with
  | [] => Def (q, [], SV_OK)
  | it :: r =>
      let this := match k with Some O => true | _ => false end in
      let k2 := match k with Some (S j) => Some j | _ => None end in
      if negb (x_pending it)
      then do (q, r, st) <- gop_hash_loop hs q this k2 r; Def (q, it :: r, st)
      else
        do n <- deref (x_nalu it);
        let stop := psei || (n_first_in_gop n && negb (x_need it)) in
        if n_gop_sei n then
          if stop then Def (q, l, SV_OK)
          else do (q, r, st) <- gop_hash_loop hs q this k2 r; Def (q, it :: r, st)
        else
          do x <- hash_to_use hs it;
          do (q, st) <- gop_hash_add q x;
          if negb (is_ok st) then Def (q, l, st)
          else
            let it := set_x_used true it in
            if stop then Def (q, it :: r, SV_OK)
            else do (q, r, st) <- gop_hash_loop hs q this k2 r; Def (q, it :: r, st)
  end.
(** legacy_compute_gop_hash: legacy_h26x_auth.c:605-681, for the SEI at position [k]. *)
Definition l_gop_hash (q : lsv) (k : nat) : out (lsv * svrc) :=
  let hs := qhs q in
  let fail q st := Def (q_on_items l_remove_used q, st) in
  do (q, st) <- gop_hash_reset q;
  if negb (is_ok st) then fail q st
  else
    do (q, l, st) <- gop_hash_loop hs q false (Some k) (q_items q);
    let q := set_q_items l q in
    if negb (is_ok st) then fail q st
    else
      match nth_error l k with
      | None => Undef NullDeref
      | Some sei =>
          do x <- read_hash hs (x_hash sei);
          do (q, st) <- gop_hash_add q x;
          if negb (is_ok st) then fail q st
          else Def (q_on_items (set_nth k (set_x_used true)) q, SV_OK)
      end.

(** ** Verifying hashes *)

(** legacy_verify_hashes_without_sei, the loop: legacy_h26x_auth.c:426-457. The new list, the number of
    items marked, found_next_gop. *)
Fixpoint l_mark_without (l : list litem) : out (list litem * nat * bool) :=
  match l with
  | [] => Def ([], O, false)
  | it :: r =>
      if negb (x_pending it) then do (r, k, f) <- l_mark_without r; Def (it :: r, k, f)
      else
        do n <- deref (x_nalu it);
        if n_first_in_gop n && negb (x_need it)
        then Def (set_x_bad true (set_x_need true it) :: r, O, true)
        else do (r, k, f) <- l_mark_without r; Def (set_x_status SInvalid (set_x_need false it) :: r, S k, f)
  end.
(** legacy_verify_hashes_without_sei: legacy_h26x_auth.c:414-460. *)
Definition l_without (q : lsv) : out (lsv * bool) :=
  do (l, k, f) <- l_mark_without (q_items q);
  let q := set_q_items l q in
  Def (if q_signing q && (0 <? k)%nat
       then q_on_dec (fun d => set_d_counter (u32 (d_counter d + 1)) d) q else q, f).

(** The statistics of legacy_verify_hashes_with_hash_list, legacy_h26x_auth.c:159-167. *)
Record lhl := mkLhl {
  e_latest : Z;       (* latest_match_idx *)
  e_compare : Z;      (* compare_idx *)
  e_inv : Z;          (* num_invalid_nalus_since_latest_match *)
  e_num : Z;          (* num_verified_hashes *)
  e_last : option nat (* position of last_used_item *)
}.
(** The loop over the items, legacy_h26x_auth.c:170-243. [pos] is the position in the new list, [psei]
    tells that the previous item is the SEI, [k] is as in [gop_hash_loop]. *)
Fixpoint l_list_loop (hs : nat) (exp : list (list N)) (pos : nat) (psei : bool) (k : option nat) (s : lhl)
    (l : list litem) : out (lhl * list litem) :=
  match l with
  | [] => Def (s, [])
  | it :: r =>
      let this := match k with Some O => true | _ => false end in
      let k2 := match k with Some (S j) => Some j | _ => None end in
      if negb (x_pending it)
      then do (s, r) <- l_list_loop hs exp (S pos) this k2 s r; Def (s, it :: r)
      else
        do n <- deref (x_nalu it);
        let stop := psei || (n_first_in_gop n && negb (x_need it)) in
        if n_gop_sei n then
          if stop then Def (s, l)
          else do (s, r) <- l_list_loop hs exp (S pos) this k2 s r; Def (s, it :: r)
        else
          let start := (e_latest s + 1)%Z in
          let left := skipn (Z.to_nat start) exp in
          do x <- (match left with [] => Def [] | _ => hash_to_use hs it end);
          let '(i, found) := search x left start in
          if found then
            let missing := Z.to_nat (i - e_latest s - 1 - e_inv s) in
            let it := if x_has2 it && negb (x_need it) && n_first_in_gop n then set_x_need true it
                      else set_x_need false (set_x_status (if x_bad it then SInvalid else SValid) it) in
            let s := mkLhl i i 0 (e_num s + 1) (Some (pos + missing)%nat) in
            do (s, r) <- (if stop then Def (s, r)
                          else l_list_loop hs exp (S (pos + missing)) this k2 s r);
            Def (s, repeat lmissing missing ++ it :: r)
          else
            let it := if x_has2 it && negb (x_need it) then set_x_bad true (set_x_need true it)
                      else set_x_status SInvalid (set_x_need false it) in
            let s := mkLhl (e_latest s) i (e_inv s + 1) (e_num s + 1) (Some pos) in
            do (s, r) <- (if stop then Def (s, r) else l_list_loop hs exp (S pos) this k2 s r);
            Def (s, it :: r)
  end.

(** Setting the status of the SEI, found again as the next pending one: nothing in between changes the
    status of a SEI. *)
Definition on_sei (f : litem -> litem) (l : list litem) : out (list litem) :=
  do k <- l_next_sei l;
  Def (match k with Some k => set_nth k f l | None => l end).

(** legacy_verify_hashes_with_hash_list: legacy_h26x_auth.c:109-299. Result: session, success, expected,
    received. *)
Definition l_with_list (q : lsv) : out (lsv * bool * Z * Z) :=
  if (qhs q =? 0)%nat then Undef AssertFail
  else
    let exp := chunks (length (d_list (q_dec q)) / qhs q) (qhs q) (d_list (q_dec q)) in
    let num := Z.of_nat (length exp) in
    do sei <- l_next_sei (q_items q);
    match sei with
    | None => Def (q, false, -1, -1)%Z
    | Some k =>
        if (q_verified q =? 1)%Z then
          do (s, l) <- l_list_loop (qhs q) exp 0 false (Some k) (mkLhl (-1) 0 0 0 None) (q_items q);
          let none := (e_latest s =? -1)%Z in
          let valid := (e_latest s =? e_compare s)%Z in
          let app := match l with it :: _ => x_has2 it && negb (x_need it) | [] => false end in
          let unused := (num - 1 - e_latest s - 1)%Z in
          let '(l, recv) :=
            match e_last s with
            | None => (l, e_num s)
            | Some p =>
                if valid then (l_add_missing unused true p l,
                               if (0 <=? unused)%Z then (e_num s + 1)%Z else e_num s)
                else (set_nth p (fun it => set_x_need true (set_x_bad true it)) l, e_num s)
            end in
          let l := if none then l_add_missing (num - e_inv s) app 0 l else l in
          do l <- on_sei (set_x_status SValid) l;
          Def (set_q_items l q, true, num, recv)
        else
          do l <- on_sei (set_x_status (if (q_verified q =? 0)%Z then SInvalid else SErr)) (q_items q);
          do (q, f) <- l_without (set_q_items l q);
          Def (q, f, -1, -1)%Z
    end.

(** legacy_set_validation_status_of_items_used_in_gop_hash: legacy_h26x_auth.c:305-335. *)
Fixpoint l_mark_used (s : vstat) (l : list litem) : list litem * Z :=
  match l with
  | [] => ([], 0%Z)
  | it :: r =>
      let '(r, k) := l_mark_used s r in
      if x_used it then
        if x_has2 it && negb (x_need it)
        then (set_x_used false (set_x_bad (negb (vstat_eqb s SValid)) (set_x_need true it)) :: r, k)
        else (set_x_used false (set_x_need false (set_x_status (if x_bad it then SInvalid else s) it)) :: r,
              (k + 1)%Z)
      else (it :: r, k)
  end.
Fixpoint l_first_used (l : list litem) : option nat :=
  match l with
  | [] => None
  | it :: r => if x_used it then Some O else option_map S (l_first_used r)
  end.
(** legacy_verify_hashes_with_gop_hash: legacy_h26x_auth.c:349-403. *)
Definition l_with_gop (q : lsv) : out (lsv * bool * Z * Z) :=
  if (q_verified q =? 1)%Z || (q_verified q =? 0)%Z then
    let exp := Z.of_N (d_num_sent (q_dec q)) in
    let fu := l_first_used (q_items q) in
    let '(l, recv) := l_mark_used (if (q_verified q =? 1)%Z then SValid else SInvalid) (q_items q) in
    let q := set_q_items l q in
    match fu with
    | Some k =>
        if q_first q then Def (q, true, exp, recv)
        else
          match nth_error l k with
          | None => Undef NullDeref
          | Some it =>
              do n <- deref (x_nalu it);
              Def (q_on_items (l_add_missing (exp - recv) (n_first_in_gop n) k) q, true, exp, recv)
          end
    | None => Def (q, true, exp, recv)
    end
  else do (q, f) <- l_without q; Def (q, f, -1, -1)%Z.

(** legacy_validate_authenticity: legacy_h26x_auth.c:487-588. *)
Definition l_validate (q : lsv) : out lsv :=
  do (q, success, exp, recv) <-
    (if gs_lost (q_gs q) && negb (gs_trans (q_gs q))
     then do (q, f) <- l_without (q_on_items l_remove_used q); Def (q, f, -1, -1)%Z
     else if d_hash_type (q_dec q) =? 1 then l_with_list q else l_with_gop q);
  do (inv, mis, has_valid) <- l_stats (q_items q);
  let res := if (0 <? inv)%Z then NotOk else AuthOk in
  let res := if negb (q_first q) && negb (0 <? inv)%Z && (1 <? exp)%Z && (exp - 1 <=? mis)%Z then NotOk else res in
  let q := if q_first q then q else set_q_synced true q in
  let res := match res with AuthOk => if (0 <? mis)%Z && success then OkMissing else AuthOk | r => r end in
  let '(q, res, exp, recv) :=
    if q_first q then
      let res := match res with AuthOk => if has_valid then AuthOk else SigPresent | r => r end in
      match res with
      | AuthOk => (set_q_synced true q, AuthOk, exp, recv)
      | _ => (set_q_reset (d_num_sent (q_dec q) =? 1)
                (q_on_items (l_remove_missing true false false) (set_q_synced false q)),
              SigPresent, (-1)%Z, (-1)%Z)
      end
    else (q, res, exp, recv) in
  let res := if d_l_changed (q_dec q) then NotOk else res in
  Def (q_on_latest (fun l => set_l_recv recv (set_l_exp exp (set_l_auth res l))) q).

(** ** When to validate *)

(** openssl_verify_hash: signed_video_openssl.c:283-313. *)
Definition l_verify_hash (q : lsv) : lsv * svrc :=
  match d_sig (q_dec q), d_vkey (q_dec q) with
  | Some sig, Some key =>
      if d_sig_size (q_dec q) =? 0 then (set_q_verified (-1)%Z q, SV_INVALID_PARAMETER)
      else
        (set_q_verified
           (c_verify C key (firstn (N.to_nat (d_sig_size (q_dec q))) sig) (firstn (qhs q) (q_hash q))) q,
         SV_OK)
  | _, _ => (set_q_verified (-1)%Z q, SV_INVALID_PARAMETER)
  end.

(** legacy_prepare_for_validation: legacy_h26x_auth.c:693-773, without vendor code. *)
Definition l_prepare (q : lsv) : out (lsv * svrc) :=
  let hs := qhs q in
  do sei <- l_next_sei (q_items q);
  do (q, st) <-
    (match sei with
     | None => Def (q, SV_OK)
     | Some k =>
         match nth_error (q_items q) k with
         | None => Undef NullDeref
         | Some it =>
             do (q, st) <-
               (if x_decoded it then Def (q, SV_OK)
                else
                  do n <- deref (x_nalu it);
                  do (q, st) <- l_decode_sei q n;
                  if negb (is_ok st) then Def (q, st)
                  else
                    let q := q_on_items (set_nth k (set_x_decoded true)) q in
                    if d_hash_type (q_dec q) =? 1 then
                      do x <- read_hash hs (x_hash it);
                      do y <- put_at 0 (q_hash q) x;
                      Def (set_q_hash y q, SV_OK)
                    else Def (q, SV_OK));
             if negb (is_ok st) then Def (q, st)
             else if negb (x_used it) && (d_hash_type (q_dec q) =? 0) then
               do (q, st) <- l_gop_hash q k;
               if negb (is_ok st) then Def (q, st)
               else
                 do x <- read_hash hs (q_hashes q);
                 do y <- put_at 0 (q_hash q) x;
                 Def (set_q_hash y q, SV_OK)
             else Def (q, SV_OK)
         end
     end);
  if negb (is_ok st) then Def (q, st)
  else if q_signing q && negb (d_has_pub (q_dec q)) then Def (q, SV_NOT_SUPPORTED)
  else
    do golden <- (if gs_sei (q_gs q) then Def true
                  else match q_items q with
                       | [] => Undef NullDeref
                       | it :: _ => do n <- deref (x_nalu it); Def (n_golden n)
                       end);
    if golden then Def (l_verify_hash q) else Def (q, SV_OK).

(** legacy_is_recurrent_data_decoded: legacy_h26x_auth.c:776-796. *)
Fixpoint l_recurrent_loop (d : dec) (l : list litem) : out (dec * bool) :=
  match l with
  | [] => Def (d, false)
  | it :: r =>
      do o <- look (x_nalu it);
      match o with
      | Some n =>
          if n_gop_sei n && x_pending it then
            do (d, any) <- decode_optional C d (n_tlv_mem n) (n_tlv_size n);
            if any then Def (d, true) else l_recurrent_loop d r
          else l_recurrent_loop d r
      | None => l_recurrent_loop d r
      end
  end.
Definition l_recurrent (q : lsv) : out (lsv * bool) :=
  if d_has_pub (q_dec q) || negb (q_signing q) then Def (q, true)
  else do (d, b) <- l_recurrent_loop (q_dec q) (q_items q); Def (set_q_dec d q, b).

(** The loop of legacy_has_pending_gop, legacy_h26x_auth.c:816-839. *)
Fixpoint l_pending_loop (signing : bool) (s : pgst) (l : list litem) : out (pgst * bool) :=
  match l with
  | [] => Def (s, false)
  | it :: r =>
      do o <- look (x_nalu it);
      let s :=
        match o with
        | None => s
        | Some n =>
            let has := g_has s || ((0 <? n_valid n)%Z && n_hashable n && n_gop_sei n) in
            if x_pending it && n_hashable n then
              mkPg (if n_first_in_gop n && negb (x_need it) then S (g_ends s) else g_ends s)
                (g_sei s || n_gop_sei n)
                (g_after s || match g_last s with Some b => b | None => false end) (Some (n_gop_sei n)) has
            else mkPg (g_ends s) (g_sei s) (g_after s) (g_last s) has
        end in
      let found := (if signing then (0 <? g_ends s)%nat && g_sei s else (2 <=? g_ends s)%nat)
                   || g_after s in
      if found then Def (s, true) else l_pending_loop signing s r
  end.
(** legacy_has_pending_gop: legacy_h26x_auth.c:799-847. *)
Definition l_has_pending (q : lsv) : out (lsv * bool) :=
  do (s, found) <- l_pending_loop (q_signing q) (mkPg 0 false false None false) (q_items q);
  Def (set_q_gs (mkGst (g_has s) false (g_after s && (g_ends s <? 2)%nat) false
                   (negb found && match g_last s with Some b => b | None => false end)) q,
       found).

(** legacy_validation_is_feasible: legacy_h26x_auth.c:853-876, on the list in reverse. *)
Fixpoint l_after_sei (l : list litem) : out bool :=
  match l with
  | [] => Def false
  | it :: r =>
      do o <- look (x_nalu it);
      match o with
      | Some n => if n_hashable n then Def (n_gop_sei n && x_pending it) else l_after_sei r
      | None => l_after_sei r
      end
  end.
Definition l_feasible (l : list litem) : out bool :=
  match l with
  | [] => Undef NullDeref
  | it :: r =>
      do o <- look (x_nalu it);
      match o with
      | None => Def false
      | Some n =>
          if negb (n_hashable n) || negb (x_pending it) then Def false
          else if n_gop_sei n || (n_first_in_gop n && negb (x_need it)) then Def true
          else l_after_sei r
      end
  end.

(** The first item that starts a GOP is reset for another try, legacy_h26x_auth.c:936-944. *)
Fixpoint l_retry (l : list litem) : out (list litem) :=
  match l with
  | [] => Def []
  | it :: r =>
      do o <- look (x_nalu it);
      if match o with Some n => n_first_in_gop n | None => false end
      then Def (set_x_bad false (set_x_need false it) :: r)
      else do r <- l_retry r; Def (it :: r)
  end.

(** The loop of legacy_maybe_validate_gop, legacy_h26x_auth.c:912-957. [fuel] bounds the number of
    rounds; running out of it stands for not ending. *)
Fixpoint l_validate_loop (fuel : nat) (q : lsv) (stop : bool) : out (lsv * svrc) :=
  do (q, found) <- l_has_pending q;
  if negb found || stop then Def (q, SV_OK)
  else
    match fuel with
    | O => Undef Diverges
    | S fuel' =>
        let q := q_on_dec (set_d_l_changed false)
                   (q_on_latest (fun l => set_l_pend (-1)%Z (set_l_recv (-1)%Z (set_l_exp (-1)%Z
                                            (set_l_auth NotOk l)))) q) in
        do (q, st) <- l_prepare q;
        if negb (is_ok st) then Def (q, st)
        else
          do q <- (if q_signing q then l_validate q else Def (q_on_latest (set_l_auth NotSigned) q));
          let stop := negb (q_signing q) in
          let q := set_q_first (negb (q_signing q)) q in
          do q <- (if q_reset q then
                     do l <- l_retry (q_items q); Def (set_q_items l (set_q_first true q))
                   else Def q);
          let q := set_q_result true (set_q_verified (-1)%Z q) in
          l_validate_loop fuel' (q_on_latest (set_l_pend (l_num_pending (q_items q))) q) stop
    end.

(** legacy_maybe_validate_gop: legacy_h26x_auth.c:880-962. *)
Definition l_maybe_validate (fuel : nat) (q : lsv) : out (lsv * svrc) :=
  do f1 <- l_feasible (rev (q_items q));
  do (q, f2) <- l_recurrent q;
  if negb (f1 && f2) then
    if q_first_sei q then
      Def (set_q_result true (q_on_dec (set_d_l_changed false)
             (q_on_latest (fun l => set_l_pend (l_num_pending (q_items q)) (set_l_recv (-1)%Z
                                      (set_l_exp (-1)%Z (set_l_auth SigPresent l)))) q)),
           SV_OK)
    else Def (q, SV_OK)
  else l_validate_loop fuel q false.

(** ** Adding a NALU *)

(** The part of legacy_sv_add_h26x_nalu inside SV_TRY, legacy_h26x_auth.c:1020-1028. *)
Definition l_add_body (fuel : nat) (q : lsv) (n : nalu) : out (lsv * svrc) :=
  let l := q_items q in
  if (n_valid n <? 0)%Z then Def (set_q_items (l ++ [litem_create n]) q, SV_UNKNOWN_FAILURE)
  else
    let q := set_q_signing (q_signing q || n_gop_sei n)
               (set_q_first_sei (negb (q_signing q) && n_gop_sei n) q) in
    do (q, it, st) <- l_register q n;
    let q := set_q_items (l ++ [it]) q in
    if negb (is_ok st) then Def (q, st) else l_maybe_validate fuel q.

(** legacy_sv_add_h26x_nalu: legacy_h26x_auth.c:1007-1041. *)
Definition l_add_h26x (fuel : nat) (q : lsv) (data : list N) : out (lsv * svrc) :=
  do n <- parse_nalu data (q_codec q) true true;
  let q := q_on_acc (fun a => set_a_recv (u32 (a_recv a + 1)) a) (set_q_result false q) in
  do (q, st) <- l_add_body fuel q n;
  do (l, cst) <- l_copy_last (q_items q);
  let st := if is_ok st then cst else st in
  Def (set_q_items (leave (if is_ok st then l else l_mark_last SErr l)) q, st).

(** legacy_update_authenticity_report: legacy_h26x_auth.c:1079-1111. As in [update_report], this_version
    is the empty string. *)
Definition l_update_report (q : lsv) : out lsv :=
  do s <- l_nalu_str (q_items q);
  let q := q_on_latest (fun l => set_l_nstr s (set_l_vstr (l_validation_str (q_items q)) l)) q in
  let q := if (compare_versions [] (d_sver (q_dec q)) =? 2)%Z
           then q_on_latest (set_l_auth VersionMismatch) q else q in
  let '(l, k) := l_clean_up (q_items q) in
  let a := accumulate (q_latest q) (q_dec q) (q_acc q) in
  let a := match a_auth a with NotSigned => a | _ => set_a_val (u32 (a_val a + k)) a end in
  Def (set_q_acc a (set_q_items l q)).

(** signed_video_get_authenticity_report for a session that was handed over:
    signed_video_authenticity.c:304-342 with legacy_get_nalu_list_items, legacy_h26x_auth.c:1071-1076. *)
Definition l_get_report (q : lsv) : lsv * report :=
  let q := q_on_acc (fun a => set_a_pend (match a_auth a with
                                          | NotSigned => a_recv a
                                          | _ => u32 (nlen (q_items q))
                                          end) a) q in
  (q, mkReport lib_version (d_sver (q_dec q))
        (map (fun o => Some (match o with Some s => s | None => [] end)) (d_rprod (q_dec q)))
        (q_latest q) (d_l_changed (q_dec q))
        (if d_l_has_ts (q_dec q) then Some (d_l_ts (q_dec q)) else None) (q_acc q)).

(** legacy_sv_add_nalu_and_authenticate: legacy_h26x_auth.c:1043-1068. *)
Definition l_add_nalu (fuel : nat) (q : lsv) (data : list N) (want : bool) : out (lsv * svrc * option report) :=
  match data with
  | [] => Def (q, SV_INVALID_PARAMETER, None)
  | _ =>
      do (q, st) <- l_add_h26x fuel q data;
      if negb (is_ok st) then Def (q, st, None)
      else if q_result q then
        do q <- l_update_report q;
        let '(q, r) := if want then let '(q, r) := l_get_report q in (q, Some r) else (q, None) in
        Def (q_on_dec (set_d_l_has_ts false) q, SV_OK, r)
      else Def (q, SV_OK, None)
  end.

(** legacy_sv_create: legacy_h26x_common.c:843-907, with legacy_gop_info_create, lines 130-150. *)
Definition l_create (v : valid) : out (lsv * svrc) :=
  let d := v_dec v in
  let keep := d_has_pub d && match d_pub d with [] => false | _ => true end in
  let d := set_d_counter 0 (set_d_num_sent 0 (set_d_version lib_version (set_d_has_ts false (set_d_ts 0%Z
             (set_d_arb [] (set_d_pub (if keep then d_pub d else []) (set_d_has_pub keep
               (set_d_list [] (set_d_enc 0 (set_d_hash_type 0 d)))))))))) in
  gop_hash_reset
    (mkLsv (v_codec v) d (zeros 128) false (zeros 128) [] false true false false false (-1)%Z false
       (v_hash v) gstate_init (v_latest v) (v_acc v)).

(** legacy_sv_reset: legacy_h26x_common.c:910-935, with legacy_gop_info_reset, lines 151-159. *)
Definition l_reset (q : lsv) : out (lsv * svrc) :=
  gop_hash_reset
    (set_q_verified (-1)%Z (set_q_has_ref false (set_q_synced false
      (set_q_gs gstate_init (set_q_result false (set_q_first true (set_q_reset false (set_q_signing false
        (set_q_first_sei false (set_q_items [] (set_q_latest latest_init (set_q_acc accum_init
          (q_on_dec (fun d => set_d_l_ts 0%Z (set_d_l_has_ts false (set_d_l_changed false
             (set_d_list [] (set_d_handle (init_hash false (d_handle d)) d))))) q))))))))))))).

(** ** The whole session *)

(** A validating session together with the legacy session it may have created. [w_raw] are the data of
    the NALUs in the list of the session, which the list keeps as long as the hash algorithm is unknown
    (pending_nalu_data, signed_video_h26x_nalu_list.c:333-349). A session is handed over only in that
    time, when no item can be a missing one. *)
Record wsess := mkWs { w_v : valid; w_raw : list (list N); w_leg : option lsv }.

(** The loop of reregister_nalus for a session that is handed over: signed_video_h26x_auth.c:1089-1105.
    Each item comes with the data of its NALU; the last item is left out. *)
Fixpoint l_feed (fuel : nat) (q : lsv) (l : list (item * list N)) : out (lsv * svrc) :=
  match l with
  | [] => Def (q, SV_OK)
  | (it, x) :: r =>
      match i_nalu it with
      | None => Undef NullDeref
      | Some _ =>
          do (q, st, _) <- l_add_nalu fuel q x false;
          if is_ok st then l_feed fuel q r else Def (q, st)
      end
  end.

Variable Ov : ovf.

(** The last [k] of a list. *)
Definition lastn {A} (k : nat) (l : list A) : list A := skipn (length l - k) l.

(** signed_video_add_nalu_and_authenticate: signed_video_h26x_auth.c:1187-1216. When [add_nalu] says that
    the session is handed over, a legacy session is created and fed with the NALUs before the SEI (lines
    1160-1169); the copy of the SEI in the list of the session itself is made (lines 1175-1180), and the
    SEI is given to the legacy session (line 1210). A legacy session whose creation fails is freed, and
    the session goes on without; that needs a failing digest. *)
Definition w_add (fuel : nat) (w : wsess) (data : list N) (want : bool) : out (wsess * svrc * option report) :=
  match data with
  | [] => Def (w, SV_INVALID_PARAMETER, None)
  | _ =>
      match w_leg w with
      | Some q =>
          do (q, st, r) <- l_add_nalu fuel q data want;
          Def (mkWs (w_v w) (w_raw w) (Some q), st, r)
      | None =>
          do (v, x) <- add_nalu C Ov fuel (w_v w) data want;
          match x with
          | VRes st r => Def (mkWs v (lastn (length (v_items v)) (w_raw w ++ [data])) None, st, r)
          | VLegacy =>
              do (q, st) <- l_create v;
              if negb (is_ok st) then Def (mkWs (set_v_legacy false v) (w_raw w ++ [data]) None, SV_MEMORY, None)
              else
                do (q, st) <- l_feed fuel q (combine (v_items v) (w_raw w));
                do (l, cst) <- copy_last true (v_items v);
                let st := if is_ok st then cst else st in
                let v := set_v_items (if is_ok st then l else mark_last SErr l) v in
                if negb (is_ok st) then Def (mkWs v [] (Some q), st, None)
                else
                  do (q, st, r) <- l_add_nalu fuel q data want;
                  Def (mkWs v [] (Some q), st, r)
          end
      end
  end.

(** signed_video_reset: signed_video_h26x_common.c:1196-1227. The legacy session is reset and stays. *)
Definition w_reset (w : wsess) : out (wsess * svrc) :=
  match w_leg w with
  | None => Def (mkWs (vreset (w_v w)) [] None, SV_OK)
  | Some q =>
      do (q, st) <- l_reset q;
      if is_ok st then Def (mkWs (vreset (w_v w)) [] (Some q), SV_OK)
      else Def (mkWs (w_v w) (w_raw w) (Some q), st)
  end.

(** signed_video_get_authenticity_report: signed_video_authenticity.c:304-342. *)
Definition w_report (w : wsess) : wsess * option report :=
  match w_leg w with
  | None => let '(v, r) := get_report (w_v w) in (mkWs v (w_raw w) None, r)
  | Some q => let '(q, r) := l_get_report q in (mkWs (w_v w) (w_raw w) (Some q), Some r)
  end.

(** Calls of a validating session, with the same operations as [vexec]. *)
Definition wexec (fuel : nat) (w : wsess) (o : vop) : out (wsess * svrc * option report) :=
  match o with
  | VAdd data want => w_add fuel w data want
  | VSetKey key => let '(v, st) := set_public_key C (w_v w) key in Def (mkWs v (w_raw w) (w_leg w), st, None)
  | VReset => do (w, st) <- w_reset w; Def (w, st, None)
  | VGetReport => let '(w, r) := w_report w in Def (w, SV_OK, r)
  end.
Fixpoint wrun (fuel : nat) (w : wsess) (ops : list vop) : out (wsess * list (svrc * option report)) :=
  match ops with
  | [] => Def (w, [])
  | o :: r =>
      do (w, st, x) <- wexec fuel w o;
      do (w, xs) <- wrun fuel w r;
      Def (w, (st, x) :: xs)
  end.
Definition wcreate (c : codec) : wsess := mkWs (vcreate C c) [] None.

End Legacy.

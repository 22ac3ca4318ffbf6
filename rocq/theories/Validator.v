(** The validating session: adding NALUs, validating GOPs, reports, settings.
    Models signed_video_h26x_auth.c, signed_video_authenticity.c and the validating part of
    signed_video_h26x_common.c. *)
From Verif Require Import Base Epb Nalu Crypto Types Hash Tlv VTypes NaluList.
Local Open Scope N_scope.

(** What a signed overflow does. The C standard leaves it undefined ([OvfUndef]); a compiler may
    compute with unbounded integers where that saves work ([OvfIdeal], e.g. by rewriting
    x + c1 < c2 to x < c2 - c1) or wrap around ([OvfWrap]). Only detect_lost_sei depends on it. *)
Inductive ovf := OvfUndef | OvfIdeal | OvfWrap.

(** Two's complement wrap to int64_t. *)
Definition wrap64 (z : Z) : Z :=
  ((z + 9223372036854775808) mod 18446744073709551616 - 9223372036854775808)%Z.
Definition add_int64 (o : ovf) (a b : Z) : out Z :=
  let s := (a + b)%Z in
  if (s <? -9223372036854775808)%Z || (9223372036854775807 <? s)%Z then
    match o with OvfUndef => Undef SignedOverflow | OvfIdeal => Def s | OvfWrap => Def (wrap64 s) end
  else Def s.

(** gop_state_reset: signed_video_h26x_common.c:798-808. *)
Definition gstate_init : gstate := mkGst false false false false false.

(** latest_validation_init: signed_video_authenticity.c:168-188 (with d_l_* in [dec]). *)
Definition latest_init : latest := mkLatest NotSigned (-1) (-1) 0 PkNotFeasible [] [].
(** accumulated_validation_init: signed_video_authenticity.c:190-206. *)
Definition accum_init : accum := mkAccum NotSigned false 0 0 0 PkNotFeasible false 0 0.

Section Validator.
Variable C : crypto.
Variable Ov : ovf.

(** Setters through the layers. *)
Definition on_dec (f : dec -> dec) (v : valid) : valid := set_v_dec (f (v_dec v)) v.
Definition on_gs (f : gstate -> gstate) (v : valid) : valid := set_v_gs (f (v_gs v)) v.
Definition on_latest (f : latest -> latest) (v : valid) : valid := set_v_latest (f (v_latest v)) v.
Definition on_acc (f : accum -> accum) (v : valid) : valid := set_v_acc (f (v_acc v)) v.
Definition on_items (f : list item -> list item) (v : valid) : valid := set_v_items (f (v_items v)) v.

(** verify_data->hash_size. *)
Definition vhs (v : valid) : nat := d_vhs (v_dec v).

(** Reading hash_size bytes from a hash. item->second_hash has room for MAX_HASH_SIZE bytes, of which the model keeps
    those that were written (signed_video_h26x_common.c:1102-1104). *)
Definition read_hash (hs : nat) (l : list N) : out (list N) :=
  if (hs <=? length l)%nat then Def (firstn hs l) else Undef Uninit.

(** ** Hashing *)

(** update_hashable_data: signed_video_h26x_auth.c:1050-1066. *)
Definition update_hashable (n : nalu) : out nalu :=
  if negb (n_hashable n) || negb (n_gop_sei n) then Def n
  else
    do r <- tlv_find_tag (skipn (n_tlv_off n) (n_hash_mem n)) (n_tlv_size n) 5 (n_with_epb n);
    match r with
    | None => Def n
    | Some off =>
        Def (mkNalu (n_data_size n) (n_hash_mem n) (N.of_nat (n_tlv_off n) + off) (n_type n) (n_valid n)
               (n_hashable n) (n_payload_size n) (n_reserved n) (n_tlv_off n) (n_tlv_mem n)
               (n_tlv_size n) (n_epb n) (n_primary n) (n_first_in_gop n) (n_gop_sei n)
               (n_first_part n) (n_last_part n) (n_with_epb n) (n_golden n))
    end.

(** hash_and_add_for_auth: signed_video_h26x_common.c:1056-1114, on one item. The session members that
    the hash wrappers touch are taken from and stored to the session. *)
Definition hst_of (v : valid) : hst := mkHst (d_handle (v_dec v)) (v_buddies v) (v_has_ref v).
Definition put_hst (k : hst) (v : valid) : valid :=
  set_v_has_ref (k_has_ref k) (set_v_buddies (k_buddies k) (on_dec (set_d_handle (k_handle k)) v)).
Definition hash_item (v : valid) (it : item) : out (valid * item * svrc) :=
  match i_nalu it with
  | None => Def (v, it, SV_INVALID_PARAMETER)
  | Some n =>
      if negb (n_hashable n) || negb (d_algo_known (v_dec v)) then Def (v, it, SV_OK)
      else
        do (k, st, h) <- hash_wrapper C (hst_of v) n (vhs v);
        let v := put_hst k v in
        do it <- (match h with
                  | Some x => do y <- put_at 0 (i_hash it) x; Def (set_i_hash y it)
                  | None => Def it
                  end);
        if negb (is_ok st) then Def (v, it, st)
        else if n_first_in_gop n || (gs_after (v_gs v) && negb (n_gop_sei n)) then
          let v := set_v_has_ref false v in
          do (k, st, h) <- hash_wrapper C (hst_of v) n (vhs v);
          let v := put_hst k v in
          Def (v, set_i_second (Some (match h with Some x => x | None => [] end)) it, st)
        else Def (v, it, SV_OK)
  end.

(** ** Decoding a SEI *)

(** detect_lost_sei: signed_video_h26x_auth.c:101-125. *)
Definition detect_lost (v : valid) : out valid :=
  let exp := u32 (v_gop v + 1) in
  let pm := (Z.of_N (d_counter (v_dec v)) - Z.of_N exp)%Z in
  do s <- add_int64 Ov pm 9223372036854775807;
  do pm2 <- (if (s <? 9223372036854775807 / 2)%Z then add_int64 Ov pm 9223372036854775807 else Def pm);
  Def (on_gs (set_gs_lost ((0 <? pm2)%Z && v_synced v)) v).

(** decode_sei_data: signed_video_h26x_auth.c:75-96. *)
Definition decode_sei (v : valid) (n : nalu) : out (valid * svrc) :=
  do (d, st) <- tlv_decode C (v_dec v) (n_tlv_mem n) (n_tlv_size n);
  let v := set_v_dec d v in
  if negb (is_ok st) then Def (v, st)
  else
    do v <- detect_lost v;
    Def (if gs_no_end (v_gs v) && gs_lost (v_gs v) then on_gs (set_gs_trans true) v else v, SV_OK).

(** ** Linked hash and GOP hash *)

(** verify_linked_hash and verify_gop_hash: signed_video_h26x_auth.c:131-157. *)
Definition linked_ok (v : valid) : bool :=
  let l := firstn (vhs v) (v_links v) in
  bytes_eqb l (zeros (vhs v)) || bytes_eqb l (firstn (vhs v) (d_linked (v_dec v))).
Definition gop_ok (v : valid) : bool :=
  bytes_eqb (firstn (vhs v) (v_computed v)) (firstn (vhs v) (d_gop (v_dec v))).

(** update_linked_hash: signed_video_h26x_common.c:863-882. *)
Definition update_links (v : valid) (h : option (list N)) : out valid :=
  match h with
  | None => Def v
  | Some h =>
      do x <- read_hash (vhs v) h;
      do l <- shift_linked (vhs v) (v_links v) x;
      Def (set_v_links l v)
  end.

(** update_link_hash_for_auth: signed_video_h26x_auth.c:164-181. The position of the first item used in
    the GOP hash that starts a GOP. *)
Fixpoint find_link (l : list item) : out (option nat) :=
  match l with
  | [] => Def None
  | it :: r =>
      if i_used it then
        match i_nalu it with
        | None => Undef NullDeref
        | Some n =>
            if n_first_in_gop n then Def (Some O)
            else do o <- find_link r; Def (option_map S o)
        end
      else do o <- find_link r; Def (option_map S o)
  end.
Definition set_nth {A} (k : nat) (f : A -> A) (l : list A) : list A :=
  match skipn k l with
  | [] => l
  | x :: r => firstn k l ++ f x :: r
  end.
Definition update_link (v : valid) : out valid :=
  do o <- find_link (v_items v);
  match o with
  | None => Def v
  | Some k =>
      match nth_error (v_items v) k with
      | None => Def v
      | Some it =>
          if i_linked it then Def v
          else
            do v <- update_links v (i_second it);
            Def (on_items (set_nth k (set_i_linked true)) v)
      end
  end.

(** remove_used_in_gop_hash: signed_video_h26x_auth.c:725-735. *)
Definition remove_used (l : list item) : list item := map (set_i_used false) l.

(** The loop of prepare_for_link_and_gop_hash_verification, signed_video_h26x_auth.c:204-236. [sei] tells
    whether a SEI item was given and not yet met; it is the first pending SEI of the list. *)
Fixpoint gop_loop (hs : nat) (h : handle) (is : nat) (num : nat) (l : list item)
  : out (handle * list item * svrc) :=
  match l with
  | [] => Def (h, [], SV_OK)
  | it :: r =>
      if negb (pending it) then do (h, r2, st) <- gop_loop hs h is num r; Def (h, it :: r2, st)
      else
        match i_nalu it with
        | None => Undef NullDeref
        | Some n =>
            let is := if n_first_in_gop n then S is else is in
            if (1 <? is)%nat then Def (h, l, SV_OK)
            else if n_first_in_gop n && (0 <? num)%nat then Def (h, l, SV_OK)
            else if n_gop_sei n then Def (h, l, SV_OK)
            else
              let add := if n_first_in_gop n then i_second it else Some (i_hash it) in
              match add with
              | None => Def (h, l, SV_INVALID_PARAMETER)
              | Some x =>
                  do x <- read_hash hs x;
                  let '(h, st) := update_hash true x h in
                  if negb (is_ok st) then Def (h, l, st)
                  else
                    do (h, r2, st) <- gop_loop hs h is (S num) r;
                    Def (h, set_i_used true it :: r2, st)
              end
        end
  end.
(** prepare_for_link_and_gop_hash_verification: signed_video_h26x_auth.c:183-250. *)
Definition prepare_gop (v : valid) : out (valid * svrc) :=
  do (h, l, st) <- gop_loop (vhs v) (init_hash true (d_handle (v_dec v))) 0 0 (v_items v);
  let v := set_v_items l (on_dec (set_d_handle h) v) in
  if negb (is_ok st) then Def (on_items remove_used v, st)
  else
    let '(h, st, x) := finalize_hash C true h in
    let v := on_dec (set_d_handle h) v in
    if negb (is_ok st) then Def (on_items remove_used v, st)
    else do y <- put_at 0 (v_computed v) x; Def (set_v_computed y v, SV_OK).

(** ** Verifying hashes *)

(** verify_hashes_without_sei, the loop: signed_video_h26x_auth.c:565-583. The new list, the number of
    items marked, found_next_gop. *)
Fixpoint mark_without (l : list item) : out (list item * nat * bool) :=
  match l with
  | [] => Def ([], O, false)
  | it :: r =>
      if negb (pending it) then do (r2, k, f) <- mark_without r; Def (it :: r2, k, f)
      else
        match i_nalu it with
        | None => Undef NullDeref
        | Some n =>
            if n_gop_sei n then Def (l, O, false)
            else
              let it2 := set_i_status SInvalid it in
              match r with
              | [] => Def ([it2], 1%nat, false)
              | nx :: _ =>
                  match i_nalu nx with
                  | None => Undef NullDeref
                  | Some m =>
                      if n_first_in_gop m && negb (i_linked nx) then Def (it2 :: r, 1%nat, true)
                      else do (r2, k, f) <- mark_without r; Def (it2 :: r2, S k, f)
                  end
              end
        end
  end.
(** verify_hashes_without_sei: signed_video_h26x_auth.c:549-590. *)
Definition verify_without (v : valid) : out (valid * bool) :=
  do (l, k, f) <- mark_without (v_items v);
  let v := set_v_items l v in
  Def (if v_signing v && (0 <? k)%nat then set_v_gop (u32 (v_gop v + 1)) v else v, f).

(** The statistics of verify_hashes_with_hash_list, signed_video_h26x_auth.c:316-325. *)
Record hlst := mkHl {
  h_latest : Z;       (* latest_match_idx *)
  h_compare : Z;      (* compare_idx *)
  h_inv : Z;          (* num_invalid_nalus_since_latest_match *)
  h_num : Z;          (* num_verified_hashes *)
  h_order : bool;     (* order_ok *)
  h_last : option nat (* position of last_used_item *)
}.
(** The search for a match, signed_video_h26x_auth.c:352-382: the first index from [i] on with an equal
    hash, or the end of the list. [exp] are the hashes from index [i] on. *)
Fixpoint search (x : list N) (exp : list (list N)) (i : Z) : Z * bool :=
  match exp with
  | [] => (i, false)
  | e :: r => if bytes_eqb x e then (i, true) else search x r (i + 1)%Z
  end.
(** The loop over the items, signed_video_h26x_auth.c:329-398. [pos] is the position in the new list,
    [psei] tells that the previous item is the SEI (first pending SEI), [seen] that it has been
    passed. *)
Fixpoint hl_loop (hs : nat) (exp : list (list N)) (pos : nat) (psei seen : bool) (s : hlst)
    (l : list item) : out (hlst * list item) :=
  match l with
  | [] => Def (s, [])
  | it :: r =>
      let this := negb seen && item_sei it && pending it in
      if negb (pending it) || negb (i_used it) then
        do (s, r2) <- hl_loop hs exp (S pos) this (seen || this) s r; Def (s, it :: r2)
      else
        match i_nalu it with
        | None => Undef NullDeref
        | Some n =>
            let next_gop := n_first_in_gop n && negb (i_linked it) in
            if n_gop_sei n || next_gop
            then Def (mkHl (h_latest s) (h_compare s) (h_inv s) (h_num s) (h_order s) (Some pos), l)
            else
              match (if n_first_in_gop n then i_second it else Some (i_hash it)) with
              | None => Undef NullDeref
              | Some x =>
                  do x <- read_hash hs x;
                  let start := (h_latest s + 1)%Z in
                  let '(i, found) := search x (skipn (Z.to_nat start) exp) start in
                  if found then
                    let missing := Z.to_nat (i - h_latest s - 1 - h_inv s) in
                    let it2 := set_i_status (if h_order s then SValid else SInvalid) it in
                    let s2 := mkHl i i 0 (h_num s + 1) true (Some (pos + missing)%nat) in
                    do (s3, r2) <- (if psei then Def (s2, r)
                                    else hl_loop hs exp (S (pos + missing)) this (seen || this) s2 r);
                    Def (s3, repeat missing_item missing ++ it2 :: r2)
                  else
                    let s2 := mkHl (h_latest s) i (h_inv s + 1) (h_num s + 1) (h_order s) (Some pos) in
                    do (s3, r2) <- (if psei then Def (s2, r)
                                    else hl_loop hs exp (S pos) this (seen || this) s2 r);
                    Def (s3, set_i_status SInvalid it :: r2)
              end
        end
  end.
(** The hashes in a hash list: memory cut in pieces of hash_size bytes, an incomplete last piece left
    out. *)
Fixpoint chunks (k : nat) (hs : nat) (l : list N) : list (list N) :=
  match k with
  | O => []
  | S k' => firstn hs l :: chunks k' hs (skipn hs l)
  end.
Definition expected_hashes (v : valid) : list (list N) :=
  chunks (length (d_list (v_dec v)) / vhs v) (vhs v) (d_list (v_dec v)).

(** verify_hashes_with_hash_list: signed_video_h26x_auth.c:265-428, for verified_signature_hash = 1, the
    only case in which it is called. Result: session, success, expected, received. *)
Definition verify_list (v : valid) (order : bool) : out (valid * bool * Z * Z) :=
  if (vhs v =? 0)%nat then Undef AssertFail
  else
    let exp := expected_hashes v in
    let num := Z.of_nat (length exp) in
    match next_sei (v_items v) with
    | None => Def (v, false, -1, -1)%Z
    | Some _ =>
        do (s, l) <- hl_loop (vhs v) exp 0 false false (mkHl (-1) 0 0 0 order None) (v_items v);
        do l <- (if (h_latest s =? -1)%Z then
                   match l with
                   | [] => Undef NullDeref
                   | it :: _ =>
                       Def (add_missing (num - h_inv s)
                              (match i_second it with Some _ => true | None => false end) 0 l)
                   end
                 else Def l);
        let l := if (h_latest s =? h_compare s)%Z then
                   match h_last s with
                   | Some k => add_missing (num - 1 - h_latest s) true k l
                   | None => l
                   end
                 else l in
        let l := on_next_sei (set_i_status SValid) l in
        Def (set_v_items l v, true, num, h_num s)
    end.

(** set_validation_status_of_pending_items_used_in_gop_hash: signed_video_h26x_auth.c:433-462, with a SEI
    item. First the items before the check of the SEI. *)
Fixpoint mark_used (s : vstat) (l : list item) : out (list item * Z) :=
  match l with
  | [] => Def ([], 0%Z)
  | it :: r =>
      do (r2, k) <- mark_used s r;
      if i_used it && pending it then
        match i_nalu it with
        | None => Undef NullDeref
        | Some n => Def (set_i_status s it :: r2, if n_gop_sei n then k else (k + 1)%Z)
        end
      else Def (it :: r2, k)
  end.

Fixpoint first_used (l : list item) : option nat :=
  match l with
  | [] => None
  | it :: r => if i_used it then Some O else option_map S (first_used r)
  end.

(** verify_hashes_with_sei: signed_video_h26x_auth.c:483-541. It ends with (status == SV_OK) where
    status is still SV_UNKNOWN_FAILURE, hence false. *)
Definition verify_with (v : valid) : out (valid * bool * Z * Z) :=
  let order := linked_ok v in
  let ok := gop_ok v && order in
  let finish (v : valid) (s : vstat) (exp : Z) :=
    let fu := first_used (v_items v) in
    do (v, num) <- (if (v_verified v =? 1)%Z then
                      match next_sei (v_items v) with
                      | None => Def (v, (-1)%Z)
                      | Some _ =>
                          do (l, k) <- mark_used s (v_items v);
                          Def (set_v_items (on_next_sei (set_i_status SValid) l) v, k)
                      end
                    else do (l, k) <- mark_used s (v_items v); Def (set_v_items l v, k));
    match fu with
    | Some k =>
        if v_first v then Def (v, false, exp, num)
        else
          match nth_error (v_items v) k with
          | Some it =>
              match i_nalu it with
              | None => Undef NullDeref
              | Some n => Def (on_items (add_missing (exp - num) (n_first_in_gop n) k) v, false, exp, num)
              end
          | None => Def (v, false, exp, num)
          end
    | None => Def (v, false, exp, num)
    end in
  if (v_verified v =? 1)%Z then
    if negb ok && (0 <? nlen (d_list (v_dec v))) then verify_list v order
    else finish v (if ok then SValid else SInvalid) (Z.of_N (d_num_sent (v_dec v)))
  else
    match next_sei (v_items v) with
    | None => Undef NullDeref
    | Some _ =>
        if (v_verified v =? 0)%Z then
          finish (on_items (on_next_sei (set_i_status SInvalid)) v) SInvalid (-1)%Z
        else
          do (v, f) <- verify_without (on_items remove_used (on_items (on_next_sei (set_i_status SErr)) v));
          Def (v, f, -1, -1)%Z
    end.

(** validate_authenticity: signed_video_h26x_auth.c:614-722. *)
Definition validate (v : valid) : out valid :=
  do (v, success, exp, recv) <-
    (if gs_lost (v_gs v) && negb (gs_trans (v_gs v))
     then do (v, f) <- verify_without v; Def (v, f, -1, -1)%Z
     else do (v, f, e, r) <- verify_with v; Def (set_v_gop (d_counter (v_dec v)) v, f, e, r));
  let '(inv, mis, has_valid) := get_stats (v_items v) in
  let v := on_items remove_used v in
  let res := if (0 <? inv)%Z then NotOk else AuthOk in
  let res := if negb (v_first v) && negb (0 <? inv)%Z && (1 <? exp)%Z && (exp <=? mis)%Z then NotOk else res in
  let v := if v_first v then v else set_v_synced true v in
  let res := match res with AuthOk => if (0 <? mis)%Z && success then OkMissing else AuthOk | r => r end in
  let '(v, res, exp, recv) :=
    if v_first v then
      let res := match res with AuthOk => if has_valid then AuthOk else SigPresent | r => r end in
      match res with
      | AuthOk => (set_v_synced true v, AuthOk, exp, recv)
      | _ => (on_items remove_missing_items (set_v_synced false v), SigPresent, (-1)%Z, (-1)%Z)
      end
    else (v, res, exp, recv) in
  let res := if d_l_changed (v_dec v) then NotOk else res in
  let old := l_auth (v_latest v) in
  let auth := if (ar_n old <=? 1) || (ar_n res <? ar_n old) then res else old in
  let lexp := if gs_lost (v_gs v) then (-1)%Z
              else if (l_exp (v_latest v) =? -1)%Z then (-1)%Z else (l_exp (v_latest v) + exp)%Z in
  Def (on_latest (fun l => set_l_exp lexp (set_l_recv (l_recv l + recv)%Z (set_l_auth auth l))) v).

(** ** When to validate *)

(** openssl_verify_hash: signed_video_openssl.c:283-313. *)
Definition verify_hash (v : valid) : valid * svrc :=
  match d_sig (v_dec v), d_vkey (v_dec v) with
  | Some sig, Some key =>
      if d_sig_size (v_dec v) =? 0 then (set_v_verified (-1)%Z v, SV_INVALID_PARAMETER)
      else
        (set_v_verified
           (c_verify C key (firstn (N.to_nat (d_sig_size (v_dec v))) sig) (firstn (vhs v) (v_hash v))) v,
         SV_OK)
  | _, _ => (set_v_verified (-1)%Z v, SV_INVALID_PARAMETER)
  end.

(** prepare_for_validation: signed_video_h26x_auth.c:776-844, without vendor code. *)
Definition prepare (v : valid) : out (valid * svrc) :=
  let hs := vhs v in
  do (v, st) <-
    (match next_sei (v_items v) with
     | None => Def (v, SV_OK)
     | Some it =>
         match i_nalu it with
         | None => Undef NullDeref
         | Some n =>
             do (v, st) <-
               (if i_decoded it then Def (v, SV_OK)
                else
                  do (v, st) <- decode_sei (on_dec (set_d_l_changed false) v) n;
                  if negb (is_ok st) then Def (v, st)
                  else
                    do x <- read_hash hs (i_hash it);
                    do y <- put_at 0 (v_hash v) x;
                    Def (set_v_hash y (on_items (on_next_sei (set_i_decoded true)) v), SV_OK));
             if negb (is_ok st) then Def (v, st)
             else do v <- detect_lost v; prepare_gop v
         end
     end);
  if negb (is_ok st) then Def (v, st)
  else if v_signing v && negb (d_has_pub (v_dec v)) then Def (v, SV_NOT_SUPPORTED)
  else if gs_sei (v_gs v) then Def (verify_hash v)
  else Def (v, SV_OK).

(** prepare_golden_sei: signed_video_h26x_auth.c:741-765. [l] are the items before the SEI [it]. *)
Definition prepare_golden (v : valid) (l : list item) (it : item) : out (valid * svrc) :=
  match i_nalu it with
  | None => Undef NullDeref
  | Some n =>
      do (v, st) <- decode_sei v n;
      if negb (is_ok st) then Def (v, st)
      else
        let it := set_i_decoded true it in
        do (v, it, st) <- hash_item v it;
        let v := set_v_items (l ++ [it]) v in
        if negb (is_ok st) then Def (v, st)
        else
          do x <- read_hash (vhs v) (i_hash it);
          do y <- put_at 0 (v_hash v) x;
          prepare (on_gs (set_gs_sei true) (set_v_hash y v))
  end.

(** is_recurrent_data_decoded: signed_video_h26x_auth.c:847-867. *)
Fixpoint recurrent_loop (d : dec) (l : list item) : out (dec * bool) :=
  match l with
  | [] => Def (d, false)
  | it :: r =>
      match i_nalu it with
      | Some n =>
          if n_gop_sei n && pending it then
            do (d, any) <- decode_optional C d (n_tlv_mem n) (n_tlv_size n);
            if any then Def (d, true) else recurrent_loop d r
          else recurrent_loop d r
      | None => recurrent_loop d r
      end
  end.
Definition recurrent_decoded (v : valid) : out (valid * bool) :=
  if d_has_pub (v_dec v) || negb (v_signing v) then Def (v, true)
  else do (d, b) <- recurrent_loop (v_dec v) (v_items v); Def (set_v_dec d v, b).

(** The loop of has_pending_gop, signed_video_h26x_auth.c:888-908. *)
Record pgst := mkPg {
  g_ends : nat;         (* num_pending_gop_ends *)
  g_sei : bool;         (* found_pending_gop_sei *)
  g_after : bool;       (* found_pending_nalu_after_gop_sei *)
  g_last : option bool; (* last_hashable_item, reduced to is_gop_sei *)
  g_has : bool          (* gop_state.has_sei *)
}.
Fixpoint pending_loop (signing : bool) (s : pgst) (l : list item) : pgst * bool :=
  match l with
  | [] => (s, false)
  | it :: r =>
      let s :=
        match i_nalu it with
        | None => s
        | Some n =>
            let has := g_has s || ((0 <? n_valid n)%Z && n_hashable n && n_gop_sei n) in
            if pending it && n_hashable n then
              mkPg (if n_first_in_gop n then S (g_ends s) else g_ends s) (g_sei s || n_gop_sei n)
                (g_after s || match g_last s with Some b => b | None => false end) (Some (n_gop_sei n)) has
            else mkPg (g_ends s) (g_sei s) (g_after s) (g_last s) has
        end in
      let found := (if signing then (0 <? g_ends s)%nat && g_sei s else (2 <=? g_ends s)%nat)
                   || g_after s in
      if found then (s, true) else pending_loop signing s r
  end.
(** has_pending_gop: signed_video_h26x_auth.c:870-915. *)
Definition has_pending (v : valid) : valid * bool :=
  let '(s, found) := pending_loop (v_signing v) (mkPg 0 false false None false) (v_items v) in
  (set_v_gs (mkGst (g_has s) false (g_after s && (g_ends s <? 2)%nat) false
               (negb found && match g_last s with Some b => b | None => false end)) v,
   found).

(** validation_is_feasible: signed_video_h26x_auth.c:924-938. *)
Definition feasible (it : item) : bool :=
  match i_nalu it with
  | None => false
  | Some n => negb (n_golden n) && n_hashable n && pending it && (n_gop_sei n || n_first_in_gop n)
  end.

(** The loop of maybe_validate_gop, signed_video_h26x_auth.c:995-1031. [fuel] bounds the number of
    rounds; running out of it stands for not ending. *)
Fixpoint validate_loop (fuel : nat) (v : valid) (stop : bool) : out (valid * svrc) :=
  let '(v, found) := has_pending v in
  if negb found || stop then Def (v, SV_OK)
  else
    match fuel with
    | O => Undef Diverges
    | S fuel' =>
        let v := if v_result v then v
                 else on_latest (fun l => set_l_pend (-1)%Z (set_l_recv 0%Z (set_l_exp 0%Z
                                            (set_l_auth SigPresent l)))) v in
        do (v, st) <- prepare v;
        if negb (is_ok st) then Def (v, st)
        else
          do v <- update_link v;
          do v <- (if v_signing v then validate v else Def (on_latest (set_l_auth NotSigned) v));
          let stop := negb (v_signing v) in
          let v := set_v_result true (set_v_verified (-1)%Z (set_v_first (negb (v_signing v)) v)) in
          validate_loop fuel' (on_latest (set_l_pend (num_pending (v_items v))) v) stop
    end.

(** maybe_validate_gop: signed_video_h26x_auth.c:942-1042, in a session without legacy code. [n] is the
    NALU just added. *)
Definition maybe_validate (fuel : nat) (v : valid) (n : nalu) : out (valid * svrc) :=
  let f1 := match rev (v_items v) with it :: _ => feasible it | [] => false end in
  do (v, f2) <- recurrent_decoded v;
  if negb (f1 && f2) then
    if v_first_sei v then
      let v :=
        if n_golden n then
          if (v_verified v =? 1)%Z
          then on_latest (set_l_auth SigPresent) (on_items (mark_last SValid) v)
          else on_dec (set_d_has_pub false)
                 (on_latest (set_l_auth NotOk)
                    (on_items (mark_last (if (v_verified v =? 0)%Z then SInvalid else SErr)) v))
        else on_dec (set_d_l_changed false) (on_latest (set_l_auth SigPresent) v) in
      Def (set_v_result true
             (on_latest (fun l => set_l_pend (num_pending (v_items v)) (set_l_recv (-1)%Z (set_l_exp (-1)%Z l))) v),
           SV_OK)
    else Def (v, SV_OK)
  else validate_loop fuel v false.

(** ** Adding a NALU *)

(** register_nalu: signed_video_h26x_auth.c:1068-1078, for the item created for [n]. *)
Definition register (v : valid) (n : nalu) : out (valid * item * svrc) :=
  if (n_valid n =? 0)%Z then Def (v, item_create n, SV_OK)
  else do n2 <- update_hashable n; hash_item v (set_i_nalu (Some n2) (item_create n)).

(** Hashing all items of a list: the loop of reregister_nalus, signed_video_h26x_auth.c:1081-1118. The
    status starts as SV_UNKNOWN_FAILURE and stays so if no item is hashed. *)
Fixpoint rehash (v : valid) (l : list item) (st : svrc) : out (valid * list item * svrc) :=
  match l with
  | [] => Def (v, [], st)
  | it :: r =>
      match i_nalu it with
      | None => Undef NullDeref
      | Some n =>
          if (n_valid n <=? 0)%Z then do (v, r2, st) <- rehash v r st; Def (v, it :: r2, st)
          else
            do (v, it, st) <- hash_item v it;
            if negb (is_ok st) then Def (v, it :: r, st)
            else do (v, r2, st) <- rehash v r st; Def (v, it :: r2, st)
      end
  end.
Definition reregister (v : valid) : out (valid * svrc) :=
  do (v, l, st) <- rehash v (v_items v) SV_UNKNOWN_FAILURE;
  Def (set_v_items l v, st).

(** The last item and the items before it. *)
Definition split_last (l : list item) : option (list item * item) :=
  match rev l with
  | [] => None
  | it :: r => Some (rev r, it)
  end.

(** The part of signed_video_add_h26x_nalu inside SV_TRY, signed_video_h26x_auth.c:1141-1171, after the
    NALU [n] was appended to the items [l]. If the session turns to the legacy code, that flag is set;
    what follows is in Legacy.v. *)
Definition add_body (fuel : nat) (v : valid) (n : nalu) : out (valid * svrc) :=
  let l := v_items v in
  if (n_valid n <? 0)%Z then Def (set_v_items (list_append l n) v, SV_UNKNOWN_FAILURE)
  else
    let v := set_v_signing (v_signing v || n_gop_sei n)
               (set_v_first_sei (negb (v_signing v) && n_gop_sei n) v) in
    do (v, it, st) <- register v n;
    let v := set_v_items (l ++ [it]) v in
    if negb (is_ok st) then Def (v, st)
    else
      do (v, st) <-
        (if negb (d_algo_known (v_dec v)) && v_signing v then
           do (v, b) <- recurrent_decoded v;
           if negb b then Def (v, SV_OK)
           else
             let v := on_dec (set_d_algo_known true) v in
             do (v, st) <- (if n_golden n then prepare_golden v l it else Def (v, SV_OK));
             if negb (is_ok st) then Def (v, st)
             else if (N.land (n_reserved n) 48 =? 0) && negb (n_golden n)
             then Def (set_v_legacy true (set_v_acc accum_init v), SV_OK)
             else reregister v
         else Def (v, SV_OK));
      if negb (is_ok st) || v_legacy v then Def (v, st)
      else maybe_validate fuel v n.

(** signed_video_add_h26x_nalu: signed_video_h26x_auth.c:1125-1185. *)
Definition add_h26x (fuel : nat) (v : valid) (data : list N) : out (valid * svrc) :=
  do n <- parse_nalu data (v_codec v) true true;
  let v := on_acc (fun a => set_a_recv (u32 (a_recv a + 1)) a) (set_v_result false v) in
  do (v, st) <- add_body fuel v n;
  if v_legacy v then Def (v, st)
  else
    do (l, cst) <- copy_last (d_algo_known (v_dec v)) (v_items v);
    let st := if is_ok st then cst else st in
    Def (set_v_items (if is_ok st then l else mark_last SErr l) v, st).

(** ** Reports *)

(** signed_video_compare_versions on versions already read from their strings, None for a string that is
    not a version: signed_video_h26x_common.c:1269-1292. *)
Definition compare_versions (a b : list N) : Z :=
  match a, b with
  | [a1; a2; a3], [b1; b2; b3] =>
      let r := if negb (a1 =? b1) then (Z.of_N a1 - Z.of_N b1)%Z
               else if negb (a2 =? b2) then (Z.of_N a2 - Z.of_N b2)%Z
               else (Z.of_N a3 - Z.of_N b3)%Z in
      if (r =? 0)%Z then 0%Z else if (0 <? r)%Z then 1%Z else 2%Z
  | _, _ => (-1)%Z
  end.

(** update_accumulated_validation: signed_video_authenticity.c:221-250. *)
Definition accumulate (l : latest) (d : dec) (a : accum) : accum :=
  let auth := if (ar_n (a_auth a) <=? 1) || (ar_n (l_auth l) <? ar_n (a_auth a))
              then l_auth l else a_auth a in
  let pkv := match a_pkv a with PkNotOk => PkNotOk | _ => l_pkv l end in
  mkAccum auth (a_changed a || d_l_changed d) (a_recv a) (a_val a) (a_pend a) pkv
    (a_has_ts a || d_l_has_ts d)
    (if d_l_has_ts d && negb (a_has_ts a) then d_l_ts d else a_first a)
    (if d_l_has_ts d then d_l_ts d else a_last a).

(** update_authenticity_report: signed_video_authenticity.c:252-287. The member this_version of the
    session's own report is allocated as an empty string and never written (only the copy handed to the
    user gets the version, line 154), so the comparison sees the empty string. *)
Definition update_report (v : valid) : valid :=
  let v := on_latest (fun l => set_l_nstr (nalu_str (v_items v)) (set_l_vstr (validation_str (v_items v)) l)) v in
  let v := if (compare_versions [] (d_sver (v_dec v)) =? 2)%Z
           then on_latest (set_l_auth VersionMismatch) v else v in
  let '(l, k) := clean_up (v_items v) in
  let a := accumulate (v_latest v) (v_dec v) (v_acc v) in
  let a := match a_auth a with NotSigned => a | _ => set_a_val (u32 (a_val a + k)) a end in
  set_v_acc a (set_v_items l v).

(** The report handed to the user: signed_video_authenticity_t, includes/signed_video_auth.h. *)
Record report := mkReport {
  p_this : list N;                    (* this_version *)
  p_sver : list N;                    (* version_on_signing_side *)
  p_prod : list (option (list N));    (* product_info *)
  p_latest : latest;                  (* latest_validation *)
  p_changed : bool;                   (* latest_validation.public_key_has_changed *)
  p_ts : option Z;                    (* latest_validation.timestamp, if has_timestamp *)
  p_acc : accum                       (* accumulated_validation *)
}.

(** signed_video_get_authenticity_report: signed_video_authenticity.c:304-342, with
    transfer_authenticity, lines 140-163. *)
Definition get_report (v : valid) : valid * option report :=
  if negb (v_report v) then (v, None)
  else
    let v := on_acc (fun a => set_a_pend (match a_auth a with
                                          | NotSigned => a_recv a
                                          | _ => u32 (nlen (v_items v))
                                          end) a) v in
    (v, Some (mkReport lib_version (d_sver (v_dec v))
                (map (fun o => Some (match o with Some s => s | None => [] end)) (d_rprod (v_dec v)))
                (v_latest v) (d_l_changed (v_dec v))
                (if d_l_has_ts (v_dec v) then Some (d_l_ts (v_dec v)) else None) (v_acc v))).

(** ** The API *)

(** The result of an API call: return code and report, or the session has been handed to the legacy
    validation code, which is modelled in Legacy.v. *)
Inductive vres := VRes (st : svrc) (r : option report) | VLegacy.

(** create_local_authenticity_report_if_needed: signed_video_authenticity.c:348-372. *)
Definition create_report (v : valid) : valid :=
  if v_report v then v
  else
    set_v_report true
      (set_v_latest latest_init
         (set_v_acc accum_init
            (on_dec (fun d => set_d_l_ts 0%Z (set_d_l_has_ts false (set_d_l_changed false
                       (set_d_sver []
                          (set_d_rprod (map (fun o => Some (match o with Some s => s | None => [] end))
                                          (d_prod d)) d))))) v))).

(** signed_video_add_nalu_and_authenticate: signed_video_h26x_auth.c:1187-1216. [want] tells if the user
    asks for the report. *)
Definition add_nalu (fuel : nat) (v : valid) (data : list N) (want : bool) : out (valid * vres) :=
  match data with
  | [] => Def (v, VRes SV_INVALID_PARAMETER None)
  | _ =>
      let v := create_report (set_v_started true v) in
      if v_legacy v then Def (v, VLegacy)
      else
        do (v, st) <- add_h26x fuel v data;
        if v_legacy v then Def (v, VLegacy)
        else if negb (is_ok st) then Def (v, VRes st None)
        else if v_result v then
          let v := update_report v in
          let '(v, r) := if want then get_report v else (v, None) in
          Def (on_dec (set_d_l_has_ts false) v, VRes SV_OK r)
        else Def (v, VRes SV_OK None)
  end.

(** signed_video_set_public_key: signed_video_h26x_auth.c:1218-1240, with openssl_public_key_malloc,
    signed_video_openssl.c. *)
Definition set_public_key (v : valid) (key : list N) : valid * svrc :=
  match key with
  | [] => (v, SV_INVALID_PARAMETER)
  | _ =>
      match d_pub (v_dec v) with
      | _ :: _ => (v, SV_NOT_SUPPORTED)
      | [] =>
          if v_started v then (v, SV_NOT_SUPPORTED)
          else
            let v := on_dec (set_d_pub key) v in
            if c_pub_ok C key
            then (on_dec (fun d => set_d_has_pub true (set_d_vkey (Some key) d)) v, SV_OK)
            else (v, SV_EXTERNAL_ERROR)
      end
  end.

(** signed_video_create: signed_video_h26x_common.c:1117-1194. *)
Definition dec_init : dec :=
  mkDec 0 0 lib_version [] false 0 (zeros 64) (zeros 64) [None; None; None; None; None] [] [] [] false
    None [] None 0 0 0 handle_create false (hash_size C handle_create) false 0 false.
Definition vcreate (c : codec) : valid :=
  mkValid c dec_init (zeros 128) false [] false true false false (-1) 0 false (zeros 64) (zeros 128)
    (zeros 64) gstate_init false false latest_init accum_init false.

(** signed_video_reset: signed_video_h26x_common.c:1196-1227, with gop_info_reset, lines 255-262. For a
    session in legacy mode the legacy session is reset as well and stays. *)
Definition vreset (v : valid) : valid :=
  set_v_verified (-1)%Z (set_v_has_ref false (set_v_synced false
   (set_v_gs gstate_init (set_v_result false (set_v_first true (set_v_signing false (set_v_first_sei false
     (set_v_items [] (set_v_links (zeros 128)
       (set_v_latest latest_init (set_v_acc accum_init
         (on_dec (fun d => set_d_l_ts 0%Z (set_d_l_has_ts false (set_d_l_changed false
                    (set_d_algo_known false (set_d_list []
                      (set_d_handle (init_hash false (d_handle d)) d)))))) v)))))))))))).

(** Calls of a validating session. *)
Inductive vop :=
| VAdd (data : list N) (want : bool)
| VSetKey (key : list N)
| VReset
| VGetReport.
Definition vexec (fuel : nat) (v : valid) (o : vop) : out (valid * vres) :=
  match o with
  | VAdd data want => add_nalu fuel v data want
  | VSetKey key => let '(v, st) := set_public_key v key in Def (v, VRes st None)
  | VReset => Def (vreset v, VRes SV_OK None)
  | VGetReport =>
      if v_legacy v then Def (v, VLegacy)
      else let '(v, r) := get_report v in Def (v, VRes SV_OK r)
  end.
Fixpoint vrun (fuel : nat) (v : valid) (ops : list vop) : out (valid * list vres) :=
  match ops with
  | [] => Def (v, [])
  | o :: r =>
      do (v, x) <- vexec fuel v o;
      do (v, xs) <- vrun fuel v r;
      Def (v, x :: xs)
  end.

End Validator.

(** Hashing of NALUs, hash list and linked hash.
    Models signed_video_h26x_common.c:812-1054. *)
From Verif Require Import Base Epb Nalu Crypto Types.

(** memcpy of [src] to offset [off] of the fixed array [dst]. *)
Definition put_at (off : nat) (dst src : list N) : out (list N) :=
  if (off + length src <=? length dst)%nat
  then Def (firstn off dst ++ src ++ skipn (off + length src) dst) else Undef OobWrite.

(** HASH_LIST_SIZE: signed_video_internal.h:76-78, the default hash_list_size. *)
Definition hash_list_size : N := 19200%N.

Section Hash.
Variable C : crypto.

(** update_hash: signed_video_h26x_common.c:909-922, including the check for empty data in
    openssl_update_hash. *)
Definition update_nalu_hash (h : handle) (n : nalu) : out (handle * svrc) :=
  do inp <- hash_input n;
  Def (update_hash false inp h).

(** simply_hash: signed_video_h26x_common.c:924-949. The third component is the hash written. *)
Definition simply_hash (h : handle) (n : nalu) : out (handle * svrc * list N) :=
  if n_first_part n then
    do inp <- hash_input n;
    let '(st, v) := hash_data C h inp in
    Def (h, st, v)
  else
    do (h1, st) <- update_nalu_hash h n;
    if is_ok st then Def (finalize_hash C false h1) else Def (h1, st, []).

(** get_hash_wrapper with the wrappers update_hash, simply_hash, hash_and_copy_to_ref and
    hash_with_reference: signed_video_h26x_common.c:884-1011. [hs] is the hash size of the session.
    The third component is the hash, None if nothing was written to the caller's slot. *)
Definition hash_wrapper (k : hst) (n : nalu) (hs : nat) : out (hst * svrc * option (list N)) :=
  if negb (n_last_part n) then
    do (h, st) <- update_nalu_hash (k_handle k) n;
    Def (set_k_handle h k, st, None)
  else if n_gop_sei n then
    do (h, st, v) <- simply_hash (k_handle k) n;
    Def (set_k_handle h k, st, if is_ok st then Some v else None)
  else if n_first_in_gop n && negb (k_has_ref k) then
    do (h, st, v) <- simply_hash (k_handle k) n;
    if is_ok st then
      do b <- put_at 0 (k_buddies k) (firstn hs v);
      Def (mkHst h b true, SV_OK, Some v)
    else Def (set_k_handle h k, st, None)
  else
    do (h, st, v) <- simply_hash (k_handle k) n;
    if is_ok st then
      do b <- put_at hs (k_buddies k) v;
      let '(st2, v2) := hash_data C h (firstn (2 * hs) b) in
      Def (mkHst h b (k_has_ref k), st2, if is_ok st2 then Some v2 else None)
    else Def (set_k_handle h k, st, None).

(** check_and_copy_hash_to_hash_list: signed_video_h26x_common.c:831-856. For list_idx = -1 the
    size_t sum wraps to hash_size - 1, which always fits, so -1 is kept. *)
Definition add_to_list (g : sgop) (hash : list N) : sgop :=
  let h0 := k_handle (g_h g) in
  let h1 := match g_list g with Some [] => init_hash true h0 | _ => h0 end in
  let l1 := match g_list g with
            | None => None
            | Some l => if (hash_list_size <? nlen l + nlen hash)%N then None else Some (l ++ hash)
            end in
  let h2 := fst (update_hash true hash h1) in
  set_g_list l1 (set_g_h (set_k_handle h2 (g_h g)) g).

(** update_num_nalus_in_gop_hash: signed_video_h26x_common.c:814-825. *)
Definition count_nalu (g : sgop) (n : nalu) : sgop :=
  if n_gop_sei n then g else set_g_num (u16 (g_num g + 1)) g.

(** update_linked_hash on the signing side: signed_video_h26x_common.c:863-882, with
    hash_size = sign_data->hash_size as all callers have it. *)
Definition shift_linked (hs : nat) (linked hash : list N) : out (list N) :=
  do l1 <- put_at 0 linked (firstn hs (skipn hs linked));
  put_at hs l1 hash.

(** hash_and_add: signed_video_h26x_common.c:1013-1054. *)
Definition hash_and_add (g : sgop) (n : nalu) (hs : nat) : out (sgop * svrc) :=
  if negb (n_hashable n) then Def (g, SV_OK)
  else
    let g0 := if n_first_part n && negb (n_last_part n)
              then set_g_h (set_k_handle (init_hash false (k_handle (g_h g))) (g_h g)) g else g in
    do (k, st, v) <- hash_wrapper (g_h g0) n hs;
    let g1 := set_g_h k g0 in
    if is_ok st then
      match v with
      | None => Def (g1, SV_OK)
      | Some hash => Def (count_nalu (add_to_list (set_g_nalu_hash hash g1) hash) n, SV_OK)
      end
    else Def (set_g_list None g1, st).

End Hash.

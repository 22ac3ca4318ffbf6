(** The signing session: adding NALUs, generating and completing SEIs, fetching them, settings.
    Models signed_video_h26x_sign.c and the signing part of signed_video_h26x_common.c, linked with
    the unthreaded signing plugin (lib/plugins/unthreaded-signing/plugin.c). *)
From Verif Require Import Base Epb Nalu Crypto Types Hash Tlv.
Local Open Scope N_scope.

(** MAX_SEI_DATA_BUFFER: signed_video_internal.h:72; MAX_BUFFER_LENGTH: unthreaded plugin.c. *)
Definition max_sei_buffer : nat := 60.
Definition max_plugin_buffer : nat := 60.

(** copy_nalu_except_pointers: signed_video_h26x_common.c:699-711. *)
Definition drop_pointers (n : nalu) : nalu :=
  mkNalu (n_data_size n) [] (n_hash_size n) (n_type n) (n_valid n) (n_hashable n)
    (n_payload_size n) (n_reserved n) 0 [] (n_tlv_size n) (n_epb n) (n_primary n)
    (n_first_in_gop n) (n_gop_sei n) (n_first_part n) (n_last_part n) (n_with_epb n) (n_golden n).
(** Assignments to is_first_nalu_part and is_last_nalu_part. *)
Definition set_parts (first last : bool) (n : nalu) : nalu :=
  mkNalu (n_data_size n) (n_hash_mem n) (n_hash_size n) (n_type n) (n_valid n) (n_hashable n)
    (n_payload_size n) (n_reserved n) (n_tlv_off n) (n_tlv_mem n) (n_tlv_size n) (n_epb n)
    (n_primary n) (n_first_in_gop n) (n_gop_sei n) first last (n_with_epb n) (n_golden n).
(** Assignments to hashable_data and hashable_data_size. *)
Definition set_hashable_data (mem : list N) (size : N) (n : nalu) : nalu :=
  mkNalu (n_data_size n) mem size (n_type n) (n_valid n) (n_hashable n)
    (n_payload_size n) (n_reserved n) (n_tlv_off n) (n_tlv_mem n) (n_tlv_size n) (n_epb n)
    (n_primary n) (n_first_in_gop n) (n_gop_sei n) (n_first_part n) (n_last_part n)
    (n_with_epb n) (n_golden n).
(** last_nalu right after calloc/memset and is_last_nalu_part = true:
    signed_video_h26x_common.c:1164-1167, 1218-1219. *)
Definition last_nalu_init : nalu :=
  mkNalu 0 [] 0 TUndef 0 false 0 0 0 [] 0 0 false false false false true false false.

Section Signer.
Variable C : crypto.

(** Setters through the layers of [signer]. *)
Definition on_cfg (f : scfg -> scfg) (s : signer) : signer := set_s_cfg (f (s_cfg s)) s.
Definition on_gop (f : sgop -> sgop) (s : signer) : signer := set_s_gop (f (s_gop s)) s.
Definition on_run (f : srun -> srun) (s : signer) : signer := set_s_run (f (s_run s)) s.

(** ** The unthreaded plugin *)

(** unthreaded_openssl_sign_hash and sv_signing_plugin_sign: unthreaded plugin.c:79-136, with
    openssl_sign_hash, signed_video_openssl.c:240-281. *)
Definition plugin_sign (s : signer) (hash : list N) : signer * svrc :=
  match sc_key (s_cfg s), hash with
  | None, _ => (s, SV_INVALID_PARAMETER)
  | _, [] => (s, SV_INVALID_PARAMETER)
  | Some key, _ =>
      if (max_plugin_buffer <=? length (r_queue (s_run s)))%nat then (s, SV_NOT_SUPPORTED)
      else
        let s1 := on_run (fun r => set_r_coin (r_coin r + 1) r) s in
        match c_sign C key (r_coin (s_run s)) hash with
        | None => (s1, SV_EXTERNAL_ERROR)
        | Some sig =>
            let max := match c_priv C key with Some (_, m) => m | None => 0%nat end in
            if (max <? length sig)%nat then (s1, SV_MEMORY)
            else match sig with
                 | [] => (s1, SV_NOT_SUPPORTED)
                 | _ => (on_run (fun r => set_r_queue (r_queue r ++ [sig]) r) s1, SV_OK)
                 end
        end
  end.

(** sv_signing_plugin_get_signature: unthreaded plugin.c:140-166. The signature and its size end up
    in sign_data, here [r_sig]. The error output is always SV_OK when true is returned. *)
Definition plugin_get (s : signer) : signer * bool :=
  if match sc_key (s_cfg s) with None => true | _ => false end || negb (sc_sig_mem (s_cfg s))
  then (s, false)
  else
    match r_queue (s_run s) with
    | [] => (s, false)
    | sig :: q =>
        if (sc_max_sig (s_cfg s) <? length sig)%nat
        then (on_run (fun r => set_r_sig [] (set_r_queue q r)) s, false)
        else (on_run (fun r => set_r_sig sig (set_r_queue q r)) s, true)
    end.

(** ** SEI generation *)

(** The SEI payload size field: signed_video_h26x_sign.c:283-289. *)
Fixpoint size_field_aux (fuel : nat) (n : N) : list N :=
  match fuel with
  | O => [u8 n]
  | S f => if 255 <=? n then 255 :: size_field_aux f (n - 255) else [u8 n]
  end.
Definition size_field (n : N) : list N := size_field_aux (N.to_nat (n / 255)) n.

(** Bytes between the start code and the UUID: signed_video_h26x_sign.c:272-280. *)
Definition sei_header (c : codec) : list N :=
  match c with H264 => [0x06; 0x05] | H265 => [0x4E; 0x01; 0x05] end.

(** The reserved byte: signed_video_h26x_sign.c:297-300; gop_hash_off is never set. *)
Definition reserved_byte (epb golden : bool) : N :=
  (if epb then 128 else 0) + (if golden then 64 else 0) + 32 + 16.

(** SEI buffer size: signed_video_h26x_sign.c:246-253. *)
Definition sei_alloc (c : codec) (payload : N) : N :=
  ((match c with H264 => 6 | H265 => 7 end) + (payload / 256 + 1) + payload + 1) * 4 / 3.

(** Sizes of the optional and mandatory parts: signed_video_h26x_sign.c:223-227. *)
Definition optional_size (s : signer) : N :=
  if sc_using_golden (s_cfg s) && negb (r_golden (s_run s)) then 0
  else tlv_size_list (s_cfg s) (s_gop s) (r_recurrent (s_run s)) optional_tags.
Definition mandatory_size (s : signer) (g : sgop) : N :=
  tlv_size_list (s_cfg s) g (r_recurrent (s_run s)) mandatory_tags.

(** generate_sei_nalu up to the SEI bytes before the signature: signed_video_h26x_sign.c:214-316.
    Returns the GOP information, the status, the allocated size, the history and the bytes. *)
Definition build_sei (s : signer) : sgop * svrc * N * N * list N :=
  let c := s_cfg s in
  let r := s_run s in
  let rec := r_recurrent r in
  let g0 := set_g_hash_type 1 (s_gop s) in
  let opt := optional_size s in
  let mand0 := if r_golden r then 0 else mandatory_size s g0 in
  let sigs := tlv_size_list c g0 rec signature_tags in
  let payload0 := sigs + opt + mand0 + 16 + 1 in
  let over := (0 <? sc_max_payload c) && (sc_max_payload c <? payload0) && (0 <? mand0) in
  let g1 := if over then set_g_list None g0 else g0 in
  let mand := if over then mandatory_size s g1 else mand0 in
  let payload := if over then payload0 - mand0 + mand else payload0 in
  let alloc := sei_alloc (sc_codec c) payload in
  let '(lt1, o1) := write_bytes false lt_init (sei_header (sc_codec c) ++ size_field payload) in
  let '(lt2, o2) := write_bytes true lt1 uuid_sv in
  let head := [0; 0; 0; 1] ++ o1 ++ o2 ++ [reserved_byte (sc_epb c) (r_golden r)] in
  let '(lt3, o3, g3) :=
    if 0 <? opt then tlv_write_list c g1 (r_sig r) (sc_epb c) rec lt2 optional_tags
    else (lt2, [], g1) in
  if (0 <? opt) && (nlen o3 =? 0) then (g3, SV_MEMORY, alloc, lt3, head)
  else
    let '(lt4, o4, g4) :=
      if 0 <? mand then tlv_write_list c g3 (r_sig r) (sc_epb c) rec lt3 mandatory_tags
      else (lt3, [], g3) in
    if (0 <? mand) && (nlen o4 =? 0) then (g4, SV_MEMORY, alloc, lt4, head ++ o3)
    else (g4, SV_OK, alloc, lt4, head ++ o3 ++ o4).

(** generate_sei_nalu: signed_video_h26x_sign.c:182-381. Third component: the unfinished SEI. The bytes
    must fit the allocation. The fake NALU parsed at lines 330-333 is exactly the bytes written so
    far; reading on in the rest of the allocation would read uninitialised memory and counts as
    out of bounds. *)
Definition generate_sei (s : signer) : out (signer * svrc * option slot) :=
  if (max_sei_buffer <=? length (r_slots (s_run s)))%nat then Def (s, SV_NOT_SUPPORTED, None)
  else
    let '(g, st, alloc, lt, bytes) := build_sei s in
    if alloc <? nlen bytes then Undef OobWrite
    else if negb (is_ok st) then Def (set_s_gop g s, st, None)
    else
      do n <- parse_nalu bytes (sc_codec (s_cfg s)) false true;
      do (g, st) <- hash_and_add C g n (sc_hs (s_cfg s));
      if negb (is_ok st) then Def (set_s_gop g s, st, None)
      else
        do (hash, _) <- take_mem (sc_hs (s_cfg s)) (g_nalu_hash g);
        let g := set_g_ts None (set_g_list (Some []) (set_g_num 0
                   (set_g_h (set_k_has_ref false (g_h g)) g))) in
        let '(s1, st) := plugin_sign (set_s_gop g s) hash in
        if is_ok st then Def (s1, SV_OK, Some (mkSlot (PBuf bytes) alloc lt 0))
        else Def (s1, st, None).

(** add_payload_to_buffer: signed_video_h26x_sign.c:87-103. *)
Definition add_payload (s : signer) (p : option slot) : signer :=
  match p with
  | None => s
  | Some sl =>
      if (max_sei_buffer <=? length (r_slots (s_run s)))%nat then s
      else on_run (fun r => set_r_slots (r_slots r ++ [sl]) r) s
  end.

(** Replacing one slot of the SEI buffer. *)
Fixpoint replace_nth {A} (i : nat) (x : A) (l : list A) : list A :=
  match l, i with
  | [], _ => []
  | _ :: r, O => x :: r
  | y :: r, S j => y :: replace_nth j x r
  end.
Fixpoint remove_nth {A} (i : nat) (l : list A) : list A :=
  match l, i with
  | [], _ => []
  | _ :: r, O => r
  | y :: r, S j => y :: remove_nth j r
  end.

(** complete_sei_nalu_and_add_to_prepend with get_sign_and_complete_sei_nalu:
    signed_video_h26x_sign.c:108-155, 383-420. Slots at or beyond sei_data_buffer_idx are cleared (NULL);
    slot 60 does not exist. *)
Definition complete_sei (s : signer) : out (signer * svrc) :=
  let r := s_run s in
  match r_slots r with
  | [] => Def (s, SV_NOT_SUPPORTED)
  | _ =>
      match nth_error (r_slots r) (r_done r) with
      | None => if (max_sei_buffer <=? r_done r)%nat then Undef OobRead else Def (s, SV_OK)
      | Some sl =>
          match r_sig r, sl_sei sl with
          | [], PFreed => Undef UseAfterFree
          | [], PNull => Def (s, SV_OK)
          | [], PBuf _ =>
              Def (on_run (set_r_slots (replace_nth (r_done r) (set_sl_sei PFreed sl) (r_slots r))) s,
                   SV_OK)
          | _, PNull => Def (s, SV_OK)
          | _, PFreed => Undef UseAfterFree
          | sig, PBuf b =>
              let '(_, o, g) := tlv_write_list (s_cfg s) (s_gop s) sig (sc_epb (s_cfg s))
                                  (r_recurrent r) (sl_lt sl) signature_tags in
              let full := b ++ o ++ [0x80] in
              if sl_alloc sl <? nlen full then Undef OobWrite
              else
                let sl2 := set_sl_done (nlen full) (set_sl_sei (PBuf full) sl) in
                Def (on_run (fun r => set_r_recurrent false (set_r_done (S (r_done r))
                       (set_r_slots (replace_nth (r_done r) sl2 (r_slots r)) r)))
                       (set_s_gop g s), SV_OK)
          end
      end
  end.

(** get_signature_complete_sei_and_add_to_prepend: signed_video_h26x_sign.c:560-600 (without
    SIGNED_VIDEO_DEBUG). Every round takes one signature out of the plugin. If no round is done
    the status is SV_OK. *)
Fixpoint complete_loop (fuel : nat) (s : signer) : out (signer * svrc) :=
  let '(s1, got) := plugin_get s in
  if negb got then Def (s1, SV_OK)
  else
    match fuel with
    | O => Undef Diverges
    | S f =>
        do (s2, st) <- complete_sei s1;
        if is_ok st then complete_loop f s2 else Def (s2, st)
    end.
Definition complete_all (s : signer) : out (signer * svrc) :=
  complete_loop (length (r_queue (s_run s))) s.

(** prepare_for_nalus_to_prepend: signed_video_h26x_sign.c:422-449. *)
Definition prepare (s : signer) : signer * svrc :=
  match sc_key (s_cfg s) with
  | None => (s, SV_NOT_SUPPORTED)
  | Some _ =>
      let s := on_run (set_r_started true) s in
      if negb (r_avoid (s_run s)) && (0 <? r_done (s_run s))%nat then (s, SV_NOT_SUPPORTED)
      else (s, SV_OK)
  end.

(** ** Public API *)

(** The NALU seen by add_nalu_part and the new last_nalu: signed_video_h26x_sign.c:485-504. *)
Definition take_part (s : signer) (data : list N) (last : bool) : out (signer * nalu) :=
  let ln := r_last (s_run s) in
  if n_last_part ln then
    do n0 <- parse_nalu data (sc_codec (s_cfg s)) last false;
    let n := set_parts (n_first_part n0) last n0 in
    Def (on_run (set_r_last (drop_pointers n)) s, n)
  else
    let ln := set_parts false last ln in
    do size <- (if last then do t <- strip_trailing data; Def (nlen t) else Def (nlen data));
    Def (on_run (set_r_last ln) s, set_hashable_data data size (drop_pointers ln)).

(** The frame counter: signed_video_h26x_sign.c:514-519. frame_count is an int, converted to
    unsigned for the modulo; the increment overflows at INT_MAX. *)
Definition count_frame (s : signer) (n : nalu) : out signer :=
  if n_primary n && n_last_part n then
    let r := s_run s in
    let due := (u32 (z_to_u64 (r_frame r)) mod sc_recurrence (s_cfg s) =? 0) in
    let r1 := if due then set_r_recurrent true r else r in
    if (r_frame r =? 2147483647)%Z then Undef SignedOverflow
    else Def (set_s_run (set_r_frame (r_frame r + 1)%Z r1) s)
  else Def s.

(** Closing the previous GOP: signed_video_h26x_sign.c:522-541. *)
Definition close_gop (s : signer) (n : nalu) (ts : option Z) : out (signer * svrc) :=
  if n_first_in_gop n && n_last_part n then
    do (s, st) <-
      (if r_gen (s_run s) then
         let s := match ts with Some t => on_gop (set_g_ts (Some t)) s | None => s end in
         let '(h, st, v) := finalize_hash C true (k_handle (g_h (s_gop s))) in
         let g := s_gop s in
         let g := set_g_h (set_k_handle h (g_h g)) g in
         if negb (is_ok st) then Def (set_s_gop g s, st)
         else
           do comp <- put_mem (g_computed g) v;
           do (s, st, p) <- generate_sei (set_s_gop (set_g_computed comp g) s);
           if is_ok st then Def (add_payload s p, SV_OK) else Def (s, st)
       else Def (s, SV_OK));
    if is_ok st then Def (on_run (set_r_gen true) s, SV_OK) else Def (s, st)
  else Def (s, SV_OK).

(** signed_video_add_nalu_part_for_signing_with_timestamp: signed_video_h26x_sign.c:473-553. An empty
    list stands for NULL or size 0. *)
Definition add_part (s : signer) (data : list N) (ts : option Z) (last : bool) : out (signer * svrc) :=
  match data with
  | [] => Def (s, SV_INVALID_PARAMETER)
  | _ =>
      do (s, n) <- take_part s data last;
      let '(s, st) := prepare s in
      if negb (is_ok st) then Def (s, st)
      else if (n_valid n <? 0)%Z then Def (s, SV_INVALID_PARAMETER)
      else
        do s <- count_frame s n;
        do (s, st) <- close_gop s n ts;
        if negb (is_ok st) then Def (s, st)
        else
          do (g, st) <- hash_and_add C (s_gop s) n (sc_hs (s_cfg s));
          let s := set_s_gop g s in
          if negb (is_ok st) then Def (s, st)
          else if n_first_in_gop n && n_last_part n then
            do (hash, _) <- take_mem (sc_hs (s_cfg s)) (g_nalu_hash (s_gop s));
            do l <- shift_linked (sc_hs (s_cfg s)) (g_linked (s_gop s)) hash;
            Def (on_gop (set_g_linked l) s, SV_OK)
          else Def (s, SV_OK)
  end.

(** What a call hands back besides the return code: the SEI copied out, its size, and the number of
    pending SEIs. *)
Record sres := mkSres { rs_code : svrc; rs_sei : list N; rs_size : N; rs_pending : N }.
Definition code (r : svrc) : sres := mkSres r [] 0 0.

(** Fetching slot [i] of the SEI buffer: the common part of signed_video_h26x_sign.c:615-624 and
    668-676. [want] is false if the caller passed NULL for the SEI. *)
Definition fetch (s : signer) (i : nat) (want : bool) : out (signer * list N * N) :=
  match nth_error (r_slots (s_run s)) i with
  | None => Undef OobRead
  | Some sl =>
      if negb want then Def (s, [], sl_done sl)
      else
        match sl_sei sl with
        | PFreed => Undef UseAfterFree
        | PNull => Undef NullDeref
        | PBuf b =>
            do (bytes, _) <- take_mem (N.to_nat (sl_done sl)) b;
            Def (on_run (fun r => set_r_done (r_done r - 1)
                   (set_r_slots (remove_nth i (r_slots r)) r)) s, bytes, sl_done sl)
        end
  end.

(** signed_video_get_sei: signed_video_h26x_sign.c:627-691. The payload_offset output (lines 679-683)
    is not modelled. [peek] is [] for NULL. *)
Definition get_sei (s : signer) (want : bool) (peek : list N) : out (signer * sres) :=
  let pending := nlen (r_slots (s_run s)) in
  do (s, st) <- complete_all s;
  if negb (is_ok st) then Def (s, mkSres st [] 0 pending)
  else if (r_done (s_run s) <? 1)%nat then Def (s, mkSres SV_OK [] 0 pending)
  else
    do show <-
      (match peek with
       | [] => Def true
       | _ => do n <- parse_nalu peek (sc_codec (s_cfg s)) false false;
              Def ((ntype_eqb (n_type n) TI || ntype_eqb (n_type n) TP) && n_primary n)
       end);
    if negb show then Def (on_run (set_r_avoid true) s, mkSres SV_OK [] 0 pending)
    else
      do (s, bytes, size) <- fetch s 0 want;
      Def (s, mkSres SV_OK bytes size (if want then nlen (r_slots (s_run s)) else pending)).

(** get_latest_sei: signed_video_h26x_sign.c:602-625. *)
Definition get_latest (s : signer) (want : bool) : out (signer * sres) :=
  do (s, st) <- complete_all s;
  if negb (is_ok st) then Def (s, mkSres st [] 0 0)
  else if (r_done (s_run s) <? 1)%nat then Def (s, mkSres SV_OK [] 0 0)
  else
    do (s, bytes, size) <- fetch s (r_done (s_run s) - 1) want;
    Def (s, mkSres SV_OK bytes size 0).

(** signed_video_get_nalu_to_prepend: signed_video_h26x_sign.c:693-712. *)
Definition get_prepend (s : signer) : out (signer * sres) :=
  do (s, r) <- get_latest s false;
  if is_ok (rs_code r) && negb (rs_size r =? 0) then get_latest s true else Def (s, r).

(** signed_video_set_end_of_stream: signed_video_h26x_sign.c:721-746. *)
Definition end_of_stream (s : signer) : out (signer * svrc) :=
  let '(s, st) := prepare s in
  if negb (is_ok st) then Def (s, st)
  else
    do (s, st, p) <- generate_sei s;
    if negb (is_ok st) then Def (s, st)
    else complete_all (add_payload s p).

(** signed_video_generate_golden_sei: signed_video_h26x_sign.c:748-773. *)
Definition golden_sei (s : signer) : out (signer * svrc) :=
  let s := on_cfg (set_sc_frame true)
             (on_run (fun r => set_r_recurrent true (set_r_golden true r)) s) in
  let '(s, st) := prepare s in
  do (s, st) <-
    (if negb (is_ok st) then Def (s, st)
     else
       do (s, st, p) <- generate_sei s;
       if is_ok st then Def (add_payload s p, SV_OK) else Def (s, st));
  Def (on_run (set_r_golden false) s, st).

(** signed_video_set_private_key_new: signed_video_h26x_sign.c:803-826, with
    openssl_private_key_malloc and openssl_read_pubkey_from_private_key (signed_video_openssl.c:95-236).
    A failure leaves the old plugin handle in place but frees the signature memory. [] is NULL. *)
Definition set_private_key (s : signer) (pem : list N) : signer * svrc :=
  match pem with
  | [] => (s, SV_INVALID_PARAMETER)
  | _ =>
      match c_priv C pem with
      | None | Some (_, O) => (on_cfg (set_sc_sig_mem false) s, SV_EXTERNAL_ERROR)
      | Some (pub, max) =>
          let s := on_cfg (fun c => set_sc_pub pub (set_sc_sig_mem true (set_sc_max_sig max c))) s in
          match pub with
          | [] => (s, SV_EXTERNAL_ERROR)
          | _ => (on_run (set_r_queue []) (on_cfg (set_sc_key (Some pem)) s), SV_OK)
          end
      end
  end.

(** signed_video_set_hash_algo: signed_video_h26x_sign.c:905-925. Moving nalu_hash inside |hashes| does
    not change what is modelled. *)
Definition set_hash (s : signer) (name : option (list N)) : signer * svrc :=
  if r_started (s_run s) then (s, SV_NOT_SUPPORTED)
  else
    let g := s_gop s in
    let '(h, st) := set_hash_algo C name (k_handle (g_h g)) in
    let s := set_s_gop (set_g_h (set_k_handle h (g_h g)) g) s in
    if negb (is_ok st) then (s, st)
    else
      let n := hash_size C h in
      if (n =? 0)%nat || (max_hash_size <? n)%nat then (s, SV_NOT_SUPPORTED)
      else (on_cfg (set_sc_hs n) s, SV_OK).

(** signed_video_reset, signing members: signed_video_h26x_common.c:1196-1227, gop_info_reset 255-262. *)
Definition reset (s : signer) : signer :=
  let g := s_gop s in
  let k := g_h g in
  let g := set_g_num 0 (set_g_linked (zeros 128) (set_g_list (Some [])
             (set_g_h (mkHst (init_hash false (k_handle k)) (k_buddies k) false) g))) in
  on_run (fun r => set_r_last last_nalu_init (set_r_gen false (set_r_started false r)))
    (set_s_gop g s).

(** signed_video_create, signing members: signed_video_h26x_common.c:1117-1194, gop_info_create
    225-245. [coin] is the seed of the randomness of the signing algorithm. *)
Definition create (c : codec) (coin : N) : signer :=
  mkSigner
    (mkScfg c true 0 1 true true false [] [None; None; None; None; None] [] 0 false 32 None)
    (mkSgop (mkHst handle_create (zeros 128) false) (Some []) (zeros 64) (zeros 64) (zeros 128)
       0 0 None 0 0)
    (mkSrun false false false false false 0 last_nalu_init [] 0 [] [] coin).

(** The signing API as an operation type, and its execution. The unsigned arguments recurrence and
    max_sei_payload_size are given as N; an authenticity level other than GOP or FRAME is refused. *)
Inductive level := LGop | LFrame | LOther.
Inductive sop :=
| OAdd (data : list N) (ts : option Z) (last : bool)
| OGet (want : bool) (peek : list N)
| OPrepend
| OEos
| OGolden
| OReset
| OKey (pem : list N)
| OProduct (info : list (option (list N)))
| OAddPub (b : bool)
| OLevel (l : level)
| ORecurrence (n : N)
| OEpb (b : bool)
| OUsingGolden (b : bool)
| OMaxPayload (n : N)
| OHashAlgo (name : option (list N)).

(** Settings: signed_video_h26x_sign.c:775-801 (NULL strings become empty ones), 839-903. *)
Definition exec (o : sop) (s : signer) : out (signer * sres) :=
  let lift (x : signer * svrc) := Def (fst x, code (snd x)) in
  match o with
  | OAdd d ts last => do x <- add_part s d ts last; lift x
  | OGet want peek => get_sei s want peek
  | OPrepend => get_prepend s
  | OEos => do x <- end_of_stream s; lift x
  | OGolden => do x <- golden_sei s; lift x
  | OReset => Def (reset s, code SV_OK)
  | OKey pem => lift (set_private_key s pem)
  | OProduct l =>
      Def (on_cfg (set_sc_prod (map (fun o => Some (match o with Some x => x | None => [] end)) l)) s,
           code SV_OK)
  | OAddPub b => Def (on_cfg (set_sc_add_pub b) s, code SV_OK)
  | OLevel LGop => Def (on_cfg (set_sc_frame false) s, code SV_OK)
  | OLevel LFrame => Def (on_cfg (set_sc_frame true) s, code SV_OK)
  | OLevel LOther => Def (s, code SV_NOT_SUPPORTED)
  | ORecurrence n =>
      if n <? 1 then Def (s, code SV_NOT_SUPPORTED)
      else Def (on_cfg (set_sc_recurrence n) s, code SV_OK)
  | OEpb b => Def (on_cfg (set_sc_epb b) s, code SV_OK)
  | OUsingGolden b =>
      if r_started (s_run s) then Def (s, code SV_NOT_SUPPORTED)
      else Def (on_cfg (set_sc_using_golden b) s, code SV_OK)
  | OMaxPayload n => Def (on_cfg (set_sc_max_payload n) s, code SV_OK)
  | OHashAlgo name => lift (set_hash s name)
  end.

(** A whole session: the results of all calls in order. *)
Fixpoint run (ops : list sop) (s : signer) : out (signer * list sres) :=
  match ops with
  | [] => Def (s, [])
  | o :: r =>
      do (s1, x) <- exec o s;
      do (s2, l) <- run r s1;
      Def (s2, x :: l)
  end.

End Signer.

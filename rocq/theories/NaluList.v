(** The list of NALUs waiting for validation.
    Models signed_video_h26x_nalu_list.c. The doubly linked list is a Coq list, oldest item first;
    num_items is its length (h26x_nalu_list_refresh recomputes it after every change). *)
From Verif Require Import Base Nalu Crypto Types Hash VTypes.
Local Open Scope N_scope.

Definition pending (it : item) : bool := vstat_eqb (i_status it) SPend.
(** item->nalu && item->nalu->is_gop_sei. *)
Definition item_sei (it : item) : bool :=
  match i_nalu it with Some n => n_gop_sei n | None => false end.

(** get_validation_status_from_nalu: signed_video_h26x_nalu_list.c:58-78. *)
Definition status_of (n : nalu) : vstat :=
  if (n_valid n <? 0)%Z then SErr
  else if (n_valid n =? 0)%Z then SUnknown
  else if n_hashable n then SPend else SIgn.

(** h26x_nalu_list_item_create: signed_video_h26x_nalu_list.c:86-96. *)
Definition item_create (n : nalu) : item :=
  mkItem (Some n) (status_of n) (zeros 64) None false false false.

(** h26x_nalu_list_append: signed_video_h26x_nalu_list.c:283-299. *)
Definition list_append (l : list item) (n : nalu) : list item := l ++ [item_create n].

(** An item added by h26x_nalu_list_add_missing, signed_video_h26x_nalu_list.c:384-388. *)
Definition missing_item : item := mkItem None SMiss (zeros 64) None false true false.

(** h26x_nalu_list_add_missing: signed_video_h26x_nalu_list.c:370-403. The anchor item is given by its
    position; callers always pass an item of the list. A negative number is refused without effect
    and callers ignore the return code. *)
Definition add_missing (num : Z) (append : bool) (pos : nat) (l : list item) : list item :=
  let k := if append then S pos else pos in
  firstn k l ++ repeat missing_item (Z.to_nat num) ++ skipn k l.

(** The memory of the copy in h26x_nalu_list_copy_last_item, signed_video_h26x_nalu_list.c:305-367.
    The TLV data are copied in full. The data to hash are kept only as long as the hash algorithm is
    unknown; if they are in the buffer without escapes rather than in the NALU itself (a SEI escaped
    by others), their offset is a difference between unrelated pointers and using it is undefined.
    A failing malloc is modelled only for sizes above 2^63, which are the result of a wrapped
    subtraction; None is then the new value of item->nalu. *)
Definition copy_nalu (known : bool) (n : nalu) : out (option nalu * svrc) :=
  if 9223372036854775808 <=? n_tlv_size n then Def (None, SV_MEMORY)
  else if nlen (n_tlv_mem n) <? n_tlv_size n then Undef OobRead
  else if negb known && n_hashable n && n_gop_sei n && negb (n_with_epb n) && (0 <? n_epb n)%Z
  then Undef OobRead
  else
    Def (Some (mkNalu (n_data_size n) (if known || negb (n_hashable n) then [] else n_hash_mem n)
                 (n_hash_size n) (n_type n) (n_valid n) (n_hashable n) (n_payload_size n)
                 (n_reserved n) 0 (firstn (N.to_nat (n_tlv_size n)) (n_tlv_mem n)) (n_tlv_size n)
                 (n_epb n) (n_primary n) (n_first_in_gop n) (n_gop_sei n) (n_first_part n)
                 (n_last_part n) (n_with_epb n) (n_golden n)), SV_OK).

(** h26x_nalu_list_copy_last_item: the last item that has a NALU is replaced by its copy. *)
Fixpoint copy_rev (known : bool) (l : list item) : out (list item * svrc) :=
  match l with
  | [] => Undef NullDeref
  | it :: r =>
      match i_nalu it with
      | None => do (r2, st) <- copy_rev known r; Def (it :: r2, st)
      | Some n => do (n2, st) <- copy_nalu known n; Def (set_i_nalu n2 it :: r, st)
      end
  end.
Definition copy_last (known : bool) (l : list item) : out (list item * svrc) :=
  do (r, st) <- copy_rev known (rev l); Def (rev r, st).

(** Setting the status of the last item, signed_video_h26x_auth.c:1180. *)
Definition mark_last (s : vstat) (l : list item) : list item :=
  match rev l with
  | [] => []
  | it :: r => rev (set_i_status s it :: r)
  end.

(** h26x_nalu_list_remove_missing_items: signed_video_h26x_nalu_list.c:408-441. [front] tells that
    everything before was removed. *)
Fixpoint remove_missing (front fp fs : bool) (l : list item) : list item :=
  match l with
  | [] => []
  | it :: r =>
      if fp && fs then l
      else if vstat_eqb (i_status it) SMiss && front then remove_missing true fp fs r
      else
        let mark := i_decoded it && negb (vstat_eqb (i_status it) SUnknown) in
        let it1 := if mark then set_i_status SUnknown it else it in
        let it2 := if vstat_eqb (i_status it1) SInvalid then set_i_status SPend it1 else it1 in
        let fp2 := fp || match r with nx :: _ => pending nx | [] => false end in
        it2 :: remove_missing false fp2 (fs || mark) r
  end.
Definition remove_missing_items (l : list item) : list item := remove_missing true false false l.

(** h26x_nalu_list_get_next_sei_item: signed_video_h26x_nalu_list.c:444-456. *)
Definition next_sei (l : list item) : option item := find (fun it => item_sei it && pending it) l.

(** An assignment to a member of the item that get_next_sei_item returned. Simplification: the item is
    searched again instead of remembering its address; callers only change the status of other items
    that are not pending SEIs in between, so it is the same item. *)
Fixpoint on_next_sei (f : item -> item) (l : list item) : list item :=
  match l with
  | [] => []
  | it :: r => if item_sei it && pending it then f it :: r else it :: on_next_sei f r
  end.

(** h26x_nalu_list_get_stats: signed_video_h26x_nalu_list.c:463-500. Invalid, missing, any valid. *)
Fixpoint get_stats (l : list item) : Z * Z * bool :=
  match l with
  | [] => (0, 0, false)%Z
  | it :: r =>
      let '(i, m, v) := get_stats r in
      if negb (i_used it) then (i, m, v)
      else
        ((if vstat_eqb (i_status it) SInvalid || vstat_eqb (i_status it) SErr then 1 + i else i)%Z,
         (if vstat_eqb (i_status it) SMiss then 1 + m else m)%Z,
         (vstat_eqb (i_status it) SValid && negb (item_sei it)) || v)
  end.

(** h26x_nalu_list_num_pending_items: signed_video_h26x_nalu_list.c:503-516. *)
Definition num_pending (l : list item) : Z := Z.of_nat (length (filter pending l)).

(** validation_status characters: 'P' 'U' '_' '.' 'N' 'M' 'E'. *)
Definition stat_char (s : vstat) : N :=
  match s with
  | SPend => 80 | SUnknown => 85 | SIgn => 95 | SValid => 46 | SInvalid => 78 | SMiss => 77 | SErr => 69
  end.
(** nalu_type_to_char: signed_video_h26x_common.c:111-133. *)
Definition type_char (o : option nalu) : N :=
  match o with
  | None => 32
  | Some n =>
      match n_type n with
      | TSei => if n_gop_sei n then if n_golden n then 71 else 83 else 122
      | TI => if n_primary n then 73 else 105
      | TP => if n_primary n then 80 else 112
      | TPs => 118
      | TAud => 95
      | TOther => 111
      | TUndef => 85
      end
  end.
(** h26x_nalu_list_get_str: signed_video_h26x_nalu_list.c:521-549. *)
Definition validation_str (l : list item) : list N := map (fun it => stat_char (i_status it)) l.
Definition nalu_str (l : list item) : list N := map (fun it => type_char (i_nalu it)) l.

(** h26x_nalu_list_clean_up: signed_video_h26x_nalu_list.c:552-569. The list left and the number of
    items removed, the missing ones not counted. *)
Fixpoint clean_up (l : list item) : list item * N :=
  match l with
  | [] => ([], 0)
  | it :: r =>
      if pending it then (l, 0)
      else let '(l2, k) := clean_up r in
           (l2, if vstat_eqb (i_status it) SMiss then k else k + 1)
  end.

(** The list of NALUs waiting for validation, in memory.
    Models the pointers of signed_video_h26x_nalu_list.c, which NaluList.v replaces by a Coq list. The memory is a finite
    map from addresses to items; using an address that is not in use is undefined. The NALU of an item is either
    a copy that the item owns, or belongs to the caller and is gone when the caller returns: using it then is undefined.
    Simplification: the copy and the second hash are taken as a part of the item, and allocations do not fail. *)
From Verif Require Import Base Nalu Crypto Types Hash VTypes NaluList.
Local Open Scope N_scope.

(** h26x_nalu_list_item_t: signed_video_h26x_internal.h:75-98. [s_from] is None if taken_ownership_of_nalu is set, and otherwise
    tells in which call the item was made. *)
Record slot := mkSlot { s_item : item; s_from : option nat }.
Record cell := mkCell { c_prev : option N; c_next : option N; c_slot : slot }.
Definition c_item (c : cell) : item := s_item (c_slot c).
Definition heap := list (N * cell).
Definition get (h : heap) (a : N) : option cell := option_map snd (find (fun x => fst x =? a) h).
Definition put (a : N) (c : cell) (h : heap) : heap := map (fun x => if fst x =? a then (a, c) else x) h.
Definition release (a : N) (h : heap) : heap := filter (fun x => negb (fst x =? a)) h.

(** h26x_nalu_list_t: signed_video_h26x_internal.h:63-67. *)
Record hlist := mkHlist { h_first : option N; h_last : option N; h_num : nat }.
(** The memory, the list, the number of allocations so far, the number of calls that have returned, and the number of
    copies that were replaced without freeing all of their memory. *)
Record mem := mkMem { m_heap : heap; m_list : hlist; m_time : nat; m_call : nat; m_lost : nat }.
Definition set_mem (h : heap) (l : hlist) (m : mem) : mem := mkMem h l (m_time m) (m_call m) (m_lost m).

(** Dereferencing a pointer. *)
Definition load (h : heap) (p : option N) : out cell :=
  match p with
  | None => Undef NullDeref
  | Some a => match get h a with None => Undef UseAfterFree | Some c => Def c end
  end.
(** Using the NALU of an item, if it has one. *)
Definition look (now : nat) (s : slot) : out item :=
  match i_nalu (s_item s), s_from s with
  | Some _, Some k => if (k =? now)%nat then Def (s_item s) else Undef UseAfterFree
  | _, _ => Def (s_item s)
  end.
(** Assignments to members through a pointer. *)
Definition set_prev (h : heap) (a : N) (v : option N) : out heap :=
  do c <- load h (Some a); Def (put a (mkCell v (c_next c) (c_slot c)) h).
Definition set_next (h : heap) (a : N) (v : option N) : out heap :=
  do c <- load h (Some a); Def (put a (mkCell (c_prev c) v (c_slot c)) h).
Definition set_slot (h : heap) (a : N) (f : slot -> slot) : out heap :=
  do c <- load h (Some a); Def (put a (mkCell (c_prev c) (c_next c) (f (c_slot c))) h).
Definition on_item (f : item -> item) (s : slot) : slot := mkSlot (f (s_item s)) (s_from s).
(** h26x_nalu_list_item_free: signed_video_h26x_nalu_list.c:98-116. The NALU is freed, and used, only if the item owns it. *)
Definition free_cell (h : heap) (a : N) : out heap :=
  do _ <- load h (Some a); Def (release a h).

(** h26x_nalu_list_item_append_item: signed_video_h26x_nalu_list.c:119-132. *)
Definition append_item (h : heap) (a new : N) : out heap :=
  do c <- load h (Some a);
  do h <- match c_next c with
          | Some b => do h <- set_prev h b (Some new); set_next h new (Some b)
          | None => Def h
          end;
  do h <- set_prev h new (Some a);
  set_next h a (Some new).
(** h26x_nalu_list_item_prepend_item: signed_video_h26x_nalu_list.c:135-148. *)
Definition prepend_item (h : heap) (a new : N) : out heap :=
  do c <- load h (Some a);
  do h <- match c_prev c with
          | Some b => do h <- set_prev h new (Some b); set_next h b (Some new)
          | None => Def h
          end;
  do h <- set_prev h a (Some new);
  set_next h new (Some a).

(** Loops that follow pointers end after as many steps as there are items, or they do not end. *)
Definition steps (h : heap) : nat := S (length h).

(** h26x_nalu_list_refresh: signed_video_h26x_nalu_list.c:216-236. First the loop that rewinds, 223-225. *)
Fixpoint rewind (fuel : nat) (h : heap) (p : option N) : out (option N) :=
  match fuel with
  | O => Undef Diverges
  | S fuel =>
      match p with
      | None => Def None
      | Some _ => do c <- load h p;
                  match c_prev c with None => Def p | Some b => rewind fuel h (Some b) end
      end
  end.
(** The loop that counts, 227-234. *)
Fixpoint count (fuel : nat) (h : heap) (p : option N) (k : nat) : out (option N * nat) :=
  match fuel with
  | O => Undef Diverges
  | S fuel =>
      match p with
      | None => Def (None, k)
      | Some _ => do c <- load h p;
                  match c_next c with None => Def (p, S k) | Some b => count fuel h (Some b) (S k) end
      end
  end.
Definition refresh (h : heap) (l : hlist) : out hlist :=
  do first <- rewind (steps h) h (h_first l);
  do (last, num) <- count (steps h) h first 0;
  Def (mkHlist first last num).

(** The loop in 192-193: is the item in the list? The same as is_in_list, 239-252. *)
Fixpoint seek (fuel : nat) (h : heap) (p : option N) (a : N) : out bool :=
  match fuel with
  | O => Undef Diverges
  | S fuel =>
      match p with
      | None => Def false
      | Some b => if b =? a then Def true else do c <- load h p; seek fuel h (c_next c) a
      end
  end.
(** h26x_nalu_list_remove_and_free_item: signed_video_h26x_nalu_list.c:187-211. *)
Definition ptr_eqb (p : option N) (a : N) : bool := match p with Some b => b =? a | None => false end.
Definition remove_item (m : mem) (a : N) : out mem :=
  let h := m_heap m in
  do found <- seek (steps h) h (h_first (m_list m)) a;
  if negb found then Def m
  else
    do c <- load h (Some a);
    do h <- match c_prev c with Some b => set_next h b (c_next c) | None => Def h end;
    do c <- load h (Some a);
    do h <- match c_next c with Some b => set_prev h b (c_prev c) | None => Def h end;
    do c <- load h (Some a);
    let l := m_list m in
    let first := if ptr_eqb (h_first l) a then c_next c else h_first l in
    let last := if ptr_eqb (h_last l) a then c_prev c else h_last l in
    do l <- refresh h (mkHlist first last (h_num l));
    do h <- free_cell h a;
    Def (set_mem h l m).

(** h26x_nalu_list_free_items: signed_video_h26x_nalu_list.c:272-280. *)
Fixpoint free_items (fuel : nat) (m : mem) : out mem :=
  match fuel with
  | O => Undef Diverges
  | S fuel =>
      match h_first (m_list m) with
      | None => Def m
      | Some a => do m <- remove_item m a; free_items fuel m
      end
  end.

Section Alloc.
(** malloc: the address may depend on the addresses in use and on what was allocated before. *)
Variable alloc : nat -> list N -> N.
(** h26x_nalu_list_item_create, the pointers: signed_video_h26x_nalu_list.c:86-96. *)
Definition create_item (m : mem) (it : item) : mem * N :=
  let a := alloc (m_time m) (map fst (m_heap m)) in
  (mkMem ((a, mkCell None None (mkSlot it (Some (m_call m)))) :: m_heap m) (m_list m) (S (m_time m)) (m_call m) (m_lost m), a).

(** h26x_nalu_list_append: signed_video_h26x_nalu_list.c:283-299. *)
Definition happend (m : mem) (n : nalu) : out mem :=
  let '(m, a) := create_item m (item_create n) in
  let l := m_list m in
  let first := match h_first l with None => Some a | p => p end in
  do h <- match h_last l with Some b => append_item (m_heap m) b a | None => Def (m_heap m) end;
  do l <- refresh h (mkHlist first (h_last l) (h_num l));
  Def (set_mem h l m).

(** h26x_nalu_list_add_missing: signed_video_h26x_nalu_list.c:370-403. *)
Fixpoint missing_loop (k : nat) (m : mem) (append : bool) (a : N) : out mem :=
  match k with
  | O => Def m
  | S k =>
      let '(m, new) := create_item m missing_item in
      do h <- (if append then append_item (m_heap m) a new else prepend_item (m_heap m) a new);
      do l <- refresh h (m_list m);
      missing_loop k (set_mem h l m) append a
  end.
Definition hmissing (m : mem) (num : Z) (append : bool) (p : option N) : out (mem * svrc) :=
  match p with
  | None => Def (m, SV_INVALID_PARAMETER)
  | Some a =>
      do found <- seek (steps (m_heap m)) (m_heap m) (h_first (m_list m)) a;
      if negb found || (num <? 0)%Z then Def (m, SV_INVALID_PARAMETER)
      else do m <- missing_loop (Z.to_nat num) m append a; Def (m, SV_OK)
  end.
End Alloc.

(** h26x_nalu_list_copy_last_item, the search: signed_video_h26x_nalu_list.c:317-324. *)
Fixpoint back_to_nalu (fuel : nat) (h : heap) (p : option N) : out (option N) :=
  match fuel with
  | O => Undef Diverges
  | S fuel => do c <- load h p; match i_nalu (c_item c) with Some _ => Def p | None => back_to_nalu fuel h (c_prev c) end
  end.
(** The copy, 325-366. If the item owned the NALU already, the member pending_nalu_data of the old copy is not freed
    (lines 357-362): this is counted. *)
Definition hcopy (m : mem) (known : bool) : out (mem * svrc) :=
  let h := m_heap m in
  do p <- back_to_nalu (steps h) h (h_last (m_list m));
  do c <- load h p;
  do it <- look (m_call m) (c_slot c);
  match p, i_nalu it with
  | Some a, Some n =>
      do (n2, st) <- copy_nalu known n;
      do h <- set_slot h a (fun s => mkSlot (set_i_nalu n2 (s_item s)) None);
      let lost := match s_from (c_slot c) with None => S (m_lost m) | Some _ => m_lost m end in
      Def (mkMem h (m_list m) (m_time m) (m_call m) lost, st)
  | _, _ => Undef NullDeref
  end.

(** h26x_nalu_list_remove_missing_items: signed_video_h26x_nalu_list.c:408-441. *)
Fixpoint hremove_missing (fuel : nat) (m : mem) (p : option N) (fp fs : bool) : out mem :=
  match fuel with
  | O => Undef Diverges
  | S fuel =>
      match p with
      | None => Def m
      | Some a =>
          if fp && fs then Def m
          else
            do c <- load (m_heap m) p;
            if vstat_eqb (i_status (c_item c)) SMiss && ptr_eqb (h_first (m_list m)) a
            then do m <- remove_item m a; hremove_missing fuel m (c_next c) fp fs
            else
              let mark := i_decoded (c_item c) && negb (vstat_eqb (i_status (c_item c)) SUnknown) in
              do h <- (if mark then set_slot (m_heap m) a (on_item (set_i_status SUnknown)) else Def (m_heap m));
              do c <- load h p;
              do h <- (if vstat_eqb (i_status (c_item c)) SInvalid then set_slot h a (on_item (set_i_status SPend)) else Def h);
              do c <- load h p;
              do nx <- match c_next c with None => Def false | Some b => do d <- load h (Some b); Def (pending (c_item d)) end;
              hremove_missing fuel (set_mem h (m_list m) m) (c_next c) (fp || nx) (fs || mark)
      end
  end.

(** h26x_nalu_list_clean_up: signed_video_h26x_nalu_list.c:552-569. *)
Fixpoint hclean_up (fuel : nat) (m : mem) (k : N) : out (mem * N) :=
  match fuel with
  | O => Undef Diverges
  | S fuel =>
      match h_first (m_list m) with
      | None => Def (m, k)
      | Some a =>
          do c <- load (m_heap m) (Some a);
          if pending (c_item c) then Def (m, k)
          else
            do m <- remove_item m a;
            hclean_up fuel m (if vstat_eqb (i_status (c_item c)) SMiss then k else k + 1)
      end
  end.

(** Loops that only read the items, from the first to the last. *)
Fixpoint hfold {A : Type} (f : A -> item -> out A) (now fuel : nat) (h : heap) (p : option N) (x : A) : out A :=
  match fuel with
  | O => Undef Diverges
  | S fuel =>
      match p with
      | None => Def x
      | Some _ => do c <- load h p; do it <- look now (c_slot c); do x <- f x it; hfold f now fuel h (c_next c) x
      end
  end.
(** h26x_nalu_list_get_stats: signed_video_h26x_nalu_list.c:463-500. *)
Definition hstats (m : mem) : out (Z * Z * bool) :=
  hfold (fun '(i, mi, v) it =>
      Def (if negb (i_used it) then (i, mi, v)
           else ((if vstat_eqb (i_status it) SInvalid || vstat_eqb (i_status it) SErr then i + 1 else i)%Z,
                 (if vstat_eqb (i_status it) SMiss then mi + 1 else mi)%Z,
                 v || (vstat_eqb (i_status it) SValid && negb (item_sei it)))))
    (m_call m) (steps (m_heap m)) (m_heap m) (h_first (m_list m)) (0, 0, false)%Z.
(** h26x_nalu_list_num_pending_items: signed_video_h26x_nalu_list.c:503-516. *)
Definition hpending (m : mem) : out Z :=
  hfold (fun k it => Def (if pending it then k + 1 else k)%Z) (m_call m) (steps (m_heap m)) (m_heap m) (h_first (m_list m)) 0%Z.
(** h26x_nalu_list_get_str: signed_video_h26x_nalu_list.c:521-549. The string and the index to write to. *)
Definition write_char (ch : item -> N) (x : list N * nat) (it : item) : out (list N * nat) :=
  let '(buf, k) := x in
  if (k <? length buf)%nat then Def (firstn k buf ++ ch it :: skipn (S k) buf, S k) else Undef OobWrite.
Definition hstr (ch : item -> N) (m : mem) : out (list N) :=
  do (buf, _) <- hfold (write_char ch) (m_call m) (steps (m_heap m)) (m_heap m) (h_first (m_list m)) (zeros (S (h_num (m_list m))), 0%nat);
  Def buf.

(** The pointer to the item at a position, by following next from the first item. *)
Fixpoint walk (h : heap) (p : option N) (k : nat) : out (option N) :=
  match p, k with
  | None, _ => Def None
  | _, O => Def p
  | _, S k => do c <- load h p; walk h (c_next c) k
  end.
(** h26x_nalu_list_get_next_sei_item: signed_video_h26x_nalu_list.c:444-456. *)
Fixpoint hnext_sei (now fuel : nat) (h : heap) (p : option N) : out (option N) :=
  match fuel with
  | O => Undef Diverges
  | S fuel =>
      match p with
      | None => Def None
      | Some _ => do c <- load h p;
                  do it <- look now (c_slot c);
                  if item_sei it && pending it then Def p else hnext_sei now fuel h (c_next c)
      end
  end.

(** What the validator does with the list: add a NALU; add missing ones beside the item at a position; remove missing
    ones in front; remove what is validated; remove all; copy the last NALU; return to the caller; assign to members of the item at a position or of the next SEI; count; make the strings. *)
Inductive lop :=
| LAppend (n : nalu)
| LMissing (num : Z) (append : bool) (pos : nat)
| LRemoveMissing
| LCleanUp
| LFreeItems
| LCopy (known : bool)
| LReturn
| LSet (pos : nat) (f : item -> item)
| LSetSei (f : item -> item)
| LCounts
| LStrings.
Inductive lres := RDone | RCode (st : svrc) | RNum (n : N) | RCounts (s : Z * Z * bool) (p : Z) | RStrings (v t : list N).
Definition set_at (m : mem) (p : option N) (f : item -> item) : out mem :=
  match p with None => Undef NullDeref | Some a => do c <- load (m_heap m) p; do _ <- look (m_call m) (c_slot c); do h <- set_slot (m_heap m) a (on_item f); Def (set_mem h (m_list m) m) end.
Definition hexec (alloc : nat -> list N -> N) (m : mem) (o : lop) : out (mem * lres) :=
  let h := m_heap m in
  let first := h_first (m_list m) in
  match o with
  | LAppend n => do m <- happend alloc m n; Def (m, RDone)
  | LMissing num append pos => do p <- walk h first pos; do (m, st) <- hmissing alloc m num append p; Def (m, RCode st)
  | LRemoveMissing => do m <- hremove_missing (steps h) m first false false; Def (m, RDone)
  | LCleanUp => do (m, k) <- hclean_up (steps h) m 0; Def (m, RNum k)
  | LFreeItems => do m <- free_items (steps h) m; Def (m, RDone)
  | LCopy known => do (m, st) <- hcopy m known; Def (m, RCode st)
  | LReturn => Def (mkMem (m_heap m) (m_list m) (m_time m) (S (m_call m)) (m_lost m), RDone)
  | LSet pos f => do p <- walk h first pos; do m <- set_at m p f; Def (m, RDone)
  | LSetSei f => do p <- hnext_sei (m_call m) (steps h) h first; do m <- set_at m p f; Def (m, RDone)
  | LCounts => do s <- hstats m; do p <- hpending m; Def (m, RCounts s p)
  | LStrings => do v <- hstr (fun it => stat_char (i_status it)) m; do t <- hstr (fun it => type_char (i_nalu it)) m; Def (m, RStrings v t)
  end.
Fixpoint hrun (alloc : nat -> list N -> N) (m : mem) (ops : list lop) : out (mem * list lres) :=
  match ops with
  | [] => Def (m, [])
  | o :: r => do (m, x) <- hexec alloc m o; do (m, xs) <- hrun alloc m r; Def (m, x :: xs)
  end.
(** h26x_nalu_list_create: signed_video_h26x_nalu_list.c:259-263. *)
Definition hcreate : mem := mkMem [] (mkHlist None None 0) 0 0 0.

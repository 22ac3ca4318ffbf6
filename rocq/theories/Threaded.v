(** The threaded signing plugin. Models lib/plugins/threaded-signing/plugin.c. Everything that happens under one lock of the
    mutex is one step; the worker's signing, which happens outside the lock, lies between the steps [take] and [finish].
    Steps of all threads may be interleaved in any order. Waiting for the condition variable is a step that does nothing.
    Simplification: memory allocation and thread creation do not fail. *)
From Verif Require Import Base Crypto Signer PlugTypes Plugin.

(** MAX_BUFFER_LENGTH: threaded plugin.c:48. *)
Definition max_buffer : nat := 60.
Definition empty_in : list hslot := repeat (mkHslot None 0 0%N) max_buffer.
Definition empty_out : list sslot := repeat (mkSslot None 0 false 0%N) max_buffer.

Section Threaded.
Variable C : crypto.

(** sign_hash: threaded plugin.c:215-278, and the check of the arguments in sv_signing_plugin_sign, line 755. [] is NULL. *)
Definition sign_hash (t : tdata) (id : N) (hash : list N) : out (tdata * svrc) :=
  match hash with
  | [] => Def (t, SV_INVALID_PARAMETER)
  | _ =>
      let idx := td_in_idx t in
      let n := length hash in
      if (max_buffer <=? idx)%nat then Def (t, SV_NOT_SUPPORTED)
      else if negb (td_running t) then Def (t, SV_EXTERNAL_ERROR)
      else match td_key t with
           | None => Undef AssertFail
           | Some _ =>
               let t := match td_hash t with Some _ => t | None => set_td_hash (Some (zeros n)) t end in
               do sl <- at_idx (td_in t) idx;
               let '(h, sl) := match hs_ptr sl with
                               | Some _ => (td_heap t, sl)
                               | None => let '(h, p) := calloc (td_heap t) n in (h, mkHslot (Some p) n (hs_id sl))
                               end in
               do b <- put_idx (td_in t) idx sl;
               let t := set_td_in b (set_td_heap h t) in
               if negb (hs_size sl =? n)%nat then Def (t, SV_NOT_SUPPORTED)
               else
                 do h <- store (td_heap t) (hs_ptr sl) hash;
                 do b <- put_idx (td_in t) idx (set_hs_id id sl);
                 Def (set_td_in_idx (S idx) (set_td_in b (set_td_heap h t)), SV_OK)
           end
  end.

(** What sv_signing_plugin_get_signature gives: the written size if it is set, the copied signature if true is returned, and
    the error. *)
Inductive gres := mkGres (written : option nat) (sig : option (list N)) (st : svrc).

(** get_signature: threaded plugin.c:286-343. *)
Definition get_signature (t : tdata) (id : N) (max : nat) : out (tdata * gres) :=
  if negb (td_running t) then Def (t, mkGres None None SV_EXTERNAL_ERROR)
  else if (td_out_idx t =? 0)%nat then Def (t, mkGres None None SV_OK)
  else
    match td_out t with
    | [] => Undef OobRead
    | sl :: rest =>
        if negb (ss_id sl =? id)%N then Def (t, mkGres None None SV_OK)
        else
          do r <- (if ss_err sl then Def (mkGres (Some 0%nat) None SV_EXTERNAL_ERROR)
                   else if (max <? ss_size sl)%nat then Def (mkGres (Some 0%nat) None SV_INVALID_PARAMETER)
                   else do x <- load (td_heap t) (ss_ptr sl) (ss_size sl);
                        Def (mkGres (Some (ss_size sl)) (Some x) SV_OK));
          Def (set_td_out_idx (td_out_idx t - 1) (set_td_out (rest ++ [mkSslot (ss_ptr sl) 0 false 0%N]) t), r)
    end.

(** The part of the worker before signing, central_worker_thread, threaded plugin.c:447-474: what is common to both workers.
    [rotate] moves the oldest element of the input buffer to the end. *)
Definition take (rotate : list hslot -> out (list hslot)) (t : tdata) : out (tdata * N) :=
  match td_in t with
  | [] => Undef OobRead
  | sl :: _ =>
      match td_hash t with
      | None => Undef AssertFail
      | Some h =>
          if negb (hs_size sl =? length h)%nat then Undef AssertFail
          else
            do x <- load (td_heap t) (hs_ptr sl) (hs_size sl);
            do h <- put_mem h x;
            do l <- rotate (td_in t);
            Def (set_td_signing true (set_td_in_idx (td_in_idx t - 1) (set_td_in l (set_td_hash (Some h) t))), hs_id sl)
      end
  end.
Definition rotate_central (l : list hslot) : out (list hslot) :=
  match l with [] => Undef OobRead | sl :: r => Def (r ++ [set_hs_id 0%N sl]) end.

(** Storing the outcome of signing, threaded plugin.c:492-519 and 648-668, after the check that there is room. *)
Definition put_out (t : tdata) (id : N) (st : svrc) (sig : list N) (max : nat) : out tdata :=
  let idx := td_out_idx t in
  do sl <- at_idx (td_out t) idx;
  let sl := mkSslot (ss_ptr sl) (ss_size sl) (negb (is_ok st)) id in
  let '(h, sl) := match ss_ptr sl with
                  | Some _ => (td_heap t, sl)
                  | None => let '(h, p) := calloc (td_heap t) max in (h, set_ss_ptr (Some p) sl)
                  end in
  do (h, sl) <- (if is_ok st then do h <- store h (ss_ptr sl) sig; Def (h, set_ss_size (length sig) sl) else Def (h, sl));
  do b <- put_idx (td_out t) idx sl;
  Def (set_td_out_idx (S idx) (set_td_out b (set_td_heap h t))).

(** openssl_sign_hash with the worker's copy of the hash. *)
Definition worker_sign (t : tdata) : out (tdata * svrc * list N * nat) :=
  match td_key t, td_hash t with
  | Some key, Some h =>
      let max := match c_priv C key with Some (_, m) => m | None => 0%nat end in
      let '(st, sig) := ossl_sign C key max (td_coin t) h in
      Def (set_td_coin (td_coin t + 1)%N t, st, sig, max)
  | _, _ => Undef UseAfterFree
  end.

(** free_plugin: threaded plugin.c:198-207, with free_buffers, lines 187-196. *)
Definition free_plugin (t : tdata) : tdata :=
  set_td_in_idx 0 (set_td_out_idx 0 (set_td_in empty_in (set_td_out empty_out (set_td_hash None (set_td_key None t))))).

(** ** The central thread *)

(** is_active: threaded plugin.c:351-363. The head of the list has id 0. *)
Definition is_active (ids : option (list N)) (id : N) : bool :=
  match ids with None => false | Some l => existsb (N.eqb id) (0%N :: l) end.
(** delete_item: threaded plugin.c:378-388. The head itself has no predecessor. *)
Fixpoint remove_id (id : N) (l : list N) : list N :=
  match l with [] => [] | x :: r => if (x =? id)%N then r else x :: remove_id id r end.
Definition delete_item (ids : option (list N)) (id : N) : out (option (list N)) :=
  match ids with
  | None => Def None
  | Some l => if (id =? 0)%N then Undef NullDeref else Def (Some (remove_id id l))
  end.

(** The loops of buffer_reset, threaded plugin.c:392-431. Every element with the id is reset and moved to the end. *)
Section Purge.
Context {A : Type} (id_of : A -> N) (reset : A -> A).
Fixpoint purge (fuel i : nat) (id : N) (l : list A) (idx : nat) : out (list A * nat) :=
  if (i <? max_buffer)%nat then
    match fuel with
    | O => Undef Diverges
    | S f =>
        do x <- at_idx l i;
        if (id_of x =? id)%N
        then purge f i id (firstn i l ++ skipn (S i) l ++ [reset x]) (if (i <? idx)%nat then idx - 1 else idx)
        else purge f (S i) id l idx
    end
  else Def (l, idx).
End Purge.
Definition buffer_reset (t : tdata) (id : N) : out tdata :=
  do (o, oi) <- purge ss_id (fun s => mkSslot (ss_ptr s) 0 false 0%N) (2 * max_buffer) 0 id (td_out t) (td_out_idx t);
  do (i, ii) <- purge hs_id (set_hs_id 0%N) (2 * max_buffer) 0 id (td_in t) (td_in_idx t);
  Def (set_td_in_idx ii (set_td_in i (set_td_out_idx oi (set_td_out o t)))).

(** The search for an id in central_setup, threaded plugin.c:545-554. unsigned has 32 bits. *)
Fixpoint find_id (fuel : nat) (ids : option (list N)) (last id : N) : out N :=
  if is_active ids id && negb (id =? last)%N then
    match fuel with
    | O => Undef Diverges
    | S f => let id := u32 (id + 1) in find_id f ids last (if (id =? 0)%N then u32 (id + 1) else id)
    end
  else Def id.
(** central_setup: threaded plugin.c:533-574; sv_signing_plugin_session_setup with a central thread, lines 796-799. None is NULL. *)
Definition central_setup (c : cdata) : out (cdata * option N) :=
  if negb (td_running (cd_td c)) then Def (c, None)
  else
    let last := cd_last c in
    let first := if (u32 (last + 1) =? 0)%N then 1%N else u32 (last + 1) in
    do id <- find_id (S (match cd_ids c with Some l => length l | None => 0%nat end)) (cd_ids c) last first;
    if (id =? last)%N then Def (c, None)
    else
      match cd_ids c with
      | None => Undef NullDeref
      | Some l => Def (set_cd_ids (Some (l ++ [id])) (set_cd_last id c), Some id)
      end.
(** central_teardown: threaded plugin.c:577-585. *)
Definition central_teardown (c : cdata) (id : N) : out cdata :=
  do t <- buffer_reset (cd_td c) id;
  do ids <- delete_item (cd_ids c) id;
  Def (set_cd_ids ids (set_cd_td t c)).

(** One round of central_worker_thread up to signing: threaded plugin.c:446-475. *)
Definition central_take (c : cdata) : out cdata :=
  let t := cd_td c in
  if td_running t && negb (td_signing t) && (0 <? td_in_idx t)%nat
  then do (t, id) <- take rotate_central t; Def (set_cd_cur id (set_cd_td t c))
  else Def c.
(** The rest of the round: threaded plugin.c:476-519. *)
Definition central_finish (c : cdata) : out cdata :=
  let t := cd_td c in
  if negb (td_signing t) then Def c
  else
    do (t, st, sig, max) <- worker_sign t;
    let t := set_td_signing false t in
    let c := set_cd_td t c in
    if negb (is_active (cd_ids c) (cd_cur c)) then Def c
    else if (max_buffer <=? td_out_idx t)%nat then do t <- buffer_reset t (cd_cur c); Def (set_cd_td t c)
    else do t <- put_out t (cd_cur c) st sig max; Def (set_cd_td t c).

(** sv_signing_plugin_init and sv_signing_plugin_init_new: threaded plugin.c:841-877 and 885-927. The call returns when the
    thread runs. *)
Definition central_init (c : cdata) (key : list N) : cdata * bool :=
  let t := cd_td c in
  if td_thread t || match cd_ids c with Some _ => true | None => false end || match td_key t with Some _ => true | None => false end
  then (c, false)
  else match key with
       | [] => (c, false)
       | _ =>
           match c_priv C key with
           | None => (c, false)
           | Some _ => (set_cd_ids (Some []) (set_cd_td (set_td_running true (set_td_thread true (set_td_key (Some key) t))) c), true)
           end
       end.
(** sv_signing_plugin_exit: threaded plugin.c:934-953, with local_teardown_locked, lines 716-744, up to waiting for the thread.
    Simplification: a thread that was told to stop and one that has been joined are not told apart, so a second call while the
    first one waits is only modelled until the next initialisation. *)
Definition central_exit (c : cdata) : out cdata :=
  let t := cd_td c in
  if td_thread t then Def (set_cd_ids None (set_cd_td (set_td_running false (set_td_thread false t)) c))
  else if td_signing t then Undef UseAfterFree
  else Def (set_cd_ids None (set_cd_td (free_plugin t) c)).
(** The end of local_teardown_locked: g_thread_join and free_plugin. *)
Definition central_join (c : cdata) : cdata :=
  let t := cd_td c in
  if td_thread t || td_running t || td_signing t then c else set_cd_td (free_plugin t) c.

Definition central_zero (coin : N) : cdata :=
  mkCdata (mkTdata false false false empty_in 0 empty_out 0 None None coin []) 0%N 0%N None.

(** What happens: calls of the sessions (a handle is represented by its id) and steps of the thread. *)
Inductive tev :=
| TInit (key : list N) | TExit | TJoin
| TSetup | TTeardown (id : N) | TSign (id : N) (hash : list N) | TGet (id : N) (max : nat)
| TTake | TFinish.
Inductive tres := RDone | RInit (ok : bool) | RSetup (id : option N) | RSign (st : svrc) | RGet (r : gres).

Definition tstep (c : cdata) (e : tev) : out (cdata * tres) :=
  match e with
  | TInit key => let '(c, ok) := central_init c key in Def (c, RInit ok)
  | TExit => do c <- central_exit c; Def (c, RDone)
  | TJoin => Def (central_join c, RDone)
  | TSetup => if td_thread (cd_td c) then do (c, r) <- central_setup c; Def (c, RSetup r) else Def (c, RSetup None)
  | TTeardown id => do c <- central_teardown c id; Def (c, RDone)
  | TSign id h => do (t, st) <- sign_hash (cd_td c) id h; Def (set_cd_td t c, RSign st)
  | TGet id max => do (t, r) <- get_signature (cd_td c) id max; Def (set_cd_td t c, RGet r)
  | TTake => do c <- central_take c; Def (c, RDone)
  | TFinish => do c <- central_finish c; Def (c, RDone)
  end.
Fixpoint trun (c : cdata) (l : list tev) : out (cdata * list tres) :=
  match l with
  | [] => Def (c, [])
  | e :: l => do (c, r) <- tstep c e; do (c, rs) <- trun c l; Def (c, r :: rs)
  end.

(** ** A thread of its own *)

(** The rotation of the input buffer in local_worker_thread: threaded plugin.c:618-625. Only the elements with memory for a
    hash take part. *)
Fixpoint rotate_loop (fuel j : nat) (tmp : hslot) (l : list hslot) : out (list hslot) :=
  do nx <- at_idx l (S j);
  if match hs_ptr nx with Some _ => true | None => false end && (j <? max_buffer - 1)%nat then
    match fuel with
    | O => Undef Diverges
    | S f => do l <- put_idx l j nx; rotate_loop f (S j) tmp l
    end
  else put_idx l j tmp.
Definition rotate_local (l : list hslot) : out (list hslot) :=
  match l with [] => Undef OobRead | sl :: _ => rotate_loop max_buffer 0 sl l end.

(** local_setup: threaded plugin.c:677-714. *)
Definition local_setup (key : list N) (coin : N) : option tdata :=
  match key with
  | [] => None
  | _ =>
      match c_priv C key with
      | None => None
      | Some _ => Some (mkTdata true true false empty_in 0 empty_out 0 (Some key) None coin [])
      end
  end.
(** local_worker_thread: threaded plugin.c:593-672. A full output buffer stops the thread. *)
Definition local_take (t : tdata) : out tdata :=
  if td_running t && negb (td_signing t) && (0 <? td_in_idx t)%nat
  then do (t, _) <- take rotate_local t; Def t
  else Def t.
Definition local_finish (t : tdata) : out tdata :=
  if negb (td_signing t) then Def t
  else
    do (t, st, sig, max) <- worker_sign t;
    let t := set_td_signing false t in
    if (max_buffer <=? td_out_idx t)%nat then Def (free_plugin (set_td_running false t))
    else
      do sl <- at_idx (td_out t) (td_out_idx t);
      put_out t (ss_id sl) st sig max.

Inductive lev := LSign (hash : list N) | LGet (max : nat) | LTake | LFinish.
Definition lstep (t : tdata) (e : lev) : out (tdata * tres) :=
  match e with
  | LSign h => do (t, st) <- sign_hash t 0%N h; Def (t, RSign st)
  | LGet max => do (t, r) <- get_signature t 0%N max; Def (t, RGet r)
  | LTake => do t <- local_take t; Def (t, RDone)
  | LFinish => do t <- local_finish t; Def (t, RDone)
  end.
Fixpoint lrun (t : tdata) (l : list lev) : out (tdata * list tres) :=
  match l with
  | [] => Def (t, [])
  | e :: l => do (t, r) <- lstep t e; do (t, rs) <- lrun t l; Def (t, r :: rs)
  end.

End Threaded.

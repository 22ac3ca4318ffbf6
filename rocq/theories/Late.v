(** A signing session with the threaded plugin: the signatures come some time after the hashes were
    handed over. *)
From Verif Require Import Base Nalu Crypto Types Hash Tlv Signer.
Local Open Scope N_scope.

Section Late.
Variable C : crypto.

(** What one round of asking the threaded plugin meets (get_signature: threaded-signing/plugin.c:285-342):
    [po_ready] signatures are there, and then, with [po_fails], one that the worker thread could not
    make (signing_error, plugin.c:480-500 and 620-650). After that the plugin answers false, because no
    more are made yet or because the next one belongs to another session. *)
Record poll := mkPoll { po_ready : nat; po_fails : bool }.

(** get_signature when the oldest entry has a signing error (plugin.c:315-318 and 326-336): the entry is
    taken out, the size written is zero, and the answer is false. The caller does not look at |error|
    in that case (signed_video_h26x_sign.c:563-565). *)
Definition drop_signature (s : signer) : signer :=
  if match sc_key (s_cfg s) with None => true | _ => false end || negb (sc_sig_mem (s_cfg s)) then s
  else
    match r_queue (s_run s) with
    | [] => s
    | _ :: q => on_run (fun r => set_r_sig [] (set_r_queue q r)) s
    end.

(** get_signature_complete_sei_and_add_to_prepend: signed_video_h26x_sign.c:554-600, as [complete_loop]
    in Signer.v, but only the signatures that are there are taken. The signature is computed when the
    hash is handed over; that the worker thread does it later is not visible to the session. *)
Fixpoint complete_late (k : nat) (fails : bool) (s : signer) : out (signer * svrc) :=
  match k with
  | O => Def (if fails then drop_signature s else s, SV_OK)
  | S k =>
      let '(s, got) := plugin_get s in
      if negb got then Def (s, SV_OK)
      else
        do (s, st) <- complete_sei s;
        if is_ok st then complete_late k fails s else Def (s, st)
  end.
Definition complete_poll (p : poll) (s : signer) : out (signer * svrc) := complete_late (po_ready p) (po_fails p) s.

(** signed_video_get_sei: signed_video_h26x_sign.c:627-691, as [get_sei] in Signer.v. *)
Definition get_sei_late (p : poll) (s : signer) (want : bool) (peek : list N) : out (signer * sres) :=
  let pending := nlen (r_slots (s_run s)) in
  do (s, st) <- complete_poll p s;
  if negb (is_ok st) then Def (s, mkSres st [] 0 pending)
  else if (r_done (s_run s) <? 1)%nat then Def (s, mkSres SV_OK [] 0 pending)
  else
    do show <-
      (match peek with
       | [] => Def true
       | _ => do n <- parse_nalu peek (sc_codec (s_cfg s)) false false;
              Def ((ntype_eqb (n_type n) TI || ntype_eqb (n_type n) TP) && n_primary n)
       end);
    if negb show then Def (on_run (set_r_avoid true) s, mkSres SV_OK [] 0 pending)
    else
      do (s, bytes, size) <- fetch s 0 want;
      Def (s, mkSres SV_OK bytes size (if want then nlen (r_slots (s_run s)) else pending)).

(** get_latest_sei: signed_video_h26x_sign.c:602-625. *)
Definition get_latest_late (p : poll) (s : signer) (want : bool) : out (signer * sres) :=
  do (s, st) <- complete_poll p s;
  if negb (is_ok st) then Def (s, mkSres st [] 0 0)
  else if (r_done (s_run s) <? 1)%nat then Def (s, mkSres SV_OK [] 0 0)
  else
    do (s, bytes, size) <- fetch s (r_done (s_run s) - 1) want;
    Def (s, mkSres SV_OK bytes size 0).

(** signed_video_get_nalu_to_prepend: signed_video_h26x_sign.c:693-712. The plugin is asked twice. The
    memory has the size that was found the first time; the second call copies as many bytes as the SEI
    that is newest then has. *)
Definition get_prepend_late (p q : poll) (s : signer) : out (signer * sres) :=
  do (s, r) <- get_latest_late p s false;
  if is_ok (rs_code r) && negb (rs_size r =? 0) then
    do (s, r2) <- get_latest_late q s true;
    if rs_size r <? rs_size r2 then Undef OobWrite else Def (s, r2)
  else Def (s, r).

(** signed_video_set_end_of_stream: signed_video_h26x_sign.c:721-746. *)
Definition end_of_stream_late (p : poll) (s : signer) : out (signer * svrc) :=
  let '(s, st) := prepare s in
  if negb (is_ok st) then Def (s, st)
  else
    do (s, st, x) <- generate_sei C s;
    if negb (is_ok st) then Def (s, st)
    else complete_poll p (add_payload s x).

(** One call of the API. [p] and [q] are what the first and the second round of asking the plugin meet;
    only signed_video_get_nalu_to_prepend has a second one, and only the three functions below ask. *)
Definition exec_late (o : sop) (p q : poll) (s : signer) : out (signer * sres) :=
  match o with
  | OGet want peek => get_sei_late p s want peek
  | OPrepend => get_prepend_late p q s
  | OEos => do x <- end_of_stream_late p s; Def (fst x, code (snd x))
  | _ => exec C o s
  end.

(** A whole session: each call with what it meets. *)
Fixpoint run_late (ops : list (sop * (poll * poll))) (s : signer) : out (signer * list sres) :=
  match ops with
  | [] => Def (s, [])
  | (o, (p, q)) :: r =>
      do (s1, x) <- exec_late o p q s;
      do (s2, l) <- run_late r s1;
      Def (s2, x :: l)
  end.

End Late.

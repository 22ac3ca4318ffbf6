(** The unthreaded signing plugin with its buffer of signatures as the array of pointers it is.
    Models lib/plugins/unthreaded-signing/plugin.c. *)
From Verif Require Import Base Crypto Signer PlugTypes.

Section Plugin.
Variable C : crypto.

(** openssl_sign_hash: signed_video_openssl.c:243-281. *)
Definition ossl_sign (key : list N) (max : nat) (coin : N) (hash : list N) : svrc * list N :=
  match c_sign C key coin hash with
  | None => (SV_EXTERNAL_ERROR, [])
  | Some sig => if (max <? length sig)%nat then (SV_MEMORY, []) else (SV_OK, sig)
  end.

(** sv_signing_plugin_session_setup: unthreaded plugin.c:168-182. [] is NULL. *)
Definition usetup (key : list N) (coin : N) : option uplug :=
  match key with
  | [] => None
  | _ =>
      match c_priv C key with
      | None => None
      | Some (_, max) => Some (mkUplug key max coin 0 (repeat (mkUslot None 0) 60) [])
      end
  end.

(** sv_signing_plugin_sign and unthreaded_openssl_sign_hash: unthreaded plugin.c:79-136. *)
Definition usign (u : uplug) (hash : list N) : out (uplug * svrc) :=
  match hash with
  | [] => Def (u, SV_INVALID_PARAMETER)
  | _ =>
      let idx := u_idx u in
      if (max_plugin_buffer <=? idx)%nat then Def (u, SV_NOT_SUPPORTED)
      else
        let '(st, sig) := ossl_sign (u_key u) (u_max u) (u_coin u) hash in
        let u := set_u_coin (u_coin u + 1)%N u in
        if negb (is_ok st) then Def (u, st)
        else
          match sig with
          | [] => Def (u, SV_NOT_SUPPORTED)
          | _ =>
              do sl <- at_idx (u_buf u) idx;
              let '(h, p) := match us_ptr sl with
                             | Some p => (u_heap u, p)
                             | None => calloc (u_heap u) (u_max u)
                             end in
              do h <- store h (Some p) sig;
              do b <- put_idx (u_buf u) idx (mkUslot (Some p) (length sig));
              Def (set_u_idx (S idx) (set_u_buf b (set_u_heap h u)), SV_OK)
          end
  end.

(** The loop of shift_out_buffer, unthreaded plugin.c:67-70: [n] rounds from round [j]. *)
Fixpoint shift_loop (n j : nat) (l : list uslot) : out (list uslot) :=
  match n with
  | O => Def l
  | S n =>
      do x <- at_idx l (S j);
      do l <- put_idx l j x;
      shift_loop n (S j) l
  end.
(** shift_out_buffer: unthreaded plugin.c:60-77. *)
Definition shift_out (u : uplug) : out uplug :=
  let idx := u_idx u in
  if (max_plugin_buffer <? idx)%nat then Undef AssertFail
  else
    do old <- at_idx (u_buf u) 0;
    do l <- shift_loop (idx - 1) 0 (u_buf u);
    do l <- put_idx l (idx - 1) (mkUslot (us_ptr old) 0);
    Def (set_u_idx (idx - 1) (set_u_buf l u)).

(** sv_signing_plugin_get_signature: unthreaded plugin.c:140-166. The result is what is copied to the caller's memory of
    [max] bytes if true is returned. *)
Definition uget (u : uplug) (max : nat) : out (uplug * option (list N)) :=
  if (0 <? u_idx u)%nat then
    do sl <- at_idx (u_buf u) 0;
    if (max <? us_size sl)%nat then do u <- shift_out u; Def (u, None)
    else
      do sig <- load (u_heap u) (us_ptr sl) (us_size sl);
      do u <- shift_out u;
      Def (u, Some sig)
  else Def (u, None).

(** A use of the plugin by its only user. *)
Inductive uop := USign (hash : list N) | UGet (max : nat).
Inductive ures := RSigned (st : svrc) | RGot (sig : option (list N)).
Definition ustep (u : uplug) (o : uop) : out (uplug * ures) :=
  match o with
  | USign h => do (u, st) <- usign u h; Def (u, RSigned st)
  | UGet max => do (u, r) <- uget u max; Def (u, RGot r)
  end.
Fixpoint urun (u : uplug) (l : list uop) : out (uplug * list ures) :=
  match l with
  | [] => Def (u, [])
  | o :: l => do (u, r) <- ustep u o; do (u, rs) <- urun u l; Def (u, r :: rs)
  end.
End Plugin.

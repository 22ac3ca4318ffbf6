(** Memory of the signing plugins and their state records. Models the unthreaded plugin
    (lib/plugins/unthreaded-signing/plugin.c) and the threaded one (lib/plugins/threaded-signing/plugin.c).
    The records are generated by a script from a field table; the field comments name the C members. *)
From Verif Require Import Base Crypto Signer.

(** Blocks of memory. A pointer is the number of a block; None is NULL. Simplification: a freed block is never
    used again because the pointers to it are set to NULL. *)
Definition heap := list (list N).
(** calloc(1, n). *)
Definition calloc (h : heap) (n : nat) : heap * nat := (h ++ [zeros n], length h).
(** memcpy(p, d, size of d). *)
Definition store (h : heap) (p : option nat) (d : list N) : out heap :=
  match p with
  | None => Undef NullDeref
  | Some i =>
      match nth_error h i with
      | None => Undef UseAfterFree
      | Some b => do b2 <- put_mem b d; Def (replace_nth i b2 h)
      end
  end.
(** The n bytes at p. *)
Definition load (h : heap) (p : option nat) (n : nat) : out (list N) :=
  match p with
  | None => Undef NullDeref
  | Some i =>
      match nth_error h i with
      | None => Undef UseAfterFree
      | Some b => do (x, _) <- take_mem n b; Def x
      end
  end.
(** Elements of arrays. *)
Definition at_idx {A} (l : list A) (i : nat) : out A :=
  match nth_error l i with Some x => Def x | None => Undef OobRead end.
Definition put_idx {A} (l : list A) (i : nat) (x : A) : out (list A) :=
  if (i <? length l)%nat then Def (replace_nth i x l) else Undef OobWrite.

(** signature_data_t: unthreaded plugin.c:45-48. *)
Record uslot := mkUslot {
  us_ptr : option nat;  (* signature *)
  us_size : nat  (* signature_size *)
}.
Definition set_us_ptr (v : option nat) (r : uslot) : uslot := mkUslot v (us_size r).
Definition set_us_size (v : nat) (r : uslot) : uslot := mkUslot (us_ptr r) v.

(** sv_unthreaded_plugin_t: unthreaded plugin.c:51-55. *)
Record uplug := mkUplug {
  u_key : list N;  (* sign_data.key: the private key *)
  u_max : nat;  (* sign_data.max_signature_size *)
  u_coin : N;  (* randomness of the next signature *)
  u_idx : nat;  (* out_buffer_idx *)
  u_buf : list uslot;  (* out_buffer[60] *)
  u_heap : heap  (* memory *)
}.
Definition set_u_key (v : list N) (r : uplug) : uplug := mkUplug v (u_max r) (u_coin r) (u_idx r) (u_buf r) (u_heap r).
Definition set_u_max (v : nat) (r : uplug) : uplug := mkUplug (u_key r) v (u_coin r) (u_idx r) (u_buf r) (u_heap r).
Definition set_u_coin (v : N) (r : uplug) : uplug := mkUplug (u_key r) (u_max r) v (u_idx r) (u_buf r) (u_heap r).
Definition set_u_idx (v : nat) (r : uplug) : uplug := mkUplug (u_key r) (u_max r) (u_coin r) v (u_buf r) (u_heap r).
Definition set_u_buf (v : list uslot) (r : uplug) : uplug := mkUplug (u_key r) (u_max r) (u_coin r) (u_idx r) v (u_heap r).
Definition set_u_heap (v : heap) (r : uplug) : uplug := mkUplug (u_key r) (u_max r) (u_coin r) (u_idx r) (u_buf r) v.

(** hash_data_t: threaded plugin.c:50-54. *)
Record hslot := mkHslot {
  hs_ptr : option nat;  (* hash *)
  hs_size : nat;  (* size *)
  hs_id : N  (* id *)
}.
Definition set_hs_ptr (v : option nat) (r : hslot) : hslot := mkHslot v (hs_size r) (hs_id r).
Definition set_hs_size (v : nat) (r : hslot) : hslot := mkHslot (hs_ptr r) v (hs_id r).
Definition set_hs_id (v : N) (r : hslot) : hslot := mkHslot (hs_ptr r) (hs_size r) v.

(** signature_data_t: threaded plugin.c:57-62. *)
Record sslot := mkSslot {
  ss_ptr : option nat;  (* signature *)
  ss_size : nat;  (* size *)
  ss_err : bool;  (* signing_error *)
  ss_id : N  (* id *)
}.
Definition set_ss_ptr (v : option nat) (r : sslot) : sslot := mkSslot v (ss_size r) (ss_err r) (ss_id r).
Definition set_ss_size (v : nat) (r : sslot) : sslot := mkSslot (ss_ptr r) v (ss_err r) (ss_id r).
Definition set_ss_err (v : bool) (r : sslot) : sslot := mkSslot (ss_ptr r) (ss_size r) v (ss_id r).
Definition set_ss_id (v : N) (r : sslot) : sslot := mkSslot (ss_ptr r) (ss_size r) (ss_err r) v.

(** threaded_data_t: threaded plugin.c:67-85. *)
Record tdata := mkTdata {
  td_thread : bool;  (* thread is not NULL *)
  td_running : bool;  (* is_running *)
  td_signing : bool;  (* is_in_signing *)
  td_in : list hslot;  (* in[60] *)
  td_in_idx : nat;  (* in_idx *)
  td_out : list sslot;  (* out[60] *)
  td_out_idx : nat;  (* out_idx *)
  td_key : option (list N);  (* sign_data: the private key; None is NULL *)
  td_hash : option (list N);  (* sign_data->hash of sign_data->hash_size bytes; None is NULL *)
  td_coin : N;  (* randomness of the next signature *)
  td_heap : heap  (* memory *)
}.
Definition set_td_thread (v : bool) (r : tdata) : tdata := mkTdata v (td_running r) (td_signing r) (td_in r) (td_in_idx r) (td_out r) (td_out_idx r) (td_key r) (td_hash r) (td_coin r) (td_heap r).
Definition set_td_running (v : bool) (r : tdata) : tdata := mkTdata (td_thread r) v (td_signing r) (td_in r) (td_in_idx r) (td_out r) (td_out_idx r) (td_key r) (td_hash r) (td_coin r) (td_heap r).
Definition set_td_signing (v : bool) (r : tdata) : tdata := mkTdata (td_thread r) (td_running r) v (td_in r) (td_in_idx r) (td_out r) (td_out_idx r) (td_key r) (td_hash r) (td_coin r) (td_heap r).
Definition set_td_in (v : list hslot) (r : tdata) : tdata := mkTdata (td_thread r) (td_running r) (td_signing r) v (td_in_idx r) (td_out r) (td_out_idx r) (td_key r) (td_hash r) (td_coin r) (td_heap r).
Definition set_td_in_idx (v : nat) (r : tdata) : tdata := mkTdata (td_thread r) (td_running r) (td_signing r) (td_in r) v (td_out r) (td_out_idx r) (td_key r) (td_hash r) (td_coin r) (td_heap r).
Definition set_td_out (v : list sslot) (r : tdata) : tdata := mkTdata (td_thread r) (td_running r) (td_signing r) (td_in r) (td_in_idx r) v (td_out_idx r) (td_key r) (td_hash r) (td_coin r) (td_heap r).
Definition set_td_out_idx (v : nat) (r : tdata) : tdata := mkTdata (td_thread r) (td_running r) (td_signing r) (td_in r) (td_in_idx r) (td_out r) v (td_key r) (td_hash r) (td_coin r) (td_heap r).
Definition set_td_key (v : option (list N)) (r : tdata) : tdata := mkTdata (td_thread r) (td_running r) (td_signing r) (td_in r) (td_in_idx r) (td_out r) (td_out_idx r) v (td_hash r) (td_coin r) (td_heap r).
Definition set_td_hash (v : option (list N)) (r : tdata) : tdata := mkTdata (td_thread r) (td_running r) (td_signing r) (td_in r) (td_in_idx r) (td_out r) (td_out_idx r) (td_key r) v (td_coin r) (td_heap r).
Definition set_td_coin (v : N) (r : tdata) : tdata := mkTdata (td_thread r) (td_running r) (td_signing r) (td_in r) (td_in_idx r) (td_out r) (td_out_idx r) (td_key r) (td_hash r) v (td_heap r).
Definition set_td_heap (v : heap) (r : tdata) : tdata := mkTdata (td_thread r) (td_running r) (td_signing r) (td_in r) (td_in_idx r) (td_out r) (td_out_idx r) (td_key r) (td_hash r) (td_coin r) v.

(** The static members: threaded plugin.c:105-110. *)
Record cdata := mkCdata {
  cd_td : tdata;  (* central *)
  cd_last : N;  (* last_added_id *)
  cd_cur : N;  (* id_in_signing *)
  cd_ids : option (list N)  (* id_list without its head; None is NULL *)
}.
Definition set_cd_td (v : tdata) (r : cdata) : cdata := mkCdata v (cd_last r) (cd_cur r) (cd_ids r).
Definition set_cd_last (v : N) (r : cdata) : cdata := mkCdata (cd_td r) v (cd_cur r) (cd_ids r).
Definition set_cd_cur (v : N) (r : cdata) : cdata := mkCdata (cd_td r) (cd_last r) v (cd_ids r).
Definition set_cd_ids (v : option (list N)) (r : cdata) : cdata := mkCdata (cd_td r) (cd_last r) (cd_cur r) v.


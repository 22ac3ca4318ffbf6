(** C25 and C26: the threaded signing plugin with a central thread. *)
From Verif Require Import Base Crypto Types Signer Toy PlugTypes Plugin Threaded PlugSpec ThreadSpec ThreadMain.

(** ** C25: sessions are kept apart and in order *)

(** For every interleaving of the calls of any number of sessions with the steps of the central thread: nothing undefined
    happens, no buffer holds more than 60 elements, and what a session is given are outcomes of signing hashes that the same
    session has submitted, in the order of submission. Missing: hashes of different sizes in one lifetime of the plugin, see
    [C25_two_sizes_refuted], and that no hash is left out, see [C25_paired] and [C25_full_refuted]. *)
Theorem C25_sessions_partial C key pub max size last coin evs : c_priv C key = Some (pub, max) -> key <> [] -> (last < 2 ^ 32)%N ->
  lifetime size evs ->
  exists c rs, trun C (started C key last coin) evs = Def (c, rs) /\
    (td_in_idx (cd_td c) <= 60)%nat /\ (td_out_idx (cd_td c) <= 60)%nat /\
    forall id, exists signed, sub signed (accepted id evs rs) /\ Forall2 (outcome_of C key max) signed (received id evs rs).
Proof. intros HK KN LL L. exact (own_signatures C key pub max size HK KN last coin evs LL L). Qed.

(** As long as no more than 60 outcomes are outstanding over all sessions, none is left out: the n-th outcome a session is
    given is that of the n-th hash it has submitted. *)
Theorem C25_paired C key pub max size last coin e1 e2 c r1 id r2 : c_priv C key = Some (pub, max) -> key <> [] -> (last < 2 ^ 32)%N ->
  lifetime size (e1 ++ TSetup :: e2) ->
  trun C (started C key last coin) (e1 ++ TSetup :: e2) = Def (c, r1 ++ RSetup (Some id) :: r2) -> length r1 = length e1 ->
  Forall (fun e => match e with TSign i _ => i <> id | _ => True end) e1 ->
  Forall (fun e => e <> TExit /\ e <> TTeardown id) e2 ->
  (forall n, waiting (firstn n (e1 ++ TSetup :: e2)) (firstn n (r1 ++ RSetup (Some id) :: r2)) 0 <= 60)%nat ->
  exists signed rest, accepted id e2 r2 = signed ++ rest /\ Forall2 (outcome_of C key max) signed (received id e2 r2).
Proof. intros HK KN. exact (in_step_order C key pub max size HK KN last coin e1 e2 c r1 id r2). Qed.

(** If the first session then calls no more, the second one never gets its signature, whatever it and all other sessions do and
    however long the central thread runs. *)
Theorem C25_head_blocks evs : lifetime 1 (two_sessions ++ evs) -> Forall (of_others 1%N) evs ->
  exists c rs, trun toy (started toy key1 0 0) (two_sessions ++ evs) = Def (c, rs) /\ received 2 (two_sessions ++ evs) rs = [].
Proof. exact (two_sessions_blocked evs). Qed.

(** The hypotheses of the theorems above: two sessions with interleaved calls. *)
Definition demo_thread : list tev :=
  [TSetup; TSign 1 [10; 11]; TTake; TSetup; TSign 2 [20; 21]; TSign 1 [12; 13]; TFinish; TTake; TGet 2 65; TGet 1 65; TFinish; TTake; TGet 2 65; TTeardown 2; TFinish; TGet 1 65]%N.
Example demo_thread_run : exists c rs, lifetime 2 demo_thread /\ trun toy (started toy key1 4294967295 0) demo_thread = Def (c, rs) /\
  accepted 1 demo_thread rs = [[10; 11]; [12; 13]]%N /\ accepted 2 demo_thread rs = [[20; 21]]%N /\
  map gv_sig (received 1 demo_thread rs) = [Some [65; 10; 11]; Some [65; 12; 13]]%N /\ map gv_sig (received 2 demo_thread rs) = [Some [65; 20; 21]]%N.
Proof.
  do 2 eexists. split.
  - split; [|vm_compute; auto]. repeat (apply Forall_cons; [cbn; repeat split; try discriminate; auto|]). apply Forall_nil.
  - split; [vm_compute; reflexivity|]. repeat split; vm_compute; reflexivity.
Qed.
Example demo_paired : exists c r2, trun toy (started toy key1 4294967295 0) ([] ++ TSetup :: tl demo_thread) = Def (c, [] ++ RSetup (Some 1%N) :: r2) /\
  Forall (fun e => e <> TExit /\ e <> TTeardown 1%N) (tl demo_thread) /\
  (forall n, waiting (firstn n ([] ++ TSetup :: tl demo_thread)) (firstn n ([] ++ RSetup (Some 1%N) :: r2)) 0 <= 60)%nat.
Proof.
  do 2 eexists. split; [vm_compute; reflexivity|]. split.
  - repeat (apply Forall_cons; [split; discriminate|]). apply Forall_nil.
  - intros n. do 17 (destruct n as [|n]; [vm_compute; lia|]). vm_compute. lia.
Qed.

(** ** What goes wrong *)

(** One session submits 61 hashes before asking for signatures: everything is thrown away without notice, and the signature of
    the next hash is what it gets first. The signing side adds it to the SEI of the first hash. *)
Theorem C25_full_refuted : exists evs c rs h rest g, lifetime 1 evs /\ trun toy (started toy key1 0 0) evs = Def (c, rs) /\
  accepted 1 evs rs = h :: rest /\ received 1 evs rs = [g] /\ ~ outcome_of toy key1 65 h g.
Proof. exact full_output. Qed.

(** Two sessions with hashes of different sizes: the assertion on the size fails. *)
Theorem C25_two_sizes_refuted : exists evs, Forall (fun e => match e with TInit _ | TExit => False | _ => True end) evs /\
  Forall (fun e => match e with TSign 1 h => length h = 32%nat | TSign 2 h => length h = 64%nat | TSign _ _ => False | _ => True end) evs /\
  trun toy (started toy key1 0 0) evs = Undef AssertFail.
Proof. exact two_sizes. Qed.

(** Stopping the plugin a second time while the central thread is signing frees the memory it uses. *)
Theorem C25_second_exit_refuted : exists evs, Forall (in_lifetime 1) evs /\ trun toy (started toy key1 0 0) evs = Undef UseAfterFree.
Proof. exact second_exit. Qed.

(** A session with a thread of its own: with a full input buffer the thread reads the element behind the last one. *)
Theorem C25_own_thread_refuted : exists t evs, local_setup toy key1 0 = Some t /\
  Forall (fun e => match e with LSign h => length h = 1%nat | _ => True end) evs /\ lrun toy t evs = Undef OobRead.
Proof. exact own_thread. Qed.

(** ** C26: ids *)

(** For every history of the plugin, with any number of initialisations and stops, and whatever id was handed out last: no two
    open sessions have the same id and none has id 0. *)
Theorem C26_unique C last coin evs c rs : (last < 2 ^ 32)%N -> trun C (set_cd_last last (central_zero coin)) evs = Def (c, rs) ->
  NoDup (open_ids [] evs rs) /\ ~ In 0%N (open_ids [] evs rs).
Proof. exact (ids_distinct C last coin evs c rs). Qed.

(** The search for an id comes to an end, also when the counter wraps. It gives an id that fits 32 bits, is not 0 and not in
    use, and it only fails when there are as many sessions as there are ids, but one. *)
Theorem C26_free_id C last coin evs c rs : (last < 2 ^ 32)%N -> trun C (set_cd_last last (central_zero coin)) evs = Def (c, rs) ->
  is_up false evs rs = true ->
  exists c' r, tstep C c TSetup = Def (c', RSetup r) /\
    match r with
    | Some id => (0 < id < 2 ^ 32)%N /\ ~ In id (open_ids [] evs rs)
    | None => (2 ^ 32 - 2 <= N.of_nat (length (open_ids [] evs rs)))%N
    end.
Proof. exact (setup_free C last coin evs c rs). Qed.

(** The counter wraps while sessions are open, with a restart in between. *)
Example demo_ids : exists c rs, trun toy (set_cd_last 4294967293 (central_zero 0))
    [TInit key1; TSetup; TExit; TJoin; TInit key1; TSetup; TSetup; TSetup; TTeardown 1; TSetup; TSetup]%N = Def (c, rs) /\
  open_ids [] [TInit key1; TSetup; TExit; TJoin; TInit key1; TSetup; TSetup; TSetup; TTeardown 1; TSetup; TSetup]%N rs = [4294967295; 2; 3; 4]%N /\
  is_up false [TInit key1; TSetup; TExit; TJoin; TInit key1; TSetup; TSetup; TSetup; TTeardown 1; TSetup; TSetup]%N rs = true.
Proof. do 2 eexists. split; [vm_compute; reflexivity|]. split; vm_compute; reflexivity. Qed.

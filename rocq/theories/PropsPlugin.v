(** C24: the unthreaded signing plugin is a queue. *)
From Verif Require Import Base Crypto Types Signer Toy PlugTypes Plugin PlugSpec PlugProofs.
Local Open Scope N_scope.

(** Whatever hashes are submitted and whenever signatures are asked for: nothing undefined happens, the signatures come out in
    the order in which the hashes were submitted and each at most once, one that does not fit is dropped, no more than 60 are
    held, and a hash is only refused if it is empty, 60 signatures are held or it cannot be signed. *)
Theorem C24_queue C key pub max coin u ops : usetup C key coin = Some u -> c_priv C key = Some (pub, max) ->
  exists u' rs sigs, urun C u ops = Def (u', rs) /\ replay C key max [] ops sigs rs.
Proof. exact (queue_replays C key pub max coin u ops). Qed.

(** In particular when the caller always offers enough room: the signatures given out, followed by those still held, are one
    signature for every accepted hash, in order. *)
Theorem C24_in_order C key pub max coin u ops : usetup C key coin = Some u -> c_priv C key = Some (pub, max) ->
  Forall (fun o => match o with UGet room => (max <= room)%nat | _ => True end) ops ->
  exists u' rs held, urun C u ops = Def (u', rs) /\ Forall2 (signature_of C key) (submitted ops rs) (given_out rs ++ held) /\ (length held <= 60)%nat.
Proof. exact (queue_in_order C key pub max coin u ops). Qed.

(** The queue in the model of the signing side, Signer.v, gives the same results as the array of pointers. *)
Theorem C24_signer_queue C s key pub max coin u ops : usetup C key coin = Some u -> c_priv C key = Some (pub, max) ->
  sc_key (s_cfg s) = Some key -> sc_sig_mem (s_cfg s) = true -> r_queue (s_run s) = [] -> r_coin (s_run s) = coin ->
  Forall (fun o => match o with UGet room => room = sc_max_sig (s_cfg s) | _ => True end) ops ->
  exists u', urun C u ops = Def (u', signer_plugin C s ops).
Proof. exact (signer_queue C s key pub max coin u ops). Qed.

(** Two hashes are submitted and one signature is taken, a third hash follows, one signature is lost for lack of room, and the
    third one comes out. Asking again gives nothing. *)
Example demo_queue : exists u u', usetup toy key1 7 = Some u /\ c_priv toy key1 = Some (75 :: key1, 65%nat) /\
  urun toy u [USign [1]; USign [2; 2]; UGet 65%nat; USign [3]; UGet 2%nat; UGet 65%nat; USign []; UGet 65%nat] =
    Def (u', [RSigned SV_OK; RSigned SV_OK; RGot (Some [65; 1]); RSigned SV_OK; RGot None; RGot (Some [65; 3]); RSigned SV_INVALID_PARAMETER; RGot None]).
Proof. do 2 eexists. split; [vm_compute; reflexivity|]. split; [reflexivity|]. vm_compute. reflexivity. Qed.

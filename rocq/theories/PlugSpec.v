(** What users rely on from the signing plugins: vocabulary. *)
From Verif Require Import Base Crypto Types Signer PlugTypes Plugin Threaded.

(** [sig] is a signature of the hash [h] with the private key [key]. *)
Definition signature_of (C : crypto) (key h sig : list N) : Prop := exists coin, c_sign C key coin h = Some sig.
(** Signing [h] does not give a signature of 1 to [max] bytes. *)
Definition not_signed (C : crypto) (key : list N) (max : nat) (h : list N) : Prop :=
  exists coin, match c_sign C key coin h with Some sig => sig = [] \/ (max < length sig)%nat | None => True end.

(** ** The unthreaded plugin as a queue *)

(** The results [rs] of the calls [ops] when the signatures [q] are held and those in [sigs] are going to be made: a
    signature goes in at the end, asking takes the first one out. At most 60 are held. What does not fit the caller's memory
    is lost. *)
Fixpoint replay (C : crypto) (key : list N) (max : nat) (q : list (list N)) (ops : list uop) (sigs : list (list N)) (rs : list ures) : Prop :=
  (length q <= 60)%nat /\
  match ops, rs with
  | [], [] => sigs = []
  | USign h :: ops, RSigned SV_OK :: rs =>
      match sigs with
      | sig :: sigs => signature_of C key h sig /\ (length sig <= max)%nat /\ replay C key max (q ++ [sig]) ops sigs rs
      | [] => False
      end
  | USign h :: ops, RSigned _ :: rs =>
      (h = [] \/ length q = 60%nat \/ not_signed C key max h) /\ replay C key max q ops sigs rs
  | UGet room :: ops, RGot r :: rs =>
      match q with
      | [] => r = None /\ replay C key max [] ops sigs rs
      | sig :: q => r = (if (length sig <=? room)%nat then Some sig else None) /\ replay C key max q ops sigs rs
      end
  | _, _ => False
  end.

(** The signatures given out and the hashes accepted in a use of the plugin. *)
Fixpoint given_out (rs : list ures) : list (list N) :=
  match rs with [] => [] | RGot (Some sig) :: rs => sig :: given_out rs | _ :: rs => given_out rs end.
Fixpoint submitted (ops : list uop) (rs : list ures) : list (list N) :=
  match ops, rs with
  | USign h :: ops, RSigned SV_OK :: rs => h :: submitted ops rs
  | _ :: ops, _ :: rs => submitted ops rs
  | _, _ => []
  end.

(** The plugin calls of the model of the signing side, Signer.v. *)
Fixpoint signer_plugin (C : crypto) (s : signer) (ops : list uop) : list ures :=
  match ops with
  | [] => []
  | USign h :: ops => let '(s, st) := plugin_sign C s h in RSigned st :: signer_plugin C s ops
  | UGet _ :: ops => let '(s, got) := plugin_get s in RGot (if got then Some (r_sig (s_run s)) else None) :: signer_plugin C s ops
  end.

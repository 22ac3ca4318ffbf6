(** Short signed streams made with the toy crypto library, used in examples and counterexamples only. *)
From Verif Require Import Base Nalu Crypto Types Signer SignSpec Toy VTypes NaluList Validator.
Local Open Scope N_scope.

(** The pictures of GOP number [i]: an IDR slice and two P slices. *)
Definition gop_i (i : N) : list (list N) := [idr [i]; pic [i; 1]; pic [i; 2]].
(** The SEIs a signer makes for the first [k] GOPs. *)
Definition seis_for (setup : list sop) (k : nat) : list (list N) :=
  match run toy (setup ++ flat_map (fun d => [OAdd d None true; OGet true []])
          (flat_map (fun i => gop_i (N.of_nat i)) (seq 1 k) ++ [idr [99]])) (create H264 0) with
  | Def (_, rs) => returned rs
  | Undef _ => []
  end.
Definition gop_seis : list (list N) := Eval vm_compute in seis_for [OKey key1; OLevel LGop] 6.
Definition frame_seis : list (list N) := Eval vm_compute in seis_for [OKey key1; OLevel LFrame] 6.
Definition gsei (i : nat) : list N := nth (i - 1) gop_seis [].
Definition fsei (i : nat) : list N := nth (i - 1) frame_seis [].

(** What reports say: for every NALU added, none or the latest and accumulated results with the strings. *)
Definition says (x : out (valid * list vres)) : list (option (authres * authres * list N * list N)) :=
  match x with
  | Undef _ => []
  | Def (_, rs) =>
      map (fun r => match r with
                    | VRes _ (Some p) => Some (l_auth (p_latest p), a_auth (p_acc p), l_vstr (p_latest p), l_nstr (p_latest p))
                    | _ => None
                    end) rs
  end.
Definition adds (l : list (list N)) : list vop := map (fun d => VAdd d true) l.

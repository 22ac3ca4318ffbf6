(** Vocabulary for: a GOP is authentic only after the GOP it was signed after. *)
From Verif Require Import Base Nalu Crypto Types CodecSpec VTypes NaluList Validator ValidSpec MatchSpec AuthSpec.
Local Open Scope N_scope.

(** A NALU with a valid header that is the first of a GOP. *)
Definition gop_start (c : codec) (d : list N) : bool :=
  match parse_nalu d c true true with Def n => n_first_in_gop n && (0 <? n_valid n)%Z | Undef _ => false end.

(** A NALU together with the first NALU of the GOP before: the last first NALU of a GOP added before it in the session or
    since the last reset. *)
Definition placed : Type := option (list N) * list N.
Definition next_start (c : codec) (prev : option (list N)) (d : list N) : option (list N) :=
  if gop_start c d then Some d else prev.

(** The first NALU [d] of a GOP belongs after the GOP that starts with [q]: the signature of some SEI [s] was verified, [s]
    vouches for [d] (as in AuthSpec), and its linked hash is the hash of [q], unless that is all zero. *)
Definition follows (C : crypto) (c : codec) (K : nat) (hist : list vop) (q d : list N) : Prop :=
  exists s fs, In s (added hist) /\ sv_sei c s = true /\ signed C c K hist s /\ sei_fields c s fs /\
    (forall g, last_gop fs = Some g -> (K <= length g)%nat ->
       in_gop C c K hist g d \/
       match last_list fs with Some l => in_list C c K l d | None => exists l, some_list c hist l /\ in_list C c K l d end) /\
    (forall l, last_link fs = Some l -> (K <= length l)%nat -> exists x, picture_hash C c q x /\ (agree K l x \/ x = zeros K)).

(** *** A session's reports *)
(** The report shows the NALUs [w], in that order, and missing ones. A first NALU of a GOP shown authentic ('.') satisfies [Q]
    with the first NALU of the GOP before, if there is one. *)
Inductive in_order (c : codec) (Q : list N -> list N -> Prop) : list placed -> list N -> list N -> Prop :=
| in_order_nil : in_order c Q [] [] []
| in_order_nalu p d w s vs t ns :
    t = shown c d -> (s = 46 -> gop_start c d = true -> match p with Some q => Q q d | None => True end) ->
    in_order c Q w vs ns -> in_order c Q ((p, d) :: w) (s :: vs) (t :: ns)
| in_order_missing w s vs ns : in_order c Q w vs ns -> s <> 46 -> in_order c Q w (s :: vs) (32 :: ns).
(** Every report of a session is in order. [hist] are the calls so far, [w] the NALUs waiting, [prev] the last first NALU of a
    GOP. Nothing is said after a NALU was refused. *)
Fixpoint ordered (c : codec) (Q : list vop -> list N -> list N -> Prop) (hist : list vop) (prev : option (list N)) (w : list placed)
    (ops : list vop) (res : list vres) : Prop :=
  match ops, res with
  | _, [] | [], _ => True
  | o :: ops, x :: res =>
      let hist := hist ++ [o] in
      match o, x with
      | VAdd [] _, _ => ordered c Q hist prev w ops res
      | VAdd d _, VRes SV_OK None => ordered c Q hist (next_start c prev d) (w ++ [(prev, d)]) ops res
      | VAdd d _, VRes SV_OK (Some p) =>
          in_order c (Q hist) (w ++ [(prev, d)]) (l_vstr (p_latest p)) (l_nstr (p_latest p)) /\
          ordered c Q hist (next_start c prev d) (waiting_from (w ++ [(prev, d)]) (l_vstr (p_latest p)) (l_nstr (p_latest p))) ops res
      | VAdd _ _, _ => True
      | VReset, _ => ordered c Q hist None [] ops res
      | _, _ => ordered c Q hist prev w ops res
      end
  end.

(** The SEI at the end of a stream: vocabulary. *)
From Verif Require Import Base Nalu Crypto Types CodecSpec SeiSpec SignSpec Signer GopSpec.
Local Open Scope N_scope.

(** [general_field] and [gop_fields] of GopSpec.v with [gh] in the place of the hash of the GOP. *)
Definition general_field_with (C : crypto) (w : settings) (k : N) (prev : option (list N)) (xs : list (list N))
    (gh : list N) (ts : option Z) : list N :=
  let H := c_hash C (w_oid w) in
  [3] ++ digits 4 (k mod 2 ^ 32) ++ digits 2 (nlen xs mod 2 ^ 16) ++ [1; 1; 29] ++
  (match ts with Some t => 1 :: digits 8 (Z.to_N (t mod 2 ^ 64)) | None => [0] end) ++
  (match prev with Some x => H x | None => zeros (oid_size C (w_oid w)) end) ++
  gh.
Definition gop_fields_with (C : crypto) (w : settings) (k : N) (rec : bool) (prev : option (list N))
    (xs : list (list N)) (gh : list N) (ts : option Z) : list (N * list N) :=
  let others := (if rec && negb (w_using w) then recurrent_fields w else []) ++
                [(1, general_field_with C w k prev xs gh ts)] in
  others ++ list_field C w others xs.
Lemma gop_fields_is C w k rec prev xs ts :
  gop_fields C w k rec prev xs ts = gop_fields_with C w k rec prev xs (c_hash C (w_oid w) (concat (hashes (c_hash C (w_oid w)) xs))) ts.
Proof. reflexivity. Qed.

(** The fields of the SEI that [signed_video_set_end_of_stream] adds after the GOPs [gs]. It accounts for the pictures up to
    the end and has no timestamp. The GOP hash in it is that of the GOP before the last one, [gh] if there is none. The other
    arguments are as for [gops_fields]. *)
Fixpoint last_fields (C : crypto) (w : settings) (k lo f : N) (prev : option (list N)) (gh : list N) (gs : list (list piece)) :
    list (N * list N) :=
  let H := c_hash C (w_oid w) in
  match gs with
  | [] => []
  | g :: rest =>
      let f' := f + frames g in
      match rest with
      | (nx :: _) :: _ => last_fields C w (k + 1) (f' + (if p_frame nx then 1 else 0)) f' (hd_error (hashed g))
                            (H (concat (hashes H (hashed g)))) rest
      | _ => gop_fields_with C w k (due (w_rec w) lo f') prev (hashed g) gh None
      end
  end.

(** A session in which everything works, as [signs] of GopSpec.v, that is ended with [signed_video_set_end_of_stream].
    The last SEI is fetched after that. *)
Definition finishes (C : crypto) (c : codec) (coin : N) (setup : list sop) (before : list piece)
    (gs : list (list piece)) (rs : list sres) : Prop :=
  Forall (op_ok C) setup /\ Forall (fun o => is_setting o = true) setup /\
  Exists (fun o => exists pem, o = OKey pem) setup /\
  Forall (seen c) (before ++ concat gs) /\
  Forall (fun p => p_first p = false /\ p_bytes p = None) before /\ Forall is_gop gs /\
  (exists s, run C (setup ++ flat_map feed (before ++ concat gs) ++ [OEos; OGet true []]) (create c coin) = Def (s, rs)) /\
  Forall (fun r => rs_code r = SV_OK) rs.

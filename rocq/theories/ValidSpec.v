(** Vocabulary for the properties of a validating session. *)
From Verif Require Import Base Nalu Crypto Types CodecSpec VTypes NaluList Validator.
Local Open Scope N_scope.

(** The character nalu_str shows for a NALU the user adds: includes/signed_video_auth.h:117-135. *)
Definition shown (c : codec) (d : list N) : N :=
  match parse_nalu d c true true with Def n => type_char (Some n) | Undef _ => 32 end.

(** A NALU that is not a Signed Video SEI with a payload too short for the UUID and the reserved byte. *)
Definition sized (c : codec) (d : list N) : Prop :=
  forall n, parse_nalu d c true true = Def n -> n_tlv_size n < 2 ^ 63.
(** The user asks for a report with every NALU, and adds no such SEI. *)
Definition asks (c : codec) (o : vop) : Prop :=
  match o with VAdd d want => want = true /\ sized c d | _ => True end.

(** The characters of a string other than spaces. *)
Definition no_space (s : list N) : list N := filter (fun x => negb (x =? 32)) s.
(** The NALUs of nalu_str from the first pending one, 'P' in validation_str, on. *)
Fixpoint from_pending (vs ns : list N) : list N :=
  match vs, ns with
  | s :: vs', _ :: ns' => if s =? 80 then no_space ns else from_pending vs' ns'
  | _, _ => []
  end.
(** 'M' in validation_str stands for a missing NALU and nalu_str has a space there; conversely a space
    in nalu_str is reported missing, or 'E' if validation failed. *)
Definition aligned (s t : N) : Prop := (s = 77 -> t = 32) /\ (t = 32 -> s = 77 \/ s = 69).

(** A report on the waiting NALUs [w]: the two strings have one character per NALU, in order, and
    otherwise only missing NALUs. *)
Definition report_on (w : list N) (p : report) : Prop :=
  let l := p_latest p in Forall2 aligned (l_vstr l) (l_nstr l) /\ no_space (l_nstr l) = w.

(** Bookkeeping over a session: [w] are the characters of the NALUs added and not yet validated. A NALU
    joins when it is added, and leaves when a report shows it before the first pending one. *)
Fixpoint books (c : codec) (w : list N) (ops : list vop) (res : list vres) : Prop :=
  match ops, res with
  | _, [] | [], _ => True
  | VAdd [] _ :: ops, x :: res => x = VRes SV_INVALID_PARAMETER None /\ books c w ops res
  | VAdd d _ :: ops, VRes _ None :: res => books c (w ++ [shown c d]) ops res
  | VAdd d _ :: ops, VRes _ (Some p) :: res =>
      report_on (w ++ [shown c d]) p /\
      books c (from_pending (l_vstr (p_latest p)) (l_nstr (p_latest p))) ops res
  | VReset :: ops, _ :: res => books c [] ops res
  | VSetKey _ :: ops, _ :: res => books c w ops res
  | VGetReport :: ops, _ :: res => books c w ops res
  | _, VLegacy :: _ => True
  end.

(** The reports a session returned with the NALUs added. *)
Fixpoint reports (ops : list vop) (res : list vres) : list report :=
  match ops, res with
  | VAdd _ _ :: ops, VRes _ (Some p) :: res => p :: reports ops res
  | _ :: ops, _ :: res => reports ops res
  | _, _ => []
  end.
(** Received = validated + pending, as unsigned int. *)
Definition balanced (p : report) : Prop :=
  a_recv (p_acc p) = (a_val (p_acc p) + a_pend (p_acc p)) mod 2 ^ 32.
(** A report that finds the video signed and no NALU missing. *)
Definition nothing_missing (p : report) : Prop :=
  a_auth (p_acc p) <> NotSigned /\ ~ In 32 (l_nstr (p_latest p)).
(** A report that finds the video signed and shows no missing NALU as an error. *)
Definition settled (p : report) : Prop :=
  a_auth (p_acc p) <> NotSigned /\ ~ In (32, 69) (combine (l_nstr (p_latest p)) (l_vstr (p_latest p))).
(** The number of missing NALUs a report shows from the first pending NALU on. *)
Fixpoint gaps_from_pending (vs ns : list N) : N :=
  match vs, ns with
  | s :: vs', _ :: ns' => if s =? 80 then nlen (filter (fun t => t =? 32) ns) else gaps_from_pending vs' ns'
  | _, _ => 0
  end.
(** Received = validated + pending, as unsigned int, except that the missing NALUs among the pending ones are counted as
    pending. *)
Definition counted (p : report) : Prop :=
  a_recv (p_acc p) < 2 ^ 32 /\
  (a_recv (p_acc p) + gaps_from_pending (l_vstr (p_latest p)) (l_nstr (p_latest p))) mod 2 ^ 32 =
  (a_val (p_acc p) + a_pend (p_acc p)) mod 2 ^ 32.

(** A validation result that says something about authenticity. *)
Definition verdict (a : authres) : Prop := a = NotOk \/ a = OkMissing \/ a = AuthOk.

(** The NALU is a golden SEI. *)
Definition nalu_golden (c : codec) (d : list N) : bool :=
  match parse_nalu d c true true with Def n => n_golden n | Undef _ => false end.
Definition not_golden (c : codec) (o : vop) : Prop :=
  match o with VAdd d _ => nalu_golden c d = false | _ => True end.

(** A NALU that can be read and is not a Signed Video SEI. *)
Definition unsigned_nalu (c : codec) (d : list N) : Prop :=
  d = [] \/ exists n, parse_nalu d c true true = Def n /\ n_gop_sei n = false.
Definition adds_unsigned (c : codec) (o : vop) : Prop :=
  match o with VAdd d _ => unsigned_nalu c d | _ => True end.
(** A report that says: not signed, all NALUs received are pending, none validated, and for each NALU
    shown: pending ('P'), ignored ('_') or unknown ('U'). *)
Definition says_unsigned (p : report) : Prop :=
  l_auth (p_latest p) = NotSigned /\ a_auth (p_acc p) = NotSigned /\
  a_val (p_acc p) = 0 /\ a_pend (p_acc p) = a_recv (p_acc p) /\
  Forall (fun s => s = 80 \/ s = 95 \/ s = 85) (l_vstr (p_latest p)).
Definition all_reports (res : list vres) : list report :=
  flat_map (fun x => match x with VRes _ (Some p) => [p] | _ => [] end) res.

(** A call that sets the public key successfully, and a call that adds a NALU. *)
Definition key_set (x : vop * vres) : Prop := exists k, x = (VSetKey k, VRes SV_OK None).
Definition nalu_added (x : vop * vres) : Prop := exists d w r, d <> [] /\ x = (VAdd d w, r).
(** A call that succeeded. *)
Definition call_ok (x : vres) : Prop := match x with VRes st _ => st = SV_OK | VLegacy => False end.

(** The first Signed Video SEI that waits to be validated. *)
Definition first_waiting (l : list item) : option item :=
  find (fun it => match i_nalu it, i_status it with Some n, SPend => n_gop_sei n | _, _ => false end) l.
(** The SEI [n] carries the GOP counter [c]: it is a list of fields, one of which is the field GENERAL
    (1), whose value is a version followed by four bytes for the counter. *)
Definition carries (n : nalu) (c : N) : Prop :=
  exists pre ver more post rest,
    let fs := pre ++ (1, ver :: digits 4 c ++ more) :: post in
    n_tlv_mem n = wires fs ++ rest /\ n_tlv_size n = nlen (wires fs) /\
    Forall wire_ok fs /\ c < 2 ^ 32 /\ ~ In 1 (map fst (pre ++ post)).

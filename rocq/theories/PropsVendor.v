(** C43, C44, C46: the vendor code of Axis Communications. *)
From Verif Require Import Base Epb Crypto Types CodecSpec Tlv Toy Vendor VendorSpec VendorProofs VendorKey.
Local Open Scope N_scope.

(** An example of an OpenSSL in which every chain of one certificate is accepted, every certificate names the same chip and the
    serial number S1, and a signature is a checksum of the data. *)
Definition hex_digit (b : N) : option N := if (48 <=? b) && (b <=? 57) then Some (b - 48) else None.
Definition toy_hex : list N := [48; 52; 48; 48; 53; 48; 48; 49] ++ repeat 48 28.
Definition toy_sig (d : list N) : list N := digits 2 (toy_sum d).
Definition toyx : vcrypto :=
  mkVcrypto (fun s => match s with [] => [] | _ => [s] end) (fun l => Some (length l =? 1)%nat)
    (fun _ => Name (edge_vault ++ toy_hex)) (fun _ => Name [83; 49]) (fun _ => Some ([7], true)) (fun _ => true)
    (fun s => match s with a :: b :: _ => match hex_digit a, hex_digit b with Some x, Some y => Some (16 * x + y) | _, _ => None end | _ => None end)
    (fun _ => KeyEc true) (fun pem => 4 :: firstn 64 (pem ++ repeat 9 64))
    (fun _ sig d => if bytes_eqb sig (toy_sig d) then 1%Z else 0%Z).
Definition toy_chip : list N := [4; 0; 80; 1] ++ repeat 0 14.
Definition toy_ts : list N := [1; 2; 3; 4; 5; 6; 7; 8; 9; 10; 11; 12].
(** A public key, its attestation, and one with a signature that does not fit. *)
Definition toy_key : list N := [75; 1].
Definition toy_att : list N :=
  Eval vm_compute in repeat 0 8 ++ [1] ++ toy_ts ++ be16 2 ++ toy_sig (statement_about toy (x_point toyx toy_key) toy_chip toy_ts).
Definition bad_att : list N := Eval vm_compute in repeat 0 8 ++ [1] ++ toy_ts ++ be16 2 ++ [0; 0].
Definition toy_cert (n : N) : list N := begin_cert ++ [10; 65; 66; n; 10].
Definition tag (att certs : list N) : vev := VTag (vendor_tag att certs) (nlen (vendor_tag att certs)).

(** ** C43 *)

(** The attestation and the first two of three certificates arrive at a validator as they were handed to the signing side, and
    the same data in later SEIs is accepted. *)
Theorem C43_round_trip h0 att c1 c2 root : vh_att h0 = None -> vh_chain h0 = None -> att <> [] -> nlen att < 256 -> bytes_ok (att ++ c1 ++ c2) ->
  pem_cert c1 -> pem_cert c2 -> starts_with begin_cert root = true -> ~ In 0 root ->
  exists h, set_report h0 (Some att) (Some (c1 ++ c2 ++ root)) = (h, SV_OK) /\
    forall epb lt, exists lt2 bytes, axis_encode h epb lt = Def (lt2, bytes) /\
    forall g rest, vh_att g = None -> vh_chain g = None ->
      exists n v g2, read_bytes epb n lt (bytes ++ rest) = Def (v, lt2, rest) /\ axis_decode g v (nlen v) = Def (g2, SV_OK) /\ holds g2 att (c1 ++ c2) /\
        axis_decode g2 v (nlen v) = Def (g2, SV_OK).
Proof. exact (encoded_round_trip h0 att c1 c2 root). Qed.

Example demo_round_trip : vh_att handle_setup = None /\ vh_chain handle_setup = None /\ pem_cert (toy_cert 67) /\ pem_cert (toy_cert 68) /\
  starts_with begin_cert (toy_cert 69) = true /\ ~ In 0 (toy_cert 69) /\
  exists h lt bytes g, set_report handle_setup (Some toy_att) (Some (toy_cert 67 ++ toy_cert 68 ++ toy_cert 69)) = (h, SV_OK) /\
    axis_encode h true lt_init = Def (lt, bytes) /\ axis_decode handle_setup (vendor_tag toy_att (toy_cert 67 ++ toy_cert 68)) 91 = Def (g, SV_OK) /\
    length bytes = 95%nat.
Proof.
  assert (P : forall n, n = 67 \/ n = 68 -> pem_cert (toy_cert n)).
  { intros n Hn. exists [65; 66; n]. split; [reflexivity|]. split.
    - intros (a & b & E). apply (f_equal (@length N)) in E. rewrite !app_length in E. change (length begin_cert) with 27%nat in E. cbn [length] in E. lia.
    - intros [H|[H|[H|[]]]]; lia. }
  split; [reflexivity|]. split; [reflexivity|]. split; [apply P; auto|]. split; [apply P; auto|]. split; [reflexivity|]. split.
  - cbn. intuition discriminate.
  - do 4 eexists. split; [reflexivity|]. split; [vm_compute; reflexivity|]. split; [vm_compute; reflexivity|]. vm_compute. reflexivity.
Qed.

(** Missing from the full property: other data must be refused whatever it is. It is if the attestation differs, or if the
    certificates differ and are not longer than the ones held, unless they are just cut off. The validator keeps what it has. *)
Theorem C43_other_refused_partial h att c a2 c2 rest : holds h att c -> a2 <> [] -> nlen a2 < 256 -> c2 <> [] -> (length c2 <= length c)%nat ->
  a2 <> att \/ (forall more, c <> c2 ++ more) -> axis_decode h (vendor_tag a2 c2 ++ rest) (nlen (vendor_tag a2 c2)) = Def (h, SV_NOT_SUPPORTED).
Proof. exact (other_refused h att c a2 c2 rest). Qed.

Definition held : vhandle := set_vh_chain (Some (toy_cert 67 ++ toy_cert 68 ++ [0])) (set_vh_att (Some toy_att) handle_setup).
Example demo_other : holds held toy_att (toy_cert 67 ++ toy_cert 68) /\
  axis_decode held (vendor_tag bad_att (toy_cert 67 ++ toy_cert 68)) 91 = Def (held, SV_NOT_SUPPORTED) /\
  axis_decode held (vendor_tag toy_att (toy_cert 67 ++ toy_cert 69)) 91 = Def (held, SV_NOT_SUPPORTED).
Proof. split; [split; reflexivity|]. split; vm_compute; reflexivity. Qed.

(** Certificates that are cut off are taken for the same, *)
Theorem C43_cut_off_refuted : exists h att c c2, holds h att c /\ c2 <> c /\
  axis_decode h (vendor_tag att c2) (nlen (vendor_tag att c2)) = Def (h, SV_OK).
Proof.
  exists held, toy_att, (toy_cert 67 ++ toy_cert 68), (toy_cert 67). split; [split; reflexivity|]. split; [discriminate|]. vm_compute. reflexivity.
Qed.
(** and with longer ones the validator reads behind the end of those it holds. *)
Theorem C43_longer_refuted : exists h att c c2, holds h att c /\
  axis_decode h (vendor_tag att c2) (nlen (vendor_tag att c2)) = Undef OobRead.
Proof.
  exists held, toy_att, (toy_cert 67 ++ toy_cert 68), (toy_cert 67 ++ toy_cert 68 ++ [0; 0]). split; [split; reflexivity|]. vm_compute. reflexivity.
Qed.

(** Attestation and certificates may be handed over in separate calls. A SEI that is created in between dereferences NULL. *)
Theorem C43_without_chain_refuted : exists h, set_report handle_setup (Some toy_att) None = (h, SV_OK) /\ axis_encode h true lt_init = Undef NullDeref.
Proof. eexists. split; [reflexivity|]. vm_compute. reflexivity. Qed.

(** With fewer than three certificates the signing side accepts the report, and the validator refuses every SEI. *)
Theorem C43_few_certificates_refuted : exists h lt bytes v g,
  set_report handle_setup (Some toy_att) (Some (toy_cert 67 ++ toy_cert 68)) = (h, SV_OK) /\ axis_encode h false lt_init = Def (lt, bytes) /\ v = bytes /\
  axis_decode handle_setup v (nlen v) = Def (g, SV_AUTHENTICATION_ERROR).
Proof. do 5 eexists. split; [reflexivity|]. split; [vm_compute; reflexivity|]. split; [reflexivity|]. vm_compute. reflexivity. Qed.

(** A report that is refused, because there are certificates already, still leaves its attestation behind. *)
Theorem C43_refused_report_refuted : exists h h2, set_report handle_setup None (Some (toy_cert 67 ++ toy_cert 68 ++ toy_cert 69)) = (h, SV_OK) /\
  set_report h (Some bad_att) (Some (toy_cert 67)) = (h2, SV_NOT_SUPPORTED) /\ vh_att h = None /\ vh_att h2 = Some bad_att.
Proof. do 2 eexists. split; [reflexivity|]. split; [reflexivity|]. split; reflexivity. Qed.

(** ** C46 *)

(** A check of the public key finds it valid only if the key in use is attested, with attestation and certificates from a
    received SEI, by a certificate that is accepted under the Axis root and carries the serial number of the received product
    information. *)
Theorem C46_attested C X evs s s2 rs sn : Forall tag_bytes evs -> vcrypto_ok X -> vev_run C X sess_setup evs = Def (s, rs) ->
  product None evs = Some (axis_name, sn) -> vev_step C X s VCheck = Def (s2, SV_OK) -> vs_latest s2 = PkOk ->
  exists att certs pem, tag_received evs att certs /\ key_in_use C None evs = Some pem /\ attested C X att (c_string certs) pem sn.
Proof. exact (check_attested C X evs s s2 rs sn). Qed.

(** Whatever happens in a session, a report that says so goes back to such a check. *)
Theorem C46_origin C X evs s rs : Forall tag_bytes evs -> vcrypto_ok X -> vev_run C X sess_setup evs = Def (s, rs) ->
  vs_latest s = PkOk \/ vs_acc s = PkOk ->
  exists e1 e2 sn att certs pem, evs = e1 ++ VCheck :: e2 /\ product None e1 = Some (axis_name, sn) /\ tag_received e1 att certs /\
    key_in_use C None e1 = Some pem /\ attested C X att (c_string certs) pem sn.
Proof. exact (positive_origin C X evs s rs). Qed.

Lemma toyx_ok : vcrypto_ok toyx.
Proof.
  constructor.
  - discriminate.
  - intros c sn E. injection E as <-. cbn. lia.
  - intros pub sig d. cbn. destruct (bytes_eqb _ _); lia.
Qed.
Definition good_sei : list vev := [VProduct axis_name [83; 49]; VKey toy_key false; tag toy_att (toy_cert 67)].
Example demo_attested : vcrypto_ok toyx /\ Forall tag_bytes good_sei /\ product None good_sei = Some (axis_name, [83; 49]) /\
  exists s rs s2, vev_run toy toyx sess_setup good_sei = Def (s, rs) /\ vev_step toy toyx s VCheck = Def (s2, SV_OK) /\ vs_latest s2 = PkOk.
Proof.
  split; [exact toyx_ok|]. split; [|split; [reflexivity|]].
  - apply Forall_cons; [exact Logic.I|]. apply Forall_cons; [exact Logic.I|]. apply Forall_cons; [|apply Forall_nil]. cbn [tag_bytes tag].
    apply Forall_forall. intros b Hb. assert (A : forallb (fun b => b <? 256) (vendor_tag toy_att (toy_cert 67)) = true) by (vm_compute; reflexivity).
    rewrite forallb_forall in A. specialize (A b Hb). unfold byte_ok. lia.
  - do 3 eexists. split; [vm_compute; reflexivity|]. split; vm_compute; reflexivity.
Qed.

(** ** C44 *)

(** If a check is made and nothing received attests the key in use, it is found not valid and never found valid again. *)
Theorem C44_final C X evs1 evs2 sn s1 s2 s3 r1 r2 : Forall tag_bytes (evs1 ++ evs2) -> vcrypto_ok X ->
  vev_run C X sess_setup evs1 = Def (s1, r1) -> product None evs1 = Some (axis_name, sn) -> vev_step C X s1 VCheck = Def (s2, SV_OK) ->
  (forall att certs pem sn2, tag_received evs1 att certs -> key_in_use C None evs1 = Some pem -> ~ attested C X att (c_string certs) pem sn2) ->
  vev_run C X s2 evs2 = Def (s3, r2) -> vs_latest s2 = PkNotOk /\ vs_latest s3 <> PkOk.
Proof. exact (failed_final C X evs1 evs2 sn s1 s2 s3 r1 r2). Qed.

(** Once the public key has changed it is not valid in any later check. *)
Theorem C44_key_change C X e1 pem1 ch1 e2 pem2 e3 s0 s1 r sn1 sn2 sn3 : Forall tag_bytes (e1 ++ e2 ++ e3) ->
  product None e1 = Some (axis_name, sn1) -> c_pub_ok C pem1 = true -> c_pub_ok C pem2 = true ->
  product (Some (axis_name, sn1)) e2 = Some (axis_name, sn2) -> product (Some (axis_name, sn2)) e3 = Some (axis_name, sn3) ->
  vev_run C X sess_setup (e1 ++ VKey pem1 ch1 :: e2 ++ VKey pem2 true :: e3) = Def (s0, r) -> vev_step C X s0 VCheck = Def (s1, SV_OK) ->
  vs_latest s1 = PkNotOk.
Proof. exact (key_changed C X e1 pem1 ch1 e2 pem2 e3 s0 s1 r sn1 sn2 sn3). Qed.

(** The accumulated report keeps a failure until the session is reset. *)
Theorem C44_accumulated C X evs s s2 rs : vev_run C X s evs = Def (s2, rs) -> ~ In VReset evs -> vs_acc s = PkNotOk -> vs_acc s2 = PkNotOk.
Proof. exact (acc_keeps C X evs s s2 rs). Qed.

(** Certificates that are not accepted under the root. *)
Definition toyx_no_root : vcrypto :=
  mkVcrypto (x_certs toyx) (fun _ => Some false) (x_cn toyx) (x_sn toyx) (x_pub toyx) (x_init toyx) (x_scan toyx) (x_kind toyx) (x_point toyx) (x_digest_verify toyx).
Example demo_no_root : vcrypto_ok toyx_no_root /\ product None good_sei = Some (axis_name, [83; 49]) /\
  (forall att certs pem sn2, tag_received good_sei att certs -> key_in_use toy None good_sei = Some pem -> ~ attested toy toyx_no_root att (c_string certs) pem sn2) /\
  exists s1 r1 s2 s3 r2, vev_run toy toyx_no_root sess_setup good_sei = Def (s1, r1) /\ vev_step toy toyx_no_root s1 VCheck = Def (s2, SV_OK) /\
    vev_run toy toyx_no_root s2 [VReport; tag toy_att (toy_cert 67); VCheck; VReport; VReset] = Def (s3, r2) /\ vs_latest s2 = PkNotOk /\ vs_latest s3 = PkNotFeasible.
Proof.
  split; [|split; [reflexivity|split]].
  - constructor; [discriminate|intros c sn E; injection E as <-; cbn; lia|apply (xo_digest _ toyx_ok)].
  - intros att certs pem sn2 _ _ (cert & more & cn & pub & chip & ts & sig & _ & _ & V & _). discriminate V.
  - do 5 eexists. split; [vm_compute; reflexivity|]. split; [vm_compute; reflexivity|]. split; [vm_compute; reflexivity|]. split; vm_compute; reflexivity.
Qed.

Definition bad_sei : list vev := [VProduct axis_name [83; 49]; VKey toy_key false; tag bad_att (toy_cert 67)].
Example demo_final : exists s1 r1 s2 s3 r2, vev_run toy toyx sess_setup bad_sei = Def (s1, r1) /\ vev_step toy toyx s1 VCheck = Def (s2, SV_OK) /\
  vs_latest s2 = PkNotOk /\ vev_run toy toyx s2 [VReport; VProduct axis_name [83; 50]; tag bad_att (toy_cert 67); VCheck; VReport] = Def (s3, r2) /\
  vs_latest s3 = PkNotOk /\ vs_acc s3 = PkNotOk.
Proof. do 5 eexists. split; [vm_compute; reflexivity|]. split; [vm_compute; reflexivity|]. split; [vm_compute; reflexivity|]. split; [vm_compute; reflexivity|]. split; vm_compute; reflexivity. Qed.
Example demo_change : exists s0 r s1, vev_run toy toyx sess_setup (good_sei ++ [VCheck; VReport; VKey [75; 2] true; tag toy_att (toy_cert 67)]) = Def (s0, r) /\
  vs_latest s0 = PkOk /\ vev_step toy toyx s0 VCheck = Def (s1, SV_OK) /\ vs_latest s1 = PkNotOk.
Proof. do 3 eexists. split; [vm_compute; reflexivity|]. split; [vm_compute; reflexivity|]. split; vm_compute; reflexivity. Qed.

(** A failure because of another serial number in the product information is taken back in the latest report by the next SEI. *)
Theorem C44_serial_refuted : exists s1 r1 s2 r2, vev_run toy toyx sess_setup (VProduct axis_name [83; 50] :: tl good_sei ++ [VCheck; VReport]) = Def (s1, r1) /\
  vs_latest s1 = PkNotOk /\ vev_run toy toyx s1 [VProduct axis_name [83; 49]; tag toy_att (toy_cert 67); VCheck; VReport] = Def (s2, r2) /\ vs_latest s2 = PkOk.
Proof. do 4 eexists. split; [vm_compute; reflexivity|]. split; [vm_compute; reflexivity|]. split; vm_compute; reflexivity. Qed.

(** After a failed check the next SEI with the public key makes the check use memory that has been freed. *)
Theorem C44_key_again_refuted : exists s1 r1 s2 r2, vev_run toy toyx sess_setup (bad_sei ++ [VCheck; VReport]) = Def (s1, r1) /\
  vs_latest s1 = PkNotOk /\ vev_run toy toyx s1 (VKey toy_key false :: skipn 2 bad_sei) = Def (s2, r2) /\ vev_step toy toyx s2 VCheck = Undef UseAfterFree.
Proof. do 4 eexists. split; [vm_compute; reflexivity|]. split; [vm_compute; reflexivity|]. split; vm_compute; reflexivity. Qed.

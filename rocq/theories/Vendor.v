(** The vendor code of Axis Communications. Models lib/vendors/axis-communications/sv_vendor_axis_communications.c and the
    places in the library that call it when it is built with SV_VENDOR_AXIS_COMMUNICATIONS. The records are generated by a
    script from a field table; the field comments name the C members. *)
From Verif Require Import Base Crypto Epb Types Tlv.
Local Open Scope N_scope.

(** A name in a certificate: X509_NAME_get_index_by_NID and ASN1_STRING_to_UTF8. *)
Inductive name_res := NameMissing | NameBad | Name (s : list N).
(** EVP_PKEY_base_id and EVP_PKEY_get_group_name: not an elliptic curve, no group name, or whether it is prime256v1. *)
Inductive key_res := KeyOther | KeyNoGroup | KeyEc (p256 : bool).

(** Answers of OpenSSL and of sscanf, like [crypto] for the rest of the library.
    - [x_certs s]: the certificates that successive calls of PEM_read_bio_X509 read from the string;
    - [x_verify l]: X509_verify_cert of the first one with the rest as chain and the Axis root as the only trusted certificate;
      None if the set-up fails;
    - [x_cn], [x_sn]: common name and serial number of the subject;
    - [x_pub]: public key and whether it is on an elliptic curve; [x_init]: EVP_DigestVerifyInit succeeds with it;
    - [x_scan s]: sscanf(s, "%2hhx");
    - [x_kind pem], [x_point pem]: type and EVP_PKEY_get1_encoded_public_key of the key used for validation;
    - [x_digest_verify pub sig data]: EVP_DigestVerify with SHA-256. *)
Record vcrypto := mkVcrypto {
  x_certs : list N -> list (list N);
  x_verify : list (list N) -> option bool;
  x_cn : list N -> name_res;
  x_sn : list N -> name_res;
  x_pub : list N -> option (list N * bool);
  x_init : list N -> bool;
  x_scan : list N -> option N;
  x_kind : list N -> key_res;
  x_point : list N -> list N;
  x_digest_verify : list N -> list N -> list N -> Z
}.

(** sv_vendor_axis_communications_t: sv_vendor_axis_communications.c:107-125. Simplification: header, version, object_id and
    attestation_list_length of the attestation report are not kept, nothing reads them. *)
Record vhandle := mkVhandle {
  vh_att : option (list N);  (* attestation and attestation_size *)
  vh_chain : option (list N);  (* certificate_chain: the memory including the final NUL *)
  vh_md : option (list N);  (* md_ctx: the public key it verifies with *)
  vh_chip : list N;  (* chip_id[18] *)
  vh_ts : list N;  (* attestation_report.attestation_list.timestamp[12] *)
  vh_sig : list N;  (* attestation_report.attestation_list.signature, of signature_size bytes *)
  vh_key : option N;  (* public_key: the number of the EVP_PKEY_CTX pointed at *)
  vh_pkv : Z;  (* supplemental_authenticity.public_key_validation *)
  vh_serial : list N  (* supplemental_authenticity.serial_number *)
}.
Definition set_vh_att (v : option (list N)) (r : vhandle) : vhandle := mkVhandle v (vh_chain r) (vh_md r) (vh_chip r) (vh_ts r) (vh_sig r) (vh_key r) (vh_pkv r) (vh_serial r).
Definition set_vh_chain (v : option (list N)) (r : vhandle) : vhandle := mkVhandle (vh_att r) v (vh_md r) (vh_chip r) (vh_ts r) (vh_sig r) (vh_key r) (vh_pkv r) (vh_serial r).
Definition set_vh_md (v : option (list N)) (r : vhandle) : vhandle := mkVhandle (vh_att r) (vh_chain r) v (vh_chip r) (vh_ts r) (vh_sig r) (vh_key r) (vh_pkv r) (vh_serial r).
Definition set_vh_chip (v : list N) (r : vhandle) : vhandle := mkVhandle (vh_att r) (vh_chain r) (vh_md r) v (vh_ts r) (vh_sig r) (vh_key r) (vh_pkv r) (vh_serial r).
Definition set_vh_ts (v : list N) (r : vhandle) : vhandle := mkVhandle (vh_att r) (vh_chain r) (vh_md r) (vh_chip r) v (vh_sig r) (vh_key r) (vh_pkv r) (vh_serial r).
Definition set_vh_sig (v : list N) (r : vhandle) : vhandle := mkVhandle (vh_att r) (vh_chain r) (vh_md r) (vh_chip r) (vh_ts r) v (vh_key r) (vh_pkv r) (vh_serial r).
Definition set_vh_key (v : option N) (r : vhandle) : vhandle := mkVhandle (vh_att r) (vh_chain r) (vh_md r) (vh_chip r) (vh_ts r) (vh_sig r) v (vh_pkv r) (vh_serial r).
Definition set_vh_pkv (v : Z) (r : vhandle) : vhandle := mkVhandle (vh_att r) (vh_chain r) (vh_md r) (vh_chip r) (vh_ts r) (vh_sig r) (vh_key r) v (vh_serial r).
Definition set_vh_serial (v : list N) (r : vhandle) : vhandle := mkVhandle (vh_att r) (vh_chain r) (vh_md r) (vh_chip r) (vh_ts r) (vh_sig r) (vh_key r) (vh_pkv r) v.

Definition begin_cert : list N := [0x2d; 0x2d; 0x2d; 0x2d; 0x2d; 0x42; 0x45; 0x47; 0x49; 0x4e; 0x20; 0x43; 0x45; 0x52; 0x54; 0x49; 0x46; 0x49; 0x43; 0x41; 0x54; 0x45; 0x2d; 0x2d; 0x2d; 0x2d; 0x2d]. (* -----BEGIN CERTIFICATE----- *)
Definition edge_vault : list N := [0x41; 0x78; 0x69; 0x73; 0x20; 0x45; 0x64; 0x67; 0x65; 0x20; 0x56; 0x61; 0x75; 0x6c; 0x74; 0x20; 0x41; 0x74; 0x74; 0x65; 0x73; 0x74; 0x61; 0x74; 0x69; 0x6f; 0x6e; 0x20]. (* Axis Edge Vault Attestation *)
Definition unknown : list N := [0x55; 0x6e; 0x6b; 0x6e; 0x6f; 0x77; 0x6e]. (* Unknown *)
Definition axis_name : list N := [0x41; 0x78; 0x69; 0x73; 0x20; 0x43; 0x6f; 0x6d; 0x6d; 0x75; 0x6e; 0x69; 0x63; 0x61; 0x74; 0x69; 0x6f; 0x6e; 0x73; 0x20; 0x41; 0x42]. (* Axis Communications AB *)

(** sv_vendor_axis_communications_setup: sv_vendor_axis_communications.c:476-503. Simplification: the built-in root certificate
    can be read. *)
Definition handle_setup : vhandle := mkVhandle None None None (zeros 18) (zeros 12) [] None (-1)%Z unknown.

(** ** Strings *)

Fixpoint starts_with (pat s : list N) : bool :=
  match pat, s with
  | [], _ => true
  | p :: pat, c :: s => (p =? c) && starts_with pat s
  | _, [] => false
  end.
(** strstr. *)
Fixpoint strstr (s pat : list N) : option (list N) :=
  if starts_with pat s then Some s else match s with [] => None | _ :: s => strstr s pat end.

(** memcmp of n bytes, zero or not. *)
Definition differ (n : nat) (a b : list N) : out bool :=
  do (x, _) <- take_mem n a;
  do (y, _) <- take_mem n b;
  Def (negb (bytes_eqb x y)).

(** ** Signing side *)

(** The loop of get_untrusted_certificates_size: the next certificate but n. *)
Fixpoint next_cert (n : nat) (s : list N) : option (list N) :=
  match strstr s begin_cert with
  | None => None
  | Some t => match n with O => Some t | S n => next_cert n (tl t) end
  end.
(** get_untrusted_certificates_size: sv_vendor_axis_communications.c:529-552. *)
Definition untrusted_size (h : vhandle) : out nat :=
  match vh_chain h with
  | None => Undef NullDeref
  | Some m =>
      do s <- cstr m;
      Def (match next_cert 2 s with Some t => (length s - length t)%nat | None => 0%nat end)
  end.
(** encode_axis_communications_handle: sv_vendor_axis_communications.c:555-601. The value before emulation prevention; [] is
    the returned size 0. attestation_size is an uint8_t. *)
Definition axis_value (h : vhandle) : out (list N) :=
  do n <- untrusted_size h;
  match vh_att h, vh_chain h with
  | Some a, Some m => Def (1 :: u8 (nlen a) :: a ++ firstn n m)
  | _, _ => Def []
  end.
Definition axis_encode (h : vhandle) (epb : bool) (lt : N) : out (N * list N) := do v <- axis_value h; Def (write_bytes epb lt v).

(** sv_vendor_axis_communications_set_attestation_report: sv_vendor_axis_communications.c:760-829. [None] is NULL;
    attestation_size is the length of the attestation. *)
Definition set_report (h : vhandle) (att chain : option (list N)) : vhandle * svrc :=
  match att, chain with
  | None, None => (h, SV_INVALID_PARAMETER)
  | _, _ =>
      if match att with Some [] => true | _ => false end then (h, SV_INVALID_PARAMETER)
      else if match att, vh_att h with Some _, Some _ => true | _, _ => false end then (h, SV_NOT_SUPPORTED)
      else
        let h1 := match att with Some a => set_vh_att (Some a) h | None => h end in
        match chain with
        | None => (h1, SV_OK)
        | Some s =>
            if match vh_chain h1 with Some _ => true | None => false end then (h1, SV_NOT_SUPPORTED)
            else
              match s with
              | [] => (match att with Some _ => set_vh_att None h1 | None => h1 end, SV_MEMORY)
              | _ => (set_vh_chain (Some (s ++ (if last s 0 =? 10 then [] else [10]) ++ [0])) h1, SV_OK)
              end
        end
  end.

(** ** Validating side *)

(** decode_axis_communications_handle: sv_vendor_axis_communications.c:604-670. [mem] is the memory from |data| on. *)
Definition axis_decode (h : vhandle) (mem : list N) (size : N) : out (vhandle * svrc) :=
  do (version, p) <- read_8bits mem;
  if negb (version =? 1) then Def (h, SV_INCOMPATIBLE_VERSION)
  else
    do (n, p) <- read_8bits p;
    if n =? 0 then Def (h, SV_NOT_SUPPORTED)
    else
      do h <- match vh_att h with
              | Some _ => Def h
              | None => do (a, _) <- take_mem (N.to_nat n) p; Def (set_vh_att (Some a) h)
              end;
      let a := match vh_att h with Some a => a | None => [] end in
      if negb (n =? nlen a) then Def (h, SV_NOT_SUPPORTED)
      else
        do d <- differ (N.to_nat n) p a;
        if d then Def (h, SV_NOT_SUPPORTED)
        else
          let p := skipn (N.to_nat n) p in
          if size <=? n + 2 then Def (h, SV_AUTHENTICATION_ERROR)
          else
            let k := N.to_nat (size - n - 2) in
            do h <- match vh_chain h with
                    | Some _ => Def h
                    | None => do (c, _) <- take_mem k p; Def (set_vh_chain (Some (c ++ [0])) h)
                    end;
            let c := match vh_chain h with Some c => c | None => [] end in
            do d <- differ k p c;
            if d then Def (h, SV_NOT_SUPPORTED) else Def (h, SV_OK).

Section Check.
Variable C : crypto.
Variable X : vcrypto.

(** The loop over the 18 bytes of the chip id, sv_vendor_axis_communications.c:249-251. A byte that cannot be read keeps its
    old value. *)
Fixpoint scan_chip (old s : list N) : list N :=
  match old with
  | [] => []
  | b :: old => match x_scan X s with Some v => v | None => b end :: scan_chip old (skipn 2 s)
  end.

(** verify_and_parse_certificate_chain with verify_certificate_chain: sv_vendor_axis_communications.c:137-297. The part that
    can fail gives the new handle and the key to verify with. *)
Definition parse_certs (h : vhandle) (s : list N) : out (vhandle * (svrc + list N)) :=
  let certs := firstn 3 (x_certs X s) in
  if (2 <? length certs)%nat then Def (h, inl SV_VENDOR_ERROR)
  else
    match x_verify X certs with
    | None => Def (h, inl SV_EXTERNAL_ERROR)
    | Some false => Def (h, inl SV_VENDOR_ERROR)
    | Some true =>
        match certs with
        | [] => Undef NullDeref
        | cert :: _ =>
            match x_cn X cert with
            | NameMissing => Def (h, inl SV_VENDOR_ERROR)
            | NameBad => Def (h, inl SV_EXTERNAL_ERROR)
            | Name cn =>
                match strstr cn edge_vault with
                | None => Def (h, inl SV_VENDOR_ERROR)
                | Some t =>
                    let pos := skipn (length edge_vault) t in
                    if negb (length pos =? 36)%nat then Def (h, inl SV_VENDOR_ERROR)
                    else
                      let h := set_vh_chip (scan_chip (vh_chip h) pos) h in
                      if negb (starts_with [0x04; 0x00; 0x50; 0x01] (vh_chip h)) then Def (h, inl SV_VENDOR_ERROR)
                      else
                        match x_sn X cert with
                        | NameMissing => Def (h, inl SV_VENDOR_ERROR)
                        | NameBad => Def (h, inl SV_EXTERNAL_ERROR)
                        | Name sn =>
                            do h <- (if bytes_eqb (vh_serial h) sn then Def h
                                     else if (20 <=? length sn)%nat then Undef OobWrite else Def (set_vh_serial sn h));
                            match x_pub X cert with
                            | None => Def (h, inl SV_EXTERNAL_ERROR)
                            | Some (_, false) => Def (h, inl SV_VENDOR_ERROR)
                            | Some (pub, true) => if x_init X pub then Def (h, inr pub) else Def (h, inl SV_EXTERNAL_ERROR)
                            end
                        end
                end
            end
        end
    end.
Definition check_chain (h : vhandle) : out (vhandle * svrc) :=
  match vh_chain h with
  | None => Def (h, SV_INVALID_PARAMETER)
  | Some m =>
      do s <- cstr m;
      do (h, r) <- parse_certs h s;
      match r with
      | inl st => Def (set_vh_md None (set_vh_serial unknown h), st)
      | inr pub => Def (set_vh_md (Some pub) h, SV_OK)
      end
  end.

(** deserialize_attestation: sv_vendor_axis_communications.c:310-356. *)
Definition deserialize (h : vhandle) : out (vhandle * svrc) :=
  match vh_att h with
  | None => Def (h, SV_VENDOR_ERROR)
  | Some a =>
      if (length a <? 24)%nat then Def (h, SV_VENDOR_ERROR)
      else if negb (nth 8 a 0 =? 1) then Def (h, SV_VENDOR_ERROR)
      else
        do (ts, p) <- take_mem 12 (skipn 9 a);
        let h := set_vh_ts ts h in
        do (n, p) <- read_16bits p;
        if negb (n =? nlen p) then Def (h, SV_VENDOR_ERROR)
        else if 512 <? n then Undef OobWrite
        else Def (set_vh_sig p h, SV_OK)
  end.

(** kAttributes and kFreshness: sv_vendor_axis_communications.c:69-76. *)
Definition attributes : list N :=
  [0x7b; 0x00; 0x02; 0x01; 0x29; 0x01; 0x00; 0x00; 0x7b; 0x00; 0x00; 0x03; 0x00; 0x00; 0x08; 0x7b; 0x00; 0x00; 0x03; 0x1f;
   0x3c; 0x00; 0x00; 0x08; 0x00; 0x00; 0x00; 0x00; 0x00; 0x20; 0x00; 0x00; 0x02; 0x00; 0x00; 0x00; 0x00].
Definition freshness : list N :=
  [0x92; 0xbb; 0xed; 0xfb; 0x98; 0x82; 0xac; 0x16; 0xc7; 0xf0; 0x1a; 0xe4; 0x59; 0x05; 0x96; 0x04].
(** binary_raw_data: sv_vendor_axis_communications.c:398-405. *)
Definition raw_data : list N :=
  [0x80; 0x22; 0x00; 0x00; 0x00; 0x00; 0x21; 0x41; 0x04] ++ firstn 4 attributes ++
  [0x45; 0x04; 0xf0; 0x00; 0x00; 0x12; 0x46; 0x01; 0x21; 0x47; 0x10] ++ freshness.
(** signed_data: sv_vendor_axis_communications.c:410-453. *)
Definition signed_data (point chip ts : list N) : list N :=
  c_hash C sha256_der raw_data ++ [0x41; 0x82; 0x00; 65] ++ point ++ [0x42; 0x82; 0x00; 0x12] ++ chip ++
  [0x43; 0x82; 0x00; 37] ++ attributes ++ [0x44; 0x82; 0x00; 0x02; 0x00; 0x20; 0x4f; 0x82; 0x00; 0x0c] ++ ts.

(** verify_axis_communications_public_key: sv_vendor_axis_communications.c:371-472. [ctx] is the EVP_PKEY_CTX that exists, with
    its number and the key in PEM form; all others have been freed. *)
Definition check_key (ctx : option (N * list N)) (h : vhandle) : out (vhandle * svrc) :=
  match vh_md h, vh_key h with
  | None, _ => Def (h, SV_VENDOR_ERROR)
  | Some _, None => Def (h, SV_NOT_SUPPORTED)
  | Some pub, Some g =>
      match ctx with
      | None => Undef UseAfterFree
      | Some (g0, pem) =>
          if negb (g =? g0) then Undef UseAfterFree
          else
            let point := x_point X pem in
            if negb (length point =? 65)%nat then Def (h, SV_VENDOR_ERROR)
            else if negb (hd 0 point =? 4) then Def (h, SV_VENDOR_ERROR)
            else
              let v := x_digest_verify X pub (vh_sig h) (signed_data point (vh_chip h) (vh_ts h)) in
              if (v <? 0)%Z then Def (h, SV_EXTERNAL_ERROR)
              else Def (set_vh_pkv (Z.land (vh_pkv h) v) h, SV_OK)
      end
  end.

(** set_axis_communications_public_key: sv_vendor_axis_communications.c:672-723. *)
Definition give_key (h : vhandle) (g : N) (pem : list N) (changed : bool) : vhandle * svrc :=
  if (vh_pkv h =? 0)%Z then (h, SV_OK)
  else
    let h := match changed, vh_key h with true, Some _ => set_vh_pkv 0%Z h | _, _ => h end in
    match x_kind X pem with
    | KeyOther => (set_vh_pkv 0%Z (set_vh_key (Some g) h), SV_OK)
    | KeyNoGroup => (set_vh_pkv 0%Z (set_vh_key None h), SV_EXTERNAL_ERROR)
    | KeyEc false => (set_vh_pkv 0%Z (set_vh_key None h), SV_VENDOR_ERROR)
    | KeyEc true => (set_vh_key (Some g) h, SV_OK)
    end.

(** get_axis_communications_supplemental_authenticity: sv_vendor_axis_communications.c:725-757. *)
Definition supplemental (ctx : option (N * list N)) (h : vhandle) : out (vhandle * svrc) :=
  do (h, st) <- check_chain h;
  do (h, st) <- (if is_ok st then deserialize h else Def (h, st));
  do (h, st) <- (if is_ok st then check_key ctx h else Def (h, st));
  if svrc_eqb st SV_VENDOR_ERROR then Def (set_vh_serial unknown (set_vh_pkv 0%Z h), SV_OK) else Def (h, st).

(** ** The validating session *)

(** SignedVideoPublicKeyValidation: signed_video_auth.h. *)
Inductive pkval := PkOk | PkNotOk | PkNotFeasible.

(** The parts of signed_video_t that the vendor code uses: signed_video_internal.h:115-211. *)
Record vsess := mkVsess {
  vs_h : vhandle;  (* vendor_handle *)
  vs_ctx : option (N * list N);  (* verify_data->key: number of the context, and the key *)
  vs_next : N;  (* contexts created so far *)
  vs_prod : option (list N * list N);  (* product_info: manufacturer and serial_number, if set *)
  vs_latest : pkval;  (* latest_validation->public_key_validation *)
  vs_acc : pkval  (* accumulated_validation->public_key_validation *)
}.
Definition set_vs_h (v : vhandle) (r : vsess) : vsess := mkVsess v (vs_ctx r) (vs_next r) (vs_prod r) (vs_latest r) (vs_acc r).
Definition set_vs_ctx (v : option (N * list N)) (r : vsess) : vsess := mkVsess (vs_h r) v (vs_next r) (vs_prod r) (vs_latest r) (vs_acc r).
Definition set_vs_next (v : N) (r : vsess) : vsess := mkVsess (vs_h r) (vs_ctx r) v (vs_prod r) (vs_latest r) (vs_acc r).
Definition set_vs_prod (v : option (list N * list N)) (r : vsess) : vsess := mkVsess (vs_h r) (vs_ctx r) (vs_next r) v (vs_latest r) (vs_acc r).
Definition set_vs_latest (v : pkval) (r : vsess) : vsess := mkVsess (vs_h r) (vs_ctx r) (vs_next r) (vs_prod r) v (vs_acc r).
Definition set_vs_acc (v : pkval) (r : vsess) : vsess := mkVsess (vs_h r) (vs_ctx r) (vs_next r) (vs_prod r) (vs_latest r) v.

Definition sess_setup : vsess := mkVsess handle_setup None 0 None PkNotFeasible PkNotFeasible.

(** What happens in a validating session. [VKey pem changed]: a public key is decoded; [changed] is
    latest_validation->public_key_has_changed. [VTag mem size]: a vendor tag is decoded. [VProduct man sn]: the product
    information is decoded. [VCheck]: the public key is checked when a GOP is validated. [VReport]: the report is made.
    [VReset]: signed_video_reset. *)
Inductive vev := VKey (pem : list N) (changed : bool) | VTag (mem : list N) (size : N) | VProduct (man sn : list N) | VCheck | VReport | VReset.

(** The comparison of the manufacturer: signed_video_tlv.c:735-736 and signed_video_h26x_auth.c:809-810. *)
Definition is_axis (s : vsess) : bool := match vs_prod s with Some (man, _) => bytes_eqb man axis_name | None => false end.

Definition vev_step (s : vsess) (e : vev) : out (vsess * svrc) :=
  match e with
  | VKey pem changed =>
      (* decode_public_key: signed_video_tlv.c:729-741, with openssl_public_key_malloc, signed_video_openssl.c:150-195. *)
      if negb (c_pub_ok C pem) then Def (s, SV_EXTERNAL_ERROR)
      else
        let g := vs_next s in
        let s := set_vs_next (g + 1) (set_vs_ctx (Some (g, pem)) s) in
        if is_axis s
        then let '(h, st) := give_key (vs_h s) g pem changed in Def (set_vs_h h s, st)
        else Def (s, SV_OK)
  | VTag mem size =>
      (* decode_axis_communications: signed_video_tlv.c:1061-1064. *)
      do (h, st) <- axis_decode (vs_h s) mem size; Def (set_vs_h h s, st)
  | VProduct man sn => Def (set_vs_prod (Some (man, sn)) s, SV_OK) (* decode_product_info: signed_video_tlv.c:517-571. *)
  | VCheck =>
      (* prepare_for_validation: signed_video_h26x_auth.c:806-833. *)
      match vs_prod s with
      | Some (man, sn) =>
          if bytes_eqb man axis_name then
            do (h, st) <- supplemental (vs_ctx s) (vs_h s);
            let s := set_vs_h h s in
            if is_ok st then
              Def (set_vs_latest
                     (if negb (bytes_eqb sn (vh_serial h)) then PkNotOk
                      else if (vh_pkv h =? 1)%Z then PkOk else if (vh_pkv h =? 0)%Z then PkNotOk else PkNotFeasible) s, SV_OK)
            else Def (s, st)
          else Def (s, SV_OK)
      | None => Def (s, SV_OK)
      end
  | VReport =>
      (* update_accumulated_validation: signed_video_authenticity.c:237-239. *)
      Def (match vs_acc s with PkNotOk => s | _ => set_vs_acc (vs_latest s) s end, SV_OK)
  | VReset =>
      (* signed_video_reset: signed_video_h26x_common.c:1212-1213. *)
      Def (set_vs_acc PkNotFeasible (set_vs_latest PkNotFeasible s), SV_OK)
  end.
Fixpoint vev_run (s : vsess) (l : list vev) : out (vsess * list svrc) :=
  match l with
  | [] => Def (s, [])
  | e :: l => do (s, r) <- vev_step s e; do (s, rs) <- vev_run s l; Def (s, r :: rs)
  end.
End Check.

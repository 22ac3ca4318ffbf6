(** What users rely on from the vendor code: vocabulary. *)
From Verif Require Import Base Crypto Types Tlv Vendor.
Local Open Scope N_scope.

(** [pat] occurs somewhere in [s]. *)
Definition occurs (pat s : list N) : Prop := exists a b, s = a ++ pat ++ b.

(** A certificate in PEM form: the BEGIN line, further lines in which it does not occur again, and a final newline. *)
Definition pem_cert (c : list N) : Prop :=
  exists body, c = begin_cert ++ [10] ++ body ++ [10] /\ ~ occurs begin_cert body /\ ~ In 0 body.

(** The value of a vendor tag: version 1, size of the attestation, attestation, certificates. *)
Definition vendor_tag (att certs : list N) : list N := 1 :: nlen att :: att ++ certs.

(** The attestation and the certificates held by a validator; as a C string the certificates end with a NUL. *)
Definition holds (h : vhandle) (att certs : list N) : Prop := vh_att h = Some att /\ vh_chain h = Some (certs ++ [0]).

(** An attestation: eight bytes, the number 1, a time stamp of 12 bytes and a signature of at least one byte with its size in
    front. *)
Definition attestation_of (att ts sig : list N) : Prop :=
  exists head, att = head ++ [1] ++ ts ++ be16 (nlen sig) ++ sig /\ length head = 8%nat /\ length ts = 12%nat /\ (1 <= length sig)%nat.

(** The data that the attestation key of the device signs for a public key, given as a point in uncompressed form. *)
Definition statement_about (C : crypto) (point chip ts : list N) : list N :=
  c_hash C sha256_der
    ([128; 34; 0; 0; 0; 0; 33; 65; 4; 123; 0; 2; 1; 69; 4; 240; 0; 0; 18; 70; 1; 33; 71; 16] ++
     [146; 187; 237; 251; 152; 130; 172; 22; 199; 240; 26; 228; 89; 5; 150; 4]) ++
  [65; 130; 0; 65] ++ point ++ [66; 130; 0; 18] ++ chip ++
  [67; 130; 0; 37; 123; 0; 2; 1; 41; 1; 0; 0; 123; 0; 0; 3; 0; 0; 8; 123; 0; 0; 3; 31; 60; 0; 0; 8; 0; 0; 0; 0; 0; 32; 0; 0; 2; 0; 0; 0; 0;
   68; 130; 0; 2; 0; 32; 79; 130; 0; 12] ++ ts.

(** The common name of a certificate names a chip: behind "Axis Edge Vault Attestation " it has the 18 bytes of the chip id as
    hexadecimal digits. *)
Fixpoint chip_digits (X : vcrypto) (hex chip : list N) : Prop :=
  match chip with
  | [] => True
  | b :: chip => (forall v, x_scan X hex = Some v -> b = v) /\ chip_digits X (skipn 2 hex) chip
  end.
Definition names_chip (X : vcrypto) (cn chip : list N) : Prop :=
  exists front hex, cn = front ++ edge_vault ++ hex /\ length hex = 36%nat /\ chip_digits X hex chip.

(** The public key [pem] is attested by a device with the serial number [sn]: the certificates are accepted under the Axis root,
    the first one is that of the attestation key and names a chip and the serial number, and the signature in the attestation is
    one of that key for the statement about [pem]. *)
Definition attested (C : crypto) (X : vcrypto) (att certs pem sn : list N) : Prop :=
  exists cert more cn pub chip ts sig,
    x_certs X certs = cert :: more /\ (length more <= 1)%nat /\ x_verify X (cert :: more) = Some true /\
    x_cn X cert = Name cn /\ names_chip X cn chip /\ length chip = 18%nat /\ firstn 4 chip = [4; 0; 80; 1] /\
    x_sn X cert = Name sn /\ x_pub X cert = Some (pub, true) /\
    attestation_of att ts sig /\ length (x_point X pem) = 65%nat /\
    (0 < x_digest_verify X pub sig (statement_about C (x_point X pem) chip ts))%Z.

(** What OpenSSL answers: an empty chain is not accepted, serial numbers have less than 20 characters, and verification says
    1, 0 or a negative number. *)
Record vcrypto_ok (X : vcrypto) : Prop := mkVcryptoOk {
  xo_verify : x_verify X [] <> Some true;
  xo_serial : forall c sn, x_sn X c = Name sn -> (length sn < 20)%nat;
  xo_digest : forall pub sig d, (x_digest_verify X pub sig d <= 1)%Z
}.

(** ** Histories of a validating session *)

(** The public key in use after a history: the last one that could be read. *)
Fixpoint key_in_use (C : crypto) (cur : option (list N)) (evs : list vev) : option (list N) :=
  match evs with
  | [] => cur
  | VKey pem _ :: evs => key_in_use C (if c_pub_ok C pem then Some pem else cur) evs
  | _ :: evs => key_in_use C cur evs
  end.
(** Manufacturer and serial number of the product information received last. *)
Fixpoint product (cur : option (list N * list N)) (evs : list vev) : option (list N * list N) :=
  match evs with
  | [] => cur
  | VProduct man sn :: evs => product (Some (man, sn)) evs
  | _ :: evs => product cur evs
  end.
(** A vendor tag with this attestation and these certificates has been received. *)
Definition tag_received (evs : list vev) (att certs : list N) : Prop :=
  exists rest, In (VTag (vendor_tag att certs ++ rest) (nlen (vendor_tag att certs))) evs.
(** What is received are bytes. *)
Definition tag_bytes (e : vev) : Prop := match e with VTag mem _ => bytes_ok mem | _ => True end.
(** The part of a string in front of the first NUL. *)
Fixpoint c_string (l : list N) : list N :=
  match l with [] => [] | b :: l => if b =? 0 then [] else b :: c_string l end.

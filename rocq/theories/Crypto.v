(** The crypto handle and the operations on it.
    Models lib/src/signed_video_openssl.c. OpenSSL itself is not modelled: every answer it can give
    is a function in the record [crypto], which all definitions and theorems take as an argument. *)
From Verif Require Import Base.
Local Open Scope nat_scope.

(** What OpenSSL makes of an encoded object identifier: not DER at all, a known object that is not
    a message digest, or a message digest with the given size in bytes. *)
Inductive oidres := OidBad | OidNoDigest | OidDigest (size : nat).

(** Answers of OpenSSL.
    - [c_oid der]: d2i_ASN1_OBJECT followed by EVP_get_digestbyobj and EVP_MD_size;
    - [c_name txt]: OBJ_txt2obj, giving the DER encoding of the object, or None if not recognised;
    - [c_hash der data]: EVP_Digest with that digest;
    - [c_pub_ok pem]: PEM_read_bio_PUBKEY and the set-up of a verification context succeed;
    - [c_verify pem sig hash]: EVP_PKEY_verify (1 good, 0 bad, negative error);
    - [c_priv pem]: PEM_read_bio_PrivateKey, giving the public key in PEM form and EVP_PKEY_size;
    - [c_sign pem coin hash]: EVP_PKEY_sign; [coin] stands for the randomness of ECDSA. *)
Record crypto := mkCrypto {
  c_oid : list N -> oidres;
  c_name : list N -> option (list N);
  c_hash : list N -> list N -> list N;
  c_pub_ok : list N -> bool;
  c_verify : list N -> list N -> list N -> Z;
  c_priv : list N -> option (list N * nat);
  c_sign : list N -> N -> list N -> option (list N)
}.

(** DER encoding of the object identifier of SHA-256 (DEFAULT_HASH_ALGO "sha256",
    signed_video_openssl.c:83): the encoding given in RFC 5754. *)
Definition sha256_der : list N :=
  [0x06; 0x09; 0x60; 0x86; 0x48; 0x01; 0x65; 0x03; 0x04; 0x02; 0x01]%N.

(** MAX_HASH_SIZE: signed_video_openssl_internal.h. *)
Definition max_hash_size : nat := 64.

(** What is assumed of a sane crypto library: digests have the announced size, which fits in
    MAX_HASH_SIZE and is not zero, hashes are bytes, and the default algorithm exists; a name of a
    message digest has a DER encoding of less than 254 bytes; a usable private key has a public key
    and a maximum signature size that fit a 16-bit length field, and signatures are bytes. *)
Record crypto_ok (C : crypto) : Prop := mkCryptoOk {
  ok_size : forall oid n, c_oid C oid = OidDigest n -> 0 < n <= max_hash_size;
  ok_hash_len : forall oid n d, c_oid C oid = OidDigest n -> length (c_hash C oid d) = n;
  ok_hash_bytes : forall oid n d, c_oid C oid = OidDigest n -> bytes_ok (c_hash C oid d);
  ok_sha256 : c_oid C sha256_der = OidDigest 32;
  ok_name : forall name d, c_name C name = Some d -> d <> [] /\ (N.of_nat (length d) < 254)%N /\ bytes_ok d;
  ok_priv : forall pem pub m, c_priv C pem = Some (pub, m) ->
    pub <> [] /\ (N.of_nat (length pub) < 65535)%N /\ bytes_ok pub /\ (N.of_nat m + 5 < 65536)%N;
  ok_sign : forall pem coin h sig, c_sign C pem coin h = Some sig -> bytes_ok sig
}.

(** EVP_MD_CTX: digest, data so far and the "finalised" mark. Simplification: OpenSSL 3 is assumed
    (the code uses EVP_EC_gen), for which updating or finalising a finalised context fails. *)
Record mdctx := mkCtx { x_oid : list N; x_data : list N; x_final : bool }.

(** openssl_crypto_t: signed_video_openssl.c:50-67. [h_oid] is hash_algo.encoded_oid and [h_type]
    identifies hash_algo.type; the two differ only after a failed change of algorithm. *)
Record handle := mkHandle {
  h_oid : list N;
  h_type : list N;
  h_prim : option mdctx;
  h_sec : option mdctx
}.

Section Ops.
Variable C : crypto.

(** openssl_get_hash_size: signed_video_openssl.c:539-545. *)
Definition oid_size (oid : list N) : nat :=
  match c_oid C oid with OidDigest n => n | _ => 0 end.
Definition hash_size (h : handle) : nat := oid_size (h_type h).

(** openssl_hash_data: signed_video_openssl.c:316-328. *)
Definition hash_data (h : handle) (data : list N) : svrc * list N :=
  match data with
  | [] => (SV_INVALID_PARAMETER, [])
  | _ => (SV_OK, c_hash C (h_type h) data)
  end.

Definition get_ctx (prim : bool) (h : handle) : option mdctx :=
  if prim then h_prim h else h_sec h.
Definition set_ctx (prim : bool) (x : option mdctx) (h : handle) : handle :=
  if prim then mkHandle (h_oid h) (h_type h) x (h_sec h)
  else mkHandle (h_oid h) (h_type h) (h_prim h) x.

(** openssl_init_hash: signed_video_openssl.c:331-351. An existing context keeps its digest. *)
Definition init_hash (prim : bool) (h : handle) : handle :=
  match get_ctx prim h with
  | Some x => set_ctx prim (Some (mkCtx (x_oid x) [] false)) h
  | None => set_ctx prim (Some (mkCtx (h_type h) [] false)) h
  end.

(** openssl_update_hash: signed_video_openssl.c:353-367. *)
Definition update_hash (prim : bool) (data : list N) (h : handle) : handle * svrc :=
  match data with
  | [] => (h, SV_INVALID_PARAMETER)
  | _ =>
      match get_ctx prim h with
      | None => (h, SV_EXTERNAL_ERROR)
      | Some x =>
          if x_final x then (h, SV_EXTERNAL_ERROR)
          else (set_ctx prim (Some (mkCtx (x_oid x) (x_data x ++ data) false)) h, SV_OK)
      end
  end.

(** openssl_finalize_hash: signed_video_openssl.c:369-388. *)
Definition finalize_hash (prim : bool) (h : handle) : handle * svrc * list N :=
  match get_ctx prim h with
  | None => (h, SV_EXTERNAL_ERROR, [])
  | Some x =>
      if x_final x then (h, SV_EXTERNAL_ERROR, [])
      else (set_ctx prim (Some (mkCtx (x_oid x) (x_data x) true)) h, SV_OK,
            c_hash C (x_oid x) (x_data x))
  end.

(** openssl_set_hash_algo: signed_video_openssl.c:443-472. None stands for a NULL argument. *)
Definition set_hash_algo (name : option (list N)) (h : handle) : handle * svrc :=
  let der := match name with None => Some sha256_der | Some t => c_name C t end in
  match der with
  | None => (h, SV_INVALID_PARAMETER)
  | Some d =>
      match c_oid C d with
      | OidDigest _ => (mkHandle d d None (Some (mkCtx d [] false)), SV_OK)
      | _ => (h, SV_EXTERNAL_ERROR)
      end
  end.

(** openssl_set_hash_algo_by_encoded_oid: signed_video_openssl.c:474-506. The contexts survive a
    change of algorithm. A known object that is not a digest makes hash_algo.type NULL and
    hash_algo.size the size_t value of -1; the caller then forms [hashes + SIZE_MAX]
    (signed_video_tlv.c:1013), so that case is undefined behaviour. *)
Definition set_hash_algo_der (der : list N) (h : handle) : out (handle * svrc) :=
  match der with
  | [] => Def (h, SV_INVALID_PARAMETER)
  | _ =>
      if bytes_eqb der (h_oid h) then Def (h, SV_OK)
      else
        match c_oid C der with
        | OidBad => Def (mkHandle der (h_type h) (h_prim h) (h_sec h), SV_EXTERNAL_ERROR)
        | OidNoDigest => Undef OobWrite
        | OidDigest _ => Def (mkHandle der der (h_prim h) (h_sec h), SV_OK)
        end
  end.

(** openssl_create_handle: signed_video_openssl.c:548-560. *)
Definition handle_create : handle :=
  mkHandle sha256_der sha256_der None (Some (mkCtx sha256_der [] false)).

End Ops.

(** Small concrete crypto libraries, used in examples and counterexamples only. *)
From Verif Require Import Base BaseProofs Nalu Crypto CodecSpec CodecProofs.
Local Open Scope N_scope.

(** A checksum followed by filler instead of a cryptographic digest. *)
Definition toy_sum (d : list N) : N := fold_left (fun a b => N.land (a + N.double (N.double a) + b + 7) 65535) d 1.
Definition toy_digest (n : nat) (d : list N) : list N := firstn n (digits 2 (toy_sum d) ++ repeat 9 n).

Definition toy_name : list N := [0x73; 0x68; 0x61; 0x35; 0x31; 0x32]. (* sha512 *)
Definition toy_der : list N := [0x06; 0x09; 0x60; 0x86; 0x48; 0x01; 0x65; 0x03; 0x04; 0x02; 0x03].

(** Two digests (32 and 64 bytes), keys of up to 100 bytes whose public key is the key itself with the
    letter K (75) in front, and signatures that are the first byte of the key followed by the digest. *)
Definition toy_with (h : nat -> list N -> list N) : crypto :=
  mkCrypto
    (fun oid => if bytes_eqb oid sha256_der then OidDigest 32
                else if bytes_eqb oid toy_der then OidDigest 64 else OidBad)
    (fun name => if bytes_eqb name toy_name then Some toy_der else None)
    (fun oid d => h (if bytes_eqb oid toy_der then 64%nat else 32%nat) d)
    (fun pem => match pem with b :: _ => b =? 75 | [] => false end)
    (fun pem sig hash => if bytes_eqb sig (hd 0 (skipn 1 pem) :: hash) then 1%Z else 0%Z)
    (fun pem => match pem with
                | [] => None
                | _ => if (length pem <? 100)%nat then Some (75 :: map u8 pem, 65%nat) else None
                end)
    (fun pem _ hash => if forallb (fun b => b <? 256) hash
                       then Some (u8 (hd 0 pem) :: hash) else None).

Definition toy : crypto := toy_with toy_digest.
(** The same with a digest that is constantly zero. *)
Definition zero_crypto : crypto := toy_with (fun n _ => zeros n).

Lemma toy_with_ok h : (forall n d, length (h n d) = n /\ bytes_ok (h n d)) -> crypto_ok (toy_with h).
Proof.
  intros H. constructor; cbn [c_oid c_hash c_name c_priv c_sign toy_with].
  - intros oid n. destruct (bytes_eqb oid sha256_der); [intros E; injection E as <-; unfold max_hash_size; lia|].
    destruct (bytes_eqb oid toy_der); [|discriminate]. intros E. injection E as <-. unfold max_hash_size. lia.
  - intros oid n d. destruct (bytes_eqb oid sha256_der) eqn:E1.
    + apply bytes_eqb_eq in E1. subst oid. intros E. injection E as <-. apply H.
    + destruct (bytes_eqb oid toy_der); [|discriminate]. intros E. injection E as <-. apply H.
  - intros oid n d _. apply H.
  - reflexivity.
  - intros name d. destruct (bytes_eqb name toy_name); [|discriminate]. intros E. injection E as <-.
    split; [discriminate|]. split; [reflexivity|repeat constructor].
  - intros pem pub m. destruct pem as [|b pem]; [discriminate|].
    destruct (Nat.ltb_spec (length (b :: pem)) 100) as [HL|]; [|discriminate]. intros E. injection E as <- <-.
    split; [discriminate|]. split.
    + cbn [length] in *. rewrite map_length. lia.
    + split; [|reflexivity]. constructor; [reflexivity|]. apply Forall_forall.
      intros x Hx. change (In x (map u8 (b :: pem))) in Hx. apply in_map_iff in Hx as (y & <- & _). unfold byte_ok, u8. apply N.mod_lt. discriminate.
  - intros pem coin hh sig. destruct (forallb _ hh) eqn:E; [|discriminate]. intros G. injection G as <-.
    constructor; [unfold byte_ok, u8; apply N.mod_lt; discriminate|].
    rewrite forallb_forall in E. apply Forall_forall. intros x Hx. apply N.ltb_lt, E, Hx.
Qed.

Lemma toy_digest_ok n d : length (toy_digest n d) = n /\ bytes_ok (toy_digest n d).
Proof.
  unfold toy_digest. split.
  - rewrite firstn_length, app_length, repeat_length, digits_len. lia.
  - apply bytes_ok_firstn. apply bytes_ok_app. split; [apply digits_ok|].
    apply Forall_forall. intros x Hx. apply repeat_spec in Hx. subst x. reflexivity.
Qed.
Lemma toy_ok : crypto_ok toy.
Proof. apply toy_with_ok. exact toy_digest_ok. Qed.
Lemma zero_crypto_ok : crypto_ok zero_crypto.
Proof. apply toy_with_ok. intros n d. split; [apply repeat_length|apply bytes_ok_zeros]. Qed.

(** Pictures: an IDR slice and a P slice of H.264 with the given content. *)
Definition idr (x : list N) : list N := [0; 0; 0; 1; 0x65; 0x88] ++ x ++ [0x80].
Definition pic (x : list N) : list N := [0; 0; 0; 1; 0x41; 0x9a] ++ x ++ [0x80].
Definition key1 : list N := [0x41; 0x42; 0x43].
Definition key2 : list N := [0x58; 0x59].

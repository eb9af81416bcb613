(** Specification of which readers accept a text. *)
From Verif Require Import Base PubKeyType PubKey Crypto Cert PrivKey Signature Chrono AllowedSigner.

Inductive text_kind := PublicKeyText | CertificateText | PrivateKeyText | SignatureText | SignersText.
(** Some configuration, passphrase, time zone and cryptography exist with which the reader of that kind accepts. *)
Definition reads_as (t : bytes) (k : text_kind) : Prop :=
  match k with
  | PublicKeyText => exists v, pk_from_string t = Ok v
  | CertificateText => exists C v, cert_from_string C t = Ok v
  | PrivateKeyText => exists F K pass v, sk_from_string F K t pass = Ok v
  | SignatureText => exists v, sshsig_from_armored_string t = Ok v
  | SignersText => exists tz v, signers_from_string tz t = Ok v
  end.
(** A public key or a certificate: a line that starts with a key type. *)
Definition key_line (k : text_kind) : Prop := k = PublicKeyText \/ k = CertificateText.

(** The cryptographic primitives of ring 0.17 and others, as arbitrary functions.
    No law is assumed here; theorems that need one state it as a hypothesis. *)
From Verif Require Import Base.

(** ring::signature RSA verification algorithms used at signature.rs 283-291. *)
Inductive rsa_alg := RsaSha1 | RsaSha256 | RsaSha512.

Record crypto := mkCrypto {
  (** ring::digest *)
  c_sha256 : bytes -> bytes;
  c_sha384 : bytes -> bytes;
  c_sha512 : bytes -> bytes;
  (** [UnparsedPublicKey::verify] with ECDSA_P256_SHA256_FIXED / ECDSA_P384_SHA384_FIXED /
      ED25519: public key, message, signature *)
  c_p256_verify : bytes -> bytes -> bytes -> bool;
  c_p384_verify : bytes -> bytes -> bytes -> bool;
  c_ed25519_verify : bytes -> bytes -> bytes -> bool;
  (** [RsaPublicKeyComponents { n, e }.verify]: algorithm, n, e, message, signature *)
  c_rsa_verify : rsa_alg -> bytes -> bytes -> bytes -> bytes -> bool
}.

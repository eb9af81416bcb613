(** Specification for recognising keys (C110). *)
From Verif Require Import Base Crypto KeyType PubKeyType PubKey.

(** A key that was read, from a blob or from a line. *)
Definition was_read (k : pubkey) : Prop := (exists b, pk_from_bytes b = Ok k) \/ exists t, pk_from_string t = Ok k.
(** Two byte strings with the same digest. *)
Definition collision (C : crypto) (f : fp_kind) : Prop := exists x y, x <> y
  /\ match f with FpSha256 => c_sha256 C x = c_sha256 C y | FpSha384 => c_sha384 C x = c_sha384 C y | FpSha512 => c_sha512 C x = c_sha512 C y end.

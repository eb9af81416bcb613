(** Signatures made with a key, whatever primitive accepts them. *)
From Verif Require Import Base Crypto.

(** There is a signature of [m] under the elliptic-curve or Ed25519 key with these bytes. *)
Definition made_with (C : crypto) (key m : bytes) : Prop :=
  exists s, c_p256_verify C key m s = true \/ c_p384_verify C key m s = true \/ c_ed25519_verify C key m s = true.

(** Specification for C123: plain keys and hardware keys with the same key bytes. *)
From Verif Require Import Base SpecWire KeyType PubKeyType Crypto.

(** The key bytes of a hardware key for the application [app], as a plain key. *)
Inductive plain_twin : pubkey_kind -> bytes -> pubkey_kind -> Prop :=
| PT_ecdsa c key app : plain_twin (PkEcdsa c key (Some app)) app (PkEcdsa c key None)
| PT_ed25519 key app : plain_twin (PkEd25519 key (Some app)) app (PkEd25519 key None).

(** What a hardware key signs for the message [msg] (PROTOCOL.u2f). *)
Definition hardware_message (C : crypto) (app : bytes) (flags : byte) (counter : N) (msg : bytes) : bytes :=
  c_sha256 C app ++ [flags] ++ be32 counter ++ c_sha256 C msg.

(** The digests have the sizes of SHA-256 and SHA-512. *)
Definition digest_sizes (C : crypto) : Prop :=
  (forall b, length (c_sha256 C b) = 32) /\ (forall b, length (c_sha512 C b) = 64).

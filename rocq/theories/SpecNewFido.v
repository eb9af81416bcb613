(** Specification of what new-fido-sshkey leaves behind. *)
From Verif Require Import Base SpecWire KeyType PubKeyType PrivKey.

(** The key as a file gives it back: PIN and device path are gone, and it is named after its
    public key. *)
Definition stored_form (p p' : privkey) : Prop :=
  exists flags handle reserved pin path,
    sk_kind p = SkEd25519Sk (mkHw flags handle reserved pin path)
    /\ sk_pub p' = sk_pub p /\ sk_type p' = pk_type (sk_pub p) /\ sk_magic p' = sk_magic p /\ sk_comment p' = sk_comment p
    /\ match pk_kind (sk_pub p) with
       | PkEd25519 _ _ => sk_kind p' = SkEd25519Sk (mkHw flags handle [] None None)
       | _ => sk_kind p' = SkEcdsaSk (mkHw flags handle [] None None)
       end.
(** The size of the key and its handle. *)
Definition material_size (p : privkey) : N :=
  (match pk_kind (sk_pub p) with PkEd25519 key _ | PkEcdsa _ key _ => size key | PkRsa e n => size e + size n end
   + match sk_kind p with SkEd25519Sk h | SkEcdsaSk h => size (hw_handle h) | _ => 0 end)%N.

(** Vocabulary for C147: private keys put together from two keys. Only the data types come from the model. *)
From Verif Require Import Base PubKeyType PrivKey.

(** Two private keys of one form: the same kind, and for ECDSA the same curve. *)
Definition same_form (k l : privkey) : Prop :=
  match sk_kind k, sk_kind l with
  | SkRsa _, SkRsa _ | SkEd25519 _, SkEd25519 _ | SkEcdsaSk _, SkEcdsaSk _ | SkEd25519Sk _, SkEd25519Sk _ => True
  | SkEcdsa c _, SkEcdsa c' _ => c = c'
  | _, _ => False
  end.
(** The key [k] with the secret of [l] in the place of its own: for RSA the private exponent, the primes and what is derived from
    them, for hardware keys the handle, otherwise the secret scalar or seed. *)
Definition mixed (k l : privkey) : privkey :=
  mkPrivKey (sk_type k)
    (match sk_kind k, sk_kind l with
     | SkRsa a, SkRsa b => SkRsa (mkRsaPriv (rp_n a) (rp_e a) (rp_d b) (rp_coefficient b) (rp_p b) (rp_q b) (rp_exp b) (rp_exq b))
     | _, s => s
     end)
    (sk_pub k) (sk_magic k) (sk_comment k).

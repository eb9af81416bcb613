(** Specification for builds with different cargo features: when one build has at least what
    another has, and when two private keys or two outcomes of reading one are the same to a user.
    Only the data types come from the model. *)
From Verif Require Import Base KeyType PubKeyType Crypto PrivKey.

(** [more F G]: a build with features [G] has all that one with [F] has. (The two FIDO backends
    exclude each other.) *)
Definition more (F G : features) : Prop :=
  (f_rsa F = true -> f_rsa G = true) /\ (f_encrypted F = true -> f_encrypted G = true)
  /\ (f_fido F = NoFido \/ f_fido F = f_fido G).

(** The same secret, except for the two RSA exponents that are computed and not stored. *)
Definition same_secret (a b : priv_kind) : Prop :=
  match a, b with
  | SkRsa r, SkRsa s =>
      rp_n r = rp_n s /\ rp_e r = rp_e s /\ rp_d r = rp_d s /\ rp_coefficient r = rp_coefficient s
      /\ rp_p r = rp_p s /\ rp_q r = rp_q s
  | _, _ => a = b
  end.
Definition same_key (k l : privkey) : Prop :=
  sk_type k = sk_type l /\ sk_pub k = sk_pub l /\ sk_magic k = sk_magic l /\ sk_comment k = sk_comment l
  /\ same_secret (sk_kind k) (sk_kind l).

(** Two builds agree on a file: they give the same key or the same error. A crash of one of them
    is owed to the RSA feature. *)
Inductive agree (F G : features) : res privkey -> res privkey -> Prop :=
| A_key k l : same_key k l -> (f_rsa F = f_rsa G -> k = l) -> agree F G (Ok k) (Ok l)
| A_error e : agree F G (Err e) (Err e)
| A_crash : agree F G Panic Panic
| A_crash_first b : f_rsa F = true -> f_rsa G = false -> agree F G Panic b
| A_crash_second a : f_rsa F = false -> f_rsa G = true -> agree F G a Panic.

Definition is_rsa (k : privkey) : Prop := exists r, sk_kind k = SkRsa r.
Definition is_hardware (k : privkey) : Prop := exists h, sk_kind k = SkEcdsaSk h \/ sk_kind k = SkEd25519Sk h.

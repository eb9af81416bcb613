(** Equality ([==]) of keys and certificates: what [#[derive(PartialEq)]] compares. That of public
    keys is in PubKeyType.v. Definitions only. *)
From Verif Require Import Base KeyType PubKeyType Cert PrivKey.

(** [PartialEq for Vec<String>] *)
Fixpoint texts_eqb (a b : list bytes) : bool :=
  match a, b with
  | [], [] => true
  | x :: a', y :: b' => bytes_eqb x y && texts_eqb a' b'
  | _, _ => false
  end.
(** [PartialEq for HashMap] (std): as many entries, and each entry of the one is found in the other. *)
Definition hm_eqb (a b : hashmap) : bool :=
  (length a =? length b)
  && forallb (fun e => match hm_get (fst e) b with Some v => bytes_eqb (snd e) v | None => false end) a.
(** cert.rs 16 *)
Definition cert_type_eqb (a b : cert_type) : bool :=
  match a, b with User, User | Host, Host => true | _, _ => false end.
(** cert.rs 60-109 *)
Definition cert_eqb (a b : cert) : bool :=
  key_type_eqb (ct_key_type a) (ct_key_type b) && bytes_eqb (ct_nonce a) (ct_nonce b)
  && pubkey_eqb (ct_key a) (ct_key b) && (ct_serial a =? ct_serial b)%N
  && cert_type_eqb (ct_cert_type a) (ct_cert_type b) && bytes_eqb (ct_key_id a) (ct_key_id b)
  && texts_eqb (ct_principals a) (ct_principals b) && (ct_valid_after a =? ct_valid_after b)%N
  && (ct_valid_before a =? ct_valid_before b)%N && hm_eqb (ct_critical_options a) (ct_critical_options b)
  && hm_eqb (ct_extensions a) (ct_extensions b) && bytes_eqb (ct_reserved a) (ct_reserved b)
  && pubkey_eqb (ct_signature_key a) (ct_signature_key b) && bytes_eqb (ct_signature a) (ct_signature b)
  && opt_bytes_eqb (ct_comment a) (ct_comment b) && bytes_eqb (ct_serialized a) (ct_serialized b).

(** privkey.rs 40-65 *)
Definition rsa_priv_eqb (a b : rsa_priv) : bool :=
  bytes_eqb (rp_n a) (rp_n b) && bytes_eqb (rp_e a) (rp_e b) && bytes_eqb (rp_d a) (rp_d b)
  && bytes_eqb (rp_coefficient a) (rp_coefficient b) && bytes_eqb (rp_p a) (rp_p b) && bytes_eqb (rp_q a) (rp_q b)
  && opt_bytes_eqb (rp_exp a) (rp_exp b) && opt_bytes_eqb (rp_exq a) (rp_exq b).
(** privkey.rs 78-97, 107-126 *)
Definition hw_eqb (a b : hw_priv) : bool :=
  byte_eqb (hw_flags a) (hw_flags b) && bytes_eqb (hw_handle a) (hw_handle b)
  && bytes_eqb (hw_reserved a) (hw_reserved b) && opt_bytes_eqb (hw_pin a) (hw_pin b)
  && opt_bytes_eqb (hw_device_path a) (hw_device_path b).
(** privkey.rs 68-75, 100-104, 129-145 *)
Definition priv_kind_eqb (a b : priv_kind) : bool :=
  match a, b with
  | SkRsa r, SkRsa r' => rsa_priv_eqb r r'
  | SkEcdsa c k, SkEcdsa c' k' => curve_eqb c c' && bytes_eqb k k'
  | SkEcdsaSk h, SkEcdsaSk h' => hw_eqb h h'
  | SkEd25519 k, SkEd25519 k' => bytes_eqb k k'
  | SkEd25519Sk h, SkEd25519Sk h' => hw_eqb h h'
  | _, _ => false
  end.
(** privkey.rs 148-167 *)
Definition privkey_eqb (a b : privkey) : bool :=
  key_type_eqb (sk_type a) (sk_type b) && priv_kind_eqb (sk_kind a) (sk_kind b)
  && pubkey_eqb (sk_pub a) (sk_pub b) && (sk_magic a =? sk_magic b)%N && bytes_eqb (sk_comment a) (sk_comment b).

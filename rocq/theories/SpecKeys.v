(** Specification of the public key data that follows the type name in a key blob:
    RFC 4253 section 6.6 (RSA), RFC 5656 section 3.1 (ECDSA), RFC 8709 section 4
    (Ed25519), OpenSSH PROTOCOL.u2f (the application of hardware keys). *)
From Verif Require Import Base SpecWire KeyType PubKeyType.

Inductive family := FRsa | FEcdsa | FEd25519.
Definition family_of (k : kt_kind) : family :=
  match k with
  | KRsa | KRsaCert => FRsa
  | KEcdsa | KEcdsaCert => FEcdsa
  | KEd25519 | KEd25519Cert => FEd25519
  end.

(** A positive mpint field for the number with magnitude [m], held without leading zeros. *)
Definition mpint_field (m bs : bytes) : Prop :=
  shortest m
  /\ exists content, mpint_content_of (Z.of_N (magnitude m)) content
       /\ field_ok content /\ bs = field content.

(** The application field: present exactly for hardware keys. *)
Definition app_field (sk : bool) (app : option bytes) (bs : bytes) : Prop :=
  match sk, app with
  | true, Some a => utf8_text a /\ field_ok a /\ bs = field a
  | false, None => bs = []
  | _, _ => False
  end.

Definition supported_curve (c : curve) : Prop :=
  c_identifier c = s2b match c_kind c with
                       | Nistp256 => "nistp256" | Nistp384 => "nistp384" | Nistp521 => "nistp521"
                       end.

(** [key_data kt kind bs]: [bs] is the wire form of [kind] for a key of type [kt]. *)
Inductive key_data (kt : key_type) : pubkey_kind -> bytes -> Prop :=
| KD_rsa e n b1 b2 : family_of (kt_k kt) = FRsa ->
    mpint_field e b1 -> mpint_field n b2 -> key_data kt (PkRsa e n) (b1 ++ b2)
| KD_ecdsa c key app b : family_of (kt_k kt) = FEcdsa ->
    supported_curve c -> field_ok key -> app_field (kt_is_sk kt) app b ->
    key_data kt (PkEcdsa c key app) (field (c_identifier c) ++ field key ++ b)
| KD_ed25519 key app b : family_of (kt_k kt) = FEd25519 ->
    field_ok key -> app_field (kt_is_sk kt) app b ->
    key_data kt (PkEd25519 key app) (field key ++ b).

(** Two key values with the same material: RSA numbers may differ in leading zeros. *)
Definition same_material (a b : pubkey_kind) : Prop :=
  match a, b with
  | PkRsa e n, PkRsa e' n' => magnitude e = magnitude e' /\ magnitude n = magnitude n'
  | _, _ => a = b
  end.

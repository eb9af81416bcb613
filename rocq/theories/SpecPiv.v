(** Specification of signing with, and provisioning of, the slots of a YubiKey. *)
From Verif Require Import Base SpecSig SpecSign SpecX509 KeyType PubKeyType Crypto X509 Piv.

(** What a slot's key can be used for: the algorithm and the digest that goes with it. *)
Inductive slot_signs (C : crypto) : key_info -> algorithm_id -> (bytes -> bytes) -> Prop :=
| SlotP256 p : slot_signs C (PkiP256 p) EccP256 (c_sha256 C)
| SlotP384 p : slot_signs C (PkiP384 p) EccP384 (c_sha384 C)
| SlotRsa : slot_signs C PkiRsa Rsa2048 (c_sha256 C).
(** The answer of an operation of the device as a result. *)
Definition answer {A} (o : option A) : res A :=
  match o with Some a => Ok a | None => Err (EYubikeyPIVError PInternal) end.

(** The slot holds one certificate, whatever happens. *)
Definition slot_stable {H S} (D : yubikey H S) (h : H) (sl : slot) (c : slot_cert) : Prop :=
  forall s, fst (y_read D h sl s) = Some c.
(** The certificate, read by the X.509 parser, has a key on a curve. *)
Definition slot_key (X : x509) (c : slot_cert) (oid point : bytes) : Prop :=
  exists xc, x_cert X (sc_der c) = Some xc /\ sp_algorithm (xc_spki xc) = ec_oid
    /\ sp_parameters (xc_spki xc) = Some (Some oid) /\ sp_key (xc_spki xc) = point.
(** The curves: identifier, algorithm, digest, check, size of the integers, view of the device. *)
Inductive piv_curve (C : crypto) : bytes -> algorithm_id -> (bytes -> bytes) -> (bytes -> bytes -> bytes -> bool) -> nat -> (bytes -> key_info) -> Prop :=
| Piv256 : piv_curve C (s2b "1.2.840.10045.3.1.7") EccP256 (c_sha256 C) (c_p256_verify C) 32 PkiP256
| Piv384 : piv_curve C (s2b "1.3.132.0.34") EccP384 (c_sha384 C) (c_p384_verify C) 48 PkiP384.
(** The device signs digests with the private key of [point]. *)
Definition slot_holds {H S} (C : crypto) (D : yubikey H S) (h : H) (sl : slot) (oid point : bytes) : Prop :=
  forall alg hash verify len view m s g s', piv_curve C oid alg hash verify len view ->
    y_sign D h (hash m) alg sl s = (Some g, s') -> ecdsa_signs verify len point m g.
(** Self-signing puts a certificate for the given key into the slot, on a curve both parsers know. *)
Definition stores {H S} (C : crypto) (X : x509) (D : yubikey H S) (h : H) (sl : slot) : Prop :=
  forall serial name info s s', y_self_sign D h sl serial name info s = (Some tt, s') ->
  exists c s'' oid alg hash verify len view point,
    y_read D h sl s' = (Some c, s'') /\ piv_curve C oid alg hash verify len view
    /\ info = view point /\ slot_key X c oid point.

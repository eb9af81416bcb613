(** Specification of what the reading calls of a YubiKey tell (C97). *)
From Verif Require Import Base SpecX509 SpecPiv KeyType PubKeyType Crypto X509 Piv PivCalls.

(** What a call that reads the slot [sl] tells when the slot holds the certificate [c]. *)
Inductive told (X : x509) : call -> slot -> slot_cert -> value -> Prop :=
| T_info sl c : told X (CConfigured sl) sl c (VInfo (sc_info c))
| T_subject sl c : told X (CSubject sl) sl c (VBytes (sc_subject c))
| T_certificate sl c : told X (CCertificate sl) sl c (VBytes (sc_der c))
| T_key sl c oid point k : slot_key X c oid point -> curve_key oid point k -> told X (CPubkey sl) sl c (VKey k)
| T_type sl c oid point alg : slot_key X c oid point ->
    In (oid, alg) [(s2b "1.2.840.10045.3.1.7", EccP256); (s2b "1.3.132.0.34", EccP384)] -> told X (CKeyType sl) sl c (VAlg alg).
Definition reads_slot (k : call) (sl : slot) : Prop :=
  k = CConfigured sl \/ k = CSubject sl \/ k = CCertificate sl \/ k = CPubkey sl \/ k = CKeyType sl.

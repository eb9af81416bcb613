(** Specification of signing with private keys: what the primitives are assumed to do, and the
    DER form of RSA private keys (RFC 8017 A.1.2). Written without the model's encoders. *)
From Verif Require Import Base SpecWire SpecKeys SpecSig SpecPrivKey KeyType PubKeyType Crypto Signature PrivKey.

(** DER lengths, elements, non-negative integers (X.690 8.1.3, 8.3). *)
Inductive der_length : nat -> bytes -> Prop :=
| DerShort n : n < 128 -> der_length n [n2b (N.of_nat n)]
| DerLong n b : 128 <= n -> magnitude b = N.of_nat n -> shortest b -> length b < 127 ->
    der_length n (n2b (128 + N.of_nat (length b)) :: b).
Definition der_element (tag : byte) (content bs : bytes) : Prop :=
  exists l, der_length (length content) l /\ bs = tag :: l ++ content.
Definition der_nat (n : N) (bs : bytes) : Prop :=
  exists c, c <> [] /\ magnitude c = n /\ (Byte.to_N (hd x00 c) < 128)%N
    /\ (forall x y t, c = x :: y :: t -> x = x00 -> (128 <= Byte.to_N y)%N)
    /\ der_element x02 c bs.

(** RSAPrivateKey: version 0, n, e, d, p, q, d mod (p-1), d mod (q-1), 1/q mod p. *)
Definition rsa_private_der (n e d p q dp dq qi : N) (bs : bytes) : Prop :=
  exists b0 b1 b2 b3 b4 b5 b6 b7 b8,
    der_nat 0 b0 /\ der_nat n b1 /\ der_nat e b2 /\ der_nat d b3 /\ der_nat p b4 /\ der_nat q b5
    /\ der_nat dp b6 /\ der_nat dq b7 /\ der_nat qi b8
    /\ der_element x30 (b0 ++ b1 ++ b2 ++ b3 ++ b4 ++ b5 ++ b6 ++ b7 ++ b8) bs.

(** [der] is an ECDSA signature that the primitive accepts in fixed form. *)
Definition ecdsa_signs (verify : bytes -> bytes -> bytes -> bool) (len : nat) (pub m der : bytes) : Prop :=
  exists r s fr fs, (0 < r)%N /\ (0 < s)%N /\ fixed_bytes len r fr /\ fixed_bytes len s fs
    /\ der_signature (Z.of_N r) (Z.of_N s) der /\ verify pub m (fr ++ fs) = true.

(** The signing primitives answer with signatures that verify. *)
Definition software_signs (C : crypto) (K : keyops) : Prop :=
  (forall seed pub m s, k_ed25519_sign K seed pub m = Some s ->
     field_ok s /\ c_ed25519_verify C pub m s = true)
  /\ (forall key pub m s, k_ecdsa_sign K EcP256 key pub m = Some s -> ecdsa_signs (c_p256_verify C) 32 pub m s)
  /\ (forall key pub m s, k_ecdsa_sign K EcP384 key pub m = Some s -> ecdsa_signs (c_p384_verify C) 48 pub m s)
  /\ (forall n e d p q dp dq qi der m s, rsa_private_der n e d p q dp dq qi der ->
       k_rsa_sign K der m = Some s ->
       field_ok s /\ forall bn be, magnitude bn = n -> magnitude be = e -> c_rsa_verify C RsaSha512 bn be m s = true).

(** What a hardware key signs: application digest, flags, counter, message digest. *)
Definition device_answers (C : crypto) (pub : pubkey) (app digest : bytes) (a : assertion) : Prop :=
  let m := c_sha256 C app ++ [as_flags a] ++ be32 (as_counter a) ++ digest in
  (as_counter a <= u32_max)%N
  /\ match pk_kind pub with
     | PkEd25519 key _ => field_ok (as_signature a) /\ c_ed25519_verify C key m (as_signature a) = true
     | PkEcdsa _ key _ => ecdsa_signs (c_p256_verify C) 32 key m (as_signature a)
     | PkRsa _ _ => False
     end.
(** The device holds the key of the handle: it hashes the challenge (ctap-hid) or is given
    the hash (mozilla). *)
Definition device_signs (C : crypto) (K : keyops) (pub : pubkey) (handle : bytes) : Prop :=
  (forall app challenge pin path a, k_hid K app challenge handle pin path = Some a ->
     device_answers C pub app (c_sha256 C challenge) a)
  /\ (forall app digest pin a, k_moz K app digest handle pin = Ok (Some a) ->
     device_answers C pub app digest a).

(** The type name goes with the key material. *)
Definition name_fits (pk : pubkey) : Prop :=
  match pk_kind pk with
  | PkRsa _ _ => True
  | PkEcdsa c _ None =>
      (c_kind c = Nistp256 /\ kt_name (pk_type pk) = s2b "ecdsa-sha2-nistp256")
      \/ (c_kind c = Nistp384 /\ kt_name (pk_type pk) = s2b "ecdsa-sha2-nistp384")
      \/ c_kind c = Nistp521
  | PkEcdsa _ _ (Some _) => kt_name (pk_type pk) = s2b "sk-ecdsa-sha2-nistp256@openssh.com"
  | PkEd25519 _ None => True
  | PkEd25519 _ (Some _) => kt_name (pk_type pk) = s2b "sk-ssh-ed25519@openssh.com"
  end.

(** A key after any number of set_pin and set_device_path calls. *)
Inductive configured (k : privkey) : privkey -> Prop :=
| CfgSame : configured k k
| CfgPin pin k' : configured k k' -> configured k (set_pin pin k')
| CfgPath path k' : configured k k' -> configured k (set_device_path path k').

(** Specification of SSH signature blobs (RFC 4253 6.6, RFC 5656 3.1.2, RFC 8332,
    RFC 8709, PROTOCOL.u2f) in terms of the cryptographic primitives. *)
From Verif Require Import Base SpecWire SpecKeys KeyType PubKeyType Crypto.

(** RSA signature labels and the digest each one stands for. *)
Inductive rsa_label : bytes -> rsa_alg -> Prop :=
| RL1 : rsa_label (s2b "ssh-rsa") RsaSha1
| RL256 : rsa_label (s2b "rsa-sha2-256") RsaSha256
| RL512 : rsa_label (s2b "rsa-sha2-512") RsaSha512.

(** ECDSA labels, the primitive each one stands for, and the size of its integers. *)
Inductive ecdsa_label (C : crypto) : bytes -> (bytes -> bytes -> bytes -> bool) -> nat -> Prop :=
| EL256 : ecdsa_label C (s2b "ecdsa-sha2-nistp256") (c_p256_verify C) 32
| EL256sk : ecdsa_label C (s2b "sk-ecdsa-sha2-nistp256@openssh.com") (c_p256_verify C) 32
| EL384 : ecdsa_label C (s2b "ecdsa-sha2-nistp384") (c_p384_verify C) 48.

Inductive ed25519_label : bytes -> Prop :=
| DL : ed25519_label (s2b "ssh-ed25519")
| DLsk : ed25519_label (s2b "sk-ssh-ed25519@openssh.com").

(** The message a key signs: the message itself, or for a hardware key the
    application digest, the flags, the counter and the message digest, with flags and
    counter found right after the signature payload. *)
Definition signed_message (C : crypto) (app : option bytes) (msg after m : bytes) : Prop :=
  match app with
  | None => m = msg
  | Some a => exists flags counter tl,
      after = flags :: be32 counter ++ tl /\ (counter <= u32_max)%N
      /\ m = c_sha256 C a ++ [flags] ++ be32 counter ++ c_sha256 C msg
  end.

(** [n] as exactly [len] big-endian bytes. *)
Definition fixed_bytes (len : nat) (n : N) (b : bytes) : Prop := length b = len /\ magnitude b = n.

(** [accepted C k msg blob]: [blob] is a valid signature of [k] over [msg]. *)
Definition accepted (C : crypto) (k : pubkey) (msg blob : bytes) : Prop :=
  exists label payload after st,
    blob = field label ++ field payload ++ after /\ field_ok payload
    /\ kt_from_name label = Ok st /\ kt_k st = kt_k (pk_type k)
    /\ match pk_kind k with
       | PkRsa e n => exists alg, rsa_label label alg /\ c_rsa_verify C alg n e msg payload = true
       | PkEcdsa _ key app => exists verify len r s b1 b2 tl fr fs m,
           ecdsa_label C label verify len
           /\ payload = b1 ++ b2 ++ tl /\ mpint_field r b1 /\ mpint_field s b2
           /\ fixed_bytes len (magnitude r) fr /\ fixed_bytes len (magnitude s) fs
           /\ signed_message C app msg after m
           /\ verify key m (fr ++ fs) = true
       | PkEd25519 key app => exists m,
           ed25519_label label /\ signed_message C app msg after m
           /\ c_ed25519_verify C key m payload = true
       end.

(** A DER INTEGER of the nonnegative number [z] in short form (X.690 8.3). *)
Definition der_integer (z : Z) (b : bytes) : Prop :=
  exists c, b = [x02; n2b (N.of_nat (length c))] ++ c /\ length c < 128 /\ c <> []
    /\ (Z.of_N (magnitude c) = z)%Z
    /\ (Byte.to_N (hd x00 c) < 128)%N
    /\ (forall x y t, c = x :: y :: t -> x = x00 -> (128 <= Byte.to_N y)%N).

(** A DER SEQUENCE of two short-form INTEGERs (the Ecdsa-Sig-Value of RFC 3279). *)
Definition der_signature (r s : Z) (b : bytes) : Prop :=
  exists dr ds, der_integer r dr /\ der_integer s ds
    /\ length (dr ++ ds) < 128 /\ b = [x30; n2b (N.of_nat (length (dr ++ ds)))] ++ dr ++ ds.

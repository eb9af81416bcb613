(** Altering key files that were encrypted with a stream cipher. Written without the model's reader. *)
From Verif Require Import Base SpecWire SpecText SpecKeys KeyType PubKeyType Crypto PrivKey SpecPrivKey.

(** Byte by byte exclusive or; what has no counterpart stays. *)
Definition flip (a b : byte) : byte := n2b (N.lxor (b2n a) (b2n b)).
Fixpoint flipped (s d : bytes) : bytes :=
  match s, d with
  | a :: s, b :: d => flip a b :: flipped s d
  | _, _ => s
  end.
Definition zeros (n : nat) : bytes := repeat x00 n.
(** The first [n] bytes of a key stream. *)
Definition stream (ks : nat -> byte) (n : nat) : bytes := map ks (seq 0 n).

(** With [pass], [salt] and [rounds] the cipher adds the key stream [ks], as AES in counter mode does. *)
Definition streams (K : keyops) (pass salt : bytes) (rounds : N) (ks : nat -> byte) : Prop :=
  exists out, k_bcrypt K pass salt rounds = Some out
    /\ forall s, k_aes_ctr K (firstn 32 out) (skipn 32 out) s = Some (flipped s (stream ks (length s))).
Definition encrypted (ks : nat -> byte) (plain : bytes) : bytes := flipped plain (stream ks (length plain)).
(** A file with an encrypted section. *)
Definition locked_file (salt : bytes) (rounds : N) (more pub section : bytes) : bytes :=
  key_file (s2b "aes256-ctr") (s2b "bcrypt") (field salt ++ be32 rounds ++ more) pub section.

(** What stands between the check integers and the secret: type name and public key. *)
Inductive public_part (pk : pubkey) : bytes -> Prop :=
| PP_rsa e n be bn : pk_kind pk = PkRsa e n -> mpint_field e be -> mpint_field n bn ->
    public_part pk (field (kt_name (pk_type pk)) ++ bn ++ be)
| PP_other b : (forall e n, pk_kind pk <> PkRsa e n) -> key_data (pk_type pk) (pk_kind pk) b ->
    public_part pk (field (kt_name (pk_type pk)) ++ b).

(** [k] with another secret, or with other flags. *)
Definition with_secret (k : privkey) (sec : priv_kind) : privkey :=
  mkPrivKey (sk_type k) sec (sk_pub k) (sk_magic k) (sk_comment k).

(** Specification of file signatures (OpenSSH PROTOCOL.sshsig): the bytes that are signed,
    the signature blob, and its armored text form. Only the data types come from the model. *)
From Verif Require Import Base SpecWire SpecText SpecBase64 SpecKeys KeyType PubKeyType Crypto Signature.

Inductive hash_name : hash_alg -> bytes -> Prop :=
| HN256 : hash_name HSha256 (s2b "sha256")
| HN512 : hash_name HSha512 (s2b "sha512").
Inductive digest_of (C : crypto) (m : bytes) : hash_alg -> bytes -> Prop :=
| DO256 : digest_of C m HSha256 (c_sha256 C m)
| DO512 : digest_of C m HSha512 (c_sha512 C m).
(** Digests are no longer than a string field can hold. *)
Definition digests_fit (C : crypto) : Prop := forall m h d, digest_of C m h d -> field_ok d.

(** What is signed for the message [m] in the namespace [ns]. *)
Definition payload (C : crypto) (ns : bytes) (h : hash_alg) (m p : bytes) : Prop :=
  exists n d, hash_name h n /\ digest_of C m h d
    /\ p = s2b "SSHSIG" ++ field ns ++ field [] ++ field n ++ field d.

(** [bs] is the blob of the signature [s]. The reserved field is free text; the key field
    may hold further bytes behind the key. *)
Definition sshsig_data (s : sshsig) (bs : bytes) : Prop :=
  exists kd post reserved n,
    kt_from_name (kt_name (pk_type (ss_pubkey s))) = Ok (pk_type (ss_pubkey s))
    /\ pk_comment (ss_pubkey s) = None
    /\ key_data (pk_type (ss_pubkey s)) (pk_kind (ss_pubkey s)) kd
    /\ field_ok (field (kt_name (pk_type (ss_pubkey s))) ++ kd ++ post)
    /\ utf8_text (ss_namespace s) /\ field_ok (ss_namespace s) /\ ss_namespace s <> []
    /\ utf8_text reserved /\ field_ok reserved
    /\ hash_name (ss_hash s) n /\ field_ok (ss_signature s)
    /\ bs = s2b "SSHSIG" ++ be32 1
         ++ field (field (kt_name (pk_type (ss_pubkey s))) ++ kd ++ post)
         ++ field (ss_namespace s) ++ field reserved ++ field n ++ field (ss_signature s).

Definition begin_line : bytes := s2b "-----BEGIN SSH SIGNATURE-----".
Definition end_line : bytes := s2b "-----END SSH SIGNATURE-----".

(** [text] is an armored form of [data]: the BEGIN line first, then the lines of the
    base64 text up to the first END line; the rest is free. The final '=' may be missing. *)
Definition armored_text (data text : bytes) : Prop :=
  exists body rest k,
    lines_of text (begin_line :: body ++ end_line :: rest) /\ ~ In end_line body
    /\ base64_text data (concat body ++ repeat x3d k).

(** [text] is an armored form of the signature [s]; bytes behind the blob are free. *)
Definition armored (s : sshsig) (text : bytes) : Prop :=
  exists bs tl, sshsig_data s bs /\ armored_text (bs ++ tl) text.

(** Lines of at most [n] characters, all but the last of exactly [n]. *)
Inductive filled (n : nat) : list bytes -> Prop :=
| F_last l : l <> [] -> length l <= n -> filled n [l]
| F_cons l ls : length l = n -> filled n ls -> filled n (l :: ls).

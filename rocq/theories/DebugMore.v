(** The derived [Debug] output ([{:?}]) of certificates, allowed-signers entries and files, and
    signatures of messages. That of keys is in Debug.v. Definitions only. *)
From Verif Require Import Base Str KeyType PubKeyType Cert AllowedSigner Signature Debug.

(** [Debug for Vec] of other things than bytes (not in /repo) *)
Definition dbg_list {A} (f : A -> bytes) (l : list A) : bytes := s2b "[" ++ join (s2b ", ") (map f l) ++ s2b "]".
(** [Debug for HashMap] (not in /repo): the entries in the order of iteration *)
Definition dbg_map (p : N -> bool) (m : hashmap) : bytes :=
  s2b "{" ++ join (s2b ", ") (map (fun e => dbg_str p (fst e) ++ s2b ": " ++ dbg_str p (snd e)) m) ++ s2b "}".

(** cert.rs 15-22 *)
Definition dbg_cert_type (t : cert_type) : bytes := match t with User => s2b "User" | Host => s2b "Host" end.
(** cert.rs 60-109. [io] and [ie] are the orders in which the two maps are iterated over: every map
    of the standard library has its own. *)
Definition dbg_cert (p : N -> bool) (io ie : hashmap -> hashmap) (c : cert) : bytes :=
  dbg_struct (s2b "Certificate")
    [(s2b "key_type", dbg_key_type p (ct_key_type c)); (s2b "nonce", dbg_vec (ct_nonce c));
     (s2b "key", dbg_pubkey p (ct_key c)); (s2b "serial", decimal (ct_serial c));
     (s2b "cert_type", dbg_cert_type (ct_cert_type c)); (s2b "key_id", dbg_str p (ct_key_id c));
     (s2b "principals", dbg_list (dbg_str p) (ct_principals c)); (s2b "valid_after", decimal (ct_valid_after c));
     (s2b "valid_before", decimal (ct_valid_before c)); (s2b "critical_options", dbg_map p (io (ct_critical_options c)));
     (s2b "extensions", dbg_map p (ie (ct_extensions c))); (s2b "reserved", dbg_vec (ct_reserved c));
     (s2b "signature_key", dbg_pubkey p (ct_signature_key c)); (s2b "signature", dbg_vec (ct_signature c));
     (s2b "comment", dbg_option (dbg_str p) (ct_comment c)); (s2b "serialized", dbg_vec (ct_serialized c))].

(** allowed_signer.rs 57-76 *)
Definition dbg_signer (p : N -> bool) (a : allowed_signer) : bytes :=
  dbg_struct (s2b "AllowedSigner")
    [(s2b "principals", dbg_list (dbg_str p) (as_principals a)); (s2b "cert_authority", dbg_bool (as_cert_authority a));
     (s2b "namespaces", dbg_option (dbg_list (dbg_str p)) (as_namespaces a));
     (s2b "valid_after", dbg_option display_z (as_valid_after a)); (s2b "valid_before", dbg_option display_z (as_valid_before a));
     (s2b "key", dbg_pubkey p (as_key a))].
(** allowed_signer.rs 81-82 *)
Definition dbg_signers (p : N -> bool) (l : list allowed_signer) : bytes :=
  dbg_tuple (s2b "AllowedSigners") (dbg_list (dbg_signer p) l).

(** signature.rs 15-21 *)
Definition dbg_hash (h : hash_alg) : bytes := match h with HSha256 => s2b "Sha256" | HSha512 => s2b "Sha512" end.
(** signature.rs 35-45 *)
Definition dbg_sshsig (p : N -> bool) (g : sshsig) : bytes :=
  dbg_struct (s2b "SshSignature")
    [(s2b "pubkey", dbg_pubkey p (ss_pubkey g)); (s2b "namespace", dbg_str p (ss_namespace g));
     (s2b "hash_algorithm", dbg_hash (ss_hash g)); (s2b "signature", dbg_vec (ss_signature g))].
(** signature.rs 77-83 *)
Definition dbg_verified (p : N -> bool) (v : verified) : bytes :=
  dbg_struct (s2b "VerifiedSshSignature")
    [(s2b "signature", dbg_sshsig p (vs_signature v)); (s2b "message", dbg_vec (vs_message v))].

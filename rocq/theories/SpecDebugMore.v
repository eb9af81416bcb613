(** Specification for the derived debugging output of certificates, allowed-signers entries and
    signatures: the texts, rule by rule. Only the data types come from the model. *)
From Coq Require Import Permutation.
From Verif Require Import Base SpecWire SpecSigner KeyType PubKeyType Cert AllowedSigner Signature SpecDebug.

(** All texts in these values are Unicode texts, as Rust's type of strings promises. *)
Definition pair_texts (m : list (bytes * bytes)) : Prop := Forall (fun e => utf8_text (fst e) /\ utf8_text (snd e)) m.
Definition cert_texts (c : cert) : Prop :=
  type_texts (ct_key_type c) /\ pub_texts (ct_key c) /\ utf8_text (ct_key_id c) /\ Forall utf8_text (ct_principals c)
  /\ pair_texts (ct_critical_options c) /\ pair_texts (ct_extensions c) /\ pub_texts (ct_signature_key c) /\ text_option (ct_comment c).
Definition entry_texts (a : allowed_signer) : Prop :=
  Forall utf8_text (as_principals a) /\ (forall l, as_namespaces a = Some l -> Forall utf8_text l) /\ pub_texts (as_key a).
Definition signature_texts (g : sshsig) : Prop := pub_texts (ss_pubkey g) /\ utf8_text (ss_namespace g).

(** Texts with ", " between them. *)
Fixpoint separated (l : list bytes) : bytes :=
  match l with [] => [] | x :: l' => match l' with [] => x | _ :: _ => x ++ s2b ", " ++ separated l' end end.
(** A list of things, each shown by the rule [R], in order. *)
Definition in_list {A} (R : A -> bytes -> Prop) (l : list A) (t : bytes) : Prop :=
  exists ts, Forall2 R l ts /\ t = s2b "[" ++ separated ts ++ s2b "]".
Definition optional {A} (R : A -> bytes -> Prop) (o : option A) (t : bytes) : Prop :=
  match o with Some a => exists u, R a u /\ t = s2b "Some(" ++ u ++ s2b ")" | None => t = s2b "None" end.
(** A map: all of its entries, in some order. *)
Definition pair_text (printable : N -> bool) (e : bytes * bytes) (t : bytes) : Prop :=
  exists k v, quoted printable (fst e) k /\ quoted printable (snd e) v /\ t = k ++ s2b ": " ++ v.
Definition map_text (printable : N -> bool) (m : list (bytes * bytes)) (t : bytes) : Prop :=
  exists o ts, Permutation o m /\ Forall2 (pair_text printable) o ts /\ t = s2b "{" ++ separated ts ++ s2b "}".

Definition cert_type_text (k : cert_type) (t : bytes) : Prop :=
  match k with User => t = s2b "User" | Host => t = s2b "Host" end.
Definition cert_text (printable : N -> bool) (c : cert) (t : bytes) : Prop :=
  exists kt nonce key serial ty id names after before co ex reserved ca sig comment all,
    type_text printable (ct_key_type c) kt /\ listed (ct_nonce c) nonce /\ pub_text printable (ct_key c) key
    /\ decimal_text (Z.of_N (ct_serial c)) serial /\ cert_type_text (ct_cert_type c) ty /\ quoted printable (ct_key_id c) id
    /\ in_list (quoted printable) (ct_principals c) names /\ decimal_text (Z.of_N (ct_valid_after c)) after
    /\ decimal_text (Z.of_N (ct_valid_before c)) before /\ map_text printable (ct_critical_options c) co
    /\ map_text printable (ct_extensions c) ex /\ listed (ct_reserved c) reserved /\ pub_text printable (ct_signature_key c) ca
    /\ listed (ct_signature c) sig /\ maybe (quoted printable) (ct_comment c) comment /\ listed (ct_serialized c) all
    /\ t = s2b "Certificate { key_type: " ++ kt ++ s2b ", nonce: " ++ nonce ++ s2b ", key: " ++ key ++ s2b ", serial: " ++ serial
           ++ s2b ", cert_type: " ++ ty ++ s2b ", key_id: " ++ id ++ s2b ", principals: " ++ names ++ s2b ", valid_after: " ++ after
           ++ s2b ", valid_before: " ++ before ++ s2b ", critical_options: " ++ co ++ s2b ", extensions: " ++ ex
           ++ s2b ", reserved: " ++ reserved ++ s2b ", signature_key: " ++ ca ++ s2b ", signature: " ++ sig
           ++ s2b ", comment: " ++ comment ++ s2b ", serialized: " ++ all ++ s2b " }".
Definition entry_text (printable : N -> bool) (a : allowed_signer) (t : bytes) : Prop :=
  exists names ca ns after before key,
    in_list (quoted printable) (as_principals a) names /\ truth (as_cert_authority a) ca
    /\ optional (in_list (quoted printable)) (as_namespaces a) ns /\ optional decimal_text (as_valid_after a) after
    /\ optional decimal_text (as_valid_before a) before /\ pub_text printable (as_key a) key
    /\ t = s2b "AllowedSigner { principals: " ++ names ++ s2b ", cert_authority: " ++ ca ++ s2b ", namespaces: " ++ ns
           ++ s2b ", valid_after: " ++ after ++ s2b ", valid_before: " ++ before ++ s2b ", key: " ++ key ++ s2b " }".
Definition entries_text (printable : N -> bool) (l : list allowed_signer) (t : bytes) : Prop :=
  exists u, in_list (entry_text printable) l u /\ t = s2b "AllowedSigners(" ++ u ++ s2b ")".
Definition hash_text (h : hash_alg) (t : bytes) : Prop :=
  match h with HSha256 => t = s2b "Sha256" | HSha512 => t = s2b "Sha512" end.
Definition signature_text (printable : N -> bool) (g : sshsig) (t : bytes) : Prop :=
  exists key ns h sig, pub_text printable (ss_pubkey g) key /\ quoted printable (ss_namespace g) ns
    /\ hash_text (ss_hash g) h /\ listed (ss_signature g) sig
    /\ t = s2b "SshSignature { pubkey: " ++ key ++ s2b ", namespace: " ++ ns ++ s2b ", hash_algorithm: " ++ h
           ++ s2b ", signature: " ++ sig ++ s2b " }".
Definition verified_text (printable : N -> bool) (v : verified) (t : bytes) : Prop :=
  exists sig msg, signature_text printable (vs_signature v) sig /\ listed (vs_message v) msg
    /\ t = s2b "VerifiedSshSignature { signature: " ++ sig ++ s2b ", message: " ++ msg ++ s2b " }".

(** Specification of the listing of a certificate, as lines. *)
From Coq Require Export Permutation.
From Verif Require Import Base SpecKeys SpecBase64 SpecText SpecSigner Crypto KeyType PubKeyType PubKey Cert.

(** Lines, each ended by a newline. *)
Definition ended_lines (ls : list bytes) : bytes := concat (map (fun l => l ++ [x0a]) ls).

(** The fingerprint of a key: SHA-256 of its encoding, in base64 without padding. *)
Definition key_digest (C : crypto) (k : pubkey) (h : bytes) : Prop :=
  exists e pad, pk_encode k = Ok e /\ base64_text (c_sha256 C e) (h ++ repeat x3d pad) /\ ~ In x3d h.

(** A list of things: one line each behind a tab, or a remark that there are none. *)
Definition listed_items (title : bytes) (items : list bytes) (ls : list bytes) : Prop :=
  (items = [] /\ ls = [title]) \/ (items <> [] /\ ls = title :: map (cons x09) items).

(** The line about the validity period. *)
Definition validity_line (after before : N) (l : bytes) : Prop :=
  (after = 0%N /\ before = (2 ^ 64 - 1)%N /\ l = s2b "Valid: forever")
  \/ (~ (after = 0%N /\ before = (2 ^ 64 - 1)%N)
      /\ exists a b, decimal_text (Z.of_N after) a /\ decimal_text (Z.of_N before) b
           /\ l = s2b "Valid between: " ++ a ++ s2b " and " ++ b).

Definition type_text (t : cert_type) : bytes :=
  match t with User => s2b "user certificate" | Host => s2b "host certificate" end.

(** The lines of the listing. The options and extensions come in any order. *)
Definition listing (C : crypto) (c : cert) (ls : list bytes) : Prop :=
  exists key ca serial valid principals co options ex extensions,
    key_digest C (ct_key c) key /\ key_digest C (ct_signature_key c) ca
    /\ decimal_text (Z.of_N (ct_serial c)) serial
    /\ validity_line (ct_valid_after c) (ct_valid_before c) valid
    /\ listed_items (match ct_principals c with [] => s2b "Principals: (none)" | _ => s2b "Principals" end)
         (ct_principals c) principals
    /\ Permutation co (ct_critical_options c)
    /\ listed_items (match co with [] => s2b "Critical Options: (none)" | _ => s2b "Critical Options:" end)
         (map (fun e => fst e ++ x20 :: snd e) co) options
    /\ Permutation ex (ct_extensions c)
    /\ listed_items (match ex with [] => s2b "Extensions: (none)" | _ => s2b "Extensions:" end)
         (map fst ex) extensions
    /\ ls = [ s2b "Type: " ++ kt_name (ct_key_type c) ++ x20 :: type_text (ct_cert_type c);
              s2b "Public Key: " ++ kt_short_name (ct_key_type c) ++ s2b " SHA256:" ++ key;
              s2b "Signing CA: " ++ kt_short_name (pk_type (ct_signature_key c)) ++ s2b " SHA256:" ++ ca
                ++ s2b " (using " ++ kt_name (pk_type (ct_signature_key c)) ++ s2b ")";
              s2b "Key ID: " ++ x22 :: ct_key_id c ++ [x22];
              s2b "Serial: " ++ serial; valid ] ++ principals ++ options ++ extensions.

(** No text of the certificate breaks out of its line, and option names have no space. *)
Definition one_line_texts (c : cert) : Prop :=
  no_nl (ct_key_id c) /\ Forall no_nl (ct_principals c)
  /\ Forall (fun e => no_nl (fst e) /\ ~ In x20 (fst e) /\ no_nl (snd e)) (ct_critical_options c)
  /\ Forall (fun e => no_nl (fst e)) (ct_extensions c).

(** What the listing of a certificate tells about it. *)
Definition same_facts (C : crypto) (a b : cert) : Prop :=
  ct_key_type a = ct_key_type b /\ ct_cert_type a = ct_cert_type b
  /\ (exists h, key_digest C (ct_key a) h /\ key_digest C (ct_key b) h)
  /\ pk_type (ct_signature_key a) = pk_type (ct_signature_key b)
  /\ (exists h, key_digest C (ct_signature_key a) h /\ key_digest C (ct_signature_key b) h)
  /\ ct_key_id a = ct_key_id b /\ ct_serial a = ct_serial b
  /\ ct_valid_after a = ct_valid_after b /\ ct_valid_before a = ct_valid_before b
  /\ ct_principals a = ct_principals b
  /\ Permutation (ct_critical_options a) (ct_critical_options b)
  /\ Permutation (map fst (ct_extensions a)) (map fst (ct_extensions b)).

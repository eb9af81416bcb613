(** Specification of the errors that reading functions give: which errors there are for each
    kind of input. Only the data types come from the model. *)
From Verif Require Import Base SpecWire SpecText SpecNames PubKeyType.

(** A name as it stands in a length-prefixed field. *)
Definition field_text (n : bytes) : Prop := utf8_text n /\ field_ok n.
Definition curve_names : list bytes := map s2b ["nistp256"; "nistp384"; "nistp521"]%string.
(** The certificate types of software keys. *)
Definition software_certs : list bytes := map s2b
  [ "ssh-rsa-cert-v01@openssh.com"; "ecdsa-sha2-nistp256-cert-v01@openssh.com";
    "ecdsa-sha2-nistp384-cert-v01@openssh.com"; "ecdsa-sha2-nistp521-cert-v01@openssh.com";
    "ssh-ed25519-cert-v01@openssh.com" ]%string.

(** Data that ends early or does not have the expected form. *)
Inductive broken : error -> Prop :=
| B_end : broken EUnexpectedEof
| B_format : broken EInvalidFormat
| B_text : broken EUtf8.
Inductive bad_curve : error -> Prop :=
| BC n : field_text n -> ~ In n curve_names -> bad_curve (EUnknownCurve n).
(** The type named in the error is none of the supported ones. *)
Inductive bad_type : error -> Prop :=
| BT n : field_text n -> ~ In n supported_names -> bad_type (EUnknownKeyType n).
Inductive bad_type_word : error -> Prop :=
| BW n : word n -> ~ In n supported_names -> bad_type_word (EUnknownKeyType n).

(** ** One set for each function *)
Definition key_blob_error (e : error) : Prop := broken e \/ bad_curve e \/ bad_type e.
Definition key_text_error (e : error) : Prop :=
  broken e \/ bad_curve e \/ bad_type_word e \/ e = EDecode \/ e = EKeyTypeMismatch.
Definition cert_blob_error (e : error) : Prop :=
  key_blob_error e \/ e = ENotCertificate \/ e = EKeyTypeMismatch \/ e = EInvalidSignature
  \/ exists n, (n < 2 ^ 32)%N /\ n <> 1%N /\ n <> 2%N /\ e = EInvalidCertType n.
Definition cert_text_error (e : error) : Prop :=
  cert_blob_error e \/ bad_type_word e \/ e = EDecode.
Definition private_error (encrypted : bool) (e : error) : Prop :=
  key_blob_error e \/ e = EDecode \/ (exists n, In n software_certs /\ e = EUnknownKeyType n)
  \/ e = EEncryptedPrivateKeyNotSupported \/ (encrypted = true /\ e = EEncryptedPrivateKey).
Definition signature_error (e : error) : Prop :=
  key_blob_error e \/ e = EDecode \/ e = EUnsupported.

(** Entries of allowed signers; in a file, lines without any word are not entries. *)
Inductive entry_error : signer_error -> Prop :=
| EE_quotes : entry_error ASInvalidQuotes
| EE_principals : entry_error ASInvalidPrincipals
| EE_no_key : entry_error ASMissingKey
| EE_duplicate n : In n (map s2b ["namespaces"; "valid-after"; "valid-before"]%string) ->
    entry_error (ASDuplicateOptions n)
| EE_option n : In n (map s2b ["valid-after"; "valid-before"]%string) -> entry_error (ASInvalidOption n)
| EE_key : entry_error ASInvalidKey
| EE_order : entry_error ASInvalidTimestamps
| EE_more : entry_error ASUnexpectedEnd.

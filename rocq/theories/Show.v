(** What is printed for people: the listing of a certificate, the summary of a private key, and
    the messages of errors. Definitions only. *)
From Verif Require Import Base Str Crypto KeyType PubKeyType PubKey Cert PrivKey AllowedSigner.

(** cert.rs 37-44 [Display for CertType] *)
Definition cert_type_display (t : cert_type) : bytes :=
  match t with User => s2b "user certificate" | Host => s2b "host certificate" end.

(** The largest [u64], cert.rs 553. *)
Definition forever : N := 18446744073709551615.

(** cert.rs 536-591 [Display for Certificate], alternate form. [iter] is the iteration order of the
    maps. *)
Definition cert_listing (C : crypto) (iter : hashmap -> hashmap) (c : cert) : res bytes :=
  let pretty := s2b "Type: " ++ kt_name (ct_key_type c) ++ [space] ++ cert_type_display (ct_cert_type c)
                ++ [newline] in
  do? f <- pk_fingerprint C (ct_key c);
  let pretty := pretty ++ s2b "Public Key: " ++ kt_short_name (ct_key_type c) ++ [space]
                ++ fp_kind_name (fp_k f) ++ s2b ":" ++ fp_hash f ++ [newline] in
  do? g <- pk_fingerprint C (ct_signature_key c);
  let pretty := pretty ++ s2b "Signing CA: " ++ kt_short_name (pk_type (ct_signature_key c)) ++ [space]
                ++ fp_kind_name (fp_k g) ++ s2b ":" ++ fp_hash g ++ s2b " (using "
                ++ kt_name (pk_type (ct_signature_key c)) ++ s2b ")" ++ [newline] in
  let pretty := pretty ++ s2b "Key ID: " ++ [quote] ++ ct_key_id c ++ [quote] ++ [newline] in
  let pretty := pretty ++ s2b "Serial: " ++ decimal (ct_serial c) ++ [newline] in
  let pretty :=
    if (ct_valid_before c =? forever)%N && (ct_valid_after c =? 0)%N
    then pretty ++ s2b "Valid: forever" ++ [newline]
    else pretty ++ s2b "Valid between: " ++ decimal (ct_valid_after c) ++ s2b " and "
         ++ decimal (ct_valid_before c) ++ [newline] in
  let pretty :=
    match ct_principals c with
    | [] => pretty ++ s2b "Principals: (none)" ++ [newline]
    | ps => fold_left (fun t p => t ++ [x09] ++ p ++ [newline]) ps (pretty ++ s2b "Principals" ++ [newline])
    end in
  let pretty :=
    match ct_critical_options c with
    | [] => pretty ++ s2b "Critical Options: (none)" ++ [newline]
    | m => fold_left (fun t e => t ++ [x09] ++ fst e ++ [space] ++ snd e ++ [newline]) (iter m)
             (pretty ++ s2b "Critical Options:" ++ [newline])
    end in
  let pretty :=
    match ct_extensions c with
    | [] => pretty ++ s2b "Extensions: (none)" ++ [newline]
    | m => fold_left (fun t e => t ++ [x09] ++ fst e ++ [newline]) (iter m)
             (pretty ++ s2b "Extensions:" ++ [newline])
    end in
  Ok pretty.

(** privkey.rs 731-735 [Display for PrivateKey] *)
Definition privkey_display (C : crypto) (k : privkey) : res bytes :=
  do? f <- pk_fingerprint C (sk_pub k);
  Ok (fp_display f ++ [space] ++ sk_comment k).

(** allowed_signer.rs 37-52 [Display for AllowedSignerParsingError] *)
Definition signer_error_display (e : signer_error) : bytes :=
  match e with
  | ASInvalidQuotes => s2b "error parsing quotes"
  | ASMissingPrincipals => s2b "missing principals"
  | ASInvalidPrincipals => s2b "invalid principals"
  | ASMissingKey => s2b "missing public key data"
  | ASDuplicateOptions v => s2b "option " ++ v ++ s2b " specified more than once"
  | ASInvalidOption v => s2b "invalid option " ++ v
  | ASInvalidKey => s2b "invalid public key"
  | ASInvalidTimestamp => s2b "invalid timestamp"
  | ASInvalidTimestamps => s2b "conflicting valid-before and valid-after options"
  | ASUnexpectedEnd => s2b "unexpected data at the end"
  end.

(** fido/mod.rs 22-40 [Display for Error]. [foreign] is the text of another crate's error, which
    [fido_error] drops. *)
Definition fido_error_display (foreign : bytes) (e : fido_error) : bytes :=
  s2b "s" ++
  match e with
  | FInvalidPin (Some n) => s2b "Invalid pin: " ++ decimal n ++ s2b " attempts remaining"
  | FInvalidPin None => s2b "Invalid pin"
  | FPinRequired => s2b "Pin required for operation"
  | FKeyLocked => s2b "Key locked"
  | FKeyBlocked => s2b "Key blocked"
  | FCborFormat t => t
  | FUnknown => foreign
  end.

(** yubikey/piv/mod.rs 63-82 [Display for Error], with [foreign] as above. *)
Definition piv_error_display (foreign : bytes) (e : piv_error) : bytes :=
  match e with
  | PUnprovisioned => s2b "Slot is unprovisioned for signing"
  | PWrongKeyType => s2b "Wrong key type was provided for requested signing operation"
  | PUnsupported => s2b "This key is not supported the way you tried to use it"
  | PInvalidManagementKey => s2b "Could not use the management key as provided"
  | PParsingError => s2b "Could not parse data"
  | PNoSuchYubikey => s2b "Could not find the requested Yubikey"
  | PInternal => s2b "Yubikey error: " ++ foreign
  end.

(** error.rs 54-81 [Display for Error], with [foreign] as above. *)
Definition error_display (foreign : bytes) (e : error) : bytes :=
  match e with
  | EIo | EDecode | EUtf8 => foreign
  | EInvalidFormat => s2b "Invalid format"
  | EInvalidCertType v => s2b "Invalid certificate type with value " ++ decimal v
  | EUnexpectedEof => s2b "Unexpected EOF reached while reading data"
  | ENotCertificate => s2b "Not a certificate"
  | EKeyTypeMismatch => s2b "Key type mismatch"
  | EInvalidSignature => s2b "Data is improperly signed"
  | EInvalidAllowedSigner v => s2b "Invalid allowed signer format: " ++ signer_error_display v
  | EInvalidAllowedSigners v line =>
      s2b "Invalid allowed signer format on line " ++ decimal (N.of_nat line) ++ s2b ": "
      ++ signer_error_display v
  | ESigningError => s2b "Could not sign data"
  | EEncryptedPrivateKey => s2b "Encountered encrypted private key with no decryption key"
  | EEncryptedPrivateKeyNotSupported =>
      s2b "This method of private key encryption is not supported or sshcerts was not compiled with encrypted private key support"
  | EUnknownKeyType v => s2b "Unknown key type " ++ v
  | EUnknownCurve v => s2b "Unknown curve " ++ v
  | EParsingError => s2b "Could not parse the data provided"
  | EYubikeyPIVError e => piv_error_display foreign e
  | EFidoError e => fido_error_display foreign e
  | EUnsupported => s2b "Functionality either not implemented or cannot be technically supported"
  end.

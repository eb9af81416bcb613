(** src/x509/mod.rs, src/fido/verification.rs, src/yubikey/verification.rs. Definitions only.
    The parsers of the crates x509-parser and der-parser and their signature check are a
    record of functions: nothing is assumed about them. *)
From Verif Require Import Base KeyType PubKeyType AllowedSigner Fido.

(** x509-parser [SubjectPublicKeyInfo]: the text of the algorithm's OID, its parameters (if
    any; [Some None]: not an OID) and the bits of the key. *)
Record spki := mkSpki {
  sp_algorithm : bytes;
  sp_parameters : option (option bytes);
  sp_key : bytes
}.
(** x509-parser [X509Certificate]: its DER form, its key and its extensions (the text of the
    OID, the value). *)
Record xcert := mkXcert {
  xc_der : bytes;
  xc_spki : spki;
  xc_extensions : list (bytes * bytes)
}.
(** der-parser [BerObject], as far as it is looked at. *)
Inductive der :=
| DSeq (l : list der)
| DOid (text : bytes)
| DBits (data : bytes)
| DOther.
Record x509 := mkX509 {
  (* parse_x509_pem *)
  x_pem : bytes -> option bytes;
  (* Pem::parse_x509 *)
  x_pem_cert : bytes -> option xcert;
  (* parse_x509_certificate, X509Certificate::from_der *)
  x_cert : bytes -> option xcert;
  (* X509CertificationRequest::from_der, .certification_request_info.subject_pki *)
  x_csr : bytes -> option spki;
  (* X509Certificate::verify_signature with a key *)
  x_signed : xcert -> spki -> bool;
  (* parse_der_sequence *)
  x_sequence : bytes -> option der;
  (* parse_der_octetstring, parse_ber_bitstring, parse_der_integer: the content, [Some None]
     if it is of another kind *)
  x_octets : bytes -> option (option bytes);
  x_bits : bytes -> option (option bytes);
  x_integer : bytes -> option (option bytes);
  (* ring ECDSA_P256_SHA256_ASN1: key, message, signature *)
  x_p256_asn1 : bytes -> bytes -> bytes -> bool
}.

(** ** src/x509/mod.rs *)
(** mod.rs 9-12 *)
Definition OID_RSA_ENCRYPTION : bytes := s2b "1.2.840.113549.1.1.1".
Definition OID_EC_PUBLIC_KEY : bytes := s2b "1.2.840.10045.2.1".
Definition OID_NIST_P256 : bytes := s2b "1.2.840.10045.3.1.7".
Definition OID_NIST_P384 : bytes := s2b "1.3.132.0.34".

(** [KeyType::from_name(name).unwrap()] and [Curve::from_identifier(id).unwrap()] *)
Definition unwrap_res {A} (r : res A) : res A := match r with Ok a => Ok a | _ => Panic end.
(** mod.rs 49-73 and 115-148: the key for a curve. *)
Definition ecdsa_key (oid data : bytes) : res pubkey :=
  if bytes_eqb oid OID_NIST_P256 then
    do? kt <- unwrap_res (kt_from_name (s2b "ecdsa-sha2-nistp256"));
    do? c <- unwrap_res (curve_from_identifier (s2b "nistp256"));
    Ok (mkPubKey kt (PkEcdsa c data None) None)
  else if bytes_eqb oid OID_NIST_P384 then
    do? kt <- unwrap_res (kt_from_name (s2b "ecdsa-sha2-nistp384"));
    do? c <- unwrap_res (curve_from_identifier (s2b "nistp384"));
    Ok (mkPubKey kt (PkEcdsa c data None) None)
  else Err EKeyTypeMismatch.
(** [as_sequence], [as_oid], [as_bitstring]; mod.rs 14-24: their errors are ParsingError. *)
Definition as_sequence (d : der) : res (list der) := match d with DSeq l => Ok l | _ => Err EParsingError end.
Definition as_oid (d : der) : res bytes := match d with DOid t => Ok t | _ => Err EParsingError end.
Definition as_bitstring (d : der) : res bytes := match d with DBits b => Ok b | _ => Err EParsingError end.
(** [v[i]] *)
Definition nth_der (l : list der) (i : nat) : res der := match nth_error l i with Some d => Ok d | None => Panic end.

(** mod.rs 29-74 [der_encoding_to_ssh_public_key] *)
Definition der_to_ssh_key (X : x509) (key : bytes) : res pubkey :=
  do? parsed <- ok_or (x_sequence X key) EParsingError;
  do? parsed <- as_sequence parsed;
  if negb (length parsed =? 2) then Err EParsingError
  else
    do? d <- nth_der parsed 0;
    do? oids <- as_sequence d;
    if negb (length oids =? 2) then Err EParsingError
    else
      do? d <- nth_der oids 0;
      do? type_oid <- as_oid d;
      do? d <- nth_der oids 1;
      do? key_size_oid <- as_oid d;
      if negb (bytes_eqb type_oid OID_EC_PUBLIC_KEY) then Err EParsingError
      else
        do? d <- nth_der parsed 1;
        do? data <- as_bitstring d;
        ecdsa_key key_size_oid data.

(** mod.rs 99-152 [convert_x509_pki_to_pubkey] *)
Definition convert_pki (pki : spki) : res pubkey :=
  if bytes_eqb (sp_algorithm pki) OID_RSA_ENCRYPTION then Err EUnsupported
  else if bytes_eqb (sp_algorithm pki) OID_EC_PUBLIC_KEY then
    do? params <- ok_or (sp_parameters pki) EParsingError;
    do? curve_oid <- ok_or params EParsingError;
    ecdsa_key curve_oid (sp_key pki)
  else Err EParsingError.
(** mod.rs 78-85 [extract_ssh_pubkey_from_x509_certificate], 89-97
    [extract_ssh_pubkey_from_x509_csr] *)
Definition x509_cert_key (X : x509) (cert : bytes) : res pubkey :=
  do? c <- ok_or (x_cert X cert) EParsingError; convert_pki (xc_spki c).
Definition x509_csr_key (X : x509) (csr : bytes) : res pubkey :=
  do? pki <- ok_or (x_csr X csr) EParsingError; convert_pki pki.

(** ** src/fido/verification.rs *)
(** verification.rs 35-46 [Transport] *)
Inductive transport := Bluetooth | BluetoothLE | USB | NFC | USBInternal.
(** verification.rs 48-61 [TryFrom<usize>] *)
Definition transport_try_from (v : nat) : option transport :=
  match v with
  | 0 => Some Bluetooth
  | 1 => Some BluetoothLE
  | 2 => Some USB
  | 3 => Some NFC
  | 4 => Some USBInternal
  | _ => None
  end.
(** verification.rs 65-74 [ValidAttestation] *)
Record valid_attestation := mkValid {
  va_auth : auth_data;
  va_firmware : option bytes;
  va_aaguid : option bytes;
  va_transports : option (list transport)
}.
(** der-parser [BitStringObject::is_set] *)
Definition is_set (data : bytes) (n : nat) : bool :=
  match nth_error data (n / 8) with
  | Some b => N.testbit (b2n b) (N.of_nat (7 - n mod 8))
  | None => false
  end.
(** verification.rs 116-124: the loop over [0..4]. *)
Definition transports_of (bs : bytes) : list transport :=
  flat_map (fun t => if is_set bs t then match transport_try_from t with Some x => [x] | None => [] end else [])
    (seq 0 4).
(** [format!("{}.{}.{}", s[0], s[1], s[2])] *)
Definition dotted (s : bytes) : res bytes :=
  do? a <- index s 0; do? b <- index s 1; do? c <- index s 2;
  Ok (display_z (Z.of_N (b2n a)) ++ s2b "." ++ display_z (Z.of_N (b2n b)) ++ s2b "." ++ display_z (Z.of_N (b2n c))).

(** verification.rs 88-130: one extension. *)
Definition fido_extension (X : x509) (v : valid_attestation) (ext : bytes * bytes) : res valid_attestation :=
  let (oid, value) := ext in
  if bytes_eqb oid (s2b "1.3.6.1.4.1.41482.13.1") then
    do? content <- ok_or (x_octets X value) EParsingError;
    match content with
    | Some s =>
        if negb (length s =? 3) then Ok v
        else do? f <- dotted s; Ok (mkValid (va_auth v) (Some f) (va_aaguid v) (va_transports v))
    | None => Ok v
    end
  else if bytes_eqb oid (s2b "1.3.6.1.4.1.45724.1.1.4") then
    do? content <- ok_or (x_octets X value) EParsingError;
    match content with
    | Some s =>
        if negb (length s =? 16) then Ok v
        else Ok (mkValid (va_auth v) (va_firmware v) (Some s) (va_transports v))
    | None => Ok v
    end
  else if bytes_eqb oid (s2b "1.3.6.1.4.1.45724.2.1.1") then
    do? content <- ok_or (x_bits X value) EParsingError;
    match content with
    | Some bs => Ok (mkValid (va_auth v) (va_firmware v) (va_aaguid v) (Some (transports_of bs)))
    | None => Ok v
    end
  else Ok v.
Fixpoint fido_extensions (X : x509) (l : list (bytes * bytes)) (v : valid_attestation) : res valid_attestation :=
  match l with
  | [] => Ok v
  | ext :: l' => do? v' <- fido_extension X v ext; fido_extensions X l' v'
  end.
(** verification.rs 76-133 [extract_certificate_extension_data] *)
Definition fido_extract (X : x509) (a : auth_data) (c : xcert) : res valid_attestation :=
  fido_extensions X (xc_extensions c) (mkValid a None None None).

(** verification.rs 137-188 [verify_auth_data]; [default] is YUBICO_U2F_ROOT_CA (13-31). *)
Definition verify_auth_data (X : x509) (default : bytes) (auth sig challenge : bytes) (alg : Z)
  (intermediate : bytes) (root_pem : option bytes) : res valid_attestation :=
  if (alg =? -7)%Z then
    let root := match root_pem with Some r => r | None => default end in
    do? pem <- ok_or (x_pem X root) EParsingError;
    do? root_ca <- ok_or (x_pem_cert X pem) EParsingError;
    do? inter <- ok_or (x_cert X intermediate) EParsingError;
    if negb (x_signed X inter (xc_spki root_ca)) then Err EInvalidSignature
    else if negb (x_p256_asn1 X (sp_key (xc_spki inter)) (auth ++ challenge) sig) then Err EInvalidSignature
    else do? a <- auth_parse auth; fido_extract X a inter
  else if (alg =? -8)%Z then Err EUnsupported
  else Err EInvalidFormat.

(** ** src/yubikey/verification.rs *)
(** verification.rs 32-44 [ValidPIVKey] *)
Record valid_piv := mkPiv {
  vp_key : pubkey;
  vp_firmware : bytes;
  vp_serial : N;
  vp_touch : byte;
  vp_pin : byte
}.
(** verification.rs 50-52: the local variables. *)
Record piv_found := mkFound {
  pf_firmware : option bytes;
  pf_serial : option N;
  pf_policies : option (byte * byte)
}.
(** verification.rs 55-88: one extension. *)
Definition piv_extension (X : x509) (f : piv_found) (ext : bytes * bytes) : res piv_found :=
  let (oid, value) := ext in
  if bytes_eqb oid (s2b "1.3.6.1.4.1.41482.3.3") then
    if negb (length value =? 3) then Ok f
    else do? t <- dotted value; Ok (mkFound (Some t) (pf_serial f) (pf_policies f))
  else if bytes_eqb oid (s2b "1.3.6.1.4.1.41482.3.7") then
    do? content <- ok_or (x_integer X value) EParsingError;
    match content with
    | Some s =>
        if 8 <? length s then Ok f
        else
          do? pad <- usub 8 (length s);
          let padded := repeat x00 pad ++ s in
          do? n <- (if length padded =? 8 then Ok (from_be padded) else Err EParsingError);
          Ok (mkFound (pf_firmware f) (Some n) (pf_policies f))
    | None => Ok f
    end
  else if bytes_eqb oid (s2b "1.3.6.1.4.1.41482.3.8") then
    do? a <- index value 0;
    do? b <- index value 1;
    Ok (mkFound (pf_firmware f) (pf_serial f) (Some (a, b)))
  else Ok f.
Fixpoint piv_extensions (X : x509) (l : list (bytes * bytes)) (f : piv_found) : res piv_found :=
  match l with
  | [] => Ok f
  | ext :: l' => do? f' <- piv_extension X f ext; piv_extensions X l' f'
  end.
(** verification.rs 46-105 [extract_certificate_extension_data] *)
Definition piv_extract (X : x509) (k : pubkey) (c : xcert) : res valid_piv :=
  do? f <- piv_extensions X (xc_extensions c) (mkFound None None None);
  match pf_firmware f, pf_serial f, pf_policies f with
  | Some fw, Some n, Some (pin, touch) => Ok (mkPiv k fw n touch pin)
  | _, _, _ => Err EParsingError
  end.
(** verification.rs 109-142 [verify_certificate_chain]; [default] is YUBICO_PIV_ROOT_CA (9-27). *)
Definition verify_chain (X : x509) (default client intermediate : bytes) (root_pem : option bytes)
  : res valid_piv :=
  let root := match root_pem with Some r => r | None => default end in
  do? pem <- unwrap (x_pem X root);
  do? root_ca <- unwrap (x_pem_cert X pem);
  do? inter <- ok_or (x_cert X intermediate) EParsingError;
  do? cl <- ok_or (x_cert X client) EParsingError;
  if negb (x_signed X inter (xc_spki root_ca)) then Err EInvalidSignature
  else if negb (x_signed X cl (xc_spki inter)) then Err EInvalidSignature
  else
    do? k <- (match x509_cert_key X client with Err _ => Err EParsingError | r => r end);
    piv_extract X k cl.

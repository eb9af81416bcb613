(** src/ssh/pubkey.rs: parsing, encoding and printing public keys. Definitions only. *)
From Verif Require Import Base Utf8 Base64 Str Reader KeyType PubKeyType Writer Crypto.

(** pubkey.rs 256-306 [PublicKey::from_reader] *)
Definition pk_from_reader (kt_name : bytes) : M pubkey :=
  do! kt <- lift (kt_from_name kt_name);
  do! kind <-
    match kt_k kt with
    | KRsa | KRsaCert =>
        do! e <- read_positive_mpint;
        do! n <- read_positive_mpint;
        ret (PkRsa e n)
    | KEcdsa | KEcdsaCert =>
        do! identifier <- read_string;
        do! c <- lift (curve_from_identifier identifier);
        do! key <- read_bytes;
        do! app <- (if kt_is_sk kt then do! a <- read_string; ret (Some a) else ret None);
        ret (PkEcdsa c key app)
    | KEd25519 | KEd25519Cert =>
        do! key <- read_bytes;
        do! app <- (if kt_is_sk kt then do! a <- read_string; ret (Some a) else ret None);
        ret (PkEd25519 key app)
    end;
  ret (mkPubKey kt kind None).

(** pubkey.rs 247-251 [PublicKey::from_bytes] *)
Definition pk_from_bytes (data : bytes) : res pubkey :=
  run (do! kt_name <- read_string; pk_from_reader kt_name) data.

(** pubkey.rs 200-225 [PublicKey::from_string] *)
Definition pk_from_string (contents : bytes) : res pubkey :=
  let ws := split_whitespace contents in
  do? kt_name <- ok_or (nth_error ws 0) EInvalidFormat;
  do? data <- ok_or (nth_error ws 1) EInvalidFormat;
  let comment := nth_error ws 2 in
  do? key_type <- kt_from_name kt_name;
  do? decoded <- ok_or (b64_decode data) EDecode;
  run (do! kt_from_reader <- read_string;
       if negb (bytes_eqb kt_name kt_from_reader) then throw EKeyTypeMismatch else
       do! k <- pk_from_reader kt_name;
       ret (mkPubKey key_type (pk_kind k) comment)) decoded.

(** pubkey.rs 317-331 [bits] *)
Definition pk_bits (k : pubkey) : nat :=
  match pk_kind k with
  | PkRsa _ n => length n * 8
  | PkEcdsa c _ _ =>
      match c_kind c with Nistp256 => 256 | Nistp384 => 384 | Nistp521 => 521 end
  | PkEd25519 _ _ => 256
  end.

(** pubkey.rs 341-366 [encode]; [unwrap] of a missing application panics. *)
Definition pk_encode (k : pubkey) : res bytes :=
  let w := write_string (kt_plain (pk_type k)) writer_new in
  match pk_kind k with
  | PkRsa e n => Ok (write_mpint n (write_mpint e w))
  | PkEcdsa c key app =>
      let w := write_bytes key (write_string (c_identifier c) w) in
      if kt_is_sk (pk_type k) then do? a <- unwrap app; Ok (write_string a w) else Ok w
  | PkEd25519 key app =>
      let w := write_bytes key w in
      if kt_is_sk (pk_type k) then do? a <- unwrap app; Ok (write_string a w) else Ok w
  end.

Definition space : byte := x20.

(** pubkey.rs 77-91 [Display for PublicKey] *)
Definition pk_display (k : pubkey) : res bytes :=
  do? e <- pk_encode k;
  match pk_comment k with
  | Some c => Ok (kt_name (pk_type k) ++ [space] ++ b64_encode e ++ [space] ++ c)
  | None => Ok (kt_name (pk_type k) ++ [space] ++ b64_encode e)
  end.

(** pubkey.rs 414-421 [PublicKey::write] *)
Definition pk_write (k : pubkey) : res bytes :=
  do? e <- pk_encode k;
  match pk_comment k with
  | Some c => Ok (kt_name (pk_type k) ++ [space] ++ b64_encode e ++ [space] ++ c ++ [newline])
  | None => Ok (kt_name (pk_type k) ++ [space] ++ b64_encode e ++ [newline])
  end.

(** pubkey.rs 95-104 [FingerprintKind], 120-126 [Fingerprint] *)
Inductive fp_kind := FpSha256 | FpSha384 | FpSha512.
Record fingerprint := mkFp { fp_k : fp_kind; fp_hash : bytes }.

(** pubkey.rs 106-116, 128-132 [Display] *)
Definition fp_kind_name (k : fp_kind) : bytes :=
  match k with
  | FpSha256 => s2b "SHA256" | FpSha384 => s2b "SHA384" | FpSha512 => s2b "SHA512"
  end.
Definition fp_display (f : fingerprint) : bytes :=
  fp_kind_name (fp_k f) ++ s2b ":" ++ fp_hash f.

(** pubkey.rs 147-169 [Fingerprint::compute]; draining up to the first '=' keeps
    everything before it. *)
Definition fp_compute (C : crypto) (k : fp_kind) (data : bytes) : fingerprint :=
  let digest := match k with
                | FpSha256 => c_sha256 C data
                | FpSha384 => c_sha384 C data
                | FpSha512 => c_sha512 C data
                end in
  mkFp k (take_until pad (b64_encode digest)).

(** pubkey.rs 398-400 [fingerprint_with], 381-383 [fingerprint] *)
Definition pk_fingerprint_with (C : crypto) (k : pubkey) (f : fp_kind) : res fingerprint :=
  do? e <- pk_encode k; Ok (fp_compute C f e).
Definition pk_fingerprint (C : crypto) (k : pubkey) : res fingerprint :=
  pk_fingerprint_with C k FpSha256.

(** src/ssh/keytype.rs: key types and curves. Definitions only. *)
From Verif Require Import Base.

(** keytype.rs 9-27 *)
Inductive kt_kind := KRsa | KEd25519 | KEcdsa | KRsaCert | KEd25519Cert | KEcdsaCert.

Definition kt_kind_eqb (a b : kt_kind) : bool :=
  match a, b with
  | KRsa, KRsa | KEd25519, KEd25519 | KEcdsa, KEcdsa
  | KRsaCert, KRsaCert | KEd25519Cert, KEd25519Cert | KEcdsaCert, KEcdsaCert => true
  | _, _ => false
  end.

(** keytype.rs 31-49 *)
Record key_type := mkKeyType {
  kt_name : bytes;
  kt_short_name : bytes;
  kt_is_cert : bool;
  kt_is_sk : bool;
  kt_k : kt_kind;
  kt_plain : bytes
}.

(** Derived [PartialEq] of [KeyType] (keytype.rs 30). *)
Definition key_type_eqb (a b : key_type) : bool :=
  bytes_eqb (kt_name a) (kt_name b) && bytes_eqb (kt_short_name a) (kt_short_name b)
  && Bool.eqb (kt_is_cert a) (kt_is_cert b) && Bool.eqb (kt_is_sk a) (kt_is_sk b)
  && kt_kind_eqb (kt_k a) (kt_k b) && bytes_eqb (kt_plain a) (kt_plain b).

(** keytype.rs 53-62, 66-73 *)
Inductive curve_kind := Nistp256 | Nistp384 | Nistp521.

Definition curve_kind_eqb (a b : curve_kind) : bool :=
  match a, b with
  | Nistp256, Nistp256 | Nistp384, Nistp384 | Nistp521, Nistp521 => true
  | _, _ => false
  end.

Record curve := mkCurve { c_kind : curve_kind; c_identifier : bytes }.

Definition curve_eqb (a b : curve) : bool :=
  curve_kind_eqb (c_kind a) (c_kind b) && bytes_eqb (c_identifier a) (c_identifier b).

(** keytype.rs 84-102 [Curve::from_identifier] *)
Definition curve_from_identifier (id : bytes) : res curve :=
  if bytes_eqb id (s2b "nistp256") then Ok (mkCurve Nistp256 (s2b "nistp256"))
  else if bytes_eqb id (s2b "nistp384") then Ok (mkCurve Nistp384 (s2b "nistp384"))
  else if bytes_eqb id (s2b "nistp521") then Ok (mkCurve Nistp521 (s2b "nistp521"))
  else Err (EUnknownCurve id).

(** keytype.rs 115-244: the arms of the match in [KeyType::from_name], in order.
    Fields: name, short_name, is_cert, is_sk, kind, plain. *)
Definition key_types : list key_type := [
  mkKeyType (s2b "ssh-rsa") (s2b "RSA") false false KRsa (s2b "ssh-rsa");
  mkKeyType (s2b "rsa-sha2-256") (s2b "RSA") false false KRsa (s2b "ssh-rsa");
  mkKeyType (s2b "rsa-sha2-512") (s2b "RSA") false false KRsa (s2b "ssh-rsa");
  mkKeyType (s2b "ssh-rsa-cert-v01@openssh.com") (s2b "RSA-CERT") true false
    KRsaCert (s2b "ssh-rsa");
  mkKeyType (s2b "ecdsa-sha2-nistp256") (s2b "ECDSA") false false
    KEcdsa (s2b "ecdsa-sha2-nistp256");
  mkKeyType (s2b "ecdsa-sha2-nistp384") (s2b "ECDSA") false false
    KEcdsa (s2b "ecdsa-sha2-nistp384");
  mkKeyType (s2b "ecdsa-sha2-nistp521") (s2b "ECDSA") false false
    KEcdsa (s2b "ecdsa-sha2-nistp521");
  mkKeyType (s2b "ecdsa-sha2-nistp256-cert-v01@openssh.com") (s2b "ECDSA-CERT") true false
    KEcdsaCert (s2b "ecdsa-sha2-nistp256");
  mkKeyType (s2b "ecdsa-sha2-nistp384-cert-v01@openssh.com") (s2b "ECDSA-CERT") true false
    KEcdsaCert (s2b "ecdsa-sha2-nistp384");
  mkKeyType (s2b "ecdsa-sha2-nistp521-cert-v01@openssh.com") (s2b "ECDSA-CERT") true false
    KEcdsaCert (s2b "ecdsa-sha2-nistp521");
  mkKeyType (s2b "ssh-ed25519") (s2b "ED25519") false false KEd25519 (s2b "ssh-ed25519");
  mkKeyType (s2b "ssh-ed25519-cert-v01@openssh.com") (s2b "ED25519-CERT") true false
    KEd25519Cert (s2b "ssh-ed25519");
  mkKeyType (s2b "sk-ssh-ed25519@openssh.com") (s2b "ED25519-SK") false true
    KEd25519 (s2b "sk-ssh-ed25519@openssh.com");
  mkKeyType (s2b "sk-ssh-ed25519-cert-v01@openssh.com") (s2b "ED25519-SK-CERT") true true
    KEd25519 (s2b "sk-ssh-ed25519@openssh.com");
  mkKeyType (s2b "sk-ecdsa-sha2-nistp256@openssh.com") (s2b "ECDSA-SK") false true
    KEcdsa (s2b "sk-ecdsa-sha2-nistp256@openssh.com");
  mkKeyType (s2b "sk-ecdsa-sha2-nistp256-cert-v01@openssh.com") (s2b "ECDSA-SK") true true
    KEcdsa (s2b "sk-ecdsa-sha2-nistp256@openssh.com")
].

(** keytype.rs 114-248 [KeyType::from_name]: first matching arm. *)
Definition kt_from_name (name : bytes) : res key_type :=
  match find (fun kt => bytes_eqb name (kt_name kt)) key_types with
  | Some kt => Ok kt
  | None => Err (EUnknownKeyType name)
  end.

(** keytype.rs 252-261 [as_cert_name]; the slice [plain[..len-12]] can panic. *)
Definition as_cert_name (kt : key_type) : res bytes :=
  if negb (kt_is_sk kt) then Ok (kt_plain kt ++ s2b "-cert-v01@openssh.com")
  else
    do? n <- usub (length (kt_plain kt)) 12;
    do? stem <- slice_to (kt_plain kt) n;
    Ok (stem ++ s2b "-cert-v01@openssh.com").

(** keytype.rs 265-267 [as_pubkey_name] *)
Definition as_pubkey_name (kt : key_type) : bytes := kt_plain kt.

(** Specification of the reasons for which a signature blob is refused, by error. The data types,
    the primitives and the layout of accepted signatures (SpecSig.v) are all it builds on. *)
From Verif Require Import Base SpecWire SpecKeys SpecNames SpecErrors SpecSig KeyType PubKeyType Crypto.

(** The names of each kind of key type. The library counts the certificate types of hardware keys
    among the plain kinds. *)
Definition kind_names (k : kt_kind) : list bytes := map s2b
  match k with
  | KRsa => ["ssh-rsa"; "rsa-sha2-256"; "rsa-sha2-512"]
  | KEd25519 => ["ssh-ed25519"; "sk-ssh-ed25519@openssh.com"; "sk-ssh-ed25519-cert-v01@openssh.com"]
  | KEcdsa => ["ecdsa-sha2-nistp256"; "ecdsa-sha2-nistp384"; "ecdsa-sha2-nistp521"; "sk-ecdsa-sha2-nistp256@openssh.com";
               "sk-ecdsa-sha2-nistp256-cert-v01@openssh.com"]
  | KRsaCert => ["ssh-rsa-cert-v01@openssh.com"]
  | KEd25519Cert => ["ssh-ed25519-cert-v01@openssh.com"]
  | KEcdsaCert => ["ecdsa-sha2-nistp256-cert-v01@openssh.com"; "ecdsa-sha2-nistp384-cert-v01@openssh.com";
                   "ecdsa-sha2-nistp521-cert-v01@openssh.com"]
  end%string.

(** No length-prefixed field can be taken from [b]. *)
Inductive no_field (b : bytes) : error -> Prop :=
| NF_empty : b = [] -> no_field b EUnexpectedEof
| NF_short : b <> [] -> (forall p t, field_ok p -> b <> field p ++ t) -> no_field b EInvalidFormat.
(** No number can be taken from [b]. *)
Inductive no_number (b : bytes) : error -> Prop :=
| NN_field e : no_field b e -> no_number b e
| NN_form c t : field_ok c -> b = field c ++ t -> (forall m, ~ mpint_field m (field c)) -> no_number b EInvalidFormat.
(** Not two numbers of at most [len] bytes. *)
Inductive no_numbers (len : nat) (b : bytes) : error -> Prop :=
| NNs_r e : no_number b e -> no_numbers len b e
| NNs_s r b1 t e : mpint_field r b1 -> b = b1 ++ t -> no_number t e -> no_numbers len b e
| NNs_long r s b1 b2 t : mpint_field r b1 -> mpint_field s b2 -> b = b1 ++ b2 ++ t ->
    (256 ^ N.of_nat len <= magnitude r \/ 256 ^ N.of_nat len <= magnitude s)%N -> no_numbers len b EInvalidFormat.
(** The flags and the counter of a hardware key are missing. *)
Inductive no_counter (app : option bytes) (b : bytes) : error -> Prop :=
| NC_end a : app = Some a -> length b < 2 -> no_counter app b EUnexpectedEof
| NC_short a : app = Some a -> 2 <= length b < 5 -> no_counter app b EInvalidFormat.

(** What follows the label [l] is refused for a key with content [kind]. *)
Inductive body_refused (C : crypto) (kind : pubkey_kind) (msg l body : bytes) : error -> Prop :=
| RsaLabel e n : kind = PkRsa e n -> (forall a, ~ rsa_label l a) -> body_refused C kind msg l body EKeyTypeMismatch
| RsaField e n a err : kind = PkRsa e n -> rsa_label l a -> no_field body err -> body_refused C kind msg l body err
| RsaNo e n a p t : kind = PkRsa e n -> rsa_label l a -> field_ok p -> body = field p ++ t ->
    c_rsa_verify C a n e msg p = false -> body_refused C kind msg l body EInvalidSignature
| EcField c key app err : kind = PkEcdsa c key app -> no_field body err -> body_refused C kind msg l body err
| EcLabel c key app p t : kind = PkEcdsa c key app -> field_ok p -> body = field p ++ t ->
    (forall v len, ~ ecdsa_label C l v len) -> body_refused C kind msg l body EKeyTypeMismatch
| EcNumbers c key app p t v len err : kind = PkEcdsa c key app -> field_ok p -> body = field p ++ t ->
    ecdsa_label C l v len -> no_numbers len p err -> body_refused C kind msg l body err
| EcCounter c key app p t v len r s b1 b2 u err : kind = PkEcdsa c key app -> field_ok p -> body = field p ++ t ->
    ecdsa_label C l v len -> p = b1 ++ b2 ++ u -> mpint_field r b1 -> mpint_field s b2 ->
    (magnitude r < 256 ^ N.of_nat len)%N -> (magnitude s < 256 ^ N.of_nat len)%N ->
    no_counter app t err -> body_refused C kind msg l body err
| EcNo c key app p t v len r s b1 b2 u fr fs m : kind = PkEcdsa c key app -> field_ok p -> body = field p ++ t ->
    ecdsa_label C l v len -> p = b1 ++ b2 ++ u -> mpint_field r b1 -> mpint_field s b2 ->
    fixed_bytes len (magnitude r) fr -> fixed_bytes len (magnitude s) fs -> signed_message C app msg t m ->
    v key m (fr ++ fs) = false -> body_refused C kind msg l body EInvalidSignature
| EdLabel key app : kind = PkEd25519 key app -> ~ ed25519_label l -> body_refused C kind msg l body EKeyTypeMismatch
| EdField key app err : kind = PkEd25519 key app -> ed25519_label l -> no_field body err -> body_refused C kind msg l body err
| EdCounter key app p t err : kind = PkEd25519 key app -> ed25519_label l -> field_ok p -> body = field p ++ t ->
    no_counter app t err -> body_refused C kind msg l body err
| EdNo key app p t m : kind = PkEd25519 key app -> ed25519_label l -> field_ok p -> body = field p ++ t ->
    signed_message C app msg t m -> c_ed25519_verify C key m p = false -> body_refused C kind msg l body EInvalidSignature.

(** [refused C k msg blob e]: [blob] as signature of [k] over [msg] is refused with [e]. *)
Inductive refused (C : crypto) (k : pubkey) (msg blob : bytes) : error -> Prop :=
| R_field e : no_field blob e -> refused C k msg blob e
| R_text l t : field_ok l -> blob = field l ++ t -> ~ utf8_text l -> refused C k msg blob EUtf8
| R_type l t : field_text l -> blob = field l ++ t -> ~ In l supported_names -> refused C k msg blob (EUnknownKeyType l)
| R_kind l t : In l supported_names -> blob = field l ++ t -> ~ In l (kind_names (kt_k (pk_type k))) ->
    refused C k msg blob EKeyTypeMismatch
| R_body l t e : In l (kind_names (kt_k (pk_type k))) -> blob = field l ++ t -> body_refused C (pk_kind k) msg l t e ->
    refused C k msg blob e.

(** Keys of the same form: equal but for the key bytes, the application name and the comment. *)
Definition same_form (k k' : pubkey) : Prop :=
  pk_type k = pk_type k' /\
  match pk_kind k, pk_kind k' with
  | PkRsa _ _, PkRsa _ _ => True
  | PkEcdsa _ _ a, PkEcdsa _ _ b | PkEd25519 _ a, PkEd25519 _ b => a = None <-> b = None
  | _, _ => False
  end.
(** Primitives that accept every signature. *)
Definition accepting (C : crypto) : crypto :=
  mkCrypto (c_sha256 C) (c_sha384 C) (c_sha512 C) (fun _ _ _ => true) (fun _ _ _ => true) (fun _ _ _ => true)
    (fun _ _ _ _ _ => true).

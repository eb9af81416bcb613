(** Specification for derived debugging output: the texts inside a key, and how numbers are
    listed. Only the data types come from the model. *)
From Verif Require Import Base SpecWire SpecSigner KeyType PubKeyType PrivKey Generate.

(** All texts in these values are Unicode texts, as Rust's type of strings promises. *)
Definition text_option (o : option bytes) : Prop := forall s, o = Some s -> utf8_text s.
Definition type_texts (t : key_type) : Prop :=
  utf8_text (kt_name t) /\ utf8_text (kt_short_name t) /\ utf8_text (kt_plain t).
Definition pub_texts (k : pubkey) : Prop :=
  type_texts (pk_type k) /\ text_option (pk_comment k)
  /\ match pk_kind k with
     | PkRsa _ _ => True
     | PkEcdsa c _ app => utf8_text (c_identifier c) /\ text_option app
     | PkEd25519 _ app => text_option app
     end.
Definition priv_texts (k : privkey) : Prop :=
  type_texts (sk_type k) /\ pub_texts (sk_pub k) /\ utf8_text (sk_comment k)
  /\ match sk_kind k with
     | SkRsa _ | SkEd25519 _ => True
     | SkEcdsa c _ => utf8_text (c_identifier c)
     | SkEcdsaSk h | SkEd25519Sk h => text_option (hw_pin h) /\ text_option (hw_device_path h)
     end.

(** [t] lists the bytes [l]: "[1, 22, 255]". *)
Inductive listed_tail : bytes -> bytes -> Prop :=
| LT_nil : listed_tail [] (s2b "]")
| LT_cons b l d t : decimal_text (Z.of_N (Byte.to_N b)) d -> listed_tail l t ->
    listed_tail (b :: l) (s2b ", " ++ d ++ t).
Definition listed (l t : bytes) : Prop :=
  match l with
  | [] => t = s2b "[]"
  | b :: l' => exists d u, decimal_text (Z.of_N (Byte.to_N b)) d /\ listed_tail l' u /\ t = s2b "[" ++ d ++ u
  end.
(** [text] shows [l] under the name [label]. *)
Definition shows (text label l : bytes) : Prop :=
  exists t before after, listed l t /\ text = before ++ label ++ s2b ": " ++ t ++ after.

(** The secret numbers of a key, with their names. *)
Definition secret_numbers (k : priv_kind) : list (bytes * bytes) :=
  match k with
  | SkRsa r => [(s2b "d", rp_d r); (s2b "p", rp_p r); (s2b "q", rp_q r); (s2b "coefficient", rp_coefficient r)]
  | SkEcdsa _ key | SkEd25519 key => [(s2b "key", key)]
  | SkEcdsaSk h | SkEd25519Sk h => [(s2b "handle", hw_handle h)]
  end.
Definition pin_of (k : priv_kind) : option bytes :=
  match k with SkEcdsaSk h | SkEd25519Sk h => hw_pin h | _ => None end.
(** Text that needs no escaping: visible ASCII and spaces, without quotes and backslashes. *)
Definition plain_ascii (s : bytes) : Prop :=
  Forall (fun b => (32 <= Byte.to_N b <= 126)%N /\ b <> x22 /\ b <> x5c) s.

(** ** The texts, rule by rule *)
(** Hexadecimal numbers: lower case, without leading zeros. *)
Definition hex_value (b : byte) (v : N) : Prop :=
  (v < 10)%N /\ Byte.to_N b = (48 + v)%N \/ (10 <= v < 16)%N /\ Byte.to_N b = (87 + v)%N.
Inductive hex_number : N -> bytes -> Prop :=
| HN_digit b v : hex_value b v -> hex_number v [b]
| HN_more n l b v : hex_number n l -> n <> 0%N -> hex_value b v -> hex_number (16 * n + v) (l ++ [b]).
(** How the character [c], encoded as [bs], stands between quotes. *)
Definition named (c : N) : Prop := In c [0; 9; 10; 13; 34; 92]%N.
Inductive char_shown (printable : N -> bool) (c : N) (bs : bytes) : bytes -> Prop :=
| CS_named e : In (c, e) [(0%N, x30); (9%N, x74); (10%N, x6e); (13%N, x72); (34%N, x22); (92%N, x5c)] ->
    char_shown printable c bs [x5c; e]
| CS_as_is : ~ named c -> (32 <= c <= 126 \/ 128 <= c /\ printable c = true)%N -> char_shown printable c bs bs
| CS_number h : ~ named c -> (c < 32 \/ c = 127 \/ 128 <= c /\ printable c = false)%N -> hex_number c h ->
    char_shown printable c bs ([x5c] ++ s2b "u{" ++ h ++ s2b "}").
Inductive chars_shown (printable : N -> bool) : bytes -> bytes -> Prop :=
| Ch_nil : chars_shown printable [] []
| Ch_cons c bs l e t : utf8_char c bs -> char_shown printable c bs e -> chars_shown printable l t ->
    chars_shown printable (bs ++ l) (e ++ t).
Definition quoted (printable : N -> bool) (s t : bytes) : Prop :=
  exists u, chars_shown printable s u /\ t = [x22] ++ u ++ [x22].
Definition maybe (shown : bytes -> bytes -> Prop) (o : option bytes) (t : bytes) : Prop :=
  match o with
  | Some s => exists u, shown s u /\ t = s2b "Some(" ++ u ++ s2b ")"
  | None => t = s2b "None"
  end.
Definition truth (b : bool) (t : bytes) : Prop := if b then t = s2b "true" else t = s2b "false".

Definition type_kind_text (k : kt_kind) (t : bytes) : Prop :=
  match k with
  | KRsa => t = s2b "Rsa" | KEd25519 => t = s2b "Ed25519" | KEcdsa => t = s2b "Ecdsa"
  | KRsaCert => t = s2b "RsaCert" | KEd25519Cert => t = s2b "Ed25519Cert" | KEcdsaCert => t = s2b "EcdsaCert"
  end.
Definition type_text (printable : N -> bool) (k : key_type) (t : bytes) : Prop :=
  exists name short cert sk kind plain,
    quoted printable (kt_name k) name /\ quoted printable (kt_short_name k) short
    /\ truth (kt_is_cert k) cert /\ truth (kt_is_sk k) sk
    /\ type_kind_text (kt_k k) kind /\ quoted printable (kt_plain k) plain
    /\ t = s2b "KeyType { name: " ++ name ++ s2b ", short_name: " ++ short ++ s2b ", is_cert: " ++ cert
           ++ s2b ", is_sk: " ++ sk ++ s2b ", kind: " ++ kind ++ s2b ", plain: " ++ plain ++ s2b " }".
Definition curve_kind_text (k : curve_kind) (t : bytes) : Prop :=
  match k with
  | Nistp256 => t = s2b "Nistp256" | Nistp384 => t = s2b "Nistp384" | Nistp521 => t = s2b "Nistp521"
  end.
Definition curve_text (printable : N -> bool) (c : curve) (t : bytes) : Prop :=
  exists kind id, curve_kind_text (c_kind c) kind /\ quoted printable (c_identifier c) id
    /\ t = s2b "Curve { kind: " ++ kind ++ s2b ", identifier: " ++ id ++ s2b " }".
Definition pub_kind_text (printable : N -> bool) (k : pubkey_kind) (t : bytes) : Prop :=
  match k with
  | PkRsa e n => exists e' n', listed e e' /\ listed n n'
      /\ t = s2b "Rsa(RsaPublicKey { e: " ++ e' ++ s2b ", n: " ++ n' ++ s2b " })"
  | PkEcdsa c key app => exists c' key' app', curve_text printable c c' /\ listed key key' /\ maybe (quoted printable) app app'
      /\ t = s2b "Ecdsa(EcdsaPublicKey { curve: " ++ c' ++ s2b ", key: " ++ key' ++ s2b ", sk_application: " ++ app' ++ s2b " })"
  | PkEd25519 key app => exists key' app', listed key key' /\ maybe (quoted printable) app app'
      /\ t = s2b "Ed25519(Ed25519PublicKey { key: " ++ key' ++ s2b ", sk_application: " ++ app' ++ s2b " })"
  end.
Definition pub_text (printable : N -> bool) (k : pubkey) (t : bytes) : Prop :=
  exists kt kind comment, type_text printable (pk_type k) kt /\ pub_kind_text printable (pk_kind k) kind
    /\ maybe (quoted printable) (pk_comment k) comment
    /\ t = s2b "PublicKey { key_type: " ++ kt ++ s2b ", kind: " ++ kind ++ s2b ", comment: " ++ comment ++ s2b " }".
Definition hw_text (printable : N -> bool) (name : bytes) (h : hw_priv) (t : bytes) : Prop :=
  exists flags handle reserved pin path,
    decimal_text (Z.of_N (Byte.to_N (hw_flags h))) flags /\ listed (hw_handle h) handle /\ listed (hw_reserved h) reserved
    /\ maybe (quoted printable) (hw_pin h) pin /\ maybe (quoted printable) (hw_device_path h) path
    /\ t = name ++ s2b " { flags: " ++ flags ++ s2b ", handle: " ++ handle ++ s2b ", reserved: " ++ reserved
           ++ s2b ", pin: " ++ pin ++ s2b ", device_path: " ++ path ++ s2b " }".
Definition priv_kind_text (printable : N -> bool) (k : priv_kind) (t : bytes) : Prop :=
  match k with
  | SkRsa r => exists n e d i p q dp dq,
      listed (rp_n r) n /\ listed (rp_e r) e /\ listed (rp_d r) d /\ listed (rp_coefficient r) i
      /\ listed (rp_p r) p /\ listed (rp_q r) q /\ maybe listed (rp_exp r) dp /\ maybe listed (rp_exq r) dq
      /\ t = s2b "Rsa(RsaPrivateKey { n: " ++ n ++ s2b ", e: " ++ e ++ s2b ", d: " ++ d ++ s2b ", coefficient: " ++ i
             ++ s2b ", p: " ++ p ++ s2b ", q: " ++ q ++ s2b ", exp: " ++ dp ++ s2b ", exq: " ++ dq ++ s2b " })"
  | SkEcdsa c key => exists c' key', curve_text printable c c' /\ listed key key'
      /\ t = s2b "Ecdsa(EcdsaPrivateKey { curve: " ++ c' ++ s2b ", key: " ++ key' ++ s2b " })"
  | SkEcdsaSk h => exists u, hw_text printable (s2b "EcdsaSkPrivateKey") h u /\ t = s2b "EcdsaSk(" ++ u ++ s2b ")"
  | SkEd25519 key => exists key', listed key key' /\ t = s2b "Ed25519(Ed25519PrivateKey { key: " ++ key' ++ s2b " })"
  | SkEd25519Sk h => exists u, hw_text printable (s2b "Ed25519SkPrivateKey") h u /\ t = s2b "Ed25519Sk(" ++ u ++ s2b ")"
  end.
Definition priv_text (printable : N -> bool) (k : privkey) (t : bytes) : Prop :=
  exists kt kind pub magic comment,
    type_text printable (sk_type k) kt /\ priv_kind_text printable (sk_kind k) kind /\ pub_text printable (sk_pub k) pub
    /\ decimal_text (Z.of_N (sk_magic k)) magic /\ quoted printable (sk_comment k) comment
    /\ t = s2b "PrivateKey { key_type: " ++ kt ++ s2b ", kind: " ++ kind ++ s2b ", pubkey: " ++ pub
           ++ s2b ", magic: " ++ magic ++ s2b ", comment: " ++ comment ++ s2b " }".
Definition attestation_text (a : u2f_attestation) (t : bytes) : Prop :=
  exists data sig cert challenge alg,
    listed (at_auth_data a) data /\ listed (at_sig a) sig /\ listed (at_intermediate a) cert
    /\ listed (at_challenge a) challenge /\ decimal_text (at_alg a) alg
    /\ t = s2b "U2FAttestation { auth_data: " ++ data ++ s2b ", auth_data_sig: " ++ sig ++ s2b ", intermediate: " ++ cert
           ++ s2b ", challenge: " ++ challenge ++ s2b ", alg: " ++ alg ++ s2b " }".
Definition fido_text (printable : N -> bool) (k : fido_key) (t : bytes) : Prop :=
  exists priv att, priv_text printable (fk_private k) priv /\ attestation_text (fk_attestation k) att
    /\ t = s2b "FIDOSSHKey { private_key: " ++ priv ++ s2b ", attestation: " ++ att ++ s2b " }".

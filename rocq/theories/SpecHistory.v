(** Specification of the history of a private key: what it was asked to sign so far, and what it
    means that something accepted goes back to such a request. Only the data types, the builder
    calls and the bytes of a request ([tbs_certificate]) come from the model. *)
From Coq Require Import Permutation.
From Verif Require Import Base SpecWire SpecKeys SpecSig SpecCert SpecSshSig SpecRenew KeyType PubKeyType Crypto Signature Cert.

(** One use of a private key: to issue a certificate (with the order in which the maps happened to
    be listed), to sign a file, or to sign some other bytes. *)
Inductive use :=
| Issue (iter : hashmap -> hashmap) (request : cert)
| SignFile (namespace : bytes) (h : hash_alg) (message : bytes)
| SignBytes (bs : bytes).

(** The bytes that the key signs in a use. *)
Definition signs (C : crypto) (u : use) (m : bytes) : Prop :=
  match u with
  | Issue iter r => tbs_certificate iter r = Ok m
  | SignFile ns h message => payload C ns h message m
  | SignBytes bs => m = bs
  end.

(** A certificate that a program can ask to have signed: one from the builder or one that was
    read, after any calls, and after it was signed any number of times. *)
Inductive requestable : cert -> Prop :=
| RQ_new r : under_construction r -> well_typed r -> requestable r
| RQ_read C data r : cert_from_bytes C data = Ok r -> requestable r
| RQ_text C text r : cert_from_string C text = Ok r -> requestable r
| RQ_call r o : requestable r -> call_ok o -> requestable (apply_op r o)
| RQ_signed C iter r sg r' : requestable r -> add_signature C iter r sg = Ok r' -> requestable r'.

(** A use within the limits of the format. *)
Definition within (u : use) : Prop :=
  match u with
  | Issue iter r => (forall m, Permutation (iter m) m) /\ requestable r
      /\ (forall m, tbs_certificate iter r = Ok m -> (size m <= u32_max)%N)
  | SignFile ns _ _ => field_ok ns
  | SignBytes _ => True
  end.

(** [forged C history k m sg]: [sg] is a signature of [k] over [m] that is accepted although no
    use of the key signed [m]. *)
Definition forged (C : crypto) (history : list use) (k : pubkey) (m sg : bytes) : Prop :=
  accepted C k m sg /\ forall u, In u history -> ~ signs C u m.

(** A key for which that does not happen, whatever type name it goes by. *)
Definition unforged (C : crypto) (history : list use) (kind : pubkey_kind) : Prop :=
  forall k m sg, pk_kind k = kind -> ~ forged C history k m sg.

(** What keys sign in other protocols: a login request (RFC 4252, 7), whose session identifier is a
    digest and not, of all texts, the name of a certificate type; or something in DER (X.509). *)
Inductive foreign : bytes -> Prop :=
| F_login session rest : length session <= 64 ->
    (forall kt, kt_from_name session = Ok kt -> kt_is_cert kt = false) -> foreign (field session ++ x32 :: rest)
| F_der rest : foreign (x30 :: rest).

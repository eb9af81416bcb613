(** Specification of the errors for attestations that are not accepted. *)
From Verif Require Import Base SpecWire KeyType PubKeyType SpecSigner Fido SpecFido X509 SpecX509.

Definition cbor_error (text : bytes) : error := EFidoError (FCborFormat text).

(** ** Authenticator data *)
Definition no_integer (l : bytes) : Prop := forall z a r, l = a ++ r -> ~ int_of z a.
Definition no_string (l : bytes) : Prop := forall s a r, l = a ++ r -> ~ string_of s a.
(** What does not start with an entry of a key map. *)
Inductive entry_refused : bytes -> error -> Prop :=
| ER_label l : no_integer l -> entry_refused l EParsingError
| ER_kty a l : int_of 1 a -> no_integer l ->
    entry_refused (a ++ l) (cbor_error (s2b "Could not read integer for key 1 (key_type): Could not parse the data provided"))
| ER_alg a l : int_of 3 a -> no_integer l -> entry_refused (a ++ l) (cbor_error (s2b "Could not read integer for key 3 (algorithm)"))
| ER_crv a l : int_of (-1) a -> no_integer l -> entry_refused (a ++ l) (cbor_error (s2b "Could not read integer for key -1 (parameters)"))
| ER_coord k a l : k = (-2)%Z \/ k = (-3)%Z -> int_of k a -> no_string l ->
    entry_refused (a ++ l) (cbor_error (s2b "Could not bytes for key -2|-3 (key)"))
(* behind the text, the code also gives the error of the CBOR library *)
| ER_unknown k a l t : ~ In k [1; 3; -1; -2; -3]%Z -> int_of k a -> (forall r, l <> xf7 :: r) -> decimal_text k t ->
    entry_refused (a ++ l) (cbor_error (s2b "We got something else " ++ t ++ s2b " and threw error ")).
(** What does not start with a definite map of at most 256 good entries: the first bad entry counts. *)
Inductive map_refused : bytes -> error -> Prop :=
| MR_head l : (forall n h r, l = h ++ r -> ~ head_of 5 n h) -> map_refused l (cbor_error (s2b "Refusing to read indefinite map"))
| MR_long n h l : head_of 5 n h -> (256 < n)%N -> map_refused (h ++ l) (cbor_error (s2b "Map is too long"))
| MR_entry n h is a l e : head_of 5 n h -> (n <= 256)%N -> items_of is a -> (N.of_nat (length is) < n)%N -> entry_refused l e ->
    map_refused (h ++ a ++ l) e.
(** The fields in front of the key; [f] are the flags. *)
Definition in_front (raw : bytes) (f : byte) (rest : bytes) : Prop :=
  exists rp count guid len id, raw = rp ++ [f] ++ count ++ guid ++ len ++ id ++ rest
    /\ length rp = 32 /\ length count = 4 /\ length guid = 16 /\ length len = 2 /\ magnitude len = size id.
(** Data that ends within these fields. *)
Definition ends_early (raw : bytes) (text : bytes) : Prop :=
  In (length raw, text)
    (map (fun n => (n, s2b "Could not read RPID")) (seq 0 32) ++ [(32, s2b "Could not read flags")]
     ++ map (fun n => (n, s2b "Could not read sign count")) (seq 33 4)
     ++ map (fun n => (n, s2b "Could not read AAGUID")) (seq 37 16)
     ++ map (fun n => (n, s2b "Could not read credential length")) (seq 53 2))
  \/ text = s2b "Could not read credential ID"
     /\ exists front len id, raw = front ++ len ++ id /\ length front = 53 /\ length len = 2 /\ (size id < magnitude len)%N.
Definition auth_refused (raw : bytes) (e : error) : Prop :=
  (exists text, ends_early raw text /\ e = cbor_error text)
  \/ exists f rest, in_front raw f rest /\ (~ attested f /\ e = EParsingError \/ attested f /\ map_refused rest e).

(** ** FIDO attestations *)
Definition readable_root (X : x509) (text : bytes) (root : xcert) : Prop :=
  exists pem, x_pem X text = Some pem /\ x_pem_cert X pem = Some root.
(** [root] is the text of the root certificate that is used. *)
Definition fido_refused (X : x509) (root auth sig challenge : bytes) (alg : Z) (intermediate : bytes) (e : error) : Prop :=
  alg = (-8)%Z /\ e = EUnsupported
  \/ alg <> (-8)%Z /\ alg <> (-7)%Z /\ e = EInvalidFormat
  \/ alg = (-7)%Z /\ ((forall rc, ~ readable_root X root rc) \/ x_cert X intermediate = None) /\ e = EParsingError
  \/ alg = (-7)%Z /\ (exists rc inter, readable_root X root rc /\ x_cert X intermediate = Some inter
       /\ (x_signed X inter (xc_spki rc) = false \/ x_p256_asn1 X (sp_key (xc_spki inter)) (auth ++ challenge) sig = false))
     /\ e = EInvalidSignature
  \/ alg = (-7)%Z /\ exists inter, x_cert X intermediate = Some inter /\ root_signed X root inter
       /\ x_p256_asn1 X (sp_key (xc_spki inter)) (auth ++ challenge) sig = true
       /\ (auth_refused auth e
           \/ (exists a, auth_layout auth a) /\ ~ Forall (fido_readable X) (xc_extensions inter) /\ e = EParsingError).

(** ** YubiKey attestations *)
(** The extension that is read first and cannot be read is a serial number, or all can be read and
    one of the three is missing. *)
Definition piv_unreadable (X : x509) (exts : list (bytes * bytes)) : Prop :=
  (exists l1 e l2, exts = l1 ++ e :: l2 /\ Forall (serial_readable X) l1 /\ Forall policy_readable l1 /\ ~ serial_readable X e)
  \/ Forall (serial_readable X) exts /\ Forall policy_readable exts
     /\ ((forall e v, In e exts -> ~ has_piv_firmware e v) \/ (forall e v, In e exts -> ~ has_piv_serial X e v)
         \/ (forall e v, In e exts -> ~ has_piv_policy e v)).
Definition no_curve_key (p : spki) : Prop :=
  forall oid, sp_algorithm p = ec_oid -> sp_parameters p = Some (Some oid) -> other_curve oid.
Definition chain_refused (X : x509) (root client intermediate : bytes) (e : error) : Prop :=
  exists rc, readable_root X root rc /\
  ((x_cert X intermediate = None \/ x_cert X client = None) /\ e = EParsingError
   \/ exists inter cl, x_cert X intermediate = Some inter /\ x_cert X client = Some cl
      /\ ((x_signed X inter (xc_spki rc) = false \/ x_signed X cl (xc_spki inter) = false) /\ e = EInvalidSignature
          \/ x_signed X inter (xc_spki rc) = true /\ x_signed X cl (xc_spki inter) = true
             /\ (no_curve_key (xc_spki cl) \/ piv_unreadable X (xc_extensions cl) /\ ~ no_curve_key (xc_spki cl)) /\ e = EParsingError)).

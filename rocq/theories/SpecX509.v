(** Specification of the checks of attestations and of what they report. *)
From Verif Require Import Base SpecWire KeyType PubKeyType AllowedSigner SpecSigner Fido SpecFido X509.

(** The value of the last element that has one. *)
Definition last_where {A B} (P : A -> B -> Prop) (l : list A) (o : option B) : Prop :=
  match o with
  | None => forall e v, In e l -> ~ P e v
  | Some v => exists l1 e l2, l = l1 ++ e :: l2 /\ P e v /\ forall e' v', In e' l2 -> ~ P e' v'
  end.
(** Three bytes as text. *)
Definition version_text (s t : bytes) : Prop :=
  exists a b c ta tb tc, s = [a; b; c]
    /\ decimal_text (Z.of_N (Byte.to_N a)) ta /\ decimal_text (Z.of_N (Byte.to_N b)) tb /\ decimal_text (Z.of_N (Byte.to_N c)) tc
    /\ t = ta ++ [x2e] ++ tb ++ [x2e] ++ tc.

(** ** SSH keys of X.509 keys *)
Definition curve_key (oid point : bytes) (k : pubkey) : Prop :=
  exists name id kind,
    In (oid, name, id, kind)
      [(s2b "1.2.840.10045.3.1.7", s2b "ecdsa-sha2-nistp256", s2b "nistp256", Nistp256);
       (s2b "1.3.132.0.34", s2b "ecdsa-sha2-nistp384", s2b "nistp384", Nistp384)]
    /\ k = mkPubKey (mkKeyType name (s2b "ECDSA") false false KEcdsa name) (PkEcdsa (mkCurve kind id) point None) None.
Definition other_curve (oid : bytes) : Prop := oid <> s2b "1.2.840.10045.3.1.7" /\ oid <> s2b "1.3.132.0.34".
Definition ec_oid : bytes := s2b "1.2.840.10045.2.1".
Definition rsa_oid : bytes := s2b "1.2.840.113549.1.1.1".
(** SEQUENCE { SEQUENCE { OID ecPublicKey, OID curve }, BIT STRING point } *)
Definition ec_der (d : der) (oid point : bytes) : Prop := d = DSeq [DSeq [DOid ec_oid; DOid oid]; DBits point].

(** ** FIDO *)
Definition fw_oid : bytes := s2b "1.3.6.1.4.1.41482.13.1".
Definition aaguid_oid : bytes := s2b "1.3.6.1.4.1.45724.1.1.4".
Definition transports_oid : bytes := s2b "1.3.6.1.4.1.45724.2.1.1".
(** The extensions that are looked at can be decoded. *)
Definition fido_readable (X : x509) (e : bytes * bytes) : Prop :=
  (fst e = fw_oid \/ fst e = aaguid_oid -> x_octets X (snd e) <> None)
  /\ (fst e = transports_oid -> x_bits X (snd e) <> None).
Definition has_firmware (X : x509) (e : bytes * bytes) (t : bytes) : Prop :=
  fst e = fw_oid /\ exists s, x_octets X (snd e) = Some (Some s) /\ version_text s t.
Definition has_aaguid (X : x509) (e : bytes * bytes) (a : bytes) : Prop :=
  fst e = aaguid_oid /\ x_octets X (snd e) = Some (Some a) /\ length a = 16.
(** Bit 0 is the top bit of the first byte. *)
Definition top_bit (bs : bytes) (n : N) : bool := match bs with b :: _ => N.testbit (Byte.to_N b) (7 - n) | [] => false end.
Definition named_transports (bs : bytes) : list transport :=
  map snd (filter (fun p => top_bit bs (fst p)) [(0%N, Bluetooth); (1%N, BluetoothLE); (2%N, USB); (3%N, NFC)]).
Definition has_transports (X : x509) (e : bytes * bytes) (ts : list transport) : Prop :=
  fst e = transports_oid /\ exists bs, x_bits X (snd e) = Some (Some bs) /\ ts = named_transports bs.
Definition fido_metadata (X : x509) (exts : list (bytes * bytes)) (v : valid_attestation) : Prop :=
  Forall (fido_readable X) exts
  /\ last_where (has_firmware X) exts (va_firmware v)
  /\ last_where (has_aaguid X) exts (va_aaguid v)
  /\ last_where (has_transports X) exts (va_transports v).
(** The certificate [inter] was signed by the root in the given text. *)
Definition root_signed (X : x509) (root_text : bytes) (inter : xcert) : Prop :=
  exists pem root, x_pem X root_text = Some pem /\ x_pem_cert X pem = Some root /\ x_signed X inter (xc_spki root) = true.

(** ** YubiKeys *)
Definition piv_fw_oid : bytes := s2b "1.3.6.1.4.1.41482.3.3".
Definition piv_serial_oid : bytes := s2b "1.3.6.1.4.1.41482.3.7".
Definition piv_policy_oid : bytes := s2b "1.3.6.1.4.1.41482.3.8".
Definition serial_readable (X : x509) (e : bytes * bytes) : Prop := fst e = piv_serial_oid -> x_integer X (snd e) <> None.
Definition policy_readable (e : bytes * bytes) : Prop := fst e = piv_policy_oid -> 2 <= length (snd e).
Definition has_piv_firmware (e : bytes * bytes) (t : bytes) : Prop := fst e = piv_fw_oid /\ version_text (snd e) t.
Definition has_piv_serial (X : x509) (e : bytes * bytes) (n : N) : Prop :=
  fst e = piv_serial_oid /\ exists s, x_integer X (snd e) = Some (Some s) /\ length s <= 8 /\ n = magnitude s.
(** The policy of the PIN comes first. *)
Definition has_piv_policy (e : bytes * bytes) (p : byte * byte) : Prop :=
  fst e = piv_policy_oid /\ exists rest, snd e = fst p :: snd p :: rest.

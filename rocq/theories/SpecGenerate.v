(** Specification of new keys on FIDO devices and of the threads that wait for one. *)
From Verif Require Import Base SpecSig SpecX509 SpecFido KeyType PubKeyType Crypto PrivKey Fido X509 Generate.

(** The SSH key of a credential. *)
Definition credential_key (a : auth_data) (app : bytes) (pk : pubkey) : Prop :=
  pk_comment pk = None /\ kt_from_name (kt_name (pk_type pk)) = Ok (pk_type pk)
  /\ (ck_algorithm (ad_cose_key a) = (-8)%Z /\ kt_name (pk_type pk) = s2b "sk-ssh-ed25519@openssh.com"
        /\ pk_kind pk = PkEd25519 (ck_key (ad_cose_key a)) (Some app)
      \/ ck_algorithm (ad_cose_key a) = (-7)%Z /\ kt_name (pk_type pk) = s2b "sk-ecdsa-sha2-nistp256@openssh.com"
        /\ pk_kind pk = PkEcdsa (mkCurve Nistp256 (s2b "nistp256")) (ck_key (ad_cose_key a)) (Some app)).
(** An attestation under the built-in root, and what it reports. *)
Definition attested_by (X : x509) (default : bytes) (t : u2f_attestation) (v : valid_attestation) : Prop :=
  at_alg t = (-7)%Z /\ exists inter, x_cert X (at_intermediate t) = Some inter /\ root_signed X default inter
    /\ x_p256_asn1 X (sp_key (xc_spki inter)) (at_auth_data t ++ at_challenge t) (at_sig t) = true
    /\ auth_layout (at_auth_data t) (va_auth v) /\ fido_metadata X (xc_extensions inter) v.
(** The first certificate, or nothing. *)
Definition leaf (l : list bytes) (c : bytes) : Prop := (l = [] /\ c = []) \/ exists t, l = c :: t.
(** The private part: always named as an Ed25519 key, check integer 0. *)
Definition new_key (p : privkey) (pub : pubkey) (h : hw_priv) (comment : bytes) : Prop :=
  kt_from_name (s2b "sk-ssh-ed25519@openssh.com") = Ok (sk_type p) /\ sk_kind p = SkEd25519Sk h /\ sk_pub p = pub
  /\ sk_magic p = 0%N /\ sk_comment p = comment.
(** The four flags as a byte (WebAuthn section 6.1). *)
Definition flag_byte (up uv at_ ed : bool) (f : byte) : Prop :=
  forall n, N.testbit (Byte.to_N f) n =
    match n with 0 => up | 2 => uv | 6 => at_ | 7 => ed | _ => false end%N.

(** A new key: returned by one of the two implementations. *)
Inductive generated (X : x509) (default app comment : bytes) : fido_key -> Prop :=
| G_hid G C pin path challenge k : hid_generate G X C default app comment pin path challenge = Ok k -> generated X default app comment k
| G_moz pin challenge att k : moz_finish X default app comment pin challenge att = Ok k -> generated X default app comment k.
(** [p'] is [p] without PIN and device path. *)
Definition without_pin (p p' : privkey) : Prop :=
  exists flags handle reserved pin path,
    sk_kind p = SkEd25519Sk (mkHw flags handle reserved pin path)
    /\ p' = mkPrivKey (sk_type p) (SkEd25519Sk (mkHw flags handle reserved None None)) (sk_pub p) (sk_magic p) (sk_comment p).

(** ** Threads *)
Definition statuses (tr : list moz_event) : list status :=
  flat_map (fun e => match e with LibStatus u => [u] | _ => [] end) tr.
Definition steps (tr : list moz_event) : nat :=
  length (filter (fun e => match e with Program => true | _ => false end) tr).
(** The first status about the PIN, as an error. *)
Inductive first_pin : list status -> fido_error -> Prop :=
| FP_required l : first_pin (StPinRequired :: l) FPinRequired
| FP_locked l : first_pin (StPinAuthBlocked :: l) FKeyLocked
| FP_blocked l : first_pin (StPinBlocked :: l) FKeyBlocked
| FP_invalid n l : first_pin (StInvalidPin n :: l) (FInvalidPin n)
| FP_later l f : first_pin l f -> first_pin (StOther :: l) f.
Definition no_pin (l : list status) : Prop := Forall (eq StOther) l.

(** Properties C72-C74: attestations and X.509 keys. *)
From Coq Require Import Lia.
From Verif Require Import Base BaseFacts SpecWire SpecKeys KeyType PubKeyType AllowedSigner SpecSigner FileFacts TbsFacts
  Fido SpecFido FidoFacts PropFido X509 SpecX509 X509Facts.

(** A small instance of the parsers for the examples: certificates are named by one byte, and
    one that is signed names its issuer's key. *)
Definition ex_spki (key : bytes) : spki := mkSpki ec_oid (Some (Some (s2b "1.2.840.10045.3.1.7"))) key.
Definition ex_root : xcert := mkXcert [x01] (ex_spki [x01]) [].
Definition ex_inter : xcert := mkXcert [x02] (ex_spki [x02])
  [(fw_oid, [x05; x04; x03]); (s2b "2.5.29.19", []); (fw_oid, [x09]); (transports_oid, [x38]); (aaguid_oid, repeat x07 16)].
Definition ex_client : xcert := mkXcert [x03] (ex_spki [x03])
  [(piv_fw_oid, [x05; x04; x0c]); (piv_serial_oid, [x01; x00]); (piv_policy_oid, [x02; x03])].
Definition ex_x : x509 := mkX509
  (fun t => if bytes_eqb t (s2b "root") then Some [x01] else None)
  (fun p => if bytes_eqb p [x01] then Some ex_root else None)
  (fun d => if bytes_eqb d [x02] then Some ex_inter else if bytes_eqb d [x03] then Some ex_client else None)
  (fun d => if bytes_eqb d [x04] then Some (ex_spki [x04]) else None)
  (fun c k => match xc_der c, sp_key k with [a], [b] => byte_eqb a (n2b (b2n b + 1)) | _, _ => false end)
  (fun d => if bytes_eqb d [x05] then Some (DSeq [DSeq [DOid ec_oid; DOid (s2b "1.3.132.0.34")]; DBits [x05]]) else None)
  (fun d => Some (Some d)) (fun d => Some (Some d)) (fun d => Some (Some d))
  (fun k m s => bytes_eqb k [x02] && bytes_eqb s (m ++ [xff])).

(** ** C74 *)
Definition ec_spki (p : spki) (oid : bytes) : Prop := sp_algorithm p = ec_oid /\ sp_parameters p = Some (Some oid).
Lemma convert_ok p k : convert_pki p = Ok k <-> exists oid, ec_spki p oid /\ curve_key oid (sp_key p) k.
Proof.
  unfold convert_pki, ec_spki. destruct (bytes_eqb (sp_algorithm p) OID_RSA_ENCRYPTION) eqn:E1.
  - apply bytes_eqb_eq in E1. split; [discriminate|]. intros (oid & [H _] & _). rewrite E1 in H. discriminate.
  - destruct (bytes_eqb (sp_algorithm p) OID_EC_PUBLIC_KEY) eqn:E2.
    + apply bytes_eqb_eq in E2. destruct (sp_parameters p) as [[oid|]|]; cbn [ok_or bind].
      * rewrite ecdsa_key_ok. split; [intros H; exists oid; auto|]. intros (o & [_ H] & Hk). injection H as <-. exact Hk.
      * split; [discriminate|]. intros (o & [_ H] & _). discriminate.
      * split; [discriminate|]. intros (o & [_ H] & _). discriminate.
    + apply bytes_eqb_neq in E2. split; [discriminate|]. intros (oid & [H _] & _). contradiction.
Qed.
(** The error for a key that is not converted. *)
Definition spki_error (p : spki) (e : error) : Prop :=
  sp_algorithm p = rsa_oid /\ e = EUnsupported
  \/ sp_algorithm p = ec_oid /\ (exists oid, sp_parameters p = Some (Some oid) /\ other_curve oid) /\ e = EKeyTypeMismatch
  \/ sp_algorithm p = ec_oid /\ (forall oid, sp_parameters p <> Some (Some oid)) /\ e = EParsingError
  \/ sp_algorithm p <> rsa_oid /\ sp_algorithm p <> ec_oid /\ e = EParsingError.
Lemma convert_error p e : convert_pki p = Err e <-> spki_error p e.
Proof.
  unfold convert_pki, spki_error. destruct (bytes_eqb (sp_algorithm p) OID_RSA_ENCRYPTION) eqn:E1.
  - apply bytes_eqb_eq in E1. change (sp_algorithm p = rsa_oid) in E1. assert (rsa_oid <> ec_oid) by discriminate. rewrite E1. split.
    + intros [= <-]. auto.
    + intros [[_ ->]|[[H0 _]|[[H0 _]|[H0 _]]]]; congruence.
  - apply bytes_eqb_neq in E1. change (sp_algorithm p <> rsa_oid) in E1. destruct (bytes_eqb (sp_algorithm p) OID_EC_PUBLIC_KEY) eqn:E2.
    + apply bytes_eqb_eq in E2. change (sp_algorithm p = ec_oid) in E2. destruct (sp_parameters p) as [[oid|]|]; cbn [ok_or bind].
      * destruct (ecdsa_key_cases oid (sp_key p)) as [[k Hk]|Ho].
        -- rewrite Hk. split; [discriminate|]. intros [[H _]|[(_ & (o & H & Ho) & _)|[(_ & H & _)|(_ & H & _)]]]; try contradiction.
           ++ injection H as <-. rewrite (ecdsa_key_other _ _ Ho) in Hk. discriminate.
           ++ exfalso. exact (H _ eq_refl).
        -- rewrite (ecdsa_key_other _ _ Ho). split; [intros [= <-]; right; left; eauto|].
           intros [[H _]|[(_ & _ & ->)|[(_ & H & _)|(_ & H & _)]]]; try contradiction; [reflexivity|exfalso; exact (H _ eq_refl)].
      * split; [intros [= <-]; right; right; left; split; [exact E2|split; [discriminate|reflexivity]]|].
        intros [[H _]|[(_ & (o & H & _) & _)|[(_ & _ & ->)|(_ & H & _)]]]; try contradiction; [discriminate|reflexivity].
      * split; [intros [= <-]; right; right; left; split; [exact E2|split; [discriminate|reflexivity]]|].
        intros [[H _]|[(_ & (o & H & _) & _)|[(_ & _ & ->)|(_ & H & _)]]]; try contradiction; [discriminate|reflexivity].
    + apply bytes_eqb_neq in E2. change (sp_algorithm p <> ec_oid) in E2. split; [intros [= <-]; right; right; right; auto|].
      intros [[H _]|[[H _]|[[H _]|(_ & _ & ->)]]]; try contradiction. reflexivity.
Qed.
Lemma convert_nopanic p : convert_pki p <> Panic.
Proof.
  unfold convert_pki. destruct (bytes_eqb _ _); [discriminate|]. destruct (bytes_eqb _ _); [|discriminate].
  destruct (sp_parameters p) as [[oid|]|]; try discriminate. cbn [ok_or bind].
  destruct (ecdsa_key_cases oid (sp_key p)) as [[k Hk]|Ho]; [rewrite Hk|rewrite (ecdsa_key_other _ _ Ho)]; discriminate.
Qed.
(** The certificates that give a key, and the key: the curve's key with the same point. *)
Theorem C74_certificate_keys : forall (X : x509) (cert : bytes) (k : pubkey),
  x509_cert_key X cert = Ok k <-> exists c oid, x_cert X cert = Some c /\ ec_spki (xc_spki c) oid /\ curve_key oid (sp_key (xc_spki c)) k.
Proof.
  intros X cert k. unfold x509_cert_key. destruct (x_cert X cert) as [c|]; cbn [ok_or bind].
  - rewrite convert_ok. split; [intros (oid & H); exists c, oid; tauto|]. intros (c' & oid & E & H). injection E as <-. exists oid. exact H.
  - split; [discriminate|]. intros (c & oid & E & _). discriminate.
Qed.
Print Assumptions C74_certificate_keys.
Theorem C74_request_keys : forall (X : x509) (csr : bytes) (k : pubkey),
  x509_csr_key X csr = Ok k <-> exists p oid, x_csr X csr = Some p /\ ec_spki p oid /\ curve_key oid (sp_key p) k.
Proof.
  intros X csr k. unfold x509_csr_key. destruct (x_csr X csr) as [p|]; cbn [ok_or bind].
  - rewrite convert_ok. split; [intros (oid & H); exists p, oid; tauto|]. intros (c' & oid & E & H). injection E as <-. exists oid. exact H.
  - split; [discriminate|]. intros (p & oid & E & _). discriminate.
Qed.
Print Assumptions C74_request_keys.
Theorem C74_errors : forall (X : x509) (b : bytes),
  (x509_cert_key X b <> Panic /\ x509_csr_key X b <> Panic /\ der_to_ssh_key X b <> Panic)
  /\ (forall e, x509_cert_key X b = Err e <-> x_cert X b = None /\ e = EParsingError \/ exists c, x_cert X b = Some c /\ spki_error (xc_spki c) e)
  /\ (forall e, x509_csr_key X b = Err e <-> x_csr X b = None /\ e = EParsingError \/ exists p, x_csr X b = Some p /\ spki_error p e).
Proof.
  intros X b. split; [|split].
  - unfold x509_cert_key, x509_csr_key. split; [destruct (x_cert X b); [apply convert_nopanic|discriminate]|].
    split; [destruct (x_csr X b); [apply convert_nopanic|discriminate]|].
    unfold der_to_ssh_key. destruct (x_sequence X b) as [[l| | |]|]; try discriminate. cbn [ok_or bind as_sequence].
    destruct l as [|d1 [|d2 [|]]]; try discriminate. cbn [length Nat.eqb negb nth_der nth_error bind].
    destruct d1 as [l| | |]; try discriminate. cbn [bind as_sequence]. destruct l as [|o1 [|o2 [|]]]; try discriminate. cbn [length Nat.eqb negb nth_der nth_error bind].
    destruct o1; try discriminate. cbn [as_oid bind]. destruct o2; try discriminate. cbn [as_oid bind].
    destruct (negb _); [discriminate|]. destruct d2; try discriminate. cbn [as_bitstring bind].
    match goal with |- ecdsa_key ?o ?d <> _ => destruct (ecdsa_key_cases o d) as [[k Hk]|Ho]; [rewrite Hk|rewrite (ecdsa_key_other _ _ Ho)]; discriminate end.
  - intros e. unfold x509_cert_key. destruct (x_cert X b) as [c|]; cbn [ok_or bind].
    + rewrite convert_error. split; [intros H; right; eauto|]. intros [[H _]|(c' & H & He)]; [discriminate|]. injection H as <-. exact He.
    + split; [intros [= <-]; auto|]. intros [[_ ->]|(c & H & _)]; [reflexivity|discriminate].
  - intros e. unfold x509_csr_key. destruct (x_csr X b) as [c|]; cbn [ok_or bind].
    + rewrite convert_error. split; [intros H; right; eauto|]. intros [[H _]|(c' & H & He)]; [discriminate|]. injection H as <-. exact He.
    + split; [intros [= <-]; auto|]. intros [[_ ->]|(c & H & _)]; [reflexivity|discriminate].
Qed.
Print Assumptions C74_errors.
(** DER public keys. *)
Theorem C74_der_keys : forall (X : x509) (b : bytes),
  (forall k, der_to_ssh_key X b = Ok k <-> exists d oid point, x_sequence X b = Some d /\ ec_der d oid point /\ curve_key oid point k)
  /\ (der_to_ssh_key X b = Err EKeyTypeMismatch <-> exists d oid point, x_sequence X b = Some d /\ ec_der d oid point /\ other_curve oid)
  /\ (forall e, der_to_ssh_key X b = Err e -> e = EParsingError \/ e = EKeyTypeMismatch).
Proof.
  intros X b.
  assert (S : (exists d oid point, x_sequence X b = Some d /\ ec_der d oid point /\ der_to_ssh_key X b = ecdsa_key oid point)
    \/ der_to_ssh_key X b = Err EParsingError /\ forall d oid point, x_sequence X b = Some d -> ~ ec_der d oid point).
  { unfold der_to_ssh_key, ec_der. destruct (x_sequence X b) as [d|]; [|right; split; [reflexivity|discriminate]].
    assert (R : forall r : res pubkey, r = Err EParsingError -> (forall oid point, d <> DSeq [DSeq [DOid ec_oid; DOid oid]; DBits point]) ->
      (exists d' oid point, Some d = Some d' /\ d' = DSeq [DSeq [DOid ec_oid; DOid oid]; DBits point] /\ r = ecdsa_key oid point)
      \/ r = Err EParsingError /\ forall d' oid point, Some d = Some d' -> ~ d' = DSeq [DSeq [DOid ec_oid; DOid oid]; DBits point]).
    { intros r Hr Hn. right. split; [exact Hr|]. intros d' oid point H. injection H as <-. apply Hn. }
    destruct d as [l| | |]; try (apply R; [reflexivity|discriminate]). cbn [ok_or bind as_sequence].
    destruct l as [|d1 [|d2 [|d3 l]]]; try (apply R; [reflexivity|discriminate]). cbn [length Nat.eqb negb nth_der nth_error bind].
    destruct d1 as [l| | |]; try (apply R; [reflexivity|discriminate]). cbn [bind as_sequence].
    destruct l as [|o1 [|o2 [|o3 l]]]; try (apply R; [reflexivity|discriminate]). cbn [length Nat.eqb negb nth_der nth_error bind].
    destruct o1 as [|t| |]; try (apply R; [reflexivity|discriminate]). cbn [as_oid bind].
    destruct o2 as [|o| |]; try (apply R; [reflexivity|discriminate]). cbn [as_oid bind].
    destruct (bytes_eqb t OID_EC_PUBLIC_KEY) eqn:E; cbn [negb].
    - apply bytes_eqb_eq in E. subst t. destruct d2 as [| |p|]; try (apply R; [reflexivity|discriminate]). cbn [as_bitstring bind]. left. eauto 10.
    - apply R; [reflexivity|]. apply bytes_eqb_neq in E. intros oid point H. injection H as H. contradiction. }
  destruct S as [(d & oid & point & Hd & He & ->)|[-> N]].
  - assert (U : forall d' oid' point', x_sequence X b = Some d' -> ec_der d' oid' point' -> oid' = oid /\ point' = point).
    { intros d' oid' point' Hd' He'. rewrite Hd in Hd'. injection Hd' as <-. unfold ec_der in *. rewrite He in He'. injection He' as -> ->. auto. }
    split; [|split].
    + intros k. rewrite ecdsa_key_ok. split; [eauto 10|]. intros (d' & oid' & point' & Hd' & He' & Hk). destruct (U _ _ _ Hd' He') as [-> ->]. exact Hk.
    + split.
      * intros H. destruct (ecdsa_key_cases oid point) as [[k Hk]|Ho]; [congruence|eauto 10].
      * intros (d' & oid' & point' & Hd' & He' & Ho). destruct (U _ _ _ Hd' He') as [-> ->]. apply ecdsa_key_other, Ho.
    + intros e H. destruct (ecdsa_key_cases oid point) as [[k Hk]|Ho]; [congruence|]. rewrite (ecdsa_key_other _ _ Ho) in H. injection H as <-. auto.
  - split; [|split].
    + intros k. split; [discriminate|]. intros (d & oid & point & Hd & He & _). exfalso. exact (N _ _ _ Hd He).
    + split; [discriminate|]. intros (d & oid & point & Hd & He & _). exfalso. exact (N _ _ _ Hd He).
    + intros e [= <-]. auto.
Qed.
Print Assumptions C74_der_keys.
Example C74_case : x509_cert_key ex_x [x02] = x509_csr_key (mkX509 (x_pem ex_x) (x_pem_cert ex_x) (x_cert ex_x) (fun _ => Some (ex_spki [x02])) (x_signed ex_x)
    (x_sequence ex_x) (x_octets ex_x) (x_bits ex_x) (x_integer ex_x) (x_p256_asn1 ex_x)) [x09]
  /\ (exists k, x509_cert_key ex_x [x02] = Ok k /\ pk_kind k = PkEcdsa (mkCurve Nistp256 (s2b "nistp256")) [x02] None)
  /\ (exists k, der_to_ssh_key ex_x [x05] = Ok k /\ pk_kind k = PkEcdsa (mkCurve Nistp384 (s2b "nistp384")) [x05] None)
  /\ x509_cert_key ex_x [x07] = Err EParsingError.
Proof. split; [reflexivity|]. split; [eexists; split; reflexivity|]. split; [eexists; split; reflexivity|reflexivity]. Qed.

(** ** C72 *)
Definition root_text (default : bytes) (root : option bytes) : bytes := match root with Some r => r | None => default end.
(** When an attestation is accepted, and what is reported. *)
Theorem C72_accepts : forall (X : x509) (default auth sig challenge : bytes) (alg : Z) (intermediate : bytes) (root : option bytes)
  (v : valid_attestation),
  verify_auth_data X default auth sig challenge alg intermediate root = Ok v <->
  alg = (-7)%Z /\ exists inter,
    x_cert X intermediate = Some inter /\ root_signed X (root_text default root) inter
    /\ x_p256_asn1 X (sp_key (xc_spki inter)) (auth ++ challenge) sig = true
    /\ auth_layout auth (va_auth v) /\ fido_metadata X (xc_extensions inter) v.
Proof.
  intros X default auth sig challenge alg intermediate root v. unfold verify_auth_data, root_signed. fold (root_text default root).
  destruct (Z.eqb_spec alg (-7)) as [->|N7].
  - destruct (x_pem X _) as [pem|]; cbn [ok_or bind]; [|split; [discriminate|intros (_ & i & _ & (p & r & H & _) & _); discriminate]].
    destruct (x_pem_cert X pem) as [rc|] eqn:Er; cbn [ok_or bind]; [|split; [discriminate|intros (_ & i & _ & (p & r & H & H' & _) & _); injection H as <-; congruence]].
    destruct (x_cert X intermediate) as [inter|]; cbn [ok_or bind]; [|split; [discriminate|intros (_ & i & H & _); discriminate]].
    destruct (x_signed X inter (xc_spki rc)) eqn:Es; cbn [negb];
      [|split; [discriminate|intros (_ & i & H & (p & r & H1 & H2 & H3) & _); injection H as <-; injection H1 as <-; congruence]].
    destruct (x_p256_asn1 X _ _ _) eqn:Ep; cbn [negb]; [|split; [discriminate|intros (_ & i & H & _ & H' & _); injection H as <-; congruence]].
    split.
    + destruct (auth_parse auth) as [a|e|] eqn:Ea; try discriminate. cbn [bind]. rewrite fido_extract_ok. intros [Hv Hm]. split; [reflexivity|].
      exists inter. split; [reflexivity|]. split; [eauto|]. split; [exact Ep|]. split; [rewrite Hv; apply auth_iff, Ea|exact Hm].
    + intros (_ & i & H & _ & _ & Ha & Hm). injection H as <-. apply auth_iff in Ha. rewrite Ha. cbn [bind]. apply fido_extract_ok. auto.
  - destruct (Z.eqb_spec alg (-8)) as [->|N8]; split; try discriminate; intros [H _]; congruence.
Qed.
Print Assumptions C72_accepts.
Example C72_case : exists v, verify_auth_data ex_x (s2b "root") ex_auth (ex_auth ++ [x09; xff]) [x09] (-7) [x02] None = Ok v
  /\ va_auth v = ex_auth_data /\ va_firmware v = Some (s2b "5.4.3") /\ va_aaguid v = Some (repeat x07 16) /\ va_transports v = Some [USB; NFC].
Proof. eexists. split; [vm_compute; reflexivity|]. repeat split. Qed.
(** The errors of the algorithm and of the two signatures; nothing panics. *)
Theorem C72_rejects : forall (X : x509) (default auth sig challenge : bytes) (alg : Z) (intermediate : bytes) (root : option bytes),
  let r := verify_auth_data X default auth sig challenge alg intermediate root in
  r <> Panic
  /\ (alg <> (-7)%Z -> r = Err (if (alg =? -8)%Z then EUnsupported else EInvalidFormat))
  /\ (r = Err EInvalidSignature <-> alg = (-7)%Z /\ exists pem rc inter,
       x_pem X (root_text default root) = Some pem /\ x_pem_cert X pem = Some rc /\ x_cert X intermediate = Some inter
       /\ (x_signed X inter (xc_spki rc) = false \/ x_p256_asn1 X (sp_key (xc_spki inter)) (auth ++ challenge) sig = false)).
Proof.
  intros X default auth sig challenge alg intermediate root. cbv zeta. unfold verify_auth_data. fold (root_text default root).
  destruct (Z.eqb_spec alg (-7)) as [->|N7].
  2:{ destruct (Z.eqb_spec alg (-8)) as [->|N8]; split; try discriminate; split; try reflexivity; split; try discriminate; intros [H _]; congruence. }
  assert (A : forall e, auth_parse auth = Err e -> e <> EInvalidSignature).
  { intros e E ->. revert E. unfold auth_parse.
    assert (R : forall n l t, (exists x, read_exact n l t = Ok x) \/ read_exact n l t = Err (cbor_format t)) by (intros n l t; unfold read_exact; destruct (take n l); cbn; eauto).
    Ltac rd R := match goal with |- context [read_exact ?n ?l ?t] => let x := fresh in let H := fresh in
      destruct (R n l t) as [[x H]|H]; rewrite H; [destruct x; cbn [bind]|discriminate] end.
    rd R. rd R. unfold index. destruct (nth_error _ 0); [|discriminate]. cbn [bind]. rd R. rd R. rd R. rd R.
    destruct (_ =? 64)%N; [|discriminate]. match goal with |- context [cbor_map ?l] => destruct (cbor_map l) as [[[n|] l7]|]; try discriminate end. cbn [bind].
    destruct (256 <? n)%N; [discriminate|]. cbn [bind].
    assert (I : forall l, read_integer l <> Err EInvalidSignature) by (intros l; destruct (integer_cases l) as [(z & r & E)|E]; rewrite E; discriminate).
    assert (N : forall m k l, cose_entries m k l <> Err EInvalidSignature).
    { induction m as [|m IH]; intros k l; [discriminate|]. cbn [cose_entries].
      assert (Ne : cose_entry k l <> Err EInvalidSignature).
      { unfold cose_entry. destruct (read_integer l) as [[key l']|e|] eqn:Ei; [|intros H; injection H as ->; exact (I _ Ei)|discriminate]. cbn [bind].
        destruct (key =? -1)%Z; [destruct (read_integer l') as [[]| |]; discriminate|]. destruct (key =? 1)%Z; [destruct (read_integer l') as [[]| |]; discriminate|].
        destruct (key =? 3)%Z; [destruct (read_integer l') as [[]| |]; discriminate|]. destruct (_ || _); [destruct (cbor_bytes l') as [[]|]; discriminate|].
        destruct (cbor_undefined l'); discriminate. }
      destruct (cose_entry k l) as [[k' l']|e|]; cbn [bind]; [apply IH|congruence|discriminate]. }
    destruct (cose_entries _ _ l7) as [k|e|] eqn:Ec; try discriminate. cbn [bind]. intros H9. injection H9 as ->. exact (N _ _ _ Ec). }
  destruct (x_pem X _) as [pem|]; cbn [ok_or bind]; [|split; [discriminate|split; [congruence|split; [discriminate|intros (_ & p & r & i & H & _); discriminate]]]].
  destruct (x_pem_cert X pem) as [rc|] eqn:Er; cbn [ok_or bind]; [|split; [discriminate|split; [congruence|split; [discriminate|intros (_ & p & r & i & H & H' & _); injection H as <-; congruence]]]].
  destruct (x_cert X intermediate) as [inter|]; cbn [ok_or bind]; [|split; [discriminate|split; [congruence|split; [discriminate|intros (_ & p & r & i & _ & _ & H & _); discriminate]]]].
  destruct (x_signed X inter (xc_spki rc)) eqn:Es; cbn [negb]; [|split; [discriminate|split; [congruence|split; [intros _; split; [reflexivity|exists pem, rc, inter; auto]|reflexivity]]]].
  destruct (x_p256_asn1 X _ _ _) eqn:Ep; cbn [negb]; [|split; [discriminate|split; [congruence|split; [intros _; split; [reflexivity|exists pem, rc, inter; auto]|reflexivity]]]].
  pose proof (auth_nopanic auth) as Np. destruct (auth_parse auth) as [a|e|]; cbn [bind]; [| |congruence].
  - split; [apply fido_extract_nopanic|]. split; [congruence|]. split.
    + intros H. apply fido_extract_err in H. destruct H as [H _]. discriminate.
    + intros (_ & p & r & i & H1 & H2 & H3 & H4). injection H1 as <-. injection H3 as <-. rewrite Er in H2. injection H2 as <-. destruct H4; congruence.
  - split; [discriminate|]. split; [congruence|]. split.
    + intros H. injection H as ->. exfalso. exact (A _ eq_refl eq_refl).
    + intros (_ & p & r & i & H1 & H2 & H3 & H4). injection H1 as <-. injection H3 as <-. rewrite Er in H2. injection H2 as <-. destruct H4; congruence.
Qed.
Print Assumptions C72_rejects.
Example C72_rejects_case : verify_auth_data ex_x (s2b "root") ex_auth (ex_auth ++ [x09; xff]) [x09] (-7) [x03] None = Err EInvalidSignature
  /\ verify_auth_data ex_x (s2b "root") ex_auth (ex_auth ++ [x0a; xff]) [x09] (-7) [x02] None = Err EInvalidSignature.
Proof. split; vm_compute; reflexivity. Qed.
(** The border between the data and the challenge is not signed: a part of the challenge can
    move behind the data, where it is ignored. *)
Theorem C72_border_not_signed : forall (X : x509) (default auth sig c1 c2 : bytes) (alg : Z) (intermediate : bytes) (root : option bytes) (v : valid_attestation),
  verify_auth_data X default auth sig (c1 ++ c2) alg intermediate root = Ok v ->
  verify_auth_data X default (auth ++ c1) sig c2 alg intermediate root = Ok v.
Proof.
  intros X default auth sig c1 c2 alg intermediate root v H. apply C72_accepts in H. apply C72_accepts.
  destruct H as (-> & inter & H1 & H2 & H3 & H4 & H5). split; [reflexivity|]. exists inter. rewrite <- app_assoc.
  split; [exact H1|]. split; [exact H2|]. split; [exact H3|]. split; [|exact H5]. apply auth_iff, C70_trailing_ignored, auth_iff, H4.
Qed.
Print Assumptions C72_border_not_signed.
(** So the challenge is not bound by an accepted attestation. *)
Theorem C72_challenge_bound_refuted : exists (X : x509) (default auth auth' sig c c' intermediate : bytes) (v : valid_attestation),
  c <> c' /\ verify_auth_data X default auth sig c (-7) intermediate None = Ok v
  /\ verify_auth_data X default auth' sig c' (-7) intermediate None = Ok v.
Proof.
  exists ex_x, (s2b "root"), ex_auth, (ex_auth ++ [x09]), (ex_auth ++ [x09; xff]), [x09], [], [x02]. eexists.
  split; [discriminate|]. split; vm_compute; reflexivity.
Qed.
Print Assumptions C72_challenge_bound_refuted.
(** The AAGUID of the certificate is reported, not compared. *)
Theorem C72_aaguid_compared_refuted : exists (X : x509) (default auth sig c intermediate : bytes) (v : valid_attestation) (g : bytes),
  verify_auth_data X default auth sig c (-7) intermediate None = Ok v /\ va_aaguid v = Some g /\ g <> ad_aaguid (va_auth v).
Proof.
  exists ex_x, (s2b "root"), ex_auth, (ex_auth ++ [x09; xff]), [x09], [x02]. do 2 eexists.
  split; [vm_compute; reflexivity|]. split; [reflexivity|]. vm_compute. discriminate.
Qed.
Print Assumptions C72_aaguid_compared_refuted.
(** Internal USB is never reported. *)
Theorem C72_transports : forall (X : x509) (default auth sig c : bytes) (alg : Z) (intermediate : bytes) (root : option bytes) (v : valid_attestation) (ts : list transport),
  verify_auth_data X default auth sig c alg intermediate root = Ok v -> va_transports v = Some ts -> ~ In USBInternal ts.
Proof.
  intros X default auth sig c alg intermediate root v ts H Ht. apply C72_accepts in H. destruct H as (_ & inter & _ & _ & _ & _ & _ & _ & _ & H).
  rewrite Ht in H. destruct H as (l1 & e & l2 & _ & (_ & bs & _ & ->) & _). unfold named_transports. intros Hi.
  apply in_map_iff in Hi. destruct Hi as ([n t] & E & Hi). apply filter_In in Hi. cbn in E, Hi. subst t. destruct Hi as [Hi _].
  repeat (destruct Hi as [Hi|Hi]; [discriminate|]). exact Hi.
Qed.
Print Assumptions C72_transports.

(** ** C73 *)
Definition piv_metadata (X : x509) (exts : list (bytes * bytes)) (v : valid_piv) : Prop :=
  Forall (serial_readable X) exts /\ Forall policy_readable exts
  /\ last_where has_piv_firmware exts (Some (vp_firmware v))
  /\ last_where (has_piv_serial X) exts (Some (vp_serial v))
  /\ last_where has_piv_policy exts (Some (vp_pin v, vp_touch v)).
Lemma piv_extract_ok X k c v : piv_extract X k c = Ok v <-> vp_key v = k /\ piv_metadata X (xc_extensions c) v.
Proof.
  unfold piv_extract. pose proof (piv_loop X (xc_extensions c) (mkFound None None None)) as H.
  assert (E : forall r, piv_from X (mkFound None None None) (xc_extensions c) r <->
    Forall (serial_readable X) (xc_extensions c) /\ Forall policy_readable (xc_extensions c) /\ last_where has_piv_firmware (xc_extensions c) (pf_firmware r)
    /\ last_where (has_piv_serial X) (xc_extensions c) (pf_serial r) /\ last_where has_piv_policy (xc_extensions c) (pf_policies r)).
  { intros r. unfold piv_from. cbn [pf_firmware pf_serial pf_policies]. rewrite !from_none. reflexivity. }
  assert (M : piv_metadata X (xc_extensions c) v <-> piv_from X (mkFound None None None) (xc_extensions c) (mkFound (Some (vp_firmware v)) (Some (vp_serial v)) (Some (vp_pin v, vp_touch v)))).
  { rewrite E. reflexivity. }
  rewrite M. destruct (piv_extensions X _ _) as [r|x|]; cbn [bind].
  - rewrite H. destruct r as [fw n p]. cbn [pf_firmware pf_serial pf_policies]. destruct v as [vk vf vn vt vpin]. cbn [vp_key vp_firmware vp_serial vp_pin vp_touch].
    destruct fw as [fw|], n as [n|], p as [[pin touch]|]; split; try discriminate; try (intros [_ X0]; discriminate).
    + intros [= <- <- <- <- <-]. auto.
    + intros [-> X0]. injection X0 as -> -> -> ->. reflexivity.
  - split; [discriminate|]. intros [_ (F1 & F2 & _)]. destruct H as (_ & l1 & e & l2 & El & _ & _ & N). rewrite El in F1. apply Forall_app in F1. destruct F1 as [_ F1]. inversion F1. contradiction.
  - split; [discriminate|]. intros [_ (F1 & F2 & _)]. destruct H as (l1 & e & l2 & El & _ & _ & N). rewrite El in F2. apply Forall_app in F2. destruct F2 as [_ F2]. inversion F2. contradiction.
Qed.
(** When a chain is accepted, and what is reported. *)
Theorem C73_accepts : forall (X : x509) (default client intermediate : bytes) (root : option bytes) (v : valid_piv),
  verify_chain X default client intermediate root = Ok v <->
  exists inter cl, x_cert X intermediate = Some inter /\ x_cert X client = Some cl
    /\ root_signed X (root_text default root) inter /\ x_signed X cl (xc_spki inter) = true
    /\ (exists oid, ec_spki (xc_spki cl) oid /\ curve_key oid (sp_key (xc_spki cl)) (vp_key v))
    /\ piv_metadata X (xc_extensions cl) v.
Proof.
  intros X default client intermediate root v. unfold verify_chain, root_signed. fold (root_text default root).
  destruct (x_pem X _) as [pem|]; cbn [unwrap bind]; [|split; [discriminate|intros (i & c & _ & _ & (p & r & H & _) & _); discriminate]].
  destruct (x_pem_cert X pem) as [rc|] eqn:Er; cbn [unwrap bind]; [|split; [discriminate|intros (i & c & _ & _ & (p & r & H & H' & _) & _); injection H as <-; congruence]].
  destruct (x_cert X intermediate) as [inter|]; cbn [ok_or bind]; [|split; [discriminate|intros (i & c & H & _); discriminate]].
  unfold x509_cert_key. destruct (x_cert X client) as [cl|]; cbn [ok_or bind]; [|split; [discriminate|intros (i & c & _ & H & _); discriminate]].
  destruct (x_signed X inter (xc_spki rc)) eqn:Es; cbn [negb];
    [|split; [discriminate|intros (i & c & H & _ & (p & r & H1 & H2 & H3) & _); injection H as <-; injection H1 as <-; congruence]].
  destruct (x_signed X cl (xc_spki inter)) eqn:Ec; cbn [negb]; [|split; [discriminate|intros (i & c & H & H' & _ & H3 & _); injection H as <-; injection H' as <-; congruence]].
  split.
  - destruct (convert_pki (xc_spki cl)) as [k| |] eqn:Ek; try discriminate. cbn [bind]. rewrite piv_extract_ok. intros [Hk Hm].
    exists inter, cl. split; [reflexivity|]. split; [reflexivity|]. split; [eauto|]. split; [exact Ec|]. split; [|exact Hm]. rewrite Hk. apply convert_ok, Ek.
  - intros (i & c & H & H' & _ & _ & Hk & Hm). injection H as <-. injection H' as <-. apply convert_ok in Hk. rewrite Hk. cbn [bind]. apply piv_extract_ok. auto.
Qed.
Print Assumptions C73_accepts.
Example C73_case : exists v, verify_chain ex_x (s2b "root") [x03] [x02] None = Ok v
  /\ vp_firmware v = s2b "5.4.12" /\ vp_serial v = 256%N /\ vp_pin v = x02 /\ vp_touch v = x03
  /\ pk_kind (vp_key v) = PkEcdsa (mkCurve Nistp256 (s2b "nistp256")) [x03] None.
Proof. eexists. split; [vm_compute; reflexivity|]. repeat split. Qed.
(** When it panics: an unreadable root, or, in a chain that verifies, a policy of less than
    two bytes before which everything can be read. *)
Theorem C73_panics : forall (X : x509) (default client intermediate : bytes) (root : option bytes),
  verify_chain X default client intermediate root = Panic <->
  (forall pem, x_pem X (root_text default root) = Some pem -> x_pem_cert X pem = None)
  \/ exists inter cl oid k l1 e l2, x_cert X intermediate = Some inter /\ x_cert X client = Some cl
    /\ root_signed X (root_text default root) inter /\ x_signed X cl (xc_spki inter) = true
    /\ ec_spki (xc_spki cl) oid /\ curve_key oid (sp_key (xc_spki cl)) k
    /\ xc_extensions cl = l1 ++ e :: l2 /\ Forall (serial_readable X) l1 /\ Forall policy_readable l1
    /\ fst e = piv_policy_oid /\ length (snd e) < 2.
Proof.
  intros X default client intermediate root. unfold verify_chain, root_signed. fold (root_text default root).
  destruct (x_pem X _) as [pem|]; cbn [unwrap bind]; [|split; [left; discriminate|reflexivity]].
  destruct (x_pem_cert X pem) as [rc|] eqn:Er; cbn [unwrap bind]; [|split; [left; congruence|reflexivity]].
  assert (R : (forall p, Some pem = Some p -> x_pem_cert X p = None) -> False) by (intros H; specialize (H _ eq_refl); congruence).
  destruct (x_cert X intermediate) as [inter|]; cbn [ok_or bind]; [|split; [discriminate|intros [H|(i & c & o & k & l1 & e & l2 & H & _)]; [destruct (R H)|discriminate]]].
  unfold x509_cert_key. destruct (x_cert X client) as [cl|]; cbn [ok_or bind]; [|split; [discriminate|intros [H|(i & c & o & k & l1 & e & l2 & _ & H & _)]; [destruct (R H)|discriminate]]].
  destruct (x_signed X inter (xc_spki rc)) eqn:Es; cbn [negb].
  2:{ split; [discriminate|intros [H|(i & c & o & k & l1 & e & l2 & H & _ & (p & r & H1 & H2 & H3) & _)]; [destruct (R H)|]]. injection H as <-. injection H1 as <-. congruence. }
  destruct (x_signed X cl (xc_spki inter)) eqn:Ec; cbn [negb].
  2:{ split; [discriminate|intros [H|(i & c & o & k & l1 & e & l2 & H & H' & _ & H3 & _)]; [destruct (R H)|]]. injection H as <-. injection H' as <-. congruence. }
  pose proof (convert_nopanic (xc_spki cl)) as Np.
  destruct (convert_pki (xc_spki cl)) as [k|e|] eqn:Ek; cbn [bind]; [| |congruence].
  2:{ split; [discriminate|intros [H|(i & c & o & k & l1 & e' & l2 & H & H' & _ & _ & H3 & H4 & _)]; [destruct (R H)|]]. injection H as <-. injection H' as <-.
      assert (X0 : convert_pki (xc_spki cl) = Ok k) by (apply convert_ok; eauto). congruence. }
  unfold piv_extract. pose proof (piv_loop X (xc_extensions cl) (mkFound None None None)) as L.
  split.
  - destruct (piv_extensions X _ _) as [[fw n p]|x|]; cbn [bind pf_firmware pf_serial pf_policies]; [|discriminate|].
    + destruct fw, n; try discriminate. destruct p as [[]|]; discriminate.
    + intros _. right. destruct L as (l1 & e & l2 & El & F1 & F2 & N). apply convert_ok in Ek. destruct Ek as (oid & Ho & Hk).
      exists inter, cl, oid, k, l1, e, l2. split; [reflexivity|]. split; [reflexivity|]. split; [eauto|]. split; [exact Ec|]. split; [exact Ho|]. split; [exact Hk|].
      split; [exact El|]. split; [exact F1|]. split; [exact F2|].
      assert (D : {fst e = piv_policy_oid} + {fst e <> piv_policy_oid}) by (destruct (bytes_eqb (fst e) piv_policy_oid) eqn:Eb; [left; apply bytes_eqb_eq, Eb|right; apply bytes_eqb_neq, Eb]).
      destruct D as [D|D]; [|exfalso; apply N; intros Hc; contradiction]. split; [exact D|]. destruct (le_lt_dec 2 (length (snd e))); [exfalso; apply N; intros _; assumption|assumption].
  - intros [H|(i & c & o & k' & l1 & e & l2 & H & H' & _ & _ & _ & _ & El & F1 & F2 & He & Hl)]; [destruct (R H)|]. injection H as <-. injection H' as <-.
    assert (Ne : ~ policy_readable e) by (intros Hp; specialize (Hp He); lia).
    destruct (piv_extensions X _ _) as [r|x|]; cbn [bind]; [| |reflexivity]; exfalso.
    + destruct (proj2 (L r) eq_refl) as (_ & F & _). rewrite El in F. apply Forall_app in F. destruct F as [_ F]. inversion F. contradiction.
    + destruct L as (_ & m1 & e' & m2 & El' & G1 & G2 & N').
      rewrite El in El'. clear El. revert m1 El' G1 G2. induction l1 as [|y l1 IH]; intros m1 El' G1 G2.
      * destruct m1 as [|z m1]; injection El' as <- _.
        -- apply N'. intros E0. rewrite He in E0. discriminate.
        -- inversion G2. contradiction.
      * destruct m1 as [|z m1]; injection El' as Ey El'.
        -- subst y. inversion F1. contradiction.
        -- subst y. inversion F1; inversion F2; inversion G1; inversion G2; subst. apply (IH ltac:(assumption) ltac:(assumption) m1); assumption.
Qed.
Print Assumptions C73_panics.
Theorem C73_never_panics_refuted : exists (X : x509) (default client intermediate : bytes) (root : option bytes),
  verify_chain X default client intermediate root = Panic.
Proof. exists ex_x, (s2b "root"), [x03], [x02], (Some (s2b "not a certificate")). vm_compute. reflexivity. Qed.
Print Assumptions C73_never_panics_refuted.
(** Signatures that do not verify. *)
Theorem C73_bad_signatures : forall (X : x509) (default client intermediate : bytes) (root : option bytes) (pem : bytes) (rc inter cl : xcert),
  x_pem X (root_text default root) = Some pem -> x_pem_cert X pem = Some rc -> x_cert X intermediate = Some inter -> x_cert X client = Some cl ->
  x_signed X inter (xc_spki rc) = false \/ x_signed X cl (xc_spki inter) = false ->
  verify_chain X default client intermediate root = Err EInvalidSignature.
Proof.
  intros X default client intermediate root pem rc inter cl Hp Hr Hi Hc Hs. unfold verify_chain. fold (root_text default root).
  rewrite Hp. cbn [unwrap bind]. rewrite Hr. cbn [unwrap bind]. rewrite Hi. cbn [ok_or bind]. rewrite Hc. cbn [ok_or bind].
  destruct (x_signed X inter (xc_spki rc)); cbn [negb]; [|reflexivity]. destruct Hs as [Hs|Hs]; [discriminate|]. rewrite Hs. reflexivity.
Qed.
Print Assumptions C73_bad_signatures.
(** Every other failure is a parsing error: an unreadable certificate, a key that is no P-256 or P-384 key, a
    serial that cannot be read, a missing extension. *)
Theorem C73_errors : forall (X : x509) (default client intermediate : bytes) (root : option bytes) (e : error),
  verify_chain X default client intermediate root = Err e ->
  e = EInvalidSignature /\ (exists pem rc inter cl, x_pem X (root_text default root) = Some pem /\ x_pem_cert X pem = Some rc
      /\ x_cert X intermediate = Some inter /\ x_cert X client = Some cl
      /\ (x_signed X inter (xc_spki rc) = false \/ x_signed X cl (xc_spki inter) = false))
  \/ e = EParsingError.
Proof.
  intros X default client intermediate root e. unfold verify_chain. fold (root_text default root).
  destruct (x_pem X _) as [pem|]; cbn [unwrap bind]; [|discriminate]. destruct (x_pem_cert X pem) as [rc|] eqn:Er; cbn [unwrap bind]; [|discriminate].
  destruct (x_cert X intermediate) as [inter|]; cbn [ok_or bind]; [|intros H; injection H as <-; right; reflexivity].
  unfold x509_cert_key. destruct (x_cert X client) as [cl|]; cbn [ok_or bind]; [|intros H; injection H as <-; right; reflexivity].
  destruct (x_signed X inter (xc_spki rc)) eqn:Es; cbn [negb]; [|intros H; injection H as <-; left; split; [reflexivity|]; exists pem, rc, inter, cl; tauto].
  destruct (x_signed X cl (xc_spki inter)) eqn:Ec; cbn [negb]; [|intros H; injection H as <-; left; split; [reflexivity|]; exists pem, rc, inter, cl; tauto].
  destruct (convert_pki (xc_spki cl)) as [k|e'|]; cbn [bind]; [|intros H; injection H as <-; right; reflexivity|discriminate].
  unfold piv_extract. pose proof (piv_loop X (xc_extensions cl) (mkFound None None None)) as L.
  destruct (piv_extensions X _ _) as [[fw n p]|x|]; cbn [bind pf_firmware pf_serial pf_policies]; [| |discriminate].
  - destruct fw, n, p as [[]|]; intros H; try discriminate; injection H as <-; right; reflexivity.
  - intros H. injection H as <-. right. apply L.
Qed.
Print Assumptions C73_errors.
Example C73_bad_signatures_case : verify_chain ex_x (s2b "root") [x02] [x03] None = Err EInvalidSignature
  /\ verify_chain ex_x (s2b "root") [x02] [x02] None = Err EInvalidSignature
  /\ verify_chain ex_x (s2b "root") [] [x02] None = Err EParsingError.
Proof. repeat split; vm_compute; reflexivity. Qed.

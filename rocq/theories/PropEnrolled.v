(** Property C149: certificates for attested keys. *)
From Coq Require Import Lia Permutation.
From Verif Require Import Base BaseFacts Utf8 Utf8Facts SpecWire SpecKeys KeyType KeyTypeFacts PubKeyType PubKey PubKeyFacts PropPubKey Crypto SpecSig
  Signature SignatureFacts TbsFacts SpecCert Cert CertFacts PropCert PropIssue Fido SpecFido FidoFacts PropFido X509 SpecX509 X509Facts PropX509
  SpecGenerate PropGenerate SpecEnrolled.

Lemma made_ecdsa C label verify len key m s : ecdsa_label C label verify len -> verify key m s = true -> made_with C key m.
Proof. intros H V. exists s. destruct H; auto. Qed.

(** A PIV key: the certificate issued for the key of an accepted chain is for exactly the point in the
    client certificate, and whatever it verifies was signed with that point's key. *)
Theorem C149_piv : forall (X : x509) (C : crypto) (iter : hashmap -> hashmap) (default client intermediate : bytes) (root : option bytes)
  (v : valid_piv) (c c' : cert) (sg cadata : bytes),
  verify_chain X default client intermediate root = Ok v -> ct_key c = vp_key v ->
  (forall m, Permutation (iter m) m) -> under_construction c -> well_typed c ->
  key_data (pk_type (ct_signature_key c)) (pk_kind (ct_signature_key c)) cadata ->
  add_signature C iter c sg = Ok c' -> (size (ct_serialized c') <= u32_max)%N ->
  exists cl p, x_cert X client = Some cl /\ cert_from_bytes C (ct_serialized c') = Ok p /\ ct_key p = vp_key v
    /\ forall m blob out, verify_signature C blob m (ct_key p) = Ok out -> made_with C (sp_key (xc_spki cl)) m.
Proof.
  intros X C iter default client inter root v c c' sg cad Hv Hk P Hu Hw Hca Ha Hs.
  apply C73_accepts in Hv. destruct Hv as (i & cl & _ & Hcl & _ & _ & (oid & _ & Hck) & _).
  destruct (C38_issued_parses_back C iter c c' sg cad P Hu Hw Hca Ha Hs) as (p & Hp & (_ & _ & (K1 & K2 & K3) & _) & _).
  exists cl, p. split; [exact Hcl|]. split; [exact Hp|]. rewrite Hk in K1, K2.
  assert (E : ct_key p = vp_key v).
  { destruct (ct_key p) as [t kd cm]. cbn in K1, K2, K3. subst cm.
    destruct Hck as (name & id & kind & [Q|[Q|[]]] & Hq); injection Q as <- <- <- <-; rewrite Hq in *; cbn in K2; subst kd;
      vm_compute in K1; apply ok_inj in K1; subst t; reflexivity. }
  split; [exact E|]. rewrite E. intros m blob out V. apply verify_iff in V. destruct V as [_ (label & payload & after & st & _ & _ & _ & _ & V)].
  destruct Hck as (name & id & kind & _ & Hq). rewrite Hq in V. cbn [pk_kind] in V.
  destruct V as (verify & len & r & s & b1 & b2 & tl & fr & fs & m' & L & _ & _ & _ & _ & _ & M & V). cbn in M. subst m'.
  exact (made_ecdsa _ _ _ _ _ _ _ L V).
Qed.
Print Assumptions C149_piv.

(** A FIDO key: the certificate is for exactly the key bytes and the application given, and whatever
    it verifies was signed with the attested key for that application. *)
Theorem C149_fido : forall (X : x509) (C : crypto) (iter : hashmap -> hashmap) (default auth sig challenge : bytes) (alg : Z)
  (intermediate : bytes) (root : option bytes) (v : valid_attestation) (app : bytes) (k : pubkey) (c c' : cert) (sg cadata : bytes),
  verify_auth_data X default auth sig challenge alg intermediate root = Ok v -> auth_ssh_key (va_auth v) app = Ok k -> ct_key c = k ->
  (forall m, Permutation (iter m) m) -> under_construction c -> well_typed c ->
  key_data (pk_type (ct_signature_key c)) (pk_kind (ct_signature_key c)) cadata ->
  add_signature C iter c sg = Ok c' -> (size (ct_serialized c') <= u32_max)%N ->
  exists p, cert_from_bytes C (ct_serialized c') = Ok p /\ ct_key p = k /\ auth_layout auth (va_auth v)
    /\ forall m blob out, verify_signature C blob m (ct_key p) = Ok out ->
         exists flags counter, (counter <= u32_max)%N
           /\ made_with C (ck_key (ad_cose_key (va_auth v))) (c_sha256 C app ++ [flags] ++ be32 counter ++ c_sha256 C m).
Proof.
  intros X C iter default auth sig challenge alg inter root v app k c c' sg cad Hv Ek Hk P Hu Hw Hca Ha Hs.
  apply C72_accepts in Hv. destruct Hv as (_ & i & _ & _ & _ & Hl & _).
  destruct (C38_issued_parses_back C iter c c' sg cad P Hu Hw Hca Ha Hs) as (p & Hp & (_ & _ & (K1 & K2 & K3) & _) & _).
  exists p. split; [exact Hp|]. rewrite Hk in K1, K2. apply credential_key_iff in Ek. destruct Ek as (Kc & Kt & Kk).
  assert (E : ct_key p = k).
  { destruct (ct_key p) as [t kd cm], k as [t' kd' cm']. cbn in *. subst cm cm'.
    destruct Kk as [(_ & N & ->)|(_ & N & ->)]; cbn [same_material] in K2; subst kd; rewrite N in Kt; vm_compute in Kt; apply ok_inj in Kt; subst t';
      vm_compute in K1; apply ok_inj in K1; subst t; reflexivity. }
  split; [exact E|]. split; [exact Hl|]. rewrite E. intros m blob out V. apply verify_iff in V.
  destruct V as [_ (label & payload & after & st & _ & _ & _ & _ & V)].
  destruct Kk as [(_ & _ & Q)|(_ & _ & Q)]; rewrite Q in V.
  - destruct V as (m' & _ & (flags & counter & tl & _ & Hc & ->) & V). exists flags, counter. split; [exact Hc|]. eexists. right. right. exact V.
  - destruct V as (verify & len & r & s & b1 & b2 & tl & fr & fs & m' & L & _ & _ & _ & _ & _ & (flags & counter & tl' & _ & Hc & ->) & V).
    exists flags, counter. split; [exact Hc|]. exact (made_ecdsa _ _ _ _ _ _ _ L V).
Qed.
Print Assumptions C149_fido.

(** The application is not compared with the one attested.  But a token signs only for its own
    application, so a certificate issued for another application verifies nothing. *)
Theorem C149_other_application : forall (X : x509) (C : crypto) (iter : hashmap -> hashmap) (default auth sig challenge : bytes) (alg : Z)
  (intermediate : bytes) (root : option bytes) (v : valid_attestation) (app : bytes) (k : pubkey) (c c' p : cert) (sg cadata m blob out : bytes),
  verify_auth_data X default auth sig challenge alg intermediate root = Ok v -> auth_ssh_key (va_auth v) app = Ok k -> ct_key c = k ->
  (forall m, Permutation (iter m) m) -> under_construction c -> well_typed c ->
  key_data (pk_type (ct_signature_key c)) (pk_kind (ct_signature_key c)) cadata ->
  add_signature C iter c sg = Ok c' -> (size (ct_serialized c') <= u32_max)%N -> cert_from_bytes C (ct_serialized c') = Ok p ->
  (forall b, length (c_sha256 C b) = 32) ->
  (forall m', made_with C (ck_key (ad_cose_key (va_auth v))) m' -> exists rest, m' = ad_rpid_hash (va_auth v) ++ rest) ->
  verify_signature C blob m (ct_key p) = Ok out -> c_sha256 C app = ad_rpid_hash (va_auth v).
Proof.
  intros X C iter default auth sig challenge alg inter root v app k c c' p sg cad m blob out Hv Ek Hk P Hu Hw Hca Ha Hs Hp L T V.
  destruct (C149_fido X C iter default auth sig challenge alg inter root v app k c c' sg cad Hv Ek Hk P Hu Hw Hca Ha Hs)
    as (p' & Hp' & _ & Hl & F). rewrite Hp in Hp'. apply ok_inj in Hp'. subst p'.
  destruct (F _ _ _ V) as (flags & counter & _ & M). destruct (T _ M) as (rest & E).
  assert (R : length (ad_rpid_hash (va_auth v)) = 32) by (destruct Hl as (x1 & x2 & x3 & x4 & x5 & _ & R & _); exact R).
  apply (f_equal (firstn 32)) in E. rewrite !firstn_app, L, R, Nat.sub_diag, !firstn_O, !app_nil_r in E.
  rewrite !firstn_all2 in E by (rewrite ?L, ?R; lia). exact E.
Qed.
Print Assumptions C149_other_application.

Definition enrol (k : pubkey) : res cert :=
  do? c <- builder (Some [xaa; xbb]) (Some [x00; x00; x00; x00; x00; x00; x00; x01]) k User ex_ca; Ok (apply_ops c PropCert.ex_ops).
Lemma enrol_request k c : encodable k -> enrol k = Ok c -> ct_key c = k /\ under_construction c /\ well_typed c
  /\ key_data (pk_type (ct_signature_key c)) (pk_kind (ct_signature_key c)) (field [x63; x64] ++ []).
Proof.
  intros He H. unfold enrol in H. destruct (builder _ _ k User ex_ca) as [b| |] eqn:Eb; try discriminate. cbn [bind] in H. apply ok_inj in H.
  assert (U : under_construction c).
  { do 7 eexists. split; [exact Eb|]. split; [symmetry; exact H|]. split; [exact He|]. apply ex_encodable. auto. }
  unfold builder in Eb. destruct (as_cert_name (pk_type k)) as [n| |]; try discriminate. cbn [bind] in Eb.
  destruct (kt_from_name n) as [kt| |]; try discriminate. cbn [bind ok_or] in Eb. apply ok_inj in Eb. subst b c.
  split; [reflexivity|]. split; [exact U|]. split.
  - destruct ex_under_construction as (c0 & E & _ & Hw). vm_compute in E. injection E as <-. exact Hw.
  - apply (KD_ed25519 _ [x63; x64] None []); [reflexivity|vm_compute; discriminate|reflexivity].
Qed.
Definition piv_key : pubkey := match verify_chain ex_x (s2b "root") [x03] [x02] None with Ok v => vp_key v | _ => ex_ca end.
Definition fido_enrolled (app : bytes) : pubkey := match auth_ssh_key ex_auth_data app with Ok k => k | _ => ex_ca end.
Example C149_case : exists v c c', verify_chain ex_x (s2b "root") [x03] [x02] None = Ok v /\ ct_key c = vp_key v
  /\ under_construction c /\ well_typed c /\ key_data (pk_type (ct_signature_key c)) (pk_kind (ct_signature_key c)) (field [x63; x64] ++ [])
  /\ add_signature lax_crypto (@rev _) c ex_sig = Ok c' /\ (size (ct_serialized c') <= u32_max)%N.
Proof.
  assert (E : exists c, enrol piv_key = Ok c) by (eexists; vm_compute; reflexivity). destruct E as (c & E).
  destruct (enrol_request piv_key c) as (A1 & A2 & A3 & A4); [|exact E|].
  { apply encodable_iff. split; [unfold known, key_types; cbn [In]; tauto|vm_compute; repeat split; auto; discriminate]. }
  vm_compute in E. injection E as <-.
  eexists _, _, _. split; [vm_compute; reflexivity|]. split; [exact A1|]. split; [exact A2|]. split; [exact A3|]. split; [exact A4|].
  split; [vm_compute; reflexivity|vm_compute; discriminate].
Qed.
(** A token that signs for its own application only. *)
Definition one_app : crypto :=
  mkCrypto (fun b => if bytes_eqb b (s2b "test") then firstn 32 ex_auth else repeat x11 32) (fun _ => repeat x22 48) (fun _ => repeat x33 64)
    (fun _ _ _ => false) (fun _ _ _ => false)
    (fun k m s => (length s =? 3) && (bytes_eqb k [x63; x64] || bytes_eqb (firstn 32 m) (firstn 32 ex_auth))) (fun _ _ _ _ _ => false).
Definition token_sig : bytes := field (s2b "sk-ssh-ed25519@openssh.com") ++ field [x01; x02; x03] ++ [x01] ++ be32 5.
Example C149_case_fido : exists v k c c' p, verify_auth_data ex_x (s2b "root") ex_auth (ex_auth ++ [x09; xff]) [x09] (-7) [x02] None = Ok v
  /\ auth_ssh_key (va_auth v) (s2b "test") = Ok k /\ ct_key c = k /\ under_construction c /\ well_typed c
  /\ key_data (pk_type (ct_signature_key c)) (pk_kind (ct_signature_key c)) (field [x63; x64] ++ [])
  /\ add_signature one_app (@rev _) c ex_sig = Ok c' /\ (size (ct_serialized c') <= u32_max)%N /\ cert_from_bytes one_app (ct_serialized c') = Ok p
  /\ (forall b, length (c_sha256 one_app b) = 32)
  /\ (forall m, made_with one_app (ck_key (ad_cose_key (va_auth v))) m -> exists rest, m = ad_rpid_hash (va_auth v) ++ rest)
  /\ verify_signature one_app token_sig (s2b "hello") (ct_key p) = Ok token_sig.
Proof.
  assert (E : exists c, enrol (fido_enrolled (s2b "test")) = Ok c) by (eexists; vm_compute; reflexivity). destruct E as (c & E).
  destruct (enrol_request (fido_enrolled (s2b "test")) c) as (A1 & A2 & A3 & A4); [|exact E|].
  { apply encodable_iff. split; [unfold known, key_types; cbn [In]; tauto|vm_compute; repeat split; auto; discriminate]. }
  vm_compute in E. injection E as <-.
  eexists _, _, _, _, _. split; [vm_compute; reflexivity|]. split; [vm_compute; reflexivity|]. split; [exact A1|]. split; [exact A2|]. split; [exact A3|]. split; [exact A4|].
  split; [vm_compute; reflexivity|]. split; [vm_compute; discriminate|]. split; [vm_compute; reflexivity|].
  split; [intros b; cbn [one_app c_sha256]; destruct (bytes_eqb b _); reflexivity|].
  split; [|vm_compute; reflexivity]. intros m (s & [H|[H|H]]); [discriminate H..|].
  cbn [one_app c_ed25519_verify] in H. apply andb_prop in H. destruct H as [_ H]. apply orb_prop in H. destruct H as [H|H]; [vm_compute in H; discriminate|].
  apply bytes_eqb_eq in H. exists (skipn 32 m). rewrite <- (firstn_skipn 32 m) at 1. rewrite H. reflexivity.
Qed.
(** Nothing in the library compares the application with the one attested. *)
Theorem C149_application_refuted : exists (X : x509) (C : crypto) (default auth sig challenge intermediate app : bytes) (v : valid_attestation) (c c' p : cert) (sg : bytes),
  verify_auth_data X default auth sig challenge (-7) intermediate None = Ok v /\ auth_ssh_key (va_auth v) app = Ok (ct_key c)
  /\ under_construction c /\ add_signature C (@rev _) c sg = Ok c' /\ cert_from_bytes C (ct_serialized c') = Ok p /\ ct_key p = ct_key c
  /\ c_sha256 C app <> ad_rpid_hash (va_auth v).
Proof.
  assert (E : exists c, enrol (fido_enrolled (s2b "ssh:")) = Ok c) by (eexists; vm_compute; reflexivity). destruct E as (c & E).
  destruct (enrol_request (fido_enrolled (s2b "ssh:")) c) as (A1 & A2 & A3 & A4); [|exact E|].
  { apply encodable_iff. split; [unfold known, key_types; cbn [In]; tauto|vm_compute; repeat split; auto; discriminate]. }
  vm_compute in E. injection E as <-.
  exists ex_x, one_app, (s2b "root"), ex_auth, (ex_auth ++ [x09; xff]), [x09], [x02], (s2b "ssh:"). eexists _, _, _, _, ex_sig.
  split; [vm_compute; reflexivity|]. split; [rewrite A1; vm_compute; reflexivity|]. split; [exact A2|]. split; [vm_compute; reflexivity|].
  split; [vm_compute; reflexivity|]. split; [vm_compute; reflexivity|]. vm_compute. discriminate.
Qed.
Print Assumptions C149_application_refuted.

(** Property C110: recognising an issuer or a signer by the fingerprint of its key. *)
From Verif Require Import Base BaseFacts Utf8 Utf8Facts Str StrFacts Base64 Base64Facts SpecWire SpecText SpecBase64 SpecKeys
  SpecSig SpecCert SpecSshSig Reader ReaderFacts LocalFacts KeyType KeyTypeFacts PubKeyType Writer WriterFacts WireFacts
  Crypto PubKey PubKeyFacts PropKeyType PropPubKey Signature SignatureFacts Cert CertFacts TbsFacts PropCert PropCertText SshSigFacts PropSignature PropSshSig SpecPin.

(** ** C110 *)
Lemma same_plain kt1 kt2 : known kt1 -> known kt2 -> kt_plain kt1 = kt_plain kt2 ->
  family_of (kt_k kt1) = family_of (kt_k kt2) /\ kt_is_sk kt1 = kt_is_sk kt2.
Proof.
  intros H1 H2. revert kt1 H1. apply (known_forall (fun kt1 => kt_plain kt1 = kt_plain kt2 -> family_of (kt_k kt1) = family_of (kt_k kt2) /\ kt_is_sk kt1 = kt_is_sk kt2)).
  revert kt2 H2. apply known_forall. vm_compute. repeat (constructor; [repeat (constructor; [intros E; first [discriminate E|split; reflexivity]|]); constructor|]). constructor.
Qed.
Lemma digest_same C f k1 k2 fp : known (pk_type k1) -> known (pk_type k2) -> kind_ok (pk_type k1) (pk_kind k1) -> kind_ok (pk_type k2) (pk_kind k2) ->
  pk_fingerprint_with C k1 f = Ok fp -> pk_fingerprint_with C k2 f = Ok fp ->
  (kt_plain (pk_type k1) = kt_plain (pk_type k2) /\ pk_kind k1 = pk_kind k2)
  \/ exists x y, x <> y /\ digest_of C f x = digest_of C f y.
Proof.
  intros S1 S2 O1 O2 F1 F2. unfold pk_fingerprint_with in *.
  rewrite pk_encode_enc in F1 by (rewrite ?(canon_ok _ _ O1); auto).
  rewrite pk_encode_enc in F2 by (rewrite ?(canon_ok _ _ O2); auto).
  cbn [bind] in *. rewrite (canon_ok _ _ O1) in F1. rewrite (canon_ok _ _ O2) in F2.
  set (e1 := enc_bytes (kt_plain (pk_type k1)) ++ enc_kind (pk_kind k1)) in *.
  set (e2 := enc_bytes (kt_plain (pk_type k2)) ++ enc_kind (pk_kind k2)) in *.
  assert (Hh : forall e, fp_hash (fp_compute C f e) = b64_core (digest_of C f e)).
  { intros e. unfold fp_compute. cbn [fp_hash]. rewrite take_until_encode. destruct f; reflexivity. }
  assert (E : digest_of C f e1 = digest_of C f e2).
  { assert (B : b64_core (digest_of C f e1) = b64_core (digest_of C f e2)) by (rewrite <- !Hh; congruence).
    pose proof (b64_decode_core_pad (digest_of C f e1) 0 ltac:(lia)) as Q1.
    pose proof (b64_decode_core_pad (digest_of C f e2) 0 ltac:(lia)) as Q2.
    rewrite B in Q1. congruence. }
  destruct (bytes_dec e1 e2) as [Ee|Ne]; [left|right; exists e1, e2; auto].
  unfold e1, e2 in Ee. apply enc_bytes_inj in Ee; [|apply known_fits; assumption|apply known_fits; assumption].
  destruct Ee as [En Ek]. split; [exact En|]. destruct (same_plain _ _ S1 S2 En) as [Fa Sk].
  assert (O3 : kind_ok (pk_type k1) (pk_kind k2)).
  { revert O2. unfold kind_ok. rewrite Fa, Sk. auto. }
  apply (enc_kind_inj (pk_type k1) _ _ [] []); auto. rewrite !app_nil_r. exact Ek.
Qed.
Lemma read_ok k : was_read k -> known (pk_type k) /\ kind_ok (pk_type k) (pk_kind k).
Proof.
  intros [(b & H)|(t & H)].
  - apply pk_from_bytes_iff in H. destruct H as [(A & _ & B) _]. auto.
  - destruct (split_whitespace t) as [|w1 [|w2 ws]] eqn:W.
    1,2: exfalso; unfold pk_from_string in H; cbv zeta in H; rewrite W in H; discriminate.
    apply (pk_from_string_words _ _ _ _ _ W) in H. destruct H as ((A & _ & B) & _). destruct k. auto.
Qed.
(** Only the family of a key and its numbers matter for its signatures. *)
Lemma label_plain C label kind st : kt_from_name label = Ok st -> rsa_label label kind \/ (exists v n, ecdsa_label C label v n) \/ ed25519_label label ->
  kt_k st = match family_of (kt_k st) with FRsa => KRsa | FEcdsa => KEcdsa | FEd25519 => KEd25519 end.
Proof.
  intros E [H|[(v & n & H)|H]]; inversion H; subst label; vm_compute in E; injection E as <-; reflexivity.
Qed.
Lemma accepted_plain C k m blob : accepted C k m blob ->
  kt_k (pk_type k) = match family_of (kt_k (pk_type k)) with FRsa => KRsa | FEcdsa => KEcdsa | FEd25519 => KEd25519 end.
Proof.
  intros (label & payload & after & st & _ & _ & H3 & H4 & H5). rewrite <- H4.
  destruct (pk_kind k).
  - destruct H5 as (alg & Hl & _). apply (label_plain C label alg); [exact H3|left; exact Hl].
  - destruct H5 as (v & n & r & s & b1 & b2 & tl & fr & fs & mm & Hl & _). eapply (label_plain C label RsaSha1); [exact H3|]. right. left. eauto.
  - destruct H5 as (mm & Hl & _). eapply (label_plain C label RsaSha1); [exact H3|]. right. right. exact Hl.
Qed.
Lemma plain_kind kt : known kt -> kt_is_cert kt = false -> kt_k kt = match family_of (kt_k kt) with FRsa => KRsa | FEcdsa => KEcdsa | FEd25519 => KEd25519 end.
Proof. revert kt. apply (known_forall (fun kt => kt_is_cert kt = false -> kt_k kt = match family_of (kt_k kt) with FRsa => KRsa | FEcdsa => KEcdsa | FEd25519 => KEd25519 end)). repeat (constructor; [cbn; first [reflexivity|discriminate]|]). constructor. Qed.
Lemma accepted_same C k1 k2 m blob : pk_kind k1 = pk_kind k2 -> family_of (kt_k (pk_type k1)) = family_of (kt_k (pk_type k2)) ->
  known (pk_type k2) -> kt_is_cert (pk_type k2) = false -> accepted C k1 m blob -> accepted C k2 m blob.
Proof.
  intros E F K P H. pose proof (accepted_plain _ _ _ _ H) as A. pose proof (plain_kind _ K P) as B. rewrite F in A. rewrite <- B in A.
  unfold accepted in *. rewrite <- A, <- E. exact H.
Qed.
Lemma recognised C f k1 k2 fp m blob : known (pk_type k1) -> kind_ok (pk_type k1) (pk_kind k1) -> was_read k2 -> kt_is_cert (pk_type k2) = false ->
  pk_fingerprint_with C k1 f = Ok fp -> pk_fingerprint_with C k2 f = Ok fp -> accepted C k1 m blob ->
  collision C f \/ (pk_kind k1 = pk_kind k2 /\ accepted C k2 m blob).
Proof.
  intros K1 O1 R P F1 F2 A. destruct (read_ok _ R) as [K2 O2].
  destruct (digest_same C f k1 k2 fp K1 K2 O1 O2 F1 F2) as [[En Ek]|(x & y & Hne & E)].
  - right. split; [exact Ek|]. destruct (same_plain _ _ K1 K2 En) as [Fa _]. eapply accepted_same; eassumption.
  - left. exists x, y. split; [exact Hne|]. destruct f; exact E.
Qed.

(** A certificate whose issuer has the fingerprint of a trusted key was signed with that key, or
    two texts with the same digest are known. *)
Theorem C110_issuer : forall (C : crypto) (f : fp_kind) (data : bytes) (c : cert) (k : pubkey) (fp : fingerprint),
  cert_from_bytes C data = Ok c -> was_read k -> kt_is_cert (pk_type k) = false ->
  pk_fingerprint_with C (ct_signature_key c) f = Ok fp -> pk_fingerprint_with C k f = Ok fp ->
  collision C f
  \/ (pk_kind (ct_signature_key c) = pk_kind k
      /\ exists sp rest, data = sp ++ field (ct_signature c) ++ rest /\ signed_part c sp /\ accepted C k sp (ct_signature c)).
Proof.
  intros C f data c k fp H R P F1 F2. pose proof (C35_valid_signature C data c H) as (sp & rest & Hd & Hs & Ha).
  assert (O : known (pk_type (ct_signature_key c)) /\ kind_ok (pk_type (ct_signature_key c)) (pk_kind (ct_signature_key c))).
  { destruct Hs as (kd & pb & co & cb & ex & eb & skd & skpost & _ & _ & _ & _ & _ & _ & _ & _ & _ & _ & _ & _ & _ & _ & _ & _ & _ & _ & _ & Ht & _ & Hk & _).
    apply kt_from_name_ok in Ht. destruct Ht as [Ht _]. apply key_data_iff in Hk. split; [exact Ht|apply Hk]. }
  destruct (recognised C f _ k fp sp (ct_signature c) (proj1 O) (proj2 O) R P F1 F2 Ha) as [X|[X Y]]; [left; exact X|right]. eauto 8.
Qed.
Print Assumptions C110_issuer.

(** The same for file signatures. *)
Theorem C110_signer : forall (C : crypto) (f : fp_kind) (text m ns : bytes) (s : sshsig) (v : verified) (k : pubkey) (fp : fingerprint),
  digests_fit C -> sshsig_from_armored_string text = Ok s -> from_ssh_signature C m s ns None = Ok v ->
  was_read k -> kt_is_cert (pk_type k) = false ->
  pk_fingerprint_with C (ss_pubkey s) f = Ok fp -> pk_fingerprint_with C k f = Ok fp ->
  collision C f
  \/ (pk_kind (ss_pubkey s) = pk_kind k /\ exists p, payload C ns (ss_hash s) m p /\ accepted C k p (ss_signature s)).
Proof.
  intros C f text m ns s v k fp Hd Hs Hv R P F1 F2. apply C47_accepts_exactly in Hs. destruct Hs as (bs & tl & Hs & _).
  destruct Hs as (kd & post & rv & n & Ht & _ & Hk & _ & _ & Hn & _). apply kt_from_name_ok in Ht. destruct Ht as [Ht _]. apply key_data_iff in Hk. destruct Hk as [Hk _].
  apply (C48_binds C m s ns None v Hn Hd) in Hv. destruct Hv as (_ & _ & (p & Hp & Ha) & _).
  destruct (recognised C f _ k fp p (ss_signature s) Ht Hk R P F1 F2 Ha) as [X|[X Y]]; [left; exact X|right]. eauto.
Qed.
Print Assumptions C110_signer.

(** The issuer of an accepted certificate is not itself of a certificate type, except for hardware keys. *)
Theorem C110_issuer_type : forall (C : crypto) (data : bytes) (c : cert), cert_from_bytes C data = Ok c ->
  kt_is_cert (pk_type (ct_signature_key c)) = true -> kt_is_sk (pk_type (ct_signature_key c)) = true.
Proof.
  intros C data c H. destruct (C35_valid_signature C data c H) as (sp & rest & _ & Hs & Ha). apply accepted_plain in Ha. revert Ha.
  assert (O : known (pk_type (ct_signature_key c))).
  { destruct Hs as (kd & pb & co & cb & ex & eb & skd & skpost & _ & _ & _ & _ & _ & _ & _ & _ & _ & _ & _ & _ & _ & _ & _ & _ & _ & _ & _ & Ht & _).
    apply kt_from_name_ok in Ht. apply Ht. }
  revert O. generalize (pk_type (ct_signature_key c)).
  apply (known_forall (fun kt => kt_k kt = match family_of (kt_k kt) with FRsa => KRsa | FEcdsa => KEcdsa | FEd25519 => KEd25519 end -> kt_is_cert kt = true -> kt_is_sk kt = true)). repeat (constructor; [cbn; first [reflexivity|discriminate]|]). constructor.
Qed.
Print Assumptions C110_issuer_type.
Definition ex_odd_ca : pubkey := mkPubKey (mkKeyType (s2b "sk-ssh-ed25519-cert-v01@openssh.com") (s2b "ED25519-SK-CERT") true true
    KEd25519 (s2b "sk-ssh-ed25519@openssh.com")) (PkEd25519 [x01; x02] (Some (s2b "ssh:"))) None.
Definition ex_odd_sig : bytes := field (s2b "sk-ssh-ed25519@openssh.com") ++ field [x09] ++ [x01; x00; x00; x00; x05].
Definition ex_odd_data : bytes :=
  match builder (Some [xaa; xbb]) (Some [x00; x00; x00; x00; x00; x00; x00; x01]) ex_subject User ex_odd_ca with
  | Ok c => match tbs_certificate (@rev _) (apply_ops c ex_ops), pk_encode ex_odd_ca with
            | Ok tbs, Ok e => firstn (length tbs - length (field e)) tbs
                ++ field (field (kt_name (pk_type ex_odd_ca)) ++ field [x01; x02] ++ field (s2b "ssh:")) ++ field ex_odd_sig
            | _, _ => []
            end
  | _ => []
  end.
Theorem C110_issuer_never_a_certificate_refuted : exists (C : crypto) (data : bytes) (c : cert),
  cert_from_bytes C data = Ok c /\ kt_is_cert (pk_type (ct_signature_key c)) = true.
Proof. exists PropPubKey.ex_crypto. exists ex_odd_data. eexists. split; vm_compute; reflexivity. Qed.
Print Assumptions C110_issuer_never_a_certificate_refuted.

(** Comparing with [==] is too strict: the comment counts. *)
Theorem C110_comment : forall (C : crypto) (data line comment : bytes) (c : cert) (k : pubkey),
  cert_from_bytes C data = Ok c -> pk_from_string line = Ok k -> pk_comment k = Some comment -> pubkey_eqb (ct_signature_key c) k = false.
Proof.
  intros C data line cm c k H _ Hk. destruct (pubkey_eqb (ct_signature_key c) k) eqn:E; [|reflexivity]. apply pubkey_eqb_eq in E.
  apply C35_valid_signature in H. destruct H as (sp & rest & _ & Hs & _).
  destruct Hs as (kd & pb & co & cb & ex & eb & skd & skpost & _ & _ & _ & _ & _ & _ & _ & _ & _ & _ & _ & _ & _ & _ & _ & _ & _ & _ & _ & _ & Hn & _).
  congruence.
Qed.
Print Assumptions C110_comment.

(** Identity digests have no collisions, so the trusted key really signed. *)
Definition ex_pin_cert : res cert :=
  do? c <- builder (Some [xaa; xbb]) (Some [x00; x00; x00; x00; x00; x00; x00; x01]) ex_subject User ex_ca;
  add_signature PropPubKey.ex_crypto (@rev _) (apply_ops c ex_ops) ex_sig.
Definition ex_pin_data : bytes := match ex_pin_cert with Ok c => ct_serialized c | _ => [] end.
Definition ex_ca_line : bytes := match pk_display ex_ca with Ok t => t ++ s2b " ca@host" | _ => [] end.
Example C110_case : exists c k fp, cert_from_bytes PropPubKey.ex_crypto ex_pin_data = Ok c /\ pk_from_string ex_ca_line = Ok k /\ was_read k
  /\ kt_is_cert (pk_type k) = false /\ pk_comment k = Some (s2b "ca@host")
  /\ pk_fingerprint_with PropPubKey.ex_crypto (ct_signature_key c) FpSha256 = Ok fp /\ pk_fingerprint_with PropPubKey.ex_crypto k FpSha256 = Ok fp
  /\ ~ collision PropPubKey.ex_crypto FpSha256.
Proof.
  assert (E : exists k, pk_from_string ex_ca_line = Ok k) by (eexists; vm_compute; reflexivity). destruct E as [k E].
  eexists _, k, _. split; [vm_compute; reflexivity|]. split; [exact E|]. split; [right; eauto|].
  vm_compute in E. injection E as <-. split; [reflexivity|]. split; [reflexivity|]. split; [vm_compute; reflexivity|]. split; [vm_compute; reflexivity|].
  intros (x & y & N & D). exact (N D).
Qed.

(** Property C128: what the error of a refused signature tells. *)
From Coq Require Import Lia.
From Verif Require Import Base BaseFacts SpecWire SpecKeys SpecNames SpecErrors SpecSig SpecCert Reader ReaderFacts LocalFacts KeyType KeyTypeFacts
  PubKeyType WireFacts Crypto Writer PubKey PubKeyFacts Signature SignatureFacts PropPubKey PropSignature Cert CertFacts PropCert PropKeyType
  SpecRefused RefusedFacts.

(** ** Signatures *)
Theorem C128_refusals : forall (C : crypto) (k : pubkey) (msg blob : bytes) (e : error),
  verify_signature C blob msg k = Err e <-> refused C k msg blob e.
Proof. intros. apply verify_err_iff. Qed.
Print Assumptions C128_refusals.

(** Every signature is accepted, or refused for one reason. *)
Theorem C128_one_reason : forall (C : crypto) (k : pubkey) (msg blob : bytes),
  (accepted C k msg blob /\ forall e, ~ refused C k msg blob e)
  \/ (~ accepted C k msg blob /\ exists! e, refused C k msg blob e).
Proof.
  intros C k msg blob. destruct (verify_signature C blob msg k) as [o|e|] eqn:E.
  - left. split; [apply verify_iff in E; apply E|]. intros e H. apply verify_err_iff in H. congruence.
  - right. split.
    + intros H. assert (X := proj2 (verify_iff C blob msg k blob) (conj eq_refl H)). congruence.
    + exists e. split; [apply verify_err_iff, E|]. intros e' H. apply verify_err_iff in H. congruence.
  - destruct (verify_not_panic _ _ _ _ E).
Qed.
Print Assumptions C128_one_reason.

Lemma counter_some a b t e : (a = None <-> b = None) -> no_counter a t e -> no_counter b t e.
Proof.
  intros H X. destruct X as [x -> Hl|x -> Hl]; (destruct b as [y|]; [|exfalso; assert (Some x = None) by tauto; discriminate]).
  - apply (NC_end _ _ y); auto.
  - apply (NC_short _ _ y); auto.
Qed.
Lemma ecdsa_label_any C C' l v len : ecdsa_label C l v len -> exists v', ecdsa_label C' l v' len.
Proof. destruct 1; eexists; constructor. Qed.
Lemma same_form_refused C C' k k' msg msg' blob e : same_form k k' -> e <> EInvalidSignature ->
  refused C k msg blob e -> refused C' k' msg' blob e.
Proof.
  intros [Ht Hf] He H. destruct H as [e H|l t H1 H2 H3|l t H1 H2 H3|l t H1 H2 H3|l t e H1 H2 H3]; rewrite ?Ht in *.
  - apply R_field, H.
  - exact (R_text _ _ _ _ l t H1 H2 H3).
  - exact (R_type _ _ _ _ l t H1 H2 H3).
  - exact (R_kind _ _ _ _ l t H1 H2 H3).
  - apply (R_body _ _ _ _ l t); [exact H1|exact H2|]. clear H1 H2.
    destruct H3 as [x n E Hl|x n a er E Hl Hn|x n a p u E Hl Hp Hb Hv|c key app er E Hn|c key app p u E Hp Hb Hl|c key app p u v len er E Hp Hb Hl Hn
      |c key app p u v len r s b1 b2 w er E Hp Hb Hl Hn Hr Hs Z1 Z2 Hc|c key app p u v len r s b1 b2 w fr fs m E Hp Hb Hl Hn Hr Hs F1 F2 Hm Hv
      |key app E Hl|key app er E Hl Hn|key app p u er E Hl Hp Hb Hc|key app p u m E Hl Hp Hb Hm Hv]; rewrite E in Hf; destruct (pk_kind k') as [e' n'|c' key' app'|key' app'] eqn:E'; try contradiction; try congruence.
    + eapply RsaLabel; [reflexivity|exact Hl].
    + eapply RsaField; [reflexivity|exact Hl|exact Hn].
    + eapply EcField; [reflexivity|exact Hn].
    + eapply EcLabel; [reflexivity|exact Hp|exact Hb|]. intros v len X. destruct (ecdsa_label_any _ C _ _ _ X) as [v' X']. exact (Hl v' len X').
    + destruct (ecdsa_label_any _ C' _ _ _ Hl) as [v' Hl']. eapply EcNumbers; [reflexivity|exact Hp|exact Hb|exact Hl'|exact Hn].
    + destruct (ecdsa_label_any _ C' _ _ _ Hl) as [v' Hl']. eapply EcCounter;
        [reflexivity|exact Hp|exact Hb|exact Hl'|exact Hn|exact Hr|exact Hs|exact Z1|exact Z2|exact (counter_some _ _ _ _ Hf Hc)].
    + eapply EdLabel; [reflexivity|exact Hl].
    + eapply EdField; [reflexivity|exact Hl|exact Hn].
    + eapply EdCounter; [reflexivity|exact Hl|exact Hp|exact Hb|exact (counter_some _ _ _ _ Hf Hc)].
Qed.

(** Every error but [InvalidSignature] comes from the form of the signature alone: it is the same
    for all messages, for all keys of the same form, and whatever the primitives say. *)
Theorem C128_form : forall (C C' : crypto) (k k' : pubkey) (msg msg' blob : bytes) (e : error),
  same_form k k' -> e <> EInvalidSignature ->
  verify_signature C blob msg k = Err e -> verify_signature C' blob msg' k' = Err e.
Proof. intros C C' k k' msg msg' blob e Hs He H. apply verify_err_iff. apply verify_err_iff in H. eapply same_form_refused; eassumption. Qed.
Print Assumptions C128_form.

Lemma invalid_dec (e : error) : e = EInvalidSignature \/ e <> EInvalidSignature.
Proof. destruct e; try (right; discriminate). left. reflexivity. Qed.
Lemma no_number_error b e : no_number b e -> e <> EInvalidSignature.
Proof. intros H. destruct H as [e H|]; [destruct H|]; discriminate. Qed.
Lemma accepting_not_invalid C k msg blob : ~ refused (accepting C) k msg blob EInvalidSignature.
Proof.
  intros H. inversion H as [e X| | | |l t e _ _ X]; subst; [inversion X|].
  inversion X as [|x n a er E Hl Hn|x n a p u E Hl Hp Hb Hv|c key app er E Hn| |c key app p u v len er E Hp Hb Hl Hn
      |c key app p u v len r s b1 b2 w er E Hp Hb Hl Hn Hr Hs Z1 Z2 Hc|c key app p u v len r s b1 b2 w fr fs m E Hp Hb Hl Hn Hr Hs F1 F2 Hm Hv
      | |key app er E Hl Hn|key app p u er E Hl Hp Hb Hc|key app p u m E Hl Hp Hb Hm Hv]; subst.
  - inversion Hn.
  - discriminate Hv.
  - inversion Hn.
  - inversion Hn as [e Y|r b1 u0 e _ _ Y|]; subst; exact (no_number_error _ _ Y eq_refl).
  - inversion Hc.
  - destruct Hl; discriminate Hv.
  - inversion Hn.
  - inversion Hc.
  - discriminate Hv.
Qed.
Lemma same_form_refl k : same_form k k.
Proof. split; [reflexivity|]. destruct (pk_kind k); tauto. Qed.

(** [InvalidSignature] is given exactly to signatures of the right form that the primitive refuses. *)
Theorem C128_invalid_signature : forall (C : crypto) (k : pubkey) (msg blob : bytes),
  verify_signature C blob msg k = Err EInvalidSignature <->
  accepted (accepting C) k msg blob /\ ~ accepted C k msg blob.
Proof.
  intros C k msg blob. split.
  - intros H. split.
    2:{ intros X. assert (Y := proj2 (verify_iff C blob msg k blob) (conj eq_refl X)). congruence. }
    destruct (C128_one_reason (accepting C) k msg blob) as [[X _]|[_ (e & X & _)]]; [exact X|exfalso].
    assert (He : e <> EInvalidSignature) by (intros ->; exact (accepting_not_invalid _ _ _ _ X)).
    apply (same_form_refused _ C _ k _ msg _ _ (same_form_refl k) He) in X. apply verify_err_iff in X. congruence.
  - intros [H1 H2]. destruct (C128_one_reason C k msg blob) as [[X _]|[_ (e & X & _)]]; [tauto|].
    destruct (invalid_dec e) as [->|He]; [apply verify_err_iff, X|exfalso].
    apply (same_form_refused _ (accepting C) _ k _ msg _ _ (same_form_refl k) He) in X.
    apply verify_err_iff in X. assert (Y := proj2 (verify_iff _ blob msg k blob) (conj eq_refl H1)). congruence.
Qed.
Print Assumptions C128_invalid_signature.

(** A mismatch of types does not mean that the signature comes from another kind of key: keys on
    the curve nistp521 have no signatures that are accepted. *)
Theorem C128_mismatch_means_other_key_refuted : exists (k : pubkey) (blob : bytes),
  (exists b, pk_from_bytes b = Ok k)
  /\ (exists rest, blob = field (kt_name (pk_type k)) ++ rest)
  /\ forall C msg, verify_signature C blob msg k = Err EKeyTypeMismatch.
Proof.
  exists (mkPubKey (mkKeyType (s2b "ecdsa-sha2-nistp521") (s2b "ECDSA") false false KEcdsa (s2b "ecdsa-sha2-nistp521"))
            (PkEcdsa (mkCurve Nistp521 (s2b "nistp521")) [x04; x01] None) None),
    (field (s2b "ecdsa-sha2-nistp521") ++ field (field [x01] ++ field [x02])).
  split; [exists (field (s2b "ecdsa-sha2-nistp521") ++ field (s2b "nistp521") ++ field [x04; x01]); vm_compute; reflexivity|].
  split; [eexists; reflexivity|]. intros C msg. reflexivity.
Qed.
Print Assumptions C128_mismatch_means_other_key_refuted.

(** ** Certificates *)

(** A certificate whose signed part is in order is refused for the reason its signature is
    refused, or because there is none. *)
Theorem C128_certificate_refusals : forall (C : crypto) (c : cert) (sp t : bytes) (e : error),
  signed_part c sp ->
  cert_from_bytes C (sp ++ t) = Err e <->
  no_field t e \/ exists sg rest, field_ok sg /\ t = field sg ++ rest /\ refused C (ct_signature_key c) sp sg e.
Proof.
  intros C c sp t e H. apply signed_core in H. destruct H as (c1 & Hc & Hs & _).
  assert (K : ct_signature_key c1 = ct_signature_key c) by apply Hs. rewrite <- K. clear c Hs K.
  rewrite cert_from_bytes_split. unfold run, mbind at 1, reader_new.
  assert (A : signed_parser (mkReader (sp ++ t) 0) = (Ok (strip c1), mkReader (sp ++ t) (0 + length sp))).
  { apply parses_signed. exists sp, t. split; [split; [repeat split|exact Hc]|auto]. }
  rewrite A. cbn [Nat.add]. clear A.
  assert (Kk : ct_signature_key (strip c1) = ct_signature_key c1) by reflexivity. rewrite <- Kk.
  generalize (strip c1). clear Kk. intros c0. pose proof (core_length _ _ Hc) as Hl. clear Hc c1.
  unfold cert_tail, get_offset, set_offset, put_off. unfold mbind at 1. cbn [r_off].
  assert (L : local read_bytes) by apply local_read_bytes.
  assert (R : fst (read_bytes (mkReader (sp ++ t) (length sp))) = run read_bytes t
    /\ rest (snd (read_bytes (mkReader (sp ++ t) (length sp)))) = rest (snd (read_bytes (reader_new t)))).
  { apply L. unfold rest, reader_new. cbn [r_off r_inner]. rewrite skipn_app_exact by reflexivity. reflexivity. }
  destruct R as [R _]. unfold mbind at 1.
  destruct (read_bytes (mkReader (sp ++ t) (length sp))) as [[sg|e'|] r'] eqn:E; cbn [fst] in R |- *.
  - assert (Hsg : exists rest, field_ok sg /\ t = field sg ++ rest).
    { symmetry in R. apply (run_parses _ _ _ _ parses_read_bytes) in R. destruct R as (bs & post & [Hf ->] & ->).
      exists post. rewrite field_ok_fits, field_enc. auto. }
    apply parses_read_bytes in E. destruct E as (b & tl & [Hf ->] & Hs & ->). unfold mbind at 1. cbn [r_inner].
    assert (R2 : read_raw_bytes (length sp) (mkReader (sp ++ t) 0) = (Ok sp, mkReader (sp ++ t) (0 + length sp))).
    { apply parses_read_raw; [exact Hl|]. exists sp, t. auto. }
    unfold mbind at 1. rewrite R2. unfold mbind, lift. destruct Hsg as (rest & Hok & Et). split.
    + destruct (verify_signature C sg sp (ct_signature_key c0)) as [o|er|] eqn:V; cbn [fst ret]; try discriminate.
      intros [= <-]. right. exists sg, rest. apply verify_err_iff in V. auto.
    + intros [X|(sg' & rest' & Hok' & Et' & X)].
      * apply run_bytes in X. congruence.
      * rewrite Et in Et'. apply field_inj in Et'; [|assumption..]. destruct Et' as [<- _].
        apply verify_err_iff in X. rewrite X. reflexivity.
  - split.
    + intros [= <-]. left. apply run_bytes. symmetry. exact R.
    + intros [X|(sg & rest & Hok & -> & _)].
      * apply run_bytes in X. congruence.
      * assert (Y : run read_bytes (field sg ++ rest) = Ok sg).
        { apply (run_parses _ _ _ _ parses_read_bytes). exists (enc_bytes sg), rest. rewrite field_ok_fits in Hok. rewrite field_enc. auto. }
        congruence.
  - exfalso. symmetry in R. exact (nopanic_read_bytes (reader_new t) R).
Qed.
Print Assumptions C128_certificate_refusals.

(** ** Issuing *)
Lemma key_data_no_err k w e : write_pub_key_data k w <> Err e.
Proof.
  unfold write_pub_key_data. destruct (pk_kind k) as [x n|c key app|key app]; [discriminate|..];
    (destruct (kt_is_sk _); [|discriminate]); destruct app; discriminate.
Qed.
Lemma encode_no_err k e : pk_encode k <> Err e.
Proof.
  unfold pk_encode. destruct (pk_kind k) as [x n|c key app|key app]; [discriminate|..];
    (destruct (kt_is_sk _); [|discriminate]); destruct app; discriminate.
Qed.
Lemma cert_name_no_err kt e : as_cert_name kt <> Err e.
Proof. unfold as_cert_name, usub, slice_to. destruct (negb _); [discriminate|]. destruct (_ <=? _); [|discriminate]. cbn. destruct (_ <=? _); discriminate. Qed.
Lemma map_no_err m : forall w e, write_map_entries m w <> Err e.
Proof.
  induction m as [|[k v] m IH]; intros w e; cbn [write_map_entries]; [discriminate|].
  destruct (write_map_entry (k, v) w) eqn:E; cbn [bind]; [apply IH| |discriminate].
  exfalso. revert E. unfold write_map_entry, u32_add. destruct (snd _); [discriminate|]. destruct (_ <? _)%N; discriminate.
Qed.
Lemma tbs_no_err iter c e : tbs_certificate iter c <> Err e.
Proof.
  unfold tbs_certificate. destruct (as_cert_name _) eqn:E1; cbn [bind]; [|destruct (cert_name_no_err _ _ E1)|discriminate].
  destruct (write_pub_key_data _ _) eqn:E2; cbn [bind]; [|destruct (key_data_no_err _ _ _ E2)|discriminate].
  destruct (write_string_map (iter (ct_critical_options c)) _) eqn:E3; cbn [bind]; [|destruct (map_no_err _ _ _ E3)|discriminate].
  destruct (write_string_map (iter (ct_extensions c)) _) eqn:E4; cbn [bind]; [|destruct (map_no_err _ _ _ E4)|discriminate].
  destruct (pk_encode _) eqn:E5; cbn [bind]; [discriminate|destruct (encode_no_err _ _ E5)|discriminate].
Qed.

(** Adding a signature and signing fail for the reason the signature is refused, with the signer's
    own error, or with [SigningError] when the signer gives no signature. *)
Theorem C128_issuing : forall (C : crypto) (iter : hashmap -> hashmap) (c : cert),
  (forall sg e, add_signature C iter c sg = Err e <->
     exists tbs, tbs_certificate iter c = Ok tbs /\ refused C (ct_signature_key c) tbs sg e)
  /\ (forall sign e, cert_sign C iter c sign = Err e <->
     exists tbs, tbs_certificate iter c = Ok tbs /\
       (sign tbs = Err e \/ (sign tbs = Ok None /\ e = ESigningError)
        \/ exists sg, sign tbs = Ok (Some sg) /\ refused C (ct_signature_key c) tbs sg e)).
Proof.
  intros C iter c.
  assert (A : forall sg e, add_signature C iter c sg = Err e <->
     exists tbs, tbs_certificate iter c = Ok tbs /\ refused C (ct_signature_key c) tbs sg e).
  { intros sg e. unfold add_signature. destruct (tbs_certificate iter c) as [tbs|e'|] eqn:E; cbn [bind].
    - destruct (verify_signature C sg tbs (ct_signature_key c)) as [o|e'|] eqn:V; cbn [bind].
      + split; [discriminate|]. intros (t & [= <-] & H). apply verify_err_iff in H. congruence.
      + split.
        * intros [= <-]. exists tbs. split; [reflexivity|]. apply verify_err_iff, V.
        * intros (t & [= <-] & H). apply verify_err_iff in H. congruence.
      + destruct (verify_not_panic _ _ _ _ V).
    - destruct (tbs_no_err _ _ _ E).
    - split; [discriminate|]. intros (t & H & _). discriminate. }
  split; [exact A|]. intros sign e. unfold cert_sign. destruct (tbs_certificate iter c) as [tbs|e'|] eqn:E; cbn [bind].
  - destruct (sign tbs) as [[sg|]|e'|] eqn:S; cbn [bind ok_or].
    + rewrite A. split.
      * intros (t & [= <-] & H). exists tbs. split; [reflexivity|]. right. right. exists sg. auto.
      * intros (t & [= <-] & [H|[[H _]|(s & H & X)]]); [congruence|congruence|]. exists tbs. split; [reflexivity|congruence].
    + split.
      * intros [= <-]. exists tbs. auto.
      * intros (t & [= <-] & [H|[[_ H]|(s & H & X)]]); [congruence|subst e; reflexivity|congruence].
    + split.
      * intros [= <-]. exists tbs. auto.
      * intros (t & [= <-] & [H|[[H _]|(s & H & X)]]); congruence.
    + split; [discriminate|]. intros (t & [= <-] & [H|[[H _]|(s & H & X)]]); congruence.
  - destruct (tbs_no_err _ _ _ E).
  - split; [discriminate|]. intros (t & H & _). discriminate.
Qed.
Print Assumptions C128_issuing.

(** Starting a certificate fails only when there are no random numbers. *)
Theorem C128_builder : forall (nonce serial : option bytes) (pub ca : pubkey) (t : cert_type) (n : bytes) (e : error),
  kt_from_name n = Ok (pk_type pub) ->
  builder nonce serial pub t ca <> Panic
  /\ (builder nonce serial pub t ca = Err e <-> (nonce = None \/ serial = None) /\ e = EUnexpectedEof).
Proof.
  intros nonce serial pub ca t n e H. apply C18_cert_names in H. destruct H as (cn & ckt & H1 & H2 & _).
  unfold builder. rewrite H1. cbn [bind]. rewrite H2. cbn [bind].
  destruct nonce as [a|], serial as [b|]; cbn; (split; [discriminate|]); split; intuition congruence.
Qed.
Print Assumptions C128_builder.

(** ** Cases *)
Definition no_crypto : crypto :=
  mkCrypto (fun _ => []) (fun _ => []) (fun _ => []) (fun _ _ _ => false) (fun _ _ _ => false) (fun _ _ _ => false) (fun _ _ _ _ _ => false).
Example C128_case_errors :
  let k := ed_key_of (Some (s2b "ssh:")) in let v b := verify_signature no_crypto b (s2b "m") k in
  v [] = Err EUnexpectedEof /\ v [x00] = Err EInvalidFormat /\ v (field [xff]) = Err EUtf8
  /\ v (field (s2b "ssh-dss")) = Err (EUnknownKeyType (s2b "ssh-dss")) /\ v (field (s2b "ssh-rsa")) = Err EKeyTypeMismatch
  /\ v (field (s2b "sk-ssh-ed25519-cert-v01@openssh.com")) = Err EKeyTypeMismatch
  /\ v (field (s2b "ssh-ed25519") ++ field [x01]) = Err EUnexpectedEof
  /\ v (field (s2b "ssh-ed25519") ++ field [x01] ++ [x01; x00]) = Err EInvalidFormat
  /\ v (field (s2b "ssh-ed25519") ++ field [x01] ++ [x01; x00; x00; x00; x07]) = Err EInvalidSignature.
Proof. vm_compute. repeat split. Qed.
Example C128_case_form : let k := ed_key_of None in let blob := field (s2b "ssh-ed25519") ++ field [x01] in
  same_form k (mkPubKey (pk_type k) (PkEd25519 [x09] None) (Some (s2b "c")))
  /\ verify_signature no_crypto (field (s2b "ssh-rsa")) (s2b "m") k = Err EKeyTypeMismatch
  /\ accepted (accepting no_crypto) k (s2b "m") blob /\ ~ accepted no_crypto k (s2b "m") blob.
Proof.
  cbn zeta. split; [split; [reflexivity|cbn; tauto]|]. split; [reflexivity|].
  apply C128_invalid_signature. vm_compute. reflexivity.
Qed.
Example C128_case_numbers : let k := mkPubKey (mkKeyType (s2b "ecdsa-sha2-nistp256") (s2b "ECDSA") false false KEcdsa (s2b "ecdsa-sha2-nistp256"))
      (PkEcdsa (mkCurve Nistp256 (s2b "nistp256")) [x04] None) None in
  let v p := verify_signature no_crypto (field (s2b "ecdsa-sha2-nistp256") ++ field p) (s2b "m") k in
  v [] = Err EUnexpectedEof /\ v (field [x80]) = Err EInvalidFormat /\ v (field [x01] ++ field (repeat x01 33)) = Err EInvalidFormat
  /\ v (field [x01] ++ field (x00 :: repeat xff 32)) = Err EInvalidSignature.
Proof. vm_compute. repeat split. Qed.
Example C128_case_certificate : exists c sp, signed_part c sp
  /\ cert_from_bytes no_crypto (sp ++ field (field (s2b "ssh-dss"))) = Err (EUnknownKeyType (s2b "ssh-dss"))
  /\ cert_from_bytes no_crypto (sp ++ [x00]) = Err EInvalidFormat.
Proof.
  assert (E : exists p, cert_from_bytes lax_crypto ex_data = Ok p) by (eexists; vm_compute; reflexivity).
  destruct E as (p & Hp). apply C35_valid_signature in Hp. destruct Hp as (sp & rest & Hd & Hs & _).
  exists p, sp. split; [exact Hs|]. split.
  - apply (C128_certificate_refusals _ p _ _ _ Hs). right. exists (field (s2b "ssh-dss")), []. rewrite app_nil_r.
    split; [vm_compute; discriminate|]. split; [reflexivity|]. apply verify_err_iff. reflexivity.
  - apply (C128_certificate_refusals _ p _ _ _ Hs). left. apply run_bytes. reflexivity.
Qed.
Example C128_case_issue : exists c, ex_request = Ok c
  /\ cert_sign lax_crypto (@rev _) c (fun _ => Ok None) = Err ESigningError
  /\ add_signature lax_crypto (@rev _) c [] = Err EUnexpectedEof.
Proof. eexists. split; [vm_compute; reflexivity|]. split; vm_compute; reflexivity. Qed.
Example C128_case_builder : let k := ed_key_of None in
  kt_from_name (s2b "ssh-ed25519") = Ok (pk_type k) /\ builder None (Some [x01]) k User k = Err EUnexpectedEof.
Proof. split; reflexivity. Qed.

(** Properties C38-C41 (issuing certificates). *)
From Coq Require Import Permutation.
From Verif Require Import Base BaseFacts Utf8 Utf8Facts SpecWire SpecKeys
  SpecSig SpecCert Reader ReaderFacts KeyType KeyTypeFacts PubKeyType Writer WriterFacts WireFacts
  Crypto PubKey PubKeyFacts Signature SignatureFacts Cert CertFacts TbsFacts PropCert.

(** ** C39 *)
(** [c'] is [c] with the signature and the serialised bytes filled in. *)
Definition signed_as (c c' : cert) (sg ser : bytes) : Prop :=
  same_signed_fields c' c /\ ct_critical_options c' = ct_critical_options c
  /\ ct_extensions c' = ct_extensions c /\ ct_comment c' = ct_comment c
  /\ ct_signature c' = sg /\ ct_serialized c' = ser.

Lemma add_signature_iff C iter c sg c' :
  add_signature C iter c sg = Ok c' <->
  exists tbs, tbs_certificate iter c = Ok tbs /\ accepted C (ct_signature_key c) tbs sg
    /\ signed_as c c' sg (tbs ++ write_bytes sg writer_new).
Proof.
  unfold add_signature. split.
  - intros H. apply bind_ok in H. destruct H as (tbs & Ht & H). apply bind_ok in H. destruct H as (out & Hv & H).
    apply verify_iff in Hv. destruct Hv as [_ Hv]. apply ok_inj in H. subst c'. exists tbs.
    split; [exact Ht|]. split; [exact Hv|]. repeat split; auto.
  - intros (tbs & Ht & Hv & Hs). rewrite Ht. cbn [bind].
    rewrite (proj2 (verify_iff C sg tbs (ct_signature_key c) sg) (conj eq_refl Hv)). cbn [bind]. f_equal.
    destruct Hs as ((S1 & S2 & S3 & S4 & S5 & S6 & S7 & S8 & S9 & _ & _ & S10 & S11) & S12 & S13 & S14 & S15 & S16).
    destruct c'; cbn in *; subst; reflexivity.
Qed.

Theorem C39_add_signature : forall (C : crypto) (iter : hashmap -> hashmap) (c c' : cert) (sg : bytes),
  field_ok sg ->
  add_signature C iter c sg = Ok c' <->
  exists tbs, tbs_certificate iter c = Ok tbs /\ accepted C (ct_signature_key c) tbs sg
    /\ signed_as c c' sg (tbs ++ field sg).
Proof.
  intros C iter c c' sg Hf. rewrite add_signature_iff. rewrite field_ok_fits in Hf.
  rewrite (write_bytes_enc sg) by exact Hf. change (writer_new ++ enc_bytes sg) with (enc_bytes sg).
  rewrite field_enc. reflexivity.
Qed.
Print Assumptions C39_add_signature.

(** A signature that does not verify is an error. *)
Theorem C39_rejects : forall (C : crypto) (iter : hashmap -> hashmap) (c : cert) (sg tbs : bytes),
  tbs_certificate iter c = Ok tbs -> ~ accepted C (ct_signature_key c) tbs sg ->
  exists e, add_signature C iter c sg = Err e.
Proof.
  intros C iter c sg tbs Ht Hn. unfold add_signature. rewrite Ht. cbn [bind].
  destruct (verify_signature C sg tbs (ct_signature_key c)) as [out|e|] eqn:E; cbn [bind].
  - exfalso. apply Hn. apply verify_iff in E. apply E.
  - eauto.
  - exfalso. eapply verify_not_panic; exact E.
Qed.
Print Assumptions C39_rejects.

Theorem C39_sign : forall (C : crypto) (iter : hashmap -> hashmap) (c : cert) (sg : signer) (tbs : bytes),
  tbs_certificate iter c = Ok tbs ->
  (sg tbs = Ok None -> cert_sign C iter c sg = Err ESigningError)
  /\ (forall e, sg tbs = Err e -> cert_sign C iter c sg = Err e)
  /\ (forall s, sg tbs = Ok (Some s) -> ~ accepted C (ct_signature_key c) tbs s ->
        exists e, cert_sign C iter c sg = Err e)
  /\ (forall c', cert_sign C iter c sg = Ok c' ->
        exists s, sg tbs = Ok (Some s) /\ accepted C (ct_signature_key c) tbs s
          /\ add_signature C iter c s = Ok c').
Proof.
  intros C iter c sg tbs Ht. unfold cert_sign. rewrite Ht. cbn [bind].
  split; [intros ->; reflexivity|]. split; [intros e ->; reflexivity|].
  split; [intros s -> Hn; cbn [bind ok_or]; eapply C39_rejects; eauto|].
  intros c' H. apply bind_ok in H. destruct H as (o & Ho & H). apply bind_ok in H. destruct H as (s & Hs & H).
  destruct o as [s'|]; [|discriminate]. injection Hs as ->. exists s. split; [exact Ho|]. split; [|exact H].
  apply add_signature_iff in H. destruct H as (tbs' & Ht' & Ha & _). congruence.
Qed.
Print Assumptions C39_sign.

Example C39_case : exists c tbs c', ex_request = Ok c /\ tbs_certificate (@rev _) c = Ok tbs
  /\ add_signature lax_crypto (@rev _) c ex_sig = Ok c' /\ ct_serialized c' = tbs ++ field ex_sig
  /\ cert_sign lax_crypto (@rev _) c (fun _ => Ok (Some (field (s2b "ssh-ed25519") ++ field [x01]))) = Err EInvalidSignature
  /\ cert_sign lax_crypto (@rev _) c (fun _ => Ok None) = Err ESigningError.
Proof. eexists _, _, _. split; [vm_compute; reflexivity|]. split; [vm_compute; reflexivity|]. split; [vm_compute; reflexivity|]. vm_compute. auto. Qed.

(** ** C38 *)
Lemma under_construction_tbs iter c : (forall m, Permutation (iter m) m) ->
  under_construction c -> well_typed c -> forall tbs, tbs_certificate iter c = Ok tbs -> (size tbs <= u32_max)%N ->
  exists pk pca, as_requested c (issued iter c pk pca) /\ core (issued iter c pk pca) tbs.
Proof.
  intros P Hu Hw tbs Ht Hs. apply under_construction_shaped in Hu.
  pose proof (tbs_sizes _ _ _ Hu Ht Hs) as Hf.
  pose proof (tbs_enc _ _ Hu Hf) as E. assert (tbs = tbs_bytes iter c) by congruence. subst tbs.
  destruct (issued_core iter c P Hu Hw Hf) as (pk & pca & H1 & H2 & H3). exists pk, pca.
  split; [apply issued_requested; assumption|exact H3].
Qed.

(** Signing for any CA key: the certificate parses back if the signature is also good
    for the CA key as it stands in the certificate. *)
Lemma issued_parses C iter c c' sg : (forall m, Permutation (iter m) m) -> under_construction c -> well_typed c ->
  add_signature C iter c sg = Ok c' -> (size (ct_serialized c') <= u32_max)%N ->
  (forall tbs, accepted C (ct_signature_key c) tbs sg ->
     accepted C (mkPubKey (pk_type (ct_signature_key c)) (canon (pk_kind (ct_signature_key c))) None) tbs sg) ->
  exists p, cert_from_bytes C (ct_serialized c') = Ok p
    /\ as_requested c p /\ ct_signature p = sg /\ ct_serialized p = ct_serialized c'.
Proof.
  intros P Hu Hw Ha Hs Hcan. pose proof Ha as Ha0.
  apply add_signature_iff in Ha. destruct Ha as (tbs & Ht & Hacc & (_ & _ & _ & _ & _ & Hser)).
  rewrite Hser in *. unfold size, u32_max in Hs. rewrite app_length, write_bytes_length in Hs. cbn [writer_new length] in Hs.
  assert (Hfs : fits sg) by (unfold fits; lia).
  destruct (under_construction_tbs iter c P Hu Hw tbs Ht) as (pk & pca & Hr & Hc); [unfold size, u32_max; lia|].
  rewrite (write_bytes_enc sg) by exact Hfs. change (writer_new ++ enc_bytes sg) with (enc_bytes sg).
  set (data := tbs ++ enc_bytes sg) in *.
  exists (seal (issued iter c pk pca) sg data). split.
  - apply cert_from_bytes_iff. exists tbs, []. split; [exact (core_seal _ _ _ _ Hc)|].
    cbn [seal ct_signature ct_signature_key ct_comment ct_serialized]. rewrite app_nil_r.
    split; [reflexivity|]. split; [exact Hfs|]. split; [|split; reflexivity].
    unfold issued. cbn [ct_signature_key].
    apply under_construction_shaped in Hu. destruct Hu as (_ & _ & _ & _ & _ & Hkn & _).
    apply Hcan in Hacc. eapply (accepted_plain C (mkPubKey (pk_type (ct_signature_key c)) (canon (pk_kind (ct_signature_key c))) None) _ _ _ _ Hkn Hacc); [|reflexivity].
    destruct Hr as (_ & _ & _ & _ & _ & _ & _ & _ & _ & _ & _ & _ & Hk & _). exact Hk.
  - split; [exact Hr|]. split; reflexivity.
Qed.

Theorem C38_issued_parses_back : forall (C : crypto) (iter : hashmap -> hashmap) (c c' : cert) (sg cadata : bytes),
  (forall m, Permutation (iter m) m) -> under_construction c -> well_typed c ->
  key_data (pk_type (ct_signature_key c)) (pk_kind (ct_signature_key c)) cadata ->
  add_signature C iter c sg = Ok c' -> (size (ct_serialized c') <= u32_max)%N ->
  exists p, cert_from_bytes C (ct_serialized c') = Ok p
    /\ as_requested c p /\ ct_signature p = sg /\ ct_serialized p = ct_serialized c'.
Proof.
  intros C iter c c' sg cad P Hu Hw Hca Ha Hs. apply (issued_parses C iter c c' sg P Hu Hw Ha Hs).
  intros tbs H. apply key_data_iff in Hca. destruct Hca as [Hca _]. rewrite (canon_ok _ _ Hca). exact H.
Qed.
Print Assumptions C38_issued_parses_back.

(** RSA numbers are written without leading zeros.  So for a CA key that holds its
    numbers with leading zeros (no parser gives one) the primitive must accept the
    same signature for the same numbers without them. *)
Theorem C38_any_ca_key : forall (C : crypto) (iter : hashmap -> hashmap) (c c' : cert) (sg : bytes),
  (forall m, Permutation (iter m) m) -> under_construction c -> well_typed c ->
  (forall alg n e n' e' msg s, c_rsa_verify C alg n e msg s = true ->
     magnitude n' = magnitude n -> magnitude e' = magnitude e -> shortest n' -> shortest e' ->
     c_rsa_verify C alg n' e' msg s = true) ->
  add_signature C iter c sg = Ok c' -> (size (ct_serialized c') <= u32_max)%N ->
  exists p, cert_from_bytes C (ct_serialized c') = Ok p
    /\ as_requested c p /\ ct_signature p = sg /\ ct_serialized p = ct_serialized c'.
Proof.
  intros C iter c c' sg P Hu Hw Hz Ha Hs. apply (issued_parses C iter c c' sg P Hu Hw Ha Hs).
  intros tbs (label & payload & after & st & E & Hp & Hst & Hkk & H).
  exists label, payload, after, st. cbn [pk_type pk_kind]. repeat (split; [assumption|]).
  destruct (pk_kind (ct_signature_key c)) as [e n|cv key app|key app]; cbn [canon]; try exact H.
  destruct H as (alg & HL & H). exists alg. split; [exact HL|].
  eapply Hz; [exact H| | | |]; try (rewrite !magnitude_from_be, strip0_value; reflexivity).
  - apply shortest_iff, strip0_no_lead.
  - apply shortest_iff, strip0_no_lead.
Qed.
Print Assumptions C38_any_ca_key.

(** The to-be-signed bytes exist for every request below 4 GiB, so signing does not
    fail for any other reason than the signature. *)
Theorem C38_request_encodes : forall (iter : hashmap -> hashmap) (c : cert),
  (forall m, Permutation (iter m) m) -> under_construction c -> well_typed c ->
  field_ok (ct_nonce c) -> field_ok (ct_key_id c) -> field_ok (concat (map field (ct_principals c))) ->
  (options_size (ct_critical_options c) <= u32_max)%N -> (options_size (ct_extensions c) <= u32_max)%N ->
  (forall kind data, same_material (pk_kind (ct_signature_key c)) kind ->
     key_data (pk_type (ct_signature_key c)) kind data ->
     field_ok (field (kt_plain (pk_type (ct_signature_key c))) ++ data)) ->
  exists tbs, tbs_certificate iter c = Ok tbs.
Proof.
  intros iter c P Hu Hw H1 H2 H3 H4 H5 H6. apply under_construction_shaped in Hu.
  exists (tbs_bytes iter c). apply tbs_enc; [exact Hu|].
  assert (E : map field (ct_principals c) = map enc_bytes (ct_principals c)) by (apply map_ext; intros; apply field_enc).
  rewrite E in H3. rewrite field_ok_fits in *. unfold u32_max in *.
  split; [exact H1|]. split; [exact H2|]. split; [exact H3|].
  split; [unfold fits_map, fits; rewrite <- options_size_body, (options_size_perm _ _ (P _)); lia|].
  split; [unfold fits_map, fits; rewrite <- options_size_body, (options_size_perm _ _ (P _)); lia|].
  rewrite <- field_enc. apply field_ok_fits. destruct Hu as (_ & _ & _ & _ & _ & Hk & Hkind).
  apply (H6 (canon (pk_kind (ct_signature_key c)))); [apply canon_same|apply key_data_iff; auto].
Qed.
Print Assumptions C38_request_encodes.

Lemma ex_encodable k : k = ex_subject \/ k = ex_ca -> encodable k.
Proof.
  intros H. apply encodable_iff. split.
  - destruct H as [-> | ->]; unfold known, key_types; cbn [In]; tauto.
  - destruct H as [-> | ->]; cbn; unfold fits; cbn; repeat split; lia.
Qed.
Lemma ex_under_construction : exists c, ex_request = Ok c /\ under_construction c /\ well_typed c.
Proof.
  eexists. split; [vm_compute; reflexivity|]. split.
  - exists (Some [xaa; xbb]), (Some [x00; x00; x00; x00; x00; x00; x00; x01]), ex_subject, User, ex_ca, ex_ops.
    eexists. split; [vm_compute; reflexivity|]. split; [vm_compute; reflexivity|].
    split; apply ex_encodable; auto.
  - unfold well_typed. cbn [ct_serial ct_valid_after ct_valid_before ct_key_id ct_principals ct_critical_options ct_extensions].
    split; [vm_compute; discriminate|]. split; [vm_compute; discriminate|]. split; [vm_compute; discriminate|].
    split; [apply utf8_valid_iff; reflexivity|]. split; [repeat constructor; apply utf8_valid_iff; reflexivity|].
    split; (split; [cbn [map fst]; repeat (constructor; [cbn [In]; intuition discriminate|]); constructor
                   |repeat (constructor; [split; apply utf8_valid_iff; reflexivity|]); constructor]).
Qed.
Example C38_case : exists c c', under_construction c /\ well_typed c
  /\ (forall m : hashmap, Permutation (rev m) m)
  /\ key_data (pk_type (ct_signature_key c)) (pk_kind (ct_signature_key c)) (field [x63; x64] ++ [])
  /\ add_signature lax_crypto (@rev _) c ex_sig = Ok c' /\ (size (ct_serialized c') <= u32_max)%N
  /\ length (ct_extensions c) = 5 /\ pk_comment (ct_key c) <> None.
Proof.
  destruct ex_under_construction as (c & E & Hu & Hw). vm_compute in E. injection E as <-.
  eexists _, _. split; [exact Hu|]. split; [exact Hw|]. split; [intros m; symmetry; apply Permutation_rev|].
  split. { apply (KD_ed25519 _ [x63; x64] None []); [reflexivity|vm_compute; discriminate|reflexivity]. }
  split; [vm_compute; reflexivity|]. split; [vm_compute; discriminate|]. split; [reflexivity|discriminate].
Qed.

(** A CA key whose RSA numbers have leading zeros. *)
Definition padded_ca : pubkey :=
  mkPubKey (mkKeyType (s2b "ssh-rsa") (s2b "RSA") false false KRsa (s2b "ssh-rsa")) (PkRsa [x00; x03] [x00; x00; xc5]) None.
Definition padded_request : res cert :=
  do? c <- builder (Some [xaa; xbb]) (Some [x00; x00; x00; x00; x00; x00; x00; x01]) ex_subject User padded_ca;
  Ok (apply_ops c ex_ops).
Definition padded_sig : bytes := field (s2b "rsa-sha2-512") ++ field [x01; x02].
(** A primitive that goes by the numbers, and one that wants the zeros. *)
Definition by_number : crypto :=
  mkCrypto (fun b => b) (fun b => b) (fun b => b) (fun _ _ _ => false) (fun _ _ _ => false) (fun _ _ _ => false)
    (fun _ n e _ s => (magnitude n =? 197)%N && (magnitude e =? 3)%N && bytes_eqb s [x01; x02]).
Definition by_bytes : crypto :=
  mkCrypto (fun b => b) (fun b => b) (fun b => b) (fun _ _ _ => false) (fun _ _ _ => false) (fun _ _ _ => false)
    (fun _ n _ _ _ => Nat.eqb (length n) 3).
Lemma padded_encodable : encodable padded_ca.
Proof.
  apply encodable_iff. split; [unfold known, key_types; cbn [In]; tauto|].
  cbn; unfold fits; cbn; repeat split; lia.
Qed.
Lemma padded_under_construction : exists c, padded_request = Ok c /\ under_construction c /\ well_typed c.
Proof.
  eexists. split; [vm_compute; reflexivity|]. split.
  - exists (Some [xaa; xbb]), (Some [x00; x00; x00; x00; x00; x00; x00; x01]), ex_subject, User, padded_ca, ex_ops.
    eexists. split; [vm_compute; reflexivity|]. split; [vm_compute; reflexivity|].
    split; [apply ex_encodable; auto|exact padded_encodable].
  - unfold well_typed. cbn [ct_serial ct_valid_after ct_valid_before ct_key_id ct_principals ct_critical_options ct_extensions].
    split; [vm_compute; discriminate|]. split; [vm_compute; discriminate|]. split; [vm_compute; discriminate|].
    split; [apply utf8_valid_iff; reflexivity|]. split; [repeat constructor; apply utf8_valid_iff; reflexivity|].
    split; (split; [cbn [map fst]; repeat (constructor; [cbn [In]; intuition discriminate|]); constructor
                   |repeat (constructor; [split; apply utf8_valid_iff; reflexivity|]); constructor]).
Qed.
Example C38_any_ca_case : exists c c', under_construction c /\ well_typed c
  /\ (forall alg n e n' e' msg s, c_rsa_verify by_number alg n e msg s = true ->
        magnitude n' = magnitude n -> magnitude e' = magnitude e -> shortest n' -> shortest e' ->
        c_rsa_verify by_number alg n' e' msg s = true)
  /\ add_signature by_number (@rev _) c padded_sig = Ok c' /\ (size (ct_serialized c') <= u32_max)%N
  /\ pk_kind (ct_signature_key c) = PkRsa [x00; x03] [x00; x00; xc5].
Proof.
  destruct padded_under_construction as (c & E & Hu & Hw). vm_compute in E. injection E as <-.
  eexists _, _. split; [exact Hu|]. split; [exact Hw|]. split.
  { intros alg n e n' e' msg s H E1 E2 _ _. cbn [by_number c_rsa_verify] in *. rewrite E1, E2. exact H. }
  split; [vm_compute; reflexivity|]. split; [vm_compute; discriminate|reflexivity].
Qed.

(** The law of [C38_any_ca_key] is needed: with a primitive that wants the zeros, the
    signature is accepted when it is added and refused when the certificate is read. *)
Theorem C38_padded_ca_key_refuted : exists (C : crypto) (c c' : cert) (sg : bytes),
  under_construction c /\ well_typed c /\ add_signature C (@rev _) c sg = Ok c' /\ (size (ct_serialized c') <= u32_max)%N
  /\ cert_from_bytes C (ct_serialized c') = Err EInvalidSignature.
Proof.
  destruct padded_under_construction as (c & E & Hu & Hw). vm_compute in E. injection E as <-.
  exists by_bytes. eexists _, _, padded_sig. split; [exact Hu|]. split; [exact Hw|].
  split; [vm_compute; reflexivity|]. split; [vm_compute; discriminate|vm_compute; reflexivity].
Qed.
Print Assumptions C38_padded_ca_key_refuted.

(** ** C40 *)
Lemma key_on_wire_same a b p : known (pk_type a) -> known (pk_type b) ->
  key_on_wire a p -> key_on_wire b p -> same_key a b.
Proof.
  intros Ka Kb (H1 & H2 & _) (G1 & G2 & _). split; [|eauto].
  apply kt_from_name_ok in H1, G1. destruct H1 as [_ ->], G1 as [_ ->]. reflexivity.
Qed.

Theorem C40_tbs_injective : forall (iter1 iter2 : hashmap -> hashmap) (a b : cert) (tbs : bytes),
  (forall m, Permutation (iter1 m) m) -> (forall m, Permutation (iter2 m) m) ->
  under_construction a -> well_typed a -> under_construction b -> well_typed b ->
  tbs_certificate iter1 a = Ok tbs -> tbs_certificate iter2 b = Ok tbs -> (size tbs <= u32_max)%N ->
  same_request a b.
Proof.
  intros i1 i2 a b tbs P1 P2 Ua Wa Ub Wb Ta Tb Hs.
  destruct (under_construction_tbs i1 a P1 Ua Wa tbs Ta Hs) as (pk & pca & (A1 & A2 & A3 & A4 & A5 & A6 & A7 & A8 & A9 & A10 & A11 & A12 & A13) & Ca).
  destruct (under_construction_tbs i2 b P2 Ub Wb tbs Tb Hs) as (qk & qca & (B1 & B2 & B3 & B4 & B5 & B6 & B7 & B8 & B9 & B10 & B11 & B12 & B13) & Cb).
  destruct (core_prefix _ _ tbs tbs [] [] Ca Cb eq_refl) as (E & _ & _).
  set (p := issued i1 a pk pca) in *. set (q := issued i2 b qk qca) in *. clearbody p q.
  unfold strip in E. injection E. intros E1 E2 E3 E4 E5 E6 E7 E8 E9 E10 E11 E12 E13.
  apply under_construction_shaped in Ua, Ub.
  destruct Ua as (_ & _ & _ & _ & [Ka _] & [La _]), Ub as (_ & _ & _ & _ & [Kb _] & [Lb _]).
  split; [exact (eq_trans (eq_sym A1) (eq_trans E13 B1))|].
  split; [exact (eq_trans (eq_sym A2) (eq_trans E12 B2))|].
  split; [apply (key_on_wire_same _ _ (ct_key p)); [assumption..|rewrite E11; assumption]|].
  split; [exact (eq_trans (eq_sym A4) (eq_trans E10 B4))|].
  split; [exact (eq_trans (eq_sym A5) (eq_trans E9 B5))|].
  split; [exact (eq_trans (eq_sym A6) (eq_trans E8 B6))|].
  split; [exact (eq_trans (eq_sym A7) (eq_trans E7 B7))|].
  split; [exact (eq_trans (eq_sym A8) (eq_trans E6 B8))|].
  split; [exact (eq_trans (eq_sym A9) (eq_trans E5 B9))|].
  split; [intros k v; rewrite <- (A10 k v), <- (B10 k v), E4; reflexivity|].
  split; [intros k v; rewrite <- (A11 k v), <- (B11 k v), E3; reflexivity|].
  apply (key_on_wire_same _ _ (ct_signature_key p)); [assumption..|rewrite E1; assumption].
Qed.
Print Assumptions C40_tbs_injective.

Example C40_case : exists a b tbs, under_construction a /\ well_typed a
  /\ tbs_certificate (@rev _) a = Ok tbs /\ tbs_certificate (fun m => m) b = Ok tbs
  /\ (size tbs <= u32_max)%N /\ a <> b.
Proof.
  destruct ex_under_construction as (c & E & Hu & Hw). vm_compute in E. injection E as <-.
  set (b := mkCert (mkKeyType (s2b "ssh-ed25519-cert-v01@openssh.com") (s2b "ED25519-CERT") true false KEd25519Cert (s2b "ssh-ed25519"))
    [xaa; xbb] ex_subject 7 User (s2b "alice laptop") [s2b "alice"; s2b "root"] 10 20
    [(s2b "force-command", s2b "ls")] (rev standard_extensions) [] ex_ca [] (Some (s2b "x")) []).
  eexists _, b, _. split; [exact Hu|]. split; [exact Hw|]. split; [vm_compute; reflexivity|].
  split; [vm_compute; reflexivity|]. split; [vm_compute; discriminate|]. discriminate.
Qed.

(** ** C41 *)
Section Last.
  Context {V : Type} (eff : build_op -> V -> Prop) (get : cert -> V).
  Hypothesis step : forall o c, (eff o (get (apply_op c o)))
    \/ (get (apply_op c o) = get c /\ forall v, ~ eff o v).
  Lemma last_effect_ops : forall l c, last_effect eff (get c) l (get (apply_ops c l)).
  Proof using step.
    intros l. induction l as [|o l IH] using rev_ind; intros c.
    - left. split; [reflexivity|]. intros o v [].
    - unfold apply_ops. rewrite fold_left_app. cbn [fold_left].
      destruct (step o (fold_left apply_op l c)) as [H|[H Hn]].
      + right. exists l, o, []. split; [reflexivity|]. split; [exact H|]. intros ? ? [].
      + rewrite H. destruct (IH c) as [[E Hno]|(pre & o' & post & E & He & Hno)].
        * left. split; [exact E|]. intros o2 v Hi. apply in_app_or in Hi. destruct Hi as [Hi|[<-|[]]]; auto.
        * right. exists pre, o', (post ++ [o]). split; [rewrite E, <- app_assoc; reflexivity|].
          split; [exact He|]. intros o2 v Hi. apply in_app_or in Hi. destruct Hi as [Hi|[<-|[]]]; auto.
  Qed.
End Last.

Theorem C41_last_call_wins : forall (c : cert) (ops : list build_op),
  last_effect (fun o v => o = OpSerial v) (ct_serial c) ops (ct_serial (apply_ops c ops))
  /\ last_effect (fun o v => o = OpKeyId v) (ct_key_id c) ops (ct_key_id (apply_ops c ops))
  /\ last_effect (fun o v => o = OpValidAfter v) (ct_valid_after c) ops (ct_valid_after (apply_ops c ops))
  /\ last_effect (fun o v => o = OpValidBefore v) (ct_valid_before c) ops (ct_valid_before (apply_ops c ops))
  /\ last_effect (fun o v => exists s, o = OpComment s /\ v = Some s) (ct_comment c) ops (ct_comment (apply_ops c ops)).
Proof.
  intros c ops. split; [|split; [|split; [|split]]].
  - apply (last_effect_ops (fun o v => o = OpSerial v) ct_serial). intros [] d; cbn; first [left; reflexivity|right; split; [reflexivity|intros ? Hv; discriminate Hv]].
  - apply (last_effect_ops (fun o v => o = OpKeyId v) ct_key_id). intros [] d; cbn; first [left; reflexivity|right; split; [reflexivity|intros ? Hv; discriminate Hv]].
  - apply (last_effect_ops (fun o v => o = OpValidAfter v) ct_valid_after). intros [] d; cbn; first [left; reflexivity|right; split; [reflexivity|intros ? Hv; discriminate Hv]].
  - apply (last_effect_ops (fun o v => o = OpValidBefore v) ct_valid_before). intros [] d; cbn; first [left; reflexivity|right; split; [reflexivity|intros ? Hv; discriminate Hv]].
  - apply (last_effect_ops (fun o v => exists s, o = OpComment s /\ v = Some s) ct_comment).
    intros [] d; cbn; first [left; eexists; split; reflexivity|right; split; [reflexivity|intros ? (x & H & _); discriminate]].
Qed.
Print Assumptions C41_last_call_wins.

Lemma added_app a b pa pb : added_principals a pa -> added_principals b pb -> added_principals (a ++ b) (pa ++ pb).
Proof. induction 1; intros Hb; cbn [app]; [exact Hb|constructor; auto|constructor; auto]. Qed.

Theorem C41_principals : forall (c : cert) (ops : list build_op),
  exists base since added,
    ct_principals (apply_ops c ops) = base ++ added /\ added_principals since added
    /\ ((base = ct_principals c /\ since = ops /\ forall l, ~ In (OpSetPrincipals l) ops)
        \/ exists pre, ops = pre ++ OpSetPrincipals base :: since /\ forall l, ~ In (OpSetPrincipals l) since).
Proof.
  intros c ops. induction ops as [|o ops IH] using rev_ind.
  - exists (ct_principals c), [], []. rewrite app_nil_r. split; [reflexivity|]. split; [constructor|]. left.
    split; [reflexivity|]. split; [reflexivity|]. intros l [].
  - unfold apply_ops. rewrite fold_left_app. cbn [fold_left]. fold (apply_ops c ops).
    destruct IH as (base & since & added & E & Hadd & H).
    assert (Hset : forall l, o = OpSetPrincipals l \/ o <> OpSetPrincipals l).
    { intros l. destruct o; try (right; discriminate). destruct (list_eq_dec bytes_dec l0 l) as [->|Hn]; [auto|right; congruence]. }
    assert (Hcase : (exists l, o = OpSetPrincipals l) \/ forall l, o <> OpSetPrincipals l).
    { destruct o; try (right; discriminate). left. eauto. }
    destruct Hcase as [[l ->]|Hno].
    + exists l, [], []. cbn [apply_op upd ct_principals]. rewrite app_nil_r. split; [reflexivity|]. split; [constructor|].
      right. exists ops. split; [reflexivity|]. intros l' [].
    + assert (Hstep : exists extra, ct_principals (apply_op (apply_ops c ops) o) = ct_principals (apply_ops c ops) ++ extra
                 /\ added_principals [o] extra).
      { destruct o; cbn [apply_op upd ct_principals];
          try (exists []; rewrite app_nil_r; split; [reflexivity|constructor 3; [intros ?; discriminate|constructor]]).
        - exists [s]. split; [reflexivity|constructor; constructor].
        - exfalso. eapply Hno. reflexivity. }
      destruct Hstep as (extra & Es & Ha). exists base, (since ++ [o]), (added ++ extra).
      split; [rewrite Es, E, app_assoc; reflexivity|]. split; [apply added_app; assumption|].
      destruct H as [(H1 & H2 & H3)|(pre & H1 & H2)].
      * left. split; [exact H1|]. split; [rewrite H2; reflexivity|]. intros l Hi. apply in_app_or in Hi.
        destruct Hi as [Hi|[Hi|[]]]; [eapply H3; exact Hi|eapply Hno; exact Hi].
      * right. exists pre. split; [rewrite H1, <- app_assoc; reflexivity|]. intros l Hi. apply in_app_or in Hi.
        destruct Hi as [Hi|[Hi|[]]]; [eapply H2; exact Hi|eapply Hno; exact Hi].
Qed.
Print Assumptions C41_principals.

Lemma hm_get_holds m k : NoDup (map fst m) -> holds m k (hm_get k m).
Proof.
  intros H. unfold holds. destruct (hm_get k m) as [v|] eqn:E.
  - apply hm_get_in; assumption.
  - apply hm_get_none, E.
Qed.
Lemma holds_get m k v : NoDup (map fst m) -> holds m k v -> v = hm_get k m.
Proof.
  intros H. unfold holds. destruct v as [v|]; intros Hv; symmetry.
  - apply hm_get_in; assumption.
  - apply hm_get_none, Hv.
Qed.

Lemma ops_nodup l : forall c, Forall op_ok l ->
  NoDup (map fst (ct_critical_options c)) -> NoDup (map fst (ct_extensions c)) ->
  NoDup (map fst (ct_critical_options (apply_ops c l))) /\ NoDup (map fst (ct_extensions (apply_ops c l))).
Proof.
  induction l as [|o l IH]; intros c Hl Hc He; [split; assumption|]. inversion Hl as [|? ? Ho Hl']; subst.
  cbn [apply_ops fold_left]. apply IH; [exact Hl'| |]; destruct o; cbn in *; auto using hm_insert_nodup.
Qed.

Theorem C41_options : forall (c : cert) (ops : list build_op) (k : bytes) (init : option bytes),
  Forall op_ok ops -> NoDup (map fst (ct_critical_options c)) -> NoDup (map fst (ct_extensions c)) ->
  (holds (ct_critical_options c) k init ->
   exists v, holds (ct_critical_options (apply_ops c ops)) k v /\ last_effect (option_effect k) init ops v)
  /\ (holds (ct_extensions c) k init ->
   exists v, holds (ct_extensions (apply_ops c ops)) k v /\ last_effect (extension_effect k) init ops v)
  /\ NoDup (map fst (ct_critical_options (apply_ops c ops)))
  /\ NoDup (map fst (ct_extensions (apply_ops c ops))).
Proof.
  intros c ops k init Hops Hc He.
  assert (ND := ops_nodup ops c Hops Hc He). split; [|split; [|exact ND]].
  - intros Hi. apply (holds_get _ _ _ Hc) in Hi. subst init.
    exists (hm_get k (ct_critical_options (apply_ops c ops))). split; [apply hm_get_holds, ND|].
    clear He ND. revert c Hc. induction ops as [|o ops IH] using rev_ind; intros c Hc.
    + left. split; [reflexivity|]. intros ? ? [].
    + apply Forall_app in Hops. destruct Hops as [Hops Ho]. inversion Ho as [|? ? Ho' _]; subst.
      unfold apply_ops. rewrite fold_left_app. cbn [fold_left]. fold (apply_ops c ops).
      set (d := apply_ops c ops) in *.
      assert (S : option_effect k o (hm_get k (ct_critical_options (apply_op d o)))
                  \/ (hm_get k (ct_critical_options (apply_op d o)) = hm_get k (ct_critical_options d)
                      /\ forall v, ~ option_effect k o v)).
      { destruct o; cbn [apply_op upd ct_critical_options]; try (right; split; [reflexivity|intros v' H; inversion H; fail]).
        - destruct (bytes_dec k0 k) as [->|Hne].
          + left. rewrite hm_get_insert_same. constructor.
          + right. split; [apply hm_get_insert_other; congruence|]. intros v' H. inversion H. congruence.
        - left. constructor. apply hm_get_holds. exact Ho'. }
      destruct S as [S|[S Hn]].
      * right. exists ops, o, []. split; [reflexivity|]. split; [exact S|]. intros ? ? [].
      * rewrite S. destruct (IH Hops c Hc) as [[E Hno]|(pre & o' & post & E & He & Hno)].
        -- left. split; [exact E|]. intros o2 v Hi. apply in_app_or in Hi. destruct Hi as [Hi|[<-|[]]]; auto.
        -- right. exists pre, o', (post ++ [o]). split; [rewrite E, <- app_assoc; reflexivity|].
           split; [exact He|]. intros o2 v Hi. apply in_app_or in Hi. destruct Hi as [Hi|[<-|[]]]; auto.
  - intros Hi. apply (holds_get _ _ _ He) in Hi. subst init.
    exists (hm_get k (ct_extensions (apply_ops c ops))). split; [apply hm_get_holds, ND|].
    clear Hc ND. revert c He. induction ops as [|o ops IH] using rev_ind; intros c He.
    + left. split; [reflexivity|]. intros ? ? [].
    + apply Forall_app in Hops. destruct Hops as [Hops Ho]. inversion Ho as [|? ? Ho' _]; subst.
      unfold apply_ops. rewrite fold_left_app. cbn [fold_left]. fold (apply_ops c ops).
      set (d := apply_ops c ops) in *.
      assert (S : extension_effect k o (hm_get k (ct_extensions (apply_op d o)))
                  \/ (hm_get k (ct_extensions (apply_op d o)) = hm_get k (ct_extensions d)
                      /\ forall v, ~ extension_effect k o v)).
      { destruct o; cbn [apply_op upd ct_extensions]; try (right; split; [reflexivity|intros v' H; inversion H; fail]).
        - destruct (bytes_dec k0 k) as [->|Hne].
          + left. rewrite hm_get_insert_same. constructor.
          + right. split; [apply hm_get_insert_other; congruence|]. intros v' H. inversion H. congruence.
        - left. constructor. apply hm_get_holds. exact Ho'. }
      destruct S as [S|[S Hn]].
      * right. exists ops, o, []. split; [reflexivity|]. split; [exact S|]. intros ? ? [].
      * rewrite S. destruct (IH Hops c He) as [[E Hno]|(pre & o' & post & E & He' & Hno)].
        -- left. split; [exact E|]. intros o2 v Hi. apply in_app_or in Hi. destruct Hi as [Hi|[<-|[]]]; auto.
        -- right. exists pre, o', (post ++ [o]). split; [rewrite E, <- app_assoc; reflexivity|].
           split; [exact He'|]. intros o2 v Hi. apply in_app_or in Hi. destruct Hi as [Hi|[<-|[]]]; auto.
Qed.
Print Assumptions C41_options.

(** What the builder starts from and what no call changes. *)
Theorem C41_fixed_fields : forall (nonce_rng serial_rng : option bytes) (pub ca : pubkey) (t : cert_type)
    (c0 : cert) (ops : list build_op),
  builder nonce_rng serial_rng pub t ca = Ok c0 ->
  let c := apply_ops c0 ops in
  ct_key c = pub /\ ct_signature_key c = ca /\ ct_cert_type c = t /\ nonce_rng = Some (ct_nonce c)
  /\ as_cert_name (pk_type pub) = Ok (kt_name (ct_key_type c))
  /\ (exists s, serial_rng = Some s /\ ct_serial c0 = magnitude s)
  /\ ct_key_id c0 = [] /\ ct_principals c0 = [] /\ ct_valid_after c0 = 0%N /\ ct_valid_before c0 = 0%N
  /\ ct_critical_options c0 = [] /\ ct_extensions c0 = [] /\ ct_comment c0 = None
  /\ ct_signature c = [] /\ ct_serialized c = [].
Proof.
  intros nr sr pub ca t c0 ops H c. apply builder_ok in H.
  destruct H as (n & kt & nonce & serial & H1 & H2 & -> & -> & ->). unfold c.
  edestruct (apply_ops_fixed ops) as (F1 & F2 & F3 & F4 & F5 & F6 & F7 & F8).
  rewrite F1, F2, F3, F4, F6, F7, F8. cbn. apply kt_from_name_name in H2.
  repeat (split; [first [reflexivity|congruence]|]). split; [exists serial; split; [reflexivity|symmetry; apply magnitude_from_be]|].
  repeat split.
Qed.
Print Assumptions C41_fixed_fields.

Example C41_case : exists c, ex_request = Ok c /\ ct_serial c = 7%N /\ ct_principals c = [s2b "alice"; s2b "root"]
  /\ ct_principals (apply_ops c [OpSetPrincipals [s2b "bob"]; OpPrincipal (s2b "eve")]) = [s2b "bob"; s2b "eve"]
  /\ holds (ct_critical_options (apply_ops c [OpCriticalOption (s2b "force-command") (s2b "id")])) (s2b "force-command") (Some (s2b "id")).
Proof. eexists. split; [vm_compute; reflexivity|]. split; [reflexivity|]. split; [reflexivity|]. split; [reflexivity|]. vm_compute. auto. Qed.

(** Property C124: values of 4 GiB and more. *)
From Coq Require Import Permutation.
From Verif Require Import Base BaseFacts Utf8 Utf8Facts SpecWire SpecKeys SpecSig SpecCert SpecSshSig SpecCross Reader ReaderFacts KeyType KeyTypeFacts
  PubKeyType Writer WriterFacts WireFacts Crypto PubKey PubKeyFacts Signature SignatureFacts Cert CertFacts TbsFacts
  SshSigFacts PropReader PropCert PropIssue PropPrivKey PropSize PropCross.

(** ** C124 *)
Lemma be32_wraps n : be32 n = be32 (n mod 2 ^ 32)%N.
Proof.
  rewrite !be32_to_be, <- (to_be_from_be (to_be 4 n)), to_be_length, from_be_to_be. reflexivity.
Qed.

(** The length in front of a value wraps at 2^32. So a reader gets the first bytes of
    the value only, and the rest of it stands where the next field is looked for. *)
Theorem C124_length_wraps : forall (v x : bytes) (n := N.to_nat (size v mod 2 ^ 32)),
  fst (read_bytes (mkReader (write_bytes v writer_new ++ x) 0)) = Ok (firstn n v)
  /\ unread (snd (read_bytes (mkReader (write_bytes v writer_new ++ x) 0))) = skipn n v ++ x.
Proof.
  intros v x n. rewrite write_bytes_field. change (writer_new ++ field v) with (field v).
  assert (L : length (firstn n v) = n).
  { apply firstn_length_le. unfold n, size. pose proof (N.mod_le (N.of_nat (length v)) (2 ^ 32) ltac:(discriminate)). lia. }
  assert (E : field v ++ x = field (firstn n v) ++ skipn n v ++ x).
  { unfold field. rewrite (be32_wraps (size v)). unfold size at 2. rewrite L. unfold n at 1. rewrite N2Nat.id.
    rewrite <- !app_assoc. f_equal. rewrite app_assoc, firstn_skipn. reflexivity. }
  assert (F : field_ok (firstn n v)).
  { unfold field_ok, size, u32_max. rewrite L. unfold n. rewrite N2Nat.id.
    pose proof (N.mod_lt (size v) (2 ^ 32) ltac:(discriminate)) as H. change (2 ^ 32)%N with 4294967296%N in *. lia. }
  destruct (C02_read_bytes_exact (mkReader (field v ++ x) 0)) as [H _].
  assert (R : read_bytes (mkReader (field v ++ x) 0) = (Ok (firstn n v), mkReader (field v ++ x) (0 + (4 + n)))).
  { apply H. exists (skipn n v ++ x). split; [exact F|]. split; [exact E|]. cbn [r_inner r_off]. rewrite L. reflexivity. }
  rewrite R. cbn [fst snd]. split; [reflexivity|]. unfold unread. cbn [r_inner r_off]. rewrite E.
  rewrite skipn_app, skipn_all2 by (rewrite field_length, L; lia).
  rewrite field_length, L. cbn [List.app]. rewrite Nat.add_0_l, Nat.sub_diag. reflexivity.
Qed.
Print Assumptions C124_length_wraps.
(** The key id of [C124_unbounded_refuted] is such a value. *)
Example C124_length_case : forall tl x : bytes, size tl = (2 ^ 32)%N ->
  fst (read_bytes (mkReader (write_bytes (s2b "id" ++ tl) writer_new ++ x) 0)) = Ok (s2b "id")
  /\ unread (snd (read_bytes (mkReader (write_bytes (s2b "id" ++ tl) writer_new ++ x) 0))) = tl ++ x.
Proof.
  intros tl x H. destruct (C124_length_wraps (s2b "id" ++ tl) x) as [-> ->].
  assert (E : size (s2b "id" ++ tl) = (2 + 2 ^ 32)%N).
  { rewrite <- H. unfold size. rewrite app_length. change (length (s2b "id")) with 2. lia. }
  rewrite E. change (N.to_nat ((2 + 2 ^ 32) mod 2 ^ 32)) with 2. split; reflexivity.
Qed.

(** *** Certificates *)
(** A request all of whose single fields are below 4 GiB (the sum need not be). *)
Theorem C124_bounded_fields : forall (C : crypto) (iter : hashmap -> hashmap) (c c' : cert) (sg cadata : bytes),
  (forall m, Permutation (iter m) m) -> under_construction c -> well_typed c ->
  key_data (pk_type (ct_signature_key c)) (pk_kind (ct_signature_key c)) cadata ->
  field_ok (ct_nonce c) -> field_ok (ct_key_id c) -> field_ok (concat (map field (ct_principals c))) ->
  (options_size (ct_critical_options c) <= u32_max)%N -> (options_size (ct_extensions c) <= u32_max)%N ->
  field_ok (field (kt_plain (pk_type (ct_signature_key c))) ++ cadata) -> field_ok sg ->
  add_signature C iter c sg = Ok c' ->
  exists p, cert_from_bytes C (ct_serialized c') = Ok p
    /\ as_requested c p /\ ct_signature p = sg /\ ct_serialized p = ct_serialized c'.
Proof.
  intros C iter c c' sg cad P Hu Hw Hca H1 H2 H3 H4 H5 H6 Hsg Ha. apply under_construction_shaped in Hu.
  assert (E : map field (ct_principals c) = map enc_bytes (ct_principals c)) by (apply map_ext; intros; apply field_enc).
  rewrite E in H3. rewrite field_ok_fits in *. unfold u32_max in *.
  apply key_data_iff in Hca. destruct Hca as [Hca ->].
  assert (F : tbs_fits iter c).
  { split; [exact H1|]. split; [exact H2|]. split; [exact H3|].
    split; [unfold fits_map, fits; rewrite <- options_size_body, (options_size_perm _ _ (P _)); lia|].
    split; [unfold fits_map, fits; rewrite <- options_size_body, (options_size_perm _ _ (P _)); lia|].
    rewrite (canon_ok _ _ Hca), <- field_enc. exact H6. }
  apply add_signature_iff in Ha. destruct Ha as (tbs & Ht & Hacc & (_ & _ & _ & _ & _ & Hser)).
  rewrite (tbs_enc _ _ Hu F) in Ht. apply ok_inj in Ht. subst tbs. rewrite Hser, write_bytes_field.
  change (writer_new ++ field sg) with (field sg). rewrite field_enc.
  destruct (issued_core iter c P Hu Hw F) as (pk & pca & E1 & E2 & Hc).
  exists (seal (issued iter c pk pca) sg (tbs_bytes iter c ++ enc_bytes sg)). split.
  - apply cert_from_bytes_iff. exists (tbs_bytes iter c), []. split; [exact (core_seal _ _ _ _ Hc)|].
    cbn [seal ct_signature ct_signature_key ct_comment ct_serialized]. rewrite app_nil_r.
    split; [reflexivity|]. split; [exact Hsg|]. split; [|split; reflexivity].
    unfold issued. cbn [ct_signature_key]. destruct Hu as (_ & _ & _ & _ & _ & Hkn & _).
    apply (accepted_plain C (ct_signature_key c) _ _ _ _ Hkn Hacc E2). symmetry. exact (canon_ok _ _ Hca).
  - split; [apply issued_requested; assumption|]. split; reflexivity.
Qed.
Print Assumptions C124_bounded_fields.

Lemma size_app a b : size (a ++ b) = (size a + size b)%N.
Proof. unfold size. rewrite app_length. lia. Qed.
Lemma size_field a : size (field a) = (4 + size a)%N.
Proof. unfold size. rewrite field_length. lia. Qed.
Lemma size_be32 n : size (be32 n) = 4%N.
Proof. reflexivity. Qed.
Lemma size_be64 n : size (be64 n) = 8%N.
Proof. reflexivity. Qed.

Definition ascii (l : bytes) : Prop := Forall (fun b => (b2n b < 128)%N) l.
Definition ed_cert_type : key_type :=
  mkKeyType (s2b "ssh-ed25519-cert-v01@openssh.com") (s2b "ED25519-CERT") true false KEd25519Cert (s2b "ssh-ed25519").
Definition guest_request (key_id : bytes) : cert :=
  mkCert ed_cert_type [xaa] ex_subject 1 User key_id [s2b "guest"] 0 5 [] [] (repeat x00 8) ex_ca [] None [].
Lemma guest_tbs iter K : iter [] = [] -> tbs_certificate iter (guest_request K) =
  Ok (field (s2b "ssh-ed25519-cert-v01@openssh.com") ++ field [xaa] ++ field [x61; x62] ++ be64 1 ++ be32 1
      ++ field K ++ field (field (s2b "guest")) ++ be64 0 ++ be64 5 ++ field [] ++ field [] ++ field []
      ++ field (field (s2b "ssh-ed25519") ++ field [x63; x64])).
Proof.
  intros E. unfold tbs_certificate, guest_request.
  cbn [ct_key_type ct_nonce ct_key ct_serial ct_cert_type ct_key_id ct_principals ct_valid_after ct_valid_before
       ct_critical_options ct_extensions ct_signature_key]. rewrite E.
  change (as_cert_name ed_cert_type) with (Ok (s2b "ssh-ed25519-cert-v01@openssh.com")). cbn [bind].
  cbv zeta. change (write_pub_key_data ex_subject ?w) with (Ok (write_bytes [x61; x62] w)). cbn [bind].
  change (write_string_map [] ?w) with (Ok (write_u32 0 w)). cbn [bind].
  change (pk_encode ex_ca) with (Ok (field (s2b "ssh-ed25519") ++ field [x63; x64])). cbn [bind].
  change (write_string_vec [s2b "guest"] ?w) with (write_string (s2b "guest") (write_u32 9 w)).
  unfold write_string, write_u32, write_u64. rewrite !write_bytes_field, <- !app_assoc. reflexivity.
Qed.

Section Injected.
  Variable junk1 junk2 junk3 : bytes.
  Hypothesis size1 : size junk1 = 0x55555555%N.
  Hypothesis size2 : size junk2 = 0x55555529%N.
  Hypothesis size3 : size junk3 = 0x55555540%N.
  Hypothesis ascii1 : ascii junk1.
  Hypothesis ascii2 : ascii junk2.
  Hypothesis ascii3 : ascii junk3.

  Definition inj_principals : bytes := field (s2b "root") ++ field junk1.
  Definition inj_options : bytes := field (s2b "y") ++ field (field junk3).
  Definition inj_fields : bytes :=
    field inj_principals ++ be64 0 ++ be64 7 ++ field inj_options
    ++ be32 0x5555555b ++ field (s2b "x") ++ be32 0x55555552 ++ be32 0x5555554e ++ junk2.
  Definition inj_key_id : bytes := s2b "id" ++ inj_fields.
  (** The end of the request, which goes into the value of the extension. *)
  Definition inj_rest : bytes := field (field (s2b "guest")) ++ be64 0 ++ be64 5 ++ field [] ++ field [].
  Definition inj_extensions : bytes := field (s2b "x") ++ field (field (junk2 ++ inj_rest)).

  Lemma inj_size : size inj_fields = (2 ^ 32)%N.
  Proof using size1 size2 size3.
    unfold inj_fields, inj_principals, inj_options.
    rewrite !size_app, !size_field, !size_app, !size_field, !size_be32, !size_be64, size1, size2, size3. reflexivity.
  Qed.
  Lemma inj_ascii : ascii inj_key_id.
  Proof using size1 size2 size3 ascii1 ascii2 ascii3.
    assert (A : forall b : bytes, forallb (fun x => b2n x <? 128)%N b = true -> ascii b).
    { intros b H. rewrite forallb_forall in H. apply Forall_forall. intros x Hx. apply N.ltb_lt, H, Hx. }
    assert (F : forall n v, size v = n -> forallb (fun x => b2n x <? 128)%N (be32 n) = true -> ascii v -> ascii (field v)).
    { intros n v <- H Hv. apply Forall_app. split; [apply A, H|exact Hv]. }
    assert (P : forall a b, ascii a -> ascii b -> ascii (a ++ b)) by (intros; apply Forall_app; split; assumption).
    unfold inj_key_id, inj_fields, inj_principals, inj_options.
    assert (Q1 : ascii (field (field (s2b "root") ++ field junk1))).
    { eapply F; [rewrite size_app, !size_field, size1; reflexivity|reflexivity|].
      apply P; [apply A; reflexivity|]. eapply F; [exact size1|reflexivity|exact ascii1]. }
    assert (Q2 : ascii (field (field (s2b "y") ++ field (field junk3)))).
    { eapply F; [rewrite size_app, !size_field, size3; reflexivity|reflexivity|].
      apply P; [apply A; reflexivity|]. eapply F; [rewrite size_field, size3; reflexivity|reflexivity|].
      eapply F; [exact size3|reflexivity|exact ascii3]. }
    apply P; [apply A; reflexivity|]. apply P; [exact Q1|]. do 2 (apply P; [apply A; reflexivity|]).
    apply P; [exact Q2|]. do 4 (apply P; [apply A; reflexivity|]). exact ascii2.
  Qed.
  Lemma inj_moved : field inj_key_id ++ inj_rest =
    field (s2b "id") ++ field inj_principals ++ be64 0 ++ be64 7 ++ field inj_options ++ field inj_extensions.
  Proof using size1 size2 size3.
    assert (S : size (junk2 ++ inj_rest) = 0x5555554e%N) by (rewrite size_app, size2; reflexivity).
    assert (F : forall n v, size v = n -> field v = be32 n ++ v) by (intros n v <-; reflexivity).
    assert (E : field inj_extensions = be32 0x5555555b ++ field (s2b "x") ++ be32 0x55555552 ++ be32 0x5555554e ++ junk2 ++ inj_rest).
    { unfold inj_extensions. rewrite (F _ _ S), (F 0x55555552%N (be32 _ ++ _)) by (rewrite size_app, S; reflexivity).
      apply F. rewrite !size_app, size2. reflexivity. }
    rewrite E. unfold inj_key_id. rewrite (F (2 + 2 ^ 32)%N (s2b "id" ++ inj_fields)) by (rewrite size_app, inj_size; reflexivity).
    change (be32 (2 + 2 ^ 32)) with (be32 2). unfold inj_fields.
    set (fp := field inj_principals). set (fo := field inj_options). clearbody fp fo.
    change (field (s2b "id")) with (be32 2 ++ s2b "id"). rewrite <- !app_assoc. reflexivity.
  Qed.

  (** What is read. *)
  Definition inj_cert : cert :=
    mkCert ed_cert_type [xaa] (mkPubKey ed_type (PkEd25519 [x61; x62] None) None) 1 User (s2b "id") [s2b "root"; junk1] 0 7
      [(s2b "y", junk3)] [(s2b "x", junk2 ++ inj_rest)] [] ex_ca [] None [].
  Lemma inj_signed_part : signed_part inj_cert
    (field (s2b "ssh-ed25519-cert-v01@openssh.com") ++ field [xaa] ++ field [x61; x62] ++ be64 1 ++ be32 1
      ++ field inj_key_id ++ inj_rest ++ field [] ++ field (field (s2b "ssh-ed25519") ++ field [x63; x64])).
  Proof using size1 size2 size3 ascii1 ascii2 ascii3.
    assert (S : size (junk2 ++ inj_rest) = 0x5555554e%N) by (rewrite size_app, size2; reflexivity).
    assert (U : forall v, ascii v -> (size v <= u32_max)%N -> text_ok v).
    { intros v H1 H2. split; [apply utf8_text_ascii, H1|exact H2]. }
    assert (A : forall b : bytes, forallb (fun x => b2n x <? 128)%N b = true -> ascii b).
    { intros b H. rewrite forallb_forall in H. apply Forall_forall. intros x Hx. apply N.ltb_lt, H, Hx. }
    assert (O : forall k v, text_ok k -> text_ok v -> field_ok (field v) -> options_data [(k, v)] (field k ++ field (field v))).
    { intros k v H1 H2 H3. rewrite <- (app_nil_r (field (field v))). apply OD_cons; [exact H1| |constructor].
      rewrite <- (app_nil_r (field v)). constructor; [exact H2|]. rewrite app_nil_r. exact H3. }
    assert (M : forall e : bytes * bytes, map_of [e] [e]).
    { intros e. apply map_of_self. cbn. constructor; [intros []|constructor]. }
    exists (field [x61; x62]), inj_principals, [(s2b "y", junk3)], inj_options, [(s2b "x", junk2 ++ inj_rest)], inj_extensions,
      (field [x63; x64]), [].
    unfold inj_cert. cbn [ct_key_type ct_nonce ct_key ct_serial ct_cert_type ct_key_id ct_principals ct_valid_after ct_valid_before
       ct_critical_options ct_extensions ct_reserved ct_signature_key pk_type pk_kind pk_comment].
    split; [reflexivity|]. split; [reflexivity|]. split; [reflexivity|]. split; [reflexivity|].
    split; [rewrite <- (app_nil_r (field _)); constructor; [reflexivity|discriminate|reflexivity]|].
    do 3 (split; [discriminate|]). split; [apply U; [apply A; reflexivity|discriminate]|].
    do 2 (split; [discriminate|]).
    split. { split; [|unfold inj_principals; cbn [map concat]; rewrite app_nil_r; reflexivity].
      constructor; [apply U; [apply A; reflexivity|discriminate]|]. constructor; [|constructor].
      apply U; [exact ascii1|rewrite size1; discriminate]. }
    split; [unfold field_ok, inj_principals; rewrite size_app, !size_field, size1; discriminate|].
    split. { apply O; [apply U; [apply A; reflexivity|discriminate]|apply U; [exact ascii3|rewrite size3; discriminate]|].
      unfold field_ok. rewrite size_field, size3. discriminate. }
    split; [unfold field_ok, inj_options; rewrite size_app, !size_field, size3; discriminate|].
    split; [apply M|].
    split. { apply O; [apply U; [apply A; reflexivity|discriminate]| |].
      - apply U; [|rewrite S; discriminate]. apply Forall_app. split; [exact ascii2|apply A; reflexivity].
      - unfold field_ok. rewrite size_field, S. discriminate. }
    split; [unfold field_ok, inj_extensions; rewrite size_app, !size_field, S; discriminate|].
    split; [apply M|]. split; [reflexivity|]. split; [reflexivity|].
    split; [rewrite <- (app_nil_r (field _)); constructor; [reflexivity|discriminate|reflexivity]|].
    split; [discriminate|].
    rewrite (app_assoc (field inj_key_id) inj_rest), inj_moved, <- !app_assoc. reflexivity.
  Qed.
End Injected.

(** A request of more than 4 GiB with a key id of just below 4 GiB. *)
Example C124_bounded_case : exists c c' : cert,
  under_construction c /\ well_typed c
  /\ key_data (pk_type (ct_signature_key c)) (pk_kind (ct_signature_key c)) (field [x63; x64])
  /\ size (ct_key_id c) = u32_max /\ field_ok (ct_nonce c) /\ field_ok (concat (map field (ct_principals c)))
  /\ (options_size (ct_critical_options c) <= u32_max)%N /\ (options_size (ct_extensions c) <= u32_max)%N
  /\ field_ok (field (kt_plain (pk_type (ct_signature_key c))) ++ field [x63; x64]) /\ field_ok ex_sig
  /\ add_signature lax_crypto (fun m => m) c ex_sig = Ok c' /\ (u32_max < size (ct_serialized c'))%N.
Proof.
  assert (HK : exists K, ascii K /\ size K = u32_max).
  { exists (repeat x61 (N.to_nat u32_max)). split.
    - apply Forall_forall. intros x Hx. apply repeat_spec in Hx. subst x. reflexivity.
    - unfold size. rewrite repeat_length. apply N2Nat.id. }
  destruct HK as (K & HA & HS). exists (guest_request K).
  destruct (add_signature lax_crypto (fun m : hashmap => m) (guest_request K) ex_sig) as [c'|e|] eqn:E.
  2,3: exfalso; unfold add_signature in E; rewrite (guest_tbs (fun m : hashmap => m) K eq_refl) in E; cbn [bind] in E;
       revert E; generalize (field K); intros F; discriminate.
  exists c'.
  split. { exists (Some [xaa]), (Some [x00; x00; x00; x00; x00; x00; x00; x01]), ex_subject, User, ex_ca,
      [OpKeyId K; OpPrincipal (s2b "guest"); OpValidBefore 5].
    eexists. split; [vm_compute; reflexivity|]. split; [reflexivity|]. split; apply ex_encodable; auto. }
  split. { unfold well_typed, guest_request. cbn [ct_serial ct_valid_after ct_valid_before ct_key_id ct_principals ct_critical_options ct_extensions].
    do 3 (split; [discriminate|]). split; [apply utf8_text_ascii, HA|].
    split; [repeat constructor; apply utf8_valid_iff; reflexivity|]. split; split; constructor. }
  split. { cbn [guest_request ct_signature_key ex_ca pk_type pk_kind]. rewrite <- (app_nil_r (field _)).
    constructor; [reflexivity|discriminate|reflexivity]. }
  split; [exact HS|]. do 6 (split; [discriminate|]). split; [reflexivity|].
  apply add_signature_iff in E. destruct E as (tbs & Ht & _ & (_ & _ & _ & _ & _ & Hser)).
  rewrite guest_tbs in Ht by reflexivity. apply ok_inj in Ht. rewrite Hser, <- Ht.
  rewrite !size_app, !size_field, HS. unfold u32_max. lia.
Qed.

(** The bound is needed.  Some request for "guest" names, in its key id of 2^32 + 2
    bytes, a principal "root" (and dates, options, extensions): whatever CA signs it, the
    issued certificate is accepted for "root" and not for "guest". *)
Theorem C124_unbounded_refuted : exists c : cert,
  under_construction c /\ well_typed c /\ ct_principals c = [s2b "guest"] /\ size (ct_key_id c) = (2 ^ 32 + 2)%N
  /\ ct_valid_before c = 5%N
  /\ (forall (C : crypto) (iter : hashmap -> hashmap) (sg : bytes) (c' : cert),
        (forall m, Permutation (iter m) m) -> field_ok sg -> add_signature C iter c sg = Ok c' ->
        exists p, cert_from_bytes C (ct_serialized c') = Ok p /\ ct_key_id p = s2b "id"
          /\ In (s2b "root") (ct_principals p) /\ ~ In (s2b "guest") (ct_principals p) /\ ct_valid_before p = 7%N)
  /\ exists c', add_signature lax_crypto (fun m => m) c ex_sig = Ok c'.
Proof.
  set (J := fun n : N => repeat x61 (N.to_nat n)).
  assert (SJ : forall n, size (J n) = n) by (intros n; unfold size, J; rewrite repeat_length; apply N2Nat.id).
  assert (AJ : forall n, ascii (J n)).
  { intros n. apply Forall_forall. intros x Hx. apply repeat_spec in Hx. subst x. reflexivity. }
  clearbody J.
  pose proof (SJ 0x55555555%N) as S1. pose proof (SJ 0x55555529%N) as S2. pose proof (SJ 0x55555540%N) as S3.
  pose proof (AJ 0x55555555%N) as A1. pose proof (AJ 0x55555529%N) as A2. pose proof (AJ 0x55555540%N) as A3.
  revert S1 S2 S3 A1 A2 A3. generalize (J 0x55555555%N) (J 0x55555529%N) (J 0x55555540%N). clear J SJ AJ.
  intros j1 j2 j3 S1 S2 S3 A1 A2 A3. exists (guest_request (inj_key_id j1 j2 j3)).
  pose proof (inj_ascii j1 j2 j3 S1 S2 S3 A1 A2 A3) as HA.
  pose proof (inj_signed_part j1 j2 j3 S1 S2 S3 A1 A2 A3) as HP.
  pose proof (inj_size j1 j2 j3 S1 S2 S3) as HS.
  split. { exists (Some [xaa]), (Some [x00; x00; x00; x00; x00; x00; x00; x01]), ex_subject, User, ex_ca,
      [OpKeyId (inj_key_id j1 j2 j3); OpPrincipal (s2b "guest"); OpValidBefore 5].
    eexists. split; [vm_compute; reflexivity|]. split; [reflexivity|]. split; apply ex_encodable; auto. }
  split. { unfold well_typed, guest_request. cbn [ct_serial ct_valid_after ct_valid_before ct_key_id ct_principals ct_critical_options ct_extensions].
    do 3 (split; [discriminate|]). split; [apply utf8_text_ascii, HA|].
    split; [repeat constructor; apply utf8_valid_iff; reflexivity|]. split; split; constructor. }
  split; [reflexivity|]. split; [cbn [guest_request ct_key_id]; unfold inj_key_id; rewrite size_app, HS; reflexivity|].
  split; [reflexivity|]. split.
  - intros C iter sg c' P Hsg Ha. apply add_signature_iff in Ha. destruct Ha as (tbs & Ht & Hacc & (_ & _ & _ & _ & _ & Hser)).
    rewrite guest_tbs in Ht by (apply Permutation_nil; symmetry; apply P). apply ok_inj in Ht.
    assert (E : tbs = field (s2b "ssh-ed25519-cert-v01@openssh.com") ++ field [xaa] ++ field [x61; x62] ++ be64 1 ++ be32 1
      ++ field (inj_key_id j1 j2 j3) ++ inj_rest ++ field [] ++ field (field (s2b "ssh-ed25519") ++ field [x63; x64])).
    { rewrite <- Ht. unfold inj_rest. rewrite <- !app_assoc. reflexivity. }
    rewrite <- E in HP.
    destruct (C35_accepts_exactly C tbs sg [] _ HP Hsg Hacc) as (p & Hp & HF & _).
    exists p. rewrite Hser, write_bytes_field. change (writer_new ++ field sg) with (field sg).
    rewrite app_nil_r in Hp. split; [exact Hp|].
    destruct HF as (_ & _ & _ & _ & _ & -> & -> & _ & -> & _). split; [reflexivity|].
    split; [left; reflexivity|]. split; [|reflexivity].
    cbn [inj_cert ct_principals In]. intros [H|[H|[]]]; [discriminate|]. rewrite H in S1. discriminate.
  - set (r := guest_request (inj_key_id j1 j2 j3)).
    pose proof (guest_tbs (fun m : hashmap => m) (inj_key_id j1 j2 j3) eq_refl) as Ht. fold r in Ht.
    destruct (add_signature lax_crypto (fun m : hashmap => m) r ex_sig) as [c'|e|] eqn:E; [eauto|exfalso..].
    + unfold add_signature in E. rewrite Ht in E. cbn [bind] in E. revert E. generalize (field (inj_key_id j1 j2 j3)).
      intros F. discriminate.
    + unfold add_signature in E. rewrite Ht in E. cbn [bind] in E. revert E. generalize (field (inj_key_id j1 j2 j3)).
      intros F. discriminate.
Qed.
Print Assumptions C124_unbounded_refuted.

(** *** File signatures *)
Lemma signed_format_any C s m : to_signed_format C s m =
  s2b "SSHSIG" ++ field (ss_namespace s) ++ field [] ++ field (hash_alg_name (ss_hash s)) ++ field (hash_digest C (ss_hash s) m).
Proof.
  unfold to_signed_format, write_string. rewrite !write_bytes_field. unfold write_raw_bytes.
  change (sshsig_magic) with (s2b "SSHSIG"). change (writer_new ++ ?x) with x. rewrite <- !app_assoc. reflexivity.
Qed.
Lemma mod_apart n : (n mod 2 ^ 32 <> (n + 32) mod 2 ^ 32)%N.
Proof.
  change (2 ^ 32)%N with 4294967296%N. intros E.
  pose proof (N.div_mod' n 4294967296) as A. pose proof (N.div_mod' (n + 32) 4294967296) as B.
  rewrite <- E in B. revert A B. generalize (n / 4294967296)%N ((n + 32) / 4294967296)%N (n mod 4294967296)%N. intros. lia.
Qed.
(** With digests of 32 and 64 bytes the signed bytes tell namespace, algorithm and
    digest, also for namespaces of 4 GiB and more, whose length wraps. *)
Theorem C124_file_signatures : forall (C : crypto) (s1 s2 : sshsig) (m1 m2 d1 d2 : bytes),
  digest_sizes C -> digest_of C m1 (ss_hash s1) d1 -> digest_of C m2 (ss_hash s2) d2 ->
  to_signed_format C s1 m1 = to_signed_format C s2 m2 ->
  ss_namespace s1 = ss_namespace s2 /\ ss_hash s1 = ss_hash s2 /\ d1 = d2.
Proof.
  intros C [k1 n1 h1 g1] [k2 n2 h2 g2] m1 m2 d1 d2 [D256 D512] H1 H2 E. apply digest_of_iff in H1, H2. subst d1 d2.
  rewrite !signed_format_any in E. cbn [ss_namespace ss_hash] in *.
  apply app_inv_head in E. pose proof (f_equal (@length byte) E) as L. unfold field at 1 5 in E.
  rewrite !app_length, !field_length in L. rewrite <- !app_assoc in E.
  apply app_eq_length in E; [|rewrite !be32_length; reflexivity]. destruct E as [En E].
  rewrite (be32_wraps (size n1)), (be32_wraps (size n2)) in En.
  apply be32_bytes_inj in En; [|unfold u32_max; pose proof (N.mod_lt (size n1) (2 ^ 32) ltac:(discriminate)); change (2 ^ 32)%N with 4294967296%N in *; lia
                               |unfold u32_max; pose proof (N.mod_lt (size n2) (2 ^ 32) ltac:(discriminate)); change (2 ^ 32)%N with 4294967296%N in *; lia].
  assert (Hlen : length n1 = length n2 /\ h1 = h2).
  { destruct h1, h2; cbn [hash_digest hash_alg_name] in L; rewrite ?D256, ?D512 in L; cbn in L; [split; [lia|reflexivity]| | |split; [lia|reflexivity]]; exfalso.
    - apply (mod_apart (size n2)). rewrite <- En. f_equal. unfold size. lia.
    - apply (mod_apart (size n1)). rewrite En. f_equal. unfold size. lia. }
  destruct Hlen as [Hl <-]. apply app_eq_length in E; [|exact Hl]. destruct E as [-> E].
  split; [reflexivity|]. split; [reflexivity|].
  do 2 apply app_inv_head in E. apply app_eq_length in E; [|rewrite !be32_length; reflexivity]. apply E.
Qed.
Print Assumptions C124_file_signatures.
Example C124_file_case : exists s1 s2 : sshsig, s1 <> s2 /\ digest_sizes lax_crypto
  /\ to_signed_format lax_crypto s1 (s2b "one") = to_signed_format lax_crypto s2 (s2b "two").
Proof.
  exists (mkSshSig ex_ca (s2b "file") HSha512 []), (mkSshSig ex_subject (s2b "file") HSha512 []).
  split; [discriminate|]. split; [split; intros b; reflexivity|reflexivity].
Qed.

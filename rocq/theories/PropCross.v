(** Property C123: signatures of plain keys and hardware keys with the same key bytes. *)
From Coq Require Import Permutation.
From Verif Require Import Base BaseFacts SpecWire SpecKeys SpecSig SpecCert SpecSshSig SpecCross Reader KeyType KeyTypeFacts
  PubKeyType Writer WriterFacts WireFacts Crypto PubKey PubKeyFacts Signature SignatureFacts Cert CertFacts TbsFacts
  SshSigFacts PropCert PropIssue PropPrivKey PropSize.

(** ** C123 *)

(** The primitive is not told of which type the key is: a blob is good for a hardware
    key and a message exactly if the same blob is good for the plain key with the same
    bytes and the longer message that the blob's own flags and counter give. *)
Theorem C123_same_primitive : forall (C : crypto) (k p : pubkey) (app msg blob : bytes),
  plain_twin (pk_kind k) app (pk_kind p) -> kt_k (pk_type p) = kt_k (pk_type k) ->
  (verify_signature C blob msg k = Ok blob <->
   exists label payload flags counter tl,
     blob = field label ++ field payload ++ flags :: be32 counter ++ tl
     /\ field_ok label /\ field_ok payload /\ (counter <= u32_max)%N
     /\ verify_signature C blob (hardware_message C app flags counter msg) p = Ok blob).
Proof.
  intros C k p app msg blob Ht Hk. rewrite verify_iff. split.
  - intros [_ (label & payload & after & st & E & Hp & Hst & Hks & H)].
    assert (Hf : field_ok label) by (apply kt_from_name_ok in Hst; destruct Hst as [Hin ->]; apply field_ok_fits, known_fits, Hin).
    assert (S : exists flags counter tl, after = flags :: be32 counter ++ tl /\ (counter <= u32_max)%N
      /\ match pk_kind p with
         | PkRsa e n => False
         | PkEcdsa _ key app' => exists verify len r s b1 b2 tl fr fs m,
             ecdsa_label C label verify len
             /\ payload = b1 ++ b2 ++ tl /\ mpint_field r b1 /\ mpint_field s b2
             /\ fixed_bytes len (magnitude r) fr /\ fixed_bytes len (magnitude s) fs
             /\ signed_message C app' (hardware_message C app flags counter msg) after m
             /\ verify key m (fr ++ fs) = true
         | PkEd25519 key app' => exists m,
             ed25519_label label /\ signed_message C app' (hardware_message C app flags counter msg) after m
             /\ c_ed25519_verify C key m payload = true
         end).
    { destruct Ht as [c key app|key app].
      - destruct H as (v & len & r & s & b1 & b2 & t & fr & fs & m & H1 & H2 & H3 & H4 & H5 & H6 & (fl & n & tl & -> & Hn & ->) & H8).
        exists fl, n, tl. split; [reflexivity|]. split; [exact Hn|]. exists v, len, r, s, b1, b2, t, fr, fs. eexists.
        do 6 (split; [assumption|]). split; [reflexivity|exact H8].
      - destruct H as (m & H1 & (fl & n & tl & -> & Hn & ->) & H3). exists fl, n, tl. split; [reflexivity|]. split; [exact Hn|].
        eexists. split; [exact H1|]. split; [reflexivity|exact H3]. }
    destruct S as (fl & n & tl & -> & Hn & S). exists label, payload, fl, n, tl. split; [exact E|]. do 3 (split; [assumption|]).
    apply verify_iff. split; [reflexivity|]. exists label, payload, (fl :: be32 n ++ tl), st.
    split; [exact E|]. split; [exact Hp|]. split; [exact Hst|]. split; [congruence|].
    destruct (pk_kind p); [contradiction|exact S|exact S].
  - intros (label & payload & fl & n & tl & E & Hl & Hp & Hn & H). split; [reflexivity|]. apply verify_iff in H.
    destruct H as [_ (label' & payload' & after & st & E' & Hp' & Hst & Hks & H)].
    assert (Hf : field_ok label') by (apply kt_from_name_ok in Hst; destruct Hst as [Hin ->]; apply field_ok_fits, known_fits, Hin).
    rewrite E in E'. apply field_inj in E'; [|exact Hl|exact Hf]. destruct E' as [<- E'].
    apply field_inj in E'; [|exact Hp|exact Hp']. destruct E' as [<- <-].
    exists label, payload, (fl :: be32 n ++ tl), st. split; [exact E|]. split; [exact Hp|]. split; [exact Hst|]. split; [congruence|].
    assert (S : signed_message C (Some app) msg (fl :: be32 n ++ tl) (hardware_message C app fl n msg)).
    { exists fl, n, tl. auto. }
    destruct Ht as [c key app|key app].
    + destruct H as (v & len & r & s & b1 & b2 & t & fr & fs & m & H1 & H2 & H3 & H4 & H5 & H6 & -> & H8).
      exists v, len, r, s, b1, b2, t, fr, fs. eexists. do 6 (split; [assumption|]). split; [exact S|exact H8].
    + destruct H as (m & H1 & -> & H3). eexists. split; [exact H1|]. split; [exact S|exact H3].
Qed.
Print Assumptions C123_same_primitive.

(** So what keeps the two uses of a key apart is the messages. *)
Lemma cert_name_length kt : known kt -> kt_is_cert kt = true -> 20 <= length (kt_name kt).
Proof.
  revert kt. apply (known_forall (fun kt => kt_is_cert kt = true -> 20 <= length (kt_name kt))). unfold key_types.
  repeat (apply Forall_cons; [cbn; intros; first [discriminate|lia]|]). apply Forall_nil.
Qed.
Lemma signed_part_length c bs : signed_part c bs -> 69 < length bs.
Proof.
  intros (kd & pb & co & cb & ex & eb & skd & skpost & H1 & H2 & H). apply kt_from_name_ok in H1. destruct H1 as [H1 _].
  pose proof (cert_name_length _ H1 H2). repeat match goal with H : _ /\ _ |- _ => destruct H end.
  match goal with H : bs = _ |- _ => rewrite H end.
  rewrite !app_length, !field_length, !be64_length, !be32_length. lia.
Qed.
Lemma hardware_message_length C app fl n msg : digest_sizes C -> length (hardware_message C app fl n msg) = 69.
Proof. intros [H _]. unfold hardware_message. rewrite !app_length, be32_length, !H. reflexivity. Qed.

Theorem C123_certificates_apart : forall (C : crypto) (c : cert) (sp app msg : bytes) (flags : byte) (counter : N),
  digest_sizes C -> signed_part c sp -> sp <> hardware_message C app flags counter msg.
Proof.
  intros C c sp app msg fl n Hd Hs E. apply signed_part_length in Hs. rewrite E, (hardware_message_length C app fl n msg Hd) in Hs. lia.
Qed.
Print Assumptions C123_certificates_apart.

Theorem C123_requests_apart : forall (C : crypto) (iter : hashmap -> hashmap) (c : cert) (tbs app msg : bytes) (flags : byte) (counter : N),
  digest_sizes C -> (forall m, Permutation (iter m) m) -> under_construction c -> well_typed c ->
  tbs_certificate iter c = Ok tbs -> tbs <> hardware_message C app flags counter msg.
Proof.
  intros C iter c tbs app msg fl n Hd P Hu Hw Ht E.
  assert (L : length tbs = 69) by (rewrite E; apply hardware_message_length, Hd).
  destruct (under_construction_tbs iter c P Hu Hw tbs Ht) as (pk & pca & _ & Hc); [unfold size, u32_max; lia|].
  apply core_signed, signed_part_length in Hc. lia.
Qed.
Print Assumptions C123_requests_apart.

Lemma app_eq_length {A} (a b c d : list A) : length a = length c -> a ++ b = c ++ d -> a = c /\ b = d.
Proof.
  revert c. induction a as [|x a IH]; intros [|y c] L E; try discriminate; [auto|].
  cbn [List.app] in E. assert (x = y) by congruence. assert (E' : a ++ b = c ++ d) by congruence.
  destruct (IH c ltac:(cbn in L; lia) E') as [-> ->]. subst. auto.
Qed.
Lemma be32_bytes_inj a b : (a <= u32_max)%N -> (b <= u32_max)%N -> be32 a = be32 b -> a = b.
Proof.
  unfold u32_max. rewrite !be32_to_be. intros Ha Hb E. apply (f_equal from_be) in E. rewrite !from_be_to_be in E.
  rewrite !N.mod_small in E by (cbn; lia). exact E.
Qed.

(** A file signature's payload is what a hardware key signs in exactly one case. *)
Theorem C123_file_signatures : forall (C : crypto) (ns m p app msg : bytes) (h : hash_alg) (flags : byte) (counter : N),
  digest_sizes C -> (counter <= u32_max)%N -> payload C ns h m p ->
  (p = hardware_message C app flags counter msg <->
   h = HSha256 /\ c_sha256 C m = c_sha256 C msg /\ flags = x36 /\ counter = 32%N
   /\ c_sha256 C app = s2b "SSHSIG" ++ field ns ++ field [] ++ be32 6 ++ s2b "sha25").
Proof.
  intros C ns m p app msg h fl n Hd Hn (nm & d & Hnm & Hdg & ->). destruct Hd as [H256 H512].
  assert (Split : forall d', length d' = 32 ->
    s2b "SSHSIG" ++ field ns ++ field [] ++ field (s2b "sha256") ++ field d'
    = (s2b "SSHSIG" ++ field ns ++ field [] ++ be32 6 ++ s2b "sha25") ++ [x36] ++ be32 32 ++ d').
  { intros d' L. rewrite <- !app_assoc. unfold field at 4. unfold size. rewrite L. unfold field at 3.
    rewrite <- !app_assoc. reflexivity. }
  split.
  - intros E. assert (L := f_equal (@length byte) E). rewrite (hardware_message_length C app fl n msg (conj H256 H512)) in L.
    rewrite !app_length, !field_length in L. cbn [length s2b] in L.
    destruct Hdg; [|rewrite H512 in L; lia]. inversion Hnm; subst nm. rewrite (Split _ (H256 m)) in E. unfold hardware_message in E.
    rewrite H256 in L. change (length (s2b "SSHSIG")) with 6 in L. change (length (s2b "sha256")) with 6 in L.
    apply app_eq_length in E.
    2:{ rewrite !app_length, !field_length, be32_length, H256. change (length (s2b "SSHSIG")) with 6. change (length (s2b "sha25")) with 5. cbn [length]. lia. }
    destruct E as [E1 E]. cbn [List.app] in E. assert (E2 : x36 = fl) by congruence. assert (E3 : be32 32 ++ c_sha256 C m = be32 n ++ c_sha256 C msg) by congruence.
    apply app_eq_length in E3; [|rewrite !be32_length; reflexivity]. destruct E3 as [E3 E4].
    apply be32_bytes_inj in E3; [|unfold u32_max; lia|exact Hn].
    split; [reflexivity|]. split; [exact E4|]. split; [congruence|]. split; [congruence|]. congruence.
  - intros (-> & E4 & -> & -> & E1). inversion Hnm; subst nm. inversion Hdg; subst d.
    rewrite (Split _ (H256 m)). unfold hardware_message. rewrite E1, E4. reflexivity.
Qed.
Print Assumptions C123_file_signatures.

(** A digest that keeps the first bytes, and a primitive that wants key and message. *)
Definition plain_crypto : crypto :=
  mkCrypto (fun b => firstn 32 (b ++ repeat x00 32)) (fun b => firstn 48 (b ++ repeat x00 48)) (fun b => firstn 64 (b ++ repeat x00 64))
    (fun _ _ _ => false) (fun _ _ _ => false) (fun key m s => bytes_eqb s (key ++ m)) (fun _ _ _ _ _ => false).
Lemma plain_crypto_sizes : digest_sizes plain_crypto.
Proof. split; intros b; cbn [plain_crypto c_sha256 c_sha512]; rewrite firstn_length, app_length, repeat_length; lia. Qed.
Definition twin_hw : pubkey := mkPubKey sk_ed_type (PkEd25519 [x63; x64] (Some (s2b "ssh:"))) None.
Definition twin_message : bytes := hardware_message plain_crypto (s2b "ssh:") x01 5 (s2b "a message").
Definition twin_blob : bytes := field (s2b "sk-ssh-ed25519@openssh.com") ++ field ([x63; x64] ++ twin_message) ++ x01 :: be32 5.

Example C123_case : plain_twin (pk_kind twin_hw) (s2b "ssh:") (pk_kind ex_ca) /\ kt_k (pk_type ex_ca) = kt_k (pk_type twin_hw)
  /\ verify_signature plain_crypto twin_blob (s2b "a message") twin_hw = Ok twin_blob
  /\ verify_signature plain_crypto twin_blob (s2b "another message") twin_hw = Err EInvalidSignature
  /\ digest_sizes plain_crypto /\ exists c sp, signed_part c sp.
Proof.
  split; [constructor|]. split; [reflexivity|]. split; [vm_compute; reflexivity|]. split; [vm_compute; reflexivity|].
  split; [exact plain_crypto_sizes|].
  assert (E : exists c, cert_from_bytes lax_crypto ex_data = Ok c) by (eexists; vm_compute; reflexivity).
  destruct E as (c & E). apply C35_valid_signature in E. destruct E as (sp & rest & _ & Hp & _). eauto.
Qed.
(** The one case in which a file signature is what a hardware key signs. *)
Example C123_file_case : exists ns p app, payload plain_crypto ns HSha256 (s2b "a file") p
  /\ p = hardware_message plain_crypto app x36 32 (s2b "a file").
Proof.
  exists (s2b "namespace"). eexists. exists (s2b "SSHSIG" ++ field (s2b "namespace") ++ field [] ++ be32 6 ++ s2b "sha25").
  split; [eexists _, _; split; [constructor|]; split; [constructor|reflexivity]|]. vm_compute. reflexivity.
Qed.

(** That a signature is good for one type of key only is false: one blob is good for a
    hardware key and, with another message, for the plain key with the same bytes. *)
Theorem C123_one_type_refuted : exists (C : crypto) (k p : pubkey) (blob m m' : bytes),
  kt_is_sk (pk_type k) = true /\ kt_is_sk (pk_type p) = false
  /\ verify_signature C blob m k = Ok blob /\ verify_signature C blob m' p = Ok blob.
Proof. exists plain_crypto, twin_hw, ex_ca, twin_blob, (s2b "a message"), twin_message. vm_compute. auto. Qed.
Print Assumptions C123_one_type_refuted.

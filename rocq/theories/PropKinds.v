(** C115: texts of one kind are not read as another. *)
From Coq Require Import Lia.
From Verif Require Import Base BaseFacts SpecWire SpecText SpecBase64 SpecKeys Utf8 Utf8Facts Base64 Base64Facts Str StrFacts KeyType KeyTypeFacts
  PubKeyType PubKey PubKeyFacts Crypto Cert PrivKey Signature Chrono AllowedSigner SpecSigner SignerFacts EntryFacts FileFacts TbsFacts
  SpecFiles CutFacts CutSignerFacts KindFacts CertFacts SpecKinds PropPubKey PropCertText PropSigner PropFiles WireFacts.

(** ** The first line or the first words *)
Lemma private_first F K t pass k : sk_from_string F K t pass = Ok k -> exists ls, lines t = key_begin :: ls.
Proof.
  unfold sk_from_string. destruct (lines t) as [|h ls]; [discriminate|].
  destruct (bytes_eqb h key_begin) eqn:E; [|discriminate]. apply bytes_eqb_eq in E. subst h. eauto.
Qed.
Lemma signature_first t s : sshsig_from_armored_string t = Ok s -> exists ls, lines t = sig_begin :: ls.
Proof.
  unfold sshsig_from_armored_string. destruct (lines t) as [|h ls]; [discriminate|].
  destruct (bytes_eqb h sig_begin) eqn:E; [|discriminate]. apply bytes_eqb_eq in E. subst h. eauto.
Qed.
Lemma public_first t k : utf8_text t -> pk_from_string t = Ok k ->
  exists label data more, split_whitespace t = label :: data :: more
    /\ kt_from_name label = Ok (pk_type k) /\ (exists r, b64_decode data = Some (field label ++ r)) /\ exists d, data = x41 :: d.
Proof.
  intros U H. pose proof (C24_label_matches_blob t _ (split_whitespace_words t U)) as L.
  destruct (split_whitespace t) as [|label [|data more]]; [congruence..|].
  destruct L as [L _]. apply L in H. destruct H as (<- & S & _ & pad & kd & post & _ & B).
  apply supported_known, known_name_ok in S. exists (kt_name (pk_type k)), data, more. split; [reflexivity|]. split; [exact S|].
  assert (D : b64_decode data = Some (field (kt_name (pk_type k)) ++ kd ++ post)) by (apply b64_decode_iff; eauto).
  split; [eauto|]. eapply field_data_start; eauto.
Qed.
Lemma cert_first C t c : utf8_text t -> cert_from_string C t = Ok c ->
  exists label data more kt name ct r, split_whitespace t = label :: data :: more /\ kt_from_name label = Ok kt
    /\ kt_from_name name = Ok ct /\ kt_is_cert ct = true /\ b64_decode data = Some (field name ++ r) /\ exists d, data = x41 :: d.
Proof.
  intros U H. apply (C44_accepts_exactly C t c U) in H.
  destruct H as (label & data & more & lt & blob & c0 & Hw & Hl & Hb & Hc & _ & _).
  apply words_of_split in Hw. destruct (C37_only_certificates C blob c0 Hc) as (Ht & r & ->).
  assert (Hk : kt_from_name (kt_name (ct_key_type c0)) = Ok (ct_key_type c0)).
  { apply cert_from_bytes_iff in Hc. destruct Hc as (sp & post & (pb & cb & eb & skb & skpost & Hkt & _) & _). apply known_name_ok, Hkt. }
  exists label, data, more, lt, (kt_name (ct_key_type c0)), (ct_key_type c0), r.
  repeat (split; [assumption|]). eapply field_data_start; eauto.
Qed.

(** Words of a text by its first line. *)
Lemma first_words t l ls w ws : utf8_text t -> lines t = l :: ls -> split_whitespace l = w :: ws ->
  exists ws', split_whitespace t = w :: ws'.
Proof.
  intros U L W. apply lines_iff in L. destruct (words_lines _ _ L U) as [E _]. rewrite E. cbn [map concat].
  rewrite W. cbn [List.app]. eauto.
Qed.
Lemma armor_not_line l w ws t :
  split_whitespace l = w :: ws -> (forall kt, kt_from_name w <> Ok kt) ->
  utf8_text t -> (exists ls, lines t = l :: ls) -> ~ reads_as t PublicKeyText /\ ~ reads_as t CertificateText.
Proof.
  intros W Hk U (ls & L). destruct (first_words t l ls w ws U L W) as (ws' & E). split.
  - intros (k & H). destruct (public_first t k U H) as (label & data & more & E' & Hl & _). rewrite E in E'.
    injection E' as <- _. eapply Hk, Hl.
  - intros (C & c & H). destruct (cert_first C t c U H) as (label & data & more & kt & n & ct & r & E' & Hl & _).
    rewrite E in E'. injection E' as <- _. eapply Hk, Hl.
Qed.
Lemma armor_not_signers l t :
  negb (nonempty (trim l)) || starts_with_byte pound (trim l) = false ->
  (forall tz, exists e, as_from_string tz (trim l) = Err e) ->
  (exists ls, lines t = l :: ls) -> ~ reads_as t SignersText.
Proof.
  intros N R (ls & L) (tz & es & H). unfold signers_from_string in H. rewrite L in H. cbn [read_lines] in H.
  rewrite N in H. destruct (R tz) as (e & E). rewrite E in H. destruct e; discriminate.
Qed.

Lemma private_alone t : utf8_text t -> reads_as t PrivateKeyText -> forall k, reads_as t k -> k = PrivateKeyText.
Proof.
  intros U (F & K & pass & v & H). apply private_first in H.
  destruct (armor_not_line key_begin (s2b "-----BEGIN") [s2b "OPENSSH"; s2b "PRIVATE"; s2b "KEY-----"] t) as [N1 N2];
    [vm_compute; reflexivity|intros kt; vm_compute; discriminate|exact U|exact H|].
  pose proof (armor_not_signers key_begin t eq_refl (fun tz => ex_intro _ _ eq_refl) H) as N3.
  intros [| | | |] R; try reflexivity; exfalso; try tauto.
  destruct R as (s & R). apply signature_first in R. destruct H as (ls & H), R as (ls' & R). rewrite H in R. discriminate.
Qed.
Lemma signature_alone t : utf8_text t -> reads_as t SignatureText -> forall k, reads_as t k -> k = SignatureText.
Proof.
  intros U (v & H). apply signature_first in H.
  destruct (armor_not_line sig_begin (s2b "-----BEGIN") [s2b "SSH"; s2b "SIGNATURE-----"] t) as [N1 N2];
    [vm_compute; reflexivity|intros kt; vm_compute; discriminate|exact U|exact H|].
  pose proof (armor_not_signers sig_begin t eq_refl (fun tz => ex_intro _ _ eq_refl) H) as N3.
  intros [| | | |] R; try reflexivity; exfalso; try tauto.
  destruct R as (F & K & pass & s & R). apply private_first in R. destruct H as (ls & H), R as (ls' & R). rewrite H in R. discriminate.
Qed.

Lemma signers_and_line t k : utf8_text t -> key_line k -> reads_as t k ->
  forall tz es, signers_from_string tz t = Ok es -> exists a es', es = a :: es' /\ ~ Forall no_ws (as_principals a).
Proof.
  intros U Hk R tz es H.
  assert (W : exists label data more kt, split_whitespace t = label :: data :: more /\ kt_from_name label = Ok kt /\ exists d, data = x41 :: d).
  { destruct Hk as [->| ->].
    - destruct R as (v & R). destruct (public_first t v U R) as (label & data & more & E & Hl & _ & Hd). eauto 8.
    - destruct R as (C & v & R). destruct (cert_first C t v U R) as (label & data & more & kt & n & ct & r & E & Hl & _ & _ & _ & Hd). eauto 8. }
  destruct W as (label & data & more & kt & E & Hl & Hd).
  destruct (lines_total t) as (ls & L). apply (C66_file_is_its_lines tz t ls L) in H.
  destruct (words_lines t ls L U) as [Ew Ul]. rewrite E in Ew.
  eapply file_not_key; eauto.
Qed.

(** A text that two readers accept is one of: a certificate, also read as a public key; or a public
    key or certificate that is also an allowed_signers file, and then some principal of the first
    entry has white space in it. *)
Theorem C115_one_kind : forall (t : bytes) (k1 k2 : text_kind), utf8_text t ->
  reads_as t k1 -> reads_as t k2 -> k1 <> k2 ->
  (key_line k1 /\ key_line k2)
  \/ (key_line k1 /\ k2 = SignersText \/ key_line k2 /\ k1 = SignersText)
     /\ forall tz es, signers_from_string tz t = Ok es -> exists a es', es = a :: es' /\ ~ Forall no_ws (as_principals a).
Proof.
  intros t k1 k2 U R1 R2 D.
  assert (P : k1 <> PrivateKeyText /\ k2 <> PrivateKeyText /\ k1 <> SignatureText /\ k2 <> SignatureText).
  { repeat split; intros ->; apply D.
    - symmetry. apply (private_alone t U R1 k2 R2).
    - apply (private_alone t U R2 k1 R1).
    - symmetry. apply (signature_alone t U R1 k2 R2).
    - apply (signature_alone t U R2 k1 R1). }
  destruct P as (P1 & P2 & P3 & P4).
  assert (L : forall k, k <> PrivateKeyText -> k <> SignatureText -> key_line k \/ k = SignersText)
    by (intros [| | | |]; unfold key_line; tauto).
  destruct (L k1 P1 P3) as [L1| ->], (L k2 P2 P4) as [L2| ->].
  - left. auto.
  - right. split; [auto|]. apply (signers_and_line t k1 U L1 R1).
  - right. split; [auto|]. apply (signers_and_line t k2 U L2 R2).
  - congruence.
Qed.
Print Assumptions C115_one_kind.

(** A text read both as certificate and as public key shows it in the type of the public key. *)
Theorem C115_certificates_show : forall (C : crypto) (t : bytes) (c : cert) (k : pubkey), utf8_text t ->
  cert_from_string C t = Ok c -> pk_from_string t = Ok k -> kt_is_cert (pk_type k) = true.
Proof.
  intros C t c k U Hc Hk. destruct (public_first t k U Hk) as (label & data & more & E & Hl & (r & Hb) & _).
  destruct (cert_first C t c U Hc) as (label' & data' & more' & kt & n & ct & r' & E' & _ & Hn & Ht & Hb' & _).
  rewrite E in E'. injection E' as <- <- <-. rewrite Hb in Hb'. apply some_inj in Hb'.
  apply field_inj in Hb'; [|apply name_size in Hl; unfold field_ok, size, u32_max; lia|apply name_size in Hn; unfold field_ok, size, u32_max; lia].
  destruct Hb' as [<- _]. rewrite Hl in Hn. injection Hn as ->. exact Ht.
Qed.
Print Assumptions C115_certificates_show.

(** One line of an allowed_signers file on its own. *)
Theorem C115_entry_or_key : forall (tz : timezone) (t : bytes) (a : allowed_signer) (k : text_kind), utf8_text t ->
  as_from_string tz t = Ok a -> key_line k -> reads_as t k -> ~ Forall no_ws (as_principals a).
Proof.
  intros tz t a k U H Hk R Hp. apply accepted_iff in H.
  assert (W : exists label data more kt, split_whitespace t = label :: data :: more /\ kt_from_name label = Ok kt /\ exists d, data = x41 :: d).
  { destruct Hk as [->| ->].
    - destruct R as (v & R). destruct (public_first t v U R) as (label & data & more & E & Hl & _ & Hd). eauto 8.
    - destruct R as (C & v & R). destruct (cert_first C t v U R) as (label & data & more & kt & n & ct & r & E & Hl & _ & _ & _ & Hd). eauto 8. }
  destruct W as (label & data & more & kt & E & Hl & Hd).
  eapply (line_not_key tz t a label data [] more); eauto. rewrite app_nil_r. exact E.
Qed.
Print Assumptions C115_entry_or_key.

(** A text can be both a public key and an allowed_signers file, with two different keys: a tab
    ends the words of the one but not those of the other. *)
Definition ex_both : bytes :=
  s2b "ssh-ed25519" ++ [x09] ++ s2b "AAAAC3NzaC1lZDI1NTE5AAAAIHkbe7gwx7s0dlApEEzpUyOAPrzPLy4czEZw/sh8m8rd " ++ ex_key_text.
Theorem C115_one_reader_refuted : exists t k tz a,
  utf8_text t /\ pk_from_string t = Ok k /\ signers_from_string tz t = Ok [a] /\ pk_kind (as_key a) <> pk_kind k.
Proof.
  exists ex_both. eexists. exists utc. eexists.
  split; [apply utf8_valid_iff; vm_compute; reflexivity|]. split; [vm_compute; reflexivity|]. split; [vm_compute; reflexivity|].
  vm_compute. discriminate.
Qed.
Print Assumptions C115_one_reader_refuted.

(** Every kind has texts. *)
Example C115_case :
  reads_as ex_key_text PublicKeyText /\ reads_as ex_cert_text CertificateText /\ reads_as ex_cert_text PublicKeyText
  /\ (exists t, sk_write PropPrivKey.ex_ed = Ok t /\ reads_as t PrivateKeyText) /\ reads_as PropSshSig.ex_armor SignatureText
  /\ reads_as ex_signers SignersText /\ utf8_text ex_cert_text.
Proof.
  split; [eexists; vm_compute; reflexivity|]. split; [exists PropCert.lax_crypto; eexists; vm_compute; reflexivity|].
  split; [eexists; vm_compute; reflexivity|].
  split; [eexists; split; [vm_compute; reflexivity|exists PropPrivKey.ex_features, PropPrivKey.ex_ops, None; eexists; vm_compute; reflexivity]|].
  split; [eexists; vm_compute; reflexivity|]. split; [exists utc; eexists; vm_compute; reflexivity|].
  apply utf8_valid_iff. vm_compute. reflexivity.
Qed.

(** Property C148: the lines in which keys and certificates are printed. *)
From Coq Require Import Lia.
From Verif Require Import Base BaseFacts Utf8 Utf8Facts SpecWire SpecText SpecBase64 SpecKeys Reader ReaderFacts
  KeyType KeyTypeFacts PubKeyType Writer WriterFacts WireFacts Base64 Base64Facts Str StrFacts
  Crypto PubKey PubKeyFacts PropPubKey TbsFacts SpecSigner ShowFacts SpecCert Cert CertFacts PropCert PropIssue PropFiles PropEntryEqual PropCertText PropPrivKey SpecPrinted.

Lemma printed_iff name data comment t : printed_line name data comment t <->
  t = name ++ [x20] ++ b64_encode data ++ match comment with Some c => [x20] ++ c | None => [] end.
Proof.
  split.
  - intros (x & H & ->). rewrite (base64_text_unique _ _ _ H (b64_encode_text data)). reflexivity.
  - intros ->. exists (b64_encode data). split; [apply b64_encode_text|reflexivity].
Qed.
Lemma display_printed k kind data : supported (pk_type k) -> same_material (pk_kind k) kind -> key_data (pk_type k) kind data ->
  pk_display k = Ok (kt_name (pk_type k) ++ [x20] ++ b64_encode (field (kt_plain (pk_type k)) ++ data)
    ++ match pk_comment k with Some c => [x20] ++ c | None => [] end).
Proof.
  intros Hs Hm Hd. apply key_data_iff in Hd. destruct Hd as [Ho ->]. apply supported_known in Hs.
  pose proof (proj1 (same_material_canon_iff _ _ _ Ho) Hm) as E. subst kind.
  unfold pk_display. rewrite (pk_encode_enc k Hs Ho), field_enc. cbn [bind]. change [space] with [x20].
  destruct (pk_comment k); [reflexivity|]. rewrite app_nil_r. reflexivity.
Qed.

(** A public key is printed as its name, its encoding and its comment; a file has a line break behind it. *)
Theorem C148_public_key : forall (k : pubkey) (kind : pubkey_kind) (data t : bytes),
  supported (pk_type k) -> same_material (pk_kind k) kind -> key_data (pk_type k) kind data ->
  (pk_display k = Ok t <-> printed_line (kt_name (pk_type k)) (field (kt_plain (pk_type k)) ++ data) (pk_comment k) t)
  /\ (pk_write k = Ok t <-> exists l, t = l ++ [x0a]
       /\ printed_line (kt_name (pk_type k)) (field (kt_plain (pk_type k)) ++ data) (pk_comment k) l).
Proof.
  intros k kind data t Hs Hm Hd. rewrite pk_write_display, (display_printed k kind data Hs Hm Hd). cbn [bind]. split.
  - rewrite printed_iff. split; [intros H; apply ok_inj in H; auto|intros ->; reflexivity].
  - split.
    + intros H. apply ok_inj in H. eexists. split; [symmetry; exact H|]. apply printed_iff. reflexivity.
    + intros (l & -> & H). apply printed_iff in H. subst l. reflexivity.
Qed.
Print Assumptions C148_public_key.

(** A certificate that was read is printed as its name, the bytes it was read from, and its key
    identifier, whatever comment was read with it; one that was issued as its name, the request with
    the signature, and its key identifier. *)
Theorem C148_certificate : forall (C : crypto) (data t : bytes) (c : cert) (comment : option bytes),
  cert_from_bytes C data = Ok c ->
  (cert_display (with_comment c comment) = t <-> printed_line (kt_name (ct_key_type c)) data (Some (ct_key_id c)) t).
Proof.
  intros C data t c m H. destruct (C43_kept_verbatim C data c H) as [E _]. rewrite printed_iff, <- E.
  unfold cert_display, with_comment. cbn. change space with x20. split; intros X; symmetry; exact X.
Qed.
Print Assumptions C148_certificate.
Theorem C148_issued : forall (C : crypto) (iter : hashmap -> hashmap) (c c' : cert) (tbs sg t : bytes),
  tbs_certificate iter c = Ok tbs -> add_signature C iter c sg = Ok c' ->
  (cert_display c' = t <-> printed_line (kt_name (ct_key_type c)) (tbs ++ field sg) (Some (ct_key_id c)) t).
Proof.
  intros C iter c c' tbs sg t Ht H. unfold add_signature in H. rewrite Ht in H. cbn [bind] in H.
  destruct (Signature.verify_signature _ _ _ _) as [b| |]; try discriminate. cbn [bind] in H. apply ok_inj in H. subst c'.
  rewrite printed_iff. unfold cert_display. cbn [ct_key_type ct_serialized ct_key_id]. change space with x20.
  rewrite PropPrivKey.write_bytes_field. change (writer_new ++ ?x) with x.
  split; intros X; symmetry; exact X.
Qed.
Print Assumptions C148_issued.

(** From a printed line everything can be told: keys printed alike have the same name, the same
    material and the same comment; certificates printed alike have the same name and bytes. *)
Lemma printed_inj n n' d d' c c' t : ~ In x20 n -> ~ In x20 n' ->
  printed_line n d c t -> printed_line n' d' c' t -> n = n' /\ d = d' /\ c = c'.
Proof.
  intros N N' H H'. apply printed_iff in H, H'. rewrite H in H'. clear H. cbn [app] in H'.
  apply sp_inj in H'; [|assumption..]. destruct H' as [-> H']. split; [reflexivity|].
  assert (B : forall x, ~ In x20 (b64_encode x)) by (intros x I; destruct (PropSigner.b64_plain x _ I) as (Z & _); congruence).
  assert (D : forall x y, b64_encode x = b64_encode y -> x = y).
  { intros x y E. pose proof (b64_decode_encode x) as R. rewrite E, b64_decode_encode in R. congruence. }
  destruct c as [c|], c' as [c'|]; cbn [app] in H'; rewrite ?app_nil_r in H'.
  - apply sp_inj in H'; [|apply B..]. destruct H' as [E ->]. auto.
  - exfalso. apply (B d'). rewrite <- H'. apply in_or_app. right. left. reflexivity.
  - exfalso. apply (B d). rewrite H'. apply in_or_app. right. left. reflexivity.
  - auto.
Qed.
Theorem C148_told_apart : forall (j k : pubkey) (jd kd : bytes) (jm km : pubkey_kind) (t : bytes),
  supported (pk_type j) -> same_material (pk_kind j) jm -> key_data (pk_type j) jm jd ->
  supported (pk_type k) -> same_material (pk_kind k) km -> key_data (pk_type k) km kd ->
  pk_display j = Ok t -> pk_display k = Ok t ->
  pk_type j = pk_type k /\ jm = km /\ pk_comment j = pk_comment k.
Proof.
  intros j k jd kd jm km t Sj Mj Dj Sk Mk Dk Pj Pk. apply (proj1 (C148_public_key j jm jd t Sj Mj Dj)) in Pj.
  apply (proj1 (C148_public_key k km kd t Sk Mk Dk)) in Pk. pose proof Sj as Kj. pose proof Sk as Kk. apply supported_known in Kj, Kk.
  destruct (printed_inj _ _ _ _ _ _ _ (proj2 (name_not_option _ Kj)) (proj2 (name_not_option _ Kk)) Pj Pk) as (N & D & E).
  assert (T : pk_type j = pk_type k) by (unfold supported in *; rewrite N in Sj; congruence).
  split; [exact T|]. split; [|exact E]. rewrite T in *. apply app_inv_head in D. subst kd.
  apply key_data_iff in Dj, Dk. destruct Dj as [Dj ->], Dk as [Dk E'].
  apply (enc_kind_inj (pk_type k) _ _ [] []); auto. rewrite !app_nil_r. exact E'.
Qed.
Print Assumptions C148_told_apart.
Theorem C148_certificates_told_apart : forall (C : crypto) (data data' : bytes) (c c' : cert) (m m' : option bytes),
  cert_from_bytes C data = Ok c -> cert_from_bytes C data' = Ok c' ->
  cert_display (with_comment c m) = cert_display (with_comment c' m') -> data = data' /\ c = c'.
Proof.
  intros C d d' c c' m m' H H' E. symmetry in E. apply (C148_certificate C d' _ c' m' H') in E.
  pose proof (proj1 (C148_certificate C d _ c m H) eq_refl) as E'.
  assert (K : forall x y, cert_from_bytes C x = Ok y -> ~ In x20 (kt_name (ct_key_type y))).
  { intros x y Hx. apply cert_from_bytes_iff in Hx. destruct Hx as (sp & post & Hc & _).
    destruct Hc as (pb & cb & eb & skb & skpost & Hkt & _). apply name_not_option, Hkt. }
  destruct (printed_inj _ _ _ _ _ _ _ (K _ _ H') (K _ _ H) E E') as (_ & Q & _). subst d'. split; [reflexivity|]. congruence.
Qed.
Print Assumptions C148_certificates_told_apart.

Example C148_case : exists k kind data t, supported (pk_type k) /\ same_material (pk_kind k) kind /\ key_data (pk_type k) kind data
  /\ kind <> pk_kind k /\ pk_display k = Ok t /\ pk_write k = Ok (t ++ [x0a])
  /\ t = s2b "rsa-sha2-512 AAAAB3NzaC1yc2EAAAADAQABAAAAAwD/Aw== me there".
Proof.
  exists (mkPubKey PropPubKey.ex_rsa (PkRsa [x00; x01; x00; x01] [x00; xff; x03]) (Some (s2b "me there"))),
    (PkRsa [x01; x00; x01] [xff; x03]), (enc_kind (PkRsa [x01; x00; x01] [xff; x03])). eexists.
  split; [reflexivity|]. split; [split; reflexivity|]. split; [apply kd_intro; cbn; unfold fits; cbn; repeat split; lia|].
  split; [discriminate|]. split; [vm_compute; reflexivity|]. split; vm_compute; reflexivity.
Qed.
Example C148_case_certificate : exists c, cert_from_bytes lax_crypto ex_data = Ok c
  /\ printed_line (kt_name (ct_key_type c)) ex_data (Some (s2b "alice laptop")) (cert_display c).
Proof.
  eexists. split; [vm_compute; reflexivity|]. apply printed_iff. vm_compute. reflexivity.
Qed.

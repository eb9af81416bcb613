(** Property C147: private keys whose secret does not belong to the public key. *)
From Coq Require Import Lia.
From Verif Require Import Base BaseFacts Utf8 Utf8Facts SpecWire SpecText SpecBase64 SpecKeys SpecSig SpecSshSig SpecPrivKey SpecCert
  KeyType KeyTypeFacts PubKeyType Writer WriterFacts WireFacts Crypto PubKey PubKeyFacts Signature
  SignatureFacts TbsFacts SshSigFacts Cert PrivKey PrivKeyFacts PropIssue PropSshSig PropPrivKey PropTamper SpecMixed.

Lemma mixed_ok F k l : same_form k l -> priv_ok F k -> priv_ok F l -> priv_ok F (mixed k l).
Proof.
  intros S (K1 & K2 & K3 & K4 & K5 & K6) (_ & _ & _ & _ & L5 & _). do 4 (split; [assumption|]). split; [|exact K6].
  unfold same_form in S. unfold mixed. cbn [sk_type sk_pub sk_kind].
  destruct (sk_kind k) as [a|c x|h|x|h], (sk_kind l) as [b|c' y|h'|y|h']; try contradiction; unfold sec_ok in K5, L5 |- *;
    destruct (pk_kind (sk_pub k)) as [e n|ck pk [app|]|pk [app|]]; try contradiction;
    destruct (pk_kind (sk_pub l)) as [e' n'|ck' pk' [app'|]|pk' [app'|]]; try contradiction.
  - cbn [rp_n rp_e rp_d rp_coefficient rp_p rp_q rp_exp rp_exq]. tauto.
  - subst c'. tauto.
  - tauto.
  - tauto.
  - tauto.
Qed.
Lemma mixed_size k l : same_form k l -> length (enc_section (mixed k l)) <= length (enc_section k) + length (enc_section l).
Proof.
  intros S. unfold enc_section, enc_priv, mixed. cbn [sk_type sk_pub sk_kind sk_magic sk_comment]. rewrite !app_length, !to_be_length.
  unfold same_form in S. unfold enc_sec.
  destruct (sk_kind k) as [a|c x|h|x|h], (sk_kind l) as [b|c' y|h'|y|h']; try contradiction;
    cbn [rp_n rp_e rp_d rp_coefficient rp_p rp_q rp_exp rp_exq]; rewrite !app_length; lia.
Qed.

(** Nothing in a file ties the secret to the public key: for any two keys of one form there is a file that is read as the first
    with the secret of the second, with any passphrase and without one. *)
Theorem C147_any_secret : forall (F : features) (k l : privkey) (pub a b : bytes), same_form k l ->
  pub_blob (sk_pub k) [] pub -> field_ok pub -> section_of F k [] a -> section_of F l [] b -> (size a + size b + 7 <= u32_max)%N ->
  plain_reserved l ->
  exists text, forall (K : keyops) (passphrase : option bytes), sk_from_string F K text passphrase = Ok (mixed k l).
Proof.
  intros F k l pub a b S B Hp Ha Hb Hs R. apply C132_replaced_files.
  - apply section_of_iff in Ha, Hb. destruct Ha as (M & O & ->), Hb as (_ & O' & ->). rewrite !app_nil_r in Hs.
    exists pub, (enc_section (mixed k l)). split; [exact B|]. split; [exact Hp|]. split.
    + apply section_of_iff. split; [exact M|]. split; [apply mixed_ok; assumption|]. rewrite app_nil_r. reflexivity.
    + pose proof (mixed_size k l S). unfold size in *. lia.
  - intros h [E|E]; unfold mixed in E; cbn [sk_kind] in E; unfold same_form in S;
      destruct (sk_kind k), (sk_kind l) eqn:El; try contradiction; try discriminate; apply R; unfold hardware; rewrite El; auto.
Qed.
Print Assumptions C147_any_secret.

(** But no certificate and no file signature comes from a key whose signatures are not accepted under its public key. *)
Theorem C147_nothing_issued : forall (F : features) (C : crypto) (K : keyops) (k : privkey),
  (forall m s, sk_sign F C K k m = Ok (Some s) -> ~ accepted C (sk_pub k) m s) ->
  (forall iter c c', ct_signature_key c = sk_pub k -> cert_sign C iter c (sk_sign F C K k) <> Ok c')
  /\ (forall m ns h v, field_ok ns -> digests_fit C -> new_with_private_key C m ns (sk_pub k) (sk_sign F C K k) h <> Ok v).
Proof.
  intros F C K k N. split.
  - intros iter c c' Hk H. destruct (tbs_certificate iter c) as [tbs|e|] eqn:Ht;
      [|unfold cert_sign in H; rewrite Ht in H; discriminate..].
    destruct (C39_sign C iter c (sk_sign F C K k) tbs Ht) as (_ & _ & _ & H4). destruct (H4 c' H) as (s & H1 & H2 & _).
    rewrite Hk in H2. exact (N _ _ H1 H2).
  - intros m ns h v Hn Hd H. apply C50_only_verified in H; [|assumption..]. destruct H as (p & sg & _ & H1 & H2 & _). exact (N _ _ H1 H2).
Qed.
Print Assumptions C147_nothing_issued.

(** Two files with the same public key and different secrets are both read. *)
Definition ex_other : privkey :=
  mkPrivKey ed_type (SkEd25519 (repeat x55 64)) (mkPubKey ed_type (PkEd25519 (repeat x66 32) None) None) 1 (s2b "other").
Theorem C147_secret_belongs_refuted : exists (F : features) (K : keyops) (t t' : bytes) (k k' : privkey),
  sk_from_string F K t None = Ok k /\ sk_from_string F K t' None = Ok k' /\ sk_pub k = sk_pub k' /\ sk_kind k <> sk_kind k'.
Proof.
  destruct (sk_write ex_ed) as [t|e|] eqn:E; [|vm_compute in E; discriminate..].
  destruct (sk_write (mixed ex_ed ex_other)) as [t'|e|] eqn:E'; [|vm_compute in E'; discriminate..].
  vm_compute in E. vm_compute in E'. apply ok_inj in E. apply ok_inj in E'.
  exists ex_features, ex_ops, t, t', ex_ed, (mixed ex_ed ex_other). subst t t'. split; [vm_compute; reflexivity|].
  split; [vm_compute; reflexivity|]. split; [reflexivity|discriminate].
Qed.
Print Assumptions C147_secret_belongs_refuted.

Example C147_case : exists pub a b, same_form ex_ed ex_other /\ pub_blob (sk_pub ex_ed) [] pub /\ field_ok pub
  /\ section_of ex_features ex_ed [] a /\ section_of ex_features ex_other [] b /\ (size a + size b + 7 <= u32_max)%N
  /\ plain_reserved ex_other /\ mixed ex_ed ex_other <> ex_ed.
Proof.
  exists (enc_key (sk_pub ex_ed)), (enc_section ex_ed), (enc_section ex_other). split; [exact I|].
  assert (S : forall k, k = ex_ed \/ k = ex_other -> section_of ex_features k [] (enc_section k)).
  { intros k H. apply section_of_iff. rewrite app_nil_r. destruct H as [-> | ->]; (split; [reflexivity|]); (split; [|reflexivity]);
      (split; [unfold known, key_types; cbn [In]; tauto|]); (split; [right; right; reflexivity|]); repeat split; small. }
  split; [apply pub_blob_iff; rewrite app_nil_r; split; [repeat split; small|reflexivity]|].
  split; [vm_compute; discriminate|]. split; [apply S; auto|]. split; [apply S; auto|]. split; [vm_compute; discriminate|].
  split; [intros h [E|E]; discriminate|discriminate].
Qed.
(** A backend that takes no signature of the mixed key for one under its public key. *)
Definition ex_strict : crypto :=
  mkCrypto (fun _ => repeat x11 32) (fun _ => repeat x22 48) (fun _ => repeat x33 64)
    (fun _ _ _ => false) (fun _ _ _ => false) (fun key _ _ => negb (bytes_eqb key (repeat x33 32))) (fun _ _ _ _ _ => false).
Example C147_case_issued : (exists s, sk_sign ex_features ex_strict ex_ops (mixed ex_ed ex_other) (s2b "message") = Ok (Some s))
  /\ (forall m s, sk_sign ex_features ex_strict ex_ops (mixed ex_ed ex_other) m = Ok (Some s) ->
        ~ accepted ex_strict (sk_pub (mixed ex_ed ex_other)) m s)
  /\ digests_fit ex_strict.
Proof.
  split; [eexists; vm_compute; reflexivity|]. split.
  - intros m s _ (label & payload & after & st & _ & _ & _ & _ & x & _ & _ & H). vm_compute in H. discriminate H.
  - intros x h d H. apply digest_of_iff in H. subst d. destruct h; vm_compute; discriminate.
Qed.

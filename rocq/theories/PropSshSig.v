(** Properties C45-C51 (file signatures, SSHSIG). *)
From Coq Require Import Permutation.
From Verif Require Import Base BaseFacts Utf8 Utf8Facts Str StrFacts SpecWire SpecText SpecBase64
  SpecKeys SpecSig SpecCert SpecSshSig Base64 Base64Facts Reader ReaderFacts LocalFacts KeyType
  KeyTypeFacts PubKeyType Writer WriterFacts WireFacts Crypto PubKey PubKeyFacts Signature
  SignatureFacts Cert CertFacts TbsFacts SshSigFacts PropCert PropIssue.

(** ** C48 *)
Theorem C48_binds : forall (C : crypto) (m : bytes) (s : sshsig) (ns : bytes) (expected : option pubkey) (v : verified),
  field_ok (ss_namespace s) -> digests_fit C ->
  from_ssh_signature C m s ns expected = Ok v <->
  ns = ss_namespace s /\ (forall k, expected = Some k -> k = ss_pubkey s)
  /\ (exists p, payload C ns (ss_hash s) m p /\ accepted C (ss_pubkey s) p (ss_signature s))
  /\ vs_signature v = s /\ vs_message v = m.
Proof.
  intros C m s ns ex v Hn Hd. unfold from_ssh_signature. split.
  - intros H. assert (Hk : forall k, ex = Some k -> k = ss_pubkey s).
    { intros k ->. destruct (pubkey_eqb (ss_pubkey s) k) eqn:E; [apply pubkey_eqb_eq in E; auto|discriminate]. }
    match type of H with (if ?c then _ else _) = _ => destruct c; [discriminate|] end.
    destruct (bytes_eqb ns (ss_namespace s)) eqn:En; [|discriminate]. cbn [negb] in H. apply bytes_eqb_eq in En. subst ns.
    destruct (verify_signature C (ss_signature s) (to_signed_format C s m) (ss_pubkey s)) as [o|e|] eqn:Ev; [|discriminate..].
    apply ok_inj in H. subst v. apply verify_iff in Ev. split; [reflexivity|]. split; [exact Hk|].
    split; [|split; reflexivity]. exists (to_signed_format C s m). split; [apply payload_iff; auto|apply Ev].
  - intros (-> & Hk & (p & Hp & Ha) & Hs & Hm). apply payload_iff in Hp; [|assumption..]. subst p.
    assert (E : match ex with Some k => negb (pubkey_eqb (ss_pubkey s) k) | None => false end = false).
    { destruct ex as [k|]; [|reflexivity]. rewrite (Hk k eq_refl). rewrite (proj2 (pubkey_eqb_eq _ _) eq_refl). reflexivity. }
    rewrite E, bytes_eqb_refl. cbn [negb].
    rewrite (proj2 (verify_iff C _ _ _ (ss_signature s)) (conj eq_refl Ha)). destruct v; cbn in *; subst; reflexivity.
Qed.
Print Assumptions C48_binds.

Theorem C48_otherwise_invalid : forall (C : crypto) (m : bytes) (s : sshsig) (ns : bytes) (expected : option pubkey),
  (exists v, from_ssh_signature C m s ns expected = Ok v)
  \/ from_ssh_signature C m s ns expected = Err EInvalidSignature.
Proof.
  intros. unfold from_ssh_signature.
  match goal with |- context [if ?c then _ else _] => destruct c; [auto|] end. destruct (negb _); [auto|].
  destruct (verify_signature _ _ _ _) eqn:E; eauto. exfalso. eapply verify_not_panic, E.
Qed.
Print Assumptions C48_otherwise_invalid.

(** A signer and a verifier that look at message and key. *)
Definition pick_crypto (key msg sg : bytes) : crypto :=
  let eq3 := fun k m s => bytes_eqb k key && bytes_eqb m msg && bytes_eqb s sg in
  mkCrypto (fun m => x25 :: firstn 31 m) (fun m => m) (fun m => x51 :: firstn 63 m) eq3 eq3 eq3 (fun _ _ _ _ _ => false).
Lemma pick_fits k m s : digests_fit (pick_crypto k m s).
Proof.
  intros x h d H. apply digest_of_iff in H. subst d. unfold field_ok, size, u32_max.
  destruct h; cbn [pick_crypto hash_digest c_sha256 c_sha512 length]; rewrite firstn_length; lia.
Qed.
Definition ex_payload : bytes :=
  s2b "SSHSIG" ++ field (s2b "file") ++ field [] ++ field (s2b "sha512") ++ field (x51 :: s2b "data").
Definition ex_crypto : crypto := pick_crypto [x63; x64] ex_payload [x01; x02; x03].
Definition ex_ssig : sshsig := mkSshSig ex_ca (s2b "file") HSha512 ex_sig.
Example C48_case : field_ok (ss_namespace ex_ssig) /\ digests_fit ex_crypto
  /\ from_ssh_signature ex_crypto (s2b "data") ex_ssig (s2b "file") (Some ex_ca) = Ok (mkVerified ex_ssig (s2b "data"))
  /\ from_ssh_signature ex_crypto (s2b "dat4") ex_ssig (s2b "file") (Some ex_ca) = Err EInvalidSignature
  /\ from_ssh_signature ex_crypto (s2b "data") ex_ssig (s2b "git") (Some ex_ca) = Err EInvalidSignature
  /\ from_ssh_signature ex_crypto (s2b "data") ex_ssig (s2b "file") (Some ex_subject) = Err EInvalidSignature.
Proof. split; [vm_compute; discriminate|]. split; [apply pick_fits|]. vm_compute. auto. Qed.

(** ** C49 *)
Theorem C49_payload_injective : forall (C : crypto) (ns1 ns2 : bytes) (h1 h2 : hash_alg) (m1 m2 p d1 d2 : bytes),
  field_ok ns1 -> field_ok ns2 -> digests_fit C ->
  digest_of C m1 h1 d1 -> digest_of C m2 h2 d2 ->
  payload C ns1 h1 m1 p -> payload C ns2 h2 m2 p ->
  ns1 = ns2 /\ h1 = h2 /\ d1 = d2.
Proof.
  intros C ns1 ns2 h1 h2 m1 m2 p d1 d2 F1 F2 Hd D1 D2 (n1 & e1 & N1 & E1 & ->) (n2 & e2 & N2 & E2 & E).
  apply digest_of_iff in D1, D2, E1, E2. apply hash_name_iff in N1, N2. subst.
  pose proof (digests_fit_enc C h1 m1 Hd). pose proof (digests_fit_enc C h2 m2 Hd).
  rewrite !field_ok_fits in *. rewrite !field_enc in E.
  apply app_inv_head in E. apply enc_bytes_inj in E; [|assumption..]. destruct E as [-> E].
  apply app_inv_head in E. apply enc_bytes_inj in E; [|apply hash_name_fits..]. destruct E as [En E].
  apply hash_name_inj in En. subst h2.
  rewrite <- (app_nil_r (enc_bytes (hash_digest C h1 m1))), <- (app_nil_r (enc_bytes (hash_digest C h1 m2))) in E.
  apply enc_bytes_inj in E; [|assumption..]. destruct E as [-> _]. auto.
Qed.
Print Assumptions C49_payload_injective.

(** Two accepted verifications of one signature value over one payload. *)
Theorem C49_same_payload : forall (C : crypto) (s1 s2 : sshsig) (m1 m2 : bytes),
  field_ok (ss_namespace s1) -> field_ok (ss_namespace s2) -> digests_fit C ->
  to_signed_format C s1 m1 = to_signed_format C s2 m2 ->
  ss_namespace s1 = ss_namespace s2 /\ ss_hash s1 = ss_hash s2
  /\ hash_digest C (ss_hash s1) m1 = hash_digest C (ss_hash s2) m2.
Proof.
  intros C s1 s2 m1 m2 F1 F2 Hd E.
  apply (C49_payload_injective C _ _ _ _ m1 m2 (to_signed_format C s1 m1)); auto; try (apply digest_of_iff; reflexivity).
  - apply payload_iff; auto.
  - rewrite E. apply payload_iff; auto.
Qed.
Print Assumptions C49_same_payload.
Example C49_case : exists p, payload ex_crypto (s2b "file") HSha512 (s2b "data") p
  /\ digests_fit ex_crypto /\ p = ex_payload
  /\ p <> to_signed_format ex_crypto (mkSshSig ex_ca (s2b "fil") HSha512 []) (s2b "edata").
Proof.
  exists ex_payload. split. { exists (s2b "sha512"), (x51 :: s2b "data"). split; [constructor|]. split; [apply DO512|reflexivity]. }
  split; [apply pick_fits|]. split; [reflexivity|]. vm_compute. discriminate.
Qed.

(** ** C45 *)
Lemma payload_head C ns h m p : payload C ns h m p -> hd x00 p = x53.
Proof. intros (n & d & _ & _ & ->). reflexivity. Qed.
Lemma signed_part_head c bs : signed_part c bs -> hd x01 bs = x00.
Proof.
  intros (kd & pb & co & cb & ex & eb & skd & skpost & H1 & _ & _ & _ & _ & _ & _ & _ & _ & _ & _ & _ & _ & _ & _ & _ & _ & _ & _ & _ & _ & _ & _ & ->).
  unfold field at 1. unfold be32 at 1. cbn [app hd].
  apply kt_from_name_ok in H1. destruct H1 as [H1 _].
  revert H1. generalize (ct_key_type c). apply (known_forall (fun kt => n2b (size (kt_name kt) / 16777216) = x00)).
  repeat constructor.
Qed.

(** No bytes are both the signed part of a certificate and the payload of a file signature. *)
Theorem C45_domains_disjoint : forall (C : crypto) (c : cert) (ns : bytes) (h : hash_alg) (m bs : bytes),
  signed_part c bs -> ~ payload C ns h m bs.
Proof.
  intros C c ns h m bs Hc Hp. apply signed_part_head in Hc. apply payload_head in Hp.
  destruct bs; cbn in *; congruence.
Qed.
Print Assumptions C45_domains_disjoint.

(** Writers only append. *)
Definition extends (w w' : writer) : Prop := exists t, w' = w ++ t.
Lemma ext_refl w : extends w w. Proof. exists []. symmetry. apply app_nil_r. Qed.
Lemma ext_trans a b c : extends a b -> extends b c -> extends a c.
Proof. intros [t ->] [u ->]. exists (t ++ u). symmetry. apply app_assoc. Qed.
Lemma ext_bytes v w : extends w (write_bytes v w).
Proof. exists (to_be 4 (len32 v) ++ v). unfold write_bytes. symmetry. apply app_assoc. Qed.
Lemma ext_string v w : extends w (write_string v w). Proof. apply ext_bytes. Qed.
Lemma ext_u32 v w : extends w (write_u32 v w). Proof. eexists. reflexivity. Qed.
Lemma ext_u64 v w : extends w (write_u64 v w). Proof. eexists. reflexivity. Qed.
Lemma ext_mpint v w : extends w (write_mpint v w). Proof. apply ext_bytes. Qed.
Lemma ext_fold vec : forall a, extends a (fold_left (fun w item => write_string item w) vec a).
Proof.
  induction vec as [|v vec IH]; intros a; cbn [fold_left]; [apply ext_refl|].
  eapply ext_trans; [apply ext_string|apply IH].
Qed.
Lemma ext_vec vec w : extends w (write_string_vec vec w).
Proof. unfold write_string_vec. cbn zeta. eapply ext_trans; [|apply ext_fold]. apply ext_u32. Qed.
Lemma ext_entries m : forall w w', write_map_entries m w = Ok w' -> extends w w'.
Proof.
  induction m as [|kv m IH]; intros w w' H; cbn [write_map_entries] in H.
  - apply ok_inj in H. subst. apply ext_refl.
  - apply bind_ok in H. destruct H as (w1 & H1 & H2). apply IH in H2. eapply ext_trans; [|exact H2].
    unfold write_map_entry in H1. destruct (snd kv).
    + apply ok_inj in H1. subst. eapply ext_trans; [apply ext_string|apply ext_u32].
    + apply bind_ok in H1. destruct H1 as (n & _ & H1). apply ok_inj in H1. subst.
      eapply ext_trans; [apply ext_string|]. eapply ext_trans; [apply ext_u32|apply ext_string].
Qed.
Lemma ext_map m w w' : write_string_map m w = Ok w' -> extends w w'.
Proof. intros H. apply ext_entries in H. eapply ext_trans; [apply ext_u32|exact H]. Qed.
Lemma ext_key_data k w w' : write_pub_key_data k w = Ok w' -> extends w w'.
Proof.
  unfold write_pub_key_data. destruct (pk_kind k) as [e n|c key app|key app].
  - intros H. apply ok_inj in H. subst. eapply ext_trans; apply ext_mpint.
  - assert (E : extends w (write_bytes key (write_string (c_identifier c) w))) by (eapply ext_trans; [apply ext_string|apply ext_bytes]).
    destruct (kt_is_sk _); intros H.
    + apply bind_ok in H. destruct H as (a & _ & H). apply ok_inj in H. subst. eapply ext_trans; [exact E|apply ext_string].
    + apply ok_inj in H. subst. exact E.
  - destruct (kt_is_sk _); intros H.
    + apply bind_ok in H. destruct H as (a & _ & H). apply ok_inj in H. subst. eapply ext_trans; [apply ext_bytes|apply ext_string].
    + apply ok_inj in H. subst. apply ext_bytes.
Qed.
Lemma tbs_extends iter c tbs : tbs_certificate iter c = Ok tbs ->
  exists n, as_cert_name (ct_key_type c) = Ok n /\ extends (write_string n writer_new) tbs.
Proof.
  unfold tbs_certificate. intros H. apply bind_ok in H. destruct H as (n & Hn & H). exists n. split; [exact Hn|].
  apply bind_ok in H. destruct H as (w1 & H1 & H). apply ext_key_data in H1.
  apply bind_ok in H. destruct H as (w2 & H2 & H). apply ext_map in H2.
  apply bind_ok in H. destruct H as (w3 & H3 & H). apply ext_map in H3.
  apply bind_ok in H. destruct H as (sk & _ & H). apply ok_inj in H. subst tbs.
  eapply ext_trans; [apply ext_bytes|]. eapply ext_trans; [exact H1|].
  eapply ext_trans; [apply ext_u64|]. eapply ext_trans; [apply ext_u32|]. eapply ext_trans; [apply ext_string|].
  eapply ext_trans; [apply ext_vec|]. eapply ext_trans; [apply ext_u64|]. eapply ext_trans; [apply ext_u64|].
  eapply ext_trans; [exact H2|]. eapply ext_trans; [exact H3|]. eapply ext_trans; [apply ext_u32|apply ext_bytes].
Qed.
Lemma signed_format_extends C s m : extends sshsig_magic (to_signed_format C s m).
Proof.
  unfold to_signed_format. eapply ext_trans; [|apply ext_bytes]. eapply ext_trans; [|apply ext_string].
  eapply ext_trans; [|apply ext_bytes]. eapply ext_trans; [|apply ext_string]. apply ext_refl.
Qed.

(** What a CA is asked to sign for a certificate is never what anyone is asked to sign for
    a file, whatever the signature object, the message and the request hold. *)
Theorem C45_requests_disjoint : forall (C : crypto) (iter : hashmap -> hashmap) (c : cert) (s : sshsig) (m tbs : bytes),
  under_construction c -> tbs_certificate iter c = Ok tbs -> to_signed_format C s m <> tbs.
Proof.
  intros C iter c s m tbs Hu Ht E. apply under_construction_shaped in Hu. destruct Hu as (Hk & _ & Hn & _).
  apply tbs_extends in Ht. destruct Ht as (n & Hn' & t & Ht). rewrite Hn in Hn'. apply ok_inj in Hn'. subst n.
  destruct (signed_format_extends C s m) as (u & Hs). rewrite E, Ht in Hs.
  assert (Hl : fits (kt_name (ct_key_type c))) by apply known_fits, Hk.
  rewrite (write_string_enc _ _ Hl) in Hs. change (writer_new ++ ?x) with x in Hs. rewrite <- field_enc in Hs.
  unfold field, be32 in Hs. cbn [app sshsig_magic] in Hs. injection Hs as Hs _.
  assert (X : n2b (size (kt_name (ct_key_type c)) / 16777216) = x00).
  { revert Hk. generalize (ct_key_type c). apply (known_forall (fun kt => n2b (size (kt_name kt) / 16777216) = x00)).
    repeat constructor. }
  congruence.
Qed.
Print Assumptions C45_requests_disjoint.
Example C45_case : (exists c tbs, under_construction c /\ tbs_certificate (@rev _) c = Ok tbs)
  /\ (exists c bs, cert_from_bytes lax_crypto ex_data = Ok c /\ signed_part c bs)
  /\ payload ex_crypto (s2b "file") HSha512 (s2b "data") ex_payload.
Proof.
  split; [|split].
  - destruct ex_under_construction as (c & E & Hu & Hw). vm_compute in E. injection E as <-.
    eexists _, _. split; [exact Hu|]. vm_compute. reflexivity.
  - destruct (cert_from_bytes lax_crypto ex_data) as [c|e|] eqn:E; [|vm_compute in E; discriminate..].
    pose proof E as E'. apply cert_from_bytes_iff in E'. destruct E' as (sp & post & Hc & _).
    exists c, sp. split; [reflexivity|]. apply core_signed, Hc.
  - exists (s2b "sha512"), (x51 :: s2b "data"). split; [constructor|]. split; [apply DO512|reflexivity].
Qed.

(** ** C47 *)
Theorem C47_accepts_exactly : forall (text : bytes) (s : sshsig),
  sshsig_from_armored_string text = Ok s <-> armored s text.
Proof.
  intros text s. rewrite armored_decode. unfold armored. split.
  - intros H. apply bind_ok in H. destruct H as (d & Hd & H).
    apply armor_decode_iff in Hd; [|discriminate]. apply sig_run_iff in H. destruct H as (inner & rv & post & Hs & ->).
    exists (enc_sig s inner rv), post. split; [apply sshsig_data_iff; eauto|]. exact Hd.
  - intros (bs & tl & Hs & Ha). apply sshsig_data_iff in Hs. destruct Hs as (inner & rv & Hs & ->).
    change (exists body rest k, lines_of text (sig_begin :: body ++ sig_end :: rest) /\ ~ In sig_end body
      /\ base64_text (enc_sig s inner rv ++ tl) (concat body ++ repeat x3d k)) in Ha.
    apply armor_decode_iff in Ha; [|discriminate]. rewrite Ha. cbn [bind]. apply sig_run_iff. eauto.
Qed.
Print Assumptions C47_accepts_exactly.

Theorem C47_no_panic : forall (text : bytes), sshsig_from_armored_string text <> Panic.
Proof.
  intros text. rewrite armored_decode. destruct (armor_decode _ _ _) as [d|e|] eqn:E; cbn [bind].
  - apply nopanic_run, nopanic_sig.
  - discriminate.
  - exfalso. eapply armor_decode_not_panic, E.
Qed.
Print Assumptions C47_no_panic.

(** The errors of the text layer. *)
Theorem C47_text_errors : forall (text : bytes) (ls : list bytes), lines_of text ls ->
  ((forall l, ls <> begin_line :: l) -> sshsig_from_armored_string text = Err EInvalidFormat)
  /\ (forall l, ls = begin_line :: l -> ~ In end_line l -> sshsig_from_armored_string text = Err EInvalidFormat)
  /\ (forall body rest, ls = begin_line :: body ++ end_line :: rest -> ~ In end_line body ->
        (forall data k, ~ base64_text data (concat body ++ repeat x3d k)) ->
        sshsig_from_armored_string text = Err EDecode).
Proof.
  intros text ls Hl. apply lines_iff in Hl. rewrite armored_decode. unfold armor_decode. rewrite Hl. cbn zeta.
  split; [|split].
  - intros H. destruct ls as [|h l]; [reflexivity|]. destruct (bytes_eqb h sig_begin) eqn:E; [|reflexivity].
    apply bytes_eqb_eq in E. subst h. exfalso. apply (H l). reflexivity.
  - intros l -> Hn. rewrite bytes_eqb_refl. cbn [negb tl]. rewrite armor_body_err by exact Hn. reflexivity.
  - intros body rest -> Hn Hb. rewrite bytes_eqb_refl. cbn [negb tl].
    rewrite (proj2 (armor_body_iff sig_end (body ++ end_line :: rest) [] (concat body))) by (exists body, rest; auto).
    cbn [bind]. destruct (b64_decode (concat body)) as [d|] eqn:E; [|reflexivity].
    apply b64_decode_iff in E. destruct E as (k & Hk). exfalso. eapply Hb, Hk.
Qed.
Print Assumptions C47_text_errors.

(** The errors of the binary layer. *)
Theorem C47_data_errors : forall (text data : bytes), armored_text data text ->
  (forall pre post, data = pre ++ post -> length pre = 6 -> pre <> s2b "SSHSIG" ->
     sshsig_from_armored_string text = Err EInvalidFormat)
  /\ (forall v post, (v <= u32_max)%N -> v <> 1%N -> data = s2b "SSHSIG" ++ be32 v ++ post ->
     sshsig_from_armored_string text = Err EUnsupported)
  /\ (forall key post k kd more, data = s2b "SSHSIG" ++ be32 1 ++ field key ++ field [] ++ post ->
     kt_from_name (kt_name (pk_type k)) = Ok (pk_type k) -> key_data (pk_type k) (pk_kind k) kd ->
     key = field (kt_name (pk_type k)) ++ kd ++ more -> field_ok key ->
     sshsig_from_armored_string text = Err EInvalidFormat)
  /\ (forall key k kd more ns reserved h post,
     data = s2b "SSHSIG" ++ be32 1 ++ field key ++ field ns ++ field reserved ++ field h ++ post ->
     kt_from_name (kt_name (pk_type k)) = Ok (pk_type k) -> key_data (pk_type k) (pk_kind k) kd ->
     key = field (kt_name (pk_type k)) ++ kd ++ more -> field_ok key ->
     utf8_text ns -> field_ok ns -> ns <> [] -> utf8_text reserved -> field_ok reserved ->
     utf8_text h -> field_ok h -> (forall a, ~ hash_name a h) ->
     sshsig_from_armored_string text = Err EUnsupported).
Proof.
  intros text data Ha. rewrite armored_decode.
  change (exists body rest k, lines_of text (sig_begin :: body ++ sig_end :: rest) /\ ~ In sig_end body
      /\ base64_text data (concat body ++ repeat x3d k)) in Ha.
  apply armor_decode_iff in Ha; [|discriminate]. rewrite Ha. cbn [bind]. clear Ha.
  assert (Hkey : forall key k kd more, kt_from_name (kt_name (pk_type k)) = Ok (pk_type k) ->
     key_data (pk_type k) (pk_kind k) kd -> key = field (kt_name (pk_type k)) ++ kd ++ more ->
     pk_from_bytes key = Ok (mkPubKey (pk_type k) (pk_kind k) None)).
  { intros key k kd more H1 H2 ->. apply pk_from_bytes_iff. apply key_data_iff in H2. destruct H2 as [H2 ->].
    apply kt_from_name_ok in H1. destruct H1 as [H1 _]. split; [repeat split; assumption|].
    exists more. unfold enc_key. cbn [pk_type pk_kind]. rewrite field_enc, <- app_assoc. reflexivity. }
  unfold sshsig_from_reader.
  split; [|split; [|split]].
  - intros pre post -> Hl Hn. rewrite step_raw by (try lia; sig_local).
    rewrite (proj2 (bytes_eqb_neq pre sshsig_magic)) by exact Hn. reflexivity.
  - intros v post Hv Hn ->. rewrite step_raw by (try reflexivity; try lia; sig_local).
    change (bytes_eqb (s2b "SSHSIG") sshsig_magic) with true. cbn [negb]. rewrite be32_to_be.
    unfold u32_max in Hv. rewrite step_u32 by (try lia; sig_local).
    rewrite (proj2 (N.eqb_neq v 1) Hn). reflexivity.
  - intros key post k kd more -> H1 H2 H3 H4. rewrite step_raw by (try reflexivity; try lia; sig_local).
    change (bytes_eqb (s2b "SSHSIG") sshsig_magic) with true. cbn [negb]. rewrite be32_to_be, !field_enc.
    rewrite step_u32 by (try lia; sig_local). cbn [N.eqb Pos.eqb negb].
    rewrite field_ok_fits in H4. rewrite step_bytes by (try exact H4; sig_local).
    erewrite run_lift by (eapply Hkey; eassumption).
    rewrite step_string by (try (unfold fits; cbn; lia); try reflexivity; sig_local). reflexivity.
  - intros key k kd more ns rv h post -> H1 H2 H3 H4 H5 H6 H7 H8 H9 H10 H11 H12.
    rewrite step_raw by (try reflexivity; try lia; sig_local).
    change (bytes_eqb (s2b "SSHSIG") sshsig_magic) with true. cbn [negb]. rewrite be32_to_be, !field_enc.
    rewrite step_u32 by (try lia; sig_local). cbn [N.eqb Pos.eqb negb].
    rewrite field_ok_fits in *. apply utf8_valid_iff in H5, H8, H10. rewrite step_bytes by (try exact H4; sig_local).
    erewrite run_lift by (eapply Hkey; eassumption).
    rewrite step_string by (try assumption; sig_local). destruct ns; [congruence|].
    rewrite step_string by (try assumption; local_tac). rewrite step_string by (try assumption; local_tac).
    apply run_lift_err.
    destruct (bytes_eqb h (s2b "sha256")) eqn:E1. { apply bytes_eqb_eq in E1. subst. exfalso. apply (H12 HSha256). constructor. }
    destruct (bytes_eqb h (s2b "sha512")) eqn:E2. { apply bytes_eqb_eq in E2. subst. exfalso. apply (H12 HSha512). constructor. }
    reflexivity.
Qed.
Print Assumptions C47_data_errors.

Definition ex_armor : bytes := match sshsig_display ex_ssig with Ok t => t | _ => [] end.
Example C47_case : sshsig_from_armored_string (ex_armor ++ s2b "
trailing text") = Ok ex_ssig
  /\ sshsig_from_armored_string (s2b " " ++ ex_armor) = Err EInvalidFormat
  /\ length (lines ex_armor) = 4.
Proof. vm_compute. auto. Qed.

(** ** C46 *)
Definition printable (k : pubkey) (kind : pubkey_kind) (kd : bytes) : Prop :=
  kt_from_name (kt_name (pk_type k)) = Ok (pk_type k)
  /\ same_material (pk_kind k) kind /\ key_data (pk_type k) kind kd
  /\ field_ok (field (kt_name (pk_type k)) ++ kd).

(** The text form of every signature over a non-empty namespace reads back as that
    signature; of the key the comment and leading zeros of RSA numbers are lost. *)
Theorem C46_round_trip : forall (s : sshsig) (kind : pubkey_kind) (kd : bytes),
  printable (ss_pubkey s) kind kd ->
  utf8_text (ss_namespace s) -> field_ok (ss_namespace s) -> ss_namespace s <> [] -> field_ok (ss_signature s) ->
  exists text body, sshsig_display s = Ok text
    /\ sshsig_from_armored_string text
       = Ok (mkSshSig (mkPubKey (pk_type (ss_pubkey s)) kind None) (ss_namespace s) (ss_hash s) (ss_signature s))
    /\ lines_of text (begin_line :: body ++ [end_line]) /\ filled 76 body.
Proof.
  intros s kind kd (H1 & H2 & H3 & H4) H5 H6 H7 H8. apply key_data_iff in H3. destruct H3 as [H3 ->].
  apply (same_material_canon_iff _ _ _ H3) in H2. subst kind. apply kt_from_name_ok in H1. destruct H1 as [H1 _].
  rewrite field_ok_fits in *. rewrite field_enc in H4. apply utf8_valid_iff in H5.
  set (inner := enc_bytes (kt_name (pk_type (ss_pubkey s))) ++ enc_kind (canon (pk_kind (ss_pubkey s)))) in *.
  assert (Hb := sshsig_blob_enc s H1 H3 H4 H6 H8). fold inner in Hb.
  unfold sshsig_display. rewrite Hb. cbn [bind].
  assert (Hne : enc_sig s inner [] <> []) by (unfold enc_sig; cbn; discriminate).
  assert (Pb : plain_line sig_begin) by (repeat split; vm_compute; intuition discriminate).
  assert (Pe : plain_line sig_end) by (repeat split; vm_compute; intuition discriminate).
  destruct (armor_print_lines sig_begin sig_end 76 (enc_sig s inner []) ltac:(lia) Hne Pb Pe) as (L1 & L2 & L3).
  eexists _, _. split; [reflexivity|]. split; [|split; [exact L1|exact L2]].
  rewrite armored_decode, armor_print_decode by (try assumption; try lia; reflexivity). cbn [bind].
  apply sig_run_iff. exists inner, [], []. rewrite app_nil_r. split; [|reflexivity].
  split; [|cbn; repeat split; auto; unfold fits; cbn; lia].
  apply pk_from_bytes_iff. cbn [ss_pubkey]. split; [repeat split; assumption|].
  exists []. rewrite app_nil_r. reflexivity.
Qed.
Print Assumptions C46_round_trip.

(** The same value comes back if the key is as parsing yields it. *)
Theorem C46_same_signature : forall (s : sshsig) (kd : bytes),
  printable (ss_pubkey s) (pk_kind (ss_pubkey s)) kd -> pk_comment (ss_pubkey s) = None ->
  utf8_text (ss_namespace s) -> field_ok (ss_namespace s) -> ss_namespace s <> [] -> field_ok (ss_signature s) ->
  exists text, sshsig_display s = Ok text /\ sshsig_from_armored_string text = Ok s.
Proof.
  intros s kd H1 H2 H3 H4 H5 H6. destruct (C46_round_trip s _ kd H1 H3 H4 H5 H6) as (t & b & D & P & _).
  exists t. split; [exact D|]. rewrite P. destruct s as [[kt k c] ns h sg]. cbn in *. subst c. reflexivity.
Qed.
Print Assumptions C46_same_signature.

(** Printing a parsed signature and parsing again changes nothing. *)
Theorem C46_parsed_reprints : forall (text : bytes) (s : sshsig),
  sshsig_from_armored_string text = Ok s ->
  exists text', sshsig_display s = Ok text' /\ sshsig_from_armored_string text' = Ok s.
Proof.
  intros text s H. apply C47_accepts_exactly in H. destruct H as (bs & tl & Hs & _).
  destruct Hs as (kd & post & rv & n & H1 & H2 & H3 & H4 & H5 & H6 & H7 & H8 & H9 & H10 & H11 & _).
  eapply (C46_same_signature s kd); auto. split; [exact H1|]. split; [destruct (pk_kind (ss_pubkey s)); cbn; auto|].
  split; [exact H3|]. unfold field_ok, size in *. rewrite app_assoc, app_length in H4. rewrite Nat2N.inj_add in H4. lia.
Qed.
Print Assumptions C46_parsed_reprints.
Example C46_case : printable (ss_pubkey ex_ssig) (pk_kind (ss_pubkey ex_ssig)) (field [x63; x64] ++ [])
  /\ utf8_text (ss_namespace ex_ssig) /\ ss_namespace ex_ssig <> [] /\ (exists l1 l2, lines ex_armor = [begin_line; l1; l2; end_line] /\ length l1 = 76).
Proof.
  split. { split; [reflexivity|]. split; [reflexivity|]. split.
    - apply (KD_ed25519 _ [x63; x64] None []); [reflexivity|vm_compute; discriminate|reflexivity].
    - vm_compute. discriminate. }
  split; [apply utf8_valid_iff; reflexivity|]. split; [discriminate|]. eexists _, _. vm_compute. auto.
Qed.

(** A comment on the key does not survive. *)
Theorem C46_comment_refuted : exists (s : sshsig) (text : bytes),
  sshsig_display s = Ok text /\ (exists s', sshsig_from_armored_string text = Ok s' /\ s' <> s).
Proof.
  exists (mkSshSig (mkPubKey ed_type (PkEd25519 [x63; x64] None) (Some (s2b "me@host"))) (s2b "file") HSha512 ex_sig).
  eexists. split; [vm_compute; reflexivity|]. eexists. split; [vm_compute; reflexivity|]. discriminate.
Qed.
Print Assumptions C46_comment_refuted.

(** ** C50 *)
Definition chosen (h : option hash_alg) : hash_alg := match h with Some h => h | None => HSha512 end.
Theorem C50_only_verified : forall (C : crypto) (m ns : bytes) (pub : pubkey) (sign : signer) (h : option hash_alg) (v : verified),
  field_ok ns -> digests_fit C ->
  new_with_private_key C m ns pub sign h = Ok v <->
  exists p sg, payload C ns (chosen h) m p /\ sign p = Ok (Some sg) /\ accepted C pub p sg
    /\ v = mkVerified (mkSshSig pub ns (chosen h) sg) m.
Proof.
  intros C m ns pub sign h v Hn Hd. unfold new_with_private_key. fold (chosen h). cbn zeta.
  assert (Hp : forall sg p, payload C ns (chosen h) m p <-> p = to_signed_format C (mkSshSig pub ns (chosen h) sg) m)
    by (intros sg p; apply (payload_iff C (mkSshSig pub ns (chosen h) sg)); assumption).
  split.
  - intros H. apply bind_ok in H. destruct H as (o & Ho & H). apply bind_ok in H. destruct H as (sg & Hs & H).
    destruct o as [sg'|]; [|discriminate]. cbn in Hs. apply ok_inj in Hs. subst sg'.
    apply C48_binds in H; [|assumption..]. destruct H as (_ & _ & (p & Hpp & Ha) & Hv1 & Hv2).
    cbn [ss_namespace ss_hash ss_pubkey ss_signature] in *. exists p, sg. split; [exact Hpp|].
    apply (Hp []) in Hpp. subst p. split; [exact Ho|]. split; [exact Ha|]. destruct v; cbn in *; subst; reflexivity.
  - intros (p & sg & Hpp & Hs & Ha & ->). pose proof Hpp as Hp'. apply (Hp []) in Hp'. rewrite <- Hp', Hs. cbn [bind ok_or].
    apply C48_binds; [assumption..|]. cbn [ss_namespace ss_hash ss_pubkey ss_signature vs_signature vs_message].
    split; [reflexivity|]. split; [intros k H; injection H; auto|]. split; [exists p; auto|auto].
Qed.
Print Assumptions C50_only_verified.

(** Failures: the signer refuses, or its signature does not verify. *)
Theorem C50_failures : forall (C : crypto) (m ns : bytes) (pub : pubkey) (sign : signer) (h : option hash_alg) (p : bytes),
  field_ok ns -> digests_fit C -> payload C ns (chosen h) m p ->
  (sign p = Ok None -> new_with_private_key C m ns pub sign h = Err ESigningError)
  /\ (forall sg, sign p = Ok (Some sg) -> ~ accepted C pub p sg ->
        new_with_private_key C m ns pub sign h = Err EInvalidSignature).
Proof.
  intros C m ns pub sign h p Hn Hd Hp. pose proof Hp as Hp0.
  apply (payload_iff C (mkSshSig pub ns (chosen h) [])) in Hp; [|assumption..].
  split.
  - intros Hs. unfold new_with_private_key. fold (chosen h). cbn zeta. rewrite <- Hp, Hs. reflexivity.
  - intros sg Hs Ha. destruct (new_with_private_key C m ns pub sign h) as [v|e|] eqn:E.
    + exfalso. apply C50_only_verified in E; [|assumption..]. destruct E as (p' & sg' & Hp' & Hs' & Ha' & _).
      apply (payload_iff C (mkSshSig pub ns (chosen h) [])) in Hp'; [|assumption..]. congruence.
    + unfold new_with_private_key in E. fold (chosen h) in E. cbn zeta in E. rewrite <- Hp, Hs in E. cbn [bind ok_or] in E.
      match type of E with ?l = _ => destruct (C48_otherwise_invalid C m (mkSshSig pub ns (chosen h) sg) ns (Some pub)) as [[v Hv]|Hv] end; congruence.
    + unfold new_with_private_key in E. fold (chosen h) in E. cbn zeta in E. rewrite <- Hp, Hs in E. cbn [bind ok_or] in E.
      destruct (C48_otherwise_invalid C m (mkSshSig pub ns (chosen h) sg) ns (Some pub)) as [[v Hv]|Hv]; congruence.
Qed.
Print Assumptions C50_failures.
Definition ex_signer : signer := fun m => if bytes_eqb m ex_payload then Ok (Some ex_sig) else Ok None.
Example C50_case :
  new_with_private_key ex_crypto (s2b "data") (s2b "file") ex_ca ex_signer None = Ok (mkVerified ex_ssig (s2b "data"))
  /\ new_with_private_key ex_crypto (s2b "data") (s2b "file") ex_ca ex_signer (Some HSha256) = Err ESigningError
  /\ new_with_private_key ex_crypto (s2b "data") (s2b "file") ex_subject ex_signer None = Err EInvalidSignature.
Proof. vm_compute. auto. Qed.

(** Not every signature made here can be printed and parsed: the empty namespace. *)
Theorem C50_always_parses_refuted : exists (C : crypto) (m : bytes) (pub : pubkey) (sign : signer) (v : verified) (text : bytes),
  new_with_private_key C m [] pub sign None = Ok v /\ sshsig_display (vs_signature v) = Ok text
  /\ sshsig_from_armored_string text = Err EInvalidFormat.
Proof.
  exists (pick_crypto [x63; x64] (to_signed_format ex_crypto (mkSshSig ex_ca [] HSha512 []) (s2b "data")) [x01; x02; x03]),
    (s2b "data"), ex_ca, (fun _ => Ok (Some ex_sig)).
  eexists _, _. split; [vm_compute; reflexivity|]. split; vm_compute; reflexivity.
Qed.
Print Assumptions C50_always_parses_refuted.

(** ** C51 *)
Theorem C51_comment_never_matches : forall (C : crypto) (text m ns comment : bytes) (s : sshsig) (k : pubkey),
  sshsig_from_armored_string text = Ok s -> pk_comment k = Some comment ->
  from_ssh_signature C m s ns (Some k) = Err EInvalidSignature.
Proof.
  intros C text m ns cm s k Hs Hk. apply C47_accepts_exactly in Hs. destruct Hs as (bs & tl & Hs & _).
  destruct Hs as (kd & post & rv & n & _ & H2 & _). unfold from_ssh_signature.
  destruct (pubkey_eqb (ss_pubkey s) k) eqn:E; [|reflexivity]. apply pubkey_eqb_eq in E. congruence.
Qed.
Print Assumptions C51_comment_never_matches.

(** Although key and signature are right. *)
Theorem C51_right_key_refuted : exists (C : crypto) (text m ns : bytes) (s : sshsig) (k : pubkey) (v : verified),
  sshsig_from_armored_string text = Ok s
  /\ from_ssh_signature C m s ns (Some (mkPubKey (pk_type k) (pk_kind k) None)) = Ok v
  /\ from_ssh_signature C m s ns (Some k) = Err EInvalidSignature.
Proof.
  exists ex_crypto, ex_armor, (s2b "data"), (s2b "file"), ex_ssig,
    (mkPubKey ed_type (PkEd25519 [x63; x64] None) (Some (s2b "me@host"))). eexists.
  split; [vm_compute; reflexivity|]. split; vm_compute; reflexivity.
Qed.
Print Assumptions C51_right_key_refuted.

(** Property C127: which errors the reading functions give. *)
From Coq Require Import Lia.
From Verif Require Import Base BaseFacts SpecWire SpecText SpecBase64 SpecKeys SpecNames Utf8 Utf8Facts Base64 Base64Facts Str StrFacts
  KeyType KeyTypeFacts PropKeyType PubKeyType PubKey PubKeyFacts PropPubKey Crypto Signature SpecSshSig SshSigFacts Cert CertFacts TbsFacts PropCertText
  SpecPrivKey PrivKey PrivKeyFacts PropPrivKey Chrono AllowedSigner SpecSigner PropSigner SpecFiles Files CutFacts CutSignerFacts Reader ReaderFacts
  LocalFacts WireFacts PropCert PropSshSig KindFacts PropFiles SpecErrors ErrorsFacts.

(** ** Public keys *)
Lemma field_text_fits n : field_text n -> fits n /\ utf8_valid n = true.
Proof. intros [H1 H2]. split; [apply field_ok_fits, H2|apply utf8_valid_iff, H1]. Qed.
Lemma name_fits s : (length s <? 200) = true -> fits s.
Proof. intros H. apply Nat.ltb_lt in H. unfold fits. lia. Qed.
Lemma curve_blob kn kt n post : field_text n -> ~ In n curve_names -> kt_from_name kn = Ok kt -> kt_k kt = KEcdsa ->
  run (pk_from_reader kn) (enc_bytes n ++ post) = Err (EUnknownCurve n).
Proof.
  intros Hn Hc Hk Hf. apply field_text_fits in Hn. destruct Hn as [Hn Hu]. unfold pk_from_reader.
  rewrite (run_lift _ _ _ _ Hk), Hf. apply run_bind_err. rewrite step_string by (try assumption; local_tac).
  apply run_lift_err, curve_unknown, Hc.
Qed.
Lemma blob_bad_curve n : field_text n -> ~ In n curve_names ->
  pk_from_bytes (enc_bytes (s2b "ecdsa-sha2-nistp256") ++ enc_bytes n ++ []) = Err (EUnknownCurve n).
Proof.
  intros Hn Hc. unfold pk_from_bytes. rewrite step_string;
    [|apply name_fits; reflexivity|reflexivity|intros a; unfold pk_from_reader; local_tac].
  eapply curve_blob; [exact Hn|exact Hc|reflexivity|reflexivity].
Qed.
Lemma blob_bad_type n : field_text n -> ~ In n supported_names ->
  pk_from_bytes (enc_bytes n ++ []) = Err (EUnknownKeyType n).
Proof.
  intros Hn Hc. apply field_text_fits in Hn. destruct Hn as [Hn Hu]. unfold pk_from_bytes.
  rewrite step_string; [|assumption|assumption|intros a; unfold pk_from_reader; local_tac].
  apply run_lift_err, kt_unknown, Hc.
Qed.

Theorem C127_key_blob_errors : forall e : error,
  (exists data : bytes, pk_from_bytes data = Err e) <-> key_blob_error e.
Proof.
  intros e. split; [intros (b & H); exact (rerrs_pk_bytes b e H)|].
  intros [H|[H|H]].
  - destruct H; [exists []|exists [x00]|exists (field [xff])]; vm_compute; reflexivity.
  - destruct H as [n H1 H2]. eexists. apply blob_bad_curve; assumption.
  - destruct H as [n H1 H2]. eexists. apply blob_bad_type; assumption.
Qed.
Print Assumptions C127_key_blob_errors.

Lemma two_words w1 w2 : word w1 -> word w2 -> split_whitespace (w1 ++ [x20] ++ w2) = [w1; w2].
Proof. intros H1 H2. rewrite split_words_space by exact H1. rewrite split_word by exact H2. reflexivity. Qed.
Lemma graphic_word s : forallb graphic s = true -> s <> [] -> word s.
Proof. intros H1 H2. split; [apply graphic_no_ws, H1|exact H2]. Qed.
Lemma words_text w1 w2 : word w1 -> word w2 -> utf8_text (w1 ++ [x20] ++ w2).
Proof.
  intros [H1 _] [H2 _]. apply utf8_text_app; [apply no_ws_text, H1|]. apply utf8_text_app; [|apply no_ws_text, H2].
  apply utf8_text_ascii. repeat constructor.
Qed.
Lemma label_word l : In l supported_names -> word l.
Proof.
  intros H. apply graphic_word.
  - assert (A : forallb (forallb graphic) supported_names = true) by reflexivity. rewrite forallb_forall in A. exact (A l H).
  - intros ->. cbn in H. intuition discriminate.
Qed.
Lemma key_text_with l kt blob : In l supported_names -> kt_from_name l = Ok kt -> blob <> [] ->
  pk_from_string (l ++ [x20] ++ b64_encode blob)
  = run (do! n <- read_string; if negb (bytes_eqb l n) then throw EKeyTypeMismatch else
         do! k <- pk_from_reader l; ret (mkPubKey kt (pk_kind k) None)) blob.
Proof.
  intros Hl Hk Hb. unfold pk_from_string. rewrite two_words by (try apply label_word, Hl; apply b64_encode_word, Hb).
  cbn [nth_error ok_or bind]. rewrite Hk. cbn [bind]. rewrite b64_decode_encode. reflexivity.
Qed.
Lemma text_bad_curve n : field_text n -> ~ In n curve_names ->
  exists t, utf8_text t /\ pk_from_string t = Err (EUnknownCurve n).
Proof.
  intros Hn Hc. exists (s2b "ecdsa-sha2-nistp256" ++ [x20] ++ b64_encode (enc_bytes (s2b "ecdsa-sha2-nistp256") ++ enc_bytes n ++ [])).
  assert (Hl : In (s2b "ecdsa-sha2-nistp256") supported_names) by (cbn [map In supported_names]; tauto).
  assert (Hb : enc_bytes (s2b "ecdsa-sha2-nistp256") ++ enc_bytes n ++ [] <> []) by (intros E; discriminate E).
  split; [apply words_text; [apply label_word, Hl|apply b64_encode_word, Hb]|].
  rewrite (key_text_with _ (mkKeyType (s2b "ecdsa-sha2-nistp256") (s2b "ECDSA") false false KEcdsa (s2b "ecdsa-sha2-nistp256")));
    [|exact Hl|reflexivity|exact Hb].
  rewrite step_string; [|apply name_fits; reflexivity|reflexivity|intros a; destruct (negb _); unfold pk_from_reader; local_tac].
  rewrite bytes_eqb_refl. cbn [negb]. apply run_bind_err. eapply curve_blob; [exact Hn|exact Hc|reflexivity|reflexivity].
Qed.

Theorem C127_key_text_errors : forall e : error,
  (exists text : bytes, utf8_text text /\ pk_from_string text = Err e) <-> key_text_error e.
Proof.
  intros e. split; [intros (s & Hs & H); exact (rerrs_pk_text s Hs e H)|].
  assert (A : forall s, forallb (fun b => (b2n b <? 128)%N) s = true -> pk_from_string s = Err e ->
    exists text, utf8_text text /\ pk_from_string text = Err e).
  { intros s H1 H2. exists s. split; [apply utf8_text_ascii, ascii_check, H1|exact H2]. }
  intros [H|[H|[H|[H|H]]]].
  - destruct H.
    + apply (A (s2b "ssh-ed25519 " ++ b64_encode (field (s2b "ssh-ed25519")))); vm_compute; reflexivity.
    + apply (A []); reflexivity.
    + apply (A (s2b "ssh-ed25519 " ++ b64_encode (field [xff]))); vm_compute; reflexivity.
  - destruct H as [n H1 H2]. apply text_bad_curve; assumption.
  - destruct H as [n H1 H2]. assert (W : word (s2b "x")) by (apply graphic_word; [reflexivity|discriminate]).
    exists (n ++ [x20] ++ s2b "x"). split; [apply words_text; assumption|].
    unfold pk_from_string. rewrite two_words by assumption. cbn [nth_error ok_or bind]. rewrite (kt_unknown n H2). reflexivity.
  - subst e. apply (A (s2b "ssh-rsa *")); vm_compute; reflexivity.
  - subst e. apply (A (s2b "ssh-ed25519 " ++ b64_encode (field (s2b "ssh-rsa")))); vm_compute; reflexivity.
Qed.
Print Assumptions C127_key_text_errors.

(** ** Certificates *)
Definition cert_prefix : bytes := match ex_request with Ok c => match tbs_certificate (@rev _) c with Ok b => b | _ => [] end | _ => [] end.
Definition strict_crypto : crypto :=
  mkCrypto (fun _ => []) (fun _ => []) (fun _ => []) (fun _ _ _ => false) (fun _ _ _ => false) (fun _ _ _ => false) (fun _ _ _ _ _ => false).
Lemma cert_bad_curve C n : field_text n -> ~ In n curve_names ->
  cert_from_bytes C (enc_bytes (s2b "ecdsa-sha2-nistp256-cert-v01@openssh.com") ++ enc_bytes [] ++ enc_bytes n ++ []) = Err (EUnknownCurve n).
Proof.
  intros Hn Hc. rewrite cert_from_bytes_split. apply run_bind_err. unfold signed_parser.
  rewrite step_string; [|apply name_fits; reflexivity|reflexivity|intros a; unfold pk_from_reader, read_cert_type; local_tac].
  erewrite run_lift by reflexivity. cbn [kt_is_cert negb].
  rewrite step_bytes; [|apply name_fits; reflexivity|intros a; unfold pk_from_reader, read_cert_type; local_tac].
  apply run_bind_err. eapply curve_blob; [exact Hn|exact Hc|reflexivity|reflexivity].
Qed.
Lemma cert_bad_type C n : field_text n -> ~ In n supported_names -> cert_from_bytes C (enc_bytes n ++ []) = Err (EUnknownKeyType n).
Proof.
  intros Hn Hc. apply field_text_fits in Hn. destruct Hn as [Hn Hu]. rewrite cert_from_bytes_split. apply run_bind_err. unfold signed_parser.
  rewrite step_string; [|assumption|assumption|intros a; unfold pk_from_reader, read_cert_type; local_tac].
  apply run_lift_err, kt_unknown, Hc.
Qed.
Lemma cert_bad_kind C n : (n < 2 ^ 32)%N -> n <> 1%N -> n <> 2%N ->
  cert_from_bytes C (enc_bytes (s2b "ssh-ed25519-cert-v01@openssh.com") ++ enc_bytes [] ++ enc_bytes [] ++ to_be 8 0 ++ to_be 4 n ++ []) = Err (EInvalidCertType n).
Proof.
  intros Hn H1 H2. rewrite cert_from_bytes_split. apply run_bind_err. unfold signed_parser.
  rewrite step_string; [|apply name_fits; reflexivity|reflexivity|intros a; unfold pk_from_reader, read_cert_type; local_tac].
  erewrite run_lift by reflexivity. cbn [kt_is_cert negb].
  rewrite step_bytes; [|apply name_fits; reflexivity|intros a; unfold pk_from_reader, read_cert_type; local_tac].
  unfold pk_from_reader. rewrite run_assoc. erewrite run_lift by reflexivity. cbn [kt_k kt_is_sk]. rewrite !run_assoc.
  rewrite step_bytes; [|apply name_fits; reflexivity|intros a; unfold read_cert_type; local_tac].
  rewrite run_assoc, run_ret_bind, !run_ret_bind.
  rewrite step_u64; [|lia|intros a; unfold read_cert_type; local_tac].
  apply run_bind_err. unfold read_cert_type. rewrite step_u32; [|exact Hn|local_tac].
  apply N.eqb_neq in H1, H2. rewrite H1, H2. reflexivity.
Qed.

Theorem C127_cert_blob_errors : forall e : error,
  (exists (C : crypto) (data : bytes), cert_from_bytes C data = Err e) <-> cert_blob_error e.
Proof.
  intros e. split; [intros (C & b & H); exact (rerrs_cert_bytes C b e H)|].
  intros [[H|[H|H]]|[H|[H|[H|(n & H1 & H2 & H3 & H)]]]]; exists strict_crypto.
  - destruct H; [exists []|exists [x00]|exists (field [xff])]; vm_compute; reflexivity.
  - destruct H as [n H1 H2]. eexists. apply cert_bad_curve; assumption.
  - destruct H as [n H1 H2]. eexists. apply cert_bad_type; assumption.
  - subst e. exists (field (s2b "ssh-ed25519")). vm_compute. reflexivity.
  - subst e. exists (cert_prefix ++ field (field (s2b "ssh-rsa"))). vm_compute. reflexivity.
  - subst e. exists ex_data. vm_compute. reflexivity.
  - subst e. eexists. apply cert_bad_kind; assumption.
Qed.
Print Assumptions C127_cert_blob_errors.

Lemma cert_text_with C data e : data <> [] -> cert_from_bytes C data = Err e ->
  utf8_text (ed25519_cert_name ++ [x20] ++ b64_encode data) /\ cert_from_string C (ed25519_cert_name ++ [x20] ++ b64_encode data) = Err e.
Proof.
  intros Hd H. assert (W1 : word ed25519_cert_name) by (apply graphic_word; [reflexivity|discriminate]).
  assert (W2 : word (b64_encode data)) by (apply b64_encode_word, Hd). split; [apply words_text; assumption|].
  unfold cert_from_string. rewrite two_words by assumption. cbn [nth_error ok_or bind].
  change (kt_from_name ed25519_cert_name) with (Ok (mkKeyType ed25519_cert_name (s2b "ED25519-CERT") true false KEd25519Cert (s2b "ssh-ed25519"))).
  cbn [bind]. rewrite b64_decode_encode. cbn [ok_or bind]. rewrite H. reflexivity.
Qed.
Theorem C127_cert_text_errors : forall e : error,
  (exists (C : crypto) (text : bytes), utf8_text text /\ cert_from_string C text = Err e) <-> cert_text_error e.
Proof.
  intros e. split; [intros (C & s & Hs & H); exact (rerrs_cert_text C s Hs e H)|].
  intros [H|[H|H]].
  - assert (X : e = EUnexpectedEof \/ exists C data, data <> [] /\ cert_from_bytes C data = Err e).
    { apply C127_cert_blob_errors in H. destruct H as (C & data & H). destruct data as [|x l].
      - left. vm_compute in H. congruence.
      - right. exists C, (x :: l). split; [discriminate|exact H]. }
    destruct X as [-> |(C & data & Hd & X)].
    + exists strict_crypto. eexists. apply (cert_text_with strict_crypto (field (s2b "ssh-ed25519-cert-v01@openssh.com"))); [discriminate|].
      vm_compute. reflexivity.
    + exists C. eexists. eapply cert_text_with; eassumption.
  - destruct H as [n H1 H2]. assert (W : word (s2b "x")) by (apply graphic_word; [reflexivity|discriminate]).
    exists strict_crypto, (n ++ [x20] ++ s2b "x"). split; [apply words_text; assumption|].
    unfold cert_from_string. rewrite two_words by assumption. cbn [nth_error ok_or bind]. rewrite (kt_unknown n H2). reflexivity.
  - subst e. exists strict_crypto, (s2b "ssh-rsa *"). split; [apply utf8_text_ascii, ascii_check; reflexivity|vm_compute; reflexivity].
Qed.
Print Assumptions C127_cert_text_errors.
Example C127_case_text : key_text_error (EUnknownKeyType (s2b "ssh-dss")) /\ pk_from_string (s2b "ssh-dss AAAA me") = Err (EUnknownKeyType (s2b "ssh-dss"))
  /\ ~ key_text_error (EUnknownKeyType (s2b "ssh-rsa")) /\ ~ key_text_error (EUnknownKeyType (s2b "two words")) /\ ~ key_text_error EIo.
Proof.
  assert (N : forall n, ~ (word n /\ ~ In n supported_names) -> ~ key_text_error (EUnknownKeyType n)).
  { intros n Hn [H|[H|[H|[H|H]]]]; inversion H; subst; tauto. }
  split; [|split; [vm_compute; reflexivity|split; [|split]]].
  - right. right. left. constructor; [apply graphic_word; [reflexivity|discriminate]|]. cbn. intuition discriminate.
  - apply N. intros [_ H]. apply H. cbn [map In supported_names]. tauto.
  - apply N. intros [H _]. apply split_word in H. vm_compute in H. discriminate.
  - intros [H|[H|[H|[H|H]]]]; inversion H.
Qed.
Example C127_case_cert : cert_blob_error (EInvalidCertType 3) /\ ~ cert_blob_error (EInvalidCertType 2)
  /\ cert_from_bytes lax_crypto (field (s2b "ssh-ed25519-cert-v01@openssh.com") ++ field [] ++ field [] ++ repeat x00 8 ++ [x00; x00; x00; x03]) = Err (EInvalidCertType 3)
  /\ cert_from_string lax_crypto (s2b "ssh-rsa-cert-v01@openssh.com " ++ b64_encode (field (s2b "a b"))) = Err (EUnknownKeyType (s2b "a b")).
Proof.
  split; [|split; [|split; vm_compute; reflexivity]].
  - do 4 right. exists 3%N. repeat split; discriminate.
  - intros [[H|[H|H]]|[H|[H|[H|(n & _ & _ & H2 & H)]]]]; try (inversion H; fail). congruence.
Qed.

(** ** Private keys *)
(** Names of ordinary size. *)
Definition short_names (e : error) : Prop := forall n, e = EUnknownKeyType n \/ e = EUnknownCurve n -> (size n < 2 ^ 31)%N.
Lemma join_text b e d : forallb (fun b => (b2n b <? 128)%N) b = true -> forallb (fun b => (b2n b <? 128)%N) e = true -> d <> [] ->
  utf8_text (b ++ [newline] ++ join [newline] (chunks 70 (b64_encode d)) ++ [newline] ++ e).
Proof.
  intros Hb He Hd. apply utf8_text_ascii. apply ascii_check in Hb, He.
  assert (N : Forall (fun b => (b2n b < 128)%N) [newline]) by (repeat constructor).
  apply Forall_app. split; [exact Hb|]. apply Forall_app. split; [exact N|]. apply Forall_app. split; [|apply Forall_app; auto].
  apply Forall_forall. intros x Hx. apply join_in in Hx. destruct Hx as [-> |Hx]; [reflexivity|].
  destruct (chunks_filled 70 (b64_encode d)) as [_ Hc]; [lia| |].
  { intros E. apply Hd. assert (X := b64_decode_encode d). rewrite E in X. cbn in X. congruence. }
  rewrite Hc in Hx. pose proof (b64_encode_ascii d) as G. rewrite Forall_forall in G. auto.
Qed.
Lemma sk_text_with F K pass d e : d <> [] -> run (sk_from_reader F K pass) d = Err e ->
  exists t, utf8_text t /\ sk_from_string F K t pass = Err e.
Proof.
  intros Hd H. exists (key_begin ++ [newline] ++ join [newline] (chunks 70 (b64_encode d)) ++ [newline] ++ key_end).
  split; [apply join_text; [reflexivity|reflexivity|exact Hd]|].
  rewrite sk_from_string_decode, armor_print_decode; [exact H|lia|exact Hd|exact key_begin_plain|exact key_end_plain|reflexivity].
Qed.
Lemma pub_run_err F K pass pkb e tl : fits pkb -> pk_from_bytes pkb = Err e ->
  run (sk_from_reader F K pass) (key_magic ++ [x00] ++ enc_bytes (s2b "none") ++ enc_bytes (s2b "none") ++ enc_bytes [] ++ to_be 4 1 ++ enc_bytes pkb ++ tl) = Err e.
Proof.
  intros H1 H2. unfold sk_from_reader.
  rewrite magic_step by local_tac. unfold key_magic. rewrite bytes_eqb_refl. cbn [negb].
  assert (S : str_ok (s2b "none")) by (split; [apply name_fits; reflexivity|reflexivity]).
  rewrite str_step by (try assumption; local_tac). rewrite str_step by (try assumption; local_tac).
  rewrite step_bytes by (try (apply name_fits; reflexivity); local_tac). rewrite step_u32 by (try lia; local_tac).
  cbn [N.eqb Pos.eqb negb]. rewrite step_bytes by (try assumption; local_tac). apply run_lift_err, H2.
Qed.
Lemma magic_not_nil tl : key_magic ++ tl <> [].
Proof. discriminate. Qed.
(** A file whose public key blob is [pkb] and whose section is not encrypted. *)
Definition ex_pub_blob : bytes := field (s2b "ssh-ed25519") ++ field (repeat x07 32).
Definition ex_file (cipher kdf section : bytes) : bytes := enc_file cipher kdf [] ex_pub_blob section.

Theorem C127_private_key_errors : forall (F : features) (K : keyops) (pass : option bytes) (e : error),
  let encrypted := match pass with None => true | Some _ => false end in
  (forall text : bytes, sk_from_string F K text pass = Err e -> private_error encrypted e)
  /\ (private_error encrypted e -> short_names e -> exists text : bytes, utf8_text text /\ sk_from_string F K text pass = Err e).
Proof.
  intros F K pass e encrypted. split; [intros text H; exact (rerrs_sk_text F K text pass e H)|].
  assert (A : forall s, forallb (fun b => (b2n b <? 128)%N) s = true -> sk_from_string F K s pass = Err e ->
    exists text, utf8_text text /\ sk_from_string F K text pass = Err e).
  { intros s H1 H2. exists s. split; [apply utf8_text_ascii, ascii_check, H1|exact H2]. }
  intros [[H|[H|H]]|[H|[H|[H|H]]]] Hs.
  - destruct H.
    + apply (A (key_begin ++ [newline] ++ key_end)); vm_compute; reflexivity.
    + apply (A []); reflexivity.
    + eapply (sk_text_with F K pass (key_magic ++ [x00] ++ field [xff])); [discriminate|vm_compute; reflexivity].
  - destruct H as [n H1 H2]. specialize (Hs n (or_intror eq_refl)).
    eapply sk_text_with; [|eapply (pub_run_err F K pass _ _ []); [|apply blob_bad_curve; assumption]]; [apply magic_not_nil|].
    unfold fits. rewrite !app_length, !enc_bytes_length. change (length (s2b "ecdsa-sha2-nistp256")) with 19. cbn [length]. unfold size in Hs. lia.
  - destruct H as [n H1 H2]. specialize (Hs n (or_introl eq_refl)).
    eapply sk_text_with; [|eapply (pub_run_err F K pass _ _ []); [|apply blob_bad_type; assumption]]; [apply magic_not_nil|].
    unfold fits. rewrite !app_length, !enc_bytes_length. cbn [length]. unfold size in Hs. lia.
  - subst e. apply (A (key_begin ++ [newline] ++ s2b "*" ++ [newline] ++ key_end)); vm_compute; reflexivity.
  - destruct H as (n & H & ->). apply (sk_text_with F K pass (ex_file (s2b "none") (s2b "none") (repeat x00 8 ++ field n))); [discriminate|].
    unfold software_certs in H. cbn [map In] in H.
    repeat match type of H with _ \/ _ => destruct H as [H|H]; [subst n; vm_compute; reflexivity|] end. destruct H.
  - subst e. apply (sk_text_with F K pass (ex_file (s2b "rot13") (s2b "none") [x00])); [discriminate|vm_compute; reflexivity].
  - destruct H as [H ->]. destruct pass as [p|]; [discriminate H|].
    apply (sk_text_with F K None (ex_file (s2b "aes256-ctr") (s2b "bcrypt") [x00])); [discriminate|vm_compute; reflexivity].
Qed.
Print Assumptions C127_private_key_errors.
Example C127_case_private : forall F K,
  private_error false (EUnknownKeyType (s2b "ssh-rsa-cert-v01@openssh.com")) /\ short_names (EUnknownKeyType (s2b "ssh-rsa-cert-v01@openssh.com"))
  /\ run (sk_from_reader F K (Some [])) (ex_file (s2b "none") (s2b "none") (repeat x00 8 ++ field (s2b "ssh-rsa-cert-v01@openssh.com")))
     = Err (EUnknownKeyType (s2b "ssh-rsa-cert-v01@openssh.com"))
  /\ ~ private_error false EEncryptedPrivateKey /\ ~ private_error true (EUnknownKeyType (s2b "ssh-rsa")).
Proof.
  intros F K. split; [|split; [|split; [vm_compute; reflexivity|split]]].
  - right. right. left. eexists. split; [left; reflexivity|reflexivity].
  - intros n [H|H]; [injection H as <-; reflexivity|discriminate].
  - intros [[H|[H|H]]|[H|[(n & _ & H)|[H|[H _]]]]]; try (inversion H; fail); discriminate.
  - intros [[H|[H|H]]|[H|[(n & H & E)|[H|[_ H]]]]]; try (inversion H; fail).
    + inversion H as [n _ H2]. apply H2. cbn [map In supported_names]. tauto.
    + injection E as <-. cbn in H. intuition discriminate.
Qed.

(** ** File signatures *)
Lemma sig_text_with d e : d <> [] -> run sshsig_from_reader d = Err e ->
  exists t, utf8_text t /\ sshsig_from_armored_string t = Err e.
Proof.
  intros Hd H. exists (sig_begin ++ [newline] ++ join [newline] (chunks 70 (b64_encode d)) ++ [newline] ++ sig_end).
  split; [apply join_text; [reflexivity|reflexivity|exact Hd]|].
  rewrite armored_decode, armor_print_decode; [exact H|lia|exact Hd|repeat split; vm_compute; intuition discriminate..|reflexivity].
Qed.
Lemma sig_key_err pkb e : fits pkb -> pk_from_bytes pkb = Err e -> run sshsig_from_reader (sshsig_magic ++ to_be 4 1 ++ enc_bytes pkb ++ []) = Err e.
Proof.
  intros H1 H2. unfold sshsig_from_reader.
  rewrite step_raw by (try lia; try reflexivity; sig_local). rewrite bytes_eqb_refl. cbn [negb].
  rewrite step_u32 by (try lia; sig_local). cbn [N.eqb Pos.eqb negb]. rewrite step_bytes by (try assumption; sig_local). apply run_lift_err, H2.
Qed.
Theorem C127_signature_errors : forall e : error,
  (forall text : bytes, sshsig_from_armored_string text = Err e -> signature_error e)
  /\ (signature_error e -> short_names e -> exists text : bytes, utf8_text text /\ sshsig_from_armored_string text = Err e).
Proof.
  intros e. split; [intros text H; exact (rerrs_sig_text text e H)|].
  assert (A : forall s, forallb (fun b => (b2n b <? 128)%N) s = true -> sshsig_from_armored_string s = Err e ->
    exists text, utf8_text text /\ sshsig_from_armored_string text = Err e).
  { intros s H1 H2. exists s. split; [apply utf8_text_ascii, ascii_check, H1|exact H2]. }
  intros [[H|[H|H]]|[H|H]] Hs.
  - destruct H.
    + apply (A (sig_begin ++ [newline] ++ sig_end)); vm_compute; reflexivity.
    + apply (A []); reflexivity.
    + eapply (sig_text_with (sshsig_magic ++ [x00; x00; x00; x01] ++ field ex_pub_blob ++ field [xff])); [discriminate|vm_compute; reflexivity].
  - destruct H as [n H1 H2]. specialize (Hs n (or_intror eq_refl)).
    eapply sig_text_with; [|eapply sig_key_err; [|apply blob_bad_curve; assumption]]; [discriminate|].
    unfold fits. rewrite !app_length, !enc_bytes_length. change (length (s2b "ecdsa-sha2-nistp256")) with 19. cbn [length]. unfold size in Hs. lia.
  - destruct H as [n H1 H2]. specialize (Hs n (or_introl eq_refl)).
    eapply sig_text_with; [|eapply sig_key_err; [|apply blob_bad_type; assumption]]; [discriminate|].
    unfold fits. rewrite !app_length, !enc_bytes_length. cbn [length]. unfold size in Hs. lia.
  - subst e. apply (A (sig_begin ++ [newline] ++ s2b "*" ++ [newline] ++ sig_end)); vm_compute; reflexivity.
  - subst e. apply (sig_text_with (sshsig_magic ++ [x00; x00; x00; x02])); [discriminate|vm_compute; reflexivity].
Qed.
Print Assumptions C127_signature_errors.
Example C127_case_signature : signature_error EUnsupported /\ short_names EUnsupported
  /\ run sshsig_from_reader (sshsig_magic ++ [x00; x00; x00; x01] ++ field ex_pub_blob ++ field (s2b "file") ++ field [] ++ field (s2b "sha384")) = Err EUnsupported
  /\ ~ signature_error EInvalidSignature.
Proof.
  split; [right; right; reflexivity|]. split; [intros n [H|H]; discriminate|]. split; [vm_compute; reflexivity|].
  intros [[H|[H|H]]|[H|H]]; inversion H.
Qed.

(** ** Allowed signers *)
Lemma rejected_set tz s e : rejected_line tz s e -> entry_error e \/ e = ASMissingPrincipals /\ no_words s.
Proof.
  intros H. destruct H as [H| | | | |ps o r w r' e H1 H2 H3| | | | | | | | |]; try (left; constructor; fail); [right; auto|].
  left. destruct H3 as [nm v H4 H5|nm v n H4 H5 [H6 _]|nm v n H4 H5 [H6 _] _ _]; constructor; cbn [map In]; intuition.
Qed.
Lemma entry_line tz e : entry_error e -> exists l, trim l = l /\ l <> [] /\ no_nl l /\ utf8_text l
  /\ (forall c, l <> x23 :: c) /\ (forall l', l <> l' ++ [x0d]) /\ as_from_string tz l = Err (EInvalidAllowedSigner e).
Proof.
  assert (A : forall l, forallb (fun b => (b2n b <? 128)%N) l = true -> existsb (byte_eqb x0a) l = false -> existsb (byte_eqb x0d) l = false ->
    bytes_eqb (trim l) l = true -> match l with [] => false | b :: _ => negb (byte_eqb b x23) end = true ->
    as_from_string tz l = Err (EInvalidAllowedSigner e) ->
    exists l, trim l = l /\ l <> [] /\ no_nl l /\ utf8_text l /\ (forall c, l <> x23 :: c) /\ (forall l', l <> l' ++ [x0d])
      /\ as_from_string tz l = Err (EInvalidAllowedSigner e)).
  { intros l H1 H2 H2' H3 H4 H5. exists l. split; [apply bytes_eqb_eq, H3|]. split; [intros ->; discriminate|].
    split; [apply not_in_check, H2|]. split; [apply utf8_text_ascii, ascii_check, H1|].
    split; [intros c ->; discriminate|]. split; [|exact H5]. intros l' ->. apply (not_in_check _ _ H2'). apply in_or_app. right. left. reflexivity. }
  intros H. destruct H as [| | |n H|n H| | |].
  - apply (A (s2b "a""")); vm_compute; reflexivity.
  - apply (A (s2b "a,,b " ++ ex_key_text)); vm_compute; reflexivity.
  - apply (A (s2b "a")); vm_compute; reflexivity.
  - cbn [map In] in H. destruct H as [<-|[<-|[<-|[]]]].
    + apply (A (s2b "a namespaces=b namespaces=c")); vm_compute; reflexivity.
    + apply (A (s2b "a valid-after=20240101Z valid-after=20240101Z")); vm_compute; reflexivity.
    + apply (A (s2b "a valid-before=20240101Z valid-before=20240101Z")); vm_compute; reflexivity.
  - cbn [map In] in H. destruct H as [<-|[<-|[]]].
    + apply (A (s2b "a valid-after=2024")); vm_compute; reflexivity.
    + apply (A (s2b "a valid-before=2024")); vm_compute; reflexivity.
  - apply (A (s2b "a ssh-ed25519")); vm_compute; reflexivity.
  - apply (A (s2b "a valid-after=20240102Z valid-before=20240101Z " ++ ex_key_text)); vm_compute; reflexivity.
  - apply (A (s2b "a " ++ ex_key_text ++ s2b " comment")); vm_compute; reflexivity.
Qed.

Theorem C127_entry_errors : forall (tz : timezone) (e : error),
  (exists line : bytes, utf8_text line /\ as_from_string tz line = Err e)
  <-> exists e', e = EInvalidAllowedSigner e' /\ (entry_error e' \/ e' = ASMissingPrincipals).
Proof.
  intros tz e. split.
  - intros (l & _ & H). apply C80_every_rejection in H. destruct H as (e' & -> & H). exists e'. split; [reflexivity|].
    apply rejected_set in H. tauto.
  - intros (e' & -> & [H| ->]).
    + destruct (entry_line tz e' H) as (l & _ & _ & _ & Hu & _ & _ & Hl). eauto.
    + exists []. split; [constructor|vm_compute; reflexivity].
Qed.
Print Assumptions C127_entry_errors.

Lemma skip_lines tz k : forall i ls, read_lines tz i (repeat [] k ++ ls) = read_lines tz (i + k) ls.
Proof.
  induction k as [|k IH]; intros i ls; cbn [repeat app]; [rewrite Nat.add_0_r; reflexivity|].
  cbn [read_lines]. change (trim []) with (@nil byte). cbn [nonempty negb orb]. rewrite IH. f_equal. lia.
Qed.
Lemma lines_behind k l : no_nl l -> l <> [] -> (forall l', l <> l' ++ [x0d]) -> lines (repeat x0a k ++ l) = repeat [] k ++ [l].
Proof.
  intros H1 H2 H3. apply lines_iff. induction k as [|k IH]; cbn [repeat app]; [apply L_last; assumption|].
  apply (L_lf [] (repeat x0a k ++ l)); [intros []|intros [|x l'] E; discriminate E|exact IH].
Qed.
(** In a file, no entry lacks principals: such lines are blank or comments. *)
Theorem C127_file_errors : forall (tz : timezone) (e : error),
  (exists text : bytes, utf8_text text /\ signers_from_string tz text = Err e)
  <-> exists e' line, e = EInvalidAllowedSigners e' line /\ entry_error e'.
Proof.
  intros tz e. split.
  - intros (t & _ & H).
    assert (Hl : lines_of t (lines t)) by (apply lines_iff; reflexivity).
    apply (C66_file_is_its_lines tz t (lines t) Hl) in H.
    destruct H as (pre & l & post & es & s & e' & _ & _ & Hn & Hs & Hr & ->). exists e', (length pre). split; [reflexivity|].
    apply rejected_set in Hr. destruct Hr as [Hr|[-> (n & Hw)]]; [exact Hr|]. exfalso.
    assert (N : forall r, s = repeat x20 n ++ r -> n = 0).
    { intros r E. destruct n as [|n]; [reflexivity|]. cbn [repeat app] in E. destruct Hs as (p & q & _ & _ & _ & Hf & _).
      specialize (Hf [x20] (repeat x20 n ++ r) E). assert (R : ws_run [x20]).
      { apply (WsR_cons 32 [x20] []); [apply space_char|apply space_ws|constructor]. }
      specialize (Hf R). discriminate. }
    destruct Hw as [E|(c & E)].
    + assert (n = 0) by (apply (N []); rewrite app_nil_r; exact E). subst n. cbn in E. subst s. apply Hn. left. exact Hs.
    + assert (n = 0) by (eapply N, E). subst n. cbn in E. subst s. apply Hn. right. exists c. exact Hs.
  - intros (e' & k & -> & He). destruct (entry_line tz e' He) as (l & H1 & H2 & H3 & H4 & H5 & H5' & H6).
    exists (repeat x0a k ++ l). split.
    + apply utf8_text_app; [|exact H4]. apply utf8_text_ascii, Forall_forall. intros x Hx. apply repeat_spec in Hx. subst x. reflexivity.
    + unfold signers_from_string. rewrite lines_behind by assumption. rewrite skip_lines.
      cbn [read_lines Nat.add]. rewrite H1. destruct l as [|x l]; [congruence|]. cbn [nonempty negb orb starts_with_byte].
      destruct (byte_eqb x pound) eqn:E; [apply byte_eqb_eq in E; subst x; exfalso; apply (H5 l); reflexivity|]. rewrite H6. reflexivity.
Qed.
Print Assumptions C127_file_errors.
Example C127_case_signers : entry_error (ASInvalidOption (s2b "valid-after")) /\ ~ entry_error (ASInvalidOption (s2b "namespaces"))
  /\ ~ entry_error ASInvalidTimestamp /\ ~ entry_error ASMissingPrincipals
  /\ as_from_string utc (s2b "  # nothing") = Err (EInvalidAllowedSigner ASMissingPrincipals)
  /\ signers_from_string utc (s2b "  # nothing") = Ok []
  /\ signers_from_string utc ([x0a; x0a] ++ s2b "a valid-after=never") = Err (EInvalidAllowedSigners (ASInvalidOption (s2b "valid-after")) 2).
Proof.
  split; [constructor; left; reflexivity|].
  split; [intros H; inversion H as [| | | |n H'| | |]; cbn in H'; intuition discriminate|].
  split; [intros H; inversion H|]. split; [intros H; inversion H|]. repeat split; vm_compute; reflexivity.
Qed.

(** ** Files *)
(** An I/O error means that the file could not be read as text, and nothing else; otherwise the
    outcome is that of reading the contents. *)
Definition text_file (file : option bytes) (text : bytes) : Prop := file = Some text /\ utf8_text text.
Definition reads_files {A} (from_path : option bytes -> res A) (from_text : bytes -> res A) : Prop :=
  forall file : option bytes,
    (forall text, text_file file text -> from_path file = from_text text)
    /\ (from_path file = Err EIo <-> forall text, ~ text_file file text).
Lemma reads_files_by {A} (f : bytes -> res A) : (forall t, utf8_text t -> f t <> Err EIo) ->
  reads_files (fun file => do? contents <- read_to_string file; f contents) f.
Proof.
  intros Hf file. split.
  - intros t Ht. apply read_file in Ht. rewrite Ht. reflexivity.
  - split.
    + intros H t Ht. pose proof Ht as Hu. apply read_file in Ht. rewrite Ht in H. exact (Hf t (proj2 Hu) H).
    + intros H. destruct (read_to_string file) as [c|e|] eqn:E.
      * exfalso. apply read_file in E. exact (H c E).
      * cbn [bind]. unfold read_to_string in E. destruct file as [b|]; [destruct (utf8_valid b)|]; congruence.
      * unfold read_to_string in E. destruct file as [b|]; [destruct (utf8_valid b)|]; discriminate.
Qed.
Theorem C127_paths : forall (F : features) (K : keyops) (C : crypto) (tz : timezone) (pass : option bytes),
  reads_files pk_from_path pk_from_string
  /\ reads_files (cert_from_path C) (cert_from_string C)
  /\ reads_files (fun file => sk_from_path_with_passphrase F K file pass) (fun t => sk_from_string F K t pass)
  /\ reads_files (sk_from_path F K) (fun t => sk_from_string F K t None)
  /\ reads_files (signers_from_path tz) (signers_from_string tz).
Proof.
  intros F K C tz pass.
  assert (Q : forall p, reads_files (fun file => sk_from_path_with_passphrase F K file p) (fun t => sk_from_string F K t p)).
  { intros p. apply reads_files_by. intros t _ H. apply rerrs_sk_text in H.
    destruct H as [[H|[H|H]]|[H|[(n & _ & H)|[H|[_ H]]]]]; inversion H. }
  split; [|split; [|split; [apply Q|split; [exact (Q None)|]]]].
  - apply reads_files_by. intros t Ht H. apply (rerrs_pk_text t Ht) in H. destruct H as [H|[H|[H|[H|H]]]]; inversion H.
  - apply (reads_files_by (cert_from_string C)). intros t Ht H. apply (rerrs_cert_text C t Ht) in H.
    destruct H as [[[H|[H|H]]|[H|[H|[H|(n & _ & _ & _ & H)]]]]|[H|H]]; inversion H.
  - apply (reads_files_by (signers_from_string tz)). intros t Ht H.
    assert (X : exists text, utf8_text text /\ signers_from_string tz text = Err EIo) by eauto.
    apply C127_file_errors in X. destruct X as (e' & l & X & _). discriminate.
Qed.
Print Assumptions C127_paths.
Example C127_case_paths : (forall text, ~ text_file None text) /\ (forall text, ~ text_file (Some [xff]) text)
  /\ pk_from_path None = Err EIo /\ pk_from_path (Some [xff]) = Err EIo
  /\ text_file (Some (s2b "ssh-ed25519 ?")) (s2b "ssh-ed25519 ?") /\ pk_from_path (Some (s2b "ssh-ed25519 ?")) = Err EDecode.
Proof.
  split; [intros t [H _]; discriminate|]. split.
  { intros t [H Hu]. apply some_inj in H. subst t. apply utf8_valid_iff in Hu. discriminate. }
  split; [reflexivity|]. split; [reflexivity|]. split; [|vm_compute; reflexivity].
  split; [reflexivity|apply utf8_text_ascii, ascii_check; reflexivity].
Qed.

(** The name in the error need not be unknown: private keys of certificate types. *)
Theorem C127_named_types_are_unknown_refuted : forall (F : features) (K : keyops), exists text n,
  sk_from_string F K text None = Err (EUnknownKeyType n) /\ In n supported_names.
Proof.
  intros F K. destruct (sk_text_with F K None (ex_file (s2b "none") (s2b "none") (repeat x00 8 ++ field (s2b "ssh-rsa-cert-v01@openssh.com")))
    (EUnknownKeyType (s2b "ssh-rsa-cert-v01@openssh.com"))) as (t & _ & H); [discriminate|vm_compute; reflexivity|].
  exists t, (s2b "ssh-rsa-cert-v01@openssh.com"). split; [exact H|]. cbn [map In supported_names]. tauto.
Qed.
Print Assumptions C127_named_types_are_unknown_refuted.

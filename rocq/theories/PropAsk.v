(** Property C136: what is asked of the crypto backend. *)
From Coq Require Import Lia.
From Verif Require Import Base BaseFacts Utf8 Utf8Facts Str StrFacts SpecWire SpecText SpecBase64 SpecKeys Base64 Base64Facts WireFacts
  Reader ReaderFacts KeyType KeyTypeFacts PubKeyType Writer WriterFacts Crypto PubKey PubKeyFacts PropPubKey Signature SignatureFacts PropSignature
  Cert CertFacts SpecCert TbsFacts PropCert PropCertText SpecAsk.

(** A computation fails in one way whatever backend and message, or asks one question. *)
Definition asks {A} (P : question -> bytes -> Prop) (f : crypto -> bytes -> res A * reader) (yes : A) : Prop :=
  (exists x, (forall a, x <> Ok a) /\ forall C m, fst (f C m) = x)
  \/ exists Q, (forall m, P (Q m) m) /\ forall C m, fst (f C m) = if answer C (Q m) then Ok yes else Err EInvalidSignature.

Lemma step_assoc {A B D} (m : M A) (f : A -> M B) (k : B -> M D) r : mbind (mbind m f) k r = mbind m (fun a => mbind (f a) k) r.
Proof. unfold mbind. destruct (m r) as [[a|e|] r']; reflexivity. Qed.
Lemma asks_step {A B} P (m : M A) (k : A -> crypto -> bytes -> M B) yes r :
  (forall a r', m r = (Ok a, r') -> asks P (fun C x => k a C x r') yes) -> asks P (fun C x => mbind m (fun a => k a C x) r) yes.
Proof.
  unfold mbind. destruct (m r) as [[a|e|] r'] eqn:E; intros H.
  - apply H. reflexivity.
  - left. exists (Err e). split; [discriminate|reflexivity].
  - left. exists Panic. split; [discriminate|reflexivity].
Qed.
Lemma asks_fail {A} P e (yes : A) r : asks P (fun _ _ => throw e r) yes.
Proof. left. exists (Err e). split; [discriminate|reflexivity]. Qed.
Lemma asks_ext {A} P (f g : crypto -> bytes -> res A * reader) yes : (forall C m, g C m = f C m) -> asks P f yes -> asks P g yes.
Proof.
  intros E [(x & N & H)|(Q & H1 & H2)].
  - left. exists x. split; [exact N|]. intros C m. rewrite E. apply H.
  - right. exists Q. split; [exact H1|]. intros C m. rewrite E. apply H2.
Qed.
(** The last steps: the message is made and the question is asked. *)
Lemma asks_message (P : question -> bytes -> Prop) (app : option bytes) (yes : bytes) (V : crypto -> bytes -> bool) (q : message -> question) (r : reader) :
  (forall C x, V C (hashed C x) = answer C (q x)) -> (forall m x, over app m x -> P (q x) m) ->
  asks P (fun C m => mbind match app with Some a => read_sk_message C a m | None => ret m end
            (fun msg => mbind (lift (check (V C msg))) (fun _ => ret yes)) r) yes.
Proof.
  intros HV HP.
  assert (E : forall x r', asks P (fun C m => mbind (lift (check (V C (hashed C (x m))))) (fun _ => ret yes) r') yes <->
                           asks P (fun C m => (if answer C (q (x m)) then Ok yes else Err EInvalidSignature, r')) yes).
  { intros x r'. split; apply asks_ext; intros C m; unfold mbind, lift, check; rewrite HV; destruct (answer C (q (x m))); reflexivity. }
  destruct app as [a|].
  - unfold read_sk_message. eapply asks_ext; [intros C m; apply step_assoc|]. apply asks_step. intros f r1 _.
    eapply asks_ext; [intros C m; apply step_assoc|]. apply asks_step. intros flags r2 _.
    eapply asks_ext; [intros C m; apply step_assoc|]. apply asks_step. intros counter r3 _.
    eapply asks_ext; [|apply (proj2 (E (fun m => Token a flags counter m) r3))].
    + intros C m. unfold mbind at 1, ret at 1. cbn [hashed]. rewrite be32_to_be, <- !app_assoc. reflexivity.
    + right. exists (fun m => q (Token a flags counter m)). split; [|reflexivity]. intros m. apply HP. cbn. eauto.
  - eapply asks_ext; [|apply (proj2 (E Plain r))]; [reflexivity|]. right. exists (fun m => q (Plain m)). split; [|reflexivity].
    intros m. apply HP. reflexivity.
Qed.

Lemma verify_asks sig k : asks (fun q m => about q k m) (fun C m => (verify_signature C sig m k, reader_new sig)) sig.
Proof.
  assert (G : asks (fun q m => about q k m) (fun C m => (do! v <- read_string;
    do! sig_type <- lift (kt_from_name v);
    if negb (kt_kind_eqb (kt_k (pk_type k)) (kt_k sig_type)) then throw EKeyTypeMismatch else
    match pk_kind k with
    | PkEcdsa _ key app =>
        do! inner <- read_bytes;
        do! al <- lift (ecdsa_alg_of (kt_name sig_type));
        let (alg, len) := al in
        do! rs <- lift (run (do! r <- read_positive_mpint; do! s <- read_positive_mpint; ret (r, s)) inner);
        let (r_bytes, s_bytes) := rs in
        if (len <? length r_bytes) || (len <? length s_bytes) then throw EInvalidFormat else
        do! nr <- lift (usub len (length r_bytes));
        do! ns <- lift (usub len (length s_bytes));
        let s := (repeat x00 nr ++ r_bytes) ++ (repeat x00 ns ++ s_bytes) in
        do! msg <- match app with Some a => read_sk_message C a m | None => ret m end;
        do! _ <- lift (check (ecdsa_verify C alg key msg s));
        ret sig
    | PkRsa e n =>
        do! alg <- lift (rsa_alg_of (kt_name sig_type));
        do! signature <- read_bytes;
        do! _ <- lift (check (c_rsa_verify C alg n e m signature));
        ret sig
    | PkEd25519 key app =>
        do! _ <- lift (ed25519_type_check (kt_name sig_type));
        do! signature <- read_bytes;
        do! msg <- match app with Some a => read_sk_message C a m | None => ret m end;
        do! _ <- lift (check (c_ed25519_verify C key msg signature));
        ret sig
    end) (reader_new sig)) sig).
  { apply asks_step. intros v r1 _. apply asks_step. intros st r2 _. destruct (negb _); [apply asks_fail|].
    destruct (pk_kind k) as [e n|cv key app|key app] eqn:Ek.
    - apply asks_step. intros alg r3 _. apply asks_step. intros s r4 _.
      apply (asks_message (fun q m => about q k m) None sig (fun C m => c_rsa_verify C alg n e m s) (fun x => AskRsa alg n e x s)); [reflexivity|].
      intros m x H. unfold about. rewrite Ek. auto.
    - apply asks_step. intros inner r3 _. apply asks_step. intros [alg len] r4 _. apply asks_step. intros [rb sb] r5 _.
      destruct ((len <? length rb) || (len <? length sb)); [apply asks_fail|]. apply asks_step. intros nr r6 _. apply asks_step. intros ns r7 _.
      cbv zeta. set (s := (repeat x00 nr ++ rb) ++ repeat x00 ns ++ sb).
      apply (asks_message (fun q m => about q k m) app sig (fun C m => ecdsa_verify C alg key m s)
        (fun x => match alg with EcP256 => AskP256 key x s | EcP384 => AskP384 key x s end)); [destruct alg; reflexivity|].
      intros m x H. unfold about. rewrite Ek. destruct alg; auto.
    - apply asks_step. intros u r3 _. apply asks_step. intros s r4 _.
      apply (asks_message (fun q m => about q k m) app sig (fun C m => c_ed25519_verify C key m s) (fun x => AskEd25519 key x s)); [reflexivity|].
      intros m x H. unfold about. rewrite Ek. auto. }
  exact G.
Qed.

(** ** C136 *)
(** Checking a signature: it is refused with one error whatever backend and message, or one question about
    this key and message decides. *)
Theorem C136_signature : forall (sig : bytes) (k : pubkey),
  (exists e, forall C m, verify_signature C sig m k = Err e)
  \/ exists Q, (forall m, about (Q m) k m)
       /\ forall C m, verify_signature C sig m k = if answer C (Q m) then Ok sig else Err EInvalidSignature.
Proof.
  intros sig k. destruct (verify_asks sig k) as [(x & N & H)|H]; [|right; exact H]. left.
  pose (C0 := mkCrypto (fun x => x) (fun x => x) (fun x => x) (fun _ _ _ => true) (fun _ _ _ => true) (fun _ _ _ => true) (fun _ _ _ _ _ => true)).
  destruct x as [a|e|]; [exfalso; exact (N a eq_refl)|exists e; exact H|]. exfalso. exact (verify_not_panic C0 sig [] k (H C0 [])).
Qed.
Print Assumptions C136_signature.

(** Reading a certificate: it is refused whatever the backend, or one question decides. The question is about
    the key of the issuer and all bytes in front of the signature. *)
Theorem C136_certificate : forall data : bytes,
  (exists e, forall C, cert_from_bytes C data = Err e)
  \/ exists c sp rest q, signed_part c sp /\ data = sp ++ field (ct_signature c) ++ rest /\ about q (ct_signature_key c) sp
       /\ forall C, cert_from_bytes C data = if answer C q then Ok c else Err EInvalidSignature.
Proof.
  intros data. destruct (signed_parser (mkReader data 0)) as [[c0|e|] r'] eqn:E.
  - apply parses_signed in E. destruct E as (sp & post & [Hb Hc] & Hs & ->). cbn [skipn] in Hs.
    assert (A : signed_parser (mkReader data 0) = (Ok c0, mkReader data (0 + length sp))).
    { apply parses_signed. exists sp, post. auto. }
    assert (T : forall C, cert_from_bytes C data = fst (cert_tail C data c0 (mkReader data (length sp)))).
    { intros C. rewrite cert_from_bytes_split. unfold run, mbind at 1, reader_new. rewrite A. reflexivity. }
    clear A. assert (Hl := core_length _ _ Hc).
    assert (T2 : forall C, fst (cert_tail C data c0 (mkReader data (length sp))) =
      match fst (read_bytes (mkReader data (length sp))) with
      | Ok sg => match verify_signature C sg sp (ct_signature_key c0) with
                 | Ok _ => Ok (seal c0 sg data)
                 | Err e => Err e
                 | Panic => Panic
                 end
      | Err e => Err e
      | Panic => Panic
      end).
    { intros C. unfold cert_tail, get_offset, set_offset, put_off. unfold mbind at 1. cbn [r_off]. unfold mbind at 1.
      destruct (read_bytes (mkReader data (length sp))) as [[sg|e'|] r'] eqn:E; cbn [fst]; [|reflexivity..].
      apply parses_read_bytes in E. destruct E as (b & tl & _ & _ & ->). unfold mbind at 1. cbn [r_inner].
      assert (R2 : read_raw_bytes (length sp) (mkReader data 0) = (Ok sp, mkReader data (0 + length sp))).
      { apply parses_read_raw; [lia|]. exists sp, post. auto. }
      unfold mbind at 1. rewrite R2. unfold mbind, lift. destruct (verify_signature C sg sp (ct_signature_key c0)); reflexivity. }
    destruct (read_bytes (mkReader data (length sp))) as [[sg|e'|] r'] eqn:R; cbn [fst] in T2.
    + apply parses_read_bytes in R. destruct R as (b & tl & [Hf ->] & Hp & _).
      assert (Ep : post = enc_bytes sg ++ tl). { cbn [r_inner r_off] in Hp. rewrite Hs, skipn_app_exact in Hp by reflexivity. exact Hp. }
      destruct (C136_signature sg (ct_signature_key c0)) as [(e & V)|(Q & Qa & V)].
      * left. exists e. intros C. rewrite T, T2, V. reflexivity.
      * right. exists (seal c0 sg data), sp, tl, (Q sp). split; [apply core_signed, core_seal, Hc|].
        split; [cbn [seal ct_signature]; rewrite field_enc, <- Ep; exact Hs|]. split; [apply Qa|]. intros C. rewrite T, T2, V. destruct (answer C (Q sp)); reflexivity.
    + left. exists e'. intros C. rewrite T, T2. reflexivity.
    + exfalso. pose proof (nopanic_read_bytes (mkReader data (length sp))) as X. rewrite R in X. auto.
  - left. exists e. intros C. rewrite cert_from_bytes_split. unfold run, mbind at 1, reader_new. rewrite E. reflexivity.
  - exfalso. pose proof (nopanic_signed (mkReader data 0)) as X. rewrite E in X. auto.
Qed.
Print Assumptions C136_certificate.
(** In a text the label is compared only after the answer. *)
Theorem C136_certificate_text : forall t : bytes,
  (exists e, forall C, cert_from_string C t = Err e)
  \/ exists c sp q yes, signed_part c sp /\ about q (ct_signature_key c) sp
       /\ (yes = Err EKeyTypeMismatch \/ exists comment, yes = Ok (with_comment c comment))
       /\ forall C, cert_from_string C t = if answer C q then yes else Err EInvalidSignature.
Proof.
  intros t. unfold cert_from_string. cbv zeta. set (ws := split_whitespace t).
  destruct (nth_error ws 0) as [w|]; cbn [ok_or bind]; [|left; eauto]. pose proof (kt_from_name_not_panic w) as Nw.
  destruct (kt_from_name w) as [kt|e|] eqn:Ew; cbn [bind]; [|left; eauto|exfalso; auto].
  destruct (nth_error ws 1) as [d|]; cbn [ok_or bind]; [|left; eauto]. destruct (b64_decode d) as [data|]; cbn [ok_or bind]; [|left; eauto].
  destruct (C136_certificate data) as [(e & H)|(c & sp & rest & q & H1 & H2 & H3 & H4)].
  - left. exists e. intros C. rewrite H. reflexivity.
  - right. exists c, sp, q. eexists. split; [exact H1|]. split; [exact H3|]. split; cycle 1.
    + intros C. rewrite H4. destruct (answer C q); cbn [bind]; reflexivity.
    + destruct (negb _); [left; reflexivity|right; eauto].
Qed.
Print Assumptions C136_certificate_text.

(** Checking a file signature: it is refused whatever backend and message, or one question decides, about the
    key in the signature and the bytes to sign for this message. Only the digest of the message is computed besides. *)
Theorem C136_file_signature : forall (s : sshsig) (namespace : bytes) (key : option pubkey),
  (forall C message, from_ssh_signature C message s namespace key = Err EInvalidSignature)
  \/ exists Q, (forall m, about (Q m) (ss_pubkey s) m)
       /\ forall C message, from_ssh_signature C message s namespace key
            = if answer C (Q (to_signed_format C s message)) then Ok (mkVerified s message) else Err EInvalidSignature.
Proof.
  intros s ns key. unfold from_ssh_signature.
  destruct (match key with Some k => negb (pubkey_eqb (ss_pubkey s) k) | None => false end); [left; reflexivity|].
  destruct (negb (bytes_eqb ns (ss_namespace s))); [left; reflexivity|].
  destruct (C136_signature (ss_signature s) (ss_pubkey s)) as [(e & V)|(Q & Qa & V)].
  - left. intros C m. rewrite V. reflexivity.
  - right. exists Q. split; [exact Qa|]. intros C m. rewrite V. destruct (answer C _); reflexivity.
Qed.
Print Assumptions C136_file_signature.

(** So backends that agree on the answers give the same results. *)
Theorem C136_same_results : forall (C D : crypto), (forall q, answer C q = answer D q) ->
  (forall sig m k, verify_signature C sig m k = verify_signature D sig m k)
  /\ (forall data, cert_from_bytes C data = cert_from_bytes D data) /\ (forall t, cert_from_string C t = cert_from_string D t)
  /\ ((forall b, c_sha256 C b = c_sha256 D b) -> (forall b, c_sha512 C b = c_sha512 D b) ->
      forall message s namespace key, from_ssh_signature C message s namespace key = from_ssh_signature D message s namespace key).
Proof.
  intros C D H. split; [|split; [|split]].
  - intros sig m k. destruct (C136_signature sig k) as [(e & V)|(Q & _ & V)]; rewrite !V; [reflexivity|]. rewrite H. reflexivity.
  - intros data. destruct (C136_certificate data) as [(e & V)|(c & sp & rest & q & _ & _ & _ & V)]; rewrite !V; [reflexivity|]. rewrite H. reflexivity.
  - intros t. destruct (C136_certificate_text t) as [(e & V)|(c & sp & q & yes & _ & _ & _ & V)]; rewrite !V; [reflexivity|]. rewrite H. reflexivity.
  - intros H1 H2 m s ns key. destruct (C136_file_signature s ns key) as [V|(Q & _ & V)]; rewrite !V; [reflexivity|]. rewrite H.
    replace (to_signed_format D s m) with (to_signed_format C s m); [reflexivity|]. unfold to_signed_format. f_equal. unfold hash_digest. destruct (ss_hash s); auto.
Qed.
Print Assumptions C136_same_results.

(** ** Examples *)
Definition no_crypto : crypto :=
  mkCrypto (fun x => x) (fun x => x) (fun x => x) (fun _ _ _ => false) (fun _ _ _ => false) (fun _ _ _ => false) (fun _ _ _ _ _ => false).
(** The second alternative: the answer decides. The first: nothing is asked. *)
Example C136_case : exists c, cert_from_bytes lax_crypto ex_data = Ok c /\ cert_from_bytes no_crypto ex_data = Err EInvalidSignature
  /\ forall C m, verify_signature C (s2b "none") m ex_ca = Err EInvalidFormat.
Proof. eexists. split; [vm_compute; reflexivity|]. split; [vm_compute; reflexivity|]. intros C m. vm_compute. reflexivity. Qed.
(** A token's signature: the question contains the application, the flags and the counter. *)
Definition ex_token : pubkey :=
  mkPubKey (mkKeyType (s2b "sk-ssh-ed25519@openssh.com") (s2b "ED25519-SK") false true KEd25519 (s2b "sk-ssh-ed25519@openssh.com"))
    (PkEd25519 (repeat x09 32) (Some (s2b "ssh:"))) None.
Definition ex_token_sig : bytes := field (s2b "sk-ssh-ed25519@openssh.com") ++ field (repeat x05 64) ++ [x01] ++ be32 77.
Example C136_case_token : forall C m, verify_signature C ex_token_sig m ex_token
  = if answer C (AskEd25519 (repeat x09 32) (Token (s2b "ssh:") x01 77 m) (repeat x05 64)) then Ok ex_token_sig else Err EInvalidSignature.
Proof.
  intros [h1 h2 h3 v1 v2 ve vr] m. cbn [answer hashed c_ed25519_verify c_sha256]. rewrite !app_assoc. vm_compute.
  match goal with |- context [ve ?a ?b ?c] => destruct (ve a b c) end; reflexivity.
Qed.

(** Properties C103 and C104: the example programs, end to end. *)
From Coq Require Import Permutation Lia.
From Verif Require Import Base BaseFacts Utf8 Utf8Facts Str StrFacts SpecWire SpecText SpecBase64
  SpecKeys SpecSig SpecSshSig SpecPrivKey SpecSign Base64 Base64Facts Reader ReaderFacts KeyType
  KeyTypeFacts PubKeyType Writer WriterFacts WireFacts Crypto PubKey PubKeyFacts PropKeyType PropPubKey Signature
  SignatureFacts TbsFacts SshSigFacts PropSignature PrivKey PrivKeyFacts Cert CertFacts SpecCert PropCert
  PropCertText PropIssue PropSshSig PropPrivKey PropSign PropDefaults SpecFiles Files CutFacts PropFiles X509 Piv SpecTools Tools.

(** ** What is read from files *)
Lemma path_key f k : pk_from_path f = Ok k ->
  known (pk_type k) /\ exists data, key_data (pk_type k) (pk_kind k) data.
Proof.
  unfold pk_from_path. intros H. apply bind_ok in H. destruct H as (t & Ht & H). apply read_file in Ht. destruct Ht as [-> Hu].
  destruct (split_whitespace t) as [|w1 [|w2 ws]] eqn:E.
  - unfold pk_from_string in H. rewrite E in H. discriminate.
  - unfold pk_from_string in H. rewrite E in H. cbn [nth_error ok_or bind] in H. destruct (kt_from_name w1); discriminate.
  - apply (pk_from_string_words _ _ _ _ _ E) in H. destruct H as ((K1 & _ & K3) & _).
    cbn [no_comment pk_type pk_kind] in *. split; [exact K1|]. eexists. apply key_data_iff. eauto.
Qed.
Lemma encodable_known k data : known (pk_type k) -> key_data (pk_type k) (pk_kind k) data -> encodable k.
Proof.
  intros K D. split; [apply known_name_ok, K|]. exists (pk_kind k), data. split; [|exact D].
  destruct (pk_kind k); cbn; auto.
Qed.
Lemma priv_pub F k b : priv_data F k b -> known (pk_type (sk_pub k)) /\ pk_comment (sk_pub k) = None
  /\ exists data, key_data (pk_type (sk_pub k)) (pk_kind (sk_pub k)) data.
Proof.
  intros (kt & sb & A1 & A2 & A3 & A4 & A5 & A6 & _). rewrite A4.
  apply kt_from_name_ok in A1. split; [apply A1|]. split; [exact A5|].
  destruct A6; try solve [eexists; eassumption]. eexists. econstructor; eassumption.
Qed.
Lemma path_priv F K f k : sk_from_path F K f = Ok k -> exists b, priv_data F k b.
Proof.
  unfold sk_from_path, sk_from_path_with_passphrase. intros H. apply bind_ok in H. destruct H as (t & _ & H).
  apply C55_accepted_files in H.
  destruct H as (d & _ & ci & kd & op & post & pub & se & pl & pad & tl & _ & _ & _ & _ & _ & _ & _ & _ & _ & _ & (_ & b & Hp & _) & _).
  eauto.
Qed.
Lemma with_pin_pub pin k : sk_pub (with_pin pin k) = sk_pub k.
Proof. destruct pin as [p|]; [|reflexivity]. unfold with_pin, set_pin. destruct (sk_kind k); reflexivity. Qed.
Lemma with_pin_configured pin k : configured k (with_pin pin k).
Proof. destruct pin; cbn; repeat constructor. Qed.
Lemma with_pin_given pin k : pin_given pin k (with_pin pin k).
Proof. destruct pin as [p|]; [right; exists p; auto|left; auto]. Qed.
Lemma token_pin F C K sign ca h pin m blob : sk_from_path F K sign = Ok ca -> hardware ca h ->
  sk_sign F C K (with_pin pin ca) m = Ok (Some blob) -> token_asked F C K ca (hw_handle h) pin m.
Proof.
  intros H1 Hh Hs. unfold sk_from_path, sk_from_path_with_passphrase in H1. apply bind_ok in H1. destruct H1 as (t & _ & H1).
  destruct (C61_fresh F K t None ca h H1 Hh) as [Hp Hd].
  set (h' := mkHw (hw_flags h) (hw_handle h) (hw_reserved h) pin None).
  assert (Hk : hardware (with_pin pin ca) h').
  { unfold h'. destruct h as [fl ha re pi de]. cbn in Hp, Hd |- *. subst pi de. unfold hardware in *.
    destruct pin as [p|]; unfold with_pin; [|exact Hh]. unfold set_pin. destruct Hh as [E|E]; rewrite E; cbn; auto. }
  assert (E : sk_sign F C K (with_pin pin ca) m = hw_sign F C K (with_pin pin ca) h' m) by (unfold sk_sign; destruct Hk as [-> | ->]; reflexivity).
  rewrite E in Hs. unfold hw_sign, hid_sign, moz_sign, pub_app in Hs. rewrite with_pin_pub in Hs. unfold token_asked, key_application. cbn [h' hw_handle hw_pin hw_device_path] in Hs.
  destruct (f_fido F); [discriminate|..]; (destruct (pk_kind (sk_pub ca)) as [e n|c b app|b app]; [discriminate|..]; (destruct app as [app|]; [|discriminate]); exists app; cbn [unwrap bind] in Hs).
  1,2: destruct (k_hid K app m (hw_handle h) pin None) as [a|] eqn:Ea; [|discriminate].
  3,4: destruct (k_moz K app (c_sha256 C m) (hw_handle h) pin) as [[a|]|e|] eqn:Ea; try discriminate.
  all: exists a; split; [|auto].
  - exists c, b. auto.
  - exists (mkCurve Nistp256 []), b. auto.
  - exists c, b. auto.
  - exists (mkCurve Nistp256 []), b. auto.
Qed.
Lemma unwrap_ok {A} (r : res A) a : unwrap_res r = Ok a -> r = Ok a.
Proof. destruct r; cbn; congruence. Qed.

Lemma cert_from_string_newline C t : utf8_text t -> cert_from_string C (t ++ [newline]) = cert_from_string C t.
Proof. intros H. unfold cert_from_string, split_whitespace. rewrite (split_newline t H). reflexivity. Qed.

(** ** C103 *)
Lemma request_fields b n principal (c := apply_ops b (tool_request n principal)) :
  ct_serial c = n /\ ct_key_id c = s2b "key_id" /\ ct_principals c = ct_principals b ++ [principal]
  /\ ct_valid_after c = 0%N /\ ct_valid_before c = u64_max /\ ct_critical_options c = ct_critical_options b
  /\ ct_extensions c = standard_extensions /\ ct_cert_type c = ct_cert_type b /\ ct_key c = ct_key b
  /\ ct_signature_key c = ct_signature_key b /\ ct_key_type c = ct_key_type b.
Proof. repeat split; reflexivity. Qed.

Lemma tool_issue C iter nonce serial pub ca n principal b sg c' pd cd :
  (forall m, Permutation (iter m) m) ->
  known (pk_type pub) -> key_data (pk_type pub) (pk_kind pub) pd ->
  known (pk_type ca) -> key_data (pk_type ca) (pk_kind ca) cd ->
  builder nonce serial pub User ca = Ok b -> (n <= u64_max)%N -> utf8_text principal ->
  add_signature C iter (apply_ops b (tool_request n principal)) sg = Ok c' ->
  (size (cert_display c') <= u32_max)%N ->
  exists p, cert_from_string C (cert_display c') = Ok p
    /\ cert_from_path C (Some (cert_display c' ++ [newline])) = Ok p /\ certifies n principal pub ca p.
Proof.
  intros P Kp Dp Kc Dc Hb Hn Hu Ha Hs. set (c := apply_ops b (tool_request n principal)) in *.
  assert (Uc : under_construction c).
  { exists nonce, serial, pub, User, ca, (tool_request n principal), b. split; [exact Hb|]. split; [reflexivity|].
    split; eapply encodable_known; eassumption. }
  pose proof (C41_fixed_fields nonce serial pub ca User b [] Hb) as Fx. cbn zeta in Fx. unfold apply_ops in Fx. cbn [fold_left] in Fx.
  destruct Fx as (F1 & F2 & F3 & _ & _ & _ & _ & F8 & _ & _ & F11 & _).
  destruct (request_fields b n principal) as (R1 & R2 & R3 & R4 & R5 & R6 & R7 & R8 & R9 & R10 & R11). fold c in R1, R2, R3, R4, R5, R6, R7, R8, R9, R10, R11.
  assert (Wc : well_typed c).
  { unfold well_typed. rewrite R1, R2, R3, R4, R5, R6, R7, F8, F11. split; [exact Hn|]. split; [vm_compute; discriminate|].
    split; [vm_compute; discriminate|]. split; [apply utf8_valid_iff; reflexivity|]. split; [repeat constructor; exact Hu|].
    split; [split; constructor|]. split; [apply C99_standard_permissions|].
    vm_compute. repeat (constructor; [split; apply utf8_valid_iff; reflexivity|]). constructor. }
  pose proof Ha as Ha0. apply add_signature_iff in Ha0. destruct Ha0 as (tbs & _ & _ & ((S1 & _ & _ & _ & _ & S6 & _) & _)).
  assert (L : (size (ct_serialized c') <= u32_max)%N).
  { revert Hs. unfold cert_display, size. rewrite !app_length, (proj2 (b64_encode_length _)). cbn [length].
    set (x := length (ct_serialized c')). pose proof (Nat.div_mod (x + 2) 3 ltac:(lia)) as Q.
    pose proof (Nat.mod_upper_bound (x + 2) 3 ltac:(lia)). lia. }
  assert (Hk : key_data (pk_type (ct_signature_key c)) (pk_kind (ct_signature_key c)) cd) by (rewrite R10, F2; exact Dc).
  destruct (C38_issued_parses_back C iter c c' sg cd P Uc Wc Hk Ha L) as (p & Hp & Hr & _ & Hser).
  destruct Hr as (Q1 & Q2 & Q3 & Q4 & Q5 & Q6 & Q7 & Q8 & Q9 & Q10 & Q11 & Q12 & Q13).
  destruct (C42_key_id_words C _ p Hp) as (ws & Hw).
  pose proof (C42_text_round_trip C _ p ws Hp Hw) as T.
  assert (E : cert_display p = cert_display c').
  { unfold cert_display. rewrite Hser, Q1, Q6, S1, S6. reflexivity. }
  rewrite E in T. exists (with_comment p (hd_error ws)). split; [exact T|]. split.
  { assert (As : Forall (fun b => (b2n b < 128)%N) (cert_display c')).
    { rewrite <- E. unfold cert_display. apply Forall_app. split.
      - apply cert_from_bytes_iff in Hp. destruct Hp as (sp & post & Hc & _). destruct Hc as (? & ? & ? & ? & ? & Hkt & _).
        revert Hkt. generalize (ct_key_type p). apply known_forall. unfold key_types.
        repeat (apply Forall_cons; [apply ascii_check; reflexivity|]). apply Forall_nil.
      - apply Forall_app. split; [repeat constructor|]. apply Forall_app. split; [apply b64_encode_ascii|].
        apply Forall_app. split; [repeat constructor|]. rewrite Q6, R2. apply ascii_check. reflexivity. }
    unfold cert_from_path. rewrite read_ascii by (apply Forall_app; split; [exact As|repeat constructor]). cbn [bind].
    rewrite cert_from_string_newline by (apply utf8_text_ascii, As). exact T. }
  unfold certifies. cbn.
  rewrite R1, R2, R3, R4, R5, F8 in *. rewrite R9, F1 in Q3. rewrite R10, F2 in Q13. rewrite R6, F11 in Q10. rewrite R7 in Q11.
  rewrite Q4, Q5, Q6, Q7, Q8, Q9, R8, F3. repeat (split; [reflexivity|]).
  split; [intros k v H; apply Q10 in H; exact H|]. split; [|split; assumption].
  intros k v. rewrite (Q11 k v). apply C99_standard_permissions.
Qed.

(** The request can be encoded if its parts fit. *)
Lemma tool_encodes iter nonce serial pub ca n principal b pd cd :
  (forall m, Permutation (iter m) m) -> utf8_text principal -> field_ok (field principal) -> field_ok nonce -> (n <= u64_max)%N ->
  known (pk_type pub) -> key_data (pk_type pub) (pk_kind pub) pd ->
  known (pk_type ca) -> key_data (pk_type ca) (pk_kind ca) cd -> field_ok (field (kt_plain (pk_type ca)) ++ cd) ->
  builder (Some nonce) (Some serial) pub User ca = Ok b ->
  ct_signature_key (apply_ops b (tool_request n principal)) = ca
  /\ exists tbs, tbs_certificate iter (apply_ops b (tool_request n principal)) = Ok tbs.
Proof.
  intros P Hu Hf Hn Hs K1 D1 K2 D2 Hca Hb. set (c := apply_ops b (tool_request n principal)).
  pose proof (C41_fixed_fields _ _ pub ca User b [] Hb) as Fx. cbn zeta in Fx. unfold apply_ops in Fx. cbn [fold_left] in Fx.
  destruct Fx as (F1 & F2 & F3 & F4 & _ & _ & _ & F8 & _ & _ & F11 & _).
  destruct (request_fields b n principal) as (R1 & R2 & R3 & R4 & R5 & R6 & R7 & R8 & R9 & R10 & R11). fold c in R1, R2, R3, R4, R5, R6, R7, R8, R9, R10, R11.
  split; [rewrite R10; exact F2|].
  assert (Uc : under_construction c).
  { exists (Some nonce), (Some serial), pub, User, ca, (tool_request n principal), b. split; [exact Hb|]. split; [reflexivity|].
    split; eapply encodable_known; eassumption. }
  assert (Wc : well_typed c).
  { unfold well_typed. rewrite R1, R2, R3, R4, R5, R6, R7, F8, F11. split; [exact Hs|]. split; [vm_compute; discriminate|].
    split; [vm_compute; discriminate|]. split; [apply utf8_valid_iff; reflexivity|]. split; [repeat constructor; exact Hu|].
    split; [split; constructor|]. split; [apply C99_standard_permissions|].
    vm_compute. repeat (constructor; [split; apply utf8_valid_iff; reflexivity|]). constructor. }
  assert (En : ct_nonce c = nonce).
  { injection F4 as F4. symmetry. exact F4. }
  apply (C38_request_encodes iter c P Uc Wc).
  - rewrite En. exact Hn.
  - rewrite R2. vm_compute. discriminate.
  - rewrite R3, F8. cbn [app map concat]. rewrite app_nil_r. exact Hf.
  - rewrite R6, F11. vm_compute. discriminate.
  - rewrite R7. vm_compute. discriminate.
  - rewrite R10, F2. intros kind data Hm Hd. apply key_data_iff in Hd, D2. destruct Hd as [Hd ->], D2 as [D2 ->].
    apply (same_material_canon_iff _ _ _ Hd) in Hm. rewrite (canon_ok _ _ D2) in Hm. subst kind. exact Hca.
Qed.
Lemma tool_builds nonce serial pub ca : known (pk_type pub) -> exists b, builder (Some nonce) (Some serial) pub User ca = Ok b.
Proof.
  intros K1. destruct (C18_cert_names _ _ (known_name_ok _ K1)) as (cn & ckt & B1 & B2 & _).
  unfold builder. rewrite B1. cbn [bind]. rewrite B2. cbn [bind ok_or]. eauto.
Qed.

Lemma cert_sign_adds : forall C iter c sg c', cert_sign C iter c sg = Ok c' -> exists s, add_signature C iter c s = Ok c'.
Proof.
  intros C iter c sg c' H. unfold cert_sign in H. apply bind_ok in H. destruct H as (tbs & _ & H).
  apply bind_ok in H. destruct H as (o & _ & H). apply bind_ok in H. destruct H as (s & _ & H). exists s. exact H.
Qed.

(** Whatever sign-cert-with-file prints is a line that is read as a certificate with exactly the
    requested contents for the key in the file, signed by the other key. *)
Theorem C103_issue : forall (F : features) (C : crypto) (K : keyops) (iter : hashmap -> hashmap)
    (nonce_rng serial_rng file sign pin : option bytes) (principal text : bytes),
  (forall m, Permutation (iter m) m) -> utf8_text principal -> (size text <= u32_max)%N ->
  sign_cert_with_file F C K iter nonce_rng serial_rng file sign pin principal = Ok text ->
  exists pub ca line p, pk_from_path file = Ok pub /\ sk_from_path F K sign = Ok ca
    /\ text = line ++ [newline] /\ cert_from_string C line = Ok p /\ cert_from_path C (Some text) = Ok p
    /\ certifies 0 principal pub (sk_pub ca) p.
Proof.
  intros F C K iter nr sr file sign pin principal text P Hu Hs H. unfold sign_cert_with_file in H.
  apply bind_ok in H. destruct H as (pub & H1 & H). apply unwrap_ok in H1.
  apply bind_ok in H. destruct H as (ca & H2 & H). apply unwrap_ok in H2. cbn zeta in H. rewrite with_pin_pub in H.
  apply bind_ok in H. destruct H as (b & H3 & H). apply unwrap_ok in H3.
  apply bind_ok in H. destruct H as (c' & H4 & H). apply unwrap_ok in H4. apply ok_inj in H.
  unfold println in H. destruct (cert_sign_adds _ _ _ _ _ H4) as (sg & H5). clear H4.
  destruct (path_key _ _ H1) as [K1 (pd & D1)]. destruct (path_priv _ _ _ _ H2) as (pb & Hpb).
  destruct (priv_pub _ _ _ Hpb) as (K2 & _ & cd & D2).
  destruct (tool_issue C iter nr sr pub (sk_pub ca) 0 principal b sg c' pd cd P K1 D1 K2 D2 H3) as (p & Hp & Hpp & Hc);
    [apply N.le_0_l|exact Hu|exact H5| |].
  - rewrite <- H in Hs. unfold size in *. rewrite app_length in Hs. lia.
  - exists pub, ca, (cert_display c'), p. split; [exact H1|]. split; [exact H2|]. split; [symmetry; exact H|]. split; [exact Hp|].
    split; [rewrite <- H; exact Hpp|exact Hc].
Qed.
Print Assumptions C103_issue.

(** It prints if the files can be read, random bytes are available and the key signs. *)
Theorem C103_prints : forall (F : features) (C : crypto) (K : keyops) (iter : hashmap -> hashmap)
    (nonce serial : bytes) (file sign pin : option bytes) (principal : bytes) (pub : pubkey) (ca : privkey),
  (forall m, Permutation (iter m) m) -> utf8_text principal -> field_ok (field principal) -> field_ok nonce ->
  pk_from_path file = Ok pub -> sk_from_path F K sign = Ok ca ->
  name_fits (sk_pub ca) -> software_signs C K -> (forall h, hardware ca h -> device_signs C K (sk_pub ca) (hw_handle h)) ->
  (forall k' m, pin_given pin ca k' -> exists blob, sk_sign F C K k' m = Ok (Some blob)) ->
  exists text, sign_cert_with_file F C K iter (Some nonce) (Some serial) file sign pin principal = Ok text.
Proof.
  intros F C K iter nonce serial file sign pin principal pub ca P Hu Hf Hn H1 H2 Hnf Hss Hds Hsg.
  unfold sign_cert_with_file. rewrite H1. cbn [unwrap_res bind]. rewrite H2. cbn [unwrap_res bind]. cbn zeta. rewrite with_pin_pub.
  destruct (path_key _ _ H1) as [K1 (pd & D1)]. destruct (path_priv _ _ _ _ H2) as (pb & Hpb).
  destruct (priv_pub _ _ _ Hpb) as (K2 & _ & cd & D2).
  destruct (tool_builds nonce serial pub (sk_pub ca) K1) as (b & Hb). rewrite Hb. cbn [unwrap_res bind].
  destruct (tool_encodes iter nonce serial pub (sk_pub ca) 0 principal b pd cd P Hu Hf Hn ltac:(vm_compute; discriminate) K1 D1 K2 D2) as (Hsk & tbs & Ht).
  - unfold sk_from_path, sk_from_path_with_passphrase in H2. apply bind_ok in H2. destruct H2 as (t & _ & H2). apply C55_accepted_files in H2.
    destruct H2 as (d & _ & ci & kd & op & post & pu & se & pl & pad & tl & _ & _ & _ & _ & _ & (bb & Hbb & ->) & Hfp & _).
    apply key_data_iff in Hbb, D2. destruct Hbb as [_ ->], D2 as [_ ->].
    assert (L : length (kt_plain (pk_type (sk_pub ca))) <= length (kt_name (pk_type (sk_pub ca)))).
    { revert K2. generalize (pk_type (sk_pub ca)). apply known_forall. unfold key_types.
      repeat (apply Forall_cons; [vm_compute; lia|]). apply Forall_nil. }
    unfold field_ok, size in *. rewrite !app_length in *. rewrite field_enc, enc_bytes_length in *. lia.
  - exact Hb.
  - destruct (Hsg _ tbs (with_pin_given pin ca)) as (blob & Hbl).
    destruct (C79_issue_with_key F C K iter ca (with_pin pin ca) pb tbs blob _ Hpb (with_pin_configured pin ca) Hnf Hss Hds Hsk Ht Hbl) as (c' & Hc' & _).
    rewrite Hc'. cbn [unwrap_res bind]. eauto.
Qed.
Print Assumptions C103_prints.

(** A hardware CA key is used with the PIN given and no other. *)
Lemma cert_sign_asks C iter c sg c' : cert_sign C iter c sg = Ok c' -> exists tbs s, sg tbs = Ok (Some s).
Proof.
  intros H. unfold cert_sign in H. apply bind_ok in H. destruct H as (tbs & _ & H).
  apply bind_ok in H. destruct H as ([s|] & H1 & H); [|discriminate]. exists tbs, s. exact H1.
Qed.
Theorem C103_device : forall (F : features) (C : crypto) (K : keyops) (iter : hashmap -> hashmap)
    (nonce_rng serial_rng file sign pin : option bytes) (principal text : bytes) (ca : privkey) (h : hw_priv),
  sign_cert_with_file F C K iter nonce_rng serial_rng file sign pin principal = Ok text ->
  sk_from_path F K sign = Ok ca -> hardware ca h ->
  exists tbs, token_asked F C K ca (hw_handle h) pin tbs.
Proof.
  intros F C K iter nr sr file sign pin principal text ca h H Hca Hh. unfold sign_cert_with_file in H.
  apply bind_ok in H. destruct H as (pub & H1 & H). rewrite Hca in H. cbn [unwrap_res bind] in H. cbn zeta in H.
  apply bind_ok in H. destruct H as (b & H3 & H). apply bind_ok in H. destruct H as (c' & H4 & _). apply unwrap_ok in H4.
  apply cert_sign_asks in H4. destruct H4 as (tbs & s & H4). exists tbs. eapply token_pin; eassumption.
Qed.
Print Assumptions C103_device.

(** A certificate in place of the public key: for Ed25519 its nonce is certified as if it were
    the key. *)
Theorem C103_certificate_file : forall (F : features) (C : crypto) (K : keyops) (iter : hashmap -> hashmap)
    (nonce_rng serial_rng file sign pin : option bytes) (principal text : bytes) (c : cert),
  (forall m, Permutation (iter m) m) -> utf8_text principal -> (size text <= u32_max)%N ->
  cert_from_path C file = Ok c -> kt_name (ct_key_type c) = ed25519_cert_name ->
  sign_cert_with_file F C K iter nonce_rng serial_rng file sign pin principal = Ok text ->
  exists p, cert_from_path C (Some text) = Ok p /\ pk_kind (ct_key p) = PkEd25519 (ct_nonce c) None.
Proof.
  intros F C K iter nr sr file sign pin principal text c P Hu Hs Hc Hn H.
  destruct (C103_issue F C K iter nr sr file sign pin principal text P Hu Hs H) as (pub & ca & line & p & H1 & _ & _ & _ & Hp & Hcert).
  exists p. split; [exact Hp|]. destruct Hcert as (_ & _ & _ & _ & _ & _ & _ & _ & (_ & Hm & _) & _).
  enough (E : pk_kind pub = PkEd25519 (ct_nonce c) None) by (rewrite E in Hm; symmetry; exact Hm).
  unfold pk_from_path in H1. unfold cert_from_path in Hc. apply bind_ok in H1, Hc.
  destruct H1 as (t & Ht & H1), Hc as (t' & Ht' & Hc). rewrite Ht in Ht'. apply ok_inj in Ht'. subst t'. apply read_file in Ht. destruct Ht as [_ Ut].
  apply (C44_accepts_exactly C t c Ut) in Hc. destruct Hc as (l & b & ws & lt & d & c0 & W & _ & D & B & _ & ->).
  apply words_of_split in W. apply (pk_from_string_words _ _ _ _ _ W) in H1. destruct H1 as (Hk & _ & _ & post & Hd).
  rewrite D in Hd. injection Hd as ->. cbn in Hn |- *.
  destruct (C27_blob_yields_nonce C _ c0 B Hn) as (k & Hk' & Hkind & _).
  assert (E : pk_from_bytes (enc_key pub ++ post) = Ok (no_comment pub)).
  { apply pk_from_bytes_iff. split; [exact Hk|]. exists post. reflexivity. }
  pose proof (eq_trans (eq_sym E) Hk') as Ek. apply ok_inj in Ek. subst k. exact Hkind.
Qed.
Print Assumptions C103_certificate_file.

(** So what is certified need not be a key of the holder of the certificate in the file. *)
Definition ex_pub_file : bytes := s2b "ssh-ed25519 AAAAC3NzaC1lZDI1NTE5AAAAIHkbe7gwx7s0dlApEEzpUyOAPrzPLy4czEZw/sh8m8rd me@home
".
Definition ex_ca_file : option bytes := match sk_write ex_issuer with Ok t => Some t | _ => None end.
Definition ex_issued : option bytes :=
  match sign_cert_with_file ex_features toy_crypto toy_ops (@rev _) (Some (repeat x41 32)) (Some (repeat x00 8)) (Some ex_pub_file) ex_ca_file None (s2b "ubuntu") with
  | Ok t => Some t | _ => None end.
Theorem C103_certified_key_refuted : exists (F : features) (C : crypto) (K : keyops) (iter : hashmap -> hashmap)
    (file sign : option bytes) (text : bytes) (c p : cert),
  cert_from_path C file = Ok c
  /\ sign_cert_with_file F C K iter (Some (repeat x42 32)) (Some (repeat x00 8)) file sign None (s2b "ubuntu") = Ok text
  /\ cert_from_path C (Some text) = Ok p /\ pk_kind (ct_key p) <> pk_kind (ct_key c).
Proof.
  exists ex_features, toy_crypto, toy_ops, (@rev _), ex_issued, ex_ca_file. do 3 eexists.
  split; [vm_compute; reflexivity|]. split; [vm_compute; reflexivity|]. split; [vm_compute; reflexivity|]. vm_compute. discriminate.
Qed.
Print Assumptions C103_certified_key_refuted.

Example C103_case : exists pub text p, pk_from_path (Some ex_pub_file) = Ok pub /\ sk_from_path ex_features toy_ops ex_ca_file = Ok ex_issuer
  /\ name_fits (sk_pub ex_issuer) /\ (forall h, ~ hardware ex_issuer h)
  /\ (forall m, sk_sign ex_features toy_crypto toy_ops ex_issuer m = Ok (Some (field (s2b "ssh-ed25519") ++ field (repeat x11 64))))
  /\ sign_cert_with_file ex_features toy_crypto toy_ops (@rev _) (Some (repeat x41 32)) (Some (repeat x00 8)) (Some ex_pub_file) ex_ca_file None (s2b "ubuntu") = Ok text
  /\ cert_from_path toy_crypto (Some text) = Ok p /\ ct_principals p = [s2b "ubuntu"] /\ pk_kind (ct_key p) = pk_kind pub
  /\ ct_comment p = Some (s2b "key_id").
Proof.
  do 3 eexists. split; [vm_compute; reflexivity|]. split; [vm_compute; reflexivity|]. split; [exact I|].
  split; [intros h [E|E]; discriminate|]. split; [intros m; vm_compute; reflexivity|].
  split; [vm_compute; reflexivity|]. split; [vm_compute; reflexivity|]. vm_compute. auto.
Qed.

(** ** C104 *)
Lemma sshsig_newline s text : sshsig_display s = Ok text ->
  sshsig_from_armored_string (text ++ [newline]) = sshsig_from_armored_string text.
Proof.
  intros H. unfold sshsig_display in H. apply bind_ok in H. destruct H as (blob & _ & H). apply ok_inj in H.
  assert (E : lines (text ++ [newline]) = lines text).
  { subst text. unfold lines.
    assert (G : forall s cur, lines_aux (s ++ [newline] ++ sig_end ++ [newline]) cur = lines_aux (s ++ [newline] ++ sig_end) cur).
    { induction s0 as [|x s0 IH]; intros cur; cbn [app lines_aux].
      - change (byte_eqb newline newline) with true. cbv iota. f_equal.
      - destruct (byte_eqb x newline); [f_equal|]; apply IH. }
    rewrite <- !app_assoc.
    match goal with |- lines_aux (?a ++ ?b ++ ?c ++ _ ++ _ ++ _) _ = _ => specialize (G (a ++ b ++ c) []) end.
    rewrite <- !app_assoc in G. exact G. }
  unfold sshsig_from_armored_string. rewrite E. reflexivity.
Qed.

(** What sign-file-with-file prints is a signature that verifies for the contents of the file, the
    namespace and the key (what else it could verify for is in C48 and C49). *)
Theorem C104_sign_file : forall (F : features) (C : crypto) (K : keyops) (sign pin file : option bytes) (ns text : bytes),
  utf8_text ns -> field_ok ns -> ns <> [] -> digests_fit C ->
  (forall k m blob, sk_sign F C K k m = Ok (Some blob) -> field_ok blob) ->
  sign_file_with_file F C K sign pin file ns = Ok text ->
  exists key contents s v, sk_from_path F K sign = Ok key /\ file = Some contents
    /\ sshsig_from_armored_string text = Ok s /\ ss_hash s = HSha512
    /\ ss_namespace s = ns /\ ss_pubkey s = sk_pub key
    /\ from_ssh_signature C contents s ns (Some (sk_pub key)) = Ok v
    /\ vs_message v = contents.
Proof.
  intros F C K sign pin file ns text Hu Hf Hne Hd Hb H. unfold sign_file_with_file in H.
  apply bind_ok in H. destruct H as (k & H1 & H). apply unwrap_ok in H1. cbn zeta in H. rewrite with_pin_pub in H.
  apply bind_ok in H. destruct H as (contents & H2 & H). apply unwrap_ok in H2.
  apply bind_ok in H. destruct H as (v & H3 & H). apply unwrap_ok in H3.
  apply bind_ok in H. destruct H as (t & H4 & H). apply unwrap_ok in H4. apply ok_inj in H. unfold println in H.
  destruct file as [f|]; [|discriminate]. cbn [ok_or] in H2. apply ok_inj in H2. subst f.
  apply C50_only_verified in H3; [|assumption..]. destruct H3 as (p & sg & Hp & Hsg & Ha & ->). cbn [vs_signature] in H4. cbn [chosen] in *.
  set (s := mkSshSig (sk_pub k) ns HSha512 sg) in *.
  destruct (path_priv _ _ _ _ H1) as (pb & Hpb). destruct (priv_pub _ _ _ Hpb) as (K2 & Hc & cd & D2).
  assert (Pr : printable (ss_pubkey s) (pk_kind (ss_pubkey s)) cd).
  { cbn [s ss_pubkey]. split; [apply known_name_ok, K2|]. split; [destruct (pk_kind (sk_pub k)); cbn; auto|]. split; [exact D2|].
    unfold sk_from_path, sk_from_path_with_passphrase in H1. apply bind_ok in H1. destruct H1 as (t0 & _ & H1). apply C55_accepted_files in H1.
    destruct H1 as (d & _ & ci & kd & op & post & pu & se & pl & pad & tl & _ & _ & _ & _ & _ & (bb & Hbb & ->) & Hfp & _).
    apply key_data_iff in Hbb, D2. destruct Hbb as [_ ->], D2 as [_ ->].
    unfold field_ok, size in *. rewrite !app_length in *. lia. }
  destruct (C46_same_signature s cd Pr Hc Hu Hf Hne (Hb _ _ _ Hsg)) as (t' & D' & R').
  rewrite H4 in D'. apply ok_inj in D'. subst t'.
  exists k, contents, s, (mkVerified s contents). split; [exact H1|]. split; [reflexivity|].
  split; [rewrite <- H, (sshsig_newline s t H4); exact R'|]. split; [reflexivity|]. split; [reflexivity|]. split; [reflexivity|].
  split; [|reflexivity]. apply C48_binds; [assumption..|]. split; [reflexivity|]. split; [intros k0 E; injection E as <-; reflexivity|].
  split; [exists p; split; assumption|]. auto.
Qed.
Print Assumptions C104_sign_file.

Theorem C104_prints : forall (F : features) (C : crypto) (K : keyops) (sign pin : option bytes) (contents ns : bytes) (key : privkey),
  utf8_text ns -> field_ok ns -> ns <> [] -> digests_fit C ->
  (forall k m blob, sk_sign F C K k m = Ok (Some blob) -> field_ok blob) ->
  sk_from_path F K sign = Ok key ->
  name_fits (sk_pub key) -> software_signs C K -> (forall h, hardware key h -> device_signs C K (sk_pub key) (hw_handle h)) ->
  (forall k' m, pin_given pin key k' -> exists blob, sk_sign F C K k' m = Ok (Some blob)) ->
  exists text, sign_file_with_file F C K sign pin (Some contents) ns = Ok text.
Proof.
  intros F C K sign pin contents ns key Hu Hf Hne Hd Hb H1 Hnf Hss Hds Hsg.
  unfold sign_file_with_file. rewrite H1. cbn [unwrap_res bind ok_or]. cbn zeta. rewrite with_pin_pub.
  destruct (path_priv _ _ _ _ H1) as (pb & Hpb). destruct (priv_pub _ _ _ Hpb) as (K2 & Hc & cd & D2).
  set (p := to_signed_format C (mkSshSig (sk_pub key) ns HSha512 []) contents).
  assert (Hp : payload C ns (chosen None) contents p).
  { apply (payload_iff C (mkSshSig (sk_pub key) ns HSha512 [])); [assumption|assumption|reflexivity]. }
  destruct (Hsg _ p (with_pin_given pin key)) as (blob & Hbl).
  rewrite (C79_file_signature F C K key (with_pin pin key) pb contents ns p blob None Hpb (with_pin_configured pin key) Hnf Hss Hds Hf Hd Hp Hbl).
  cbn [unwrap_res bind vs_signature chosen]. set (s := mkSshSig (sk_pub key) ns HSha512 blob) in *.
  assert (Pr : printable (ss_pubkey s) (pk_kind (ss_pubkey s)) cd).
  { cbn [s ss_pubkey]. split; [apply known_name_ok, K2|]. split; [destruct (pk_kind (sk_pub key)); cbn; auto|]. split; [exact D2|].
    unfold sk_from_path, sk_from_path_with_passphrase in H1. apply bind_ok in H1. destruct H1 as (t0 & _ & H1). apply C55_accepted_files in H1.
    destruct H1 as (d & _ & ci & kd & op & post & pu & se & pl & pad & tl & _ & _ & _ & _ & _ & (bb & Hbb & ->) & Hfp & _).
    apply key_data_iff in Hbb, D2. destruct Hbb as [_ ->], D2 as [_ ->].
    unfold field_ok, size in *. rewrite !app_length in *. lia. }
  destruct (C46_same_signature s cd Pr Hc Hu Hf Hne (Hb _ _ _ Hbl)) as (t & D & _).
  rewrite D. cbn [unwrap_res bind]. eauto.
Qed.
Print Assumptions C104_prints.

(** A hardware key is used with the PIN given and no other. *)
Theorem C104_device : forall (F : features) (C : crypto) (K : keyops) (sign pin file : option bytes) (ns text : bytes) (key : privkey) (h : hw_priv),
  sign_file_with_file F C K sign pin file ns = Ok text -> sk_from_path F K sign = Ok key -> hardware key h ->
  exists m, token_asked F C K key (hw_handle h) pin m.
Proof.
  intros F C K sign pin file ns text key h H Hk Hh. unfold sign_file_with_file in H. rewrite Hk in H. cbn [unwrap_res bind] in H. cbn zeta in H.
  apply bind_ok in H. destruct H as (contents & H2 & H). apply bind_ok in H. destruct H as (v & H3 & _). apply unwrap_ok in H3.
  unfold new_with_private_key in H3. apply bind_ok in H3. destruct H3 as (o & H3 & H4).
  destruct o as [s|]; [|discriminate]. eexists. eapply token_pin; eassumption.
Qed.
Print Assumptions C104_device.

(** With an empty namespace the program prints a signature that cannot be read. *)
Theorem C104_empty_namespace_refuted : exists (F : features) (C : crypto) (K : keyops) (sign file : option bytes) (text : bytes),
  sign_file_with_file F C K sign None file [] = Ok text /\ sshsig_from_armored_string text = Err EInvalidFormat.
Proof.
  exists ex_features, toy_crypto, toy_ops, ex_ca_file, (Some (s2b "hello")). eexists.
  split; [vm_compute; reflexivity|]. vm_compute. reflexivity.
Qed.
Print Assumptions C104_empty_namespace_refuted.

Example C104_case : exists text s v, digests_fit toy_crypto
  /\ sk_from_path ex_features toy_ops ex_ca_file = Ok ex_issuer
  /\ sign_file_with_file ex_features toy_crypto toy_ops ex_ca_file None (Some (s2b "hello")) (s2b "file") = Ok text
  /\ sshsig_from_armored_string text = Ok s
  /\ from_ssh_signature toy_crypto (s2b "hello") s (s2b "file") (Some (sk_pub ex_issuer)) = Ok v
  /\ from_ssh_signature toy_crypto (s2b "hello") s (s2b "mail") None = Err EInvalidSignature.
Proof.
  do 3 eexists. split; [intros m h d Hd; inversion Hd; vm_compute; discriminate|]. split; [vm_compute; reflexivity|].
  split; [vm_compute; reflexivity|]. split; [vm_compute; reflexivity|]. split; vm_compute; reflexivity.
Qed.

(** A hardware key with a PIN. *)
Definition ex_hw_file : option bytes := match sk_write ex_hw with Ok t => Some t | _ => None end.
Example C103_device_case : exists ca h text text',
  sk_from_path hid_features toy_ops ex_hw_file = Ok ca /\ hardware ca h
  /\ sign_cert_with_file hid_features toy_crypto toy_ops (@rev _) (Some (repeat x41 32)) (Some (repeat x00 8)) (Some ex_pub_file) ex_hw_file (Some (s2b "1234")) (s2b "ubuntu") = Ok text
  /\ sign_file_with_file hid_features toy_crypto toy_ops ex_hw_file (Some (s2b "1234")) (Some (s2b "hello")) (s2b "file") = Ok text'.
Proof.
  do 4 eexists. split; [vm_compute; reflexivity|]. split; [vm_compute; auto|]. split; [vm_compute; reflexivity|vm_compute; reflexivity].
Qed.

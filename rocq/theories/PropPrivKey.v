(** Properties C52-C61: private keys. *)
From Verif Require Import Base BaseFacts Utf8 Utf8Facts Str StrFacts SpecWire SpecText SpecBase64
  SpecKeys SpecSig SpecSshSig SpecPrivKey Base64 Base64Facts Reader ReaderFacts LocalFacts KeyType
  KeyTypeFacts PubKeyType Writer WriterFacts WireFacts Crypto PubKey PubKeyFacts Signature
  SignatureFacts TbsFacts SshSigFacts Utils UtilsFacts PropSignature PrivKey PrivKeyFacts.

(** Example values used below: an Ed25519 key, a hardware key and a small RSA key. *)
Definition ex_ops : keyops :=
  mkKeyops (fun p s r => Some (repeat x07 48)) (fun k i d => Some d) (fun _ _ => None)
    (fun _ _ _ _ => None) (fun _ _ _ => Some (repeat x11 64)) (fun s => s)
    (fun _ _ _ _ _ => None) (fun _ _ _ _ => Ok None).
Definition ex_features : features := mkFeatures true true NoFido.
Definition ed_type : key_type :=
  mkKeyType (s2b "ssh-ed25519") (s2b "ED25519") false false KEd25519 (s2b "ssh-ed25519").
Definition sk_ed_type : key_type :=
  mkKeyType (s2b "sk-ssh-ed25519@openssh.com") (s2b "ED25519-SK") false true KEd25519
    (s2b "sk-ssh-ed25519@openssh.com").
Definition rsa_type : key_type :=
  mkKeyType (s2b "ssh-rsa") (s2b "RSA") false false KRsa (s2b "ssh-rsa").
Definition ex_ed : privkey :=
  mkPrivKey ed_type (SkEd25519 (repeat x22 64))
    (mkPubKey ed_type (PkEd25519 (repeat x33 32) None) None) 305419896 (s2b "me@host").
Definition ex_hw : privkey :=
  mkPrivKey sk_ed_type (SkEd25519Sk (mkHw x01 (repeat x44 16) [] None None))
    (mkPubKey sk_ed_type (PkEd25519 (repeat x33 32) (Some (s2b "ssh:"))) None) 7 (s2b "token").
(** p = 11, q = 13, n = 143, e = 7, d = 103, 13 * 6 = 1 (mod 11). *)
Definition ex_rsa : privkey :=
  mkPrivKey rsa_type (SkRsa (mkRsaPriv [x8f] [x07] [x67] [x06] [x0b] [x0d] (Some [x03]) (Some [x07])))
    (mkPubKey rsa_type (PkRsa [x07] [x8f]) None) 1 (s2b "rsa").

Lemma storable_iff F k : storable F k ->
  priv_ok F k /\ (sk_magic k < 2 ^ 32)%N /\ fits (enc_key (sk_pub k))
  /\ fits (enc_section k ++ firstn (pad_len (length (enc_section k))) pad_bytes).
Proof.
  intros (pub & sec & H1 & H2 & H3 & H4). apply pub_blob_iff in H1. destruct H1 as [_ ->].
  apply section_of_iff in H3. destruct H3 as (M & P & ->). rewrite app_nil_r in *. rewrite field_ok_fits in H2.
  split; [exact P|]. split; [exact M|]. split; [exact H2|].
  unfold fits, size, u32_max in *. rewrite app_length, firstn_length. pose proof (pad_len_lt (length (enc_section k))). lia.
Qed.
Lemma none_str : str_ok (s2b "none").
Proof. split; [unfold fits; cbn; lia|reflexivity]. Qed.
Lemma app_cons_ne {A} (a b : list A) : a <> [] -> a ++ b <> [].
Proof. destruct a; [congruence|discriminate]. Qed.
Lemma enc_section_ne k : enc_section k <> [].
Proof. intros E. apply (f_equal (@length _)) in E. unfold enc_section in E. rewrite app_length, to_be_length in E. discriminate. Qed.

(** ** C52 *)
Theorem C52_round_trip : forall (F : features) (K : keyops) (pass : option bytes) (k k' : privkey),
  storable F k' -> kept k k' ->
  exists data, sk_encode k = Ok data
    /\ forall tl, run (sk_from_reader F K pass) (data ++ tl) = Ok k'.
Proof.
  intros F K pass k k' Hs Hk. apply storable_iff in Hs. destruct Hs as (P & M & F1 & F2).
  eexists. split; [apply (sk_encode_enc F k k'); assumption|]. intros tl.
  rewrite (file_run F K pass _ _ _ _ (sk_pub k') _ (enc_section k' ++ firstn (pad_len (length (enc_section k'))) pad_bytes)).
  - apply read_section_iff. eauto.
  - apply none_str.
  - apply none_str.
  - unfold fits. cbn. lia.
  - exact F1.
  - exact F2.
  - apply app_cons_ne, app_cons_ne, enc_section_ne.
  - apply pk_from_bytes_iff. destruct P as (P1 & P2 & P3 & P4 & P5 & P6). split; [|exists []; rewrite app_nil_r; reflexivity].
    split; [rewrite P3; exact P1|]. split; [exact P4|].
    rewrite P3. exact (proj2 (proj2 (kept_canon F k k' Hk (conj P1 (conj P2 (conj P3 (conj P4 (conj P5 P6)))))))).
  - reflexivity.
Qed.
Print Assumptions C52_round_trip.

(** A key parsed earlier is kept as it is when its reserved field is empty. *)
Theorem C52_parsed_keys_kept : forall (F : features) (k : privkey) (b : bytes),
  priv_data F k b -> plain_reserved k -> kept k k.
Proof.
  intros F k b Hp Hr. apply priv_data_iff in Hp. destruct Hp as [(P1 & P2 & P3 & P4 & P5 & P6) _].
  unfold kept. split; [reflexivity|]. split; [destruct (pk_kind (sk_pub k)); cbn; auto|]. split; [|auto].
  unfold plain_reserved, hardware in Hr. destruct (sk_kind k) eqn:E; cbn; auto 8.
Qed.
Print Assumptions C52_parsed_keys_kept.

Lemma enc_storable F k : priv_ok F k -> kind_ok (pk_type (sk_pub k)) (pk_kind (sk_pub k)) ->
  (sk_magic k < 2 ^ 32)%N -> length (enc_key (sk_pub k)) < 1000 -> length (enc_section k) < 1000 -> storable F k.
Proof.
  intros H1 H2 H3 H4 H5. exists (enc_key (sk_pub k)), (enc_section k).
  rewrite pub_blob_iff, section_of_iff, !app_nil_r. unfold field_ok, size, u32_max.
  split; [split; [exact H2|reflexivity]|]. split; [lia|]. split; [split; [exact H3|auto]|lia].
Qed.
Ltac small := unfold fits; vm_compute; reflexivity.
Lemma ex_ed_storable : storable ex_features ex_ed.
Proof.
  apply enc_storable; [|repeat split; small|reflexivity|vm_compute; lia|vm_compute; lia].
  split; [unfold known, key_types; cbn [In]; tauto|]. split; [right; right; reflexivity|].
  repeat split; small.
Qed.
Lemma ex_hw_storable : storable ex_features ex_hw.
Proof.
  apply enc_storable; [|repeat split; small|reflexivity|vm_compute; lia|vm_compute; lia].
  split; [unfold known, key_types; cbn [In]; tauto|]. split; [right; right; reflexivity|].
  repeat split; small.
Qed.
Lemma ex_rsa_storable : storable ex_features ex_rsa.
Proof.
  apply enc_storable; [|repeat split; try small; discriminate|reflexivity|vm_compute; lia|vm_compute; lia].
  split; [unfold known, key_types; cbn [In]; tauto|]. split; [left; reflexivity|].
  repeat split; try small; discriminate.
Qed.
Example C52_case : storable ex_features ex_ed /\ kept ex_ed ex_ed /\ storable ex_features ex_rsa /\ kept ex_rsa ex_rsa
  /\ storable ex_features ex_hw
  /\ kept (set_pin (s2b "1234") (set_device_path (s2b "/dev/x") ex_hw)) ex_hw
  /\ match sk_encode ex_ed with
     | Ok data => run (sk_from_reader ex_features ex_ops None) (data ++ [x00]) = Ok ex_ed /\ length data = 242
     | _ => False
     end.
Proof.
  split; [apply ex_ed_storable|]. split; [repeat split|]. split; [apply ex_rsa_storable|]. split; [repeat split|].
  split; [apply ex_hw_storable|]. split; [repeat split|]. vm_compute. auto.
Qed.

(** ** C53 *)
Theorem C53_text_round_trip : forall (F : features) (K : keyops) (pass : option bytes) (k k' : privkey),
  storable F k' -> kept k k' ->
  exists text, sk_write k = Ok text /\ sk_from_string F K text pass = Ok k'.
Proof.
  intros F K pass k k' Hs Hk. destruct (C52_round_trip F K pass k k' Hs Hk) as (data & He & Hp).
  assert (Hw : exists text, sk_write k = Ok text) by (unfold sk_write; rewrite He; cbn [bind]; eauto).
  destruct Hw as (text & Hw). exists text. split; [exact Hw|]. rewrite sk_from_string_decode.
  rewrite (sk_write_decode k text data He Hw). cbn [bind]. rewrite <- (app_nil_r data). apply Hp.
Qed.
Print Assumptions C53_text_round_trip.

Theorem C53_layout : forall (k : privkey) (text : bytes),
  sk_write k = Ok text ->
  exists data body, sk_encode k = Ok data
    /\ lines_of text (key_begin_line :: body ++ [key_end_line])
    /\ filled 70 body /\ base64_text data (concat body)
    /\ exists front, text = front ++ [x0a].
Proof.
  intros k text H. apply sk_write_lines in H. destruct H as (data & body & H1 & _ & H3 & H4 & H5 & H6).
  exists data, body. split; [exact H1|]. split; [exact H3|]. split; [exact H4|]. rewrite H5.
  split; [apply b64_encode_text|]. subst text. exists (key_begin ++ [newline] ++ join [newline] body ++ [newline] ++ key_end).
  rewrite <- !app_assoc. reflexivity.
Qed.
Print Assumptions C53_layout.

Example C53_case : exists text, sk_write ex_ed = Ok text
  /\ sk_from_string ex_features ex_ops text None = Ok ex_ed
  /\ length (lines text) = 7.
Proof. eexists. split; [vm_compute; reflexivity|]. vm_compute. auto. Qed.

(** ** C54 *)
Lemma counting_pad l : counting l -> length l < 8 -> l = firstn (length l) pad_bytes.
Proof.
  intros Hc Hl.
  assert (H : forall i, i < 8 -> forall j l, length l = i -> j + i <= 7 ->
    (forall n b, nth_error l n = Some b -> Byte.to_N b = N.of_nat (S (j + n))) ->
    l = firstn i (skipn j pad_bytes)).
  { clear. induction i as [|i IH]; intros Hi j l Hl Hj H.
    - destruct l; [|discriminate]. reflexivity.
    - destruct l as [|b l]; [discriminate|]. injection Hl as Hl.
      assert (Hb : b = n2b (N.of_nat (S j))).
      { apply b2n_inj. rewrite b2n_n2b, N.mod_small by lia. specialize (H 0 b eq_refl). rewrite Nat.add_0_r in H. exact H. }
      assert (E : skipn j pad_bytes = n2b (N.of_nat (S j)) :: skipn (S j) pad_bytes).
      { do 7 (destruct j as [|j]; [reflexivity|]). lia. }
      rewrite E. cbn [firstn]. rewrite <- Hb. f_equal. apply IH; [lia|exact Hl|lia|].
      intros n b' Hn. rewrite (H (S n) b' Hn). f_equal. lia. }
  apply (H (length l) Hl 0 l eq_refl); [lia|exact Hc].
Qed.

Theorem C54_encode_reproduces_file : forall (F : features) (K : keyops) (pass : option bytes) (data : bytes) (k : privkey),
  run (sk_from_reader F K pass) data = Ok k -> standard_file F data ->
  sk_encode k = Ok data.
Proof.
  intros F K pass data k H (k0 & pub & pad & sec & H1 & H2 & H3 & H4 & H5 & H6 & H7 & H8 & ->).
  apply pub_blob_iff in H1. destruct H1 as [K1 ->]. apply section_of_iff in H3. destruct H3 as (M & P & ->).
  rewrite app_nil_r in *. rewrite field_ok_fits in *. rewrite key_file_enc in *.
  assert (E : run (sk_from_reader F K pass) (enc_file (s2b "none") (s2b "none") [] (enc_key (sk_pub k0)) (enc_section k0 ++ pad) ++ []) = Ok k0).
  { rewrite (file_run F K pass _ _ _ _ (sk_pub k0) _ (enc_section k0 ++ pad)).
    - apply read_section_iff. eauto.
    - apply none_str.
    - apply none_str.
    - unfold fits. cbn. lia.
    - exact H2.
    - exact H4.
    - apply app_cons_ne, app_cons_ne, enc_section_ne.
    - apply pk_from_bytes_iff. destruct P as (P1 & P2 & P3 & P4 & P5 & P6). split; [|exists []; rewrite app_nil_r; reflexivity].
      split; [rewrite P3; exact P1|]. auto.
    - reflexivity. }
  rewrite app_nil_r in E. rewrite E in H. injection H as <-.
  assert (Hk : kept k0 k0).
  { apply (C52_parsed_keys_kept F k0 (enc_priv k0)); [apply priv_data_iff; auto|exact H5]. }
  assert (Ep : pad = firstn (pad_len (length (enc_section k0))) pad_bytes).
  { rewrite app_length in H8. rewrite <- (pad_len_unique (length (enc_section k0)) (length pad) H7 H8).
    apply counting_pad; assumption. }
  rewrite Ep in H4 |- *. apply (sk_encode_enc F k0 k0); assumption.
Qed.
Print Assumptions C54_encode_reproduces_file.

(** The premise on the reserved field is needed: it is not written back. *)
Definition ex_hw_reserved : privkey :=
  mkPrivKey sk_ed_type (SkEd25519Sk (mkHw x01 (repeat x44 16) (s2b "keep") None None)) (sk_pub ex_hw) 7 (s2b "token").
Definition ex_reserved_file : bytes :=
  enc_file (s2b "none") (s2b "none") [] (enc_key (sk_pub ex_hw)) (enc_section ex_hw_reserved ++ [x01; x02; x03; x04]).
Theorem C54_any_accepted_file_refuted : exists (F : features) (K : keyops) (data data' : bytes) (k k' : privkey),
  run (sk_from_reader F K None) data = Ok k /\ sk_encode k = Ok data' /\ data' <> data
  /\ run (sk_from_reader F K None) data' = Ok k' /\ k' <> k.
Proof.
  exists ex_features, ex_ops, ex_reserved_file. eexists. exists ex_hw_reserved. eexists.
  split; [vm_compute; reflexivity|]. split; [vm_compute; reflexivity|]. split; [vm_compute; discriminate|].
  split; [vm_compute; reflexivity|]. vm_compute. discriminate.
Qed.
Print Assumptions C54_any_accepted_file_refuted.

Example C54_case : exists data, run (sk_from_reader ex_features ex_ops None) data = Ok ex_rsa
  /\ standard_file ex_features data.
Proof.
  assert (Hs := ex_rsa_storable). apply storable_iff in Hs. destruct Hs as (P & M & F1 & F2).
  exists (key_file (s2b "none") (s2b "none") [] (enc_key (sk_pub ex_rsa))
    (enc_section ex_rsa ++ pad_bytes)).
  split; [vm_compute; reflexivity|]. unfold standard_file.
  exists ex_rsa, (enc_key (sk_pub ex_rsa)), pad_bytes, (enc_section ex_rsa ++ pad_bytes).
  rewrite pub_blob_iff, section_of_iff, app_nil_r. rewrite !field_ok_fits.
  split; [split; [repeat split; try small; discriminate|reflexivity]|]. split; [exact F1|].
  split; [auto|]. split; [exact F2|]. split; [intros h [H|H]; discriminate|].
  split; [|split; [cbn; lia|split; [vm_compute; reflexivity|reflexivity]]].
  intros [|[|[|[|[|[|[|i]]]]]]] b Hb; cbn in Hb; try discriminate; try (injection Hb as <-; reflexivity).
  destruct i; discriminate.
Qed.

(** ** C55 *)
Theorem C55_accepted_files : forall (F : features) (K : keyops) (text : bytes) (pass : option bytes) (k : privkey),
  sk_from_string F K text pass = Ok k <->
  exists data, key_text data text /\ holds_key F K pass k data.
Proof.
  intros F K text pass k. rewrite sk_from_string_decode. split.
  - intros H. apply bind_ok in H. destruct H as (d & Hd & H). exists d. rewrite key_text_iff, <- file_iff. auto.
  - intros (d & H1 & H2). apply key_text_iff in H1. rewrite H1. cbn [bind]. apply file_iff, H2.
Qed.
Print Assumptions C55_accepted_files.

Theorem C55_bare_section : forall (F : features) (data : bytes) (k : privkey),
  sk_from_bytes F data = Ok k <->
  sk_magic k = 0%N /\ exists bs tl, priv_data F k bs /\ data = bs ++ tl.
Proof.
  intros F data k. rewrite sk_from_bytes_iff. split.
  - intros (H1 & H2 & post & ->). split; [exact H2|]. exists (enc_priv k), post. rewrite priv_data_iff. auto.
  - intros (H1 & bs & tl & H2 & ->). apply priv_data_iff in H2. destruct H2 as [H2 ->]. eauto.
Qed.
Print Assumptions C55_bare_section.

(** The public key of an accepted file is the one of its header: anyone reading the
    header alone sees the same key. *)
Theorem C55_header_key : forall (F : features) (K : keyops) (pass : option bytes) (k : privkey)
  (cipher kdf options pub section tl : bytes),
  header_ok cipher kdf options pub section tl ->
  run (sk_from_reader F K pass) (key_file cipher kdf options pub section ++ tl) = Ok k ->
  pk_from_bytes pub = Ok (sk_pub k).
Proof.
  intros F K pass k ci kd op pub se tl (H1 & H2 & H3 & H4 & H5 & (pk & post & H6 & H7) & H8 & H9 & H10) H.
  rewrite key_file_enc in H.
  apply file_ginv in H; [|discriminate].
  destruct H as (ci' & kd' & op' & pkb & pub' & se' & pl & tl' & A1 & A2 & A3 & A4 & A5 & A6 & A7 & A8 & E & H).
  apply read_section_iff in H. destruct H as (P1 & <- & _).
  unfold enc_file in E. rewrite <- !app_assoc in E. do 2 apply app_inv_head in E.
  rewrite field_ok_fits in *. apply enc_bytes_inj in E; [|assumption|apply A1]. destruct E as [<- E].
  apply enc_bytes_inj in E; [|assumption|apply A2]. destruct E as [<- E].
  apply enc_bytes_inj in E; [|assumption|apply A3]. destruct E as [<- E]. apply app_inv_head in E.
  apply enc_bytes_inj in E; [|assumption|apply A4]. destruct E as [<- _]. exact A7.
Qed.
Print Assumptions C55_header_key.

(** Names of hardware certificates are accepted as private key types. *)
Theorem C55_never_a_certificate_type_refuted : exists (F : features) (K : keyops) (text : bytes) (k : privkey),
  sk_from_string F K text None = Ok k /\ kt_is_cert (sk_type k) = true.
Proof.
  set (kt := mkKeyType (s2b "sk-ssh-ed25519-cert-v01@openssh.com") (s2b "ED25519-SK-CERT") true true KEd25519
    (s2b "sk-ssh-ed25519@openssh.com")).
  set (k := mkPrivKey kt (SkEd25519Sk (mkHw x01 (repeat x44 16) [] None None))
    (mkPubKey kt (PkEd25519 (repeat x33 32) (Some (s2b "ssh:"))) None) 7 (s2b "token")).
  destruct (sk_write k) as [text|e|] eqn:E; [|vm_compute in E; discriminate..].
  exists ex_features, ex_ops, text, k. split; [|reflexivity]. vm_compute in E. injection E as <-. vm_compute. reflexivity.
Qed.
Print Assumptions C55_never_a_certificate_type_refuted.

Example C55_case : exists text, sk_from_string ex_features ex_ops text None = Ok ex_hw
  /\ sk_from_string ex_features ex_ops (s2b "x" ++ text) None = Err EInvalidFormat.
Proof.
  destruct (sk_write ex_hw) as [text|e|] eqn:E; [|vm_compute in E; discriminate..].
  exists text. vm_compute in E. injection E as <-. vm_compute. auto.
Qed.

(** ** C56 *)
Lemma header_parts ci kd op pub se tl : header_ok ci kd op pub se tl ->
  str_ok ci /\ str_ok kd /\ fits op /\ fits pub /\ fits se /\ se ++ tl <> []
  /\ exists pk, pk_from_bytes pub = Ok pk.
Proof.
  intros (H1 & H2 & H3 & H4 & H5 & (pk & post & H6 & H7) & H8 & H9 & H10).
  rewrite <- !field_ok_fits. split; [apply str_ok_iff; auto|]. split; [apply str_ok_iff; auto|].
  do 4 (split; [assumption|]). apply pub_blob_iff in H7. destruct H7 as [H7 ->].
  exists (mkPubKey (pk_type pk) (pk_kind pk) None). apply pk_from_bytes_iff. split; [|exists post; reflexivity].
  apply kt_from_name_ok in H6. split; [apply H6|]. split; [reflexivity|exact H7].
Qed.

(** An unencrypted file reads the same with any passphrase or none, whatever the primitives. *)
Theorem C56_unencrypted : forall (F : features) (K K' : keyops) (pass : option bytes) (options pub section tl : bytes),
  field_ok options -> field_ok pub -> field_ok section ->
  run (sk_from_reader F K pass) (key_file (s2b "none") (s2b "none") options pub section ++ tl)
  = run (sk_from_reader F K' None) (key_file (s2b "none") (s2b "none") options pub section ++ tl).
Proof.
  intros F K K' pass op pub se tl H1 H2 H3. rewrite field_ok_fits in *. rewrite key_file_enc.
  unfold sk_from_reader, enc_file. rewrite <- !app_assoc.
  rewrite !magic_step by local_tac. unfold key_magic. rewrite !bytes_eqb_refl. cbn [negb].
  rewrite !str_step by (try apply none_str; local_tac).
  rewrite !step_bytes by (try assumption; local_tac). rewrite !step_u32 by (try lia; local_tac).
  cbn [N.eqb Pos.eqb negb]. rewrite !step_bytes by (try assumption; local_tac).
  reflexivity.
Qed.
Print Assumptions C56_unencrypted.

Theorem C56_no_passphrase : forall (F : features) (K : keyops) (options pub section tl : bytes),
  header_ok (s2b "aes256-ctr") (s2b "bcrypt") options pub section tl ->
  run (sk_from_reader F K None) (key_file (s2b "aes256-ctr") (s2b "bcrypt") options pub section ++ tl)
  = Err EEncryptedPrivateKey.
Proof.
  intros F K op pub se tl H. apply header_parts in H. destruct H as (H1 & H2 & H3 & H4 & H5 & H6 & pk & H7).
  rewrite key_file_enc. apply (file_run_err F K None _ _ _ _ pk); try assumption. reflexivity.
Qed.
Print Assumptions C56_no_passphrase.

(** Any other cipher or key derivation, and encryption without the feature. *)
Theorem C56_not_supported : forall (F : features) (K : keyops) (pass : option bytes)
  (cipher kdf options pub section tl : bytes),
  header_ok cipher kdf options pub section tl ->
  (cipher, kdf) <> (s2b "none", s2b "none") ->
  (cipher, kdf) <> (s2b "aes256-ctr", s2b "bcrypt") \/ (f_encrypted F = false /\ pass <> None) ->
  run (sk_from_reader F K pass) (key_file cipher kdf options pub section ++ tl)
  = Err EEncryptedPrivateKeyNotSupported.
Proof.
  intros F K pass ci kd op pub se tl H Hn Ha. apply header_parts in H. destruct H as (H1 & H2 & H3 & H4 & H5 & H6 & pk & H7).
  rewrite key_file_enc. apply (file_run_err F K pass _ _ _ _ pk); try assumption. unfold decrypt.
  destruct (_ && _) eqn:E.
  { apply andb_true_iff in E. rewrite !bytes_eqb_eq in E. destruct E as [-> ->]. congruence. }
  clear E. destruct (_ && _) eqn:E; [|reflexivity]. apply andb_true_iff in E. rewrite !bytes_eqb_eq in E. destruct E as [-> ->].
  destruct Ha as [Ha|[-> Ha]]; [congruence|]. destruct pass; [reflexivity|congruence].
Qed.
Print Assumptions C56_not_supported.

(** With the passphrase, the file reads like the unencrypted file with the decrypted section. *)
Theorem C56_with_passphrase : forall (F : features) (K : keyops) (pass salt otl pub section tl out plain tl' : bytes) (rounds : N),
  f_encrypted F = true -> field_ok salt -> (rounds <= u32_max)%N ->
  header_ok (s2b "aes256-ctr") (s2b "bcrypt") (field salt ++ be32 rounds ++ otl) pub section tl ->
  k_bcrypt K pass salt rounds = Some out ->
  k_aes_ctr K (firstn 32 out) (skipn 32 out) section = Some plain ->
  field_ok plain -> plain ++ tl' <> [] ->
  run (sk_from_reader F K (Some pass))
    (key_file (s2b "aes256-ctr") (s2b "bcrypt") (field salt ++ be32 rounds ++ otl) pub section ++ tl)
  = run (sk_from_reader F K None) (key_file (s2b "none") (s2b "none") [] pub plain ++ tl').
Proof.
  intros F K pass salt otl pub se tl out plain tl' rounds He Hs Hr H Hb Ha Hp Hne.
  apply header_parts in H. destruct H as (H1 & H2 & H3 & H4 & H5 & H6 & pk & H7).
  rewrite !key_file_enc. rewrite (file_run F K (Some pass) _ _ _ _ pk _ plain).
  - rewrite (file_run F K None _ _ _ _ pk _ plain); first [assumption|apply none_str|apply field_ok_fits, Hp|reflexivity|unfold fits; cbn; lia].
  - exact H1.
  - exact H2.
  - exact H3.
  - exact H4.
  - exact H5.
  - exact H6.
  - exact H7.
  - apply decrypt_iff. econstructor; eauto.
Qed.
Print Assumptions C56_with_passphrase.

(** A failing key derivation or cipher is an invalid file. *)
Theorem C56_failed_decryption : forall (F : features) (K : keyops) (pass salt otl pub section tl : bytes) (rounds : N),
  f_encrypted F = true -> field_ok salt -> (rounds <= u32_max)%N ->
  header_ok (s2b "aes256-ctr") (s2b "bcrypt") (field salt ++ be32 rounds ++ otl) pub section tl ->
  (k_bcrypt K pass salt rounds = None
   \/ exists out, k_bcrypt K pass salt rounds = Some out
        /\ k_aes_ctr K (firstn 32 out) (skipn 32 out) section = None) ->
  run (sk_from_reader F K (Some pass))
    (key_file (s2b "aes256-ctr") (s2b "bcrypt") (field salt ++ be32 rounds ++ otl) pub section ++ tl)
  = Err EInvalidFormat.
Proof.
  intros F K pass salt otl pub se tl rounds He Hs Hr H Hf.
  apply header_parts in H. destruct H as (H1 & H2 & H3 & H4 & H5 & H6 & pk & H7).
  rewrite key_file_enc. apply (file_run_err F K (Some pass) _ _ _ _ pk); try assumption. unfold decrypt.
  cbn [andb]. rewrite !bytes_eqb_refl. rewrite He. rewrite field_enc, be32_to_be.
  replace (bytes_eqb (s2b "aes256-ctr") (s2b "none")) with false by reflexivity. cbn [andb].
  rewrite field_ok_fits in Hs. unfold u32_max in Hr.
  rewrite step_bytes by (try assumption; local_tac). rewrite step_u32 by (try lia; local_tac).
  rewrite run_ret. cbn [bind fst snd]. destruct Hf as [->|(out & -> & ->)]; reflexivity.
Qed.
Print Assumptions C56_failed_decryption.

(** Check integers that differ (what a wrong passphrase gives) are rejected. *)
Theorem C56_check_integers : forall (F : features) (K : keyops) (pass : option bytes)
  (cipher kdf options pub section plain rest tl : bytes) (a b : N),
  header_ok cipher kdf options pub section tl -> unlocks F K pass section cipher kdf options plain ->
  (a <= u32_max)%N -> (b <= u32_max)%N -> a <> b -> plain = be32 a ++ be32 b ++ rest ->
  run (sk_from_reader F K pass) (key_file cipher kdf options pub section ++ tl) = Err EInvalidFormat.
Proof.
  intros F K pass ci kd op pub se plain rest tl a b H Hu Ha Hb Hab ->.
  apply header_parts in H. destruct H as (H1 & H2 & H3 & H4 & H5 & H6 & pk & H7). apply decrypt_iff in Hu.
  rewrite key_file_enc, (file_run F K pass _ _ _ _ pk _ (be32 a ++ be32 b ++ rest)); try assumption.
  unfold read_section, u32_max in *. rewrite !be32_to_be. rewrite step_u32 by (try lia; local_tac).
  rewrite step_u32 by (try lia; local_tac). replace (a =? b)%N with false by lia. reflexivity.
Qed.
Print Assumptions C56_check_integers.

Example C56_case :
  let pub := enc_key (sk_pub ex_ed) in
  let sec := enc_section ex_ed ++ [x01; x02] in
  let opts := field (s2b "salt") ++ be32 16 in
  header_ok (s2b "aes256-ctr") (s2b "bcrypt") opts pub sec []
  /\ run (sk_from_reader ex_features ex_ops (Some (s2b "secret")))
       (key_file (s2b "aes256-ctr") (s2b "bcrypt") opts pub sec) = Ok ex_ed
  /\ run (sk_from_reader ex_features ex_ops None)
       (key_file (s2b "aes256-ctr") (s2b "bcrypt") opts pub sec) = Err EEncryptedPrivateKey
  /\ run (sk_from_reader ex_features ex_ops None)
       (key_file (s2b "aes128-cbc") (s2b "bcrypt") opts pub sec) = Err EEncryptedPrivateKeyNotSupported.
Proof.
  cbn zeta. split; [|repeat split; vm_compute; reflexivity].
  unfold header_ok. split; [apply utf8_valid_iff; reflexivity|]. split; [apply utf8_valid_iff; reflexivity|].
  rewrite !field_ok_fits. do 3 (split; [small|]). split; [|split; [small|split; [small|discriminate]]].
  exists (sk_pub ex_ed), []. split; [reflexivity|]. apply pub_blob_iff. split; [repeat split; small|rewrite app_nil_r; reflexivity].
Qed.

(** ** C57 *)
Lemma to_be_len32 b : to_be 4 (len32 b) = to_be 4 (N.of_nat (length b)).
Proof.
  rewrite <- (to_be_from_be (to_be 4 (N.of_nat (length b)))), to_be_length, from_be_to_be. reflexivity.
Qed.
Lemma write_bytes_field b w : write_bytes b w = w ++ field b.
Proof. unfold write_bytes. rewrite to_be_len32, field_enc. unfold enc_bytes. rewrite <- app_assoc. reflexivity. Qed.
Lemma write_mpint_field b w : exists x, write_mpint b w = w ++ field x.
Proof. rewrite write_mpint_eq, write_bytes_field. eauto. Qed.
Lemma write_pub_key_data_app pk w w' : write_pub_key_data pk w = Ok w' -> exists x, w' = w ++ x.
Proof.
  unfold write_pub_key_data. destruct (pk_kind pk) as [e n|c b app|b app].
  - intros H. apply ok_inj in H. subst w'. destruct (write_mpint_field e w) as (x & ->).
    destruct (write_mpint_field n (w ++ field x)) as (y & ->). rewrite <- app_assoc. eauto.
  - cbn zeta. destruct (kt_is_sk (pk_type pk)).
    + intros H. apply bind_ok in H. destruct H as (a & _ & H). apply ok_inj in H. subst w'.
      unfold write_string. rewrite !write_bytes_field, <- !app_assoc. eauto.
    + intros H. apply ok_inj in H. subst w'. unfold write_string. rewrite !write_bytes_field, <- !app_assoc. eauto.
  - cbn zeta. destruct (kt_is_sk (pk_type pk)).
    + intros H. apply bind_ok in H. destruct H as (a & _ & H). apply ok_inj in H. subst w'.
      unfold write_string. rewrite !write_bytes_field, <- !app_assoc. eauto.
    + intros H. apply ok_inj in H. subst w'. rewrite !write_bytes_field. eauto.
Qed.
Lemma write_priv_kind_app k w w' : write_priv_kind k w = Ok w' -> exists x, w' = w ++ x.
Proof.
  unfold write_priv_kind. destruct (sk_kind k) as [r|c key|h|key|h].
  - intros H. apply ok_inj in H. subst w'. rewrite !write_mpint_eq, !write_bytes_field, <- !app_assoc. eauto.
  - intros H. apply bind_ok in H. destruct H as (v & Hv & H). apply ok_inj in H. subst w'.
    apply write_pub_key_data_app in Hv. destruct Hv as (x & ->). rewrite write_bytes_field, <- app_assoc. eauto.
  - intros H. apply bind_ok in H. destruct H as (v & Hv & H). apply ok_inj in H. subst w'.
    apply write_pub_key_data_app in Hv. destruct Hv as (x & ->). unfold write_raw_bytes. rewrite !write_bytes_field, <- !app_assoc. eauto.
  - intros H. apply bind_ok in H. destruct H as (v & Hv & H). apply ok_inj in H. subst w'.
    apply write_pub_key_data_app in Hv. destruct Hv as (x & ->). rewrite write_bytes_field, <- app_assoc. eauto.
  - intros H. apply bind_ok in H. destruct H as (v & Hv & H). apply ok_inj in H. subst w'.
    apply write_pub_key_data_app in Hv. destruct Hv as (x & ->). unfold write_raw_bytes. rewrite !write_bytes_field, <- !app_assoc. eauto.
Qed.
Lemma counting_pad_bytes n : n < 8 -> counting (firstn n pad_bytes).
Proof.
  intros Hn. assert (Hc : n = 0 \/ n = 1 \/ n = 2 \/ n = 3 \/ n = 4 \/ n = 5 \/ n = 6 \/ n = 7) by lia.
  clear Hn. repeat (destruct Hc as [->|Hc]); [..|subst n];
    intros i b; do 7 (destruct i as [|i]; [cbn; try discriminate; intros H; injection H as <-; reflexivity|]);
    destruct i; discriminate.
Qed.

Theorem C57_padding : forall (k : privkey) (data : bytes), sk_encode k = Ok data ->
  exists pub body padding,
    data = key_file (s2b "none") (s2b "none") [] pub (body ++ padding)
    /\ Nat.modulo (length (body ++ padding)) 8 = 0 /\ length padding < 8 /\ counting padding
    /\ exists rest, body = be32 (sk_magic k) ++ be32 (sk_magic k) ++ field (kt_name (pk_type (sk_pub k)))
         ++ rest ++ field (sk_comment k).
Proof.
  intros k data H. unfold sk_encode in H. cbn zeta in H. apply bind_ok in H. destruct H as (s & Hs & H).
  apply bind_ok in H. destruct H as (w & Hw & H). apply ok_inj in H.
  unfold write_pub_key in Hs. apply bind_ok in Hs. destruct Hs as (pub & _ & Hs). apply ok_inj in Hs.
  apply write_section_shape in Hw. destruct Hw as (body & Hb & Hw). cbn zeta in Hw.
  apply write_priv_kind_app in Hb. destruct Hb as (rest & Hb).
  set (b := write_string (sk_comment k) body) in Hw.
  exists pub, b, (firstn (pad_len (length b)) pad_bytes). rewrite <- Hw. split; [|split; [|split; [|split]]].
  - subst data s. unfold write_string, write_u32, write_cstring, writer_new. rewrite !write_bytes_field.
    unfold key_file. cbn [app]. rewrite <- !app_assoc, be32_to_be. reflexivity.
  - rewrite Hw, app_length, firstn_length. pose proof (pad_len_lt (length b)).
    rewrite Nat.min_l by (cbn [length pad_bytes]; lia). apply pad_len_total.
  - rewrite firstn_length. pose proof (pad_len_lt (length b)). lia.
  - apply counting_pad_bytes, pad_len_lt.
  - exists rest. subst b body. unfold write_string. rewrite !write_bytes_field, !be32_to_be, <- !app_assoc. reflexivity.
Qed.
Print Assumptions C57_padding.

Example C57_case : exists data, sk_encode ex_rsa = Ok data /\ length data = 133
  /\ skipn 126 data = [x01; x02; x03; x04; x05; x06; x07].
Proof. eexists. split; [vm_compute; reflexivity|]. vm_compute. auto. Qed.

(** ** C58 *)
Theorem C58_panics : forall (F : features) (K : keyops) (text : bytes) (pass : option bytes),
  sk_from_string F K text pass = Panic <->
  f_rsa F = true
  /\ exists data cipher kdf options pub section plain tl m rest,
       key_text data text /\ data = key_file cipher kdf options pub section ++ tl
       /\ header_ok cipher kdf options pub section tl
       /\ unlocks F K pass section cipher kdf options plain
       /\ (m <= u32_max)%N /\ plain = be32 m ++ be32 m ++ rest /\ degenerate_rsa rest.
Proof.
  intros F K text pass. rewrite sk_from_string_decode. split.
  - intros H. destruct (armor_decode key_begin key_end text) as [d|e|] eqn:Ed; cbn [bind] in H;
      [|discriminate|exfalso; exact (armor_decode_not_panic _ _ _ Ed)].
    apply file_ginv in H; [|exact noerr_panic].
    destruct H as (ci & kd & op & pkb & pub & se & pl & tl & H1 & H2 & H3 & H4 & H5 & H6 & H7 & H8 & -> & H).
    apply read_section_panic in H. destruct H as (Hr & m & rest & Hm & -> & Hd). split; [exact Hr|].
    exists (key_file ci kd op pkb se ++ tl), ci, kd, op, pkb, se, (to_be 4 m ++ to_be 4 m ++ rest), tl, m, rest.
    rewrite key_text_iff, key_file_enc, be32_to_be. unfold header_ok, u32_max. rewrite !field_ok_fits.
    apply str_ok_iff in H1 as [U1 F1], H2 as [U2 F2]. rewrite field_ok_fits in F1, F2.
    split; [exact Ed|]. split; [reflexivity|]. split; [|split; [apply decrypt_iff, H8|split; [lia|auto]]].
    do 5 (split; [assumption|]). split; [|auto].
    apply pk_from_bytes_iff in H7. destruct H7 as ((K1 & K2 & K3) & post & ->). exists pub, post.
    split; [apply known_name_ok, K1|]. apply pub_blob_iff. auto.
  - intros (Hr & data & ci & kd & op & pub & se & pl & tl & m & rest & Ht & -> & Hh & Hu & Hm & -> & Hd).
    apply key_text_iff in Ht. rewrite Ht. cbn [bind]. apply header_parts in Hh.
    destruct Hh as (H1 & H2 & H3 & H4 & H5 & H6 & pk & H7). apply decrypt_iff in Hu.
    rewrite key_file_enc, (file_run F K pass _ _ _ _ pk _ _ _ H1 H2 H3 H4 H5 H6 H7 Hu).
    apply read_section_panic. unfold u32_max in Hm. rewrite be32_to_be. split; [exact Hr|]. exists m, rest. split; [lia|auto].
Qed.
Print Assumptions C58_panics.

Theorem C58_bare_section_panics : forall (F : features) (data : bytes),
  sk_from_bytes F data = Panic <-> f_rsa F = true /\ degenerate_rsa data.
Proof. intros F data. apply read_private_key_panic. Qed.
Print Assumptions C58_bare_section_panics.

(** Parsing hostile text can panic: p = 1. *)
Definition ex_bad_rsa : privkey :=
  mkPrivKey rsa_type (SkRsa (mkRsaPriv [x8f] [x07] [x67] [x06] [x01] [x0d] None None))
    (mkPubKey rsa_type (PkRsa [x07] [x8f]) None) 1 (s2b "rsa").
Theorem C58_never_panics_refuted : exists (F : features) (K : keyops) (text : bytes),
  sk_from_string F K text None = Panic.
Proof.
  destruct (sk_write ex_bad_rsa) as [text|e|] eqn:E; [|vm_compute in E; discriminate..].
  exists ex_features, ex_ops, text. vm_compute in E. injection E as <-. vm_compute. reflexivity.
Qed.
Print Assumptions C58_never_panics_refuted.

Example C58_case : degenerate_rsa (enc_priv ex_bad_rsa).
Proof.
  apply (read_private_key_panic ex_features). vm_compute. reflexivity.
Qed.

(** ** C59 *)
Lemma format_total pk s : format_signature_for_ssh pk s <> Panic.
Proof. apply C33_total. Qed.
Lemma hw_blob_not_panic pub a : hw_blob pub a <> Panic.
Proof.
  unfold hw_blob. destruct (format_signature_for_ssh pub (as_signature a)) as [[f|]|e|] eqn:E; cbn [bind]; try discriminate.
  exfalso. exact (format_total _ _ E).
Qed.
Theorem C59_signing_panics : forall (F : features) (C : crypto) (K K' : keyops) (text : bytes) (pass : option bytes)
  (k : privkey) (m : bytes),
  sk_from_string F K' text pass = Ok k ->
  (sk_sign F C K k m = Panic <->
     (exists key, sk_kind k = SkEd25519 key /\ length key < 32)
     \/ (exists c, sk_kind k = SkEcdsa c [] /\ c_kind c <> Nistp521)
     \/ (f_fido F = Mozilla /\ exists h app, hardware k h /\ key_application k app
          /\ k_moz K app (c_sha256 C m) (hw_handle h) None = Panic)).
Proof.
  intros F C K K' text pass k m H. apply C55_accepted_files in H. destruct H as (d & _ & H). apply file_iff in H.
  apply file_ginv in H; [|discriminate].
  destruct H as (ci & kd & op & pkb & pub & se & pl & tl & _ & _ & _ & _ & _ & _ & _ & _ & _ & H).
  apply read_section_iff in H. destruct H as (P & _ & _). destruct P as (P1 & P2 & P3 & P4 & P5 & P6).
  unfold sk_sign, hardware, key_application. destruct (sk_kind k) as [r|c key|h|key|h] eqn:Ek; destruct (pk_kind (sk_pub k)) as [e n|c' b [app|]|b [app|]] eqn:Ep;
    cbn [sec_ok] in P5; try contradiction.
  - (* RSA *)
    destruct P5 as (_ & _ & _ & _ & _ & _ & _ & _ & _ & Hx). split.
    + destruct (f_rsa F) eqn:Er; [|discriminate]. unfold crt_exponents in Hx. rewrite Er in Hx.
      apply bind_ok in Hx. destruct Hx as (x & _ & Hx). apply bind_ok in Hx. destruct Hx as (y & _ & Hx).
      apply ok_inj in Hx. injection Hx as Hx1 Hx2. unfold rsa_der. rewrite <- Hx1, <- Hx2. cbn [unwrap bind].
      destruct (k_rsa_sign _ _ _); [|discriminate]. intros H. exfalso. exact (format_total _ _ H).
    + intros [(? & ? & _)|[(? & ? & _)|(_ & h & ? & [Hh|Hh] & _)]]; discriminate.
  - (* ECDSA *)
    split.
    + intros H. right. left. exists c. destruct (c_kind c); [|..|discriminate].
      * destruct key as [|b0 key]; [split; [reflexivity|discriminate]|]. exfalso. cbn [index nth_error bind] in H.
        destruct (b2n b0 =? 0)%N; [rewrite slice_from_ok in H by (cbn [length]; lia)|]; cbn [bind] in H;
          destruct (k_ecdsa_sign _ _ _ _ _) in H; try discriminate; exact (format_total _ _ H).
      * destruct key as [|b0 key]; [split; [reflexivity|discriminate]|]. exfalso. cbn [index nth_error bind] in H.
        destruct (b2n b0 =? 0)%N; [rewrite slice_from_ok in H by (cbn [length]; lia)|]; cbn [bind] in H;
          destruct (k_ecdsa_sign _ _ _ _ _) in H; try discriminate; exact (format_total _ _ H).
    + intros [(? & ? & _)|[(? & E & Hc)|(_ & h & ? & [Hh|Hh] & _)]]; try discriminate.
      injection E as -> ->. destruct (c_kind x); [reflexivity|reflexivity|congruence].
  - (* ECDSA hardware key *)
    destruct P5 as [_ (Hw1 & Hw2 & Hw3 & Hw4)]. unfold hw_sign, hid_sign, moz_sign, pub_app. rewrite Ep. split.
    + destruct (f_fido F) eqn:Ef; [discriminate|..].
      * destruct (k_hid _ _ _ _ _ _); [|discriminate]. intros H. exfalso. exact (hw_blob_not_panic _ _ H).
      * cbn [unwrap bind]. destruct (k_moz K app (c_sha256 C m) (hw_handle h) (hw_pin h)) as [[a|]|er|] eqn:Em; cbn [bind]; try discriminate.
        -- intros H. exfalso. exact (hw_blob_not_panic _ _ H).
        -- intros _. right. right. split; [reflexivity|]. exists h, app. rewrite Hw3 in Em. eauto 8.
    + intros [(? & ? & _)|[(? & ? & _)|(-> & h' & app' & Hh & (c2 & b2 & Ha) & Hm)]]; try discriminate.
      destruct Hh as [Hh|Hh]; [|discriminate]. injection Hh as <-. destruct Ha as [Ha|Ha]; [|discriminate].
      injection Ha as _ _ <-. cbn [unwrap bind]. rewrite Hw3, Hm. reflexivity.
  - (* Ed25519 *)
    split.
    + intros H. left. exists key. split; [reflexivity|]. destruct (Nat.lt_ge_cases (length key) 32) as [Hl|Hl]; [exact Hl|].
      exfalso. rewrite slice_to_ok in H by exact Hl. cbn [bind] in H. destruct (k_ed25519_sign _ _ _ _); [|discriminate].
      exact (format_total _ _ H).
    + intros [(key' & E & Hl)|[(? & ? & _)|(_ & h & ? & [Hh|Hh] & _)]]; try discriminate.
      injection E as <-. unfold slice_to. rewrite (proj2 (Nat.leb_gt _ _) Hl). reflexivity.
  - (* Ed25519 hardware key *)
    destruct P5 as [_ (Hw1 & Hw2 & Hw3 & Hw4)]. unfold hw_sign, hid_sign, moz_sign, pub_app. rewrite Ep. split.
    + destruct (f_fido F) eqn:Ef; [discriminate|..].
      * destruct (k_hid _ _ _ _ _ _); [|discriminate]. intros H. exfalso. exact (hw_blob_not_panic _ _ H).
      * cbn [unwrap bind]. destruct (k_moz K app (c_sha256 C m) (hw_handle h) (hw_pin h)) as [[a|]|er|] eqn:Em; cbn [bind]; try discriminate.
        -- intros H. exfalso. exact (hw_blob_not_panic _ _ H).
        -- intros _. right. right. split; [reflexivity|]. exists h, app. rewrite Hw3 in Em. split; [auto|].
           split; [|exact Em]. exists (mkCurve Nistp256 []), b. auto.
    + intros [(? & ? & _)|[(? & ? & _)|(-> & h' & app' & Hh & (c2 & b2 & Ha) & Hm)]]; try discriminate.
      destruct Hh as [Hh|Hh]; [discriminate|]. injection Hh as <-. destruct Ha as [Ha|Ha]; [discriminate|].
      injection Ha as _ <-. cbn [unwrap bind]. rewrite Hw3, Hm. reflexivity.
Qed.
Print Assumptions C59_signing_panics.

(** An accepted key can make signing panic. *)
Definition ex_short : privkey :=
  mkPrivKey ed_type (SkEd25519 (repeat x22 31)) (sk_pub ex_ed) 9 (s2b "short").
Theorem C59_accepted_keys_sign_refuted : exists (F : features) (C : crypto) (K : keyops) (text : bytes) (k : privkey),
  sk_from_string F K text None = Ok k /\ sk_sign F C K k (s2b "message") = Panic.
Proof.
  destruct (sk_write ex_short) as [text|e|] eqn:E; [|vm_compute in E; discriminate..].
  exists ex_features, (mkCrypto (fun x => x) (fun x => x) (fun x => x) (fun _ _ _ => false) (fun _ _ _ => false)
    (fun _ _ _ => false) (fun _ _ _ _ _ => false)), ex_ops, text, ex_short.
  vm_compute in E. injection E as <-. vm_compute. auto.
Qed.
Print Assumptions C59_accepted_keys_sign_refuted.

(** ** C60 *)
Theorem C60_crt_exponents : forall (F : features) (K : keyops) (text : bytes) (pass : option bytes) (k : privkey) (r : rsa_priv),
  sk_from_string F K text pass = Ok k -> sk_kind k = SkRsa r ->
  pk_kind (sk_pub k) = PkRsa (rp_e r) (rp_n r)
  /\ (f_rsa F = true -> exists dp dq, rp_exp r = Some dp /\ rp_exq r = Some dq
        /\ (2 <= magnitude (rp_p r))%N /\ (2 <= magnitude (rp_q r))%N
        /\ magnitude dp = (magnitude (rp_d r) mod (magnitude (rp_p r) - 1))%N
        /\ magnitude dq = (magnitude (rp_d r) mod (magnitude (rp_q r) - 1))%N)
  /\ (f_rsa F = false -> rp_exp r = None /\ rp_exq r = None).
Proof.
  intros F K text pass k r H Hk. apply C55_accepted_files in H.
  destruct H as (d & _ & ci & kd & op & post & pub & se & pl & pad & tl & _ & _ & _ & _ & _ & _ & _ & _ & _ & _ & (_ & b & Hp & _) & _).
  destruct Hp as (kt & b' & _ & _ & _ & _ & _ & Hs & _). rewrite Hk in Hs. inversion Hs; subst; cbn [rp_n rp_e rp_d rp_p rp_q rp_exp rp_exq] in *.
  split; [reflexivity|]. unfold crt_value in *.
  match goal with A : if f_rsa F then _ else _, B : if f_rsa F then _ else _ |- _ => destruct (f_rsa F);
    [destruct A as (A1 & x & -> & A2 & _), B as (B1 & y & -> & B2 & _)|] end.
  - split; [|discriminate]. intros _. eauto 10.
  - split; [discriminate|auto].
Qed.
Print Assumptions C60_crt_exponents.

Example C60_case : exists text, sk_from_string ex_features ex_ops text None = Ok ex_rsa
  /\ rp_exp (mkRsaPriv [x8f] [x07] [x67] [x06] [x0b] [x0d] (Some [x03]) (Some [x07])) = Some [x03].
Proof.
  destruct (sk_write ex_rsa) as [text|e|] eqn:E; [|vm_compute in E; discriminate..].
  exists text. vm_compute in E. injection E as <-. vm_compute. auto.
Qed.

(** ** C61 *)
Theorem C61_not_stored : forall (pin path : bytes) (k : privkey),
  sk_encode (set_pin pin k) = sk_encode k /\ sk_encode (set_device_path path k) = sk_encode k
  /\ sk_write (set_pin pin k) = sk_write k /\ sk_write (set_device_path path k) = sk_write k.
Proof.
  intros pin path k.
  assert (H1 : sk_encode (set_pin pin k) = sk_encode k).
  { unfold set_pin. destruct (sk_kind k) eqn:E; try reflexivity;
      unfold sk_encode, write_section, write_priv_kind; cbn [with_kind sk_kind sk_pub sk_magic sk_comment hw_with_pin hw_handle hw_flags];
      rewrite E; reflexivity. }
  assert (H2 : sk_encode (set_device_path path k) = sk_encode k).
  { unfold set_device_path. destruct (sk_kind k) eqn:E; try reflexivity;
      unfold sk_encode, write_section, write_priv_kind; cbn [with_kind sk_kind sk_pub sk_magic sk_comment hw_with_path hw_handle hw_flags];
      rewrite E; reflexivity. }
  unfold sk_write. rewrite H1, H2. auto.
Qed.
Print Assumptions C61_not_stored.

(** Everything but the PIN (path) is left alone, and keys without hardware are not changed. *)
Theorem C61_only_hardware : forall (pin path : bytes) (k : privkey),
  ((forall h, ~ hardware k h) -> set_pin pin k = k /\ set_device_path path k = k)
  /\ (forall h, hardware k h ->
       hardware (set_pin pin k) (mkHw (hw_flags h) (hw_handle h) (hw_reserved h) (Some pin) (hw_device_path h))
       /\ hardware (set_device_path path k) (mkHw (hw_flags h) (hw_handle h) (hw_reserved h) (hw_pin h) (Some path)))
  /\ Forall (fun k' => sk_pub k' = sk_pub k /\ sk_type k' = sk_type k /\ sk_comment k' = sk_comment k /\ sk_magic k' = sk_magic k)
       [set_pin pin k; set_device_path path k].
Proof.
  intros pin path k. unfold hardware, set_pin, set_device_path.
  destruct (sk_kind k) as [r|c key|h|key|h] eqn:E; (split; [|split]).
  all: try solve [intros H; first [solve [auto] | exfalso; eapply H; eauto]].
  all: try solve [repeat (apply Forall_cons; [cbn; auto|]); constructor].
  all: intros h' [H|H]; try discriminate; injection H as <-; cbn; auto.
Qed.
Print Assumptions C61_only_hardware.

(** A key read from a file has neither. *)
Theorem C61_fresh : forall (F : features) (K : keyops) (text : bytes) (pass : option bytes) (k : privkey) (h : hw_priv),
  sk_from_string F K text pass = Ok k -> hardware k h -> hw_pin h = None /\ hw_device_path h = None.
Proof.
  intros F K text pass k h H Hk. apply C55_accepted_files in H.
  destruct H as (d & _ & ci & kd & op & post & pub & se & pl & pad & tl & _ & _ & _ & _ & _ & _ & _ & _ & _ & _ & (_ & b & Hp & _) & _).
  destruct Hp as (kt & b' & _ & _ & _ & _ & _ & Hs & _). destruct Hk as [Hk|Hk]; rewrite Hk in Hs; inversion Hs; auto.
Qed.
Print Assumptions C61_fresh.

(** Signing consults the device with the PIN and path set: only the device's answers under
    them matter. *)
Theorem C61_used_for_signing : forall (F : features) (C : crypto) (K K' : keyops) (pin path : bytes) (k : privkey) (h : hw_priv) (m : bytes),
  hardware k h ->
  (forall app, k_hid K app m (hw_handle h) (Some pin) (Some path) = k_hid K' app m (hw_handle h) (Some pin) (Some path)) ->
  (forall app, k_moz K app (c_sha256 C m) (hw_handle h) (Some pin) = k_moz K' app (c_sha256 C m) (hw_handle h) (Some pin)) ->
  sk_sign F C K (set_pin pin (set_device_path path k)) m = sk_sign F C K' (set_pin pin (set_device_path path k)) m.
Proof.
  intros F C K K' pin path k h m Hh H1 H2. unfold set_pin, set_device_path.
  destruct Hh as [E|E]; rewrite E; cbn [with_kind sk_kind sk_sign]; unfold sk_sign;
    cbn [with_kind sk_kind sk_sign]; unfold hw_sign, hid_sign, moz_sign, hw_with_pin, hw_with_path;
    cbn [sk_pub with_kind hw_handle hw_pin hw_device_path];
    (destruct (f_fido F); [reflexivity|..]);
    (destruct (pub_app (sk_pub k)) as [[app|]|]; [|reflexivity..]); rewrite ?H1; cbn [unwrap bind]; rewrite ?H2; reflexivity.
Qed.
Print Assumptions C61_used_for_signing.

Example C61_case : hardware ex_hw (mkHw x01 (repeat x44 16) [] None None)
  /\ sk_kind (set_pin (s2b "1234") (set_device_path (s2b "/dev/hidraw0") ex_hw))
     = SkEd25519Sk (mkHw x01 (repeat x44 16) [] (Some (s2b "1234")) (Some (s2b "/dev/hidraw0"))).
Proof. split; [right; reflexivity|reflexivity]. Qed.

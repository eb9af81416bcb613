(** Properties C37, C42, C43, C44 (certificate parsing, text form). *)
From Verif Require Import Base BaseFacts Utf8 Utf8Facts Str StrFacts Base64 Base64Facts SpecWire SpecText SpecBase64 SpecKeys
  SpecSig SpecCert Reader ReaderFacts LocalFacts KeyType KeyTypeFacts PubKeyType Writer WriterFacts WireFacts
  Crypto PubKey PubKeyFacts Signature SignatureFacts Cert CertFacts TbsFacts PropCert.

(** ** C37 *)
Theorem C37_no_panic : forall (C : crypto) (data : bytes), cert_from_bytes C data <> Panic.
Proof. apply cert_from_bytes_not_panic. Qed.
Print Assumptions C37_no_panic.

Theorem C37_text_no_panic : forall (C : crypto) (s : bytes), cert_from_string C s <> Panic.
Proof.
  intros C s. unfold cert_from_string. destruct (nth_error (split_whitespace s) 0) as [w|]; [|discriminate]. cbn [ok_or bind].
  destruct (kt_from_name w) as [kt|e|] eqn:E; [|discriminate|exfalso; eapply kt_from_name_not_panic; eauto]. cbn [bind].
  destruct (nth_error (split_whitespace s) 1) as [d|]; [|discriminate]. cbn [ok_or bind].
  destruct (b64_decode d) as [b|]; [|discriminate]. cbn [ok_or bind].
  destruct (cert_from_bytes C b) as [c|e|] eqn:Ec; [|discriminate|exfalso; eapply cert_from_bytes_not_panic; eauto]. cbn [bind].
  destruct (negb _); discriminate.
Qed.
Print Assumptions C37_text_no_panic.

Lemma local_pk_from_reader n : local (pk_from_reader n).
Proof. unfold pk_from_reader. local_tac. Qed.
Lemma local_cert_type : local read_cert_type.
Proof. unfold read_cert_type. local_tac. Qed.
Ltac ltac := repeat (local_tac; try apply local_pk_from_reader; try apply local_cert_type).

Theorem C37_other_types_rejected : forall (C : crypto) (name rest : bytes) (kt : key_type),
  kt_from_name name = Ok kt -> kt_is_cert kt = false ->
  cert_from_bytes C (field name ++ rest) = Err ENotCertificate.
Proof.
  intros C name rest kt Hk Hc. rewrite cert_from_bytes_split. apply run_bind_err. unfold signed_parser.
  pose proof Hk as Hk'. apply kt_from_name_ok in Hk'. destruct Hk' as [Hin Hn]. rewrite field_enc.
  rewrite step_string; [|rewrite Hn; apply known_fits, Hin|rewrite Hn; apply known_utf8, Hin|ltac].
  rewrite (run_lift _ kt) by exact Hk. rewrite Hc. reflexivity.
Qed.
Print Assumptions C37_other_types_rejected.

(** Only certificate types are accepted. *)
Theorem C37_only_certificates : forall (C : crypto) (data : bytes) (c : cert),
  cert_from_bytes C data = Ok c ->
  kt_is_cert (ct_key_type c) = true /\ exists rest, data = field (kt_name (ct_key_type c)) ++ rest.
Proof.
  intros C data c H. apply cert_from_bytes_iff in H. destruct H as (sp & post & Hc & -> & _).
  destruct Hc as (pb & cb & eb & skb & skpost & Hkt & Hcert & Hnonce & _ & _ & _ & _ & _ & _
      & _ & _ & _ & _ & _ & _ & _ & _ & _ & _ & _ & _ & ->).
  split; [exact Hcert|]. rewrite <- app_assoc, field_enc. eauto.
Qed.
Print Assumptions C37_only_certificates.

(** A type number other than 1 and 2. *)
Theorem C37_type_number : forall (C : crypto) (kt plain : key_type) (kind : pubkey_kind) (nonce data rest : bytes) (serial n : N),
  kt_from_name (kt_name kt) = Ok kt -> kt_is_cert kt = true -> field_ok nonce ->
  plain_type_of kt plain -> key_data plain kind data -> (serial <= u64_max)%N -> (n <= u32_max)%N ->
  n <> 1%N -> n <> 2%N ->
  cert_from_bytes C (field (kt_name kt) ++ field nonce ++ data ++ be64 serial ++ be32 n ++ rest)
  = Err (EInvalidCertType n).
Proof.
  intros C kt plain kind nonce data rest serial n Hk Hc Hn Hp Hd Hs Hn32 N1 N2.
  rewrite cert_from_bytes_split. apply run_bind_err. unfold signed_parser.
  pose proof Hk as Hk'. apply kt_from_name_ok in Hk'. destruct Hk' as [Hin _].
  rewrite !field_enc, be64_to_be, be32_to_be. rewrite field_ok_fits in Hn. unfold u64_max, u32_max in *.
  rewrite step_string; [|apply known_fits, Hin|apply known_utf8, Hin|ltac].
  rewrite (run_lift _ kt) by exact Hk. rewrite Hc. cbn [negb].
  rewrite step_bytes; [|exact Hn|ltac].
  apply key_data_iff in Hd. destruct Hd as [Hd ->]. unfold plain_type_of in Hp. apply kt_from_name_ok in Hp.
  erewrite (run_step _ _ _ (mkPubKey plain kind None) (enc_kind kind)); [|apply parses_pk_from_reader| |ltac].
  2:{ unfold key_rel. cbn [pk_type pk_kind pk_comment]. split; [apply Hp|]. split; [symmetry; apply Hp|]. auto. }
  rewrite step_u64; [|lia|ltac]. apply run_bind_err. unfold read_cert_type.
  rewrite step_u32; [|lia|ltac].
  replace (n =? 1)%N with false by lia. replace (n =? 2)%N with false by lia. reflexivity.
Qed.
Print Assumptions C37_type_number.

Example C37_case : 
  cert_from_bytes lax_crypto (field (s2b "ssh-ed25519") ++ field [x01]) = Err ENotCertificate
  /\ cert_from_bytes lax_crypto (field (s2b "ssh-ed25519-cert-v01@openssh.com") ++ field [x01] ++ field [x02] ++ be64 5 ++ be32 3)
     = Err (EInvalidCertType 3)
  /\ cert_from_bytes lax_crypto (field (s2b "ssh-ed25519-cert-v02@openssh.com"))
     = Err (EUnknownKeyType (s2b "ssh-ed25519-cert-v02@openssh.com")).
Proof. vm_compute. auto. Qed.

(** ** C44 *)
Theorem C44_label_by_kind : forall (C : crypto) (s label text data : bytes) (ws : list bytes) (lt : key_type) (c : cert),
  words_of s (label :: text :: ws) -> kt_from_name label = Ok lt ->
  b64_decode text = Some data -> cert_from_bytes C data = Ok c ->
  (kt_k lt = kt_k (ct_key_type c) -> cert_from_string C s = Ok (with_comment c (hd_error ws)))
  /\ (kt_k lt <> kt_k (ct_key_type c) -> cert_from_string C s = Err EKeyTypeMismatch).
Proof.
  intros C s label text data ws lt c Hw Hl Hb Hc. apply words_of_split in Hw. unfold cert_from_string.
  rewrite Hw. cbn [nth_error ok_or bind]. rewrite Hl. cbn [bind]. rewrite Hb. cbn [ok_or bind]. rewrite Hc. cbn [bind].
  cbn [with_comment ct_key_type]. replace (nth_error ws 0) with (hd_error ws) by (destruct ws; reflexivity).
  destruct (kt_kind_eqb (kt_k (ct_key_type c)) (kt_k lt)) eqn:E; cbn [negb].
  - apply kt_kind_eqb_eq in E. split; [reflexivity|congruence].
  - split; [|reflexivity]. intros X. rewrite X, kt_kind_eqb_refl in E. discriminate.
Qed.
Print Assumptions C44_label_by_kind.

Theorem C44_unknown_label : forall (C : crypto) (s label : bytes) (ws : list bytes),
  words_of s (label :: ws) -> (forall kt, kt_from_name label <> Ok kt) ->
  cert_from_string C s = Err (EUnknownKeyType label).
Proof.
  intros C s label ws Hw Hl. apply words_of_split in Hw. unfold cert_from_string.
  rewrite Hw. cbn [nth_error ok_or bind]. rewrite (kt_from_name_err _ Hl). reflexivity.
Qed.
Print Assumptions C44_unknown_label.

(** Everything [from_string] accepts. *)
Theorem C44_accepts_exactly : forall (C : crypto) (s : bytes) (c : cert), utf8_text s ->
  cert_from_string C s = Ok c <->
  exists label text ws lt data c0,
    words_of s (label :: text :: ws) /\ kt_from_name label = Ok lt /\ b64_decode text = Some data
    /\ cert_from_bytes C data = Ok c0 /\ kt_k lt = kt_k (ct_key_type c0)
    /\ c = with_comment c0 (hd_error ws).
Proof.
  intros C s c Hu. split.
  - intros H. pose proof (split_whitespace_words s Hu) as Hw. unfold cert_from_string in H.
    destruct (split_whitespace s) as [|label [|text ws]].
    + discriminate.
    + cbn [nth_error ok_or bind] in H. destruct (kt_from_name label); discriminate.
    + cbn [nth_error ok_or bind] in H. destruct (kt_from_name label) as [lt|e|] eqn:El; try discriminate. cbn [bind] in H.
      destruct (b64_decode text) as [data|] eqn:Eb; [|discriminate]. cbn [ok_or bind] in H.
      destruct (cert_from_bytes C data) as [c0|e|] eqn:Ec; try discriminate. cbn [bind with_comment ct_key_type] in H.
      destruct (kt_kind_eqb (kt_k (ct_key_type c0)) (kt_k lt)) eqn:Ek; [|discriminate]. cbn [negb] in H.
      apply kt_kind_eqb_eq in Ek. exists label, text, ws, lt, data, c0.
      repeat (split; [first [assumption|reflexivity|congruence]|]).
      replace (hd_error ws) with (nth_error ws 0) by (destruct ws; reflexivity). apply ok_inj in H. symmetry. exact H.
  - intros (label & text & ws & lt & data & c0 & Hw & Hl & Hb & Hc & Hk & ->).
    apply (C44_label_by_kind C s label text data ws lt c0); assumption.
Qed.
Print Assumptions C44_accepts_exactly.

(** The label need not be the type in the blob: the hardware-key label is taken for
    another type of the same kind. *)
Theorem C44_label_is_type_refuted : exists C s label c,
  words_of s (label :: [b64_encode (ct_serialized c)]) /\ cert_from_string C s = Ok c
  /\ label <> kt_name (ct_key_type c).
Proof.
  set (sk := mkPubKey (mkKeyType (s2b "sk-ssh-ed25519@openssh.com") (s2b "ED25519-SK") false true
    KEd25519 (s2b "sk-ssh-ed25519@openssh.com")) (PkEd25519 [x61] (Some (s2b "ssh:"))) None).
  set (r := do? c <- builder (Some [xaa]) (Some []) sk Host ex_ca; add_signature lax_crypto (fun m => m) c ex_sig).
  set (d := match r with Ok c => ct_serialized c | _ => [] end).
  set (c := match cert_from_bytes lax_crypto d with Ok c => c | _ => mkCert ed_type [] ex_ca 0 User [] [] 0 0 [] [] [] ex_ca [] None [] end).
  exists lax_crypto, (s2b "ssh-ed25519 " ++ b64_encode d), (s2b "ssh-ed25519"), c.
  split; [|split; [vm_compute; reflexivity|vm_compute; discriminate]].
  apply split_whitespace_iff; [apply utf8_valid_iff; vm_compute; reflexivity|]. vm_compute. reflexivity.
Qed.
Print Assumptions C44_label_is_type_refuted.

Example C44_case : exists s, 
  cert_from_string lax_crypto (s2b "ssh-rsa-cert-v01@openssh.com " ++ s) = Err EKeyTypeMismatch
  /\ (exists c, cert_from_string lax_crypto (s2b "ssh-ed25519-cert-v01@openssh.com " ++ s ++ s2b " note more") = Ok c
       /\ ct_comment c = Some (s2b "note"))
  /\ cert_from_string lax_crypto (s2b "ssh-dss " ++ s) = Err (EUnknownKeyType (s2b "ssh-dss")).
Proof. exists (b64_encode ex_data). split; [vm_compute; reflexivity|]. split; [eexists; split; vm_compute; reflexivity|vm_compute; reflexivity]. Qed.

(** ** C42 *)
Theorem C42_text_round_trip : forall (C : crypto) (data : bytes) (c : cert) (ws : list bytes),
  cert_from_bytes C data = Ok c -> words_of (ct_key_id c) ws ->
  cert_from_string C (cert_display c) = Ok (with_comment c (hd_error ws)).
Proof.
  intros C data c ws H Hw. pose proof H as H0. apply cert_from_bytes_iff in H. destruct H as (sp & post & Hc & Hd & _ & _ & _ & Hser).
  assert (Hkt : known (ct_key_type c)) by (destruct Hc as (? & ? & ? & ? & ? & Hkt & _); exact Hkt).
  assert (Hne : data <> []).
  { intros E. apply core_length in Hc. rewrite E in Hd. apply f_equal with (f := @length byte) in Hd.
    rewrite app_length in Hd. cbn [length] in Hd. lia. }
  assert (Wt : word (kt_name (ct_key_type c))) by apply known_word, Hkt.
  assert (Wd : word (b64_encode data)) by apply b64_encode_word, Hne.
  apply (C44_label_by_kind C (cert_display c) (kt_name (ct_key_type c)) (b64_encode data) data ws (ct_key_type c) c).
  - unfold cert_display. rewrite Hser. change [space] with [x20].
    apply (W_cons [] (kt_name (ct_key_type c)) 32 [x20]); [constructor|exact Wt|apply space_char|apply space_ws|].
    apply (W_cons [] (b64_encode data) 32 [x20]); [constructor|exact Wd|apply space_char|apply space_ws|exact Hw].
  - apply known_name_ok, Hkt.
  - apply b64_decode_encode.
  - exact H0.
  - reflexivity.
Qed.
Print Assumptions C42_text_round_trip.

(** A parsed key id is always a sequence of words. *)
Theorem C42_key_id_words : forall (C : crypto) (data : bytes) (c : cert),
  cert_from_bytes C data = Ok c -> exists ws, words_of (ct_key_id c) ws.
Proof.
  intros C data c H. apply C35_valid_signature in H. destruct H as (sp & rest & _ & Hs & _).
  destruct Hs as (kd & pb & co & cb & ex & eb & skd & skpost & _ & _ & _ & _ & _ & _ & _ & _ & Hid & _).
  exists (split_whitespace (ct_key_id c)). apply split_whitespace_words, Hid.
Qed.
Print Assumptions C42_key_id_words.

Example C42_case : exists c, cert_from_bytes lax_crypto ex_data = Ok c
  /\ words_of (ct_key_id c) [s2b "alice"; s2b "laptop"]
  /\ cert_from_string lax_crypto (cert_display c) = Ok (with_comment c (Some (s2b "alice"))).
Proof.
  eexists. split; [vm_compute; reflexivity|]. split; [|vm_compute; reflexivity].
  apply split_whitespace_iff; [apply utf8_valid_iff; vm_compute; reflexivity|]. vm_compute. reflexivity.
Qed.

(** ** C43 *)
Definition with_serialized (c : cert) (b : bytes) : cert :=
  mkCert (ct_key_type c) (ct_nonce c) (ct_key c) (ct_serial c) (ct_cert_type c) (ct_key_id c)
    (ct_principals c) (ct_valid_after c) (ct_valid_before c) (ct_critical_options c)
    (ct_extensions c) (ct_reserved c) (ct_signature_key c) (ct_signature c) (ct_comment c) b.

Theorem C43_kept_verbatim : forall (C : crypto) (data : bytes) (c : cert),
  cert_from_bytes C data = Ok c ->
  ct_serialized c = data
  /\ forall suffix, cert_from_bytes C (data ++ suffix) = Ok (with_serialized c (data ++ suffix)).
Proof.
  intros C data c H. apply cert_from_bytes_iff in H. destruct H as (sp & post & Hc & Hd & Hf & Ha & Hcm & Hser).
  split; [exact Hser|]. intros suffix. apply cert_from_bytes_iff. exists sp, (post ++ suffix).
  split; [exact Hc|]. split; [rewrite Hd, <- !app_assoc; reflexivity|]. auto.
Qed.
Print Assumptions C43_kept_verbatim.

Example C43_case : exists c c', cert_from_bytes lax_crypto ex_data = Ok c /\ ct_serialized c = ex_data
  /\ cert_from_bytes lax_crypto (ex_data ++ [x00; x01]) = Ok c' /\ ct_serialized c' = ex_data ++ [x00; x01].
Proof. do 2 eexists. repeat (split; [vm_compute; reflexivity|]). vm_compute. reflexivity. Qed.

(** So the serialised bytes of an accepted certificate are not determined by its fields. *)
Theorem C43_canonical_refuted : exists C d d' c c',
  cert_from_bytes C d = Ok c /\ cert_from_bytes C d' = Ok c' /\ same_signed_fields c c'
  /\ ct_signature c = ct_signature c' /\ d <> d'.
Proof.
  destruct C35_case as (c & H & _). exists lax_crypto, ex_data, (ex_data ++ [x00]), c, (with_serialized c (ex_data ++ [x00])).
  split; [exact H|]. split; [apply C43_kept_verbatim, H|]. split; [repeat split; auto|].
  split; [reflexivity|]. vm_compute. discriminate.
Qed.
Print Assumptions C43_canonical_refuted.

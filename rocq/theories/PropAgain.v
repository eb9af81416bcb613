(** Property C135: what was read is written, read and written again. *)
From Coq Require Import Lia.
From Verif Require Import Base BaseFacts Utf8 Utf8Facts Str StrFacts SpecWire SpecText SpecBase64 SpecKeys Base64 Base64Facts
  KeyType KeyTypeFacts PubKeyType Writer WriterFacts Crypto PubKey PubKeyFacts PropPubKey Cert CertFacts SpecCert
  TbsFacts PropCert PropCertText PrivKey SpecPrivKey PrivKeyFacts PropPrivKey WireFacts.

Lemma all_words s ws : words_of s ws -> Forall word ws.
Proof. induction 1; repeat constructor; auto; apply H0. Qed.

(** ** C135 *)
(** A public key that was read is printed; the printed text gives the same key, comment included, or for a
    certificate's type name the error that label and data differ. *)
Theorem C135_public_key : forall (t : bytes) (k : pubkey), utf8_text t -> pk_from_string t = Ok k ->
  exists u, pk_display k = Ok u
    /\ (kt_plain (pk_type k) = kt_name (pk_type k) -> pk_from_string u = Ok k)
    /\ (kt_plain (pk_type k) <> kt_name (pk_type k) -> pk_from_string u = Err EKeyTypeMismatch).
Proof.
  intros t k U H. pose proof (split_whitespace_words t U) as W. pose proof (all_words _ _ W) as Ww. pose proof (C24_label_matches_blob t _ W) as L.
  destruct (split_whitespace t) as [|label [|b64 more]] eqn:Es; [unfold pk_from_string in H; rewrite Es in H; discriminate..|].
  destruct L as [L _]. apply L in H. destruct H as (_ & S & Ec & pad & data & post & D & _).
  destruct (C23_text_round_trip k (pk_kind k) data (pk_comment k) S) as (u & Du & R); [destruct (pk_kind k); cbn; auto|exact D| |].
  - destruct (pk_comment k) as [c|]; [|reflexivity]. exists [c]. split; [|reflexivity]. apply (W_last [] c); [constructor|].
    destruct more as [|m more]; [discriminate|]. injection Ec as ->. inversion Ww as [|? ? _ W2]. inversion W2 as [|? ? _ W3]. inversion W3; assumption.
  - exists u. split; [exact Du|]. rewrite R. split; intros E.
    + rewrite E, bytes_eqb_refl. destruct k; reflexivity.
    + destruct (bytes_eqb _ _) eqn:B; [|reflexivity]. apply bytes_eqb_eq in B. congruence.
Qed.
Print Assumptions C135_public_key.

(** A certificate that was read is printed; the printed text gives the same certificate but for the comment,
    and that prints the same text again. *)
Theorem C135_certificate : forall (C : crypto) (t : bytes) (c : cert), utf8_text t -> cert_from_string C t = Ok c ->
  exists comment, cert_from_string C (cert_display c) = Ok (with_comment c comment)
    /\ cert_display (with_comment c comment) = cert_display c
    /\ cert_from_string C (cert_display (with_comment c comment)) = Ok (with_comment c comment).
Proof.
  intros C t c U H. apply C44_accepts_exactly in H; [|exact U]. destruct H as (label & text & ws & lt & data & c0 & _ & _ & _ & Hc & _ & ->).
  destruct (C42_key_id_words C data c0 Hc) as (ks & Hk). exists (hd_error ks).
  pose proof (C42_text_round_trip C data c0 ks Hc Hk) as R. split; [exact R|]. split; [reflexivity|]. exact R.
Qed.
Print Assumptions C135_certificate.

(** A private key that was read, from an encrypted file or not, is written without encryption. Any passphrase
    reads it back, unchanged but for the reserved field of a hardware key, which comes back empty; then the
    same text is written. *)
Definition reserved_dropped (h : hw_priv) : hw_priv := mkHw (hw_flags h) (hw_handle h) [] (hw_pin h) (hw_device_path h).
Definition as_stored (k : privkey) : privkey :=
  mkPrivKey (sk_type k)
    match sk_kind k with
    | SkEcdsaSk h => SkEcdsaSk (reserved_dropped h)
    | SkEd25519Sk h => SkEd25519Sk (reserved_dropped h)
    | kind => kind
    end (sk_pub k) (sk_magic k) (sk_comment k).
Lemma as_stored_plain k : plain_reserved k -> as_stored k = k.
Proof.
  intros P. destruct k as [t kind p m c]. unfold as_stored. cbn [sk_type sk_kind sk_pub sk_magic sk_comment]. unfold plain_reserved, hardware in P. cbn [sk_kind] in P.
  destruct kind as [r|cu key|h|key|h]; try reflexivity.
  - specialize (P h (or_introl eq_refl)). destruct h. cbn in P. subst. reflexivity.
  - specialize (P h (or_intror eq_refl)). destruct h. cbn in P. subst. reflexivity.
Qed.
Lemma stored_data F k b : priv_data F k b -> exists b', priv_data F (as_stored k) b' /\ length b' <= length b.
Proof.
  intros (kt & s & H1 & H2 & H3 & H4 & H5 & H6 & H7 & H8 & ->).
  assert (G : exists s', secret_data F kt (pk_kind (sk_pub (as_stored k))) (sk_kind (as_stored k)) s' /\ length s' <= length s).
  { unfold as_stored. cbn [sk_pub sk_kind]. assert (E : field_ok []) by (cbv; discriminate).
    destruct H6; [eexists; split; [econstructor; eassumption|lia]..| |].
    - eexists. split; [apply SD_ecdsa_sk; eassumption|]. cbn [hw_reserved hw_handle hw_flags]. rewrite !app_length, !field_length. cbn [length]. lia.
    - eexists. split; [apply SD_ed25519_sk; eassumption|]. cbn [hw_reserved hw_handle hw_flags]. rewrite !app_length, !field_length. cbn [length]. lia. }
  destruct G as (s' & G & L). eexists. split.
  - exists kt, s'. do 3 (split; [assumption|]). split; [exact H4|]. split; [exact H5|]. split; [exact G|]. split; [exact H7|]. split; [exact H8|reflexivity].
  - change (sk_comment (as_stored k)) with (sk_comment k). rewrite !app_length. lia.
Qed.
Theorem C135_private_key : forall (F : features) (K : keyops) (t : bytes) (pass : option bytes) (k : privkey),
  sk_from_string F K t pass = Ok k ->
  (forall section, section_of F k [] section -> (size section + 7 <= u32_max)%N) ->
  exists u, sk_write k = Ok u
    /\ (forall pass', sk_from_string F K u pass' = Ok (as_stored k))
    /\ sk_write (as_stored k) = Ok u
    /\ (plain_reserved k -> forall pass', sk_from_string F K u pass' = Ok k).
Proof.
  intros F K t pass k H B. apply C55_accepted_files in H. destruct H as (data & _ & H).
  destruct H as (ci & kd & op & post & pub & se & plain & pad & tl & _ & _ & _ & _ & _ & Hp & Fp & _ & _ & _ & Hs & _).
  destruct Hs as (M & b & D & _). destruct (stored_data F k b D) as (b' & D' & L).
  assert (S : storable F (as_stored k)).
  { destruct Hp as (kb & Kd & ->). exists (field (kt_name (pk_type (sk_pub k))) ++ kb ++ []), (be32 (sk_magic k) ++ be32 (sk_magic k) ++ b' ++ []).
    split; [exists kb; split; [exact Kd|reflexivity]|]. split.
    - rewrite app_nil_r. rewrite !app_assoc in Fp. unfold field_ok, size in *. rewrite app_length in Fp. lia.
    - split; [split; [exact M|]; exists b'; split; [exact D'|reflexivity]|].
      specialize (B (be32 (sk_magic k) ++ be32 (sk_magic k) ++ b ++ [])).
      assert (X : section_of F k [] (be32 (sk_magic k) ++ be32 (sk_magic k) ++ b ++ [])) by (split; [exact M|]; exists b; split; [exact D|reflexivity]).
      specialize (B X). unfold size in *. rewrite !app_length in *. lia. }
  assert (Sm : same_material (pk_kind (sk_pub k)) (pk_kind (sk_pub k))) by (destruct (pk_kind (sk_pub k)); cbn; auto).
  assert (K1 : kept k (as_stored k)).
  { unfold kept, as_stored. cbn [sk_pub sk_kind sk_magic sk_comment]. split; [reflexivity|]. split; [exact Sm|]. split; [|auto].
    destruct (sk_kind k); cbn; auto 8. }
  assert (K2 : kept (as_stored k) (as_stored k)).
  { unfold kept, as_stored. cbn [sk_pub sk_kind sk_magic sk_comment]. split; [reflexivity|]. split; [exact Sm|]. split; [|auto].
    destruct (sk_kind k); cbn; auto 8. }
  destruct (C53_text_round_trip F K None k (as_stored k) S K1) as (u & W & _).
  assert (R : forall pass', sk_from_string F K u pass' = Ok (as_stored k)).
  { intros pass'. destruct (C53_text_round_trip F K pass' k (as_stored k) S K1) as (u' & W' & R). rewrite W in W'. apply ok_inj in W'. subst u'. exact R. }
  exists u. split; [exact W|]. split; [exact R|]. split.
  - rewrite <- W. unfold sk_write. f_equal. unfold sk_encode, write_section, write_priv_kind, as_stored. cbn [sk_pub sk_kind sk_magic sk_comment sk_type].
    destruct (sk_kind k); reflexivity.
  - intros P pass'. rewrite R. f_equal. apply as_stored_plain, P.
Qed.
Print Assumptions C135_private_key.

(** ** Exceptions and examples *)
(** Only the first rewriting changes the text: further words are lost. *)
Theorem C135_first_text_kept_refuted : exists (t u : bytes) (k : pubkey),
  pk_from_string t = Ok k /\ pk_display k = Ok u /\ length u < length t.
Proof.
  exists (match pk_display ex_ca with Ok u => u ++ s2b " me too" | _ => [] end). eexists _, _.
  split; [vm_compute; reflexivity|]. split; [vm_compute; reflexivity|]. vm_compute. repeat constructor.
Qed.
Print Assumptions C135_first_text_kept_refuted.

(** Writing a key that was read from an encrypted file takes the encryption off. *)
Definition ex_encrypted : bytes :=
  key_begin ++ [x0a] ++ b64_encode (key_file (s2b "aes256-ctr") (s2b "bcrypt") (field (s2b "salt") ++ be32 16) (enc_key (sk_pub ex_ed))
    (enc_section ex_ed ++ [x01; x02])) ++ [x0a] ++ key_end ++ [x0a].
Theorem C135_stays_encrypted_refuted : exists (F : features) (K : keyops) (t u : bytes) (k : privkey),
  sk_from_string F K t (Some (s2b "secret")) = Ok k /\ sk_from_string F K t None = Err EEncryptedPrivateKey
  /\ sk_write k = Ok u /\ sk_from_string F K u None = Ok k.
Proof.
  exists ex_features, ex_ops, ex_encrypted. eexists _, _. split; [vm_compute; reflexivity|]. split; [vm_compute; reflexivity|].
  split; [vm_compute; reflexivity|]. vm_compute. reflexivity.
Qed.
Print Assumptions C135_stays_encrypted_refuted.
(** The reserved field is lost. *)
Theorem C135_reserved_kept_refuted : exists (F : features) (K : keyops) (t u : bytes) (k : privkey),
  sk_from_string F K t None = Ok k /\ sk_write k = Ok u /\ sk_from_string F K u None <> Ok k.
Proof.
  exists ex_features, ex_ops, (key_begin ++ [x0a] ++ b64_encode ex_reserved_file ++ [x0a] ++ key_end ++ [x0a]). eexists. exists ex_hw_reserved.
  split; [vm_compute; reflexivity|]. split; [vm_compute; reflexivity|]. vm_compute. discriminate.
Qed.
Print Assumptions C135_reserved_kept_refuted.

Example C135_case : sk_from_string ex_features ex_ops ex_encrypted (Some (s2b "secret")) = Ok ex_ed
  /\ (forall section, section_of ex_features ex_ed [] section -> (size section + 7 <= u32_max)%N) /\ plain_reserved ex_ed.
Proof.
  split; [vm_compute; reflexivity|]. split.
  - intros s H. apply section_of_iff in H. destruct H as (_ & _ & ->). vm_compute. discriminate.
  - intros h [H|H]; discriminate.
Qed.
Example C135_case_texts : exists t k c, pk_display (mkPubKey (pk_type ex_ca) (pk_kind ex_ca) (Some (s2b "me too"))) = Ok t
  /\ pk_from_string t = Ok k /\ pk_comment k = Some (s2b "me") /\ kt_plain (pk_type k) = kt_name (pk_type k)
  /\ cert_from_bytes lax_crypto ex_data = Ok c
  /\ cert_from_string lax_crypto (cert_display c) = Ok (with_comment c (Some (s2b "alice"))).
Proof. eexists _, _, _. do 3 (split; [vm_compute; reflexivity|]). split; [reflexivity|]. split; [vm_compute; reflexivity|]. vm_compute. reflexivity. Qed.

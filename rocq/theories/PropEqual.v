(** Property C119: what equality of keys and certificates tells. *)
From Verif Require Import Base BaseFacts Str SpecWire SpecKeys SpecCert SpecPrivKey KeyType KeyTypeFacts PubKeyType Crypto PubKey PubKeyFacts
  Cert CertFacts SshSigFacts TbsFacts PrivKey PrivKeyFacts PropCert PropCertText PropPrivKey Equal.
From Coq Require Import Permutation.

Lemma texts_eqb_eq a : forall b, texts_eqb a b = true <-> a = b.
Proof.
  induction a as [|x a IH]; intros [|y b]; cbn [texts_eqb]; try (split; intros; congruence).
  rewrite andb_true_iff, bytes_eqb_eq, IH. split; [intros [-> ->]; reflexivity|intros E; injection E; auto].
Qed.
Lemma cert_type_eqb_eq a b : cert_type_eqb a b = true <-> a = b.
Proof. destruct a, b; cbn; split; congruence. Qed.

(** Maps are equal when they have the same entries, in whatever order they were filled. *)
Theorem C119_maps : forall a b : list (bytes * bytes), NoDup (map fst a) -> NoDup (map fst b) ->
  (hm_eqb a b = true <-> same_map a b).
Proof.
  intros a b Na Nb. unfold hm_eqb, same_map. rewrite andb_true_iff, Nat.eqb_eq, forallb_forall.
  assert (Da : NoDup a) by (eapply NoDup_map_inv; exact Na). assert (Db : NoDup b) by (eapply NoDup_map_inv; exact Nb).
  assert (G : forall e, (match hm_get (fst e) b with Some v => bytes_eqb (snd e) v | None => false end) = true <-> In e b).
  { intros [k v]. cbn [fst snd]. rewrite <- (hm_get_in k b v Nb). destruct (hm_get k b) as [w|]; [|split; discriminate].
    rewrite bytes_eqb_eq. split; [intros ->; reflexivity|intros E; injection E; auto]. }
  split.
  - intros [L H]. assert (I : incl a b) by (intros e He; apply G, H, He).
    assert (J : incl b a) by (apply NoDup_length_incl; [exact Da|rewrite L; lia|exact I]). intros k v. split; [apply I|apply J].
  - intros H. assert (I : incl a b) by (intros [k v]; apply H). assert (J : incl b a) by (intros [k v]; apply H). split.
    + apply Nat.le_antisymm; apply NoDup_incl_length; assumption.
    + intros e He. apply G, I, He.
Qed.
Print Assumptions C119_maps.

(** Certificates are equal when all they hold is equal, the bytes kept for export included. *)
Theorem C119_certificates : forall a b : cert,
  NoDup (map fst (ct_critical_options a)) -> NoDup (map fst (ct_critical_options b)) ->
  NoDup (map fst (ct_extensions a)) -> NoDup (map fst (ct_extensions b)) ->
  (cert_eqb a b = true <->
   same_signed_fields a b /\ ct_signature a = ct_signature b /\ ct_comment a = ct_comment b /\ ct_serialized a = ct_serialized b).
Proof.
  intros a b N1 N2 N3 N4. unfold cert_eqb, same_signed_fields.
  rewrite !andb_true_iff, key_type_eqb_eq, !bytes_eqb_eq, !pubkey_eqb_eq, !N.eqb_eq, cert_type_eqb_eq, texts_eqb_eq, opt_bytes_eqb_eq,
    (C119_maps _ _ N1 N2), (C119_maps _ _ N3 N4). tauto.
Qed.
Print Assumptions C119_certificates.

Lemma read_nodup C d c : cert_from_bytes C d = Ok c ->
  NoDup (map fst (ct_critical_options c)) /\ NoDup (map fst (ct_extensions c)).
Proof.
  intros H. destruct (C35_valid_signature C d c H) as (sp & post & _ & S & _).
  destruct S as (kd & pb & co & cb & ex & eb & skd & skpost & _ & _ & _ & _ & _ & _ & _ & _ & _ & _ & _ & _ & _ & _ & _ & M1 & _ & _ & M2 & _).
  split; [apply M1|apply M2].
Qed.
Lemma string_read C t c : cert_from_string C t = Ok c -> exists d c0 m, cert_from_bytes C d = Ok c0 /\ c = with_comment c0 m.
Proof.
  unfold cert_from_string. cbv zeta. intros H. apply bind_ok in H as (o & _ & H). apply bind_ok in H as (kt & _ & H).
  apply bind_ok in H as (data & _ & H). apply bind_ok in H as (d & _ & H). apply bind_ok in H as (c0 & H0 & H).
  destruct (negb _); [discriminate|]. apply ok_inj in H. eauto.
Qed.
(** For certificates that were read that means: equal bytes and equal comments. *)
Theorem C119_read_certificates : forall (C : crypto) (t u : bytes) (a b : cert),
  cert_from_string C t = Ok a -> cert_from_string C u = Ok b ->
  (cert_eqb a b = true <-> ct_serialized a = ct_serialized b /\ ct_comment a = ct_comment b).
Proof.
  intros C t u a b A B. apply string_read in A as (d & a0 & m & A & ->), B as (e & b0 & n & B & ->).
  destruct (read_nodup _ _ _ A) as [A1 A2], (read_nodup _ _ _ B) as [B1 B2].
  pose proof (proj1 (C43_kept_verbatim _ _ _ A)) as Sa. pose proof (proj1 (C43_kept_verbatim _ _ _ B)) as Sb.
  rewrite C119_certificates by assumption. split; [tauto|]. cbn [ct_serialized ct_comment with_comment]. intros [E ->].
  assert (X : d = e) by (rewrite <- Sa, <- Sb; exact E). rewrite <- X, A in B. apply ok_inj in B. subst b0.
  split; [|auto]. unfold same_signed_fields, same_map. cbn [with_comment ct_key_type ct_nonce ct_key ct_serial ct_cert_type ct_key_id ct_principals
    ct_valid_after ct_valid_before ct_critical_options ct_extensions ct_reserved ct_signature_key]. tauto.
Qed.
Print Assumptions C119_read_certificates.

(** Public keys that were read are equal when their types, encodings and comments are. *)
Lemma string_key_ok t k : pk_from_string t = Ok k -> key_ok (no_comment k).
Proof.
  intros H. destruct (split_whitespace t) as [|w1 [|w2 ws]] eqn:E.
  - unfold pk_from_string in H. rewrite E in H. discriminate.
  - unfold pk_from_string in H. cbv zeta in H. rewrite E in H. cbn [nth_error ok_or bind] in H.
    discriminate.
  - apply (pk_from_string_words _ _ _ _ k E) in H. apply H.
Qed.
Theorem C119_read_public_keys : forall (t u : bytes) (j k : pubkey),
  pk_from_string t = Ok j -> pk_from_string u = Ok k ->
  (pubkey_eqb j k = true <-> pk_type j = pk_type k /\ pk_encode j = pk_encode k /\ pk_comment j = pk_comment k).
Proof.
  intros t u j k J K. apply string_key_ok in J as (J1 & _ & J3), K as (K1 & _ & K3). rewrite pubkey_eqb_eq.
  unfold no_comment in *. cbn in J1, J3, K1, K3. split; [intros ->; auto|]. intros (T & E & M).
  rewrite !pk_encode_enc in E by (rewrite ?(canon_ok _ _ J3), ?(canon_ok _ _ K3); auto).
  rewrite (canon_ok _ _ J3), (canon_ok _ _ K3) in E. apply ok_inj in E. rewrite <- T in *. apply app_inv_head in E.
  destruct (enc_kind_inj (pk_type j) _ _ [] [] J3 K3) as [Q _]; [rewrite !app_nil_r; exact E|].
  destruct j, k. cbn in T, Q, M. subst. reflexivity.
Qed.
Print Assumptions C119_read_public_keys.

(** Private keys are equal when nothing differs, PIN, device path and check integer included. *)
Lemma hw_eqb_eq a b : hw_eqb a b = true <-> a = b.
Proof.
  unfold hw_eqb. rewrite !andb_true_iff, byte_eqb_eq, !bytes_eqb_eq, !opt_bytes_eqb_eq. destruct a, b; cbn.
  split; [intros ((((-> & ->) & ->) & ->) & ->); reflexivity|intros E; injection E; intros; subst; auto].
Qed.
Theorem C119_private_keys : forall j k : privkey, privkey_eqb j k = true <-> j = k.
Proof.
  assert (R : forall a b, rsa_priv_eqb a b = true <-> a = b).
  { intros a b. unfold rsa_priv_eqb. rewrite !andb_true_iff, !bytes_eqb_eq, !opt_bytes_eqb_eq. destruct a, b; cbn.
    split; [intros (((((((-> & ->) & ->) & ->) & ->) & ->) & ->) & ->); reflexivity|intros E; injection E; intros; subst; auto 12]. }
  assert (Q : forall a b, priv_kind_eqb a b = true <-> a = b).
  { intros [r|c k|h|k|h] [r'|c' k'|h'|k'|h']; cbn [priv_kind_eqb]; try (split; discriminate).
    - rewrite R. split; [intros ->; reflexivity|intros E; injection E; auto].
    - rewrite andb_true_iff, curve_eqb_eq, bytes_eqb_eq. split; [intros [-> ->]; reflexivity|intros E; injection E; auto].
    - rewrite hw_eqb_eq. split; [intros ->; reflexivity|intros E; injection E; auto].
    - rewrite bytes_eqb_eq. split; [intros ->; reflexivity|intros E; injection E; auto].
    - rewrite hw_eqb_eq. split; [intros ->; reflexivity|intros E; injection E; auto]. }
  intros j k. unfold privkey_eqb. rewrite !andb_true_iff, key_type_eqb_eq, Q, pubkey_eqb_eq, N.eqb_eq, bytes_eqb_eq. destruct j, k; cbn.
  split; [intros ((((-> & ->) & ->) & ->) & ->); reflexivity|intros E; injection E; intros; subst; auto].
Qed.
Print Assumptions C119_private_keys.

(** A key that is written and read again is equal to what it was ... *)
Theorem C119_written_and_read : forall (F : features) (K : keyops) (pass : option bytes) (k : privkey),
  storable F k -> plain_reserved k ->
  exists text k', sk_write k = Ok text /\ sk_from_string F K text pass = Ok k' /\ privkey_eqb k k' = true.
Proof.
  intros F K pass k S R. assert (Kk : kept k k).
  { destruct S as (pub & sec & _ & _ & (_ & b & D & _) & _). eapply C52_parsed_keys_kept; eauto. }
  destruct (C53_text_round_trip F K pass k k S Kk) as (text & W & Rd). exists text, k.
  split; [exact W|]. split; [exact Rd|]. apply C119_private_keys. reflexivity.
Qed.
Print Assumptions C119_written_and_read.
(** ... but the same secret in two files need not give equal keys, *)
Theorem C119_same_secret_equal_refuted : exists (F : features) (K : keyops) (t u : bytes) (j k : privkey),
  sk_from_string F K t None = Ok j /\ sk_from_string F K u None = Ok k
  /\ sk_kind j = sk_kind k /\ sk_pub j = sk_pub k /\ sk_comment j = sk_comment k /\ privkey_eqb j k = false.
Proof.
  set (other := mkPrivKey (sk_type ex_ed) (sk_kind ex_ed) (sk_pub ex_ed) 9 (sk_comment ex_ed)).
  destruct (sk_write ex_ed) as [t| |] eqn:T; [|vm_compute in T; discriminate|vm_compute in T; discriminate].
  destruct (sk_write other) as [u| |] eqn:U; [|vm_compute in U; discriminate|vm_compute in U; discriminate].
  exists ex_features, ex_ops, t, u, ex_ed, other.
  split; [vm_compute in T; injection T as <-; vm_compute; reflexivity|].
  split; [vm_compute in U; injection U as <-; vm_compute; reflexivity|]. repeat split; reflexivity.
Qed.
Print Assumptions C119_same_secret_equal_refuted.
(** and equal certificates need not give equal bytes to sign. *)
Theorem C119_same_bytes_to_sign_refuted : exists (iter : hashmap -> hashmap) (b c d : cert) (t u : bytes),
  (forall m, Permutation (iter m) m)
  /\ apply_ops b [OpExtension (s2b "x@example.com") []; OpExtension (s2b "y@example.com") []] = c
  /\ apply_ops b [OpExtension (s2b "y@example.com") []; OpExtension (s2b "x@example.com") []] = d
  /\ cert_eqb c d = true /\ tbs_certificate iter c = Ok t /\ tbs_certificate iter d = Ok u /\ t <> u.
Proof.
  destruct (cert_from_bytes lax_crypto ex_data) as [b| |] eqn:B; [|vm_compute in B; discriminate|vm_compute in B; discriminate].
  vm_compute in B. apply ok_inj in B. exists (fun m => m), b. do 4 eexists. split; [intros; apply Permutation_refl|].
  split; [reflexivity|]. split; [reflexivity|]. subst b. split; [vm_compute; reflexivity|].
  split; [vm_compute; reflexivity|]. split; [vm_compute; reflexivity|].
  intros E. vm_compute in E. discriminate E.
Qed.
Print Assumptions C119_same_bytes_to_sign_refuted.

Example C119_case : exists c, cert_from_bytes lax_crypto ex_data = Ok c /\ cert_eqb c c = true
  /\ cert_eqb c (apply_ops c [OpValidBefore 1]) = false /\ cert_eqb c (with_comment c (Some [])) = false
  /\ hm_eqb [(s2b "a", []); (s2b "b", [x01])] [(s2b "b", [x01]); (s2b "a", [])] = true
  /\ hm_eqb [(s2b "a", []); (s2b "b", [x01])] [(s2b "b", [x01]); (s2b "c", [])] = false.
Proof. eexists. repeat (split; [vm_compute; reflexivity|]). vm_compute. reflexivity. Qed.
Example C119_case_private : privkey_eqb ex_hw (set_pin (s2b "1") ex_hw) = false /\ storable ex_features ex_ed /\ plain_reserved ex_ed.
Proof.
  split; [reflexivity|]. split; [|intros h [H|H]; discriminate].
  apply ex_ed_storable.
Qed.

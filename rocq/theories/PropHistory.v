(** Theorems about everything that is ever accepted under a key (C141). *)
From Coq Require Import Permutation.
From Verif Require Import Base BaseFacts Utf8 Utf8Facts Str StrFacts SpecWire SpecText SpecBase64
  SpecKeys SpecSig SpecCert SpecSshSig SpecRenew SpecHistory Base64 Base64Facts Reader ReaderFacts KeyType
  KeyTypeFacts PubKeyType Writer WriterFacts WireFacts Crypto PubKey PubKeyFacts Signature
  SignatureFacts Cert CertFacts TbsFacts SshSigFacts PropCert PropIssue PropSshSig PropRenew PropEqual.

Lemma requestable_inv r : requestable r -> shaped r /\ well_typed r.
Proof.
  induction 1 as [r Hu Hw|C data r H|C t r H|r o _ [IH1 IH2] Ho|C iter r sg r' _ [IH1 IH2] H].
  - split; [apply under_construction_shaped, Hu|exact Hw].
  - apply cert_from_bytes_iff in H as (sp & post & Hc & _). split; [eapply core_shaped, Hc|eapply core_typed, Hc].
  - apply string_read in H as (d & c0 & m & H & ->). apply cert_from_bytes_iff in H as (sp & post & Hc & _).
    change (shaped c0 /\ well_typed c0). split; [eapply core_shaped, Hc|eapply core_typed, Hc].
  - split; [exact (shaped_ops r [o] IH1)|exact (typed_op o r Ho IH2)].
  - unfold add_signature in H. apply bind_ok in H as (tbs & _ & H). apply bind_ok in H as (w & _ & H). apply ok_inj in H. subst r'.
    split; assumption.
Qed.

Lemma strip_requested r a b : strip a = strip b -> as_requested r a -> as_requested r b.
Proof. intros E H. change (as_requested r (strip b)). rewrite <- E. exact H. Qed.

(** A use signed the bytes or it did not. *)
Lemma signs_dec C u m : digests_fit C -> within u -> {signs C u m} + {~ signs C u m}.
Proof.
  intros Hd Hw. destruct u as [iter r|ns h message|bs]; cbn [signs within] in *.
  - destruct (tbs_certificate iter r) as [t|e|]; [|right; discriminate..].
    destruct (bytes_dec t m) as [->|N]; [left; reflexivity|right; congruence].
  - pose proof (payload_iff C (mkSshSig ex_ca ns h []) message m Hw Hd) as P. cbn [ss_namespace ss_hash] in P.
    destruct (bytes_dec m (to_signed_format C (mkSshSig ex_ca ns h []) message)); [left|right]; rewrite P; assumption.
  - apply bytes_dec.
Qed.
Lemma signer_found C history m : digests_fit C -> Forall within history ->
  (exists u, In u history /\ signs C u m) \/ (forall u, In u history -> ~ signs C u m).
Proof.
  intros Hd. induction 1 as [|u l Hu Hl IH]; [right; intros u []|].
  destruct (signs_dec C u m Hd Hu) as [S|N]; [left; exists u; cbn; auto|].
  destruct IH as [(v & V1 & V2)|IH]; [left; exists v; cbn; auto|right]. intros v [<-|V]; auto.
Qed.

(** What a use signed, when the bytes are the signed part of a certificate. *)
Lemma signs_certificate C u c sp : within u -> core c sp -> signs C u sp ->
  (exists iter r, u = Issue iter r /\ as_requested r c) \/ u = SignBytes sp.
Proof.
  intros Hw Hc S. destruct u as [iter r|ns h message|bs]; cbn [within signs] in *.
  - left. exists iter, r. split; [reflexivity|]. destruct Hw as (P & Hr & Hs). apply requestable_inv in Hr as [Hr1 Hr2].
    destruct (shaped_tbs iter r P Hr1 Hr2 sp S (Hs _ S)) as (pk & pca & _ & A & B).
    destruct (core_prefix _ _ _ _ [] [] B Hc eq_refl) as (E & _ & _). eapply strip_requested; eassumption.
  - exfalso. eapply C45_domains_disjoint; [apply core_signed, Hc|exact S].
  - right. congruence.
Qed.
(** The same for the bytes that stand for a file. *)
Lemma signs_file C u ns h m p : digests_fit C -> within u -> field_ok ns -> payload C ns h m p -> signs C u p ->
  (exists m' d, u = SignFile ns h m' /\ digest_of C m' h d /\ digest_of C m h d) \/ u = SignBytes p.
Proof.
  intros Hd Hw Hn Hp S. destruct u as [iter r|ns' h' m'|bs]; cbn [within signs] in *.
  - exfalso. destruct Hw as (P & Hr & Hs). apply requestable_inv in Hr as [Hr1 Hr2].
    destruct (shaped_tbs iter r P Hr1 Hr2 p S (Hs _ S)) as (pk & pca & _ & A & B).
    eapply C45_domains_disjoint; [apply core_signed, B|exact Hp].
  - left. destruct S as (n1 & d1 & N1 & D1 & E1), Hp as (n2 & d2 & N2 & D2 & E2).
    destruct (C49_payload_injective C ns' ns h' h m' m p d1 d2 Hw Hn Hd D1 D2) as (-> & -> & ->).
    + exists n1, d1. auto.
    + exists n2, d2. auto.
    + exists m', d2. auto.
  - right. congruence.
Qed.

(** Every certificate that is accepted was asked for, field by field, in a use of the CA key; or
    its signed part was given to the key as bytes; or its signature is a forgery. *)
Theorem C141_certificate : forall (C : crypto) (history : list use) (data : bytes) (c : cert),
  digests_fit C -> Forall within history -> cert_from_bytes C data = Ok c ->
  exists sp rest, data = sp ++ field (ct_signature c) ++ rest /\ signed_part c sp
    /\ ((exists iter r, In (Issue iter r) history /\ tbs_certificate iter r = Ok sp /\ as_requested r c)
        \/ In (SignBytes sp) history
        \/ forged C history (ct_signature_key c) sp (ct_signature c)).
Proof.
  intros C history data c Hd Hw H. apply cert_from_bytes_iff in H as (sp & post & Hc & E & _ & Ha & _).
  exists sp, post. rewrite field_enc. split; [exact E|]. split; [apply core_signed, Hc|].
  destruct (signer_found C history sp Hd Hw) as [(u & U & S)|N].
  - rewrite Forall_forall in Hw. destruct (signs_certificate C u c sp (Hw _ U) Hc S) as [(iter & r & -> & A)| ->]; [|auto].
    left. exists iter, r. auto.
  - right. right. split; assumption.
Qed.
Print Assumptions C141_certificate.

(** The same for a certificate that is read from text. *)
Theorem C141_certificate_text : forall (C : crypto) (history : list use) (t : bytes) (c : cert),
  digests_fit C -> Forall within history -> cert_from_string C t = Ok c ->
  exists sp, signed_part c sp
    /\ ((exists iter r, In (Issue iter r) history /\ tbs_certificate iter r = Ok sp /\ as_requested r c)
        \/ In (SignBytes sp) history
        \/ forged C history (ct_signature_key c) sp (ct_signature c)).
Proof.
  intros C history t c Hd Hw H. apply string_read in H as (d & c0 & m & H & ->).
  destruct (C141_certificate C history d c0 Hd Hw H) as (sp & rest & _ & S & R). exists sp. split; [exact S|exact R].
Qed.
Print Assumptions C141_certificate_text.

(** Every file signature that is accepted was asked for: a file of the same digest, in the same
    namespace and with the same hash; or its payload was given to the key as bytes; or it is a
    forgery. *)
Theorem C141_file : forall (C : crypto) (history : list use) (m : bytes) (s : sshsig) (ns : bytes) (expected : option pubkey) (v : verified),
  digests_fit C -> Forall within history -> field_ok ns -> from_ssh_signature C m s ns expected = Ok v ->
  exists p, payload C ns (ss_hash s) m p
    /\ ((exists m' d, In (SignFile ns (ss_hash s) m') history /\ digest_of C m' (ss_hash s) d /\ digest_of C m (ss_hash s) d)
        \/ In (SignBytes p) history
        \/ forged C history (ss_pubkey s) p (ss_signature s)).
Proof.
  intros C history m s ns ex v Hd Hw Hn H.
  assert (En : ns = ss_namespace s).
  { unfold from_ssh_signature in H. match type of H with (if ?c then _ else _) = _ => destruct c; [discriminate|] end.
    match type of H with (if ?c then _ else _) = _ => destruct c eqn:E; [discriminate|] end. apply negb_false_iff, bytes_eqb_eq in E. auto. }
  apply C48_binds in H; [|rewrite <- En; exact Hn|exact Hd]. destruct H as (_ & _ & (p & Hp & Ha) & _).
  exists p. split; [exact Hp|]. destruct (signer_found C history p Hd Hw) as [(u & U & S)|N].
  - rewrite Forall_forall in Hw. destruct (signs_file C u ns _ m p Hd (Hw _ U) Hn Hp S) as [(m' & d & -> & A & B)| ->]; [|auto].
    left. exists m', d. auto.
  - right. right. split; assumption.
Qed.
Print Assumptions C141_file.

(** With a CA key that cannot be forged and that signed no bytes of unknown origin, the accepted
    certificates are the issued ones. *)
Theorem C141_only_issued : forall (C : crypto) (history : list use) (data : bytes) (c : cert),
  digests_fit C -> Forall within history -> (forall bs, ~ In (SignBytes bs) history) ->
  unforged C history (pk_kind (ct_signature_key c)) -> cert_from_bytes C data = Ok c ->
  exists iter r, In (Issue iter r) history /\ as_requested r c.
Proof.
  intros C history data c Hd Hw Hb Hu H.
  destruct (C141_certificate C history data c Hd Hw H) as (sp & rest & _ & _ & [(iter & r & I & _ & A)|[B|F]]).
  - eauto.
  - destruct (Hb _ B).
  - destruct (Hu _ _ _ eq_refl F).
Qed.
Print Assumptions C141_only_issued.

(** And the accepted file signatures are on signed files, when digests do not collide. *)
Theorem C141_only_signed : forall (C : crypto) (history : list use) (m : bytes) (s : sshsig) (ns : bytes) (expected : option pubkey) (v : verified),
  digests_fit C -> Forall within history -> (forall bs, ~ In (SignBytes bs) history) -> field_ok ns ->
  (forall h a b d, digest_of C a h d -> digest_of C b h d -> a = b) ->
  unforged C history (pk_kind (ss_pubkey s)) -> from_ssh_signature C m s ns expected = Ok v ->
  In (SignFile ns (ss_hash s) m) history.
Proof.
  intros C history m s ns ex v Hd Hw Hb Hn Hi Hu H.
  destruct (C141_file C history m s ns ex v Hd Hw Hn H) as (p & _ & [(m' & d & I & A & B)|[B|F]]).
  - rewrite (Hi _ _ _ _ B A). exact I.
  - destruct (Hb _ B).
  - destruct (Hu _ _ _ eq_refl F).
Qed.
Print Assumptions C141_only_signed.

(** A key that only signs files issues no certificate, and a key that only issues certificates
    signs no file. *)
Theorem C141_separate : forall (C : crypto) (history : list use),
  digests_fit C -> Forall within history -> (forall bs, ~ In (SignBytes bs) history) ->
  ((forall iter r, ~ In (Issue iter r) history) ->
     forall data c, cert_from_bytes C data = Ok c ->
     exists sp, signed_part c sp /\ forged C history (ct_signature_key c) sp (ct_signature c))
  /\ ((forall ns h m, ~ In (SignFile ns h m) history) ->
     forall m s ns expected v, field_ok ns -> from_ssh_signature C m s ns expected = Ok v ->
     exists p, payload C ns (ss_hash s) m p /\ forged C history (ss_pubkey s) p (ss_signature s)).
Proof.
  intros C history Hd Hw Hb. split.
  - intros N data c H. destruct (C141_certificate C history data c Hd Hw H) as (sp & rest & _ & S & [(iter & r & I & _)|[B|F]]).
    + destruct (N _ _ I).
    + destruct (Hb _ B).
    + eauto.
  - intros N m s ns ex v Hn H. destruct (C141_file C history m s ns ex v Hd Hw Hn H) as (p & P & [(m' & d & I & _)|[B|F]]).
    + destruct (N _ _ _ I).
    + destruct (Hb _ B).
    + eauto.
Qed.
Print Assumptions C141_separate.

Lemma foreign_certificate c sp : signed_part c sp -> ~ foreign sp.
Proof.
  intros H F. pose proof (signed_part_head _ _ H) as Hh. destruct F as [session rest L N|rest]; [|discriminate Hh].
  destruct H as (kd & pb & co & cb & ex & eb & skd & skpost & H1 & H2 & H). repeat match goal with H : _ /\ _ |- _ => destruct H end.
  match goal with H : _ ++ _ = field (kt_name _) ++ _ |- _ => apply field_inj in H; [destruct H as [E _]| |] end.
  - specialize (N (ct_key_type c)). rewrite E in N. rewrite (N H1) in H2. discriminate H2.
  - unfold field_ok, size, u32_max. lia.
  - apply kt_from_name_ok in H1. apply field_ok_fits, known_fits, H1.
Qed.
Lemma foreign_file C ns h m p : payload C ns h m p -> ~ foreign p.
Proof.
  intros H F. apply payload_head in H. destruct F as [session rest L _|rest]; [|discriminate H].
  unfold field in H. rewrite <- app_assoc in H.
  assert (B : hd x00 (be32 (size session) ++ session ++ x32 :: rest) = x00).
  { assert (Hs : (size session <= 64)%N) by (unfold size; lia). revert Hs. generalize (size session). intros n Hn.
    unfold be32. cbn [app hd]. f_equal. rewrite N.div_small by lia. reflexivity. }
  rewrite B in H. discriminate H.
Qed.

(** What the key signed in other protocols does not count: then, too, accepted certificates were issued
    and accepted file signatures were asked for, or they are forgeries. *)
Theorem C141_other_protocols : forall (C : crypto) (history : list use),
  digests_fit C -> Forall within history -> (forall bs, In (SignBytes bs) history -> foreign bs) ->
  (forall data c, cert_from_bytes C data = Ok c ->
     (exists iter r, In (Issue iter r) history /\ as_requested r c)
     \/ exists sp, signed_part c sp /\ forged C history (ct_signature_key c) sp (ct_signature c))
  /\ (forall m s ns expected v, field_ok ns -> from_ssh_signature C m s ns expected = Ok v ->
     (exists m' d, In (SignFile ns (ss_hash s) m') history /\ digest_of C m' (ss_hash s) d /\ digest_of C m (ss_hash s) d)
     \/ exists p, payload C ns (ss_hash s) m p /\ forged C history (ss_pubkey s) p (ss_signature s)).
Proof.
  intros C history Hd Hw Hb. split.
  - intros data c H. destruct (C141_certificate C history data c Hd Hw H) as (sp & rest & _ & S & [(iter & r & I & _ & A)|[B|F]]).
    + eauto.
    + destruct (foreign_certificate _ _ S (Hb _ B)).
    + eauto.
  - intros m s ns ex v Hn H. destruct (C141_file C history m s ns ex v Hd Hw Hn H) as (p & P & [(m' & d & I)|[B|F]]).
    + eauto.
    + destruct (foreign_file _ _ _ _ _ P (Hb _ B)).
    + eauto.
Qed.
Print Assumptions C141_other_protocols.
Example C141_case_foreign : foreign (field (repeat x5a 32) ++ x32 :: s2b "...") /\ ~ foreign (field (s2b "ssh-ed25519-cert-v01@openssh.com") ++ x32 :: []).
Proof.
  split.
  - constructor; [vm_compute; lia|]. intros kt H. vm_compute in H. discriminate H.
  - intros F. remember (field (s2b "ssh-ed25519-cert-v01@openssh.com") ++ [x32]) as b eqn:E. destruct F as [se rest L N|rest]; [|discriminate E].
    apply field_inj in E; [|unfold field_ok, size, u32_max; lia|vm_compute; discriminate]. destruct E as [-> _].
    specialize (N _ (eq_refl : kt_from_name (s2b "ssh-ed25519-cert-v01@openssh.com") = Ok _)). discriminate N.
Qed.

(** Issuing a certificate and signing a file ask the key for no other signature than the use says:
    two signers that agree on its bytes give the same outcome. *)
Theorem C141_one_use : forall (C : crypto) (sign sign' : signer),
  (forall iter c, (forall m, signs C (Issue iter c) m -> sign m = sign' m) ->
     cert_sign C iter c sign = cert_sign C iter c sign')
  /\ (forall m ns pub h, digests_fit C -> field_ok ns ->
     (forall p, signs C (SignFile ns (chosen h) m) p -> sign p = sign' p) ->
     new_with_private_key C m ns pub sign h = new_with_private_key C m ns pub sign' h).
Proof.
  intros C sign sign'. split.
  - intros iter c H. unfold cert_sign. destruct (tbs_certificate iter c) as [m|e|] eqn:E; [|reflexivity..].
    cbn [bind]. rewrite (H m E). reflexivity.
  - intros m ns pub h Hd Hn H. unfold new_with_private_key. fold (chosen h). cbv zeta.
    rewrite H; [reflexivity|]. apply (payload_iff C (mkSshSig pub ns (chosen h) []) m); assumption || reflexivity.
Qed.
Print Assumptions C141_one_use.

(** One certificate was issued with a key that cannot be forged, and nothing else was signed. *)
Definition ex_issued_part : bytes :=
  match ex_request with Ok c => match tbs_certificate (@rev _) c with Ok t => t | _ => [] end | _ => [] end.
Definition ex_ideal : crypto := pick_crypto [x63; x64] ex_issued_part [x01; x02; x03].
Lemma ideal_unforged c : ex_request = Ok c -> unforged ex_ideal [Issue (@rev _) c] (PkEd25519 [x63; x64] None).
Proof.
  intros E k m sg Hk [Ha N]. apply (N _ (or_introl eq_refl)). cbn [signs].
  destruct Ha as (label & payload & after & st & _ & _ & _ & _ & Ha). rewrite Hk in Ha. destruct Ha as (m' & _ & Hm & Hv).
  cbn [signed_message] in Hm. subst m'. cbn [ex_ideal pick_crypto c_ed25519_verify] in Hv.
  apply andb_true_iff in Hv as [Hv _]. apply andb_true_iff in Hv as [_ Hv]. apply bytes_eqb_eq in Hv. subst m.
  unfold ex_issued_part. rewrite E. vm_compute in E. injection E as <-. vm_compute. reflexivity.
Qed.
Lemma ideal_within c : ex_request = Ok c -> Forall within [Issue (@rev _) c].
Proof.
  intros E. constructor; [|constructor]. destruct ex_under_construction as (c' & E' & Hu & Hw).
  assert (c' = c) by congruence. subst c'. split; [intros m; apply Permutation_sym, Permutation_rev|].
  split; [apply RQ_new; assumption|]. intros m Hm. vm_compute in E. injection E as <-. vm_compute in Hm. injection Hm as <-.
  vm_compute. discriminate.
Qed.
Example C141_case : exists c c' data, ex_request = Ok c /\ digests_fit ex_ideal /\ Forall within [Issue (@rev _) c]
  /\ unforged ex_ideal [Issue (@rev _) c] (pk_kind (ct_signature_key c'))
  /\ cert_from_bytes ex_ideal data = Ok c' /\ ct_principals c' = [s2b "alice"; s2b "root"].
Proof.
  destruct ex_under_construction as (c & E & _ & _). pose proof (ideal_unforged c E) as U. pose proof (ideal_within c E) as W.
  assert (R : exists x, cert_from_bytes ex_ideal (ex_issued_part ++ field ex_sig) = Ok x /\ pk_kind (ct_signature_key x) = PkEd25519 [x63; x64] None /\ ct_principals x = [s2b "alice"; s2b "root"]).
  { eexists. split; [vm_compute; reflexivity|]. split; vm_compute; reflexivity. }
  destruct R as (x & R1 & R2 & R3). exists c, x, (ex_issued_part ++ field ex_sig). split; [exact E|]. split; [apply pick_fits|].
  split; [exact W|]. split; [rewrite R2; exact U|]. split; [exact R1|exact R3].
Qed.
(** A file was signed with the same key, and two signers that agree on its payload only. *)
Example C141_case_file : exists p v, payload (pick_crypto [x63; x64] p [x01; x02; x03]) (s2b "file") HSha512 (s2b "hello") p
  /\ Forall within [SignFile (s2b "file") HSha512 (s2b "hello")]
  /\ from_ssh_signature (pick_crypto [x63; x64] p [x01; x02; x03]) (s2b "hello") (mkSshSig ex_ca (s2b "file") HSha512 ex_sig) (s2b "file") None = Ok v
  /\ ~ signs (pick_crypto [x63; x64] p [x01; x02; x03]) (SignFile (s2b "file") HSha512 (s2b "other")) p.
Proof.
  exists (to_signed_format (pick_crypto [] [] []) (mkSshSig ex_ca (s2b "file") HSha512 []) (s2b "hello")). eexists.
  split; [apply (payload_iff _ (mkSshSig ex_ca (s2b "file") HSha512 [])); [vm_compute; discriminate|apply pick_fits|reflexivity]|].
  split; [constructor; [vm_compute; discriminate|constructor]|].
  split; [vm_compute; reflexivity|].
  intros S. cbn [signs] in S. apply (payload_iff _ (mkSshSig ex_ca (s2b "file") HSha512 [])) in S; [|vm_compute; discriminate|apply pick_fits].
  vm_compute in S. discriminate S.
Qed.

(** Even then an accepted certificate need not be, byte for byte, one that signing returned: more
    bytes may follow the signature. *)
Theorem C141_same_bytes_refuted : exists C history data c,
  digests_fit C /\ Forall within history /\ (forall bs, ~ In (SignBytes bs) history)
  /\ unforged C history (pk_kind (ct_signature_key c)) /\ cert_from_bytes C data = Ok c
  /\ forall iter r sg c', In (Issue iter r) history -> cert_sign C iter r sg = Ok c' -> ct_serialized c' <> data.
Proof.
  destruct ex_under_construction as (c & E & _ & _). pose proof (ideal_unforged c E) as U. pose proof (ideal_within c E) as W.
  assert (R : exists x, cert_from_bytes ex_ideal (ex_issued_part ++ field ex_sig ++ [x00]) = Ok x /\ pk_kind (ct_signature_key x) = PkEd25519 [x63; x64] None).
  { eexists. split; vm_compute; reflexivity. }
  destruct R as (x & R1 & R2). exists ex_ideal, [Issue (@rev _) c], (ex_issued_part ++ field ex_sig ++ [x00]), x.
  split; [apply pick_fits|]. split; [exact W|]. split; [intros bs [B|[]]; discriminate B|].
  split; [rewrite R2; exact U|]. split; [exact R1|].
  intros iter r sg c' [I|[]] H B. injection I as <- <-.
  unfold cert_sign in H. apply bind_ok in H as (t & Ht & H). apply bind_ok in H as (o & _ & H). apply bind_ok in H as (sg' & _ & H).
  apply add_signature_iff in H as (t' & Ht' & _ & H). assert (t' = t) by congruence. subst t'.
  assert (Et : t = ex_issued_part) by (unfold ex_issued_part; rewrite E, Ht; reflexivity). subst t.
  destruct H as (_ & _ & _ & _ & _ & Hs). rewrite B in Hs. apply app_inv_head in Hs. unfold write_bytes in Hs. cbn [app writer_new] in Hs.
  unfold field in Hs. rewrite <- app_assoc in Hs. apply app_inj_length in Hs; [|rewrite to_be_length; reflexivity]. destruct Hs as [H1 H2]. subst sg'. vm_compute in H1. discriminate H1.
Qed.
Print Assumptions C141_same_bytes_refuted.

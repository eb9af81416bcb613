(** Property C140: derived debugging output of certificates, allowed-signers entries and signatures. *)
From Coq Require Import Permutation.
From Verif Require Import Base BaseFacts Utf8 Utf8Facts Str SpecWire SpecSigner SpecCert KeyType KeyTypeFacts PubKeyType Crypto Cert TbsFacts
  AllowedSigner Signature Chrono Equal EqualSigner PropCert PropEqual PropSigner PropZone PropEntryEqual PropSshSig PropDebug Debug SpecDebug DebugFacts
  DebugMore SpecDebugMore DebugMoreFacts FileFacts FidoFacts ShowFacts.

(** ** The exact texts *)
Theorem C140_entry_text : forall (printable : N -> bool) (a : allowed_signer) (t : bytes),
  entry_texts a -> (dbg_signer printable a = t <-> entry_text printable a t).
Proof. intros p a t H. split; [intros <-; apply signer_is_shown, H|]. intros K. exact (only_entry p a _ _ (signer_is_shown p a H) K). Qed.
Print Assumptions C140_entry_text.
Theorem C140_file_text : forall (printable : N -> bool) (l : list allowed_signer) (t : bytes),
  Forall entry_texts l -> (dbg_signers printable l = t <-> entries_text printable l t).
Proof. intros p l t H. split; [intros <-; apply signers_are_shown, H|]. intros K. exact (only_entries p l _ _ (signers_are_shown p l H) K). Qed.
Print Assumptions C140_file_text.
Theorem C140_signature_text : forall (printable : N -> bool) (v : verified) (t : bytes),
  signature_texts (vs_signature v) ->
  (dbg_sshsig printable (vs_signature v) = t <-> signature_text printable (vs_signature v) t)
  /\ (dbg_verified printable v = t <-> verified_text printable v t).
Proof.
  intros p v t H. split; (split; [intros <-; auto using sshsig_is_shown, verified_is_shown|intros K]).
  - exact (only_signature p _ _ _ (sshsig_is_shown p _ H) K).
  - exact (only_verified p _ _ _ (verified_is_shown p _ H) K).
Qed.
Print Assumptions C140_signature_text.

(** The iteration order in which [m] comes out as [o]. *)
Definition entry_dec : forall a b : bytes * bytes, {a = b} + {a <> b}.
Proof.
  intros [a1 a2] [b1 b2]. destruct (list_eq_dec Byte.byte_eq_dec a1 b1) as [->|N]; [|right; congruence].
  destruct (list_eq_dec Byte.byte_eq_dec a2 b2) as [->|N]; [left; reflexivity|right; congruence].
Defined.
Definition order_as (m o x : hashmap) : hashmap := if list_eq_dec entry_dec x m then o else x.
Lemma order_as_it m o : order_as m o m = o.
Proof. unfold order_as. destruct (list_eq_dec entry_dec m m); [reflexivity|congruence]. Qed.
Lemma order_as_order m o : Permutation o m -> forall x, Permutation (order_as m o x) x.
Proof. intros H x. unfold order_as. destruct (list_eq_dec entry_dec x m) as [->|]; [exact H|apply Permutation_refl]. Qed.
Lemma map_text_order p m t : pair_texts m -> map_text p m t -> exists o, Permutation o m /\ t = dbg_map p o.
Proof.
  intros H (o & ts & Q & F & ->). exists o. split; [exact Q|].
  assert (T : pair_texts o) by (eapply Permutation_Forall; [apply Permutation_sym, Q|exact H]).
  rewrite (only_forall _ (only_pair p) _ _ _ F (pairs_are_shown p o T)), separated_join. reflexivity.
Qed.
(** The text of a certificate is one that the rules allow, and each of those is written in some
    order of the maps. *)
Theorem C140_certificate_text : forall (printable : N -> bool) (c : cert) (t : bytes), cert_texts c ->
  (cert_text printable c t <->
   exists io ie, (forall m, Permutation (io m) m) /\ (forall m, Permutation (ie m) m) /\ dbg_cert printable io ie c = t).
Proof.
  intros p c t H. split; [|intros (io & ie & O & E & <-); apply cert_is_shown; assumption].
  intros (x1 & x2 & x3 & x4 & x5 & x6 & x7 & x8 & x9 & x10 & x11 & x12 & x13 & x14 & x15 & x16 &
    H1 & H2 & H3 & H4 & H5 & H6 & H7 & H8 & H9 & H10 & H11 & H12 & H13 & H14 & H15 & H16 & ->).
  pose proof H as (A1 & A2 & A3 & A4 & A5 & A6 & A7 & A8).
  apply (map_text_order p _ _ A5) in H10 as (o & O & ->). apply (map_text_order p _ _ A6) in H11 as (e & E & ->).
  exists (order_as (ct_critical_options c) o), (order_as (ct_extensions c) e).
  split; [apply order_as_order, O|]. split; [apply order_as_order, E|]. unfold dbg_cert. rewrite !order_as_it.
  rewrite (only_type p _ _ _ H1 (type_is_shown p _ A1)), (only_listed _ _ _ H2 (vec_listed _)), (only_pub p _ _ _ H3 (pub_is_shown p _ A2)),
    (only_decimal _ _ _ H4 (decimal_n _)), (only_quoted p _ _ _ H6 (str_is_quoted p _ A3)), (only_strs p _ _ _ H7 (strs_are_shown p _ A4)),
    (only_decimal _ _ _ H8 (decimal_n _)), (only_decimal _ _ _ H9 (decimal_n _)), (only_listed _ _ _ H12 (vec_listed _)),
    (only_pub p _ _ _ H13 (pub_is_shown p _ A7)), (only_listed _ _ _ H14 (vec_listed _)),
    (only_maybe _ (only_quoted p) _ _ _ H15 (text_is_shown p _ A8)), (only_listed _ _ _ H16 (vec_listed _)).
  assert (X : dbg_cert_type (ct_cert_type c) = x5) by (destruct (ct_cert_type c); cbn [cert_type_text] in H5; rewrite H5; reflexivity).
  rewrite X. unfold dbg_struct. cbn [map join fst snd]. rewrite <- ?app_assoc. reflexivity.
Qed.
Print Assumptions C140_certificate_text.

(** ** Nothing is left out or blurred *)
(** In contrast to the printed line (C139_same_line_refuted). *)
Theorem C140_entry_determined : forall (printable : N -> bool) (a b : allowed_signer), entry_texts a -> entry_texts b ->
  (dbg_signer printable a = dbg_signer printable b <-> signer_eqb a b = true).
Proof. intros p a b A B. rewrite signer_eqb_eq. split; [apply (code_signer p a b A B)|intros ->; reflexivity]. Qed.
Print Assumptions C140_entry_determined.
Theorem C140_file_determined : forall (printable : N -> bool) (a b : list allowed_signer), Forall entry_texts a -> Forall entry_texts b ->
  (dbg_signers printable a = dbg_signers printable b <-> signers_eqb a b = true).
Proof.
  intros p a b A B. rewrite signers_eqb_eq. split; [|intros ->; reflexivity]. intros E. unfold dbg_signers, dbg_tuple in E.
  do 2 apply app_inv_head in E. apply app_inv_tail in E. exact (code_eq _ _ _ _ (code_entries p) A B E).
Qed.
Print Assumptions C140_file_determined.
Theorem C140_signature_determined : forall (printable : N -> bool) (a b : verified),
  signature_texts (vs_signature a) -> signature_texts (vs_signature b) ->
  (dbg_sshsig printable (vs_signature a) = dbg_sshsig printable (vs_signature b) -> vs_signature a = vs_signature b)
  /\ (dbg_verified printable a = dbg_verified printable b -> a = b).
Proof. intros p a b A B. split; [apply (code_sshsig p _ _ A B)|apply (code_verified p a b A B)]. Qed.
Print Assumptions C140_signature_determined.

Lemma ordered_texts c co ex : cert_texts c -> Permutation co (ct_critical_options c) -> Permutation ex (ct_extensions c) -> cert_texts (ordered c co ex).
Proof.
  intros (A1 & A2 & A3 & A4 & A5 & A6 & A7 & A8) O E. unfold cert_texts, ordered.
  cbn [ct_key_type ct_nonce ct_key ct_serial ct_cert_type ct_key_id ct_principals ct_valid_after ct_valid_before ct_critical_options
    ct_extensions ct_reserved ct_signature_key ct_signature ct_comment ct_serialized].
  assert (P : forall o m, Permutation o m -> pair_texts m -> pair_texts o)
    by (intros o m Q H; eapply Permutation_Forall; [apply Permutation_sym, Q|exact H]).
  split; [exact A1|]. split; [exact A2|]. split; [exact A3|]. split; [exact A4|]. split; [exact (P _ _ O A5)|].
  split; [exact (P _ _ E A6)|]. split; [exact A7|exact A8].
Qed.
(** Certificates are equal exactly when some orders of their maps give the same text; then any
    text of the one is a text of the other. *)
Theorem C140_certificate_determined : forall (printable : N -> bool) (a b : cert), cert_texts a -> cert_texts b ->
  NoDup (map fst (ct_critical_options a)) -> NoDup (map fst (ct_critical_options b)) ->
  NoDup (map fst (ct_extensions a)) -> NoDup (map fst (ct_extensions b)) ->
  ((exists t, cert_text printable a t /\ cert_text printable b t) <-> cert_eqb a b = true)
  /\ (cert_eqb a b = true -> forall t, cert_text printable a t -> cert_text printable b t).
Proof.
  intros p a b A B N1 N2 N3 N4.
  assert (G : cert_eqb a b = true -> forall t, cert_text p a t -> cert_text p b t).
  { intros E t (x1 & x2 & x3 & x4 & x5 & x6 & x7 & x8 & x9 & x10 & x11 & x12 & x13 & x14 & x15 & x16 & H).
    apply (C119_certificates a b N1 N2 N3 N4) in E. destruct E as (S & E1 & E2 & E3). unfold same_signed_fields in S.
    exists x1, x2, x3, x4, x5, x6, x7, x8, x9, x10, x11, x12, x13, x14, x15, x16.
    assert (Q : forall m m' t, NoDup (map fst m) -> NoDup (map fst m') -> same_map m m' -> map_text p m t -> map_text p m' t).
    { intros m m' u M M' SM (o & ts & P & F & U). exists o, ts. split; [|auto]. eapply Permutation_trans; [exact P|].
      apply NoDup_Permutation; [eapply NoDup_map_inv; exact M|eapply NoDup_map_inv; exact M'|]. intros [k v]. apply SM. }
    decompose [and] S. decompose [and] H.
    repeat match goal with
    | X : ?f a = ?f b |- _ => rewrite X in *; clear X
    end.
    repeat match goal with |- _ /\ _ => split end; try assumption;
      first [apply (Q _ _ _ N1 N2); assumption|apply (Q _ _ _ N3 N4); assumption]. }
  split; [|exact G]. split.
  - intros (t & TA & TB). apply (C140_certificate_text p a t A) in TA. apply (C140_certificate_text p b t B) in TB.
    destruct TA as (io & ie & O & E & TA), TB as (jo & je & O' & E' & TB). rewrite dbg_cert_ordered in TA, TB. rewrite <- TB in TA.
    apply (code_eq _ _ _ _ (code_cert p)) in TA; [|apply ordered_texts; auto|apply ordered_texts; auto].
    apply (C119_certificates a b N1 N2 N3 N4). unfold same_signed_fields. injection TA as E1 E2 E3 E4 E5 E6 E7 E8 E9 E10 E11 E12 E13 E14 E15 E16.
    assert (Q : forall (i j : hashmap -> hashmap) m m', Permutation (i m) m -> Permutation (j m') m' -> i m = j m' -> same_map m m').
    { intros i j m m' P P' X k v. rewrite X in P. pose proof (Permutation_trans (Permutation_sym P) P') as R.
      split; apply Permutation_in; [exact R|apply Permutation_sym, R]. }
    repeat match goal with |- _ /\ _ => split end; try assumption;
      first [apply (Q io jo _ _ (O _) (O' _)); assumption|apply (Q ie je _ _ (E _) (E' _)); assumption].
  - intros E. exists (dbg_cert p id_order id_order a).
    assert (T : cert_text p a (dbg_cert p id_order id_order a)) by (apply cert_is_shown; auto; intros m; apply Permutation_refl).
    split; [exact T|apply G; assumption].
Qed.
Print Assumptions C140_certificate_determined.

(** ** Cases *)
Lemma ed_texts : type_texts PropCert.ed_type.
Proof. split; [|split]; apply utf8_valid_iff; reflexivity. Qed.
Definition two_map : hashmap := [(s2b "a", s2b "b"); (s2b "c", [])].
Definition small_cert : cert :=
  mkCert PropCert.ed_type [x01] PropCert.ex_subject 7 Host (s2b "id") [s2b "x"; [x22]] 1 2 two_map two_map [] PropCert.ex_ca [x09] None [x05; x06].
Lemma small_cert_texts : cert_texts small_cert.
Proof.
  assert (U : forall s, utf8_valid s = true -> utf8_text s) by (intros s; apply utf8_valid_iff).
  unfold cert_texts, small_cert.
  cbn [ct_key_type ct_nonce ct_key ct_serial ct_cert_type ct_key_id ct_principals ct_valid_after ct_valid_before ct_critical_options
    ct_extensions ct_reserved ct_signature_key ct_signature ct_comment ct_serialized].
  assert (M : pair_texts two_map) by (repeat constructor; apply U; reflexivity).
  split; [apply ed_texts|]. split.
  { split; [apply ed_texts|]. split; [intros s E; injection E as <-; apply U; reflexivity|discriminate]. }
  split; [apply U; reflexivity|]. split; [repeat constructor; apply U; reflexivity|]. split; [exact M|]. split; [exact M|].
  split; [|discriminate]. split; [apply ed_texts|]. split; discriminate.
Qed.
(** The same certificate may be written in two ways: the two maps, although equal, need not even
    be written in the same order. *)
Theorem C140_one_text_refuted : exists (c : cert) (t u : bytes), cert_texts c
  /\ NoDup (map fst (ct_critical_options c)) /\ NoDup (map fst (ct_extensions c))
  /\ cert_text (fun _ => true) c t /\ cert_text (fun _ => true) c u /\ t <> u.
Proof.
  exists small_cert, (dbg_cert (fun _ => true) id_order (@rev _) small_cert), (dbg_cert (fun _ => true) id_order id_order small_cert).
  split; [apply small_cert_texts|]. assert (D : NoDup (map fst two_map)).
  { cbn. constructor; [intros [E|[]]; discriminate E|]. constructor; [intros []|constructor]. }
  split; [exact D|]. split; [exact D|].
  assert (I : forall m : hashmap, Permutation (id_order m) m) by (intros m; apply Permutation_refl).
  assert (R : forall m : hashmap, Permutation (rev m) m) by (intros m; apply Permutation_sym, Permutation_rev).
  split; [apply cert_is_shown; auto using small_cert_texts|]. split; [apply cert_is_shown; auto using small_cert_texts|].
  intros E. apply bytes_eqb_eq in E. vm_compute in E. discriminate E.
Qed.
Print Assumptions C140_one_text_refuted.
Example C140_case_certificate : exists a b,
  dbg_cert (fun _ => true) id_order (@rev _) small_cert
  = a ++ s2b ", serial: 7, cert_type: Host, key_id: " ++ [x22] ++ s2b "id" ++ [x22] ++ s2b ", principals: [" ++ [x22; x78; x22] ++ s2b ", "
    ++ [x22; x5c; x22; x22] ++ s2b "], valid_after: 1, valid_before: 2, critical_options: {" ++ [x22; x61; x22] ++ s2b ": " ++ [x22; x62; x22]
    ++ s2b ", " ++ [x22; x63; x22] ++ s2b ": " ++ [x22; x22] ++ s2b "}, extensions: {" ++ [x22; x63; x22] ++ s2b ": " ++ [x22; x22; x2c; x20; x22; x61; x22]
    ++ s2b ": " ++ [x22; x62; x22] ++ s2b "}, reserved: [], signature_key: " ++ b.
Proof.
  eexists (firstn 408 (dbg_cert (fun _ => true) id_order (@rev _) small_cert)), (skipn 611 (dbg_cert (fun _ => true) id_order (@rev _) small_cert)).
  vm_compute. reflexivity.
Qed.
(** The two entries of C139_same_line_refuted, which print alike, are told apart. *)
Example C140_case_entries : exists a b,
  as_from_string utc (x22 :: s2b "a cert-authority" ++ x22 :: x20 :: ex_key_text) = Ok a
  /\ as_from_string utc (s2b "a cert-authority " ++ ex_key_text) = Ok b /\ entry_texts a /\ entry_texts b
  /\ as_display a = as_display b
  /\ firstn 74 (dbg_signer (fun _ => true) a) = s2b "AllowedSigner { principals: [" ++ [x22] ++ s2b "a cert-authority" ++ [x22] ++ s2b "], cert_authority: false, n"
  /\ firstn 58 (dbg_signer (fun _ => true) b) = s2b "AllowedSigner { principals: [" ++ [x22] ++ s2b "a" ++ [x22] ++ s2b "], cert_authority: true, n".
Proof.
  eexists _, _. split; [vm_compute; reflexivity|]. split; [vm_compute; reflexivity|].
  assert (U : forall s, utf8_valid s = true -> utf8_text s) by (intros s; apply utf8_valid_iff).
  assert (K : pub_texts ex_key).
  { split; [|split; discriminate]. split; [|split]; apply U; reflexivity. }
  split; [split; [repeat constructor; apply U; reflexivity|split; [discriminate|exact K]]|].
  split; [split; [repeat constructor; apply U; reflexivity|split; [discriminate|exact K]]|].
  split; [vm_compute; reflexivity|]. split; vm_compute; reflexivity.
Qed.
Example C140_case_signature : signature_texts ex_ssig
  /\ exists a, dbg_verified (fun _ => true) (mkVerified ex_ssig [x0a; xff]) = a ++ s2b "0, 0, 0, 3, 1, 2, 3] }, message: [10, 255] }".
Proof.
  split.
  - split; [|apply utf8_valid_iff; reflexivity]. split; [apply ed_texts|split; discriminate].
  - eexists (firstn 410 (dbg_verified (fun _ => true) (mkVerified ex_ssig [x0a; xff]))). vm_compute. reflexivity.
Qed.

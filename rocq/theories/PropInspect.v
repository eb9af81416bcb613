(** Property C106: the programs that show certificates and keys. *)
From Coq Require Import Permutation Lia.
From Verif Require Import Base BaseFacts Utf8 Str StrFacts SpecWire SpecText SpecBase64 SpecKeys SpecSigner Base64 Base64Facts
  KeyType KeyTypeFacts PubKeyType Writer WriterFacts Crypto PubKey PubKeyFacts PropPubKey AllowedSigner Cert CertFacts SpecCert
  TbsFacts PropCert PropCertText PrivKey X509 SpecX509 PropX509 Show SpecShow ShowFacts PropShow Files Piv SpecTools Tools.

(** ** Lines *)
Lemma split_item c x : forall cur rest, ~ In c x -> split_on_aux c (x ++ c :: rest) cur = (cur ++ x) :: split_on c rest.
Proof.
  induction x as [|b x IH]; intros cur rest Hx; cbn [app split_on_aux].
  - replace (byte_eqb c c) with true by (symmetry; apply byte_eqb_eq; reflexivity). rewrite app_nil_r. reflexivity.
  - destruct (byte_eqb b c) eqn:E; [apply byte_eqb_eq in E; subst b; exfalso; apply Hx; left; reflexivity|].
    rewrite IH by (intros H; apply Hx; right; exact H). rewrite <- app_assoc. reflexivity.
Qed.
Lemma split_last c x : forall cur, ~ In c x -> split_on_aux c x cur = [cur ++ x].
Proof.
  induction x as [|b x IH]; intros cur Hx; cbn [split_on_aux]; [rewrite app_nil_r; reflexivity|].
  destruct (byte_eqb b c) eqn:E; [apply byte_eqb_eq in E; subst b; exfalso; apply Hx; left; reflexivity|].
  rewrite IH by (intros H; apply Hx; right; exact H). rewrite <- app_assoc. reflexivity.
Qed.
Lemma first_newline t : no_nl t \/ exists l rest, t = l ++ x0a :: rest /\ no_nl l.
Proof.
  induction t as [|b t IH]; [left; intros []|]. destruct (Byte.byte_eq_dec b x0a) as [->|E].
  - right. exists [], t. split; [reflexivity|intros []].
  - destruct IH as [H|(l & rest & -> & H)].
    + left. intros [H0|H0]; [exact (E H0)|exact (H H0)].
    + right. exists (b :: l), rest. split; [reflexivity|]. intros [H0|H0]; [exact (E H0)|exact (H H0)].
Qed.
(** Every text has leading lines. *)
Lemma leading_total : forall n t, length t <= n -> exists ls, leading_lines t ls.
Proof.
  induction n as [|n IH]; intros t L.
  - destruct t; [|cbn in L; lia]. exists []. constructor.
  - destruct (first_newline t) as [H|(l & rest & -> & H)].
    + destruct t as [|b t]; [exists []; constructor|]. exists [b :: t]. constructor; [discriminate|exact H].
    + destruct l as [|b l]; [exists []; constructor|]. rewrite app_length in L. cbn [length] in L.
      destruct (IH rest) as (ls & Hl); [lia|]. exists ((b :: l) :: ls). constructor; [discriminate|exact H|exact Hl].
Qed.

Lemma shown_lines C show why : (forall l c, cert_from_string C l = Ok c -> exists t, show c = Ok t) ->
  forall contents ls, leading_lines contents ls -> forall i, exists texts,
  certificate_lines C show why i (split_on newline contents) = (ended_lines texts, true)
  /\ length texts = length ls
  /\ forall j l t, nth_error ls j = Some l -> nth_error texts j = Some t ->
       match cert_from_string C l with Ok c => show c = Ok t | Err e => bad_line why (i + N.of_nat j) e t | Panic => False end.
Proof.
  intros Sh.
  assert (Step : forall l i rest, l <> [] -> exists t,
    certificate_lines C show why i (l :: rest) = (let (out, ended) := certificate_lines C show why (i + 1) rest in (println t ++ out, ended))
    /\ match cert_from_string C l with Ok c => show c = Ok t | Err e => bad_line why i e t | Panic => False end).
  { intros l i rest Hl. destruct l as [|b l]; [contradiction Hl; reflexivity|]. cbn [certificate_lines].
    destruct (cert_from_string C (b :: l)) as [c|e|] eqn:E.
    - destruct (Sh _ _ E) as (t & Ht). rewrite Ht. exists t. auto.
    - eexists. split; [reflexivity|]. exists (decimal i). split; [apply decimal_n|reflexivity].
    - destruct (C37_text_no_panic _ _ E). }
  intros contents ls H. induction H as [|rest|l Hl Hn|l rest ls Hl Hn H IH]; intros i.
  - exists []. split; [reflexivity|]. split; [reflexivity|]. intros [|j] l t E; discriminate.
  - exists []. split; [reflexivity|]. split; [reflexivity|]. intros [|j] l t E; discriminate.
  - unfold split_on. rewrite split_last by exact Hn. cbn [app]. destruct (Step l i [] Hl) as (t & E & M). rewrite E. cbn [certificate_lines].
    exists [t]. split; [reflexivity|]. split; [reflexivity|]. intros [|[|j]] l' t' E1 E2; try discriminate.
    injection E1 as <-. injection E2 as <-. replace (i + N.of_nat 0)%N with i by lia. exact M.
  - unfold split_on. change x0a with newline. rewrite split_item by exact Hn. cbn [app].
    destruct (Step l i (split_on newline rest) Hl) as (t & E & M). destruct (IH (i + 1)%N) as (texts & E2 & L & F).
    rewrite E, E2. exists (t :: texts). split; [reflexivity|]. split; [cbn; lia|]. intros [|j] l' t' X1 X2; cbn [nth_error] in *.
    + injection X1 as <-. injection X2 as <-. replace (i + N.of_nat 0)%N with i by lia. exact M.
    + specialize (F _ _ _ X1 X2). replace (i + N.of_nat (S j))%N with (i + 1 + N.of_nat j)%N by lia. exact F.
Qed.

Lemma no_nl_check l : forallb (fun b => negb (byte_eqb b x0a)) l = true -> no_nl l.
Proof. rewrite forallb_forall. intros H I. specialize (H _ I). discriminate. Qed.

(** ** Keys of certificates *)
Lemma text_bytes C s c : cert_from_string C s = Ok c -> exists data c0, cert_from_bytes C data = Ok c0
  /\ ct_key c = ct_key c0 /\ ct_signature_key c = ct_signature_key c0.
Proof.
  unfold cert_from_string. cbv zeta. intros H. apply bind_ok in H. destruct H as (o & _ & H). apply bind_ok in H. destruct H as (kt & _ & H).
  apply bind_ok in H. destruct H as (d & _ & H). apply bind_ok in H. destruct H as (data & _ & H). apply bind_ok in H. destruct H as (c0 & Hc & H).
  exists data, c0. split; [exact Hc|]. destruct (negb _); [discriminate|]. apply ok_inj in H. subst c. split; reflexivity.
Qed.
Lemma plain_type kt : known kt -> forall kt', known kt' -> kt_name kt' = kt_plain kt -> kt_plain kt' = kt_name kt'.
Proof.
  intros K. pattern kt. revert kt K. apply known_forall. unfold key_types.
  repeat (apply Forall_cons; [intros kt' K; pattern kt'; revert kt' K; apply known_forall; unfold key_types;
    repeat (apply Forall_cons; [first [intros _; reflexivity|discriminate]|]); apply Forall_nil|]).
  apply Forall_nil.
Qed.
Lemma certified_key C s c : cert_from_string C s = Ok c ->
  exists t, pk_display (ct_key c) = Ok t /\ pk_from_string t = Ok (ct_key c) /\ no_nl t.
Proof.
  intros H. apply text_bytes in H. destruct H as (data & c0 & Hc & -> & _). apply cert_from_bytes_iff in Hc.
  destruct Hc as (sp & post & Hc & _). destruct Hc as (pb & cb & eb & skb & skpost & K1 & _ & _ & K2 & K3 & O1 & O2 & _).
  destruct (C23_single_word_comment (ct_key c0) (enc_kind (pk_kind (ct_key c0)))) as (t & Ht & Hp).
  - apply supported_known, K2.
  - exact (plain_type _ K1 _ K2 K3).
  - apply kd_intro, O2.
  - rewrite O1. exact I.
  - exists t. split; [exact Ht|]. split; [exact Hp|]. unfold pk_display in Ht. apply bind_ok in Ht. destruct Ht as (e & _ & Ht).
    rewrite O1 in Ht. apply ok_inj in Ht. subst t. apply no_nl_app; [|apply no_nl_cons; [discriminate|]].
    + revert K2. generalize (pk_type (ct_key c0)). apply known_forall. unfold key_types.
      repeat (apply Forall_cons; [apply plain_no_nl; reflexivity|]). apply Forall_nil.
    + pose proof (b64_encode_graphic e) as G. rewrite forallb_forall in G. intros H. specialize (G _ H). discriminate.
Qed.
Lemma certified_listing C iter s c : cert_from_string C s = Ok c -> exists t, cert_listing C iter c = Ok t.
Proof.
  intros H. apply text_bytes in H. destruct H as (data & c0 & Hc & E1 & E2).
  destruct (C92_parsed C iter data c0 Hc) as (_ & t & Ht). destruct (C92_printed C iter c) as [Hp|[_ Hp]]; [exact Hp|].
  exfalso. rewrite E1, E2 in Hp. unfold cert_listing in Ht. cbv zeta in Ht. apply bind_ok in Ht. destruct Ht as (f & Hf & Ht).
  apply bind_ok in Ht. destruct Ht as (g & Hg & _). unfold pk_fingerprint, pk_fingerprint_with in Hf, Hg.
  destruct Hp as [Hp|Hp]; rewrite Hp in *; discriminate.
Qed.

(** ** C106 *)
(** ssh-pubkey-from-cert, for every text in the file: it ends, with one entry for each line before
    the first empty one. For a valid certificate it is a line that reads back as the certified key. *)
Theorem C106_keys_of_certificates : forall (C : crypto) (why : error -> bytes) (contents : bytes),
  exists ls texts, leading_lines contents ls /\ ssh_pubkey_from_cert C why contents = (ended_lines texts, true)
  /\ about_lines (fun i line t =>
       match cert_from_string C line with
       | Ok c => pk_from_string t = Ok (ct_key c) /\ no_nl t
       | Err e => bad_line why i e t
       | Panic => False
       end) ls texts.
Proof.
  intros C why contents. destruct (leading_total _ contents (le_n _)) as (ls & Hl).
  destruct (shown_lines C (fun c => pk_display (ct_key c)) why) with (contents := contents) (ls := ls) (i := 0%N) as (texts & E & L & F).
  - intros l c Hc. destruct (certified_key _ _ _ Hc) as (t & Ht & _). eauto.
  - exact Hl.
  - exists ls, texts. split; [exact Hl|]. split; [exact E|]. split; [exact L|]. intros i l t H1 H2. specialize (F i l t H1 H2).
    destruct (cert_from_string C l) as [c|e|] eqn:Ec; [|exact F|exact F].
    destruct (certified_key _ _ _ Ec) as (t' & Ht & Hp & Hn). cbn beta in F. pose proof (eq_trans (eq_sym F) Ht) as X. apply ok_inj in X. subst t'. auto.
Qed.
Print Assumptions C106_keys_of_certificates.

(** ssh-cert-info: the same with the listing of the certificate. *)
Theorem C106_listings : forall (C : crypto) (iter : hashmap -> hashmap) (why : error -> bytes) (contents : bytes),
  (forall m, Permutation (iter m) m) ->
  exists ls texts, leading_lines contents ls /\ ssh_cert_info C iter why contents = (ended_lines texts, true)
  /\ about_lines (fun i line t =>
       match cert_from_string C line with
       | Ok c => exists shown, listing C c shown /\ t = ended_lines shown
       | Err e => bad_line why i e t
       | Panic => False
       end) ls texts.
Proof.
  intros C iter why contents P. destruct (leading_total _ contents (le_n _)) as (ls & Hl).
  destruct (shown_lines C (cert_listing C iter) why) with (contents := contents) (ls := ls) (i := 0%N) as (texts & E & L & F).
  - intros l c Hc. eapply certified_listing, Hc.
  - exact Hl.
  - exists ls, texts. split; [exact Hl|]. split; [exact E|]. split; [exact L|]. intros i l t H1 H2. specialize (F i l t H1 H2).
    destruct (cert_from_string C l) as [c|e|] eqn:Ec; [|exact F|exact F]. apply C92_layout in F; [exact F|exact P].
Qed.
Print Assumptions C106_listings.

(** There is one reading of the file. *)
Theorem C106_one_reading : forall (contents : bytes) (a b : list bytes),
  leading_lines contents a -> leading_lines contents b -> a = b.
Proof.
  assert (U : forall t ls, leading_lines t ls ->
    exists more : list bytes, split_on newline t = ls ++ more /\ (more = [] \/ exists m, more = [] :: m)).
  { intros t ls H. induction H as [|rest|l Hl Hn|l rest ls Hl Hn H IH].
    - exists [[]]. split; [reflexivity|]. right. eauto.
    - exists ([] :: split_on newline rest). split; [reflexivity|]. right. eauto.
    - exists []. unfold split_on. rewrite split_last by exact Hn. auto.
    - destruct IH as (more & E & M). exists more. unfold split_on at 1. change x0a with newline. rewrite split_item by exact Hn.
      cbn [app]. rewrite E. auto. }
  assert (Ne : forall t ls, leading_lines t ls -> Forall (fun l => l <> []) ls).
  { induction 1; constructor; auto. }
  intros t a b Ha Hb. destruct (U t a Ha) as (ma & Ea & Ma). destruct (U t b Hb) as (mb & Eb & Mb).
  apply Ne in Ha, Hb. rewrite Ea in Eb. clear Ea U. revert b Hb Eb. induction Ha as [|x a Hx Ha IH]; intros b Hb E.
  - destruct b as [|y b]; [reflexivity|]. cbn [app] in E. exfalso. apply Forall_cons_iff in Hb. destruct Hb as [Hy _].
    destruct Ma as [Ma|(m & Ma)]; rewrite Ma in E; [discriminate|]. injection E as E _. apply Hy. symmetry. exact E.
  - destruct b as [|y b]; cbn [app] in E.
    + exfalso. destruct Mb as [Mb|(m & Mb)]; rewrite Mb in E; [discriminate|]. injection E as E _. exact (Hx E).
    + apply Forall_cons_iff in Hb. destruct Hb as [_ Hb]. injection E as -> E. f_equal. apply IH; assumption.
Qed.
Print Assumptions C106_one_reading.

(** Certificates behind an empty line are passed over in silence. *)
Theorem C106_all_lines_refuted : exists contents line c, contents = x0a :: line
  /\ cert_from_string lax_crypto line = Ok c /\ forall why, ssh_pubkey_from_cert lax_crypto why contents = ([], true).
Proof.
  do 3 eexists. split; [reflexivity|]. split; [|intros why; reflexivity].
  instantiate (2 := match cert_from_bytes lax_crypto ex_data with Ok c => cert_display c | _ => [] end). vm_compute. reflexivity.
Qed.
Print Assumptions C106_all_lines_refuted.

(** The message about a line that is no certificate can hold another line, which is a key. *)
Definition forged_line : bytes := s2b "ssh-ed25519 " ++ b64_encode (field (s2b "ssh-ed25519") ++ field (repeat x07 32)).
Definition forging_file : bytes :=
  s2b "ssh-ed25519-cert-v01@openssh.com " ++ b64_encode (field (s2b "x" ++ x0a :: forged_line)).
Theorem C106_only_certified_keys_refuted : exists contents before key k,
  forall C foreign, ssh_pubkey_from_cert C (error_display foreign) contents = (ended_lines [before; key], true)
  /\ no_nl before /\ no_nl key /\ pk_from_string key = Ok k
  /\ forall ls l c, leading_lines contents ls -> In l ls -> cert_from_string C l <> Ok c.
Proof.
  exists forging_file, (s2b "Line 0: Certificate not valid: Unknown key type x"), forged_line. eexists. intros C foreign.
  split; [vm_compute; reflexivity|]. split; [apply no_nl_check; reflexivity|]. split; [apply no_nl_check; vm_compute; reflexivity|].
  split; [vm_compute; reflexivity|]. intros ls l c Hl Hi.
  assert (L : leading_lines forging_file [forging_file]) by (constructor; [discriminate|apply no_nl_check; vm_compute; reflexivity]).
  rewrite (C106_one_reading _ _ _ Hl L) in Hi. destruct Hi as [<-|[]]. vm_compute. discriminate.
Qed.
Print Assumptions C106_only_certified_keys_refuted.
Example C106_case : exists c t, cert_from_bytes lax_crypto ex_data = Ok c
  /\ ssh_pubkey_from_cert lax_crypto (error_display []) (s2b "nonsense" ++ x0a :: cert_display c ++ s2b " " ++ [x0a; x0a] ++ cert_display c)
     = (ended_lines [s2b "Line 0: Certificate not valid: Unknown key type nonsense"; t], true)
  /\ pk_from_string t = Ok (ct_key c).
Proof.
  eexists. exists (s2b "ssh-ed25519 " ++ b64_encode (field (s2b "ssh-ed25519") ++ field (s2b "ab"))).
  split; [vm_compute; reflexivity|]. split; vm_compute; reflexivity.
Qed.

(** ssh-pubkey-info. *)
Theorem C106_key_info : forall (C : crypto) (file : option bytes) (k : pubkey), pk_from_path file = Ok k ->
  exists h, key_digest C k h
    /\ ssh_pubkey_info C file = Ok (s2b "256 SHA256:" ++ h ++ s2b " " ++ match pk_comment k with Some t => t | None => s2b "no comment" end ++ [x0a]).
Proof.
  intros C file k H. unfold ssh_pubkey_info. rewrite H. cbn [bind].
  assert (exists f, pk_fingerprint C k = Ok f) as (f & Hf).
  { unfold pk_from_path in H. apply bind_ok in H. destruct H as (t & _ & H). destruct C22_no_panic as (_ & _ & G).
    destruct (G k) as (_ & _ & _ & G'); [right; eauto|]. apply G'. }
  rewrite Hf. cbn [unwrap_res bind]. apply fingerprint_digest in Hf. destruct Hf as (_ & D & _). exists (fp_hash f). split; [exact D|].
  unfold println. rewrite <- !app_assoc. reflexivity.
Qed.
Print Assumptions C106_key_info.
(** The number is not the size of the key. *)
Theorem C106_key_size_refuted : exists file k, pk_from_path (Some file) = Ok k /\ pk_bits k = 2048
  /\ forall C, exists rest, ssh_pubkey_info C (Some file) = Ok (s2b "256 " ++ rest).
Proof.
  exists (s2b "ssh-rsa " ++ b64_encode (field (s2b "ssh-rsa") ++ field [x03] ++ field (x00 :: repeat xc1 256))). eexists.
  match goal with |- ?A /\ ?B /\ ?G => assert (E : A) by (vm_compute; reflexivity) end. split; [exact E|]. split; [vm_compute; reflexivity|].
  intros C. destruct (C106_key_info C _ _ E) as (h & _ & ->). eexists. reflexivity.
Qed.
Print Assumptions C106_key_size_refuted.

(** ssh-pkey-info shows only the fingerprint and the comment. *)
Theorem C106_private_key_info : forall (F : features) (C : crypto) (K : keyops) (file pass : option bytes) (k : privkey) (t : bytes),
  sk_from_path_with_passphrase F K file pass = Ok k -> ssh_pkey_info F C K file pass = Ok t ->
  exists h, key_digest C (sk_pub k) h /\ t = s2b "SHA256:" ++ h ++ s2b " " ++ sk_comment k ++ [x0a].
Proof.
  intros F C K file pass k t H. unfold ssh_pkey_info. rewrite H. cbn [bind]. unfold privkey_display. intros E.
  destruct (pk_fingerprint C (sk_pub k)) as [f|e|] eqn:Hf; try discriminate. cbn [unwrap_res bind] in E. apply ok_inj in E. subst t.
  apply fingerprint_digest in Hf. destruct Hf as (Kf & D & _). exists (fp_hash f). split; [exact D|]. unfold fp_display. rewrite Kf.
  unfold println. rewrite <- !app_assoc. reflexivity.
Qed.
Print Assumptions C106_private_key_info.

(** into-ssh-pubkey: a line that reads back as the key, or a message. It never crashes. *)
Theorem C106_der_keys : forall (X : x509) (why : error -> bytes) (contents : bytes),
  match der_to_ssh_key X contents with
  | Ok k => exists t, into_ssh_pubkey X why contents = Ok (t ++ [x0a])
      /\ forall d oid point, x_sequence X contents = Some d -> ec_der d oid point -> field_ok point -> pk_from_string t = Ok k
  | Err e => into_ssh_pubkey X why contents = Ok (s2b "Error: " ++ why e ++ [x0a])
  | Panic => False
  end.
Proof.
  intros X why contents. unfold into_ssh_pubkey. destruct (der_to_ssh_key X contents) as [k|e|] eqn:E.
  - apply C74_der_keys in E. destruct E as (d & oid & point & E1 & E2 & E3).
    assert (exists t, pk_display k = Ok t) as (t & Ht).
    { destruct E3 as (name & id & kind & [E3|[E3|[]]] & ->); injection E3 as <- <- <- <-; unfold pk_display, pk_encode;
        cbn [pk_kind pk_type pk_comment kt_is_sk bind]; eexists; reflexivity. }
    rewrite Ht. cbn [unwrap_res bind]. exists t. split; [reflexivity|]. intros d' oid' point' F1 F2 Fp.
    assert (d' = d) by congruence. subst d'. unfold ec_der in E2, F2. rewrite E2 in F2. injection F2 as <- <-.
    destruct (C23_single_word_comment k (enc_kind (pk_kind k))) as (t' & Ht' & Hp).
    + destruct E3 as (name & id & kind & [E3|[E3|[]]] & ->); injection E3 as <- <- <- <-; reflexivity.
    + destruct E3 as (name & id & kind & [E3|[E3|[]]] & ->); injection E3 as <- <- <- <-; reflexivity.
    + apply kd_intro. destruct E3 as (name & id & kind & [E3|[E3|[]]] & ->); injection E3 as <- <- <- <-;
        (split; [reflexivity|]; split; [unfold good_curve; tauto|]; split; [unfold ReaderFacts.fits; unfold field_ok, size, u32_max in Fp; lia|exact I]).
    + destruct E3 as (name & id & kind & _ & ->). exact I.
    + pose proof (eq_trans (eq_sym Ht) Ht') as X0. apply ok_inj in X0. subst t'. exact Hp.
  - unfold println. rewrite <- app_assoc. reflexivity.
  - destruct (C74_errors X contents) as ((_ & _ & H) & _). exact (H E).
Qed.
Print Assumptions C106_der_keys.

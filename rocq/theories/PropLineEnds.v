(** Property C134: line ends of the files that are read. *)
From Coq Require Import Lia.
From Verif Require Import Base BaseFacts Utf8 Utf8Facts Str StrFacts SpecWire SpecText SpecBase64 SpecKeys SpecSigner SpecSign Base64 Base64Facts
  KeyType KeyTypeFacts PubKeyType Writer WriterFacts Crypto PubKey PubKeyFacts PropPubKey Chrono AllowedSigner Cert CertFacts SpecCert
  TbsFacts PropCert PropCertText Signature PropSshSig PrivKey PropPrivKey X509 SpecX509 PropX509 Show SpecShow ShowFacts PropShow Files Piv SpecTools Tools
  CutFacts CutSignerFacts KindFacts PropInspect FileFacts PropFiles PropRewrite PropCertLines SpecLineEnds.

Lemma windows_app a b : windows (a ++ b) = windows a ++ windows b.
Proof. apply flat_map_app. Qed.
Lemma windows_cons b t : b <> x0a -> windows (b :: t) = b :: windows t.
Proof. destruct b; try reflexivity. congruence. Qed.
Lemma windows_plain l : no_nl l -> windows l = l.
Proof.
  unfold no_nl. induction l as [|b l IH]; intros H; [reflexivity|]. rewrite windows_cons by (intros ->; apply H; left; reflexivity).
  rewrite IH; [reflexivity|]. intros I. apply H. right. exact I.
Qed.
Lemma windows_line l r : no_nl l -> windows (l ++ x0a :: r) = l ++ x0d :: x0a :: windows r.
Proof. intros H. rewrite windows_app, windows_plain by exact H. reflexivity. Qed.
Lemma windows_lines t ls : lines_of t ls -> unix_text t -> lines_of (windows t) ls.
Proof.
  induction 1 as [|l Hl Hn|l rest ls Hl Hr IH|l rest ls Hl Hn Hr IH]; intros U.
  - constructor.
  - rewrite windows_plain by exact Hl. constructor; assumption.
  - exfalso. exact (U l rest eq_refl).
  - rewrite windows_line by exact Hl. constructor; [exact Hl|]. apply IH. intros a b ->. apply (U (l ++ x0a :: a) b).
    rewrite <- app_assoc. reflexivity.
Qed.
Lemma windows_same_lines t : unix_text t -> lines (windows t) = lines t.
Proof. intros U. apply lines_iff, windows_lines; [|exact U]. apply lines_iff. reflexivity. Qed.
(** A text without line break, or its first line and the rest. *)
Lemma first_line t : no_nl t \/ exists l r, t = l ++ x0a :: r /\ no_nl l.
Proof.
  unfold no_nl. induction t as [|b t IH]; [left; intros []|]. destruct (Byte.byte_eq_dec b x0a) as [->|N].
  - right. exists [], t. split; [reflexivity|intros []].
  - destruct IH as [H|(l & r & -> & H)].
    + left. intros [E|I]; auto.
    + right. exists (b :: l), r. split; [reflexivity|]. intros [E|I]; auto.
Qed.
Lemma by_lines (P : bytes -> Prop) : (forall t, no_nl t -> P t) -> (forall l r, no_nl l -> P r -> P (l ++ x0a :: r)) -> forall t, P t.
Proof.
  intros H1 H2 t. remember (length t) as n eqn:E. revert t E. induction n as [n IH] using (well_founded_induction Wf_nat.lt_wf). intros t ->.
  destruct (first_line t) as [H|(l & r & -> & H)]; [auto|]. apply H2; [exact H|]. apply (IH (length r)); [|reflexivity].
  rewrite app_length. cbn [length]. lia.
Qed.
Lemma windows_words t : utf8_text t -> split_whitespace (windows t) = split_whitespace t.
Proof.
  induction t as [t Ht|l r Hl IH] using by_lines; intros U.
  - rewrite windows_plain by exact Ht. reflexivity.
  - destruct (utf8_around _ U l x0a r eq_refl eq_refl) as [Ul Ur]. rewrite windows_line by exact Hl.
    change (l ++ x0d :: x0a :: windows r) with (l ++ [x0d] ++ ([] ++ [x0a] ++ windows r)). change (l ++ x0a :: r) with (l ++ [x0a] ++ r).
    rewrite (words_between l 13 [x0d]) by first [exact Ul|exact cr_char|exact cr_ws].
    rewrite (words_between [] 10 [x0a]) by first [exact nl_char|exact nl_ws|exact Utf8_nil].
    rewrite (words_between l 10 [x0a]) by first [exact Ul|exact nl_char|exact nl_ws]. rewrite IH by exact Ur. reflexivity.
Qed.
Lemma windows_utf8 t : utf8_text t -> utf8_text (windows t).
Proof.
  assert (N : utf8_text [x0d; x0a]) by (apply utf8_text_ascii; repeat constructor).
  induction t as [t Ht|l r Hl IH] using by_lines; intros U.
  - rewrite windows_plain by exact Ht. exact U.
  - destruct (utf8_around _ U l x0a r eq_refl eq_refl) as [Ul Ur]. rewrite windows_line by exact Hl. apply utf8_text_app; [exact Ul|].
    change (x0d :: x0a :: windows r) with ([x0d; x0a] ++ windows r). apply utf8_text_app; auto.
Qed.

(** ** C134 *)
(** Private keys, file signatures and allowed-signers files are read alike with either kind of line end:
    the same value, or the same error. *)
Theorem C134_line_ends : forall t : bytes, unix_text t ->
  (forall F K passphrase, sk_from_string F K (windows t) passphrase = sk_from_string F K t passphrase)
  /\ sshsig_from_armored_string (windows t) = sshsig_from_armored_string t
  /\ (forall tz, signers_from_string tz (windows t) = signers_from_string tz t).
Proof.
  intros t U. unfold sk_from_string, sshsig_from_armored_string, signers_from_string. rewrite windows_same_lines by exact U. auto.
Qed.
Print Assumptions C134_line_ends.

(** Public keys and certificates are, too, even if some line breaks are CR LF already. *)
Theorem C134_words : forall t : bytes, utf8_text t ->
  utf8_text (windows t) /\ pk_from_string (windows t) = pk_from_string t
  /\ forall C, cert_from_string C (windows t) = cert_from_string C t.
Proof.
  intros t U. split; [apply windows_utf8, U|]. unfold pk_from_string, cert_from_string. rewrite windows_words by exact U. auto.
Qed.
Print Assumptions C134_words.

(** A line break at the end of the file makes no difference. *)
Lemma last_break t ls : lines_of t ls -> (forall a, t <> a ++ [x0a]) -> (forall a, t <> a ++ [x0d]) -> t <> [] -> lines_of (t ++ [x0a]) ls.
Proof.
  induction 1 as [|l Hl Hn|l rest ls Hl Hr IH|l rest ls Hl Hn Hr IH]; intros N1 N2 N3.
  - congruence.
  - apply (L_lf l [] []); [exact Hl|exact N2|constructor].
  - rewrite <- app_assoc. apply L_crlf; [exact Hl|]. apply IH.
    + intros a ->. apply (N1 (l ++ x0d :: x0a :: a)). rewrite <- app_assoc. reflexivity.
    + intros a ->. apply (N2 (l ++ x0d :: x0a :: a)). rewrite <- app_assoc. reflexivity.
    + intros ->. apply (N1 (l ++ [x0d])). rewrite <- app_assoc. reflexivity.
  - rewrite <- app_assoc. apply L_lf; [exact Hl|exact Hn|]. apply IH.
    + intros a ->. apply (N1 (l ++ x0a :: a)). rewrite <- app_assoc. reflexivity.
    + intros a ->. apply (N2 (l ++ x0a :: a)). rewrite <- app_assoc. reflexivity.
    + intros ->. apply (N1 l). reflexivity.
Qed.
Theorem C134_last_line : forall t : bytes, (forall a, t <> a ++ [x0a]) -> (forall a, t <> a ++ [x0d]) -> t <> [] ->
  (forall F K passphrase, sk_from_string F K (t ++ [x0a]) passphrase = sk_from_string F K t passphrase)
  /\ sshsig_from_armored_string (t ++ [x0a]) = sshsig_from_armored_string t
  /\ (forall tz, signers_from_string tz (t ++ [x0a]) = signers_from_string tz t)
  /\ (utf8_text t -> pk_from_string (t ++ [x0a]) = pk_from_string t
      /\ forall C, cert_from_string C (t ++ [x0a]) = cert_from_string C t).
Proof.
  intros t N1 N2 N3. assert (E : lines (t ++ [x0a]) = lines t) by (apply lines_iff, last_break; [apply lines_iff; reflexivity|assumption..]).
  unfold sk_from_string, sshsig_from_armored_string, signers_from_string. rewrite E. do 3 (split; [reflexivity|]).
  intros U. unfold pk_from_string, cert_from_string. pose proof (words_between t 10 [x0a] [] U nl_char nl_ws) as W. cbn [List.app] in W.
  rewrite W. change (split_whitespace []) with (@nil bytes). rewrite app_nil_r. auto.
Qed.
Print Assumptions C134_last_line.

(** ssh-cert-info and ssh-pubkey-from-cert print the same if no line is empty. *)
Lemma lines_alike C show why t : utf8_text t -> no_empty_line t ->
  forall i, certificate_lines C show why i (split_on newline (windows t)) = certificate_lines C show why i (split_on newline t).
Proof.
  induction t as [t Ht|l r Hl IH] using by_lines; intros U [E1 E2] i.
  - rewrite windows_plain by exact Ht. reflexivity.
  - destruct (utf8_around _ U l x0a r eq_refl eq_refl) as [Ul Ur].
    assert (Nr : no_empty_line r).
    { split; [intros b ->; exact (E2 l b eq_refl)|]. intros a b ->. apply (E2 (l ++ x0a :: a) b). rewrite <- app_assoc. reflexivity. }
    rewrite windows_line by exact Hl.
    assert (S1 : split_on newline (l ++ x0d :: x0a :: windows r) = (l ++ [x0d]) :: split_on newline (windows r)).
    { change (l ++ x0d :: x0a :: windows r) with (l ++ [x0d] ++ newline :: windows r). rewrite app_assoc. apply (split_item newline (l ++ [x0d]) []).
      intros I. apply in_app_iff in I. destruct I as [I|[I|[]]]; [exact (Hl I)|discriminate]. }
    assert (S2 : split_on newline (l ++ x0a :: r) = l :: split_on newline r) by (apply (split_item newline l []), Hl).
    rewrite S1, S2. cbn [certificate_lines]. rewrite read_cr by exact Ul.
    destruct l as [|b l]; [exfalso; exact (E1 r eq_refl)|]. cbn [List.app]. rewrite IH by assumption. reflexivity.
Qed.
Theorem C134_programs : forall (C : crypto) (iter : hashmap -> hashmap) (why : error -> bytes) (t : bytes), utf8_text t -> no_empty_line t ->
  ssh_cert_info C iter why (windows t) = ssh_cert_info C iter why t
  /\ ssh_pubkey_from_cert C why (windows t) = ssh_pubkey_from_cert C why t.
Proof. intros C iter why t U N. split; apply lines_alike; assumption. Qed.
Print Assumptions C134_programs.

(** ** Exceptions and examples *)
(** At an empty line of a Windows file the programs do not stop: they report a bad certificate and read on. *)
Theorem C134_empty_line_refuted : exists t : bytes, utf8_text t
  /\ ssh_pubkey_from_cert lax_crypto (fun _ => []) t = ([], true)
  /\ ssh_pubkey_from_cert lax_crypto (fun _ => []) (windows t) <> ([], true).
Proof.
  exists [x0a; x0a]. split; [apply utf8_text_ascii; repeat constructor|]. split; [vm_compute; reflexivity|]. vm_compute. discriminate.
Qed.
Print Assumptions C134_empty_line_refuted.
(** A file whose line ends were converted twice is refused, except as a public key or a certificate. *)
Theorem C134_twice_refuted : exists t : bytes, unix_text t /\ sshsig_from_armored_string (windows t) = Ok ex_ssig
  /\ sshsig_from_armored_string (windows (windows t)) = Err EInvalidFormat.
Proof.
  exists ex_armor. split; [|split; vm_compute; reflexivity].
  assert (N : ~ In x0d ex_armor).
  { assert (B : forallb (fun b => negb (byte_eqb b x0d)) ex_armor = true) by (vm_compute; reflexivity). rewrite forallb_forall in B.
    intros I. specialize (B _ I). discriminate. }
  intros a b E. apply N. rewrite E. apply in_app_iff. right. left. reflexivity.
Qed.
Print Assumptions C134_twice_refuted.

Example C134_case : exists text, sk_write ex_ed = Ok text /\ unix_text text
  /\ sk_from_string ex_features ex_ops (windows text) None = Ok ex_ed /\ length (windows text) = length text + 7.
Proof.
  eexists. split; [vm_compute; reflexivity|]. split; [|split; vm_compute; reflexivity].
  match goal with |- unix_text ?t => assert (N : ~ In x0d t) end.
  { match goal with |- ~ In x0d ?t => assert (B : forallb (fun b => negb (byte_eqb b x0d)) t = true) by (vm_compute; reflexivity) end.
    rewrite forallb_forall in B. intros I. specialize (B _ I). discriminate. }
  intros a b E. apply N. rewrite E. apply in_app_iff. right. left. reflexivity.
Qed.
Example C134_case_programs : exists a b, parsed_with [OpKeyId (s2b "ann laptop"); OpPrincipal (s2b "ann")] = Ok a
  /\ parsed_with [OpKeyId (s2b "bob")] = Ok b
  /\ snd (ssh_pubkey_from_cert lax_crypto (fun _ => []) (windows (ended_lines (map cert_display [a; b])))) = true
  /\ ssh_pubkey_from_cert lax_crypto (fun _ => []) (windows (ended_lines (map cert_display [a; b])))
     = ssh_pubkey_from_cert lax_crypto (fun _ => []) (ended_lines (map cert_display [a; b])).
Proof. eexists _, _. do 3 (split; [vm_compute; reflexivity|]). vm_compute. reflexivity. Qed.

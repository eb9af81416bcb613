(** Property C146: the layout of the texts that are read. *)
From Coq Require Import Lia.
From Verif Require Import Base BaseFacts Utf8 Utf8Facts Str StrFacts SpecWire SpecText SpecBase64 SpecKeys SpecSigner SpecSshSig SpecPrivKey Base64 Base64Facts
  KeyType PubKeyType Writer Crypto PubKey PubKeyFacts PropPubKey Chrono AllowedSigner SignerFacts FileFacts PropSigner Cert TbsFacts PropCert Signature
  SshSigFacts PropSshSig PrivKey PropPrivKey KindFacts SpecLayout.

(** ** Public keys and certificates *)
Lemma first_words (ws ws' : list bytes) n : n < 3 -> firstn 3 ws = firstn 3 ws' -> nth_error ws n = nth_error ws' n.
Proof.
  intros Hn E. destruct ws as [|a [|b [|c ws]]], ws' as [|a' [|b' [|c' ws']]]; cbn [firstn] in E; try discriminate;
    destruct n as [|[|[|n]]]; cbn [nth_error]; try lia; congruence.
Qed.
(** Only the first three words of a text count, and not how they are set apart. *)
Theorem C146_words : forall (t t' : bytes) (ws ws' : list bytes), words_of t ws -> words_of t' ws' -> firstn 3 ws = firstn 3 ws' ->
  pk_from_string t = pk_from_string t' /\ forall C, cert_from_string C t = cert_from_string C t'.
Proof.
  intros t t' ws ws' H H' E. apply words_of_split in H, H'. unfold pk_from_string, cert_from_string. rewrite H, H'.
  rewrite (first_words ws ws' 0), (first_words ws ws' 1), (first_words ws ws' 2) by (lia || exact E). auto.
Qed.
Print Assumptions C146_words.

(** ** Private keys and armored signatures *)
Lemma body_of e body rest : ~ In e body -> armor_body e (body ++ e :: rest) [] = Ok (concat body).
Proof. intros N. apply armor_body_iff. exists body, rest. auto. Qed.
(** How the base64 text is cut into lines does not matter, nor do empty lines in it; the result is the same, an error or a key. *)
Theorem C146_rewrapped : forall (t t' : bytes) (body body' : list bytes), concat body = concat body' ->
  (armored_lines key_begin_line key_end_line body t -> armored_lines key_begin_line key_end_line body' t' ->
     forall F K passphrase, sk_from_string F K t passphrase = sk_from_string F K t' passphrase)
  /\ (armored_lines begin_line end_line body t -> armored_lines begin_line end_line body' t' ->
     sshsig_from_armored_string t = sshsig_from_armored_string t').
Proof.
  intros t t' body body' E. split.
  - intros (r & H & N) (r' & H' & N') F K pass. apply lines_iff in H, H'. unfold sk_from_string. rewrite H, H'. cbn [tl].
    change key_end_line with key_end in *. rewrite (body_of key_end body r N), (body_of key_end body' r' N'), E. reflexivity.
  - intros (r & H & N) (r' & H' & N'). apply lines_iff in H, H'. unfold sshsig_from_armored_string. rewrite H, H'. cbn [tl].
    change end_line with sig_end in *. rewrite (body_of sig_end body r N), (body_of sig_end body' r' N'), E. reflexivity.
Qed.
Print Assumptions C146_rewrapped.

Lemma decodes_clean t b x : b64_decode t = Some b -> In x t -> ~ foreign x.
Proof.
  intros H I [F1 F2]. apply b64_decode_iff in H. destruct H as (k & idx & n & E & Hi & _).
  assert (J : In x (map (fun i => nth i alphabet x00) idx ++ repeat x3d n)) by (rewrite <- E; apply in_or_app; left; exact I).
  apply in_app_or in J. destruct J as [J|J].
  - apply in_map_iff in J. destruct J as (i & <- & J). apply F1. apply nth_In. rewrite Forall_forall in Hi. exact (Hi i J).
  - apply repeat_spec in J. exact (F2 J).
Qed.
(** White space, or anything else, inside of the base64 text is refused. *)
Theorem C146_inside : forall (t : bytes) (body : list bytes) (l : bytes) (b : byte), In l body -> In b l -> foreign b ->
  (armored_lines key_begin_line key_end_line body t -> forall F K passphrase, sk_from_string F K t passphrase = Err EDecode)
  /\ (armored_lines begin_line end_line body t -> sshsig_from_armored_string t = Err EDecode).
Proof.
  intros t body l b Hl Hb F.
  assert (D : b64_decode (concat body) = None).
  { destruct (b64_decode (concat body)) as [d|] eqn:E; [|reflexivity]. exfalso. refine (decodes_clean _ _ b E _ F).
    apply in_concat. eauto. }
  split.
  - intros (r & H & N) F0 K pass. apply lines_iff in H. unfold sk_from_string. rewrite H. cbn [tl].
    change key_end_line with key_end in *. change key_begin_line with key_begin in *.
    rewrite bytes_eqb_refl, (body_of key_end body r N). cbn [negb bind]. rewrite D. reflexivity.
  - intros (r & H & N). apply lines_iff in H. unfold sshsig_from_armored_string. rewrite H. cbn [tl].
    change end_line with sig_end in *. change begin_line with sig_begin in *.
    rewrite bytes_eqb_refl, (body_of sig_end body r N). cbn [negb bind]. rewrite D. reflexivity.
Qed.
Print Assumptions C146_inside.

(** The first line has to be there as it is, and so has the last: an empty line in front, a blank at its end or an indented
    text are refused. *)
Theorem C146_frame : forall (t : bytes) (ls : list bytes), lines_of t ls ->
  ((forall more, ls <> key_begin_line :: more) \/ ~ In key_end_line ls ->
     forall F K passphrase, sk_from_string F K t passphrase = Err EInvalidFormat)
  /\ ((forall more, ls <> begin_line :: more) \/ ~ In end_line ls -> sshsig_from_armored_string t = Err EInvalidFormat).
Proof.
  intros t ls H. apply lines_iff in H. change key_begin_line with key_begin. change key_end_line with key_end.
  change begin_line with sig_begin. change end_line with sig_end. split.
  - intros D F K pass. unfold sk_from_string. rewrite H. destruct ls as [|h ls]; [reflexivity|].
    destruct (bytes_eqb h key_begin) eqn:E; [|reflexivity]. apply bytes_eqb_eq in E. subst h. cbn [negb tl].
    destruct D as [D|D]; [exfalso; apply (D ls eq_refl)|]. rewrite armor_body_err; [reflexivity|]. intros I. apply D. right. exact I.
  - intros D. unfold sshsig_from_armored_string. rewrite H. destruct ls as [|h ls]; [reflexivity|].
    destruct (bytes_eqb h sig_begin) eqn:E; [|reflexivity]. apply bytes_eqb_eq in E. subst h. cbn [negb tl].
    destruct D as [D|D]; [exfalso; apply (D ls eq_refl)|]. rewrite armor_body_err; [reflexivity|]. intros I. apply D. right. exact I.
Qed.
Print Assumptions C146_frame.

(** ** Allowed-signers files *)
Lemma stripped_one l u u' : stripped l u -> stripped l u' -> u = u'.
Proof. intros H H'. apply trim_iff' in H, H'. congruence. Qed.
Lemma meant_entries tz ls us es : meant ls us -> (entries tz ls es <-> Forall2 (accepted_line tz) us es).
Proof.
  intros M. revert es. induction M as [|l ls us N M IH|l u ls us N Hu M IH]; intros es.
  - split; intros H; inversion H; constructor.
  - rewrite <- IH. split; [|intros H; apply En_skip; assumption].
    intros H. inversion H as [| |? ? ? ? ? N']; subst; [assumption|contradiction].
  - split.
    + intros H. inversion H as [|? ? ? N'|? u' a ? es' N' S A H']; subst; [contradiction|].
      rewrite (stripped_one _ _ _ Hu S). constructor; [exact A|]. apply IH. exact H'.
    + intros H. inversion H as [|? a ? es' A H']; subst. apply (En_entry tz l u); try assumption. apply IH. exact H'.
Qed.
Lemma meant_left l u post : ~ no_entry l -> stripped l u -> forall pre us, meant (pre ++ l :: post) us ->
  exists us1 us2, us = us1 ++ u :: us2 /\ meant pre us1.
Proof.
  intros N Hu. induction pre as [|p pre IH]; intros us M; cbn [List.app] in M.
  - inversion M as [|? ? ? N'|? u' ? us' N' S M']; subst; [contradiction|]. rewrite (stripped_one _ _ _ Hu S).
    exists [], us'. split; [reflexivity|constructor].
  - inversion M as [|? ? ? N' M'|? u' ? us' N' S M']; subst; destruct (IH _ M') as (us1 & us2 & -> & M1).
    + exists us1, us2. split; [reflexivity|apply M_skip; assumption].
    + exists (u' :: us1), us2. split; [reflexivity|apply M_line; assumption].
Qed.
Lemma meant_right u us2 ls us : meant ls us -> forall us1, us = us1 ++ u :: us2 ->
  exists pre l post, ls = pre ++ l :: post /\ meant pre us1 /\ ~ no_entry l /\ stripped l u.
Proof.
  induction 1 as [|l ls us N M IH|l u0 ls us N Hu M IH]; intros us1 E.
  - destruct us1; discriminate.
  - destruct (IH us1 E) as (pre & l' & post & -> & M' & R). exists (l :: pre), l', post. split; [reflexivity|].
    split; [apply M_skip; assumption|exact R].
  - destruct us1 as [|v us1]; cbn [List.app] in E.
    + assert (u0 = u) by congruence. subst u0. exists [], l, ls. split; [reflexivity|]. split; [constructor|auto].
    + assert (u0 = v) by congruence. subst u0. assert (E' : us = us1 ++ u :: us2) by congruence.
      destruct (IH us1 E') as (pre & l' & post & -> & M' & R). exists (l :: pre), l', post. split; [reflexivity|].
      split; [apply M_line; assumption|exact R].
Qed.

(** Blank lines, comments and white space around entries do not matter, but for the line number in an error. *)
Theorem C146_signers : forall (tz : timezone) (t t' : bytes) (ls ls' us : list bytes), lines_of t ls -> lines_of t' ls' ->
  meant ls us -> meant ls' us ->
  (forall es, signers_from_string tz t = Ok es <-> signers_from_string tz t' = Ok es)
  /\ (forall e n, signers_from_string tz t = Err (EInvalidAllowedSigners e n) ->
        exists n', signers_from_string tz t' = Err (EInvalidAllowedSigners e n'))
  /\ (signers_from_string tz t = Panic <-> signers_from_string tz t' = Panic).
Proof.
  intros tz t t' ls ls' us H H' M M'. destruct (C66_file_is_its_lines tz t ls H) as (O & R & P).
  destruct (C66_file_is_its_lines tz t' ls' H') as (O' & R' & P'). split; [|split].
  - intros es. rewrite O, O', (meant_entries tz ls us es M), (meant_entries tz ls' us es M'). reflexivity.
  - intros e n E. apply R in E. destruct E as (pre & l & post & es & u & e' & -> & E1 & N & S & J & E). injection E as -> ->.
    destruct (meant_left l u post N S pre us M) as (us1 & us2 & -> & M1).
    destruct (meant_right u us2 ls' _ M' us1 eq_refl) as (pre' & l' & post' & -> & M1' & N' & S').
    exists (length pre'). apply R'. exists pre', l', post', es, u, e'. split; [reflexivity|].
    split; [|auto]. apply (meant_entries tz pre' us1 es M1'), (meant_entries tz pre us1 es M1), E1.
  - rewrite P, P'. split.
    + intros (pre & l & post & es & u & -> & E1 & N & S & J).
      destruct (meant_left l u post N S pre us M) as (us1 & us2 & -> & M1).
      destruct (meant_right u us2 ls' _ M' us1 eq_refl) as (pre' & l' & post' & -> & M1' & N' & S').
      exists pre', l', post', es, u. split; [reflexivity|].
      split; [|auto]. apply (meant_entries tz pre' us1 es M1'), (meant_entries tz pre us1 es M1), E1.
    + intros (pre & l & post & es & u & -> & E1 & N & S & J).
      destruct (meant_left l u post N S pre us M') as (us1 & us2 & -> & M1).
      destruct (meant_right u us2 ls _ M us1 eq_refl) as (pre' & l' & post' & -> & M1' & N' & S').
      exists pre', l', post', es, u. split; [reflexivity|].
      split; [|auto]. apply (meant_entries tz pre' us1 es M1'), (meant_entries tz pre us1 es M1), E1.
Qed.
Print Assumptions C146_signers.

(** ** Exceptions and cases *)
(** A line break inside of the base64 text of a public key is not taken for layout, unlike in a private key: the rest of the
    text is taken for the comment. *)
Theorem C146_wrapped_public_key_refuted : exists a b k, pk_from_string (s2b "ssh-ed25519 " ++ a ++ b) = Ok k
  /\ pk_from_string (s2b "ssh-ed25519 " ++ a ++ x0a :: b) <> Ok k.
Proof.
  exists (firstn 40 (skipn 12 ex_key_text)), (skipn 52 ex_key_text), ex_key. split; [vm_compute; reflexivity|]. vm_compute. discriminate.
Qed.
Print Assumptions C146_wrapped_public_key_refuted.
(** A white-space character in front of a private key is enough for it to be refused, while none harms a public key. *)
Theorem C146_indented_refuted : exists (t : bytes) (k : privkey) (p : bytes) (q : pubkey),
  sk_from_string ex_features ex_ops t None = Ok k /\ sk_from_string ex_features ex_ops (x20 :: t) None = Err EInvalidFormat
  /\ sk_from_string ex_features ex_ops (x0a :: t) None = Err EInvalidFormat
  /\ pk_from_string p = Ok q /\ pk_from_string (x0a :: x20 :: p) = Ok q.
Proof.
  destruct (sk_write PropPrivKey.ex_ed) as [t|e|] eqn:E; [|vm_compute in E; discriminate..].
  vm_compute in E. apply ok_inj in E. exists t, PropPrivKey.ex_ed, ex_key_text, ex_key. subst t.
  do 4 (split; [vm_compute; reflexivity|]). vm_compute. reflexivity.
Qed.
Print Assumptions C146_indented_refuted.

(** The signature of the example in lines of ten characters, with an empty line; and with a blank in it. *)
Fixpoint tens (n : nat) (t : bytes) : list bytes :=
  match n with O => [t] | S n => firstn 10 t :: tens n (skipn 10 t) end.
Definition ex_body : list bytes := firstn (length (lines ex_armor) - 2) (tl (lines ex_armor)).
Definition ex_rewrapped : bytes := flat_map (fun l => l ++ [x0a]) (begin_line :: tens 5 (concat ex_body) ++ [[]; end_line]).
Example C146_case : concat ex_body = concat (tens 5 (concat ex_body) ++ [[]]) /\ tens 5 (concat ex_body) ++ [[]] <> ex_body
  /\ armored_lines begin_line end_line ex_body ex_armor
  /\ armored_lines begin_line end_line (tens 5 (concat ex_body) ++ [[]]) ex_rewrapped
  /\ sshsig_from_armored_string ex_rewrapped = Ok ex_ssig.
Proof.
  assert (N : forall l, ~ In x2d (concat l) -> ~ In end_line l).
  { intros l H I. apply H. apply in_concat. exists end_line. split; [exact I|left; reflexivity]. }
  assert (D : forall l, forallb (fun b => negb (byte_eqb b x2d)) l = true -> ~ In x2d l).
  { intros l B I. rewrite forallb_forall in B. specialize (B _ I). discriminate. }
  split; [vm_compute; reflexivity|]. split; [intros E; apply (f_equal (@length _)) in E; vm_compute in E; discriminate E|].
  split; [exists []; split; [apply lines_iff; vm_compute; reflexivity|apply N, D; vm_compute; reflexivity]|].
  split; [exists []; split; [apply lines_iff; vm_compute; reflexivity|apply N, D; vm_compute; reflexivity]|].
  vm_compute. reflexivity.
Qed.
Example C146_case_signers : exists us, us <> []
  /\ meant (lines (s2b "a " ++ ex_key_text)) us
  /\ meant (lines (s2b "# signers" ++ nl ++ nl ++ s2b "  a " ++ ex_key_text ++ s2b " ")) us
  /\ exists e, signers_from_string utc (s2b "a " ++ ex_key_text) = Ok [e].
Proof.
  assert (L : forall l u, trim l = u -> nonempty u = true -> starts_with_byte pound u = false -> ~ no_entry l /\ stripped l u).
  { intros l u Hu H1 H2. split; [|apply trim_iff', Hu]. intros [H|(c & H)]; apply trim_iff' in H; rewrite Hu in H; rewrite H in *; [discriminate H1|discriminate H2]. }
  eexists [_]. split; [discriminate|]. split; [|split].
  - refine (eq_ind_r (fun ls => meant ls _) _ (_ : lines (s2b "a " ++ ex_key_text) = [s2b "a " ++ ex_key_text])); [|vm_compute; reflexivity].
    destruct (L (s2b "a " ++ ex_key_text) _ eq_refl eq_refl eq_refl) as [L1 L2]. apply M_line; [exact L1|exact L2|constructor].
  - match goal with |- meant ?x _ => let y := eval vm_compute in x in replace x with y by (vm_compute; reflexivity) end.
    apply M_skip; [right; eexists; apply trim_iff'; vm_compute; reflexivity|].
    apply M_skip; [left; apply trim_iff'; vm_compute; reflexivity|].
    match goal with |- meant [?x] _ => destruct (L x (trim (s2b "a " ++ ex_key_text)) ltac:(vm_compute; reflexivity) eq_refl eq_refl) as [L1 L2] end.
    apply M_line; [exact L1|exact L2|constructor].
  - eexists. vm_compute. reflexivity.
Qed.

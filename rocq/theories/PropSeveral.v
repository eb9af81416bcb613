(** Property C145: what follows in a file behind what is read. *)
From Coq Require Import Lia.
From Verif Require Import Base BaseFacts Utf8 Utf8Facts Str StrFacts SpecWire SpecText SpecBase64 SpecKeys SpecSigner SpecSshSig SpecPrivKey Base64
  KeyType PubKeyType Writer Crypto PubKey PubKeyFacts PropPubKey Chrono AllowedSigner SignerFacts PropSigner Cert TbsFacts PropCert Signature
  SshSigFacts PropSshSig PrivKey PropPrivKey CutFacts CutSignerFacts KindFacts SpecFiles PropMalleable SpecLineEnds PropLineEnds SpecSeveral.

(** ** Lines *)
Lemma lines_line l r : no_nl l -> lines (l ++ x0a :: r) = strip_cr l :: lines r.
Proof. intros H. unfold lines. rewrite lines_aux_app by exact H. reflexivity. Qed.
Lemma lines_joined (a r : bytes) : lines (a ++ x0a :: r) = lines (a ++ [x0a]) ++ lines r.
Proof.
  revert r. induction a as [a Ha|l a Hl IH] using by_lines; intros r.
  - rewrite !lines_line by exact Ha. reflexivity.
  - rewrite <- !app_assoc. cbn [List.app]. rewrite !(lines_line l) by exact Hl. cbn [List.app]. f_equal. apply IH.
Qed.
Lemma lines_breaks (a : bytes) : length (lines (a ++ [x0a])) = breaks a + 1.
Proof.
  induction a as [a Ha|l a Hl IH] using by_lines; unfold breaks in *.
  - rewrite lines_line by exact Ha. rewrite (proj1 (count_occ_not_In _ _ _) Ha). reflexivity.
  - rewrite <- app_assoc. cbn [List.app]. rewrite lines_line by exact Hl. cbn [length]. rewrite IH, count_occ_app.
    rewrite (proj1 (count_occ_not_In _ _ _) Hl), count_occ_cons_eq by reflexivity. lia.
Qed.

Lemma body_joined e pre : forall post post' acc, armor_body e (pre ++ e :: post) acc = armor_body e (pre ++ e :: post') acc.
Proof.
  induction pre as [|p pre IH]; intros post post' acc; cbn [List.app armor_body].
  - rewrite bytes_eqb_refl. reflexivity.
  - destruct (bytes_eqb p e); [reflexivity|apply IH].
Qed.
Lemma first_at (e : bytes) ls : In e ls -> exists pre post, ls = pre ++ e :: post.
Proof. intros H. apply in_split in H. exact H. Qed.

(** Both readers of armored texts see only the lines up to the end line. *)
Lemma key_up_to F K pass t t' pre post post' : lines t = pre ++ key_end :: post -> lines t' = pre ++ key_end :: post' ->
  sk_from_string F K t' pass = sk_from_string F K t pass.
Proof.
  intros E E'. unfold sk_from_string. rewrite E, E'. destruct pre as [|h pre]; cbn [List.app tl].
  - reflexivity.
  - rewrite (body_joined key_end pre post' post). reflexivity.
Qed.
Lemma sig_up_to t t' pre post post' : lines t = pre ++ sig_end :: post -> lines t' = pre ++ sig_end :: post' ->
  sshsig_from_armored_string t' = sshsig_from_armored_string t.
Proof.
  intros E E'. unfold sshsig_from_armored_string. rewrite E, E'. destruct pre as [|h pre]; cbn [List.app tl].
  - reflexivity.
  - rewrite (body_joined sig_end pre post' post). reflexivity.
Qed.
Lemma lines_go_on e t r : ~ In x0a e -> (forall l, e <> l ++ [x0d]) -> In e (lines t) ->
  exists pre post post', lines t = pre ++ e :: post /\ lines (t ++ x0a :: r) = pre ++ e :: post'.
Proof.
  intros N1 N2 H. apply first_at in H. destruct H as (pre & post & E).
  destruct (lines_after e r pre t post N1 N2 (proj1 (lines_iff _ _) E)) as (post' & E').
  exists pre, post, post'. split; [exact E|]. apply lines_iff, E'.
Qed.
Lemma ended_go_on e t r : In e (lines (t ++ [x0a])) ->
  exists pre post post', lines (t ++ [x0a]) = pre ++ e :: post /\ lines (t ++ x0a :: r) = pre ++ e :: post'.
Proof.
  intros H. apply first_at in H. destruct H as (pre & post & E). exists pre, post, (post ++ lines r). split; [exact E|].
  rewrite lines_joined, E, <- app_assoc. reflexivity.
Qed.
Lemma end_lines : (~ In x0a key_end /\ forall l, key_end <> l ++ [x0d]) /\ (~ In x0a sig_end /\ forall l, sig_end <> l ++ [x0d]).
Proof.
  split; (split; [vm_compute; intuition discriminate|]); intros l E; apply (f_equal (fun l => last l x00)) in E; rewrite last_last in E;
    vm_compute in E; discriminate E.
Qed.

(** ** Private keys and armored signatures *)
(** What follows the line that ends a private key is not looked at, whether the text is accepted or refused. *)
Theorem C145_private_key : forall (F : features) (K : keyops) (t rest : bytes) (ls : list bytes) (passphrase : option bytes),
  (lines_of t ls -> In key_end_line ls ->
     sk_from_string F K (t ++ x0a :: rest) passphrase = sk_from_string F K t passphrase)
  /\ (lines_of (t ++ [x0a]) ls -> In key_end_line ls ->
     sk_from_string F K ((t ++ [x0a]) ++ rest) passphrase = sk_from_string F K (t ++ [x0a]) passphrase).
Proof.
  intros F K t rest ls pass. split; intros Hl Hi; apply lines_iff in Hl; subst ls.
  - destruct end_lines as [[N1 N2] _]. destruct (lines_go_on key_end t rest N1 N2 Hi) as (pre & post & post' & E & E').
    apply (key_up_to F K pass t _ pre post post' E E').
  - rewrite <- app_assoc. cbn [List.app]. destruct (ended_go_on key_end t rest Hi) as (pre & post & post' & E & E').
    apply (key_up_to F K pass _ _ pre post post' E E').
Qed.
Print Assumptions C145_private_key.

Lemma key_has_end F K t pass k : sk_from_string F K t pass = Ok k -> In key_end (lines t).
Proof.
  unfold sk_from_string. destruct (negb _); [discriminate|]. intros H. apply bind_ok in H. destruct H as (enc & H & _).
  apply armor_body_iff in H. destruct H as (body & rest & E & _). destruct (lines t) as [|h ls]; [destruct body; discriminate|].
  cbn [tl] in E. rewrite E. right. apply in_or_app. right. left. reflexivity.
Qed.
Lemma sig_has_end t s : sshsig_from_armored_string t = Ok s -> In sig_end (lines t).
Proof.
  unfold sshsig_from_armored_string. destruct (negb _); [discriminate|]. intros H. apply bind_ok in H. destruct H as (enc & H & _).
  apply armor_body_iff in H. destruct H as (body & rest & E & _). destruct (lines t) as [|h ls]; [destruct body; discriminate|].
  cbn [tl] in E. rewrite E. right. apply in_or_app. right. left. reflexivity.
Qed.

(** Of several private keys in a file the first one is read; a key written over an old file is read as written, whatever is
    left of the old file. *)
Theorem C145_first_private_key : forall (F : features) (K : keyops) (t rest : bytes) (passphrase : option bytes) (k : privkey),
  (sk_from_string F K t passphrase = Ok k -> sk_from_string F K (t ++ x0a :: rest) passphrase = Ok k)
  /\ (sk_write k = Ok t -> forall pass, sk_from_string F K (t ++ rest) pass = sk_from_string F K t pass).
Proof.
  intros F K t rest pass k. split.
  - intros H. rewrite <- H. apply (C145_private_key F K t rest (lines t) pass); [apply lines_iff; reflexivity|].
    apply (key_has_end F K t pass k H).
  - intros H pass'. unfold sk_write in H. apply bind_ok in H. destruct H as (enc & _ & H). apply ok_inj in H.
    assert (E : t = (key_begin ++ [newline] ++ split_lines 0 (b64_encode enc) ++ [newline] ++ key_end) ++ [x0a]).
    { subst t. rewrite <- !app_assoc. reflexivity. }
    rewrite E. refine (proj2 (C145_private_key F K _ rest _ pass') (proj1 (lines_iff _ _) eq_refl) _).
    rewrite <- !app_assoc. cbn [List.app].
    change (key_begin ++ newline :: split_lines 0 (b64_encode enc) ++ newline :: key_end ++ [x0a])
      with (key_begin ++ x0a :: split_lines 0 (b64_encode enc) ++ x0a :: key_end ++ [x0a]).
    rewrite lines_joined. apply in_or_app. right. rewrite lines_joined. apply in_or_app. right.
    rewrite lines_line by (exact (proj1 (proj1 end_lines))). left. vm_compute. reflexivity.
Qed.
Print Assumptions C145_first_private_key.

(** The same for armored signatures, accepted or refused. *)
Theorem C145_signature : forall (t rest : bytes) (ls : list bytes),
  (lines_of t ls -> In end_line ls -> sshsig_from_armored_string (t ++ x0a :: rest) = sshsig_from_armored_string t)
  /\ (lines_of (t ++ [x0a]) ls -> In end_line ls ->
        sshsig_from_armored_string ((t ++ [x0a]) ++ rest) = sshsig_from_armored_string (t ++ [x0a]))
  /\ (forall s, sshsig_from_armored_string t = Ok s -> In end_line (lines t)).
Proof.
  intros t rest ls. split; [|split; [|intros s H; apply (sig_has_end t s H)]]; intros Hl Hi; apply lines_iff in Hl; subst ls.
  - destruct end_lines as [_ [N1 N2]]. destruct (lines_go_on sig_end t rest N1 N2 Hi) as (pre & post & post' & E & E').
    apply (sig_up_to t _ pre post post' E E').
  - rewrite <- app_assoc. cbn [List.app]. destruct (ended_go_on sig_end t rest Hi) as (pre & post & post' & E & E').
    apply (sig_up_to _ _ pre post post' E E').
Qed.
Print Assumptions C145_signature.

(** ** Public keys and certificates *)
Lemma words_joined t rest : utf8_text t -> split_whitespace (t ++ x0a :: rest) = split_whitespace t ++ split_whitespace rest.
Proof. intros U. apply (words_between t 10 [x0a] rest U nl_char nl_ws). Qed.

(** What follows a public key does not change it, but a key without comment gets the next word of the file as comment. *)
Theorem C145_public_key : forall (t rest : bytes) (following : list bytes) (k : pubkey), utf8_text t -> words_of rest following ->
  pk_from_string t = Ok k ->
  exists k', pk_from_string (t ++ x0a :: rest) = Ok k' /\ key_but_comment k' k
    /\ pk_comment k' = comment_before (pk_comment k) following.
Proof.
  intros t rest ws k U Hw H. apply words_of_split in Hw. subst ws. destruct (split_whitespace t) as [|w1 [|w2 ws]] eqn:E.
  - unfold pk_from_string in H. rewrite E in H. discriminate.
  - unfold pk_from_string in H. rewrite E in H. discriminate.
  - apply (pk_from_string_words t w1 w2 ws k E) in H. destruct H as (H1 & H2 & H3 & post & H4).
    exists (mkPubKey (pk_type k) (pk_kind k) (comment_before (pk_comment k) (split_whitespace rest))).
    split; [|split; [split; reflexivity|reflexivity]].
    apply (pk_from_string_words (t ++ x0a :: rest) w1 w2 (ws ++ split_whitespace rest)).
    + rewrite words_joined by exact U. rewrite E. reflexivity.
    + split; [exact H1|]. split; [exact H2|]. split; [|exists post; exact H4].
      cbn [pk_comment]. rewrite H3. destruct ws as [|w ws]; [destruct (split_whitespace rest)|]; reflexivity.
Qed.
Print Assumptions C145_public_key.

(** The same for certificates. *)
Theorem C145_certificate : forall (C : crypto) (t rest : bytes) (following : list bytes) (c : cert), utf8_text t -> words_of rest following ->
  cert_from_string C t = Ok c ->
  exists c', cert_from_string C (t ++ x0a :: rest) = Ok c' /\ cert_but_comment c' c
    /\ ct_comment c' = comment_before (ct_comment c) following.
Proof.
  intros C t rest ws c U Hw H. apply words_of_split in Hw. subst ws. unfold cert_from_string in *. cbv zeta in *.
  rewrite words_joined by exact U. destruct (split_whitespace t) as [|w1 [|w2 ws]]; [discriminate| |].
  { cbn [nth_error ok_or bind] in H. destruct (kt_from_name w1); discriminate. }
  cbn [List.app nth_error ok_or bind] in *. destruct (kt_from_name w1) as [kt|e|]; [|discriminate..]. cbn [bind] in *.
  destruct (b64_decode w2) as [d|]; [|discriminate]. cbn [ok_or bind] in *.
  destruct (cert_from_bytes C d) as [c0|e|]; [|discriminate..]. cbn [bind] in *.
  unfold with_comment in *. cbn [ct_key_type] in *.
  destruct (kt_kind_eqb (kt_k (ct_key_type c0)) (kt_k kt)); [|discriminate]. cbn [negb] in *.
  apply ok_inj in H. subst c. eexists. split; [reflexivity|]. split; [unfold cert_but_comment; cbn; repeat split|].
  cbn [ct_comment]. destruct ws as [|w ws]; [destruct (split_whitespace rest)|]; reflexivity.
Qed.
Print Assumptions C145_certificate.

(** Of several keys in a file the first one is read, and without a comment of its own it is given the type name of the second. *)
Theorem C145_comment_refuted : exists t k k', pk_from_string t = Ok k /\ pk_comment k = None
  /\ pk_from_string (t ++ x0a :: t) = Ok k' /\ pk_comment k' = Some (s2b "ssh-ed25519").
Proof. exists ex_key_text, ex_key. eexists. vm_compute. auto. Qed.
Print Assumptions C145_comment_refuted.

(** ** Allowed-signers files *)
Lemma read_same tz x xs ys n : read_lines tz (S n) xs = read_lines tz (S n) ys -> read_lines tz n (x :: xs) = read_lines tz n (x :: ys).
Proof. intros H. cbn [read_lines]. cbv zeta. rewrite H. reflexivity. Qed.
Lemma read_ended tz (a : bytes) : forall n, read_lines tz n (lines (a ++ [x0a])) = read_lines tz n (lines a).
Proof.
  induction a as [a Ha|l a Hl IH] using by_lines; intros n.
  - rewrite lines_line by exact Ha. change (lines []) with (@nil bytes). destruct a as [|b a]; [reflexivity|].
    assert (E : lines (b :: a) = [b :: a]).
    { unfold lines. assert (G : forall s cur, no_nl s -> cur ++ s <> [] -> lines_aux s cur = [cur ++ s]).
      { unfold no_nl. induction s as [|x s IHs]; intros cur N D; cbn [lines_aux].
        - rewrite app_nil_r in *. destruct cur; [congruence|reflexivity].
        - destruct (byte_eqb x newline) eqn:Ex.
          + apply byte_eqb_eq in Ex. subst x. exfalso. apply N. left. reflexivity.
          + rewrite IHs; [rewrite <- app_assoc; reflexivity| |rewrite <- app_assoc; exact D]. intros I. apply N. right. exact I. }
      apply (G (b :: a) []); [exact Ha|discriminate]. }
    rewrite E. cbn [read_lines]. cbv zeta. rewrite trim_strip_cr. reflexivity.
  - rewrite <- app_assoc. cbn [List.app]. rewrite (lines_line l (a ++ [x0a])), (lines_line l a) by exact Hl. apply read_same, IH.
Qed.
Lemma read_shift tz ls : forall n m, read_lines tz (n + m) ls
  = match read_lines tz m ls with Err (EInvalidAllowedSigners e i) => Err (EInvalidAllowedSigners e (n + i)) | r => r end.
Proof.
  induction ls as [|l ls IH]; intros n m; cbn [read_lines]; [reflexivity|]. cbv zeta. rewrite <- Nat.add_succ_r, IH.
  destruct (_ || _); [reflexivity|]. destruct (as_from_string tz (trim l)) as [v|e|]; [|destruct e; reflexivity|reflexivity].
  destruct (read_lines tz (S m) ls) as [r|e|]; [reflexivity|destruct e; reflexivity|reflexivity].
Qed.
Lemma read_append tz a : forall n b, read_lines tz n (a ++ b)
  = match read_lines tz n a with Ok e1 => bind (read_lines tz (n + length a) b) (fun e2 => Ok (e1 ++ e2)) | Err e => Err e | Panic => Panic end.
Proof.
  induction a as [|l a IH]; intros n b; cbn [List.app read_lines length].
  - rewrite Nat.add_0_r. destruct (read_lines tz n b); reflexivity.
  - cbv zeta. rewrite Nat.add_succ_r, IH. destruct (_ || _); [reflexivity|].
    destruct (as_from_string tz (trim l)) as [v|e|]; [|destruct e; reflexivity|reflexivity].
    destruct (read_lines tz (S n) a) as [r|e|]; cbn [bind]; [|reflexivity..].
    change (S n + length a) with (S (n + length a)). destruct (read_lines tz (S (n + length a)) b); reflexivity.
Qed.

(** Two allowed-signers files put together, with a line break between them, give the entries of both in order; the errors of
    the second have its line numbers counted on. *)
Theorem C145_signers : forall (tz : timezone) (a b : bytes),
  (forall es, signers_from_string tz (a ++ x0a :: b) = Ok es <->
     exists e1 e2, signers_from_string tz a = Ok e1 /\ signers_from_string tz b = Ok e2 /\ es = e1 ++ e2)
  /\ (forall e, signers_from_string tz a = Err e -> signers_from_string tz (a ++ x0a :: b) = Err e)
  /\ (forall e1 e n, signers_from_string tz a = Ok e1 -> signers_from_string tz b = Err (EInvalidAllowedSigners e n) ->
        signers_from_string tz (a ++ x0a :: b) = Err (EInvalidAllowedSigners e (breaks a + 1 + n))).
Proof.
  intros tz a b. unfold signers_from_string. rewrite lines_joined, read_append, lines_breaks, read_ended.
  cbn [Nat.add]. rewrite <- (Nat.add_0_r (breaks a + 1)), read_shift.
  destruct (read_lines tz 0 (lines a)) as [e1|e|].
  - split; [|split].
    + intros es. destruct (read_lines tz 0 (lines b)) as [e2|e|]; cbn [bind].
      * split; [intros H; apply ok_inj in H; eauto|]. intros (x & y & H1 & H2 & ->). apply ok_inj in H1, H2. subst. reflexivity.
      * split; [destruct e; discriminate|intros (x & y & _ & H & _); discriminate].
      * split; [discriminate|intros (x & y & _ & H & _); discriminate].
    + discriminate.
    + intros x e n _ ->. cbn [bind]. rewrite Nat.add_0_r. reflexivity.
  - split; [|split].
    + intros es. split; [discriminate|intros (x & y & H & _); discriminate].
    + intros e0 H. exact H.
    + discriminate.
  - split; [|split].
    + intros es. split; [discriminate|intros (x & y & H & _); discriminate].
    + discriminate.
    + discriminate.
Qed.
Print Assumptions C145_signers.

(** ** Cases *)
(** A file with two private keys, one with two signatures and two public keys with comments. *)
Example C145_case : exists t t' : bytes, sk_write PropPrivKey.ex_ed = Ok t /\ sk_write ex_hw = Ok t'
  /\ sk_from_string ex_features ex_ops (t ++ t') None = Ok PropPrivKey.ex_ed
  /\ sk_from_string ex_features ex_ops (t' ++ t) None = Ok ex_hw
  /\ In end_line (lines ex_armor) /\ sshsig_from_armored_string (ex_armor ++ x0a :: t) = Ok ex_ssig
  /\ pk_from_string (ex_key_text ++ s2b " ann" ++ x0a :: ex_key_text ++ s2b " bob")
     = Ok (mkPubKey PropPubKey.ex_ed (PkEd25519 (repeat x07 32) None) (Some (s2b "ann"))).
Proof.
  eexists _, _. do 2 (split; [vm_compute; reflexivity|]). do 2 (split; [vm_compute; reflexivity|]).
  split; [|split; vm_compute; reflexivity]. destruct (C145_signature ex_armor [] []) as (_ & _ & H). apply (H ex_ssig). vm_compute. reflexivity.
Qed.
Example C145_case_signers : exists e1 e2, signers_from_string utc (s2b "a " ++ ex_key_text) = Ok [e1]
  /\ signers_from_string utc (s2b "b " ++ ex_key_text) = Ok [e2] /\ e1 <> e2
  /\ signers_from_string utc (s2b "a " ++ ex_key_text ++ x0a :: s2b "b " ++ ex_key_text) = Ok [e1; e2]
  /\ signers_from_string utc (s2b "a " ++ ex_key_text ++ x0a :: s2b "b") = Err (EInvalidAllowedSigners ASMissingKey 1).
Proof. eexists _, _. do 2 (split; [vm_compute; reflexivity|]). split; [vm_compute; discriminate|]. split; vm_compute; reflexivity. Qed.

(** Property C137: what a passphrase is used for. *)
From Coq Require Import Lia.
From Verif Require Import Base BaseFacts Utf8 Utf8Facts Str StrFacts SpecWire SpecText SpecBase64 SpecKeys Base64 Base64Facts WireFacts
  Reader ReaderFacts LocalFacts KeyType KeyTypeFacts PubKeyType Writer WriterFacts Crypto PubKey PubKeyFacts PropPubKey
  Signature SshSigFacts PrivKey SpecPrivKey PrivKeyFacts PropPrivKey TbsFacts PropAgain.

(** The part of a file up to the private section, in the order of [sk_from_reader]. *)
Definition read_header : M (bytes * bytes * bytes * bytes * pubkey * bytes) :=
  do! preamble <- read_cstring;
  if negb (bytes_eqb preamble (s2b "openssh-key-v1")) then throw EInvalidFormat else
  do! cipher <- read_string;
  do! kdf <- read_string;
  do! options <- read_bytes;
  do! count <- read_u32;
  if negb (count =? 1)%N then throw EInvalidFormat else
  do! pkb <- read_bytes;
  do! pub <- lift (pk_from_bytes pkb);
  do! remaining <- read_u32;
  do! section <- read_raw_bytes (N.to_nat remaining);
  ret (cipher, kdf, options, pkb, pub, section).
Definition opened (F : features) (K : keyops) (pass : option bytes) (h : bytes * bytes * bytes * bytes * pubkey * bytes) : res privkey :=
  let '(cipher, kdf, options, _, pub, section) := h in
  match decrypt F K cipher kdf options pass section with
  | Ok plain => run (read_section F pub) plain
  | Err e => Err e
  | Panic => Panic
  end.
Lemma header_split F K pass data : run (sk_from_reader F K pass) data =
  match run read_header data with Ok h => opened F K pass h | Err e => Err e | Panic => Panic end.
Proof.
  unfold run, sk_from_reader, read_header, mbind, lift, throw, ret. set (r := reader_new data). clearbody r.
  destruct (read_cstring r) as [[a|e|] r1]; try reflexivity. destruct (negb (bytes_eqb a (s2b "openssh-key-v1"))); try reflexivity.
  destruct (read_string r1) as [[ci|e|] r2]; try reflexivity. destruct (read_string r2) as [[kd|e|] r3]; try reflexivity.
  destruct (read_bytes r3) as [[op|e|] r4]; try reflexivity. destruct (read_u32 r4) as [[n|e|] r5]; try reflexivity.
  destruct (negb (n =? 1)%N); try reflexivity. destruct (read_bytes r5) as [[pkb|e|] r6]; try reflexivity.
  destruct (pk_from_bytes pkb) as [pub|e|]; try reflexivity. destruct (read_u32 r6) as [[m|e|] r7]; try reflexivity.
  destruct (read_raw_bytes (N.to_nat m) r7) as [[se|e|] r8]; try reflexivity. cbn [fst opened].
  destruct (decrypt F K ci kd op pass se) as [pl|e|]; reflexivity.
Qed.
Lemma header_form data cipher kdf options pkb pub section : run read_header data = Ok (cipher, kdf, options, pkb, pub, section) ->
  pk_from_bytes pkb = Ok pub /\ exists tl, data = key_file cipher kdf options pkb section ++ tl.
Proof.
  assert (Hx : noerr (Ok (cipher, kdf, options, pkb, pub, section))) by discriminate.
  intros H. unfold read_header in H. apply magic_ginv in H; [|local_tac|exact Hx]. destruct H as (d1 & -> & H).
  apply ginv_string in H; [|local_tac|exact Hx]. destruct H as (ci & d2 & H1 & -> & H).
  apply ginv_string in H; [|local_tac|exact Hx]. destruct H as (kd & d3 & H2 & -> & H).
  apply ginv_bytes in H; [|local_tac|exact Hx]. destruct H as (op & d4 & H3 & -> & H).
  apply ginv_u32 in H; [|local_tac|exact Hx]. destruct H as (count & d5 & _ & -> & H).
  destruct (count =? 1)%N eqn:Ec; [|discriminate]. apply N.eqb_eq in Ec. subst count. cbn [negb] in H.
  apply ginv_bytes in H; [|local_tac|exact Hx]. destruct H as (pk & d6 & H4 & -> & H).
  apply ginv_lift in H; [|apply pk_from_bytes_not_panic|exact Hx]. destruct H as (pub' & Hp & H).
  apply ginv_u32 in H; [|local_tac|exact Hx]. destruct H as (rem & d7 & H5 & -> & H).
  apply raw_ginv in H; [|local_tac|exact Hx]. destruct H as (se & tl & Hl & -> & Hne & H).
  unfold run, ret in H. cbn [fst] in H. injection H as -> -> -> -> -> ->. split; [exact Hp|]. exists tl.
  rewrite key_file_enc. unfold enc_file. rewrite <- !app_assoc. unfold enc_bytes at 8. assert (Er : rem = N.of_nat (length section)) by lia. rewrite Er, <- !app_assoc.
  reflexivity.
Qed.

(** ** C137 *)
(** A text is of one of three kinds. For the first, neither the passphrase nor any key function matters. For the
    second, only whether a passphrase is given. For the third, the passphrase is given to bcrypt once, with the
    salt and the number of rounds in the file, and its output to AES once, with the private section; the
    decrypted section and the file decide the rest. *)
Theorem C137_passphrase : forall (F : features) (t : bytes),
  (exists r, forall K pass, sk_from_string F K t pass = r)
  \/ (exists e, forall K pass, sk_from_string F K t pass = Err match pass with None => EEncryptedPrivateKey | Some _ => e end)
  \/ exists data salt rounds more pub section tl open,
       f_encrypted F = true /\ key_text data t /\ (rounds <= u32_max)%N
       /\ data = key_file (s2b "aes256-ctr") (s2b "bcrypt") (field salt ++ be32 rounds ++ more) pub section ++ tl
       /\ (forall plain k, open plain = Ok k -> pk_from_bytes pub = Ok (sk_pub k))
       /\ (forall K, sk_from_string F K t None = Err EEncryptedPrivateKey)
       /\ forall K p, sk_from_string F K t (Some p) =
            match k_bcrypt K p salt rounds with
            | Some out => match k_aes_ctr K (firstn 32 out) (skipn 32 out) section with
                          | Some plain => open plain
                          | None => Err EInvalidFormat
                          end
            | None => Err EInvalidFormat
            end.
Proof.
  intros F t. destruct (armor_decode key_begin key_end t) as [data|e|] eqn:Ea.
  2:{ left. exists (Err e). intros K pass. rewrite sk_from_string_decode, Ea. reflexivity. }
  2:{ left. exists Panic. intros K pass. rewrite sk_from_string_decode, Ea. reflexivity. }
  assert (R : forall K pass, sk_from_string F K t pass = match run read_header data with Ok h => opened F K pass h | Err e => Err e | Panic => Panic end).
  { intros K pass. rewrite sk_from_string_decode, Ea. cbn [bind]. apply header_split. }
  destruct (run read_header data) as [h|e|] eqn:Eh; [|left; eauto..].
  destruct h as [[[[[cipher kdf] options] pkb] pub] section]. apply header_form in Eh. destruct Eh as (Hp & tl & Hd). unfold opened in R.
  destruct (bytes_eqb cipher (s2b "none") && bytes_eqb kdf (s2b "none")) eqn:E1.
  { left. exists (run (read_section F pub) section). intros K pass. rewrite R. unfold decrypt. rewrite E1. reflexivity. }
  destruct (bytes_eqb cipher (s2b "aes256-ctr") && bytes_eqb kdf (s2b "bcrypt")) eqn:E2.
  2:{ left. eexists. intros K pass. rewrite R. unfold decrypt. rewrite E1, E2. reflexivity. }
  right. unfold decrypt in R. apply andb_true_iff in E2. rewrite !bytes_eqb_eq in E2. destruct E2 as [-> ->].
  rewrite E1, !bytes_eqb_refl in R. cbn [andb] in R.
  destruct (f_encrypted F) eqn:Ef.
  2:{ left. exists EEncryptedPrivateKeyNotSupported. intros K [p|]; rewrite R; reflexivity. }
  set (opt := run _ options) in R. destruct opt as [[salt rounds]|e|] eqn:Eo; subst opt.
  - right. apply (run_parses _ (fun sr bs => fits (fst sr) /\ (snd sr < 2 ^ 32)%N /\ bs = enc_bytes (fst sr) ++ to_be 4 (snd sr))) in Eo.
    2:{ eapply parses_ext; [|apply parses_bind; [apply parses_read_bytes|intros s; apply parses_bind; [apply parses_read_u32|intros r; apply parses_ret]]].
        intros [s r] bs. cbn [fst snd]. split.
        - intros (a & b1 & b2 & -> & (? & ->) & r' & b3 & b4 & -> & (? & ->) & E & ->). injection E as -> ->. rewrite app_nil_r. auto.
        - intros (? & ? & ->). exists s, (enc_bytes s), (to_be 4 r). split; [reflexivity|]. split; [auto|]. exists r, (to_be 4 r), [].
          rewrite app_nil_r. auto. }
    destruct Eo as (bs & more & (Fs & Fr & ->) & ->). cbn [fst snd] in *.
    exists data, salt, rounds, more, pkb, section, tl, (run (read_section F pub)).
    split; [reflexivity|]. split; [apply key_text_iff; exact Ea|]. split; [unfold u32_max; lia|].
    split; [rewrite field_enc, be32_to_be, app_assoc; exact Hd|]. split.
    + intros plain k Hk. apply read_section_iff in Hk. destruct Hk as (_ & <- & _). exact Hp.
    + split; [intros K; rewrite R; reflexivity|]. intros K p. rewrite R. cbn [bind fst snd].
      destruct (k_bcrypt K p salt rounds) as [out|]; [|reflexivity]. destruct (k_aes_ctr K _ _ section); reflexivity.
  - left. exists e. intros K [p|]; rewrite R; reflexivity.
  - exfalso. revert Eo. apply nopanic_run. apply nopanic_bind; [apply nopanic_read_bytes|intros s]. apply nopanic_bind; [|intros; apply nopanic_ret].
    intros r. unfold read_u32. apply nopanic_read_uint.
Qed.
Print Assumptions C137_passphrase.

(** Passphrases with the same bcrypt outputs are interchangeable. *)
Theorem C137_same_output : forall (F : features) (K : keyops) (t : bytes) (p p' : bytes),
  (forall salt rounds, k_bcrypt K p salt rounds = k_bcrypt K p' salt rounds) ->
  sk_from_string F K t (Some p) = sk_from_string F K t (Some p').
Proof.
  intros F K t p p' H. destruct (C137_passphrase F t) as [(r & E)|[(e & E)|(data & salt & rounds & more & pub & se & tl & op & _ & _ & _ & _ & _ & _ & E)]].
  - rewrite !E. reflexivity.
  - rewrite !E. reflexivity.
  - rewrite !E, H. reflexivity.
Qed.
Print Assumptions C137_same_output.

(** The number of rounds is not bounded: a small file asks for 2^32-1 of them, before anything protected by the
    passphrase is looked at. *)
Definition ex_slow : bytes :=
  key_begin ++ [x0a] ++ b64_encode (key_file (s2b "aes256-ctr") (s2b "bcrypt") (field (s2b "salt") ++ be32 4294967295) (enc_key (sk_pub ex_ed))
    (enc_section ex_ed ++ [x01; x02])) ++ [x0a] ++ key_end ++ [x0a].
Theorem C137_rounds_bounded_refuted : exists (F : features) (t salt : bytes),
  (size t < 600)%N /\ (exists K p k, sk_from_string F K t (Some p) = Ok k)
  /\ forall K p, k_bcrypt K p salt u32_max = None -> sk_from_string F K t (Some p) = Err EInvalidFormat.
Proof.
  exists ex_features, ex_slow, (s2b "salt"). split; [vm_compute; reflexivity|]. split.
  - exists ex_ops, (s2b "secret"), ex_ed. vm_compute. reflexivity.
  - intros [] p H. vm_compute in H. vm_compute. rewrite H. reflexivity.
Qed.
Print Assumptions C137_rounds_bounded_refuted.

(** All three kinds of texts exist. *)
Example C137_case : sk_from_string ex_features ex_ops ex_encrypted (Some (s2b "secret")) = Ok ex_ed
  /\ sk_from_string ex_features ex_ops ex_encrypted None = Err EEncryptedPrivateKey
  /\ (exists t, sk_write ex_ed = Ok t /\ forall K pass, sk_from_string ex_features K t pass = Ok ex_ed)
  /\ forall K pass, sk_from_string (mkFeatures true false NoFido) K ex_encrypted pass
       = Err match pass with None => EEncryptedPrivateKey | Some _ => EEncryptedPrivateKeyNotSupported end.
Proof.
  split; [vm_compute; reflexivity|]. split; [vm_compute; reflexivity|]. split.
  - eexists. split; [vm_compute; reflexivity|]. intros K pass. vm_compute. reflexivity.
  - intros K [p|]; vm_compute; reflexivity.
Qed.

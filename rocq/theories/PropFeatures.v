(** Property C125: what the cargo features of a build change. *)
From Verif Require Import Base BaseFacts Reader KeyType PubKeyType Crypto PubKey Str Base64 Signature Cert PrivKey PrivKeyFacts Show
  SpecPrivKey SpecFeatures PropCert PropPrivKey.

(** ** Two runs of the reader, step by step *)
Section Runs.
Context (F G : features).
Definition both {A B} (R : A -> B -> Prop) (x : res A * reader) (y : res B * reader) : Prop :=
  match x, y with
  | (Ok a, r), (Ok b, s) => R a b /\ r = s
  | (Err e, r), (Err f, s) => e = f
  | (Panic, _), (Panic, _) => True
  | (Panic, _), _ => f_rsa F = true /\ f_rsa G = false
  | _, (Panic, _) => f_rsa F = false /\ f_rsa G = true
  | _, _ => False
  end.
Definition steps {A B} (R : A -> B -> Prop) (m : M A) (n : M B) : Prop := forall r, both R (m r) (n r).
Lemma steps_refl {A} (m : M A) : steps eq m m.
Proof. intros r. unfold both. destruct (m r) as [[a|e|] s]; auto. Qed.
Lemma steps_bind {A B A' B'} (R : A -> B -> Prop) (S : A' -> B' -> Prop) m n f g :
  steps R m n -> (forall a b, R a b -> steps S (f a) (g b)) -> steps S (mbind m f) (mbind n g).
Proof.
  intros H K r. specialize (H r). unfold both, mbind in *. destruct (m r) as [[a|e|] s]; destruct (n r) as [[b|e'|] t];
    try (exact H); try contradiction.
  - destruct H as [H ->]. exact (K a b H t).
  - destruct H as [H1 H2]. destruct (f a s) as [[?|?|] ?]; auto.
  - destruct H as [H1 H2]. destruct (g b t) as [[?|?|] ?]; auto.
Qed.
Lemma steps_same {A A' B'} (S : A' -> B' -> Prop) (m : M A) f g :
  (forall a, steps S (f a) (g a)) -> steps S (mbind m f) (mbind m g).
Proof. intros H. apply (steps_bind eq S); [apply steps_refl|]. intros a b <-. apply H. Qed.
Lemma steps_ret {A B} (R : A -> B -> Prop) a b : R a b -> steps R (ret a) (ret b).
Proof. intros H r. split; [exact H|reflexivity]. Qed.
Lemma steps_throw {A B} (R : A -> B -> Prop) e : steps R (throw e) (throw e).
Proof. intros r. reflexivity. Qed.

(** ** The exponents *)
Lemma exponents_steps d p q :
  steps (fun x y => f_rsa F = f_rsa G -> x = y) (lift (crt_exponents F d p q)) (lift (crt_exponents G d p q)).
Proof.
  intros r. unfold lift, both, crt_exponents. destruct (f_rsa F) eqn:EF; destruct (f_rsa G) eqn:EG.
  - destruct (do? exp <- crt_exponent d p; do? exq <- crt_exponent d q; Ok (Some exp, Some exq)); auto.
  - unfold crt_exponent. repeat (destruct (_ =? 0)%N; cbn [bind]; auto); split; try discriminate; reflexivity.
  - unfold crt_exponent. repeat (destruct (_ =? 0)%N; cbn [bind]; auto); split; try discriminate; reflexivity.
  - auto.
Qed.
Definition keys (k l : privkey) : Prop := same_key k l /\ (f_rsa F = f_rsa G -> k = l).
Lemma same_secret_refl k : same_secret k k. Proof. destruct k; cbn; auto 8. Qed.
Lemma key_steps : steps keys (read_private_key F) (read_private_key G).
Proof.
  unfold read_private_key. apply steps_same. intros name. apply steps_same. intros kt.
  apply (steps_bind (fun x y => snd x = snd y /\ same_secret (fst x) (fst y) /\ (f_rsa F = f_rsa G -> x = y))).
  - destruct (kt_k kt).
    + do 6 (apply steps_same; intros ?). eapply steps_bind; [apply exponents_steps|]. intros x y H. apply steps_ret.
      cbn [fst snd]. split; [reflexivity|]. split; [cbn; auto 8|]. intros E. rewrite (H E). reflexivity.
    + intros r. generalize (steps_refl (do! pk <- read_bytes;
        if kt_is_sk kt then do! ah <- read_hw; ret (SkEd25519Sk (snd ah), PkEd25519 pk (Some (fst ah)))
        else do! key <- read_bytes; ret (SkEd25519 key, PkEd25519 pk None)) r). unfold both.
      destruct (mbind _ _ r) as [[a|e|] s]; auto. intros _. auto using same_secret_refl.
    + intros r. generalize (steps_refl (do! id <- read_string; do! c <- lift (curve_from_identifier id); do! pk <- read_bytes;
        if kt_is_sk kt then do! ah <- read_hw; ret (SkEcdsaSk (snd ah), PkEcdsa c pk (Some (fst ah)))
        else do! key <- read_bytes; ret (SkEcdsa c key, PkEcdsa c pk None)) r). unfold both.
      destruct (mbind _ _ r) as [[a|e|] s]; auto. intros _. auto using same_secret_refl.
    + apply steps_throw.
    + apply steps_throw.
    + apply steps_throw.
  - intros x y (H1 & H2 & H3). apply steps_same. intros comment. apply steps_ret. split.
    + unfold same_key. cbn [sk_type sk_pub sk_magic sk_comment sk_kind]. rewrite H1. auto.
    + intros E. rewrite (H3 E). reflexivity.
Qed.
Lemma section_steps pub : steps keys (read_section F pub) (read_section G pub).
Proof.
  unfold read_section. apply steps_same. intros m1. apply steps_same. intros m2.
  destruct (negb (m1 =? m2)%N); [apply steps_throw|]. apply (steps_bind keys); [apply key_steps|].
  intros k l [(H1 & H2 & H3 & H4 & H5) E]. cbn [sk_pub]. rewrite <- H2.
  destruct (negb (pubkey_eqb (sk_pub k) pub)); [apply steps_throw|]. apply steps_ret. split.
  - unfold same_key. cbn [sk_type sk_pub sk_magic sk_comment sk_kind]. rewrite H1, H4, H2. auto.
  - intros e. rewrite (E e). reflexivity.
Qed.
(** Decryption is the only place where the feature for encrypted keys matters. *)
Definition decrypts_alike (pass : option bytes) : Prop := f_encrypted F = f_encrypted G \/ pass = None.
Lemma decrypt_alike K c k o pass s : decrypts_alike pass -> decrypt F K c k o pass s = decrypt G K c k o pass s.
Proof. unfold decrypt. intros [E| ->]; [rewrite E|]; reflexivity. Qed.
Lemma reader_steps K pass : decrypts_alike pass -> steps keys (sk_from_reader F K pass) (sk_from_reader G K pass).
Proof.
  intros D. unfold sk_from_reader. apply steps_same. intros pre. destruct (negb _); [apply steps_throw|].
  do 4 (apply steps_same; intros ?). destruct (negb _); [apply steps_throw|]. do 4 (apply steps_same; intros ?).
  rewrite (decrypt_alike K _ _ _ _ _ D). apply steps_same. intros plain r. unfold lift, both, run.
  match goal with |- context [read_section F ?p] => pose proof (section_steps p (reader_new plain)) as H end. unfold both in H.
  destruct (read_section F _ (reader_new plain)) as [[?|?|] ?]; destruct (read_section G _ (reader_new plain)) as [[?|?|] ?];
    cbn [fst]; intuition auto.
Qed.
Lemma both_agree x y : both keys x y -> agree F G (fst x) (fst y).
Proof.
  destruct x as [[a|e|] s], y as [[b|e'|] t]; cbn [both fst]; intros H; try contradiction;
    try match type of H with _ /\ _ => destruct H as [H1 H2] end.
  - apply A_key; apply H1.
  - apply A_crash_second; auto.
  - subst. apply A_error.
  - apply A_crash_second; auto.
  - apply A_crash_first; auto.
  - apply A_crash_first; auto.
  - apply A_crash.
Qed.
End Runs.

(** ** Reading *)
(** Builds that treat encryption alike, and all builds without a passphrase, read the same keys
    from a file and give the same errors. *)
Theorem C125_reading : forall (F G : features) (K : keyops) (text : bytes) (pass : option bytes),
  f_encrypted F = f_encrypted G \/ pass = None ->
  agree F G (sk_from_string F K text pass) (sk_from_string G K text pass).
Proof.
  intros F G K text pass D. unfold sk_from_string. destruct (negb _); [apply A_error|].
  destruct (armor_body key_end (tl (lines text)) []) as [enc|e|]; cbn [bind]; [|apply A_error|apply A_crash].
  destruct (ok_or (b64_decode enc) EDecode) as [dec|e|]; cbn [bind]; [|apply A_error|apply A_crash].
  apply both_agree. apply reader_steps. exact D.
Qed.
Print Assumptions C125_reading.

(** With a passphrase, a build without decryption differs only in refusing the encrypted files
    that it would tell apart by asking for one. *)
Lemma reader_encryption F G K p data : f_encrypted F = false ->
  agree F G (run (sk_from_reader F K (Some p)) data) (run (sk_from_reader G K (Some p)) data)
  \/ run (sk_from_reader F K (Some p)) data = Err EEncryptedPrivateKeyNotSupported
     /\ run (sk_from_reader F K None) data = Err EEncryptedPrivateKey.
Proof.
  intros EF. unfold run, sk_from_reader, mbind.
  assert (A : forall e, agree F G (Err e) (Err e)) by (intros; apply A_error).
  pose proof (A_crash F G) as P.
  destruct (read_cstring (reader_new data)) as [[pre|e|] r0]; [|left; cbn [fst]; auto|left; exact P].
  destruct (negb _); [left; apply A|].
  destruct (read_string r0) as [[c|e|] r1]; [|left; apply A|left; exact P].
  destruct (read_string r1) as [[kd|e|] r2]; [|left; apply A|left; exact P].
  destruct (read_bytes r2) as [[o|e|] r3]; [|left; apply A|left; exact P].
  destruct (read_u32 r3) as [[n|e|] r4]; [|left; apply A|left; exact P].
  destruct (negb _); [left; apply A|].
  destruct (read_bytes r4) as [[pkb|e|] r5]; [|left; apply A|left; exact P].
  unfold lift. destruct (pk_from_bytes pkb) as [pub|e|]; [|left; apply A|left; exact P].
  destruct (read_u32 r5) as [[m|e|] r6]; [|left; apply A|left; exact P].
  destruct (read_raw_bytes (N.to_nat m) r6) as [[sec|e|] r7]; [|left; apply A|left; exact P].
  unfold decrypt. rewrite EF. destruct (bytes_eqb c (s2b "none") && bytes_eqb kd (s2b "none")).
  - left. cbn [fst]. apply both_agree. apply section_steps.
  - destruct (bytes_eqb c (s2b "aes256-ctr") && bytes_eqb kd (s2b "bcrypt")); [|left; apply A]. right. split; reflexivity.
Qed.
Theorem C125_encryption : forall (F G : features) (K : keyops) (text p : bytes),
  f_encrypted F = false ->
  agree F G (sk_from_string F K text (Some p)) (sk_from_string G K text (Some p))
  \/ sk_from_string F K text (Some p) = Err EEncryptedPrivateKeyNotSupported
     /\ sk_from_string F K text None = Err EEncryptedPrivateKey.
Proof.
  intros F G K text p EF. unfold sk_from_string. destruct (negb _); [left; apply A_error|].
  destruct (armor_body key_end (tl (lines text)) []) as [enc|e|]; cbn [bind]; [|left; apply A_error|left; apply A_crash].
  destruct (ok_or (b64_decode enc) EDecode) as [dec|e|]; cbn [bind]; [|left; apply A_error|left; apply A_crash].
  apply reader_encryption. exact EF.
Qed.
Print Assumptions C125_encryption.

(** Keys that are not RSA keys are read alike by every build. *)
Section Follow.
Context (F G : features).
Definition always {A} (Q : A -> Prop) (m : M A) : Prop := forall r, match m r with (Ok a, _) => Q a | _ => True end.
Definition follow {A} (Q : A -> Prop) (m n : M A) : Prop :=
  forall r, match m r with (Ok a, s) => Q a \/ n r = (Ok a, s) | _ => True end.
Lemma follow_refl {A} (Q : A -> Prop) m : follow Q m m.
Proof. intros r. destruct (m r) as [[a|e|] s]; auto. Qed.
Lemma always_bind {A B} (Q : B -> Prop) (m : M A) f : (forall a, always Q (f a)) -> always Q (mbind m f).
Proof. intros H r. unfold mbind. destruct (m r) as [[a|e|] s]; auto. apply H. Qed.
Lemma follow_bind {A B} (P : A -> Prop) (Q : B -> Prop) m n f g :
  follow P m n -> (forall a, P a -> always Q (f a)) -> (forall a, follow Q (f a) (g a)) -> follow Q (mbind m f) (mbind n g).
Proof.
  intros H1 H2 H3 r. specialize (H1 r). unfold mbind. destruct (m r) as [[a|e|] s]; auto. destruct H1 as [H1| ->].
  - specialize (H2 a H1 s). destruct (f a s) as [[b|e|] t]; auto.
  - exact (H3 a s).
Qed.
Lemma follow_same {A B} (Q : B -> Prop) (m : M A) f g : (forall a, follow Q (f a) (g a)) -> follow Q (mbind m f) (mbind m g).
Proof. intros H. apply (follow_bind (fun _ => False)); [apply follow_refl|contradiction|exact H]. Qed.
Lemma follow_always {A} (Q : A -> Prop) m n : always Q m -> follow Q m n.
Proof. intros H r. specialize (H r). destruct (m r) as [[a|e|] s]; auto. Qed.
Lemma key_follow : follow is_rsa (read_private_key F) (read_private_key G).
Proof.
  unfold read_private_key. apply follow_same. intros name. apply follow_same. intros kt.
  apply (follow_bind (fun x => exists r, fst x = SkRsa r)).
  - destruct (kt_k kt); try apply follow_refl. do 6 (apply follow_same; intros ?). apply follow_always.
    apply always_bind. intros ex r. cbn. eauto.
  - intros a [r E]. apply always_bind. intros comment s. cbn. exists r. exact E.
  - intros a. apply follow_refl.
Qed.
Lemma section_follow pub : follow is_rsa (read_section F pub) (read_section G pub).
Proof.
  unfold read_section. apply follow_same. intros m1. apply follow_same. intros m2.
  destruct (negb _); [apply follow_refl|]. apply (follow_bind is_rsa); [apply key_follow| |intros; apply follow_refl].
  intros k [r E] s. cbn [sk_pub]. destruct (negb _); [exact I|]. exists r. exact E.
Qed.
Lemma decrypt_more K c k o pass s d : more F G -> decrypt F K c k o pass s = Ok d -> decrypt G K c k o pass s = Ok d.
Proof.
  intros (_ & E & _). unfold decrypt. destruct (_ && _); [auto|]. destruct (_ && _); [|auto]. destruct pass as [p|]; [|auto].
  destruct (f_encrypted F); [rewrite (E eq_refl); auto|discriminate].
Qed.
Lemma reader_follow K pass : more F G -> follow is_rsa (sk_from_reader F K pass) (sk_from_reader G K pass).
Proof.
  intros D. unfold sk_from_reader. apply follow_same. intros pre. destruct (negb _); [apply follow_refl|].
  do 4 (apply follow_same; intros ?). destruct (negb _); [apply follow_refl|]. do 4 (apply follow_same; intros ?).
  apply (follow_bind (fun _ => False)); [|contradiction|].
  - intros r. unfold lift. destruct (decrypt F _ _ _ _ _ _) eqn:E; auto. right. rewrite (decrypt_more _ _ _ _ _ _ _ D E). reflexivity.
  - intros plain r. unfold lift, run.
    match goal with |- context [read_section F ?p] => pose proof (section_follow p (reader_new plain)) as H end.
    destruct (read_section F _ (reader_new plain)) as [[?|?|] ?]; cbn [fst]; auto. destruct H as [H|H]; [auto|right]. rewrite H. reflexivity.
Qed.
End Follow.
Lemma text_follow F G K text pass k : more F G -> sk_from_string F K text pass = Ok k ->
  is_rsa k \/ sk_from_string G K text pass = Ok k.
Proof.
  intros D. unfold sk_from_string. destruct (negb _); [discriminate|].
  destruct (armor_body key_end (tl (lines text)) []) as [enc|e|]; cbn [bind]; [|discriminate..].
  destruct (ok_or (b64_decode enc) EDecode) as [dec|e|]; cbn [bind]; [|discriminate..].
  unfold run. pose proof (reader_follow F G K pass D (reader_new dec)) as H.
  destruct (sk_from_reader F K pass (reader_new dec)) as [[a|e|] s]; cbn [fst]; intros E; [|discriminate..].
  injection E as E; subst a. destruct H as [H|H]; [auto|right]. rewrite H. reflexivity.
Qed.
Lemma more_agree F G K text pass k : more F G -> sk_from_string F K text pass = Ok k ->
  agree F G (Ok k) (sk_from_string G K text pass).
Proof.
  intros D E. rewrite <- E. destruct (f_encrypted F) eqn:EF.
  - apply C125_reading. left. rewrite EF. symmetry. apply D. exact EF.
  - destruct pass as [p|]; [|apply C125_reading; auto]. destruct (C125_encryption F G K text p EF) as [A|[A _]]; [exact A|].
    rewrite A in E. discriminate E.
Qed.
(** So a build with more features reads every key that one with fewer features reads, unless it
    crashes on an RSA key. *)
Theorem C125_more_read_the_same : forall (F G : features) (K : keyops) (text : bytes) (pass : option bytes) (k : privkey),
  more F G -> sk_from_string F K text pass = Ok k ->
  (exists l, sk_from_string G K text pass = Ok l /\ same_key k l /\ (f_rsa F = f_rsa G \/ ~ is_rsa k -> l = k))
  \/ sk_from_string G K text pass = Panic /\ f_rsa F = false /\ f_rsa G = true /\ is_rsa k.
Proof.
  intros F G K text pass k D E. pose proof (text_follow F G K text pass k D E) as W.
  pose proof (more_agree F G K text pass k D E) as A. inversion A as [? l S Q|?| |?|? H1 H2]; subst.
  - left. exists l. split; [reflexivity|]. split; [exact S|]. intros [H|H]; [symmetry; auto|].
    destruct W as [W|W]; [contradiction|congruence].
  - right. destruct W as [W|W]; [auto|]. congruence.
Qed.
Print Assumptions C125_more_read_the_same.

(** ** Signing, writing *)
(** What a build with fewer features signs, one with more signs in the same way. It differs only
    in giving no signature for a key whose feature it lacks. *)
Theorem C125_signing : forall (F G : features) (C : crypto) (K K' : keyops) (text : bytes) (pass : option bytes)
  (k l : privkey) (m : bytes),
  more F G -> sk_from_string F K' text pass = Ok k -> sk_from_string G K' text pass = Ok l ->
  sk_sign F C K k m = sk_sign G C K l m
  \/ sk_sign F C K k m = Ok None
     /\ (is_rsa k /\ f_rsa F = false /\ f_rsa G = true \/ is_hardware k /\ f_fido F = NoFido /\ f_fido G <> NoFido).
Proof.
  intros F G C K K' text pass k l m D E1 E2.
  destruct (C125_more_read_the_same F G K' text pass k D E1) as [(l' & E3 & S & Q)|[E3 _]]; [|congruence].
  rewrite E2 in E3. injection E3 as <-. destruct D as (D1 & _ & D3).
  assert (H : (exists r, sk_kind k = SkRsa r) \/ ~ is_rsa k).
  { unfold is_rsa. destruct (sk_kind k); [left; eauto|right; intros [r Hr]; discriminate..]. }
  destruct H as [[r Hr]|H].
  - destruct (f_rsa F) eqn:EF.
    + rewrite Q by (left; rewrite D1; reflexivity). left. unfold sk_sign. rewrite Hr, EF, D1; reflexivity.
    + assert (N : sk_sign F C K k m = Ok None) by (unfold sk_sign; rewrite Hr, EF; reflexivity).
      destruct (f_rsa G) eqn:EG; [right; split; [exact N|]; left; split; [exists r; exact Hr|auto]|].
      left. rewrite Q by auto. rewrite N. unfold sk_sign. rewrite Hr, EG. reflexivity.
  - rewrite (Q (or_intror H)). unfold sk_sign.
    destruct (sk_kind k) as [r|c key|h|key|h] eqn:Ek; try (left; reflexivity); [exfalso; apply H; exists r; exact Ek|..];
      unfold hw_sign; (destruct D3 as [D3|D3]; [rewrite D3|rewrite D3; left; reflexivity]);
      (destruct (f_fido G) eqn:EG; [left; reflexivity|..]); right; (split; [reflexivity|]); right;
      (split; [exists h; auto|split; congruence]).
Qed.
Print Assumptions C125_signing.

(** Keys that only differ in the computed exponents are written and shown alike. *)
Theorem C125_writing : forall k l : privkey, same_key k l ->
  sk_encode k = sk_encode l /\ sk_write k = sk_write l /\ (forall C, privkey_display C k = privkey_display C l).
Proof.
  intros [t kd pub mg cm] [t' kd' pub' mg' cm'] (E1 & E2 & E3 & E4 & S). cbn [sk_type sk_pub sk_magic sk_comment sk_kind] in *. subst.
  assert (E : sk_encode (mkPrivKey t' kd pub' mg' cm') = sk_encode (mkPrivKey t' kd' pub' mg' cm')).
  { destruct kd as [r| | | |], kd' as [r'| | | |]; cbn [same_secret] in S; try discriminate S; try (injection S; intros; subst; reflexivity).
    destruct r, r'. cbn in S. destruct S as (-> & -> & -> & -> & -> & ->). reflexivity. }
  split; [exact E|]. split; [unfold sk_write; rewrite E; reflexivity|]. reflexivity.
Qed.
Print Assumptions C125_writing.

(** Adding the RSA feature can turn a key that is read into a crash. *)
Theorem C125_more_never_crash_refuted : exists (F G : features) (K : keyops) (text : bytes) (k : privkey),
  more F G /\ sk_from_string F K text None = Ok k /\ sk_from_string G K text None = Panic.
Proof.
  destruct (sk_write ex_bad_rsa) as [text|e|] eqn:E; [|vm_compute in E; discriminate..].
  exists (mkFeatures false true NoFido), ex_features, ex_ops, text, ex_bad_rsa.
  split; [repeat split; cbn; auto|]. vm_compute in E. injection E as <-. vm_compute. split; reflexivity.
Qed.
Print Assumptions C125_more_never_crash_refuted.

(** Builds that lack each of the features, on three keys. *)
Definition bare : features := mkFeatures false false NoFido.
Definition full : features := mkFeatures true true Ctap2Hid.
Example C125_case : more bare full /\ more bare ex_features /\ more ex_features full /\ ~ more full bare
  /\ (forall k, In k [ex_ed; ex_hw; ex_rsa] -> exists text, sk_write k = Ok text
        /\ sk_from_string full ex_ops text None = Ok k
        /\ exists l, sk_from_string bare ex_ops text (Some (s2b "unused")) = Ok l /\ same_key l k
           /\ (is_rsa k -> l <> k)).
Proof.
  split; [repeat split; cbn; auto|]. split; [repeat split; cbn; auto|]. split; [repeat split; cbn; auto|].
  split; [intros (H & _); discriminate (H eq_refl)|].
  intros k [<-|[<-|[<-|[]]]]; eexists; (split; [vm_compute; reflexivity|]); (split; [vm_compute; reflexivity|]);
    eexists; (split; [vm_compute; reflexivity|]); (split; [repeat split; reflexivity|]); try discriminate;
    intros [r H]; discriminate H.
Qed.
Example C125_sign_case : forall (C : crypto) (m : bytes),
  let K := mkKeyops (k_bcrypt ex_ops) (k_aes_ctr ex_ops) (fun _ _ => Some [x55]) (k_ecdsa_sign ex_ops)
             (k_ed25519_sign ex_ops) (k_ed25519_public ex_ops) (k_hid ex_ops) (k_moz ex_ops) in
  sk_sign bare C K ex_rsa m = Ok None /\ sk_sign bare C K ex_hw m = Ok None
  /\ (exists s, sk_sign bare C K ex_ed m = Ok (Some s) /\ sk_sign full C K ex_ed m = Ok (Some s))
  /\ (exists s, sk_sign full C K ex_rsa m = Ok (Some s)).
Proof.
  intros C m K. split; [reflexivity|]. split; [reflexivity|]. split.
  - eexists. split; vm_compute; reflexivity.
  - eexists. vm_compute. reflexivity.
Qed.

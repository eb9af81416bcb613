(** Facts about the errors of reading functions. *)
From Coq Require Import Lia.
From Verif Require Import Base BaseFacts Utf8 Utf8Facts Str StrFacts SpecWire SpecText SpecKeys SpecNames SpecErrors Base64 Reader ReaderFacts
  LocalFacts KeyType KeyTypeFacts PropKeyType PubKeyType Writer WriterFacts WireFacts Crypto PubKey PubKeyFacts Signature SignatureFacts
  Cert CertFacts TbsFacts PrivKey PrivKeyFacts SshSigFacts.

(** ** Where errors come from *)
Definition errs {A} (P : error -> Prop) (m : M A) : Prop := forall r e, fst (m r) = Err e -> P e.
Definition rerrs {A} (P : error -> Prop) (x : res A) : Prop := forall e, x = Err e -> P e.
Definition gives {A} (m : M A) (a : A) : Prop := exists r, fst (m r) = Ok a.

Section errs.
  Variable P : error -> Prop.
  Lemma errs_bind {A B} (m : M A) (f : A -> M B) :
    errs P m -> (forall a, gives m a -> errs P (f a)) -> errs P (mbind m f).
  Proof.
    intros Hm Hf r e. unfold mbind. specialize (Hm r). specialize (Hf).
    destruct (m r) as [[a|e'|] r'] eqn:E; cbn [fst] in *; [|intros H; apply Hm; congruence|discriminate].
    apply Hf. exists r. rewrite E. reflexivity.
  Qed.
  Lemma errs_ret {A} (a : A) : errs P (ret a).
  Proof. intros r e H. discriminate. Qed.
  Lemma errs_throw {A} e : P e -> errs P (@throw A e).
  Proof. intros H r e' H'. cbn in H'. congruence. Qed.
  Lemma errs_lift {A} (x : res A) : rerrs P x -> errs P (lift x).
  Proof. intros H r e. apply H. Qed.
  Lemma errs_run {A} (m : M A) b : errs P m -> rerrs P (run m b).
  Proof. intros H e. apply H. Qed.
  Lemma rerrs_bind {A B} (m : res A) (f : A -> res B) :
    rerrs P m -> (forall a, m = Ok a -> rerrs P (f a)) -> rerrs P (bind m f).
  Proof.
    intros Hm Hf e. destruct m as [a|e'|]; cbn [bind]; [apply Hf; reflexivity|intros H; apply Hm; congruence|discriminate].
  Qed.
  Lemma rerrs_ok_or {A} (o : option A) e : P e -> rerrs P (ok_or o e).
  Proof. intros H e' H'. destruct o; cbn in H'; congruence. Qed.
  Lemma rerrs_ok {A} (a : A) : rerrs P (Ok a).
  Proof. intros e H. discriminate. Qed.
  Lemma rerrs_err {A} e : P e -> rerrs P (@Err A e).
  Proof. intros H e' H'. congruence. Qed.
  Lemma rerrs_panic {A} : rerrs P (@Panic A).
  Proof. intros e H. discriminate. Qed.
End errs.
Lemma errs_mono {A} (P Q : error -> Prop) (m : M A) : (forall e, P e -> Q e) -> errs P m -> errs Q m.
Proof. intros H Hm r e E. apply H. eapply Hm, E. Qed.
Lemma rerrs_mono {A} (P Q : error -> Prop) (x : res A) : (forall e, P e -> Q e) -> rerrs P x -> rerrs Q x.
Proof. intros H Hm e E. apply H, Hm, E. Qed.

(** The reader. *)
Lemma errs_read_bytes : errs broken read_bytes.
Proof.
  intros r e. rewrite read_bytes_eq.
  repeat match goal with |- context [if ?c then _ else _] => destruct c end; cbn [fst]; intros H; try discriminate;
    injection H as <-; constructor.
Qed.
Lemma errs_read_raw n : errs broken (read_raw_bytes n).
Proof.
  intros r e. rewrite read_raw_bytes_eq.
  repeat match goal with |- context [if ?c then _ else _] => destruct c end; cbn [fst]; intros H; try discriminate;
    injection H as <-; constructor.
Qed.
Lemma errs_read_uint n : errs broken (read_uint n).
Proof.
  intros r e. rewrite read_uint_eq.
  repeat match goal with |- context [if ?c then _ else _] => destruct c end; cbn [fst]; intros H; try discriminate;
    injection H as <-; constructor.
Qed.
Lemma errs_read_u32 : errs broken read_u32. Proof. apply errs_read_uint. Qed.
Lemma errs_read_u64 : errs broken read_u64. Proof. apply errs_read_uint. Qed.
Lemma errs_read_string : errs broken read_string.
Proof.
  apply errs_bind; [apply errs_read_bytes|]. intros a _.
  destruct (utf8_valid a); [apply errs_ret|apply errs_throw; constructor].
Qed.
Lemma errs_read_mpint : errs broken read_positive_mpint.
Proof.
  intros r e. rewrite read_positive_mpint_eq. pose proof (errs_read_bytes r) as H.
  destruct (read_bytes r) as [[b|e'|] r']; cbn [fst] in *; [|intros E; apply H; congruence|discriminate].
  destruct (mpint_content b); cbn [fst]; intros E; [discriminate|]. injection E as <-. constructor.
Qed.
Lemma errs_read_cstring : errs broken read_cstring.
Proof.
  intros r e. rewrite read_cstring_eq. destruct (cstring_loop _ _ _) as [[s n]|]; cbn [fst]; intros E; [discriminate|].
  injection E as <-. constructor.
Qed.
Lemma gives_parses {A} (m : M A) P a : parses m P -> gives m a -> exists bs, P a bs.
Proof.
  intros Hm ([inner off] & E). destruct (m (mkReader inner off)) as [x r'] eqn:E'. cbn [fst] in E. subst x.
  apply Hm in E'. destruct E' as (bs & post & H & _). eauto.
Qed.
Lemma gives_string a : gives read_string a -> field_text a.
Proof.
  intros H. apply (gives_parses _ _ _ parses_read_string) in H. destruct H as (bs & (H1 & H2) & _).
  split; [apply utf8_valid_iff, H2|apply field_ok_fits, H1].
Qed.
Lemma gives_u32 n : gives read_u32 n -> (n < 2 ^ 32)%N.
Proof. intros H. apply (gives_parses _ _ _ parses_read_u32) in H. destruct H as (bs & H & _). exact H. Qed.

(** Names. *)
Lemma kt_err n e : kt_from_name n = Err e -> e = EUnknownKeyType n /\ ~ In n supported_names.
Proof.
  intros H. destruct (in_dec (list_eq_dec Byte.byte_eq_dec) n supported_names) as [Hi|Hn].
  - apply C17_key_type_names in Hi. destruct Hi as (kt & Hk & _). congruence.
  - split; [|exact Hn]. pose proof (proj2 (C17_key_type_names n) Hn). congruence.
Qed.
Lemma kt_unknown n : ~ In n supported_names -> kt_from_name n = Err (EUnknownKeyType n).
Proof. apply C17_key_type_names. Qed.
Lemma curve_err n e : curve_from_identifier n = Err e -> e = EUnknownCurve n /\ ~ In n curve_names.
Proof.
  unfold curve_from_identifier. intros H.
  repeat match type of H with context [if bytes_eqb n ?x then _ else _] =>
    let E := fresh "E" in destruct (bytes_eqb n x) eqn:E; [discriminate|apply bytes_eqb_neq in E] end.
  split; [congruence|]. cbn [map In curve_names]. intuition congruence.
Qed.
Lemma curve_unknown n : ~ In n curve_names -> curve_from_identifier n = Err (EUnknownCurve n).
Proof.
  intros H. unfold curve_from_identifier.
  repeat match goal with |- context [if bytes_eqb n ?x then _ else _] =>
    let E := fresh "E" in destruct (bytes_eqb n x) eqn:E; [apply bytes_eqb_eq in E; exfalso; apply H; subst n; cbn [map In curve_names]; tauto|] end.
  reflexivity.
Qed.
Lemma rerrs_kt n : field_text n -> rerrs bad_type (kt_from_name n).
Proof. intros H e E. apply kt_err in E. destruct E as [-> E]. constructor; auto. Qed.
Lemma rerrs_curve n : field_text n -> rerrs bad_curve (curve_from_identifier n).
Proof. intros H e E. apply curve_err in E. destruct E as [-> E]. constructor; auto. Qed.

(** ** Sets that contain the errors of broken data *)
Class has_broken (P : error -> Prop) : Prop := hb : forall e, broken e -> P e.
Ltac errs_tac :=
  repeat first
    [ apply errs_ret | apply rerrs_ok
    | apply (errs_mono broken); [exact hb|first [ apply errs_read_bytes | apply errs_read_raw | apply errs_read_u32
        | apply errs_read_u64 | apply errs_read_string | apply errs_read_mpint | apply errs_read_cstring ]]
    | apply errs_bind; [|intros ? ?] ].

Global Instance hb_blob : has_broken key_blob_error. Proof. intros e H. left. exact H. Qed.
Global Instance hb_text : has_broken key_text_error. Proof. intros e H. left. exact H. Qed.
Global Instance hb_cert : has_broken cert_blob_error. Proof. intros e H. left. left. exact H. Qed.
Global Instance hb_priv b : has_broken (private_error b). Proof. intros e H. left. left. exact H. Qed.
Global Instance hb_sig : has_broken signature_error. Proof. intros e H. left. left. exact H. Qed.

(** Keys. *)
Lemma errs_kind_body (P : error -> Prop) `{has_broken P} kt : (forall e, bad_curve e -> P e) ->
  errs P (match kt_k kt with
    | KRsa | KRsaCert =>
        do! e <- read_positive_mpint;
        do! n <- read_positive_mpint;
        ret (PkRsa e n)
    | KEcdsa | KEcdsaCert =>
        do! identifier <- read_string;
        do! c <- lift (curve_from_identifier identifier);
        do! key <- read_bytes;
        do! app <- (if kt_is_sk kt then do! a <- read_string; ret (Some a) else ret None);
        ret (PkEcdsa c key app)
    | KEd25519 | KEd25519Cert =>
        do! key <- read_bytes;
        do! app <- (if kt_is_sk kt then do! a <- read_string; ret (Some a) else ret None);
        ret (PkEd25519 key app)
    end).
Proof.
  intros Hc. destruct (kt_k kt); destruct (kt_is_sk kt); errs_tac;
    match goal with G : gives read_string ?a |- _ =>
      apply errs_lift, (rerrs_mono bad_curve); [exact Hc|apply rerrs_curve, gives_string, G] end.
Qed.
Lemma errs_pk_reader (P : error -> Prop) `{has_broken P} n : (forall e, bad_curve e -> P e) ->
  rerrs P (kt_from_name n) -> errs P (pk_from_reader n).
Proof.
  intros Hc Hn. unfold pk_from_reader. apply errs_bind; [apply errs_lift, Hn|]. intros kt _.
  apply errs_bind; [exact (errs_kind_body P kt Hc)|]. intros kind _. apply errs_ret.
Qed.
Lemma rerrs_pk_bytes b : rerrs key_blob_error (pk_from_bytes b).
Proof.
  apply errs_run. apply errs_bind; [errs_tac|]. intros n Hn. apply errs_pk_reader; [apply _|right; left; assumption|].
  apply (rerrs_mono bad_type); [right; right; assumption|]. apply rerrs_kt, gives_string, Hn.
Qed.
Lemma rerrs_word n : word n -> rerrs bad_type_word (kt_from_name n).
Proof. intros H e E. apply kt_err in E. destruct E as [-> E]. constructor; auto. Qed.
Lemma words_word s ws : words_of s ws -> Forall word ws.
Proof. induction 1; auto. Qed.
Lemma nth_word s i w : utf8_text s -> nth_error (split_whitespace s) i = Some w -> word w.
Proof.
  intros Hs H. apply split_whitespace_words, words_word in Hs. rewrite Forall_forall in Hs. apply Hs.
  eapply nth_error_In, H.
Qed.
Lemma ok_or_ok {A} (o : option A) e a : ok_or o e = Ok a -> o = Some a.
Proof. destruct o; cbn; congruence. Qed.
Lemma rerrs_pk_text s : utf8_text s -> rerrs key_text_error (pk_from_string s).
Proof.
  intros Hs. unfold pk_from_string.
  apply rerrs_bind; [apply rerrs_ok_or, hb; constructor|]. intros n Hn. apply ok_or_ok in Hn.
  apply rerrs_bind; [apply rerrs_ok_or, hb; constructor|]. intros d _.
  assert (Hk : rerrs key_text_error (kt_from_name n)).
  { apply (rerrs_mono bad_type_word); [intros e He; right; right; left; exact He|]. eapply rerrs_word, nth_word, Hn. exact Hs. }
  apply rerrs_bind; [exact Hk|]. intros kt _.
  apply rerrs_bind; [apply rerrs_ok_or; unfold key_text_error; auto|]. intros b _.
  apply errs_run. apply errs_bind; [errs_tac|]. intros x _.
  destruct (negb _); [apply errs_throw; unfold key_text_error; auto|].
  apply errs_bind; [|intros; apply errs_ret]. apply errs_pk_reader; [apply _|right; left; assumption|exact Hk].
Qed.

(** Certificates. *)
Lemma principals_errs fuel : forall items, errs broken (read_principals_loop fuel items).
Proof.
  induction fuel as [|fuel IH]; intros items r e; cbn [read_principals_loop]; pose proof (errs_read_string r) as H;
    destruct (read_string r) as [[v|e'|] r']; cbn [fst] in *; try discriminate.
  - destruct e'; cbn [fst]; intros E; try discriminate; apply H; congruence.
  - apply IH.
  - destruct e'; cbn [fst]; intros E; try discriminate; apply H; congruence.
Qed.
Lemma option_value_errs : errs broken read_option_value.
Proof.
  apply errs_bind; [apply errs_read_bytes|]. intros [|x l] _; [apply errs_ret|]. apply errs_lift, errs_run, errs_read_string.
Qed.
Lemma options_errs fuel : forall m, errs broken (read_options_loop fuel m).
Proof.
  induction fuel as [|fuel IH]; intros m r e; cbn [read_options_loop]; pose proof (errs_read_string r) as H;
    destruct (read_string r) as [[v|e'|] r']; cbn [fst] in *; try discriminate.
  - destruct e'; cbn [fst]; intros E; try discriminate; apply H; congruence.
  - apply errs_bind; [apply option_value_errs|]. intros w _. apply IH.
  - destruct e'; cbn [fst]; intros E; try discriminate; apply H; congruence.
Qed.
Definition verify_error (e : error) : Prop :=
  broken e \/ bad_type e \/ e = EKeyTypeMismatch \/ e = EInvalidSignature.
Global Instance hb_verify : has_broken verify_error. Proof. intros e H. left. exact H. Qed.
Lemma rerrs_check b : rerrs verify_error (check b).
Proof. destruct b; [apply rerrs_ok|apply rerrs_err]. unfold verify_error. auto. Qed.
Lemma errs_sk_message C a m : errs verify_error (read_sk_message C a m).
Proof.
  unfold read_sk_message. errs_tac. apply errs_lift. intros e E. unfold index in E. destruct (nth_error _ _); discriminate.
Qed.
Lemma usub_no_err a b e : usub a b <> Err e.
Proof. unfold usub. destruct (b <=? a); discriminate. Qed.
Lemma rerrs_verify C s m k : rerrs verify_error (verify_signature C s m k).
Proof.
  assert (HM : verify_error EKeyTypeMismatch) by (unfold verify_error; auto).
  assert (HF : verify_error EInvalidFormat) by (left; constructor).
  unfold verify_signature. apply errs_run. apply errs_bind; [errs_tac|]. intros v Hv.
  apply errs_bind; [apply errs_lift, (rerrs_mono bad_type); [intros e He; right; left; exact He|apply rerrs_kt, gives_string, Hv]|].
  intros kt _. destruct (negb _); [apply errs_throw, HM|].
  destruct (pk_kind k) as [e n|c key app|key app].
  - apply errs_bind; [apply errs_lift; unfold rsa_alg_of; repeat (destruct (bytes_eqb _ _); [apply rerrs_ok|]); apply rerrs_err, HM|].
    intros alg _. errs_tac. apply errs_lift, rerrs_check.
  - apply errs_bind; [errs_tac|]. intros inner _.
    apply errs_bind; [apply errs_lift; unfold ecdsa_alg_of; repeat (destruct (_ || _ || _) || destruct (_ || _) || destruct (bytes_eqb _ _)); try apply rerrs_ok; apply rerrs_err, HM|].
    intros [alg len] _.
    apply errs_bind; [apply errs_lift, errs_run; errs_tac|]. intros [r' s'] _.
    destruct (_ || _); [apply errs_throw, HF|].
    apply errs_bind; [apply errs_lift; intros e E; exfalso; eapply usub_no_err, E|]. intros nr _.
    apply errs_bind; [apply errs_lift; intros e E; exfalso; eapply usub_no_err, E|]. intros ns _.
    apply errs_bind; [destruct app; [apply errs_sk_message|apply errs_ret]|]. intros msg _.
    apply errs_bind; [apply errs_lift, rerrs_check|]. intros _ _. apply errs_ret.
  - apply errs_bind; [apply errs_lift; unfold ed25519_type_check; repeat (destruct (bytes_eqb _ _); [apply rerrs_ok|]); apply rerrs_err, HM|].
    intros _ _. apply errs_bind; [errs_tac|]. intros sg _.
    apply errs_bind; [destruct app; [apply errs_sk_message|apply errs_ret]|]. intros msg _.
    apply errs_bind; [apply errs_lift, rerrs_check|]. intros _ _. apply errs_ret.
Qed.
Lemma verify_cert_error e : verify_error e -> cert_blob_error e.
Proof. unfold cert_blob_error, key_blob_error. intros [H|[H|[H|H]]]; auto 6. Qed.
Lemma kt_name_of n kt : kt_from_name n = Ok kt -> exists p, kt_from_name (as_pubkey_name kt) = Ok p.
Proof.
  intros H. apply kt_from_name_ok in H. destruct H as [H _]. unfold as_pubkey_name.
  destruct (known_plain kt H) as (p & Hp & _). eauto.
Qed.
Lemma rerrs_cert_bytes C b : rerrs cert_blob_error (cert_from_bytes C b).
Proof.
  assert (HB : forall e, key_blob_error e -> cert_blob_error e) by (intros e H; left; exact H).
  unfold cert_from_bytes. apply errs_run. apply errs_bind; [errs_tac|]. intros n Hn.
  apply errs_bind.
  { apply errs_lift, (rerrs_mono bad_type); [intros e He; apply HB; right; right; exact He|apply rerrs_kt, gives_string, Hn]. }
  intros kt (r & Hk). cbn in Hk.
  destruct (negb _); [apply errs_throw; right; left; reflexivity|].
  apply errs_bind; [errs_tac|]. intros nonce _.
  apply errs_bind.
  { apply errs_pk_reader; [apply _|intros e He; apply HB; right; left; exact He|].
    destruct (kt_name_of _ _ Hk) as (p & Hp). intros e E. congruence. }
  intros key _. apply errs_bind; [errs_tac|]. intros serial _.
  apply errs_bind.
  { unfold read_cert_type. apply errs_bind; [errs_tac|]. intros t Ht.
    destruct (t =? 1)%N eqn:E1; [apply errs_ret|]. destruct (t =? 2)%N eqn:E2; [apply errs_ret|].
    apply N.eqb_neq in E1, E2. apply errs_throw. do 4 right. exists t. apply gives_u32 in Ht. auto. }
  intros ct _. apply errs_bind; [errs_tac|]. intros id _. apply errs_bind; [errs_tac|]. intros pb _.
  apply errs_bind; [apply errs_lift, errs_run, (errs_mono broken); [exact hb|apply principals_errs]|]. intros ps _.
  apply errs_bind; [errs_tac|]. intros va _. apply errs_bind; [errs_tac|]. intros vb _. apply errs_bind; [errs_tac|]. intros cb _.
  apply errs_bind; [apply errs_lift, errs_run, (errs_mono broken); [exact hb|apply options_errs]|]. intros co _.
  apply errs_bind; [errs_tac|]. intros eb _.
  apply errs_bind; [apply errs_lift, errs_run, (errs_mono broken); [exact hb|apply options_errs]|]. intros ex _.
  apply errs_bind; [errs_tac|]. intros rs _. apply errs_bind; [errs_tac|]. intros skb _.
  apply errs_bind; [apply errs_lift, (rerrs_mono key_blob_error); [exact HB|apply rerrs_pk_bytes]|]. intros sk _.
  apply errs_bind; [intros r' e' E; discriminate|]. intros len _. apply errs_bind; [errs_tac|]. intros sg _.
  apply errs_bind; [intros r' e' E; discriminate|]. intros _ _. apply errs_bind; [errs_tac|]. intros sb _.
  apply errs_bind; [apply errs_lift, (rerrs_mono verify_error); [apply verify_cert_error|apply rerrs_verify]|]. intros _ _. apply errs_ret.
Qed.
Lemma rerrs_cert_text C s : utf8_text s -> rerrs cert_text_error (cert_from_string C s).
Proof.
  intros Hs. assert (HF : cert_text_error EInvalidFormat) by (left; apply hb; constructor).
  unfold cert_from_string.
  apply rerrs_bind; [apply rerrs_ok_or, HF|]. intros n Hn. apply ok_or_ok in Hn.
  apply rerrs_bind.
  { apply (rerrs_mono bad_type_word); [intros e He; right; left; exact He|]. eapply rerrs_word, nth_word, Hn. exact Hs. }
  intros kt _. apply rerrs_bind; [apply rerrs_ok_or, HF|]. intros d _.
  apply rerrs_bind; [apply rerrs_ok_or; right; right; reflexivity|]. intros b _.
  apply rerrs_bind; [apply (rerrs_mono cert_blob_error); [intros e He; left; exact He|apply rerrs_cert_bytes]|]. intros c _.
  destruct (negb _); [apply rerrs_err|apply rerrs_ok]. left. right. right. left. reflexivity.
Qed.

(** Private keys. *)
Lemma rerrs_armor (P : error -> Prop) b e text : P EInvalidFormat -> P EDecode -> rerrs P (armor_decode b e text).
Proof.
  intros HF HD. unfold armor_decode. cbn zeta. destruct (negb _); [apply rerrs_err, HF|].
  destruct (armor_body_cases e (tl (lines text)) []) as [[o ->]| ->]; cbn [bind]; [apply rerrs_ok_or, HD|apply rerrs_err, HF].
Qed.
Lemma software_cert kt : known kt -> kt_k kt = KRsaCert \/ kt_k kt = KEd25519Cert \/ kt_k kt = KEcdsaCert -> In (kt_name kt) software_certs.
Proof.
  revert kt. apply (known_forall (fun kt => kt_k kt = KRsaCert \/ kt_k kt = KEd25519Cert \/ kt_k kt = KEcdsaCert -> In (kt_name kt) software_certs)).
  unfold key_types.
  repeat apply Forall_cons; try apply Forall_nil; cbn [kt_k kt_name];
    (intros [H|[H|H]]; try discriminate H; unfold software_certs; cbn [map In]; tauto).
Qed.
Lemma errs_hw (P : error -> Prop) `{has_broken P} : errs P read_hw.
Proof.
  unfold read_hw. errs_tac. apply errs_lift. intros e E. unfold index in E. destruct (nth_error _ _); discriminate.
Qed.
Lemma errs_body b F kt : known kt -> errs (private_error b) (read_body F kt).
Proof.
  intros Hk.
  assert (HC : forall id, gives read_string id -> rerrs (private_error b) (curve_from_identifier id)).
  { intros id G. apply (rerrs_mono bad_curve); [intros e He; left; right; left; exact He|apply rerrs_curve, gives_string, G]. }
  assert (HX : kt_k kt = KRsaCert \/ kt_k kt = KEd25519Cert \/ kt_k kt = KEcdsaCert ->
    errs (private_error b) (@throw (priv_kind * pubkey_kind) (EUnknownKeyType (kt_name kt)))).
  { intros H. apply errs_throw. right. right. left. exists (kt_name kt). split; [apply software_cert; auto|reflexivity]. }
  unfold read_body. destruct (kt_k kt) eqn:Ek; [| | |apply HX; auto..].
  - errs_tac. apply errs_lift. intros e E. exfalso. eapply crt_exponents_not_err, E.
  - apply errs_bind; [errs_tac|]. intros pk _. destruct (kt_is_sk kt); [|errs_tac]. apply errs_bind; [apply errs_hw, _|intros; apply errs_ret].
  - apply errs_bind; [errs_tac|]. intros id G. apply errs_bind; [apply errs_lift, HC, G|]. intros c _.
    apply errs_bind; [errs_tac|]. intros pk _. destruct (kt_is_sk kt); [|errs_tac]. apply errs_bind; [apply errs_hw, _|intros; apply errs_ret].
Qed.
Lemma errs_private b F : errs (private_error b) (read_private_key F).
Proof.
  change (errs (private_error b) (do! name <- read_string; do! kt <- lift (kt_from_name name); do! kp <- read_body F kt;
    do! comment <- read_string; ret (mkPrivKey kt (fst kp) (mkPubKey kt (snd kp) None) 0 comment))).
  apply errs_bind; [errs_tac|]. intros n Hn.
  apply errs_bind.
  { apply errs_lift, (rerrs_mono bad_type); [intros e He; left; right; right; exact He|apply rerrs_kt, gives_string, Hn]. }
  intros kt (r & Hk). cbn in Hk. apply kt_from_name_ok in Hk. destruct Hk as [Hk _].
  apply errs_bind; [apply errs_body, Hk|]. intros kp _. errs_tac.
Qed.
Lemma rerrs_decrypt F K cipher kdf options pass section :
  rerrs (private_error match pass with None => true | Some _ => false end) (decrypt F K cipher kdf options pass section).
Proof.
  assert (HF : forall b, private_error b EInvalidFormat) by (intros b; apply hb; constructor).
  assert (HN : forall b, private_error b EEncryptedPrivateKeyNotSupported) by (intros b; do 3 right; left; reflexivity).
  unfold decrypt. destruct (_ && _); [apply rerrs_ok|]. destruct (_ && _); [|apply rerrs_err, HN].
  destruct pass as [p|]; [|apply rerrs_err; do 4 right; auto].
  destruct (f_encrypted F); [|apply rerrs_err, HN].
  apply rerrs_bind; [apply errs_run; errs_tac|]. intros sr _.
  destruct (k_bcrypt _ _ _ _); [apply rerrs_ok_or, HF|apply rerrs_err, HF].
Qed.
Lemma rerrs_sk_text F K s pass :
  rerrs (private_error match pass with None => true | Some _ => false end) (sk_from_string F K s pass).
Proof.
  set (b := match pass with None => true | Some _ => false end).
  assert (HF : private_error b EInvalidFormat) by (apply hb; constructor).
  rewrite sk_from_string_decode. apply rerrs_bind; [apply rerrs_armor; [exact HF|right; left; reflexivity]|]. intros d _.
  apply errs_run. unfold sk_from_reader. apply errs_bind; [errs_tac|]. intros pre _.
  destruct (negb _); [apply errs_throw, HF|].
  apply errs_bind; [errs_tac|]. intros cipher _. apply errs_bind; [errs_tac|]. intros kdf _. apply errs_bind; [errs_tac|]. intros opts _.
  apply errs_bind; [errs_tac|]. intros count _. destruct (negb _); [apply errs_throw, HF|].
  apply errs_bind; [errs_tac|]. intros pkb _.
  apply errs_bind; [apply errs_lift, (rerrs_mono key_blob_error); [intros e He; left; exact He|apply rerrs_pk_bytes]|]. intros pub _.
  apply errs_bind; [errs_tac|]. intros rm _. apply errs_bind; [errs_tac|]. intros sec _.
  apply errs_bind; [apply errs_lift, rerrs_decrypt|]. intros plain _.
  apply errs_lift, errs_run. unfold read_section. apply errs_bind; [errs_tac|]. intros m1 _. apply errs_bind; [errs_tac|]. intros m2 _.
  destruct (negb _); [apply errs_throw, HF|]. apply errs_bind; [apply errs_private|]. intros k _. cbn zeta.
  destruct (negb _); [apply errs_throw, HF|apply errs_ret].
Qed.

(** File signatures. *)
Lemma rerrs_sig_text s : rerrs signature_error (sshsig_from_armored_string s).
Proof.
  assert (HF : signature_error EInvalidFormat) by (apply hb; constructor).
  assert (HU : signature_error EUnsupported) by (right; right; reflexivity).
  rewrite armored_decode. apply rerrs_bind; [apply rerrs_armor; [exact HF|right; left; reflexivity]|]. intros d _.
  apply errs_run. unfold sshsig_from_reader. apply errs_bind; [errs_tac|]. intros pre _.
  destruct (negb _); [apply errs_throw, HF|]. apply errs_bind; [errs_tac|]. intros v _.
  destruct (negb _); [apply errs_throw, HU|]. apply errs_bind; [errs_tac|]. intros pkb _.
  apply errs_bind; [apply errs_lift, (rerrs_mono key_blob_error); [intros e He; left; exact He|apply rerrs_pk_bytes]|]. intros pub _.
  apply errs_bind; [errs_tac|]. intros ns _. destruct ns as [|x ns]; [apply errs_throw, HF|].
  apply errs_bind; [errs_tac|]. intros rs _. apply errs_bind; [errs_tac|]. intros h _.
  apply errs_bind; [apply errs_lift; repeat (destruct (bytes_eqb _ _); [apply rerrs_ok|]); apply rerrs_err, HU|]. intros hash _. errs_tac.
Qed.

(** Lemmas about the errors of signature verification. *)
From Coq Require Import Lia.
From Verif Require Import Base BaseFacts Utf8 Utf8Facts SpecWire SpecKeys SpecNames SpecErrors SpecSig Reader ReaderFacts LocalFacts
  KeyType KeyTypeFacts PubKeyType WireFacts Crypto PubKeyFacts Signature SignatureFacts PropReader PropSignature ErrorsFacts SpecRefused.

(** ** Failing reads *)
Lemma run_bind {A B} (m : M A) (f : A -> M B) b e :
  run (mbind m f) b = Err e <->
  run m b = Err e \/ exists a r, m (reader_new b) = (Ok a, r) /\ fst (f a r) = Err e.
Proof.
  unfold run, mbind. destruct (m (reader_new b)) as [[a|e'|] r]; cbn [fst]; split.
  - intros H. right. eauto.
  - intros [H|(a' & r' & [= <- <-] & H)]; [discriminate|exact H].
  - intros [= <-]. left. reflexivity.
  - intros [H|(a' & r' & H & _)]; [congruence|discriminate].
  - discriminate.
  - intros [H|(a' & r' & H & _)]; discriminate.
Qed.
Lemma run_bytes b e : run read_bytes b = Err e <-> no_field b e.
Proof.
  unfold run. pose proof (C02_read_bytes_exact (reader_new b)) as (_ & H2 & H3 & H4).
  unfold unread, reader_new in *. cbn [r_inner r_off skipn] in *.
  destruct (read_bytes (mkReader b 0)) as [x r] eqn:E. cbn [fst]. split.
  - intros ->. assert (Er : r = mkReader b 0)
      by (pose proof (C03_failed_reads_do_not_consume (mkReader b 0) r e) as [H _]; exact (H E)).
    rewrite Er in *. destruct (H4 e _ eq_refl) as [->| ->].
    + apply NF_empty, H2. reflexivity.
    + destruct (proj1 H3 eq_refl) as [H5 H6]. apply NF_short; [exact H5|].
      intros p t Hp Hb. apply H6. exists p, t. auto.
  - intros [H|H H'].
    + apply H2 in H. congruence.
    + assert (X : b <> [] /\ ~ framed b).
      { split; [exact H|]. intros (p & t & Hp & Hb). exact (H' p t Hp Hb). }
      apply H3 in X. congruence.
Qed.
Lemma bind_bytes {B} (f : bytes -> M B) b e : (forall a, local (f a)) ->
  run (mbind read_bytes f) b = Err e <->
  no_field b e \/ exists p t, field_ok p /\ b = field p ++ t /\ run (f p) t = Err e.
Proof.
  intros Hf. split.
  - intros H. destruct (run read_bytes b) as [p|e'|] eqn:E.
    + apply (run_parses _ _ _ _ parses_read_bytes) in E. destruct E as (bs & t & [Hp ->] & ->).
      rewrite step_bytes in H by assumption. right. exists p, t. rewrite field_ok_fits, field_enc. auto.
    + left. rewrite (run_bind_err _ _ _ _ E) in H. injection H as ->. apply run_bytes, E.
    + rewrite (run_bind_panic _ _ _ E) in H. discriminate.
  - intros [H|(p & t & Hp & -> & H)].
    + apply run_bind_err, run_bytes, H.
    + rewrite field_ok_fits in Hp. rewrite field_enc, step_bytes by assumption. exact H.
Qed.
Lemma string_bytes {B} (f : bytes -> M B) b :
  run (mbind read_string f) b = run (mbind read_bytes (fun p => if utf8_valid p then f p else throw EUtf8)) b.
Proof.
  unfold run, mbind. rewrite read_string_eq. destruct (read_bytes _) as [[p|e|] r]; [|reflexivity|reflexivity].
  destruct (utf8_valid p); reflexivity.
Qed.
Lemma bind_string {B} (f : bytes -> M B) b e : (forall a, local (f a)) ->
  run (mbind read_string f) b = Err e <->
  no_field b e \/ (exists p t, field_ok p /\ b = field p ++ t /\ ~ utf8_text p /\ e = EUtf8)
  \/ exists p t, field_text p /\ b = field p ++ t /\ run (f p) t = Err e.
Proof.
  intros Hf. rewrite string_bytes, bind_bytes by (intros a; destruct (utf8_valid a); [apply Hf|apply local_throw]).
  split.
  - intros [H|(p & t & Hp & -> & H)]; [left; exact H|right]. destruct (utf8_valid p) eqn:E.
    + right. exists p, t. split; [|auto]. split; [apply utf8_valid_iff, E|exact Hp].
    + left. exists p, t. cbn in H. injection H as <-. repeat split; auto. intros X. apply utf8_valid_iff in X. congruence.
  - intros [H|[(p & t & Hp & -> & Hu & ->)|(p & t & [Hu Hp] & -> & H)]]; [left; exact H| |]; right; exists p, t.
    + repeat split; auto. destruct (utf8_valid p) eqn:E; [apply utf8_valid_iff in E; tauto|reflexivity].
    + repeat split; auto. apply utf8_valid_iff in Hu. rewrite Hu. exact H.
Qed.
Lemma mpint_bytes_run {B} (f : bytes -> M B) b :
  run (mbind read_positive_mpint f) b
  = run (mbind read_bytes (fun p => match mpint_content p with Some m => f m | None => throw EInvalidFormat end)) b.
Proof.
  unfold run, mbind. rewrite read_positive_mpint_eq. destruct (read_bytes _) as [[p|e|] r]; [|reflexivity|reflexivity].
  destruct (mpint_content p); reflexivity.
Qed.
Lemma content_field c m : field_ok c -> mpint_content c = Some m <-> mpint_field m (field c).
Proof.
  intros Hc. rewrite mpint_content_iff, mpint_field_iff. rewrite field_ok_fits in Hc. rewrite field_enc. split.
  - intros [-> H]. auto.
  - intros [[H1 H2] H]. apply (f_equal (fun x => x ++ [])) in H. apply enc_bytes_inj in H; try assumption. split; [apply H|exact H2].
Qed.
Lemma bind_mpint {B} (f : bytes -> M B) b e : (forall a, local (f a)) ->
  run (mbind read_positive_mpint f) b = Err e <->
  no_number b e \/ exists m b1 t, mpint_field m b1 /\ b = b1 ++ t /\ run (f m) t = Err e.
Proof.
  intros Hf. rewrite mpint_bytes_run, bind_bytes by (intros a; destruct (mpint_content a); [apply Hf|apply local_throw]).
  split.
  - intros [H|(p & t & Hp & -> & H)]; [left; apply NN_field, H|]. destruct (mpint_content p) as [m|] eqn:E.
    + right. exists m, (field p), t. split; [apply content_field; assumption|auto].
    + left. cbn in H. injection H as <-. apply (NN_form _ p t); [exact Hp|reflexivity|].
      intros m X. apply content_field in X; [congruence|exact Hp].
  - intros [H|(m & b1 & t & Hm & -> & H)].
    + destruct H as [e H|c t Hc -> H]; [left; exact H|]. right. exists c, t. repeat split; auto.
      destruct (mpint_content c) as [m|] eqn:E; [|reflexivity]. apply content_field in E; [|exact Hc]. destruct (H m E).
    + right. pose proof Hm as Hm'. destruct Hm' as [_ (c & _ & Hc & ->)]. exists c, t. repeat split; auto.
      apply content_field in Hm; [|exact Hc]. rewrite Hm. exact H.
Qed.
Lemma bind_lift {A B} (x : res A) (f : A -> M B) b e :
  run (mbind (lift x) f) b = Err e <-> x = Err e \/ exists a, x = Ok a /\ run (f a) b = Err e.
Proof.
  destruct x as [a|e'|]; cbn.
  - split; [eauto|]. intros [H|(a' & [= <-] & H)]; [discriminate|exact H].
  - split; [intros [= <-]; auto|]. intros [H|(a' & H & _)]; [congruence|discriminate].
  - split; [discriminate|]. intros [H|(a' & H & _)]; discriminate.
Qed.

Lemma run_sk_message C a msg b e :
  run (read_sk_message C a msg) b = Err e <-> no_counter (Some a) b e.
Proof.
  destruct b as [|b0 [|b1 [|b2 [|b3 [|b4 b]]]]];
    try (cbn; split; [intros [= <-]; apply (NC_end _ _ a); [reflexivity|cbn; lia]|
      intros [a' _ H|a' _ H]; [reflexivity|cbn in H; lia]]);
    try (cbn; split; [intros [= <-]; apply (NC_short _ _ a); [reflexivity|cbn; lia]|
      intros [a' _ H|a' _ H]; [cbn in H; lia|reflexivity]]).
  split; [cbn; discriminate|]. intros [a' _ H|a' _ H]; cbn in H; lia.
Qed.
Lemma bind_message {B} C app msg (f : bytes -> M B) g b e : (forall m r, fst (f m r) = g m) ->
  run (mbind (match app with Some a => read_sk_message C a msg | None => ret msg end) f) b = Err e <->
  no_counter app b e \/ exists m, signed_message C app msg b m /\ g m = Err e.
Proof.
  intros Hg. rewrite run_bind. split.
  - intros [H|(m & r & H & Hf)].
    + left. destruct app as [a|]; [apply run_sk_message in H; exact H|discriminate].
    + right. exists m. rewrite Hg in Hf. split; [|exact Hf]. apply signed_message_iff.
      pose proof (parses_sk_message C app msg) as P. unfold reader_new in H. apply P in H.
      destruct H as (bs & post & H & Hb & _). exists bs, post. split; [exact Hb|exact H].
  - intros [H|(m & H & Hf)].
    + left. destruct app as [a|].
      * apply run_sk_message, H.
      * destruct H as [a H|a H]; discriminate.
    + right. apply signed_message_iff in H. destruct H as (bs & post & -> & H).
      pose proof (parses_sk_message C app msg) as P. exists m, (mkReader (bs ++ post) (0 + length bs)).
      rewrite Hg. split; [|exact Hf]. apply P. exists bs, post. auto.
Qed.

(** ** Names *)
Lemma kind_in l kt : kt_from_name l = Ok kt -> forall k, kt_k kt = k <-> In l (kind_names k).
Proof.
  intros H k. apply kt_from_name_ok in H. destruct H as [H ->].
  assert (A : forallb (fun kt => forallb (fun k =>
      Bool.eqb (kt_kind_eqb (kt_k kt) k) (existsb (bytes_eqb (kt_name kt)) (kind_names k)))
      [KRsa; KEd25519; KEcdsa; KRsaCert; KEd25519Cert; KEcdsaCert]) key_types = true) by (vm_compute; reflexivity).
  rewrite forallb_forall in A. specialize (A kt H). rewrite forallb_forall in A.
  assert (Hk : In k [KRsa; KEd25519; KEcdsa; KRsaCert; KEd25519Cert; KEcdsaCert]) by (destruct k; cbn; tauto).
  apply A, Bool.eqb_prop in Hk. rewrite <- kt_kind_eqb_eq, Hk, existsb_exists. split.
  - intros (x & Hx & E). apply bytes_eqb_eq in E. congruence.
  - intros Hx. eexists. split; [exact Hx|apply bytes_eqb_refl].
Qed.
Lemma kind_supported l k : In l (kind_names k) -> In l supported_names.
Proof.
  intros H. assert (A : forallb (fun n => existsb (bytes_eqb n) supported_names) (kind_names k) = true) by (destruct k; reflexivity).
  rewrite forallb_forall in A. specialize (A l H). apply existsb_exists in A. destruct A as (x & Hx & E).
  apply bytes_eqb_eq in E. congruence.
Qed.
Lemma supported_text l : In l supported_names -> field_text l.
Proof.
  intros H. apply PropKeyType.C17_key_type_names in H. destruct H as (kt & H & _). apply kt_from_name_ok in H.
  destruct H as [H ->]. split; [apply utf8_valid_iff, known_utf8, H|apply field_ok_fits, known_fits, H].
Qed.
Lemma rsa_alg_err l e : rsa_alg_of l = Err e <-> (forall a, ~ rsa_label l a) /\ e = EKeyTypeMismatch.
Proof.
  split.
  - intros H. split; [intros a X; apply rsa_alg_of_iff in X; congruence|]. revert H. unfold rsa_alg_of.
    repeat destruct (bytes_eqb _ _); congruence.
  - intros [H ->]. destruct (rsa_alg_of l) as [a|e|] eqn:E.
    + apply rsa_alg_of_iff in E. destruct (H a E).
    + revert E. unfold rsa_alg_of. repeat destruct (bytes_eqb _ _); congruence.
    + destruct (rsa_alg_not_panic l E).
Qed.
Lemma ecdsa_alg_err C l e : ecdsa_alg_of l = Err e <-> (forall v n, ~ ecdsa_label C l v n) /\ e = EKeyTypeMismatch.
Proof.
  split.
  - intros H. split; [intros v n X; apply ecdsa_alg_of_iff in X; destruct X as (a & X & _); congruence|]. revert H. unfold ecdsa_alg_of.
    destruct (_ || _); [congruence|]. destruct (bytes_eqb _ _); congruence.
  - intros [H ->]. destruct (ecdsa_alg_of l) as [[a n]|e|] eqn:E.
    + destruct (H (ecdsa_verify C a) n). apply ecdsa_alg_of_iff. exists a. auto.
    + revert E. unfold ecdsa_alg_of. destruct (_ || _); [congruence|]. destruct (bytes_eqb _ _); congruence.
    + destruct (ecdsa_alg_not_panic l E).
Qed.
Lemma ed_check_err l e : ed25519_type_check l = Err e <-> ~ ed25519_label l /\ e = EKeyTypeMismatch.
Proof.
  split.
  - intros H. split; [intros X; apply (ed25519_check_iff _ tt) in X; congruence|]. revert H. unfold ed25519_type_check.
    repeat destruct (bytes_eqb _ _); congruence.
  - intros [H ->]. destruct (ed25519_type_check l) as [[]|e|] eqn:E.
    + apply ed25519_check_iff in E. tauto.
    + revert E. unfold ed25519_type_check. repeat destruct (bytes_eqb _ _); congruence.
    + destruct (ed25519_check_not_panic l E).
Qed.
Lemma check_err b e : check b = Err e <-> b = false /\ e = EInvalidSignature.
Proof. destruct b; cbn; split; intuition congruence. Qed.

(** ** The parts of a signature *)
Lemma local_message C app msg : local (match app with Some a => read_sk_message C a msg | None => ret msg end).
Proof. unfold read_sk_message. local_tac. Qed.
Lemma rsa_body C e n msg l st t buf err : kt_name st = l ->
  run (do! alg <- lift (rsa_alg_of (kt_name st)); do! signature <- read_bytes;
       do! _ <- lift (check (c_rsa_verify C alg n e msg signature)); ret buf) t = @Err bytes err
  <-> body_refused C (PkRsa e n) msg l t err.
Proof.
  intros ->. rewrite bind_lift. split.
  - intros [H|(a & Ha & H)].
    + apply rsa_alg_err in H. destruct H as [H ->]. eapply RsaLabel; [reflexivity|exact H].
    + apply rsa_alg_of_iff in Ha. apply bind_bytes in H; [|local_tac]. destruct H as [H|(p & t' & Hp & -> & H)].
      * eapply RsaField; [reflexivity|exact Ha|exact H].
      * apply bind_lift in H. destruct H as [H|(u & _ & H)]; [|discriminate]. apply check_err in H. destruct H as [H ->].
        eapply RsaNo; [reflexivity|exact Ha|exact Hp|reflexivity|exact H].
  - intros H. inversion H as [e' n' E Hl|e' n' a er E Ha Hf|e' n' a p t' E Ha Hp -> Hv| | | | | | | | |]; subst; try discriminate;
      injection E as <- <-.
    + left. apply rsa_alg_err. auto.
    + right. exists a. split; [apply rsa_alg_of_iff, Ha|]. apply bind_bytes; [local_tac|]. left. exact Hf.
    + right. exists a. split; [apply rsa_alg_of_iff, Ha|]. apply bind_bytes; [local_tac|]. right. exists p, t'.
      split; [exact Hp|]. split; [reflexivity|]. rewrite Hv. reflexivity.
Qed.
Lemma ed_body C key app msg l st t buf err : kt_name st = l ->
  run (do! _ <- lift (ed25519_type_check (kt_name st)); do! signature <- read_bytes;
       do! m <- match app with Some a => read_sk_message C a msg | None => ret msg end;
       do! _ <- lift (check (c_ed25519_verify C key m signature)); ret buf) t = @Err bytes err
  <-> body_refused C (PkEd25519 key app) msg l t err.
Proof.
  intros ->. rewrite bind_lift.
  assert (L : forall sg : bytes, local (do! m <- match app with Some a => read_sk_message C a msg | None => ret msg end;
       do! _ <- lift (check (c_ed25519_verify C key m sg)); ret buf)).
  { intros sg. apply local_bind; [apply local_message|local_tac]. }
  assert (G : forall sg m r, fst ((do! _ <- lift (check (c_ed25519_verify C key m sg)); ret buf) r)
    = do? _ <- check (c_ed25519_verify C key m sg); Ok buf).
  { intros sg m r. unfold mbind, lift, ret. destruct (check _); reflexivity. }
  split.
  - intros [H|(u & Ha & H)].
    + apply ed_check_err in H. destruct H as [H ->]. eapply EdLabel; [reflexivity|exact H].
    + apply ed25519_check_iff in Ha. apply bind_bytes in H; [|exact L]. destruct H as [H|(p & t' & Hp & -> & H)].
      * eapply EdField; [reflexivity|exact Ha|exact H].
      * apply (bind_message _ _ _ _ _ _ _ (G p)) in H. destruct H as [H|(m & Hm & H)].
        -- eapply EdCounter; [reflexivity|exact Ha|exact Hp|reflexivity|exact H].
        -- destruct (check _) eqn:E; cbn in H; try discriminate. apply check_err in E. destruct E as [E ->]. injection H as <-.
           eapply EdNo; [reflexivity|exact Ha|exact Hp|reflexivity|exact Hm|exact E].
  - intros H. inversion H as [| | | | | | | |k' a' E Hl|k' a' er E Hl Hf|k' a' p t' er E Hl Hp -> Hc|k' a' p t' m E Hl Hp -> Hm Hv];
      subst; try discriminate; injection E as <- <-.
    + left. apply ed_check_err. auto.
    + right. exists tt. split; [apply ed25519_check_iff, Hl|]. apply bind_bytes; [exact L|]. left. exact Hf.
    + right. exists tt. split; [apply ed25519_check_iff, Hl|]. apply bind_bytes; [exact L|]. right. exists p, t'.
      split; [exact Hp|]. split; [reflexivity|]. apply (bind_message _ _ _ _ _ _ _ (G p)). left. exact Hc.
    + right. exists tt. split; [apply ed25519_check_iff, Hl|]. apply bind_bytes; [exact L|]. right. exists p, t'.
      split; [exact Hp|]. split; [reflexivity|]. apply (bind_message _ _ _ _ _ _ _ (G p)). right. exists m.
      split; [exact Hm|]. rewrite Hv. reflexivity.
Qed.

Definition two_numbers : M (bytes * bytes) := do! r <- read_positive_mpint; do! s <- read_positive_mpint; ret (r, s).
Lemma two_numbers_err p err : run two_numbers p = Err err <->
  no_number p err \/ exists r b1 t, mpint_field r b1 /\ p = b1 ++ t /\ no_number t err.
Proof.
  unfold two_numbers. rewrite bind_mpint by local_tac. split.
  - intros [H|(m & b1 & t & Hm & -> & H)]; [auto|right]. exists m, b1, t. apply bind_mpint in H; [|local_tac].
    destruct H as [H|(s & b2 & u & _ & _ & H)]; [auto|discriminate].
  - intros [H|(m & b1 & t & Hm & -> & H)]; [auto|right]. exists m, b1, t. repeat split; try assumption; try apply Hm.
    apply bind_mpint; [local_tac|]. auto.
Qed.
Lemma number_size m b len : mpint_field m b -> length m <= len <-> (magnitude m < 256 ^ N.of_nat len)%N.
Proof. intros H. apply mpint_field_iff in H. rewrite magnitude_from_be. apply no_lead_size, H. Qed.
Lemma number_fixed m b len f : mpint_field m b -> fixed_bytes len (magnitude m) f ->
  length m <= len /\ f = repeat x00 (len - length m) ++ m.
Proof. intros H. apply mpint_field_iff in H. apply fixed_bytes_iff, H. Qed.

Definition ecdsa_rest C (key msg buf : bytes) app alg len r s : M bytes :=
  if (len <? length r) || (len <? length s) then throw EInvalidFormat else
  do! nr <- lift (usub len (length r)); do! ns <- lift (usub len (length s));
  let sig := (repeat x00 nr ++ r) ++ (repeat x00 ns ++ s) in
  do! m <- match app with Some a => read_sk_message C a msg | None => ret msg end;
  do! _ <- lift (check (ecdsa_verify C alg key m sig)); ret buf.
Lemma ecdsa_rest_err C key msg buf app alg len r s b1 b2 t err : mpint_field r b1 -> mpint_field s b2 ->
  run (ecdsa_rest C key msg buf app alg len r s) t = Err err <->
  ((256 ^ N.of_nat len <= magnitude r \/ 256 ^ N.of_nat len <= magnitude s)%N /\ err = EInvalidFormat)
  \/ (magnitude r < 256 ^ N.of_nat len /\ magnitude s < 256 ^ N.of_nat len)%N
     /\ (no_counter app t err
         \/ exists fr fs m, fixed_bytes len (magnitude r) fr /\ fixed_bytes len (magnitude s) fs /\ signed_message C app msg t m
              /\ ecdsa_verify C alg key m (fr ++ fs) = false /\ err = EInvalidSignature).
Proof.
  intros Hr Hs. pose proof (number_size r b1 len Hr) as Zr. pose proof (number_size s b2 len Hs) as Zs.
  unfold ecdsa_rest. destruct (_ || _) eqn:E.
  - apply orb_true_iff in E. rewrite !Nat.ltb_lt in E. cbn. split.
    + intros [= <-]. left. split; [lia|reflexivity].
    + intros [[_ ->]|[[H1 H2] _]]; [reflexivity|]. lia.
  - apply orb_false_iff in E. rewrite !Nat.ltb_ge in E. destruct E as [E1 E2].
    rewrite (run_lift _ _ _ _ (usub_ok _ _ E1)), (run_lift _ _ _ _ (usub_ok _ _ E2)). cbn zeta.
    rewrite (bind_message _ _ _ _ (fun m => do? _ <- check (ecdsa_verify C alg key m
        ((repeat x00 (len - length r) ++ r) ++ (repeat x00 (len - length s) ++ s))); Ok buf))
      by (intros m rd; unfold mbind, lift, ret; destruct (check _); reflexivity).
    apply Zr in E1 as F1. apply Zs in E2 as F2. split.
    + intros H. right. split; [auto|]. destruct H as [H|(m & Hm & H)]; [auto|right].
      exists (repeat x00 (len - length r) ++ r), (repeat x00 (len - length s) ++ s), m.
      apply mpint_field_iff in Hr, Hs. split; [apply fixed_bytes_iff; [apply Hr|auto]|]. split; [apply fixed_bytes_iff; [apply Hs|auto]|].
      split; [exact Hm|]. destruct (check _) eqn:E; cbn in H; try discriminate. apply check_err in E. destruct E as [E ->].
      split; [exact E|congruence].
    + intros [[H _]|[_ [H|(fr & fs & m & Hf & Hg & Hm & Hv & ->)]]]; [lia|left; exact H|right].
      apply (number_fixed _ _ _ _ Hr) in Hf. apply (number_fixed _ _ _ _ Hs) in Hg. destruct Hf as [_ ->], Hg as [_ ->].
      exists m. split; [exact Hm|]. rewrite Hv. reflexivity.
Qed.
Lemma ec_body C c key app msg l st t buf err : kt_name st = l ->
  run (do! inner <- read_bytes;
       do! al <- lift (ecdsa_alg_of (kt_name st));
       let (alg, len) := al in
       do! rs <- lift (run two_numbers inner);
       let (r, s) := rs in ecdsa_rest C key msg buf app alg len r s) t = Err err
  <-> body_refused C (PkEcdsa c key app) msg l t err.
Proof.
  intros ->.
  assert (L : forall alg len r s, local (ecdsa_rest C key msg buf app alg len r s)).
  { intros. unfold ecdsa_rest. destruct (_ || _); [apply local_throw|]. repeat (apply local_bind; [first [apply local_lift|apply local_message]|intros]).
    apply local_ret. }
  assert (K : forall inner, local (do! al <- lift (ecdsa_alg_of l); let (alg, len) := al in
       do! rs <- lift (run two_numbers inner); let (r, s) := rs in ecdsa_rest C key msg buf app alg len r s)).
  { intros inner. apply local_bind; [apply local_lift|intros [alg len]]. apply local_bind; [apply local_lift|intros [r s]; apply L]. }
  rewrite bind_bytes by exact K. split.
  - intros [H|(p & t' & Hp & -> & H)]; [eapply EcField; [reflexivity|exact H]|].
    apply bind_lift in H. destruct H as [H|([alg len] & Ha & H)].
    { apply (ecdsa_alg_err C) in H. destruct H as [H ->]. eapply EcLabel; [reflexivity|exact Hp|reflexivity|exact H]. }
    assert (El : ecdsa_label C l (ecdsa_verify C alg) len) by (apply ecdsa_alg_of_iff; eauto).
    apply bind_lift in H. destruct H as [H|([r s] & Hn & H)].
    { eapply EcNumbers; [reflexivity|exact Hp|reflexivity|exact El|]. apply two_numbers_err in H.
      destruct H as [H|(r & b1 & u & H1 & H2 & H3)]; [apply NNs_r, H|exact (NNs_s _ _ _ _ _ _ H1 H2 H3)]. }
    apply parses_rs in Hn. destruct Hn as (b1 & b2 & tl & Hn & Hr & Hs).
    apply (ecdsa_rest_err _ _ _ _ _ _ _ _ _ _ _ _ _ Hr Hs) in H.
    destruct H as [[H ->]|[[H1 H2] [H|(fr & fs & m & Hf & Hg & Hm & Hv & ->)]]].
    + eapply EcNumbers; [reflexivity|exact Hp|reflexivity|exact El|]. exact (NNs_long _ _ _ _ _ _ _ Hr Hs Hn H).
    + eapply EcCounter; [reflexivity|exact Hp|reflexivity|exact El|exact Hn|exact Hr|exact Hs|exact H1|exact H2|exact H].
    + eapply EcNo; [reflexivity|exact Hp|reflexivity|exact El|exact Hn|exact Hr|exact Hs|exact Hf|exact Hg|exact Hm|exact Hv].
  - assert (Q : forall p t' v len x, field_ok p -> ecdsa_label C l v len ->
        (forall alg, v = ecdsa_verify C alg -> run (do! rs <- lift (run two_numbers p); let (r, s) := rs in ecdsa_rest C key msg buf app alg len r s) t' = Err x) ->
        no_field (field p ++ t') x \/ (exists p0 t0, field_ok p0 /\ field p ++ t' = field p0 ++ t0 /\
          run (do! al <- lift (ecdsa_alg_of l); let (alg, len) := al in
            do! rs <- lift (run two_numbers p0); let (r, s) := rs in ecdsa_rest C key msg buf app alg len r s) t0 = Err x)).
    { intros p t' v len x Hp Hl H. right. exists p, t'. split; [exact Hp|]. split; [reflexivity|].
      apply ecdsa_alg_of_iff in Hl. destruct Hl as (alg & Hl & Hv). rewrite (run_lift _ _ _ _ Hl). apply H, Hv. }
    intros H. inversion H as [| | |c' k' a' er E Hf|c' k' a' p t' E Hp -> Hl|c' k' a' p t' v len er E Hp -> Hl Hn
      |c' k' a' p t' v len r s b1 b2 u er E Hp -> Hl Hn Hr Hs Z1 Z2 Hc
      |c' k' a' p t' v len r s b1 b2 u fr fs m E Hp -> Hl Hn Hr Hs Hf Hg Hm Hv| | | |]; subst; try discriminate;
      injection E as <- <- <-.
    + left. exact Hf.
    + right. exists p, t'. split; [exact Hp|]. split; [reflexivity|]. apply bind_lift. left. apply (ecdsa_alg_err C). auto.
    + eapply Q; [exact Hp|exact Hl|]. intros alg _. destruct Hn as [er Hn|r b1 u er Hr -> Hn|r s b1 b2 u Hr Hs -> Hz].
      * apply bind_lift. left. apply two_numbers_err. auto.
      * apply bind_lift. left. apply two_numbers_err. right. exists r, b1, u. auto.
      * rewrite (run_lift _ (r, s)) by (apply parses_rs; exists b1, b2, u; auto).
        apply (ecdsa_rest_err _ _ _ _ _ _ _ _ _ _ _ _ _ Hr Hs). left. auto.
    + eapply Q; [exact Hp|exact Hl|]. intros alg _. rewrite (run_lift _ (r, s)) by (apply parses_rs; exists b1, b2, u; auto).
      apply (ecdsa_rest_err _ _ _ _ _ _ _ _ _ _ _ _ _ Hr Hs). right. auto.
    + eapply Q; [exact Hp|exact Hl|]. intros alg ->. rewrite (run_lift _ (r, s)) by (apply parses_rs; exists b1, b2, u; auto).
      apply (ecdsa_rest_err _ _ _ _ _ _ _ _ _ _ _ _ _ Hr Hs). right.
      pose proof (number_fixed _ _ _ _ Hr Hf) as [Z1 _]. pose proof (number_fixed _ _ _ _ Hs Hg) as [Z2 _].
      apply (number_size _ _ _ Hr) in Z1. apply (number_size _ _ _ Hs) in Z2. split; [auto|]. right. exists fr, fs, m. auto.
Qed.

(** ** The whole function *)
Definition sig_body C (k : pubkey) (msg blob : bytes) (st : key_type) : M bytes :=
  match pk_kind k with
  | PkEcdsa _ key app => do! inner <- read_bytes; do! al <- lift (ecdsa_alg_of (kt_name st)); let (alg, len) := al in
      do! rs <- lift (run two_numbers inner); let (r, s) := rs in ecdsa_rest C key msg blob app alg len r s
  | PkRsa e n => do! alg <- lift (rsa_alg_of (kt_name st)); do! signature <- read_bytes;
      do! _ <- lift (check (c_rsa_verify C alg n e msg signature)); ret blob
  | PkEd25519 key app => do! _ <- lift (ed25519_type_check (kt_name st)); do! signature <- read_bytes;
      do! m <- match app with Some a => read_sk_message C a msg | None => ret msg end;
      do! _ <- lift (check (c_ed25519_verify C key m signature)); ret blob
  end.
Lemma verify_err_iff C k msg blob e : verify_signature C blob msg k = Err e <-> refused C k msg blob e.
Proof.
  assert (L : forall st, local (sig_body C k msg blob st)).
  { intros st. unfold sig_body, ecdsa_rest, read_sk_message. local_tac. }
  assert (B : forall l st t, kt_name st = l -> forall e, run (sig_body C k msg blob st) t = Err e <-> body_refused C (pk_kind k) msg l t e).
  { intros l st t Hl e'. unfold sig_body. destruct (pk_kind k); [apply rsa_body, Hl|apply ec_body, Hl|apply ed_body, Hl]. }
  change (verify_signature C blob msg k) with (run (do! v <- read_string; do! st <- lift (kt_from_name v);
    if negb (kt_kind_eqb (kt_k (pk_type k)) (kt_k st)) then throw EKeyTypeMismatch else sig_body C k msg blob st) blob).
  rewrite bind_string by (intros a; apply local_bind; [apply local_lift|intros st; destruct (negb _); [apply local_throw|apply L]]).
  split.
  - intros [H|[(l & t & Hl & -> & Hu & ->)|(l & t & Hl & -> & H)]].
    + apply R_field, H.
    + exact (R_text _ _ _ _ l t Hl eq_refl Hu).
    + apply bind_lift in H. destruct H as [H|(st & Hst & H)].
      * apply kt_err in H. destruct H as [-> H]. exact (R_type _ _ _ _ l t Hl eq_refl H).
      * assert (Hi : In l supported_names).
        { destruct (in_dec (list_eq_dec Byte.byte_eq_dec) l supported_names) as [Hi|Hi]; [exact Hi|].
          apply kt_unknown in Hi. congruence. }
        pose proof (kind_in l st Hst (kt_k (pk_type k))) as K.
        destruct (kt_kind_eqb (kt_k (pk_type k)) (kt_k st)) eqn:E; cbn [negb] in H.
        -- apply kt_kind_eqb_eq in E. apply (B l) in H; [|apply kt_from_name_name, Hst].
           eapply R_body; [apply K; congruence|reflexivity|exact H].
        -- cbn in H. injection H as <-. eapply R_kind; [exact Hi|reflexivity|]. intros X. apply K in X.
           rewrite <- X in E. assert (kt_kind_eqb (kt_k st) (kt_k st) = true) by (apply kt_kind_eqb_eq; reflexivity). congruence.
  - intros [e' H|l t Hl E Hu|l t Hl E Hn|l t Hl E Hn|l t e' Hl E Hb].
    + left. exact H.
    + right. left. exists l, t. auto.
    + right. right. exists l, t. split; [exact Hl|]. split; [exact E|]. apply bind_lift. left. apply kt_unknown, Hn.
    + right. right. exists l, t. split; [apply supported_text, Hl|]. split; [exact E|].
      apply PropKeyType.C17_key_type_names in Hl. destruct Hl as (st & Hst & _). rewrite (run_lift _ _ _ _ Hst).
      destruct (kt_kind_eqb (kt_k (pk_type k)) (kt_k st)) eqn:E1; [|reflexivity]. apply kt_kind_eqb_eq in E1.
      destruct Hn. apply (kind_in l st Hst). congruence.
    + right. right. pose proof (kind_supported _ _ Hl) as Hi. exists l, t. split; [apply supported_text, Hi|]. split; [exact E|].
      apply PropKeyType.C17_key_type_names in Hi. destruct Hi as (st & Hst & _). rewrite (run_lift _ _ _ _ Hst).
      apply (kind_in l st Hst) in Hl. assert (E1 : kt_kind_eqb (kt_k (pk_type k)) (kt_k st) = true) by (apply kt_kind_eqb_eq; congruence).
      rewrite E1. cbn [negb]. apply (B l); [apply kt_from_name_name, Hst|exact Hb].
Qed.

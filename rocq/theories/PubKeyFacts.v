(** Lemmas about public keys. *)
From Verif Require Import Base BaseFacts Utf8 Utf8Facts SpecWire Reader ReaderFacts KeyType
  KeyTypeFacts PubKeyType Writer WriterFacts WireFacts SpecKeys Base64 Str PubKey.

(** ** Canonical key values and their encoding *)
Definition app_ok (sk : bool) (app : option bytes) : Prop :=
  match sk, app with
  | true, Some a => fits a /\ utf8_valid a = true
  | false, None => True
  | _, _ => False
  end.
Definition enc_app (app : option bytes) : bytes :=
  match app with Some a => enc_bytes a | None => [] end.

Definition kind_ok (kt : key_type) (kind : pubkey_kind) : Prop :=
  match kind with
  | PkRsa e n => family_of (kt_k kt) = FRsa
      /\ (fits (mpint_bytes e) /\ no_lead_zero e) /\ (fits (mpint_bytes n) /\ no_lead_zero n)
  | PkEcdsa c key app => family_of (kt_k kt) = FEcdsa
      /\ good_curve c /\ fits key /\ app_ok (kt_is_sk kt) app
  | PkEd25519 key app => family_of (kt_k kt) = FEd25519 /\ fits key /\ app_ok (kt_is_sk kt) app
  end.
Definition enc_kind (kind : pubkey_kind) : bytes :=
  match kind with
  | PkRsa e n => enc_bytes (mpint_bytes e) ++ enc_bytes (mpint_bytes n)
  | PkEcdsa c key app => enc_bytes (c_identifier c) ++ enc_bytes key ++ enc_app app
  | PkEd25519 key app => enc_bytes key ++ enc_app app
  end.

(** RSA numbers without leading zeros. *)
Definition canon (kind : pubkey_kind) : pubkey_kind :=
  match kind with PkRsa e n => PkRsa (strip0 e) (strip0 n) | k => k end.

Lemma mpint_field_iff m bs :
  mpint_field m bs <-> (fits (mpint_bytes m) /\ no_lead_zero m) /\ bs = enc_bytes (mpint_bytes m).
Proof.
  unfold mpint_field. rewrite shortest_iff, magnitude_from_be. split.
  - intros [Hs (c & Hc & Hf & ->)]. apply mpint_content_of_iff in Hc; [|lia].
    destruct Hc as (m' & Hm & Hv & ->). assert (m' = m) as ->.
    { apply no_lead_zero_inj; auto. lia. }
    rewrite field_ok_fits in Hf. rewrite field_enc. auto.
  - intros [[Hf Hn] ->]. split; [exact Hn|]. exists (mpint_bytes m). rewrite field_enc, field_ok_fits.
    split; [|auto]. apply mpint_content_of_iff; [lia|]. exists m. auto.
Qed.

Lemma app_field_iff sk app bs : app_field sk app bs <-> app_ok sk app /\ bs = enc_app app.
Proof.
  unfold app_field, app_ok, enc_app. destruct sk, app as [a|]; try tauto.
  rewrite field_ok_fits, field_enc, <- utf8_valid_iff. tauto.
Qed.

Lemma supported_curve_iff c : supported_curve c <-> good_curve c.
Proof.
  unfold supported_curve, good_curve. destruct c as [k i]. cbn [c_identifier c_kind]. split.
  - intros ->. destruct k; auto.
  - intros [[= -> ->]|[[= -> ->]|[= -> ->]]]; reflexivity.
Qed.

Lemma key_data_iff kt kind bs : key_data kt kind bs <-> kind_ok kt kind /\ bs = enc_kind kind.
Proof.
  split.
  - destruct 1 as [e n b1 b2 Hf He Hn|c key app b Hf Hc Hk Ha|key app b Hf Hk Ha];
      cbn [kind_ok enc_kind].
    + apply mpint_field_iff in He, Hn. destruct He as [He ->], Hn as [Hn ->]. auto.
    + apply app_field_iff in Ha. destruct Ha as [Ha ->]. rewrite field_ok_fits in Hk.
      rewrite supported_curve_iff in Hc. rewrite !field_enc. auto.
    + apply app_field_iff in Ha. destruct Ha as [Ha ->]. rewrite field_ok_fits in Hk.
      rewrite !field_enc. auto.
  - intros [H ->]. destruct kind as [e n|c key app|key app]; cbn [kind_ok enc_kind] in *.
    + destruct H as (Hf & He & Hn). apply KD_rsa; [exact Hf| |]; apply mpint_field_iff; auto.
    + destruct H as (Hf & Hc & Hk & Ha). rewrite <- !field_enc. apply KD_ecdsa; auto.
      * apply supported_curve_iff, Hc.
      * apply field_ok_fits, Hk.
      * apply app_field_iff. auto.
    + destruct H as (Hf & Hk & Ha). rewrite <- !field_enc. apply KD_ed25519; auto.
      * apply field_ok_fits, Hk.
      * apply app_field_iff. auto.
Qed.

Lemma same_material_canon a b : same_material a b -> canon a = canon b.
Proof.
  destruct a, b; cbn [same_material canon]; intros H; try congruence.
  rewrite !magnitude_from_be in H. destruct H as [H1 H2].
  f_equal; apply no_lead_zero_inj; try apply strip0_no_lead; rewrite !strip0_value; assumption.
Qed.
Lemma canon_ok kt kind : kind_ok kt kind -> canon kind = kind.
Proof.
  destruct kind; cbn [kind_ok canon]; auto. intros (_ & [_ H1] & [_ H2]).
  rewrite !strip0_id by assumption. reflexivity.
Qed.
Lemma canon_same a : same_material a (canon a).
Proof.
  destruct a; cbn [same_material canon]; auto. rewrite !magnitude_from_be, !strip0_value. auto.
Qed.
Lemma same_material_canon_iff kt a b : kind_ok kt b -> (same_material a b <-> b = canon a).
Proof.
  intros H. split.
  - intros Hs. apply same_material_canon in Hs. rewrite (canon_ok kt b H) in Hs. congruence.
  - intros ->. apply canon_same.
Qed.

(** ** Plain types *)
Lemma known_plain_family kt : known kt ->
  exists p, kt_from_name (kt_plain kt) = Ok p /\ known p /\ kt_name p = kt_plain kt
    /\ kt_plain p = kt_plain kt /\ kt_is_cert p = false /\ kt_is_sk p = kt_is_sk kt
    /\ family_of (kt_k p) = family_of (kt_k kt).
Proof.
  revert kt. apply known_forall. unfold key_types.
  repeat (apply Forall_cons; [eexists; split; [vm_compute; reflexivity|]; split;
    [unfold known, key_types; cbn [In]; tauto|repeat split] |]). apply Forall_nil.
Qed.

Lemma kind_ok_ext kt kt' kind : family_of (kt_k kt) = family_of (kt_k kt') ->
  kt_is_sk kt = kt_is_sk kt' -> kind_ok kt kind -> kind_ok kt' kind.
Proof. intros H1 H2. destruct kind; cbn [kind_ok]; rewrite H1, ?H2; auto. Qed.

Lemma known_fits kt : known kt -> fits (kt_name kt) /\ fits (kt_plain kt).
Proof.
  intros H. destruct (known_utf8 kt H) as (_ & _ & H1 & H2). unfold fits. split; lia.
Qed.
Lemma good_curve_fits c : good_curve c -> fits (c_identifier c).
Proof. intros H. apply good_curve_id in H. unfold fits. destruct H as [_ ->]. lia. Qed.

(** ** Encoding *)
Lemma pk_encode_enc k : known (pk_type k) -> kind_ok (pk_type k) (canon (pk_kind k)) ->
  pk_encode k = Ok (enc_bytes (kt_plain (pk_type k)) ++ enc_kind (canon (pk_kind k))).
Proof.
  intros Hk Hok. unfold pk_encode. pose proof (proj2 (known_fits _ Hk)) as Hf.
  rewrite (write_string_enc (kt_plain (pk_type k))) by exact Hf. cbn [app writer_new].
  change (writer_new ++ ?x) with x.
  destruct (pk_kind k) as [e n|c key app|key app]; cbn [canon kind_ok enc_kind] in *.
  - destruct Hok as (_ & [H1 _] & [H2 _]). rewrite !write_mpint_eq.
    rewrite !write_bytes_enc by assumption. rewrite <- app_assoc. reflexivity.
  - destruct Hok as (_ & Hc & Hb & Ha). rewrite (write_string_enc (c_identifier c)) by (apply good_curve_fits, Hc).
    rewrite (write_bytes_enc key) by exact Hb. rewrite <- !app_assoc.
    unfold app_ok in Ha. destruct (kt_is_sk (pk_type k)), app as [a|]; try contradiction.
    + cbn [unwrap bind enc_app]. rewrite (write_string_enc a) by apply Ha. rewrite <- !app_assoc. reflexivity.
    + cbn [enc_app]. rewrite app_nil_r. reflexivity.
  - destruct Hok as (_ & Hb & Ha). rewrite (write_bytes_enc key) by exact Hb.
    unfold app_ok in Ha. destruct (kt_is_sk (pk_type k)), app as [a|]; try contradiction.
    + cbn [unwrap bind enc_app]. rewrite (write_string_enc a) by apply Ha. rewrite <- !app_assoc. reflexivity.
    + cbn [enc_app]. rewrite app_nil_r. reflexivity.
Qed.

Lemma write_pub_key_data_kind k w : kind_ok (pk_type k) (canon (pk_kind k)) ->
  write_pub_key_data k w = Ok (w ++ enc_kind (canon (pk_kind k))).
Proof.
  intros Hok. unfold write_pub_key_data.
  destruct (pk_kind k) as [e n|c key app|key app]; cbn [canon kind_ok enc_kind] in *.
  - destruct Hok as (_ & [H1 _] & [H2 _]). rewrite !write_mpint_eq.
    rewrite !write_bytes_enc by assumption. rewrite <- app_assoc. reflexivity.
  - destruct Hok as (_ & Hc & Hb & Ha). rewrite (write_string_enc (c_identifier c)) by (apply good_curve_fits, Hc).
    rewrite (write_bytes_enc key) by exact Hb. rewrite <- !app_assoc.
    unfold app_ok in Ha. destruct (kt_is_sk (pk_type k)), app as [a|]; try contradiction.
    + cbn [unwrap bind enc_app]. rewrite (write_string_enc a) by apply Ha. rewrite <- !app_assoc. reflexivity.
    + cbn [enc_app]. rewrite app_nil_r. reflexivity.
  - destruct Hok as (_ & Hb & Ha). rewrite (write_bytes_enc key) by exact Hb.
    unfold app_ok in Ha. destruct (kt_is_sk (pk_type k)), app as [a|]; try contradiction.
    + cbn [unwrap bind enc_app]. rewrite (write_string_enc a) by apply Ha. rewrite <- !app_assoc. reflexivity.
    + cbn [enc_app]. rewrite app_nil_r. reflexivity.
Qed.

(** ** Parsing *)
Ltac inv_ex := repeat match goal with
  | H : exists _, _ |- _ => destruct H
  | H : _ /\ _ |- _ => destruct H
  | H : _ \/ _ |- _ => destruct H
  | H : False |- _ => destruct H
  end.

Lemma parses_app sk :
  parses (if sk : bool then do! a <- read_string; ret (Some a) else ret None)
    (fun app bs => app_ok sk app /\ bs = enc_app app).
Proof.
  eapply parses_ext; [|apply parses_if; intros _;
    [apply parses_bind; [apply parses_read_string|intros a; apply parses_ret]|apply parses_ret]].
  intros app bs. cbn beta. split.
  - intros [[-> (a & b1 & b2 & -> & [Ha ->] & [-> ->])]|[-> [-> ->]]].
    + cbn [app_ok enc_app]. rewrite app_nil_r. auto.
    + cbn. auto.
  - intros [H ->]. unfold app_ok in H. destruct sk, app as [a|]; try contradiction.
    + left. split; [reflexivity|]. exists a, (enc_bytes a), []. rewrite app_nil_r. cbn [enc_app]. auto.
    + right. cbn. auto.
Qed.

Definition kind_parser (kt : key_type) : M pubkey_kind :=
  match kt_k kt with
  | KRsa | KRsaCert =>
      do! e <- read_positive_mpint;
      do! n <- read_positive_mpint;
      ret (PkRsa e n)
  | KEcdsa | KEcdsaCert =>
      do! identifier <- read_string;
      do! c <- lift (curve_from_identifier identifier);
      do! key <- read_bytes;
      do! app <- (if kt_is_sk kt then do! a <- read_string; ret (Some a) else ret None);
      ret (PkEcdsa c key app)
  | KEd25519 | KEd25519Cert =>
      do! key <- read_bytes;
      do! app <- (if kt_is_sk kt then do! a <- read_string; ret (Some a) else ret None);
      ret (PkEd25519 key app)
  end.

Lemma parses_rsa kt : family_of (kt_k kt) = FRsa ->
  parses (do! e <- read_positive_mpint; do! n <- read_positive_mpint; ret (PkRsa e n))
    (fun kind bs => kind_ok kt kind /\ bs = enc_kind kind).
Proof.
  intros Hf. eapply parses_ext; [|apply parses_bind; [apply parses_read_positive_mpint|intros e;
    apply parses_bind; [apply parses_read_positive_mpint|intros n; apply parses_ret]]].
  intros kind bs. cbn beta. split.
  - intros (e & b1 & b2 & -> & [He ->] & n & b3 & b4 & -> & [Hn ->] & -> & ->).
    cbn [kind_ok enc_kind]. rewrite app_nil_r. auto.
  - intros [Hk ->]. destruct kind as [e n| |]; cbn [kind_ok enc_kind] in *;
      try (destruct Hk as [Hk _]; congruence).
    destruct Hk as (_ & He & Hn). exists e, (enc_bytes (mpint_bytes e)), (enc_bytes (mpint_bytes n)).
    split; [reflexivity|]. split; [auto|].
    exists n, (enc_bytes (mpint_bytes n)), []. rewrite app_nil_r. auto.
Qed.

Lemma parses_ecdsa kt : family_of (kt_k kt) = FEcdsa ->
  parses (do! identifier <- read_string;
      do! c <- lift (curve_from_identifier identifier);
      do! key <- read_bytes;
      do! app <- (if kt_is_sk kt then do! a <- read_string; ret (Some a) else ret None);
      ret (PkEcdsa c key app))
    (fun kind bs => kind_ok kt kind /\ bs = enc_kind kind).
Proof.
  intros Hf. eapply parses_ext; [|apply parses_bind; [apply parses_read_string|intros id;
    apply parses_bind; [apply parses_lift|intros c; apply parses_bind;
      [apply parses_read_bytes|intros key; apply parses_bind;
        [apply parses_app|intros app; apply parses_ret]]]]].
  intros kind bs. cbn beta. split.
  - intros (id & b1 & b2 & -> & [Hi ->] & c & b3 & b4 & -> & [Hc ->] & key & b5 & b6 & -> & [Hk ->]
            & app & b7 & b8 & -> & [Ha ->] & -> & ->).
    apply curve_ok in Hc. destruct Hc as [Hc ->].
    cbn [kind_ok enc_kind]. rewrite app_nil_r. auto.
  - intros [Hk ->]. destruct kind as [|c key app|]; cbn [kind_ok enc_kind] in *;
      try (destruct Hk as [Hk _]; congruence).
    destruct Hk as (_ & Hc & Hk & Ha).
    exists (c_identifier c), (enc_bytes (c_identifier c)), (enc_bytes key ++ enc_app app).
    split; [reflexivity|]. split.
    { split; [|reflexivity]. split; [apply good_curve_fits, Hc|apply good_curve_id, Hc]. }
    exists c, [], (enc_bytes key ++ enc_app app). split; [reflexivity|]. split.
    { split; [|reflexivity]. apply curve_ok. auto. }
    exists key, (enc_bytes key), (enc_app app). split; [reflexivity|]. split; [auto|].
    exists app, (enc_app app), []. rewrite app_nil_r. auto.
Qed.

Lemma parses_ed25519 kt : family_of (kt_k kt) = FEd25519 ->
  parses (do! key <- read_bytes;
      do! app <- (if kt_is_sk kt then do! a <- read_string; ret (Some a) else ret None);
      ret (PkEd25519 key app))
    (fun kind bs => kind_ok kt kind /\ bs = enc_kind kind).
Proof.
  intros Hf. eapply parses_ext; [|apply parses_bind;
      [apply parses_read_bytes|intros key; apply parses_bind;
        [apply parses_app|intros app; apply parses_ret]]].
  intros kind bs. cbn beta. split.
  - intros (key & b5 & b6 & -> & [Hk ->] & app & b7 & b8 & -> & [Ha ->] & -> & ->).
    cbn [kind_ok enc_kind]. rewrite app_nil_r. auto.
  - intros [Hk ->]. destruct kind as [| |key app]; cbn [kind_ok enc_kind] in *;
      try (destruct Hk as [Hk _]; congruence).
    destruct Hk as (_ & Hk & Ha).
    exists key, (enc_bytes key), (enc_app app). split; [reflexivity|]. split; [auto|].
    exists app, (enc_app app), []. rewrite app_nil_r. auto.
Qed.

Lemma parses_kind kt :
  parses (kind_parser kt) (fun kind bs => kind_ok kt kind /\ bs = enc_kind kind).
Proof.
  unfold kind_parser. destruct (kt_k kt) eqn:E;
    [apply parses_rsa|apply parses_ed25519|apply parses_ecdsa
    |apply parses_rsa|apply parses_ed25519|apply parses_ecdsa]; rewrite E; reflexivity.
Qed.

Definition key_rel (name : bytes) (k : pubkey) (bs : bytes) : Prop :=
  known (pk_type k) /\ kt_name (pk_type k) = name /\ pk_comment k = None
  /\ kind_ok (pk_type k) (pk_kind k) /\ bs = enc_kind (pk_kind k).

Lemma parses_pk_from_reader name : parses (pk_from_reader name) (key_rel name).
Proof.
  unfold pk_from_reader.
  eapply parses_ext; [|apply parses_bind; [apply parses_lift|intros kt;
    apply parses_bind; [apply (parses_kind kt)|intros kind; apply parses_ret]]].
  intros k bs. cbn beta. unfold key_rel. split.
  - intros (kt & b1 & b2 & -> & [Hn ->] & kind & b3 & b4 & -> & [Hk ->] & -> & ->).
    apply kt_from_name_ok in Hn. destruct Hn as [Hn ->]. cbn [pk_type pk_kind pk_comment].
    rewrite app_nil_r. auto.
  - intros (Hk & Hn & Hc & Hok & ->). exists (pk_type k), [], (enc_kind (pk_kind k)).
    split; [reflexivity|]. split.
    { split; [|reflexivity]. apply kt_from_name_ok. auto. }
    exists (pk_kind k), (enc_kind (pk_kind k)), []. rewrite app_nil_r. split; [reflexivity|].
    split; [auto|]. split; [|reflexivity]. destruct k; cbn in *; congruence.
Qed.

Lemma nopanic_kind kt : nopanic (kind_parser kt).
Proof.
  assert (Ha : nopanic (if kt_is_sk kt then do! a <- read_string; ret (Some a) else ret None)).
  { destruct (kt_is_sk kt); [|apply nopanic_ret].
    apply nopanic_bind; [apply nopanic_read_string|intros; apply nopanic_ret]. }
  assert (He : nopanic (do! key <- read_bytes;
      do! app <- (if kt_is_sk kt then do! a <- read_string; ret (Some a) else ret None);
      ret (PkEd25519 key app))).
  { apply nopanic_bind; [apply nopanic_read_bytes|intros].
    apply nopanic_bind; [exact Ha|intros; apply nopanic_ret]. }
  assert (Hr : nopanic (do! e <- read_positive_mpint; do! n <- read_positive_mpint; ret (PkRsa e n))).
  { apply nopanic_bind; [apply nopanic_read_mpint|intros].
    apply nopanic_bind; [apply nopanic_read_mpint|intros; apply nopanic_ret]. }
  unfold kind_parser. destruct (kt_k kt); auto;
    (apply nopanic_bind; [apply nopanic_read_string|intros];
     apply nopanic_bind; [apply nopanic_lift, curve_not_panic|intros];
     apply nopanic_bind; [apply nopanic_read_bytes|intros];
     apply nopanic_bind; [exact Ha|intros; apply nopanic_ret]).
Qed.
Lemma nopanic_pk_from_reader name : nopanic (pk_from_reader name).
Proof.
  unfold pk_from_reader.
  apply nopanic_bind; [apply nopanic_lift, kt_from_name_not_panic|intros kt].
  apply (nopanic_bind (kind_parser kt)); [apply nopanic_kind|intros; apply nopanic_ret].
Qed.

(** A whole blob: type name and data. *)
Definition enc_key (k : pubkey) : bytes := enc_bytes (kt_name (pk_type k)) ++ enc_kind (pk_kind k).
Definition key_ok (k : pubkey) : Prop :=
  known (pk_type k) /\ pk_comment k = None /\ kind_ok (pk_type k) (pk_kind k).

Lemma parses_key_blob :
  parses (do! kt_name <- read_string; pk_from_reader kt_name)
    (fun k bs => key_ok k /\ bs = enc_key k).
Proof.
  eapply parses_ext; [|apply parses_bind; [apply parses_read_string|intros n; apply parses_pk_from_reader]].
  intros k bs. cbn beta. unfold key_rel, key_ok, enc_key. split.
  - intros (n & b1 & b2 & -> & [Hn ->] & Hk & <- & Hc & Hok & ->). auto.
  - intros [(Hk & Hc & Hok) ->]. exists (kt_name (pk_type k)), (enc_bytes (kt_name (pk_type k))), (enc_kind (pk_kind k)).
    split; [reflexivity|]. split; [|auto]. split; [|reflexivity].
    split; [apply known_fits, Hk|apply known_utf8, Hk].
Qed.

Lemma pk_from_bytes_iff b k : pk_from_bytes b = Ok k <-> key_ok k /\ exists post, b = enc_key k ++ post.
Proof.
  unfold pk_from_bytes. rewrite (run_parses _ _ b k parses_key_blob). split.
  - intros (bs & post & [Hk ->] & ->). eauto.
  - intros [Hk (post & ->)]. eauto 6.
Qed.

(** The encodings are prefix free. *)
Lemma enc_app_inj sk a b x y : app_ok sk a -> app_ok sk b ->
  enc_app a ++ x = enc_app b ++ y -> a = b /\ x = y.
Proof.
  unfold app_ok. destruct sk, a as [a|], b as [b|]; try contradiction; cbn [enc_app app]; auto.
  intros [H1 _] [H2 _] H. apply enc_bytes_inj in H; auto. destruct H; subst; auto.
Qed.
Lemma enc_kind_inj kt k1 k2 x y : kind_ok kt k1 -> kind_ok kt k2 ->
  enc_kind k1 ++ x = enc_kind k2 ++ y -> k1 = k2 /\ x = y.
Proof.
  destruct k1 as [e n|c key app|key app], k2 as [e' n'|c' key' app'|key' app'];
    cbn [kind_ok enc_kind]; intros (F1 & H1) (F2 & H2); try congruence; rewrite <- !app_assoc; intros H.
  - destruct H1 as [[A1 A2] [B1 B2]], H2 as [[A3 A4] [B3 B4]].
    apply enc_bytes_inj in H; auto. destruct H as [E1 H]. apply enc_bytes_inj in H; auto.
    destruct H as [E2 H].
    pose proof (proj2 (mpint_content_iff _ e) (conj eq_refl A2)).
    pose proof (proj2 (mpint_content_iff _ e') (conj eq_refl A4)).
    pose proof (proj2 (mpint_content_iff _ n) (conj eq_refl B2)).
    pose proof (proj2 (mpint_content_iff _ n') (conj eq_refl B4)).
    split; [|exact H]. f_equal; congruence.
  - destruct H1 as (C1 & K1 & A1), H2 as (C2 & K2 & A2).
    apply enc_bytes_inj in H; try apply good_curve_fits; auto. destruct H as [E1 H].
    apply enc_bytes_inj in H; auto. destruct H as [-> H].
    apply (enc_app_inj (kt_is_sk kt)) in H; auto. destruct H as [-> H]. split; [|exact H].
    assert (c = c') as ->; [|reflexivity].
    assert (Ok c = Ok c') as [= ->]; [|reflexivity].
    rewrite <- (proj2 (curve_ok (c_identifier c) c)) by auto.
    rewrite E1. apply curve_ok. auto.
  - destruct H1 as (K1 & A1), H2 as (K2 & A2).
    apply enc_bytes_inj in H; auto. destruct H as [-> H].
    apply (enc_app_inj (kt_is_sk kt)) in H; auto. destruct H as [-> H]. auto.
Qed.

(** ** Text *)
From Verif Require Import SpecText StrFacts Base64Facts.

Definition no_comment (k : pubkey) : pubkey := mkPubKey (pk_type k) (pk_kind k) None.

Lemma pk_from_string_words s w1 w2 ws k : split_whitespace s = w1 :: w2 :: ws ->
  (pk_from_string s = Ok k <->
   key_ok (no_comment k) /\ kt_name (pk_type k) = w1 /\ pk_comment k = hd_error ws
   /\ exists post, b64_decode w2 = Some (enc_key k ++ post)).
Proof.
  intros Hs. unfold pk_from_string. rewrite Hs. cbn [nth_error ok_or bind].
  assert (Hc : nth_error ws 0 = hd_error ws) by (destruct ws; reflexivity). 
  replace (nth_error (w1 :: w2 :: ws) 2) with (hd_error ws) by (rewrite <- Hc; reflexivity).
  unfold key_ok, no_comment, enc_key. cbn [pk_type pk_kind pk_comment].
  destruct (kt_from_name w1) as [kt|e|] eqn:Ek; cbn [bind].
  2-3: split; [discriminate|]; intros ((Hk & _) & <- & _); apply known_name_ok in Hk; congruence.
  destruct (b64_decode w2) as [blob|] eqn:Eb; cbn [ok_or bind].
  2: split; [discriminate|]; intros (_ & _ & _ & post & [=]).
  apply kt_from_name_ok in Ek. destruct Ek as [Ek ->].
  assert (P : parses (do! kt_from_reader <- read_string;
       if negb (bytes_eqb (kt_name kt) kt_from_reader) then throw EKeyTypeMismatch else
       do! k <- pk_from_reader (kt_name kt);
       ret (mkPubKey kt (pk_kind k) (hd_error ws)))
     (fun k bs => k = mkPubKey kt (pk_kind k) (hd_error ws) /\ kind_ok kt (pk_kind k) /\ bs = enc_key k)).
  { eapply parses_ext; [|apply parses_bind; [apply parses_read_string|intros n; apply parses_if; intros _;
      [apply parses_throw|apply parses_bind; [apply parses_pk_from_reader|intros k'; apply parses_ret]]]].
    intros k' bs. cbn beta. unfold key_rel, enc_key. split.
    - intros (n & b1 & b2 & -> & [Hn ->] & [[_ []]|[Hm (k2 & b3 & b4 & -> & (K1 & K2 & K3 & K4 & ->) & -> & ->)]]).
      cbn [pk_type pk_kind]. apply negb_false_iff, bytes_eqb_eq in Hm. subst n.
      assert (pk_type k2 = kt) as <-.
      { apply known_name_ok in K1. rewrite K2 in K1. fold (known kt) in Ek. apply known_name_ok in Ek. congruence. }
      rewrite app_nil_r. auto.
    - intros (-> & Hk & ->). cbn [pk_type pk_kind].
      exists (kt_name kt), (enc_bytes (kt_name kt)), (enc_kind (pk_kind k')). split; [reflexivity|].
      split. { split; [|reflexivity]. split; [apply known_fits, Ek|apply known_utf8, Ek]. }
      right. rewrite bytes_eqb_refl. split; [reflexivity|].
      exists (mkPubKey kt (pk_kind k') None), (enc_kind (pk_kind k')), []. rewrite app_nil_r.
      split; [reflexivity|]. cbn [pk_type pk_kind pk_comment]. auto 10. }
  rewrite (run_parses _ _ blob k P). split.
  - intros (bs & post & (E & Hk & ->) & ->). rewrite E in *. cbn [pk_type pk_kind pk_comment] in *.
    split; [auto|]. split; [reflexivity|]. split; [reflexivity|]. exists post. reflexivity.
  - intros ((K1 & _ & K2) & K3 & K4 & post & [= ->]).
    exists (enc_key k), post. split; [|reflexivity].
    assert (pk_type k = kt) as <-.
    { apply known_name_ok in K1. rewrite K3 in K1. fold (known kt) in Ek. apply known_name_ok in Ek. congruence. }
    split; [|auto]. destruct k; cbn in *; congruence.
Qed.

Lemma nopanic_pk_from_string s : pk_from_string s <> Panic.
Proof.
  unfold pk_from_string. destruct (nth_error (split_whitespace s) 0) as [n|]; [|discriminate].
  destruct (nth_error (split_whitespace s) 1) as [d|]; [|discriminate]. cbn [ok_or bind].
  pose proof (kt_from_name_not_panic n). destruct (kt_from_name n) as [kt|e|]; try discriminate; [|congruence].
  cbn [bind]. destruct (b64_decode d) as [b|]; [|discriminate]. cbn [ok_or bind].
  apply nopanic_run, nopanic_bind; [apply nopanic_read_string|intros m].
  destruct (negb _); [apply nopanic_throw|].
  apply nopanic_bind; [apply nopanic_pk_from_reader|intros; apply nopanic_ret].
Qed.

(** Names and base64 text are words. *)
Lemma known_word kt : known kt -> word (kt_name kt) /\ word (kt_plain kt).
Proof.
  assert (G : forall kt, known kt -> forallb graphic (kt_name kt) = true /\ kt_name kt <> []
             /\ forallb graphic (kt_plain kt) = true /\ kt_plain kt <> []).
  { apply known_forall. unfold key_types.
    repeat (apply Forall_cons; [split; [reflexivity|split; [discriminate|split; [reflexivity|discriminate]]]|]).
    apply Forall_nil. }
  intros H. destruct (G kt H) as (H1 & H2 & H3 & H4).
  split; (split; [apply graphic_no_ws; assumption|assumption]).
Qed.
Lemma b64_char_graphic v : (v < 64)%N -> graphic (b64_char v) = true.
Proof.
  intros H. rewrite b64_char_nth by exact H.
  assert (G : forallb graphic SpecBase64.alphabet = true) by reflexivity.
  rewrite forallb_forall in G. apply G. apply nth_In. change (length SpecBase64.alphabet) with 64. lia.
Qed.
Lemma b64_encode_graphic b : forallb graphic (b64_encode b) = true.
Proof.
  rewrite b64_encode_core, forallb_app, andb_true_iff. split.
  - apply forallb_forall. intros x Hx. pose proof (b64_core_chars b) as H. rewrite Forall_forall in H.
    destruct (H x Hx) as (v & Hv & ->). apply b64_char_graphic, Hv.
  - apply forallb_forall. intros x Hx. apply repeat_spec in Hx. subst. reflexivity.
Qed.
Lemma b64_encode_word b : b <> [] -> word (b64_encode b).
Proof.
  intros H. split; [apply graphic_no_ws, b64_encode_graphic|].
  intros E. apply (f_equal b64_decode) in E. rewrite b64_decode_encode in E. cbn in E. congruence.
Qed.
Lemma enc_bytes_nonempty b x : enc_bytes b ++ x <> [].
Proof.
  intros E. apply (f_equal (@length byte)) in E. rewrite app_length, enc_bytes_length in E. cbn in E. lia.
Qed.

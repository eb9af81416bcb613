(** Lemmas about printed texts. *)
From Verif Require Import Base BaseFacts Str StrFacts Base64 Base64Facts SpecKeys SpecBase64 SpecText SpecSigner SpecShow
  Crypto KeyType KeyTypeFacts PubKeyType PubKey PubKeyFacts Cert TbsFacts AllowedSigner FileFacts PropPubKey Show.

(** ** Lines *)
Lemma ended_lines_app a b : ended_lines (a ++ b) = ended_lines a ++ ended_lines b.
Proof. unfold ended_lines. rewrite map_app, concat_app. reflexivity. Qed.
Lemma split_unique (P : byte -> Prop) (a : bytes) : forall (x : byte) (r a' : bytes) (x' : byte) (r' : bytes), Forall P a -> Forall P a' -> ~ P x -> ~ P x' ->
  a ++ x :: r = a' ++ x' :: r' -> a = a' /\ x = x' /\ r = r'.
Proof.
  induction a as [|b a IH]; intros x r a' x' r' H H' N N' E; destruct a' as [|b' a']; cbn [app] in E.
  - injection E as -> ->. auto.
  - injection E as -> _. apply Forall_cons_iff in H'. tauto.
  - injection E as <- _. apply Forall_cons_iff in H. tauto.
  - injection E as <- E. apply Forall_cons_iff in H, H'.
    destruct (IH x r a' x' r' (proj2 H) (proj2 H') N N' E) as (-> & -> & ->). auto.
Qed.
Lemma split_at (c : byte) (a r a' r' : bytes) : ~ In c a -> ~ In c a' -> a ++ c :: r = a' ++ c :: r' -> a = a' /\ r = r'.
Proof.
  intros H H' E. destruct (split_unique (fun b => b <> c) a c r a' c r') as (-> & _ & ->); auto; apply Forall_forall; intros b Hb ->; auto.
Qed.
Lemma ended_lines_inj a : forall b, Forall no_nl a -> Forall no_nl b -> ended_lines a = ended_lines b -> a = b.
Proof.
  unfold ended_lines. induction a as [|l a IH]; intros [|m b] Ha Hb E; cbn [map concat] in E; [reflexivity| | |].
  - destruct m; discriminate.
  - destruct l; discriminate.
  - rewrite <- !app_assoc in E. apply Forall_cons_iff in Ha, Hb. destruct (split_at x0a l _ m _ (proj1 Ha) (proj1 Hb) E) as [-> E'].
    f_equal. apply IH; tauto.
Qed.
(** A list of items behind a title, and what follows. *)
Definition untabbed (ls : list bytes) : Prop := match ls with l :: _ => forall r, l <> x09 :: r | [] => True end.
Lemma tabbed_split a : forall b x y, untabbed x -> untabbed y ->
  map (cons x09) a ++ x = map (cons x09) b ++ y -> a = b /\ x = y.
Proof.
  induction a as [|i a IH]; intros [|j b] x y Hx Hy E; cbn [map app] in E.
  - auto.
  - subst x. exfalso. apply (Hx j). reflexivity.
  - subst y. exfalso. apply (Hy i). reflexivity.
  - injection E as -> E. destruct (IH b x y Hx Hy E) as [-> ->]. auto.
Qed.
Lemma items_split t1 t2 a b la lb x y : listed_items t1 a la -> listed_items t2 b lb -> untabbed x -> untabbed y ->
  la ++ x = lb ++ y -> t1 = t2 /\ a = b /\ x = y.
Proof.
  intros Ha Hb Hx Hy E.
  assert (Ea : la = t1 :: map (cons x09) a) by (destruct Ha as [[-> ->]|[_ ->]]; reflexivity).
  assert (Eb : lb = t2 :: map (cons x09) b) by (destruct Hb as [[-> ->]|[_ ->]]; reflexivity).
  subst la lb. cbn [app] in E. injection E as <- E. split; [reflexivity|]. apply tabbed_split; auto.
Qed.
Lemma listed_items_lines t a l : listed_items t a l -> l = t :: map (cons x09) a.
Proof. intros [[-> ->]|[_ ->]]; reflexivity. Qed.

(** ** Characters *)
Definition plain_text (s : bytes) : Prop := forallb graphic s = true.
Lemma plain_no_space s : plain_text s -> ~ In x20 s.
Proof. unfold plain_text. rewrite forallb_forall. intros H I. specialize (H _ I). discriminate. Qed.
Lemma plain_no_nl s : plain_text s -> no_nl s.
Proof. unfold plain_text, no_nl. rewrite forallb_forall. intros H I. specialize (H _ I). discriminate. Qed.
Lemma known_plain_text kt : known kt -> plain_text (kt_name kt) /\ plain_text (kt_short_name kt).
Proof. revert kt. apply known_forall. unfold key_types. repeat constructor. Qed.
Lemma core_plain d : plain_text (b64_core d).
Proof.
  unfold plain_text. pose proof (b64_encode_graphic d) as H. rewrite b64_encode_core, forallb_app in H. apply andb_prop in H. apply H.
Qed.
Lemma digit_graphic b : digit b -> graphic b = true.
Proof. unfold digit, graphic. change Byte.to_N with b2n. intros H. lia. Qed.
Lemma digits_plain ds : Forall digit ds -> plain_text ds.
Proof. unfold plain_text. rewrite forallb_forall, Forall_forall. intros H b Hb. apply digit_graphic, H, Hb. Qed.
Lemma no_nl_app a b : no_nl a -> no_nl b -> no_nl (a ++ b).
Proof. unfold no_nl. rewrite in_app_iff. tauto. Qed.
Lemma no_nl_cons b a : b <> x0a -> no_nl a -> no_nl (b :: a).
Proof. unfold no_nl. cbn [In]. intros H H' [E|E]; auto. Qed.

(** ** Numbers *)
Lemma decimal_n n : decimal_text (Z.of_N n) (decimal n).
Proof.
  pose proof (display_z_decimal (Z.of_N n)) as H. unfold display_z in H. rewrite Zabs2N.id in H.
  destruct (Z.ltb_spec (Z.of_N n) 0); [lia|exact H].
Qed.
Lemma decimal_digits n t : decimal_text (Z.of_N n) t -> Forall digit t /\ t <> [] /\ dec t = Z.of_N n.
Proof. intros (ds & H & Hn & _ & [(_ & -> & E)|(L & _)]); [auto|lia]. Qed.
Lemma decimal_same m n t : decimal_text (Z.of_N m) t -> decimal_text (Z.of_N n) t -> m = n.
Proof. intros H H'. apply decimal_digits in H, H'. apply N2Z.inj. destruct H as (_ & _ & <-), H' as (_ & _ & <-). reflexivity. Qed.

(** ** Fingerprints *)
Lemma fingerprint_digest C k f : pk_fingerprint C k = Ok f ->
  fp_k f = FpSha256 /\ key_digest C k (fp_hash f) /\ plain_text (fp_hash f).
Proof.
  unfold pk_fingerprint. intros H. destruct (C25_fingerprint_text C k FpSha256 f H) as (e & pad & He & Hb & Hn & _).
  unfold pk_fingerprint_with in H. rewrite He in H. apply ok_inj in H.
  split; [rewrite <- H; reflexivity|]. split; [exists e, pad; auto|].
  rewrite <- H. unfold fp_compute. cbn [fp_hash]. rewrite take_until_encode. apply core_plain.
Qed.
Lemma digest_plain C k h : key_digest C k h -> plain_text h /\ pk_fingerprint C k = Ok (mkFp FpSha256 h).
Proof.
  intros (e & pad & He & Hb & Hn). pose proof (base64_text_unique _ _ _ Hb (b64_encode_text _)) as E. rewrite b64_encode_core in E.
  assert (h = b64_core (c_sha256 C e)) as ->.
  { pose proof (b64_core_no_pad (c_sha256 C e)) as Hc. change Base64.pad with x3d in *.
    assert (T : forall x n, ~ In x3d x -> take_until x3d (x ++ repeat x3d n) = x).
    { intros x [|n] Hx; cbn [repeat]; [rewrite app_nil_r; apply take_until_none, Hx|apply take_until_app, Hx]. }
    rewrite <- (T h pad Hn), E, T; auto. }
  split; [apply core_plain|]. unfold pk_fingerprint, pk_fingerprint_with, fp_compute. rewrite He. cbn [bind]. rewrite take_until_encode. reflexivity.
Qed.
Lemma fingerprint_cases C k : (exists f, pk_fingerprint C k = Ok f) \/ (pk_encode k = Panic /\ pk_fingerprint C k = Panic).
Proof.
  unfold pk_fingerprint, pk_fingerprint_with. destruct (pk_encode k) as [e|e|] eqn:E; [left; eexists; reflexivity| |auto].
  exfalso. unfold pk_encode in E. destruct (pk_kind k) as [| c key app| key app]; [discriminate| |];
    destruct (kt_is_sk (pk_type k)); try discriminate; destruct app; discriminate.
Qed.

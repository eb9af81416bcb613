(** Facts about AllowedSigner.v: options and whole entries. *)
From Coq Require Import Lia.
From Verif Require Import Base BaseFacts Str StrFacts SpecWire SpecText KeyType PubKeyType PubKey PubKeyFacts Chrono AllowedSigner SpecSigner ChronoFacts SignerFacts.

(** ** Starts of lines *)
Lemma starts_app s a m : line_starts s a m -> forall b r, line_starts m b r -> line_starts s (a ++ b) r.
Proof. induction 1; intros b r Hb; [exact Hb|]. cbn [app]. constructor; auto. Qed.
Lemma starts_cons s w ws r : line_starts s (w :: ws) r -> exists m, line_starts s [w] m /\ line_starts m ws r.
Proof. intros H. inversion H; subst. eexists. split; [econstructor; eauto; constructor|eassumption]. Qed.
Lemma starts_app_inv a : forall s b r, line_starts s (a ++ b) r -> exists m, line_starts s a m /\ line_starts m b r.
Proof.
  induction a as [|w a IH]; intros s b r H; [exists s; split; [constructor|exact H]|].
  cbn [app] in H. inversion H as [|n w0 rest ws0 l Hw He Hr]; subst. destruct (IH _ _ _ Hr) as (m & A1 & A2). exists m. split; [constructor; auto|exact A2].
Qed.
Lemma words_starts s ws : line_words s ws <-> exists r, line_starts s ws r /\ no_words r.
Proof.
  split.
  - induction 1 as [l H|n w rest ws Hw He _ (r & H1 & H2)]; [exists l; split; [constructor|exact H]|].
    exists r. split; [constructor; auto|exact H2].
  - intros (r & H & Hr). induction H; constructor; auto.
Qed.
Lemma starts_one s w r : line_starts s [w] r -> exists n, s = repeat x20 n ++ w ++ r /\ line_word w /\ word_ends r.
Proof. intros H. inversion H as [|n w' rest ws l Hw He H2]; subst. inversion H2; subst. eauto. Qed.
Lemma starts_suffix s ws r : line_starts s ws r -> ~ ends_in x22 s -> ~ ends_in x22 r.
Proof.
  induction 1; intros Hq; [exact Hq|]. apply IHline_starts. apply ends_in_suffix in Hq. apply ends_in_suffix in Hq. exact Hq.
Qed.
Lemma trim_length l : length (splitter_trim l) <= length l.
Proof.
  induction l as [|z l IH]; cbn [splitter_trim length]; [lia|].
  destruct (bytes_eqb z [space]); [lia|]; destruct (bytes_eqb z [pound]); cbn [length]; lia.
Qed.
Lemma until_quote_length l : forall s v r, until_quote l s = Ok (v, r) -> length r < length l.
Proof.
  induction l as [|t l IH]; intros s v r H; [discriminate|]. cbn [until_quote] in H. cbn [length].
  destruct (bytes_eqb t [quote]); [injection H as <- <-; lia|]. apply IH in H. lia.
Qed.
Lemma split_quote_length l v r : split_quote l = Ok (v, r) -> length r < length l.
Proof.
  destruct l as [|t l]; cbn [split_quote length]; [discriminate|]. destruct (bytes_eqb t [quote]); [|discriminate].
  intros H. apply until_quote_length in H. lia.
Qed.
Lemma take_plain_length l : forall s v r, take_plain l s = (v, r) ->
  length r <= length l /\ (r = l \/ length r < length l).
Proof.
  induction l as [|t l IH]; intros s v r; cbn [take_plain]; [intros [= <- <-]; auto|].
  destruct (_ || _); [intros [= <- <-]; auto|]. intros H. apply IH in H. cbn [length]. destruct H. split; [lia|right; lia].
Qed.
Lemma next_length allowed l v r : splitter_next allowed l = Ok (Some v, r) -> length r < length l.
Proof.
  unfold splitter_next. pose proof (trim_length l) as Hl.
  assert (Ht : forall t b, splitter_trim l = t :: b -> bytes_eqb t [space] = false /\ bytes_eqb t [pound] = false).
  { clear. induction l as [|z l IH]; cbn [splitter_trim]; [discriminate|]. intros t b H.
    destruct (bytes_eqb z [space]) eqn:E1; [eapply IH, H|]. destruct (bytes_eqb z [pound]) eqn:E2; [discriminate|]. injection H as <- <-. auto. }
  destruct (splitter_trim l) as [|t b] eqn:E; [discriminate|]. destruct (Ht t b eq_refl) as [H1 H2].
  destruct (bytes_eqb (last (t :: b) []) [quote]).
  - destruct allowed; [|discriminate]. destruct (split_quote (t :: b)) as [[q r']| |] eqn:Eq; try discriminate.
    intros [= <- <-]. apply split_quote_length in Eq. lia.
  - destruct (take_plain (t :: b) []) as [s b'] eqn:Ep. pose proof (take_plain_length _ _ _ _ Ep) as [L1 L2].
    assert (D : bytes_eqb t [quote] = true \/ length b' < length (t :: b)).
    { destruct (bytes_eqb t [quote]) eqn:E3; [auto|right]. cbn [take_plain] in Ep. rewrite H1, H2, E3 in Ep. cbn [orb app] in Ep.
      apply take_plain_length in Ep. cbn [length]. lia. }
    destruct b' as [|t' b']; [intros [= <- <-]; cbn [length] in *; lia|].
    destruct (bytes_eqb t' [quote]) eqn:E4.
    + destruct (split_quote (t' :: b')) as [[q r']| |] eqn:Eq; try discriminate. apply split_quote_length in Eq. cbn [bind].
      destruct r' as [|x r']; [intros [= <- <-]; lia|]. destruct (_ || _); [|discriminate]. intros [= <- <-]. lia.
    + intros [= <- <-]. destruct D as [D|D]; [|lia]. destruct L2 as [L2|L2]; [|lia]. injection L2 as -> ->. congruence.
Qed.
Lemma starts_next allowed s w r : line_starts s [w] r -> ~ ends_in x22 s ->
  splitter_next allowed (splitter_new s) = Ok (Some w, splitter_new r)
  /\ ~ ends_in x22 r /\ length (splitter_new r) < length (splitter_new s).
Proof.
  intros H Hq. destruct (starts_one _ _ _ H) as (n & -> & Hw & He). assert (Hq' := ends_in_suffix _ _ _ Hq).
  pose proof (next_word allowed n w r Hw He Hq') as E. split; [exact E|]. split; [exact (ends_in_suffix _ _ _ Hq')|].
  exact (next_length _ _ _ _ E).
Qed.
Lemma no_words_no_word s w r : no_words s -> ~ line_starts s [w] r.
Proof.
  intros Hn H. destruct (starts_one _ _ _ H) as (n & -> & Hw & _). apply trim_no_words in Hn. rewrite trim_spaces in Hn.
  destruct (trim_word _ (word_starts w r Hw)). congruence.
Qed.
Lemma bad_next allowed s : bad_quotes s -> ~ ends_in x22 s -> splitter_next allowed (splitter_new s) = Err invalid_quotes.
Proof.
  intros [Hn Hb] Hq. destruct (next_cases allowed s Hq) as [H|[(n & w & r & -> & Hw & He)|H]]; [contradiction| |exact H].
  exfalso. eapply (Hb w r). constructor; [exact Hw|exact He|constructor].
Qed.
Lemma step_cases s : ~ ends_in x22 s -> no_words s \/ (exists w r, line_starts s [w] r) \/ bad_quotes s.
Proof.
  intros Hq. destruct (next_cases false s Hq) as [H|[(n & w & r & -> & Hw & He)|H]]; [auto| |].
  - right. left. exists w, r. constructor; [exact Hw|exact He|constructor].
  - right. right. split.
    + intros Hn. rewrite next_end in H by exact Hn. discriminate.
    + intros w r Hw. destruct (starts_next false _ _ _ Hw Hq) as [E _]. congruence.
Qed.

(** ** Comma-separated lists *)
Lemma split_on_item x : forall cur rest, ~ In x2c x -> split_on_aux x2c (x ++ x2c :: rest) cur = (cur ++ x) :: split_on x2c rest.
Proof.
  induction x as [|b x IH]; intros cur rest Hx; cbn [app split_on_aux].
  - change (byte_eqb x2c x2c) with true. rewrite app_nil_r. reflexivity.
  - assert (E : byte_eqb b x2c = false) by (apply byte_eqb_neq; intros ->; apply Hx; left; reflexivity).
    rewrite E, IH by (intros H; apply Hx; right; exact H). rewrite <- app_assoc. reflexivity.
Qed.
Lemma split_on_last x : forall cur, ~ In x2c x -> split_on_aux x2c x cur = [cur ++ x].
Proof.
  induction x as [|b x IH]; intros cur Hx; cbn [split_on_aux]; [rewrite app_nil_r; reflexivity|].
  assert (E : byte_eqb b x2c = false) by (apply byte_eqb_neq; intros ->; apply Hx; left; reflexivity).
  rewrite E, IH by (intros H; apply Hx; right; exact H). rewrite <- app_assoc. reflexivity.
Qed.
Lemma comma_split l v : comma_list l v -> split_on x2c v = l.
Proof.
  intros (Hn & Hf & ->). induction l as [|x l IH]; [congruence|]. apply Forall_cons_iff in Hf. destruct Hf as [Hx Hf].
  destruct l as [|y l].
  - cbn [commas]. unfold split_on. rewrite split_on_last by exact Hx. reflexivity.
  - change (commas (x :: y :: l)) with (x ++ x2c :: commas (y :: l)). unfold split_on. rewrite split_on_item by exact Hx.
    cbn [app]. f_equal. apply IH; [discriminate|exact Hf].
Qed.
Lemma comma_total v : exists l, comma_list l v.
Proof.
  induction v as [|b v (l & Hn & Hf & ->)].
  - exists [[]]. split; [discriminate|]. split; [repeat constructor; intros []|reflexivity].
  - destruct (byte_eqb b x2c) eqn:E.
    + apply byte_eqb_eq in E. subst b. exists ([] :: l). split; [discriminate|]. split; [constructor; [intros []|exact Hf]|].
      destruct l; [congruence|reflexivity].
    + apply byte_eqb_neq in E. destruct l as [|x l]; [congruence|]. apply Forall_cons_iff in Hf. destruct Hf as [Hx Hf].
      exists ((b :: x) :: l). split; [discriminate|]. split; [constructor; [intros [H|H]; [congruence|contradiction]|exact Hf]|].
      destruct l; reflexivity.
Qed.
Lemma split_on_iff l v : split_on x2c v = l <-> comma_list l v.
Proof.
  split; [|apply comma_split]. intros <-. destruct (comma_total v) as (l & Hl). rewrite (comma_split _ _ Hl). exact Hl.
Qed.

(** ** Names *)
Definition lower (n : bytes) : Prop := Forall (fun b => ~ (65 <= b2n b <= 90)%N) n.
Lemma named_iff name n : lower n -> (to_lowercase name = n <-> named name n).
Proof.
  intros Hn. split.
  - intros <-. clear Hn. induction name as [|b name IH]; [constructor|]. constructor; [|exact IH].
    unfold to_lower_byte. destruct ((65 <=? b2n b)%N && (b2n b <=? 90)%N) eqn:E; [right|left; reflexivity].
    apply andb_true_iff in E. rewrite !N.leb_le in E. change Byte.to_N with b2n. split; [exact E|].
    rewrite b2n_n2b, N.mod_small; lia.
  - intros H. induction H as [|a b name n H _ IH]; [reflexivity|]. apply Forall_cons_iff in Hn. destruct Hn as [Hb Hn].
    cbn [to_lowercase map]. f_equal; [|apply IH, Hn]. change Byte.to_N with b2n in H. unfold to_lower_byte.
    destruct ((65 <=? b2n a)%N && (b2n a <=? 90)%N) eqn:E.
    + apply andb_true_iff in E. rewrite !N.leb_le in E. destruct H as [->|[H1 H2]]; [contradiction|].
      rewrite H2. apply n2b_b2n.
    + destruct H as [->|[H1 H2]]; [reflexivity|]. exfalso. apply andb_false_iff in E. rewrite !N.leb_gt in E. lia.
Qed.
Lemma names_lower : Forall lower option_names.
Proof.
  assert (D : forall n, forallb (fun b => negb ((65 <=? b2n b)%N && (b2n b <=? 90)%N)) n = true -> lower n).
  { intros n H. unfold lower. rewrite Forall_forall. rewrite forallb_forall in H. intros b Hb. specialize (H b Hb).
    apply negb_true_iff, andb_false_iff in H. rewrite !N.leb_gt in H. lia. }
  unfold option_names. do 4 (apply Forall_cons; [apply D; vm_compute; reflexivity|]). apply Forall_nil.
Qed.
Lemma is_named name n : In n option_names -> (bytes_eqb (to_lowercase name) n = true <-> named name n).
Proof.
  intros Hn. rewrite bytes_eqb_eq. apply named_iff. pose proof names_lower as H. rewrite Forall_forall in H. apply H, Hn.
Qed.
Lemma named_fun name n m : In n option_names -> In m option_names -> named name n -> named name m -> n = m.
Proof.
  intros Hn Hm H1 H2. apply is_named in H1; [|exact Hn]. apply is_named in H2; [|exact Hm]. apply bytes_eqb_eq in H1, H2. congruence.
Qed.

(** ** Options *)
Lemma split_once_some c l a b : split_once c l = Some (a, b) <-> l = a ++ c :: b /\ ~ In c a.
Proof.
  revert a. induction l as [|x l IH]; intros a; cbn [split_once].
  - split; [discriminate|]. intros [E _]. destruct a; discriminate.
  - destruct (byte_eqb x c) eqn:E.
    + apply byte_eqb_eq in E. subst x. split.
      * intros [= <- <-]. split; [reflexivity|intros []].
      * intros [H Ha]. destruct a as [|y a]; [injection H as ->; reflexivity|]. injection H as -> ->. exfalso. apply Ha. left. reflexivity.
    + apply byte_eqb_neq in E. destruct (split_once c l) as [[u v]|] eqn:Es.
      * split.
        -- intros [= <- <-]. destruct (proj1 (IH u) eq_refl) as [-> Hu]. split; [reflexivity|]. intros [H|H]; [congruence|contradiction].
        -- intros [H Ha]. destruct a as [|y a]; [injection H as -> ->; congruence|]. injection H as -> H.
           assert (X : Some (u, v) = Some (a, b)) by (apply IH; split; [exact H|intros Hi; apply Ha; right; exact Hi]). injection X as -> ->. reflexivity.
      * split; [discriminate|]. intros [H Ha]. destruct a as [|y a]; [injection H as -> ->; congruence|]. injection H as -> H.
        assert (X : None = Some (a, b)) by (apply IH; split; [exact H|intros Hi; apply Ha; right; exact Hi]). discriminate.
Qed.
Lemma split_once_none c l : split_once c l = None <-> ~ In c l.
Proof.
  induction l as [|x l IH]; cbn [split_once]; [split; auto|]. destruct (byte_eqb x c) eqn:E.
  - apply byte_eqb_eq in E. subst x. split; [discriminate|]. intros H. exfalso. apply H. left. reflexivity.
  - apply byte_eqb_neq in E. destruct (split_once c l) as [[u v]|]; [split; [discriminate|]|].
    + intros H. exfalso. destruct IH as [_ IH]. assert (X : Some (u, v) = None) by (apply IH; intros Hi; apply H; right; exact Hi). discriminate.
    + split; [|reflexivity]. intros _ [H|H]; [congruence|]. apply IH; [reflexivity|exact H].
Qed.
Lemma parts_iff w name v :
  (let (k, x) := match split_once x3d w with Some p => p | None => (w, []) end in k = name /\ trim_matches quote x = v)
  <-> option_parts w name v.
Proof.
  unfold option_parts. destruct (split_once x3d w) as [[k x]|] eqn:E.
  - destruct (proj1 (split_once_some _ _ _ _) E) as [-> Hk]. rewrite trim_matches_iff. split.
    + intros [-> Hv]. exists x. auto.
    + intros (y & Hy & Hn & [H|[H ->]]).
      * assert (X : split_once x3d (k ++ x3d :: x) = Some (name, y)) by (apply split_once_some; auto). rewrite E in X. injection X as -> ->. auto.
      * exfalso. apply Hn. rewrite <- H. apply in_app_iff. right. left. reflexivity.
  - apply split_once_none in E. rewrite trim_matches_iff. split.
    + intros [-> Hv]. exists []. auto.
    + intros (y & Hy & Hn & [->|[-> ->]]); [|auto]. exfalso. apply E. apply in_app_iff. right. left. reflexivity.
Qed.
Lemma parts_total w : exists name v, option_parts w name v.
Proof.
  pose proof (fun name v => parts_iff w name v) as H. destruct (match split_once x3d w with Some p => p | None => (w, []) end) as [k x].
  exists k, (trim_matches quote x). apply H. auto.
Qed.
Lemma parts_fun w name v name' v' : option_parts w name v -> option_parts w name' v' -> name = name' /\ v = v'.
Proof.
  intros H1 H2. apply parts_iff in H1, H2. destruct (match split_once x3d w with Some p => p | None => (w, []) end) as [k x].
  destruct H1 as [<- <-], H2 as [<- <-]. auto.
Qed.
Lemma contains_iff c l : contains_byte c l = true <-> In c l.
Proof.
  unfold contains_byte. rewrite existsb_exists. split.
  - intros (x & Hx & E). apply byte_eqb_eq in E. subst x. exact Hx.
  - intros H. exists c. split; [exact H|apply byte_eqb_refl].
Qed.

Definition set_bound (n : bytes) (o : options) (t : Z) : options :=
  if bytes_eqb n (s2b "valid-after") then mkOptions (o_cert_authority o) (o_namespaces o) (Some t) (o_valid_before o)
  else mkOptions (o_cert_authority o) (o_namespaces o) (o_valid_after o) (Some t).
(** The evaluation of an option word with known parts. *)
Lemma read_option_eval tz o w name v : option_parts w name v ->
  read_option tz o w =
  if contains_byte x22 v then Err invalid_quotes else
  let name := to_lowercase name in
  if bytes_eqb name (s2b "cert-authority") then
    Ok (Some (mkOptions true (o_namespaces o) (o_valid_after o) (o_valid_before o)))
  else if bytes_eqb name (s2b "namespaces") then
    match o_namespaces o with
    | Some _ => Err (EInvalidAllowedSigner (ASDuplicateOptions (s2b "namespaces")))
    | None => Ok (Some (mkOptions (o_cert_authority o) (Some (filter nonempty (split_on x2c v))) (o_valid_after o) (o_valid_before o)))
    end
  else if bytes_eqb name (s2b "valid-after") then
    match o_valid_after o with
    | Some _ => Err (EInvalidAllowedSigner (ASDuplicateOptions (s2b "valid-after")))
    | None =>
        do? t <- map_err (parse_timestamp tz v) (EInvalidAllowedSigner (ASInvalidOption (s2b "valid-after")));
        Ok (Some (mkOptions (o_cert_authority o) (o_namespaces o) (Some t) (o_valid_before o)))
    end
  else if bytes_eqb name (s2b "valid-before") then
    match o_valid_before o with
    | Some _ => Err (EInvalidAllowedSigner (ASDuplicateOptions (s2b "valid-before")))
    | None =>
        do? t <- map_err (parse_timestamp tz v) (EInvalidAllowedSigner (ASInvalidOption (s2b "valid-before")));
        Ok (Some (mkOptions (o_cert_authority o) (o_namespaces o) (o_valid_after o) (Some t)))
    end
  else Ok None.
Proof.
  intros H. apply parts_iff in H. unfold read_option.
  destruct (match split_once x3d w with Some p => p | None => (w, []) end) as [k x]. destruct H as [-> ->]. reflexivity.
Qed.
Lemma not_in_contains c v : ~ In c v -> contains_byte c v = false.
Proof. intros H. apply not_true_is_false. rewrite contains_iff. exact H. Qed.
Lemma in_names_1 : In (s2b "cert-authority") option_names. Proof. left. reflexivity. Qed.
Lemma in_names_2 : In (s2b "namespaces") option_names. Proof. right. left. reflexivity. Qed.
Lemma in_names_3 : In (s2b "valid-after") option_names. Proof. right. right. left. reflexivity. Qed.
Lemma in_names_4 : In (s2b "valid-before") option_names. Proof. right. right. right. left. reflexivity. Qed.
Ltac name_is H :=
  let E := fresh "En" in
  first [ pose proof (proj2 (is_named _ _ in_names_1) H) as E
        | pose proof (proj2 (is_named _ _ in_names_2) H) as E
        | pose proof (proj2 (is_named _ _ in_names_3) H) as E
        | pose proof (proj2 (is_named _ _ in_names_4) H) as E ];
  apply bytes_eqb_eq in E; rewrite E; cbv zeta.
Lemma nonempty_eq : forall x, nonempty x = negb (length x =? 0).
Proof. intros [|]; reflexivity. Qed.
Lemma without_empty_eq l : filter nonempty l = without_empty l.
Proof. unfold without_empty. apply filter_ext. apply nonempty_eq. Qed.

Lemma option_word_ok tz o w o' : option_word tz o w o' -> read_option tz o w = Ok (Some o').
Proof.
  intros H. destruct H as [name v Hp Hq Hn|name v l Hp Hq Hn Ho Hl|name v t Hp Hq Hn Ho Ht|name v t Hp Hq Hn Ho Ht];
    rewrite (read_option_eval tz o w name v Hp), (not_in_contains _ _ Hq); name_is Hn.
  - reflexivity.
  - rewrite Ho. cbn -[s2b filter split_on]. apply split_on_iff in Hl. rewrite Hl, without_empty_eq. reflexivity.
  - rewrite Ho. apply parse_timestamp_ok in Ht. rewrite Ht. reflexivity.
  - rewrite Ho. apply parse_timestamp_ok in Ht. rewrite Ht. reflexivity.
Qed.
Lemma other_word_ok tz o w : other_word w -> read_option tz o w = Ok None.
Proof.
  intros (name & v & Hp & Hq & Hn). rewrite (read_option_eval tz o w name v Hp), (not_in_contains _ _ Hq). cbv zeta.
  rewrite Forall_forall in Hn.
  assert (E : forall n, In n option_names -> bytes_eqb (to_lowercase name) n = false).
  { intros n Hi. apply not_true_is_false. rewrite is_named by exact Hi. apply Hn, Hi. }
  rewrite (E _ in_names_1), (E _ in_names_2), (E _ in_names_3), (E _ in_names_4). reflexivity.
Qed.
Lemma stamp_cases tz v : (exists t, parse_timestamp tz v = Ok t /\ stamp tz v t)
  \/ (parse_timestamp tz v = Err bad_stamp /\ (forall t, ~ stamp tz v t) /\ ~ unmapped tz v)
  \/ (parse_timestamp tz v = Panic /\ unmapped tz v).
Proof.
  destruct (parse_timestamp tz v) as [t|e|] eqn:E.
  - left. exists t. split; [reflexivity|apply parse_timestamp_ok, E].
  - right. left. pose proof (parse_timestamp_err _ _ _ E). subst e. split; [reflexivity|]. split.
    + intros t Ht. apply parse_timestamp_ok in Ht. congruence.
    + intros Hu. apply parse_timestamp_panic in Hu. congruence.
  - right. right. split; [reflexivity|apply parse_timestamp_panic, E].
Qed.
Lemma option_error_ok tz o w e : option_error tz o w e -> read_option tz o w = Err (EInvalidAllowedSigner e).
Proof.
  intros H. destruct H as [name v Hp Hq|name v n Hp Hq [Hs Hn]|name v n Hp Hq [Hs Hn] Ht Hu];
    rewrite (read_option_eval tz o w name v Hp).
  - apply contains_iff in Hq. rewrite Hq. reflexivity.
  - rewrite (not_in_contains _ _ Hq). destruct Hs as [[-> Hs]|[[-> Hs]|[-> Hs]]]; name_is Hn.
    + destruct (o_namespaces o); [reflexivity|congruence].
    + destruct (o_valid_after o); [reflexivity|congruence].
    + destruct (o_valid_before o); [reflexivity|congruence].
  - rewrite (not_in_contains _ _ Hq).
    assert (E : parse_timestamp tz v = Err bad_stamp).
    { destruct (stamp_cases tz v) as [(t & _ & X)|[[X _]|[_ X]]]; [destruct (Ht t X)|exact X|contradiction]. }
    destruct Hs as [[-> Hs]|[-> Hs]]; name_is Hn; rewrite Hs, E; reflexivity.
Qed.
Lemma option_panic_ok tz o w : option_panic tz o w -> read_option tz o w = Panic.
Proof.
  intros (name & v & n & Hp & Hq & [Hs Hn] & Hu). rewrite (read_option_eval tz o w name v Hp), (not_in_contains _ _ Hq).
  apply parse_timestamp_panic in Hu. destruct Hs as [[-> Hs]|[-> Hs]]; name_is Hn; rewrite Hs, Hu; reflexivity.
Qed.
Lemma option_cases tz o w : (exists o', option_word tz o w o') \/ other_word w \/ (exists e, option_error tz o w e) \/ option_panic tz o w.
Proof.
  destruct (parts_total w) as (name & v & Hp).
  destruct (contains_byte x22 v) eqn:Eq; [right; right; left; eexists; eapply OE_quotes; [exact Hp|apply contains_iff, Eq]|].
  assert (Hq : ~ In x22 v) by (intros H; apply contains_iff in H; congruence).
  assert (D : forall n, In n option_names -> {named name n} + {~ named name n}).
  { intros n Hn. destruct (bytes_eqb (to_lowercase name) n) eqn:E; [left; apply (is_named name n Hn), E|].
    right. intros H. apply (is_named name n Hn) in H. congruence. }
  destruct (D _ in_names_1) as [H1|H1]; [left; eexists; eapply OW_cert_authority; eauto|].
  destruct (D _ in_names_2) as [H2|H2].
  { destruct (o_namespaces o) eqn:Eo.
    - right. right. left. eexists. eapply OE_duplicate; [exact Hp|exact Hq|]. split; [left; split; [reflexivity|congruence]|exact H2].
    - left. destruct (comma_total v) as (l & Hl). eexists. eapply OW_namespaces; eauto. }
  destruct (D _ in_names_3) as [H3|H3].
  { destruct (o_valid_after o) eqn:Eo.
    - right. right. left. eexists. eapply OE_duplicate; [exact Hp|exact Hq|]. split; [right; left; split; [reflexivity|congruence]|exact H3].
    - destruct (stamp_cases tz v) as [(t & _ & Ht)|[(_ & Ht & Hu)|[_ Hu]]].
      + left. eexists. eapply OW_valid_after; eauto.
      + right. right. left. eexists. eapply OE_time; [exact Hp|exact Hq| |exact Ht|exact Hu]. split; [left; split; [reflexivity|exact Eo]|exact H3].
      + right. right. right. exists name, v, (s2b "valid-after"). repeat split; auto. }
  destruct (D _ in_names_4) as [H4|H4].
  { destruct (o_valid_before o) eqn:Eo.
    - right. right. left. eexists. eapply OE_duplicate; [exact Hp|exact Hq|]. split; [right; right; split; [reflexivity|congruence]|exact H4].
    - destruct (stamp_cases tz v) as [(t & _ & Ht)|[(_ & Ht & Hu)|[_ Hu]]].
      + left. eexists. eapply OW_valid_before; eauto.
      + right. right. left. eexists. eapply OE_time; [exact Hp|exact Hq| |exact Ht|exact Hu]. split; [right; split; [reflexivity|exact Eo]|exact H4].
      + right. right. right. exists name, v, (s2b "valid-before"). repeat split; auto. }
  right. left. exists name, v. repeat split; auto. repeat constructor; assumption.
Qed.

(** ** The options of a line *)
Lemma run_options tz o ows o' : option_words tz o ows o' -> forall s r fuel, line_starts s ows r -> ~ ends_in x22 s ->
  length (splitter_new s) < fuel ->
  exists fuel', length (splitter_new r) < fuel'
    /\ read_options fuel tz o (splitter_new s) = read_options fuel' tz o' (splitter_new r).
Proof.
  induction 1 as [o|o o1 o2 w ws Hw _ IH]; intros s r fuel Hs Hq Hf.
  - inversion Hs; subst. exists fuel. auto.
  - apply starts_cons in Hs. destruct Hs as (m & H1 & H2). destruct (starts_next false _ _ _ H1 Hq) as (E & Hq' & Hl).
    destruct fuel as [|fuel]; [lia|]. destruct (IH m r fuel H2 Hq') as (fuel' & Hf' & E'); [lia|].
    exists fuel'. split; [exact Hf'|]. cbn [read_options]. rewrite E. cbn [bind ok_or].
    rewrite (option_word_ok _ _ _ _ Hw). cbn [bind]. exact E'.
Qed.
(** How the options end. *)
Lemma options_end tz : forall k s o, length (splitter_new s) <= k -> ~ ends_in x22 s ->
  exists ows o' r, option_words tz o ows o' /\ line_starts s ows r
    /\ (no_words r \/ bad_quotes r
        \/ exists w r', line_starts r [w] r' /\ (other_word w \/ (exists e, option_error tz o' w e) \/ option_panic tz o' w)).
Proof.
  induction k as [|k IH]; intros s o Hk Hq.
  - exists [], o, s. split; [constructor|]. split; [constructor|]. destruct (step_cases s Hq) as [H|[(w & r & H)|H]]; auto.
    destruct (starts_next false _ _ _ H Hq) as (_ & _ & Hl). lia.
  - destruct (step_cases s Hq) as [H|[(w & r & H)|H]]; [exists [], o, s; split; [constructor|]; split; [constructor|auto]| |exists [], o, s; split; [constructor|]; split; [constructor|auto]].
    destruct (starts_next false _ _ _ H Hq) as (_ & Hq' & Hl).
    destruct (option_cases tz o w) as [(o1 & Ho)|D].
    + destruct (IH r o1) as (ows & o' & r' & H1 & H2 & H3); [lia|exact Hq'|]. exists (w :: ows), o', r'.
      split; [econstructor; eauto|]. split; [exact (starts_app _ _ _ H _ _ H2)|exact H3].
    + exists [], o, s. split; [constructor|]. split; [constructor|]. right. right. exists w, r. auto.
Qed.

(** ** Entries *)
Lemma empty_principals ps : existsb (fun p => negb (nonempty p)) ps = false <-> Forall (fun p : bytes => p <> []) ps.
Proof.
  rewrite Forall_forall. split.
  - intros H p Hp ->. assert (X : existsb (fun p => negb (nonempty p)) ps = true) by (apply existsb_exists; exists []; auto). congruence.
  - intros H. apply not_true_is_false. intros E. apply existsb_exists in E. destruct E as ([|] & Hp & E); [|discriminate]. apply (H _ Hp eq_refl).
Qed.
Lemma empty_principal ps : existsb (fun p => negb (nonempty p)) ps = true <-> In [] ps.
Proof.
  rewrite existsb_exists. split; [intros ([|] & Hp & E); [exact Hp|discriminate]|]. intros H. exists []. auto.
Qed.
(** The part of [from_string] after the options. *)
Definition finish (ps : list bytes) (kt : bytes) (o : options) (b : splitter) : res allowed_signer :=
  do? (t, b) <- splitter_next false b;
  do? key_data <- ok_or t (EInvalidAllowedSigner ASInvalidKey);
  do? key <- map_err (pk_from_string (kt ++ [space] ++ key_data)) (EInvalidAllowedSigner ASInvalidKey);
  if (match o_valid_before o, o_valid_after o with
      | Some before, Some after => (before <=? after)%Z
      | _, _ => false
      end)
  then Err (EInvalidAllowedSigner ASInvalidTimestamps) else
  match splitter_trim b with
  | [] => Ok (mkSigner ps (o_cert_authority o) (o_namespaces o) (o_valid_after o) (o_valid_before o) key)
  | _ => Err (EInvalidAllowedSigner ASUnexpectedEnd)
  end.
Lemma from_string_eval tz s ps o r : read_so_far tz s ps o r ->
  ~ ends_in x22 r /\ exists fuel, length (splitter_new r) < fuel
  /\ as_from_string tz s = do? (kt, o, b) <- read_options fuel tz o (splitter_new r); finish ps kt o b.
Proof.
  intros (Hq & pw & pt & ows & Hs & Hu & Hc & Hne & Ho). split; [exact (starts_suffix _ _ _ Hs Hq)|].
  apply starts_cons in Hs. destruct Hs as (m & H1 & H2). destruct (starts_next true _ _ _ H1 Hq) as (E & Hq' & Hl).
  destruct (run_options tz _ _ _ Ho m r (S (length (splitter_new m))) H2 Hq' ltac:(lia)) as (fuel & Hf & E').
  exists fuel. split; [exact Hf|]. unfold as_from_string. cbv zeta. rewrite E. cbn [bind ok_or].
  apply trim_matches_iff in Hu. rewrite Hu. apply split_on_iff in Hc. rewrite Hc. apply empty_principals in Hne. rewrite Hne, E'.
  reflexivity.
Qed.
Lemma ordered_iff o : (match o_valid_before o, o_valid_after o with
      | Some before, Some after => (before <=? after)%Z | _, _ => false end) = false <-> ordered o.
Proof.
  unfold ordered. destruct (o_valid_before o) as [y|], (o_valid_after o) as [x|]; try (split; [intros _ ? ?; discriminate|reflexivity]).
  - rewrite Z.leb_gt. split; [intros H ? ? [= <-] [= <-]; exact H|intros H; apply H; reflexivity].
Qed.
Lemma read_kt tz s ps o r kt r' : read_so_far tz s ps o r -> line_starts r [kt] r' -> other_word kt ->
  ~ ends_in x22 r' /\ as_from_string tz s = finish ps kt o (splitter_new r').
Proof.
  intros H Hk Ho. destruct (from_string_eval _ _ _ _ _ H) as (Hq & fuel & Hf & E).
  destruct (starts_next false _ _ _ Hk Hq) as (E1 & Hq' & Hl). split; [exact Hq'|]. rewrite E. destruct fuel as [|fuel]; [lia|].
  cbn [read_options]. rewrite E1. cbn [bind ok_or]. rewrite (other_word_ok _ _ _ Ho). reflexivity.
Qed.
Lemma accepted_so_far tz s a : accepted_line tz s a <->
  exists ps o r kt kd r' k, read_so_far tz s ps o r /\ line_starts r [kt; kd] r' /\ other_word kt
    /\ pk_from_string (kt ++ [x20] ++ kd) = Ok k /\ ordered o /\ no_words r'
    /\ a = mkSigner ps (o_cert_authority o) (o_namespaces o) (o_valid_after o) (o_valid_before o) k.
Proof.
  split.
  - intros (Hq & pw & pt & ows & kt & kd & o & Hw & Hu & Hc & Hne & Ho & Hk & Hp & E1 & E2 & E3 & E4 & Ht).
    apply words_starts in Hw. destruct Hw as (r' & Hs & Hr'). change (pw :: ows ++ [kt; kd]) with ((pw :: ows) ++ [kt; kd]) in Hs.
    apply starts_app_inv in Hs. destruct Hs as (r & H1 & H2).
    exists (as_principals a), o, r, kt, kd, r', (as_key a). split; [split; [exact Hq|]; exists pw, pt, ows; auto|].
    repeat (split; [first [eassumption|idtac]|]).
    + unfold ordered. rewrite <- E3, <- E4. exact Ht.
    + destruct a; cbn in *. congruence.
  - intros (ps & o & r & kt & kd & r' & k & (Hq & pw & pt & ows & Hs & Hu & Hc & Hne & Ho) & H2 & Hk & Hp & Ht & Hr & ->).
    split; [exact Hq|]. exists pw, pt, ows, kt, kd, o. split.
    + apply words_starts. exists r'. split; [|exact Hr]. exact (starts_app _ _ _ Hs _ _ H2).
    + cbn. repeat (split; [solve [assumption|reflexivity]|]). exact Ht.
Qed.
Lemma accepted_ok tz s a : accepted_line tz s a -> as_from_string tz s = Ok a.
Proof.
  intros H. apply accepted_so_far in H. destruct H as (ps & o & r & kt & kd & r' & k & H & Hs & Hk & Hp & Ht & Hr & ->).
  apply starts_cons in Hs. destruct Hs as (m & H1 & H2). destruct (read_kt _ _ _ _ _ _ _ H H1 Hk) as (Hq & ->).
  destruct (starts_next false _ _ _ H2 Hq) as (E & Hq' & _). unfold finish. rewrite E. cbn [bind ok_or].
  change [space] with [x20]. rewrite Hp. cbn [map_err bind]. apply ordered_iff in Ht. rewrite Ht. apply trim_empty_iff in Hr. rewrite Hr. reflexivity.
Qed.
Lemma ends_in_tail c a b : b <> [] -> ends_in c (a ++ b) -> ends_in c b.
Proof. intros Hb. apply ends_in_app, Hb. Qed.
Lemma quote_line n c r : ~ In x22 c -> ends_in x22 (repeat x20 n ++ x22 :: c ++ x22 :: r) ->
  splitter_next true (splitter_new (repeat x20 n ++ x22 :: c ++ x22 :: r)) = Ok (Some (x22 :: c ++ [x22]), splitter_new r).
Proof.
  intros Hc Hq. unfold splitter_next. rewrite trim_spaces.
  destruct (trim_word (x22 :: c ++ x22 :: r)) as [E Hn]; [eexists _, _; split; [reflexivity|split; discriminate]|]. rewrite E.
  destruct (splitter_new (x22 :: c ++ x22 :: r)) as [|t ts] eqn:Es; [congruence|]. rewrite <- Es. rewrite last_quote.
  replace (ends_with_byte x22 (x22 :: c ++ x22 :: r)) with true
    by (symmetry; apply ends_with_iff; eapply ends_in_tail; [|exact Hq]; discriminate).
  rewrite split_delim by reflexivity. cbn [split_quote]. change (bytes_eqb [x22] [quote]) with true. cbv iota.
  rewrite until_quote_ok by exact Hc. reflexivity.
Qed.
Lemma unquoted_quoted c : ~ In x22 c -> unquoted (x22 :: c ++ [x22]) c.
Proof.
  intros H. exists 1, 1. split; [reflexivity|]. split; intros t ->; apply H; [left; reflexivity|apply in_app_iff; right; left; reflexivity].
Qed.
(** Lines ending in a quote. *)
Lemma quote_bad s : ends_in x22 s -> ~ no_words s ->
  (forall n c r, ~ In x22 c -> s <> repeat x20 n ++ x22 :: c ++ x22 :: r) -> splitter_next true (splitter_new s) = Err invalid_quotes.
Proof.
  intros Hq Hn Hs. destruct (line_cases s) as [?|(n & r & -> & Hr)]; [contradiction|].
  unfold splitter_next. rewrite trim_spaces. destruct (trim_word r Hr) as [E Hne]. rewrite E.
  destruct (splitter_new r) as [|t ts] eqn:Es; [congruence|]. rewrite <- Es in *. rewrite last_quote.
  destruct Hr as (b & x & -> & Hb1 & Hb2).
  replace (ends_with_byte x22 (b :: x)) with true by (symmetry; apply ends_with_iff; eapply ends_in_tail; [|exact Hq]; discriminate).
  destruct (is_delim b) eqn:Ed.
  - apply is_delim_iff in Ed. destruct Ed as [Ed|[Ed|Ed]]; [congruence| |congruence]. subst b.
    destruct (quote_cases x) as [Hx|(c & y & -> & Hc)]; [|destruct (Hs n c y Hc eq_refl)].
    rewrite split_delim by reflexivity. cbn [split_quote]. change (bytes_eqb [x22] [quote]) with true. cbv iota.
    rewrite until_quote_err by exact Hx. reflexivity.
  - destruct (plain_prefix x) as (p & y & -> & Hp & Hy). change (b :: p ++ y) with ((b :: p) ++ y) in *.
    rewrite split_piece; [|constructor; assumption|discriminate|exact Hy]. cbn [split_quote].
    rewrite (nodelim_not (b :: p)) by (try (constructor; assumption); reflexivity). reflexivity.
Qed.
Lemma quote_next_false s : ends_in x22 s -> ~ no_words s -> splitter_next false (splitter_new s) = Err invalid_quotes.
Proof.
  intros Hq Hn. destruct (line_cases s) as [?|(n & r & -> & Hr)]; [contradiction|].
  unfold splitter_next. rewrite trim_spaces. destruct (trim_word r Hr) as [E Hne]. rewrite E.
  destruct (splitter_new r) as [|t ts] eqn:Es; [congruence|]. rewrite <- Es. rewrite last_quote.
  replace (ends_with_byte x22 r) with true; [reflexivity|]. symmetry. apply ends_with_iff. eapply ends_in_tail; [|exact Hq].
  destruct Hr as (? & ? & -> & _). discriminate.
Qed.
Lemma quote_eval tz n c r ps : ends_in x22 (repeat x20 n ++ x22 :: c ++ x22 :: r) -> ~ In x22 c -> comma_list ps c ->
  as_from_string tz (repeat x20 n ++ x22 :: c ++ x22 :: r) =
  if existsb (fun p => negb (nonempty p)) ps then Err (EInvalidAllowedSigner ASInvalidPrincipals)
  else do? (kt, o, b) <- read_options (S (length (splitter_new r))) tz no_options (splitter_new r); finish ps kt o b.
Proof.
  intros Hq Hc Hl. unfold as_from_string. cbv zeta. rewrite quote_line by assumption. cbn [bind ok_or].
  rewrite (proj2 (trim_matches_iff _ _) (unquoted_quoted c Hc)). apply split_on_iff in Hl. rewrite Hl. reflexivity.
Qed.
Lemma ends_rest n c r : r <> [] -> ends_in x22 (repeat x20 n ++ x22 :: c ++ x22 :: r) -> ends_in x22 r.
Proof.
  intros Hr H. change (x22 :: c ++ x22 :: r) with ((x22 :: c) ++ [x22] ++ r) in H. rewrite !app_assoc in H. eapply ends_in_tail; [exact Hr|exact H].
Qed.

Lemma rejected_err tz s e : rejected_line tz s e -> as_from_string tz s = Err (EInvalidAllowedSigner e).
Proof.
  intros H. destruct H.
  - unfold as_from_string. cbv zeta. rewrite next_end by assumption. reflexivity.
  - unfold as_from_string. cbv zeta. rewrite bad_next by assumption. reflexivity.
  - unfold as_from_string. cbv zeta. destruct (starts_next true _ _ _ H0 H) as (E & _). rewrite E. cbn [bind ok_or].
    apply trim_matches_iff in H1. rewrite H1. apply split_on_iff in H2. rewrite H2. apply empty_principal in H3. rewrite H3. reflexivity.
  - destruct (from_string_eval _ _ _ _ _ H) as (Hq & fuel & Hf & ->). destruct fuel as [|fuel]; [lia|]. cbn [read_options].
    rewrite next_end by assumption. reflexivity.
  - destruct (from_string_eval _ _ _ _ _ H) as (Hq & fuel & Hf & ->). destruct fuel as [|fuel]; [lia|]. cbn [read_options].
    rewrite bad_next by assumption. reflexivity.
  - destruct (from_string_eval _ _ _ _ _ H) as (Hq & fuel & Hf & ->). destruct fuel as [|fuel]; [lia|]. cbn [read_options].
    destruct (starts_next false _ _ _ H0 Hq) as (E & _). rewrite E. cbn [bind ok_or]. rewrite (option_error_ok _ _ _ _ H1). reflexivity.
  - destruct (read_kt _ _ _ _ _ _ _ H H0 H1) as (Hq & ->). unfold finish. rewrite next_end by assumption. reflexivity.
  - destruct (read_kt _ _ _ _ _ _ _ H H0 H1) as (Hq & ->). unfold finish. rewrite bad_next by assumption. reflexivity.
  - apply starts_cons in H0. destruct H0 as (m & Ha & Hb). destruct (read_kt _ _ _ _ _ _ _ H Ha H1) as (Hq & ->).
    unfold finish. destruct (starts_next false _ _ _ Hb Hq) as (E & _). rewrite E. cbn [bind ok_or]. change [space] with [x20].
    pose proof (nopanic_pk_from_string (kt ++ [x20] ++ kd)). destruct (pk_from_string (kt ++ [x20] ++ kd)) as [k|e|]; [destruct (H2 k eq_refl)|reflexivity|congruence].
  - apply starts_cons in H0. destruct H0 as (m & Ha & Hb). destruct (read_kt _ _ _ _ _ _ _ H Ha H1) as (Hq & ->).
    unfold finish. destruct (starts_next false _ _ _ Hb Hq) as (E & _). rewrite E. cbn [bind ok_or]. change [space] with [x20]. rewrite H2. cbn [map_err bind].
    rewrite <- ordered_iff in H3. apply not_false_is_true in H3. rewrite H3. reflexivity.
  - apply starts_cons in H0. destruct H0 as (m & Ha & Hb). destruct (read_kt _ _ _ _ _ _ _ H Ha H1) as (Hq & ->).
    unfold finish. destruct (starts_next false _ _ _ Hb Hq) as (E & _). rewrite E. cbn [bind ok_or]. change [space] with [x20]. rewrite H2. cbn [map_err bind].
    rewrite <- ordered_iff in H3. rewrite H3. destruct (splitter_trim (splitter_new r')) as [|x y] eqn:Et; [|reflexivity].
    destruct H4. apply trim_empty_iff, Et.
  - unfold as_from_string. cbv zeta. rewrite quote_bad by assumption. reflexivity.
  - subst s. rewrite (quote_eval tz n c r ps) by assumption. apply empty_principal in H3. rewrite H3. reflexivity.
  - subst s. rewrite (quote_eval tz n c r ps) by assumption. apply empty_principals in H3. rewrite H3. cbn [read_options]. rewrite next_end by assumption. reflexivity.
  - subst s. rewrite (quote_eval tz n c r ps) by assumption. apply empty_principals in H3. rewrite H3. cbn [read_options]. rewrite quote_next_false; [reflexivity| |assumption].
    eapply ends_rest; [|exact H]. intros ->. apply H4. exists 0. left. reflexivity.
Qed.
Lemma panicking_ok tz s : panicking_line tz s -> as_from_string tz s = Panic.
Proof.
  intros (ps & o & r & w & r' & H & H0 & H1). destruct (from_string_eval _ _ _ _ _ H) as (Hq & fuel & Hf & ->). destruct fuel as [|fuel]; [lia|]. cbn [read_options].
  destruct (starts_next false _ _ _ H0 Hq) as (E & _). rewrite E. cbn [bind ok_or]. rewrite (option_panic_ok _ _ _ H1). reflexivity.
Qed.
Lemma no_words_dec s : {no_words s} + {~ no_words s}.
Proof.
  destruct (splitter_trim (splitter_new s)) as [|x l] eqn:E; [left; apply trim_empty_iff, E|right].
  intros H. apply trim_empty_iff in H. congruence.
Qed.
Lemma principals_dec (ps : list bytes) : In [] ps \/ Forall (fun p => p <> []) ps.
Proof.
  destruct (existsb (fun p => negb (nonempty p)) ps) eqn:E; [left; apply empty_principal, E|right; apply empty_principals, E].
Qed.
Lemma line_total tz s : (exists a, accepted_line tz s a) \/ (exists e, rejected_line tz s e) \/ panicking_line tz s.
Proof.
  destruct (no_words_dec s) as [Hw|Hw]; [right; left; eexists; apply RL_empty, Hw|].
  destruct (ends_in_dec x22 s) as [Hq|Hq].
  - right. left.
    assert (D : (exists n c r, ~ In x22 c /\ s = repeat x20 n ++ x22 :: c ++ x22 :: r)
                \/ forall n c r, ~ In x22 c -> s <> repeat x20 n ++ x22 :: c ++ x22 :: r).
    { destruct (splitter_next true (splitter_new s)) as [x|e|] eqn:E.
      - left. destruct (line_cases s) as [?|(n & r & -> & Hr)]; [contradiction|]. destruct Hr as (b & y & -> & Hb1 & Hb2).
        exists n. destruct (byte_eqb b x22) eqn:Eb.
        + apply byte_eqb_eq in Eb. subst b. destruct (quote_cases y) as [Hy|(c & z & -> & Hc)]; [|exists c, z; auto].
          exfalso. rewrite quote_bad in E; [discriminate|exact Hq|exact Hw|]. intros n' c r Hc Ex.
          assert (Hn : n = n').
          { clear -Ex. revert n' Ex. induction n as [|n IH]; intros [|n'] Ex; cbn in Ex; try discriminate; [reflexivity|]. injection Ex as Ex. f_equal. eapply IH, Ex. }
          subst n'. apply app_inv_head in Ex. injection Ex as ->. apply Hy. apply in_app_iff. right. left. reflexivity.
        + exfalso. rewrite quote_bad in E; [discriminate|exact Hq|exact Hw|]. intros n' c r Hc Ex. apply byte_eqb_neq in Eb.
          clear -Ex Eb Hb1. revert n' Ex. induction n as [|n IH]; intros [|n'] Ex; cbn in Ex; try discriminate; injection Ex as Ex; solve [congruence|eapply IH; eassumption].
      - right. intros n c r Hc ->. rewrite quote_line in E by assumption. discriminate.
      - right. intros n c r Hc ->. rewrite quote_line in E by assumption. discriminate. }
    destruct D as [(n & c & r & Hc & E)|D]; [|eexists; apply RL_q_quotes; assumption].
    destruct (comma_total c) as (ps & Hps). destruct (principals_dec ps) as [Hp|Hp]; [eexists; eapply RL_q_principals; eauto|].
    destruct (no_words_dec r) as [Hr|Hr]; [eexists; eapply RL_q_no_key; eauto|eexists; eapply RL_q_more; eauto].
  - destruct (step_cases s Hq) as [H|[(pw & m & H)|H]]; [contradiction| |right; left; eexists; apply RL_quotes; assumption].
    destruct (unquoted_total pw) as (pt & Hpt). destruct (comma_total pt) as (ps & Hps).
    destruct (principals_dec ps) as [Hp|Hp]; [right; left; eexists; eapply RL_principals; eauto|].
    destruct (options_end tz (length (splitter_new m)) m no_options) as (ows & o & r & Ho & Hs & D); [lia|exact (starts_suffix _ _ _ H Hq)|].
    assert (R : read_so_far tz s ps o r).
    { split; [exact Hq|]. exists pw, pt, ows. split; [exact (starts_app _ _ _ H _ _ Hs)|auto]. }
    destruct D as [D|[D|(w & r' & Hw' & [D|[(e & D)|D]])]].
    + right. left. eexists. eapply RL_no_key; eauto.
    + right. left. eexists. eapply RL_option_quotes; eauto.
    + destruct (read_kt _ _ _ _ _ _ _ R Hw' D) as (Hq' & _).
      destruct (step_cases r' Hq') as [H1|[(kd & r2 & H1)|H1]].
      * right. left. eexists. eapply RL_no_key_data; eauto.
      * assert (S2 : line_starts r [w; kd] r2) by exact (starts_app _ _ _ Hw' _ _ H1).
        destruct (pk_from_string (w ++ [x20] ++ kd)) as [k|e|] eqn:Ek.
        -- destruct (match o_valid_before o, o_valid_after o with Some before, Some after => (before <=? after)%Z | _, _ => false end) eqn:Eo.
           ++ right. left. eexists. eapply RL_order; eauto. rewrite <- ordered_iff, Eo. discriminate.
           ++ apply ordered_iff in Eo. destruct (no_words_dec r2) as [Hn|Hn]; [|right; left; eexists; eapply RL_more; eauto].
              left. eexists. apply accepted_so_far. exists ps, o, r, w, kd, r2, k. repeat (split; [eassumption|]). reflexivity.
        -- right. left. eexists. eapply RL_key; eauto. rewrite Ek. discriminate.
        -- exfalso. eapply nopanic_pk_from_string, Ek.
      * right. left. eexists. eapply RL_key_quotes; eauto.
    + right. left. eexists. eapply RL_option; eauto.
    + right. right. exists ps, o, r, w, r'. auto.
Qed.
Lemma accepted_iff tz s a : as_from_string tz s = Ok a <-> accepted_line tz s a.
Proof.
  split; [|apply accepted_ok]. intros H. destruct (line_total tz s) as [(b & X)|[(e & X)|X]].
  - pose proof (accepted_ok _ _ _ X). congruence.
  - pose proof (rejected_err _ _ _ X). congruence.
  - pose proof (panicking_ok _ _ X). congruence.
Qed.
Lemma rejected_iff tz s e : as_from_string tz s = Err e <-> exists e', e = EInvalidAllowedSigner e' /\ rejected_line tz s e'.
Proof.
  split; [|intros (e' & -> & H); apply rejected_err, H]. intros H. destruct (line_total tz s) as [(b & X)|[(e' & X)|X]].
  - pose proof (accepted_ok _ _ _ X). congruence.
  - pose proof (rejected_err _ _ _ X). exists e'. split; [congruence|exact X].
  - pose proof (panicking_ok _ _ X). congruence.
Qed.
Lemma panicking_iff tz s : as_from_string tz s = Panic <-> panicking_line tz s.
Proof.
  split; [|apply panicking_ok]. intros H. destruct (line_total tz s) as [(b & X)|[(e & X)|X]].
  - pose proof (accepted_ok _ _ _ X). congruence.
  - pose proof (rejected_err _ _ _ X). congruence.
  - exact X.
Qed.

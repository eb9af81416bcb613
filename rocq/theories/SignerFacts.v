(** Facts about AllowedSigner.v: splitting of lines, options, entries. *)
From Verif Require Import Base BaseFacts Str StrFacts SpecWire SpecText KeyType PubKeyType PubKey Chrono AllowedSigner SpecSigner ChronoFacts.

(** ** The pieces of a line *)
Lemma is_delim_iff b : is_delim b = true <-> b = x20 \/ b = x22 \/ b = x23.
Proof.
  unfold is_delim. rewrite !orb_true_iff, !byte_eqb_eq. change space with x20. change quote with x22. change pound with x23. tauto.
Qed.
Lemma plain_delim p : plain_text p <-> Forall (fun b => is_delim b = false) p.
Proof.
  unfold plain_text. rewrite Forall_forall. split; intros H b Hb; specialize (H b Hb).
  - apply not_true_is_false. rewrite is_delim_iff. tauto.
  - apply not_true_iff_false in H. rewrite is_delim_iff in H. tauto.
Qed.
Definition nodelim (l : bytes) : Prop := Forall (fun b => is_delim b = false) l.
(** Texts at which a plain piece ends. *)
Definition piece_ends (r : bytes) : Prop := r = [] \/ exists b t, r = b :: t /\ is_delim b = true.

Lemma split_plain p : forall r cur, nodelim p -> split_delims (p ++ r) cur = split_delims r (cur ++ p).
Proof.
  induction p as [|b p IH]; intros r cur Hp; [rewrite app_nil_r; reflexivity|].
  apply Forall_cons_iff in Hp. destruct Hp as [Hb Hp]. cbn [app split_delims]. rewrite Hb, IH by exact Hp. rewrite <- app_assoc. reflexivity.
Qed.
Lemma split_piece p r : nodelim p -> p <> [] -> piece_ends r -> splitter_new (p ++ r) = p :: splitter_new r.
Proof.
  intros Hp Hn Hr. unfold splitter_new. rewrite split_plain by exact Hp. cbn [app].
  destruct Hr as [->|(b & t & -> & Hb)]; cbn [split_delims].
  - destruct p; [congruence|reflexivity].
  - rewrite Hb. cbn [flush]. destruct p; [congruence|reflexivity].
Qed.
Lemma split_delim b r : is_delim b = true -> splitter_new (b :: r) = [b] :: splitter_new r.
Proof. intros H. unfold splitter_new. cbn [split_delims]. rewrite H. reflexivity. Qed.
Lemma nodelim_not p b : nodelim p -> is_delim b = true -> bytes_eqb p [b] = false.
Proof.
  intros Hp Hb. apply not_true_is_false. intros E. apply bytes_eqb_eq in E. subst p. apply Forall_cons_iff in Hp. destruct Hp. congruence.
Qed.
(** The longest plain prefix. *)
Lemma plain_prefix l : exists p r, l = p ++ r /\ nodelim p /\ piece_ends r.
Proof.
  induction l as [|b l (p & r & -> & Hp & Hr)].
  - exists [], []. repeat split; [constructor|left; reflexivity].
  - destruct (is_delim b) eqn:E.
    + exists [], (b :: p ++ r). repeat split; [constructor|right; eauto].
    + exists (b :: p), r. repeat split; [constructor; assumption|exact Hr].
Qed.

Lemma take_plain_new p r s : nodelim p -> piece_ends r -> take_plain (splitter_new (p ++ r)) s = (s ++ p, splitter_new r).
Proof.
  intros Hp Hr.
  assert (E : forall s', take_plain (splitter_new r) s' = (s', splitter_new r)).
  { intros s'. destruct Hr as [->|(b & t & -> & Hb)]; [reflexivity|]. rewrite split_delim by exact Hb. cbn [take_plain].
    assert (D : bytes_eqb [b] [space] || bytes_eqb [b] [quote] || bytes_eqb [b] [pound] = true).
    { unfold is_delim in Hb. cbn [bytes_eqb]. rewrite !andb_true_r. exact Hb. }
    rewrite D. reflexivity. }
  destruct p as [|x p]; [cbn [app]; rewrite app_nil_r; apply E|].
  rewrite split_piece by (auto; discriminate). cbn [take_plain].
  rewrite !(nodelim_not (x :: p)) by (auto; reflexivity). cbn [orb]. apply E.
Qed.

(** ** Trimming *)
Lemma trim_spaces n r : splitter_trim (splitter_new (repeat x20 n ++ r)) = splitter_trim (splitter_new r).
Proof.
  induction n as [|n IH]; [reflexivity|]. cbn [repeat app]. rewrite split_delim by reflexivity. cbn [splitter_trim].
  change (bytes_eqb [x20] [space]) with true. exact IH.
Qed.
Lemma spaces_prefix (l : bytes) : exists n r, l = repeat x20 n ++ r /\ (forall t, r <> x20 :: t).
Proof.
  induction l as [|b l (n & r & -> & Hr)].
  - exists 0, []. split; [reflexivity|discriminate].
  - destruct (byte_eqb b x20) eqn:E.
    + apply byte_eqb_eq in E. subst b. exists (S n), r. auto.
    + exists 0, (b :: repeat x20 n ++ r). split; [reflexivity|]. intros t [= -> _]. rewrite byte_eqb_refl in E. discriminate.
Qed.
Lemma trim_comment r : splitter_trim (splitter_new (x23 :: r)) = [].
Proof. rewrite split_delim by reflexivity. reflexivity. Qed.
(** A text that is neither blank nor a comment starts with something after the spaces. *)
Definition starts_word (r : bytes) : Prop := exists b t, r = b :: t /\ b <> x20 /\ b <> x23.
Lemma trim_word r : starts_word r -> splitter_trim (splitter_new r) = splitter_new r /\ splitter_new r <> [].
Proof.
  intros (b & t & -> & H1 & H2). destruct (is_delim b) eqn:E.
  - rewrite split_delim by exact E. cbn [splitter_trim]. apply is_delim_iff in E. destruct E as [E|[E|E]]; [congruence| |congruence].
    subst b. split; [reflexivity|discriminate].
  - destruct (plain_prefix t) as (p & r & -> & Hp & Hr).
    change (b :: p ++ r) with ((b :: p) ++ r). rewrite split_piece; [|constructor; assumption|discriminate|exact Hr].
    cbn [splitter_trim]. rewrite !(nodelim_not (b :: p)) by (try (constructor; assumption); reflexivity). split; [reflexivity|discriminate].
Qed.
Lemma line_cases l : no_words l \/ exists n r, l = repeat x20 n ++ r /\ starts_word r.
Proof.
  destruct (spaces_prefix l) as (n & r & -> & Hr). destruct r as [|b r].
  - left. exists n. left. apply app_nil_r.
  - destruct (byte_eqb b x23) eqn:E.
    + apply byte_eqb_eq in E. subst b. left. exists n. right. eauto.
    + right. exists n, (b :: r). split; [reflexivity|]. exists b, r. split; [reflexivity|].
      split; [intros ->; eapply Hr; reflexivity|intros ->; rewrite byte_eqb_refl in E; discriminate].
Qed.
Lemma trim_no_words l : no_words l -> splitter_trim (splitter_new l) = [].
Proof.
  intros (n & [->|(c & ->)]).
  - rewrite <- (app_nil_r (repeat x20 n)), trim_spaces. reflexivity.
  - rewrite trim_spaces. apply trim_comment.
Qed.
Lemma trim_empty_iff l : splitter_trim (splitter_new l) = [] <-> no_words l.
Proof.
  split; [|apply trim_no_words]. intros H. destruct (line_cases l) as [?|(n & r & -> & Hr)]; [assumption|].
  rewrite trim_spaces in H. destruct (trim_word r Hr) as [E Hn]. congruence.
Qed.

(** ** The last piece *)
Lemma last_quote l : bytes_eqb (last (splitter_new l) []) [quote] = ends_with_byte x22 l.
Proof.
  assert (G : forall l cur, nodelim cur ->
     bytes_eqb (last (split_delims l cur) []) [quote] = match l with [] => false | _ => ends_with_byte x22 l end).
  { clear l. induction l as [|b l IH]; intros cur Hc; cbn [split_delims].
    - destruct cur as [|c cur]; [reflexivity|]. cbn [flush last]. apply nodelim_not; [exact Hc|reflexivity].
    - assert (E : ends_with_byte x22 (b :: l) = match l with [] => byte_eqb b x22 | _ => ends_with_byte x22 l end).
      { destruct l as [|c l]; [reflexivity|]. unfold ends_with_byte. cbn [rev].
        destruct (rev l ++ [c]) as [|x t] eqn:Er; [destruct (rev l); discriminate|reflexivity]. }
      rewrite E. destruct (is_delim b) eqn:Eb.
      + assert (F : forall X : list bytes, last (flush cur ([b] :: X)) [] = last ([b] :: X) []) by (intros X; destruct cur; reflexivity).
        rewrite F. destruct l as [|c l].
        * cbn. rewrite andb_true_r. reflexivity.
        * assert (N : split_delims (c :: l) [] <> []).
          { cbn [split_delims flush]. destruct (is_delim c); [discriminate|]. clear. cbn [app].
            assert (G : forall m x t, split_delims m (x :: t) <> []).
            { induction m as [|y m IH]; intros x t; cbn [split_delims flush]; [discriminate|]. destruct (is_delim y); [discriminate|]. cbn [app]. apply IH. }
            apply G. }
          destruct (split_delims (c :: l) []) as [|y ys] eqn:Es; [congruence|].
          change (last ([b] :: y :: ys) []) with (last (y :: ys) []). rewrite <- Es. rewrite IH by constructor. reflexivity.
      + rewrite IH by (apply Forall_app; auto). destruct l as [|c l]; [|reflexivity].
        symmetry. apply not_true_is_false. intros X. apply byte_eqb_eq in X. subst b. discriminate. }
  unfold splitter_new. rewrite G by constructor. destruct l; reflexivity.
Qed.

(** ** Quoted pieces *)
Lemma until_quote_ok c : forall r s, ~ In x22 c ->
  until_quote (splitter_new (c ++ x22 :: r)) s = Ok (s ++ c ++ [x22], splitter_new r).
Proof.
  assert (G : forall c cur r s, ~ In x22 c -> nodelim cur ->
    until_quote (split_delims (c ++ x22 :: r) cur) s = Ok (s ++ cur ++ c ++ [x22], splitter_new r)).
  { clear c. induction c as [|b c IH]; intros cur r s Hc Hn; cbn [app split_delims].
    - change (is_delim x22) with true. cbv iota. destruct cur as [|x cur].
      + cbn [flush until_quote]. change (bytes_eqb [x22] [quote]) with true. reflexivity.
      + cbn [flush until_quote]. rewrite (nodelim_not (x :: cur) quote) by (auto; reflexivity).
        change (bytes_eqb [x22] [quote]) with true. cbv iota. rewrite <- !app_assoc. reflexivity.
    - assert (Hb : b <> x22) by (intros ->; apply Hc; left; reflexivity).
      assert (Hc' : ~ In x22 c) by (intros H; apply Hc; right; exact H).
      destruct (is_delim b) eqn:Eb.
      + assert (Eq : bytes_eqb [b] [quote] = false).
        { apply not_true_is_false. intros E. apply bytes_eqb_eq in E. injection E as ->. apply Hb. reflexivity. }
        destruct cur as [|x cur].
        * cbn [flush until_quote]. rewrite Eq, IH by (auto; constructor). rewrite <- !app_assoc. reflexivity.
        * cbn [flush until_quote]. rewrite (nodelim_not (x :: cur) quote) by (auto; reflexivity). rewrite Eq.
          rewrite IH by (auto; constructor). rewrite <- !app_assoc. reflexivity.
      + rewrite IH; [|exact Hc'|apply Forall_app; auto]. rewrite <- !app_assoc. reflexivity. }
  intros r s Hc. unfold splitter_new at 1. rewrite G by (auto; constructor). reflexivity.
Qed.
Lemma until_quote_err l : forall s, ~ In x22 l -> until_quote (splitter_new l) s = Err invalid_quotes.
Proof.
  assert (G : forall l cur s, ~ In x22 l -> nodelim cur -> until_quote (split_delims l cur) s = Err invalid_quotes).
  { clear l. induction l as [|b l IH]; intros cur s Hl Hc; cbn [split_delims].
    - destruct cur as [|x cur]; [reflexivity|]. cbn [flush until_quote]. rewrite nodelim_not by (auto; reflexivity). reflexivity.
    - assert (Hb : b <> x22) by (intros ->; apply Hl; left; reflexivity).
      assert (Hl' : ~ In x22 l) by (intros H; apply Hl; right; exact H).
      destruct (is_delim b) eqn:Eb.
      + assert (Eq : bytes_eqb [b] [quote] = false).
        { apply not_true_is_false. intros E. apply bytes_eqb_eq in E. injection E as ->. apply Hb. reflexivity. }
        destruct cur as [|x cur]; cbn [flush until_quote]; rewrite ?(nodelim_not (x :: cur) quote) by (auto; reflexivity);
          rewrite Eq; apply IH; auto; constructor.
      + apply IH; [exact Hl'|apply Forall_app; auto]. }
  intros s Hl. apply G; [exact Hl|constructor].
Qed.
Lemma quote_cases (l : bytes) : ~ In x22 l \/ exists c r, l = c ++ x22 :: r /\ ~ In x22 c.
Proof.
  induction l as [|b l IH]; [left; intros []|]. destruct (byte_eqb b x22) eqn:E.
  - apply byte_eqb_eq in E. subst b. right. exists [], l. split; [reflexivity|intros []].
  - assert (Hb : b <> x22) by (intros ->; rewrite byte_eqb_refl in E; discriminate).
    destruct IH as [IH|(c & r & -> & Hc)]; [left; intros [H|H]; [congruence|contradiction]|].
    right. exists (b :: c), r. split; [reflexivity|]. intros [H|H]; [congruence|contradiction].
Qed.

(** ** Words *)
Lemma word_ends_piece r : word_ends r -> piece_ends r.
Proof. intros [->|[(t & ->)|(t & ->)]]; [left; reflexivity|right; eexists _, _; split; reflexivity..]. Qed.
Lemma ends_in_app c a b : b <> [] -> (ends_in c (a ++ b) <-> ends_in c b).
Proof.
  intros Hb. split.
  - intros (l & E). destruct (exists_last Hb) as (b' & x & ->). rewrite app_assoc in E. apply app_inj_tail in E. destruct E as [_ ->].
    eexists. reflexivity.
  - intros (l & ->). exists (a ++ l). apply app_assoc.
Qed.
Lemma ends_in_nil c : ~ ends_in c [].
Proof. intros (l & E). destruct l; discriminate. Qed.
Lemma ends_in_suffix c a b : ~ ends_in c (a ++ b) -> ~ ends_in c b.
Proof. intros H E. destruct b as [|x b]; [eapply ends_in_nil, E|]. apply H. apply ends_in_app; [discriminate|exact E]. Qed.

Lemma word_starts w rest : line_word w -> starts_word (w ++ rest).
Proof.
  intros (Hn & p & q & Hp & Hq & ->). destruct p as [|b p].
  - destruct Hq as [->|(c & _ & ->)]; [cbn in Hn; congruence|]. eexists _, _. split; [reflexivity|split; discriminate].
  - eexists _, _. split; [reflexivity|]. destruct (Hp b) as (H1 & _ & H3); [left; reflexivity|]. auto.
Qed.
(** The splitter gives exactly the words, for lines that do not end in a quote. *)
Lemma next_word allowed n w rest : line_word w -> word_ends rest -> ~ ends_in x22 (w ++ rest) ->
  splitter_next allowed (splitter_new (repeat x20 n ++ w ++ rest)) = Ok (Some w, splitter_new rest).
Proof.
  intros Hw Hr Hq. unfold splitter_next. rewrite trim_spaces.
  destruct (trim_word (w ++ rest) (word_starts w rest Hw)) as [E Hn]. rewrite E.
  destruct (splitter_new (w ++ rest)) as [|t0 ts0] eqn:Es; [congruence|]. rewrite <- Es in *.
  rewrite last_quote. replace (ends_with_byte x22 (w ++ rest)) with false
    by (symmetry; apply not_true_is_false; intros X; apply ends_with_iff in X; contradiction).
  destruct Hw as (_ & p & q & Hp & Hqq & ->). apply plain_delim in Hp.
  destruct Hqq as [->|(c & Hc & ->)].
  - rewrite app_nil_r. rewrite take_plain_new by (auto using word_ends_piece). cbn [app].
    destruct Hr as [->|[(r & ->)|(r & ->)]]; [reflexivity|rewrite split_delim by reflexivity; reflexivity..].
  - rewrite <- !app_assoc. rewrite take_plain_new; [|exact Hp|right; eexists _, _; split; reflexivity].
    cbn [app]. rewrite <- app_assoc. cbn [app]. rewrite split_delim by reflexivity. change (bytes_eqb [x22] [quote]) with true. cbv iota.
    cbn [split_quote]. change (bytes_eqb [x22] [quote]) with true. cbv iota.
    rewrite until_quote_ok by exact Hc. cbn [bind].
    destruct Hr as [->|[(r & ->)|(r & ->)]]; [reflexivity|rewrite split_delim by reflexivity; reflexivity..].
Qed.
Lemma next_end allowed l : no_words l -> splitter_next allowed (splitter_new l) = Ok (None, []).
Proof. intros H. unfold splitter_next. rewrite trim_no_words by exact H. reflexivity. Qed.
(** Otherwise the quotes are wrong. *)
Lemma next_cases allowed l : ~ ends_in x22 l ->
  no_words l
  \/ (exists n w rest, l = repeat x20 n ++ w ++ rest /\ line_word w /\ word_ends rest)
  \/ splitter_next allowed (splitter_new l) = Err invalid_quotes.
Proof.
  intros Hq. destruct (line_cases l) as [?|(n & r & -> & Hr)]; [auto|]. right.
  apply ends_in_suffix in Hq. destruct (plain_prefix r) as (p & s & -> & Hp & Hs).
  assert (Hplain : plain_text p) by (apply plain_delim, Hp).
  destruct Hs as [->|(b & t & -> & Hb)].
  - left. exists n, p, []. split; [reflexivity|]. split; [|left; reflexivity].
    split; [intros ->; destruct Hr as (? & ? & E & _); discriminate|]. exists p, []. rewrite app_nil_r. auto.
  - apply is_delim_iff in Hb. destruct Hb as [E0|[E0|E0]]; subst b.
    + left. exists n, p, (x20 :: t). split; [reflexivity|]. split; [|right; left; eauto].
      split; [intros ->; destruct Hr as (? & ? & X & H1 & _); injection X as <- _; congruence|]. exists p, []. rewrite app_nil_r. auto.
    + destruct (quote_cases t) as [Ht|(c & r & -> & Hc)].
      * right. unfold splitter_next. rewrite trim_spaces. destruct (trim_word _ Hr) as [E Hn]. rewrite E.
        destruct (splitter_new (p ++ x22 :: t)) as [|t0 ts0] eqn:Es; [congruence|]. rewrite <- Es in *.
        rewrite last_quote. replace (ends_with_byte x22 (p ++ x22 :: t)) with false
          by (symmetry; apply not_true_is_false; intros X; apply ends_with_iff in X; contradiction).
        rewrite take_plain_new; [|exact Hp|right; eexists _, _; split; reflexivity]. rewrite split_delim by reflexivity.
        cbn [split_quote]. change (bytes_eqb [x22] [quote]) with true. cbv iota. rewrite until_quote_err by exact Ht. reflexivity.
      * assert (D : word_ends r \/ exists b t, r = b :: t /\ b <> x20 /\ b <> x23).
        { destruct r as [|b r]; [left; left; reflexivity|].
          destruct (byte_eqb b x20) eqn:E1; [apply byte_eqb_eq in E1; subst b; left; right; left; eauto|].
          destruct (byte_eqb b x23) eqn:E2; [apply byte_eqb_eq in E2; subst b; left; right; right; eauto|].
          right. exists b, r. split; [reflexivity|]. split; intros ->; rewrite byte_eqb_refl in *; discriminate. }
        destruct D as [D|D].
        -- left. exists n, (p ++ x22 :: c ++ [x22]), r. split; [rewrite <- !app_assoc; cbn [app]; rewrite <- app_assoc; reflexivity|].
           split; [|exact D]. split; [destruct p; discriminate|]. exists p, (x22 :: c ++ [x22]). split; [exact Hplain|]. split; [right; exists c; auto|reflexivity].
        -- right. unfold splitter_next. rewrite trim_spaces. destruct (trim_word _ Hr) as [E Hn]. rewrite E.
           destruct (splitter_new (p ++ x22 :: c ++ x22 :: r)) as [|t0 ts0] eqn:Es; [congruence|]. rewrite <- Es in *.
           rewrite last_quote. replace (ends_with_byte x22 (p ++ x22 :: c ++ x22 :: r)) with false
             by (symmetry; apply not_true_is_false; intros X; apply ends_with_iff in X; contradiction).
           rewrite take_plain_new; [|exact Hp|right; eexists _, _; split; reflexivity]. rewrite split_delim by reflexivity.
           cbn [split_quote]. change (bytes_eqb [x22] [quote]) with true. cbv iota. rewrite until_quote_ok by exact Hc. cbn [bind].
           destruct (trim_word r) as [E' Hn']; [destruct D as (bb & tt & ED & D1 & D2); exists bb, tt; auto|].
           destruct (splitter_new r) as [|y ys]; [congruence|]. cbn [splitter_trim] in E'.
           destruct (bytes_eqb y [space]) eqn:Y1; [exfalso|].
           { apply (f_equal (@length _)) in E'. clear -E'. cbn in E'.
             assert (G : forall l, length (splitter_trim l) <= length l) by
               (induction l as [|z l IH]; cbn [splitter_trim length]; [lia|]; destruct (bytes_eqb z [space]); [lia|]; destruct (bytes_eqb z [pound]); cbn [length]; lia).
             specialize (G ys). lia. }
           destruct (bytes_eqb y [pound]) eqn:Y2; [discriminate|]. reflexivity.
    + left. exists n, p, (x23 :: t). split; [reflexivity|]. split; [|right; right; eauto].
      split; [intros ->; destruct Hr as (? & ? & X & _ & H1); injection X as <- _; congruence|]. exists p, []. rewrite app_nil_r. auto.
Qed.

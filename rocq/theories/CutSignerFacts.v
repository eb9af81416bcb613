(** Lemmas on beginnings of allowed_signers files. *)
From Coq Require Import Lia.
From Verif Require Import Base BaseFacts SpecWire SpecText Utf8 Utf8Facts Str StrFacts KeyType KeyTypeFacts PubKeyType PubKey PubKeyFacts Chrono AllowedSigner SpecSigner
  SignerFacts EntryFacts FileFacts TbsFacts SpecFiles CutFacts.

(** ** UTF-8 text around ASCII characters *)
Lemma char_ascii c bs b : utf8_char c bs -> In b bs -> (b2n b < 128)%N -> bs = [b].
Proof.
  intros H Hi Hb. change (Byte.to_N b < 128)%N in Hb. destruct H; unfold cbyte in *; cbn [In] in Hi;
    repeat match goal with H : _ \/ _ |- _ => destruct H | H : False |- _ => destruct H end; subst; try reflexivity; exfalso; lia.
Qed.
Lemma utf8_around s : utf8_text s -> forall a b c, s = a ++ b :: c -> (b2n b < 128)%N -> utf8_text a /\ utf8_text c.
Proof.
  induction 1 as [|k bs l Hk Hl IH]; intros a b c E Hb; [destruct a; discriminate|]. destruct a as [|x a].
  - split; [constructor|]. cbn [app] in E. destruct bs as [|y bs]; [apply utf8_char_nonempty in Hk; congruence|].
    cbn [app] in E. injection E as -> E. apply (char_ascii k _ b) in Hk; [|left; reflexivity|exact Hb]. injection Hk as ->.
    cbn [app] in E. subst c. exact Hl.
  - assert (G : exists a', x :: a = bs ++ a').
    { destruct (in_dec (fun u v => Byte.byte_eq_dec u v) b bs) as [Hi|Hi].
      - apply (char_ascii k) in Hi; [|exact Hk|exact Hb]. subst bs. cbn [app] in E. injection E as -> _. exists a. reflexivity.
      - symmetry in E. destruct (app_past b (x :: a) c bs l E Hi) as (a' & Ea & _). eauto. }
    destruct G as (a' & Ga). rewrite Ga, <- app_assoc in E. apply app_inv_head in E. destruct (IH a' b c E Hb) as [H1 H2].
    split; [|exact H2]. rewrite Ga. apply (Utf8_cons k); assumption.
Qed.
Lemma text_lead b p : utf8_text (b :: p) -> ~ cbyte b.
Proof.
  intros H. inversion H as [|c bs l Hc Hl E]. destruct bs as [|b' bs]; [apply utf8_char_nonempty in Hc; congruence|].
  injection E as -> _. eapply char_lead, Hc.
Qed.
Lemma char_inside_text c bs l x p : utf8_char c bs -> bs ++ l = x ++ p -> utf8_text p -> x <> [] -> exists x', x = bs ++ x' /\ l = x' ++ p.
Proof.
  intros Hc E Hp Hx. destruct (le_lt_dec (length bs) (length x)) as [L|L].
  - exists (skipn (length bs) x). assert (F : firstn (length bs) x = bs).
    { assert (A : firstn (length bs) (bs ++ l) = firstn (length bs) (x ++ p)) by (rewrite E; reflexivity).
      rewrite firstn_app, firstn_all, Nat.sub_diag, firstn_O, app_nil_r in A. rewrite firstn_app in A.
      replace (length bs - length x) with 0 in A by lia. rewrite firstn_O, app_nil_r in A. symmetry. exact A. }
    assert (Ex : x = bs ++ skipn (length bs) x) by (rewrite <- F at 1; rewrite firstn_skipn; reflexivity).
    split; [exact Ex|]. rewrite Ex in E. rewrite <- app_assoc in E. apply app_inv_head in E. exact E.
  - exfalso. assert (Eb : bs = x ++ skipn (length x) bs).
    { assert (A : firstn (length x) (bs ++ l) = firstn (length x) (x ++ p)) by (rewrite E; reflexivity).
      rewrite (firstn_app _ x), firstn_all, Nat.sub_diag, firstn_O, app_nil_r in A. rewrite firstn_app in A.
      replace (length x - length bs) with 0 in A by lia. rewrite firstn_O, app_nil_r in A. rewrite <- A at 1. rewrite firstn_skipn. reflexivity. }
    destruct (skipn (length x) bs) as [|b y] eqn:Es.
    { apply (f_equal (@length _)) in Eb. rewrite app_nil_r in Eb. lia. }
    apply (char_tail c bs x b y Hc Eb Hx). rewrite Eb in E. rewrite <- app_assoc in E. apply app_inv_head in E. cbn [app] in E. subst p.
    exfalso. apply text_lead in Hp. apply Hp. apply (char_tail c bs x b y Hc Eb Hx).
Qed.
Lemma run_front q : ws_run q -> forall x p, q = x ++ p -> utf8_text p -> ws_run x.
Proof.
  induction 1 as [|c bs l Hc Hw _ IH]; intros x p E Hp.
  - destruct x; [constructor|discriminate].
  - destruct x as [|b x]; [constructor|]. destruct (char_inside_text c bs l (b :: x) p Hc E Hp) as (x' & -> & ->); [discriminate|].
    apply (WsR_cons c); [exact Hc|exact Hw|]. eapply IH; [reflexivity|exact Hp].
Qed.
Lemma run_text q : ws_run q -> utf8_text q.
Proof. induction 1 as [|c bs l Hc Hw _ IH]; [constructor|]. apply (Utf8_cons c); assumption. Qed.

Lemma run_rest a : ws_run a -> forall b, ws_run (a ++ b) -> ws_run b.
Proof.
  induction 1 as [|c bs l Hc Hw Hl IH]; intros b Hb; [exact Hb|]. rewrite <- app_assoc in Hb. remember (bs ++ l ++ b) as s eqn:E.
  destruct Hb as [|d ds m Hd Hwd Hm].
  - apply utf8_char_nonempty in Hc. destruct bs; [congruence|discriminate].
  - destruct (utf8_char_beginning _ _ Hc _ _ _ _ Hd E) as [-> _]. apply app_inv_head in E. subst m. auto.
Qed.
Lemma run_first z : ws_run z -> z <> [] -> exists c bs z', utf8_char c bs /\ ws_scalar c /\ z = bs ++ z'.
Proof. intros H Hz. destruct H as [|c bs l Hc Hw Hl]; [congruence|]. eauto 6. Qed.
Lemma run_char c bs : utf8_char c bs -> ws_scalar c -> ws_run bs.
Proof. intros Hc Hw. rewrite <- (app_nil_r bs). apply (WsR_cons c); [exact Hc|exact Hw|constructor]. Qed.

(** ** Lines without the white space around them *)
Lemma stripped_cut l x w w2 : utf8_text l -> utf8_text x -> stripped l w -> w <> [] -> stripped (l ++ x) w2 -> beginning w w2.
Proof.
  intros Hl Hx (pre & post & -> & Hpre & Hpost & Hw1 & Hw2) Hne (pre2 & post2 & E & Hpre2 & Hpost2 & Hv1 & Hv2).
  rewrite <- !app_assoc in E.
  assert (Hpx : utf8_text (post ++ x)) by (apply utf8_text_app; [apply run_text, Hpost|exact Hx]).
  assert (Ep : pre2 = pre).
  { destruct (beginning_comparable pre pre2 (pre ++ w ++ post ++ x)) as [(z & ->)|(z & ->)].
    - eexists. reflexivity.
    - rewrite E. eexists. reflexivity.
    - apply run_rest in Hpre2; [|exact Hpre]. rewrite <- app_assoc in E. apply app_inv_head in E.
      destruct z as [|z0 z]; [apply app_nil_r|]. exfalso. destruct (run_first _ Hpre2) as (c & bs & z' & Hc & Hws & Ez); [discriminate|].
      rewrite Ez, <- app_assoc in E. symmetry in E. destruct (char_inside_text c bs _ w (post ++ x) Hc E Hpx Hne) as (w' & -> & _).
      apply utf8_char_nonempty in Hc as Hcn. apply Hcn, (Hw1 bs w' eq_refl), (run_char c); assumption.
    - apply (run_rest pre2 Hpre2 z) in Hpre. rewrite <- !app_assoc in E. apply app_inv_head in E.
      destruct z as [|z0 z]; [rewrite app_nil_r; reflexivity|]. exfalso. destruct (run_first _ Hpre) as (c & bs & z' & Hc & Hws & Ez); [discriminate|].
      apply utf8_char_nonempty in Hc as Hcn. destruct w2 as [|y w2].
      + cbn [app] in E. subst post2. apply (run_rest _ Hpre) in Hpost2. apply Hne.
        apply (Hw1 w [] (eq_sym (app_nil_r w))). eapply run_front; [exact Hpost2|reflexivity|exact Hpx].
      + rewrite Ez, <- !app_assoc in E. destruct (char_inside c bs _ (y :: w2) post2 Hc E Hpost2) as (w' & E2 & _); [discriminate|].
        rewrite E2 in Hv1. apply Hcn, (Hv1 bs w' eq_refl), (run_char c); assumption. }
  subst pre2. apply app_inv_head in E.
  destruct (beginning_comparable w w2 (w ++ post ++ x)) as [H|(z & ->)].
  - eexists. reflexivity.
  - rewrite E. eexists. reflexivity.
  - exact H.
  - rewrite <- app_assoc in E. apply app_inv_head in E. subst post2. rewrite app_assoc in Hpost2.
    assert (A : ws_run (z ++ post)) by (eapply run_front; [exact Hpost2|reflexivity|exact Hx]).
    rewrite (Hw2 w2 z eq_refl); [rewrite app_nil_r; apply beginning_refl|]. eapply run_split; [exact A|reflexivity|exact Hpost].
Qed.
Lemma strip_cr_cases l : strip_cr l = l \/ l = strip_cr l ++ [carriage_return].
Proof.
  induction l as [|x l IH]; [auto|]. destruct l as [|y l].
  - cbn [strip_cr]. destruct (byte_eqb x carriage_return) eqn:E; [|auto]. apply byte_eqb_eq in E. subst x. auto.
  - change (strip_cr (x :: y :: l)) with (x :: strip_cr (y :: l)). destruct IH as [IH|IH]; [rewrite IH; auto|].
    right. cbn [app]. rewrite IH at 1. reflexivity.
Qed.
Lemma trim_strip_cr l : trim (strip_cr l) = trim l.
Proof.
  destruct (strip_cr_cases l) as [E|E]; [rewrite E; reflexivity|]. symmetry. apply trim_iff'.
  destruct (proj1 (trim_iff' (strip_cr l) _) eq_refl) as (pre & post & E2 & H1 & H2 & H3 & H4).
  exists pre, (post ++ [carriage_return]). split; [rewrite E at 1; rewrite E2 at 1; rewrite <- !app_assoc; reflexivity|].
  split; [exact H1|]. split; [|auto]. clear - H2. induction H2 as [|c bs l Hc Hw Hl IH].
  - apply (WsR_cons 13 [carriage_return] []); [apply (Utf8_1 x0d); reflexivity|unfold ws_scalar; lia|constructor].
  - rewrite <- app_assoc. apply (WsR_cons c); assumption.
Qed.

(** ** The pieces of a line that was cut off *)
Inductive cut_pieces : splitter -> splitter -> Prop :=
| CP_nil b : cut_pieces [] b
| CP_last w' w b : nodelim w' -> nodelim w -> beginning w' w -> cut_pieces [w'] (w :: b)
| CP_cons w b' b : cut_pieces b' b -> cut_pieces (w :: b') (w :: b).

Lemma split_delims_cur r : forall cur, cur <> [] -> nodelim cur -> exists w b, split_delims r cur = w :: b /\ nodelim w /\ beginning cur w.
Proof.
  induction r as [|x r IH]; intros cur Hn Hc; cbn [split_delims].
  - exists cur, []. split; [destruct cur; [congruence|reflexivity]|]. split; [exact Hc|apply beginning_refl].
  - destruct (is_delim x) eqn:E.
    + exists cur, ([x] :: split_delims r []). split; [destruct cur; [congruence|reflexivity]|]. split; [exact Hc|apply beginning_refl].
    + destruct (IH (cur ++ [x])) as (w & b & -> & Hw & (z & ->)).
      * destruct cur; discriminate.
      * apply Forall_app. split; [exact Hc|]. constructor; [exact E|constructor].
      * eexists _, b. split; [reflexivity|]. split; [exact Hw|]. rewrite <- app_assoc. eexists. reflexivity.
Qed.
Lemma split_cut p r : forall cur, nodelim cur -> cut_pieces (split_delims p cur) (split_delims (p ++ r) cur).
Proof.
  induction p as [|x p IH]; intros cur Hc; cbn [app split_delims].
  - destruct cur as [|c cur]; [constructor|]. cbn [flush]. destruct (split_delims_cur r (c :: cur)) as (w & b & -> & Hw & Hb); [discriminate|exact Hc|].
    apply CP_last; assumption.
  - destruct (is_delim x) eqn:E.
    + specialize (IH [] (Forall_nil _)). destruct cur; cbn [flush]; repeat apply CP_cons; exact IH.
    + apply IH. apply Forall_app. split; [exact Hc|]. constructor; [exact E|constructor].
Qed.
Lemma new_cut p t : beginning p t -> cut_pieces (splitter_new p) (splitter_new t).
Proof. intros (r & ->). apply split_cut. constructor. Qed.

Lemma trim_cut b' b : cut_pieces b' b -> cut_pieces (splitter_trim b') (splitter_trim b).
Proof.
  induction 1 as [b|w' w b H1 H2 Hb|w b' b H IH]; cbn [splitter_trim].
  - constructor.
  - rewrite !(nodelim_not w'), !(nodelim_not w) by (assumption || reflexivity). apply CP_last; assumption.
  - destruct (bytes_eqb w [space]); [exact IH|]. destruct (bytes_eqb w [pound]); [constructor|]. apply CP_cons, H.
Qed.
Lemma take_plain_begins b : forall s v c, take_plain b s = (v, c) -> beginning s v.
Proof.
  induction b as [|t b IH]; intros s v c H; cbn [take_plain] in H; [injection H as <- _; apply beginning_refl|].
  destruct (_ || _); [injection H as <- _; apply beginning_refl|]. apply IH in H. destruct H as (z & ->). rewrite <- app_assoc. eexists. reflexivity.
Qed.
Lemma take_plain_cut b' b : cut_pieces b' b -> forall s v' c' v c, take_plain b' s = (v', c') -> take_plain b s = (v, c) ->
  c' = [] /\ beginning v' v \/ v' = v /\ cut_pieces c' c.
Proof.
  induction 1 as [b|w' w b H1 H2 Hb|w b' b H IH]; intros s v' c' v c E' E; cbn [take_plain] in E', E.
  - injection E' as <- <-. left. split; [reflexivity|]. eapply take_plain_begins, E.
  - rewrite !(nodelim_not w') in E' by (assumption || reflexivity). rewrite !(nodelim_not w) in E by (assumption || reflexivity).
    cbn [orb] in E', E. injection E' as <- <-. left. split; [reflexivity|]. apply take_plain_begins in E. destruct E as (z & ->), Hb as (y & ->).
    rewrite <- !app_assoc. exists (y ++ z). rewrite <- app_assoc. reflexivity.
  - destruct (_ || _).
    + injection E' as <- <-. injection E as <- <-. right. split; [reflexivity|apply CP_cons, H].
    + eapply IH; eassumption.
Qed.
Lemma until_quote_cut b' b : cut_pieces b' b -> forall s v c', until_quote b' s = Ok (v, c') ->
  exists c, until_quote b s = Ok (v, c) /\ cut_pieces c' c.
Proof.
  induction 1 as [b|w' w b H1 H2 Hb|w b' b H IH]; intros s v c' E; cbn [until_quote] in *.
  - discriminate.
  - rewrite (nodelim_not w') in E by (assumption || reflexivity). discriminate.
  - destruct (bytes_eqb w [quote]); [|apply IH, E]. injection E as <- <-. exists b. auto.
Qed.
Lemma split_quote_cut b' b : cut_pieces b' b -> forall v c', split_quote b' = Ok (v, c') ->
  exists c, split_quote b = Ok (v, c) /\ cut_pieces c' c.
Proof.
  intros H v c' E. destruct H as [b|w' w b H1 H2 Hb|w b' b H]; cbn [split_quote] in *.
  - discriminate.
  - rewrite (nodelim_not w') in E by (assumption || reflexivity). discriminate.
  - destruct (bytes_eqb w [quote]); [|discriminate]. eapply until_quote_cut; eassumption.
Qed.
Lemma next_cut x y b' b v' c' t c : cut_pieces b' b ->
  bytes_eqb (last (splitter_trim b') []) [quote] = false -> bytes_eqb (last (splitter_trim b) []) [quote] = false ->
  splitter_next x b' = Ok (Some v', c') -> splitter_next y b = Ok (t, c) ->
  exists v, t = Some v /\ (c' = [] /\ beginning v' v \/ v' = v /\ cut_pieces c' c).
Proof.
  intros H L' L E' E. unfold splitter_next in E', E. cbv zeta in E', E. apply trim_cut in H.
  destruct (splitter_trim b') as [|p' q'] eqn:T'; [discriminate|]. destruct (splitter_trim b) as [|p q] eqn:T; [inversion H|].
  rewrite L' in E'. rewrite L in E. clear L L' T T'.
  destruct (take_plain (p' :: q') []) as [s' d'] eqn:P'. destruct (take_plain (p :: q) []) as [s d] eqn:P.
  destruct (take_plain_cut _ _ H _ _ _ _ _ P' P) as [[-> Hs]|[-> Hd]].
  - injection E' as <- <-. destruct d as [|u d]; [injection E as <- <-; eauto|].
    destruct (bytes_eqb u [quote]); [|injection E as <- <-; eauto].
    apply bind_ok in E. destruct E as ([z e] & _ & E). destruct Hs as (m & ->).
    assert (G : t = Some ((s' ++ m) ++ z)).
    { destruct e as [|f e]; [congruence|]. destruct (_ || _); congruence. }
    exists ((s' ++ m) ++ z). split; [exact G|]. left. split; [reflexivity|]. rewrite <- app_assoc. eexists. reflexivity.
  - destruct d' as [|u' d'].
    + injection E' as <- <-. inversion Hd; subst.
      destruct d as [|u d]; [injection E as <- <-; eauto using beginning_refl|].
      destruct (bytes_eqb u [quote]); [|injection E as <- <-; eauto using beginning_refl].
      apply bind_ok in E. destruct E as ([z e] & _ & E). exists (s ++ z).
      split; [destruct e as [|f e]; [injection E as <- _; reflexivity|]; destruct (_ || _); [injection E as <- _; reflexivity|discriminate]|]. left. split; [reflexivity|]. eexists. reflexivity.
    + destruct (bytes_eqb u' [quote]) eqn:Eq.
      * apply bind_ok in E'. destruct E' as ([z e'] & Ez & E'). destruct (split_quote_cut _ _ Hd _ _ Ez) as (e & Es & He).
        inversion Hd as [|w' w bb H1 H2 Hb|w bb' bb Hb]; subst.
        { rewrite (nodelim_not u') in Eq by (assumption || reflexivity). discriminate. }
        rewrite Eq, Es in E. cbn [bind] in E. exists (s ++ z).
        assert (G : t = Some (s ++ z) /\ c = e).
        { destruct e as [|f e]; [split; congruence|]. destruct (_ || _); [split; congruence|discriminate]. }
        assert (G' : v' = s ++ z /\ c' = e').
        { destruct e' as [|f e']; [split; congruence|]. destruct (_ || _); [split; congruence|discriminate]. }
        destruct G as [-> ->], G' as [-> ->]. auto.
      * injection E' as <- <-. destruct d as [|u d]; [inversion Hd|].
        assert (Eu : bytes_eqb u [quote] = false).
        { inversion Hd; subst; [apply nodelim_not; [assumption|reflexivity]|exact Eq]. }
        rewrite Eu in E. injection E as <- <-. eauto.
Qed.

(** ** The words of a line are text *)
Lemma split_delims_text s : utf8_text s -> forall cur, utf8_text cur -> Forall utf8_text (split_delims s cur).
Proof.
  induction 1 as [|c bs l Hc Hl IH]; intros cur Hcur.
  - cbn [split_delims]. destruct cur; cbn [flush]; [constructor|]. constructor; [exact Hcur|constructor].
  - destruct (existsb is_delim bs) eqn:E.
    + apply existsb_exists in E. destruct E as (b & Hi & Hb).
      assert (A : (b2n b < 128)%N) by (apply is_delim_iff in Hb; destruct Hb as [-> |[-> | -> ]]; reflexivity).
      apply (char_ascii c) in Hi; [|exact Hc|exact A]. subst bs. cbn [app split_delims]. rewrite Hb.
      assert (B : Forall utf8_text ([b] :: split_delims l [])).
      { constructor; [apply utf8_text_ascii; constructor; [exact A|constructor]|]. apply IH. constructor. }
      destruct cur; cbn [flush]; [exact B|]. constructor; [exact Hcur|exact B].
    + assert (N : nodelim bs).
      { apply Forall_forall. intros b Hb. destruct (is_delim b) eqn:Eb; [|reflexivity]. rewrite <- E. symmetry. apply existsb_exists. eauto. }
      rewrite split_plain by exact N. apply IH. apply utf8_text_app; [exact Hcur|]. rewrite <- (app_nil_r bs).
      apply (Utf8_cons c); [exact Hc|constructor].
Qed.
Lemma trim_text b : Forall utf8_text b -> Forall utf8_text (splitter_trim b).
Proof.
  induction 1 as [|t b Ht Hb IH]; cbn [splitter_trim]; [constructor|]. destruct (bytes_eqb t [space]); [exact IH|].
  destruct (bytes_eqb t [pound]); [constructor|]. constructor; assumption.
Qed.
Lemma until_quote_text b : Forall utf8_text b -> forall s v c, utf8_text s -> until_quote b s = Ok (v, c) -> utf8_text v /\ Forall utf8_text c.
Proof.
  induction 1 as [|t b Ht Hb IH]; intros s v c Hs E; cbn [until_quote] in E; [discriminate|].
  destruct (bytes_eqb t [quote]).
  - injection E as <- <-. split; [apply utf8_text_app; assumption|exact Hb].
  - eapply IH; [|exact E]. apply utf8_text_app; assumption.
Qed.
Lemma split_quote_text b v c : Forall utf8_text b -> split_quote b = Ok (v, c) -> utf8_text v /\ Forall utf8_text c.
Proof.
  intros Hb E. destruct b as [|t b]; cbn [split_quote] in E; [discriminate|]. destruct (bytes_eqb t [quote]); [|discriminate].
  inversion Hb; subst. eapply until_quote_text; [eassumption| |exact E]. apply utf8_text_ascii. constructor; [reflexivity|constructor].
Qed.
Lemma take_plain_text b : Forall utf8_text b -> forall s v c, utf8_text s -> take_plain b s = (v, c) -> utf8_text v /\ Forall utf8_text c.
Proof.
  induction 1 as [|t b Ht Hb IH]; intros s v c Hs E; cbn [take_plain] in E; [injection E as <- <-; auto|].
  destruct (_ || _).
  - injection E as <- <-. split; [exact Hs|]. constructor; assumption.
  - eapply IH; [|exact E]. apply utf8_text_app; assumption.
Qed.
Lemma next_text x b v c : Forall utf8_text b -> splitter_next x b = Ok (Some v, c) -> utf8_text v /\ Forall utf8_text c.
Proof.
  intros Hb E. unfold splitter_next in E. cbv zeta in E. apply trim_text in Hb. destruct (splitter_trim b) as [|p q]; [discriminate|].
  destruct (bytes_eqb _ _).
  - destruct x; [|discriminate]. apply bind_ok in E. destruct E as ([z e] & Ez & E). injection E as <- <-. eapply split_quote_text; eassumption.
  - destruct (take_plain (p :: q) []) as [s d] eqn:P. destruct (take_plain_text _ Hb [] s d (Utf8_nil) P) as [Hs Hd].
    destruct d as [|u d]; [injection E as <- <-; auto|]. destruct (bytes_eqb u [quote]); [|injection E as <- <-; auto].
    apply bind_ok in E. destruct E as ([z e] & Ez & E). destruct (split_quote_text _ _ _ Hd Ez) as [Hz He].
    assert (G : utf8_text (s ++ z)) by (apply utf8_text_app; assumption).
    destruct e as [|f e]; [injection E as <- <-; auto|]. destruct (_ || _); [injection E as <- <-; auto|discriminate].
Qed.

(** ** Entries that were cut off *)
Lemma next_unquoted b v c : splitter_next false b = Ok (Some v, c) -> bytes_eqb (last (splitter_trim b) []) [quote] = false.
Proof.
  intros E. unfold splitter_next in E. cbv zeta in E. destruct (splitter_trim b) as [|p q]; [discriminate|].
  destruct (bytes_eqb _ _); [discriminate|reflexivity].
Qed.
Lemma options_cut tz n' : forall n o b' b kt' o' c' kt o2 c, cut_pieces b' b -> Forall utf8_text b' ->
  read_options n' tz o b' = Ok (kt', o', c') -> read_options n tz o b = Ok (kt, o2, c) -> c' <> [] ->
  kt' = kt /\ o' = o2 /\ cut_pieces c' c /\ utf8_text kt' /\ Forall utf8_text c'.
Proof.
  induction n' as [|n' IH]; intros n o b' b kt' o' c' kt o2 c H Hu E' E Hc; [discriminate|]. destruct n as [|n]; [discriminate|].
  cbn [read_options] in E', E. apply bind_ok in E', E. destruct E' as ([t' d'] & N' & E'), E as ([t d] & N & E).
  destruct t' as [v'|]; [|discriminate]. destruct t as [v|]; [|discriminate]. cbn [ok_or bind] in E', E.
  destruct (next_cut _ _ _ _ _ _ _ _ H (next_unquoted _ _ _ N') (next_unquoted _ _ _ N) N' N) as (v2 & Ev & Hv). injection Ev as <-.
  destruct (next_text _ _ _ _ Hu N') as [Hv' Hd']. apply bind_ok in E', E. destruct E' as (q' & R' & E'), E as (q & R & E).
  destruct Hv as [[-> _]|[-> Hd]].
  - exfalso. destruct q' as [o1|]; [|congruence]. destruct n' as [|n']; discriminate.
  - rewrite R in R'. injection R' as <-. destruct q as [o1|].
    + eapply IH; eassumption.
    + injection E' as <- <- <-. injection E as <- <- <-. auto.
Qed.
Lemma trim_last b : splitter_trim b <> [] -> last (splitter_trim b) [] = last b [].
Proof.
  induction b as [|t b IH]; [reflexivity|]. cbn [splitter_trim]. destruct (bytes_eqb t [space]).
  - intros H. rewrite (IH H). destruct b; [cbn in H; congruence|reflexivity].
  - destruct (bytes_eqb t [pound]); [congruence|reflexivity].
Qed.
Lemma unquoted_last s : ~ ends_in x22 s -> bytes_eqb (last (splitter_trim (splitter_new s)) []) [quote] = false.
Proof.
  intros H. destruct (splitter_trim (splitter_new s)) as [|p q] eqn:E; [reflexivity|]. rewrite <- E, trim_last by congruence.
  rewrite last_quote. destruct (ends_with_byte x22 s) eqn:Es; [|reflexivity]. exfalso. apply H. unfold ends_with_byte in Es.
  destruct (rev s) as [|b r] eqn:Er; [discriminate|]. apply byte_eqb_eq in Es. subst b. exists (rev r).
  apply (f_equal (@rev byte)) in Er. rewrite rev_involutive in Er. exact Er.
Qed.

(** ** Public keys *)
Lemma hd_error_cut ws' ws : cut_words ws' ws -> comment_cut (hd_error ws') (hd_error ws).
Proof. intros H. destruct H; cbn [hd_error comment_cut]; auto using beginning_refl. Qed.
Lemma pk_from_string_cut p t k' k : utf8_text p -> beginning p t -> pk_from_string p = Ok k' -> pk_from_string t = Ok k -> key_cut k' k.
Proof.
  intros Hu Hb E' E. apply cut_whitespace in Hb; [|exact Hu].
  assert (G : forall s q, pk_from_string s = Ok q -> exists w1 w2 ws, split_whitespace s = w1 :: w2 :: ws).
  { intros s q H. unfold pk_from_string in H. cbv zeta in H. destruct (split_whitespace s) as [|w1 [|w2 ws]]; [discriminate|discriminate|eauto]. }
  destruct (G _ _ E') as (w1' & w2' & ws' & S'), (G _ _ E) as (w1 & w2 & ws & S). rewrite S', S in Hb.
  inversion Hb as [| |x a b Hb2]; subst. apply (pk_from_string_words _ _ _ _ k' S') in E'. apply (pk_from_string_words _ _ _ _ k S) in E.
  destruct E' as (K' & N' & C' & post' & D'), E as (K & N & C & post & D).
  assert (B : beginning w2' w2 /\ comment_cut (hd_error ws') (hd_error ws)).
  { inversion Hb2; subst; cbn [hd_error comment_cut]; auto using beginning_refl, hd_error_cut. }
  destruct B as [B Bc]. pose proof (b64_decode_cut _ _ _ _ B D' D) as (z & Z).
  assert (Q : no_comment k' = no_comment k).
  { assert (A : pk_from_bytes (enc_key k ++ post) = Ok (no_comment k')) by (apply pk_from_bytes_iff; split; [exact K'|];
      exists (post' ++ z); rewrite Z, <- app_assoc; reflexivity).
    assert (B2 : pk_from_bytes (enc_key k ++ post) = Ok (no_comment k)) by (apply pk_from_bytes_iff; split; [exact K|]; exists post; reflexivity).
    rewrite A in B2. exact (ok_inj _ _ B2). }
  unfold no_comment in Q. injection Q as Q1 Q2. unfold key_cut. rewrite Q1, Q2, C', C. auto.
Qed.

Lemma as_from_string_cut tz p t a' a : utf8_text p -> beginning p t ->
  as_from_string tz p = Ok a' -> as_from_string tz t = Ok a -> signer_cut a' a.
Proof.
  intros Hu Hb E' E. pose proof (unquoted_last p (proj1 (proj1 (accepted_iff tz p a') E'))) as L'.
  pose proof (unquoted_last t (proj1 (proj1 (accepted_iff tz t a) E))) as L. apply new_cut in Hb.
  assert (Hp : Forall utf8_text (splitter_new p)) by (apply split_delims_text; [exact Hu|constructor]).
  unfold as_from_string in E', E. cbv zeta in E', E. apply bind_ok in E', E. destruct E' as ([t1' b1'] & N1' & E'), E as ([t1 b1] & N1 & E).
  destruct t1' as [v'|]; [|discriminate]. destruct (next_cut _ _ _ _ _ _ _ _ Hb L' L N1' N1) as (v & -> & Hv).
  destruct (next_text _ _ _ _ Hp N1') as [_ Hb1]. cbn [ok_or bind] in E', E.
  destruct (existsb _ _) eqn:X' in E'; [discriminate|]. destruct (existsb _ _) eqn:X in E; [discriminate|].
  apply bind_ok in E', E. destruct E' as ([[kt' o'] b2'] & N2' & E'), E as ([[kt o] b2] & N2 & E).
  apply bind_ok in E', E. destruct E' as ([t3' b3'] & N3' & E'), E as ([t3 b3] & N3 & E).
  destruct t3' as [kd'|]; [|discriminate]. destruct t3 as [kd|]; [|discriminate]. cbn [ok_or bind] in E', E.
  destruct Hv as [[-> _]|[-> Hv]]; [discriminate|].
  assert (Hb2 : b2' <> []) by (intros ->; discriminate).
  destruct (options_cut _ _ _ _ _ _ _ _ _ _ _ _ Hv Hb1 N2' N2 Hb2) as (-> & -> & Hc & Hkt & Hb2').
  destruct (next_cut _ _ _ _ _ _ _ _ Hc (next_unquoted _ _ _ N3') (next_unquoted _ _ _ N3) N3' N3) as (kd2 & Ek & Hk). injection Ek as <-.
  destruct (next_text _ _ _ _ Hb2' N3') as [Hkd _].
  apply bind_ok in E', E. destruct E' as (key' & K' & E'), E as (key & K & E).
  destruct (pk_from_string (kt ++ [space] ++ kd')) as [k1'|e|] eqn:P'; [|discriminate|discriminate]. cbn [map_err] in K'. apply ok_inj in K'. subst k1'.
  destruct (pk_from_string (kt ++ [space] ++ kd)) as [k1|e|] eqn:P; [|discriminate|discriminate]. cbn [map_err] in K. apply ok_inj in K. subst k1.
  assert (KC : key_cut key' key).
  { eapply pk_from_string_cut; [| |exact P'|exact P].
    - apply utf8_text_app; [exact Hkt|]. apply utf8_text_app; [|exact Hkd]. apply utf8_text_ascii. constructor; [reflexivity|constructor].
    - assert (B : beginning kd' kd) by (destruct Hk as [[_ Hk]|[-> _]]; [exact Hk|apply beginning_refl]).
      destruct B as (z & ->). exists z. rewrite <- !app_assoc. reflexivity. }
  destruct (match o_valid_before o with Some _ => _ | None => _ end); [discriminate|].
  destruct (splitter_trim b3'); [|discriminate]. destruct (splitter_trim b3); [|discriminate].
  apply ok_inj in E', E. subst a' a. unfold signer_cut. cbn. repeat (split; [reflexivity|]). exact KC.
Qed.

(** ** Files that were cut off *)
Lemma lines_next r : forall cur, cur <> [] -> exists x l ls, lines_aux r cur = l :: ls
  /\ (r = x /\ l = cur ++ x \/ exists r2, r = x ++ newline :: r2 /\ l = strip_cr (cur ++ x)).
Proof.
  induction r as [|b r IH]; intros cur Hc; cbn [lines_aux].
  - exists [], cur, []. split; [destruct cur; [congruence|reflexivity]|]. left. rewrite app_nil_r. auto.
  - destruct (byte_eqb b newline) eqn:E.
    + apply byte_eqb_eq in E. subst b. exists [], (strip_cr cur), (lines_aux r []). split; [reflexivity|]. right. exists r. rewrite app_nil_r. auto.
    + destruct (IH (cur ++ [b])) as (x & l & ls & -> & H); [destruct cur; discriminate|]. exists (b :: x), l, ls. split; [reflexivity|].
      rewrite <- app_assoc in H. destruct H as [[-> ->]|(r2 & -> & ->)]; [left; auto|right; exists r2; auto].
Qed.
(** The last, unfinished line is what follows the last newline. *)
Lemma lines_cut_rest p : forall r cur, exists ls cur' x,
  lines_aux p cur = ls ++ last_line cur' /\ lines_aux (p ++ r) cur = ls ++ lines_aux r cur'
  /\ cur ++ p = x ++ cur' /\ (x = [] \/ exists x', x = x' ++ [newline]).
Proof.
  induction p as [|b p IH]; intros r cur; cbn [app lines_aux].
  - exists [], cur, []. rewrite app_nil_r. auto.
  - destruct (byte_eqb b newline) eqn:E.
    + apply byte_eqb_eq in E. subst b. destruct (IH r []) as (ls & cur' & x & -> & -> & Ex & Hx). exists (strip_cr cur :: ls), cur', (cur ++ newline :: x).
      split; [reflexivity|]. split; [reflexivity|]. cbn [app] in Ex. rewrite Ex, <- app_assoc. split; [reflexivity|]. right.
      destruct Hx as [-> |(x' & ->)]; [exists cur; reflexivity|]. exists (cur ++ newline :: x'). rewrite <- app_assoc. reflexivity.
    + destruct (IH r (cur ++ [b])) as (ls & cur' & x & -> & -> & Ex & Hx). exists ls, cur', x. rewrite <- app_assoc in Ex. auto.
Qed.
Lemma read_lines_app tz ls : forall n m es, read_lines tz n (ls ++ m) = Ok es ->
  exists e1 e2, read_lines tz n ls = Ok e1 /\ read_lines tz (n + length ls) m = Ok e2 /\ es = e1 ++ e2.
Proof.
  induction ls as [|l ls IH]; intros n m es H.
  - exists [], es. cbn [app length] in *. rewrite Nat.add_0_r. auto.
  - cbn [app read_lines length] in *. cbv zeta in *. destruct (_ || _).
    + destruct (IH _ _ _ H) as (e1 & e2 & H1 & H2 & H3). exists e1, e2. rewrite Nat.add_succ_r. auto.
    + destruct (as_from_string tz (trim l)) as [v|e|]; [|destruct e; discriminate|discriminate].
      apply bind_ok in H. destruct H as (rest & H & E). apply ok_inj in E. subst es.
      destruct (IH _ _ _ H) as (e1 & e2 & H1 & H2 & ->). exists (v :: e1), e2. rewrite H1, Nat.add_succ_r. auto.
Qed.
Lemma signers_from_string_cut tz p t l' l : utf8_text p -> utf8_text t -> beginning p t ->
  signers_from_string tz p = Ok l' -> signers_from_string tz t = Ok l -> signers_cut l' l.
Proof.
  intros Hp Ht (r & ->) E' E. unfold signers_from_string, lines in *.
  destruct (lines_cut_rest p r []) as (ls & cur & x & L' & L & Ex & Hx). cbn [app] in Ex. rewrite L' in E'. rewrite L in E.
  apply read_lines_app in E', E. destruct E' as (e1' & e2' & H1' & H2' & ->), E as (e1 & e2 & H1 & H2 & ->).
  rewrite H1 in H1'. apply ok_inj in H1'. subst e1'. cbn [Nat.add] in *.
  assert (Z : e2' = [] -> signers_cut (e1 ++ e2') (e1 ++ e2)).
  { intros ->. rewrite app_nil_r. exists e1, e2. auto. }
  destruct cur as [|c cur]; cbn [last_line] in H2'; [apply Z; cbn [read_lines] in H2'; congruence|].
  assert (Hcur : utf8_text (c :: cur)).
  { destruct Hx as [-> |(x' & ->)]; [cbn [app] in Ex; subst p; exact Hp|]. rewrite <- app_assoc in Ex. cbn [app] in Ex.
    apply (utf8_around p Hp x' newline (c :: cur) Ex). reflexivity. }
  destruct (lines_next r (c :: cur)) as (y & q & lr & El & Hq); [discriminate|]. rewrite El in H2.
  assert (Hr : utf8_text r) by (eapply utf8_text_rest; [exact Hp|exact Ht]).
  assert (Hy : utf8_text y) by (destruct Hq as [[<- _]|(r2 & Er & _)]; [exact Hr|apply (utf8_around r Hr y newline r2 Er); reflexivity]).
  assert (Hqt : trim q = trim ((c :: cur) ++ y)) by (destruct Hq as [[_ ->]|(r2 & _ & ->)]; [reflexivity|apply trim_strip_cr]).
  cbn [read_lines] in H2', H2. cbv zeta in H2', H2. rewrite Hqt in H2.
  destruct (negb (nonempty (trim (c :: cur))) || starts_with_byte pound (trim (c :: cur))) eqn:Ne; [apply Z; congruence|].
  apply orb_false_iff in Ne. destruct Ne as [Ne1 Ne2].
  assert (Hne : trim (c :: cur) <> []) by (destruct (trim (c :: cur)); [discriminate|discriminate]).
  assert (B : beginning (trim (c :: cur)) (trim ((c :: cur) ++ y))).
  { eapply stripped_cut; [exact Hcur|exact Hy|apply trim_iff'; reflexivity|exact Hne|apply trim_iff'; reflexivity]. }
  assert (Ne3 : negb (nonempty (trim ((c :: cur) ++ y))) || starts_with_byte pound (trim ((c :: cur) ++ y)) = false).
  { destruct B as (z & ->). destruct (trim (c :: cur)); [congruence|]. exact Ne2. }
  rewrite Ne3 in H2.
  destruct (as_from_string tz (trim (c :: cur))) as [a'|e|] eqn:A'; [|destruct e; discriminate|discriminate].
  destruct (as_from_string tz (trim ((c :: cur) ++ y))) as [a|e|] eqn:A; [|destruct e; discriminate|discriminate].
  cbn [bind] in H2'. apply ok_inj in H2'. subst e2'. apply bind_ok in H2. destruct H2 as (rest & _ & H2). apply ok_inj in H2. subst e2.
  exists e1, (a :: rest). split; [reflexivity|]. right. exists a', a, rest. split; [reflexivity|]. split; [reflexivity|].
  eapply as_from_string_cut; [|exact B|exact A'|exact A].
  destruct (proj1 (trim_iff' (c :: cur) _) eq_refl) as (pre & post & Es & Hpre & Hpost & _). rewrite Es in Hcur.
  assert (G : utf8_text (trim (c :: cur) ++ post)) by (eapply utf8_text_rest; [apply run_text, Hpre|exact Hcur]).
  revert G. generalize (trim (c :: cur)) as w. clear - Hpost. intros w G. remember (w ++ post) as s eqn:E. revert w E.
  induction G as [|k bs m Hk Hm IH]; intros w E; [destruct w; [constructor|discriminate]|]. destruct w as [|b w]; [constructor|].
  destruct (char_inside k bs m (b :: w) post Hk E Hpost) as (w' & -> & E2); [discriminate|]. apply (Utf8_cons k); [exact Hk|]. apply IH, E2.
Qed.

(** The string functions meet their specifications. *)
From Verif Require Import Base BaseFacts Utf8 Utf8Facts Str SpecWire SpecText.

(** ** White space *)
Lemma ws_len_char c bs l : utf8_char c bs ->
  (ws_scalar c /\ ws_len (bs ++ l) = length bs)
  \/ (~ ws_scalar c /\ forall b x y, bs = x ++ b :: y -> ws_len (b :: y ++ l) = 0).
Proof.
  intros H. destruct H as [a H|c a b H1 H2 H3 H4|x a b c H1 H2 H3 H4 H5 H6|x a b c d H1 H2 H3 H4 H5 H6 H7];
    unfold cbyte in *; change Byte.to_N with b2n in *.
  - destruct (((9 <=? b2n a)%N && (b2n a <=? 13)%N) || (b2n a =? 32)%N) eqn:E.
    + left. split; [unfold ws_scalar; lia|]. unfold ws_len. cbn [app]. rewrite E. reflexivity.
    + right. split; [unfold ws_scalar; lia|]. intros b x y Hb.
      destruct x as [|? [|? ?]]; inversion Hb; subst.
      unfold ws_len. cbn [app]. rewrite E.
      destruct l as [|m l]; [reflexivity|]. replace (b2n b =? 194)%N with false by lia. cbn [andb].
      destruct l as [|k l]; [reflexivity|].
      replace (b2n b =? 225)%N with false by lia. replace (b2n b =? 226)%N with false by lia.
      replace (b2n b =? 227)%N with false by lia. reflexivity.
  - assert (Hc : forall l', ws_len (b :: l') = 0).
    { intros l'. unfold ws_len.
      replace (((9 <=? b2n b)%N && (b2n b <=? 13)%N) || (b2n b =? 32)%N) with false by lia.
      destruct l' as [|m l']; [reflexivity|]. replace (b2n b =? 194)%N with false by lia. cbn [andb].
      destruct l' as [|k l']; [reflexivity|].
      replace (b2n b =? 225)%N with false by lia. replace (b2n b =? 226)%N with false by lia.
      replace (b2n b =? 227)%N with false by lia. reflexivity. }
    destruct ((b2n a =? 194)%N && ((b2n b =? 133)%N || (b2n b =? 160)%N)) eqn:E.
    + left. split; [unfold ws_scalar; lia|]. unfold ws_len. cbn [app].
      replace (((9 <=? b2n a)%N && (b2n a <=? 13)%N) || (b2n a =? 32)%N) with false by lia.
      rewrite E. reflexivity.
    + right. split; [unfold ws_scalar; lia|]. intros b' x y Hb.
      destruct x as [|? [|? [|? ?]]]; inversion Hb; subst; [|apply Hc].
      unfold ws_len. cbn [app].
      replace (((9 <=? b2n b')%N && (b2n b' <=? 13)%N) || (b2n b' =? 32)%N) with false by lia.
      rewrite E. destruct l as [|k l]; [reflexivity|].
      replace (b2n b' =? 225)%N with false by lia. replace (b2n b' =? 226)%N with false by lia.
      replace (b2n b' =? 227)%N with false by lia. reflexivity.
  - assert (Hc : forall q l', (128 <= b2n q < 192)%N -> ws_len (q :: l') = 0).
    { intros q l' Hq. unfold ws_len.
      replace (((9 <=? b2n q)%N && (b2n q <=? 13)%N) || (b2n q =? 32)%N) with false by lia.
      destruct l' as [|m l']; [reflexivity|]. replace (b2n q =? 194)%N with false by lia. cbn [andb].
      destruct l' as [|k l']; [reflexivity|].
      replace (b2n q =? 225)%N with false by lia. replace (b2n q =? 226)%N with false by lia.
      replace (b2n q =? 227)%N with false by lia. reflexivity. }
    assert (Hl : ws_len (a :: b :: c :: l) =
      if ((b2n a =? 225)%N && (b2n b =? 154)%N && (b2n c =? 128)%N)
         || ((b2n a =? 226)%N && (b2n b =? 128)%N
             && (((128 <=? b2n c)%N && (b2n c <=? 138)%N) || (b2n c =? 168)%N || (b2n c =? 169)%N
                 || (b2n c =? 175)%N))
         || ((b2n a =? 226)%N && (b2n b =? 129)%N && (b2n c =? 159)%N)
         || ((b2n a =? 227)%N && (b2n b =? 128)%N && (b2n c =? 128)%N) then 3 else 0).
    { unfold ws_len.
      replace (((9 <=? b2n a)%N && (b2n a <=? 13)%N) || (b2n a =? 32)%N) with false by lia.
      replace (b2n a =? 194)%N with false by lia. cbn [andb].
      repeat match goal with |- context [(?p =? ?q)%N] => destruct (p =? q)%N eqn:? end;
      repeat match goal with |- context [(?p <=? ?q)%N] => destruct (p <=? q)%N eqn:? end;
      reflexivity. }
    cbn [app]. rewrite Hl.
    match goal with |- context [if ?cc then 3 else 0] => destruct cc eqn:E end.
    + left. split; [unfold ws_scalar; lia|reflexivity].
    + right. split; [unfold ws_scalar; lia|]. intros b' x' y Hb.
      destruct x' as [|? [|? [|? [|? ?]]]]; inversion Hb; subst; try (apply Hc; lia).
      cbn [app]. exact Hl.
  - right. assert (Hc : forall q l', (128 <= b2n q < 192)%N -> ws_len (q :: l') = 0).
    { intros q l' Hq. unfold ws_len.
      replace (((9 <=? b2n q)%N && (b2n q <=? 13)%N) || (b2n q =? 32)%N) with false by lia.
      destruct l' as [|m l']; [reflexivity|]. replace (b2n q =? 194)%N with false by lia. cbn [andb].
      destruct l' as [|k l']; [reflexivity|].
      replace (b2n q =? 225)%N with false by lia. replace (b2n q =? 226)%N with false by lia.
      replace (b2n q =? 227)%N with false by lia. reflexivity. }
    split; [unfold ws_scalar, scalar in *; lia|]. intros b' x' y Hb.
    destruct x' as [|? [|? [|? [|? [|? ?]]]]]; inversion Hb; subst; try (apply Hc; lia).
    unfold ws_len. cbn [app].
    replace (((9 <=? b2n b')%N && (b2n b' <=? 13)%N) || (b2n b' =? 32)%N) with false by lia.
    replace (b2n b' =? 194)%N with false by lia. cbn [andb].
    replace (b2n b' =? 225)%N with false by lia. replace (b2n b' =? 226)%N with false by lia.
    replace (b2n b' =? 227)%N with false by lia. reflexivity.
Qed.

Lemma utf8_char_nonempty c bs : utf8_char c bs -> bs <> [].
Proof. intros H. destruct H; discriminate. Qed.

Definition flush (cur : bytes) (rest : list bytes) : list bytes :=
  match cur with [] => rest | _ => cur :: rest end.

Lemma split_ws_skip bs l cur : split_ws_aux (bs ++ l) (length bs) cur = split_ws_aux l 0 cur.
Proof.
  induction bs as [|b bs IH]; cbn [app length]; [reflexivity|]. cbn [split_ws_aux]. exact IH.
Qed.

Lemma split_ws_char_ws c bs l cur : utf8_char c bs -> ws_scalar c ->
  split_ws_aux (bs ++ l) 0 cur = flush cur (split_ws_aux l 0 []).
Proof.
  intros H Hw. destruct (ws_len_char c bs l H) as [[_ E]|[Hn _]]; [|contradiction].
  destruct bs as [|b bs]; [exfalso; eapply utf8_char_nonempty; eauto|].
  cbn [app] in *. cbn [split_ws_aux]. cbn [length] in E. rewrite E.
  destruct cur; cbn [flush]; rewrite split_ws_skip; reflexivity.
Qed.

Lemma split_ws_char_no c bs l cur : utf8_char c bs -> ~ ws_scalar c ->
  split_ws_aux (bs ++ l) 0 cur = split_ws_aux l 0 (cur ++ bs).
Proof.
  intros H Hw. destruct (ws_len_char c bs l H) as [[Hn _]|[_ E]]; [contradiction|].
  assert (G : forall y x cur, bs = x ++ y ->
            split_ws_aux (y ++ l) 0 cur = split_ws_aux l 0 (cur ++ y)).
  { induction y as [|b y IH]; intros x cur' Hx; [rewrite app_nil_r; reflexivity|].
    cbn [app]. cbn [split_ws_aux]. change (b :: y ++ l) with (b :: (y ++ l)).
    rewrite (E b x y Hx). rewrite (IH (x ++ [b])) by (rewrite <- app_assoc; exact Hx).
    rewrite <- app_assoc. reflexivity. }
  apply (G bs []). reflexivity.
Qed.

Lemma split_ws_run s : ws_run s -> forall l, split_ws_aux (s ++ l) 0 [] = split_ws_aux l 0 [].
Proof.
  induction 1 as [|c bs s Hc Hw _ IH]; intros l; [reflexivity|].
  rewrite <- app_assoc, (split_ws_char_ws c) by assumption. apply IH.
Qed.
Lemma split_ws_word w : no_ws w -> forall l cur,
  split_ws_aux (w ++ l) 0 cur = split_ws_aux l 0 (cur ++ w).
Proof.
  induction 1 as [|c bs s Hc Hw _ IH]; intros l cur; [rewrite app_nil_r; reflexivity|].
  rewrite <- app_assoc, (split_ws_char_no c), IH by assumption. rewrite <- app_assoc. reflexivity.
Qed.

Lemma words_of_split s ws : words_of s ws -> split_whitespace s = ws.
Proof.
  unfold split_whitespace. induction 1 as [s H|pre w Hp [Hw Hn]|pre w c bs rest ws Hp [Hw Hn] Hc Hs _ IH].
  - rewrite <- (app_nil_r s), split_ws_run by exact H. reflexivity.
  - rewrite split_ws_run by exact Hp. rewrite <- (app_nil_r w), split_ws_word by exact Hw.
    cbn [app split_ws_aux]. rewrite ?app_nil_r. destruct w; [congruence|reflexivity].
  - rewrite split_ws_run by exact Hp. rewrite split_ws_word by exact Hw.
    rewrite (split_ws_char_ws c) by assumption. rewrite IH. destruct w; [congruence|reflexivity].
Qed.

Lemma no_ws_app a b : no_ws a -> no_ws b -> no_ws (a ++ b).
Proof.
  induction 1 as [|c bs s Hc Hw _ IH]; intros Hb; [exact Hb|].
  rewrite <- app_assoc. apply (NoW_cons c); auto.
Qed.
Lemma ws_run_app a b : ws_run a -> ws_run b -> ws_run (a ++ b).
Proof.
  induction 1 as [|c bs s Hc Hw _ IH]; intros Hb; [exact Hb|].
  rewrite <- app_assoc. apply (WsR_cons c); auto.
Qed.

Lemma ws_scalar_dec c : {ws_scalar c} + {~ ws_scalar c}.
Proof.
  destruct (((9 <=? c) && (c <=? 13) || (c =? 32) || (c =? 133) || (c =? 160) || (c =? 5760)
     || (8192 <=? c) && (c <=? 8202) || (c =? 8232) || (c =? 8233) || (c =? 8239) || (c =? 8287)
     || (c =? 12288))%N) eqn:E; [left|right]; unfold ws_scalar; lia.
Qed.

Lemma split_words_aux s : utf8_text s -> forall cur pre, no_ws cur -> ws_run pre ->
  words_of (pre ++ cur ++ s) (split_ws_aux s 0 cur).
Proof.
  induction 1 as [|c bs s Hc _ IH]; intros cur pre Hcur Hpre.
  - rewrite app_nil_r. cbn [split_ws_aux]. destruct cur as [|b cur].
    + rewrite app_nil_r. apply W_end, Hpre.
    + apply W_last; [exact Hpre|]. split; [exact Hcur|discriminate].
  - destruct (ws_scalar_dec c) as [Hw|Hw].
    + rewrite (split_ws_char_ws c) by assumption. destruct cur as [|b cur]; cbn [flush app].
      * change (pre ++ bs ++ s) with (pre ++ bs ++ [] ++ s). rewrite app_assoc.
        apply IH; [constructor|]. apply ws_run_app; [exact Hpre|].
        rewrite <- (app_nil_r bs). apply (WsR_cons c); auto. constructor.
      * change (b :: cur ++ bs ++ s) with ((b :: cur) ++ bs ++ s).
        apply (W_cons pre (b :: cur) c); auto.
        -- split; [exact Hcur|discriminate].
        -- apply (IH [] []); constructor.
    + rewrite (split_ws_char_no c) by assumption.
      replace (pre ++ cur ++ bs ++ s) with (pre ++ (cur ++ bs) ++ s) by (rewrite <- app_assoc; reflexivity).
      apply IH; [|exact Hpre]. apply no_ws_app; [exact Hcur|].
      rewrite <- (app_nil_r bs). apply (NoW_cons c); auto. constructor.
Qed.

(** On text, [split_whitespace] computes exactly the words. *)
Lemma split_whitespace_words s : utf8_text s -> words_of s (split_whitespace s).
Proof. intros H. apply (split_words_aux s H [] []); constructor. Qed.
Lemma split_whitespace_iff s ws : utf8_text s -> (split_whitespace s = ws <-> words_of s ws).
Proof.
  intros H. split; [intros <-; apply split_whitespace_words, H|apply words_of_split].
Qed.

Lemma words_of_utf8 s ws : words_of s ws -> utf8_text s.
Proof.
  assert (A : forall x, ws_run x -> utf8_text x).
  { induction 1; [constructor|]. eapply Utf8_cons; eauto. }
  assert (B : forall x, no_ws x -> utf8_text x).
  { induction 1; [constructor|]. eapply Utf8_cons; eauto. }
  induction 1 as [s H|pre w Hp [Hw _]|pre w c bs rest ws Hp [Hw _] Hc Hs _ IH]; auto.
  - apply utf8_text_app; auto.
  - apply utf8_text_app; [auto|]. apply utf8_text_app; [auto|]. eapply Utf8_cons; eauto.
Qed.

(** Visible ASCII has no white space. *)
Definition graphic (b : byte) : bool := (33 <=? b2n b)%N && (b2n b <=? 126)%N.
Lemma graphic_no_ws l : forallb graphic l = true -> no_ws l.
Proof.
  induction l as [|b l IH]; [constructor|]. cbn [forallb]. rewrite andb_true_iff. intros [Hb Hl].
  unfold graphic in Hb. apply (NoW_cons (b2n b) [b] l); [|unfold ws_scalar; lia|apply IH, Hl].
  apply Utf8_1. change Byte.to_N with b2n. lia.
Qed.
Lemma space_char : utf8_char 32 [x20].
Proof. apply (Utf8_1 x20). reflexivity. Qed.
Lemma space_ws : ws_scalar 32. Proof. unfold ws_scalar. lia. Qed.

Lemma split_words_space w rest : word w ->
  split_whitespace (w ++ [x20] ++ rest) = w :: split_whitespace rest.
Proof.
  intros [Hw Hn]. unfold split_whitespace. rewrite split_ws_word by exact Hw.
  rewrite (split_ws_char_ws 32) by (exact space_char || exact space_ws).
  destruct w; [congruence|reflexivity].
Qed.
Lemma split_word w : word w -> split_whitespace w = [w].
Proof. intros H. apply words_of_split. apply (W_last [] w); [constructor|exact H]. Qed.

(** ** Lines *)
Lemma lines_aux_app l : forall cur rest, no_nl l -> lines_aux (l ++ x0a :: rest) cur
  = strip_cr (cur ++ l) :: lines_aux rest [].
Proof.
  induction l as [|b l IH]; intros cur rest H; cbn [app lines_aux].
  - change (byte_eqb x0a newline) with true. cbn iota. rewrite app_nil_r. reflexivity.
  - destruct (byte_eqb b newline) eqn:E.
    + exfalso. apply byte_eqb_eq in E. apply H. left. exact E.
    + rewrite IH by (intros Hi; apply H; right; exact Hi). rewrite <- app_assoc. reflexivity.
Qed.
Lemma lines_aux_last l : forall cur, no_nl l -> lines_aux l cur = flush (cur ++ l) [].
Proof.
  induction l as [|b l IH]; intros cur H; cbn [lines_aux].
  - rewrite app_nil_r. reflexivity.
  - destruct (byte_eqb b newline) eqn:E.
    + exfalso. apply byte_eqb_eq in E. apply H. left. exact E.
    + rewrite IH by (intros Hi; apply H; right; exact Hi). rewrite <- app_assoc. reflexivity.
Qed.
Lemma strip_cr_snoc l b : strip_cr (l ++ [b]) = if byte_eqb b carriage_return then l else l ++ [b].
Proof.
  induction l as [|x l IH]; cbn [app].
  - cbn [strip_cr]. destruct (byte_eqb b carriage_return); reflexivity.
  - assert (E : strip_cr (x :: l ++ [b]) = x :: strip_cr (l ++ [b])) by (destruct l; reflexivity).
    rewrite E, IH. destruct (byte_eqb b carriage_return); reflexivity.
Qed.
Lemma strip_cr_id l : (forall l', l <> l' ++ [x0d]) -> strip_cr l = l.
Proof.
  intros H. destruct (rev_case l) as [->|(l' & b & ->)]; [reflexivity|].
  rewrite strip_cr_snoc. destruct (byte_eqb b carriage_return) eqn:E; [|reflexivity].
  apply byte_eqb_eq in E. subst. exfalso. apply (H l'). reflexivity.
Qed.

Lemma lines_of_lines s ls : lines_of s ls -> lines s = ls.
Proof.
  unfold lines. induction 1 as [|l Hn Hl|l rest ls Hn _ IH|l rest ls Hn Hc _ IH].
  - reflexivity.
  - rewrite lines_aux_last by exact Hn. destruct l; [congruence|reflexivity].
  - change (x0d :: x0a :: rest) with ([x0d] ++ x0a :: rest). rewrite app_assoc.
    rewrite lines_aux_app.
    + cbn [app]. rewrite strip_cr_snoc. change (byte_eqb x0d carriage_return) with true.
      cbn iota. rewrite IH. reflexivity.
    + unfold no_nl in *. rewrite in_app_iff. intros [Hi|[Hi|[]]]; [auto|discriminate].
  - rewrite lines_aux_app by exact Hn. cbn [app]. rewrite strip_cr_id by exact Hc.
    rewrite IH. reflexivity.
Qed.

Lemma split_nl (l : bytes) : no_nl l \/ exists a post, l = a ++ x0a :: post /\ no_nl a.
Proof.
  unfold no_nl. induction l as [|b l IH]; [left; intros []|].
  destruct (byte_eqb b x0a) eqn:E.
  - apply byte_eqb_eq in E. subst. right. exists [], l. split; [reflexivity|intros []].
  - apply byte_eqb_neq in E. destruct IH as [IH|(a & post & -> & Ha)].
    + left. intros [H|H]; [congruence|auto].
    + right. exists (b :: a), post. split; [reflexivity|]. intros [H|H]; [congruence|auto].
Qed.

Lemma lines_total s : exists ls, lines_of s ls.
Proof.
  assert (H : forall n s, length s <= n -> exists ls, lines_of s ls).
  { induction n as [|n IH]; intros s0 Hl.
    - destruct s0; [exists []; constructor|simpl in Hl; lia].
    - destruct (split_nl s0) as [Hn|(a & post & -> & Ha)].
      + destruct s0 as [|b s0]; [exists []; constructor|].
        exists [b :: s0]. apply L_last; [exact Hn|discriminate].
      + rewrite app_length in Hl. cbn [length] in Hl. destruct (IH post) as [ls Hls]; [lia|].
        destruct (rev_case a) as [->|(a' & b & ->)].
        * exists ([] :: ls). apply (L_lf []); auto. intros l' E. destruct l'; discriminate.
        * destruct (byte_eqb b x0d) eqn:E.
          -- apply byte_eqb_eq in E. subst b. exists (a' :: ls). rewrite <- app_assoc.
             apply L_crlf; [|exact Hls]. intros Hi. apply Ha, in_app_iff. auto.
          -- apply byte_eqb_neq in E. exists ((a' ++ [b]) :: ls). apply L_lf; auto.
             intros l' El. apply app_inj_tail in El. destruct El. congruence. }
  apply (H (length s)). lia.
Qed.

Lemma lines_iff s ls : lines s = ls <-> lines_of s ls.
Proof.
  split; [|apply lines_of_lines]. intros <-. destruct (lines_total s) as [ls H].
  rewrite (lines_of_lines s ls H). exact H.
Qed.

(** The concrete UTF-8 validity test accepts exactly the encodings of scalar values. *)
From Verif Require Import Base BaseFacts Utf8 SpecWire.

Lemma utf8_valid_text_aux : forall n l, length l <= n -> utf8_valid l = true -> utf8_text l.
Proof.
  induction n as [|n IH]; intros l Hn.
  - destruct l; [constructor|simpl in Hn; lia].
  - destruct l as [|a l]; [constructor|]. cbn [utf8_valid].
    pose proof (b2n_lt a) as La.
    destruct (b2n a <? 128)%N eqn:E1.
    + intros H. apply (Utf8_cons (b2n a) [a] l).
      * apply Utf8_1. unfold b2n in *; lia.
      * apply IH; [simpl in Hn; lia|exact H].
    + destruct l as [|b l]; [discriminate|]. pose proof (b2n_lt b) as Lb.
      unfold cont, in_range. destruct ((194 <=? b2n a)%N && (b2n a <=? 223)%N) eqn:E2.
      * rewrite !andb_true_iff. intros [[H1 H2] H3].
        apply (Utf8_cons ((b2n a - 192) * 64 + (b2n b - 128)) [a; b] l).
        -- apply Utf8_2; unfold cbyte, b2n in *; lia.
        -- apply IH; [simpl in Hn; lia|exact H3].
      * destruct l as [|c l]; [discriminate|]. pose proof (b2n_lt c) as Lc.
        assert (H3 : forall P, (224 <= b2n a < 240)%N -> cbyte b -> cbyte c ->
                  (2048 <= (b2n a - 224) * 4096 + (b2n b - 128) * 64 + (b2n c - 128))%N ->
                  scalar ((b2n a - 224) * 4096 + (b2n b - 128) * 64 + (b2n c - 128)) ->
                  utf8_valid l = P -> P = true -> utf8_text (a :: b :: c :: l)).
        { intros P H1 H2 H4 H5 H6 HP HPt.
          apply (Utf8_cons ((b2n a - 224) * 4096 + (b2n b - 128) * 64 + (b2n c - 128)) [a; b; c] l).
          - apply Utf8_3; unfold b2n in *; auto.
          - apply IH; [simpl in Hn; lia|congruence]. }
        destruct (b2n a =? 224)%N eqn:E3.
        { rewrite !andb_true_iff. intros [[[H1 H2] [H4 H5]] H6].
          apply (H3 _) with (6 := eq_refl); auto; unfold cbyte, scalar, b2n in *; lia. }
        destruct ((225 <=? b2n a)%N && (b2n a <=? 236)%N || (238 <=? b2n a)%N && (b2n a <=? 239)%N) eqn:E4.
        { rewrite !andb_true_iff. intros [[[H1 H2] [H4 H5]] H6].
          apply (H3 _) with (6 := eq_refl); auto; unfold cbyte, scalar, b2n in *; lia. }
        destruct (b2n a =? 237)%N eqn:E5.
        { rewrite !andb_true_iff. intros [[[H1 H2] [H4 H5]] H6].
          apply (H3 _) with (6 := eq_refl); auto; unfold cbyte, scalar, b2n in *; lia. }
        clear H3. destruct l as [|d l]; [discriminate|]. pose proof (b2n_lt d) as Ld.
        assert (H4 : forall P, (240 <= b2n a < 248)%N -> cbyte b -> cbyte c -> cbyte d ->
                  (65536 <= (b2n a - 240) * 262144 + (b2n b - 128) * 4096
                            + (b2n c - 128) * 64 + (b2n d - 128))%N ->
                  scalar ((b2n a - 240) * 262144 + (b2n b - 128) * 4096
                            + (b2n c - 128) * 64 + (b2n d - 128)) ->
                  utf8_valid l = P -> P = true -> utf8_text (a :: b :: c :: d :: l)).
        { intros P H1 H2 H4 H5 H6 H7 HP HPt.
          apply (Utf8_cons ((b2n a - 240) * 262144 + (b2n b - 128) * 4096
                            + (b2n c - 128) * 64 + (b2n d - 128)) [a; b; c; d] l).
          - apply Utf8_4; unfold b2n in *; auto.
          - apply IH; [simpl in Hn; lia|congruence]. }
        destruct (b2n a =? 240)%N eqn:E6.
        { rewrite !andb_true_iff. intros [[[[? ?] [? ?]] [? ?]] ?].
          apply (H4 _) with (7 := eq_refl); auto; unfold cbyte, scalar, b2n in *; lia. }
        destruct ((241 <=? b2n a)%N && (b2n a <=? 243)%N) eqn:E7.
        { rewrite !andb_true_iff. intros [[[[? ?] [? ?]] [? ?]] ?].
          apply (H4 _) with (7 := eq_refl); auto; unfold cbyte, scalar, b2n in *; lia. }
        destruct (b2n a =? 244)%N eqn:E8; [|discriminate].
        { rewrite !andb_true_iff. intros [[[[? ?] [? ?]] [? ?]] ?].
          apply (H4 _) with (7 := eq_refl); auto; unfold cbyte, scalar, b2n in *; lia. }
Qed.

Ltac bdestr := repeat match goal with
  | |- context [if ?c then _ else _] => destruct c eqn:?
  end.

Lemma utf8_char_valid c bs l : utf8_char c bs -> utf8_valid (bs ++ l) = utf8_valid l.
Proof.
  intros H. destruct H as [a H|c a b H1 H2 H3 H4|x a b c H1 H2 H3 H4 H5 H6|x a b c d H1 H2 H3 H4 H5 H6 H7];
    cbn [app utf8_valid]; change Byte.to_N with b2n in *.
  - replace (b2n a <? 128)%N with true by lia. reflexivity.
  - unfold cbyte in *. change Byte.to_N with b2n in *. unfold cont, in_range.
    replace (b2n a <? 128)%N with false by lia.
    replace ((194 <=? b2n a)%N && (b2n a <=? 223)%N) with true by lia.
    replace ((128 <=? b2n b)%N && (b2n b <=? 191)%N) with true by lia. reflexivity.
  - unfold cbyte, scalar in *. change Byte.to_N with b2n in *. unfold cont, in_range.
    replace (b2n a <? 128)%N with false by lia.
    replace ((194 <=? b2n a)%N && (b2n a <=? 223)%N) with false by lia.
    destruct (b2n a =? 224)%N eqn:E1.
    { replace ((160 <=? b2n b)%N && (b2n b <=? 191)%N) with true by lia.
      replace ((128 <=? b2n c)%N && (b2n c <=? 191)%N) with true by lia. reflexivity. }
    destruct ((225 <=? b2n a)%N && (b2n a <=? 236)%N || (238 <=? b2n a)%N && (b2n a <=? 239)%N) eqn:E2.
    { replace ((128 <=? b2n b)%N && (b2n b <=? 191)%N) with true by lia.
      replace ((128 <=? b2n c)%N && (b2n c <=? 191)%N) with true by lia. reflexivity. }
    replace (b2n a =? 237)%N with true by lia.
    replace ((128 <=? b2n b)%N && (b2n b <=? 159)%N) with true by lia.
    replace ((128 <=? b2n c)%N && (b2n c <=? 191)%N) with true by lia. reflexivity.
  - unfold cbyte, scalar in *. change Byte.to_N with b2n in *. unfold cont, in_range.
    replace (b2n a <? 128)%N with false by lia.
    replace ((194 <=? b2n a)%N && (b2n a <=? 223)%N) with false by lia.
    replace (b2n a =? 224)%N with false by lia.
    destruct ((225 <=? b2n a)%N && (b2n a <=? 236)%N || (238 <=? b2n a)%N && (b2n a <=? 239)%N) eqn:E2; [exfalso; lia|].
    replace (b2n a =? 237)%N with false by lia.
    replace ((128 <=? b2n c)%N && (b2n c <=? 191)%N) with true by lia.
    replace ((128 <=? b2n d)%N && (b2n d <=? 191)%N) with true by lia.
    destruct (b2n a =? 240)%N eqn:E1.
    { replace ((144 <=? b2n b)%N && (b2n b <=? 191)%N) with true by lia. reflexivity. }
    destruct ((241 <=? b2n a)%N && (b2n a <=? 243)%N) eqn:E3.
    { replace ((128 <=? b2n b)%N && (b2n b <=? 191)%N) with true by lia. reflexivity. }
    replace (b2n a =? 244)%N with true by lia.
    replace ((128 <=? b2n b)%N && (b2n b <=? 143)%N) with true by lia. reflexivity.
Qed.

Lemma utf8_valid_iff l : utf8_valid l = true <-> utf8_text l.
Proof.
  split.
  - apply (utf8_valid_text_aux (length l)). lia.
  - induction 1 as [|c bs l Hc _ IH]; [reflexivity|].
    rewrite (utf8_char_valid c) by exact Hc. exact IH.
Qed.

Lemma utf8_text_app a b : utf8_text a -> utf8_text b -> utf8_text (a ++ b).
Proof.
  induction 1 as [|c bs l Hc _ IH]; intros Hb; simpl; [exact Hb|].
  rewrite <- app_assoc. apply (Utf8_cons c); auto.
Qed.


Lemma utf8_text_ascii l : Forall (fun b => (b2n b < 128)%N) l -> utf8_text l.
Proof.
  induction 1 as [|b l Hb _ IH]; [constructor|].
  apply (Utf8_cons (b2n b) [b] l); [apply Utf8_1, Hb|exact IH].
Qed.

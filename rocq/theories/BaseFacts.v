(** Lemmas about bytes, big-endian integers, slices and association lists. *)
From Coq Require Export Lia ZifyBool ZifyNat ZifyN.
From Verif Require Import Base.

Ltac Zify.zify_post_hook ::= Z.div_mod_to_equations.

Lemma b2n_lt (b : byte) : (b2n b < 256)%N.
Proof. unfold b2n. pose proof (Byte.to_N_bounded b). lia. Qed.

Lemma n2b_b2n (b : byte) : n2b (b2n b) = b.
Proof.
  unfold n2b. pose proof (b2n_lt b). rewrite N.mod_small by assumption.
  unfold b2n. rewrite Byte.of_to_N. reflexivity.
Qed.

Lemma b2n_n2b (n : N) : b2n (n2b n) = (n mod 256)%N.
Proof.
  unfold n2b. destruct (Byte.of_N (n mod 256)) eqn:E.
  - apply Byte.to_of_N in E. exact E.
  - exfalso. apply Byte.of_N_None_iff in E. lia.
Qed.

Lemma b2n_inj a b : b2n a = b2n b -> a = b.
Proof. intros H. rewrite <- (n2b_b2n a), <- (n2b_b2n b), H. reflexivity. Qed.

Lemma byte_eqb_eq a b : byte_eqb a b = true <-> a = b.
Proof.
  unfold byte_eqb. rewrite N.eqb_eq. split; [apply b2n_inj | intros ->; reflexivity].
Qed.

Lemma byte_eqb_refl a : byte_eqb a a = true.
Proof. apply byte_eqb_eq. reflexivity. Qed.

Lemma byte_eqb_neq a b : byte_eqb a b = false <-> a <> b.
Proof.
  rewrite <- byte_eqb_eq. destruct (byte_eqb a b); split; congruence.
Qed.

Lemma bytes_eqb_eq a b : bytes_eqb a b = true <-> a = b.
Proof.
  revert b. induction a as [|x a IH]; destruct b as [|y b]; simpl; try (split; congruence).
  rewrite andb_true_iff, byte_eqb_eq, IH. split; [intros [-> ->]; reflexivity|].
  intros H; inversion H; auto.
Qed.

Lemma bytes_eqb_refl a : bytes_eqb a a = true.
Proof. apply bytes_eqb_eq. reflexivity. Qed.

Lemma bytes_eqb_neq a b : bytes_eqb a b = false <-> a <> b.
Proof. rewrite <- bytes_eqb_eq. destruct (bytes_eqb a b); split; congruence. Qed.


Lemma bytes_dec (a b : bytes) : {a = b} + {a <> b}.
Proof.
  destruct (bytes_eqb a b) eqn:E; [left; apply bytes_eqb_eq, E | right; apply bytes_eqb_neq, E].
Qed.

(** ** Big-endian integers *)

Lemma from_be_acc l : forall acc,
  fold_left (fun acc b => (acc * 256 + b2n b)%N) l acc
  = (acc * 256 ^ N.of_nat (length l) + from_be l)%N.
Proof.
  unfold from_be. induction l as [|b l IH]; intros acc; cbn [fold_left length].
  - change (256 ^ N.of_nat 0)%N with 1%N. lia.
  - rewrite IH. rewrite (IH (0 * 256 + b2n b)%N).
    rewrite Nnat.Nat2N.inj_succ, N.pow_succ_r'. nia.
Qed.

Lemma from_be_nil : from_be [] = 0%N.
Proof. reflexivity. Qed.

Lemma from_be_cons b l :
  from_be (b :: l) = (b2n b * 256 ^ N.of_nat (length l) + from_be l)%N.
Proof. unfold from_be at 1. simpl. rewrite from_be_acc. lia. Qed.

Lemma from_be_app a b :
  from_be (a ++ b) = (from_be a * 256 ^ N.of_nat (length b) + from_be b)%N.
Proof. unfold from_be at 1. rewrite fold_left_app. fold (from_be a). apply from_be_acc. Qed.

Lemma from_be_snoc a b : from_be (a ++ [b]) = (from_be a * 256 + b2n b)%N.
Proof.
  rewrite from_be_app. simpl length. change (256 ^ N.of_nat 1)%N with 256%N.
  unfold from_be at 2. simpl. lia.
Qed.

Lemma from_be_bound l : (from_be l < 256 ^ N.of_nat (length l))%N.
Proof.
  induction l as [|b l IH].
  - change (0 < 1)%N. lia.
  - rewrite from_be_cons. cbn [length]. rewrite Nnat.Nat2N.inj_succ, N.pow_succ_r'.
    pose proof (b2n_lt b). nia.
Qed.

Lemma to_be_length k n : length (to_be k n) = k.
Proof.
  revert n; induction k as [|k IH]; intros n; simpl; [reflexivity|].
  rewrite app_length, IH. simpl. lia.
Qed.

Lemma from_be_to_be k n : from_be (to_be k n) = (n mod 256 ^ N.of_nat k)%N.
Proof.
  revert n; induction k as [|k IH]; intros n.
  - simpl. unfold from_be. simpl. symmetry. apply N.mod_1_r.
  - simpl to_be. rewrite from_be_snoc, IH, b2n_n2b.
    rewrite Nnat.Nat2N.inj_succ, N.pow_succ_r'.
    rewrite (N.mod_mul_r n 256) by (try apply N.pow_nonzero; lia). lia.
Qed.

Lemma from_be_to_be_small k n : (n < 256 ^ N.of_nat k)%N -> from_be (to_be k n) = n.
Proof. intros H. rewrite from_be_to_be. apply N.mod_small, H. Qed.

Lemma to_be_from_be l : to_be (length l) (from_be l) = l.
Proof.
  induction l as [|b l IH] using rev_ind; [reflexivity|].
  rewrite app_length. simpl length. replace (length l + 1) with (S (length l)) by lia.
  simpl. rewrite from_be_snoc. pose proof (b2n_lt b).
  replace ((from_be l * 256 + b2n b) / 256)%N with (from_be l) by lia.
  rewrite IH. f_equal. f_equal. rewrite <- (n2b_b2n b) at 2.
  apply b2n_inj. rewrite !b2n_n2b. lia.
Qed.

Lemma to_be_inj k a b :
  (a < 256 ^ N.of_nat k)%N -> (b < 256 ^ N.of_nat k)%N -> to_be k a = to_be k b -> a = b.
Proof.
  intros Ha Hb H. rewrite <- (from_be_to_be_small k a Ha), <- (from_be_to_be_small k b Hb).
  congruence.
Qed.

Lemma from_be_inj a b : length a = length b -> from_be a = from_be b -> a = b.
Proof.
  intros Hl H. rewrite <- (to_be_from_be a), <- (to_be_from_be b), Hl, H. reflexivity.
Qed.

Lemma len32_small l : (N.of_nat (length l) < 2 ^ 32)%N -> len32 l = N.of_nat (length l).
Proof. intros H. apply N.mod_small, H. Qed.


(** ** Lists *)

Lemma firstn_app_exact {A} (a b : list A) n : n = length a -> firstn n (a ++ b) = a.
Proof. intros ->. rewrite firstn_app, firstn_all, Nat.sub_diag. simpl. apply app_nil_r. Qed.

Lemma skipn_app_exact {A} (a b : list A) n : n = length a -> skipn n (a ++ b) = b.
Proof. intros ->. rewrite skipn_app, skipn_all, Nat.sub_diag. reflexivity. Qed.

Lemma app_inj_length {A} (a b c d : list A) :
  length a = length c -> a ++ b = c ++ d -> a = c /\ b = d.
Proof.
  revert c; induction a as [|x a IH]; destruct c as [|y c]; simpl; intros Hl H;
    try discriminate; auto.
  inversion H. destruct (IH c) as [-> ->]; auto.
Qed.

Lemma skipn_skipn' {A} n m (l : list A) : skipn n (skipn m l) = skipn (m + n) l.
Proof.
  revert l; induction m as [|m IH]; intros l; simpl; [reflexivity|].
  destruct l; [apply skipn_nil|apply IH].
Qed.

Lemma rev_case {A} (l : list A) : l = [] \/ exists l' x, l = l' ++ [x].
Proof. destruct l using rev_ind; [auto|right; eauto]. Qed.

(** ** Association lists *)

Lemma hm_get_insert_same k v m : hm_get k (hm_insert k v m) = Some v.
Proof.
  induction m as [|[k' v'] m IH]; simpl; [rewrite bytes_eqb_refl; reflexivity|].
  destruct (bytes_eqb k k') eqn:E; simpl; rewrite E; [reflexivity|exact IH].
Qed.

Lemma hm_get_insert_other k k' v m : k <> k' -> hm_get k (hm_insert k' v m) = hm_get k m.
Proof.
  intros Hn. apply bytes_eqb_neq in Hn.
  induction m as [|[k2 v2] m IH]; simpl; [rewrite Hn; reflexivity|].
  destruct (bytes_eqb k' k2) eqn:E; simpl.
  - apply bytes_eqb_eq in E. subst k2. rewrite Hn. reflexivity.
  - destruct (bytes_eqb k k2); [reflexivity|exact IH].
Qed.

Lemma hm_insert_keys k v m :
  forall x, In x (map fst (hm_insert k v m)) <-> x = k \/ In x (map fst m).
Proof.
  intros x. induction m as [|[k2 v2] m IH]; simpl; [intuition congruence|].
  destruct (bytes_eqb k k2) eqn:E; simpl.
  - apply bytes_eqb_eq in E. subst. intuition congruence.
  - rewrite IH. intuition congruence.
Qed.

Lemma hm_insert_nodup k v m : NoDup (map fst m) -> NoDup (map fst (hm_insert k v m)).
Proof.
  induction m as [|[k2 v2] m IH]; simpl; intros H.
  - constructor; [intros []|constructor].
  - inversion H; subst. destruct (bytes_eqb k k2) eqn:E; simpl; [constructor; auto|].
    constructor; [|auto]. rewrite hm_insert_keys. apply bytes_eqb_neq in E. intuition congruence.
Qed.


Lemma hm_get_in k m v : NoDup (map fst m) -> hm_get k m = Some v <-> In (k, v) m.
Proof.
  induction m as [|[k2 v2] m IH]; simpl; intros H; [split; [discriminate|intros []]|].
  inversion H; subst. destruct (bytes_eqb k k2) eqn:E.
  - apply bytes_eqb_eq in E. subst k2. split; [intros [= ->]; auto|].
    intros [[= ->]|Hi]; [reflexivity|]. exfalso. apply H2.
    change k with (fst (k, v)). apply in_map, Hi.
  - rewrite IH by assumption. apply bytes_eqb_neq in E. split; [auto|].
    intros [[= -> ->]|Hi]; [congruence|exact Hi].
Qed.

Lemma hm_get_none k m : hm_get k m = None <-> ~ In k (map fst m).
Proof.
  induction m as [|[k2 v2] m IH]; simpl; [intuition|].
  destruct (bytes_eqb k k2) eqn:E.
  - apply bytes_eqb_eq in E. subst. split; [discriminate|intuition].
  - rewrite IH. apply bytes_eqb_neq in E. intuition congruence.
Qed.

Lemma bind_ok {A B} (m : res A) (f : A -> res B) b :
  bind m f = Ok b <-> exists a, m = Ok a /\ f a = Ok b.
Proof.
  destruct m; simpl; split; try (intros H; discriminate); try (intros (x & H & _); discriminate).
  - eauto.
  - intros (x & [= ->] & H). exact H.
Qed.

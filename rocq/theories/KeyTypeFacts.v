(** Lemmas about key types and curves. *)
From Verif Require Import Base BaseFacts Utf8 KeyType.

Lemma key_types_names_nodup : NoDup (map kt_name key_types).
Proof.
  unfold key_types. cbn [map kt_name].
  repeat (constructor; [cbn [In]; intros H;
    repeat (destruct H as [H|H]; [discriminate H|]); exact H|]). constructor.
Qed.

Lemma find_name_some n l kt :
  find (fun kt => bytes_eqb n (kt_name kt)) l = Some kt -> In kt l /\ kt_name kt = n.
Proof.
  intros H. apply find_some in H. destruct H as [H1 H2]. apply bytes_eqb_eq in H2. auto.
Qed.

Lemma find_name_in l kt : NoDup (map kt_name l) -> In kt l ->
  find (fun k => bytes_eqb (kt_name kt) (kt_name k)) l = Some kt.
Proof.
  induction l as [|k l IH]; intros Hn Hi; [destruct Hi|]. simpl in *. inversion Hn; subst.
  destruct Hi as [->|Hi]; [rewrite bytes_eqb_refl; reflexivity|].
  destruct (bytes_eqb (kt_name kt) (kt_name k)) eqn:E; [|apply IH; auto].
  exfalso. apply bytes_eqb_eq in E. apply H1. rewrite <- E. apply in_map, Hi.
Qed.

Lemma kt_from_name_ok n kt : kt_from_name n = Ok kt <-> In kt key_types /\ n = kt_name kt.
Proof.
  unfold kt_from_name. split.
  - destruct (find _ _) as [k|] eqn:E; [|discriminate]. intros [= ->].
    apply find_name_some in E. intuition.
  - intros [Hi ->]. rewrite (find_name_in _ _ key_types_names_nodup Hi). reflexivity.
Qed.

Lemma kt_from_name_name n kt : kt_from_name n = Ok kt -> kt_name kt = n.
Proof. intros H. apply kt_from_name_ok in H. intuition. Qed.

Lemma kt_from_name_not_panic n : kt_from_name n <> Panic.
Proof. unfold kt_from_name. destruct (find _ _); discriminate. Qed.

Lemma kt_from_name_err n : (forall kt, kt_from_name n <> Ok kt) -> kt_from_name n = Err (EUnknownKeyType n).
Proof.
  unfold kt_from_name. intros H. destruct (find _ _); [exfalso; eapply H; reflexivity|reflexivity].
Qed.

(** A key type known to the table. *)
Definition known (kt : key_type) : Prop := In kt key_types.

(** Check a decidable property on the whole table. *)
Lemma known_forall (P : key_type -> Prop) : Forall P key_types -> forall kt, known kt -> P kt.
Proof. intros H kt Hi. rewrite Forall_forall in H. auto. Qed.

Lemma known_plain kt : known kt ->
  exists p, kt_from_name (kt_plain kt) = Ok p /\ known p /\ kt_name p = kt_plain kt
    /\ kt_plain p = kt_plain kt /\ kt_is_cert p = false /\ kt_is_sk p = kt_is_sk kt.
Proof.
  revert kt. apply known_forall. unfold key_types.
  repeat (apply Forall_cons; [eexists; split; [vm_compute; reflexivity|]; split;
    [unfold known, key_types; cbn [In]; tauto|repeat split] |]). apply Forall_nil.
Qed.

Lemma known_name_ok kt : known kt -> kt_from_name (kt_name kt) = Ok kt.
Proof. intros H. apply kt_from_name_ok. auto. Qed.

(** All names in the table are short ASCII words. *)
Lemma known_utf8 kt : known kt ->
  utf8_valid (kt_name kt) = true /\ utf8_valid (kt_plain kt) = true
  /\ (N.of_nat (length (kt_name kt)) < 64)%N /\ (N.of_nat (length (kt_plain kt)) < 64)%N.
Proof.
  revert kt. apply known_forall. unfold key_types. repeat constructor.
Qed.

(** ** Curves *)
Definition good_curve (c : curve) : Prop :=
  c = mkCurve Nistp256 (s2b "nistp256") \/ c = mkCurve Nistp384 (s2b "nistp384")
  \/ c = mkCurve Nistp521 (s2b "nistp521").

Lemma curve_ok id c : curve_from_identifier id = Ok c <-> good_curve c /\ id = c_identifier c.
Proof.
  unfold curve_from_identifier, good_curve. split.
  - destruct (bytes_eqb id (s2b "nistp256")) eqn:E1.
    { intros [= <-]. apply bytes_eqb_eq in E1. auto. }
    destruct (bytes_eqb id (s2b "nistp384")) eqn:E2.
    { intros [= <-]. apply bytes_eqb_eq in E2. auto. }
    destruct (bytes_eqb id (s2b "nistp521")) eqn:E3; [|discriminate].
    intros [= <-]. apply bytes_eqb_eq in E3. auto.
  - intros [[->|[->| ->]] ->]; reflexivity.
Qed.
Lemma curve_not_panic id : curve_from_identifier id <> Panic.
Proof. unfold curve_from_identifier. repeat (destruct (bytes_eqb _ _)); discriminate. Qed.
Lemma curve_err id : (forall c, curve_from_identifier id <> Ok c) ->
  curve_from_identifier id = Err (EUnknownCurve id).
Proof.
  unfold curve_from_identifier.
  repeat (destruct (bytes_eqb _ _); [intros H; exfalso; eapply H; reflexivity|]). reflexivity.
Qed.
Lemma good_curve_id c : good_curve c ->
  utf8_valid (c_identifier c) = true /\ (N.of_nat (length (c_identifier c)) = 8)%N.
Proof. intros [->|[->| ->]]; split; reflexivity. Qed.

Lemma key_type_eqb_refl k : key_type_eqb k k = true.
Proof.
  unfold key_type_eqb. rewrite !bytes_eqb_refl, !eqb_reflx. destruct (kt_k k); reflexivity.
Qed.
Lemma kt_kind_eqb_eq a b : kt_kind_eqb a b = true <-> a = b.
Proof. destruct a, b; simpl; split; congruence. Qed.
Lemma kt_kind_eqb_refl a : kt_kind_eqb a a = true.
Proof. destruct a; reflexivity. Qed.
Lemma key_type_eqb_eq a b : key_type_eqb a b = true <-> a = b.
Proof.
  split; [|intros ->; apply key_type_eqb_refl].
  unfold key_type_eqb. rewrite !andb_true_iff, !bytes_eqb_eq, !eqb_true_iff, kt_kind_eqb_eq.
  destruct a, b; simpl. intuition congruence.
Qed.
Lemma curve_eqb_eq a b : curve_eqb a b = true <-> a = b.
Proof.
  unfold curve_eqb. rewrite andb_true_iff, bytes_eqb_eq. destruct a as [k i], b as [k' i']; simpl.
  split.
  - intros [H ->]. destruct k, k'; try discriminate; reflexivity.
  - intros [= -> ->]. destruct k'; auto.
Qed.

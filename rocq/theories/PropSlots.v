(** Property C105: the slot arguments of the programs that use a YubiKey. *)
From Coq Require Import Lia.
From Verif Require Import Base BaseFacts Str StrFacts Piv SpecTools Tools.

(** ** C105 *)
Lemma digit_value_iff b d : digit_value b = Some d <-> (d <= 9)%N /\ b2n b = (48 + d)%N.
Proof.
  unfold digit_value. fold (b2n b). destruct ((48 <=? b2n b) && (b2n b <=? 57))%N eqn:E.
  - apply andb_true_iff in E. destruct E as [E1 E2]. apply N.leb_le in E1, E2. split.
    + intros H. injection H as <-. lia.
    + intros [H1 H2]. f_equal. lia.
  - apply andb_false_iff in E. split; [discriminate|]. intros [H1 H2]. exfalso. destruct E as [E|E]; apply N.leb_gt in E; lia.
Qed.
Lemma digits_cons t v : digits t v -> forall b d, (d <= 9)%N -> b2n b = (48 + d)%N ->
  digits (b :: t) (d * 10 ^ N.of_nat (length t) + v).
Proof.
  induction 1 as [|t v b' d' H IH Hd Hb]; intros b d Hd0 Hb0.
  - cbn [length]. change (10 ^ N.of_nat 0)%N with 1%N. replace (d * 1 + 0)%N with (10 * 0 + d)%N by lia.
    apply (D_app [] 0 b d); [constructor|assumption..].
  - rewrite app_length, Nat.add_comm. cbn [length plus]. rewrite Nat2N.inj_succ, N.pow_succ_r by lia.
    replace (d * (10 * 10 ^ N.of_nat (length t)) + (10 * v + d'))%N with (10 * (d * 10 ^ N.of_nat (length t) + v) + d')%N by lia.
    apply (D_app (b :: t)); [apply IH; assumption|assumption..].
Qed.
Lemma u8_digits_app t : forall acc n, u8_digits t acc = Some n -> exists v, digits t v /\ n = (acc * 10 ^ N.of_nat (length t) + v)%N.
Proof.
  induction t as [|b t IH]; intros acc n H; cbn [u8_digits] in H.
  - injection H as <-. exists 0%N. split; [constructor|]. cbn. lia.
  - destruct (digit_value b) as [d|] eqn:E; [|discriminate]. apply digit_value_iff in E. destruct E as [E1 E2]. cbn zeta in H.
    destruct (10 * acc + d <=? 255)%N; [|discriminate]. apply IH in H. destruct H as (v & Hv & ->).
    exists (d * 10 ^ N.of_nat (length t) + v)%N. split; [apply digits_cons; assumption|].
    cbn [length]. rewrite Nat2N.inj_succ, N.pow_succ_r by lia. lia.
Qed.
Lemma u8_digits_snoc t b d : (d <= 9)%N -> b2n b = (48 + d)%N -> forall acc n, u8_digits t acc = Some n -> (10 * n + d <= 255)%N ->
  u8_digits (t ++ [b]) acc = Some (10 * n + d)%N.
Proof.
  intros Hd Hb. induction t as [|a t IH]; intros acc n H L; cbn [u8_digits app] in *.
  - injection H as <-. rewrite (proj2 (digit_value_iff b d) (conj Hd Hb)). cbn zeta. apply N.leb_le in L. rewrite L. reflexivity.
  - destruct (digit_value a); [|discriminate]. cbn zeta in *. destruct (_ <=? 255)%N; [|discriminate]. apply IH; assumption.
Qed.
Lemma digits_u8 t v : digits t v -> (v <= 255)%N -> u8_digits t 0 = Some v.
Proof.
  induction 1 as [|t v b d H IH Hd Hb]; intros L; [reflexivity|].
  apply u8_digits_snoc; [assumption..|apply IH; lia|exact L].
Qed.
Lemma digits_no_sign b t v : digits (b :: t) v -> byte_eqb b x2b = false /\ byte_eqb b x2d = false.
Proof.
  intros H. assert (G : forall l w, digits l w -> Forall (fun x => (48 <= b2n x)%N) l).
  { induction 1 as [|l w x d H0 IH Hd Hb]; [constructor|]. apply Forall_app. split; [exact IH|]. repeat constructor. lia. }
  apply G in H. inversion H; subst. split; (destruct (byte_eqb b _) eqn:E; [|reflexivity]); unfold byte_eqb in E; apply N.eqb_eq in E;
    rewrite E in *; vm_compute in H2; exfalso; apply H2; reflexivity.
Qed.
Lemma parse_u8_ok t v : parse_u8 t = Some v -> number t v.
Proof.
  unfold parse_u8. destruct t as [|b [|c r]]; [discriminate| |].
  - destruct (byte_eqb b x2b || byte_eqb b x2d); [discriminate|]. intros H. apply u8_digits_app in H. destruct H as (w & Hw & ->).
    cbn [N.mul]. constructor; [discriminate|exact Hw].
  - destruct (byte_eqb b x2b) eqn:E; intros H; apply u8_digits_app in H; destruct H as (w & Hw & ->); cbn [N.mul].
    + apply byte_eqb_eq in E. subst b. constructor; [discriminate|exact Hw].
    + constructor; [discriminate|exact Hw].
Qed.
Lemma number_u8 t v : number t v -> (v <= 255)%N -> parse_u8 t = Some v.
Proof.
  intros H L. destruct H as [t v Hn Hd|t v Hn Hd].
  - unfold parse_u8. destruct t as [|b [|c r]]; [contradiction Hn; reflexivity| |]; destruct (digits_no_sign _ _ _ Hd) as [E1 E2];
      rewrite ?E1, ?E2; cbn [orb]; apply digits_u8; assumption.
  - unfold parse_u8. destruct t as [|c r]; [contradiction Hn; reflexivity|].
    change (byte_eqb x2b x2b) with true. cbv iota. apply digits_u8; assumption.
Qed.
Lemma hex_value_iff b d : hex_value b = Some d <-> hex_digit b d.
Proof.
  unfold hex_value. fold (b2n b). split.
  - destruct ((48 <=? b2n b) && (b2n b <=? 57))%N eqn:E1.
    { apply andb_true_iff in E1. destruct E1 as [A B]. apply N.leb_le in A, B. intros H. injection H as <-. apply Hex_dec; lia. }
    destruct ((97 <=? b2n b) && (b2n b <=? 102))%N eqn:E2.
    { apply andb_true_iff in E2. destruct E2 as [A B]. apply N.leb_le in A, B. intros H. injection H as <-. apply Hex_low; lia. }
    destruct ((65 <=? b2n b) && (b2n b <=? 70))%N eqn:E3; [|discriminate].
    apply andb_true_iff in E3. destruct E3 as [A B]. apply N.leb_le in A, B. intros H. injection H as <-. apply Hex_up; lia.
  - intros H. destruct H as [b d H E|b d H E|b d H E]; rewrite E.
    + replace ((48 <=? 48 + d) && (48 + d <=? 57))%N with true; [f_equal; lia|]. symmetry. apply andb_true_iff. split; apply N.leb_le; lia.
    + replace ((48 <=? 87 + d) && (87 + d <=? 57))%N with false by (symmetry; apply andb_false_iff; right; apply N.leb_gt; lia).
      replace ((97 <=? 87 + d) && (87 + d <=? 102))%N with true; [f_equal; lia|]. symmetry. apply andb_true_iff. split; apply N.leb_le; lia.
    + replace ((48 <=? 55 + d) && (55 + d <=? 57))%N with false by (symmetry; apply andb_false_iff; right; apply N.leb_gt; lia).
      replace ((97 <=? 55 + d) && (55 + d <=? 102))%N with false by (symmetry; apply andb_false_iff; left; apply N.leb_gt; lia).
      replace ((65 <=? 55 + d) && (55 + d <=? 70))%N with true; [f_equal; lia|]. symmetry. apply andb_true_iff. split; apply N.leb_le; lia.
Qed.
(** Texts with 0x in front and two more bytes that are not a hexadecimal number. *)
Definition bad_hex (s : bytes) : Prop :=
  exists a b, s = s2b "0x" ++ [a; b] /\ forall x y, ~ (hex_digit a x /\ hex_digit b y).

Lemma slot_parser_cases known s :
  (exists n, slot_name s n /\ slot_parser known s = (do? x <- slot_try_from known n; Ok (Some x)))
  \/ (bad_hex s /\ slot_parser known s = Panic)
  \/ ((forall n, ~ slot_name s n) /\ ~ bad_hex s /\ slot_parser known s = Ok None).
Proof.
  unfold slot_parser. destruct (((length s =? 2) || (length s =? 3)) && starts_with_byte x52 s) eqn:E1.
  - apply andb_true_iff in E1. destruct E1 as [L S]. destruct s as [|b t]; [discriminate|]. cbn [starts_with_byte] in S.
    apply byte_eqb_eq in S. cbn [tl].
    subst b.
    assert (Lt : 1 <= length t <= 2).
    { apply orb_true_iff in L. cbn [length] in L. destruct L as [L|L]; apply Nat.eqb_eq in L; lia. }
    assert (Nb : ~ bad_hex (x52 :: t)) by (intros (a & b & E & _); discriminate E).
    destruct (parse_u8 t) as [v|] eqn:P.
    + destruct (v <=? 20)%N eqn:V.
      * left. exists (129 + v)%N. split; [|reflexivity]. apply N.leb_le in V.
        apply (SN_retired t v); [lia|apply parse_u8_ok, P|exact V].
      * right. right. split; [|split; [exact Nb|reflexivity]]. intros n Hn. inversion Hn as [t' v' H1 H2 H3 E|a b x y H1 H2 E].
        subst t'. apply N.leb_gt in V. rewrite (number_u8 t v' H2) in P by lia. injection P as ->. lia.
    + right. right. split; [|split; [exact Nb|reflexivity]]. intros n Hn. inversion Hn as [t' v' H1 H2 H3 E|a b x y H1 H2 E].
      subst t'. rewrite (number_u8 t v' H2) in P by lia. discriminate.
  - assert (Nr : forall t v, s = s2b "R" ++ t -> length t <= 2 -> number t v -> False).
    { intros t v -> L Hn. change (length (s2b "R" ++ t)) with (S (length t)) in E1. change (starts_with_byte x52 (s2b "R" ++ t)) with true in E1.
      rewrite andb_true_r in E1. apply orb_false_iff in E1. destruct E1 as [A B]. apply Nat.eqb_neq in A, B.
      destruct Hn as [t v Ht _|t v Ht _]; destruct t as [|? [|? [|? ?]]]; try (contradiction Ht; reflexivity); cbn [length] in *; lia. }
    destruct ((length s =? 4) && bytes_eqb (firstn 2 s) (s2b "0x")) eqn:E2.
    + apply andb_true_iff in E2. destruct E2 as [L S]. apply Nat.eqb_eq in L. apply bytes_eqb_eq in S.
      destruct s as [|p [|q [|a [|b [|]]]]]; try discriminate L. cbn [firstn] in S. cbn [skipn hex_decode].
      assert (Es : p :: q :: [a; b] = s2b "0x" ++ [a; b]) by (change (p :: q :: [a; b]) with ([p; q] ++ [a; b]); rewrite S; reflexivity).
      rewrite Es in *. clear Es S L.
      destruct (hex_value a) as [x|] eqn:Ha; [destruct (hex_value b) as [y|] eqn:Hb|].
      * left. exists (16 * x + y)%N. split; [|reflexivity]. apply hex_value_iff in Ha, Hb. apply SN_hex; assumption.
      * right. left. split; [|reflexivity]. exists a, b. split; [reflexivity|]. intros x' y' [_ H]. apply hex_value_iff in H. congruence.
      * right. left. split; [|reflexivity]. exists a, b. split; [reflexivity|]. intros x' y' [H _]. apply hex_value_iff in H. congruence.
    + right. right. assert (N4 : forall a b, s <> s2b "0x" ++ [a; b]).
      { intros a b ->. vm_compute in E2. discriminate. }
      split; [|split; [|reflexivity]].
      * intros n Hn. inversion Hn as [t v H1 H2 H3 E|a b x y H1 H2 E]; [apply (Nr t v); auto|exact (N4 a b (eq_sym E))].
      * intros (a & b & E & _). exact (N4 a b E).
Qed.
Lemma slot_name_fun s n m : slot_name s n -> slot_name s m -> n = m.
Proof.
  intros Hn Hm. destruct (slot_parser_cases (fun _ => true) s) as [(k & Hk & E)|[[_ E]|[H _]]].
  - assert (U : forall j, slot_name s j -> slot_parser (fun _ => true) s = Ok (Some j)).
    { clear. intros j Hj. destruct Hj as [t v L Hv Hl|a b x y Ha Hb].
      - unfold slot_parser. assert (Lt : 1 <= length t) by (destruct Hv as [t v Hne _|t v Hne _]; destruct t; try (contradiction Hne; reflexivity); cbn; lia).
        change (length (s2b "R" ++ t)) with (S (length t)). change (starts_with_byte x52 (s2b "R" ++ t)) with true. change (tl (s2b "R" ++ t)) with t.
        replace (((S (length t) =? 2) || (S (length t) =? 3)) && true) with true;
          [|symmetry; rewrite andb_true_r; apply orb_true_iff; rewrite !Nat.eqb_eq; lia].
        rewrite (number_u8 t v Hv) by lia. apply N.leb_le in Hl. rewrite Hl. reflexivity.
      - apply hex_value_iff in Ha, Hb. unfold slot_parser. cbn [s2b list_byte_of_string app length Nat.eqb orb andb starts_with_byte].
        cbn. rewrite Ha, Hb. reflexivity. }
    pose proof (eq_trans (eq_sym (U _ Hn)) (U _ Hm)) as X. injection X as X. exact X.
  - assert (U := Hn). destruct U as [t v L Hv Hl|a b x y Ha Hb].
    + unfold slot_parser in E. exfalso. revert E. change (starts_with_byte x52 (s2b "R" ++ t)) with true.
      change (tl (s2b "R" ++ t)) with t. rewrite (number_u8 t v Hv) by lia. apply N.leb_le in Hl. rewrite Hl.
      change (slot_try_from (fun _ => true) (129 + v)) with (Ok (129 + v)%N). cbn [bind].
      destruct (_ && true); [discriminate|]. change (firstn 2 (s2b "R" ++ t)) with (x52 :: firstn 1 t).
      cbn [s2b list_byte_of_string bytes_eqb]. destruct (_ =? 4); discriminate.
    + apply hex_value_iff in Ha, Hb. exfalso. revert E. unfold slot_parser. cbn. rewrite Ha, Hb. discriminate.
  - destruct (H _ Hn).
Qed.

(** The slot argument of the YubiKey programs. *)
Theorem C105_slot_names : forall (known : N -> bool) (s : bytes),
  (forall n, slot_parser known s = Ok (Some n) <-> slot_name s n /\ known n = true)
  /\ (slot_parser known s = Panic <-> bad_hex s \/ exists n, slot_name s n /\ known n = false)
  /\ (slot_parser known s = Ok None <-> ~ bad_hex s /\ forall n, ~ slot_name s n)
  /\ (forall e, slot_parser known s <> Err e).
Proof.
  intros known s. destruct (slot_parser_cases known s) as [(k & Hk & E)|[[Hb E]|(Hn & Hb & E)]].
  - assert (Nb : ~ bad_hex s).
    { intros (a & b & -> & Hx). inversion Hk as [t v L Hv Hl E0|a' b' x y Ha Hb0 E0]; subst. eapply Hx. eauto. }
    rewrite E. unfold slot_try_from. destruct (known k) eqn:Ek; cbn [bind].
    + split; [|split; [|split]].
      * intros n. split; [intros H; injection H as <-; auto|]. intros [H _]. rewrite (slot_name_fun _ _ _ H Hk). reflexivity.
      * split; [discriminate|]. intros [H|(n & H & Hf)]; [contradiction|]. rewrite (slot_name_fun _ _ _ H Hk) in Hf. congruence.
      * split; [discriminate|]. intros [_ H]. destruct (H _ Hk).
      * discriminate.
    + split; [|split; [|split]].
      * intros n. split; [discriminate|]. intros [H Ht]. rewrite (slot_name_fun _ _ _ H Hk) in Ht. congruence.
      * split; [|reflexivity]. intros _. right. eauto.
      * split; [discriminate|]. intros [_ H]. destruct (H _ Hk).
      * discriminate.
  - assert (Nn : forall n, ~ slot_name s n).
    { destruct Hb as (a & b & -> & Hx). intros n Hk. inversion Hk as [t v L Hv Hl E0|a' b' x y Ha Hb0 E0]; subst. eapply Hx. eauto. }
    rewrite E. split; [|split; [|split]].
    + intros n. split; [discriminate|]. intros [H _]. destruct (Nn _ H).
    + split; auto.
    + split; [discriminate|]. intros [H _]. contradiction.
    + discriminate.
  - rewrite E. split; [|split; [|split]].
    + intros n. split; [discriminate|]. intros [H _]. destruct (Hn _ H).
    + split; [discriminate|]. intros [H|(n & H & _)]; [contradiction|destruct (Hn _ H)].
    + split; auto.
    + discriminate.
Qed.
Print Assumptions C105_slot_names.

(** The help promises R1 to R20. R0 is not refused: it is the number before the first retired
    slot, or a crash if that is no slot. *)
Theorem C105_R0_refused_refuted : forall known, slot_parser known (s2b "R0") <> Ok None.
Proof. intros known. vm_compute. destruct (known 129%N); discriminate. Qed.
Print Assumptions C105_R0_refused_refuted.
(** Texts that are not a number crash the check of the argument. *)
Theorem C105_refuses_politely_refuted : exists s, forall known, slot_parser known s = Panic.
Proof. exists (s2b "0xzz"). reflexivity. Qed.
Print Assumptions C105_refuses_politely_refuted.
Example C105_case : slot_name (s2b "R+7") 136 /\ slot_name (s2b "R20") 149 /\ slot_name (s2b "0x9C") 156
  /\ slot_parser (fun n => (n =? 156)%N) (s2b "0x9C") = Ok (Some 156%N) /\ slot_parser (fun _ => true) (s2b "R21") = Ok None
  /\ slot_parser (fun _ => true) (s2b "9c") = Ok None /\ bad_hex (s2b "0x+1").
Proof.
  assert (D : forall b d, (d <= 9)%N -> b2n b = (48 + d)%N -> digits [b] d).
  { intros b d H1 H2. apply (D_app [] 0 b d); [constructor|assumption..]. }
  split. { apply (SN_retired (s2b "+7") 7); [cbn; lia|apply (Num_plus [x37]); [discriminate|apply D; [lia|reflexivity]]|lia]. }
  split. { apply (SN_retired (s2b "20") 20); [cbn; lia|apply Num; [discriminate|apply (D_app [x32] 2 x30 0); [apply D; [lia|reflexivity]|lia|reflexivity]]|lia]. }
  split. { apply (SN_hex x39 x43 9 12); [apply Hex_dec; [lia|reflexivity]|apply Hex_up; [lia|reflexivity]]. }
  split; [reflexivity|]. split; [reflexivity|]. split; [reflexivity|].
  exists x2b, x31. split; [reflexivity|]. intros x y [H _]. apply hex_value_iff in H. discriminate.
Qed.

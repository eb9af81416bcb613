(** Facts about Chrono.v: the calendar arithmetic and timestamp parsing. *)
From Verif Require Import Base BaseFacts Str StrFacts SpecWire SpecText Chrono AllowedSigner SpecSigner.

(** ** The calendar *)
Lemma days_closed y m d :
  days_from_ce y m d = (365 * (y - 1) + (y - 1) / 4 - (y - 1) / 100 + (y - 1) / 400 + ordinal y m d)%Z.
Proof.
  unfold days_from_ce. cbv zeta. generalize (ordinal y m d). intros o.
  destruct (y - 1 <? 0)%Z eqn:E; Z.to_euclidean_division_equations; lia.
Qed.
Lemma leap_iff y : leap_year y = true <-> leap y.
Proof.
  unfold leap_year, leap. rewrite andb_true_iff, orb_true_iff, negb_true_iff, !Z.eqb_eq, Z.eqb_neq.
  rewrite !Z.mod_divide by lia. tauto.
Qed.
Lemma year_step y m d m' d' : (days_from_ce (y + 1) m d - ordinal (y + 1) m d
  = days_from_ce y m' d' - ordinal y m' d' + 365 + if leap_year y then 1 else 0)%Z.
Proof.
  rewrite !days_closed. unfold leap_year.
  destruct (y mod 4 =? 0)%Z eqn:E1, (y mod 100 =? 0)%Z eqn:E2, (y mod 400 =? 0)%Z eqn:E3; cbn [negb andb orb];
    Z.to_euclidean_division_equations; lia.
Qed.
Lemma last_day_iff y m n : last_day y m n <-> (1 <= m <= 12)%Z /\ n = month_length y m.
Proof.
  unfold month_length. split.
  - destruct 1 as [y m H|y m H|y H|y H]; cbn [In] in H.
    + repeat destruct H as [<-|H]; try contradiction; (split; [lia|reflexivity]).
    + repeat destruct H as [<-|H]; try contradiction; (split; [lia|reflexivity]).
    + split; [lia|]. cbn. destruct (leap_year y) eqn:E; [apply leap_iff in E; contradiction|reflexivity].
    + split; [lia|]. cbn. apply leap_iff in H. rewrite H. reflexivity.
  - intros [H ->].
    assert (C : (m = 1 \/ m = 2 \/ m = 3 \/ m = 4 \/ m = 5 \/ m = 6 \/ m = 7 \/ m = 8 \/ m = 9 \/ m = 10 \/ m = 11 \/ m = 12)%Z) by lia.
    destruct (Z.eqb_spec m 2) as [->|Hn].
    + destruct (leap_year y) eqn:E; [apply LD_29, leap_iff, E|apply LD_28]. intros L. apply leap_iff in L. congruence.
    + repeat destruct C as [->|C]; try subst m; try congruence; cbn;
        first [apply LD_31; cbn [In]; tauto|apply LD_30; cbn [In]; tauto].
Qed.
Ltac crunch := repeat match goal with
  | |- context [nth ?a ?b ?c] => let v := eval vm_compute in (nth a b c) in change (nth a b c) with v
  | |- context [(?a <? ?b)%Z] => let v := eval vm_compute in (a <? b)%Z in change (a <? b)%Z with v
  | |- context [(?a =? ?b)%Z] => let v := eval vm_compute in (a =? b)%Z in change (a =? b)%Z with v
  end.
Lemma ordinal_step y m d n : last_day y m n -> (m < 12)%Z -> ordinal y (m + 1) d = (ordinal y m n + d)%Z.
Proof.
  intros H Hm. apply last_day_iff in H. destruct H as [H ->].
  assert (C : (m = 1 \/ m = 2 \/ m = 3 \/ m = 4 \/ m = 5 \/ m = 6 \/ m = 7 \/ m = 8 \/ m = 9 \/ m = 10 \/ m = 11)%Z) by lia.
  repeat destruct C as [->|C]; try subst m; unfold ordinal, month_length; crunch; destruct (leap_year y); cbn [andb orb]; lia.
Qed.
Lemma next_date_days a b : next_date a b ->
  let '(y, m, d) := a in let '(y', m', d') := b in days_from_ce y' m' d' = (days_from_ce y m d + 1)%Z.
Proof.
  intros H. destruct H as [y m d n H1 H2|y m n H1 H2|y]; cbv zeta beta iota.
  - rewrite !days_closed. unfold ordinal. lia.
  - rewrite !days_closed, (ordinal_step _ _ _ _ H1 H2). lia.
  - pose proof (year_step y 1 1 12 31) as E. 
    revert E. unfold ordinal. crunch. destruct (leap_year y), (leap_year (y + 1)); cbn [andb]; lia.
Qed.
Lemma day_no_days dt n : day_no dt n -> let '(y, m, d) := dt in n = (days_from_ce y m d - 719163)%Z.
Proof.
  induction 1 as [|a b n H IH Hn|a b n H IH Hn]; [reflexivity|..];
    apply next_date_days in Hn; destruct a as [[y m] d], b as [[y' m'] d']; lia.
Qed.

(** Every date has a number. *)
Lemma day_walk y m n k : last_day y m n -> day_no (y, m, 1)%Z k ->
  forall i, (Z.of_nat i < n)%Z -> day_no (y, m, 1 + Z.of_nat i)%Z (k + Z.of_nat i).
Proof.
  intros Hl Hk. induction i as [|i IH]; intros Hi.
  - rewrite Z.add_0_r, Z.add_0_r. exact Hk.
  - replace (k + Z.of_nat (S i))%Z with (k + Z.of_nat i + 1)%Z by lia.
    replace (1 + Z.of_nat (S i))%Z with (1 + Z.of_nat i + 1)%Z by lia.
    eapply DN_next; [apply IH; lia|]. eapply ND_day; [exact Hl|lia].
Qed.
Lemma day_back y m n k : last_day y m n -> day_no (y, m, n)%Z k ->
  forall i, (Z.of_nat i < n)%Z -> day_no (y, m, n - Z.of_nat i)%Z (k - Z.of_nat i).
Proof.
  intros Hl Hk. induction i as [|i IH]; intros Hi.
  - rewrite !Z.sub_0_r. exact Hk.
  - replace (k - Z.of_nat (S i))%Z with (k - Z.of_nat i - 1)%Z by lia.
    eapply DN_prev; [apply IH; lia|].
    replace (n - Z.of_nat i)%Z with (n - Z.of_nat (S i) + 1)%Z by lia. eapply ND_day; [exact Hl|lia].
Qed.
Lemma month_length_pos y m : (28 <= month_length y m <= 31)%Z.
Proof.
  unfold month_length. destruct (m =? 2)%Z; [destruct (leap_year y); lia|].
  destruct ((m =? 4) || (m =? 6) || (m =? 9) || (m =? 11))%Z; lia.
Qed.
Lemma last_day_month y m : (1 <= m <= 12)%Z -> last_day y m (month_length y m).
Proof. intros H. apply last_day_iff. auto. Qed.
Lemma day_in_month y m k : (1 <= m <= 12)%Z -> day_no (y, m, 1)%Z k ->
  forall d, (1 <= d <= month_length y m)%Z -> exists k', day_no (y, m, d) k'.
Proof.
  intros Hm Hk d Hd. exists (k + Z.of_nat (Z.to_nat (d - 1)))%Z.
  replace d with (1 + Z.of_nat (Z.to_nat (d - 1)))%Z at 1 by lia.
  eapply day_walk; [apply last_day_month, Hm|exact Hk|lia].
Qed.
Lemma first_of_month y k : day_no (y, 1, 1)%Z k -> forall i, i < 12 -> exists k', day_no (y, 1 + Z.of_nat i, 1)%Z k'.
Proof.
  intros Hk. induction i as [|i IH]; intros Hi; [exists k; exact Hk|].
  destruct (IH ltac:(lia)) as (k1 & H1). destruct (day_in_month y (1 + Z.of_nat i)%Z k1 ltac:(lia) H1 (month_length y (1 + Z.of_nat i))) as (k2 & H2).
  { pose proof (month_length_pos y (1 + Z.of_nat i)). lia. }
  exists (k2 + 1)%Z. replace (1 + Z.of_nat (S i))%Z with (1 + Z.of_nat i + 1)%Z by lia.
  eapply DN_next; [exact H2|]. eapply ND_month; [apply last_day_month; lia|lia].
Qed.
Lemma first_back y k : day_no (y, 12, 31)%Z k -> forall i, i < 12 -> exists k', day_no (y, 12 - Z.of_nat i, 1)%Z k'.
Proof.
  intros Hk.
  assert (B : forall m k, (1 <= m <= 12)%Z -> day_no (y, m, month_length y m) k -> exists k', day_no (y, m, 1)%Z k').
  { intros m k' Hm H. pose proof (month_length_pos y m) as Hp.
    exists (k' - Z.of_nat (Z.to_nat (month_length y m - 1)))%Z.
    replace 1%Z with (month_length y m - Z.of_nat (Z.to_nat (month_length y m - 1)))%Z at 1 by lia.
    eapply day_back; [apply last_day_month, Hm|exact H|lia]. }
  induction i as [|i IH]; intros Hi.
  - apply (B 12%Z k); [lia|exact Hk].
  - destruct (IH ltac:(lia)) as (k1 & H1).
    apply (B _ (k1 - 1)%Z); [lia|]. eapply DN_prev; [exact H1|].
    replace (12 - Z.of_nat i)%Z with (12 - Z.of_nat (S i) + 1)%Z by lia. apply ND_month; [apply last_day_month; lia|lia].
Qed.
Lemma first_of_year y : exists k, day_no (y, 1, 1)%Z k.
Proof.
  assert (Up : forall i, exists k, day_no (1970 + Z.of_nat i, 1, 1)%Z k).
  { induction i as [|i (k & IH)]; [exists 0%Z; apply DN_epoch|].
    destruct (first_of_month _ _ IH 11 ltac:(lia)) as (k1 & H1).
    destruct (day_in_month _ 12%Z k1 ltac:(lia) H1 31%Z ltac:(change (month_length _ 12) with 31%Z; lia)) as (k2 & H2).
    exists (k2 + 1)%Z. replace (1970 + Z.of_nat (S i))%Z with (1970 + Z.of_nat i + 1)%Z by lia.
    eapply DN_next; [exact H2|apply ND_year]. }
  assert (Down : forall i, exists k, day_no (1970 - Z.of_nat i, 1, 1)%Z k).
  { induction i as [|i (k & IH)]; [exists 0%Z; apply DN_epoch|].
    destruct (first_back (1970 - Z.of_nat (S i))%Z (k - 1)%Z) with (i := 11) as (k1 & H1); [|lia|exists k1; exact H1].
    eapply DN_prev; [exact IH|]. replace (1970 - Z.of_nat i)%Z with (1970 - Z.of_nat (S i) + 1)%Z by lia. apply ND_year. }
  destruct (Z.le_ge_cases 1970 y) as [H|H].
  - destruct (Up (Z.to_nat (y - 1970))) as (k & Hk). exists k. rewrite Z2Nat.id in Hk by lia.
    replace (1970 + (y - 1970))%Z with y in Hk by lia. exact Hk.
  - destruct (Down (Z.to_nat (1970 - y))) as (k & Hk). exists k. rewrite Z2Nat.id in Hk by lia.
    replace (1970 - (1970 - y))%Z with y in Hk by lia. exact Hk.
Qed.
Lemma calendar_iff y m d : calendar_date (y, m, d) <-> (1 <= m <= 12)%Z /\ (1 <= d <= month_length y m)%Z.
Proof.
  unfold calendar_date. split.
  - intros (n & H & Hd). apply last_day_iff in H. destruct H as [H ->]. auto.
  - intros [H1 H2]. exists (month_length y m). split; [apply last_day_month, H1|exact H2].
Qed.
Lemma day_no_iff y m d n : calendar_date (y, m, d) -> (day_no (y, m, d) n <-> n = (days_from_ce y m d - 719163)%Z).
Proof.
  intros H. apply calendar_iff in H. destruct H as [Hm Hd]. split; [intros D; apply (day_no_days (y, m, d)), D|].
  intros ->. destruct (first_of_year y) as (k & H1). destruct (first_of_month y k H1 (Z.to_nat (m - 1)) ltac:(lia)) as (k1 & H2).
  replace (1 + Z.of_nat (Z.to_nat (m - 1)))%Z with m in H2 by lia.
  destruct (day_in_month y m k1 Hm H2 d Hd) as (k2 & H3). pose proof (day_no_days _ _ H3) as E. cbn in E. rewrite <- E. exact H3.
Qed.

(** ** White space and numbers *)
Lemma is_digit_iff b : is_digit b = true <-> digit b.
Proof. unfold is_digit, digit, b2n. rewrite andb_true_iff, !N.leb_le. tauto. Qed.
Lemma digit_not_ws b l : is_digit b = true -> ws_len (b :: l) = 0.
Proof.
  unfold is_digit. intros H. unfold ws_len. cbn zeta.
  replace (((9 <=? b2n b)%N && (b2n b <=? 13)%N) || (b2n b =? 32)%N) with false by lia.
  destruct l as [|c [|e l]]; [reflexivity|..].
  - replace (b2n b =? 194)%N with false by lia. reflexivity.
  - replace (b2n b =? 194)%N with false by lia. replace (b2n b =? 225)%N with false by lia.
    replace (b2n b =? 226)%N with false by lia. replace (b2n b =? 227)%N with false by lia. reflexivity.
Qed.
Lemma trim_start_skip bs l : trim_start_aux (bs ++ l) (length bs) = trim_start_aux l 0.
Proof. induction bs as [|b bs IH]; [reflexivity|]. cbn [app length trim_start_aux]. exact IH. Qed.
Lemma trim_start_char c bs l : utf8_char c bs -> ws_scalar c -> trim_start (bs ++ l) = trim_start l.
Proof.
  intros H Hw. unfold trim_start. destruct (ws_len_char c bs l H) as [[_ E]|[N _]]; [|contradiction].
  destruct bs as [|b bs]; [apply utf8_char_nonempty in H; congruence|].
  cbn [app trim_start_aux] in *. rewrite E. cbn [length]. apply trim_start_skip.
Qed.
Lemma trim_start_run pre l : ws_run pre -> trim_start (pre ++ l) = trim_start l.
Proof.
  induction 1 as [|c bs pre Hc Hw _ IH]; [reflexivity|]. rewrite <- app_assoc, (trim_start_char c bs) by assumption. exact IH.
Qed.
Lemma trim_start_id l : ws_len l = 0 -> trim_start l = l.
Proof. intros H. unfold trim_start. destruct l as [|b l]; [reflexivity|]. cbn [trim_start_aux]. rewrite H. reflexivity. Qed.
Lemma ws_len_pos l k : ws_len l = S k ->
  exists c bs l', l = bs ++ l' /\ length bs = S k /\ utf8_char c bs /\ ws_scalar c.
Proof.
  unfold ws_len. destruct l as [|a l1]; [discriminate|]. cbn zeta.
  destruct (((9 <=? b2n a)%N && (b2n a <=? 13)%N) || (b2n a =? 32)%N) eqn:E.
  { intros [= <-]. exists (b2n a), [a], l1. split; [reflexivity|]. split; [reflexivity|]. unfold b2n in *.
    split; [apply Utf8_1; lia|unfold ws_scalar; lia]. }
  destruct l1 as [|b l2]; [discriminate|].
  destruct ((b2n a =? 194)%N && ((b2n b =? 133)%N || (b2n b =? 160)%N)) eqn:E2.
  { intros [= <-]. exists ((b2n a - 192) * 64 + (b2n b - 128))%N, [a; b], l2. split; [reflexivity|]. split; [reflexivity|]. unfold b2n in *.
    split; [apply Utf8_2; unfold cbyte; lia|unfold ws_scalar; lia]. }
  destruct l2 as [|c l3]; [discriminate|].
  assert (A : (((b2n a =? 225)%N && (b2n b =? 154)%N && (b2n c =? 128)%N) = true
    \/ ((b2n a =? 226)%N && (b2n b =? 128)%N && (((128 <=? b2n c)%N && (b2n c <=? 138)%N) || (b2n c =? 168)%N || (b2n c =? 169)%N || (b2n c =? 175)%N)) = true
    \/ ((b2n a =? 226)%N && (b2n b =? 129)%N && (b2n c =? 159)%N) = true
    \/ ((b2n a =? 227)%N && (b2n b =? 128)%N && (b2n c =? 128)%N) = true) ->
    exists x bs l', a :: b :: c :: l3 = bs ++ l' /\ length bs = 3 /\ utf8_char x bs /\ ws_scalar x).
  { intros H. exists ((b2n a - 224) * 4096 + (b2n b - 128) * 64 + (b2n c - 128))%N, [a; b; c], l3. split; [reflexivity|]. split; [reflexivity|].
    unfold b2n in *. split; [apply Utf8_3; unfold cbyte, scalar; lia|unfold ws_scalar; lia]. }
  repeat match goal with |- context [if ?x then _ else _] => let E := fresh "E" in destruct x eqn:E end;
    intros H; try discriminate H; injection H as <-; apply A; tauto.
Qed.
Lemma trim_start_pre l : exists pre, ws_run pre /\ l = pre ++ trim_start l.
Proof.
  remember (length l) as n eqn:En. assert (Hn : length l <= n) by lia. clear En. revert l Hn.
  induction n as [|n IH]; intros l Hn.
  - destruct l; [|cbn in Hn; lia]. exists []. split; [constructor|reflexivity].
  - destruct (ws_len l) as [|k] eqn:E.
    + exists []. split; [constructor|]. rewrite trim_start_id by exact E. reflexivity.
    + destruct (ws_len_pos l k E) as (c & bs & l' & -> & Hl & Hc & Hw).
      destruct (IH l') as (pre & Hp & E'); [rewrite app_length in Hn; lia|].
      exists (bs ++ pre). split; [econstructor; eassumption|]. rewrite (trim_start_char c bs) by assumption.
      rewrite <- app_assoc, <- E'. reflexivity.
Qed.

Definition dec_from (n : Z) (ds : bytes) : Z :=
  fold_left (fun a b => 10 * a + (Z.of_N (Byte.to_N b) - 48))%Z ds n.
Lemma digits_upto_iff max : forall s n v r, digits_upto max s n = (v, r) <->
  exists ds, Forall digit ds /\ length ds <= max /\ (length ds = max \/ no_digit_first r)
    /\ v = dec_from n ds /\ s = ds ++ r.
Proof.
  induction max as [|max IH]; intros s n v r; cbn [digits_upto].
  - split.
    + intros [= <- <-]. exists []. split; [constructor|]. cbn. auto.
    + intros (ds & _ & Hl & _ & -> & ->). destruct ds; [reflexivity|cbn in Hl; lia].
  - destruct s as [|c s].
    + split.
      * intros [= <- <-]. exists []. split; [constructor|]. cbn [length]. split; [lia|]. split; [right; intros b t E; discriminate|auto].
      * intros (ds & _ & _ & _ & -> & E). symmetry in E. apply app_eq_nil in E. destruct E as [-> ->]. reflexivity.
    + destruct (is_digit c) eqn:Ec.
      * rewrite IH. assert (Hd : digit c) by (apply is_digit_iff, Ec).
        assert (Hv : (n * 10 + digit_val c = 10 * n + (Z.of_N (Byte.to_N c) - 48))%Z).
        { unfold digit_val. unfold digit in Hd. unfold b2n. lia. }
        split.
        -- intros (ds & H1 & H2 & H3 & -> & ->). exists (c :: ds). split; [constructor; assumption|].
           cbn [length]. split; [lia|]. split; [destruct H3; [left; lia|auto]|]. rewrite Hv. auto.
        -- intros (ds & H1 & H2 & H3 & -> & E). destruct ds as [|x ds].
           ++ cbn in H3. destruct H3 as [H3|H3]; [lia|]. cbn in E. exfalso. eapply H3; [symmetry; exact E|exact Hd].
           ++ injection E as <- ->. apply Forall_cons_iff in H1. cbn [length] in *. exists ds. split; [apply H1|].
              split; [lia|]. split; [destruct H3; [left; lia|auto]|]. rewrite Hv. auto.
      * split.
        -- intros [= <- <-]. exists []. split; [constructor|]. cbn [length]. split; [lia|]. split; [|auto]. right.
           intros b t [= <- <-] Hd. apply is_digit_iff in Hd. congruence.
        -- intros (ds & H1 & H2 & H3 & -> & E). destruct ds as [|x ds]; [cbn in E; subst r; reflexivity|].
           injection E as <- ->. apply Forall_cons_iff in H1. destruct H1 as [H1 _]. apply is_digit_iff in H1. congruence.
Qed.
Lemma scan_number_iff max s v r : 1 <= max -> scan_number max s = Some (v, r) <->
  exists ds, Forall digit ds /\ 1 <= length ds <= max /\ (length ds = max \/ no_digit_first r)
    /\ v = dec ds /\ s = ds ++ r.
Proof.
  intros Hm. unfold scan_number. split.
  - destruct s as [|c s]; [discriminate|]. destruct (is_digit c) eqn:E; [|discriminate]. intros H. injection H as H.
    apply digits_upto_iff in H. destruct H as (ds & H1 & H2 & H3 & H4 & H5). exists ds. split; [exact H1|].
    split; [|auto]. split; [|exact H2]. destruct ds as [|x ds]; [|cbn; lia]. exfalso. cbn in H3, H5.
    destruct H3 as [H3|H3]; [lia|]. eapply H3; [symmetry; exact H5|]. apply is_digit_iff, E.
  - intros (ds & H1 & H2 & H3 & -> & ->). destruct ds as [|c ds]; [cbn in H2; lia|]. cbn [app].
    assert (E : is_digit c = true) by (apply Forall_cons_iff in H1; apply is_digit_iff, H1). rewrite E. f_equal.
    apply digits_upto_iff. exists (c :: ds). repeat split; try assumption. apply H2.
Qed.
Lemma digits_not_ws ds r : Forall digit ds -> ds <> [] -> ws_len (ds ++ r) = 0.
Proof.
  intros H Hn. destruct ds as [|c ds]; [congruence|]. apply digit_not_ws. apply is_digit_iff. apply Forall_cons_iff in H. apply H.
Qed.
Lemma parse_unsigned_iff max s v r : 1 <= max -> parse_unsigned max s = Some (v, r) <-> num_field max v s r.
Proof.
  intros Hm. unfold parse_unsigned. rewrite scan_number_iff by exact Hm. unfold num_field. split.
  - intros (ds & H1 & H2 & H3 & H4 & H5). destruct (trim_start_pre s) as (pre & Hp & Es). exists pre, ds. rewrite <- H5. auto 8.
  - intros (pre & ds & Hp & H1 & H2 & H3 & H4 & ->). exists ds. rewrite trim_start_run by exact Hp.
    rewrite trim_start_id; [auto 8|]. apply digits_not_ws; [exact H1|]. intros ->. cbn in H2. lia.
Qed.
Lemma sign_not_ws b l : b = x2d \/ b = x2b -> ws_len (b :: l) = 0.
Proof. intros [-> | ->]; destruct l as [|? [|? ?]]; reflexivity. Qed.
Lemma sign_number s v r : scan_number (length s) s = Some (v, r) <->
  exists ds, Forall digit ds /\ ds <> [] /\ no_digit_first r /\ v = dec ds /\ s = ds ++ r.
Proof.
  destruct s as [|c s].
  - split; [discriminate|]. intros (ds & _ & Hn & _ & _ & E). symmetry in E. apply app_eq_nil in E. destruct E; congruence.
  - rewrite scan_number_iff by (cbn; lia). split.
    + intros (ds & H1 & H2 & H3 & H4 & H5). exists ds. split; [exact H1|]. split; [intros ->; cbn in H2; lia|]. split; [|auto].
      destruct H3 as [H3|H3]; [|exact H3]. rewrite H5, app_length in H3. destruct r; [intros b t E; discriminate|cbn in H3; lia].
    + intros (ds & H1 & H2 & H3 & H4 & H5). exists ds. split; [exact H1|]. split; [|auto]. rewrite H5, app_length.
      destruct ds; [congruence|cbn; lia].
Qed.
Lemma parse_year_iff s v r : parse_year s = Some (v, r) <-> year_field v s r.
Proof.
  unfold parse_year, year_field. split.
  - destruct (trim_start_pre s) as (pre & Hp & Es). destruct (trim_start s) as [|c s'] eqn:Et; [discriminate|].
    destruct (byte_eqb c x2d) eqn:E1.
    { apply byte_eqb_eq in E1. subst c. destruct (scan_number (length s') s') as [[v' r']|] eqn:E; [|discriminate].
      intros [= <- <-]. apply sign_number in E. destruct E as (ds & H1 & H2 & H3 & -> & ->). right.
      exists pre, x2d, ds. auto 8. }
    destruct (byte_eqb c x2b) eqn:E2.
    { apply byte_eqb_eq in E2. subst c. intros E. apply sign_number in E. destruct E as (ds & H1 & H2 & H3 & -> & ->). right.
      exists pre, x2b, ds. auto 8. }
    intros E. left. apply scan_number_iff in E; [|lia]. destruct E as (ds & H1 & H2 & H3 & H4 & H5).
    exists pre, ds. rewrite <- H5. auto 8.
  - intros [(pre & ds & Hp & H1 & H2 & H3 & H4 & ->)|(pre & sg & ds & Hp & H1 & H2 & H3 & H4 & ->)].
    + rewrite trim_start_run by exact Hp. destruct ds as [|c ds]; [cbn in H2; lia|].
      rewrite trim_start_id by (apply digits_not_ws; [exact H1|discriminate]). cbn [app].
      assert (Hd : digit c) by (apply Forall_cons_iff in H1; apply H1).
      assert (E1 : byte_eqb c x2d = false) by (apply not_true_is_false; intros E; apply byte_eqb_eq in E; subst c; vm_compute in Hd; destruct Hd as [Hd _]; congruence).
      assert (E2 : byte_eqb c x2b = false) by (apply not_true_is_false; intros E; apply byte_eqb_eq in E; subst c; vm_compute in Hd; destruct Hd as [Hd _]; congruence).
      rewrite E1, E2. apply scan_number_iff; [lia|]. exists (c :: ds). auto 8.
    + rewrite trim_start_run by exact Hp. destruct H4 as [[-> ->]|[-> ->]]; rewrite trim_start_id by (apply sign_not_ws; auto).
      * change (byte_eqb x2b x2d) with false. change (byte_eqb x2b x2b) with true. apply sign_number. exists ds. auto 8.
      * change (byte_eqb x2d x2d) with true.
        assert (E : scan_number (length (ds ++ r)) (ds ++ r) = Some (dec ds, r)) by (apply sign_number; exists ds; auto 8).
        rewrite E. reflexivity.
Qed.

(** ** Years stay small *)
Lemma dec_from_bound ds : forall n, Forall digit ds -> (0 <= n)%Z ->
  (0 <= dec_from n ds < (n + 1) * 10 ^ Z.of_nat (length ds))%Z.
Proof.
  induction ds as [|c ds IH]; intros n H Hn; [cbn; lia|]. apply Forall_cons_iff in H. destruct H as [Hc H].
  unfold digit in Hc. cbn [dec_from fold_left length]. specialize (IH (10 * n + (Z.of_N (Byte.to_N c) - 48))%Z H ltac:(lia)).
  unfold dec_from in IH. rewrite Nat2Z.inj_succ, Z.pow_succ_r by lia. nia.
Qed.
Lemma dec_bound ds k : Forall digit ds -> length ds <= k -> (0 <= dec ds < 10 ^ Z.of_nat k)%Z.
Proof.
  intros H Hl. pose proof (dec_from_bound ds 0 H ltac:(lia)) as B. change (dec_from 0 ds) with (dec ds) in B.
  assert (10 ^ Z.of_nat (length ds) <= 10 ^ Z.of_nat k)%Z by (apply Z.pow_le_mono_r; lia). lia.
Qed.
(** [number_run k s]: [s] consists of [k] numbers of at most two digits. *)
Inductive number_run : nat -> bytes -> Prop :=
| NR_nil : number_run 0 []
| NR_cons k v s r : num_field 2 v s r -> number_run k r -> number_run (S k) s.
Lemma number_run_length k s : number_run (S k) s ->
  length s >= 2 * k + 1 /\ (no_digit_first s -> length s >= 2 * k + 2).
Proof.
  remember (S k) as n eqn:En. intros H. revert k En. induction H as [|n v s r (pre & ds & Hp & H1 & H2 & H3 & _ & ->) Hr IH]; intros k En; [discriminate|].
  injection En as ->.
  assert (Hpre : no_digit_first (pre ++ ds ++ r) -> length pre >= 1).
  { intros Hn. destruct pre as [|x pre]; [exfalso|cbn; lia]. destruct ds as [|b ds]; [cbn in H2; lia|].
    eapply Hn; [reflexivity|apply Forall_cons_iff in H1; apply H1]. }
  rewrite !app_length. destruct k as [|k].
  - inversion Hr; subst. cbn [length]. split; [lia|]. intros Hn. apply Hpre in Hn. lia.
  - destruct (IH k eq_refl) as [B1 B2]. destruct H3 as [H3|H3]; [|specialize (B2 H3)]; split; try lia; intros Hn; apply Hpre in Hn; lia.
Qed.
Lemma year_bound y text r k : year_field y text r -> number_run (S k) r -> length text <= 2 * k + 6 ->
  (-999 <= y <= 9999)%Z.
Proof.
  intros Hy Hr Hl. apply number_run_length in Hr. destruct Hr as [_ Hr].
  destruct Hy as [(pre & ds & _ & H & Hd & _ & -> & ->)|(pre & sg & ds & _ & H & Hn & Hf & Hv & ->)].
  - pose proof (dec_bound ds 4 H ltac:(lia)). change (10 ^ Z.of_nat 4)%Z with 10000%Z in *. lia.
  - specialize (Hr Hf). rewrite app_length in Hl. cbn [length] in Hl. rewrite app_length in Hl.
    pose proof (dec_bound ds 3 H ltac:(lia)). change (10 ^ Z.of_nat 3)%Z with 1000%Z in *. destruct Hv as [[_ ->]|[_ ->]]; lia.
Qed.
Lemma numbers_year text y m d h mi s : stamp_numbers text (y, m, d) h mi s -> (-999 <= y <= 9999)%Z.
Proof.
  intros H. inversion H as [t y0 m0 d0 r1 r2 Hl Hy Hm Hd|t y0 m0 d0 h0 mi0 r1 r2 r3 r4 Hl Hy Hm Hd Hh Hmi|
    t y0 m0 d0 h0 mi0 s0 r1 r2 r3 r4 r5 Hl Hy Hm Hd Hh Hmi Hs]; subst.
  - eapply (year_bound y text r1 1); [exact Hy| |lia]. repeat (econstructor; [eassumption|]). constructor.
  - eapply (year_bound y text r1 3); [exact Hy| |lia]. repeat (econstructor; [eassumption|]). constructor.
  - eapply (year_bound y text r1 4); [exact Hy| |lia]. repeat (econstructor; [eassumption|]). constructor.
Qed.

(** ** Parsing by format *)
Lemma to_datetime_ok y m d h mi s dt : (-999 <= y <= 9999)%Z ->
  (to_datetime y m d h mi s = Some dt <->
   calendar_date (y, m, d) /\ (h <= 23)%Z /\ (mi <= 59)%Z /\ (s <= 60)%Z /\ dt = mkDT y m d h mi (Z.min s 59)).
Proof.
  intros Hy. rewrite calendar_iff. unfold to_datetime, valid_date.
  assert (E : (s <= 60)%Z -> (if (s =? 60)%Z then 59%Z else s) = Z.min s 59) by (intros; destruct (Z.eqb_spec s 60); lia).
  split.
  - match goal with |- (if ?b then _ else _) = _ -> _ => destruct b eqn:B; [|discriminate] end.
    intros H. injection H as <-. rewrite !andb_true_iff, !Z.leb_le in B. rewrite E by apply B.
    destruct B as [[[[[B1 B2] B3] B4] B5] [[B6 B7] B8]]. repeat split; try assumption; lia.
  - intros ((M1 & M2) & H1 & H2 & H3 & ->). rewrite E by exact H3.
    match goal with |- (if ?b then _ else _) = _ => assert (B : b = true) end.
    { rewrite !andb_true_iff, !Z.leb_le. lia. }
    rewrite B. reflexivity.
Qed.
Lemma ends_iff {A} r (x : option A) v : ends r x = Some v <-> r = [] /\ x = Some v.
Proof. destruct r; cbn; split; intuition (try discriminate; auto). Qed.
Ltac open_opt := repeat match goal with
  | H : (match ?m with Some _ => _ | None => None end) = Some _ |- _ =>
      let E := fresh "E" in destruct m as [[? ?]|] eqn:E; [|discriminate H]
  end.
(** [format_text n text dt]: the text has length [n] and its numbers are the parts of [dt]. *)
Definition parse_stamp (s : bytes) : option datetime :=
  match length s with
  | 8 => parse_ymd s | 12 => parse_ymdhm s | 14 => parse_ymdhms s | _ => None
  end.
Lemma parse_numbers s dt : parse_stamp s = Some dt <->
  exists y m d h mi sec, stamp_numbers s (y, m, d) h mi sec /\ to_datetime y m d h mi sec = Some dt.
Proof.
  unfold parse_stamp. split.
  - assert (C : length s = 8 \/ length s = 12 \/ length s = 14 \/ parse_stamp s = None).
    { unfold parse_stamp. do 15 (destruct s as [|? s]; cbn [length]; auto). }
    unfold parse_stamp in C. intros H. destruct C as [C|[C|[C|C]]]; [| | |congruence]; rewrite C in H.
    + unfold parse_ymd in H. open_opt. apply ends_iff in H. destruct H as [-> H].
      apply parse_year_iff in E. apply parse_unsigned_iff in E0, E1; [|lia..].
      do 6 eexists. split; [eapply SN_8; eassumption|exact H].
    + unfold parse_ymdhm in H. open_opt. apply ends_iff in H. destruct H as [-> H].
      apply parse_year_iff in E. apply parse_unsigned_iff in E0, E1, E2, E3; [|lia..].
      do 6 eexists. split; [eapply SN_12; eassumption|exact H].
    + unfold parse_ymdhms in H. open_opt. apply ends_iff in H. destruct H as [-> H].
      apply parse_year_iff in E. apply parse_unsigned_iff in E0, E1, E2, E3, E4; [|lia..].
      do 6 eexists. split; [eapply SN_14; eassumption|exact H].
  - intros (y & m & d & h & mi & sec & H & Ht).
    inversion H as [t y0 m0 d0 r1 r2 Hl Hy Hm Hd|t y0 m0 d0 h0 mi0 r1 r2 r3 r4 Hl Hy Hm Hd Hh Hmi|
      t y0 m0 d0 h0 mi0 s0 r1 r2 r3 r4 r5 Hl Hy Hm Hd Hh Hmi Hs]; subst; rewrite Hl; apply parse_year_iff in Hy;
      repeat match goal with X : num_field 2 _ _ _ |- _ => apply parse_unsigned_iff in X; [|lia] end.
    + unfold parse_ymd. rewrite Hy, Hm, Hd. exact Ht.
    + unfold parse_ymdhm. rewrite Hy, Hm, Hd, Hh, Hmi. exact Ht.
    + unfold parse_ymdhms. rewrite Hy, Hm, Hd, Hh, Hmi, Hs. exact Ht.
Qed.
Lemma dt_instant y m d h mi s t : calendar_date (y, m, d) ->
  (dt_timestamp (mkDT y m d h mi s) = t <-> instant (y, m, d) h mi s t).
Proof.
  intros H. unfold instant, dt_timestamp. cbn [dt_year dt_month dt_day dt_hour dt_min dt_sec]. split.
  - intros <-. exists (days_from_ce y m d - 719163)%Z. split; [apply day_no_iff; [exact H|reflexivity]|lia].
  - intros (n & Hn & ->). apply day_no_iff in Hn; [|exact H]. subst n. lia.
Qed.
Lemma parse_denotes s t : (exists dt, parse_stamp s = Some dt /\ dt_timestamp dt = t) <-> denotes s t.
Proof.
  unfold denotes. split.
  - intros (dt & H & Ht). apply parse_numbers in H. destruct H as (y & m & d & h & mi & sec & Hs & Hd).
    pose proof (numbers_year _ _ _ _ _ _ _ Hs) as Hy. apply to_datetime_ok in Hd; [|exact Hy].
    destruct Hd as (Hc & H1 & H2 & H3 & ->). exists (y, m, d), h, mi, sec. apply dt_instant in Ht; [auto 8|exact Hc].
  - intros ([[y m] d] & h & mi & sec & Hs & Hc & H1 & H2 & H3 & Hi).
    exists (mkDT y m d h mi (Z.min sec 59)). split; [|apply dt_instant; assumption].
    apply parse_numbers. exists y, m, d, h, mi, sec. split; [exact Hs|]. apply to_datetime_ok; [eapply numbers_year, Hs|auto 8].
Qed.

(** ** Quotes and the final [Z] *)
Lemma trim_start_matches_iff c s u : trim_start_matches c s = u <->
  (forall t, u <> c :: t) /\ exists i, s = repeat c i ++ u.
Proof.
  split.
  - intros <-. induction s as [|b s [IH1 (i & IH2)]]; cbn [trim_start_matches].
    + split; [discriminate|]. exists 0. reflexivity.
    + destruct (byte_eqb b c) eqn:E.
      * apply byte_eqb_eq in E. subst b. split; [exact IH1|]. exists (S i). cbn [repeat app]. rewrite <- IH2. reflexivity.
      * split; [intros t [= -> _]; rewrite byte_eqb_refl in E; discriminate|]. exists 0. reflexivity.
  - intros (Hu & i & ->). induction i as [|i IH]; cbn [repeat app trim_start_matches].
    + destruct u as [|b u]; [reflexivity|]. cbn [trim_start_matches]. destruct (byte_eqb b c) eqn:E; [|reflexivity].
      apply byte_eqb_eq in E. subst b. exfalso. eapply Hu. reflexivity.
    + rewrite byte_eqb_refl. exact IH.
Qed.
Lemma rev_repeat {A} (c : A) n : rev (repeat c n) = repeat c n.
Proof.
  induction n as [|n IH]; [reflexivity|]. cbn [repeat rev]. rewrite IH. symmetry. apply (repeat_cons n c).
Qed.
Lemma trim_end_matches_iff c s u : trim_end_matches c s = u <->
  (forall t, u <> t ++ [c]) /\ exists i, s = u ++ repeat c i.
Proof.
  unfold trim_end_matches. split.
  - intros H. assert (E : trim_start_matches c (rev s) = rev u) by (rewrite <- H, rev_involutive; reflexivity).
    apply trim_start_matches_iff in E. destruct E as (E1 & i & E2). split.
    + intros t ->. apply (E1 (rev t)). rewrite rev_app_distr. reflexivity.
    + exists i. rewrite <- (rev_involutive s), E2, rev_app_distr, rev_involutive, rev_repeat. reflexivity.
  - intros (H & i & ->). rewrite rev_app_distr, rev_repeat.
    assert (E : trim_start_matches c (repeat c i ++ rev u) = rev u).
    { apply trim_start_matches_iff. split; [|eauto]. intros t E. apply (H (rev t)). rewrite <- (rev_involutive u), E. reflexivity. }
    rewrite E, rev_involutive. reflexivity.
Qed.
Lemma trim_matches_iff v u : trim_matches quote v = u <-> unquoted v u.
Proof.
  unfold trim_matches, unquoted. split.
  - intros H. apply trim_end_matches_iff in H. destruct H as (H1 & j & H2).
    apply trim_start_matches_iff in H2. destruct H2 as (H3 & i & ->). destruct u as [|b u].
    + exists i, j. repeat split; [discriminate|intros t E; destruct t; discriminate].
    + exists i, j. split; [reflexivity|]. split; [|exact H1]. intros t [= -> ->]. eapply H3. reflexivity.
  - intros (i & j & -> & H1 & H2). apply trim_end_matches_iff. split; [exact H2|].
    destruct u as [|b u].
    + exists 0. cbn [app repeat]. rewrite <- repeat_app. apply trim_start_matches_iff. split; [discriminate|]. exists (i + j). rewrite app_nil_r. reflexivity.
    + exists j. apply trim_start_matches_iff. split; [|eauto]. intros t [= -> _]. eapply H1. reflexivity.
Qed.
Lemma unquoted_total v : exists u, unquoted v u.
Proof. exists (trim_matches quote v). apply trim_matches_iff. reflexivity. Qed.
Lemma unquoted_fun v u u' : unquoted v u -> unquoted v u' -> u = u'.
Proof. rewrite <- !trim_matches_iff. congruence. Qed.
Lemma ends_with_iff c s : ends_with_byte c s = true <-> ends_in c s.
Proof.
  unfold ends_with_byte, ends_in. split.
  - destruct (rev s) as [|b t] eqn:E; [discriminate|]. intros H. apply byte_eqb_eq in H. subst b.
    exists (rev t). rewrite <- (rev_involutive s), E. reflexivity.
  - intros (l & ->). rewrite rev_app_distr. cbn. apply byte_eqb_refl.
Qed.

Definition bad_stamp : error := EInvalidAllowedSigner ASInvalidTimestamp.
Lemma parse_timestamp_eval tz text u : unquoted text u ->
  parse_timestamp tz text =
  if ends_with_byte x5a u then
    match parse_stamp (trim_end_matches x5a u) with Some dt => Ok (dt_timestamp dt) | None => Err bad_stamp end
  else match parse_stamp u with
       | Some dt => match tz (dt_timestamp dt) with Single off => Ok (dt_timestamp dt - off)%Z | _ => Panic end
       | None => Err bad_stamp
       end.
Proof.
  intros Hu. apply trim_matches_iff in Hu. unfold parse_timestamp. rewrite Hu. cbv zeta.
  assert (E : forall v, (match length v with
             | 8 => ok_or (parse_ymd v) (EInvalidAllowedSigner ASInvalidTimestamp)
             | 12 => ok_or (parse_ymdhm v) (EInvalidAllowedSigner ASInvalidTimestamp)
             | 14 => ok_or (parse_ymdhms v) (EInvalidAllowedSigner ASInvalidTimestamp)
             | _ => Err (EInvalidAllowedSigner ASInvalidTimestamp)
             end) = ok_or (parse_stamp v) bad_stamp).
  { intros v. unfold parse_stamp, bad_stamp. do 15 (destruct v as [|? v]; cbn [length]; try reflexivity). }
  rewrite E. destruct (ends_with_byte x5a u) eqn:Ez; cbn [negb].
  - rewrite andb_false_r. destruct (parse_stamp _); reflexivity.
  - rewrite andb_true_r. destruct (Nat.odd (length u)) eqn:Eo.
    + assert (N : parse_stamp u = None); [|rewrite N; reflexivity]. unfold parse_stamp.
      do 15 (destruct u as [|? u]; cbn [length] in *; try reflexivity; try discriminate Eo).
    + destruct (parse_stamp u); reflexivity.
Qed.
Lemma ends_in_dec c l : {ends_in c l} + {~ ends_in c l}.
Proof.
  destruct (ends_with_byte c l) eqn:E; [left; apply ends_with_iff, E|right]. intros H. apply ends_with_iff in H. congruence.
Qed.
Lemma ends_body (u body : bytes) k : u = body ++ repeat x5a (S k) -> ~ ends_in x5a body ->
  ends_in x5a u /\ trim_end_matches x5a u = body.
Proof.
  intros -> H. split.
  - exists (body ++ repeat x5a k). cbn [repeat]. rewrite repeat_cons, app_assoc. reflexivity.
  - apply trim_end_matches_iff. split; [intros t ->; apply H; eexists; reflexivity|eauto].
Qed.
Lemma parse_timestamp_ok tz text t : parse_timestamp tz text = Ok t <-> stamp tz text t.
Proof.
  destruct (unquoted_total text) as (u & Hu). rewrite (parse_timestamp_eval tz text u Hu). split.
  - destruct (ends_with_byte x5a u) eqn:Ez.
    + apply ends_with_iff in Ez. destruct (parse_stamp _) as [dt|] eqn:Ep; [|discriminate]. intros H. injection H as <-.
      destruct (proj1 (trim_end_matches_iff x5a u _) eq_refl) as (Hb & i & Hi).
      destruct i as [|k]; [exfalso; destruct Ez as (l & Hl); rewrite app_nil_r in Hi; eapply Hb; rewrite <- Hi; exact Hl|].
      eapply St_utc; [exact Hu|exact Hi| |apply parse_denotes; eauto]. intros (l & Hl). eapply Hb, Hl.
    + assert (Hz : ~ ends_in x5a u) by (intros H; apply ends_with_iff in H; congruence).
      destruct (parse_stamp u) as [dt|] eqn:Ep; [|discriminate]. destruct (tz (dt_timestamp dt)) eqn:Et; try discriminate.
      intros H. injection H as <-. eapply St_local; [exact Hu|exact Hz|apply parse_denotes; eauto|exact Et].
  - intros H. inversion H as [u' body k t' Hu' Hb Hz Hd|u' t' off Hu' Hz Hd Ht]; subst; pose proof (unquoted_fun _ _ _ Hu Hu') as E.
    + destruct (ends_body u body k E Hz) as [H1 H2]. apply ends_with_iff in H1. rewrite H1, H2.
      apply parse_denotes in Hd. destruct Hd as (dt & -> & <-). reflexivity.
    + subst u'. assert (Ez : ends_with_byte x5a u = false) by (apply not_true_is_false; intros E; apply ends_with_iff in E; contradiction).
      rewrite Ez. apply parse_denotes in Hd. destruct Hd as (dt & -> & <-). rewrite Ht. reflexivity.
Qed.
Lemma parse_timestamp_panic tz text : parse_timestamp tz text = Panic <-> unmapped tz text.
Proof.
  destruct (unquoted_total text) as (u & Hu). rewrite (parse_timestamp_eval tz text u Hu). unfold unmapped. split.
  - destruct (ends_with_byte x5a u) eqn:Ez; [destruct (parse_stamp _); discriminate|].
    assert (Hz : ~ ends_in x5a u) by (intros H; apply ends_with_iff in H; congruence).
    destruct (parse_stamp u) as [dt|] eqn:Ep; [|discriminate]. intros H. exists u, (dt_timestamp dt). split; [exact Hu|]. split; [exact Hz|].
    split; [apply parse_denotes; eauto|]. intros off E. rewrite E in H. discriminate.
  - intros (u' & t & Hu' & Hz & Hd & Ht). rewrite (unquoted_fun _ _ _ Hu Hu').
    assert (Ez : ends_with_byte x5a u' = false) by (apply not_true_is_false; intros E; apply ends_with_iff in E; contradiction).
    rewrite Ez. apply parse_denotes in Hd. destruct Hd as (dt & -> & <-). destruct (tz (dt_timestamp dt)) eqn:E; [|reflexivity..].
    exfalso. eapply Ht. reflexivity.
Qed.
Lemma parse_timestamp_err tz text e : parse_timestamp tz text = Err e -> e = bad_stamp.
Proof.
  destruct (unquoted_total text) as (u & Hu). rewrite (parse_timestamp_eval tz text u Hu).
  destruct (ends_with_byte x5a u); destruct (parse_stamp _); try discriminate; try congruence.
  destruct (tz _); discriminate.
Qed.

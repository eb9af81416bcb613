(** The model's encodings agree with the wire specification. *)
From Verif Require Import Base BaseFacts Utf8 SpecWire Reader ReaderFacts Writer WriterFacts.


Lemma be32_to_be n : be32 n = to_be 4 n.
Proof.
  unfold be32, to_be. rewrite !N.div_div by discriminate. reflexivity.
Qed.
Lemma be64_to_be n : be64 n = to_be 8 n.
Proof.
  unfold be64. rewrite !be32_to_be. unfold to_be. rewrite !N.div_div by discriminate. reflexivity.
Qed.
Lemma field_enc b : field b = enc_bytes b.
Proof. unfold field, enc_bytes, size. rewrite be32_to_be. reflexivity. Qed.
Lemma field_ok_fits b : field_ok b <-> fits b.
Proof. unfold field_ok, fits, size, u32_max. change (2 ^ 32)%N with 4294967296%N. lia. Qed.
Lemma magnitude_from_be l : magnitude l = from_be l.
Proof.
  induction l as [|b l IH]; [reflexivity|]. cbn [magnitude].
  rewrite from_be_cons, IH. reflexivity.
Qed.
Lemma shortest_iff l : shortest l <-> no_lead_zero l.
Proof.
  unfold shortest, no_lead_zero. destruct l as [|b l].
  - split; [trivial|discriminate].
  - split.
    + intros H E. apply (H l). apply b2n_zero in E. subst. reflexivity.
    + intros H l' [= -> ->]. apply H. reflexivity.
Qed.
Lemma field_length b : length (field b) = 4 + length b.
Proof. rewrite field_enc. apply enc_bytes_length. Qed.
Lemma field_inj a b x y : field_ok a -> field_ok b -> field a ++ x = field b ++ y -> a = b /\ x = y.
Proof. rewrite !field_ok_fits, !field_enc. apply enc_bytes_inj. Qed.

(** ** mpint *)
Lemma twos_nonneg l z : twos_complement l = z -> (0 <= z)%Z ->
  Z.of_N (from_be l) = z /\ match l with b :: _ => (b2n b < 128)%N | [] => True end.
Proof.
  unfold twos_complement. destruct l as [|b l]; [intros <-; auto|].
  change Byte.to_N with b2n. rewrite magnitude_from_be. destruct (128 <=? b2n b)%N eqn:E.
  - intros <- H. exfalso. pose proof (from_be_bound (b :: l)).
    assert (E2 : (2 ^ (8 * Z.of_nat (length (b :: l))))%Z
                 = Z.of_N (256 ^ N.of_nat (length (b :: l)))).
    { rewrite Z.pow_mul_r by lia. rewrite N2Z.inj_pow. f_equal. }
    rewrite E2 in H. lia.
  - intros <- _. split; [reflexivity|lia].
Qed.

Lemma mpint_bytes_twos m : no_lead_zero m ->
  twos_complement (mpint_bytes m) = Z.of_N (from_be m).
Proof.
  unfold twos_complement, mpint_bytes. destruct m as [|b m]; [reflexivity|]. intros _.
  destruct (128 <=? b2n b)%N eqn:E.
  - change (128 <=? Byte.to_N x00)%N with false. cbn iota. rewrite magnitude_from_be, from_be_cons.
    change (b2n x00) with 0%N. rewrite N.mul_0_l. reflexivity.
  - change (Byte.to_N b) with (b2n b). rewrite E, magnitude_from_be. reflexivity.
Qed.

Lemma from_be_lt_128 b l : (b2n b < 128)%N ->
  (from_be (b :: l) < 128 * 256 ^ N.of_nat (length l))%N.
Proof.
  intros H. rewrite from_be_cons. pose proof (from_be_bound l). nia.
Qed.
Lemma from_be_ge b l : (b2n b * 256 ^ N.of_nat (length l) <= from_be (b :: l))%N.
Proof. rewrite from_be_cons. lia. Qed.

Lemma pow256_lt_inv a b : (256 ^ N.of_nat a < 256 ^ N.of_nat b)%N -> a < b.
Proof.
  intros H. destruct (Nat.lt_ge_cases a b) as [|Hge]; [assumption|].
  exfalso. pose proof (N.pow_le_mono_r 256 (N.of_nat b) (N.of_nat a) ltac:(discriminate) ltac:(lia)). lia.
Qed.

Lemma mpint_minimal m l : no_lead_zero m ->
  twos_complement l = Z.of_N (from_be m) -> length (mpint_bytes m) <= length l.
Proof.
  intros Hm Hl. apply twos_nonneg in Hl; [|lia]. destruct Hl as [Hl Hf].
  assert (E : from_be l = from_be m) by lia. clear Hl.
  destruct m as [|b m]; [simpl; lia|]. simpl in Hm.
  pose proof (from_be_ge b m) as Hg. unfold mpint_bytes.
  destruct l as [|c l].
  - exfalso. rewrite from_be_nil in E.
    pose proof (N.pow_nonzero 256 (N.of_nat (length m)) ltac:(discriminate)). nia.
  - pose proof (from_be_lt_128 c l Hf) as Hc.
    destruct (128 <=? b2n b)%N eqn:Eb; cbn [length].
    + assert ((256 ^ N.of_nat (length m) < 256 ^ N.of_nat (length l))%N) by nia.
      apply pow256_lt_inv in H. lia.
    + assert ((256 ^ N.of_nat (length m) < 256 ^ N.of_nat (S (length l)))%N).
      { rewrite Nnat.Nat2N.inj_succ, N.pow_succ_r'. nia. }
      apply pow256_lt_inv in H. lia.
Qed.

Lemma mpint_content_of_iff z l : (0 <= z)%Z ->
  (mpint_content_of z l <->
   exists m, no_lead_zero m /\ Z.of_N (from_be m) = z /\ l = mpint_bytes m).
Proof.
  intros Hz. split.
  - intros [H1 H2]. pose proof (twos_nonneg l z H1 Hz) as [Hv Hf].
    exists (strip0 l). split; [apply strip0_no_lead|]. rewrite strip0_value. split; [exact Hv|].
    assert (Hn : no_lead_zero (strip0 l)) by apply strip0_no_lead.
    assert (Ht : twos_complement (mpint_bytes (strip0 l)) = z).
    { rewrite mpint_bytes_twos by exact Hn. rewrite strip0_value. exact Hv. }
    pose proof (H2 _ Ht) as L1.
    assert (L2 : length (mpint_bytes (strip0 l)) <= length l).
    { apply mpint_minimal; [exact Hn|]. rewrite strip0_value. congruence. }
    apply from_be_inj; [lia|].
    apply twos_nonneg in Ht; [|exact Hz]. destruct Ht as [Ht _]. lia.
  - intros (m & Hm & Hv & ->). split.
    + rewrite mpint_bytes_twos by exact Hm. exact Hv.
    + intros l' Hl'. apply mpint_minimal; [exact Hm|congruence].
Qed.

Lemma no_lead_zero_inj a b : no_lead_zero a -> no_lead_zero b -> from_be a = from_be b -> a = b.
Proof.
  intros Ha Hb H.
  assert (La : length (mpint_bytes a) <= length (mpint_bytes b)).
  { apply mpint_minimal; [exact Ha|]. rewrite mpint_bytes_twos by exact Hb. congruence. }
  assert (Lb : length (mpint_bytes b) <= length (mpint_bytes a)).
  { apply mpint_minimal; [exact Hb|]. rewrite mpint_bytes_twos by exact Ha. congruence. }
  assert (E : mpint_bytes a = mpint_bytes b).
  { apply from_be_inj; [lia|].
    pose proof (mpint_bytes_twos a Ha) as Ta. pose proof (mpint_bytes_twos b Hb) as Tb.
    apply twos_nonneg in Ta; [|lia]. apply twos_nonneg in Tb; [|lia]. lia. }
  pose proof (proj2 (mpint_content_iff _ a) (conj eq_refl Ha)) as Ca.
  pose proof (proj2 (mpint_content_iff _ b) (conj eq_refl Hb)) as Cb. congruence.
Qed.

Lemma shortest_exists z : (0 <= z)%Z -> exists m, no_lead_zero m /\ Z.of_N (from_be m) = z.
Proof.
  intros Hz. set (n := Z.to_N z).
  exists (strip0 (to_be (N.to_nat n) n)). split; [apply strip0_no_lead|].
  rewrite strip0_value, from_be_to_be_small; [subst n; lia|].
  rewrite N2Nat.id. apply N.pow_gt_lin_r. reflexivity.
Qed.

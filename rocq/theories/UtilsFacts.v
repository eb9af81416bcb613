(** Lemmas about DER signature conversion. *)
From Verif Require Import Base BaseFacts SpecWire ReaderFacts WireFacts KeyType PubKeyType Writer WriterFacts
  Crypto SpecSig Utils.

Lemma b2n_n2b_nat n : n < 256 -> N.to_nat (b2n (n2b (N.of_nat n))) = n.
Proof. intros H. rewrite b2n_n2b, N.mod_small by lia. lia. Qed.
Lemma n2b_nat_of b : n2b (N.of_nat (N.to_nat (b2n b))) = b.
Proof. rewrite N2Nat.id. apply n2b_b2n. Qed.
Lemma b2n_is (b : byte) (c : byte) : (b2n b =? b2n c)%N = byte_eqb b c.
Proof.
  destruct (byte_eqb b c) eqn:E.
  - apply byte_eqb_eq in E. subst. apply N.eqb_refl.
  - apply byte_eqb_neq in E. apply N.eqb_neq. intros H. apply E, b2n_inj, H.
Qed.

Lemma der_split_cases buf :
  (exists x r s, length r < 256 /\ length s < 256 /\ s <> []
     /\ buf = x30 :: x :: x02 :: n2b (N.of_nat (length r)) :: r ++ x02 :: n2b (N.of_nat (length s)) :: s
     /\ asn_der_to_r_s buf = Ok (Some (r, s)))
  \/ asn_der_to_r_s buf = Ok None.
Proof.
  unfold asn_der_to_r_s.
  destruct buf as [|b0 [|b1 [|b2 [|rl buf]]]]; try (right; reflexivity).
  change (length (b0 :: b1 :: b2 :: rl :: buf) <? 4) with false. cbn [index nth_error bind].
  change 48%N with (b2n x30). change 2%N with (b2n x02). rewrite !b2n_is.
  destruct (byte_eqb b0 x30) eqn:E0; [|right; reflexivity]. apply byte_eqb_eq in E0. subst b0.
  destruct (byte_eqb b2 x02) eqn:E2; [|right; reflexivity]. apply byte_eqb_eq in E2. subst b2.
  cbn [negb]. rewrite slice_from_ok by (cbn; lia). cbn [skipn bind index nth_error].
  pose proof (b2n_lt rl) as Hrl.
  destruct (length (rl :: buf) <? N.to_nat (b2n rl) + 2) eqn:E3; [right; reflexivity|].
  apply Nat.ltb_ge in E3. cbn [length] in E3.
  rewrite slice_from_ok by (cbn; lia). cbn [skipn bind].
  rewrite slice_to_ok by lia. cbn [bind]. rewrite slice_from_ok by lia. cbn [bind].
  set (r := firstn (N.to_nat (b2n rl)) buf). set (buf' := skipn (N.to_nat (b2n rl)) buf).
  assert (Hb : buf = r ++ buf') by (symmetry; apply firstn_skipn).
  assert (Hr : length r = N.to_nat (b2n rl)) by (unfold r; rewrite firstn_length; lia).
  destruct buf' as [|t [|sl s]]; try (right; reflexivity).
  destruct s as [|s0 s]; [right; reflexivity|].
  change (length (t :: sl :: s0 :: s) <? 3) with false. cbn [index nth_error bind]. rewrite b2n_is.
  destruct (byte_eqb t x02) eqn:E4; [|right; reflexivity]. apply byte_eqb_eq in E4. subst t.
  cbn [negb bind]. rewrite slice_from_ok by (cbn; lia). cbn [skipn bind].
  destruct (length (s0 :: s) =? N.to_nat (b2n sl)) eqn:E5; [|right; reflexivity].
  apply Nat.eqb_eq in E5. left. cbn [negb].
  exists b1, r, (s0 :: s). pose proof (b2n_lt sl). split; [lia|]. split; [lia|]. split; [discriminate|].
  split; [|reflexivity]. rewrite Hr, E5, !n2b_nat_of, Hb. reflexivity.
Qed.

Lemma der_split_ok x r s : length r < 256 -> length s < 256 -> s <> [] ->
  asn_der_to_r_s (x30 :: x :: x02 :: n2b (N.of_nat (length r)) :: r ++ x02 :: n2b (N.of_nat (length s)) :: s)
  = Ok (Some (r, s)).
Proof.
  intros Hr Hs Hne. unfold asn_der_to_r_s.
  match goal with |- context [length ?l <? 4] => change (length l <? 4) with false end. cbn [index nth_error bind].
  change (b2n x30 =? 48)%N with true. change (b2n x02 =? 2)%N with true. cbn [negb].
  rewrite slice_from_ok by (cbn; lia). cbn [skipn bind index nth_error].
  rewrite b2n_n2b_nat by exact Hr. cbn [length]. rewrite app_length. cbn [length].
  replace (S (length r + S (S (length s))) <? length r + 2) with false by lia.
  rewrite slice_from_ok by (cbn; lia). cbn [skipn bind].
  rewrite slice_to_ok by (rewrite app_length; lia). cbn [bind]. rewrite firstn_app_exact by reflexivity.
  rewrite slice_from_ok by (rewrite app_length; lia). cbn [bind]. rewrite skipn_app_exact by reflexivity.
  destruct s as [|s0 s]; [congruence|].
  match goal with |- context [length ?l <? 3] => change (length l <? 3) with false end. cbn [index nth_error bind].
  change (b2n x02 =? 2)%N with true. cbn [negb].
  rewrite slice_from_ok by (cbn; lia). cbn [skipn bind].
  rewrite b2n_n2b_nat by exact Hs. cbn [length]. rewrite Nat.eqb_refl. reflexivity.
Qed.

(** DER integer contents are the mpint contents of positive numbers. *)
Lemma der_integer_content z b : (0 < z)%Z -> der_integer z b ->
  exists c m, b = [x02; n2b (N.of_nat (length c))] ++ c /\ length c < 128 /\ c <> []
    /\ c = mpint_bytes m /\ no_lead_zero m /\ Z.of_N (from_be m) = z.
Proof.
  intros Hz (c & -> & Hl & Hne & Hv & Hhd & Hmin). rewrite magnitude_from_be in Hv.
  destruct c as [|x t]; [congruence|]. cbn [hd] in Hhd. change (Byte.to_N x) with (b2n x) in Hhd.
  destruct (byte_eqb x x00) eqn:Ex.
  - apply byte_eqb_eq in Ex. subst x. destruct t as [|y t].
    { exfalso. rewrite from_be_cons, from_be_nil in Hv. change (b2n x00) with 0%N in Hv. cbn in Hv. lia. }
    specialize (Hmin x00 y t eq_refl eq_refl). change (Byte.to_N y) with (b2n y) in Hmin.
    exists (x00 :: y :: t), (y :: t). split; [reflexivity|]. split; [exact Hl|]. split; [discriminate|].
    split; [|split].
    + unfold mpint_bytes; cbv beta iota. replace (128 <=? b2n y)%N with true by lia. reflexivity.
    + cbn. intros H. lia.
    + rewrite from_be_cons in Hv. change (b2n x00) with 0%N in Hv. rewrite N.mul_0_l, N.add_0_l in Hv. exact Hv.
  - apply byte_eqb_neq in Ex. exists (x :: t), (x :: t). split; [reflexivity|]. split; [exact Hl|].
    split; [discriminate|]. split; [|split; [|exact Hv]].
    + unfold mpint_bytes; cbv beta iota. replace (128 <=? b2n x)%N with false by lia. reflexivity.
    + cbn. intros H. apply Ex, b2n_inj. exact H.
Qed.

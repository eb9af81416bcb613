(** Lemmas about base64. *)
From Verif Require Import Base BaseFacts Base64 Str SpecBase64.

(** ** Alphabet *)
Lemma b64_val_char v : (v < 64)%N -> b64_val (b64_char v) = Some v.
Proof.
  intros H. unfold b64_char, b64_val.
  destruct (v <? 26)%N eqn:E1; [|destruct (v <? 52)%N eqn:E2; [|destruct (v <? 62)%N eqn:E3;
    [|destruct (v =? 62)%N eqn:E4]]].
  - rewrite b2n_n2b, N.mod_small by lia.
    replace ((65 <=? 65 + v)%N && (65 + v <=? 90)%N) with true by lia. f_equal. lia.
  - rewrite b2n_n2b, N.mod_small by lia.
    replace ((65 <=? 71 + v)%N && (71 + v <=? 90)%N) with false by lia.
    replace ((97 <=? 71 + v)%N && (71 + v <=? 122)%N) with true by lia. f_equal. lia.
  - rewrite b2n_n2b, N.mod_small by lia.
    replace ((65 <=? v - 4)%N && (v - 4 <=? 90)%N) with false by lia.
    replace ((97 <=? v - 4)%N && (v - 4 <=? 122)%N) with false by lia.
    replace ((48 <=? v - 4)%N && (v - 4 <=? 57)%N) with true by lia. f_equal. lia.
  - apply N.eqb_eq in E4. subst. reflexivity.
  - replace v with 63%N by lia. reflexivity.
Qed.

Lemma b64_char_val c v : b64_val c = Some v -> (v < 64)%N /\ b64_char v = c.
Proof.
  unfold b64_val. pose proof (b2n_lt c) as Lc.
  destruct (_ && _) eqn:E1.
  { intros [= <-]. split; [lia|]. unfold b64_char.
    replace (b2n c - 65 <? 26)%N with true by lia.
    replace (65 + (b2n c - 65))%N with (b2n c) by lia. apply n2b_b2n. }
  destruct ((97 <=? b2n c)%N && (b2n c <=? 122)%N) eqn:E2.
  { intros [= <-]. split; [lia|]. unfold b64_char.
    replace (b2n c - 71 <? 26)%N with false by lia.
    replace (b2n c - 71 <? 52)%N with true by lia.
    replace (71 + (b2n c - 71))%N with (b2n c) by lia. apply n2b_b2n. }
  destruct ((48 <=? b2n c)%N && (b2n c <=? 57)%N) eqn:E3.
  { intros [= <-]. split; [lia|]. unfold b64_char.
    replace (b2n c + 4 <? 26)%N with false by lia.
    replace (b2n c + 4 <? 52)%N with false by lia.
    replace (b2n c + 4 <? 62)%N with true by lia.
    replace (b2n c + 4 - 4)%N with (b2n c) by lia. apply n2b_b2n. }
  destruct (b2n c =? 43)%N eqn:E4.
  { intros [= <-]. split; [lia|]. apply N.eqb_eq in E4. apply b2n_inj. rewrite E4. reflexivity. }
  destruct (b2n c =? 47)%N eqn:E5; [|discriminate].
  intros [= <-]. split; [lia|]. apply N.eqb_eq in E5. apply b2n_inj. rewrite E5. reflexivity.
Qed.

Lemma b64_char_not_pad v : (v < 64)%N -> is_pad (b64_char v) = false.
Proof.
  intros H. unfold is_pad. apply byte_eqb_neq. intros E.
  pose proof (b64_val_char v H) as Hv. rewrite E in Hv. discriminate.
Qed.
Lemma b64_char_nth v : (v < 64)%N -> b64_char v = nth (N.to_nat v) alphabet x00.
Proof.
  intros H.
  assert (A : forall n, n < 64 -> b64_char (N.of_nat n) = nth n alphabet x00).
  { intros n Hn. do 64 (destruct n as [|n]; [reflexivity|]). lia. }
  rewrite <- A by lia. rewrite N2Nat.id. reflexivity.
Qed.

(** ** Text without padding *)
Fixpoint b64_core (l : bytes) : bytes :=
  match l with
  | [] => []
  | [a] => let n := b2n a in [b64_char (n / 4); b64_char (n mod 4 * 16)]
  | [a; b] =>
      let n := (b2n a * 256 + b2n b)%N in
      [b64_char (n / 1024); b64_char (n / 16 mod 64); b64_char (n mod 16 * 4)]
  | a :: b :: c :: l' =>
      let n := (b2n a * 65536 + b2n b * 256 + b2n c)%N in
      b64_char (n / 262144) :: b64_char (n / 4096 mod 64)
        :: b64_char (n / 64 mod 64) :: b64_char (n mod 64) :: b64_core l'
  end.

(** Induction by groups of three. *)
Lemma ind3 (P : bytes -> Prop) :
  P [] -> (forall a, P [a]) -> (forall a b, P [a; b]) ->
  (forall a b c l, P l -> P (a :: b :: c :: l)) -> forall l, P l.
Proof.
  intros H0 H1 H2 H3 l.
  assert (H : forall n l, length l <= n -> P l).
  { induction n as [|n IH]; intros l0 Hl.
    - destruct l0; [exact H0|simpl in Hl; lia].
    - destruct l0 as [|a [|b [|c l0]]]; auto. apply H3, IH. simpl in Hl. lia. }
  apply (H (length l)). lia.
Qed.
Lemma ind4 (P : bytes -> Prop) :
  P [] -> (forall a, P [a]) -> (forall a b, P [a; b]) -> (forall a b c, P [a; b; c]) ->
  (forall a b c d l, P l -> P (a :: b :: c :: d :: l)) -> forall l, P l.
Proof.
  intros H0 H1 H2 H3 H4 l.
  assert (H : forall n l, length l <= n -> P l).
  { induction n as [|n IH]; intros l0 Hl.
    - destruct l0; [exact H0|simpl in Hl; lia].
    - destruct l0 as [|a [|b [|c [|d l0]]]]; auto. apply H4, IH. simpl in Hl. lia. }
  apply (H (length l)). lia.
Qed.

Fixpoint npad (l : bytes) : nat :=
  match l with
  | [] => 0
  | [_] => 2
  | [_; _] => 1
  | _ :: _ :: _ :: l' => npad l'
  end.

Lemma b64_encode_core l : b64_encode l = b64_core l ++ repeat pad (npad l).
Proof.
  induction l as [|a|a b|a b c l IH] using ind3; try reflexivity.
  cbn [b64_encode b64_core npad app]. rewrite IH. reflexivity.
Qed.

Lemma npad_bound l : npad l < 3.
Proof. induction l using ind3; simpl; lia. Qed.

Lemma b64_core_chars l : Forall (fun c => exists v, (v < 64)%N /\ c = b64_char v) (b64_core l).
Proof.
  induction l as [|a|a b|a b c l IH] using ind3; cbn [b64_core].
  - constructor.
  - pose proof (b2n_lt a). repeat constructor; eexists; (split; [|reflexivity]); lia.
  - pose proof (b2n_lt a). pose proof (b2n_lt b).
    repeat constructor; eexists; (split; [|reflexivity]); lia.
  - pose proof (b2n_lt a). pose proof (b2n_lt b). pose proof (b2n_lt c).
    repeat constructor; try (eexists; (split; [|reflexivity]); lia). exact IH.
Qed.

Lemma b64_core_no_pad l : ~ In pad (b64_core l).
Proof.
  intros Hi. pose proof (b64_core_chars l) as H. rewrite Forall_forall in H.
  destruct (H _ Hi) as (v & Hv & E). pose proof (b64_char_not_pad v Hv) as Hp.
  rewrite <- E in Hp. discriminate.
Qed.

Lemma take_until_app c a b : ~ In c a -> take_until c (a ++ c :: b) = a.
Proof.
  induction a as [|x a IH]; intros H; simpl.
  - rewrite byte_eqb_refl. reflexivity.
  - destruct (byte_eqb x c) eqn:E.
    + apply byte_eqb_eq in E. subst. exfalso. apply H. left. reflexivity.
    + rewrite IH; [reflexivity|]. intros Hi. apply H. right. exact Hi.
Qed.
Lemma take_until_none c a : ~ In c a -> take_until c a = a.
Proof.
  induction a as [|x a IH]; intros H; simpl; [reflexivity|].
  destruct (byte_eqb x c) eqn:E.
  - apply byte_eqb_eq in E. subst. exfalso. apply H. left. reflexivity.
  - rewrite IH; [reflexivity|]. intros Hi. apply H. right. exact Hi.
Qed.
Lemma take_until_encode l : take_until pad (b64_encode l) = b64_core l.
Proof.
  rewrite b64_encode_core. destruct (npad l) as [|k].
  - simpl. rewrite app_nil_r. apply take_until_none, b64_core_no_pad.
  - simpl. apply take_until_app, b64_core_no_pad.
Qed.

(** ** Round trip *)
Ltac b64_step := rewrite ?b64_val_char, ?b64_char_not_pad by lia.

Lemma n2b_eq n b : n = b2n b -> n2b n = b.
Proof. intros ->. apply n2b_b2n. Qed.

Lemma b64_decode_core_pad l : forall k, k <= npad l ->
  b64_decode (b64_core l ++ repeat pad k) = Some l.
Proof.
  induction l as [|a|a b|a b c l IH] using ind3; intros k Hk; cbn [b64_core npad] in *.
  - replace k with 0 by lia. reflexivity.
  - pose proof (b2n_lt a).
    assert (T : b64_tail2 (b64_char (b2n a / 4)) (b64_char (b2n a mod 4 * 16)) = Some [a]).
    { unfold b64_tail2. b64_step. replace ((b2n a mod 4 * 16) mod 16 =? 0)%N with true by lia.
      do 2 f_equal. apply n2b_eq. lia. }
    destruct k as [|[|[|k]]]; [| | |lia]; cbn [app repeat b64_decode]; exact T.
  - pose proof (b2n_lt a). pose proof (b2n_lt b). set (n := (b2n a * 256 + b2n b)%N) in *.
    assert (T : b64_tail3 (b64_char (n / 1024)) (b64_char (n / 16 mod 64)) (b64_char (n mod 16 * 4))
                = Some [a; b]).
    { unfold b64_tail3. rewrite !b64_val_char by lia.
      replace ((n mod 16 * 4) mod 4 =? 0)%N with true by lia.
      do 2 f_equal; [|f_equal]; apply n2b_eq; lia. }
    destruct k as [|[|k]]; [| |lia]; cbn [app repeat b64_decode].
    + rewrite b64_char_not_pad by lia. exact T.
    + rewrite b64_char_not_pad by lia. exact T.
  - pose proof (b2n_lt a). pose proof (b2n_lt b). pose proof (b2n_lt c).
    set (n := (b2n a * 65536 + b2n b * 256 + b2n c)%N) in *.
    cbn [app b64_decode]. rewrite b64_char_not_pad by lia. rewrite !b64_val_char by lia.
    rewrite IH by exact Hk. do 2 f_equal; [|f_equal; [|f_equal]]; try (apply n2b_eq; lia).
Qed.

Lemma b64_decode_encode l : b64_decode (b64_encode l) = Some l.
Proof. rewrite b64_encode_core. apply b64_decode_core_pad. lia. Qed.

(** ** What decodes *)
Lemma tail2_inv c1 c2 b : b64_tail2 c1 c2 = Some b ->
  exists a, b = [a] /\ [c1; c2] = b64_core [a].
Proof.
  unfold b64_tail2. destruct (b64_val c1) as [v1|] eqn:E1; [|discriminate].
  destruct (b64_val c2) as [v2|] eqn:E2; [|discriminate].
  destruct (v2 mod 16 =? 0)%N eqn:E3; [|discriminate]. intros [= <-].
  apply b64_char_val in E1. apply b64_char_val in E2. destruct E1 as [L1 <-], E2 as [L2 <-].
  eexists. split; [reflexivity|]. cbn [b64_core]. rewrite b2n_n2b, N.mod_small by lia.
  f_equal; [|f_equal]; f_equal; lia.
Qed.
Lemma tail3_inv c1 c2 c3 b : b64_tail3 c1 c2 c3 = Some b ->
  exists x y, b = [x; y] /\ [c1; c2; c3] = b64_core [x; y].
Proof.
  unfold b64_tail3. destruct (b64_val c1) as [v1|] eqn:E1; [|discriminate].
  destruct (b64_val c2) as [v2|] eqn:E2; [|discriminate].
  destruct (b64_val c3) as [v3|] eqn:E3; [|discriminate].
  destruct (v3 mod 4 =? 0)%N eqn:E4; [|discriminate]. intros [= <-].
  apply b64_char_val in E1. apply b64_char_val in E2. apply b64_char_val in E3.
  destruct E1 as [L1 <-], E2 as [L2 <-], E3 as [L3 <-].
  do 2 eexists. split; [reflexivity|]. cbn [b64_core]. rewrite !b2n_n2b, !N.mod_small by lia.
  f_equal; [|f_equal; [|f_equal]]; f_equal; lia.
Qed.

Lemma b64_decode_inv t : forall b, b64_decode t = Some b ->
  exists k, k <= npad b /\ t = b64_core b ++ repeat pad k.
Proof.
  induction t as [|c1|c1 c2|c1 c2 c3|c1 c2 c3 c4 t IH] using ind4; intros b; cbn [b64_decode].
  - intros [= <-]. exists 0. auto.
  - discriminate.
  - intros H. apply tail2_inv in H. destruct H as (a & -> & E). exists 0. rewrite E.
    simpl npad. rewrite app_nil_r. split; [lia|reflexivity].
  - destruct (is_pad c3) eqn:Ep.
    + intros H. apply tail2_inv in H. destruct H as (a & -> & E).
      apply byte_eqb_eq in Ep. subst c3. exists 1. rewrite <- E. split; [simpl; lia|reflexivity].
    + intros H. apply tail3_inv in H. destruct H as (x & y & -> & E). exists 0. rewrite E, app_nil_r.
      split; [simpl; lia|reflexivity].
  - destruct (is_pad c4) eqn:E4.
    + destruct t as [|? ?]; [|discriminate]. apply byte_eqb_eq in E4. subst c4.
      destruct (is_pad c3) eqn:Ep.
      * intros H. apply tail2_inv in H. destruct H as (a & -> & E).
        apply byte_eqb_eq in Ep. subst c3. exists 2. rewrite <- E. split; [simpl; lia|reflexivity].
      * intros H. apply tail3_inv in H. destruct H as (x & y & -> & E). exists 1.
        rewrite <- E. split; [simpl; lia|reflexivity].
    + destruct (b64_val c1) as [v1|] eqn:E1; [|discriminate].
      destruct (b64_val c2) as [v2|] eqn:E2; [|discriminate].
      destruct (b64_val c3) as [v3|] eqn:E3; [|discriminate].
      destruct (b64_val c4) as [v4|] eqn:E5; [|discriminate].
      destruct (b64_decode t) as [rest|]; [|discriminate]. intros [= <-].
      destruct (IH rest eq_refl) as (k & Hk & Ht). exists k. split; [exact Hk|].
      apply b64_char_val in E1. apply b64_char_val in E2. apply b64_char_val in E3.
      apply b64_char_val in E5.
      destruct E1 as [L1 <-], E2 as [L2 <-], E3 as [L3 <-], E5 as [L4 <-].
      cbn [b64_core app]. rewrite !b2n_n2b, !N.mod_small by lia. rewrite <- Ht.
      f_equal; [|f_equal; [|f_equal; [|f_equal]]]; f_equal; lia.
Qed.

(** ** Bits *)
Lemma bits_length k n : length (bits k n) = k.
Proof. induction k; simpl; auto. Qed.
Lemma bits_mod k : forall n j, (N.of_nat k <= j)%N -> bits k (n mod 2 ^ j) = bits k n.
Proof.
  induction k as [|k IH]; intros n j H; [reflexivity|]. cbn [bits]. f_equal.
  - apply N.mod_pow2_bits_low. lia.
  - apply IH. lia.
Qed.
Lemma bits_split a : forall b n, bits (a + b) n = bits a (n / 2 ^ N.of_nat b) ++ bits b n.
Proof.
  induction a as [|a IH]; intros b n; [reflexivity|]. cbn [Nat.add bits app]. f_equal; [|apply IH].
  rewrite N.div_pow2_bits. f_equal. lia.
Qed.
Lemma bits_eq k m n : (m mod 2 ^ N.of_nat k = n mod 2 ^ N.of_nat k)%N -> bits k m = bits k n.
Proof.
  intros H. rewrite <- (bits_mod k m (N.of_nat k)), <- (bits_mod k n (N.of_nat k)) by lia.
  rewrite H. reflexivity.
Qed.
Lemma bits_zero k : bits k 0 = repeat false k.
Proof. induction k; simpl; [reflexivity|]. f_equal. assumption. Qed.

Definition sext (v : N) : list bool := bits 6 v.

Lemma bits24 n : bits 24 n
  = bits 6 (n / 262144) ++ bits 6 (n / 4096 mod 64) ++ bits 6 (n / 64 mod 64) ++ bits 6 (n mod 64).
Proof.
  change 24 with (6 + (6 + (6 + 6))). rewrite !bits_split.
  change (2 ^ N.of_nat (6 + (6 + 6)))%N with 262144%N.
  change (2 ^ N.of_nat (6 + 6))%N with 4096%N. change (2 ^ N.of_nat 6)%N with 64%N.
  change 64%N with (2 ^ 6)%N at 2 4 5.
  rewrite !(bits_mod 6 _ 6) by lia. reflexivity.
Qed.
Lemma bits24_bytes a b c :
  bits 24 (b2n a * 65536 + b2n b * 256 + b2n c) = bits 8 (b2n a) ++ bits 8 (b2n b) ++ bits 8 (b2n c).
Proof.
  change 24 with (8 + (8 + 8)). rewrite !bits_split.
  change (2 ^ N.of_nat (8 + 8))%N with 65536%N. change (2 ^ N.of_nat 8)%N with 256%N.
  pose proof (b2n_lt a). pose proof (b2n_lt b). pose proof (b2n_lt c).
  f_equal; [|f_equal]; apply bits_eq; change (2 ^ N.of_nat 8)%N with 256%N; lia.
Qed.
Lemma bits18 n : bits 18 n
  = bits 6 (n / 4096) ++ bits 6 (n / 64 mod 64) ++ bits 6 (n mod 64).
Proof.
  change 18 with (6 + (6 + 6)). rewrite !bits_split.
  change (2 ^ N.of_nat (6 + 6))%N with 4096%N. change (2 ^ N.of_nat 6)%N with 64%N.
  change 64%N with (2 ^ 6)%N at 2 3. rewrite !(bits_mod 6 _ 6) by lia. reflexivity.
Qed.
Lemma bits12 n : bits 12 n = bits 6 (n / 64) ++ bits 6 (n mod 64).
Proof.
  change 12 with (6 + 6). rewrite !bits_split. change (2 ^ N.of_nat 6)%N with 64%N.
  change 64%N with (2 ^ 6)%N at 2. rewrite !(bits_mod 6 _ 6) by lia. reflexivity.
Qed.

Lemma core_indices l : exists idx : list N,
  b64_core l = map b64_char idx /\ Forall (fun v => (v < 64)%N) idx
  /\ concat (map (bits 6) idx) = bitstring l ++ repeat false (2 * npad l).
Proof.
  induction l as [|a|a b|a b c l IH] using ind3.
  - exists []. repeat split; constructor.
  - pose proof (b2n_lt a). set (n := b2n a).
    exists [(n / 4)%N; (n mod 4 * 16)%N]. split; [reflexivity|]. split; [repeat constructor; lia|].
    unfold bitstring. cbn [map concat npad]. rewrite !app_nil_r.
    transitivity (bits 12 (n * 16)).
    + rewrite bits12. f_equal; f_equal; lia.
    + change 12 with (8 + 4). rewrite bits_split. change (2 ^ N.of_nat 4)%N with 16%N. f_equal.
      * f_equal. unfold n, b2n in *. lia.
      * rewrite <- bits_zero. apply bits_eq. change (2 ^ N.of_nat 4)%N with 16%N. lia.
  - pose proof (b2n_lt a). pose proof (b2n_lt b). set (n := (b2n a * 256 + b2n b)%N).
    exists [(n / 1024)%N; (n / 16 mod 64)%N; (n mod 16 * 4)%N].
    split; [reflexivity|]. split; [repeat constructor; lia|].
    unfold bitstring. cbn [map concat npad]. rewrite !app_nil_r.
    transitivity (bits 18 (n * 4)).
    + rewrite bits18. f_equal; [f_equal; lia|]. f_equal; f_equal; lia.
    + change 18 with (8 + (8 + 2)). rewrite !bits_split, <- app_assoc.
      change (2 ^ N.of_nat (8 + 2))%N with 1024%N. change (2 ^ N.of_nat 2)%N with 4%N. f_equal; [|f_equal].
      * apply bits_eq. change (2 ^ N.of_nat 8)%N with 256%N. unfold n, b2n in *. lia.
      * apply bits_eq. change (2 ^ N.of_nat 8)%N with 256%N. unfold n, b2n in *. lia.
      * change (repeat false (2 * 1)) with (repeat false 2). rewrite <- bits_zero. apply bits_eq.
        change (2 ^ N.of_nat 2)%N with 4%N. lia.
  - destruct IH as (idx & H1 & H2 & H3).
    pose proof (b2n_lt a). pose proof (b2n_lt b). pose proof (b2n_lt c).
    set (n := (b2n a * 65536 + b2n b * 256 + b2n c)%N).
    exists ((n / 262144)%N :: (n / 4096 mod 64)%N :: (n / 64 mod 64)%N :: (n mod 64)%N :: idx).
    split; [cbn [b64_core map]; rewrite H1; reflexivity|].
    split; [repeat constructor; auto; lia|].
    unfold bitstring in *. cbn [map concat npad]. rewrite H3.
    transitivity (bits 24 n ++ concat (map (fun x => bits 8 (Byte.to_N x)) l) ++ repeat false (2 * npad l)).
    + rewrite bits24. rewrite <- !app_assoc. reflexivity.
    + unfold n. rewrite bits24_bytes, <- !app_assoc. reflexivity.
Qed.

Lemma b64_encode_length l : Nat.modulo (length (b64_encode l)) 4 = 0
  /\ length (b64_encode l) = 4 * ((length l + 2) / 3).
Proof.
  induction l as [|a|a b|a b c l IH] using ind3; [split; reflexivity..|].
  cbn [b64_encode length]. destruct IH as [H1 H2]. lia.
Qed.

Lemma b64_encode_text l : base64_text l (b64_encode l).
Proof.
  destruct (core_indices l) as (idx & H1 & H2 & H3).
  exists (map N.to_nat idx), (npad l). split; [|split; [|split; [|split]]].
  - rewrite b64_encode_core, H1. f_equal. rewrite map_map.
    clear H1 H3. induction H2 as [|v idx Hv _ IH]; [reflexivity|]. cbn [map].
    rewrite IH, b64_char_nth by exact Hv. reflexivity.
  - clear -H2. induction H2 as [|v idx Hv _ IH]; constructor; [lia|exact IH].
  - rewrite <- H3, map_map. f_equal. apply map_ext. intros v. rewrite N2Nat.id. reflexivity.
  - apply npad_bound.
  - apply b64_encode_length.
Qed.

(** ** The specified text is unique *)
Lemma bits6_inj i j : i < 64 -> j < 64 -> bits 6 (N.of_nat i) = bits 6 (N.of_nat j) -> i = j.
Proof.
  intros Hi Hj H.
  assert (E : forall n, n < 64 -> fold_left (fun acc (b : bool) => 2 * acc + if b then 1 else 0)
                (bits 6 (N.of_nat n)) 0 = n).
  { intros n Hn. do 64 (destruct n as [|n]; [reflexivity|]). lia. }
  rewrite <- (E i Hi), <- (E j Hj), H. reflexivity.
Qed.
Lemma idx_inj a : forall b, Forall (fun i => i < 64) a -> Forall (fun i => i < 64) b ->
  concat (map (fun i => bits 6 (N.of_nat i)) a) = concat (map (fun i => bits 6 (N.of_nat i)) b) -> a = b.
Proof.
  induction a as [|x a IH]; destruct b as [|y b]; intros Ha Hb H; auto; try discriminate.
  cbn [map concat] in H. inversion Ha; subst. inversion Hb; subst.
  apply app_inj_length in H; [|rewrite !bits_length; reflexivity].
  destruct H as [H1 H2']. f_equal; [apply bits6_inj; assumption|apply IH; assumption].
Qed.
Lemma concat_bits_length {A} k (f : A -> N) l :
  length (concat (map (fun i => bits k (f i)) l)) = k * length l.
Proof.
  induction l as [|x l IH]; [cbn; lia|]. cbn [map concat length].
  rewrite app_length, bits_length, IH. lia.
Qed.
Lemma base64_text_unique b t1 t2 : base64_text b t1 -> base64_text b t2 -> t1 = t2.
Proof.
  intros (i1 & n1 & -> & F1 & E1 & L1 & M1) (i2 & n2 & -> & F2 & E2 & L2 & M2).
  pose proof (f_equal (@length bool) E1) as Q1. pose proof (f_equal (@length bool) E2) as Q2.
  unfold bitstring in Q1, Q2.
  rewrite app_length, repeat_length, !concat_bits_length in Q1, Q2.
  assert (n1 = n2) by lia. subst n2. f_equal. f_equal.
  apply idx_inj; auto. congruence.
Qed.

Lemma b64_decode_iff t b : b64_decode t = Some b <-> exists k, base64_text b (t ++ repeat x3d k).
Proof.
  split.
  - intros H. apply b64_decode_inv in H. destruct H as (k & Hk & ->). exists (npad b - k).
    rewrite <- app_assoc, <- repeat_app. replace (k + (npad b - k)) with (npad b) by lia.
    change x3d with pad. rewrite <- b64_encode_core. apply b64_encode_text.
  - intros (k & H).
    assert (E : t ++ repeat x3d k = b64_core b ++ repeat pad (npad b)).
    { rewrite <- b64_encode_core. eapply base64_text_unique; [exact H|apply b64_encode_text]. }
    assert (exists j, j <= npad b /\ t = b64_core b ++ repeat pad j) as (j & Hj & ->).
    { apply (f_equal (@rev byte)) in E. rewrite !rev_app_distr in E.
      assert (R : forall n, rev (repeat pad n) = repeat pad n).
      { induction n as [|n IH]; [reflexivity|]. cbn [repeat rev]. rewrite IH.
        clear IH. induction n as [|n IH]; [reflexivity|]. cbn [repeat app]. f_equal. exact IH. }
      change x3d with pad in E. rewrite !R in E.
      assert (G : forall m n x y, ~ In pad y -> repeat pad m ++ x = repeat pad n ++ y ->
                  exists j, j <= n /\ x = repeat pad j ++ y).
      { induction m as [|m IH]; intros n x y Hy G; [exists n; auto|].
        destruct n as [|n].
        - exfalso. apply Hy. cbn [repeat app] in G. rewrite <- G. left. reflexivity.
        - cbn [repeat app] in G. injection G as G. destruct (IH n x y Hy G) as (j & Hj & ->).
          exists j. split; [lia|reflexivity]. }
      apply G in E; [|rewrite <- in_rev; apply b64_core_no_pad].
      destruct E as (j & Hj & E). exists j. split; [exact Hj|].
      apply (f_equal (@rev byte)) in E. rewrite rev_app_distr, !rev_involutive, R in E. exact E. }
    apply b64_decode_core_pad, Hj.
Qed.

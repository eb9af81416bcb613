(** Lemmas about the reader: closed forms, exact parsing relations, panics. *)
From Verif Require Import Base BaseFacts Utf8 Reader.

Definition rest (r : reader) : bytes := skipn (r_off r) (r_inner r).

Lemma slice_from_ok s i : i <= length s -> slice_from s i = Ok (skipn i s).
Proof. intros H. unfold slice_from. rewrite (proj2 (Nat.leb_le _ _) H). reflexivity. Qed.
Lemma slice_to_ok s i : i <= length s -> slice_to s i = Ok (firstn i s).
Proof. intros H. unfold slice_to. rewrite (proj2 (Nat.leb_le _ _) H). reflexivity. Qed.
Lemma slice_range_ok s i j :
  i <= j -> j <= length s -> slice_range s i j = Ok (firstn (j - i) (skipn i s)).
Proof.
  intros H1 H2. unfold slice_range.
  rewrite (proj2 (Nat.leb_le _ _) H1), (proj2 (Nat.leb_le _ _) H2). reflexivity.
Qed.
Lemma usub_ok a b : b <= a -> usub a b = Ok (a - b).
Proof. intros H. unfold usub. rewrite (proj2 (Nat.leb_le _ _) H). reflexivity. Qed.

(** ** Closed forms *)

Lemma read_bytes_eq r :
  read_bytes r =
    if length (r_inner r) <=? r_off r then (Err EUnexpectedEof, r)
    else if length (rest r) <? 4 then (Err EInvalidFormat, r)
    else if (N.of_nat (length (rest r) - 4) <? from_be (firstn 4 (rest r)))%N
         then (Err EInvalidFormat, r)
    else (Ok (firstn (N.to_nat (from_be (firstn 4 (rest r)))) (skipn 4 (rest r))),
          mkReader (r_inner r) (r_off r + (N.to_nat (from_be (firstn 4 (rest r))) + 4))).
Proof.
  unfold read_bytes, mbind, get, throw, lift, put_off, rest. destruct r as [inner off]; cbn [r_inner r_off].
  destruct (length inner <=? off) eqn:E1; [reflexivity|].
  apply Nat.leb_gt in E1. rewrite slice_from_ok by lia.
  destruct (length (skipn off inner) <? 4) eqn:E2; [reflexivity|].
  apply Nat.ltb_ge in E2. rewrite slice_to_ok by lia. rewrite usub_ok by lia.
  destruct (N.of_nat (length (skipn off inner) - 4) <? from_be (firstn 4 (skipn off inner)))%N eqn:E3;
    [reflexivity|].
  apply N.ltb_ge in E3. rewrite slice_range_ok by lia.
  do 2 f_equal. f_equal. lia.
Qed.

Lemma read_raw_bytes_eq n r :
  read_raw_bytes n r =
    if length (r_inner r) <=? r_off r then (Err EUnexpectedEof, r)
    else if length (rest r) <? n then (Err EUnexpectedEof, r)
    else (Ok (firstn n (rest r)), mkReader (r_inner r) (r_off r + n)).
Proof.
  unfold read_raw_bytes, mbind, get, throw, lift, put_off, rest. destruct r as [inner off]; cbn [r_inner r_off].
  destruct (length inner <=? off) eqn:E1; [reflexivity|].
  apply Nat.leb_gt in E1. rewrite usub_ok by lia. rewrite skipn_length.
  destruct (length inner - off <? n) eqn:E2; [reflexivity|].
  apply Nat.ltb_ge in E2. rewrite slice_from_ok by lia.
  rewrite slice_to_ok by (rewrite skipn_length; lia). reflexivity.
Qed.

Lemma read_uint_eq k r :
  read_uint k r =
    if length (r_inner r) <=? r_off r then (Err EUnexpectedEof, r)
    else if length (rest r) <? k then (Err EInvalidFormat, r)
    else (Ok (from_be (firstn k (rest r))), mkReader (r_inner r) (r_off r + k)).
Proof.
  unfold read_uint, mbind, get, throw, lift, put_off, ret, rest. destruct r as [inner off]; cbn [r_inner r_off].
  destruct (length inner <=? off) eqn:E1; [reflexivity|].
  apply Nat.leb_gt in E1. rewrite slice_from_ok by lia.
  destruct (length (skipn off inner) <? k) eqn:E2; [reflexivity|].
  apply Nat.ltb_ge in E2. rewrite slice_to_ok by lia. reflexivity.
Qed.

Lemma read_string_eq r :
  read_string r =
    match read_bytes r with
    | (Ok b, r') => if utf8_valid b then (Ok b, r') else (Err EUtf8, r')
    | (Err e, r') => (Err e, r')
    | (Panic, r') => (Panic, r')
    end.
Proof.
  unfold read_string, mbind. destruct (read_bytes r) as [[b|e|] r']; try reflexivity.
  destruct (utf8_valid b); reflexivity.
Qed.

(** The magnitude of a canonical positive mpint field content. *)
Definition mpint_content (b : bytes) : option bytes :=
  match b with
  | [] => Some []
  | b0 :: t =>
      if (b2n b0 =? 0)%N then
        match t with
        | [] => None
        | b1 :: _ => if (b2n b1 <? 128)%N then None else Some t
        end
      else if (b2n b0 <? 128)%N then Some b else None
  end.

Lemma read_positive_mpint_eq r :
  read_positive_mpint r =
    match read_bytes r with
    | (Ok b, r') =>
        match mpint_content b with
        | Some m => (Ok m, r')
        | None => (Err EInvalidFormat, r')
        end
    | (Err e, r') => (Err e, r')
    | (Panic, r') => (Panic, r')
    end.
Proof.
  unfold read_positive_mpint, mbind, lift, ret, throw.
  destruct (read_bytes r) as [[b|e|] r']; try reflexivity.
  destruct b as [|b0 t]; [reflexivity|]. cbn [index nth_error].
  unfold mpint_content.
  destruct (b2n b0 =? 0)%N eqn:E0.
  - destruct t as [|b1 t]; [reflexivity|].
    change (length (b0 :: b1 :: t) =? 1) with false. cbn [index nth_error].
    destruct (b2n b1 <? 128)%N; [reflexivity|].
    rewrite slice_from_ok by (simpl; lia). reflexivity.
  - destruct (b2n b0 <? 128)%N eqn:E1.
    + replace (b2n b0 <=? 127)%N with true by lia. reflexivity.
    + replace (b2n b0 <=? 127)%N with false by lia. reflexivity.
Qed.

Lemma cstring_loop_eq l : forall s n,
  cstring_loop l s n =
    match cstring_loop l [] 0 with
    | Some (t, k) => Some (s ++ t, n + k)
    | None => None
    end.
Proof.
  induction l as [|b l IH]; intros s n; simpl; [reflexivity|].
  destruct (b2n b =? 0)%N.
  - rewrite app_nil_r. f_equal. f_equal. lia.
  - rewrite (IH (s ++ push_latin1 b)), (IH (push_latin1 b)).
    destruct (cstring_loop l [] 0) as [[t k]|]; [|reflexivity].
    rewrite app_assoc. f_equal. f_equal. lia.
Qed.

Lemma read_cstring_eq r :
  read_cstring r =
    match cstring_loop (rest r) [] 0 with
    | Some (s, n) => (Ok s, mkReader (r_inner r) (r_off r + n))
    | None => (Err EUnexpectedEof, r)
    end.
Proof.
  unfold read_cstring, mbind, get, put_off, ret, throw, rest. destruct r as [inner off]; simpl.
  destruct (cstring_loop (skipn off inner) [] 0) as [[s n]|]; reflexivity.
Qed.

Lemma cstring_loop_len l s n : cstring_loop l [] 0 = Some (s, n) -> 0 < n <= length l.
Proof.
  revert s n; induction l as [|b l IH]; simpl; intros s n; [discriminate|].
  destruct (b2n b =? 0)%N; [intros [= <- <-]; lia|].
  rewrite cstring_loop_eq. destruct (cstring_loop l [] 0) as [[t k]|]; [|discriminate].
  intros [= <- <-]. specialize (IH t k eq_refl). lia.
Qed.

(** ** Exact parsing relations *)

(** [parses m P]: [m] succeeds with [a] exactly on inputs that start with some [bs]
    related to [a] by [P], and then it consumes exactly [bs]. *)
Definition parses {A} (m : M A) (P : A -> bytes -> Prop) : Prop :=
  forall inner off a r',
    m (mkReader inner off) = (Ok a, r') <->
    exists bs post, P a bs /\ skipn off inner = bs ++ post
                    /\ r' = mkReader inner (off + length bs).

Lemma parses_ext {A} (m : M A) (P Q : A -> bytes -> Prop) :
  (forall a bs, P a bs <-> Q a bs) -> parses m P -> parses m Q.
Proof.
  intros He Hp inner off a r'. rewrite (Hp inner off a r').
  split; intros (bs & post & H1 & H2); exists bs, post; split; auto; apply He, H1.
Qed.

Lemma parses_ret {A} (x : A) : parses (ret x) (fun a bs => a = x /\ bs = []).
Proof.
  intros inner off a r'. unfold ret. split.
  - intros [= -> <-]. exists [], (skipn off inner). simpl. rewrite Nat.add_0_r. auto.
  - intros (bs & post & [-> ->] & _ & ->). simpl. rewrite Nat.add_0_r. reflexivity.
Qed.

Lemma parses_lift {A} (x : res A) : parses (lift x) (fun a bs => x = Ok a /\ bs = []).
Proof.
  intros inner off a r'. unfold lift. split.
  - intros [= -> <-]. exists [], (skipn off inner). simpl. rewrite Nat.add_0_r. auto.
  - intros (bs & post & [-> ->] & _ & ->). simpl. rewrite Nat.add_0_r. reflexivity.
Qed.

Lemma parses_throw {A} e : parses (@throw A e) (fun _ _ => False).
Proof.
  intros inner off a r'. unfold throw. split; [discriminate|].
  intros (bs & post & [] & _).
Qed.

Lemma parses_bind {A B} (m : M A) (f : A -> M B) P Q :
  parses m P -> (forall a, parses (f a) (Q a)) ->
  parses (mbind m f) (fun b bs => exists a b1 b2, bs = b1 ++ b2 /\ P a b1 /\ Q a b b2).
Proof.
  intros Hm Hf inner off b r'. unfold mbind. split.
  - destruct (m (mkReader inner off)) as [[a|e|] r1] eqn:E; try discriminate.
    apply Hm in E. destruct E as (b1 & p1 & HP & Hs & ->). intros H.
    apply Hf in H. destruct H as (b2 & p2 & HQ & Hs2 & ->).
    exists (b1 ++ b2), p2. split; [exists a, b1, b2; auto|]. split.
    + rewrite Hs, <- app_assoc. f_equal.
      rewrite <- skipn_skipn', Hs, skipn_app_exact in Hs2 by reflexivity. exact Hs2.
    + rewrite app_length. f_equal. lia.
  - intros (bs & post & (a & b1 & b2 & -> & HP & HQ) & Hs & ->).
    rewrite <- app_assoc in Hs.
    assert (E : m (mkReader inner off) = (Ok a, mkReader inner (off + length b1)))
      by (apply Hm; eauto).
    rewrite E. apply Hf. exists b2, post. split; [exact HQ|]. split.
    + rewrite <- skipn_skipn', Hs, skipn_app_exact by reflexivity. reflexivity.
    + rewrite app_length. f_equal. lia.
Qed.

Lemma parses_if {A} (c : bool) (m1 m2 : M A) P1 P2 :
  (c = true -> parses m1 P1) -> (c = false -> parses m2 P2) ->
  parses (if c then m1 else m2)
    (fun a bs => (c = true /\ P1 a bs) \/ (c = false /\ P2 a bs)).
Proof.
  intros H1 H2. destruct c.
  - apply (parses_ext m1 P1); [|auto]. intros a bs. intuition congruence.
  - apply (parses_ext m2 P2); [|auto]. intros a bs. intuition congruence.
Qed.

(** A 4-byte length followed by the bytes. *)
Definition enc_bytes (b : bytes) : bytes := to_be 4 (N.of_nat (length b)) ++ b.
Arguments enc_bytes : simpl never.
Definition fits (b : bytes) : Prop := (N.of_nat (length b) < 2 ^ 32)%N.

Lemma enc_bytes_length b : length (enc_bytes b) = 4 + length b.
Proof. unfold enc_bytes. rewrite app_length, to_be_length. reflexivity. Qed.

Lemma parses_read_bytes : parses read_bytes (fun b bs => fits b /\ bs = enc_bytes b).
Proof.
  intros inner off a r'. rewrite read_bytes_eq. unfold rest. cbn [r_inner r_off]. split.
  - destruct (length inner <=? off) eqn:E1; [discriminate|].
    destruct (length (skipn off inner) <? 4) eqn:E2; [discriminate|].
    apply Nat.ltb_ge in E2.
    set (sl := skipn off inner) in *.
    destruct (N.of_nat (length sl - 4) <? from_be (firstn 4 sl))%N eqn:E3; [discriminate|].
    apply N.ltb_ge in E3.
    pose proof (from_be_bound (firstn 4 sl)) as Hb.
    assert (L4 : length (firstn 4 sl) = 4) by (rewrite firstn_length; lia).
    rewrite L4 in Hb. change (256 ^ N.of_nat 4)%N with (2 ^ 32)%N in Hb.
    set (sz := from_be (firstn 4 sl)) in *.
    assert (Lf : length (firstn (N.to_nat sz) (skipn 4 sl)) = N.to_nat sz)
      by (rewrite firstn_length, skipn_length; lia).
    intros H. apply pair_equal_spec in H. destruct H as [H <-].
    assert (a = firstn (N.to_nat sz) (skipn 4 sl)) as -> by congruence. clear H.
    exists (firstn 4 sl ++ firstn (N.to_nat sz) (skipn 4 sl)),
           (skipn (N.to_nat sz) (skipn 4 sl)).
    split; [split|split].
    + unfold fits. rewrite Lf. lia.
    + unfold enc_bytes. rewrite Lf, Nnat.N2Nat.id. f_equal.
      rewrite <- L4 at 2. symmetry. rewrite <- (to_be_from_be (firstn 4 sl)) at 2.
      fold sz. rewrite L4. reflexivity.
    + rewrite <- app_assoc, firstn_skipn, firstn_skipn. reflexivity.
    + rewrite app_length, Lf, L4. f_equal. lia.
  - intros (bs & post & (Hf & ->) & Hs & ->).
    assert (Hl : length inner - off = length (enc_bytes a ++ post))
      by (rewrite <- Hs, skipn_length; reflexivity).
    rewrite app_length, enc_bytes_length in Hl. unfold fits in Hf.
    rewrite Hs. rewrite app_length, enc_bytes_length.
    replace (length inner <=? off) with false by lia.
    replace (4 + length a + length post <? 4) with false by lia.
    unfold enc_bytes. rewrite <- app_assoc.
    rewrite (firstn_app_exact (to_be 4 _)) by (rewrite to_be_length; reflexivity).
    rewrite (skipn_app_exact (to_be 4 _)) by (rewrite to_be_length; reflexivity).
    rewrite from_be_to_be_small by (change (256 ^ N.of_nat 4)%N with (2 ^ 32)%N; lia).
    replace (N.of_nat (4 + length a + length post - 4) <? N.of_nat (length a))%N with false by lia.
    rewrite Nnat.Nat2N.id, firstn_app_exact by reflexivity.
    do 2 f_equal. rewrite ?app_length, ?to_be_length. lia.
Qed.

Lemma parses_read_string :
  parses read_string (fun b bs => (fits b /\ utf8_valid b = true) /\ bs = enc_bytes b).
Proof.
  unfold read_string.
  eapply parses_ext; [|apply parses_bind;
    [apply parses_read_bytes | intros a; apply parses_if; intros _; [apply parses_ret|apply parses_throw]]].
  intros b bs. simpl. split.
  - intros (a & b1 & b2 & -> & [H1 ->] & [[H3 [-> ->]]|[_ []]]). rewrite app_nil_r. auto.
  - intros ((H1 & H2) & ->). exists b, (enc_bytes b), []. rewrite app_nil_r. split; [reflexivity|].
    split; [auto|]. left. auto.
Qed.

(** Canonical mpint field content for a magnitude without leading zeros. *)
Definition mpint_bytes (m : bytes) : bytes :=
  match m with
  | b :: _ => if (128 <=? b2n b)%N then x00 :: m else m
  | [] => []
  end.
Definition no_lead_zero (m : bytes) : Prop :=
  match m with b :: _ => b2n b <> 0%N | [] => True end.

Lemma b2n_zero b : b2n b = 0%N -> b = x00.
Proof. intros H. apply b2n_inj. rewrite H. reflexivity. Qed.

Lemma mpint_content_iff b m :
  mpint_content b = Some m <-> b = mpint_bytes m /\ no_lead_zero m.
Proof.
  unfold mpint_content, mpint_bytes, no_lead_zero. split.
  - destruct b as [|b0 t]; [intros [= <-]; auto|].
    destruct (b2n b0 =? 0)%N eqn:E0.
    + destruct t as [|b1 t]; [discriminate|].
      destruct (b2n b1 <? 128)%N eqn:E1; [discriminate|]. intros [= <-].
      apply N.eqb_eq in E0. apply b2n_zero in E0. subst b0.
      replace (128 <=? b2n b1)%N with true by lia. split; [reflexivity|lia].
    + destruct (b2n b0 <? 128)%N eqn:E1; [|discriminate]. intros [= <-].
      replace (128 <=? b2n b0)%N with false by lia. split; [reflexivity|lia].
  - intros [-> H]. destruct m as [|b t]; [reflexivity|].
    destruct (128 <=? b2n b)%N eqn:E.
    + change (b2n x00 =? 0)%N with true. cbn iota.
      replace (b2n b <? 128)%N with false by lia. reflexivity.
    + replace (b2n b =? 0)%N with false by lia.
      replace (b2n b <? 128)%N with true by lia. reflexivity.
Qed.

Lemma parses_read_positive_mpint :
  parses read_positive_mpint
    (fun m bs => (fits (mpint_bytes m) /\ no_lead_zero m) /\ bs = enc_bytes (mpint_bytes m)).
Proof.
  intros inner off a r'. rewrite read_positive_mpint_eq. split.
  - destruct (read_bytes (mkReader inner off)) as [[b|e|] r1] eqn:E; try discriminate.
    apply parses_read_bytes in E. destruct E as (bs & post & (Hf & ->) & Hs & ->).
    destruct (mpint_content b) as [m|] eqn:Em; [|discriminate]. intros [= <- <-].
    apply mpint_content_iff in Em. destruct Em as [-> Hn].
    exists (enc_bytes (mpint_bytes m)), post. auto.
  - intros (bs & post & ((Hf & Hn) & ->) & Hs & ->).
    assert (E : read_bytes (mkReader inner off)
                = (Ok (mpint_bytes a), mkReader inner (off + length (enc_bytes (mpint_bytes a)))))
      by (apply parses_read_bytes; eauto 10).
    rewrite E. rewrite (proj2 (mpint_content_iff (mpint_bytes a) a)) by auto. reflexivity.
Qed.

Lemma parses_read_uint k : 0 < k ->
  parses (read_uint k) (fun n bs => (n < 256 ^ N.of_nat k)%N /\ bs = to_be k n).
Proof.
  intros Hk inner off a r'. rewrite read_uint_eq. unfold rest. cbn [r_inner r_off]. split.
  - destruct (length inner <=? off) eqn:E1; [discriminate|].
    destruct (length (skipn off inner) <? k) eqn:E2; [discriminate|].
    apply Nat.ltb_ge in E2. intros [= <- <-].
    set (sl := skipn off inner) in *.
    assert (L : length (firstn k sl) = k) by (rewrite firstn_length; lia).
    exists (firstn k sl), (skipn k sl). split; [split|split].
    + pose proof (from_be_bound (firstn k sl)). rewrite L in H. exact H.
    + rewrite <- L at 2. rewrite to_be_from_be. reflexivity.
    + rewrite firstn_skipn. reflexivity.
    + rewrite L. reflexivity.
  - intros (bs & post & (Hn & ->) & Hs & ->).
    assert (Hl : length inner - off = k + length post)
      by (rewrite <- skipn_length, Hs, app_length, to_be_length; reflexivity).
    rewrite Hs, app_length, to_be_length.
    replace (length inner <=? off) with false by lia.
    replace (k + length post <? k) with false by lia.
    rewrite firstn_app_exact by (rewrite to_be_length; reflexivity).
    rewrite from_be_to_be_small by assumption. reflexivity.
Qed.

Lemma parses_read_u32 : parses read_u32 (fun n bs => (n < 2 ^ 32)%N /\ bs = to_be 4 n).
Proof. apply (parses_read_uint 4). lia. Qed.
Lemma parses_read_u64 : parses read_u64 (fun n bs => (n < 2 ^ 64)%N /\ bs = to_be 8 n).
Proof. apply (parses_read_uint 8). lia. Qed.

Lemma parses_read_raw n : 0 < n ->
  parses (read_raw_bytes n) (fun b bs => length b = n /\ bs = b).
Proof.
  intros Hk inner off a r'. rewrite read_raw_bytes_eq. unfold rest. cbn [r_inner r_off]. split.
  - destruct (length inner <=? off) eqn:E1; [discriminate|].
    destruct (length (skipn off inner) <? n) eqn:E2; [discriminate|].
    apply Nat.ltb_ge in E2. intros [= <- <-].
    exists (firstn n (skipn off inner)), (skipn n (skipn off inner)).
    rewrite firstn_length, firstn_skipn. split; [split; [lia|reflexivity]|].
    split; [reflexivity|]. f_equal. lia.
  - intros (bs & post & (Hn & ->) & Hs & ->).
    assert (Hl : length inner - off = n + length post)
      by (rewrite <- skipn_length, Hs, app_length, Hn; reflexivity).
    rewrite Hs, app_length, Hn.
    replace (length inner <=? off) with false by lia.
    replace (n + length post <? n) with false by lia.
    rewrite firstn_app_exact by auto. reflexivity.
Qed.

(** Running on a whole buffer. *)
Lemma run_parses {A} (m : M A) P b a :
  parses m P -> (run m b = Ok a <-> exists bs post, P a bs /\ b = bs ++ post).
Proof.
  intros Hm. unfold run, reader_new. split.
  - destruct (m (mkReader b 0)) as [x r'] eqn:E. simpl. intros ->.
    apply Hm in E. destruct E as (bs & post & H1 & H2 & _). eauto.
  - intros (bs & post & H1 & ->).
    assert (E : m (mkReader (bs ++ post) 0) = (Ok a, mkReader (bs ++ post) (0 + length bs)))
      by (apply Hm; exists bs, post; auto).
    rewrite E. reflexivity.
Qed.

Lemma enc_bytes_inj a b x y :
  fits a -> fits b -> enc_bytes a ++ x = enc_bytes b ++ y -> a = b /\ x = y.
Proof.
  unfold fits, enc_bytes. intros Ha Hb H. rewrite <- !app_assoc in H.
  apply app_inj_length in H; [|rewrite !to_be_length; reflexivity].
  destruct H as [H1 H2]. apply to_be_inj in H1;
    try (change (256 ^ N.of_nat 4)%N with (2 ^ 32)%N; lia).
  apply app_inj_length in H2; [exact H2|lia].
Qed.

(** ** Panics and state *)

Definition nopanic {A} (m : M A) : Prop := forall r, fst (m r) <> Panic.
Definition keeps {A} (m : M A) : Prop := forall r, r_inner (snd (m r)) = r_inner r.

Lemma nopanic_bind {A B} (m : M A) (f : A -> M B) :
  nopanic m -> (forall a, nopanic (f a)) -> nopanic (mbind m f).
Proof.
  intros Hm Hf r. unfold mbind. specialize (Hm r).
  destruct (m r) as [[a|e|] r']; simpl in *; [apply Hf|congruence|congruence].
Qed.
Lemma nopanic_ret {A} (a : A) : nopanic (ret a).
Proof. intros r. discriminate. Qed.
Lemma nopanic_throw {A} e : nopanic (@throw A e).
Proof. intros r. discriminate. Qed.
Lemma nopanic_lift {A} (x : res A) : x <> Panic -> nopanic (lift x).
Proof. intros H r. exact H. Qed.
Lemma nopanic_read_bytes : nopanic read_bytes.
Proof.
  intros r. rewrite read_bytes_eq.
  repeat match goal with |- context [if ?c then _ else _] => destruct c end; discriminate.
Qed.
Lemma nopanic_read_raw n : nopanic (read_raw_bytes n).
Proof.
  intros r. rewrite read_raw_bytes_eq.
  repeat match goal with |- context [if ?c then _ else _] => destruct c end; discriminate.
Qed.
Lemma nopanic_read_uint n : nopanic (read_uint n).
Proof.
  intros r. rewrite read_uint_eq.
  repeat match goal with |- context [if ?c then _ else _] => destruct c end; discriminate.
Qed.
Lemma nopanic_read_u32 : nopanic read_u32. Proof. apply nopanic_read_uint. Qed.
Lemma nopanic_read_u64 : nopanic read_u64. Proof. apply nopanic_read_uint. Qed.
Lemma nopanic_read_string : nopanic read_string.
Proof.
  apply nopanic_bind; [apply nopanic_read_bytes|]. intros a.
  destruct (utf8_valid a); [apply nopanic_ret|apply nopanic_throw].
Qed.
Lemma nopanic_read_mpint : nopanic read_positive_mpint.
Proof.
  intros r. rewrite read_positive_mpint_eq. pose proof (nopanic_read_bytes r).
  destruct (read_bytes r) as [[b|e|] r']; simpl in *; try congruence.
  destruct (mpint_content b); discriminate.
Qed.
Lemma nopanic_run {A} (m : M A) b : nopanic m -> run m b <> Panic.
Proof. intros H. apply H. Qed.

(** Reading from a longer buffer: a successful read is unaffected by what follows. *)
Lemma parses_extend {A} (m : M A) P inner off a r' ext :
  parses m P -> off <= length inner -> m (mkReader inner off) = (Ok a, r') ->
  m (mkReader (inner ++ ext) off) = (Ok a, mkReader (inner ++ ext) (r_off r')).
Proof.
  intros Hm Ho H. apply Hm in H. destruct H as (bs & post & HP & Hs & ->).
  apply Hm. exists bs, (post ++ ext). split; [exact HP|]. split; [|reflexivity].
  rewrite skipn_app, Hs. replace (off - length inner) with 0 by lia. simpl.
  rewrite <- app_assoc. reflexivity.
Qed.

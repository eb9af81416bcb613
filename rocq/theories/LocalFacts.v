(** A reader method's outcome depends only on the unread bytes. *)
From Verif Require Import Base BaseFacts Utf8 Reader ReaderFacts.

Definition local {A} (m : M A) : Prop := forall r1 r2, rest r1 = rest r2 ->
  fst (m r1) = fst (m r2) /\ rest (snd (m r1)) = rest (snd (m r2)).

Lemma rest_adv r n : rest (mkReader (r_inner r) (r_off r + n)) = skipn n (rest r).
Proof. unfold rest. cbn [r_inner r_off]. rewrite skipn_skipn'. reflexivity. Qed.

Lemma rest_end r : (length (r_inner r) <=? r_off r) = match rest r with [] => true | _ => false end.
Proof.
  unfold rest. destruct (skipn (r_off r) (r_inner r)) as [|x l] eqn:E.
  - apply Nat.leb_le. apply f_equal with (f := @length _) in E. rewrite skipn_length in E. cbn in E. lia.
  - apply Nat.leb_gt. apply f_equal with (f := @length _) in E. rewrite skipn_length in E. cbn in E. lia.
Qed.

Lemma local_bind {A B} (m : M A) (f : A -> M B) : local m -> (forall a, local (f a)) -> local (mbind m f).
Proof.
  intros Hm Hf r1 r2 E. unfold mbind. destruct (Hm r1 r2 E) as [H1 H2].
  destruct (m r1) as [x1 r1'], (m r2) as [x2 r2']. cbn [fst snd] in *. subst x2.
  destruct x1; [apply Hf, H2|split; auto|split; auto].
Qed.
Lemma local_ret {A} (a : A) : local (ret a).
Proof. intros r1 r2 E. split; auto. Qed.
Lemma local_throw {A} e : local (@throw A e).
Proof. intros r1 r2 E. split; auto. Qed.
Lemma local_lift {A} (x : res A) : local (lift x).
Proof. intros r1 r2 E. split; auto. Qed.
Lemma local_read_bytes : local read_bytes.
Proof.
  intros r1 r2 E. rewrite !read_bytes_eq, !rest_end, <- E.
  destruct (rest r1) as [|x l] eqn:R; [cbn; rewrite R; auto|]. rewrite <- R in *.
  destruct (_ <? 4); [cbn; auto|]. destruct (_ <? _)%N; [cbn; auto|]. cbn [fst snd].
  rewrite !rest_adv, <- E. auto.
Qed.
Lemma local_read_raw n : local (read_raw_bytes n).
Proof.
  intros r1 r2 E. rewrite !read_raw_bytes_eq, !rest_end, <- E.
  destruct (rest r1) as [|x l] eqn:R; [cbn; rewrite R; auto|]. rewrite <- R in *.
  destruct (_ <? _); [cbn; auto|]. cbn [fst snd]. rewrite !rest_adv, <- E. auto.
Qed.
Lemma local_read_uint n : local (read_uint n).
Proof.
  intros r1 r2 E. rewrite !read_uint_eq, !rest_end, <- E.
  destruct (rest r1) as [|x l] eqn:R; [cbn; rewrite R; auto|]. rewrite <- R in *.
  destruct (_ <? _); [cbn; auto|]. cbn [fst snd]. rewrite !rest_adv, <- E. auto.
Qed.
Lemma local_read_u32 : local read_u32. Proof. apply local_read_uint. Qed.
Lemma local_read_u64 : local read_u64. Proof. apply local_read_uint. Qed.
Lemma local_read_string : local read_string.
Proof.
  apply local_bind; [apply local_read_bytes|]. intros a.
  destruct (utf8_valid a); [apply local_ret|apply local_throw].
Qed.
Lemma local_read_mpint : local read_positive_mpint.
Proof.
  intros r1 r2 E. rewrite !read_positive_mpint_eq. destruct (local_read_bytes r1 r2 E) as [H1 H2].
  destruct (read_bytes r1) as [x1 r1'], (read_bytes r2) as [x2 r2']. cbn [fst snd] in *. subst x2.
  destruct x1 as [b|e|]; [destruct (mpint_content b)|..]; cbn; auto.
Qed.
Lemma local_read_cstring : local read_cstring.
Proof.
  intros r1 r2 E. rewrite !read_cstring_eq, <- E. destruct (cstring_loop _ _ _) as [[s n]|]; cbn [fst snd]; auto.
  rewrite !rest_adv, <- E. auto.
Qed.

(** Reading a known prefix and going on. *)
Lemma run_step {A B} (m : M A) (f : A -> M B) P a bs post :
  parses m P -> P a bs -> (forall a, local (f a)) -> run (mbind m f) (bs ++ post) = run (f a) post.
Proof.
  intros Hm HP Hf. unfold run, mbind, reader_new.
  assert (E : m (mkReader (bs ++ post) 0) = (Ok a, mkReader (bs ++ post) (0 + length bs)))
    by (apply Hm; exists bs, post; auto).
  rewrite E. apply Hf. unfold rest. cbn [r_off r_inner]. rewrite skipn_app_exact by lia. reflexivity.
Qed.
Lemma run_lift {A B} (x : res A) a (f : A -> M B) post : x = Ok a -> run (mbind (lift x) f) post = run (f a) post.
Proof. intros ->. reflexivity. Qed.
Lemma run_lift_err {A B} (x : res A) e (f : A -> M B) post : x = Err e -> run (mbind (lift x) f) post = Err e.
Proof. intros ->. reflexivity. Qed.
Lemma run_bind_err {A B} (m : M A) e (f : A -> M B) post : run m post = Err e -> run (mbind m f) post = Err e.
Proof. unfold run, mbind. destruct (m _) as [x r]. cbn. intros ->. reflexivity. Qed.
Lemma run_bind_panic {A B} (m : M A) (f : A -> M B) post : run m post = Panic -> run (mbind m f) post = Panic.
Proof. unfold run, mbind. destruct (m _) as [x r]. cbn. intros ->. reflexivity. Qed.
Lemma run_ret {A} (a : A) post : run (ret a) post = Ok a.
Proof. reflexivity. Qed.

(** Inversion of a successful read. *)
Lemma run_inv {A B} (m : M A) (f : A -> M B) P x b :
  parses m P -> (forall a, local (f a)) -> run (mbind m f) b = Ok x ->
  exists a bs post, P a bs /\ b = bs ++ post /\ run (f a) post = Ok x.
Proof.
  intros Hm Hf H. destruct (run m b) as [a|e|] eqn:E.
  - apply (run_parses _ _ _ _ Hm) in E. destruct E as (bs & post & HP & ->). exists a, bs, post.
    split; [exact HP|]. split; [reflexivity|]. rewrite <- H. symmetry. eapply run_step; eassumption.
  - rewrite (run_bind_err _ _ _ _ E) in H. discriminate.
  - rewrite (run_bind_panic _ _ _ E) in H. discriminate.
Qed.
Lemma run_lift_inv {A B} (x : res A) (f : A -> M B) y b : run (mbind (lift x) f) b = Ok y ->
  exists a, x = Ok a /\ run (f a) b = Ok y.
Proof. destruct x as [a|e|]; cbn; [eauto|discriminate..]. Qed.

(** The common cases of [run_step]. *)
Lemma step_bytes {B} (f : bytes -> M B) b post : fits b -> (forall a, local (f a)) ->
  run (mbind read_bytes f) (enc_bytes b ++ post) = run (f b) post.
Proof. intros H Hf. eapply run_step; [apply parses_read_bytes|cbn beta; auto|exact Hf]. Qed.
Lemma step_string {B} (f : bytes -> M B) b post : fits b -> utf8_valid b = true -> (forall a, local (f a)) ->
  run (mbind read_string f) (enc_bytes b ++ post) = run (f b) post.
Proof. intros H Hu Hf. eapply run_step; [apply parses_read_string|cbn beta; auto|exact Hf]. Qed.
Lemma step_mpint {B} (f : bytes -> M B) m post : fits (mpint_bytes m) -> no_lead_zero m -> (forall a, local (f a)) ->
  run (mbind read_positive_mpint f) (enc_bytes (mpint_bytes m) ++ post) = run (f m) post.
Proof. intros H Hu Hf. eapply run_step; [apply parses_read_positive_mpint|cbn beta; auto|exact Hf]. Qed.
Lemma step_raw {B} (f : bytes -> M B) n b post : 0 < n -> length b = n -> (forall a, local (f a)) ->
  run (mbind (read_raw_bytes n) f) (b ++ post) = run (f b) post.
Proof. intros H Hu Hf. eapply run_step; [apply parses_read_raw, H|cbn beta; auto|exact Hf]. Qed.
Lemma step_u32 {B} (f : N -> M B) n post : (n < 2 ^ 32)%N -> (forall a, local (f a)) ->
  run (mbind read_u32 f) (to_be 4 n ++ post) = run (f n) post.
Proof. intros H Hf. eapply run_step; [apply parses_read_u32|cbn beta; auto|exact Hf]. Qed.
Lemma step_u64 {B} (f : N -> M B) n post : (n < 2 ^ 64)%N -> (forall a, local (f a)) ->
  run (mbind read_u64 f) (to_be 8 n ++ post) = run (f n) post.
Proof. intros H Hf. eapply run_step; [apply parses_read_u64|cbn beta; auto|exact Hf]. Qed.

Ltac local_tac :=
  repeat first
    [ progress intros
    | apply local_ret | apply local_throw | apply local_lift | apply local_read_bytes | apply local_read_raw
    | apply local_read_u32 | apply local_read_u64 | apply local_read_string | apply local_read_mpint
    | apply local_read_cstring | apply local_bind
    | match goal with |- local (if ?c then _ else _) => destruct c end
    | match goal with |- local (match ?c with _ => _ end) => destruct c end ].

(** The common cases of [run_inv]. *)
Lemma inv_bytes {B} (f : bytes -> M B) x b : (forall a, local (f a)) -> run (mbind read_bytes f) b = Ok x ->
  exists v post, fits v /\ b = enc_bytes v ++ post /\ run (f v) post = Ok x.
Proof.
  intros Hf H. apply (run_inv _ _ _ _ _ parses_read_bytes Hf) in H.
  destruct H as (a & bs & post & (H1 & ->) & -> & H). eauto.
Qed.
Lemma inv_string {B} (f : bytes -> M B) x b : (forall a, local (f a)) -> run (mbind read_string f) b = Ok x ->
  exists v post, fits v /\ utf8_valid v = true /\ b = enc_bytes v ++ post /\ run (f v) post = Ok x.
Proof.
  intros Hf H. apply (run_inv _ _ _ _ _ parses_read_string Hf) in H.
  destruct H as (a & bs & post & H1 & -> & H). destruct H1 as [[H1 H2] ->]. exists a, post. auto.
Qed.
Lemma inv_mpint {B} (f : bytes -> M B) x b : (forall a, local (f a)) -> run (mbind read_positive_mpint f) b = Ok x ->
  exists v post, fits (mpint_bytes v) /\ no_lead_zero v /\ b = enc_bytes (mpint_bytes v) ++ post /\ run (f v) post = Ok x.
Proof.
  intros Hf H. apply (run_inv _ _ _ _ _ parses_read_positive_mpint Hf) in H.
  destruct H as (a & bs & post & ((H1 & H2) & ->) & -> & H). exists a, post. auto.
Qed.
Lemma inv_raw {B} (f : bytes -> M B) n x b : 0 < n -> (forall a, local (f a)) -> run (mbind (read_raw_bytes n) f) b = Ok x ->
  exists v post, length v = n /\ b = v ++ post /\ run (f v) post = Ok x.
Proof.
  intros Hn Hf H. apply (run_inv _ _ _ _ _ (parses_read_raw n Hn) Hf) in H.
  destruct H as (a & bs & post & H1 & -> & H). destruct H1 as [H1 H2]. subst. exists a, post. auto.
Qed.
Lemma inv_u32 {B} (f : N -> M B) x b : (forall a, local (f a)) -> run (mbind read_u32 f) b = Ok x ->
  exists v post, (v < 2 ^ 32)%N /\ b = to_be 4 v ++ post /\ run (f v) post = Ok x.
Proof.
  intros Hf H. apply (run_inv _ _ _ _ _ parses_read_u32 Hf) in H.
  destruct H as (a & bs & post & (H1 & ->) & -> & H). eauto.
Qed.

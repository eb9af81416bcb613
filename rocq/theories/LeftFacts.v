(** Lemmas about what failing reads leave: from [collect] to the format. *)
From Coq Require Import Lia.
From Verif Require Import Base BaseFacts Utf8 Utf8Facts Str StrFacts SpecWire SpecText SpecBase64 SpecKeys SpecSshSig SpecPrivKey Base64 Base64Facts Reader ReaderFacts
  LocalFacts KeyType KeyTypeFacts PubKeyType Writer WireFacts Crypto PubKey PubKeyFacts Signature SshSigFacts Utils PrivKey PrivKeyFacts PropPrivKey
  Memory SpecMemory MemoryFacts Temps SpecTemps TempsFacts.

Lemma local_try {A} (m : M A) f : local m -> (forall a, local (f a)) -> local (try m f).
Proof.
  intros Hm Hf r1 r2 E. unfold try. destruct (Hm r1 r2 E) as [H1 H2]. destruct (m r1) as [x1 s1], (m r2) as [x2 s2].
  cbn [fst snd] in *. subst x2. destruct x1; [apply Hf, H2|split; auto|split; auto].
Qed.
Lemma local_keep m f : local m -> (forall a, local (f a)) -> local (keep m f).
Proof. intros Hm Hf. apply local_try; [exact Hm|]. intros a. apply local_bind; [apply Hf|]. intros l. apply local_ret. Qed.
Lemma local_keep_opt m f : local m -> local f -> local (keep_opt m f).
Proof. intros Hm Hf. apply local_try; [exact Hm|]. intros a. apply local_bind; [apply Hf|]. intros l. apply local_ret. Qed.
Ltac left_local := repeat first
  [ progress intros | apply local_keep | apply local_keep_opt | apply local_try | apply local_read_bytes | apply local_read_string
  | apply local_read_mpint | apply local_read_raw | apply local_lift | apply local_ret | apply local_bind
  | match goal with |- local (if ?c then _ else _) => destruct c end ].
Lemma local_end : local collect_end. Proof. unfold collect_end. left_local. Qed.
Lemma local_hw : local collect_hw. Proof. unfold collect_hw, collect_end. left_local. Qed.
Lemma local_body F kt : local (collect_body F kt).
Proof. unfold collect_body. destruct (kt_k kt); left_local; try apply local_hw; unfold collect_end; left_local. Qed.
Lemma local_collect F : local (collect F).
Proof. unfold collect. left_local. apply local_body. Qed.

(** ** Parts *)
Definition reads (p : part) (m : M bytes) : Prop := forall (f : bytes -> M (list bytes)) b, (forall a, local (f a)) ->
  (exists v rest, begins p v b rest /\ run (try m f) b = run (f v) rest)
  \/ (forall v rest, ~ begins p v b rest) /\ run (try m f) b = Ok [].
Lemma reads_parses p m P : parses m P -> (forall v b rest, begins p v b rest <-> exists bs, P v bs /\ b = bs ++ rest) -> reads p m.
Proof.
  intros Hm HP f b Hf. destruct (run m b) as [v|e|] eqn:E.
  - left. apply (run_parses _ _ _ _ Hm) in E. destruct E as (bs & post & Pv & ->). exists v, post.
    split; [apply HP; eauto|].
    assert (X : m (mkReader (bs ++ post) 0) = (Ok v, mkReader (bs ++ post) (0 + length bs))) by (apply Hm; exists bs, post; auto).
    unfold run, try, reader_new. rewrite X. apply Hf. unfold rest. cbn [r_off r_inner]. rewrite skipn_app_exact by lia. reflexivity.
  - right. split.
    + intros v rest Bg. apply HP in Bg. destruct Bg as (bs & Pv & ->). rewrite (proj2 (run_parses m P _ v Hm)) in E by eauto. discriminate.
    + unfold run, try in *. destruct (m (reader_new b)) as [x s]. cbn [fst] in E. subst x. reflexivity.
  - right. split.
    + intros v rest Bg. apply HP in Bg. destruct Bg as (bs & Pv & ->). rewrite (proj2 (run_parses m P _ v Hm)) in E by eauto. discriminate.
    + unfold run, try in *. destruct (m (reader_new b)) as [x s]. cbn [fst] in E. subst x. reflexivity.
Qed.
Lemma reads_text : reads PText read_string.
Proof.
  apply (reads_parses _ _ _ parses_read_string). intros v b rest. split.
  - intros H. inversion H; subst. exists (enc_bytes v). rewrite <- field_enc, <- field_ok_fits, utf8_valid_iff. auto.
  - intros (bs & [[H1 H2] ->] & ->). rewrite <- field_enc. apply B_text; [apply utf8_valid_iff, H2|apply field_ok_fits, H1].
Qed.
Lemma reads_point : reads PPoint read_bytes.
Proof.
  apply (reads_parses _ _ _ parses_read_bytes). intros v b rest. split.
  - intros H. inversion H; subst. exists (enc_bytes v). rewrite <- field_enc, <- field_ok_fits. auto.
  - intros (bs & [H1 ->] & ->). rewrite <- field_enc. apply B_point, field_ok_fits, H1.
Qed.
Lemma reads_secret : reads PSecret read_bytes.
Proof.
  apply (reads_parses _ _ _ parses_read_bytes). intros v b rest. split.
  - intros H. inversion H; subst. exists (enc_bytes v). rewrite <- field_enc, <- field_ok_fits. auto.
  - intros (bs & [H1 ->] & ->). rewrite <- field_enc. apply B_secret, field_ok_fits, H1.
Qed.
Lemma reads_number : reads PNumber read_positive_mpint.
Proof.
  apply (reads_parses _ _ _ parses_read_positive_mpint). intros v b rest. split.
  - intros H. inversion H; subst. exists bs. rewrite <- mpint_field_iff. auto.
  - intros (bs & H & ->). apply B_number, mpint_field_iff, H.
Qed.
Lemma reads_flags : reads PFlags (read_raw_bytes 1).
Proof.
  apply (reads_parses _ _ _ (parses_read_raw 1 ltac:(lia))). intros v b rest. split.
  - intros H. inversion H; subst. exists [x]. auto.
  - intros (bs & [H1 H2] & ->). subst. destruct v as [|x [|y v]]; try discriminate. apply B_flags.
Qed.
Lemma reads_curve : reads PCurve (do! id <- read_string; do! _ <- lift (curve_from_identifier id); ret id).
Proof.
  eapply reads_parses.
  - apply parses_bind; [apply parses_read_string|]. intros id. apply parses_bind; [apply parses_lift|]. intros c. apply parses_ret.
  - intros v b rest. split.
    + intros H. inversion H as [|c r Hc E1 E2 E3| | | |]; subst. exists (enc_bytes (c_identifier c)). rewrite <- field_enc. split; [|reflexivity].
      assert (G : good_curve c) by (apply supported_curve_iff, Hc).
      exists (c_identifier c), (field (c_identifier c)), []. rewrite app_nil_r. split; [reflexivity|]. split.
      * rewrite field_enc. split; [|reflexivity]. destruct G as [->|[->| ->]]; split; reflexivity.
      * exists c, [], []. split; [reflexivity|]. split; [|auto]. split; [|reflexivity]. apply curve_ok. auto.
    + intros (bs & (id & b1 & b2 & -> & [_ ->] & c & b3 & b4 & -> & [Hc ->] & -> & ->) & ->). cbn [List.app]. rewrite app_nil_r, <- field_enc.
      apply curve_ok in Hc. destruct Hc as [Hc ->]. apply B_curve, supported_curve_iff, Hc.
Qed.

Lemma far_try p ps m f b l : reads p m -> remembered p = false -> (forall v, local (f v)) ->
  (forall v rest l, begins p v b rest -> run (f v) rest = Ok l -> so_far ps rest l) -> run (try m f) b = Ok l -> so_far (p :: ps) b l.
Proof.
  intros Hr Hp Hf H E. destruct (Hr f b Hf) as [(v & rest & Bg & X)|[N X]]; rewrite X in E.
  - pose proof (SF_more p ps v b rest l Bg (H _ _ _ Bg E)) as S. rewrite Hp in S. exact S.
  - injection E as <-. apply SF_stop, N.
Qed.
Lemma run_cons (m : M (list bytes)) c b l : run (mbind m (fun l => ret (c ++ l))) b = Ok l -> exists l', run m b = Ok l' /\ l = c ++ l'.
Proof. unfold run, mbind, ret. destruct (m (reader_new b)) as [[x|e|] s]; cbn [fst]; [|discriminate..]. intros E. injection E as <-. eauto. Qed.
Lemma far_keep p ps m f b l : reads p m -> remembered p = true -> (forall v, local (f v)) ->
  (forall v rest l, begins p v b rest -> run (f v) rest = Ok l -> so_far ps rest l) -> run (keep m f) b = Ok l -> so_far (p :: ps) b l.
Proof.
  intros Hr Hp Hf H E. unfold keep in E.
  destruct (Hr (fun c => mbind (f c) (fun l => ret (c :: l))) b) as [(v & rest & Bg & X)|[N X]]; [|rewrite X in E..].
  - intros a. apply local_bind; [apply Hf|]. intros x. apply local_ret.
  - apply (run_cons (f v) [v]) in E. destruct E as (l' & E & ->). pose proof (SF_more p ps v b rest l' Bg (H _ _ _ Bg E)) as S. rewrite Hp in S. exact S.
  - injection E as <-. apply SF_stop, N.
Qed.
Lemma far_end b l : run collect_end b = Ok l -> so_far [] b l.
Proof.
  unfold run, collect_end, try, ret. destruct (read_string (reader_new b)) as [[x|e|] s]; cbn [fst]; intros E; injection E as <-; apply SF_end.
Qed.
Lemma far_hw b l : run collect_hw b = Ok l -> so_far [PText; PFlags; PSecret; PSecret] b l.
Proof.
  unfold collect_hw. apply far_try; [apply reads_text|reflexivity|left_local; apply local_end|]. intros _ b1 l1 _.
  apply far_try; [apply reads_flags|reflexivity|left_local; apply local_end|]. intros fl b2 l2 B2.
  assert (L : exists x, fl = [x]) by (inversion B2; eauto). destruct L as [x ->]. change (index [x] 0) with (Ok x).
  intros E. change (run (keep read_bytes (fun _ => keep read_bytes (fun _ => collect_end))) b2 = Ok l2) in E. revert E.
  apply far_keep; [apply reads_secret|reflexivity|left_local; apply local_end|]. intros _ b3 l3 _.
  apply far_keep; [apply reads_secret|reflexivity|left_local; apply local_end|]. intros _ b4 l4 _. apply far_end.
Qed.
Lemma far_secret (sk : bool) b l : run (if sk then collect_hw else keep read_bytes (fun _ => collect_end)) b = Ok l ->
  so_far (if sk then [PText; PFlags; PSecret; PSecret] else [PSecret]) b l.
Proof.
  destruct sk; [apply far_hw|]. apply far_keep; [apply reads_secret|reflexivity|left_local; apply local_end|]. intros _ b3 l3 _. apply far_end.
Qed.

(** ** RSA numbers *)
Definition far_rsa (rsa : bool) (acc : list bytes) (n : nat) (b : bytes) (l : list bytes) : Prop :=
  exists l0 x, l = l0 ++ x /\ so_far (repeat PNumber n) b l0 /\ exponents rsa (acc ++ l0) x.
Lemma far_number rsa acc n f b l : length acc <> 6 -> (forall v, local (f v)) ->
  (forall v rest l, run (f v) rest = Ok l -> far_rsa rsa (acc ++ [v]) n rest l) ->
  run (keep read_positive_mpint f) b = Ok l -> far_rsa rsa acc (S n) b l.
Proof.
  intros La Hf H E. unfold keep in E. cbn [repeat].
  destruct (reads_number (fun c => mbind (f c) (fun l => ret (c :: l))) b) as [(v & rest & Bg & X)|[N X]]; [|rewrite X in E..].
  - intros a. apply local_bind; [apply Hf|]. intros x. apply local_ret.
  - apply (run_cons (f v) [v]) in E. destruct E as (l' & E & ->). destruct (H _ _ _ E) as (l0 & x & -> & S & Ex). exists (v :: l0), x.
    split; [reflexivity|]. split; [exact (SF_more PNumber _ v b rest l0 Bg S)|]. rewrite <- app_assoc in Ex. exact Ex.
  - injection E as <-. exists [], []. split; [reflexivity|]. split; [apply SF_stop, N|]. rewrite app_nil_r. apply X_none. auto.
Qed.
Lemma exponent_value d p x : crt_exponent d p = Ok x -> crt_value true d p (Some x).
Proof.
  intros H. apply crt_exponent_iff in H. destruct H as (H1 & H2 & H3). unfold crt_value. rewrite !magnitude_from_be. split; [exact H1|].
  exists x. rewrite magnitude_from_be, shortest_iff. auto.
Qed.
Lemma run_lift_try {A} (x : res A) f b : run (try (lift x) f) b = match x with Ok a => run (f a) b | _ => Ok [] end.
Proof. destruct x; reflexivity. Qed.
Lemma run_end b : run collect_end b = Ok [].
Proof. unfold run, collect_end, try, ret. destruct (read_string (reader_new b)) as [[x|e|] s]; reflexivity. Qed.
Lemma far_exponents F n e d i p q b l :
  run (keep_opt (lift (exponent F d p)) (keep_opt (lift (exponent F d q)) collect_end)) b = Ok l ->
  far_rsa (f_rsa F) [n; e; d; i; p; q] 0 b l.
Proof.
  intros E. exists [], l. split; [reflexivity|]. split; [apply SF_end|]. cbn [List.app]. unfold keep_opt in E. rewrite run_lift_try in E. unfold exponent in E at 1.
  destruct (f_rsa F) eqn:EF.
  - destruct (crt_exponent d p) as [x|er|] eqn:Ep; cbn [bind] in E.
    + apply run_cons in E. destruct E as (l' & E & ->). rewrite run_lift_try in E. unfold exponent in E. rewrite EF in E.
      destruct (crt_exponent d q) as [y|er|] eqn:Eq; cbn [bind] in E.
      * apply run_cons in E. destruct E as (l'' & E & ->). rewrite run_end in E. injection E as <-.
        apply X_both; [reflexivity|apply exponent_value, Ep|apply exponent_value, Eq].
      * exfalso. exact (crt_exponent_err _ _ _ Eq).
      * injection E as <-. apply X_q; [reflexivity|apply exponent_value, Ep|]. rewrite magnitude_from_be. apply (crt_exponent_panic d), Eq.
    + exfalso. exact (crt_exponent_err _ _ _ Ep).
    + injection E as <-. apply X_p; [reflexivity|]. rewrite magnitude_from_be. apply (crt_exponent_panic d), Ep.
  - apply run_cons in E. destruct E as (l' & E & ->). rewrite run_lift_try in E. unfold exponent in E. rewrite EF in E.
    apply run_cons in E. destruct E as (l'' & E & ->). rewrite run_end in E. injection E as <-. apply X_none. auto.
Qed.

(** ** Bare sections *)
Lemma no_exponents rsa kt b l : kt_k kt <> KRsa -> so_far (layout kt) b l -> exponents rsa l [].
Proof.
  intros K S. apply X_none. right.
  assert (L : length l <= length (filter remembered (layout kt))).
  { clear K. revert S. generalize (layout kt). intros ps S. induction S as [b|p ps b _|p ps v b rest l _ _ IH]; cbn [filter length]; [lia|lia|].
    destruct (remembered p); cbn [length]; lia. }
  unfold layout in L. destruct (kt_k kt), (kt_is_sk kt); cbn in L; try congruence; lia.
Qed.
Lemma body_left F kt b l : run (collect_body F kt) b = Ok l -> exists l0 x, l = l0 ++ x /\ so_far (layout kt) b l0 /\ exponents (f_rsa F) l0 x.
Proof.
  intros E. assert (Q : kt_k kt <> KRsa -> so_far (layout kt) b l -> exists l0 x, l = l0 ++ x /\ so_far (layout kt) b l0 /\ exponents (f_rsa F) l0 x).
  { intros K S. exists l, []. rewrite app_nil_r. split; [reflexivity|]. split; [exact S|]. eapply no_exponents; eassumption. }
  unfold collect_body in E. unfold layout in *. destruct (kt_k kt);
    try (apply Q; [discriminate|]; injection E as <-; apply SF_end).
  - change (far_rsa (f_rsa F) [] 6 b l). revert E.
    do 6 (apply far_number; [cbn; discriminate|left_local; apply local_end|]; intros ? ? ?). cbn [List.app]. apply far_exponents.
  - apply Q; [discriminate|]. revert E. apply far_try; [apply reads_point|reflexivity|left_local; first [apply local_hw|apply local_end]|].
    intros _ b1 l1 _. apply far_secret.
  - apply Q; [discriminate|].
    assert (X : run (try (do! id <- read_string; do! _ <- lift (curve_from_identifier id); ret id)
      (fun _ => try read_bytes (fun _ => if kt_is_sk kt then collect_hw else keep read_bytes (fun _ => collect_end)))) b = Ok l).
    { rewrite <- E. unfold run, try, mbind, lift, ret. destruct (read_string (reader_new b)) as [[id|er|] s]; [|reflexivity..].
      destruct (curve_from_identifier id); reflexivity. }
    clear E. revert X. apply far_try; [apply reads_curve|reflexivity|left_local; first [apply local_hw|apply local_end]|]. intros _ b1 l1 _.
    apply far_try; [apply reads_point|reflexivity|left_local; first [apply local_hw|apply local_end]|]. intros _ b2 l2 _. apply far_secret.
Qed.
Lemma collect_broken F b l : run (collect F) b = Ok l -> broken F b l.
Proof.
  intros E. unfold collect in E.
  destruct (reads_text (fun name => try (lift (kt_from_name name)) (collect_body F)) b) as [(v & rest & Bg & X)|[N X]]; [|rewrite X in E..].
  - left_local. apply local_body.
  - rewrite run_lift_try in E. inversion Bg as [s r H1 H2 E1 E2 E3| | | | |]; subst.
    destruct (kt_from_name v) as [kt|e|] eqn:Ek.
    + pose proof Ek as En. apply kt_from_name_ok in En. destruct En as [Kn ->]. apply body_left in E. destruct E as (l0 & x & -> & S & Ex).
      eapply BR_parts; eauto.
    + injection E as <-. apply BR_name. intros kt rest' Hk Eq. apply kt_from_name_ok in Hk as Hk'. destruct Hk' as [Hk' _].
      rewrite !field_enc in Eq. apply enc_bytes_inj in Eq; [|apply field_ok_fits, H2|apply known_fits, Hk']. destruct Eq as [-> _]. congruence.
    + injection E as <-. apply BR_name. intros kt rest' Hk Eq. apply kt_from_name_ok in Hk as Hk'. destruct Hk' as [Hk' _].
      rewrite !field_enc in Eq. apply enc_bytes_inj in Eq; [|apply field_ok_fits, H2|apply known_fits, Hk']. destruct Eq as [-> _]. congruence.
  - injection E as <-. apply BR_name. intros kt rest Hk ->. apply (N (kt_name kt) rest). apply kt_from_name_ok in Hk. destruct Hk as [Hk _].
    apply B_text; [apply utf8_valid_iff, known_utf8, Hk|apply field_ok_fits, known_fits, Hk].
Qed.
Lemma bare_key_iff F b : bare_key F b <-> exists k, run (read_private_key F) b = Ok k.
Proof.
  unfold bare_key. split.
  - intros (k & bs & tl & H & ->). apply priv_data_iff in H. destruct H as [H ->]. rewrite (read_private_key_enc F k tl H). eauto.
  - intros [k H]. apply read_private_key_inv in H. destruct H as (H & _ & post & ->). exists k, (enc_priv k), post. rewrite priv_data_iff. auto.
Qed.
Lemma all_collected F r : Ok (all_of (fst (collect F r))) = fst (collect F r).
Proof. destruct (key_tracks F r []) as (l & L & _). rewrite L. reflexivity. Qed.
Lemma key_left_broken F b : ~ bare_key F b -> broken F b (key_left F (reader_new b)).
Proof.
  rewrite bare_key_iff. intros N. apply collect_broken. unfold key_left. unfold run in *. rewrite <- all_collected. f_equal.
  destruct (fst (read_private_key F (reader_new b))) as [k|e|]; [exfalso; apply N; eauto|reflexivity..].
Qed.
Lemma key_left_key F b : bare_key F b -> key_left F (reader_new b) = [].
Proof. rewrite bare_key_iff. intros [k E]. unfold key_left. unfold run in E. rewrite E. reflexivity. Qed.
Lemma local_read_private_key F : local (read_private_key F).
Proof. rewrite read_private_key_body. local_tac; apply local_read_body. Qed.
Lemma key_left_local F r1 r2 : rest r1 = rest r2 -> key_left F r1 = key_left F r2.
Proof.
  intros E. unfold key_left. destruct (local_read_private_key F r1 r2 E) as [-> _]. destruct (local_collect F r1 r2 E) as [-> _]. reflexivity.
Qed.
Lemma sec_left_check F plain : (forall m rest, (m <= u32_max)%N -> plain <> be32 m ++ be32 m ++ rest) -> sec_left F (reader_new plain) = [].
Proof.
  intros N. unfold sec_left, reader_new. destruct (read_u32 (mkReader plain 0)) as [[m1|e|] r1] eqn:E1; [|reflexivity..].
  apply parses_read_u32 in E1. destruct E1 as (b1 & p1 & [L1 ->] & S1 & ->). cbn [skipn] in S1. subst plain.
  destruct (read_u32 _) as [[m2|e|] r2] eqn:E2; [|reflexivity..].
  apply parses_read_u32 in E2. destruct E2 as (b2 & p2 & [L2 ->] & S2 & ->).
  rewrite skipn_app_exact in S2 by lia. subst p1. destruct (m1 =? m2)%N eqn:E; [|reflexivity]. apply N.eqb_eq in E. subst m2.
  exfalso. apply (N m1 p2); [unfold u32_max; lia|]. rewrite !be32_to_be. reflexivity.
Qed.
Lemma sec_left_key F m b : (m <= u32_max)%N -> sec_left F (reader_new (be32 m ++ be32 m ++ b)) = key_left F (reader_new b).
Proof.
  intros Hm. assert (Hm' : (m < 2 ^ 32)%N) by (unfold u32_max in Hm; lia). rewrite !be32_to_be. unfold sec_left, reader_new.
  set (d := to_be 4 m ++ to_be 4 m ++ b).
  assert (E1 : read_u32 (mkReader d 0) = (Ok m, mkReader d (0 + length (to_be 4 m)))) by (apply parses_read_u32; exists (to_be 4 m), (to_be 4 m ++ b); auto).
  assert (E2 : read_u32 (mkReader d (0 + length (to_be 4 m))) = (Ok m, mkReader d (0 + length (to_be 4 m) + length (to_be 4 m)))).
  { apply parses_read_u32. exists (to_be 4 m), b. split; [auto|]. split; [apply skipn_app_exact; lia|reflexivity]. }
  rewrite E1, E2. subst d.
  rewrite N.eqb_refl. apply key_left_local. unfold rest. cbn [r_off r_inner skipn]. rewrite app_assoc. rewrite skipn_app_exact; [reflexivity|].
  rewrite app_length. lia.
Qed.
Lemma sec_left_spec F plain : section_left F plain (sec_left F (reader_new plain)).
Proof.
  destruct (run (do! m1 <- read_u32; do! m2 <- read_u32; if (m1 =? m2)%N then ret m1 else throw EInvalidFormat) plain) as [m|e|] eqn:E.
  - apply inv_u32 in E; [|local_tac]. destruct E as (m1 & b1 & L1 & -> & E). apply inv_u32 in E; [|local_tac].
    destruct E as (m2 & b & L2 & -> & E). destruct (m1 =? m2)%N eqn:Em; [|discriminate]. apply N.eqb_eq in Em. subst m2.
    assert (L : (m1 <= u32_max)%N) by (unfold u32_max; lia). rewrite <- !be32_to_be. rewrite sec_left_key by exact L.
    destruct (run (read_private_key F) b) as [k|e|] eqn:Ek.
    1: { assert (Bk : bare_key F b) by (apply bare_key_iff; eauto). rewrite (key_left_key F b Bk). eapply SL_other; eauto. }
    1,2: assert (Bk : ~ bare_key F b) by (rewrite bare_key_iff; intros [k X]; congruence);
      eapply SL_broken; [exact L|reflexivity|exact Bk|apply key_left_broken, Bk].
  - assert (N : forall m rest, (m <= u32_max)%N -> plain <> be32 m ++ be32 m ++ rest).
    { intros m rest L ->. unfold u32_max in L. rewrite !be32_to_be in E. rewrite !step_u32 in E by (try lia; local_tac). rewrite N.eqb_refl in E. discriminate. }
    rewrite sec_left_check by exact N. apply SL_check, N.
  - assert (N : forall m rest, (m <= u32_max)%N -> plain <> be32 m ++ be32 m ++ rest).
    { intros m rest L ->. unfold u32_max in L. rewrite !be32_to_be in E. rewrite !step_u32 in E by (try lia; local_tac). rewrite N.eqb_refl in E. discriminate. }
    rewrite sec_left_check by exact N. apply SL_check, N.
Qed.

(** ** Texts *)
Lemma head_inv data ci kd op pub se : run head data = Ok (ci, kd, op, pub, se) ->
  exists pkb tl, header_ok ci kd op pkb se tl /\ data = key_file ci kd op pkb se ++ tl.
Proof.
  intros H. unfold head in H.
  assert (Hx : @noerr (bytes * bytes * bytes * pubkey * bytes) (Ok (ci, kd, op, pub, se))) by discriminate.
  apply magic_ginv in H; [|local_tac|exact Hx]. destruct H as (d1 & -> & H).
  apply ginv_string in H; [|local_tac|exact Hx]. destruct H as (cipher & d2 & H1 & -> & H).
  apply ginv_string in H; [|local_tac|exact Hx]. destruct H as (kdf & d3 & H2 & -> & H).
  apply ginv_bytes in H; [|local_tac|exact Hx]. destruct H as (options & d4 & H3 & -> & H).
  apply ginv_u32 in H; [|local_tac|exact Hx]. destruct H as (count & d5 & _ & -> & H).
  destruct (count =? 1)%N eqn:Ec; [|exfalso; exact (Hx _ (eq_sym H))]. apply N.eqb_eq in Ec. subst count. cbn [negb] in H.
  apply ginv_bytes in H; [|local_tac|exact Hx]. destruct H as (pkb & d6 & H4 & -> & H).
  apply ginv_lift in H; [|apply pk_from_bytes_not_panic|exact Hx]. destruct H as (pub' & Hp & H).
  apply ginv_u32 in H; [|local_tac|exact Hx]. destruct H as (rem & d7 & H5 & -> & H).
  apply raw_ginv in H; [|local_tac|exact Hx]. destruct H as (section & tl & Hl & -> & Hne & H).
  unfold run, ret in H. cbn [fst] in H. injection H as -> -> -> -> ->.
  assert (Er : rem = N.of_nat (length se)) by lia.
  assert (Fs : fits se) by (unfold fits; lia).
  exists pkb, tl. apply pk_from_bytes_iff in Hp. destruct Hp as [[K1 [K2 K3]] (ppost & ->)]. split.
  - apply str_ok_iff in H1, H2. rewrite <- field_ok_fits in H3, H4, Fs. unfold header_ok. do 5 (split; [tauto|]). split; [|auto].
    exists pub, ppost. split; [apply known_name_ok, K1|]. apply pub_blob_iff. auto.
  - rewrite key_file_enc. unfold enc_file. rewrite Er, <- !app_assoc. change (enc_bytes se) with (to_be 4 (N.of_nat (length se)) ++ se).
    rewrite <- !app_assoc. reflexivity.
Qed.
Lemma head_header data ci kd op pkb se tl : header_ok ci kd op pkb se tl -> data = key_file ci kd op pkb se ++ tl ->
  exists pub, run head data = Ok (ci, kd, op, pub, se).
Proof.
  intros H ->. apply header_parts in H. destruct H as (H1 & H2 & H3 & H4 & H5 & H6 & pk & H7). exists pk. rewrite key_file_enc. apply head_run; assumption.
Qed.
Lemma collected_joined e : forall ls, exists l rest, ls = l ++ rest /\ ~ In e l /\ (rest = [] \/ exists rest', rest = e :: rest')
  /\ forall acc, collected e ls acc = acc ++ concat l.
Proof.
  induction ls as [|p ls IH].
  - exists [], []. split; [reflexivity|]. split; [auto|]. split; [auto|]. intros acc. cbn. rewrite app_nil_r. reflexivity.
  - destruct (bytes_eqb p e) eqn:E.
    + apply bytes_eqb_eq in E. subst p. exists [], (e :: ls). split; [reflexivity|]. split; [auto|]. split; [eauto|].
      intros acc. cbn. rewrite bytes_eqb_refl, app_nil_r. reflexivity.
    + destruct IH as (l & rest & -> & N & R & H). exists (p :: l), rest. split; [reflexivity|]. split.
      * intros [->|I]; [rewrite bytes_eqb_refl in E; discriminate|exact (N I)].
      * split; [exact R|]. intros acc. cbn [collected List.app concat]. rewrite E, H, <- app_assoc. reflexivity.
Qed.
Lemma first_line_begin text : first_line (lines text) = key_begin -> lines text = key_begin :: tl (lines text).
Proof. destruct (lines text) as [|l ls]; [discriminate|]. cbn. congruence. Qed.
Lemma joined_body text : first_line (lines text) = key_begin -> joined text (collected key_end (tl (lines text)) []).
Proof.
  intros H. apply first_line_begin in H. destruct (collected_joined key_end (tl (lines text))) as (l & rest & E & N & R & C).
  exists l, rest. rewrite C. split; [apply lines_iff; rewrite H at 1; rewrite E at 1; reflexivity|]. split; [exact N|]. split; [reflexivity|exact R].
Qed.
Lemma text_data text body data : first_line (lines text) = key_begin -> armor_body key_end (tl (lines text)) [] = Ok body ->
  b64_decode body = Some data -> key_text data text.
Proof.
  intros H A B. apply first_line_begin in H. apply armor_body_iff in A. destruct A as (ls & rest & E & N & ->). apply b64_decode_iff in B.
  destruct B as [j B]. exists ls, rest, j. split; [apply lines_iff; rewrite H, E; reflexivity|]. auto.
Qed.
Lemma data_text text data : key_text data text -> first_line (lines text) = key_begin
  /\ exists body, armor_body key_end (tl (lines text)) [] = Ok body /\ b64_decode body = Some data.
Proof.
  intros (ls & rest & j & Hl & Hn & Hb). apply lines_iff in Hl. rewrite Hl. split; [reflexivity|]. exists (concat ls).
  split; [apply armor_body_iff; exists ls, rest; auto|apply b64_decode_iff; exists j; exact Hb].
Qed.
Lemma left_of_text_spec F K text pass : text_left F K text pass (left_of_text F K text pass).
Proof.
  unfold left_of_text. destruct (bytes_eqb (first_line (lines text)) key_begin) eqn:Eb; cycle 1.
  { apply TL_begin. intros body (ls & rest & Hl & _). apply lines_iff in Hl. rewrite Hl in Eb. cbn [first_line] in Eb.
    change key_begin_line with key_begin in Eb. rewrite bytes_eqb_refl in Eb. discriminate. }
  apply bytes_eqb_eq in Eb. pose proof (joined_body text Eb) as J.
  assert (ND : (forall body data, armor_body key_end (tl (lines text)) [] = Ok body -> b64_decode body <> Some data) ->
    text_left F K text pass [collected key_end (tl (lines text)) []]).
  { intros N. apply TL_decode; [exact J|]. intros data D. apply data_text in D. destruct D as (_ & body & A & B). exact (N _ _ A B). }
  pose proof (collected_ok key_end (tl (lines text)) []) as CO.
  destruct (armor_body key_end (tl (lines text)) []) as [body|e|] eqn:Ea; [|apply ND; discriminate..].
  destruct (b64_decode body) as [data|] eqn:Ed; [|apply ND; intros b d X; injection X as <-; congruence].
  rewrite (CO body eq_refl) in *. clear ND CO.
  pose proof (text_data _ _ _ Eb Ea Ed) as D. unfold reader_left.
  assert (NH : (forall x, run head data <> Ok x) -> text_left F K text pass [body; data]).
  { intros N. apply TL_header; [exact J|exact D|]. intros ci kd op pkb se tl Hh Ef.
    destruct (head_header _ _ _ _ _ _ _ Hh Ef) as [pub X]. exact (N _ X). }
  destruct (run head data) as [((((ci & kd) & op) & pub) & se)|e|] eqn:Eh; [|apply NH; discriminate..]. clear NH.
  apply head_inv in Eh. destruct Eh as (pkb & tl' & Hh & Ef). unfold unlock_left.
  assert (NL : (forall x, decrypt F K ci kd op pass se <> Ok x) -> text_left F K text pass [body; data; se]).
  { intros N. eapply TL_locked; [exact J|exact D|exact Hh|exact Ef|]. intros plain U. apply decrypt_iff in U. exact (N _ U). }
  destruct (decrypt F K ci kd op pass se) as [plain|e|] eqn:El; [|apply NL; discriminate..]. clear NL.
  apply (TL_section F K text pass body data plain); [|apply sec_left_spec].
  apply decrypt_iff in El. destruct J as (ls & rest & Hl & Hn & _ & Hr). apply first_line_begin in Eb.
  apply armor_body_iff in Ea. destruct Ea as (ls' & rest' & E & N & ->). apply b64_decode_iff in Ed. destruct Ed as [j B].
  exists ls', rest', j, ci, kd, op, pkb, se, tl'. split; [apply lines_iff; rewrite Eb, E; reflexivity|]. auto 8.
Qed.

(** ** The format fixes what is left *)
Lemma curve_field c : supported_curve c -> fits (c_identifier c).
Proof. intros H. apply supported_curve_iff in H. destruct H as [->|[->| ->]]; reflexivity. Qed.
Lemma begins_fun p b v rest v' rest' : begins p v b rest -> begins p v' b rest' -> v = v' /\ rest = rest'.
Proof.
  intros H H'. remember b as b' eqn:Eb in H'. symmetry in Eb.
  destruct H as [s r U K|c r K|w r K|x r|w r K|w bs r K]; inversion H' as [s' r' U' K'|c' r' K'|w' r' K'|x' r'|w' r' K'|w' bs' r' K']; subst;
    match goal with X : ?x = ?y |- _ => match type of x with list byte => rename X into E2 | bytes => rename X into E2 end end.
  - rewrite !field_enc in E2. apply enc_bytes_inj in E2; [|apply field_ok_fits; assumption..]. destruct E2; auto.
  - rewrite !field_enc in E2. apply enc_bytes_inj in E2; [|apply curve_field; assumption..]. destruct E2; auto.
  - rewrite !field_enc in E2. apply enc_bytes_inj in E2; [|apply field_ok_fits; assumption..]. destruct E2; auto.
  - injection E2 as -> ->. auto.
  - rewrite !field_enc in E2. apply enc_bytes_inj in E2; [|apply field_ok_fits; assumption..]. destruct E2; auto.
  - apply mpint_field_iff in K, K'. assert (V : run read_positive_mpint (bs ++ r) = Ok w) by (apply (run_parses _ _ _ _ parses_read_positive_mpint); eauto).
    assert (V' : run read_positive_mpint (bs' ++ rest') = Ok v') by (apply (run_parses _ _ _ _ parses_read_positive_mpint); eauto).
    rewrite E2, V in V'. injection V' as <-. destruct K as [_ ->], K' as [_ ->]. apply app_inv_head in E2. destruct E2; auto.
Qed.
Lemma so_far_fun ps b l : so_far ps b l -> forall l', so_far ps b l' -> l = l'.
Proof.
  induction 1 as [b|p ps b N|p ps v b rest l Bg S IH]; intros l' S'; inversion S' as [|p' ps' b' N'|p' ps' v' b' rest' l0 Bg' S0]; subst; try reflexivity.
  - destruct (N _ _ Bg').
  - destruct (N' _ _ Bg).
  - destruct (begins_fun _ _ _ _ _ _ Bg Bg') as [<- <-]. rewrite (IH _ S0). reflexivity.
Qed.
Lemma value_exponent d p x : crt_value true d p (Some x) -> crt_exponent d p = Ok x.
Proof.
  intros (H1 & v & E & H2 & H3). injection E as <-. rewrite !magnitude_from_be in *. rewrite shortest_iff in H3. apply crt_exponent_iff. auto.
Qed.
Lemma exponents_fun rsa l x x' : exponents rsa l x -> exponents rsa l x' -> x = x'.
Proof.
  assert (S : forall d p y y', crt_value true d p (Some y) -> crt_value true d p (Some y') -> y = y').
  { intros d p y y' A B. apply value_exponent in A, B. congruence. }
  intros H H'. destruct H as [l [->|L]|n e d i p q R P|n e d i p q y R V Q|n e d i p q y z R V W];
    inversion H' as [l' [R'|L']|n' e' d' i' p' q' R' P'|n' e' d' i' p' q' y' R' V' Q'|n' e' d' i' p' q' y' z' R' V' W']; subst;
    try reflexivity; try discriminate; try (destruct L; reflexivity); try (destruct L'; reflexivity); try (f_equal; eauto; fail); try (f_equal; [eauto|]; first [reflexivity|f_equal; eauto]; fail);
    repeat match goal with X : crt_value true _ _ _ |- _ => destruct X as [? _] end; lia.
Qed.
Lemma broken_fun F b l l' : broken F b l -> broken F b l' -> l = l'.
Proof.
  intros [N|kt rest l0 x K -> S X] H'; destruct H' as [N'|kt' rest' l0' x' K' E' S' X'].
  - reflexivity.
  - destruct (N kt' rest' K' E').
  - destruct (N' kt rest K eq_refl).
  - pose proof (proj1 (proj1 (kt_from_name_ok _ _) K)) as P. pose proof (proj1 (proj1 (kt_from_name_ok _ _) K')) as P'.
    rewrite !field_enc in E'. apply enc_bytes_inj in E'; [|apply known_fits; assumption..]. destruct E' as [E ->]. rewrite E in K. rewrite K in K'. injection K' as ->.
    rewrite (so_far_fun _ _ _ S _ S') in *. rewrite (exponents_fun _ _ _ _ X X'). reflexivity.
Qed.
Lemma be32_inj m m' a b : (m <= u32_max)%N -> (m' <= u32_max)%N -> be32 m ++ a = be32 m' ++ b -> m = m' /\ a = b.
Proof.
  unfold u32_max. intros L L'. rewrite !be32_to_be. intros E. apply app_inj_length in E; [|rewrite !to_be_length; reflexivity].
  destruct E as [E ->]. split; [|reflexivity]. apply to_be_inj in E; [exact E|..]; change (256 ^ N.of_nat 4)%N with (2 ^ 32)%N; lia.
Qed.
Lemma section_left_fun F plain l l' : section_left F plain l -> section_left F plain l' -> l = l'.
Proof.
  intros [N|m rest L -> B|m rest l0 L -> B X] H'; destruct H' as [N'|m' rest' L' E' B'|m' rest' l0' L' E' B' X'];
    try reflexivity; try (destruct (N _ _ L' E')); try (destruct (N' _ _ L eq_refl));
    apply be32_inj in E'; try assumption; destruct E' as [<- E']; apply app_inv_head in E'; subst rest'.
  - destruct (B' B).
  - destruct (B B').
  - eapply broken_fun; eassumption.
Qed.

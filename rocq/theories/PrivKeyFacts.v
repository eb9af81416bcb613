(** Facts about private keys. *)
From Verif Require Import Base BaseFacts Utf8 Utf8Facts Str StrFacts SpecWire SpecText SpecBase64
  SpecKeys SpecSig SpecSshSig SpecPrivKey Base64 Base64Facts Reader ReaderFacts LocalFacts KeyType
  KeyTypeFacts PubKeyType Writer WriterFacts WireFacts Crypto PubKey PubKeyFacts Signature
  SignatureFacts TbsFacts SshSigFacts Utils UtilsFacts PrivKey.

(** ** Reassociating reads *)
Lemma run_assoc {A B C} (m : M A) (f : A -> M B) (g : B -> M C) b :
  run (mbind (mbind m f) g) b = run (mbind m (fun a => mbind (f a) g)) b.
Proof. unfold run, mbind. destruct (m _) as [[a|e|] r]; reflexivity. Qed.
Lemma run_ret_bind {A B} (a : A) (g : A -> M B) b : run (mbind (ret a) g) b = run (g a) b.
Proof. reflexivity. Qed.

(** A panic after a read that does not panic. *)
Lemma run_panic_inv {A B} (m : M A) (f : A -> M B) P b :
  parses m P -> nopanic m -> (forall a, local (f a)) -> run (mbind m f) b = Panic ->
  exists a bs post, P a bs /\ b = bs ++ post /\ run (f a) post = Panic.
Proof.
  intros Hm Hn Hf H. destruct (run m b) as [a|e|] eqn:E.
  - apply (run_parses _ _ _ _ Hm) in E. destruct E as (bs & post & HP & ->). exists a, bs, post.
    split; [exact HP|]. split; [reflexivity|]. rewrite <- H. symmetry. eapply run_step; eassumption.
  - rewrite (run_bind_err _ _ _ _ E) in H. discriminate.
  - exfalso. exact (nopanic_run m b Hn E).
Qed.

(** ** Numbers *)
Lemma n_bytes_spec fuel : forall n, (n < 2 ^ N.of_nat fuel)%N ->
  from_be (n_bytes_aux fuel n) = n /\ no_lead_zero (n_bytes_aux fuel n)
  /\ (n <> 0%N -> n_bytes_aux fuel n <> []).
Proof.
  induction fuel as [|fuel IH]; intros n Hn; cbn [n_bytes_aux].
  { change (2 ^ N.of_nat 0)%N with 1%N in Hn. assert (n = 0%N) by lia. subst.
    repeat split; cbn; auto; congruence. }
  destruct (n =? 0)%N eqn:E; [apply N.eqb_eq in E; subst; repeat split; cbn; auto; congruence|].
  apply N.eqb_neq in E. rewrite Nat2N.inj_succ, N.pow_succ_r' in Hn.
  assert (Hd : (n / 256 < 2 ^ N.of_nat fuel)%N).
  { apply N.div_lt_upper_bound; [lia|]. pose proof (N.pow_nonzero 2 (N.of_nat fuel)). lia. }
  destruct (IH (n / 256)%N Hd) as (H1 & H2 & H3). split; [|split].
  - rewrite from_be_snoc, H1, b2n_n2b. pose proof (N.div_mod n 256). lia.
  - destruct (n_bytes_aux fuel (n / 256)) as [|b l] eqn:El; cbn [app no_lead_zero].
    + rewrite b2n_n2b. rewrite from_be_nil in H1. assert (n < 256)%N by (apply N.div_small_iff; lia).
      rewrite N.mod_small by assumption. exact E.
    + exact H2.
  - intros _. destruct (n_bytes_aux fuel (n / 256)); discriminate.
Qed.
Lemma size_gt n : (n < 2 ^ N.of_nat (N.to_nat (N.size n)))%N.
Proof. rewrite N2Nat.id. apply N.size_gt. Qed.
Lemma n_bytes_ok n : from_be (n_bytes n) = n /\ no_lead_zero (n_bytes n) /\ (n <> 0%N -> n_bytes n <> []).
Proof. apply n_bytes_spec, size_gt. Qed.

Lemma no_lead_pos l : no_lead_zero l -> l <> [] -> from_be l <> 0%N.
Proof.
  intros H1 H2 E. apply H2. apply (no_lead_zero_inj l []); [exact H1|exact I|]. rewrite E. reflexivity.
Qed.

Lemma to_bytes_be_iff n v : v = to_bytes_be n <->
  from_be v = n /\ (v = [x00] \/ v <> [] /\ no_lead_zero v).
Proof.
  unfold to_bytes_be. destruct (n_bytes_ok n) as (H1 & H2 & H3). destruct (n =? 0)%N eqn:E.
  - apply N.eqb_eq in E. subst n. split; [intros ->; auto|]. intros [Hv [->|[Hn Hl]]]; [reflexivity|].
    exfalso. exact (no_lead_pos v Hl Hn Hv).
  - apply N.eqb_neq in E. split.
    + intros ->. split; [exact H1|]. right. auto.
    + intros [Hv [->|[Hn Hl]]]; [cbn in Hv; congruence|]. apply no_lead_zero_inj; auto. congruence.
Qed.

Lemma crt_exponent_iff d p v : crt_exponent d p = Ok v <->
  (2 <= from_be p)%N /\ from_be v = (from_be d mod (from_be p - 1))%N
  /\ (v = [x00] \/ v <> [] /\ no_lead_zero v).
Proof.
  unfold crt_exponent. cbn zeta. destruct (from_be p =? 0)%N eqn:E0; [split; [discriminate|lia]|].
  destruct (from_be p - 1 =? 0)%N eqn:E1; [split; [discriminate|lia]|].
  rewrite <- to_bytes_be_iff. split; [intros H; apply ok_inj in H; split; [lia|auto]|intros [_ ->]; reflexivity].
Qed.
Lemma crt_exponent_panic d p : crt_exponent d p = Panic <-> (from_be p < 2)%N.
Proof.
  unfold crt_exponent. cbn zeta. destruct (from_be p =? 0)%N eqn:E0; [split; [lia|reflexivity]|].
  destruct (from_be p - 1 =? 0)%N eqn:E1; [split; [lia|reflexivity]|]. split; [discriminate|lia].
Qed.
Lemma crt_exponent_err d p e : crt_exponent d p <> Err e.
Proof. unfold crt_exponent. cbn zeta. destruct (_ =? _)%N; [discriminate|]. destruct (_ =? _)%N; discriminate. Qed.

Lemma crt_exponents_iff F d p q dp dq : crt_exponents F d p q = Ok (dp, dq) <->
  crt_value (f_rsa F) d p dp /\ crt_value (f_rsa F) d q dq.
Proof.
  unfold crt_exponents, crt_value. destruct (f_rsa F).
  - split.
    + intros H. apply bind_ok in H. destruct H as (a & Ha & H). apply bind_ok in H. destruct H as (b & Hb & H).
      injection H as <- <-. apply crt_exponent_iff in Ha, Hb. rewrite !magnitude_from_be.
      split; (split; [tauto|]); [exists a|exists b]; (split; [reflexivity|]); rewrite magnitude_from_be, shortest_iff; tauto.
    + intros [[H1 (a & -> & H2)] [H3 (b & -> & H4)]]. rewrite !magnitude_from_be, shortest_iff in *.
      rewrite (proj2 (crt_exponent_iff d p a)) by tauto. cbn [bind].
      rewrite (proj2 (crt_exponent_iff d q b)) by tauto. reflexivity.
  - split; [intros H; injection H as <- <-; auto|intros [-> ->]; reflexivity].
Qed.
Lemma crt_exponents_panic F d p q : crt_exponents F d p q = Panic <->
  f_rsa F = true /\ ((from_be p < 2)%N \/ (from_be q < 2)%N).
Proof.
  unfold crt_exponents. destruct (f_rsa F); [|split; [discriminate|intros [? _]; discriminate]].
  destruct (crt_exponent d p) as [a|e|] eqn:Ep; cbn [bind].
  - assert (Np : ~ (from_be p < 2)%N). { rewrite <- (crt_exponent_panic d p), Ep. discriminate. }
    destruct (crt_exponent d q) as [b|e|] eqn:Eq; cbn [bind].
    + assert (Nq : ~ (from_be q < 2)%N). { rewrite <- (crt_exponent_panic d q), Eq. discriminate. }
      split; [discriminate|tauto].
    + exfalso. exact (crt_exponent_err _ _ _ Eq).
    + apply crt_exponent_panic in Eq. tauto.
  - exfalso. exact (crt_exponent_err _ _ _ Ep).
  - apply crt_exponent_panic in Ep. tauto.
Qed.
Lemma crt_exponents_not_err F d p q e : crt_exponents F d p q <> Err e.
Proof.
  unfold crt_exponents. destruct (f_rsa F); [|discriminate].
  destruct (crt_exponent d p) eqn:E; cbn [bind]; [|intros H; injection H as ->; exact (crt_exponent_err _ _ _ E)|discriminate].
  destruct (crt_exponent d q) eqn:E'; cbn [bind]; [discriminate|intros H; injection H as ->; exact (crt_exponent_err _ _ _ E')|discriminate].
Qed.

(** ** The secret part *)
Definition num_ok (m : bytes) : Prop := fits (mpint_bytes m) /\ no_lead_zero m.
Definition enc_num (m : bytes) : bytes := enc_bytes (mpint_bytes m).

Definition enc_sec (pub : pubkey_kind) (sec : priv_kind) : bytes :=
  match sec with
  | SkRsa r => enc_num (rp_n r) ++ enc_num (rp_e r) ++ enc_num (rp_d r) ++ enc_num (rp_coefficient r)
      ++ enc_num (rp_p r) ++ enc_num (rp_q r)
  | SkEcdsa _ key | SkEd25519 key => enc_kind pub ++ enc_bytes key
  | SkEcdsaSk h | SkEd25519Sk h =>
      enc_kind pub ++ [hw_flags h] ++ enc_bytes (hw_handle h) ++ enc_bytes (hw_reserved h)
  end.
Definition hw_ok (h : hw_priv) : Prop :=
  fits (hw_handle h) /\ fits (hw_reserved h) /\ hw_pin h = None /\ hw_device_path h = None.
Definition sec_ok (F : features) (kt : key_type) (pub : pubkey_kind) (sec : priv_kind) : Prop :=
  match sec, pub with
  | SkRsa r, PkRsa e n => family_of (kt_k kt) = FRsa /\ rp_e r = e /\ rp_n r = n
      /\ num_ok (rp_n r) /\ num_ok (rp_e r) /\ num_ok (rp_d r) /\ num_ok (rp_coefficient r)
      /\ num_ok (rp_p r) /\ num_ok (rp_q r)
      /\ crt_exponents F (rp_d r) (rp_p r) (rp_q r) = Ok (rp_exp r, rp_exq r)
  | SkEcdsa c key, PkEcdsa c' _ None => kind_ok kt pub /\ c = c' /\ fits key
  | SkEd25519 key, PkEd25519 _ None => kind_ok kt pub /\ fits key
  | SkEcdsaSk h, PkEcdsa _ _ (Some _) => kind_ok kt pub /\ hw_ok h
  | SkEd25519Sk h, PkEd25519 _ (Some _) => kind_ok kt pub /\ hw_ok h
  | _, _ => False
  end.

Lemma mpint_num m bs : mpint_field m bs <-> num_ok m /\ bs = enc_num m.
Proof. apply mpint_field_iff. Qed.

Lemma secret_data_iff F kt pub sec bs :
  secret_data F kt pub sec bs <-> sec_ok F kt pub sec /\ bs = enc_sec pub sec.
Proof.
  split.
  - destruct 1 as [n e d i p q dp dq bn be bd bi bp bq Hf Hn He Hd Hi Hp Hq H1 H2|c pk b key Hk Hf|pk b key Hk Hf
      |c pk app b fl h r Hk Hf1 Hf2|pk app b fl h r Hk Hf1 Hf2]; cbn [sec_ok enc_sec rp_n rp_e rp_d rp_coefficient rp_p rp_q rp_exp rp_exq hw_flags hw_handle hw_reserved].
    + apply mpint_num in Hn, He, Hd, Hi, Hp, Hq. destruct Hn as [Hn ->], He as [He ->], Hd as [Hd ->],
        Hi as [Hi ->], Hp as [Hp ->], Hq as [Hq ->]. split; [|reflexivity].
      do 9 (split; [assumption || reflexivity|]). apply crt_exponents_iff. auto.
    + apply key_data_iff in Hk. destruct Hk as [Hk ->]. rewrite field_enc. apply field_ok_fits in Hf. auto.
    + apply key_data_iff in Hk. destruct Hk as [Hk ->]. rewrite field_enc. apply field_ok_fits in Hf. auto.
    + apply key_data_iff in Hk. destruct Hk as [Hk ->]. rewrite !field_enc. apply field_ok_fits in Hf1, Hf2.
      unfold hw_ok. auto 7.
    + apply key_data_iff in Hk. destruct Hk as [Hk ->]. rewrite !field_enc. apply field_ok_fits in Hf1, Hf2.
      unfold hw_ok. auto 7.
  - intros [H ->]. destruct sec as [r|c key|h|key|h], pub as [e n|c' pk app|pk app];
      cbn [sec_ok] in H; try contradiction.
    + destruct H as (Hf & <- & <- & Hn & He & Hd & Hi & Hp & Hq & Hc). apply crt_exponents_iff in Hc.
      destruct Hc as [H1 H2]. destruct r as [n e d i p q dp dq]. cbn [enc_sec rp_n rp_e rp_d rp_coefficient rp_p rp_q rp_exp rp_exq] in *.
      apply SD_rsa; auto; apply mpint_num; auto.
    + destruct app; [contradiction|]. destruct H as (Hk & -> & Hf). cbn [enc_sec]. rewrite <- field_enc.
      apply SD_ecdsa; [apply key_data_iff; auto|apply field_ok_fits, Hf].
    + destruct app; [|contradiction]. destruct H as (Hk & H1 & H2 & H3 & H4). destruct h as [fl ha re pi de].
      cbn [hw_handle hw_reserved hw_pin hw_device_path] in *. subst. cbn [enc_sec hw_handle hw_reserved hw_flags].
      rewrite <- !field_enc. apply SD_ecdsa_sk; [apply key_data_iff; auto|apply field_ok_fits; assumption..].
    + destruct app; [contradiction|]. destruct H as (Hk & Hf). cbn [enc_sec]. rewrite <- field_enc.
      apply SD_ed25519; [apply key_data_iff; auto|apply field_ok_fits, Hf].
    + destruct app; [|contradiction]. destruct H as (Hk & H1 & H2 & H3 & H4). destruct h as [fl ha re pi de].
      cbn [hw_handle hw_reserved hw_pin hw_device_path] in *. subst. cbn [enc_sec hw_handle hw_reserved hw_flags].
      rewrite <- !field_enc. apply SD_ed25519_sk; [apply key_data_iff; auto|apply field_ok_fits; assumption..].
Qed.

Definition str_ok (s : bytes) : Prop := fits s /\ utf8_valid s = true.
Lemma str_ok_iff s : str_ok s <-> utf8_text s /\ field_ok s.
Proof. unfold str_ok. rewrite utf8_valid_iff, field_ok_fits. tauto. Qed.

(** Type name, secret part and comment. *)
Definition priv_ok (F : features) (k : privkey) : Prop :=
  known (sk_type k) /\ key_kind (sk_type k) /\ pk_type (sk_pub k) = sk_type k
  /\ pk_comment (sk_pub k) = None /\ sec_ok F (sk_type k) (pk_kind (sk_pub k)) (sk_kind k)
  /\ str_ok (sk_comment k).
Definition enc_priv (k : privkey) : bytes :=
  enc_bytes (kt_name (sk_type k)) ++ enc_sec (pk_kind (sk_pub k)) (sk_kind k) ++ enc_bytes (sk_comment k).
Lemma priv_data_iff F k bs : priv_data F k bs <-> priv_ok F k /\ bs = enc_priv k.
Proof.
  unfold priv_data, priv_ok, enc_priv. split.
  - intros (kt & b & H1 & H2 & <- & H4 & H5 & H6 & H7 & H8 & ->). apply secret_data_iff in H6.
    destruct H6 as [H6 ->]. apply kt_from_name_ok in H1. rewrite !field_enc, str_ok_iff. tauto.
  - intros [(H1 & H2 & H3 & H4 & H5 & H6) ->]. apply str_ok_iff in H6. apply known_name_ok in H1.
    exists (sk_type k), (enc_sec (pk_kind (sk_pub k)) (sk_kind k)). rewrite secret_data_iff, !field_enc. tauto.
Qed.

(** ** Parsing *)
Lemma local_read_hw : local read_hw.
Proof. unfold read_hw. local_tac. Qed.

Ltac hw_local := local_tac; try apply local_read_hw.

Lemma read_private_key_inv F d k : run (read_private_key F) d = Ok k ->
  priv_ok F k /\ sk_magic k = 0%N /\ exists post, d = enc_priv k ++ post.
Proof.
  unfold read_private_key. intros H.
  apply inv_string in H; [|hw_local]. destruct H as (name & d1 & _ & _ & -> & H).
  apply run_lift_inv in H. destruct H as (kt & Hkt & H). apply kt_from_name_ok in Hkt. destruct Hkt as [Hkt ->].
  assert (Hkk : match kt_k kt with KRsa | KEcdsa | KEd25519 => key_kind kt | _ => True end).
  { unfold key_kind. destruct (kt_k kt); auto. }
  destruct (kt_k kt) eqn:Ek; [| | |discriminate..].
  - rewrite run_assoc in H. apply inv_mpint in H; [|hw_local]. destruct H as (n & d2 & Fn & Ln & -> & H).
    rewrite run_assoc in H. apply inv_mpint in H; [|hw_local]. destruct H as (e & d3 & Fe & Le & -> & H).
    rewrite run_assoc in H. apply inv_mpint in H; [|hw_local]. destruct H as (dd & d4 & Fd & Ld & -> & H).
    rewrite run_assoc in H. apply inv_mpint in H; [|hw_local]. destruct H as (co & d5 & Fc & Lc & -> & H).
    rewrite run_assoc in H. apply inv_mpint in H; [|hw_local]. destruct H as (p & d6 & Fp & Lp & -> & H).
    rewrite run_assoc in H. apply inv_mpint in H; [|hw_local]. destruct H as (q & d7 & Fq & Lq & -> & H).
    rewrite run_assoc in H. apply run_lift_inv in H. destruct H as ((dp & dq) & Hex & H).
    rewrite run_ret_bind in H. apply inv_string in H; [|hw_local]. destruct H as (cm & d8 & H1 & H2 & -> & H).
    cbn in H. injection H as <-. unfold priv_ok, enc_priv, str_ok.
    cbn [sk_type sk_kind sk_pub sk_magic sk_comment pk_type pk_comment pk_kind sec_ok enc_sec rp_n rp_e rp_d rp_coefficient rp_p rp_q rp_exp rp_exq].
    rewrite Ek. unfold num_ok, enc_num. split; [|split; [reflexivity|]].
    + repeat (split; [assumption || reflexivity|]). repeat split; assumption.
    + exists d8. rewrite <- !app_assoc. reflexivity.
  - rewrite run_assoc in H. apply inv_bytes in H; [|hw_local]. destruct H as (pk & d2 & Fp & -> & H).
    destruct (kt_is_sk kt) eqn:Es.
    + unfold read_hw in H. rewrite run_assoc in H. rewrite run_assoc in H.
      apply inv_string in H; [|hw_local]. destruct H as (ap & d3 & Fa & Ua & -> & H).
      rewrite run_assoc in H. apply inv_raw in H; [|lia|hw_local]. destruct H as (f & d4 & Lf & -> & H).
      destruct f as [|f0 [|]]; try discriminate Lf. cbn [index nth_error] in H. rewrite run_assoc in H.
      apply run_lift_inv in H. destruct H as (? & Hf & H). injection Hf as <-.
      rewrite run_assoc in H. apply inv_bytes in H; [|hw_local]. destruct H as (ha & d5 & Fh & -> & H).
      rewrite run_assoc in H. apply inv_bytes in H; [|hw_local]. destruct H as (re & d6 & Fr & -> & H).
      rewrite !run_ret_bind in H. apply inv_string in H; [|hw_local]. destruct H as (cm & d8 & H1 & H2 & -> & H).
      cbn in H. injection H as <-. unfold priv_ok, enc_priv, str_ok, hw_ok.
      cbn [sk_type sk_kind sk_pub sk_magic sk_comment pk_type pk_comment pk_kind sec_ok enc_sec kind_ok enc_kind enc_app hw_handle hw_flags hw_reserved hw_pin hw_device_path fst snd].
      rewrite Ek, Es. cbn [app_ok]. split; [|split; [reflexivity|]].
      * repeat (split; [assumption || reflexivity|]). repeat split; assumption.
      * exists d8. rewrite <- !app_assoc. reflexivity.
    + rewrite run_assoc in H. apply inv_bytes in H; [|hw_local]. destruct H as (key & d3 & Fk & -> & H).
      rewrite run_ret_bind in H. apply inv_string in H; [|hw_local]. destruct H as (cm & d8 & H1 & H2 & -> & H).
      cbn in H. injection H as <-. unfold priv_ok, enc_priv, str_ok, hw_ok.
      cbn [sk_type sk_kind sk_pub sk_magic sk_comment pk_type pk_comment pk_kind sec_ok enc_sec kind_ok enc_kind enc_app fst snd].
      rewrite Ek, Es. cbn [app_ok]. split; [|split; [reflexivity|]].
      * repeat (split; [assumption || reflexivity|]). repeat split; try assumption.
      * exists d8. rewrite <- !app_assoc. reflexivity.
  - rewrite run_assoc in H. apply inv_string in H; [|hw_local]. destruct H as (id & d2 & _ & _ & -> & H).
    rewrite run_assoc in H. apply run_lift_inv in H. destruct H as (c & Hc & H). apply curve_ok in Hc. destruct Hc as [Hc ->].
    rewrite run_assoc in H. apply inv_bytes in H; [|hw_local]. destruct H as (pk & d3 & Fp & -> & H).
    destruct (kt_is_sk kt) eqn:Es.
    + unfold read_hw in H. rewrite run_assoc in H. rewrite run_assoc in H.
      apply inv_string in H; [|hw_local]. destruct H as (ap & d4 & Fa & Ua & -> & H).
      rewrite run_assoc in H. apply inv_raw in H; [|lia|hw_local]. destruct H as (f & d5 & Lf & -> & H).
      destruct f as [|f0 [|]]; try discriminate Lf. cbn [index nth_error] in H. rewrite run_assoc in H.
      apply run_lift_inv in H. destruct H as (? & Hf & H). injection Hf as <-.
      rewrite run_assoc in H. apply inv_bytes in H; [|hw_local]. destruct H as (ha & d6 & Fh & -> & H).
      rewrite run_assoc in H. apply inv_bytes in H; [|hw_local]. destruct H as (re & d7 & Fr & -> & H).
      rewrite !run_ret_bind in H. apply inv_string in H; [|hw_local]. destruct H as (cm & d8 & H1 & H2 & -> & H).
      cbn in H. injection H as <-. unfold priv_ok, enc_priv, str_ok, hw_ok.
      cbn [sk_type sk_kind sk_pub sk_magic sk_comment pk_type pk_comment pk_kind sec_ok enc_sec kind_ok enc_kind enc_app hw_handle hw_flags hw_reserved hw_pin hw_device_path fst snd].
      rewrite Ek, Es. cbn [app_ok]. split; [|split; [reflexivity|]].
      * repeat (split; [assumption || reflexivity|]). repeat split; assumption.
      * exists d8. rewrite <- !app_assoc. reflexivity.
    + rewrite run_assoc in H. apply inv_bytes in H; [|hw_local]. destruct H as (key & d4 & Fk & -> & H).
      rewrite run_ret_bind in H. apply inv_string in H; [|hw_local]. destruct H as (cm & d8 & H1 & H2 & -> & H).
      cbn in H. injection H as <-. unfold priv_ok, enc_priv, str_ok, hw_ok.
      cbn [sk_type sk_kind sk_pub sk_magic sk_comment pk_type pk_comment pk_kind sec_ok enc_sec kind_ok enc_kind enc_app fst snd].
      rewrite Ek, Es. cbn [app_ok]. split; [|split; [reflexivity|]].
      * repeat (split; [assumption || reflexivity|]). repeat split; try assumption.
      * exists d8. rewrite <- !app_assoc. reflexivity.
Qed.

Lemma num_step {B} (f : bytes -> M B) m post : num_ok m -> (forall a, local (f a)) ->
  run (mbind read_positive_mpint f) (enc_num m ++ post) = run (f m) post.
Proof. intros [H1 H2] Hf. apply step_mpint; assumption. Qed.
Lemma raw1_step {B} (f : bytes -> M B) x post : (forall a, local (f a)) ->
  run (mbind (read_raw_bytes 1) f) ([x] ++ post) = run (f [x]) post.
Proof. intros Hf. apply step_raw; [lia|reflexivity|exact Hf]. Qed.
Lemma str_step {B} (f : bytes -> M B) s post : str_ok s -> (forall a, local (f a)) ->
  run (mbind read_string f) (enc_bytes s ++ post) = run (f s) post.
Proof. intros [H1 H2] Hf. apply step_string; assumption. Qed.
Lemma known_str kt : known kt -> str_ok (kt_name kt).
Proof. intros H. split; [apply known_fits, H|apply known_utf8, H]. Qed.
Lemma curve_str c : good_curve c -> str_ok (c_identifier c).
Proof. intros H. split; [apply good_curve_fits, H|apply good_curve_id, H]. Qed.

Definition zero_magic (k : privkey) : privkey :=
  mkPrivKey (sk_type k) (sk_kind k) (sk_pub k) 0 (sk_comment k).


(** Reading the part between name and comment. *)
Definition read_body (F : features) (kt : key_type) : M (priv_kind * pubkey_kind) :=
  match kt_k kt with
  | KRsa =>
      do! n <- read_positive_mpint; do! e <- read_positive_mpint; do! d <- read_positive_mpint;
      do! coefficient <- read_positive_mpint; do! p <- read_positive_mpint; do! q <- read_positive_mpint;
      do! ex <- lift (crt_exponents F d p q);
      ret (SkRsa (mkRsaPriv n e d coefficient p q (fst ex) (snd ex)), PkRsa e n)
  | KEcdsa =>
      do! id <- read_string; do! c <- lift (curve_from_identifier id); do! pk <- read_bytes;
      if kt_is_sk kt then do! ah <- read_hw; ret (SkEcdsaSk (snd ah), PkEcdsa c pk (Some (fst ah)))
      else do! key <- read_bytes; ret (SkEcdsa c key, PkEcdsa c pk None)
  | KEd25519 =>
      do! pk <- read_bytes;
      if kt_is_sk kt then do! ah <- read_hw; ret (SkEd25519Sk (snd ah), PkEd25519 pk (Some (fst ah)))
      else do! key <- read_bytes; ret (SkEd25519 key, PkEd25519 pk None)
  | _ => throw (EUnknownKeyType (kt_name kt))
  end.
Lemma body_step {B} (f : priv_kind * pubkey_kind -> M B) F kt sec pkk post : key_kind kt -> sec_ok F kt pkk sec -> (forall a, local (f a)) ->
  run (mbind (read_body F kt) f) (enc_sec pkk sec ++ post) = run (f (sec, pkk)) post.
Proof.
  intros H2 H5 Lf. unfold key_kind in H2. unfold read_body.
  destruct sec as [r|c key|h|key|h], pkk as [e n|c' pk ap|pk ap]; cbn [sec_ok] in H5; try contradiction.
  - destruct H5 as (Hf & <- & <- & Hn & He & Hd & Hi & Hp & Hq & Hc).
    destruct (kt_k kt) eqn:Ek; try discriminate Hf; [|destruct H2 as [?|[?|?]]; discriminate].
    cbn [enc_sec]. rewrite <- !app_assoc.
    do 6 (rewrite run_assoc, num_step by (try assumption; hw_local; apply Lf)).
    rewrite run_assoc, (run_lift _ _ _ _ Hc), run_ret_bind. destruct r. reflexivity.
  - destruct ap; [contradiction|]. destruct H5 as ((Hf & Hc & Hpk & Ha) & -> & Hk).
    destruct (kt_k kt) eqn:Ek; try discriminate Hf; [|destruct H2 as [?|[?|?]]; discriminate].
    cbn [enc_sec enc_kind enc_app]. rewrite <- !app_assoc. cbn [app].
    rewrite run_assoc, str_step by (try apply curve_str; try assumption; hw_local; apply Lf).
    rewrite run_assoc, (run_lift _ c') by (apply curve_ok; auto).
    rewrite run_assoc, step_bytes by (try assumption; hw_local; apply Lf).
    unfold app_ok in Ha. destruct (kt_is_sk kt); [contradiction|].
    rewrite run_assoc, step_bytes by (try assumption; hw_local; apply Lf). rewrite run_ret_bind. reflexivity.
  - destruct ap as [ap|]; [|contradiction]. destruct H5 as ((Hf & Hc & Hpk & Ha) & Hh1 & Hh2 & Hh3 & Hh4).
    destruct (kt_k kt) eqn:Ek; try discriminate Hf; [|destruct H2 as [?|[?|?]]; discriminate].
    cbn [enc_sec enc_kind enc_app]. rewrite <- !app_assoc.
    rewrite run_assoc, str_step by (try apply curve_str; try assumption; hw_local; apply Lf).
    rewrite run_assoc, (run_lift _ c') by (apply curve_ok; auto).
    rewrite run_assoc, step_bytes by (try assumption; hw_local; apply Lf).
    unfold app_ok in Ha. destruct (kt_is_sk kt); [|contradiction].
    unfold read_hw. rewrite run_assoc. rewrite run_assoc, str_step by (try assumption; hw_local; apply Lf).
    rewrite run_assoc, raw1_step by (hw_local; apply Lf). cbn [index nth_error]. rewrite run_assoc.
    rewrite (run_lift _ (hw_flags h)) by reflexivity.
    rewrite run_assoc, step_bytes by (try assumption; hw_local; apply Lf).
    rewrite run_assoc, step_bytes by (try assumption; hw_local; apply Lf). rewrite !run_ret_bind.
    destruct h. cbn in Hh3, Hh4. subst. reflexivity.
  - destruct ap; [contradiction|]. destruct H5 as ((Hf & Hpk & Ha) & Hk).
    destruct (kt_k kt) eqn:Ek; try discriminate Hf; [|destruct H2 as [?|[?|?]]; discriminate].
    cbn [enc_sec enc_kind enc_app]. rewrite <- !app_assoc. cbn [app].
    rewrite run_assoc, step_bytes by (try assumption; hw_local; apply Lf).
    unfold app_ok in Ha. destruct (kt_is_sk kt); [contradiction|].
    rewrite run_assoc, step_bytes by (try assumption; hw_local; apply Lf). rewrite run_ret_bind. reflexivity.
  - destruct ap as [ap|]; [|contradiction]. destruct H5 as ((Hf & Hpk & Ha) & Hh1 & Hh2 & Hh3 & Hh4).
    destruct (kt_k kt) eqn:Ek; try discriminate Hf; [|destruct H2 as [?|[?|?]]; discriminate].
    cbn [enc_sec enc_kind enc_app]. rewrite <- !app_assoc.
    rewrite run_assoc, step_bytes by (try assumption; hw_local; apply Lf).
    unfold app_ok in Ha. destruct (kt_is_sk kt); [|contradiction].
    unfold read_hw. rewrite run_assoc. rewrite run_assoc, str_step by (try assumption; hw_local; apply Lf).
    rewrite run_assoc, raw1_step by (hw_local; apply Lf). cbn [index nth_error]. rewrite run_assoc.
    rewrite (run_lift _ (hw_flags h)) by reflexivity.
    rewrite run_assoc, step_bytes by (try assumption; hw_local; apply Lf).
    rewrite run_assoc, step_bytes by (try assumption; hw_local; apply Lf). rewrite !run_ret_bind.
    destruct h. cbn in Hh3, Hh4. subst. reflexivity.
Qed.
Lemma read_private_key_body F : read_private_key F =
  do! name <- read_string; do! kt <- lift (kt_from_name name); do! kp <- read_body F kt; do! comment <- read_string;
  ret (mkPrivKey kt (fst kp) (mkPubKey kt (snd kp) None) 0 comment).
Proof. reflexivity. Qed.
Lemma local_read_body F kt : local (read_body F kt).
Proof. unfold read_body. hw_local. Qed.
Lemma read_private_key_enc F k post : priv_ok F k ->
  run (read_private_key F) (enc_priv k ++ post) = Ok (zero_magic k).
Proof.
  intros (H1 & H2 & H3 & H4 & H5 & H6). rewrite read_private_key_body. unfold enc_priv. rewrite <- !app_assoc.
  rewrite str_step by (try apply known_str, H1; hw_local; apply local_read_body).
  rewrite (run_lift _ _ _ _ (known_name_ok _ H1)), body_step by (try assumption; hw_local).
  rewrite str_step by (try assumption; hw_local).
  destruct k as [kt sec pub mg cm]. destruct pub as [pt pkk pc].
  cbn [sk_type sk_kind sk_pub sk_magic sk_comment pk_type pk_comment pk_kind] in *. subst pt pc. reflexivity.
Qed.

Lemma sk_from_bytes_iff F d k : sk_from_bytes F d = Ok k <->
  priv_ok F k /\ sk_magic k = 0%N /\ exists post, d = enc_priv k ++ post.
Proof.
  unfold sk_from_bytes. split; [apply read_private_key_inv|].
  intros (H1 & H2 & post & ->). rewrite (read_private_key_enc F k post H1). unfold zero_magic.
  destruct k; cbn in *; subst; reflexivity.
Qed.

(** ** The private section *)
Definition enc_section (k : privkey) : bytes :=
  to_be 4 (sk_magic k) ++ to_be 4 (sk_magic k) ++ enc_priv k.
Lemma priv_ok_magic F k m : priv_ok F (mkPrivKey (sk_type k) (sk_kind k) (sk_pub k) m (sk_comment k)) <-> priv_ok F k.
Proof. reflexivity. Qed.

Lemma read_section_iff F pub d k : run (read_section F pub) d = Ok k <->
  priv_ok F k /\ sk_pub k = pub /\ (sk_magic k < 2 ^ 32)%N /\ exists post, d = enc_section k ++ post.
Proof.
  unfold read_section. split.
  - intros H. apply inv_u32 in H; [|local_tac]. destruct H as (m1 & d1 & M1 & -> & H).
    apply inv_u32 in H; [|local_tac]. destruct H as (m2 & d2 & M2 & -> & H).
    destruct (m1 =? m2)%N eqn:E; [|discriminate]. apply N.eqb_eq in E. subst m2. cbn [negb] in H.
    destruct (run (read_private_key F) d2) as [k0|e|] eqn:E0.
    2: rewrite (run_bind_err _ _ _ _ E0) in H; discriminate.
    2: rewrite (run_bind_panic _ _ _ E0) in H; discriminate.
    unfold run, mbind in H, E0. destruct (read_private_key F (reader_new d2)) as [x r] eqn:Er. cbn in E0. subst x.
    assert (E1 : run (read_private_key F) d2 = Ok k0) by (unfold run; rewrite Er; reflexivity).
    apply read_private_key_inv in E1. destruct E1 as (P1 & P2 & post & ->).
    cbn zeta in H. destruct (pubkey_eqb _ _) eqn:Ep; [|discriminate]. cbn in H. injection H as <-.
    cbn [sk_pub] in Ep. apply pubkey_eqb_eq in Ep. rewrite priv_ok_magic. cbn [sk_pub sk_magic].
    split; [exact P1|]. split; [exact Ep|]. split; [exact M1|]. exists post.
    unfold enc_section, enc_priv. cbn [sk_magic sk_type sk_pub sk_kind sk_comment]. rewrite <- !app_assoc. reflexivity.
  - intros (P1 & <- & M1 & post & ->). unfold enc_section. rewrite <- !app_assoc.
    rewrite step_u32 by (try assumption; local_tac).
    rewrite step_u32 by (try assumption; local_tac).
    rewrite N.eqb_refl. cbn [negb]. pose proof (read_private_key_enc F k post P1) as E.
    unfold run, mbind in *. destruct (read_private_key F _) as [x r]. cbn in E. subst x.
    unfold zero_magic. cbn [sk_pub sk_type sk_kind sk_comment]. cbn zeta.
    rewrite (proj2 (pubkey_eqb_eq (sk_pub k) (sk_pub k))) by reflexivity. destruct k; reflexivity.
Qed.

(** ** Decryption *)
Lemma decrypt_iff F K cipher kdf options pass section plain : 
  decrypt F K cipher kdf options pass section = Ok plain <->
  unlocks F K pass section cipher kdf options plain.
Proof.
  unfold decrypt. split.
  - destruct (bytes_eqb cipher (s2b "none") && bytes_eqb kdf (s2b "none")) eqn:E.
    { apply andb_true_iff in E. rewrite !bytes_eqb_eq in E. destruct E as [-> ->].
      intros H. apply ok_inj in H. subst. constructor. }
    destruct (bytes_eqb cipher (s2b "aes256-ctr") && bytes_eqb kdf (s2b "bcrypt")) eqn:E2; [|discriminate].
    apply andb_true_iff in E2. rewrite !bytes_eqb_eq in E2. destruct E2 as [-> ->].
    destruct pass as [p|]; [|discriminate]. destruct (f_encrypted F) eqn:Ef; [|discriminate].
    intros H. apply bind_ok in H. destruct H as ((salt & rounds) & Hr & H).
    apply inv_bytes in Hr; [|local_tac]. destruct Hr as (s & d1 & Fs & -> & Hr).
    apply inv_u32 in Hr; [|local_tac]. destruct Hr as (r & d2 & Fr & -> & Hr). cbn in Hr. injection Hr as <- <-.
    cbn [fst snd] in H. destruct (k_bcrypt K p s r) as [out|] eqn:Eb; [|discriminate].
    destruct (k_aes_ctr _ _ _ _) as [pl|] eqn:Ea; [|discriminate]. cbn in H. apply ok_inj in H. subst pl.
    rewrite <- field_enc, <- be32_to_be. eapply U_aes; eauto; [apply field_ok_fits, Fs|unfold u32_max; lia].
  - destruct 1 as [opts|p salt rounds tl out plain Hf -> Hs Hr Hb Ha].
    + reflexivity.
    + change (bytes_eqb (s2b "aes256-ctr") (s2b "none") && bytes_eqb (s2b "bcrypt") (s2b "none")) with false.
      rewrite !bytes_eqb_refl. cbn [andb]. rewrite Hf. rewrite field_enc, be32_to_be.
      apply field_ok_fits in Hs. unfold u32_max in Hr.
      rewrite step_bytes by (try assumption; local_tac). rewrite step_u32 by (try lia; local_tac). unfold run, ret.
      cbn [fst bind snd]. rewrite Hb, Ha. reflexivity.
Qed.
Lemma decrypt_not_panic F K cipher kdf options pass section : decrypt F K cipher kdf options pass section <> Panic.
Proof.
  unfold decrypt. destruct (_ && _); [discriminate|]. destruct (_ && _); [|discriminate].
  destruct pass as [p|]; [|discriminate]. destruct (f_encrypted F); [|discriminate].
  destruct (run _ options) as [[s r]|e|] eqn:E; cbn [bind]; [|discriminate|].
  - destruct (k_bcrypt _ _ _ _); [|discriminate]. destruct (k_aes_ctr _ _ _ _); discriminate.
  - exfalso. revert E. apply nopanic_run. apply nopanic_bind; [apply nopanic_read_bytes|intros].
    apply nopanic_bind; [apply nopanic_read_u32|intros]. apply nopanic_ret.
Qed.

(** ** The file *)
Lemma cstring_ascii t : Forall (fun b => (b2n b < 128)%N) t -> forall d n,
  cstring_loop d [] 0 = Some (t, n) -> exists post, d = t ++ x00 :: post /\ n = S (length t).
Proof.
  intros Ht d. revert t Ht. induction d as [|b d IH]; intros t Ht n; cbn [cstring_loop]; [discriminate|].
  destruct (b2n b =? 0)%N eqn:E.
  - intros [= <- <-]. apply N.eqb_eq, b2n_zero in E. subst b. exists d. auto.
  - rewrite cstring_loop_eq. destruct (cstring_loop d [] 0) as [[t' k]|] eqn:El; [|discriminate].
    intros H. injection H as H1 <-. cbn [app] in H1. unfold push_latin1, utf8_encode in H1.
    destruct (b2n b <? 128)%N eqn:Eb.
    + rewrite n2b_b2n in H1. cbn [app] in H1. subst t. inversion Ht as [|? ? A B]; subst. destruct (IH t' B k eq_refl) as (post & -> & ->).
      exists post. auto.
    + replace (b2n b <? 2048)%N with true in H1 by (pose proof (b2n_lt b); lia).
      exfalso. subst t. cbn [app] in Ht. inversion Ht as [|? ? A B]; subst. clear -A E Eb.
      pose proof (b2n_lt b). rewrite b2n_n2b in A. apply N.ltb_ge in Eb.
      assert (b2n b / 64 = 2 \/ b2n b / 64 = 3)%N as [X|X].
      { assert (2 <= b2n b / 64)%N by (apply N.div_le_lower_bound; lia).
        assert (b2n b / 64 < 4)%N by (apply N.div_lt_upper_bound; lia). lia. }
      * rewrite X in A. vm_compute in A. discriminate.
      * rewrite X in A. vm_compute in A. discriminate.
Qed.

Definition noerr {A} (x : res A) : Prop := forall e, x <> Err e.
Lemma ginv {A B} (m : M A) (f : A -> M B) P b x :
  parses m P -> nopanic m -> (forall a, local (f a)) -> noerr x -> run (mbind m f) b = x ->
  exists a bs post, P a bs /\ b = bs ++ post /\ run (f a) post = x.
Proof.
  intros Hm Hn Hf Hx H. destruct x as [y|e|]; [eapply run_inv; eassumption|exfalso; exact (Hx e eq_refl)|].
  eapply run_panic_inv; eassumption.
Qed.
Lemma ginv_lift {A B} (x : res A) (f : A -> M B) b y : x <> Panic -> noerr y -> run (mbind (lift x) f) b = y ->
  exists a, x = Ok a /\ run (f a) b = y.
Proof. intros Hp Hy. destruct x as [a|e|]; cbn; [eauto| |congruence]. intros <-. exfalso. exact (Hy e eq_refl). Qed.
Lemma ginv_bytes {B} (f : bytes -> M B) x b : (forall a, local (f a)) -> noerr x -> run (mbind read_bytes f) b = x ->
  exists v post, fits v /\ b = enc_bytes v ++ post /\ run (f v) post = x.
Proof.
  intros Hf Hx H. apply (ginv _ _ _ _ _ parses_read_bytes nopanic_read_bytes Hf Hx) in H.
  destruct H as (a & bs & post & [H1 ->] & H2 & H3). eauto.
Qed.
Lemma ginv_string {B} (f : bytes -> M B) x b : (forall a, local (f a)) -> noerr x -> run (mbind read_string f) b = x ->
  exists v post, str_ok v /\ b = enc_bytes v ++ post /\ run (f v) post = x.
Proof.
  intros Hf Hx H. apply (ginv _ _ _ _ _ parses_read_string nopanic_read_string Hf Hx) in H.
  destruct H as (a & bs & post & [H1 ->] & H2 & H3). unfold str_ok. eauto.
Qed.
Lemma ginv_mpint {B} (f : bytes -> M B) x b : (forall a, local (f a)) -> noerr x -> run (mbind read_positive_mpint f) b = x ->
  exists v post, num_ok v /\ b = enc_num v ++ post /\ run (f v) post = x.
Proof.
  intros Hf Hx H. apply (ginv _ _ _ _ _ parses_read_positive_mpint nopanic_read_mpint Hf Hx) in H.
  destruct H as (a & bs & post & [H1 ->] & H2 & H3). unfold num_ok. eauto.
Qed.
Lemma ginv_u32 {B} (f : N -> M B) x b : (forall a, local (f a)) -> noerr x -> run (mbind read_u32 f) b = x ->
  exists v post, (v < 2 ^ 32)%N /\ b = to_be 4 v ++ post /\ run (f v) post = x.
Proof.
  intros Hf Hx H. apply (ginv _ _ _ _ _ parses_read_u32 nopanic_read_u32 Hf Hx) in H.
  destruct H as (a & bs & post & [H1 ->] & H2 & H3). eauto.
Qed.

(** Raw bytes, also none of them. *)
Lemma raw_step {B} (f : bytes -> M B) v post : v ++ post <> [] -> (forall a, local (f a)) ->
  run (mbind (read_raw_bytes (length v)) f) (v ++ post) = run (f v) post.
Proof.
  intros Hne Hf. unfold run, mbind. rewrite read_raw_bytes_eq, rest_end. unfold rest, reader_new.
  cbn [r_off r_inner skipn]. destruct (v ++ post) as [|x l] eqn:E; [congruence|]. rewrite <- E.
  rewrite (proj2 (Nat.ltb_ge (length (v ++ post)) (length v))) by (rewrite app_length; lia).
  rewrite firstn_app_exact by reflexivity. apply Hf. unfold rest. cbn [r_off r_inner].
  rewrite skipn_app_exact by lia. reflexivity.
Qed.
Lemma raw_ginv {B} (f : bytes -> M B) n x b : (forall a, local (f a)) -> noerr x ->
  run (mbind (read_raw_bytes n) f) b = x ->
  exists v post, length v = n /\ b = v ++ post /\ v ++ post <> [] /\ run (f v) post = x.
Proof.
  intros Hf Hx H. assert (Hb : n <= length b /\ b <> []).
  { unfold run, mbind in H. rewrite read_raw_bytes_eq, rest_end in H. unfold rest, reader_new in H.
    cbn [r_off r_inner skipn] in H. destruct b as [|y l] eqn:E; [exfalso; exact (Hx _ (eq_sym H))|].
    destruct (_ <? _) eqn:El; [exfalso; exact (Hx _ (eq_sym H))|]. apply Nat.ltb_ge in El. split; [exact El|discriminate]. }
  destruct Hb as [Hb Hne]. exists (firstn n b), (skipn n b).
  assert (Hl : length (firstn n b) = n) by (rewrite firstn_length; lia).
  assert (Hs : firstn n b ++ skipn n b = b) by apply firstn_skipn.
  split; [exact Hl|]. split; [auto|]. rewrite Hs. split; [exact Hne|].
  pose proof (raw_step f (firstn n b) (skipn n b)) as R. rewrite Hs, Hl in R.
  rewrite <- H. symmetry. apply R; assumption.
Qed.

Definition key_magic : bytes := s2b "openssh-key-v1".
Lemma magic_step {B} (g : bytes -> M B) post : (forall a, local (g a)) ->
  run (mbind read_cstring g) (key_magic ++ [x00] ++ post) = run (g key_magic) post.
Proof.
  intros Hg. unfold run, mbind. rewrite read_cstring_eq. unfold rest, reader_new. cbn [r_off r_inner skipn].
  assert (E : cstring_loop (key_magic ++ [x00] ++ post) [] 0 = Some (key_magic, 15)) by (unfold key_magic; reflexivity).
  rewrite E. apply Hg. reflexivity.
Qed.
Lemma magic_ginv {B} (g : M B) b x : local g -> noerr x ->
  run (do! pre <- read_cstring; if negb (bytes_eqb pre (s2b "openssh-key-v1")) then throw EInvalidFormat else g) b = x ->
  exists post, b = key_magic ++ [x00] ++ post /\ run g post = x.
Proof.
  intros Hg Hx H. assert (H' := H). unfold run, mbind in H. rewrite read_cstring_eq in H. unfold rest, reader_new in H.
  cbn [r_off r_inner skipn] in H.
  destruct (cstring_loop b [] 0) as [[t n]|] eqn:E; [|exfalso; exact (Hx _ (eq_sym H))].
  destruct (bytes_eqb t (s2b "openssh-key-v1")) eqn:Et; [|exfalso; exact (Hx _ (eq_sym H))].
  apply bytes_eqb_eq in Et. fold key_magic in Et. subst t.
  apply cstring_ascii in E; [|unfold key_magic; repeat (constructor; [reflexivity|]); constructor].
  destruct E as (post & -> & _). exists post. split; [reflexivity|].
  change (key_magic ++ x00 :: post) with (key_magic ++ [x00] ++ post) in H'.
  rewrite magic_step in H' by (local_tac; exact Hg). unfold key_magic in H'. rewrite bytes_eqb_refl in H'. exact H'.
Qed.

Definition enc_file (cipher kdf options pkb section : bytes) : bytes :=
  key_magic ++ [x00] ++ enc_bytes cipher ++ enc_bytes kdf ++ enc_bytes options ++ to_be 4 1
  ++ enc_bytes pkb ++ enc_bytes section.
Lemma key_file_enc cipher kdf options pkb section :
  key_file cipher kdf options pkb section = enc_file cipher kdf options pkb section.
Proof. unfold key_file, enc_file. rewrite !field_enc, be32_to_be. reflexivity. Qed.

Lemma pk_from_bytes_not_panic b : pk_from_bytes b <> Panic.
Proof.
  unfold pk_from_bytes. apply nopanic_run.
  apply nopanic_bind; [apply nopanic_read_string|intros; apply nopanic_pk_from_reader].
Qed.
Lemma run_lift_end {A} (x : res A) b : run (lift x) b = x.
Proof. reflexivity. Qed.

Lemma file_ginv F K pass d x : noerr x -> run (sk_from_reader F K pass) d = x ->
  exists cipher kdf options pkb pub section plain tl,
    str_ok cipher /\ str_ok kdf /\ fits options /\ fits pkb /\ fits section /\ section ++ tl <> []
    /\ pk_from_bytes pkb = Ok pub /\ decrypt F K cipher kdf options pass section = Ok plain
    /\ d = enc_file cipher kdf options pkb section ++ tl /\ run (read_section F pub) plain = x.
Proof.
  intros Hx H. unfold sk_from_reader in H. apply magic_ginv in H; [|local_tac|exact Hx].
  destruct H as (d1 & -> & H).
  apply ginv_string in H; [|local_tac|exact Hx]. destruct H as (cipher & d2 & H1 & -> & H).
  apply ginv_string in H; [|local_tac|exact Hx]. destruct H as (kdf & d3 & H2 & -> & H).
  apply ginv_bytes in H; [|local_tac|exact Hx]. destruct H as (options & d4 & H3 & -> & H).
  apply ginv_u32 in H; [|local_tac|exact Hx]. destruct H as (count & d5 & _ & -> & H).
  destruct (count =? 1)%N eqn:Ec; [|exfalso; exact (Hx _ (eq_sym H))]. apply N.eqb_eq in Ec. subst count. cbn [negb] in H.
  apply ginv_bytes in H; [|local_tac|exact Hx]. destruct H as (pkb & d6 & H4 & -> & H).
  apply ginv_lift in H; [|apply pk_from_bytes_not_panic|exact Hx]. destruct H as (pub & Hp & H).
  apply ginv_u32 in H; [|local_tac|exact Hx]. destruct H as (rem & d7 & H5 & -> & H).
  apply raw_ginv in H; [|local_tac|exact Hx]. destruct H as (section & tl & Hl & -> & Hne & H).
  apply ginv_lift in H; [|apply decrypt_not_panic|exact Hx]. destruct H as (plain & Hd & H).
  rewrite run_lift_end in H. exists cipher, kdf, options, pkb, pub, section, plain, tl.
  assert (Er : rem = N.of_nat (length section)) by lia.
  assert (Fs : fits section) by (unfold fits; lia).
  do 8 (split; [assumption|]). split; [|exact H].
  unfold enc_file. rewrite <- !app_assoc. unfold enc_bytes at 8. rewrite Er, <- !app_assoc. reflexivity.
Qed.

Lemma file_run F K pass cipher kdf options pkb pub section plain tl :
  str_ok cipher -> str_ok kdf -> fits options -> fits pkb -> fits section -> section ++ tl <> [] ->
  pk_from_bytes pkb = Ok pub -> decrypt F K cipher kdf options pass section = Ok plain ->
  run (sk_from_reader F K pass) (enc_file cipher kdf options pkb section ++ tl) = run (read_section F pub) plain.
Proof.
  intros H1 H2 H3 H4 H5 H6 H7 H8. unfold sk_from_reader, enc_file. rewrite <- !app_assoc.
  rewrite magic_step by local_tac. unfold key_magic. rewrite bytes_eqb_refl. cbn [negb].
  rewrite str_step by (try assumption; local_tac). rewrite str_step by (try assumption; local_tac).
  rewrite step_bytes by (try assumption; local_tac). rewrite step_u32 by (try lia; local_tac).
  cbn [N.eqb Pos.eqb negb]. rewrite step_bytes by (try assumption; local_tac).
  rewrite (run_lift _ _ _ _ H7). unfold enc_bytes at 1. rewrite <- !app_assoc.
  rewrite step_u32 by (try assumption; local_tac). rewrite Nat2N.id.
  rewrite raw_step by (try assumption; local_tac). rewrite (run_lift _ _ _ _ H8). apply run_lift_end.
Qed.
Lemma file_run_err F K pass cipher kdf options pkb pub section tl e :
  str_ok cipher -> str_ok kdf -> fits options -> fits pkb -> fits section -> section ++ tl <> [] ->
  pk_from_bytes pkb = Ok pub -> decrypt F K cipher kdf options pass section = Err e ->
  run (sk_from_reader F K pass) (enc_file cipher kdf options pkb section ++ tl) = Err e.
Proof.
  intros H1 H2 H3 H4 H5 H6 H7 H8. unfold sk_from_reader, enc_file. rewrite <- !app_assoc.
  rewrite magic_step by local_tac. unfold key_magic. rewrite bytes_eqb_refl. cbn [negb].
  rewrite str_step by (try assumption; local_tac). rewrite str_step by (try assumption; local_tac).
  rewrite step_bytes by (try assumption; local_tac). rewrite step_u32 by (try lia; local_tac).
  cbn [N.eqb Pos.eqb negb]. rewrite step_bytes by (try assumption; local_tac).
  rewrite (run_lift _ _ _ _ H7). unfold enc_bytes at 1. rewrite <- !app_assoc.
  rewrite step_u32 by (try assumption; local_tac). rewrite Nat2N.id.
  rewrite raw_step by (try assumption; local_tac). apply run_lift_err, H8.
Qed.

Lemma pub_blob_iff pk post bs : pub_blob pk post bs <-> kind_ok (pk_type pk) (pk_kind pk) /\ bs = enc_key pk ++ post.
Proof.
  unfold pub_blob, enc_key. split.
  - intros (b & Hb & ->). apply key_data_iff in Hb. destruct Hb as [Hb ->]. rewrite field_enc, <- app_assoc. auto.
  - intros [H ->]. exists (enc_kind (pk_kind pk)). rewrite key_data_iff, field_enc, <- app_assoc. auto.
Qed.
Lemma section_of_iff F k padding bs : section_of F k padding bs <->
  (sk_magic k < 2 ^ 32)%N /\ priv_ok F k /\ bs = enc_section k ++ padding.
Proof.
  unfold section_of, enc_section, u32_max. split.
  - intros (H & b & Hb & ->). apply priv_data_iff in Hb. destruct Hb as [Hb ->].
    rewrite be32_to_be, <- !app_assoc. split; [lia|auto].
  - intros (H & Hb & ->). split; [lia|]. exists (enc_priv k). rewrite priv_data_iff, be32_to_be, <- !app_assoc. auto.
Qed.

Lemma file_iff F K pass d k : run (sk_from_reader F K pass) d = Ok k <-> holds_key F K pass k d.
Proof.
  unfold holds_key. split.
  - intros H. apply file_ginv in H; [|discriminate].
    destruct H as (ci & kd & op & pkb & pub & se & pl & tl & H1 & H2 & H3 & H4 & H5 & H6 & H7 & H8 & -> & H).
    apply read_section_iff in H. destruct H as (P1 & <- & P3 & post & ->).
    apply pk_from_bytes_iff in H7. destruct H7 as [[K1 [K2 K3]] (ppost & ->)].
    apply str_ok_iff in H1, H2. rewrite <- field_ok_fits in *. apply decrypt_iff in H8.
    exists ci, kd, op, ppost, (enc_key (sk_pub k) ++ ppost), se, (enc_section k ++ post), post, tl.
    rewrite pub_blob_iff, section_of_iff, key_file_enc. tauto.
  - intros (ci & kd & op & ppost & pkb & se & pl & pad & tl & H1 & H2 & H3 & H4 & H5 & H6 & H7 & H8 & H9 & H10 & H11 & ->).
    apply pub_blob_iff in H6. destruct H6 as [K1 ->]. apply section_of_iff in H11. destruct H11 as (S1 & S2 & ->).
    rewrite key_file_enc. rewrite field_ok_fits in *. apply decrypt_iff in H10.
    rewrite (file_run F K pass ci kd op _ (sk_pub k) se (enc_section k ++ pad) tl); try assumption.
    + apply read_section_iff. eauto 6.
    + split; [assumption|apply utf8_valid_iff; assumption].
    + split; [assumption|apply utf8_valid_iff; assumption].
    + apply pk_from_bytes_iff. split; [|eauto]. destruct S2 as (A1 & _ & A3 & A4 & _). split; [rewrite A3; exact A1|auto].
Qed.

(** ** The text *)
Lemma sk_from_string_decode F K text pass : sk_from_string F K text pass =
  do? d <- armor_decode key_begin key_end text; run (sk_from_reader F K pass) d.
Proof.
  unfold sk_from_string, armor_decode. cbn zeta. destruct (negb _); [reflexivity|].
  destruct (armor_body _ _ _) as [x|e|]; reflexivity.
Qed.
Lemma key_text_iff data text : key_text data text <-> armor_decode key_begin key_end text = Ok data.
Proof. symmetry. apply armor_decode_iff. discriminate. Qed.

(** ** Writing *)
Definition pad_len (n : nat) : nat := Nat.modulo (8 - Nat.modulo n 8) 8.
Definition pad_bytes : bytes := [x01; x02; x03; x04; x05; x06; x07].
Lemma pad_len_lt n : pad_len n < 8.
Proof. unfold pad_len. apply Nat.mod_upper_bound. lia. Qed.
Lemma pad_len_total n : Nat.modulo (n + pad_len n) 8 = 0.
Proof.
  unfold pad_len. pose proof (Nat.mod_upper_bound n 8). pose proof (Nat.div_mod n 8).
  destruct (Nat.eq_dec (n mod 8) 0) as [E|E].
  - rewrite E. cbn [Nat.sub]. rewrite Nat.mod_same by lia. rewrite Nat.add_0_r. exact E.
  - rewrite (Nat.mod_small (8 - n mod 8)) by lia.
    replace (n + (8 - n mod 8)) with ((n / 8 + 1) * 8) by lia. apply Nat.mod_mul. lia.
Qed.
Lemma pad_len_unique n j : j < 8 -> Nat.modulo (n + j) 8 = 0 -> j = pad_len n.
Proof.
  intros Hj H. pose proof (pad_len_lt n). pose proof (pad_len_total n).
  pose proof (Nat.div_mod (n + j) 8). pose proof (Nat.div_mod (n + pad_len n) 8). lia.
Qed.

Definition priv_kind_pub (k : privkey) : Prop :=
  match sk_kind k with SkRsa _ => True | _ => kind_ok (pk_type (sk_pub k)) (canon (pk_kind (sk_pub k))) end.

Lemma write_section_shape k w : write_section k = Ok w -> exists body,
  write_priv_kind k (write_string (kt_name (pk_type (sk_pub k))) (to_be 4 (sk_magic k) ++ to_be 4 (sk_magic k))) = Ok body
  /\ let b := write_string (sk_comment k) body in w = b ++ firstn (pad_len (length b)) pad_bytes.
Proof.
  unfold write_section, write_u32, writer_new. cbn [app]. cbn zeta. intros H.
  apply bind_ok in H. destruct H as (body & Hb & H). exists body. split; [exact Hb|]. cbn zeta.
  set (b := write_string (sk_comment k) body) in *.
  rewrite usub_ok in H by (pose proof (Nat.mod_upper_bound (length b) 8); lia). cbn [bind] in H.
  fold (pad_len (length b)) in H. fold pad_bytes in H.
  rewrite slice_to_ok in H by (pose proof (pad_len_lt (length b)); cbn [length pad_bytes]; lia).
  cbn [bind] in H. apply ok_inj in H. subst w. reflexivity.
Qed.

Lemma enc_bytes_fits_num m m' : from_be m = from_be m' -> num_ok m' -> forall w,
  write_mpint m w = w ++ enc_num m'.
Proof.
  intros He [H1 H2] w. assert (Hs : strip0 m = m').
  { apply no_lead_zero_inj; [apply strip0_no_lead|exact H2|]. rewrite strip0_value. exact He. }
  rewrite write_mpint_eq, Hs, write_bytes_enc by exact H1. reflexivity.
Qed.

Lemma kept_canon F k k' : kept k k' -> priv_ok F k' ->
  pk_type (sk_pub k) = sk_type k' /\ canon (pk_kind (sk_pub k)) = pk_kind (sk_pub k')
  /\ kind_ok (sk_type k') (pk_kind (sk_pub k')).
Proof.
  intros (H1 & H2 & H3 & H4 & H5) (P1 & P2 & P3 & P4 & P5 & P6).
  assert (Hk : kind_ok (sk_type k') (pk_kind (sk_pub k'))).
  { destruct (sk_kind k') as [r|c key|h|key|h], (pk_kind (sk_pub k')) as [e n|c' pk ap|pk ap]; cbn [sec_ok] in P5; try contradiction.
    - cbn [kind_ok]. destruct P5 as (A & <- & <- & B & C & _). unfold num_ok in *. tauto.
    - destruct ap; [contradiction|apply P5].
    - destruct ap; [apply P5|contradiction].
    - destruct ap; [contradiction|apply P5].
    - destruct ap; [apply P5|contradiction]. }
  split; [congruence|]. split; [|exact Hk]. symmetry. apply (same_material_canon_iff (sk_type k')); assumption.
Qed.

Lemma write_section_enc F k k' : kept k k' -> priv_ok F k' ->
  write_section k = Ok (enc_section k' ++ firstn (pad_len (length (enc_section k'))) pad_bytes).
Proof.
  intros Hkept Hok. destruct (kept_canon F k k' Hkept Hok) as (T & C & Kok).
  destruct Hkept as (H1 & H2 & H3 & H4 & H5). assert (Hok' := Hok). destruct Hok as (P1 & P2 & P3 & P4 & P5 & P6).
  assert (E : write_string (kt_name (pk_type (sk_pub k))) (to_be 4 (sk_magic k) ++ to_be 4 (sk_magic k))
     = to_be 4 (sk_magic k') ++ to_be 4 (sk_magic k') ++ enc_bytes (kt_name (sk_type k'))).
  { rewrite T, H4, write_string_enc by (apply known_fits, P1). rewrite <- app_assoc. reflexivity. }
  assert (W : write_priv_kind k (write_string (kt_name (pk_type (sk_pub k))) (to_be 4 (sk_magic k) ++ to_be 4 (sk_magic k)))
     = Ok (to_be 4 (sk_magic k') ++ to_be 4 (sk_magic k') ++ enc_bytes (kt_name (sk_type k')) ++ enc_sec (pk_kind (sk_pub k')) (sk_kind k'))).
  { rewrite E. unfold write_priv_kind.
    assert (Wp : forall w, write_pub_key_data (sk_pub k) w = Ok (w ++ enc_kind (pk_kind (sk_pub k')))).
    { intros w. rewrite write_pub_key_data_kind by (rewrite T, C; exact Kok). rewrite C. reflexivity. }
    destruct (sk_kind k) as [r|c key|h|key|h], (sk_kind k') as [r'|c' key'|h'|key'|h']; cbn [kept_kind] in H3; try contradiction;
      destruct (pk_kind (sk_pub k')) as [e n|cc pk ap|pk ap] eqn:Ep; cbn [sec_ok] in P5; try contradiction.
    - rewrite !magnitude_from_be in H3. destruct H3 as (N1 & N2 & N3 & N4 & N5 & N6).
      destruct P5 as (_ & _ & _ & O1 & O2 & O3 & O4 & O5 & O6 & _).
      rewrite (enc_bytes_fits_num _ _ N1 O1), (enc_bytes_fits_num _ _ N2 O2), (enc_bytes_fits_num _ _ N3 O3),
        (enc_bytes_fits_num _ _ N4 O4), (enc_bytes_fits_num _ _ N5 O5), (enc_bytes_fits_num _ _ N6 O6).
      cbn [enc_sec]. rewrite <- !app_assoc. reflexivity.
    - rewrite Wp. cbn [bind]. destruct ap; [contradiction|]. destruct P5 as (_ & _ & Fk). subst key'.
      rewrite write_bytes_enc by exact Fk. cbn [enc_sec]. rewrite <- !app_assoc. reflexivity.
    - rewrite Wp. cbn [bind]. destruct ap; [|contradiction]. destruct P5 as (_ & Fh & _). destruct H3 as (E1 & E2 & E3).
      rewrite E2, E1. rewrite (write_bytes_enc (hw_handle h')) by exact Fh.
      rewrite (write_bytes_enc []) by (unfold fits; cbn; lia). unfold write_raw_bytes. cbn [enc_sec]. rewrite E3, <- !app_assoc. reflexivity.
    - rewrite Wp. cbn [bind]. destruct ap; [contradiction|]. destruct P5 as (_ & Fk). subst key'.
      rewrite write_bytes_enc by exact Fk. cbn [enc_sec]. rewrite <- !app_assoc. reflexivity.
    - rewrite Wp. cbn [bind]. destruct ap; [|contradiction]. destruct P5 as (_ & Fh & _). destruct H3 as (E1 & E2 & E3).
      rewrite E2, E1. rewrite (write_bytes_enc (hw_handle h')) by exact Fh.
      rewrite (write_bytes_enc []) by (unfold fits; cbn; lia). unfold write_raw_bytes. cbn [enc_sec]. rewrite E3, <- !app_assoc. reflexivity. }
  unfold write_section, write_u32, writer_new. cbn [app]. cbn zeta. rewrite W. cbn [bind].
  rewrite H5. rewrite write_string_enc by apply P6.
  assert (Eb : forall x, (to_be 4 (sk_magic k') ++ to_be 4 (sk_magic k') ++ enc_bytes (kt_name (sk_type k')) ++ enc_sec (pk_kind (sk_pub k')) (sk_kind k')) ++ x
    = to_be 4 (sk_magic k') ++ to_be 4 (sk_magic k') ++ enc_bytes (kt_name (sk_type k')) ++ enc_sec (pk_kind (sk_pub k')) (sk_kind k') ++ x).
  { intros x. rewrite <- !app_assoc. reflexivity. }
  rewrite Eb. change (to_be 4 (sk_magic k') ++ to_be 4 (sk_magic k') ++ enc_bytes (kt_name (sk_type k')) ++ enc_sec (pk_kind (sk_pub k')) (sk_kind k') ++ enc_bytes (sk_comment k'))
    with (enc_section k').
  rewrite usub_ok by (pose proof (Nat.mod_upper_bound (length (enc_section k')) 8); lia). cbn [bind].
  fold (pad_len (length (enc_section k'))). fold pad_bytes.
  rewrite slice_to_ok by (pose proof (pad_len_lt (length (enc_section k'))); cbn [length pad_bytes]; lia). reflexivity.
Qed.

Lemma sk_encode_enc F k k' : kept k k' -> priv_ok F k' -> fits (enc_key (sk_pub k')) ->
  fits (enc_section k' ++ firstn (pad_len (length (enc_section k'))) pad_bytes) ->
  sk_encode k = Ok (enc_file (s2b "none") (s2b "none") [] (enc_key (sk_pub k'))
     (enc_section k' ++ firstn (pad_len (length (enc_section k'))) pad_bytes)).
Proof.
  intros Hkept Hok F1 F2. destruct (kept_canon F k k' Hkept Hok) as (T & C & Kok).
  pose proof (write_section_enc F k k' Hkept Hok) as W. destruct Hok as (P1 & P2 & P3 & P4 & P5 & P6).
  unfold sk_encode. cbn zeta. unfold write_pub_key.
  rewrite (write_string_enc (kt_name (pk_type (sk_pub k)))) by (rewrite T; apply known_fits, P1).
  rewrite write_pub_key_data_kind by (rewrite T, C; exact Kok). cbn [bind].
  rewrite W. cbn [bind]. change (writer_new ++ ?x) with x.
  replace (enc_bytes (kt_name (pk_type (sk_pub k))) ++ enc_kind (canon (pk_kind (sk_pub k)))) with (enc_key (sk_pub k')).
  2:{ unfold enc_key. rewrite T, C, P3. reflexivity. }
  rewrite (write_bytes_enc (enc_key (sk_pub k'))) by exact F1. rewrite (write_bytes_enc (_ ++ _)) by exact F2.
  rewrite !(write_string_enc (s2b "none")) by (unfold fits; cbn; lia). rewrite (write_bytes_enc []) by (unfold fits; cbn; lia).
  unfold write_u32, write_cstring, enc_file, writer_new, key_magic. change ([] ++ s2b "openssh-key-v1") with (s2b "openssh-key-v1").
  rewrite <- !app_assoc. reflexivity.
Qed.

(** ** Line splitting *)
Lemma split_lines_app a : forall i b, split_lines i (a ++ b) = split_lines i a ++ split_lines (i + length a) b.
Proof.
  induction a as [|c a IH]; intros i b; cbn [app split_lines length].
  - rewrite Nat.add_0_r. reflexivity.
  - rewrite IH, <- app_assoc. cbn [app]. replace (S i + length a) with (i + S (length a)) by lia. reflexivity.
Qed.
Lemma split_lines_inside l : forall q r, 0 < r -> r + length l <= 70 -> split_lines (70 * q + r) l = l.
Proof.
  induction l as [|c l IH]; intros q r Hr Hl; cbn [split_lines]; [reflexivity|]. cbn [length] in Hl.
  assert (E : Nat.modulo (70 * q + r) 70 = r).
  { rewrite Nat.add_comm, Nat.mul_comm, Nat.mod_add by lia. apply Nat.mod_small. lia. }
  rewrite E. rewrite (proj2 (Nat.eqb_neq r 0)) by lia. rewrite andb_false_r. cbn [app]. f_equal.
  replace (S (70 * q + r)) with (70 * q + S r) by lia. apply IH; lia.
Qed.
Lemma split_lines_line l q : l <> [] -> length l <= 70 ->
  split_lines (70 * q) l = (if q =? 0 then [] else [newline]) ++ l.
Proof.
  destruct l as [|c l]; [congruence|]. intros _ Hl. cbn [split_lines length] in *.
  assert (E : Nat.modulo (70 * q) 70 = 0) by (rewrite Nat.mul_comm; apply Nat.mod_mul; lia).
  rewrite E. cbn [Nat.eqb]. rewrite andb_true_r.
  replace (S (70 * q)) with (70 * q + 1) by lia. rewrite split_lines_inside by lia.
  destruct q as [|q]; [reflexivity|]. rewrite (proj2 (Nat.eqb_neq (70 * S q) 0)) by lia. reflexivity.
Qed.
Lemma split_lines_chunks l q : l <> [] ->
  split_lines (70 * q) l = (if q =? 0 then [] else [newline]) ++ join [newline] (chunks 70 l).
Proof.
  unfold chunks. assert (H : length l <= length l) by lia. revert H.
  generalize (length l) at 2 3 as fuel. intros fuel. revert l q.
  induction fuel as [|fuel IH]; intros l q Hf Hl.
  { destruct l; [congruence|cbn in Hf; lia]. }
  cbn [chunks_aux]. destruct l as [|b l']; [congruence|]. set (l := b :: l') in *.
  destruct (Nat.le_gt_cases (length l) 70) as [Hs|Hs].
  - rewrite firstn_all2, skipn_all2 by exact Hs. assert (E : chunks_aux fuel 70 [] = []) by (destruct fuel; reflexivity).
    rewrite E. cbn [join]. apply split_lines_line; [discriminate|exact Hs].
  - rewrite <- (firstn_skipn 70 l) at 1. rewrite split_lines_app.
    assert (L1 : length (firstn 70 l) = 70) by (rewrite firstn_length; lia).
    rewrite split_lines_line; [|intros E; rewrite E in L1; discriminate|lia]. rewrite L1.
    replace (70 * q + 70) with (70 * S q) by lia.
    assert (Hne : skipn 70 l <> []).
    { intros E. apply (f_equal (@length _)) in E. rewrite skipn_length in E. cbn [length] in E. lia. }
    rewrite IH; [|rewrite skipn_length; lia|exact Hne]. cbn [Nat.eqb].
    destruct (chunks_aux fuel 70 (skipn 70 l)) as [|x xs] eqn:Ex.
    { exfalso. destruct fuel as [|fuel]; [lia|]. cbn [chunks_aux] in Ex.
      destruct (skipn 70 l); [congruence|discriminate]. }
    cbn [join]. rewrite <- !app_assoc. reflexivity.
Qed.
Lemma split_lines_join l : l <> [] -> split_lines 0 l = join [newline] (chunks 70 l).
Proof. intros H. exact (split_lines_chunks l 0 H). Qed.

Lemma lines_of_join_nl ls : Forall plain_line ls -> ls <> [] ->
  lines_of (join [newline] ls ++ [newline]) ls.
Proof.
  intros Hl. induction Hl as [|l ls H1 H2 IH]; [congruence|]. intros _. cbn [join]. destruct ls as [|l2 ls].
  - cbn [app]. apply L_lf; [apply H1|apply plain_no_cr, H1|constructor].
  - rewrite <- app_assoc. cbn [app]. apply L_lf; [apply H1|apply plain_no_cr, H1|]. apply IH. discriminate.
Qed.
Lemma join_snoc ls e : ls <> [] -> join [newline] (ls ++ [e]) = join [newline] ls ++ [newline] ++ e.
Proof.
  induction ls as [|l ls IH]; [congruence|]. intros _. destruct ls as [|l2 ls]; [reflexivity|].
  change (join [newline] ((l :: l2 :: ls) ++ [e])) with (l ++ [newline] ++ join [newline] ((l2 :: ls) ++ [e])).
  rewrite IH by discriminate. cbn [join]. rewrite <- !app_assoc. reflexivity.
Qed.

Lemma key_begin_plain : plain_line key_begin.
Proof. split; [discriminate|]. split; intros H; cbn in H; repeat (destruct H as [H|H]; [discriminate|]); exact H. Qed.
Lemma key_end_plain : plain_line key_end.
Proof. split; [discriminate|]. split; intros H; cbn in H; repeat (destruct H as [H|H]; [discriminate|]); exact H. Qed.

Lemma sk_write_lines k text : sk_write k = Ok text -> exists blob body,
  sk_encode k = Ok blob /\ blob <> [] /\ lines_of text (key_begin :: body ++ [key_end])
  /\ filled 70 body /\ concat body = b64_encode blob
  /\ text = key_begin ++ [newline] ++ join [newline] body ++ [newline] ++ key_end ++ [newline].
Proof.
  unfold sk_write. intros H. apply bind_ok in H. destruct H as (blob & Hb & H). apply ok_inj in H.
  assert (Hne : blob <> []).
  { unfold sk_encode in Hb. cbn zeta in Hb. apply bind_ok in Hb. destruct Hb as (s & Hs & Hb).
    apply bind_ok in Hb. destruct Hb as (w & _ & Hb). apply ok_inj in Hb. intros ->.
    apply (f_equal (@length _)) in Hb. unfold write_bytes in Hb. rewrite !app_length, to_be_length in Hb. cbn in Hb. lia. }
  assert (Hn : b64_encode blob <> []).
  { intros E. apply Hne. assert (X := b64_decode_encode blob). rewrite E in X. cbn in X. congruence. }
  destruct (armor_print_lines key_begin key_end 70 blob) as (_ & Hf & Hc); [lia|exact Hne|apply key_begin_plain|apply key_end_plain|].
  set (body := chunks 70 (b64_encode blob)) in *. exists blob, body.
  rewrite split_lines_join in H by exact Hn. fold body in H. subst text.
  split; [exact Hb|]. split; [exact Hne|]. split; [|auto].
  assert (Hp : Forall plain_line body).
  { apply Forall_forall. intros l Hl. destruct (filled_parts _ _ Hf) as [_ Hp]. specialize (Hp ltac:(lia)).
    rewrite Forall_forall in Hp. apply graphic_plain; [apply (Hp l Hl)|].
    pose proof (b64_encode_graphic blob) as G. rewrite forallb_forall in *. intros x Hx. apply G.
    rewrite <- Hc. eapply concat_in; eassumption. }
  destruct (filled_parts _ _ Hf) as [Hbn _].
  replace (join [newline] body ++ [newline] ++ key_end ++ [newline]) with (join [newline] (body ++ [key_end]) ++ [newline])
    by (rewrite join_snoc by exact Hbn; rewrite <- !app_assoc; reflexivity).
  apply L_lf; [apply key_begin_plain|apply plain_no_cr, key_begin_plain|].
  apply lines_of_join_nl; [|destruct body; discriminate].
  apply Forall_app. split; [exact Hp|]. constructor; [apply key_end_plain|constructor].
Qed.
Lemma sk_write_decode k text blob : sk_encode k = Ok blob -> sk_write k = Ok text ->
  armor_decode key_begin key_end text = Ok blob.
Proof.
  intros He Hw. apply sk_write_lines in Hw. destruct Hw as (blob' & body & Hb & Hne & Hl & Hf & Hc & _).
  rewrite He in Hb. apply ok_inj in Hb. subst blob'. apply armor_decode_iff; [discriminate|].
  exists body, [], 0. split; [exact Hl|]. split.
  - intros Hi. apply (b64_encode_no_dash blob). rewrite <- Hc. eapply concat_in; [exact Hi|left; reflexivity].
  - rewrite Hc. cbn [repeat]. rewrite app_nil_r. apply b64_encode_text.
Qed.

(** ** Panics *)
Lemma noerr_panic {A} : noerr (@Panic A).
Proof. discriminate. Qed.

Ltac gp := first [exact noerr_panic | hw_local].
Ltac hw_panic H :=
  unfold read_hw in H; rewrite run_assoc in H; rewrite run_assoc in H;
  apply ginv_string in H; [|gp..]; destruct H as (?ap & ?d & _ & _ & H);
  rewrite run_assoc in H; apply (ginv _ _ _ _ _ (parses_read_raw 1 ltac:(lia)) (nopanic_read_raw 1)) in H; [|gp..];
  destruct H as ([|?f0 [|]] & ?bs & ?d & [?Lf ?] & _ & H); try discriminate Lf; cbn [index nth_error] in H;
  rewrite run_assoc in H; apply ginv_lift in H; [|discriminate|gp]; destruct H as (? & _ & H);
  rewrite run_assoc in H; apply ginv_bytes in H; [|gp..]; destruct H as (?v & ?d & _ & _ & H);
  rewrite run_assoc in H; apply ginv_bytes in H; [|gp..]; destruct H as (?v & ?d & _ & _ & H);
  rewrite !run_ret_bind in H; apply ginv_string in H; [|gp..]; destruct H as (?v & ?d & _ & _ & H); discriminate H.
Ltac key_panic H :=
  rewrite run_assoc in H; apply ginv_bytes in H; [|gp..]; destruct H as (?v & ?d & _ & _ & H);
  rewrite run_ret_bind in H; apply ginv_string in H; [|gp..]; destruct H as (?v & ?d & _ & _ & H); discriminate H.

Lemma read_private_key_panic F d : run (read_private_key F) d = Panic <->
  f_rsa F = true /\ degenerate_rsa d.
Proof.
  unfold degenerate_rsa, read_private_key. split.
  - intros H. apply ginv_string in H; [|gp..]. destruct H as (name & d1 & _ & -> & H).
    apply ginv_lift in H; [|apply kt_from_name_not_panic|gp]. destruct H as (kt & Hkt & H).
    apply kt_from_name_ok in Hkt. destruct Hkt as [Hkt ->].
    destruct (kt_k kt) eqn:Ek; [| | |discriminate..].
    + rewrite run_assoc in H. apply ginv_mpint in H; [|gp..]. destruct H as (n & d2 & Hn & -> & H).
      rewrite run_assoc in H. apply ginv_mpint in H; [|gp..]. destruct H as (e & d3 & He & -> & H).
      rewrite run_assoc in H. apply ginv_mpint in H; [|gp..]. destruct H as (dd & d4 & Hd & -> & H).
      rewrite run_assoc in H. apply ginv_mpint in H; [|gp..]. destruct H as (co & d5 & Hc & -> & H).
      rewrite run_assoc in H. apply ginv_mpint in H; [|gp..]. destruct H as (p & d6 & Hp & -> & H).
      rewrite run_assoc in H. apply ginv_mpint in H; [|gp..]. destruct H as (q & d7 & Hq & -> & H).
      rewrite run_assoc in H. destruct (crt_exponents F dd p q) as [ex|er|] eqn:Ex.
      * rewrite (run_lift _ _ _ _ eq_refl), run_ret_bind in H. apply ginv_string in H; [|gp..].
        destruct H as (cm & d8 & _ & _ & H). discriminate.
      * exfalso. exact (crt_exponents_not_err _ _ _ _ _ Ex).
      * apply crt_exponents_panic in Ex. destruct Ex as [Hr Hpq]. split; [exact Hr|].
        exists kt, n, e, dd, co, p, q, (enc_num n), (enc_num e), (enc_num dd), (enc_num co), (enc_num p), (enc_num q), d7.
        rewrite !mpint_num, !magnitude_from_be, field_enc.
        split; [apply known_name_ok, Hkt|]. repeat (split; [auto|]). reflexivity.
    + rewrite run_assoc in H. apply ginv_bytes in H; [|gp..]. destruct H as (pk & d2 & _ & _ & H).
      destruct (kt_is_sk kt); [hw_panic H|key_panic H].
    + rewrite run_assoc in H. apply ginv_string in H; [|gp..]. destruct H as (id & d2 & _ & _ & H).
      rewrite run_assoc in H. apply ginv_lift in H; [|apply curve_not_panic|gp]. destruct H as (c & _ & H).
      rewrite run_assoc in H. apply ginv_bytes in H; [|gp..]. destruct H as (pk & d3 & _ & _ & H).
      destruct (kt_is_sk kt); [hw_panic H|key_panic H].
  - intros (Hr & kt & n & e & dd & co & p & q & bn & be & bd & bi & bp & bq & tl & H1 & H2 & Hn & He & Hd & Hc & Hp & Hq & Hpq & ->).
    rewrite mpint_num in *. destruct Hn as [Hn ->], He as [He ->], Hd as [Hd ->], Hc as [Hc ->], Hp as [Hp ->], Hq as [Hq ->].
    assert (Hk : known kt) by (apply kt_from_name_ok in H1; apply H1). rewrite field_enc. rewrite str_step by (try apply known_str, Hk; hw_local).
    rewrite (run_lift _ _ _ _ H1), H2.
    do 6 (rewrite run_assoc, num_step by (try assumption; hw_local)).
    rewrite run_assoc. apply run_bind_panic. unfold run, lift. cbn [fst]. apply crt_exponents_panic.
    rewrite !magnitude_from_be in Hpq. auto.
Qed.

Lemma read_section_panic F pub d : run (read_section F pub) d = Panic <->
  f_rsa F = true /\ exists m rest, (m < 2 ^ 32)%N /\ d = to_be 4 m ++ to_be 4 m ++ rest /\ degenerate_rsa rest.
Proof.
  unfold read_section. split.
  - intros H. apply ginv_u32 in H; [|gp..]. destruct H as (m1 & d1 & M1 & -> & H).
    apply ginv_u32 in H; [|gp..]. destruct H as (m2 & d2 & M2 & -> & H).
    destruct (m1 =? m2)%N eqn:E; [|discriminate]. apply N.eqb_eq in E. subst m2. cbn [negb] in H.
    assert (Hp : run (read_private_key F) d2 = Panic).
    { destruct (run (read_private_key F) d2) as [k|e|] eqn:Er; [exfalso| |reflexivity].
      - unfold run, mbind in H. unfold run in Er. destruct (read_private_key F _) as [x r]. cbn [fst] in Er. subst x.
        cbn zeta in H. destruct (negb _) in H; discriminate.
      - rewrite (run_bind_err _ _ _ _ Er) in H. discriminate. }
    apply read_private_key_panic in Hp. destruct Hp as [Hr Hp]. eauto 8.
  - intros (Hr & m & rest & Hm & -> & Hd). rewrite step_u32 by (try assumption; hw_local).
    rewrite step_u32 by (try assumption; hw_local). rewrite N.eqb_refl. cbn [negb].
    apply run_bind_panic, read_private_key_panic. auto.
Qed.

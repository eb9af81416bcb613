(** Properties C28-C34: signature verification and DER conversion. *)
From Verif Require Import Base BaseFacts Utf8 Utf8Facts SpecWire SpecKeys SpecSig Reader ReaderFacts LocalFacts
  KeyType KeyTypeFacts PubKeyType Writer WriterFacts WireFacts Crypto PubKey PubKeyFacts
  Signature SignatureFacts Utils UtilsFacts PropPubKey.

(** ** C28 *)
Theorem C28_accepts_exactly : forall (C : crypto) (k : pubkey) (msg blob out : bytes),
  verify_signature C blob msg k = Ok out <-> out = blob /\ accepted C k msg blob.
Proof. intros. apply verify_iff. Qed.
Print Assumptions C28_accepts_exactly.

(** Primitives that accept only one (key, message, signature) triple each. *)
Definition pick_crypto (k m s : bytes) : crypto :=
  mkCrypto (fun _ => repeat x11 32) (fun _ => repeat x22 48) (fun _ => repeat x33 64)
    (fun k' m' s' => bytes_eqb k k' && bytes_eqb m m' && bytes_eqb s s')
    (fun k' m' s' => bytes_eqb k k' && bytes_eqb m m' && bytes_eqb s s')
    (fun k' m' s' => bytes_eqb k k' && bytes_eqb m m' && bytes_eqb s s')
    (fun _ n e m' s' => bytes_eqb k n && bytes_eqb m m' && bytes_eqb s s').

Definition ed_key_of (app : option bytes) : pubkey := mkPubKey ex_ed (PkEd25519 [x07; x08] app) None.
Example C28_case :
  let C := pick_crypto [x07; x08] (s2b "hello") [x01; x02; x03] in
  let blob := field (s2b "ssh-ed25519") ++ field [x01; x02; x03] in
  accepted C (ed_key_of None) (s2b "hello") blob
  /\ ~ accepted C (ed_key_of None) (s2b "hellp") blob.
Proof.
  cbn zeta. split.
  - apply (C28_accepts_exactly _ _ _ _ (field (s2b "ssh-ed25519") ++ field [x01; x02; x03])). vm_compute. reflexivity.
  - intros H. assert (X := proj2 (C28_accepts_exactly _ _ _ _ _) (conj eq_refl H)). vm_compute in X. discriminate.
Qed.

(** ** C29 *)
Theorem C29_no_panic : forall (C : crypto) (k : pubkey) (msg blob : bytes),
  verify_signature C blob msg k <> Panic.
Proof. intros. apply verify_not_panic. Qed.
Print Assumptions C29_no_panic.

(** ** C30 *)
Definition ecdsa_key (k : pubkey) (key : bytes) : Prop :=
  kt_k (pk_type k) = KEcdsa /\ exists c, pk_kind k = PkEcdsa c key None.

Lemma ecdsa_label_known C label v len : ecdsa_label C label v len ->
  exists st, kt_from_name label = Ok st /\ kt_k st = KEcdsa /\ kt_name st = label
    /\ fits label /\ utf8_valid label = true.
Proof.
  destruct 1; eexists; (split; [reflexivity|]); (split; [reflexivity|]); (split; [reflexivity|]);
    (split; [unfold fits; cbn; lia|reflexivity]).
Qed.
Lemma fixed_unique len z a b : fixed_bytes len z a -> fixed_bytes len z b -> a = b.
Proof.
  intros [H1 H2] [H3 H4]. rewrite magnitude_from_be in *. apply from_be_inj; congruence.
Qed.
Lemma no_lead_size m len : no_lead_zero m -> (length m <= len <-> (from_be m < 256 ^ N.of_nat len)%N).
Proof.
  intros Hm. split.
  - intros H. pose proof (from_be_bound m).
    assert (256 ^ N.of_nat (length m) <= 256 ^ N.of_nat len)%N by (apply N.pow_le_mono_r; lia). lia.
  - intros H. destruct m as [|x m]; [cbn; lia|]. cbn [no_lead_zero] in Hm.
    pose proof (from_be_ge x m).
    assert (256 ^ N.of_nat (length m) < 256 ^ N.of_nat len)%N by nia.
    apply pow256_lt_inv in H1. cbn [length]. lia.
Qed.

Theorem C30_integers_preserved : forall (C : crypto) (k : pubkey) key label verify len (r s : N) cr cs tl after msg,
  ecdsa_key k key -> ecdsa_label C label verify len ->
  mpint_content_of (Z.of_N r) cr -> mpint_content_of (Z.of_N s) cs ->
  field_ok (field cr ++ field cs ++ tl) ->
  let blob := field label ++ field (field cr ++ field cs ++ tl) ++ after in
  let bound := (256 ^ N.of_nat len)%N in
  ((r < bound)%N -> (s < bound)%N -> exists fr fs,
      fixed_bytes len r fr /\ fixed_bytes len s fs
      /\ verify_signature C blob msg k = if verify key msg (fr ++ fs) then Ok blob else Err EInvalidSignature)
  /\ ((bound <= r)%N \/ (bound <= s)%N -> verify_signature C blob msg k = Err EInvalidFormat).
Proof.
  intros C k key label verify len r s cr cs tl after msg [Hk [c Hkk]] Hl Hr Hs Hf blob bound.
  destruct (ecdsa_label_known _ _ _ _ Hl) as (st & Hst & Hkst & Hname & Hfl & Hu).
  apply ecdsa_alg_of_iff in Hl. destruct Hl as (alg & Ha & ->).
  apply mpint_content_of_iff in Hr; [|lia]. apply mpint_content_of_iff in Hs; [|lia].
  destruct Hr as (mr & Hnr & Hvr & ->), Hs as (ms & Hns & Hvs & ->).
  assert (Hvr' : from_be mr = r) by lia. assert (Hvs' : from_be ms = s) by lia.
  clear Hvr Hvs.
  assert (F1 : fits (mpint_bytes mr)).
  { unfold field_ok, size, u32_max in Hf. rewrite !app_length, !field_length in Hf. unfold fits.
    change (2 ^ 32)%N with 4294967296%N. lia. }
  assert (F2 : fits (mpint_bytes ms)).
  { unfold field_ok, size, u32_max in Hf. rewrite !app_length, !field_length in Hf. unfold fits.
    change (2 ^ 32)%N with 4294967296%N. lia. }
  apply field_ok_fits in Hf.
  assert (E : verify_signature C blob msg k =
    if (len <? length mr) || (len <? length ms) then Err EInvalidFormat
    else if ecdsa_verify C alg key msg ((repeat x00 (len - length mr) ++ mr) ++ (repeat x00 (len - length ms) ++ ms))
         then Ok blob else Err EInvalidSignature).
  { unfold verify_signature, blob. rewrite !field_enc, Hkk.
    rewrite step_string; [|exact Hfl|exact Hu|local_tac].
    rewrite (run_lift _ st) by exact Hst. rewrite Hk, Hkst. cbn [kt_kind_eqb negb].
    rewrite step_bytes; [|rewrite !field_enc in Hf; exact Hf|local_tac].
    rewrite (run_lift _ (alg, len)) by (rewrite Hname; exact Ha). cbn beta iota.
    rewrite (run_lift _ (mr, ms)).
    2:{ rewrite step_mpint; [|exact F1|exact Hnr|local_tac].
        rewrite step_mpint; [reflexivity|exact F2|exact Hns|local_tac]. }
    cbn beta iota. destruct ((len <? length mr) || (len <? length ms)) eqn:E; [reflexivity|].
    apply orb_false_iff in E. destruct E as [E1 E2]. apply Nat.ltb_ge in E1, E2.
    rewrite (usub_ok _ _ E1), (usub_ok _ _ E2).
    unfold run, mbind, lift, ret. cbn beta iota zeta.
    destruct (ecdsa_verify C alg key msg _); reflexivity. }
  rewrite E. split.
  - intros B1 B2. exists (repeat x00 (len - length mr) ++ mr), (repeat x00 (len - length ms) ++ ms).
    rewrite <- Hvr' in B1. rewrite <- Hvs' in B2.
    apply no_lead_size in B1; [|exact Hnr]. apply no_lead_size in B2; [|exact Hns].
    split; [rewrite <- Hvr', <- magnitude_from_be; apply fixed_bytes_iff; auto|].
    split; [rewrite <- Hvs', <- magnitude_from_be; apply fixed_bytes_iff; auto|].
    replace (len <? length mr) with false by lia. replace (len <? length ms) with false by lia. reflexivity.
  - intros B. assert (len < length mr \/ len < length ms) as HB.
    { destruct B as [B|B]; [left|right].
      - apply Nat.lt_nge. intros H. apply no_lead_size in H; [|exact Hnr]. unfold bound in B. lia.
      - apply Nat.lt_nge. intros H. apply no_lead_size in H; [|exact Hns]. unfold bound in B. lia. }
    replace ((len <? length mr) || (len <? length ms)) with true; [reflexivity|].
    symmetry. apply orb_true_iff. rewrite !Nat.ltb_lt. exact HB.
Qed.
Print Assumptions C30_integers_preserved.

Definition ex_p256 : key_type := mkKeyType (s2b "ecdsa-sha2-nistp256") (s2b "ECDSA") false false KEcdsa (s2b "ecdsa-sha2-nistp256").
Definition ex_p256_key (app : option bytes) : pubkey :=
  mkPubKey ex_p256 (PkEcdsa (mkCurve Nistp256 (s2b "nistp256")) [x04; x05] app) None.
Example C30_case : exists label verify len cr cs blob,
  ecdsa_key (ex_p256_key None) [x04; x05]
  /\ ecdsa_label (pick_crypto [x04; x05] [] []) label verify len
  /\ mpint_content_of (Z.of_N 200) cr /\ mpint_content_of (Z.of_N 5) cs
  /\ field_ok (field cr ++ field cs)
  /\ blob = field label ++ field (field cr ++ field cs)
  /\ verify_signature (pick_crypto [x04; x05] (s2b "m") (repeat x00 31 ++ [xc8] ++ repeat x00 31 ++ [x05])) blob
       (s2b "m") (ex_p256_key None) = Ok blob.
Proof.
  exists (s2b "ecdsa-sha2-nistp256"), (c_p256_verify (pick_crypto [x04; x05] [] [])), 32, [x00; xc8], [x05],
    (field (s2b "ecdsa-sha2-nistp256") ++ field (field [x00; xc8] ++ field [x05])).
  split; [split; [reflexivity|eexists; reflexivity]|]. split; [constructor|].
  split. { apply mpint_content_of_iff; [lia|]. exists [xc8]. cbn. repeat split; try lia. }
  split. { apply mpint_content_of_iff; [lia|]. exists [x05]. cbn. repeat split; try lia. }
  split; [unfold field_ok, size, u32_max; cbn; lia|]. split; [reflexivity|]. vm_compute. reflexivity.
Qed.

(** NIST P-521 signatures are rejected for every ECDSA key. *)
Theorem C30_p521_rejected : forall (C : crypto) (k : pubkey) c key app payload after msg,
  kt_k (pk_type k) = KEcdsa -> pk_kind k = PkEcdsa c key app -> field_ok payload ->
  verify_signature C (field (s2b "ecdsa-sha2-nistp521") ++ field payload ++ after) msg k = Err EKeyTypeMismatch.
Proof.
  intros C k c key app payload after msg Hk Hkk Hp. unfold verify_signature. rewrite !field_enc, Hkk.
  apply field_ok_fits in Hp.
  rewrite step_string; [|unfold fits; cbn; lia|reflexivity|unfold read_sk_message; local_tac].
  erewrite run_lift by reflexivity. rewrite Hk. cbn [kt_k kt_kind_eqb negb].
  rewrite step_bytes; [|exact Hp|unfold read_sk_message; local_tac].
  apply run_lift_err. reflexivity.
Qed.
Print Assumptions C30_p521_rejected.

(** ** C31 *)
Theorem C31_ed25519_message : forall (C : crypto) (k : pubkey) key app label payload flags counter after msg,
  kt_k (pk_type k) = KEd25519 -> pk_kind k = PkEd25519 key (Some app) -> ed25519_label label ->
  field_ok payload -> (counter <= u32_max)%N ->
  let blob := field label ++ field payload ++ [flags] ++ be32 counter ++ after in
  verify_signature C blob msg k =
    if c_ed25519_verify C key (c_sha256 C app ++ [flags] ++ be32 counter ++ c_sha256 C msg) payload
    then Ok blob else Err EInvalidSignature.
Proof.
  intros C k key app label payload flags counter after msg Hk Hkk Hl Hp Hc blob.
  unfold verify_signature, blob. rewrite !field_enc, !be32_to_be, Hkk. apply field_ok_fits in Hp.
  assert (exists st, kt_from_name label = Ok st /\ kt_k st = KEd25519 /\ kt_name st = label /\ fits label
    /\ utf8_valid label = true) as (st & Hst & Hks & Hn & Hf & Hu).
  { destruct Hl; eexists; repeat split; unfold fits; cbn; lia. }
  rewrite step_string; [|exact Hf|exact Hu|unfold read_sk_message; local_tac].
  rewrite (run_lift _ st) by exact Hst. rewrite Hk, Hks. cbn [kt_kind_eqb negb].
  rewrite (run_lift _ tt) by (rewrite Hn; apply ed25519_check_iff, Hl).
  rewrite step_bytes; [|exact Hp|unfold read_sk_message; local_tac].
  erewrite run_step with (bs := [flags] ++ to_be 4 counter)
    (a := c_sha256 C app ++ [flags] ++ to_be 4 counter ++ c_sha256 C msg) (post := after);
    [|apply (parses_sk_message C (Some app) msg)| |local_tac].
  - unfold run, mbind, lift, ret. cbn beta iota. destruct (c_ed25519_verify _ _ _ _); reflexivity.
  - cbn beta iota. exists flags, counter. unfold u32_max in Hc. change (2 ^ 32)%N with 4294967296%N.
    split; [lia|]. split; reflexivity.
Qed.
Print Assumptions C31_ed25519_message.

Theorem C31_ecdsa_message : forall (C : crypto) (k : pubkey) c key app label verify len fr fs r s br bs tl flags counter after msg,
  kt_k (pk_type k) = KEcdsa -> pk_kind k = PkEcdsa c key (Some app) -> ecdsa_label C label verify len ->
  mpint_field r br -> mpint_field s bs -> field_ok (br ++ bs ++ tl) ->
  fixed_bytes len (magnitude r) fr -> fixed_bytes len (magnitude s) fs -> (counter <= u32_max)%N ->
  let blob := field label ++ field (br ++ bs ++ tl) ++ [flags] ++ be32 counter ++ after in
  (exists out, verify_signature C blob msg k = Ok out) <->
  verify key (c_sha256 C app ++ [flags] ++ be32 counter ++ c_sha256 C msg) (fr ++ fs) = true.
Proof.
  intros C k c key app label verify len fr fs r s br bs tl flags counter after msg Hk Hkk Hl Hr Hs Hp Hfr Hfs Hc blob.
  destruct (ecdsa_label_known _ _ _ _ Hl) as (st & Hst & Hkst & Hname & Hfl & Hu).
  split.
  - intros [out H]. apply verify_iff in H. destruct H as [_ (label' & payload' & after' & st' & E & Hp' & Hst' & Hks' & H)].
    unfold blob in E.
    assert (Hf' : field_ok label'). { apply kt_from_name_ok in Hst'. destruct Hst' as [Hin ->]. apply field_ok_fits, known_fits, Hin. }
    apply field_inj in E; [|apply field_ok_fits, Hfl|exact Hf']. destruct E as [<- E].
    apply field_inj in E; [|exact Hp|exact Hp']. destruct E as [<- E].
    rewrite Hkk in H. destruct H as (v' & len' & r' & s' & b1 & b2 & tl' & fr' & fs' & m & Hl' & E2 & H1 & H2 & F1 & F2 & Hm & Hv).
    assert (v' = verify /\ len' = len) as [-> ->].
    { apply ecdsa_alg_of_iff in Hl. apply ecdsa_alg_of_iff in Hl'. destruct Hl as (a1 & Ha1 & ->), Hl' as (a2 & Ha2 & ->).
      rewrite Ha1 in Ha2. injection Ha2 as -> ->. auto. }
    apply mpint_field_iff in Hr, Hs, H1, H2.
    destruct Hr as [[Hr1 Hr2] ->], Hs as [[Hs1 Hs2] ->], H1 as [[H11 H12] ->], H2 as [[H21 H22] ->].
    apply enc_bytes_inj in E2; [|assumption..]. destruct E2 as [E2 E3].
    apply enc_bytes_inj in E3; [|assumption..]. destruct E3 as [E3 _].
    assert (r' = r).
    { assert (X := proj2 (mpint_content_iff _ _) (conj E2 H12)).
      assert (Y := proj2 (mpint_content_iff _ _) (conj eq_refl Hr2)). rewrite X in Y. congruence. }
    assert (s' = s).
    { assert (X := proj2 (mpint_content_iff _ _) (conj E3 H22)).
      assert (Y := proj2 (mpint_content_iff _ _) (conj eq_refl Hs2)). rewrite X in Y. congruence. }
    subst r' s'. rewrite (fixed_unique _ _ _ _ Hfr F1), (fixed_unique _ _ _ _ Hfs F2).
    destruct Hm as (f' & c' & tl2 & E4 & Hc' & ->). rewrite <- E in E4.
    change (f' :: be32 c' ++ tl2) with ([f'] ++ be32 c' ++ tl2) in E4.
    apply app_inj_length in E4; [|reflexivity]. destruct E4 as [[= <-] E4].
    rewrite !be32_to_be in *. apply app_inj_length in E4; [|rewrite !to_be_length; reflexivity].
    destruct E4 as [E4 _]. apply to_be_inj in E4.
    2,3: change (256 ^ N.of_nat 4)%N with 4294967296%N; unfold u32_max in *; lia.
    subst c'. exact Hv.
  - intros Hv. exists blob. apply verify_iff. split; [reflexivity|].
    exists label, (br ++ bs ++ tl), ([flags] ++ be32 counter ++ after), st.
    split; [reflexivity|]. split; [exact Hp|]. split; [exact Hst|]. split; [congruence|]. rewrite Hkk.
    exists verify, len, r, s, br, bs, tl, fr, fs, (c_sha256 C app ++ [flags] ++ be32 counter ++ c_sha256 C msg).
    repeat (split; [first [assumption|reflexivity]|]). split; [|exact Hv].
    exists flags, counter, after. auto.
Qed.
Print Assumptions C31_ecdsa_message.

(** Without flags and counter after the payload nothing is accepted for a hardware key. *)
Theorem C31_needs_flags_and_counter : forall (C : crypto) (k : pubkey) label payload after msg app,
  (exists key, pk_kind k = PkEd25519 key (Some app)) \/ (exists c key, pk_kind k = PkEcdsa c key (Some app)) ->
  supported label -> field_ok payload -> length after < 5 ->
  forall out, verify_signature C (field (kt_name label) ++ field payload ++ after) msg k <> Ok out.
Proof.
  intros C k label payload after msg app Hk Hlab Hp Hlen out H. apply verify_iff in H.
  destruct H as [_ (label' & payload' & after' & st' & E & Hp' & Hst' & Hks' & H)].
  apply kt_from_name_ok in Hst'. destruct Hst' as [Hin ->]. apply supported_known in Hlab.
  apply field_inj in E; [|apply field_ok_fits, known_fits, Hlab|apply field_ok_fits, known_fits, Hin].
  destruct E as [_ E]. apply field_inj in E; [|exact Hp|exact Hp']. destruct E as [_ <-].
  assert (exists m, signed_message C (Some app) msg after m) as (m & f & c & tl & -> & _).
  { destruct Hk as [[key Hk]|[c [key Hk]]]; rewrite Hk in H.
    - destruct H as (m & _ & H & _). eauto.
    - destruct H as (v & len & r & s & b1 & b2 & tl & fr & fs & m & _ & _ & _ & _ & _ & _ & H & _). eauto. }
  rewrite be32_to_be in Hlen. cbn [length] in Hlen. rewrite app_length, to_be_length in Hlen. lia.
Qed.
Print Assumptions C31_needs_flags_and_counter.

(** The signed data determines the digests, the flags and the counter. *)
Theorem C31_binding : forall (C : crypto) app app' flags flags' counter counter' msg msg',
  (forall b, length (c_sha256 C b) = 32) -> (counter <= u32_max)%N -> (counter' <= u32_max)%N ->
  c_sha256 C app ++ [flags] ++ be32 counter ++ c_sha256 C msg =
  c_sha256 C app' ++ [flags'] ++ be32 counter' ++ c_sha256 C msg' ->
  c_sha256 C app = c_sha256 C app' /\ flags = flags' /\ counter = counter' /\ c_sha256 C msg = c_sha256 C msg'.
Proof.
  intros C app app' flags flags' counter counter' msg msg' Hd H1 H2 E.
  apply app_inj_length in E; [|rewrite !Hd; reflexivity]. destruct E as [E1 E].
  apply app_inj_length in E; [|reflexivity]. destruct E as [[= E2] E].
  rewrite !be32_to_be in E. apply app_inj_length in E; [|rewrite !to_be_length; reflexivity]. destruct E as [E3 E4].
  apply to_be_inj in E3; [auto|..]; change (256 ^ N.of_nat 4)%N with 4294967296%N; unfold u32_max in *; lia.
Qed.
Print Assumptions C31_binding.

Example C31_case :
  let C := pick_crypto [x07; x08] (repeat x11 32 ++ [x05] ++ be32 258 ++ repeat x11 32) [x01] in
  let blob := field (s2b "sk-ssh-ed25519@openssh.com") ++ field [x01] ++ [x05] ++ be32 258 ++ [x99] in
  verify_signature C blob (s2b "msg") (ed_key_of (Some (s2b "ssh:"))) = Ok blob
  /\ verify_signature C (field (s2b "sk-ssh-ed25519@openssh.com") ++ field [x01] ++ [x05] ++ be32 259) (s2b "msg")
       (ed_key_of (Some (s2b "ssh:"))) = Err EInvalidSignature.
Proof. vm_compute. auto. Qed.
Example C31_case_ecdsa :
  let sig := repeat x00 31 ++ [x01] ++ repeat x00 31 ++ [x02] in
  let C := pick_crypto [x04; x05] (repeat x11 32 ++ [x05] ++ be32 258 ++ repeat x11 32) sig in
  let blob := field (s2b "sk-ecdsa-sha2-nistp256@openssh.com") ++ field (field [x01] ++ field [x02]) ++ [x05] ++ be32 258 in
  verify_signature C blob (s2b "msg") (ex_p256_key (Some (s2b "ssh:"))) = Ok blob.
Proof. vm_compute. auto. Qed.

(** ** C32 *)
(** Two labels that stand for the same check. *)
Inductive same_check : bytes -> bytes -> Prop :=
| SCed a b : ed25519_label a -> ed25519_label b -> same_check a b
| SCec a b : a = s2b "ecdsa-sha2-nistp256" \/ a = s2b "sk-ecdsa-sha2-nistp256@openssh.com" ->
    b = s2b "ecdsa-sha2-nistp256" \/ b = s2b "sk-ecdsa-sha2-nistp256@openssh.com" -> same_check a b.

(** [Ok] results only echo the blob, so they are compared up to that. *)
Definition outcome {A} (x : res A) : res unit :=
  match x with Ok _ => Ok tt | Err e => Err e | Panic => Panic end.

Lemma outcome_bind {A B B'} (m : M A) (f : A -> M B) (g : A -> M B') post :
  local m -> (forall a, local (f a)) -> (forall a, local (g a)) ->
  (forall a p, outcome (run (f a) p) = outcome (run (g a) p)) ->
  outcome (run (mbind m f) post) = outcome (run (mbind m g) post).
Proof.
  intros Hm Hf Hg H. unfold run, mbind. destruct (m (reader_new post)) as [[a|e|] r']; cbn [fst]; try reflexivity.
  specialize (H a (rest r')). unfold run in H.
  destruct (Hf a r' (reader_new (rest r')) eq_refl) as [-> _].
  destruct (Hg a r' (reader_new (rest r')) eq_refl) as [-> _]. exact H.
Qed.
Lemma outcome_lift {A B B'} (x : res A) (f : A -> M B) (g : A -> M B') post :
  (forall a, x = Ok a -> outcome (run (f a) post) = outcome (run (g a) post)) ->
  outcome (run (mbind (lift x) f) post) = outcome (run (mbind (lift x) g) post).
Proof. intros H. destruct x as [a|e|]; [apply (H a eq_refl)|reflexivity|reflexivity]. Qed.

Theorem C32_same_check : forall (C : crypto) (k : pubkey) (msg l1 l2 tail : bytes),
  same_check l1 l2 ->
  outcome (verify_signature C (field l1 ++ tail) msg k) = outcome (verify_signature C (field l2 ++ tail) msg k).
Proof.
  intros C k msg l1 l2 tail Hs.
  assert (exists s1 s2, kt_from_name l1 = Ok s1 /\ kt_from_name l2 = Ok s2 /\ kt_k s1 = kt_k s2
    /\ fits l1 /\ fits l2 /\ utf8_valid l1 = true /\ utf8_valid l2 = true
    /\ ecdsa_alg_of (kt_name s1) = ecdsa_alg_of (kt_name s2)
    /\ ed25519_type_check (kt_name s1) = ed25519_type_check (kt_name s2)
    /\ rsa_alg_of (kt_name s1) = rsa_alg_of (kt_name s2))
    as (s1 & s2 & H1 & H2 & Hk & F1 & F2 & U1 & U2 & HA & HB & HC).
  { destruct Hs as [a b [|] [|]|a b [->| ->] [->| ->]]; do 2 eexists; repeat split; unfold fits; cbn; lia. }
  rewrite !field_enc. unfold verify_signature.
  rewrite step_string; [|exact F1|exact U1|unfold read_sk_message; local_tac].
  rewrite step_string; [|exact F2|exact U2|unfold read_sk_message; local_tac].
  rewrite (run_lift _ s1) by exact H1. rewrite (run_lift _ s2) by exact H2. rewrite Hk.
  destruct (negb _); [reflexivity|]. destruct (pk_kind k) as [e n|c key app|key app].
  - rewrite HC. apply outcome_lift. intros alg _.
    apply outcome_bind; [local_tac..|]. intros. apply outcome_lift. reflexivity.
  - apply outcome_bind; [unfold read_sk_message; local_tac..|]. intros inner p. rewrite HA.
    apply outcome_lift. intros [alg len] _. apply outcome_lift. intros [r s] _.
    destruct (_ || _); [reflexivity|]. apply outcome_lift. intros. apply outcome_lift. intros.
    apply outcome_bind; [unfold read_sk_message; local_tac..|]. intros. apply outcome_lift. reflexivity.
  - rewrite HB. apply outcome_lift. intros _ _.
    apply outcome_bind; [unfold read_sk_message; local_tac..|]. intros.
    apply outcome_bind; [unfold read_sk_message; local_tac..|]. intros. apply outcome_lift. reflexivity.
Qed.
Print Assumptions C32_same_check.

(** A label of another kind. *)
Theorem C32_other_kind : forall (C : crypto) (k : pubkey) (label : key_type) (msg tail : bytes),
  supported label -> kt_k label <> kt_k (pk_type k) ->
  verify_signature C (field (kt_name label) ++ tail) msg k = Err EKeyTypeMismatch.
Proof.
  intros C k label msg tail Hs Hk. unfold verify_signature. rewrite field_enc.
  assert (Hn := Hs). apply supported_known in Hn.
  rewrite step_string; [|apply known_fits, Hn|apply known_utf8, Hn|unfold read_sk_message; local_tac].
  rewrite (run_lift _ label) by exact Hs.
  destruct (kt_kind_eqb (kt_k (pk_type k)) (kt_k label)) eqn:E; [apply kt_kind_eqb_eq in E; congruence|reflexivity].
Qed.
Print Assumptions C32_other_kind.

(** The naive claim "an accepted signature is labelled with the name of the key's type"
    is false, for plain and for hardware keys. *)
Theorem C32_label_is_key_type_refuted : exists C k msg blob tail,
  verify_signature C blob msg k = Ok blob
  /\ blob = field (s2b "sk-ssh-ed25519@openssh.com") ++ tail
  /\ kt_name (pk_type k) = s2b "ssh-ed25519".
Proof.
  exists (pick_crypto [x07; x08] (s2b "hello") [x01; x02; x03]), (ed_key_of None), (s2b "hello"),
    (field (s2b "sk-ssh-ed25519@openssh.com") ++ field [x01; x02; x03]), (field [x01; x02; x03]).
  vm_compute. auto.
Qed.
Print Assumptions C32_label_is_key_type_refuted.

Example C32_case : same_check (s2b "ssh-ed25519") (s2b "sk-ssh-ed25519@openssh.com")
  /\ supported ex_rsa /\ kt_k ex_rsa <> kt_k (pk_type (ed_key_of None)).
Proof. split; [constructor; constructor|]. split; [reflexivity|discriminate]. Qed.

(** ** C33 *)
Theorem C33_total : forall b : bytes,
  asn_der_to_r_s b <> Panic /\ signature_convert_asn1_ecdsa_to_ssh b <> Panic
  /\ forall k, format_signature_for_ssh k b <> Panic.
Proof.
  intros b. assert (H : exists o, asn_der_to_r_s b = Ok o).
  { destruct (der_split_cases b) as [(x & r & s & _ & _ & _ & _ & ->)| ->]; eauto. }
  destruct H as [o Ho]. split; [rewrite Ho; discriminate|].
  assert (Hc : exists o, signature_convert_asn1_ecdsa_to_ssh b = Ok o).
  { unfold signature_convert_asn1_ecdsa_to_ssh. rewrite Ho. cbn [bind]. destruct o as [[r s]|]; eauto. }
  destruct Hc as [o' Ho']. split; [rewrite Ho'; discriminate|]. intros k.
  unfold format_signature_for_ssh. rewrite Ho'. cbn [bind].
  destruct (pk_kind k); [discriminate|destruct o'; discriminate|discriminate].
Qed.
Print Assumptions C33_total.

Theorem C33_splits_der : forall (r s : Z) (b : bytes),
  der_signature r s b ->
  exists cr cs, asn_der_to_r_s b = Ok (Some (cr, cs))
    /\ Z.of_N (magnitude cr) = r /\ Z.of_N (magnitude cs) = s
    /\ b = [x30; n2b (N.of_nat (4 + length cr + length cs))]
           ++ [x02; n2b (N.of_nat (length cr))] ++ cr ++ [x02; n2b (N.of_nat (length cs))] ++ cs.
Proof.
  intros r s b (dr & ds & (cr & -> & Hl1 & Hne1 & Hv1 & _) & (cs & -> & Hl2 & Hne2 & Hv2 & _) & Ht & ->).
  exists cr, cs. cbn [app]. split; [|split; [exact Hv1|split; [exact Hv2|]]].
  - apply der_split_ok; [lia|lia|exact Hne2].
  - cbn [length app]. rewrite app_length. cbn [length].
    replace (S (S (length cr + S (S (length cs))))) with (4 + length cr + length cs) by lia. reflexivity.
Qed.
Print Assumptions C33_splits_der.

(** Exactly what is accepted: the outer length byte is not looked at, and the
    length bytes of the integers may be anything up to 255. *)
Theorem C33_accepts_exactly : forall (b cr cs : bytes),
  asn_der_to_r_s b = Ok (Some (cr, cs)) <->
  length cr < 256 /\ length cs < 256 /\ cs <> []
  /\ exists any, b = [x30; any] ++ [x02; n2b (N.of_nat (length cr))] ++ cr ++ [x02; n2b (N.of_nat (length cs))] ++ cs.
Proof.
  intros b cr cs. split.
  - intros H. destruct (der_split_cases b) as [(x & r & s & H1 & H2 & H3 & -> & E)|E]; rewrite E in H; [|discriminate].
    injection H as -> ->. split; [exact H1|]. split; [exact H2|]. split; [exact H3|]. exists x. reflexivity.
  - intros (H1 & H2 & H3 & any & ->). apply (der_split_ok any); assumption.
Qed.
Print Assumptions C33_accepts_exactly.

Definition ex_der : bytes := [x30; x07; x02; x02; x00; xc8; x02; x01; x05].
Lemma ex_der_ok : der_signature 200 5 ex_der.
Proof.
  exists [x02; x02; x00; xc8], [x02; x01; x05]. split; [|split; [|split; [cbn; lia|reflexivity]]].
  - exists [x00; xc8]. cbn. repeat split; try lia; try discriminate. intros x y t [= <- <- <-] _. cbn. lia.
  - exists [x05]. cbn. repeat split; try lia; try discriminate.
Qed.
Example C33_case : der_signature 200 5 ex_der /\ asn_der_to_r_s ex_der = Ok (Some ([x00; xc8], [x05])).
Proof. split; [apply ex_der_ok|vm_compute; reflexivity]. Qed.

(** ** C34 *)
Theorem C34_der_signatures_verify : forall (C : crypto) (k : pubkey) key verify len (r s : N) der msg,
  ecdsa_key k key -> ecdsa_label C (kt_name (pk_type k)) verify len ->
  (0 < r < 256 ^ N.of_nat len)%N -> (0 < s < 256 ^ N.of_nat len)%N ->
  der_signature (Z.of_N r) (Z.of_N s) der ->
  exists blob fr fs,
    format_signature_for_ssh k der = Ok (Some blob)
    /\ fixed_bytes len r fr /\ fixed_bytes len s fs
    /\ verify_signature C blob msg k = if verify key msg (fr ++ fs) then Ok blob else Err EInvalidSignature.
Proof.
  intros C k key verify len r s der msg Hk Hl Hr Hs (dr & ds & Hdr & Hds & Ht & ->).
  apply der_integer_content in Hdr; [|lia]. apply der_integer_content in Hds; [|lia].
  destruct Hdr as (cr & mr & -> & L1 & N1 & E1 & Z1 & V1), Hds as (cs & ms & -> & L2 & N2 & E2 & Z2 & V2).
  assert (F1 : fits cr) by (unfold fits; change (2 ^ 32)%N with 4294967296%N; lia).
  assert (F2 : fits cs) by (unfold fits; change (2 ^ 32)%N with 4294967296%N; lia).
  destruct (ecdsa_label_known _ _ _ _ Hl) as (st & Hst & Hkst & Hname & Hfl & Hu).
  destruct (C30_integers_preserved C k key _ _ _ r s cr cs [] [] msg Hk Hl) as [H _].
  - apply mpint_content_of_iff; [lia|]. exists mr. auto.
  - apply mpint_content_of_iff; [lia|]. exists ms. auto.
  - rewrite app_nil_r. unfold field_ok, size, u32_max. rewrite app_length, !field_length. lia.
  - destruct H as (fr & fs & H1 & H2 & H3); [apply Hr|apply Hs|].
    rewrite !app_nil_r in H3. rewrite !field_enc in H3.
    exists (enc_bytes (kt_name (pk_type k)) ++ enc_bytes (enc_bytes cr ++ enc_bytes cs)), fr, fs.
    split; [|auto]. destruct Hk as [_ [c Hkk]].
    unfold format_signature_for_ssh, signature_convert_asn1_ecdsa_to_ssh. rewrite Hkk.
    change ([x30; n2b (N.of_nat (length (([x02; n2b (N.of_nat (length cr))] ++ cr) ++ [x02; n2b (N.of_nat (length cs))] ++ cs)))]
      ++ ([x02; n2b (N.of_nat (length cr))] ++ cr) ++ [x02; n2b (N.of_nat (length cs))] ++ cs) with
      (x30 :: n2b (N.of_nat (length (([x02; n2b (N.of_nat (length cr))] ++ cr) ++ [x02; n2b (N.of_nat (length cs))] ++ cs)))
       :: x02 :: n2b (N.of_nat (length cr)) :: cr ++ x02 :: n2b (N.of_nat (length cs)) :: cs).
    rewrite der_split_ok by (auto; lia). cbn [bind].
    rewrite !len32_small by assumption.
    rewrite (write_string_enc (kt_name (pk_type k)) writer_new) by exact Hfl. rewrite write_bytes_enc.
    + unfold writer_new. cbn [app]. unfold enc_bytes at 3 4. rewrite <- !app_assoc. reflexivity.
    + unfold fits. rewrite !app_length, !to_be_length. change (2 ^ 32)%N with 4294967296%N. lia.
Qed.
Print Assumptions C34_der_signatures_verify.

(** Signatures of RSA and Ed25519 signers. *)
Theorem C34_raw_signatures_verify : forall (C : crypto) (k : pubkey) (sg msg : bytes),
  supported (pk_type k) -> field_ok sg ->
  match pk_kind k with
  | PkRsa e n => kt_k (pk_type k) = KRsa -> exists blob,
      format_signature_for_ssh k sg = Ok (Some blob)
      /\ verify_signature C blob msg k =
           if c_rsa_verify C RsaSha512 n e msg sg then Ok blob else Err EInvalidSignature
  | PkEd25519 key None => ed25519_label (kt_name (pk_type k)) -> exists blob,
      format_signature_for_ssh k sg = Ok (Some blob)
      /\ verify_signature C blob msg k =
           if c_ed25519_verify C key msg sg then Ok blob else Err EInvalidSignature
  | _ => True
  end.
Proof.
  intros C k sg msg Hs Hf. apply field_ok_fits in Hf. destruct (pk_kind k) as [e n|c key app|key app] eqn:Hkk; [|exact I|].
  - intros Hk. exists (enc_bytes (s2b "rsa-sha2-512") ++ enc_bytes sg). unfold format_signature_for_ssh. rewrite Hkk.
    rewrite (write_string_enc (s2b "rsa-sha2-512") writer_new), write_bytes_enc; [|exact Hf|unfold fits; cbn; lia]. split; [reflexivity|].
    unfold verify_signature. rewrite Hkk.
    rewrite step_string; [|unfold fits; cbn; lia|reflexivity|local_tac].
    erewrite run_lift by reflexivity. rewrite Hk. cbn [kt_k kt_kind_eqb negb].
    erewrite run_lift by reflexivity. rewrite <- (app_nil_r (enc_bytes sg)).
    rewrite step_bytes; [|exact Hf|local_tac]. unfold run, mbind, lift, ret. rewrite app_nil_r. cbn beta iota.
    destruct (c_rsa_verify _ _ _ _ _ _); reflexivity.
  - destruct app as [a|]; [exact I|]. intros Hl.
    assert (Hkn := Hs). apply supported_known in Hkn.
    exists (enc_bytes (kt_name (pk_type k)) ++ enc_bytes sg). unfold format_signature_for_ssh. rewrite Hkk.
    rewrite (write_string_enc (kt_name (pk_type k)) writer_new), write_bytes_enc; [|exact Hf|apply known_fits, Hkn]. split; [reflexivity|].
    unfold verify_signature. rewrite Hkk.
    rewrite step_string; [|apply known_fits, Hkn|apply known_utf8, Hkn|local_tac].
    rewrite (run_lift _ (pk_type k)) by exact Hs. rewrite kt_kind_eqb_refl. cbn [negb].
    rewrite (run_lift _ tt) by (apply ed25519_check_iff, Hl). rewrite <- (app_nil_r (enc_bytes sg)).
    rewrite step_bytes; [|exact Hf|local_tac]. unfold run, mbind, lift, ret. rewrite app_nil_r. cbn beta iota.
    destruct (c_ed25519_verify _ _ _ _); reflexivity.
Qed.
Print Assumptions C34_raw_signatures_verify.

Example C34_case : exists verify,
  let C := pick_crypto [x04; x05] (s2b "m") (repeat x00 31 ++ [xc8] ++ repeat x00 31 ++ [x05]) in
  ecdsa_key (ex_p256_key None) [x04; x05] /\ ecdsa_label C (kt_name (pk_type (ex_p256_key None))) verify 32
  /\ der_signature (Z.of_N 200) (Z.of_N 5) ex_der
  /\ exists blob, format_signature_for_ssh (ex_p256_key None) ex_der = Ok (Some blob)
     /\ verify_signature C blob (s2b "m") (ex_p256_key None) = Ok blob.
Proof.
  eexists. split; [split; [reflexivity|eexists; reflexivity]|]. split; [constructor|].
  split; [apply ex_der_ok|]. eexists. split; vm_compute; reflexivity.
Qed.
Example C34_case_raw : supported (pk_type (ed_key_of None)) /\ field_ok [x01; x02]
  /\ ed25519_label (kt_name (pk_type (ed_key_of None))).
Proof. split; [reflexivity|]. split; [unfold field_ok, size, u32_max; cbn; lia|constructor]. Qed.

(** Properties C75-C79: signing with private keys, end to end. *)
From Coq Require Import Permutation.
From Verif Require Import Base BaseFacts Utf8 Utf8Facts Str StrFacts SpecWire SpecText SpecBase64
  SpecKeys SpecSig SpecSshSig SpecPrivKey SpecSign Base64 Base64Facts Reader ReaderFacts LocalFacts KeyType
  KeyTypeFacts PubKeyType Writer WriterFacts WireFacts Crypto PubKey PubKeyFacts Signature
  SignatureFacts TbsFacts SshSigFacts Utils UtilsFacts PropSignature PrivKey PrivKeyFacts Cert SpecCert PropCert PropIssue PropSshSig PropPrivKey.

(** ** DER of RSA keys *)
Lemma no_lead_length l k : no_lead_zero l -> (from_be l < 256 ^ N.of_nat k)%N -> length l <= k.
Proof.
  intros Hn Hl. destruct l as [|b l]; [cbn; lia|]. cbn [no_lead_zero] in Hn. rewrite from_be_cons in Hl. cbn [length].
  destruct (le_lt_dec (S (length l)) k) as [|Hgt]; [assumption|exfalso].
  assert (Hp : (256 ^ N.of_nat k <= 256 ^ N.of_nat (length l))%N) by (apply N.pow_le_mono_r; lia).
  assert (1 <= b2n b)%N by lia. nia.
Qed.
Lemma der_len_ok n : (N.of_nat n < 2 ^ 64)%N -> der_length n (der_len n).
Proof.
  intros Hn. unfold der_len. destruct (n <? 128) eqn:E.
  - constructor. apply Nat.ltb_lt, E.
  - apply Nat.ltb_ge in E. cbn zeta. destruct (n_bytes_ok (N.of_nat n)) as (H1 & H2 & _).
    constructor; [exact E|rewrite magnitude_from_be; exact H1|apply shortest_iff, H2|].
    assert (Hl : length (n_bytes (N.of_nat n)) <= 8); [|lia]. apply no_lead_length; [exact H2|rewrite H1; exact Hn].
Qed.
Lemma der_len_short n : length (der_len n) <= 10 \/ (2 ^ 64 <= N.of_nat n)%N.
Proof.
  destruct (N.lt_ge_cases (N.of_nat n) (2 ^ 64)) as [H|H]; [left|auto]. unfold der_len.
  destruct (n <? 128); [cbn; lia|]. cbn zeta. cbn [length].
  destruct (n_bytes_ok (N.of_nat n)) as (H1 & H2 & _).
  assert (Hl : length (n_bytes (N.of_nat n)) <= 8); [|lia]. apply no_lead_length; [exact H2|rewrite H1; exact H].
Qed.
Lemma der_uint_ok b : (N.of_nat (length b) < 2 ^ 40)%N ->
  der_nat (from_be b) (der_uint (from_be b)) /\ length (der_uint (from_be b)) <= length b + 14.
Proof.
  intros Hb. unfold der_uint. cbn zeta.
  assert (Hm : exists m, to_bytes_be (from_be b) = m /\ m <> [] /\ from_be m = from_be b
     /\ length m <= S (length b) /\ (m = [x00] \/ no_lead_zero m)).
  { exists (to_bytes_be (from_be b)). split; [reflexivity|]. unfold to_bytes_be.
    destruct (from_be b =? 0)%N eqn:E.
    - apply N.eqb_eq in E. rewrite E. split; [discriminate|]. split; [reflexivity|]. split; [cbn; lia|auto].
    - apply N.eqb_neq in E. destruct (n_bytes_ok (from_be b)) as (H1 & H2 & H3). split; [auto|]. split; [exact H1|].
      split; [|auto]. apply le_S. apply no_lead_length; [exact H2|]. rewrite H1. apply from_be_bound. }
  destruct Hm as (m & -> & Hne & Hv & Hl & Hz).
  set (c := match m with x :: _ => if (128 <=? b2n x)%N then x00 :: m else m | [] => m end).
  assert (Hc : c <> [] /\ from_be c = from_be b /\ length c <= S (S (length b)) /\ (b2n (hd x00 c) < 128)%N
    /\ (forall x y t, c = x :: y :: t -> x = x00 -> (128 <= b2n y)%N)).
  { subst c. destruct m as [|x m]; [congruence|]. destruct (128 <=? b2n x)%N eqn:E.
    - split; [discriminate|]. split; [rewrite from_be_cons; change (b2n x00) with 0%N; rewrite <- Hv; lia|].
      cbn [length] in *. split; [lia|]. split; [cbn; lia|]. intros x' y t [= <- <- _] _. apply N.leb_le, E.
    - split; [discriminate|]. split; [exact Hv|]. split; [cbn [length] in *; lia|]. split; [cbn [hd]; lia|].
      intros x' y t [= -> ->] ->. destruct Hz as [Hz|Hz]; [discriminate|]. cbn [no_lead_zero] in Hz.
      exfalso. apply Hz. reflexivity. }
  destruct Hc as (H1 & H2 & H3 & H4 & H5).
  change (2 ^ 40)%N with 1099511627776%N in Hb.
  split.
  - exists c. rewrite magnitude_from_be. split; [exact H1|]. split; [exact H2|]. split; [exact H4|]. split; [exact H5|].
    exists (der_len (length c)). split; [|reflexivity]. apply der_len_ok. change (2 ^ 64)%N with 18446744073709551616%N. lia.
  - cbn [length]. rewrite app_length. destruct (der_len_short (length c)) as [X|X]; [lia|].
    change (2 ^ 64)%N with 18446744073709551616%N in X. lia.
Qed.

Lemma rsa_der_ok r dp dq : 
  Forall (fun b => (N.of_nat (length b) < 2 ^ 33)%N) [rp_n r; rp_e r; rp_d r; rp_p r; rp_q r; dp; dq; rp_coefficient r] ->
  rp_exp r = Some dp -> rp_exq r = Some dq ->
  exists der, rsa_der r = Ok der
    /\ rsa_private_der (magnitude (rp_n r)) (magnitude (rp_e r)) (magnitude (rp_d r)) (magnitude (rp_p r))
         (magnitude (rp_q r)) (magnitude dp) (magnitude dq) (magnitude (rp_coefficient r)) der.
Proof.
  intros Hf H1 H2. unfold rsa_der. rewrite H1, H2. cbn [unwrap bind]. eexists. split; [reflexivity|].
  rewrite !magnitude_from_be. change (2 ^ 33)%N with 8589934592%N in Hf.
  repeat match goal with H : Forall _ (_ :: _) |- _ => apply Forall_cons_iff in H; destruct H as [?F H] end.
  assert (D : forall b, (N.of_nat (length b) < 8589934592)%N -> der_nat (from_be b) (der_uint (from_be b))
     /\ (N.of_nat (length (der_uint (from_be b))) < 8589934606)%N).
  { intros b Hb. destruct (der_uint_ok b) as [A B]; [change (2 ^ 40)%N with 1099511627776%N; lia|]. split; [exact A|lia]. }
  destruct (D _ F) as [A1 B1], (D _ F0) as [A2 B2], (D _ F1) as [A3 B3], (D _ F2) as [A4 B4], (D _ F3) as [A5 B5],
    (D _ F4) as [A6 B6], (D _ F5) as [A7 B7], (D _ F6) as [A8 B8].
  destruct (D [] ltac:(cbn; lia)) as [A0 B0]. change (from_be []) with 0%N in A0, B0.
  exists (der_uint 0). do 8 eexists. do 9 (split; [eassumption|]).
  unfold der_seq. cbn [map concat]. rewrite app_nil_r. cbn zeta.
  eexists. split; [|reflexivity]. apply der_len_ok. rewrite !app_length. change (2 ^ 64)%N with 18446744073709551616%N. lia.
Qed.

(** ** C75 *)
Definition same_handle (a b : priv_kind) : Prop :=
  match a, b with
  | SkEcdsaSk h, SkEcdsaSk h' | SkEd25519Sk h, SkEd25519Sk h' => hw_handle h = hw_handle h'
  | SkEcdsaSk _, _ | SkEd25519Sk _, _ => False
  | _, _ => a = b
  end.
Lemma same_handle_refl a : same_handle a a.
Proof. destruct a; reflexivity. Qed.
Lemma configured_inv k k' : configured k k' -> sk_pub k' = sk_pub k /\ same_handle (sk_kind k) (sk_kind k').
Proof.
  induction 1 as [|pin k' _ [IH1 IH2]|path k' _ [IH1 IH2]]; [split; [reflexivity|apply same_handle_refl]|..].
  - unfold set_pin. destruct (sk_kind k') as [r|c key|h|key|h] eqn:E; try solve [rewrite E; auto];
      (split; [exact IH1|]); cbn; destruct (sk_kind k); cbn in *; try contradiction; try discriminate; exact IH2.
  - unfold set_device_path. destruct (sk_kind k') as [r|c key|h|key|h] eqn:E; try solve [rewrite E; auto];
      (split; [exact IH1|]); cbn; destruct (sk_kind k); cbn in *; try contradiction; try discriminate; exact IH2.
Qed.

Lemma format_ecdsa k c key app verify len m der : pk_kind k = PkEcdsa c key app -> known (pk_type k) ->
  len < 100 ->
  ecdsa_signs verify len key m der ->
  exists payload r s b1 b2 fr fs, 
    format_signature_for_ssh k der = Ok (Some (field (kt_name (pk_type k)) ++ field payload))
    /\ field_ok payload /\ payload = b1 ++ b2 ++ [] /\ mpint_field r b1 /\ mpint_field s b2
    /\ fixed_bytes len (magnitude r) fr /\ fixed_bytes len (magnitude s) fs /\ verify key m (fr ++ fs) = true.
Proof.
  intros Hkk Hk Hlen (r & s & fr & fs & Hr & Hs & Fr & Fs & (dr & ds & Hdr & Hds & Ht & ->) & Hv).
  apply der_integer_content in Hdr; [|lia]. apply der_integer_content in Hds; [|lia].
  destruct Hdr as (cr & mr & -> & L1 & N1 & E1 & Z1 & V1), Hds as (cs & ms & -> & L2 & N2 & E2 & Z2 & V2).
  assert (F1 : fits cr) by (unfold fits; change (2 ^ 32)%N with 4294967296%N; lia).
  assert (F2 : fits cs) by (unfold fits; change (2 ^ 32)%N with 4294967296%N; lia).
  exists (enc_bytes cr ++ enc_bytes cs), mr, ms, (enc_bytes cr), (enc_bytes cs), fr, fs.
  assert (FP : fits (enc_bytes cr ++ enc_bytes cs)).
  { unfold fits, enc_bytes. rewrite !app_length, !to_be_length. change (2 ^ 32)%N with 4294967296%N. lia. }
  rewrite !mpint_num, !magnitude_from_be, app_nil_r, field_ok_fits, !field_enc. unfold num_ok, enc_num. rewrite <- E1, <- E2.
  assert (V1' : from_be mr = r) by lia. assert (V2' : from_be ms = s) by lia. rewrite V1', V2'.
  split; [|auto 12].
  unfold format_signature_for_ssh, signature_convert_asn1_ecdsa_to_ssh. rewrite Hkk.
  change ([x30; n2b (N.of_nat (length (([x02; n2b (N.of_nat (length cr))] ++ cr) ++ [x02; n2b (N.of_nat (length cs))] ++ cs)))]
    ++ ([x02; n2b (N.of_nat (length cr))] ++ cr) ++ [x02; n2b (N.of_nat (length cs))] ++ cs) with
    (x30 :: n2b (N.of_nat (length (([x02; n2b (N.of_nat (length cr))] ++ cr) ++ [x02; n2b (N.of_nat (length cs))] ++ cs)))
     :: x02 :: n2b (N.of_nat (length cr)) :: cr ++ x02 :: n2b (N.of_nat (length cs)) :: cs).
  rewrite der_split_ok by (auto; lia). cbn [bind].
  rewrite !len32_small by assumption.
  rewrite (write_string_enc (kt_name (pk_type k)) writer_new) by (apply known_fits, Hk).
  replace (((to_be 4 (N.of_nat (length cr)) ++ cr) ++ to_be 4 (N.of_nat (length cs))) ++ cs) with (enc_bytes cr ++ enc_bytes cs)
    by (unfold enc_bytes; rewrite <- !app_assoc; reflexivity).
  rewrite write_bytes_enc by exact FP. reflexivity.
Qed.
Lemma format_raw k key app sg : pk_kind k = PkEd25519 key app -> known (pk_type k) ->
  format_signature_for_ssh k sg = Ok (Some (field (kt_name (pk_type k)) ++ field sg)).
Proof.
  intros Hkk Hk. unfold format_signature_for_ssh. rewrite Hkk. unfold write_string. rewrite !write_bytes_field. reflexivity.
Qed.
Lemma hw_blob_shape pub a f blob : format_signature_for_ssh pub (as_signature a) = Ok (Some f) ->
  hw_blob pub a = Ok (Some blob) -> blob = f ++ as_flags a :: be32 (as_counter a) ++ [].
Proof.
  intros Hf. unfold hw_blob. rewrite Hf. cbn [bind]. intros H. apply ok_inj in H. injection H as <-.
  rewrite app_nil_r, be32_to_be, <- app_assoc. reflexivity.
Qed.

(** The hardware case: whatever the backend, the answer of the device is wrapped correctly. *)
Lemma hw_accepted C k app a m blob c key :
  known (pk_type k) ->
  (pk_kind k = PkEd25519 key (Some app) /\ kt_name (pk_type k) = s2b "sk-ssh-ed25519@openssh.com"
   \/ pk_kind k = PkEcdsa c key (Some app) /\ kt_name (pk_type k) = s2b "sk-ecdsa-sha2-nistp256@openssh.com") ->
  device_answers C k app (c_sha256 C m) a -> hw_blob k a = Ok (Some blob) -> accepted C k m blob.
Proof.
  intros Hk Hkind [Hc Hd] Hb. unfold accepted. destruct Hkind as [[Hkk Hn]|[Hkk Hn]]; rewrite Hkk in *.
  - destruct Hd as [Hf Hv]. rewrite (hw_blob_shape k a _ blob (format_raw k _ _ _ Hkk Hk) Hb).
    exists (kt_name (pk_type k)), (as_signature a), (as_flags a :: be32 (as_counter a) ++ []), (pk_type k).
    rewrite <- app_assoc. split; [reflexivity|]. split; [exact Hf|]. split; [apply known_name_ok, Hk|]. split; [reflexivity|].
    eexists. split; [rewrite Hn; constructor|]. split; [|exact Hv]. unfold signed_message. eauto 8.
  - destruct (format_ecdsa k c key (Some app) _ 32 _ _ Hkk Hk ltac:(lia) Hd) as (pl & r & s & b1 & b2 & fr & fs & H1 & H2 & H3 & H4 & H5 & H6 & H7 & H8).
    rewrite (hw_blob_shape k a _ blob H1 Hb).
    exists (kt_name (pk_type k)), pl, (as_flags a :: be32 (as_counter a) ++ []), (pk_type k).
    rewrite <- app_assoc. split; [reflexivity|]. split; [exact H2|]. split; [apply known_name_ok, Hk|]. split; [reflexivity|].
    exists (c_p256_verify C), 32, r, s, b1, b2, [], fr, fs. eexists. split; [rewrite Hn; constructor|].
    do 5 (split; [assumption|]). split; [|exact H8]. unfold signed_message. eauto 8.
Qed.

Lemma crt_length d p v : crt_value true d p (Some v) -> length v <= S (length p).
Proof.
  intros (H1 & v' & E & H2 & H3). injection E as <-. destruct H3 as [->|[_ H3]]; [cbn; lia|]. apply le_S.
  apply no_lead_length; [apply shortest_iff, H3|]. rewrite !magnitude_from_be in *. rewrite H2.
  pose proof (from_be_bound p). pose proof (N.mod_lt (from_be d) (from_be p - 1)). lia.
Qed.

Theorem C75_signatures_verify : forall (F : features) (C : crypto) (K : keyops) (k k' : privkey) (b m blob : bytes),
  priv_data F k b -> configured k k' -> name_fits (sk_pub k) ->
  software_signs C K -> (forall h, hardware k h -> device_signs C K (sk_pub k) (hw_handle h)) ->
  sk_sign F C K k' m = Ok (Some blob) ->
  verify_signature C blob m (sk_pub k) = Ok blob.
Proof.
  intros F C K k k' b m blob Hp Hcf Hn (L1 & L2 & L3 & L4) Hd Hs. apply C28_accepts_exactly. split; [reflexivity|].
  apply priv_data_iff in Hp. destruct Hp as [(P1 & P2 & P3 & P4 & P5 & P6) _].
  apply configured_inv in Hcf. destruct Hcf as [Ep Hc]. rewrite <- P3 in P1. unfold sk_sign in Hs. rewrite Ep in Hs. unfold name_fits in Hn.
  destruct (sk_kind k) as [r|c key|h|key|h] eqn:Ek; destruct (sk_kind k') as [r'|c' key'|h'|key'|h'] eqn:Ek';
    cbn [same_handle] in Hc; try contradiction; try discriminate;
    destruct (pk_kind (sk_pub k)) as [pe pn|pc pb [app|]|pb [app|]] eqn:Epk; cbn [sec_ok] in P5; try contradiction.
  - (* RSA *)
    injection Hc as <-. destruct P5 as (Hfam & <- & <- & Q1 & Q2 & Q3 & Q4 & Q5 & Q6 & Hx).
    destruct (f_rsa F) eqn:Er; [|discriminate]. apply crt_exponents_iff in Hx. rewrite Er in Hx. destruct Hx as [X1 X2].
    assert (X1' := X1). assert (X2' := X2). destruct X1' as (_ & dp & Edp & _), X2' as (_ & dq & Edq & _).
    rewrite Edp in X1. rewrite Edq in X2. apply crt_length in X1, X2.
    assert (FL : forall x, num_ok x -> (N.of_nat (length x) < 2 ^ 32)%N).
    { intros x [Hx _]. unfold fits in Hx. unfold mpint_bytes in Hx. destruct x as [|y x]; [cbn; lia|].
      destruct (128 <=? b2n y)%N; cbn [length] in *; lia. }
    change (2 ^ 32)%N with 4294967296%N in FL.
    destruct (rsa_der_ok r dp dq) as (der & Hder & Hok); [|exact Edp|exact Edq|].
    { change (2 ^ 33)%N with 8589934592%N. repeat (apply Forall_cons; [|]); try constructor;
        repeat match goal with H : num_ok _ |- _ => apply FL in H end; lia. }
    rewrite Hder in Hs. cbn [bind] in Hs. destruct (k_rsa_sign K der m) as [sg|] eqn:Esg; [|discriminate].
    destruct (L4 _ _ _ _ _ _ _ _ _ _ _ Hok Esg) as [Hf Hv].
    unfold format_signature_for_ssh in Hs. rewrite Epk in Hs. apply ok_inj in Hs. injection Hs as <-.
    unfold write_string. rewrite !write_bytes_field. unfold accepted. rewrite Epk.
    exists (s2b "rsa-sha2-512"), sg, []. eexists. cbn [writer_new]. rewrite app_nil_r. split; [reflexivity|].
    split; [exact Hf|]. split; [reflexivity|]. split.
    + cbn [kt_k]. rewrite P3. destruct P2 as [P2|[P2|P2]]; [auto|rewrite P2 in Hfam; discriminate..].
    + exists RsaSha512. split; [constructor|]. apply Hv; reflexivity.
  - (* ECDSA *)
    injection Hc as <- <-. destruct P5 as (_ & <- & _).
    assert (A : exists verify len, ecdsa_label C (kt_name (pk_type (sk_pub k))) verify len /\ len < 100
       /\ exists der, ecdsa_signs verify len pb m der /\ format_signature_for_ssh (sk_pub k) der = Ok (Some blob)).
    { destruct (c_kind c) eqn:Ec; [| |discriminate].
      - destruct Hn as [[_ Hn]|[[Hn _]|Hn]]; [|congruence..]. rewrite Hn. exists (c_p256_verify C), 32. split; [constructor|]. split; [lia|].
        apply bind_ok in Hs. destruct Hs as (b0 & _ & Hs). apply bind_ok in Hs. destruct Hs as (key' & _ & Hs).
        destruct (k_ecdsa_sign K EcP256 key' pb m) as [der|] eqn:Ed; [|discriminate]. exists der. split; [eapply L2; exact Ed|exact Hs].
      - destruct Hn as [[Hn _]|[[_ Hn]|Hn]]; [congruence| |congruence]. rewrite Hn. exists (c_p384_verify C), 48. split; [constructor|]. split; [lia|].
        apply bind_ok in Hs. destruct Hs as (b0 & _ & Hs). apply bind_ok in Hs. destruct Hs as (key' & _ & Hs).
        destruct (k_ecdsa_sign K EcP384 key' pb m) as [der|] eqn:Ed; [|discriminate]. exists der. split; [eapply L3; exact Ed|exact Hs]. }
    destruct A as (verify & len & Hl & Hlen & der & Hsg & Hf).
    destruct (format_ecdsa (sk_pub k) c pb None _ len _ _ Epk P1 Hlen Hsg) as (pl & r & s & b1 & b2 & fr & fs & H1 & H2 & H3 & H4 & H5 & H6 & H7 & H8).
    rewrite H1 in Hf. apply ok_inj in Hf. injection Hf as <-. unfold accepted. rewrite Epk.
    exists (kt_name (pk_type (sk_pub k))), pl, [], (pk_type (sk_pub k)). rewrite app_nil_r. split; [reflexivity|].
    split; [exact H2|]. split; [apply known_name_ok, P1|]. split; [reflexivity|].
    exists verify, len, r, s, b1, b2, [], fr, fs, m. do 6 (split; [assumption|]). split; [reflexivity|exact H8].
  - (* ECDSA hardware key *)
    assert (Hdev : device_signs C K (sk_pub k) (hw_handle h)) by (apply Hd; left; exact Ek). destruct Hdev as [D1 D2].
    unfold hw_sign, hid_sign, moz_sign, pub_app in Hs. rewrite Ep, Epk, <- Hc in Hs. destruct (f_fido F); [discriminate|..].
    + destruct (k_hid K app m _ _ _) as [a|] eqn:Ea; [|discriminate]. apply D1 in Ea.
      eapply hw_accepted; [exact P1|right; split; [exact Epk|exact Hn]|exact Ea|exact Hs].
    + cbn [unwrap bind] in Hs. destruct (k_moz K app _ _ _) as [[a|]|e|] eqn:Ea; cbn [bind] in Hs; try discriminate. apply D2 in Ea.
      eapply hw_accepted; [exact P1|right; split; [exact Epk|exact Hn]|exact Ea|exact Hs].
  - (* Ed25519 *)
    injection Hc as <-. apply bind_ok in Hs. destruct Hs as (seed & _ & Hs).
    destruct (k_ed25519_sign K seed pb m) as [sg|] eqn:Esg; [|discriminate]. apply L1 in Esg. destruct Esg as [Hf Hv].
    rewrite (format_raw _ _ _ _ Epk P1) in Hs. apply ok_inj in Hs. injection Hs as <-. unfold accepted. rewrite Epk.
    exists (kt_name (pk_type (sk_pub k))), sg, [], (pk_type (sk_pub k)). rewrite app_nil_r. split; [reflexivity|].
    split; [exact Hf|]. split; [apply known_name_ok, P1|]. split; [reflexivity|]. exists m.
    split; [|split; [reflexivity|exact Hv]]. destruct P5 as [P5 _]. rewrite P3 in P1 |- *.
    clear -P1 P2 P5. revert P2 P5. pattern (sk_type k). revert P1. apply known_forall.
    unfold key_types. repeat (apply Forall_cons; [cbn [kind_ok kt_k kt_is_sk kt_name]; intros [A|[A|A]]; try discriminate A; intros B; try constructor|]).
    all: try (destruct B as (B1 & _ & B2); first [discriminate B1|destruct B2; discriminate|contradiction B2|discriminate B2]).
    constructor.
  - (* Ed25519 hardware key *)
    assert (Hdev : device_signs C K (sk_pub k) (hw_handle h)) by (apply Hd; right; exact Ek). destruct Hdev as [D1 D2].
    unfold hw_sign, hid_sign, moz_sign, pub_app in Hs. rewrite Ep, Epk, <- Hc in Hs. destruct (f_fido F); [discriminate|..].
    + destruct (k_hid K app m _ _ _) as [a|] eqn:Ea; [|discriminate]. apply D1 in Ea.
      eapply hw_accepted; [exact P1|left; split; [exact Epk|exact Hn]|exact Ea|exact Hs].
    + cbn [unwrap bind] in Hs. destruct (k_moz K app _ _ _) as [[a|]|e|] eqn:Ea; cbn [bind] in Hs; try discriminate. apply D2 in Ea.
      eapply hw_accepted; [exact P1|left; split; [exact Epk|exact Hn]|exact Ea|exact Hs].
      Unshelve. all: exact (mkCurve Nistp256 []).
Qed.
Print Assumptions C75_signatures_verify.

(** The keys meant are those read from files. *)
Theorem C75_read_keys : forall (F : features) (C : crypto) (K : keyops) (text m blob : bytes) (pass : option bytes) (k k' : privkey),
  sk_from_string F K text pass = Ok k -> configured k k' -> name_fits (sk_pub k) ->
  software_signs C K -> (forall h, hardware k h -> device_signs C K (sk_pub k) (hw_handle h)) ->
  sk_sign F C K k' m = Ok (Some blob) ->
  verify_signature C blob m (sk_pub k) = Ok blob.
Proof.
  intros F C K text m blob pass k k' H. apply C55_accepted_files in H.
  destruct H as (data & _ & (ci & kdf & op & post & pub & se & plain & pad & tl & _ & _ & _ & _ & _ & _ & _ & _ & _ & _ & (_ & b & Hb & _) & _)).
  apply (C75_signatures_verify F C K k k' b). exact Hb.
Qed.
Print Assumptions C75_read_keys.

(** Toy primitives that meet the assumptions: each accepts one signature. *)
Definition der12 : bytes := [x30; x06; x02; x01; x01; x02; x01; x02].
Definition der34 : bytes := [x30; x06; x02; x01; x03; x02; x01; x04].
Definition fixed (len : nat) (b : byte) : bytes := repeat x00 (len - 1) ++ [b].
Definition toy_crypto : crypto :=
  mkCrypto (fun _ => repeat x0a 32) (fun _ => repeat x0b 48) (fun _ => repeat x0c 64)
    (fun _ _ s => bytes_eqb s (fixed 32 x01 ++ fixed 32 x02))
    (fun _ _ s => bytes_eqb s (fixed 48 x03 ++ fixed 48 x04))
    (fun _ _ s => bytes_eqb s (repeat x11 64))
    (fun _ _ _ _ s => bytes_eqb s [x55]).
Definition toy_ops : keyops :=
  mkKeyops (fun _ _ _ => None) (fun _ _ _ => None) (fun _ _ => Some [x55])
    (fun a _ _ _ => Some (match a with EcP256 => der12 | EcP384 => der34 end))
    (fun _ _ _ => Some (repeat x11 64)) (fun s => s)
    (fun _ _ _ pin _ => match pin with Some _ => Some (mkAssertion (repeat x11 64) x01 5) | None => None end)
    (fun _ _ _ _ => Ok None).
Lemma der12_ok : der_signature 1 2 der12.
Proof.
  exists [x02; x01; x01], [x02; x01; x02].
  split; [exists [x01]; repeat split; cbn; try lia; try discriminate; intros ? ? ? H; discriminate|].
  split; [exists [x02]; repeat split; cbn; try lia; try discriminate; intros ? ? ? H; discriminate|].
  split; [cbn; lia|reflexivity].
Qed.
Lemma der34_ok : der_signature 3 4 der34.
Proof.
  exists [x02; x01; x03], [x02; x01; x04].
  split; [exists [x03]; repeat split; cbn; try lia; try discriminate; intros ? ? ? H; discriminate|].
  split; [exists [x04]; repeat split; cbn; try lia; try discriminate; intros ? ? ? H; discriminate|].
  split; [cbn; lia|reflexivity].
Qed.
Lemma toy_signs : software_signs toy_crypto toy_ops.
Proof.
  unfold software_signs, toy_ops. cbn [k_ed25519_sign k_ecdsa_sign k_rsa_sign].
  split; [intros ? ? ? ? [= <-]; split; [unfold field_ok, size, u32_max; vm_compute; discriminate|reflexivity]|].
  split; [intros ? ? ? ? [= <-]; exists 1%N, 2%N, (fixed 32 x01), (fixed 32 x02)|].
  { repeat (split; [reflexivity|]). split; [split; reflexivity|]. split; [split; reflexivity|]. split; [apply der12_ok|reflexivity]. }
  split; [intros ? ? ? ? [= <-]; exists 3%N, 4%N, (fixed 48 x03), (fixed 48 x04)|].
  { repeat (split; [reflexivity|]). split; [split; reflexivity|]. split; [split; reflexivity|]. split; [apply der34_ok|reflexivity]. }
  intros ? ? ? ? ? ? ? ? ? ? ? _ [= <-]. split; [unfold field_ok, size, u32_max; vm_compute; discriminate|reflexivity].
Qed.
Lemma toy_device pk b app h : pk_kind pk = PkEd25519 b app -> device_signs toy_crypto toy_ops pk h.
Proof.
  intros Hk. split; cbn [toy_ops k_hid k_moz]; [|intros; discriminate].
  intros ap ch [pin|] path a H; [|discriminate]. injection H as <-. split; [vm_compute; discriminate|].
  rewrite Hk. split; [unfold field_ok, size, u32_max; vm_compute; discriminate|reflexivity].
Qed.

Definition hid_features : features := mkFeatures true true Ctap2Hid.
Lemma storable_data F k : storable F k -> priv_data F k (enc_priv k).
Proof. intros H. apply storable_iff in H. apply priv_data_iff. split; [apply H|reflexivity]. Qed.
Lemma ex_hw_storable_hid : storable hid_features ex_hw.
Proof.
  apply enc_storable; [|repeat split; small|reflexivity|vm_compute; lia|vm_compute; lia].
  split; [unfold known, key_types; cbn [In]; tauto|]. split; [right; right; reflexivity|].
  repeat split; small.
Qed.
Example C75_case :
  priv_data ex_features ex_rsa (enc_priv ex_rsa) /\ name_fits (sk_pub ex_rsa)
  /\ priv_data hid_features ex_hw (enc_priv ex_hw) /\ name_fits (sk_pub ex_hw)
  /\ configured ex_hw (set_pin (s2b "1234") ex_hw)
  /\ software_signs toy_crypto toy_ops
  /\ (forall h, hardware ex_hw h -> device_signs toy_crypto toy_ops (sk_pub ex_hw) (hw_handle h))
  /\ sk_sign hid_features toy_crypto toy_ops ex_hw (s2b "msg") = Ok None
  /\ exists blob, sk_sign hid_features toy_crypto toy_ops (set_pin (s2b "1234") ex_hw) (s2b "msg") = Ok (Some blob)
       /\ verify_signature toy_crypto blob (s2b "msg") (sk_pub ex_hw) = Ok blob.
Proof.
  split; [apply storable_data, ex_rsa_storable|]. split; [exact I|].
  split; [apply storable_data, ex_hw_storable_hid|]. split; [reflexivity|].
  split; [apply CfgPin, CfgSame|]. split; [apply toy_signs|].
  split; [intros h _; eapply toy_device; reflexivity|]. split; [reflexivity|].
  eexists. split; [vm_compute; reflexivity|]. vm_compute. reflexivity.
Qed.

(** Without the condition on the name: a P-384 key under the P-256 name is accepted and signs,
    but its signatures do not verify. *)
Definition p256_type : key_type :=
  mkKeyType (s2b "ecdsa-sha2-nistp256") (s2b "ECDSA") false false KEcdsa (s2b "ecdsa-sha2-nistp256").
Definition ex_mixed : privkey :=
  mkPrivKey p256_type (SkEcdsa (mkCurve Nistp384 (s2b "nistp384")) [x01; x02])
    (mkPubKey p256_type (PkEcdsa (mkCurve Nistp384 (s2b "nistp384")) [x04; x05] None) None) 3 (s2b "mixed").
Theorem C75_every_accepted_key_refuted : exists (F : features) (C : crypto) (K : keyops) (text m blob : bytes) (k : privkey),
  software_signs C K /\ sk_from_string F K text None = Ok k /\ sk_sign F C K k m = Ok (Some blob)
  /\ verify_signature C blob m (sk_pub k) = Err EInvalidSignature.
Proof.
  destruct (sk_write ex_mixed) as [text|e|] eqn:E; [|vm_compute in E; discriminate..].
  exists ex_features, toy_crypto, toy_ops, text, (s2b "msg"). eexists. exists ex_mixed. split; [apply toy_signs|].
  vm_compute in E. injection E as <-. split; [vm_compute; reflexivity|]. split; [vm_compute; reflexivity|]. vm_compute. reflexivity.
Qed.
Print Assumptions C75_every_accepted_key_refuted.

(** ** C76 *)
Theorem C76_new_key : forall (F : features) (K : keyops) (comment seed magic : bytes),
  length seed = 32 -> length magic = 4 -> length (k_ed25519_public K seed) = 32 ->
  utf8_text comment -> (size comment + 200 <= u32_max)%N ->
  exists k, sk_new K KEd25519 comment (Some seed) (Some magic) = Ok k
    /\ storable F k /\ kept k k
    /\ kt_name (sk_type k) = s2b "ssh-ed25519" /\ sk_kind k = SkEd25519 seed
    /\ pk_kind (sk_pub k) = PkEd25519 (k_ed25519_public K seed) None /\ sk_comment k = comment.
Proof.
  intros F K comment seed magic Hs Hm Hp Hu Hc. unfold sk_new.
  assert (E : kt_from_name (s2b "ssh-ed25519") = Ok ed_type) by reflexivity. rewrite E. cbn [bind unwrap].
  eexists. split; [reflexivity|]. unfold size, u32_max in Hc.
  assert (Fc : fits comment) by (unfold fits; change (2 ^ 32)%N with 4294967296%N; lia).
  assert (Fs : fits seed) by (unfold fits; rewrite Hs; reflexivity).
  assert (Fp : fits (k_ed25519_public K seed)) by (unfold fits; rewrite Hp; reflexivity).
  split; [|split; [repeat split|repeat split]].
  set (k := mkPrivKey ed_type (SkEd25519 seed) (mkPubKey ed_type (PkEd25519 (k_ed25519_public K seed) None) None) (from_be magic) comment).
  exists (enc_key (sk_pub k)), (enc_section k). rewrite pub_blob_iff, section_of_iff, !app_nil_r, field_ok_fits.
  assert (Kok : kind_ok ed_type (PkEd25519 (k_ed25519_public K seed) None)) by (repeat split; exact Fp).
  split; [split; [exact Kok|reflexivity]|]. split.
  { unfold fits, enc_key, k. cbn [sk_pub pk_type pk_kind enc_kind enc_app]. unfold enc_bytes. rewrite !app_length, !to_be_length, Hp. vm_compute. reflexivity. }
  split.
  - split; [unfold k; cbn [sk_magic]; pose proof (from_be_bound magic) as B; rewrite Hm in B; exact B|].
    split; [|reflexivity]. split; [unfold known, key_types; cbn [In]; tauto|]. split; [right; right; reflexivity|].
    split; [reflexivity|]. split; [reflexivity|]. split; [split; [exact Kok|exact Fs]|].
    apply str_ok_iff. split; [exact Hu|]. apply field_ok_fits, Fc.
  - unfold size, enc_section, enc_priv, k. cbn [sk_magic sk_pub sk_type sk_kind sk_comment pk_type pk_kind enc_sec enc_kind enc_app].
    unfold enc_bytes. rewrite !app_length, !to_be_length, Hp, Hs. cbn [length ed_type kt_name s2b]. unfold u32_max.
    change (length (s2b "ssh-ed25519")) with 11. cbn. lia.
Qed.
Print Assumptions C76_new_key.

Theorem C76_new_key_text : forall (F : features) (K : keyops) (pass : option bytes) (comment seed magic : bytes) (k : privkey),
  length seed = 32 -> length magic = 4 -> length (k_ed25519_public K seed) = 32 ->
  utf8_text comment -> (size comment + 200 <= u32_max)%N ->
  sk_new K KEd25519 comment (Some seed) (Some magic) = Ok k ->
  exists text, sk_write k = Ok text /\ sk_from_string F K text pass = Ok k.
Proof.
  intros F K pass comment seed magic k H1 H2 H3 H4 H5 H.
  destruct (C76_new_key F K comment seed magic H1 H2 H3 H4 H5) as (k' & Hk & Hs & Hkk & _).
  rewrite H in Hk. apply ok_inj in Hk. subst k'. eapply C53_text_round_trip; eassumption.
Qed.
Print Assumptions C76_new_key_text.

(** Any other kind is refused, and nothing else fails but the random generator. *)
Theorem C76_other_kinds : forall (K : keyops) (kind : kt_kind) (comment : bytes) (seed magic : option bytes),
  kind <> KEd25519 ->
  sk_new K kind comment seed magic = Err EUnsupported \/ sk_new K kind comment seed magic = Err EKeyTypeMismatch.
Proof. intros K kind comment seed magic H. destruct kind; cbn; auto. congruence. Qed.
Print Assumptions C76_other_kinds.

(** OpenSSH stores an Ed25519 secret as seed and public key (64 bytes); a generated key is
    written with the bare seed. *)
Theorem C76_openssh_layout_refuted : exists (K : keyops) (comment seed magic : bytes) (k : privkey),
  length seed = 32 /\ length (k_ed25519_public K seed) = 32
  /\ sk_new K KEd25519 comment (Some seed) (Some magic) = Ok k
  /\ ~ exists pub, pk_kind (sk_pub k) = PkEd25519 pub None /\ sk_kind k = SkEd25519 (seed ++ pub).
Proof.
  exists toy_ops, (s2b "me"), (repeat x21 32), [x01; x02; x03; x04]. eexists. split; [reflexivity|]. split; [reflexivity|].
  split; [reflexivity|]. intros (pub & E & H). cbn [sk_pub pk_kind] in E. injection E as <-.
  apply (f_equal (fun k => match k with SkEd25519 x => length x | _ => 0 end)) in H. vm_compute in H. discriminate.
Qed.
Print Assumptions C76_openssh_layout_refuted.

Example C76_case : exists k, sk_new toy_ops KEd25519 (s2b "me@host") (Some (repeat x21 32)) (Some [x00; x00; x01; x02]) = Ok k
  /\ sk_magic k = 258%N /\ storable ex_features k.
Proof.
  destruct (C76_new_key ex_features toy_ops (s2b "me@host") (repeat x21 32) [x00; x00; x01; x02]) as (k & H1 & H2 & _);
    [reflexivity|reflexivity|reflexivity|apply utf8_valid_iff; reflexivity|vm_compute; discriminate|].
  exists k. split; [exact H1|]. split; [|exact H2]. cbn in H1. injection H1 as <-. reflexivity.
Qed.

(** ** C77 *)
Lemma accepted_rsa F k b r : priv_data F k b -> sk_kind k = SkRsa r ->
  exists pe pn, pk_kind (sk_pub k) = PkRsa pe pn /\ rp_e r = pe /\ rp_n r = pn
    /\ (f_rsa F = true -> exists dp dq der, rsa_der r = Ok der
         /\ magnitude dp = (magnitude (rp_d r) mod (magnitude (rp_p r) - 1))%N
         /\ magnitude dq = (magnitude (rp_d r) mod (magnitude (rp_q r) - 1))%N
         /\ rsa_private_der (magnitude (rp_n r)) (magnitude (rp_e r)) (magnitude (rp_d r)) (magnitude (rp_p r))
              (magnitude (rp_q r)) (magnitude dp) (magnitude dq) (magnitude (rp_coefficient r)) der).
Proof.
  intros Hp Ek. apply priv_data_iff in Hp. destruct Hp as [(P1 & P2 & P3 & P4 & P5 & P6) _]. rewrite Ek in P5.
  destruct (pk_kind (sk_pub k)) as [pe pn|pc pb [app|]|pb [app|]] eqn:Epk; cbn [sec_ok] in P5; try contradiction.
  destruct P5 as (Hfam & <- & <- & Q1 & Q2 & Q3 & Q4 & Q5 & Q6 & Hx). exists (rp_e r), (rp_n r). repeat (split; [reflexivity|]).
  intros Er. apply crt_exponents_iff in Hx. rewrite Er in Hx. destruct Hx as [X1 X2].
  assert (X1' := X1). assert (X2' := X2). destruct X1' as (_ & dp & Edp & Vdp & _), X2' as (_ & dq & Edq & Vdq & _).
  rewrite Edp in X1. rewrite Edq in X2. apply crt_length in X1, X2.
  assert (FL : forall x, num_ok x -> (N.of_nat (length x) < 2 ^ 32)%N).
  { intros x [Hx _]. unfold fits in Hx. unfold mpint_bytes in Hx. destruct x as [|y x]; [cbn; lia|].
    destruct (128 <=? b2n y)%N; cbn [length] in *; lia. }
  change (2 ^ 32)%N with 4294967296%N in FL.
  destruct (rsa_der_ok r dp dq) as (der & Hder & Hok); [|exact Edp|exact Edq|exists dp, dq, der; auto].
  change (2 ^ 33)%N with 8589934592%N. repeat (apply Forall_cons; [|]); try constructor;
    repeat match goal with H : num_ok _ |- _ => apply FL in H end; lia.
Qed.

Theorem C77_rsa_signing : forall (F : features) (C : crypto) (K : keyops) (k : privkey) (r : rsa_priv) (b m : bytes),
  priv_data F k b -> sk_kind k = SkRsa r -> f_rsa F = true ->
  let num x := magnitude x in
  exists der,
    rsa_private_der (num (rp_n r)) (num (rp_e r)) (num (rp_d r)) (num (rp_p r)) (num (rp_q r))
      (num (rp_d r) mod (num (rp_p r) - 1)) (num (rp_d r) mod (num (rp_q r) - 1)) (num (rp_coefficient r)) der
    /\ (k_rsa_sign K der m = None -> sk_sign F C K k m = Ok None)
    /\ (forall s, k_rsa_sign K der m = Some s -> sk_sign F C K k m = Ok (Some (field (s2b "rsa-sha2-512") ++ field s))).
Proof.
  intros F C K k r b m Hp Ek Er num. subst num. destruct (accepted_rsa F k b r Hp Ek) as (pe & pn & Epk & _ & _ & H).
  destruct (H Er) as (dp & dq & der & Hd & V1 & V2 & Hok). exists der. rewrite V1, V2 in Hok. split; [exact Hok|].
  unfold sk_sign. rewrite Ek, Er, Hd. cbn [bind]. split; [intros ->; reflexivity|]. intros s ->.
  unfold format_signature_for_ssh. rewrite Epk. unfold write_string. rewrite !write_bytes_field. reflexivity.
Qed.
Print Assumptions C77_rsa_signing.

(** The DER form is determined by the numbers, so the primitive sees one value only. *)
Lemma der_length_fun n b b' : der_length n b -> der_length n b' -> b = b'.
Proof.
  intros H H'. inversion H as [? A|? l A V S L]; inversion H' as [? A'|? l' A' V' S' L']; subst; try lia; [reflexivity|].
  enough (l = l') as -> by reflexivity. apply no_lead_zero_inj; [apply shortest_iff; assumption..|].
  rewrite <- !magnitude_from_be. congruence.
Qed.
Lemma der_element_fun t c b b' : der_element t c b -> der_element t c b' -> b = b'.
Proof. intros (l & H & ->) (l' & H' & ->). rewrite (der_length_fun _ _ _ H H'). reflexivity. Qed.
Lemma der_nat_fun n b b' : der_nat n b -> der_nat n b' -> b = b'.
Proof.
  intros (c & N1 & V1 & T1 & Z1 & E1) (c' & N2 & V2 & T2 & Z2 & E2).
  enough (c = c') as -> by (eapply der_element_fun; eassumption). rewrite magnitude_from_be in V1, V2.
  assert (A : forall x, x <> [] -> (Byte.to_N (hd x00 x) < 128)%N ->
     (forall a y t, x = a :: y :: t -> a = x00 -> (128 <= Byte.to_N y)%N) ->
     x = [x00] \/ no_lead_zero x \/ exists y, x = x00 :: y /\ no_lead_zero y /\ y <> [] /\ (128 <= b2n (hd x00 y))%N).
  { intros [|x [|y t]] Hn Hh Hz; [congruence|..].
    - destruct (Byte.byte_eq_dec x x00) as [->|Hx]; [auto|]. right; left. cbn. intros E. apply Hx.
      apply b2n_inj. rewrite E. reflexivity.
    - destruct (Byte.byte_eq_dec x x00) as [->|Hx].
      + right; right. exists (y :: t). specialize (Hz _ _ _ eq_refl eq_refl). split; [reflexivity|]. unfold b2n. cbn [no_lead_zero hd].
        split; [intros E; unfold b2n in E; lia|]. split; [discriminate|exact Hz].
      + right; left. cbn. intros E. apply Hx. apply b2n_inj. rewrite E. reflexivity. }
  assert (Z : forall y, from_be (x00 :: y) = from_be y) by (intros y; rewrite from_be_cons; change (b2n x00) with 0%N; lia).
  assert (NZ : forall y, no_lead_zero y -> y <> [] -> from_be y <> 0%N).
  { intros [|y t] H1 H2; [congruence|]. cbn in H1. rewrite from_be_cons. assert (0 < 256 ^ N.of_nat (length t))%N by (apply N.neq_0_lt_0, N.pow_nonzero; lia). nia. }
  destruct (A c N1 T1 Z1) as [->|[H|(y & -> & Hy & Hyn & Hyt)]], (A c' N2 T2 Z2) as [->|[H'|(y' & -> & Hy' & Hyn' & Hyt')]];
    rewrite ?Z in V1, V2; try reflexivity.
  - exfalso. apply (NZ c' H' N2). rewrite V2, <- V1. reflexivity.
  - exfalso. apply (NZ y' Hy' Hyn'). rewrite V2, <- V1. reflexivity.
  - exfalso. apply (NZ c H N1). rewrite V1, <- V2. reflexivity.
  - apply no_lead_zero_inj; congruence.
  - exfalso. assert (c = y') as -> by (apply no_lead_zero_inj; congruence). unfold b2n in Hyt'. lia.
  - exfalso. apply (NZ y Hy Hyn). rewrite V1, <- V2. reflexivity.
  - exfalso. assert (y = c') as -> by (apply no_lead_zero_inj; congruence). unfold b2n in Hyt. lia.
  - f_equal. apply no_lead_zero_inj; congruence.
Qed.
Theorem C77_der_unique : forall (n e d p q dp dq qi : N) (a b : bytes),
  rsa_private_der n e d p q dp dq qi a -> rsa_private_der n e d p q dp dq qi b -> a = b.
Proof.
  intros n e d p q dp dq qi a b (a0 & a1 & a2 & a3 & a4 & a5 & a6 & a7 & a8 & A0 & A1 & A2 & A3 & A4 & A5 & A6 & A7 & A8 & A)
    (b0 & b1 & b2 & b3 & b4 & b5 & b6 & b7 & b8 & B0 & B1 & B2 & B3 & B4 & B5 & B6 & B7 & B8 & B).
  repeat match goal with H : der_nat ?n ?x, H' : der_nat ?n ?y |- _ =>
    match x with y => fail 1 | _ => idtac end; assert (x = y) by (eapply der_nat_fun; [exact H|exact H']); subst y end.
  eapply der_element_fun; eassumption.
Qed.
Print Assumptions C77_der_unique.

Theorem C77_rsa_disabled : forall (F : features) (C : crypto) (K : keyops) (k : privkey) (r : rsa_priv) (m : bytes),
  sk_kind k = SkRsa r -> f_rsa F = false -> sk_sign F C K k m = Ok None.
Proof. intros F C K k r m Ek Er. unfold sk_sign. rewrite Ek, Er. reflexivity. Qed.
Print Assumptions C77_rsa_disabled.
Example C77_case : priv_data ex_features ex_rsa (enc_priv ex_rsa) /\ f_rsa ex_features = true
  /\ sk_sign ex_features toy_crypto toy_ops ex_rsa (s2b "m") = Ok (Some (field (s2b "rsa-sha2-512") ++ field [x55])).
Proof. split; [apply storable_data, ex_rsa_storable|]. split; reflexivity. Qed.

(** ** C78 *)
(** For a scalar written as OpenSSH writes it (an mpint), the primitive is handed the shortest
    bytes of the number together with the public point. *)
Theorem C78_scalar : forall (F : features) (C : crypto) (K : keyops) (k : privkey) (c : curve) (key d b m : bytes),
  priv_data F k b -> sk_kind k = SkEcdsa c key -> mpint_field d (field key) -> d <> [] ->
  exists pub, pk_kind (sk_pub k) = PkEcdsa c pub None /\
  match c_kind c with
  | Nistp256 => k_ecdsa_sign K EcP256 d pub m = None -> sk_sign F C K k m = Ok None
  | Nistp384 => k_ecdsa_sign K EcP384 d pub m = None -> sk_sign F C K k m = Ok None
  | Nistp521 => sk_sign F C K k m = Ok None
  end
  /\ forall K' : keyops,
       k_ecdsa_sign K EcP256 d pub m = k_ecdsa_sign K' EcP256 d pub m ->
       k_ecdsa_sign K EcP384 d pub m = k_ecdsa_sign K' EcP384 d pub m ->
       sk_sign F C K k m = sk_sign F C K' k m.
Proof.
  intros F C K k c key d b m Hp Ek Hm Hd. apply priv_data_iff in Hp. destruct Hp as [(P1 & P2 & P3 & P4 & P5 & P6) _]. rewrite Ek in P5.
  destruct (pk_kind (sk_pub k)) as [pe pn|pc pb [app|]|pb [app|]] eqn:Epk; cbn [sec_ok] in P5; try contradiction.
  destruct P5 as (_ & <- & Hk). exists pb. split; [reflexivity|].
  assert (Hkey : exists b0, index key 0 = Ok b0 /\ (if (b2n b0 =? 0)%N then slice_from key 1 else Ok key) = Ok d).
  { apply mpint_num in Hm. destruct Hm as [[Hf Hn] Hm]. rewrite field_enc in Hm. unfold enc_num in Hm.
    rewrite <- (app_nil_r (enc_bytes key)), <- (app_nil_r (enc_bytes (mpint_bytes d))) in Hm.
    apply enc_bytes_inj in Hm; [|assumption..]. destruct Hm as [Hm _]. subst key. unfold mpint_bytes. destruct d as [|y d]; [congruence|]. destruct (128 <=? b2n y)%N eqn:E.
    - exists x00. split; reflexivity.
    - exists y. split; [reflexivity|]. cbn [no_lead_zero] in Hn. apply N.eqb_neq in Hn. rewrite Hn. reflexivity. }
  destruct Hkey as (b0 & H0 & H1). unfold sk_sign. rewrite Ek, Epk.
  destruct (c_kind c); rewrite ?H0; cbn [bind]; rewrite ?H1; cbn [bind]; (split; [|intros K' E1 E2]).
  - intros ->. reflexivity.
  - rewrite E1. reflexivity.
  - intros ->. reflexivity.
  - rewrite E2. reflexivity.
  - reflexivity.
  - reflexivity.
Qed.
Print Assumptions C78_scalar.

(** A primitive that takes scalars of the full length only (as [ring] does) therefore cannot
    sign with a key whose number is short, although the key is valid. *)
Theorem C78_short_scalar : forall (F : features) (C : crypto) (K : keyops) (k : privkey) (c : curve) (key d b m : bytes),
  priv_data F k b -> sk_kind k = SkEcdsa c key -> mpint_field d (field key) -> d <> [] ->
  (forall s pub, length s <> 32 -> k_ecdsa_sign K EcP256 s pub m = None) ->
  (forall s pub, length s <> 48 -> k_ecdsa_sign K EcP384 s pub m = None) ->
  (magnitude d < match c_kind c with Nistp256 => 256 ^ 31 | _ => 256 ^ 47 end)%N ->
  sk_sign F C K k m = Ok None.
Proof.
  intros F C K k c key d b m Hp Ek Hm Hd H1 H2 Hl. pose proof Hm as Hm'.
  destruct (C78_scalar F C K k c key d b m Hp Ek Hm Hd) as (pub & _ & H & _). apply mpint_num in Hm'. destruct Hm' as [[_ Hn] _].
  rewrite magnitude_from_be in Hl. destruct (c_kind c); [| |exact H].
  - apply H, H1. pose proof (no_lead_length d 31 Hn Hl). lia.
  - apply H, H2. pose proof (no_lead_length d 47 Hn Hl). lia.
Qed.
Print Assumptions C78_short_scalar.

Definition strict_ops : keyops :=
  mkKeyops (fun _ _ _ => None) (fun _ _ _ => None) (fun _ _ => Some [x55])
    (fun a s _ _ => match a with
                    | EcP256 => if length s =? 32 then Some der12 else None
                    | EcP384 => if length s =? 48 then Some der34 else None
                    end)
    (fun _ _ _ => Some (repeat x11 64)) (fun s => s) (fun _ _ _ _ _ => None) (fun _ _ _ _ => Ok None).
Definition ex_p256 (key : bytes) : privkey :=
  mkPrivKey p256_type (SkEcdsa (mkCurve Nistp256 (s2b "nistp256")) key)
    (mkPubKey p256_type (PkEcdsa (mkCurve Nistp256 (s2b "nistp256")) (x04 :: repeat x05 64) None) None) 3 (s2b "p256").
Lemma ex_p256_storable key : length key < 40 -> storable ex_features (ex_p256 key).
Proof.
  intros Hl. assert (Kok : kind_ok p256_type (PkEcdsa (mkCurve Nistp256 (s2b "nistp256")) (x04 :: repeat x05 64) None)).
  { split; [reflexivity|]. split; [left; reflexivity|]. split; [small|reflexivity]. }
  apply enc_storable; [|exact Kok|reflexivity|vm_compute; lia|].
  - split; [unfold known, key_types; cbn [In]; tauto|]. split; [right; left; reflexivity|].
    split; [reflexivity|]. split; [reflexivity|]. split; [|repeat split; small].
    split; [exact Kok|]. split; [reflexivity|]. unfold fits. change (2 ^ 32)%N with 4294967296%N. lia.
  - unfold enc_section, enc_priv, ex_p256. cbn [sk_magic sk_pub sk_type sk_kind sk_comment pk_type pk_kind enc_sec enc_kind enc_app].
    unfold enc_bytes. rewrite !app_length, !to_be_length.
    change (length (kt_name p256_type)) with 19. change (length (s2b "p256")) with 4. change (length (c_identifier (mkCurve Nistp256 (s2b "nistp256")))) with 8.
    rewrite (repeat_length x05 64 : length (repeat x05 64) = 64) || cbn [length]. cbn. lia.
Qed.
Example C78_case :
  mpint_field (x81 :: repeat x07 31) (field (x00 :: x81 :: repeat x07 31)) /\ mpint_field (repeat x07 31) (field (repeat x07 31))
  /\ (exists blob, sk_sign ex_features toy_crypto strict_ops (ex_p256 (x00 :: x81 :: repeat x07 31)) (s2b "m") = Ok (Some blob))
  /\ sk_sign ex_features toy_crypto strict_ops (ex_p256 (repeat x07 31)) (s2b "m") = Ok None
  /\ priv_data ex_features (ex_p256 (x00 :: x81 :: repeat x07 31)) (enc_priv (ex_p256 (x00 :: x81 :: repeat x07 31)))
  /\ priv_data ex_features (ex_p256 (repeat x07 31)) (enc_priv (ex_p256 (repeat x07 31))).
Proof.
  rewrite !mpint_num. split; [split; [split; [small|discriminate]|reflexivity]|].
  split; [split; [split; [small|discriminate]|reflexivity]|].
  split; [eexists; vm_compute; reflexivity|]. split; [reflexivity|].
  split; apply storable_data, ex_p256_storable; cbn; lia.
Qed.

(** Even with primitives that sign for every scalar of full length, a readable key with a valid
    scalar may be unable to sign. *)
Theorem C78_every_valid_key_signs_refuted : exists (F : features) (C : crypto) (K : keyops) (k : privkey) (b key d m : bytes) (c : curve),
  software_signs C K /\ (forall s pub m', length s = 32 -> k_ecdsa_sign K EcP256 s pub m' <> None)
  /\ priv_data F k b /\ sk_kind k = SkEcdsa c key /\ c_kind c = Nistp256 /\ mpint_field d (field key) /\ (0 < magnitude d)%N
  /\ sk_sign F C K k m = Ok None.
Proof.
  exists ex_features, toy_crypto, strict_ops, (ex_p256 (repeat x07 31)), (enc_priv (ex_p256 (repeat x07 31))), (repeat x07 31),
    (repeat x07 31), (s2b "m"), (mkCurve Nistp256 (s2b "nistp256")).
  split.
  { destruct toy_signs as (H1 & H2 & H3 & H4). split; [exact H1|]. split; [|split; [|exact H4]].
    - intros key pub m s H. apply (H2 key). cbn in H |- *. destruct (length key =? 32); [exact H|discriminate].
    - intros key pub m s H. apply (H3 key). cbn in H |- *. destruct (length key =? 48); [exact H|discriminate]. }
  split; [intros s pub m' Hl; cbn; rewrite Hl; discriminate|].
  split; [apply C78_case|]. split; [reflexivity|]. split; [reflexivity|]. split; [apply C78_case|]. split; [vm_compute; reflexivity|reflexivity].
Qed.
Print Assumptions C78_every_valid_key_signs_refuted.

(** ** C79 *)
Theorem C79_issue_with_key : forall (F : features) (C : crypto) (K : keyops) (iter : hashmap -> hashmap) (k k' : privkey) (b tbs blob : bytes) (c : cert),
  priv_data F k b -> configured k k' -> name_fits (sk_pub k) ->
  software_signs C K -> (forall h, hardware k h -> device_signs C K (sk_pub k) (hw_handle h)) ->
  ct_signature_key c = sk_pub k -> tbs_certificate iter c = Ok tbs -> sk_sign F C K k' tbs = Ok (Some blob) ->
  exists c', cert_sign C iter c (sk_sign F C K k') = Ok c' /\ ct_signature c' = blob /\ ct_serialized c' = tbs ++ field blob.
Proof.
  intros F C K iter k k' b tbs blob c H1 H2 H3 H4 H5 Hc Ht Hs.
  pose proof (C75_signatures_verify F C K k k' b tbs blob H1 H2 H3 H4 H5 Hs) as Hv.
  unfold cert_sign, add_signature. rewrite Ht. cbn [bind]. rewrite Hs. cbn [bind ok_or]. rewrite Hc, Hv. cbn [bind].
  eexists. split; [reflexivity|]. split; [reflexivity|]. cbn [ct_serialized]. rewrite write_bytes_field. reflexivity.
Qed.
Print Assumptions C79_issue_with_key.

Theorem C79_issued_certificate_parses : forall (F : features) (C : crypto) (K : keyops) (iter : hashmap -> hashmap) (k k' : privkey) (b tbs blob : bytes) (c : cert),
  (forall m, Permutation (iter m) m) -> under_construction c -> well_typed c ->
  priv_data F k b -> configured k k' -> name_fits (sk_pub k) ->
  software_signs C K -> (forall h, hardware k h -> device_signs C K (sk_pub k) (hw_handle h)) ->
  ct_signature_key c = sk_pub k -> tbs_certificate iter c = Ok tbs -> sk_sign F C K k' tbs = Ok (Some blob) ->
  (size (tbs ++ field blob) <= u32_max)%N ->
  exists c' p, cert_sign C iter c (sk_sign F C K k') = Ok c' /\ cert_from_bytes C (ct_serialized c') = Ok p
    /\ as_requested c p /\ ct_signature p = blob.
Proof.
  intros F C K iter k k' b tbs blob c HP Hu Hw H1 H2 H3 H4 H5 Hc Ht Hs Hsz.
  destruct (C79_issue_with_key F C K iter k k' b tbs blob c H1 H2 H3 H4 H5 Hc Ht Hs) as (c' & Hc' & Hsg & Hser).
  pose proof Hc' as Ha. unfold cert_sign in Ha. rewrite Ht in Ha. cbn [bind] in Ha. rewrite Hs in Ha. cbn [bind ok_or] in Ha.
  assert (Hkd : exists cad, key_data (pk_type (ct_signature_key c)) (pk_kind (ct_signature_key c)) cad).
  { rewrite Hc. destruct H1 as (kt & sb & A1 & A2 & A3 & A4 & A5 & A6 & _). rewrite A4.
    destruct A6; try solve [eexists; eassumption]. eexists. econstructor; eassumption. }
  destruct Hkd as (cad & Hkd).
  destruct (C38_issued_parses_back C iter c c' blob cad HP Hu Hw Hkd Ha) as (p & Hp & Hr & Hsp & _); [rewrite Hser; exact Hsz|].
  exists c', p. auto.
Qed.
Print Assumptions C79_issued_certificate_parses.

Theorem C79_file_signature : forall (F : features) (C : crypto) (K : keyops) (k k' : privkey) (b m ns p blob : bytes) (h : option hash_alg),
  priv_data F k b -> configured k k' -> name_fits (sk_pub k) ->
  software_signs C K -> (forall hw, hardware k hw -> device_signs C K (sk_pub k) (hw_handle hw)) ->
  field_ok ns -> digests_fit C -> payload C ns (chosen h) m p -> sk_sign F C K k' p = Ok (Some blob) ->
  new_with_private_key C m ns (sk_pub k) (sk_sign F C K k') h = Ok (mkVerified (mkSshSig (sk_pub k) ns (chosen h) blob) m).
Proof.
  intros F C K k k' b m ns p blob h H1 H2 H3 H4 H5 Hn Hd Hp Hs. apply C50_only_verified; [assumption..|].
  exists p, blob. split; [exact Hp|]. split; [exact Hs|]. split; [|reflexivity].
  eapply C28_accepts_exactly, C75_signatures_verify; eassumption.
Qed.
Print Assumptions C79_file_signature.

(** The example request is for the issuer below. *)
Definition ex_issuer : privkey := mkPrivKey ed_type (SkEd25519 (repeat x22 64)) ex_ca 1 (s2b "ca").
Lemma ex_issuer_storable : storable ex_features ex_issuer.
Proof.
  apply enc_storable; [|repeat split; small|reflexivity|vm_compute; lia|vm_compute; lia].
  split; [unfold known, key_types; cbn [In]; tauto|]. split; [right; right; reflexivity|].
  repeat split; small.
Qed.
Example C79_case : exists c tbs blob,
  under_construction c /\ well_typed c /\ priv_data ex_features ex_issuer (enc_priv ex_issuer) /\ name_fits (sk_pub ex_issuer)
  /\ ct_signature_key c = sk_pub ex_issuer /\ tbs_certificate (@rev _) c = Ok tbs
  /\ sk_sign ex_features toy_crypto toy_ops ex_issuer tbs = Ok (Some blob) /\ (size (tbs ++ field blob) <= u32_max)%N.
Proof.
  destruct ex_under_construction as (c & E & Hu & Hw). vm_compute in E. injection E as <-.
  eexists _, _, _. split; [exact Hu|]. split; [exact Hw|]. split; [apply storable_data, ex_issuer_storable|].
  split; [exact I|]. split; [reflexivity|]. split; [vm_compute; reflexivity|]. split; [vm_compute; reflexivity|]. vm_compute. discriminate.
Qed.

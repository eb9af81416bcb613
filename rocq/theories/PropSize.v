(** Property C111: what is parsed holds no more than the input. *)
From Verif Require Import Base BaseFacts Utf8 Utf8Facts Str StrFacts Base64 Base64Facts SpecWire SpecText SpecBase64 SpecKeys
  SpecSig SpecCert SpecSshSig SpecPrivKey SpecSigner Reader ReaderFacts LocalFacts KeyType KeyTypeFacts PubKeyType Writer WriterFacts WireFacts
  Crypto PubKey PubKeyFacts PropKeyType PropPubKey Signature SignatureFacts Cert CertFacts TbsFacts PropCert PropCertText SshSigFacts
  PropSshSig PrivKey PrivKeyFacts PropPrivKey Chrono AllowedSigner SignerFacts PropSigner SpecSize.

(** ** C111 *)
Lemma total_app a b : total (a ++ b) = total a + total b.
Proof. unfold total. rewrite map_app, list_sum_app. reflexivity. Qed.
Lemma total_cons a b : total (a :: b) = length a + total b.
Proof. reflexivity. Qed.
Lemma total_concat l : length (concat l) = total l.
Proof. induction l; [reflexivity|]. cbn [concat]. rewrite app_length, total_cons. lia. Qed.

Lemma be32_length n : length (be32 n) = 4.
Proof. reflexivity. Qed.
Lemma be64_length n : length (be64 n) = 8.
Proof. reflexivity. Qed.
Local Opaque be32 be64.

Lemma mpint_field_held m bs : mpint_field m bs -> length m + 4 <= length bs.
Proof.
  intros H. apply mpint_field_iff in H. destruct H as [_ ->]. rewrite <- field_enc, field_length.
  unfold mpint_bytes. destruct m as [|b m]; [cbn; lia|]. destruct (128 <=? b2n b)%N; cbn [length]; lia.
Qed.
Lemma app_field_held sk app bs : app_field sk app bs -> some_length app <= length bs.
Proof.
  unfold app_field. destruct sk, app as [a|]; intros H; try contradiction; [|subst; cbn; lia].
  destruct H as (_ & _ & ->). rewrite field_length. cbn. lia.
Qed.
Lemma key_data_held kt kind bs : key_data kt kind bs -> material_held kind + 4 <= length bs.
Proof.
  intros H. inversion H as [e n b1 b2 _ H1 H2|c key app b _ _ _ H1|key app b _ _ H1]; subst; cbn [material_held];
    rewrite !app_length, ?field_length.
  - apply mpint_field_held in H1, H2. lia.
  - apply app_field_held in H1. lia.
  - apply app_field_held in H1. lia.
Qed.

(** Lists and maps *)
Lemma principals_held ps bs : principals_data ps bs -> total ps + 4 * length ps = length bs.
Proof.
  intros [_ ->]. induction ps as [|p ps IH]; [reflexivity|]. cbn [map concat length].
  rewrite app_length, field_length, total_cons. lia.
Qed.
Lemma pairs_cons e l : pairs_total (e :: l) = length (fst e) + length (snd e) + pairs_total l.
Proof. reflexivity. Qed.
Lemma options_held l bs : options_data l bs -> pairs_total l + 8 * length l <= length bs.
Proof.
  induction 1 as [|name v b l bs _ Hv _ IH]; [cbn; lia|]. rewrite pairs_cons. cbn [length fst snd].
  rewrite !app_length, field_length.
  assert (length v + 4 <= length b). { destruct Hv; rewrite field_length; [cbn; lia|]. rewrite app_length, field_length. lia. }
  lia.
Qed.
Lemma sum_incl {A} (f : A -> nat) (m : list A) : forall l, NoDup m -> incl m l ->
  list_sum (map f m) <= list_sum (map f l).
Proof.
  induction m as [|x m IH]; intros l Hn Hi; [cbn; lia|]. inversion Hn as [|? ? Hx Hm]; subst.
  destruct (in_split x l (Hi x (or_introl eq_refl))) as (a & b & ->).
  assert (incl m (a ++ b)).
  { intros y Hy. specialize (Hi y (or_intror Hy)). rewrite in_app_iff in *. cbn in Hi.
    destruct Hi as [|[->|]]; auto. contradiction. }
  specialize (IH (a ++ b) Hm H). rewrite !map_app, !list_sum_app in *.
  assert (Q : forall y l, list_sum (map f (y :: l)) = f y + list_sum (map f l)) by reflexivity.
  rewrite !Q. lia.
Qed.
Lemma map_held l m : map_of l m -> pairs_total m + 8 * length m <= pairs_total l + 8 * length l.
Proof.
  intros [Hn Hm].
  assert (Q : forall x : list (bytes * bytes), pairs_total x + 8 * length x = list_sum (map (fun e : bytes * bytes => length (fst e) + length (snd e) + 8) x)).
  { assert (S : forall (f : bytes * bytes -> nat) y l, list_sum (map f (y :: l)) = f y + list_sum (map f l)) by reflexivity.
    induction x as [|e x IH]; [reflexivity|]. rewrite S, <- IH, pairs_cons. cbn [length]. lia. }
  rewrite !Q. apply sum_incl.
  - apply NoDup_map_inv in Hn. exact Hn.
  - intros [k v] Hi. apply Hm in Hi. destruct Hi as (pre & post & -> & _). apply in_elt.
Qed.

Lemma signed_held c bs : signed_part c bs ->
  cert_held c + 4 * cert_entries c <= length bs + length (ct_signature c) + some_length (ct_comment c).
Proof.
  intros (kd & pb & co & cb & ex & eb & skd & skpost & _ & _ & _ & C1 & K1 & _ & _ & _ & _ & _ & _ & P & _ & O1 & _ & M1 & O2 & _ & M2 & _ & C2 & K2 & _ & ->).
  apply key_data_held in K1, K2. apply principals_held in P. apply options_held in O1, O2. apply map_held in M1, M2.
  unfold cert_held, cert_entries, key_held. rewrite C1, C2. cbn [some_length].
  rewrite !app_length, !field_length, !app_length, !field_length, ?be64_length, ?be32_length. lia.
Qed.

(** The fields of a certificate, with four bytes for each entry of its lists, are no more than the
    bytes it was read from; the copy that is kept is these bytes. *)
Theorem C111_certificate : forall (C : crypto) (data : bytes) (c : cert),
  cert_from_bytes C data = Ok c ->
  cert_held c + 4 * cert_entries c <= length data /\ ct_serialized c = data.
Proof.
  intros C data c H. pose proof H as H'. apply cert_from_bytes_iff in H'. destruct H' as (sp & post & Hc & Hd & _ & _ & Hk & Hs).
  split; [|assumption].
  apply core_signed, signed_held in Hc. rewrite Hk in Hc. cbn [some_length] in Hc.
  rewrite Hd. rewrite !app_length, <- field_enc, field_length. lia.
Qed.
Print Assumptions C111_certificate.

(** Words and base64 *)
Lemma split_ws_total l : forall k cur, total (split_ws_aux l k cur) <= length l + length cur.
Proof.
  induction l as [|b l IH]; intros k cur.
  - cbn [split_ws_aux]. destruct cur; cbn; lia.
  - cbn [split_ws_aux length]. destruct k as [|k]; [|specialize (IH k cur); lia].
    destruct (ws_len (b :: l)) as [|k].
    + specialize (IH 0 (cur ++ [b])). rewrite app_length in IH. cbn [length] in IH. lia.
    + specialize (IH k []). cbn [length] in IH. destruct cur; rewrite ?total_cons; cbn [length]; lia.
Qed.
Lemma words_total s : total (split_whitespace s) <= length s.
Proof. unfold split_whitespace. pose proof (split_ws_total s 0 []). cbn [length] in H. lia. Qed.
Lemma core_size (l : bytes) : 4 * length l <= 3 * length (b64_core l).
Proof. induction l as [|a|a b|a b c l IH] using Base64Facts.ind3; cbn [b64_core length] in *; lia. Qed.
Lemma b64_held t b : b64_decode t = Some b -> 4 * length b <= 3 * length t.
Proof. intros H. apply b64_decode_inv in H. destruct H as (k & _ & ->). rewrite app_length. pose proof (core_size b). lia. Qed.

Theorem C111_certificate_text : forall (C : crypto) (s : bytes) (c : cert),
  cert_from_string C s = Ok c ->
  cert_held c + 4 * cert_entries c <= length s
  /\ 4 * length (ct_serialized c) + some_length (ct_comment c) <= 3 * length s.
Proof.
  intros C s c H. unfold cert_from_string in H. cbv zeta in H. pose proof (words_total s) as W.
  destruct (split_whitespace s) as [|w1 [|w2 ws]]; try discriminate.
  { cbn [nth_error ok_or bind] in H. destruct (kt_from_name w1); discriminate. }
  cbn [nth_error ok_or bind] in H. destruct (kt_from_name w1) as [okt|e|]; [|discriminate..]. cbn [bind] in H.
  destruct (b64_decode w2) as [d|] eqn:D; [|discriminate]. cbn [ok_or bind] in H.
  destruct (cert_from_bytes C d) as [c0|e|] eqn:E; [|discriminate..]. cbn [bind] in H.
  destruct (negb _); [discriminate|]. apply ok_inj in H. subst c.
  pose proof (C111_certificate C d c0 E) as [B S]. pose proof (b64_held _ _ D) as L.
  assert (Q : ct_comment c0 = None) by (apply cert_from_bytes_iff in E; destruct E as (sp & post & _ & _ & _ & _ & Hk & _); exact Hk).
  rewrite !total_cons in W.
  assert (X : some_length match ws with [] => None | x :: _ => Some x end <= total ws).
  { destruct ws as [|x ws]; cbn [some_length]; [lia|]. rewrite total_cons. lia. }
  unfold cert_held, cert_entries in *. rewrite Q in B. unfold with_comment.
  cbn [ct_nonce ct_key ct_key_id ct_principals ct_critical_options ct_extensions ct_reserved ct_signature_key ct_signature ct_comment ct_serialized some_length] in *.
  rewrite S. lia.
Qed.
Print Assumptions C111_certificate_text.

Theorem C111_public_key : forall (b : bytes) (k : pubkey),
  pk_from_bytes b = Ok k -> key_held k <= length b.
Proof.
  intros b k H. destruct (C21_blobs_canonical b k H) as (_ & C & data & post & K & -> & _).
  apply key_data_held in K. unfold key_held. rewrite C. cbn [some_length]. rewrite !app_length, field_length. lia.
Qed.
Print Assumptions C111_public_key.

Lemma text_held s k : pk_from_string s = Ok k -> key_held k + 4 <= length s.
Proof.
  intros H. pose proof (words_total s) as W. destruct (split_whitespace s) as [|w1 [|w2 ws]] eqn:E.
  1,2: exfalso; unfold pk_from_string in H; cbv zeta in H; rewrite E in H; discriminate.
  apply (pk_from_string_words _ _ _ _ _ E) in H. destruct H as (Ko & _ & Hc & post & D).
  apply b64_held in D. rewrite !total_cons in W.
  assert (X : some_length (pk_comment k) <= total ws).
  { rewrite Hc. destruct ws as [|x ws]; cbn [hd_error some_length]; [lia|]. rewrite total_cons. lia. }
  assert (Y : material_held (pk_kind k) + 8 <= length (enc_key k)).
  { destruct Ko as (_ & _ & Ko). cbn [no_comment pk_kind pk_type] in Ko.
    assert (key_data (pk_type k) (pk_kind k) (enc_kind (pk_kind k))) by (apply key_data_iff; auto).
    apply key_data_held in H. unfold enc_key. rewrite app_length, <- field_enc, field_length. lia. }
  rewrite app_length in D. unfold key_held. lia.
Qed.
Theorem C111_public_key_text : forall (s : bytes) (k : pubkey),
  pk_from_string s = Ok k -> key_held k <= length s.
Proof. intros s k H. apply text_held in H. lia. Qed.
Print Assumptions C111_public_key_text.

Lemma lines_total s ls : lines_of s ls -> total ls <= length s.
Proof.
  induction 1 as [|l _ _|l rest ls _ _ IH|l rest ls _ _ _ IH]; rewrite ?total_cons, ?app_length; cbn [length]; change (total []) with 0; lia.
Qed.
Lemma armor_held text b body e rest j data : lines_of text (b :: body ++ e :: rest) ->
  base64_text data (concat body ++ repeat x3d j) -> 4 * length data <= 3 * length text.
Proof.
  intros Hl Hb. apply lines_total in Hl. rewrite total_cons, total_app, <- total_concat in Hl.
  assert (D : b64_decode (concat body) = Some data) by (apply b64_decode_iff; eauto).
  apply b64_held in D. lia.
Qed.

Theorem C111_signature : forall (text : bytes) (s : sshsig),
  sshsig_from_armored_string text = Ok s -> 4 * sshsig_held s <= 3 * length text.
Proof.
  intros text s H. apply C47_accepts_exactly in H. destruct H as (bs & tl & Hs & body & rest & j & Hl & _ & Hb).
  pose proof (armor_held _ _ _ _ _ _ _ Hl Hb) as A. rewrite app_length in A.
  destruct Hs as (kd & post & rv & n & _ & C & K & _ & _ & _ & _ & _ & _ & _ & _ & ->).
  apply key_data_held in K. unfold sshsig_held, key_held. rewrite C. cbn [some_length].
  rewrite !app_length, !field_length, !app_length, !field_length in A. lia.
Qed.
Print Assumptions C111_signature.

(** Private keys *)
Lemma magnitude_bound l : (magnitude l < 256 ^ size l)%N.
Proof.
  induction l as [|b l IH]; [reflexivity|]. cbn [magnitude]. unfold size in *. cbn [length].
  rewrite Nat2N.inj_succ, N.pow_succ_r'. pose proof (Byte.to_N_bounded b). nia.
Qed.
Lemma crt_held rsa d p x : crt_value rsa d p x -> some_length x <= length p.
Proof.
  unfold crt_value. destruct rsa; [|intros ->; cbn; lia]. intros (H2 & v & -> & Hm & Hv). cbn [some_length].
  assert (P : p <> []) by (intros ->; cbn in H2; lia).
  destruct Hv as [->|[Hn Hs]]; [destruct p; [contradiction|]; cbn; lia|].
  destruct v as [|b v]; [contradiction|].
  assert (B : (1 <= Byte.to_N b)%N).
  { assert (Byte.to_N b <> 0%N); [|lia]. intros E. apply (Hs v). destruct b; try discriminate E. reflexivity. }
  pose proof (magnitude_bound p) as Bp.
  assert (L : (magnitude (b :: v) < magnitude p)%N).
  { rewrite Hm. pose proof (N.mod_upper_bound (magnitude d) (magnitude p - 1)). lia. }
  cbn [magnitude] in L.
  assert (E : (256 ^ size v < 256 ^ size p)%N) by nia.
  apply N.pow_lt_mono_r_iff in E; [|lia]. unfold size in E. cbn [length]. lia.
Qed.
Lemma secret_data_held F kt pub sec bs : secret_data F kt pub sec bs ->
  secret_held sec <= 2 * length bs.
Proof.
  intros H. inversion H as [n e d iq p q dp dq bn be bd bi bp bq _ H1 H2 H3 H4 H5 H6 H7 H8| | |c pk app b fl ha re _ _ _|pk app b fl ha re _ _ _];
    subst; cbn [secret_held rp_n rp_e rp_d rp_coefficient rp_p rp_q rp_exp rp_exq hw_handle hw_reserved hw_pin hw_device_path some_length];
    rewrite !app_length, ?field_length; try lia.
  apply mpint_field_held in H1, H2, H3, H4, H5, H6. apply crt_held in H7, H8. lia.
Qed.
Lemma priv_held F k bs : priv_data F k bs -> secret_held (sk_kind k) + length (sk_comment k) <= 2 * length bs
  /\ pk_comment (sk_pub k) = None /\ material_held (pk_kind (sk_pub k)) <= length bs.
Proof.
  intros (kt & b & _ & _ & _ & _ & C & S & _ & _ & ->). rewrite !app_length, !field_length.
  pose proof (secret_data_held _ _ _ _ _ S). split; [lia|]. split; [exact C|].
  inversion S as [n e d iq p q dp dq bn be bd bi bp bq _ H1 H2 H3 H4 H5 H6 H7 H8|c pk b' key Hk|pk b' key Hk|c pk app b' fl ha re Hk _ _|pk app b' fl ha re Hk _ _];
    subst; cbn [material_held]; rewrite !app_length, ?field_length.
  - apply mpint_field_held in H1, H2. lia.
  - apply key_data_held in Hk. cbn [material_held] in Hk. lia.
  - apply key_data_held in Hk. cbn [material_held] in Hk. lia.
  - apply key_data_held in Hk. cbn [material_held] in Hk. lia.
  - apply key_data_held in Hk. cbn [material_held] in Hk. lia.
Qed.

(** A private key holds at most twice the bytes of its file (the exponents of RSA keys are
    computed), if decryption returns as many bytes as it is given. *)
Theorem C111_private_key : forall (F : features) (K : keyops) (pass : option bytes) (text : bytes) (k : privkey),
  (forall key iv b plain, k_aes_ctr K key iv b = Some plain -> length plain = length b) ->
  sk_from_string F K text pass = Ok k -> 4 * privkey_held k <= 6 * length text.
Proof.
  intros F K pass text k HK H. apply C55_accepted_files in H.
  destruct H as (data & (body & rest & j & Hl & _ & Hb) & ci & kdf & op & post & pub & sec & plain & pad & tl & _ & _ & _ & _ & _ & P & _ & _ & _ & U & (_ & b & S & E) & ->).
  pose proof (armor_held _ _ _ _ _ _ _ Hl Hb) as A.
  assert (L : length plain = length sec) by (destruct U as [|p salt r tl' out plain _ _ _ _ _ Hd]; [reflexivity|eapply HK, Hd]).
  destruct P as (kd & Kd & ->). apply key_data_held in Kd. apply priv_held in S. destruct S as (S & C & _).
  unfold privkey_held, key_held. rewrite C. cbn [some_length].
  rewrite E in L. unfold key_file in A. rewrite !app_length, !field_length, !app_length, !field_length in A.
  rewrite !app_length in L. lia.
Qed.
Print Assumptions C111_private_key.

(** The same for the form without header; its public key comes from the same bytes. *)
Theorem C111_private_key_bytes : forall (F : features) (data : bytes) (k : privkey),
  sk_from_bytes F data = Ok k -> privkey_held k <= 3 * length data.
Proof.
  intros F data k H. apply C55_bare_section in H. destruct H as (_ & bs & tl & P & ->). apply priv_held in P.
  destruct P as (S & C & M). unfold privkey_held, key_held. rewrite C. cbn [some_length]. rewrite app_length. lia.
Qed.
Print Assumptions C111_private_key_bytes.

(** Allowed signers *)
Fixpoint lead (s : bytes) : nat :=
  match s with x20 :: s' => S (lead s') | _ => 0 end.
Lemma lead_repeat n s : lead (repeat x20 n ++ s) = n + lead s.
Proof. induction n as [|n IH]; [reflexivity|]. cbn [repeat app lead]. rewrite IH. reflexivity. Qed.
Lemma word_first w : line_word w -> exists b t, w = b :: t /\ b <> x20 /\ b <> x23.
Proof.
  intros (Hn & p & q & Hp & Hq & ->). destruct p as [|b p].
  - destruct Hq as [->|(c & _ & ->)]; [contradiction|]. exists x22, (c ++ [x22]). repeat split; discriminate.
  - exists b, (p ++ q). destruct (Hp b (or_introl eq_refl)) as (A & _ & B). auto.
Qed.
Lemma word_lead w r : line_word w -> lead (w ++ r) = 0.
Proof.
  intros H. apply word_first in H. destruct H as (b & t & -> & Hb & _). cbn [app lead]. destruct b; try reflexivity. contradiction.
Qed.
Lemma line_words_held s ws : line_words s ws -> ws <> [] -> total ws + length ws + lead s <= length s + 1.
Proof.
  induction 1 as [l _|n w rest ws Hw He Hl IH]; intros Hn; [contradiction|].
  rewrite lead_repeat, word_lead by exact Hw. rewrite total_cons, !app_length, repeat_length. cbn [length].
  destruct ws as [|w' ws]; [cbn; lia|]. specialize (IH ltac:(discriminate)). cbn [length] in *.
  destruct He as [->|[(r & ->)|(r & ->)]].
  - cbn [lead length] in IH. rewrite total_cons in IH. inversion Hl as [|n' w1 r1 ws1 Hw1 _ _ E]; subst.
    apply word_first in Hw1. destruct Hw1 as (b & t & -> & _). destruct n'; discriminate.
  - cbn [lead length] in IH. cbn [length]. lia.
  - exfalso. inversion Hl as [|n' w1 r1 ws1 Hw1 _ _ E]; subst. apply word_first in Hw1. destruct Hw1 as (b & t & -> & _ & Hb).
    destruct n'; cbn in E; [|discriminate]. injection E as E _. contradiction.
Qed.
Lemma commas_length l : l <> [] -> length (commas l) + 1 = total l + length l.
Proof.
  induction l as [|x l IH]; [contradiction|]. intros _. destruct l as [|y l].
  - rewrite total_cons. cbn. lia.
  - change (commas (x :: y :: l)) with (x ++ x2c :: commas (y :: l)). rewrite app_length, total_cons. cbn [length] in *.
    specialize (IH ltac:(discriminate)). lia.
Qed.
Lemma unquoted_length v u : unquoted v u -> length u <= length v.
Proof. intros (i & j & -> & _). rewrite !app_length. lia. Qed.
Lemma filter_total f l : total (filter f l) + length (filter f l) <= total l + length l.
Proof. induction l as [|x l IH]; [reflexivity|]. cbn [filter]. destruct (f x); rewrite ?total_cons; cbn [length]; lia. Qed.
Definition ns_held (o : option (list bytes)) : nat := match o with Some l => total l + length l | None => 0 end.
Lemma named_length a b : named a b -> length a = length b.
Proof. unfold named. induction 1; cbn [length]; lia. Qed.
Lemma option_held tz o w o' : option_word tz o w o' -> ns_held (o_namespaces o') <= ns_held (o_namespaces o) + length w.
Proof.
  intros H. destruct H as [n v _ _ _|n v l (v' & Hu & _ & Hw) _ Hn Ho (Hl & _ & Hv)|n v t _ _ _ _ _|n v t _ _ _ _ _]; cbn [o_namespaces]; try lia.
  rewrite Ho. cbn [ns_held]. assert (F : total (without_empty l) + length (without_empty l) <= total l + length l) by apply filter_total.
  pose proof (commas_length l Hl) as E. rewrite <- Hv in E. apply unquoted_length in Hu.
  assert (N : length n = 10) by (apply named_length in Hn; exact Hn).
  destruct Hw as [->|[-> ->]]; [rewrite app_length; cbn [length]; lia|]. cbn [length] in Hu. lia.
Qed.
Lemma options_words_held tz o ws o' : option_words tz o ws o' -> ns_held (o_namespaces o') <= ns_held (o_namespaces o) + total ws.
Proof.
  induction 1 as [|o o1 o2 w ws H _ IH]; [lia|]. apply option_held in H. rewrite total_cons. lia.
Qed.
Lemma line_held tz s a : accepted_line tz s a -> signer_held a + signer_entries a <= length s.
Proof.
  intros (_ & pw & pt & ows & kt & kd & o & Hw & Hu & (Hc1 & _ & Hc3) & _ & Ho & _ & Hp & _ & E2 & _).
  apply line_words_held in Hw; [|discriminate]. rewrite total_cons, total_app in Hw. cbn [length] in Hw. rewrite app_length in Hw.
  cbn [length] in Hw. rewrite !total_cons in Hw. change (total []) with 0 in Hw.
  apply unquoted_length in Hu. pose proof (commas_length _ Hc1) as E. rewrite <- Hc3 in E.
  apply options_words_held in Ho. change (ns_held (o_namespaces no_options)) with 0 in Ho.
  apply text_held in Hp. rewrite !app_length in Hp. cbn [length] in Hp.
  unfold signer_held, signer_entries. rewrite E2. unfold ns_held in Ho. destruct (o_namespaces o); lia.
Qed.
Theorem C111_signer : forall (tz : timezone) (s : bytes) (a : allowed_signer),
  as_from_string tz s = Ok a -> signer_held a + signer_entries a <= length s.
Proof. intros tz s a H. apply C62_accepted_lines in H. eapply line_held, H. Qed.
Print Assumptions C111_signer.

Theorem C111_signers : forall (tz : timezone) (s : bytes) (es : list allowed_signer),
  signers_from_string tz s = Ok es ->
  list_sum (map (fun a => signer_held a + signer_entries a) es) <= length s /\ length es <= length s.
Proof.
  intros tz s es H. destruct (StrFacts.lines_total s) as (ls & Hl). apply (proj1 (C66_file_is_its_lines tz s ls Hl)) in H.
  apply lines_total in Hl.
  assert (Q : list_sum (map (fun a => signer_held a + signer_entries a) es) <= total ls
              /\ length es <= list_sum (map (fun a => signer_held a + signer_entries a) es)).
  { clear Hl. induction H as [|l ls es _ _ IH|l t a ls es _ St Ha _ IH]; [cbn; lia| |].
    - rewrite total_cons. lia.
    - pose proof (line_held _ _ _ Ha) as L. destruct St as (pre & post & -> & _). rewrite total_cons, !app_length.
      assert (S : forall (f : allowed_signer -> nat) y l, list_sum (map f (y :: l)) = f y + list_sum (map f l)) by reflexivity.
      rewrite S. cbn [length].
      assert (1 <= signer_entries a).
      { destruct Ha as (_ & pw & pt & ows & kt & kd & o & _ & _ & (Hc & _) & _). unfold signer_entries.
        destruct (as_principals a); [contradiction|]. cbn [length]. lia. }
      lia. }
  lia.
Qed.
Print Assumptions C111_signers.

(** With the copy of its bytes, a certificate holds more than it was read from. *)
Theorem C111_no_more_than_input_refuted : exists (C : crypto) (data : bytes) (c : cert),
  cert_from_bytes C data = Ok c /\ length data < cert_held c + length (ct_serialized c).
Proof.
  exists lax_crypto, PropCert.ex_data. eexists. split; [vm_compute; reflexivity|]. vm_compute. lia.
Qed.
Print Assumptions C111_no_more_than_input_refuted.

(** RSA private keys can hold more than their text: the exponents for the primes are added. *)
Definition ex_big : bytes := x7f :: repeat xff 259.
Definition ex_big_d : bytes := x7f :: repeat xff 258 ++ [xf0].
Definition ex_fat : privkey :=
  mkPrivKey rsa_type (SkRsa (mkRsaPriv [x8f] [x07] ex_big_d [x06] ex_big ex_big (Some ex_big_d) (Some ex_big_d)))
    (mkPubKey rsa_type (PkRsa [x07] [x8f]) None) 1 [].
Lemma ex_big_exponent : crt_exponent ex_big_d ex_big = Ok ex_big_d.
Proof.
  assert (L : (from_be ex_big_d < from_be ex_big - 1)%N) by (vm_compute; reflexivity).
  unfold crt_exponent. cbv zeta. destruct (N.eqb_spec (from_be ex_big) 0) as [E|_]; [rewrite E in L; lia|].
  destruct (N.eqb_spec (from_be ex_big - 1) 0) as [E|_]; [lia|]. rewrite N.mod_small by exact L.
  rewrite <- (proj2 (to_bytes_be_iff (from_be ex_big_d) ex_big_d)); [reflexivity|]. split; [reflexivity|]. right. split; discriminate.
Qed.
Lemma ex_fat_storable : storable ex_features ex_fat.
Proof.
  apply enc_storable; [|repeat split; try small; discriminate|reflexivity|apply Nat.ltb_lt; vm_compute; reflexivity|apply Nat.ltb_lt; vm_compute; reflexivity].
  split; [unfold known, key_types; cbn [In]; tauto|]. split; [left; reflexivity|].
  split; [reflexivity|]. split; [reflexivity|]. split; [|repeat split; try small; discriminate].
  split; [reflexivity|]. split; [reflexivity|]. split; [reflexivity|].
  do 6 (split; [split; [small|discriminate]|]).
  unfold crt_exponents. cbn [f_rsa ex_features rp_d rp_p rp_q rp_exp rp_exq]. rewrite ex_big_exponent. reflexivity.
Qed.
Theorem C111_private_key_no_more_than_text_refuted :
  exists (F : features) (K : keyops) (text : bytes) (k : privkey),
    sk_from_string F K text None = Ok k /\ length text < privkey_held k.
Proof.
  destruct (C53_text_round_trip ex_features PropPrivKey.ex_ops None ex_fat ex_fat ex_fat_storable) as (text & W & R); [repeat split|].
  exists ex_features, PropPrivKey.ex_ops, text, ex_fat. split; [exact R|].
  assert (L : match sk_write ex_fat with Ok t => length t <? privkey_held ex_fat | _ => false end = true) by (vm_compute; reflexivity).
  rewrite W in L. apply Nat.ltb_lt, L.
Qed.
Print Assumptions C111_private_key_no_more_than_text_refuted.

Example C111_case : exists c a,
  cert_from_bytes lax_crypto PropCert.ex_data = Ok c /\ cert_held c = 154 /\ cert_entries c = 8 /\ length PropCert.ex_data = 333
  /\ sshsig_from_armored_string ex_armor = Ok ex_ssig /\ sshsig_held ex_ssig = 28
  /\ (forall key iv b plain, k_aes_ctr PropPrivKey.ex_ops key iv b = Some plain -> length plain = length b)
  /\ as_from_string utc (s2b "a@x.org,b namespaces=git,,file " ++ ex_key_text) = Ok a
  /\ signer_held a = 47 /\ signer_entries a = 4.
Proof.
  do 2 eexists. split; [vm_compute; reflexivity|]. split; [vm_compute; reflexivity|]. split; [vm_compute; reflexivity|].
  split; [vm_compute; reflexivity|]. split; [vm_compute; reflexivity|]. split; [vm_compute; reflexivity|].
  split; [intros key iv b plain; cbn; intros [= <-]; rewrite ?map_length; reflexivity|].
  split; [vm_compute; reflexivity|]. split; vm_compute; reflexivity.
Qed.

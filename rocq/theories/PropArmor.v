(** Property C150: the armored texts that are written. *)
From Coq Require Import Lia.
From Verif Require Import Base BaseFacts Utf8 Utf8Facts SpecWire SpecText SpecBase64 SpecKeys Reader ReaderFacts
  KeyType KeyTypeFacts PubKeyType Writer WriterFacts WireFacts Base64 Base64Facts Str StrFacts
  Crypto PubKey PubKeyFacts PropPubKey TbsFacts SpecSig Signature SignatureFacts SpecSshSig SshSigFacts PropSshSig
  SpecPrivKey PrivKey PrivKeyFacts PropPrivKey SpecArmor.

Lemma filled_unique n ls : filled n ls -> forall ls', 0 < n -> filled n ls' -> concat ls = concat ls' -> ls = ls'.
Proof.
  assert (Z : forall ls, 0 < n -> filled n ls -> concat ls <> []).
  { intros x Hn [l H _|l y H _]; cbn [concat]; intros E; apply app_eq_nil in E; destruct E as [-> _]; [congruence|cbn in H; lia]. }
  induction 1 as [l H1 H2|l ls H1 H2 IH]; intros ls' Hn F E; inversion F as [l' H3 H4 E'|l' y H3 H4 E']; subst; cbn [concat] in E; rewrite ?app_nil_r in E.
  - congruence.
  - exfalso. specialize (Z y Hn H4). apply (f_equal (@length _)) in E. rewrite app_length in E. destruct (concat y); [congruence|cbn [length] in E; lia].
  - exfalso. specialize (Z ls Hn H2). apply (f_equal (@length _)) in E. rewrite app_length in E. destruct (concat ls); [congruence|cbn [length] in E; lia].
  - assert (A : forall a b x y : bytes, length a = length b -> a ++ x = b ++ y -> a = b /\ x = y).
    { clear. induction a as [|c a IHa]; intros [|d b] x y L Q; try discriminate; [auto|]. injection L as L. injection Q as -> Q.
      destruct (IHa b x y L Q) as [-> ->]. auto. }
    destruct (A l l' _ _ ltac:(congruence) E) as [-> E1]. f_equal. apply IH; assumption.
Qed.
Lemma join_ended (a : bytes) (ls : list bytes) : ls <> [] -> a ++ [newline] ++ join [newline] ls ++ [newline] = concat (map (fun l => l ++ [x0a]) (a :: ls)).
Proof.
  revert a. induction ls as [|b ls IH]; intros a H; [congruence|]. destruct ls as [|c ls].
  - cbn. rewrite <- !app_assoc. reflexivity.
  - change (concat (map (fun l => l ++ [x0a]) (a :: b :: c :: ls))) with ((a ++ [x0a]) ++ concat (map (fun l => l ++ [x0a]) (b :: c :: ls))).
    etransitivity; [|apply (f_equal (fun z => (a ++ [x0a]) ++ z)), (IH b); discriminate]. cbn [join]. rewrite <- !app_assoc. reflexivity.
Qed.
Lemma written_iff first last final n data t : 0 < n -> data <> [] ->
  (written_armor first last final n data t <-> t = first ++ [newline] ++ join [newline] (chunks n (b64_encode data)) ++ [newline] ++ last ++ final).
Proof.
  intros Hn Hd.
  assert (Hne : b64_encode data <> []).
  { intros E. apply Hd. assert (X := b64_decode_encode data). rewrite E in X. cbn in X. congruence. }
  destruct (chunks_filled n (b64_encode data) Hn Hne) as [Hf Hc].
  assert (Q : chunks n (b64_encode data) <> []) by (intros Q; rewrite Q in Hf; inversion Hf).
  assert (W : first ++ [newline] ++ join [newline] (chunks n (b64_encode data)) ++ [newline] ++ last ++ final
    = concat (map (fun l => l ++ [x0a]) (first :: chunks n (b64_encode data))) ++ last ++ final).
  { rewrite <- (join_ended first _ Q). rewrite <- !app_assoc. reflexivity. }
  rewrite W. split.
  - intros (body & F & B & ->). rewrite (filled_unique n body F _ Hn Hf); [reflexivity|].
    rewrite Hc. exact (base64_text_unique _ _ _ B (b64_encode_text data)).
  - intros ->. exists (chunks n (b64_encode data)). split; [exact Hf|]. split; [rewrite Hc; apply b64_encode_text|reflexivity].
Qed.

(** A signature is written in lines of 76 characters, without a line break at the end. *)
Theorem C150_signature : forall (s : sshsig) (kind : pubkey_kind) (kd n t : bytes),
  printable (ss_pubkey s) kind kd -> field_ok (ss_namespace s) -> field_ok (ss_signature s) -> hash_name (ss_hash s) n ->
  (sshsig_display s = Ok t <-> written_armor begin_line end_line [] 76
     (s2b "SSHSIG" ++ be32 1 ++ field (field (kt_name (pk_type (ss_pubkey s))) ++ kd) ++ field (ss_namespace s) ++ field []
        ++ field n ++ field (ss_signature s)) t).
Proof.
  intros s kind kd n t (H1 & H2 & H3 & H4) H6 H8 Hn. apply key_data_iff in H3. destruct H3 as [H3 ->].
  apply (same_material_canon_iff _ _ _ H3) in H2. subst kind. apply kt_from_name_ok in H1. destruct H1 as [H1 _].
  rewrite field_ok_fits in *. rewrite !field_enc in *.
  assert (Hb := sshsig_blob_enc s H1 H3 H4 H6 H8).
  assert (En : n = hash_alg_name (ss_hash s)) by (destruct Hn; reflexivity). subst n.
  unfold sshsig_display. rewrite Hb. cbn [bind]. rewrite written_iff by (try lia; discriminate). rewrite app_nil_r.
  unfold enc_sig. split; [intros H; apply ok_inj in H; symmetry; exact H|intros ->; reflexivity].
Qed.
Print Assumptions C150_signature.

(** A private key file has lines of 70 characters and a line break at the end. *)
Theorem C150_private_key : forall (k : privkey) (t : bytes),
  sk_write k = Ok t <-> exists data, sk_encode k = Ok data /\ written_armor key_begin_line key_end_line [x0a] 70 data t.
Proof.
  intros k t.
  assert (N : forall d, sk_encode k = Ok d -> d <> []).
  { intros d Hd. assert (W : exists x, sk_write k = Ok x) by (unfold sk_write; rewrite Hd; cbn [bind]; eauto).
    destruct W as (x & W). apply sk_write_lines in W. destruct W as (b & _ & Hb & Hne & _). congruence. }
  split.
  - intros H. pose proof H as H'. apply sk_write_lines in H. destruct H as (data & body & H1 & H2 & _ & H4 & H5 & H6).
    exists data. split; [exact H1|]. exists body. split; [exact H4|]. split; [rewrite H5; apply b64_encode_text|].
    assert (Q : body <> []) by (intros ->; inversion H4). rewrite <- (join_ended _ _ Q), H6, <- !app_assoc. reflexivity.
  - intros (data & H1 & H2). apply written_iff in H2; [|lia|exact (N _ H1)]. unfold sk_write. rewrite H1. cbn [bind].
    rewrite split_lines_join; [subst t; reflexivity|].
    intros E. apply (N _ H1). assert (X := b64_decode_encode data). rewrite E in X. cbn in X. congruence.
Qed.
Print Assumptions C150_private_key.

(** The encoded key is an unencrypted file with the section padded by 1, 2, 3, ... to a multiple of eight
    bytes, and by no more than that. *)
Theorem C150_encoded : forall (F : features) (k k' : privkey), storable F k' -> kept k k' ->
  exists pub padding section, sk_encode k = Ok (key_file (s2b "none") (s2b "none") [] pub section)
    /\ pub_blob (sk_pub k') [] pub /\ section_of F k' padding section
    /\ counting padding /\ length padding < 8 /\ Nat.modulo (length section) 8 = 0.
Proof.
  intros F k k' Hs Hk. assert (Kp : kind_ok (pk_type (sk_pub k')) (pk_kind (sk_pub k'))) by (destruct Hs as (x & _ & Q & _); apply pub_blob_iff in Q; apply Q).
  apply storable_iff in Hs. destruct Hs as (P & M & F1 & F2).
  pose proof (pad_len_lt (length (enc_section k'))) as L. remember (pad_len (length (enc_section k'))) as n eqn:En.
  exists (enc_key (sk_pub k')), (firstn n pad_bytes), (enc_section k' ++ firstn n pad_bytes).
  assert (Ln : length (firstn n pad_bytes) = n) by (rewrite firstn_length; cbn [length pad_bytes]; lia).
  split; [rewrite key_file_enc; subst n; apply (sk_encode_enc F k k'); assumption|].
  split; [apply pub_blob_iff; rewrite app_nil_r; split; [exact Kp|reflexivity]|].
  split; [apply section_of_iff; auto|].
  split; [|split; [rewrite Ln; exact L|]].
  - clear En Ln. intros i b Hb. assert (Hi : i < 7) by (pose proof (proj1 (nth_error_Some _ _) (fun Z => ltac:(rewrite Hb in Z; discriminate Z))) as Hb2; rewrite firstn_length in Hb2; cbn [length pad_bytes] in Hb2; lia).
    assert (Hb' : nth_error pad_bytes i = Some b).
    { rewrite <- (firstn_skipn n pad_bytes). rewrite nth_error_app1; [exact Hb|]. apply nth_error_Some. rewrite Hb. discriminate. }
    do 7 (destruct i as [|i]; [cbn in Hb'; injection Hb' as <-; reflexivity|]). lia.
  - rewrite app_length, Ln. subst n. unfold pad_len. clear. set (m := length (enc_section k')).
    pose proof (Nat.div_mod m 8 ltac:(lia)) as D. pose proof (Nat.mod_upper_bound m 8 ltac:(lia)) as U.
    destruct (Nat.eq_dec (Nat.modulo m 8) 0) as [Z|Z].
    + rewrite Z. change (Nat.modulo (8 - 0) 8) with 0. rewrite Nat.add_0_r. exact Z.
    + rewrite (Nat.mod_small (8 - Nat.modulo m 8) 8) by lia.
      replace (m + (8 - Nat.modulo m 8)) with (S (Nat.div m 8) * 8) by lia. apply Nat.mod_mul. lia.
Qed.
Print Assumptions C150_encoded.

Example C150_case : exists t l1 l2, printable (ss_pubkey ex_ssig) (pk_kind (ss_pubkey ex_ssig)) (field [x63; x64] ++ [])
  /\ field_ok (ss_namespace ex_ssig) /\ field_ok (ss_signature ex_ssig) /\ hash_name (ss_hash ex_ssig) (s2b "sha512")
  /\ sshsig_display ex_ssig = Ok t /\ t = begin_line ++ [x0a] ++ l1 ++ [x0a] ++ l2 ++ [x0a] ++ end_line /\ length l1 = 76 /\ length l2 < 76.
Proof.
  exists ex_armor, (firstn 76 (skipn 30 ex_armor)), (skipn 107 (firstn (length ex_armor - 28) ex_armor)).
  split; [exact (proj1 C46_case)|]. split; [vm_compute; discriminate|]. split; [vm_compute; discriminate|]. split; [constructor|].
  split; [vm_compute; reflexivity|]. split; [vm_compute; reflexivity|]. split; [vm_compute; reflexivity|]. vm_compute. lia.
Qed.
Example C150_case_key : exists t l1 l2 l3 l4 l5, sk_write PropPrivKey.ex_ed = Ok t
  /\ t = key_begin_line ++ [x0a] ++ l1 ++ [x0a] ++ l2 ++ [x0a] ++ l3 ++ [x0a] ++ l4 ++ [x0a] ++ l5 ++ [x0a] ++ key_end_line ++ [x0a]
  /\ map (@length _) [l1; l2; l3; l4; l5] = [70; 70; 70; 70; 44].
Proof.
  assert (E : exists t, sk_write PropPrivKey.ex_ed = Ok t) by (eexists; vm_compute; reflexivity). destruct E as (t & E).
  exists t, (firstn 70 (skipn 36 t)), (firstn 70 (skipn 107 t)), (firstn 70 (skipn 178 t)), (firstn 70 (skipn 249 t)), (firstn 44 (skipn 320 t)).
  split; [exact E|]. vm_compute in E. injection E as <-. split; vm_compute; reflexivity.
Qed.
Example C150_case_encoded : storable ex_features PropPrivKey.ex_ed /\ kept PropPrivKey.ex_ed PropPrivKey.ex_ed
  /\ exists front data, sk_encode PropPrivKey.ex_ed = Ok data /\ data = front ++ [x01; x02; x03; x04; x05; x06] /\ length data = 242.
Proof.
  split; [apply C52_case|]. split; [apply C52_case|].
  assert (E : exists d, sk_encode PropPrivKey.ex_ed = Ok d) by (eexists; vm_compute; reflexivity). destruct E as (d & E).
  exists (firstn (length d - 6) d), d. split; [exact E|]. vm_compute in E. injection E as <-. vm_compute. auto.
Qed.

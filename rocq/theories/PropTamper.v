(** Property C132: altering encrypted private key files. *)
From Verif Require Import Base BaseFacts Utf8 Utf8Facts Str StrFacts SpecWire SpecText SpecBase64
  SpecKeys SpecSig SpecSshSig SpecPrivKey SpecTamper Base64 Base64Facts Reader ReaderFacts LocalFacts KeyType
  KeyTypeFacts PubKeyType Writer WriterFacts WireFacts Crypto PubKey PubKeyFacts Signature
  SignatureFacts TbsFacts SshSigFacts Utils UtilsFacts PropSignature PrivKey PrivKeyFacts PropPrivKey.

(** ** Exclusive or *)
Lemma lxor_byte a b : (a < 256 -> b < 256 -> N.lxor a b < 256)%N.
Proof.
  intros Ha Hb. destruct (N.eq_dec (N.lxor a b) 0) as [->|Hz]; [lia|]. change 256%N with (2 ^ 8)%N. apply N.log2_lt_pow2; [lia|].
  pose proof (N.log2_lxor a b) as H.
  assert (X : forall c, (c < 256 -> N.log2 c < 8)%N).
  { intros c Hc. destruct (N.eq_dec c 0) as [->|]; [cbn; lia|]. apply N.log2_lt_pow2; [lia|exact Hc]. }
  pose proof (X a Ha). pose proof (X b Hb). lia.
Qed.
Lemma flip_n a b : b2n (flip a b) = N.lxor (b2n a) (b2n b).
Proof. unfold flip. rewrite b2n_n2b. apply N.mod_small, lxor_byte; apply b2n_lt. Qed.
Lemma flip_cancel a b : flip (flip a b) b = a.
Proof. apply b2n_inj. rewrite !flip_n, N.lxor_assoc, N.lxor_nilpotent, N.lxor_0_r. reflexivity. Qed.
Lemma flip_self a b : flip a (flip a b) = b.
Proof. apply b2n_inj. rewrite !flip_n, <- N.lxor_assoc, N.lxor_nilpotent, N.lxor_0_l. reflexivity. Qed.
Lemma flip_swap a b c : flip (flip (flip a b) c) b = flip a c.
Proof.
  apply b2n_inj. rewrite !flip_n. rewrite (N.lxor_assoc (N.lxor _ _) (b2n c) (b2n b)), (N.lxor_comm (b2n c) (b2n b)).
  rewrite <- (N.lxor_assoc (N.lxor _ _)), (N.lxor_assoc (b2n a)), N.lxor_nilpotent, N.lxor_0_r. reflexivity.
Qed.
Lemma flip_zero a : flip a x00 = a.
Proof. apply b2n_inj. rewrite flip_n. apply N.lxor_0_r. Qed.

Lemma flipped_length s : forall d, length (flipped s d) = length s.
Proof. induction s as [|a s IH]; intros [|b d]; cbn; auto. Qed.
Lemma flipped_self s : forall t, length t = length s -> flipped s (flipped s t) = t.
Proof. induction s as [|a s IH]; intros [|b t] H; try discriminate; cbn; [reflexivity|]. rewrite flip_self, IH; auto. Qed.
Lemma flipped_cancel s : forall d, flipped (flipped s d) d = s.
Proof. induction s as [|a s IH]; intros [|b d]; cbn; auto. rewrite flip_cancel, IH. reflexivity. Qed.
Lemma flipped_swap s : forall k d, length k = length s -> flipped (flipped (flipped s k) d) k = flipped s d.
Proof.
  induction s as [|a s IH]; intros [|b k] d H; try discriminate; [destruct d; reflexivity|]. destruct d as [|c d]; [exact (flipped_cancel (a :: s) (b :: k))|].
  cbn [flipped]. rewrite flip_swap, IH; auto.
Qed.
Lemma flipped_zeros s n : flipped s (zeros n) = s.
Proof. revert n; induction s as [|a s IH]; intros [|n]; cbn; auto. rewrite flip_zero. f_equal. apply IH. Qed.
Lemma flipped_app s : forall t d e, length d = length s -> flipped (s ++ t) (d ++ e) = flipped s d ++ flipped t e.
Proof. induction s as [|a s IH]; intros t [|b d] e H; try discriminate; cbn; [reflexivity|]. rewrite IH; auto. Qed.
Lemma stream_length ks n : length (stream ks n) = n.
Proof. unfold stream. rewrite map_length, seq_length. reflexivity. Qed.
Lemma encrypted_length ks p : length (encrypted ks p) = length p.
Proof. apply flipped_length. Qed.
Lemma zeros_length n : length (zeros n) = n.
Proof. apply repeat_length. Qed.

(** ** C132 *)
Lemma locked_run F K pass salt rounds more ks pub pk section tl : f_encrypted F = true -> field_ok salt -> (rounds <= u32_max)%N ->
  field_ok (field salt ++ be32 rounds ++ more) -> field_ok pub -> field_ok section -> section ++ tl <> [] ->
  streams K pass salt rounds ks -> pk_from_bytes pub = Ok pk ->
  run (sk_from_reader F K (Some pass)) (locked_file salt rounds more pub section ++ tl)
  = run (read_section F pk) (flipped section (stream ks (length section))).
Proof.
  intros He Hs Hr Ho Hp Hse Hn (out & Hb & Hk) Hpk. unfold locked_file. rewrite key_file_enc. rewrite field_ok_fits in *.
  apply file_run; try assumption; try (split; [unfold fits; cbn; lia|reflexivity]).
  apply decrypt_iff. econstructor; eauto. apply field_ok_fits; assumption.
Qed.
(** The altered file is read as exactly those keys that the altered plain text and the header hold. *)
Theorem C132_altered_files : forall (F : features) (K : keyops) (pass salt : bytes) (rounds : N) (ks : nat -> byte)
  (more pub plain d tl : bytes) (k : privkey),
  f_encrypted F = true -> field_ok salt -> (rounds <= u32_max)%N -> streams K pass salt rounds ks ->
  field_ok (field salt ++ be32 rounds ++ more) -> field_ok pub -> field_ok plain -> plain <> [] ->
  (run (sk_from_reader F K (Some pass)) (locked_file salt rounds more pub (flipped (encrypted ks plain) d) ++ tl) = Ok k
   <-> (exists padding, section_of F k padding (flipped plain d)) /\ exists post, pub_blob (sk_pub k) post pub).
Proof.
  intros F K pass salt rounds ks more pub plain d tl k He Hs Hr St Ho Hp Hpl Hne.
  assert (Hfs : field_ok (flipped (encrypted ks plain) d)).
  { unfold field_ok, size in *. rewrite flipped_length, encrypted_length. exact Hpl. }
  assert (Hfn : flipped (encrypted ks plain) d ++ tl <> []).
  { intros E. apply app_eq_nil in E. destruct E as [E _]. apply (f_equal (@length byte)) in E. rewrite flipped_length, encrypted_length in E.
    destruct plain; [congruence|discriminate]. }
  assert (Hx : flipped (flipped (encrypted ks plain) d) (stream ks (length (flipped (encrypted ks plain) d))) = flipped plain d).
  { rewrite flipped_length, encrypted_length. unfold encrypted. apply flipped_swap, stream_length. }
  split.
  - intros H. destruct (pk_from_bytes pub) as [pk|e|] eqn:Epk.
    + rewrite (locked_run F K pass salt rounds more ks pub pk) in H by assumption. rewrite Hx in H. apply read_section_iff in H.
      destruct H as (P & <- & M & pad & E). split; [exists pad; apply section_of_iff; auto|].
      apply pk_from_bytes_iff in Epk. destruct Epk as ((_ & _ & Q) & post & ->). exists post. apply pub_blob_iff. auto.
    + exfalso. unfold locked_file in H. rewrite key_file_enc in H. apply file_ginv in H; [|discriminate].
      destruct H as (ci' & kd' & op' & pkb & pub' & se' & pl & tl' & A1 & A2 & A3 & A4 & A5 & A6 & A7 & A8 & E & H).
      unfold enc_file in E. rewrite <- !app_assoc in E. do 2 apply app_inv_head in E. rewrite field_ok_fits in *.
      apply enc_bytes_inj in E; [|vm_compute; reflexivity|apply A1]. destruct E as [_ E].
      apply enc_bytes_inj in E; [|vm_compute; reflexivity|apply A2]. destruct E as [_ E].
      apply enc_bytes_inj in E; [|assumption|apply A3]. destruct E as [_ E]. apply app_inv_head in E.
      apply enc_bytes_inj in E; [|assumption|apply A4]. destruct E as [<- _]. congruence.
    + exfalso. exact (pk_from_bytes_not_panic _ Epk).
  - intros ((pad & S) & post & B). apply section_of_iff in S. destruct S as (M & P & E). pose proof P as (K1 & _ & K2 & K3 & _).
    apply pub_blob_iff in B. destruct B as (B & E2).
    assert (Epk : pk_from_bytes pub = Ok (sk_pub k)).
    { apply pk_from_bytes_iff. split; [|eauto]. unfold key_ok. rewrite K2 in *. auto. }
    rewrite (locked_run F K pass salt rounds more ks pub (sk_pub k)) by assumption. rewrite Hx. apply read_section_iff. split; [exact P|]. eauto.
Qed.
Print Assumptions C132_altered_files.

Lemma section_nonempty F k pad plain : section_of F k pad plain -> plain <> [].
Proof. intros H. apply section_of_iff in H. destruct H as (_ & _ & ->). unfold enc_section. rewrite <- app_assoc. discriminate. Qed.
(** Whoever knows the plain text can put any key in its place that takes as much room. *)
Theorem C132_known_text : forall (F : features) (K : keyops) (pass salt : bytes) (rounds : N) (ks : nat -> byte)
  (more pub plain tl : bytes) (k : privkey) (plain' padding post : bytes),
  f_encrypted F = true -> field_ok salt -> (rounds <= u32_max)%N -> streams K pass salt rounds ks ->
  field_ok (field salt ++ be32 rounds ++ more) -> field_ok pub -> field_ok plain -> length plain' = length plain ->
  section_of F k padding plain' -> pub_blob (sk_pub k) post pub ->
  run (sk_from_reader F K (Some pass)) (locked_file salt rounds more pub (flipped (encrypted ks plain) (flipped plain plain')) ++ tl) = Ok k.
Proof.
  intros F K pass salt rounds ks more pub plain tl k plain' pad post He Hs Hr St Ho Hp Hpl Hl S B.
  apply C132_altered_files; try assumption; [intros ->; apply section_nonempty in S; destruct plain'; [congruence|discriminate]|].
  rewrite flipped_self by assumption. eauto.
Qed.
Print Assumptions C132_known_text.

Lemma public_part_enc pk pp : public_part pk pp -> exists b, pp = enc_bytes (kt_name (pk_type pk)) ++ b
  /\ match pk_kind pk with PkRsa e n => b = enc_num n ++ enc_num e | _ => b = enc_kind (pk_kind pk) end.
Proof.
  intros [e n be bn E He Hn|b E Hb].
  - apply mpint_num in He. apply mpint_num in Hn. destruct He as [_ ->], Hn as [_ ->]. rewrite E, field_enc. eauto.
  - apply key_data_iff in Hb. destruct Hb as [_ ->]. rewrite field_enc. eexists. split; [reflexivity|].
    destruct (pk_kind pk) as [e n| |] eqn:Ek; try reflexivity. exfalso. exact (E e n eq_refl).
Qed.
Lemma public_part_front F k pp : priv_ok F k -> public_part (sk_pub k) pp ->
  exists r, enc_priv k = pp ++ r
  /\ match sk_kind k with
     | SkRsa _ => True
     | SkEcdsa _ key | SkEd25519 key => r = enc_bytes key ++ enc_bytes (sk_comment k)
     | SkEcdsaSk h | SkEd25519Sk h => r = [hw_flags h] ++ enc_bytes (hw_handle h) ++ enc_bytes (hw_reserved h) ++ enc_bytes (sk_comment k)
     end.
Proof.
  intros (_ & _ & K2 & _ & S & _) P. apply public_part_enc in P. destruct P as (b & -> & Eb). unfold enc_priv. rewrite K2.
  destruct (sk_kind k) as [r|c key|key|h|h] eqn:Ek; destruct (pk_kind (sk_pub k)) as [e n|c' pk app|pk app] eqn:Ep; cbn in S; try contradiction;
    try (subst b; unfold enc_sec; eexists; split; [|reflexivity]; rewrite <- !app_assoc; reflexivity).
  destruct S as (_ & Ee & En & _). subst. unfold enc_sec. exists (enc_num (rp_d r) ++ enc_num (rp_coefficient r) ++ enc_num (rp_p r) ++ enc_num (rp_q r) ++ enc_bytes (sk_comment k)).
  split; [rewrite <- !app_assoc; reflexivity|exact I].
Qed.
Lemma section_front F k pad plain pp : section_of F k pad plain -> public_part (sk_pub k) pp ->
  exists r, enc_priv k = pp ++ r /\ plain = (to_be 4 (sk_magic k) ++ to_be 4 (sk_magic k) ++ pp) ++ r ++ pad.
Proof.
  intros S P. apply section_of_iff in S. destruct S as (_ & Ok & ->). destruct (public_part_front F k pp Ok P) as (r & E & _).
  exists r. split; [exact E|]. unfold enc_section. rewrite E, <- !app_assoc. reflexivity.
Qed.
Lemma front_length m pp : length (to_be 4 m ++ to_be 4 m ++ pp) = 8 + length pp.
Proof. rewrite !app_length, !to_be_length. reflexivity. Qed.
Lemma flipped_middle pre x post d n : length pre = n -> length d = length x -> flipped (pre ++ x ++ post) (zeros n ++ d) = pre ++ flipped x d ++ post.
Proof.
  intros Hn Hd. rewrite flipped_app by (rewrite zeros_length; congruence). rewrite flipped_zeros. f_equal. rewrite <- (app_nil_r d) at 1.
  rewrite flipped_app by assumption. f_equal. destruct post; reflexivity.
Qed.
Lemma flipped_field key d : length d = length key -> enc_bytes (flipped key d) = to_be 4 (N.of_nat (length key)) ++ flipped key d.
Proof. intros H. unfold enc_bytes. rewrite flipped_length. reflexivity. Qed.

(** Without knowing the passphrase or the plain text, any bits of the secret can be inverted: the file is
    still read, as the same key with that other secret. *)
Theorem C132_secret_changed : forall (F : features) (K : keyops) (pass salt : bytes) (rounds : N) (ks : nat -> byte)
  (more pub plain tl : bytes) (k : privkey) (padding post pp key d : bytes) (sec' : priv_kind),
  f_encrypted F = true -> field_ok salt -> (rounds <= u32_max)%N -> streams K pass salt rounds ks ->
  field_ok (field salt ++ be32 rounds ++ more) -> field_ok pub -> field_ok plain ->
  section_of F k padding plain -> pub_blob (sk_pub k) post pub -> public_part (sk_pub k) pp ->
  (sk_kind k = SkEd25519 key /\ sec' = SkEd25519 (flipped key d)) \/ (exists c, sk_kind k = SkEcdsa c key /\ sec' = SkEcdsa c (flipped key d)) ->
  length d = length key ->
  run (sk_from_reader F K (Some pass))
    (locked_file salt rounds more pub (flipped (encrypted ks plain) (zeros (12 + length pp) ++ d)) ++ tl) = Ok (with_secret k sec').
Proof.
  intros F K pass salt rounds ks more pub plain tl k pad post pp key d sec' He Hs Hr St Ho Hp Hpl S B P X Hd.
  apply C132_altered_files; try assumption; [exact (section_nonempty _ _ _ _ S)|]. split; [|exists post; exact B].
  exists pad. apply section_of_iff in S. destruct S as (M & O & E). apply section_of_iff. split; [exact M|].
  destruct (public_part_front F k pp O P) as (r & Er & Hr').
  assert (O' : priv_ok F (with_secret k sec')).
  { destruct O as (O1 & O2 & O3 & O4 & O5 & O6). repeat (split; [assumption|]). split; [|exact O6]. cbn [with_secret sk_type sk_pub sk_kind].
    destruct X as [[Xk ->]|(c & Xk & ->)]; rewrite Xk in O5; unfold sec_ok in O5 |- *; destruct (pk_kind (sk_pub k)) as [|? ? []|? []]; try contradiction;
      assert (Ff : fits key -> fits (flipped key d)) by (unfold fits; rewrite flipped_length; auto); tauto. }
  split; [exact O'|]. destruct (public_part_front F (with_secret k sec') pp O' P) as (r' & Er' & Hr2).
  rewrite E. unfold enc_section. rewrite Er, Er'. cbn [with_secret sk_magic].
  assert (R : r = to_be 4 (N.of_nat (length key)) ++ key ++ enc_bytes (sk_comment k)).
  { destruct X as [[Xk _]|(c & Xk & _)]; rewrite Xk in Hr'; rewrite Hr'; unfold enc_bytes at 1; rewrite <- app_assoc; reflexivity. }
  assert (R' : r' = to_be 4 (N.of_nat (length key)) ++ flipped key d ++ enc_bytes (sk_comment k)).
  { destruct X as [[_ ->]|(c & _ & ->)]; cbn [with_secret sk_kind sk_comment] in Hr2; rewrite Hr2, flipped_field by assumption; rewrite <- app_assoc; reflexivity. }
  rewrite R, R'. rewrite <- !app_assoc.
  transitivity (flipped ((to_be 4 (sk_magic k) ++ to_be 4 (sk_magic k) ++ pp ++ to_be 4 (N.of_nat (length key))) ++ key ++ enc_bytes (sk_comment k) ++ pad) (zeros (12 + length pp) ++ d)).
  - rewrite <- !app_assoc. reflexivity.
  - rewrite flipped_middle; [rewrite <- !app_assoc; reflexivity| |exact Hd]. rewrite !app_length, !to_be_length. lia.
Qed.
Print Assumptions C132_secret_changed.

(** The same holds for the flags of a hardware key, such as the one that asks for a touch. *)
Theorem C132_flags_changed : forall (F : features) (K : keyops) (pass salt : bytes) (rounds : N) (ks : nat -> byte)
  (more pub plain tl : bytes) (k : privkey) (padding post pp : bytes) (h : hw_priv) (x : byte) (sec' : priv_kind),
  f_encrypted F = true -> field_ok salt -> (rounds <= u32_max)%N -> streams K pass salt rounds ks ->
  field_ok (field salt ++ be32 rounds ++ more) -> field_ok pub -> field_ok plain ->
  section_of F k padding plain -> pub_blob (sk_pub k) post pub -> public_part (sk_pub k) pp ->
  let h' := mkHw (flip (hw_flags h) x) (hw_handle h) (hw_reserved h) (hw_pin h) (hw_device_path h) in
  (sk_kind k = SkEd25519Sk h /\ sec' = SkEd25519Sk h') \/ (sk_kind k = SkEcdsaSk h /\ sec' = SkEcdsaSk h') ->
  run (sk_from_reader F K (Some pass))
    (locked_file salt rounds more pub (flipped (encrypted ks plain) (zeros (8 + length pp) ++ [x])) ++ tl) = Ok (with_secret k sec').
Proof.
  intros F K pass salt rounds ks more pub plain tl k pad post pp h x sec' He Hs Hr St Ho Hp Hpl S B P h' X.
  apply C132_altered_files; try assumption; [exact (section_nonempty _ _ _ _ S)|]. split; [|exists post; exact B].
  exists pad. apply section_of_iff in S. destruct S as (M & O & E). apply section_of_iff. split; [exact M|].
  destruct (public_part_front F k pp O P) as (r & Er & Hr').
  assert (O' : priv_ok F (with_secret k sec')).
  { destruct O as (O1 & O2 & O3 & O4 & O5 & O6). repeat (split; [assumption|]). split; [|exact O6]. cbn [with_secret sk_type sk_pub sk_kind].
    destruct X as [[Xk ->]|[Xk ->]]; rewrite Xk in O5; cbn in O5 |- *; destruct (pk_kind (sk_pub k)) as [|? ? []|? []]; try contradiction; exact O5. }
  split; [exact O'|]. destruct (public_part_front F (with_secret k sec') pp O' P) as (r' & Er' & Hr2).
  rewrite E. unfold enc_section. rewrite Er, Er'. cbn [with_secret sk_magic].
  set (rest := enc_bytes (hw_handle h) ++ enc_bytes (hw_reserved h) ++ enc_bytes (sk_comment k)).
  assert (R : r = [hw_flags h] ++ rest) by (destruct X as [[Xk _]|[Xk _]]; rewrite Xk in Hr'; exact Hr').
  assert (R' : r' = [flip (hw_flags h) x] ++ rest) by (destruct X as [[_ ->]|[_ ->]]; exact Hr2).
  rewrite R, R'.
  transitivity (flipped ((to_be 4 (sk_magic k) ++ to_be 4 (sk_magic k) ++ pp) ++ [hw_flags h] ++ rest ++ pad) (zeros (8 + length pp) ++ [x])).
  - rewrite <- !app_assoc. reflexivity.
  - rewrite flipped_middle; [rewrite <- !app_assoc; reflexivity|apply front_length|reflexivity].
Qed.
Print Assumptions C132_flags_changed.

Lemma flipped_xx s : flipped s s = zeros (length s).
Proof. induction s as [|a s IH]; cbn; [reflexivity|]. rewrite IH. f_equal. apply b2n_inj. rewrite flip_n. apply N.lxor_nilpotent. Qed.
(** If only the section is altered, a key that is still read has the public key of the original, and the
    alteration left the type name and the public key alone and changed both check integers alike. *)
Theorem C132_public_part_kept : forall (F : features) (K : keyops) (pass salt : bytes) (rounds : N) (ks : nat -> byte)
  (more pub plain d tl : bytes) (k k' : privkey) (padding post pp : bytes),
  f_encrypted F = true -> field_ok salt -> (rounds <= u32_max)%N -> streams K pass salt rounds ks ->
  field_ok (field salt ++ be32 rounds ++ more) -> field_ok pub -> field_ok plain ->
  section_of F k padding plain -> pub_blob (sk_pub k) post pub -> public_part (sk_pub k) pp -> length d = length plain ->
  run (sk_from_reader F K (Some pass)) (locked_file salt rounds more pub (flipped (encrypted ks plain) d) ++ tl) = Ok k' ->
  sk_pub k' = sk_pub k /\ exists m rest, length m = 4 /\ d = m ++ m ++ zeros (length pp) ++ rest.
Proof.
  intros F K pass salt rounds ks more pub plain d tl k k' pad post pp He Hs Hr St Ho Hp Hpl S B P Hd R.
  apply C132_altered_files in R; try assumption; [|exact (section_nonempty _ _ _ _ S)]. destruct R as ((pad' & S') & post' & B').
  assert (Ek : sk_pub k' = sk_pub k).
  { assert (Y : forall k pad plain post, section_of F k pad plain -> pub_blob (sk_pub k) post pub -> pk_from_bytes pub = Ok (sk_pub k)).
    { clear. intros k pad plain post S B. apply section_of_iff in S. destruct S as (_ & (K1 & _ & K2 & K3 & _) & _). apply pub_blob_iff in B. destruct B as [B E].
      apply pk_from_bytes_iff. split; [|eauto]. unfold key_ok. rewrite K2 in *. auto. }
    pose proof (Y _ _ _ _ S B). pose proof (Y _ _ _ _ S' B'). congruence. }
  split; [exact Ek|]. rewrite <- Ek in P. destruct (section_front _ _ _ _ _ S' P) as (r' & _ & E'). rewrite Ek in P.
  destruct (section_front _ _ _ _ _ S P) as (r & _ & E).
  exists (flipped (to_be 4 (sk_magic k)) (to_be 4 (sk_magic k'))), (flipped (r ++ pad) (r' ++ pad')).
  split; [rewrite flipped_length; apply to_be_length|]. rewrite <- flipped_xx, <- (flipped_self plain d Hd), E', E.
  rewrite flipped_app by (rewrite !front_length; reflexivity). rewrite !flipped_app by (rewrite !to_be_length; reflexivity).
  rewrite <- !app_assoc. reflexivity.
Qed.
Print Assumptions C132_public_part_kept.
(** An alteration that treats the two check integers differently is noticed. *)
Theorem C132_check_integers : forall (F : features) (K : keyops) (pass salt : bytes) (rounds : N) (ks : nat -> byte)
  (more pub plain m1 m2 rest tl : bytes) (k : privkey) (padding post : bytes),
  f_encrypted F = true -> field_ok salt -> (rounds <= u32_max)%N -> streams K pass salt rounds ks ->
  field_ok (field salt ++ be32 rounds ++ more) -> field_ok pub -> field_ok plain ->
  section_of F k padding plain -> pub_blob (sk_pub k) post pub ->
  length m1 = 4 -> length m2 = 4 -> m1 <> m2 ->
  run (sk_from_reader F K (Some pass)) (locked_file salt rounds more pub (flipped (encrypted ks plain) (m1 ++ m2 ++ rest)) ++ tl)
  = Err EInvalidFormat.
Proof.
  intros F K pass salt rounds ks more pub plain m1 m2 rest tl k pad post He Hs Hr St Ho Hp Hpl S B L1 L2 Hm.
  pose proof (section_nonempty _ _ _ _ S) as Hne. apply section_of_iff in S. destruct S as (_ & (K1 & _ & K2 & K3 & _) & E).
  apply pub_blob_iff in B. destruct B as [B Eb].
  assert (Epk : pk_from_bytes pub = Ok (sk_pub k)) by (apply pk_from_bytes_iff; split; [unfold key_ok; rewrite K2 in *; auto|eauto]).
  rewrite (locked_run F K pass salt rounds more ks pub (sk_pub k)); try assumption.
  - rewrite flipped_length, encrypted_length. unfold encrypted at 1. rewrite flipped_swap by apply stream_length.
    rewrite E. unfold enc_section. rewrite <- !app_assoc. rewrite !flipped_app by (rewrite to_be_length; assumption).
    set (A := to_be 4 (sk_magic k)). assert (LA : length A = 4) by apply to_be_length.
    assert (X : forall m, exists n, flipped A m = to_be 4 n /\ (n < 2 ^ 32)%N).
    { intros m. exists (from_be (flipped A m)). assert (L : length (flipped A m) = 4) by (rewrite flipped_length; exact LA). split.
      - rewrite <- L at 1. symmetry. apply to_be_from_be.
      - pose proof (from_be_bound (flipped A m)) as Y. rewrite L in Y. exact Y. }
    destruct (X m1) as (n1 & E1 & B1), (X m2) as (n2 & E2 & B2). rewrite E1, E2. unfold read_section.
    rewrite step_u32 by (try assumption; local_tac). rewrite step_u32 by (try assumption; local_tac).
    destruct (N.eqb_spec n1 n2) as [En|En]; [|reflexivity]. exfalso. apply Hm.
    rewrite <- (flipped_self A m1), <- (flipped_self A m2) by congruence. rewrite E1, E2, En. reflexivity.
  - unfold field_ok, size in *. rewrite flipped_length, encrypted_length. exact Hpl.
  - intros Z. apply app_eq_nil in Z. destruct Z as [Z _]. apply (f_equal (@length byte)) in Z. rewrite flipped_length, encrypted_length in Z.
    destruct plain; [congruence|discriminate].
Qed.
Print Assumptions C132_check_integers.

(** Giving a passphrase does not mean that the file was encrypted with it: an unencrypted file is read with
    every passphrase, so a file can be replaced by one with any other key. *)
Theorem C132_replaced_files : forall (F : features) (k : privkey), storable F k -> plain_reserved k ->
  exists text, forall (K : keyops) (pass : option bytes), sk_from_string F K text pass = Ok k.
Proof.
  intros F k S R.
  assert (Hk : kept k k).
  { pose proof S as (pub & section & _ & _ & (_ & b & P & _) & _). exact (C52_parsed_keys_kept F k b P R). }
  destruct (C53_text_round_trip F ex_ops None k k S Hk) as (text & W & _). exists text. intros K pass.
  destruct (C53_text_round_trip F K pass k k S Hk) as (text' & W' & H). congruence.
Qed.
Print Assumptions C132_replaced_files.

(** ** Exceptions and examples *)
(** A cipher that adds a repeated key. *)
Definition ex_ks (out : bytes) (i : nat) : byte := nth (Nat.modulo i 32) out x00.
Definition ex_stream_ops : keyops :=
  mkKeyops (fun p s r => Some (firstn 48 (p ++ s ++ repeat x07 48)))
    (fun k i d => Some (flipped d (stream (ex_ks k) (length d)))) (fun _ _ => None)
    (fun _ _ _ _ => None) (fun _ _ _ => Some (repeat x11 64)) (fun s => s)
    (fun _ _ _ _ _ => None) (fun _ _ _ _ => Ok None).
Definition ex_pass : bytes := s2b "correct horse".
Definition ex_salt : bytes := s2b "0123456789abcdef".
Definition ex_out : bytes := firstn 48 (ex_pass ++ ex_salt ++ repeat x07 48).
Definition ex_plain (k : privkey) : bytes := enc_section k ++ firstn 3 pad_bytes.
Definition ex_locked (k : privkey) (d : bytes) : bytes :=
  locked_file ex_salt 16 [] (enc_key (sk_pub k)) (flipped (encrypted (ex_ks (firstn 32 ex_out)) (ex_plain k)) d).

(** Altered files are not always refused: one inverted bit in the section gives another secret, or turns
    off the flag that asks for a touch. *)
Theorem C132_altered_refused_refuted : exists (F : features) (K : keyops) (pass data data' : bytes) (k k' : privkey) (h : hw_priv),
  run (sk_from_reader F K (Some pass)) data = Ok k /\ run (sk_from_reader F K (Some pass)) data' = Ok k'
  /\ run (sk_from_reader F K (Some (s2b "wrong"))) data = Err EInvalidFormat
  /\ length data' = length data /\ sk_pub k' = sk_pub k
  /\ sk_kind k = SkEd25519Sk h /\ hw_flags h = x01 /\ sk_kind k' = SkEd25519Sk (mkHw x00 (hw_handle h) (hw_reserved h) None None).
Proof.
  exists ex_features, ex_stream_ops, ex_pass, (ex_locked ex_hw []), (ex_locked ex_hw (zeros (8 + 30 + 36 + 8) ++ [x01])), ex_hw.
  eexists _, _. split; [vm_compute; reflexivity|]. split; [vm_compute; reflexivity|]. split; [vm_compute; reflexivity|].
  split; [vm_compute; reflexivity|]. split; [vm_compute; reflexivity|]. split; [reflexivity|]. split; vm_compute; reflexivity.
Qed.
Print Assumptions C132_altered_refused_refuted.

Example C132_case : streams ex_stream_ops ex_pass ex_salt 16 (ex_ks (firstn 32 ex_out))
  /\ field_ok ex_salt /\ field_ok (field ex_salt ++ be32 16 ++ []) /\ field_ok (enc_key (sk_pub ex_ed)) /\ field_ok (ex_plain ex_ed)
  /\ section_of ex_features ex_ed (firstn 3 pad_bytes) (ex_plain ex_ed) /\ pub_blob (sk_pub ex_ed) [] (enc_key (sk_pub ex_ed))
  /\ public_part (sk_pub ex_ed) (enc_key (sk_pub ex_ed)).
Proof.
  assert (S := ex_ed_storable). apply storable_iff in S. destruct S as (P & M & _).
  assert (Q : kind_ok (pk_type (sk_pub ex_ed)) (pk_kind (sk_pub ex_ed))) by (repeat split; small).
  split; [exists ex_out; split; reflexivity|]. do 4 (split; [vm_compute; discriminate|]).
  split; [apply section_of_iff; split; [exact M|]; split; [exact P|reflexivity]|].
  split; [apply pub_blob_iff; rewrite app_nil_r; auto|]. unfold enc_key. rewrite <- field_enc. apply PP_other; [discriminate|]. apply key_data_iff. auto.
Qed.
(** The secret of the example file with its first byte inverted, and a file with one check integer changed. *)
Example C132_case_changed :
  run (sk_from_reader ex_features ex_stream_ops (Some ex_pass)) (ex_locked ex_ed []) = Ok ex_ed
  /\ run (sk_from_reader ex_features ex_stream_ops (Some ex_pass)) (ex_locked ex_ed (zeros (12 + length (enc_key (sk_pub ex_ed))) ++ [xff] ++ zeros 63))
     = Ok (with_secret ex_ed (SkEd25519 (xdd :: repeat x22 63)))
  /\ run (sk_from_reader ex_features ex_stream_ops (Some ex_pass)) (ex_locked ex_ed ([x01] ++ zeros 3 ++ zeros 4)) = Err EInvalidFormat
  /\ run (sk_from_reader ex_features ex_stream_ops (Some ex_pass)) (ex_locked ex_ed (zeros 12 ++ [x01])) = Err (EUnknownKeyType (s2b "rsh-ed25519")).
Proof. split; [vm_compute; reflexivity|]. split; [vm_compute; reflexivity|]. split; vm_compute; reflexivity. Qed.

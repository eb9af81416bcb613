(** Property C130: checking file signatures against the entries of an allowed_signers file. *)
From Coq Require Import Lia.
From Verif Require Import Base BaseFacts Utf8 Utf8Facts Str StrFacts SpecWire SpecText SpecBase64 SpecKeys SpecSig SpecCert SpecSshSig
  KeyType KeyTypeFacts PubKeyType PubKey PubKeyFacts Base64 Base64Facts Chrono AllowedSigner SpecSigner ChronoFacts SignerFacts EntryFacts
  FileFacts Crypto Signature SshSigFacts TbsFacts PrivKey SpecPrivKey SpecSign CutFacts CutSignerFacts KindFacts SpecTrusted PropPubKey PropCert PropSshSig PropSigner
  PrivKeyFacts PropPrivKey PropSign.

Lemma line_words_text s ws : line_words s ws -> utf8_text s -> Forall utf8_text ws.
Proof.
  induction 1 as [l Hn|n w rest ws Hw He Hl IH]; intros U; [constructor|].
  pose proof (utf8_text_rest _ (run_text _ (spaces_run n)) _ U) as U1.
  pose proof (front_text _ w rest U1 eq_refl He) as Uw. constructor; [exact Uw|]. apply IH. exact (utf8_text_rest _ Uw _ U1).
Qed.
Lemma two_words_text kt kd : utf8_text kt -> utf8_text kd -> utf8_text (kt ++ [x20] ++ kd).
Proof.
  intros H1 H2. apply utf8_text_app; [exact H1|]. apply utf8_text_app; [apply (run_text _ (spaces_run 1))|exact H2].
Qed.
Lemma snoc2_inj {A} (xs ys : list A) a b c d : xs ++ [a; b] = ys ++ [c; d] -> a = c /\ b = d.
Proof.
  intros E. change [a; b] with ([a] ++ [b]) in E. change [c; d] with ([c] ++ [d]) in E. rewrite !app_assoc in E.
  apply app_inj_tail in E. destruct E as [E ->]. apply app_inj_tail in E. destruct E as [_ ->]. auto.
Qed.

Lemma spells_key tz line a : utf8_text line -> accepted_line tz line a -> forall k, supported (pk_type k) -> pk_comment k = None ->
  (spells line k <-> as_key a = k).
Proof.
  intros U (Q & pw & pt & ows & kt & kd & o & W & _ & _ & _ & _ & _ & K & _) k S N.
  pose proof (line_words_text _ _ W U) as T. inversion T as [|? ? _ T1]; subst. apply Forall_app in T1. destruct T1 as [_ T1].
  inversion T1 as [|? ? T2 T3]; subst. inversion T3 as [|? ? T4 _]; subst.
  split.
  - intros (pw' & ows' & kt' & kd' & w & pad & d & post & W' & X & D & B).
    pose proof (C62_words_unique _ _ _ Q W W') as E. injection E as _ E. apply snoc2_inj in E. destruct E as [<- <-].
    pose proof (C24_label_matches_blob _ _ X) as [L _].
    assert (P : pk_from_string (kt ++ [x20] ++ kd) = Ok k).
    { apply L. split; [reflexivity|]. split; [exact S|]. split; [exact N|]. exists pad, d, post. auto. }
    rewrite K in P. now apply ok_inj in P.
  - intros <-. pose proof (split_whitespace_words _ (two_words_text _ _ T2 T4)) as X.
    destruct (split_whitespace (kt ++ [x20] ++ kd)) as [|label [|w more]] eqn:Es.
    + pose proof (C24_label_matches_blob _ _ X) as L. cbv beta iota in L. rewrite K in L. discriminate.
    + pose proof (C24_label_matches_blob _ _ X) as L. cbv beta iota in L. rewrite K in L. discriminate.
    + pose proof (C24_label_matches_blob _ _ X) as [L _]. apply L in K. destruct K as (<- & _ & Hm & pad & d & post & D & B).
      rewrite N in Hm. destruct more; [|discriminate].
      exists pw, ows, kt, kd, w, pad, d, post. auto.
Qed.
Lemma read_key text s : sshsig_from_armored_string text = Ok s -> supported (pk_type (ss_pubkey s)) /\ pk_comment (ss_pubkey s) = None
  /\ field_ok (ss_namespace s).
Proof.
  intros H. apply C47_accepts_exactly in H. destruct H as (bs & tl & (kd & post & rv & n & H1 & H2 & _ & _ & _ & H3 & _) & _). auto.
Qed.

(** A signature is accepted with the key of an entry exactly if the line spells its key, the namespace
    is the one asked for, and it is a signature of the message by that key. *)
Theorem C130_checked_with_entry : forall (C : crypto) (tz : timezone) (line text m ns : bytes) (a : allowed_signer) (s : sshsig) (v : verified),
  digests_fit C -> utf8_text line -> as_from_string tz line = Ok a -> sshsig_from_armored_string text = Ok s ->
  (from_ssh_signature C m s ns (Some (as_key a)) = Ok v <->
   spells line (ss_pubkey s) /\ ns = ss_namespace s
   /\ (exists p, payload C ns (ss_hash s) m p /\ accepted C (ss_pubkey s) p (ss_signature s)) /\ v = mkVerified s m).
Proof.
  intros C tz line text m ns a s v Hd U A P. apply accepted_iff in A. destruct (read_key _ _ P) as (K1 & K2 & K3).
  rewrite (C48_binds C m s ns (Some (as_key a)) v K3 Hd), (spells_key tz line a U A _ K1 K2). split.
  - intros (-> & E & X & V1 & V2). split; [apply E; reflexivity|]. split; [reflexivity|]. split; [exact X|]. destruct v. cbn in *. congruence.
  - intros (E & -> & X & ->). split; [reflexivity|]. split; [intros k [= <-]; exact E|]. auto.
Qed.
Print Assumptions C130_checked_with_entry.

(** Every other outcome is one error; no entry makes the check panic. *)
Theorem C130_otherwise_invalid : forall (C : crypto) (tz : timezone) (line text m ns : bytes) (a : allowed_signer) (s : sshsig),
  utf8_text line -> as_from_string tz line = Ok a -> sshsig_from_armored_string text = Ok s ->
  ~ spells line (ss_pubkey s) -> from_ssh_signature C m s ns (Some (as_key a)) = Err EInvalidSignature.
Proof.
  intros C tz line text m ns a s U A P N. apply accepted_iff in A. destruct (read_key _ _ P) as (K1 & K2 & _).
  unfold from_ssh_signature. destruct (pubkey_eqb (ss_pubkey s) (as_key a)) eqn:E; [|reflexivity].
  exfalso. apply N. apply (spells_key tz line a U A _ K1 K2). apply pubkey_eqb_eq in E. congruence.
Qed.
Print Assumptions C130_otherwise_invalid.

(** ** Whole files *)
Lemma names_principal tz line a p : accepted_line tz line a -> (names line p <-> In p (as_principals a)).
Proof.
  intros (Q & pw & pt & ows & kt & kd & o & W & Up & Cl & _). split.
  - intros (pw' & ws & u & l & W' & Uu & Cl' & I). pose proof (C62_words_unique _ _ _ Q W W') as E. injection E as <- _.
    pose proof (unquoted_fun _ _ _ Up Uu) as <-. apply split_on_iff in Cl, Cl'. congruence.
  - intros I. eexists _, _, pt, (as_principals a). split; [exact W|]. auto.
Qed.
Lemma entries_in tz ls es : entries tz ls es -> forall a, In a es -> exists l t, In l ls /\ ~ no_entry l /\ stripped l t /\ accepted_line tz t a.
Proof.
  induction 1 as [|l ls es N E IH|l t a ls es N St A E IH]; intros b I.
  - destruct I.
  - destruct (IH b I) as (l' & t' & H1 & H2). exists l', t'. split; [right; exact H1|exact H2].
  - destruct I as [<-|I]; [exists l, t; split; [left; reflexivity|auto]|].
    destruct (IH b I) as (l' & t' & H1 & H2). exists l', t'. split; [right; exact H1|exact H2].
Qed.
Lemma entries_of tz ls es : entries tz ls es -> forall l t, In l ls -> ~ no_entry l -> stripped l t ->
  exists a, In a es /\ accepted_line tz t a.
Proof.
  induction 1 as [|l ls es N E IH|l t a ls es N St A E IH]; intros l' t' I N' S'.
  - destruct I.
  - destruct I as [<-|I]; [contradiction|]. eauto.
  - destruct I as [<-|I].
    + exists a. split; [left; reflexivity|]. apply trim_iff' in St, S'. rewrite <- S', St. exact A.
    + destruct (IH l' t' I N' S') as (b & B1 & B2). exists b. split; [right; exact B1|exact B2].
Qed.

(** Looking a signature up in a file: it is accepted for the principal [p] exactly if a line lists [p]
    and spells the key of the signature. *)
Theorem C130_checked_with_file : forall (C : crypto) (tz : timezone) (file text m ns p : bytes) (ls : list bytes) (es : list allowed_signer)
    (s : sshsig) (v : verified),
  digests_fit C -> utf8_text file -> lines_of file ls -> signers_from_string tz file = Ok es -> sshsig_from_armored_string text = Ok s ->
  ((exists a, In a es /\ In p (as_principals a) /\ from_ssh_signature C m s ns (Some (as_key a)) = Ok v) <->
   (exists l t, In l ls /\ ~ no_entry l /\ stripped l t /\ names t p /\ spells t (ss_pubkey s))
   /\ ns = ss_namespace s /\ (exists q, payload C ns (ss_hash s) m q /\ accepted C (ss_pubkey s) q (ss_signature s)) /\ v = mkVerified s m).
Proof.
  intros C tz file text m ns p ls es s v Hd U L F P. apply (C66_file_is_its_lines tz file ls L) in F.
  destruct (words_lines file ls L U) as [_ Ul]. rewrite Forall_forall in Ul. split.
  - intros (a & I & Ip & V). destruct (entries_in _ _ _ F a I) as (l & t & Il & Nl & St & A).
    destruct (words_stripped l t (Ul l Il) St) as [_ Ut]. pose proof (proj2 (accepted_iff tz t a) A) as R.
    apply (C130_checked_with_entry C tz t text m ns a s v Hd Ut R P) in V. destruct V as (V1 & V2 & V3 & V4).
    split; [|auto]. exists l, t. split; [exact Il|]. split; [exact Nl|]. split; [exact St|]. split; [|exact V1].
    apply (names_principal tz t a p A), Ip.
  - intros ((l & t & Il & Nl & St & Np & Sp) & V). destruct (entries_of _ _ _ F l t Il Nl St) as (a & I & A).
    destruct (words_stripped l t (Ul l Il) St) as [_ Ut]. exists a. split; [exact I|].
    split; [apply (names_principal tz t a p A), Np|]. apply (C130_checked_with_entry C tz t text m ns a s v Hd Ut (proj2 (accepted_iff tz t a) A) P).
    auto.
Qed.
Print Assumptions C130_checked_with_file.

(** ** From signing to checking *)
(** A signature made with a private key, printed and read again, is accepted with the printed and read
    entry for its public key. *)
Theorem C130_signed_then_checked : forall (F : features) (C : crypto) (K : keyops) (tz : timezone) (k k' : privkey) (a : allowed_signer)
    (b m ns p blob : bytes) (h : option hash_alg),
  priv_data F k b -> configured k k' -> name_fits (sk_pub k) ->
  software_signs C K -> (forall hw, hardware k hw -> device_signs C K (sk_pub k) (hw_handle hw)) ->
  plain_entry a -> as_key a = sk_pub k -> as_valid_after a = None -> as_valid_before a = None ->
  (forall d, key_data (pk_type (sk_pub k)) (pk_kind (sk_pub k)) d -> field_ok (field (kt_name (pk_type (sk_pub k))) ++ d)) ->
  utf8_text ns -> field_ok ns -> ns <> [] -> digests_fit C -> payload C ns (chosen h) m p ->
  sk_sign F C K k' p = Ok (Some blob) -> field_ok blob ->
  exists line e v text s, as_display a = Ok line /\ as_from_string tz line = Ok e
    /\ new_with_private_key C m ns (sk_pub k) (sk_sign F C K k') h = Ok v
    /\ sshsig_display (vs_signature v) = Ok text /\ sshsig_from_armored_string text = Ok s
    /\ from_ssh_signature C m s ns (Some (as_key e)) = Ok v.
Proof.
  intros F C K tz k k' a b m ns p blob h H1 H2 H3 H4 H5 Ha Hk Va Vb Hf Hn1 Hn2 Hn3 Hd Hp Hs Hb.
  destruct (C67_printed_entries tz a Ha Va Vb) as (line & L1 & L2).
  pose proof (C79_file_signature F C K k k' b m ns p blob h H1 H2 H3 H4 H5 Hn2 Hd Hp Hs) as V.
  destruct Ha as (_ & _ & _ & (Ks & _ & Kc & d & Kd)). rewrite Hk in *.
  set (s := mkSshSig (sk_pub k) ns (chosen h) blob) in *.
  destruct (C46_same_signature s d) as (text & T1 & T2); cbn [s ss_pubkey ss_namespace ss_signature]; auto.
  { split; [exact Ks|]. split; [|split; [exact Kd|apply Hf, Kd]].
    pose proof Kd as Kd'. apply key_data_iff in Kd'. destruct Kd' as [Kk _]. apply (same_material_canon_iff _ _ _ Kk). symmetry. exact (canon_ok _ _ Kk). }
  exists line, a, (mkVerified s m), text, s. split; [exact L1|]. split; [exact L2|]. split; [exact V|]. cbn [vs_signature].
  split; [exact T1|]. split; [exact T2|]. rewrite Hk.
  apply (C50_only_verified C m ns (sk_pub k) (sk_sign F C K k') h) in V; [|exact Hn2|exact Hd]. destruct V as (p' & sg & P1 & P2 & P3 & P4).
  apply C48_binds; [exact Hn2|exact Hd|]. cbn [s ss_namespace ss_pubkey ss_hash ss_signature vs_signature vs_message].
  split; [reflexivity|]. split; [intros q [= <-]; reflexivity|]. split; [|auto].
  injection P4 as P4. subst sg. exists p'. split; [exact P1|]. exact P3.
Qed.
Print Assumptions C130_signed_then_checked.

(** ** Comments behind the key *)
Lemma words_front g : forallb graphic g = true -> g <> [] -> forall r, exists w ws, split_whitespace (g ++ r) = (g ++ w) :: ws.
Proof.
  intros Hg Hn r. unfold split_whitespace. rewrite split_ws_word by (apply graphic_no_ws, Hg). cbn [List.app].
  destruct (split_ws_cur r 0 g Hn) as (w & ws & ->). eauto.
Qed.
Lemma plain_graphic p : printable_ascii p -> plain_text p -> forallb graphic p = true.
Proof.
  intros Ha Hp. apply forallb_forall. intros b I. unfold printable_ascii in Ha. rewrite Forall_forall in Ha. specialize (Ha b I).
  destruct (Hp b I) as [Hb _]. unfold graphic. change Byte.to_N with b2n in Ha.
  assert (b2n b <> 32%N) by (intros E; apply Hb; apply b2n_inj; rewrite E; reflexivity). lia.
Qed.
Lemma printable_parts s ws : line_words s ws -> printable_ascii s -> Forall printable_ascii ws.
Proof.
  unfold printable_ascii. induction 1 as [l Hn|n w rest ws Hw He Hl IH]; intros U; [constructor|].
  apply Forall_app in U. destruct U as [_ U]. apply Forall_app in U. destruct U as [U1 U2]. constructor; auto.
Qed.
Lemma line_words_each s ws : line_words s ws -> Forall line_word ws.
Proof. induction 1; constructor; auto. Qed.
(** A word of printable ASCII whose first part holds no quote is one word. *)
Lemma word_whole w x xs : printable_ascii w -> line_word w -> split_whitespace w = x :: xs -> ~ In x22 x -> word w.
Proof.
  intros Ha (Hn & p & q & Hp & Hq & ->) E Hx. unfold printable_ascii in Ha. apply Forall_app in Ha. destruct Ha as [Ha1 Ha2].
  pose proof (plain_graphic p Ha1 Hp) as G. destruct Hq as [->|(c & _ & ->)].
  - rewrite app_nil_r in *. split; [apply graphic_no_ws, G|exact Hn].
  - exfalso. destruct (words_front (p ++ [x22])) with (r := c ++ [x22]) as (w & ws & Ew).
    { rewrite forallb_app, G. reflexivity. }
    { destruct p; discriminate. }
    rewrite <- app_assoc in Ew. cbn [List.app] in Ew. rewrite Ew in E. injection E as <- _. apply Hx. rewrite !in_app_iff. left. right. left. reflexivity.
Qed.
Lemma base64_no_quote b t k : base64_text b (t ++ repeat x3d k) -> ~ In x22 t.
Proof.
  intros B I. assert (D : b64_decode t = Some b) by (apply b64_decode_iff; eauto).
  apply b64_decode_inv in D. destruct D as (j & D & ->). apply in_app_or in I. destruct I as [I|I].
  - pose proof (b64_core_chars b) as H. rewrite Forall_forall in H. destruct (H _ I) as (v & V & E).
    pose proof (b64_val_char v V) as X. rewrite <- E in X. discriminate.
  - apply repeat_spec in I. discriminate.
Qed.

(** In a line of printable ASCII characters nothing can follow the key: every entry read from one is
    of use for checking signatures. *)
Theorem C130_plain_lines : forall (tz : timezone) (line : bytes) (a : allowed_signer),
  printable_ascii line -> as_from_string tz line = Ok a -> pk_comment (as_key a) = None /\ spells line (as_key a).
Proof.
  intros tz line a Pa A. apply accepted_iff in A.
  assert (U : utf8_text line).
  { clear A. unfold printable_ascii in Pa. induction Pa as [|b l Hb Hl IH]; [constructor|].
    apply (Utf8_cons (b2n b) [b] l); [|exact IH]. apply (Utf8_1 b). lia. }
  assert (G : pk_comment (as_key a) = None /\ supported (pk_type (as_key a))).
  { destruct A as (Q & pw & pt & ows & kt & kd & o & W & _ & _ & _ & _ & _ & K & _).
    pose proof (line_words_text _ _ W U) as T. inversion T as [|? ? _ T1]; subst. apply Forall_app in T1. destruct T1 as [_ T1].
    inversion T1 as [|? ? T2 T3]; subst. inversion T3 as [|? ? T4 _]; subst.
    pose proof (printable_parts _ _ W Pa) as R. inversion R as [|? ? _ R1]; subst. apply Forall_app in R1. destruct R1 as [_ R1].
    inversion R1 as [|? ? R2 R3]; subst. inversion R3 as [|? ? R4 _]; subst.
    pose proof (line_words_each _ _ W) as L. inversion L as [|? ? _ L1]; subst. apply Forall_app in L1. destruct L1 as [_ L1].
    inversion L1 as [|? ? L2 L3]; subst. inversion L3 as [|? ? L4 _]; subst.
    pose proof (split_whitespace_words _ (two_words_text _ _ T2 T4)) as X.
    assert (S : split_whitespace (kt ++ [x20] ++ kd) = split_whitespace kt ++ split_whitespace kd) by (apply words_space, T2).
    destruct (split_whitespace (kt ++ [x20] ++ kd)) as [|label [|w more]] eqn:Es.
    + pose proof (C24_label_matches_blob _ _ X) as Lb. cbv beta iota in Lb. rewrite K in Lb. discriminate.
    + pose proof (C24_label_matches_blob _ _ X) as Lb. cbv beta iota in Lb. rewrite K in Lb. discriminate.
    + pose proof (C24_label_matches_blob _ _ X) as [Lb _]. apply Lb in K. destruct K as (<- & Su & Hm & pad & d & post & D & B).
      split; [|exact Su]. pose proof Su as Kn. apply supported_known in Kn. destruct (type_word _ Kn) as (_ & _ & Nq).
      assert (Wkt : word kt).
      { destruct (split_whitespace kt) as [|x xs] eqn:Ek.
        - exfalso. destruct L2 as (Hn & p & q & Hp & Hq & E). pose proof R2 as R2'. rewrite E in R2'. unfold printable_ascii in R2'.
          apply Forall_app in R2'. destruct R2' as [Q1 _]. pose proof (plain_graphic p Q1 Hp) as Gp.
          assert (N : exists g r, kt = g ++ r /\ forallb graphic g = true /\ g <> []).
          { destruct p as [|b p]; [|exists (b :: p), q; repeat split; auto; discriminate].
            destruct Hq as [->|(c & _ & ->)]; [subst; contradiction|]. exists [x22], (c ++ [x22]). repeat split; [exact E|discriminate]. }
          destruct N as (g & r & -> & Gg & Gn). destruct (words_front g Gg Gn r) as (w1 & ws1 & E1). congruence.
        - cbn [List.app] in S. injection S as S1 _. eapply word_whole; [exact R2|exact L2|exact Ek|]. rewrite <- S1. exact Nq. }
      rewrite (split_word kt Wkt) in S. cbn [List.app] in S. injection S as S1 S2. symmetry in S2.
      assert (Wkd : word kd) by (eapply word_whole; [exact R4|exact L4|exact S2|eapply base64_no_quote, B]).
      rewrite (split_word kd Wkd) in S2. injection S2 as _ S2. subst more. exact Hm. }
  split; [apply G|]. apply (spells_key tz line a U A); [apply G|apply G|reflexivity].
Qed.
Print Assumptions C130_plain_lines.

(** ** Exceptions and examples *)
Definition ex_ca_text : bytes := match pk_display ex_ca with Ok t => t | _ => [] end.
(** The entry's key with a comment behind a tab: read, but no signature is accepted with it. *)
Theorem C130_every_entry_usable_refuted : exists (C : crypto) (tz : timezone) (line text m ns : bytes) (a : allowed_signer) (s : sshsig) (v : verified),
  as_from_string tz line = Ok a /\ sshsig_from_armored_string text = Ok s
  /\ pk_type (as_key a) = pk_type (ss_pubkey s) /\ pk_kind (as_key a) = pk_kind (ss_pubkey s)
  /\ from_ssh_signature C m s ns None = Ok v /\ from_ssh_signature C m s ns (Some (as_key a)) = Err EInvalidSignature.
Proof.
  exists PropSshSig.ex_crypto, utc, (s2b "me@host " ++ ex_ca_text ++ x09 :: s2b "laptop"), ex_armor, (s2b "data"), (s2b "file").
  eexists _, _, _. split; [vm_compute; reflexivity|]. split; [vm_compute; reflexivity|]. repeat split; vm_compute; reflexivity.
Qed.
Print Assumptions C130_every_entry_usable_refuted.

(** The namespaces, the time bounds and the mark of an authority are not part of the check. *)
Theorem C130_limits_apply_refuted : exists (C : crypto) (tz : timezone) (line text m ns : bytes) (a : allowed_signer) (s : sshsig) (v : verified),
  as_from_string tz line = Ok a /\ sshsig_from_armored_string text = Ok s
  /\ as_namespaces a = Some [s2b "git"] /\ ns <> s2b "git" /\ as_cert_authority a = true /\ as_valid_before a = Some 0%Z
  /\ from_ssh_signature C m s ns (Some (as_key a)) = Ok v.
Proof.
  exists PropSshSig.ex_crypto, utc, (s2b "me@host cert-authority namespaces=git valid-before=19700101Z " ++ ex_ca_text), ex_armor, (s2b "data"), (s2b "file").
  eexists _, _, _. split; [vm_compute; reflexivity|]. split; [vm_compute; reflexivity|]. repeat split; try (vm_compute; reflexivity). discriminate.
Qed.
Print Assumptions C130_limits_apply_refuted.

Definition ex_signers : bytes := s2b "# who may sign" ++ nl ++ s2b "you@host " ++ ex_key_text ++ nl ++ s2b "me@host,us@host namespaces=file " ++ ex_ca_text ++ nl.
Example C130_case : digests_fit PropSshSig.ex_crypto /\ utf8_text ex_signers
  /\ printable_ascii (s2b "me@host,us@host namespaces=file " ++ ex_ca_text)
  /\ exists a b, signers_from_string utc ex_signers = Ok [a; b] /\ sshsig_from_armored_string ex_armor = Ok ex_ssig
  /\ In (s2b "us@host") (as_principals b)
  /\ from_ssh_signature PropSshSig.ex_crypto (s2b "data") ex_ssig (s2b "file") (Some (as_key a)) = Err EInvalidSignature
  /\ from_ssh_signature PropSshSig.ex_crypto (s2b "data") ex_ssig (s2b "file") (Some (as_key b)) = Ok (mkVerified ex_ssig (s2b "data")).
Proof.
  split; [apply pick_fits|]. split; [apply utf8_valid_iff; vm_compute; reflexivity|].
  split; [apply Forall_forall; intros b I; apply (proj1 (forallb_forall (fun b => (32 <=? b2n b)%N && (b2n b <? 127)%N) _)) with (x := b) in I;
          [change Byte.to_N with b2n; lia|vm_compute; reflexivity]|].
  eexists _, _. split; [vm_compute; reflexivity|]. split; [vm_compute; reflexivity|]. split; [right; left; reflexivity|].
  split; vm_compute; reflexivity.
Qed.
Definition ex_entry : allowed_signer := mkSigner [s2b "me@host"; s2b "us@host"] false (Some [s2b "file"]) None None ex_ca.
Example C130_case_signed : exists p blob,
  priv_data ex_features ex_issuer (enc_priv ex_issuer) /\ configured ex_issuer ex_issuer /\ name_fits (sk_pub ex_issuer) /\ software_signs toy_crypto toy_ops
  /\ (forall hw, ~ hardware ex_issuer hw) /\ plain_entry ex_entry /\ as_key ex_entry = sk_pub ex_issuer
  /\ digests_fit toy_crypto /\ payload toy_crypto (s2b "file") (chosen None) (s2b "data") p
  /\ sk_sign ex_features toy_crypto toy_ops ex_issuer p = Ok (Some blob) /\ field_ok blob
  /\ field_ok (field (kt_name (pk_type ex_ca)) ++ field [x63; x64]).
Proof.
  eexists _, _. split; [apply storable_data, ex_issuer_storable|]. split; [constructor|]. split; [exact I|]. split; [exact toy_signs|].
  split; [intros hw [H|H]; discriminate|].
  split.
  { split; [discriminate|]. assert (G : forall p, forallb (fun b => negb (byte_eqb b x20 || byte_eqb b x22 || byte_eqb b x23 || byte_eqb b x2c)) p = true -> p <> [] -> plain_item p).
    { intros p H N. rewrite forallb_forall in H. split; [exact N|]. split.
      - intros b I. specialize (H b I). repeat split; intros ->; discriminate.
      - intros I. specialize (H _ I). discriminate. }
    split; [repeat (apply Forall_cons; [apply G; [reflexivity|discriminate]|]); apply Forall_nil|].
    split; [intros ns [= <-]; repeat (apply Forall_cons; [apply G; [reflexivity|discriminate]|]); apply Forall_nil|].
    split; [reflexivity|]. split; [reflexivity|]. split; [reflexivity|]. exists (field [x63; x64] ++ []). constructor; [reflexivity|vm_compute; discriminate|reflexivity]. }
  split; [reflexivity|].
  split; [intros m h d H; inversion H; vm_compute; discriminate|].
  split; [eexists _, _; split; [constructor|]; split; [constructor|]; reflexivity|].
  split; [vm_compute; reflexivity|]. split; vm_compute; discriminate.
Qed.

(** Theorems about what decides whether a certificate is accepted (C121). *)
From Verif Require Import Base BaseFacts Utf8 Utf8Facts SpecWire SpecKeys
  SpecSig SpecCert Reader ReaderFacts KeyType KeyTypeFacts PubKeyType Writer WriterFacts WireFacts
  Crypto PubKey PubKeyFacts Signature SignatureFacts Cert CertFacts TbsFacts PropCert PropIssue.

(** Given fields in the right form, the CA's signature alone decides. *)
Theorem C121_signature_decides : forall (C : crypto) (c : cert) (sp sg rest : bytes),
  signed_part c sp -> field_ok sg ->
  ((exists p, cert_from_bytes C (sp ++ field sg ++ rest) = Ok p) <-> accepted C (ct_signature_key c) sp sg).
Proof.
  intros C c sp sg rest H Hf. split.
  - intros (p & Hp). apply cert_from_bytes_iff in Hp. destruct Hp as (sp' & r' & Hc & E & F & Ha & _).
    apply signed_core in H. destruct H as (c1 & Hc1 & Hsame & _).
    destruct (core_prefix _ _ _ _ _ _ Hc1 Hc E) as (Es & <- & E2).
    rewrite field_enc in E2. apply enc_bytes_inj in E2; [|apply field_ok_fits, Hf|exact F]. destruct E2 as [-> _].
    assert (K : ct_signature_key p = ct_signature_key c).
    { unfold strip in Es. injection Es. intros K _ _ _ _ _ _ _ _ _ _ _ _. rewrite <- K. apply Hsame. }
    rewrite <- K. exact Ha.
  - intros Ha. destruct (C35_accepts_exactly C sp sg rest c H Hf Ha) as (c' & Hc & _). eauto.
Qed.
Print Assumptions C121_signature_decides.

Lemma size_app a b : size (a ++ b) = (size a + size b)%N.
Proof. unfold size. rewrite app_length. lia. Qed.
Lemma size_field s : size (field s) = (4 + size s)%N.
Proof. rewrite field_enc. unfold size. rewrite enc_bytes_length. lia. Qed.
Lemma options_written l : text_map l -> (options_size l <= u32_max)%N -> exists b, options_data l b /\ size b = options_size l.
Proof.
  intros [_ U]. induction U as [|[k v] l [Hk Hv] U IH]; intros Hs.
  - exists []. split; [constructor|reflexivity].
  - cbn [options_size] in Hs. cbn [fst snd] in Hk, Hv. destruct IH as (b & Hb & Eb); [lia|].
    assert (Tk : text_ok k) by (split; [exact Hk|unfold field_ok; lia]).
    destruct v as [|x v].
    + exists (field k ++ field [] ++ b). split; [constructor; [exact Tk|constructor|exact Hb]|].
      cbn [options_size]. rewrite !size_app, !size_field. change (size []) with 0%N. lia.
    + set (w := x :: v) in *. exists (field k ++ field (field w ++ []) ++ b).
      assert (Ew : options_size ((k, w) :: l) = (4 + size k + (4 + (4 + size w)) + options_size l)%N) by reflexivity.
      split; [constructor; [exact Tk| |exact Hb]; constructor; [split; [exact Hv|]|]; unfold field_ok; rewrite ?app_nil_r, ?size_field; lia|].
      refine (eq_trans _ (eq_sym Ew)). rewrite app_nil_r, !size_app, !size_field. lia.
Qed.

(** Any serial number, times, identity, principals and options have that form. *)
Theorem C121_any_values : forall (c : cert) (kd skd : bytes),
  kt_from_name (kt_name (ct_key_type c)) = Ok (ct_key_type c) -> kt_is_cert (ct_key_type c) = true ->
  plain_type_of (ct_key_type c) (pk_type (ct_key c)) -> pk_comment (ct_key c) = None ->
  key_data (pk_type (ct_key c)) (pk_kind (ct_key c)) kd ->
  kt_from_name (kt_name (pk_type (ct_signature_key c))) = Ok (pk_type (ct_signature_key c)) ->
  pk_comment (ct_signature_key c) = None ->
  key_data (pk_type (ct_signature_key c)) (pk_kind (ct_signature_key c)) skd ->
  field_ok (field (kt_name (pk_type (ct_signature_key c))) ++ skd) ->
  well_typed c -> field_ok (ct_nonce c) -> field_ok (ct_reserved c) -> field_ok (ct_key_id c) ->
  field_ok (concat (map field (ct_principals c))) ->
  (options_size (ct_critical_options c) <= u32_max)%N -> (options_size (ct_extensions c) <= u32_max)%N ->
  exists sp, signed_part c sp.
Proof.
  intros c kd skd H1 H2 H3 H4 H5 H6 H7 H8 H9 (W1 & W2 & W3 & W4 & W5 & W6 & W7) Hn Hr Hi Hp Hco Hex.
  destruct (options_written _ W6 Hco) as (cb & Dc & Sc). destruct (options_written _ W7 Hex) as (eb & De & Se).
  assert (M : forall l, NoDup (map fst l) -> map_of l l).
  { intros l N. split; [exact N|]. intros k v. split.
    - intros Hi'. apply in_split in Hi'. destruct Hi' as (pre & post & ->). exists pre, post. split; [reflexivity|].
      rewrite map_app in N. cbn [map fst] in N. apply NoDup_remove_2 in N. intros Hk. apply N, in_or_app. right. exact Hk.
    - intros (pre & post & -> & _). apply in_or_app. right. left. reflexivity. }
  assert (Fp : Forall text_ok (ct_principals c)).
  { rewrite Forall_forall in *. intros s Hs. split; [apply W5, Hs|].
    apply in_split in Hs. destruct Hs as (l1 & l2 & E). rewrite E in Hp. rewrite map_app, concat_app in Hp. cbn [map concat] in Hp.
    rewrite field_enc in Hp. unfold field_ok, size in *. rewrite !app_length, enc_bytes_length in Hp. lia. }
  eexists. exists kd, (concat (map field (ct_principals c))), (ct_critical_options c), cb, (ct_extensions c), eb, skd, [].
  do 8 (split; [assumption|]). split; [split; assumption|]. do 2 (split; [assumption|]). split; [split; [exact Fp|reflexivity]|].
  split; [exact Hp|]. split; [exact Dc|]. split; [unfold field_ok; lia|]. split; [apply M, W6|].
  split; [exact De|]. split; [unfold field_ok; lia|]. split; [apply M, W7|]. do 3 (split; [assumption|]).
  rewrite app_nil_r. split; [exact H9|]. reflexivity.
Qed.
Print Assumptions C121_any_values.

(** An accepted certificate need not make sense: here it ends before it begins, has a critical option
    that nobody knows, names no principal and is signed by the key that it certifies. *)
Definition odd_part (ca : bytes) : bytes :=
  field (s2b "ssh-ed25519-cert-v01@openssh.com") ++ field [] ++ field [x63; x64] ++ be64 0 ++ be32 2 ++ field []
  ++ field [] ++ be64 20 ++ be64 10 ++ field (field (s2b "no-such-option") ++ field []) ++ field [] ++ field [] ++ field ca.
Theorem C121_sensible_refuted : exists C data c, cert_from_bytes C data = Ok c
  /\ (ct_valid_before c < ct_valid_after c)%N /\ ct_critical_options c = [(s2b "no-such-option", [])]
  /\ ct_principals c = [] /\ ct_key c = ct_signature_key c.
Proof.
  exists lax_crypto, (odd_part (field (s2b "ssh-ed25519") ++ field [x63; x64]) ++ field ex_sig). eexists.
  split; [vm_compute; reflexivity|]. repeat split.
Qed.
Print Assumptions C121_sensible_refuted.

(** The issuer is not itself a certificate, unless one of a hardware key. *)
Theorem C121_issuer_type : forall (C : crypto) (data : bytes) (c : cert),
  cert_from_bytes C data = Ok c -> kt_is_cert (pk_type (ct_signature_key c)) = true ->
  kt_is_sk (pk_type (ct_signature_key c)) = true.
Proof.
  intros C data c H. apply C35_valid_signature in H. destruct H as (sp & rest & _ & Hp & Ha).
  assert (K : known (pk_type (ct_signature_key c))).
  { destruct Hp as (kd & pb & co & cb & ex & eb & skd & skpost & Hp). do 19 (destruct Hp as [_ Hp]). destruct Hp as [Hk _].
    apply kt_from_name_ok in Hk. apply Hk. }
  set (k := ct_signature_key c) in *. clearbody k. clear - Ha K.
  destruct Ha as (label & payload & after & st & _ & _ & Hl & Ek & Hm).
  assert (S : kt_k st = KRsa \/ kt_k st = KEcdsa \/ kt_k st = KEd25519).
  { destruct (pk_kind k).
    - destruct Hm as (alg & Hr & _). destruct Hr; vm_compute in Hl; apply ok_inj in Hl; subst st; cbn; auto.
    - destruct Hm as (v & len & r & s & b1 & b2 & tl & fr & fs & m & Hr & _). destruct Hr; vm_compute in Hl; apply ok_inj in Hl; subst st; cbn; auto.
    - destruct Hm as (m & Hr & _). destruct Hr; vm_compute in Hl; apply ok_inj in Hl; subst st; cbn; auto. }
  rewrite Ek in S. revert S. revert K. generalize (pk_type k). clear. intros t K.
  apply (known_forall (fun t => kt_k t = KRsa \/ kt_k t = KEcdsa \/ kt_k t = KEd25519 -> kt_is_cert t = true -> kt_is_sk t = true)); [|exact K].
  unfold key_types. repeat (apply Forall_cons; [cbn; intuition discriminate|]). apply Forall_nil.
Qed.
Print Assumptions C121_issuer_type.

(** "The issuer is a plain key": the name in its field may be that of a hardware key's certificate type.
    What stands where that certificate has its nonce is then taken for the key. *)
Theorem C121_plain_issuer_refuted : exists C data c, cert_from_bytes C data = Ok c
  /\ kt_name (pk_type (ct_signature_key c)) = s2b "sk-ssh-ed25519-cert-v01@openssh.com".
Proof.
  exists lax_crypto, (odd_part (field (s2b "sk-ssh-ed25519-cert-v01@openssh.com") ++ field [x63; x64] ++ field (s2b "ssh:"))
    ++ field (ex_sig ++ [x01; x00; x00; x00; x05])). eexists.
  split; vm_compute; reflexivity.
Qed.
Print Assumptions C121_plain_issuer_refuted.

(** Fields with unusual values, and a signature that is refused. *)
Example C121_case : exists c sp sg, signed_part c sp /\ field_ok sg /\ (ct_valid_before c < ct_valid_after c)%N
  /\ accepted lax_crypto (ct_signature_key c) sp sg /\ ~ accepted lax_crypto (ct_signature_key c) sp [].
Proof.
  assert (E : exists c, cert_from_bytes lax_crypto (odd_part (field (s2b "ssh-ed25519") ++ field [x63; x64]) ++ field ex_sig) = Ok c
     /\ (ct_valid_before c < ct_valid_after c)%N) by (eexists; split; [vm_compute; reflexivity|reflexivity]).
  destruct E as (c & H & Hv). apply cert_from_bytes_iff in H. destruct H as (sp & post & Hc & _ & Hf & Ha & _).
  exists c, sp, (ct_signature c). split; [apply core_signed, Hc|]. split; [apply field_ok_fits, Hf|]. split; [exact Hv|]. split; [exact Ha|].
  intros (label & payload & after & st & E & _). apply (f_equal size) in E. rewrite !size_app, !size_field in E.
  change (size []) with 0%N in E. lia.
Qed.

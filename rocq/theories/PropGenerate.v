(** Properties C89-C91: new keys on FIDO devices. *)
From Coq Require Import Lia.
From Verif Require Import Base BaseFacts Utf8Facts WireFacts  ReaderFacts WriterFacts SpecWire SpecKeys SpecSig SpecSign SpecPrivKey KeyType KeyTypeFacts PubKeyType PubKeyFacts
  Crypto Signature PrivKey PrivKeyFacts PropPrivKey PropSign TbsFacts Fido SpecFido FidoFacts PropFido X509 SpecX509 X509Facts PropX509 Generate SpecGenerate.

(** ** C89 *)
Lemma credential_key_iff a app pk : auth_ssh_key a app = Ok pk <-> credential_key a app pk.
Proof.
  assert (T7 : exists t, kt_name t = s2b "sk-ecdsa-sha2-nistp256@openssh.com" /\ kt_from_name (s2b "sk-ecdsa-sha2-nistp256@openssh.com") = Ok t)
    by (eexists; split; [|vm_compute; reflexivity]; reflexivity).
  assert (T8 : exists t, kt_name t = s2b "sk-ssh-ed25519@openssh.com" /\ kt_from_name (s2b "sk-ssh-ed25519@openssh.com") = Ok t)
    by (eexists; split; [|vm_compute; reflexivity]; reflexivity).
  destruct T7 as (t7 & N7 & T7), T8 as (t8 & N8 & T8). unfold auth_ssh_key, credential_key.
  change (curve_from_identifier (s2b "nistp256")) with (Ok (mkCurve Nistp256 (s2b "nistp256"))). rewrite T7, T8. cbn [bind].
  destruct (Z.eqb_spec (ck_algorithm (ad_cose_key a)) (-7)) as [E|N]; [|destruct (Z.eqb_spec (ck_algorithm (ad_cose_key a)) (-8)) as [E|N']].
  - split.
    + intros H. apply ok_inj in H. subst pk. cbn [pk_comment pk_type pk_kind]. rewrite N7, T7. auto 8.
    + destruct pk as [t k c]. cbn [pk_comment pk_type pk_kind]. intros (-> & H & [(H1 & _)|(_ & H2 & ->)]); [congruence|].
      rewrite H2, T7 in H. apply ok_inj in H. subst t. reflexivity.
  - split.
    + intros H. apply ok_inj in H. subst pk. cbn [pk_comment pk_type pk_kind]. rewrite N8, T8. auto 8.
    + destruct pk as [t k c]. cbn [pk_comment pk_type pk_kind]. intros (-> & H & [(_ & H2 & ->)|(H1 & _)]); [|congruence].
      rewrite H2, T8 in H. apply ok_inj in H. subst t. reflexivity.
  - split; [discriminate|]. intros (_ & _ & [(H & _)|(H & _)]); congruence.
Qed.
Lemma credential_nopanic a app : auth_ssh_key a app <> Panic.
Proof.
  unfold auth_ssh_key. destruct (_ =? _)%Z; [vm_compute; discriminate|]. destruct (_ =? _)%Z; [vm_compute; discriminate|discriminate].
Qed.
Lemma attested_iff X default t v : attestation_verify X default t = Ok v <-> attested_by X default t v.
Proof. exact (C72_accepts X default (at_auth_data t) (at_sig t) (at_challenge t) (at_alg t) (at_intermediate t) None v). Qed.
Lemma leaf_iff l c : leaf l c <-> c = first_cert l.
Proof.
  unfold leaf. destruct l as [|x t]; cbn [first_cert]; split.
  - intros [[_ H]|[t H]]; [exact H|discriminate].
  - auto.
  - intros [[H _]|[t' H]]; [discriminate|congruence].
  - intros ->. right. exists t. reflexivity.
Qed.
Lemma flags_iff a f : flag_byte (ha_up a) (ha_uv a) (ha_at a) (ha_ed a) f <-> f = hid_flags a.
Proof.
  assert (S : flag_byte (ha_up a) (ha_uv a) (ha_at a) (ha_ed a) (hid_flags a)).
  { unfold flag_byte. intros n. destruct (N.le_gt_cases 8 n) as [L|L].
    - replace (N.testbit (Byte.to_N (hid_flags a)) n) with false.
      + destruct n as [|p]; [lia|]. do 3 (destruct p as [p|p|]; try reflexivity; try lia).
      + symmetry. pose proof (Byte.to_N_bounded (hid_flags a)) as B. destruct (N.eq_dec (Byte.to_N (hid_flags a)) 0) as [Z0|Z0]; [rewrite Z0; apply N.bits_0|].
        apply N.bits_above_log2. apply N.lt_le_trans with 8%N; [|exact L]. apply N.log2_lt_pow2; [lia|]. change (2 ^ 8)%N with 256%N. lia.
    - assert (D : (n = 0 \/ n = 1 \/ n = 2 \/ n = 3 \/ n = 4 \/ n = 5 \/ n = 6 \/ n = 7)%N) by lia. unfold hid_flags.
      repeat (destruct D as [-> | D]; [destruct (ha_up a), (ha_uv a), (ha_at a), (ha_ed a); reflexivity|]).
      subst n. destruct (ha_up a), (ha_uv a), (ha_at a), (ha_ed a); reflexivity. }
  split; [|intros ->; exact S]. intros H.
  assert (E : Byte.to_N f = Byte.to_N (hid_flags a)) by (apply N.bits_inj; intros n; rewrite (H n), (S n); reflexivity).
  apply (f_equal Byte.of_N) in E. rewrite !Byte.of_to_N in E. congruence.
Qed.
Definition sk_ed_name : kt_from_name (s2b "sk-ssh-ed25519@openssh.com") = Ok sk_ed := eq_refl.
Lemma new_key_iff p pub h comment : new_key p pub h comment <-> p = mkPrivKey sk_ed (SkEd25519Sk h) pub 0 comment.
Proof.
  unfold new_key. rewrite sk_ed_name. split.
  - destruct p as [t k u m c]. cbn. intros (H & -> & -> & -> & ->). apply ok_inj in H. subst t. reflexivity.
  - intros ->. repeat split.
Qed.

(** What is asked of the device, what is checked, and what is returned. *)
Theorem C89_hid : forall (G : hid_ops) (X : x509) (C : crypto) (default application comment : bytes) (pin path : option bytes)
  (challenge : bytes) (k : fido_key),
  hid_generate G X C default application comment pin path challenge = Ok k <->
  exists device att v pub flags, g_open G path = Some device /\ g_make G device application challenge pin = Some att
    /\ flag_byte (ha_up att) (ha_uv att) (ha_at att) (ha_ed att) flags
    /\ credential_key (va_auth v) application pub
    /\ new_key (fk_private k) pub (mkHw flags (ha_id att) [] pin path) comment
    /\ (exists c, leaf (ha_x5c att) c /\ fk_attestation k = mkAtt (ha_auth att) (ha_sig att) c (c_sha256 C challenge) (ha_alg att))
    /\ attested_by X default (fk_attestation k) v.
Proof.
  intros G X C default application comment pin path challenge k. unfold hid_generate. rewrite sk_ed_name.
  destruct (g_open G path) as [dev|] eqn:Eo; cbn [ok_or bind].
  2:{ split; [discriminate|]. intros (d & att & v & pub & f & H & _). discriminate. }
  destruct (g_make G dev application challenge pin) as [att|] eqn:Em; cbn [ok_or bind].
  2:{ split; [discriminate|]. intros (d & att & v & pub & f & H & H' & _). injection H as <-. congruence. }
  set (t := mkAtt (ha_auth att) (ha_sig att) (first_cert (ha_x5c att)) (c_sha256 C challenge) (ha_alg att)).
  split.
  - intros H. destruct (auth_parse (ha_auth att)) as [a| |] eqn:Ea; try discriminate. cbn [bind] in H.
    destruct (auth_ssh_key a application) as [pub| |] eqn:Ek; try discriminate. cbn [bind] in H.
    destruct (attestation_verify X default t) as [v| |] eqn:Ev; try discriminate. cbn [bind] in H. apply ok_inj in H. subst k.
    apply attested_iff in Ev. exists dev, att, v, pub, (hid_flags att). cbn [fk_private fk_attestation].
    assert (Hv : va_auth v = a).
    { destruct Ev as (_ & i & _ & _ & _ & L & _). apply auth_iff in L. unfold t in L. cbn [at_auth_data] in L. congruence. }
    rewrite Hv. split; [reflexivity|]. split; [exact Em|]. split; [apply flags_iff; reflexivity|]. split; [apply credential_key_iff, Ek|].
    split; [apply new_key_iff; reflexivity|]. split; [|exact Ev]. eexists. split; [apply leaf_iff; reflexivity|reflexivity].
  - intros (d & att' & v & pub & f & H1 & H2 & H3 & H4 & H5 & (c & H6 & H7) & H8). injection H1 as <-.
    assert (att' = att) by congruence. subst att'. apply leaf_iff in H6. subst c. fold t in H7. rewrite H7 in H8.
    apply flags_iff in H3. subst f. apply new_key_iff in H5.
    assert (Ea : auth_parse (ha_auth att) = Ok (va_auth v)) by (apply auth_iff; destruct H8 as (_ & i & _ & _ & _ & L & _); exact L).
    apply attested_iff in H8. apply credential_key_iff in H4. rewrite Ea. cbn [bind]. rewrite H4. cbn [bind]. rewrite H8. cbn [bind].
    destruct k as [p t']. cbn [fk_private fk_attestation] in *. subst. reflexivity.
Qed.
Print Assumptions C89_hid.
Theorem C89_mozilla : forall (X : x509) (default application comment : bytes) (pin : option bytes) (challenge : bytes)
  (att : moz_attestation) (k : fido_key),
  moz_finish X default application comment pin challenge att = Ok k <->
  exists sig certs alg v pub c, ma_packed att = Some (sig, certs, alg)
    /\ credential_key (va_auth v) application pub
    /\ new_key (fk_private k) pub (mkHw (ad_flags (va_auth v)) (ad_credential_id (va_auth v)) [] pin None) comment
    /\ leaf certs c /\ fk_attestation k = mkAtt (ma_auth att) sig c challenge alg
    /\ attested_by X default (fk_attestation k) v.
Proof.
  intros X default application comment pin challenge att k. unfold moz_finish. rewrite sk_ed_name. split.
  - intros H. destruct (auth_parse (ma_auth att)) as [a| |] eqn:Ea; try discriminate. cbn [bind] in H.
    destruct (auth_ssh_key a application) as [pub| |] eqn:Ek; try discriminate. cbn [bind] in H.
    destruct (ma_packed att) as [[[sig certs] alg]|] eqn:Ep; [|discriminate]. cbn [ok_or bind] in H.
    set (t := mkAtt _ _ _ _ _) in H.
    destruct (attestation_verify X default t) as [v| |] eqn:Ev; try discriminate. cbn [bind] in H. apply ok_inj in H. subst k.
    apply attested_iff in Ev. exists sig, certs, alg, v, pub, (first_cert certs). cbn [fk_private fk_attestation].
    assert (Hv : va_auth v = a).
    { destruct Ev as (_ & i & _ & _ & _ & L & _). apply auth_iff in L. unfold t in L. cbn [at_auth_data] in L. congruence. }
    rewrite Hv. split; [reflexivity|]. split; [apply credential_key_iff, Ek|].
    split; [apply new_key_iff; reflexivity|]. split; [apply leaf_iff; reflexivity|]. split; [reflexivity|exact Ev].
  - intros (sig & certs & alg & v & pub & c & H1 & H4 & H5 & H6 & H7 & H8). apply leaf_iff in H6. subst c. rewrite H7 in H8.
    apply new_key_iff in H5.
    assert (Ea : auth_parse (ma_auth att) = Ok (va_auth v)) by (apply auth_iff; destruct H8 as (_ & i & _ & _ & _ & L & _); exact L).
    apply attested_iff in H8. apply credential_key_iff in H4. rewrite Ea. cbn [bind]. rewrite H4, H1. cbn [ok_or bind]. rewrite H8. cbn [bind].
    destruct k as [p t']. cbn [fk_private fk_attestation] in *. subst. reflexivity.
Qed.
Print Assumptions C89_mozilla.
(** The attestation that is handed out passes again, and it attests the key handed out with it. *)
Theorem C89_verifies_again : forall (G : hid_ops) (X : x509) (C : crypto) (default application comment : bytes) (pin path : option bytes)
  (challenge : bytes) (att : moz_attestation) (k : fido_key),
  hid_generate G X C default application comment pin path challenge = Ok k
  \/ moz_finish X default application comment pin challenge att = Ok k ->
  exists v, attestation_verify X default (fk_attestation k) = Ok v /\ auth_ssh_key (va_auth v) application = Ok (sk_pub (fk_private k)).
Proof.
  intros G X C default application comment pin path challenge att k [H|H].
  - apply C89_hid in H. destruct H as (d & a & v & pub & f & _ & _ & _ & H4 & (_ & _ & H5 & _) & _ & H8). exists v.
    rewrite H5. split; [apply attested_iff, H8|apply credential_key_iff, H4].
  - apply C89_mozilla in H. destruct H as (sig & certs & alg & v & pub & c & _ & H4 & (_ & _ & H5 & _) & _ & _ & H8). exists v.
    rewrite H5. split; [apply attested_iff, H8|apply credential_key_iff, H4].
Qed.
Print Assumptions C89_verifies_again.
Theorem C89_never_panics : forall (G : hid_ops) (X : x509) (C : crypto) (default application comment : bytes) (pin path : option bytes)
  (challenge : bytes) (att : moz_attestation),
  hid_generate G X C default application comment pin path challenge <> Panic
  /\ moz_finish X default application comment pin challenge att <> Panic.
Proof.
  intros G X C default application comment pin path challenge att. unfold hid_generate, moz_finish. rewrite sk_ed_name.
  assert (V : forall t, attestation_verify X default t <> Panic) by (intros t; apply C72_rejects).
  split.
  - destruct (g_open G path) as [dev|]; [|discriminate]. cbn [ok_or bind]. destruct (g_make _ _ _ _ _) as [a|]; [|discriminate]. cbn [ok_or bind].
    pose proof (auth_nopanic (ha_auth a)). destruct (auth_parse (ha_auth a)) as [x| |]; [|discriminate|congruence]. cbn [bind].
    pose proof (credential_nopanic x application). destruct (auth_ssh_key x application); [|discriminate|congruence]. cbn [bind].
    match goal with |- context [attestation_verify X default ?t] => specialize (V t); destruct (attestation_verify X default t) end; [discriminate..|congruence].
  - pose proof (auth_nopanic (ma_auth att)). destruct (auth_parse (ma_auth att)) as [x| |]; [|discriminate|congruence]. cbn [bind].
    pose proof (credential_nopanic x application). destruct (auth_ssh_key x application); [|discriminate|congruence]. cbn [bind].
    destruct (ma_packed att) as [[[sig certs] alg]|]; [|discriminate]. cbn [ok_or bind].
    match goal with |- context [attestation_verify X default ?t] => specialize (V t); destruct (attestation_verify X default t) end; [discriminate..|congruence].
Qed.
Print Assumptions C89_never_panics.
(** An attestation for one application: the other data passes for any. *)
Definition ex_moz : moz_attestation := mkMozAtt ex_auth (Some (ex_auth ++ [x09; xff], [[x02]; [x03]], (-7)%Z)).
Definition ex_hid_att (c : bytes) : hid_attestation :=
  mkHidAtt true true true false (ad_credential_id ex_auth_data) ex_auth (ex_auth ++ c ++ [xff]) [[x02]] (-7).
Definition ex_hid : hid_ops := mkHidOps
  (fun p => match p with Some q => if bytes_eqb q (s2b "/dev/hidraw3") then Some 3%N else None | None => Some 0%N end)
  (fun d app ch pin => if bytes_eqb app (s2b "ssh:") then Some (ex_hid_att (c_sha256 toy_crypto ch)) else None).
Example C89_case :
  (exists k, hid_generate ex_hid ex_x toy_crypto (s2b "root") (s2b "ssh:") (s2b "me") (Some (s2b "1234")) (Some (s2b "/dev/hidraw3")) [x07] = Ok k
     /\ sk_kind (fk_private k) = SkEd25519Sk (mkHw x45 (ad_credential_id ex_auth_data) [] (Some (s2b "1234")) (Some (s2b "/dev/hidraw3"))))
  /\ hid_generate ex_hid ex_x toy_crypto (s2b "root") (s2b "ssh:") (s2b "me") None (Some (s2b "/dev/null")) [x07] = Err (EFidoError FUnknown)
  /\ (exists k, moz_finish ex_x (s2b "root") (s2b "ssh:") (s2b "me") None [x09] ex_moz = Ok k /\ sk_comment (fk_private k) = s2b "me")
  /\ moz_finish ex_x (s2b "root") (s2b "ssh:") (s2b "me") None [x0a] ex_moz = Err EInvalidSignature.
Proof.
  split; [eexists; split; [vm_compute; reflexivity|vm_compute; reflexivity]|]. split; [vm_compute; reflexivity|].
  split; [eexists; split; [vm_compute; reflexivity|reflexivity]|vm_compute; reflexivity].
Qed.
(** The application that was attested is not compared with the one asked for. *)
Theorem C89_application_checked_refuted : exists (X : x509) (C : crypto) (default app comment challenge : bytes) (att : moz_attestation) (k : fido_key) (v : valid_attestation),
  moz_finish X default app comment None challenge att = Ok k /\ attestation_verify X default (fk_attestation k) = Ok v
  /\ ad_rpid_hash (va_auth v) <> c_sha256 C app.
Proof.
  exists ex_x, toy_crypto, (s2b "root"), (s2b "ssh:other"), (s2b "me"), [x09], ex_moz. do 2 eexists.
  split; [vm_compute; reflexivity|]. split; [vm_compute; reflexivity|]. vm_compute. discriminate.
Qed.
Print Assumptions C89_application_checked_refuted.

(** ** C90 *)
Lemma generated_inv X default app comment k : generated X default app comment k ->
  exists a pub flags handle pin path, credential_key a app pub /\ fk_private k = mkPrivKey sk_ed (SkEd25519Sk (mkHw flags handle [] pin path)) pub 0 comment.
Proof.
  intros [G C pin path challenge k' H|pin challenge att k' H].
  - apply C89_hid in H. destruct H as (d & a & v & pub & f & _ & _ & _ & H4 & H5 & _). apply new_key_iff in H5.
    exists (va_auth v), pub, f, (ha_id a), pin, path. auto.
  - apply C89_mozilla in H. destruct H as (sig & certs & alg & v & pub & c & _ & H4 & H5 & _). apply new_key_iff in H5.
    do 6 eexists. split; [exact H4|exact H5].
Qed.
Lemma sk_ed_known : known sk_ed.
Proof. unfold known. vm_compute. auto 20. Qed.
Lemma new_storable F flags handle key app comment :
  utf8_text app -> utf8_text comment -> (size key + size app + size handle + size comment + 200 <= u32_max)%N ->
  storable F (mkPrivKey sk_ed (SkEd25519Sk (mkHw flags handle [] None None)) (mkPubKey sk_ed (PkEd25519 key (Some app)) None) 0 comment).
Proof.
  intros Ha Hc L. set (p := mkPrivKey _ _ _ _ _). unfold size, u32_max in L.
  assert (Fk : fits key) by (unfold fits; change (2 ^ 32)%N with 4294967296%N; lia).
  assert (Fa : fits app) by (unfold fits; change (2 ^ 32)%N with 4294967296%N; lia).
  assert (Fh : fits handle) by (unfold fits; change (2 ^ 32)%N with 4294967296%N; lia).
  assert (Fc : fits comment) by (unfold fits; change (2 ^ 32)%N with 4294967296%N; lia).
  exists (enc_key (sk_pub p)), (enc_section p). rewrite pub_blob_iff, section_of_iff, !app_nil_r, field_ok_fits.
  assert (Kok : kind_ok sk_ed (PkEd25519 key (Some app))).
  { split; [reflexivity|]. split; [exact Fk|]. split; [exact Fa|apply utf8_valid_iff, Ha]. }
  split; [split; [exact Kok|reflexivity]|]. split.
  { unfold fits, enc_key, p. cbn [sk_pub pk_type pk_kind enc_kind enc_app]. unfold enc_bytes. rewrite !app_length, !to_be_length.
    change (length (kt_name sk_ed)) with 26. change (2 ^ 32)%N with 4294967296%N. lia. }
  split.
  - split; [reflexivity|]. split; [|reflexivity]. split; [apply sk_ed_known|]. split; [right; right; reflexivity|].
    split; [reflexivity|]. split; [reflexivity|]. split.
    + split; [exact Kok|]. unfold hw_ok. cbn [hw_handle hw_reserved hw_pin hw_device_path]. split; [exact Fh|]. split; [reflexivity|]. auto.
    + apply str_ok_iff. split; [exact Hc|]. apply field_ok_fits, Fc.
  - unfold size, enc_section, enc_priv, p. cbn [sk_magic sk_pub sk_type sk_kind sk_comment pk_type pk_kind enc_sec enc_kind enc_app hw_handle hw_flags hw_reserved].
    unfold enc_bytes. rewrite !app_length, !to_be_length. change (length (kt_name sk_ed)) with 26. unfold u32_max. cbn [length]. lia.
Qed.
(** A new key of an Ed25519 credential can be written and read back; PIN and path are gone. *)
Theorem C90_round_trip : forall (F : features) (K : keyops) (pass : option bytes) (X : x509) (default app comment key : bytes) (k : fido_key) (h : hw_priv),
  generated X default app comment k -> hardware (fk_private k) h -> pk_kind (sk_pub (fk_private k)) = PkEd25519 key (Some app) ->
  utf8_text app -> utf8_text comment -> (size key + size app + size (hw_handle h) + size comment + 200 <= u32_max)%N ->
  exists text p', sk_write (fk_private k) = Ok text /\ sk_from_string F K text pass = Ok p' /\ without_pin (fk_private k) p'.
Proof.
  intros F K pass X default app comment key k h Hg Hh Hk Ha Hc L. apply generated_inv in Hg. destruct Hg as (a & pub & fl & hd & pin & path & Hp & E).
  rewrite E in *. cbn [sk_pub] in Hk. destruct Hh as [Hh|Hh]; cbn [sk_kind] in Hh; [discriminate|]. injection Hh as <-. cbn [hw_handle] in L.
  assert (Epub : pub = mkPubKey sk_ed (PkEd25519 key (Some app)) None).
  { destruct pub as [t kd c]. cbn [pk_kind] in Hk. subst kd. destruct Hp as (Hc0 & Ht & [(_ & Hn & _)|(_ & _ & Hx)]); [|cbn in Hx; discriminate].
    cbn [pk_comment pk_type] in *. subst c. rewrite Hn, sk_ed_name in Ht. apply ok_inj in Ht. subst t. reflexivity. }
  subst pub. pose proof (new_storable F fl hd key app comment Ha Hc L) as S.
  edestruct (C53_text_round_trip F K pass) as (text & T1 & T2); [exact S| |exists text; eexists; split; [exact T1|split; [exact T2|]]].
  - repeat split.
  - exists fl, hd, [], pin, path. split; reflexivity.
Qed.
Print Assumptions C90_round_trip.
Lemma configured_trans a b c : configured a b -> configured b c -> configured a c.
Proof. intros H0 H1. induction H1; [exact H0|apply CfgPin; assumption|apply CfgPath; assumption]. Qed.
(** Signatures made with it, as returned, as read back or with other PIN and path, verify when
    the device signs for the handle. *)
Theorem C90_signs : forall (F : features) (C : crypto) (K : keyops) (X : x509) (default app comment key m blob : bytes) (k : fido_key) (h : hw_priv) (p p' : privkey),
  generated X default app comment k -> hardware (fk_private k) h -> pk_kind (sk_pub (fk_private k)) = PkEd25519 key (Some app) ->
  utf8_text app -> utf8_text comment -> (size key + size app + size (hw_handle h) + size comment + 200 <= u32_max)%N ->
  software_signs C K -> device_signs C K (sk_pub (fk_private k)) (hw_handle h) ->
  p = fk_private k \/ without_pin (fk_private k) p -> configured p p' ->
  sk_sign F C K p' m = Ok (Some blob) ->
  verify_signature C blob m (sk_pub (fk_private k)) = Ok blob.
Proof.
  intros F C K X default app comment key m blob k h p p' Hg Hh Hk Ha Hc L Hs Hd Hp Hcf Hsig.
  apply generated_inv in Hg. destruct Hg as (a & pub & fl & hd & pin & path & Hpub & E).
  rewrite E in *. cbn [sk_pub] in *. destruct Hh as [Hh|Hh]; cbn [sk_kind] in Hh; [discriminate|]. injection Hh as <-. cbn [hw_handle] in *.
  assert (Epub : pub = mkPubKey sk_ed (PkEd25519 key (Some app)) None).
  { destruct pub as [t kd c]. cbn [pk_kind] in Hk. subst kd. destruct Hpub as (Hc0 & Ht & [(_ & Hn & _)|(_ & _ & Hx)]); [|cbn in Hx; discriminate].
    cbn [pk_comment pk_type] in *. subst c. rewrite Hn, sk_ed_name in Ht. apply ok_inj in Ht. subst t. reflexivity. }
  subst pub. pose proof (new_storable F fl hd key app comment Ha Hc L) as S. apply storable_data in S.
  set (q := mkPrivKey sk_ed (SkEd25519Sk (mkHw fl hd [] None None)) (mkPubKey sk_ed (PkEd25519 key (Some app)) None) 0 comment) in *.
  assert (Q : configured q p').
  { apply (configured_trans q p); [|exact Hcf]. destruct Hp as [-> | (f' & h' & r' & pi & pa & E1 & ->)].
    - destruct pin as [pn|], path as [pt|].
      + exact (CfgPath q pt _ (CfgPin q pn q (CfgSame q))).
      + exact (CfgPin q pn q (CfgSame q)).
      + exact (CfgPath q pt q (CfgSame q)).
      + apply CfgSame.
    - cbn [sk_kind] in E1. injection E1 as <- <- <- <- <-. apply CfgSame. }
  change (mkPubKey sk_ed (PkEd25519 key (Some app)) None) with (sk_pub q).
  apply (C75_signatures_verify F C K q p' _ m blob S Q); [reflexivity|exact Hs| |exact Hsig].
  intros h0 [H0|H0]; cbn [q sk_kind] in H0; [discriminate|]. injection H0 as <-. exact Hd.
Qed.
Print Assumptions C90_signs.

(** An ES256 credential, from a device that does not make the Ed25519 one it was asked for. *)
Definition ex_es_auth : bytes :=
  repeat x0b 32 ++ [x41] ++ repeat x00 4 ++ repeat x0c 16 ++ [x00; x02; xaa; xbb]
  ++ [xa5; x01; x02; x03; x26; x20; x01; x21; x58; x20] ++ repeat x01 32 ++ [x22; x58; x20] ++ repeat x02 32.
Definition ex_es_moz : moz_attestation := mkMozAtt ex_es_auth (Some (ex_es_auth ++ [x09; xff], [[x02]], (-7)%Z)).
(** Its key is still named an Ed25519 key, and a file gives another kind of key back. *)
Theorem C90_every_credential_refuted : exists (F : features) (K : keyops) (X : x509) (default app comment text : bytes) (k : fido_key) (p' : privkey),
  generated X default app comment k /\ sk_type (fk_private k) <> pk_type (sk_pub (fk_private k))
  /\ sk_write (fk_private k) = Ok text /\ sk_from_string F K text None = Ok p' /\ ~ without_pin (fk_private k) p'.
Proof.
  destruct (moz_finish ex_x (s2b "root") (s2b "ssh:") (s2b "me") None [x09] ex_es_moz) as [k| |] eqn:E; [|vm_compute in E; discriminate..].
  destruct (sk_write (fk_private k)) as [text| |] eqn:W; [|vm_compute in E; injection E as <-; vm_compute in W; discriminate..].
  destruct (sk_from_string hid_features toy_ops text None) as [p'| |] eqn:R;
    [|vm_compute in E; injection E as <-; vm_compute in W; injection W as <-; vm_compute in R; discriminate..].
  exists hid_features, toy_ops, ex_x, (s2b "root"), (s2b "ssh:"), (s2b "me"), text, k, p'.
  split; [exact (G_moz _ _ _ _ _ _ _ _ E)|]. vm_compute in E. injection E as <-. split; [vm_compute; discriminate|].
  split; [exact W|]. split; [exact R|]. vm_compute in W. injection W as <-. vm_compute in R. injection R as <-.
  intros (f & h & r & pin & path & _ & H). vm_compute in H. discriminate.
Qed.
Print Assumptions C90_every_credential_refuted.
Example C90_case : exists k text p', generated ex_x (s2b "root") (s2b "ssh:") (s2b "me") k
  /\ pk_kind (sk_pub (fk_private k)) = PkEd25519 (skipn 193 ex_auth) (Some (s2b "ssh:"))
  /\ sk_write (fk_private k) = Ok text /\ sk_from_string hid_features toy_ops text None = Ok p' /\ without_pin (fk_private k) p'
  /\ (forall h, device_signs toy_crypto toy_ops (sk_pub (fk_private k)) h)
  /\ exists blob, sk_sign hid_features toy_crypto toy_ops (fk_private k) (s2b "msg") = Ok (Some blob).
Proof.
  destruct (hid_generate ex_hid ex_x toy_crypto (s2b "root") (s2b "ssh:") (s2b "me") (Some (s2b "1234")) None [x07]) as [k| |] eqn:E; [|vm_compute in E; discriminate..].
  assert (Hg : generated ex_x (s2b "root") (s2b "ssh:") (s2b "me") k) by exact (G_hid _ _ _ _ _ _ _ _ _ _ E).
  vm_compute in E. apply ok_inj in E. 
  assert (Hk : pk_kind (sk_pub (fk_private k)) = PkEd25519 (skipn 193 ex_auth) (Some (s2b "ssh:"))) by (subst k; vm_compute; reflexivity).
  assert (Hh : exists h, hardware (fk_private k) h /\ length (hw_handle h) = 128) by (subst k; eexists; split; [right; reflexivity|reflexivity]).
  destruct Hh as (h & Hh & Lh).
  destruct (C90_round_trip hid_features toy_ops None _ _ _ _ _ k h Hg Hh Hk) as (text & p' & T1 & T2 & T3);
    [apply utf8_valid_iff; reflexivity|apply utf8_valid_iff; reflexivity|unfold size; rewrite Lh; vm_compute; discriminate|].
  exists k, text, p'. split; [exact Hg|]. split; [exact Hk|]. split; [exact T1|]. split; [exact T2|]. split; [exact T3|].
  split; [intros; eapply toy_device, Hk|]. subst k. eexists. vm_compute. reflexivity.
Qed.

(** ** C91 *)
Lemma first_pin_app l f l' : first_pin l f -> first_pin (l ++ l') f.
Proof. induction 1; cbn [app]; constructor. assumption. Qed.
Lemma first_pin_of pre u f post : no_pin pre -> status_error u = Some f -> first_pin (pre ++ u :: post) f.
Proof.
  intros H E. induction H as [|x pre <- _ IH]; cbn [app]; [|constructor; exact IH].
  destruct u; cbn in E; try discriminate; injection E as <-; constructor.
Qed.
Lemma no_pin_not l f : no_pin l -> ~ first_pin l f.
Proof. intros H F. induction F as [l|l|l|n l|l f F IH]; inversion H; subst; try discriminate. apply IH. assumption. Qed.
Lemma status_other u : status_error u = None -> u = StOther.
Proof. destruct u; cbn; congruence. Qed.
Lemma no_pin_app a b : no_pin (a ++ b) <-> no_pin a /\ no_pin b.
Proof. apply Forall_app. Qed.
Lemma statuses_app a b : statuses (a ++ b) = statuses a ++ statuses b.
Proof. apply flat_map_app. Qed.
Section Threads.
Context (finish : moz_attestation -> res fido_key).
Definition thread_inv (tr : list moz_event) (s : moz_state) : Prop :=
  if ms_thread s then ms_errors s = [] /\ exists pre, statuses tr = pre ++ ms_status s /\ no_pin pre
  else ms_status s = []
    /\ (returned (ms_main s) = true \/ exists f, ms_errors s = [f] /\ first_pin (statuses tr) f).
Definition no_result (tr : list moz_event) : Prop := forall x, ~ In (LibResult x) tr.
Definition after (tr : list moz_event) (x : option moz_attestation) (reg : list (option moz_attestation)) (m : moz_main) : Prop :=
  (reg = [x] /\ m = AtRegister)
  \/ (reg = [] /\ match x with
      | Some a => m = Returned (finish a)
      | None => m = AtError \/ exists f, first_pin (statuses tr) f /\ m = Returned (Err (EFidoError f))
      end).
Definition caller_inv (tr : list moz_event) (s : moz_state) : Prop :=
  (ms_callback s = true /\ ms_register s = [] /\ ms_main s = AtRegister /\ no_result tr /\ ~ In LibDropCallback tr)
  \/ (ms_callback s = false /\ ms_register s = [] /\ (ms_main s = AtRegister \/ ms_main s = Returned (Err funknown))
      /\ no_result tr /\ In LibDropCallback tr)
  \/ (ms_callback s = false /\ exists x, (forall y, In (LibResult y) tr <-> y = x) /\ ~ In LibDropCallback tr
      /\ after tr x (ms_register s) (ms_main s)).
Lemma in_snoc {A} (x y : A) l : In x (l ++ [y]) <-> In x l \/ x = y.
Proof. rewrite in_app_iff. cbn. split; [intros [H|[H|[]]]; auto|intros [H|H]; auto]. Qed.
Lemma thread_step tr s e s' : moz_step finish s e s' -> thread_inv tr s -> thread_inv (tr ++ [e]) s'.
Proof.
  intros H. unfold thread_inv. rewrite statuses_app.
  destruct H as [u q t ee c r m|x q l t ee r m|q l t ee r m|q t ee c r m|u f q l ee c r m Hu|u q l ee c r m Hu|ee c r m Hm
    |a q l t ee c r|q l t ee c r|q l t ee|f q l t ee c r|q l c r];
    cbn [ms_status ms_library ms_thread ms_errors ms_callback ms_register ms_main statuses flat_map app returned]; rewrite ?app_nil_r.
  - destruct t.
    + intros (H1 & pre & H2 & H3). split; [exact H1|]. exists pre. rewrite H2, <- app_assoc. auto.
    + intros (H1 & H2). split; [exact H1|]. destruct H2 as [H2|(f & H2 & H3)]; [auto|]. right. exists f. split; [exact H2|apply first_pin_app, H3].
  - intros H; exact H.
  - intros H; exact H.
  - intros H; exact H.
  - intros (-> & pre & H2 & H3). split; [reflexivity|]. right. exists f. split; [reflexivity|]. rewrite H2. apply first_pin_of; assumption.
  - intros (-> & pre & H2 & H3). split; [reflexivity|]. exists (pre ++ [u]). rewrite H2, <- app_assoc. split; [reflexivity|].
    apply no_pin_app. split; [exact H3|]. repeat constructor. symmetry. apply status_other, Hu.
  - intros _. split; [reflexivity|]. left. exact Hm.
  - destruct t; [intros H; exact H|]. intros (H1 & _). auto.
  - destruct t; [intros H; exact H|]. intros (H1 & [H2|H2]); [discriminate|auto].
  - destruct t; [intros H; exact H|]. intros (H1 & _). auto.
  - destruct t; [intros (H1 & _); discriminate|]. intros (H1 & _). auto.
  - intros [H _]. split; [exact H|left; reflexivity].
Qed.
Definition quiet (e : moz_event) : Prop := (forall x, e <> LibResult x) /\ e <> LibDropCallback.
Lemma quiet_result e tr x : quiet e -> In (LibResult x) (tr ++ [e]) <-> In (LibResult x) tr.
Proof. intros [Q _]. rewrite in_snoc. specialize (Q x). split; [intros [H|H]; [exact H|congruence]|auto]. Qed.
Lemma quiet_drop e tr : quiet e -> In LibDropCallback (tr ++ [e]) <-> In LibDropCallback tr.
Proof. intros [_ Q]. rewrite in_snoc. split; [intros [H|H]; [exact H|congruence]|auto]. Qed.
Lemma after_snoc tr e x reg m : after tr x reg m -> after (tr ++ [e]) x reg m.
Proof.
  unfold after. rewrite statuses_app. intros [H|[H1 H2]]; [left; exact H|right]. split; [exact H1|]. destruct x; [exact H2|].
  destruct H2 as [H2|(f & H2 & H3)]; [left; exact H2|right]. exists f. split; [apply first_pin_app, H2|exact H3].
Qed.
Lemma caller_quiet tr e s s' : quiet e -> ms_callback s' = ms_callback s -> ms_register s' = ms_register s -> ms_main s' = ms_main s ->
  caller_inv tr s -> caller_inv (tr ++ [e]) s'.
Proof.
  intros Q E1 E2 E3. unfold caller_inv, no_result. rewrite E1, E2, E3, (quiet_drop _ _ Q). intros [H|[H|(H & x & H1 & H2 & H3)]].
  - left. destruct H as (H1 & H2 & H3 & H4 & H5). do 3 (split; [assumption|]). split; [|exact H5]. intros x. rewrite (quiet_result _ _ _ Q). apply H4.
  - right. left. destruct H as (H1 & H2 & H3 & H4 & H5). do 3 (split; [assumption|]). split; [|exact H5]. intros x. rewrite (quiet_result _ _ _ Q). apply H4.
  - right. right. split; [exact H|]. exists x. split; [intros y; rewrite (quiet_result _ _ _ Q); apply H1|]. split; [rewrite (quiet_drop _ _ Q); exact H2|apply after_snoc, H3].
Qed.
Lemma quiet_program : quiet Program.
Proof. split; [intros x|]; discriminate. Qed.
(** A step of the caller: the shape of the state is known. *)
Lemma caller_program tr s s' : ms_callback s' = ms_callback s ->
  (forall x, after tr x (ms_register s) (ms_main s) -> after tr x (ms_register s') (ms_main s')) ->
  (ms_register s = [] -> ms_main s = AtRegister \/ ms_main s = Returned (Err funknown) -> ms_callback s = false ->
     ms_register s' = [] /\ ms_main s' = Returned (Err funknown)) ->
  (ms_callback s = true -> ms_register s <> [] \/ ms_main s <> AtRegister) ->
  caller_inv tr s -> caller_inv (tr ++ [Program]) s'.
Proof.
  intros E Ha Hd Hc H. set (s1 := mkMoz (ms_status s) (ms_library s) (ms_thread s) (ms_errors s) (ms_callback s') (ms_register s') (ms_main s')).
  apply (caller_quiet tr Program s1 s' quiet_program); try reflexivity. unfold caller_inv, s1. cbn [ms_callback ms_register ms_main]. rewrite E.
  destruct H as [(H1 & H2 & H3 & _)|[(H1 & H2 & H3 & H4 & H5)|(H1 & x & H2 & H3 & H4)]].
  - destruct (Hc H1); contradiction.
  - right. left. destruct (Hd H2 H3 H1) as [R1 R2]. auto 8.
  - right. right. split; [exact H1|]. exists x. auto.
Qed.
Lemma caller_step tr s e s' : moz_step finish s e s' -> thread_inv tr s -> caller_inv tr s -> caller_inv (tr ++ [e]) s'.
Proof.
  intros H. destruct H as [u q t ee c r m|x q l t ee r m|q l t ee r m|q t ee c r m|u f q l ee c r m Hu|u q l ee c r m Hu|ee c r m Hm
    |a q l t ee c r|q l t ee c r|q l t ee|f q l t ee c r|q l c r]; intros Ht.
  - apply caller_quiet; [split; [intros x|]; discriminate|reflexivity..].
  - intros [(H1 & H2 & H3 & H4 & H5)|[(H1 & _)|(H1 & _)]]; try discriminate. cbn in H2, H3. subst. right. right. cbn. split; [reflexivity|].
    exists x. split; [intros y; rewrite in_snoc; split; [intros [H|H]; [destruct (H4 y H)|congruence]|intros ->; auto]|].
    split; [rewrite in_snoc; intros [H|H]; [exact (H5 H)|discriminate]|]. left. auto.
  - intros [(H1 & H2 & H3 & H4 & H5)|[(H1 & _)|(H1 & _)]]; try discriminate. cbn in H2, H3. subst. right. left. cbn.
    do 2 (split; [reflexivity|]). split; [auto|]. split; [intros x; rewrite in_snoc; intros [H|H]; [exact (H4 x H)|discriminate]|]. apply in_snoc. auto.
  - apply caller_quiet; [split; [intros x|]; discriminate|reflexivity..].
  - apply caller_quiet; [apply quiet_program|reflexivity..].
  - apply caller_quiet; [apply quiet_program|reflexivity..].
  - apply caller_quiet; [apply quiet_program|reflexivity..].
  - apply caller_program; cbn; [reflexivity| |discriminate|intros _; left; discriminate].
    intros x [[H1 _]|[H1 _]]; [|discriminate]. injection H1 as <- ->. right. auto.
  - apply caller_program; cbn; [reflexivity| |discriminate|intros _; left; discriminate].
    intros x [[H1 _]|[H1 _]]; [|discriminate]. injection H1 as <- ->. right. auto.
  - apply caller_program; cbn; [reflexivity| |auto|discriminate].
    intros x [[H1 _]|[_ H1]]; [discriminate|]. destruct x; [discriminate|]. destruct H1 as [H1|(f & _ & H1)]; discriminate.
  - assert (P : first_pin (statuses tr) f /\ ee = []).
    { unfold thread_inv in Ht. cbn in Ht. destruct t; [destruct Ht; discriminate|]. destruct Ht as (_ & [H|(g & H & H')]); [discriminate|].
      injection H as -> ->. auto. }
    apply caller_program; cbn; [reflexivity| |intros _ [H|H]; discriminate|intros _; right; discriminate].
    intros x [[_ H1]|[H1 H2]]; [discriminate|]. right. split; [exact H1|]. destruct x; [discriminate|]. right. exists f. split; [apply P|reflexivity].
  - unfold thread_inv in Ht. cbn in Ht. destruct Ht as (_ & [H|(g & H & _)]); discriminate.
Qed.
Lemma run_inv tr s : moz_run finish moz_init tr s -> thread_inv tr s /\ caller_inv tr s.
Proof.
  intros H. remember moz_init as i eqn:Ei. induction H as [s|s tr s1 e s2 _ IH Hs]; subst.
  - split.
    + split; [reflexivity|]. exists []. split; [reflexivity|constructor].
    + left. cbn. do 3 (split; [reflexivity|]). split; [intros x H|intros H]; exact H.
  - destruct (IH eq_refl) as [I1 I2]. split; [eapply thread_step; eassumption|eapply caller_step; eassumption].
Qed.
End Threads.

(** What can be returned, in every run: the result of the checks on the registration (the only
    one); an unknown error when the callback was dropped; or, after a failed registration, the
    first PIN error that was reported. The error of the registration itself never. *)
Theorem C91_results : forall (finish : moz_attestation -> res fido_key) (tr : list moz_event) (s : moz_state) (r : res fido_key),
  moz_run finish moz_init tr s -> ms_main s = Returned r ->
  (exists a, (forall y, In (LibResult y) tr <-> y = Some a) /\ r = finish a)
  \/ (In LibDropCallback tr /\ (forall y, ~ In (LibResult y) tr) /\ r = Err (EFidoError FUnknown))
  \/ ((forall y, In (LibResult y) tr <-> y = None) /\ exists f, first_pin (statuses tr) f /\ r = Err (EFidoError f)).
Proof.
  intros finish tr s r H E. apply run_inv in H. destruct H as [_ [(_ & _ & H & _)|[(_ & _ & H & H1 & H2)|(_ & x & H1 & _ & [[_ H]|[_ H]])]]].
  - congruence.
  - right. left. split; [exact H2|]. split; [exact H1|]. destruct H as [H|H]; [congruence|]. rewrite E in H. injection H as ->. reflexivity.
  - congruence.
  - destruct x as [a|].
    + left. exists a. split; [exact H1|]. congruence.
    + right. right. split; [exact H1|]. destruct H as [H|(f & H & H')]; [congruence|]. exists f. split; [exact H|congruence].
Qed.
Print Assumptions C91_results.
(** When nothing more can happen, the caller has returned, unless the registration failed without
    a PIN error: then it waits for ever. *)
Theorem C91_hangs_iff : forall (finish : moz_attestation -> res fido_key) (tr : list moz_event) (s : moz_state),
  moz_run finish moz_init tr s -> ms_callback s = false -> (forall s', ~ moz_step finish s Program s') ->
  (returned (ms_main s) = false <-> In (LibResult None) tr /\ no_pin (statuses tr)).
Proof.
  intros finish tr s H Hc Hn. apply run_inv in H. destruct H as [Ht Hi]. destruct s as [q l t e c r m]. cbn in Hc. subst c.
  unfold thread_inv in Ht. unfold caller_inv in Hi. cbn in *.
  assert (Q : t = true -> q = []).
  { intros ->. destruct q as [|u q]; [reflexivity|exfalso]. destruct (status_error u) as [f|] eqn:Eu; eapply Hn; [eapply S_pin, Eu|eapply S_other, Eu]. }
  destruct Hi as [(H & _)|[(_ & -> & H & H1 & H2)|(_ & x & H1 & H2 & [[-> ->]|[-> H]])]]; [discriminate|..].
  - destruct H as [-> | ->]; [exfalso; eapply Hn, S_no_callback|]. split; [discriminate|]. intros [H _]. destruct (H1 _ H).
  - exfalso. destruct x; eapply Hn; [eapply S_registered|eapply S_failed].
  - destruct x as [a|].
    + subst m. split; [discriminate|]. intros [H _]. apply H1 in H. discriminate.
    + destruct H as [-> |(f & Hf & ->)].
      * split; [|reflexivity]. intros _. split; [apply H1; reflexivity|]. destruct t.
        -- destruct Ht as (_ & pre & -> & Hp). rewrite (Q eq_refl), app_nil_r. exact Hp.
        -- exfalso. destruct Ht as (_ & [Ht|(f & -> & _)]); [discriminate|]. eapply Hn, S_error.
      * split; [discriminate|]. intros [_ H]. destruct (no_pin_not _ _ H Hf).
Qed.
Print Assumptions C91_hangs_iff.
(** And it never returns later, whatever happens. *)
Theorem C91_hangs : forall (finish : moz_attestation -> res fido_key) (tr : list moz_event) (s : moz_state),
  moz_run finish moz_init tr s -> In (LibResult None) tr -> no_pin (statuses tr) -> returned (ms_main s) = false.
Proof.
  intros finish tr s H Hr Hp. destruct (ms_main s) as [| |r] eqn:E; [reflexivity..|exfalso].
  destruct (C91_results finish tr s r H E) as [(a & H1 & _)|[(_ & H1 & _)|(_ & f & H1 & _)]].
  - apply H1 in Hr. discriminate.
  - exact (H1 _ Hr).
  - exact (no_pin_not _ _ Hp H1).
Qed.
Print Assumptions C91_hangs.
(** The program takes at most three steps more than there are statuses. *)
Theorem C91_terminates : forall (finish : moz_attestation -> res fido_key) (tr : list moz_event) (s : moz_state),
  moz_run finish moz_init tr s -> steps tr <= length (statuses tr) + 3.
Proof.
  intros finish tr s H.
  assert (G : steps tr + length (ms_status s) + (if ms_thread s then 1 else 0)
              + match ms_main s with AtRegister => 2 | AtError => 1 | Returned _ => 0 end <= length (statuses tr) + 3).
  { remember moz_init as i eqn:Ei. induction H as [s|s tr s1 e s2 _ IH Hs]; subst; [cbn; lia|]. specialize (IH eq_refl).
    unfold steps in *. rewrite statuses_app, filter_app, !app_length.
    destruct Hs as [u q [|] ee c r m|x q l t ee r m|q l t ee r m|q t ee c r m|u f q l ee c r m Hu|u q l ee c r m Hu|ee c r m Hm
      |a q l t ee c r|q l t ee c r|q l t ee|f q l t ee c r|q l c r]; cbn in *; rewrite ?app_length; cbn; lia. }
  lia.
Qed.
Print Assumptions C91_terminates.

(** The library reports a failure (no PIN involved: a timeout, say), drops everything, and the
    caller waits for ever. *)
Definition ex_hang : list moz_event := [LibStatus StOther; LibResult None; LibDropStatus; Program; Program].
Definition ex_stuck : moz_state := mkMoz [] false true [] false [] AtError.
Lemma run_cons finish s e s1 tr s2 : moz_step finish s e s1 -> moz_run finish s1 tr s2 -> moz_run finish s (e :: tr) s2.
Proof.
  intros H R. induction R as [s1|s1 tr s2 e' s3 _ IH Hs].
  - apply (R_snoc finish s [] s e s1); [constructor|exact H].
  - change (e :: tr ++ [e']) with ((e :: tr) ++ [e']). eapply R_snoc; [apply IH, H|exact Hs].
Qed.
Lemma ex_hang_run finish : moz_run finish moz_init ex_hang ex_stuck.
Proof.
  eapply run_cons; [apply S_status|]. eapply run_cons; [apply S_result|]. eapply run_cons; [apply S_drop_status|].
  eapply run_cons; [apply S_other; reflexivity|]. eapply run_cons; [apply S_failed|]. constructor.
Qed.
Lemma ex_stuck_stuck finish e s : ~ moz_step finish ex_stuck e s.
Proof. intros H. inversion H; subst; discriminate. Qed.
Theorem C91_always_returns_refuted : exists (tr : list moz_event) (s : moz_state), forall (finish : moz_attestation -> res fido_key),
  moz_run finish moz_init tr s /\ returned (ms_main s) = false /\ ms_library s = false /\ ms_callback s = false
  /\ forall e s', ~ moz_step finish s e s'.
Proof.
  exists ex_hang, ex_stuck. intros finish. split; [apply ex_hang_run|]. do 3 (split; [reflexivity|]). apply ex_stuck_stuck.
Qed.
Print Assumptions C91_always_returns_refuted.
(** A wrong PIN: the error reaches the caller although the result came first. *)
Example C91_case : forall finish, exists tr s, moz_run finish moz_init tr s
  /\ ms_main s = Returned (Err (EFidoError (FInvalidPin (Some 7%N)))) /\ first_pin (statuses tr) (FInvalidPin (Some 7%N)) /\ steps tr = 4.
Proof.
  intros finish. exists [LibStatus StOther; LibStatus (StInvalidPin (Some 7%N)); LibStatus StPinBlocked; LibResult None; Program; Program; Program; Program]. eexists. split.
  - eapply run_cons; [apply S_status|]. eapply run_cons; [apply S_status|]. eapply run_cons; [apply S_status|]. eapply run_cons; [apply S_result|]. cbn.
    eapply run_cons; [apply S_failed|]. eapply run_cons; [apply S_other; reflexivity|]. eapply run_cons; [eapply S_pin; reflexivity|].
    eapply run_cons; [apply S_error|]. constructor.
  - split; [reflexivity|]. split; [|reflexivity]. cbn. repeat constructor.
Qed.
Example C91_success_case : forall finish a, exists s, moz_run finish moz_init [LibResult (Some a); Program] s /\ ms_main s = Returned (finish a).
Proof.
  intros finish a. eexists. split; [eapply run_cons; [apply S_result|]; eapply run_cons; [apply S_registered|]; constructor|reflexivity].
Qed.

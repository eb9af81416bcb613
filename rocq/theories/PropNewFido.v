(** Property C113: the program that makes a new hardware key. *)
From Coq Require Import Lia.
From Verif Require Import Base BaseFacts Utf8Facts Str WireFacts ReaderFacts WriterFacts SpecWire SpecKeys SpecText SpecSig SpecSign SpecPrivKey SpecFiles
  KeyType KeyTypeFacts PubKeyType PubKey PubKeyFacts PropPubKey Crypto Signature PrivKey PrivKeyFacts PropPrivKey PropSign TbsFacts
  Fido SpecFido PropFido X509 SpecX509 PropX509 Generate SpecGenerate PropGenerate Files CutFacts PropFiles Tools NewFido SpecNewFido.

(** ** C113 *)
Definition fido_app : bytes := s2b "ssh:test_sk_key".
Definition fido_comment : bytes := s2b "new-fido-sshkey".

Definition es_sk : key_type := Eval vm_compute in match kt_from_name (s2b "sk-ecdsa-sha2-nistp256@openssh.com") with Ok t => t | _ => sk_ed end.
Definition es_name : kt_from_name (s2b "sk-ecdsa-sha2-nistp256@openssh.com") = Ok es_sk := eq_refl.
Lemma es_known : known es_sk.
Proof. unfold known. vm_compute. auto 20. Qed.
Lemma credential_cases a app pub : credential_key a app pub ->
  (exists key, pub = mkPubKey sk_ed (PkEd25519 key (Some app)) None)
  \/ exists key, pub = mkPubKey es_sk (PkEcdsa (mkCurve Nistp256 (s2b "nistp256")) key (Some app)) None.
Proof.
  destruct pub as [t kd c]. intros (Hc & Ht & [(_ & Hn & Hk)|(_ & Hn & Hk)]); cbn [pk_comment pk_type pk_kind] in *; subst c kd; rewrite Hn in Ht.
  - rewrite sk_ed_name in Ht. apply ok_inj in Ht. subst t. eauto.
  - rewrite es_name in Ht. apply ok_inj in Ht. subst t. eauto.
Qed.
Lemma es_storable F flags handle key app comment :
  utf8_text app -> utf8_text comment -> (size key + size app + size handle + size comment + 240 <= u32_max)%N ->
  storable F (mkPrivKey es_sk (SkEcdsaSk (mkHw flags handle [] None None))
    (mkPubKey es_sk (PkEcdsa (mkCurve Nistp256 (s2b "nistp256")) key (Some app)) None) 0 comment).
Proof.
  intros Ha Hc L. set (p := mkPrivKey _ _ _ _ _). unfold size, u32_max in L.
  assert (Fk : fits key) by (unfold fits; change (2 ^ 32)%N with 4294967296%N; lia).
  assert (Fa : fits app) by (unfold fits; change (2 ^ 32)%N with 4294967296%N; lia).
  assert (Fh : fits handle) by (unfold fits; change (2 ^ 32)%N with 4294967296%N; lia).
  assert (Fc : fits comment) by (unfold fits; change (2 ^ 32)%N with 4294967296%N; lia).
  exists (enc_key (sk_pub p)), (enc_section p). rewrite pub_blob_iff, section_of_iff, !app_nil_r, field_ok_fits.
  assert (Kok : kind_ok es_sk (PkEcdsa (mkCurve Nistp256 (s2b "nistp256")) key (Some app))).
  { split; [reflexivity|]. split; [apply (curve_ok (s2b "nistp256")); reflexivity|]. split; [exact Fk|]. split; [exact Fa|apply utf8_valid_iff, Ha]. }
  split; [split; [exact Kok|reflexivity]|]. split.
  { unfold fits, enc_key, p. cbn [sk_pub pk_type pk_kind enc_kind enc_app c_identifier]. unfold enc_bytes. rewrite !app_length, !to_be_length.
    change (length (kt_name es_sk)) with 34. change (length (s2b "nistp256")) with 8. change (2 ^ 32)%N with 4294967296%N. lia. }
  split.
  - split; [reflexivity|]. split; [|reflexivity]. split; [apply es_known|]. split; [right; left; reflexivity|].
    split; [reflexivity|]. split; [reflexivity|]. split.
    + split; [exact Kok|]. unfold hw_ok. cbn [hw_handle hw_reserved hw_pin hw_device_path]. split; [exact Fh|]. split; [reflexivity|]. auto.
    + apply str_ok_iff. split; [exact Hc|]. apply field_ok_fits, Fc.
  - unfold size, enc_section, enc_priv, p. cbn [sk_magic sk_pub sk_type sk_kind sk_comment pk_type pk_kind enc_sec enc_kind enc_app hw_handle hw_flags hw_reserved c_identifier].
    unfold enc_bytes. rewrite !app_length, !to_be_length. change (length (kt_name es_sk)) with 34. change (length (s2b "nistp256")) with 8. unfold u32_max. cbn [length]. lia.
Qed.

Lemma sk_write_kind k h kind t : (sk_kind k = SkEd25519Sk h) -> kind = SkEcdsaSk h \/ kind = SkEd25519Sk h ->
  sk_write (mkPrivKey t kind (sk_pub k) (sk_magic k) (sk_comment k)) = sk_write k.
Proof.
  intros E H. unfold sk_write, sk_encode, write_section, write_priv_kind. cbn [sk_pub sk_kind sk_magic sk_comment]. rewrite E.
  destruct H as [-> | ->]; reflexivity.
Qed.

Lemma fido_texts F K pass X default k : generated X default fido_app fido_comment k -> (material_size (fk_private k) + 300 <= u32_max)%N ->
  exists line text p', pk_display (sk_pub (fk_private k)) = Ok line /\ pk_from_string line = Ok (sk_pub (fk_private k))
    /\ sk_write (fk_private k) = Ok text /\ sk_from_string F K text pass = Ok p' /\ stored_form (fk_private k) p' /\ name_fits (sk_pub p').
Proof.
  intros Hg L. apply generated_inv in Hg. destruct Hg as (a & pub & fl & hd & pin & path & Hp & E). unfold material_size in L. rewrite E in *. cbn [sk_pub sk_kind hw_handle] in *.
  assert (Ua : utf8_text fido_app) by (apply utf8_valid_iff; reflexivity). assert (Uc : utf8_text fido_comment) by (apply utf8_valid_iff; reflexivity).
  assert (Ff : field_ok fido_app) by (vm_compute; discriminate).
  destruct (credential_cases _ _ _ Hp) as [(key & ->)|(key & ->)]; cbn [pk_kind] in L.
  - edestruct (C23_text_round_trip (mkPubKey sk_ed (PkEd25519 key (Some fido_app)) None) (PkEd25519 key (Some fido_app))
      (field key ++ field fido_app) None) as (t & T1 & T2); [vm_compute; reflexivity|reflexivity| |reflexivity|].
    { cbn [pk_type]. apply KD_ed25519; [reflexivity|unfold field_ok; lia|]. split; [exact Ua|]. split; [exact Ff|reflexivity]. }
    assert (L' : (size key + size fido_app + size hd + size fido_comment + 200 <= u32_max)%N)
      by (change (size fido_app) with 15%N; change (size fido_comment) with 15%N; lia).
    edestruct (C53_text_round_trip F K pass) as (text & W & R); [exact (new_storable F fl hd key fido_app fido_comment Ua Uc L')| |].
    2: { exists t, text. eexists. split; [exact T1|]. split; [exact T2|]. split; [exact W|]. split; [exact R|]. split; [|reflexivity].
         exists fl, hd, [], pin, path. repeat split. }
    repeat split.
  - edestruct (C23_text_round_trip (mkPubKey es_sk (PkEcdsa (mkCurve Nistp256 (s2b "nistp256")) key (Some fido_app)) None) (PkEcdsa (mkCurve Nistp256 (s2b "nistp256")) key (Some fido_app))
      (field (s2b "nistp256") ++ field key ++ field fido_app) None) as (t & T1 & T2); [vm_compute; reflexivity|reflexivity| |reflexivity|].
    { cbn [pk_type]. apply (KD_ecdsa es_sk (mkCurve Nistp256 (s2b "nistp256"))); [reflexivity|reflexivity|unfold field_ok; lia|]. split; [exact Ua|]. split; [exact Ff|reflexivity]. }
    assert (L' : (size key + size fido_app + size hd + size fido_comment + 240 <= u32_max)%N)
      by (change (size fido_app) with 15%N; change (size fido_comment) with 15%N; lia).
    set (p := mkPrivKey sk_ed (SkEd25519Sk (mkHw fl hd [] pin path)) (mkPubKey es_sk (PkEcdsa (mkCurve Nistp256 (s2b "nistp256")) key (Some fido_app)) None) 0 fido_comment) in *.
    pose proof (es_storable F fl hd key fido_app fido_comment Ua Uc L') as S.
    edestruct (C53_text_round_trip F K pass (mkPrivKey es_sk (SkEcdsaSk (mkHw fl hd [] pin path)) (sk_pub p) (sk_magic p) (sk_comment p))) as (text & W & R); [exact S|repeat split|].
    rewrite (sk_write_kind p (mkHw fl hd [] pin path)) in W by auto.
    exists t, text. eexists. split; [exact T1|]. split; [exact T2|]. split; [exact W|]. split; [exact R|]. split; [|reflexivity].
    exists fl, hd, [], pin, path. repeat split.
Qed.

Theorem C113_new_key : forall (F : features) (K : keyops) (pass : option bytes) (why : error -> bytes) (X : x509) (default : bytes)
  (k : fido_key) (out : target),
  generated X default (s2b "ssh:test_sk_key") (s2b "new-fido-sshkey") k -> (material_size (fk_private k) + 300 <= u32_max)%N ->
  exists line text p', pk_from_string line = Ok (sk_pub (fk_private k))
    /\ sk_from_string F K text pass = Ok p' /\ stored_form (fk_private k) p'
    /\ let o := new_fido_sshkey why (Ok k) out in
       match out with
       | NoOut => o = mkOutcome (line ++ [x0a] ++ s2b "Your new private key handle:" ++ [x0a] ++ text ++ [x0a]) None true
       | Uncreatable => o = mkOutcome (line ++ [x0a]) None false
       | Takes room => oc_stdout o = line ++ [x0a] /\ exists file, oc_file o = Some file /\ beginning file text
           /\ (oc_returned o = true <-> file = text) /\ (oc_returned o = true <-> length text <= room)
           /\ (sk_from_string F K file pass = Ok p' \/ sk_from_string F K file pass = Err EInvalidFormat)
       end.
Proof.
  intros F K pass why X default k out Hg L.
  destruct (fido_texts F K pass X default k Hg L) as (line & text & p' & D1 & D2 & T1 & T2 & T3 & _).
  exists line, text, p'. split; [exact D2|]. split; [exact T2|]. split; [exact T3|]. cbv zeta. unfold new_fido_sshkey. rewrite D1.
  destruct out as [| |room].
  - rewrite T1. unfold println, newline. rewrite <- !app_assoc. reflexivity.
  - reflexivity.
  - unfold sk_write_to, write_out. rewrite T1. rewrite write_fmt_room. cbn [oc_stdout oc_file oc_returned]. split; [reflexivity|].
    exists (firstn room text). split; [reflexivity|]. split; [apply beginning_firstn|].
    assert (A : match (if length text <=? room then Ok tt else Err EIo) with Ok _ => true | _ => false end = true <-> length text <= room).
    { destruct (Nat.leb_spec (length text) room); split; intros; try lia; try reflexivity; discriminate. }
    split; [|split; [exact A|]].
    + rewrite A. split; [apply firstn_all2|]. intros E. apply (f_equal (@length byte)) in E. rewrite firstn_length in E. lia.
    + eapply C101_cut_private_key; [apply beginning_firstn|exact T2].
Qed.
Print Assumptions C113_new_key.

(** What the file's key signs verifies with the printed key. *)
Theorem C113_signs : forall (F : features) (C : crypto) (K : keyops) (pass : option bytes) (why : error -> bytes) (X : x509) (default m blob file : bytes)
  (k : fido_key) (room : nat) (p p' : privkey),
  generated X default (s2b "ssh:test_sk_key") (s2b "new-fido-sshkey") k -> (material_size (fk_private k) + 300 <= u32_max)%N ->
  software_signs C K -> (forall h, hardware (fk_private k) h -> device_signs C K (sk_pub (fk_private k)) (hw_handle h)) ->
  let o := new_fido_sshkey why (Ok k) (Takes room) in
  oc_file o = Some file -> sk_from_string F K file pass = Ok p -> configured p p' -> sk_sign F C K p' m = Ok (Some blob) ->
  exists line pub, oc_stdout o = line ++ [x0a] /\ pk_from_string line = Ok pub /\ verify_signature C blob m pub = Ok blob.
Proof.
  intros F C K pass why X default m blob file k room p p' Hg L Hs Hd o Hf Hp Hc Hsig.
  destruct (fido_texts F K pass X default k Hg L) as (line & text & q & D1 & D2 & T1 & T2 & T3 & T4).
  unfold o, new_fido_sshkey in *. rewrite D1 in *. unfold sk_write_to, write_out in *. rewrite T1 in *. rewrite write_fmt_room in *.
  cbn [oc_file oc_stdout] in *. injection Hf as <-. exists line, (sk_pub (fk_private k)). split; [reflexivity|]. split; [exact D2|].
  assert (p = q) as ->.
  { destruct (C101_cut_private_key F K (firstn room text) text pass q (beginning_firstn _ _) T2) as [O|O]; rewrite Hp in O; [apply ok_inj, O|discriminate]. }
  destruct T3 as (fl & hd & rs & pin & path & E1 & E2 & _ & _ & _ & E3). rewrite <- E2 in *.
  eapply (C75_read_keys F C K (firstn room text) m blob pass q p'); try eassumption.
  intros h Hh. specialize (Hd (mkHw fl hd rs pin path) (or_intror E1)). cbn [hw_handle] in Hd.
  assert (E4 : hw_handle h = hd); [|rewrite E4; exact Hd].
  destruct (pk_kind (sk_pub q)); destruct Hh as [Hh|Hh]; rewrite E3 in Hh; try discriminate Hh; injection Hh as <-; reflexivity.
Qed.
Print Assumptions C113_signs.

(** ctap2-hid: neither output nor file depends on the PIN and the path, beyond what the device
    answers. *)
Theorem C113_pin_not_shown : forall (why : error -> bytes) (G : hid_ops) (X : x509) (C : crypto) (default : bytes)
  (pin1 path1 pin2 path2 : option bytes) (challenge : bytes) (out : target),
  g_open G path1 = g_open G path2 ->
  (forall device app, g_make G device app challenge pin1 = g_make G device app challenge pin2) ->
  new_fido_sshkey_hid why G X C default pin1 path1 challenge out = new_fido_sshkey_hid why G X C default pin2 path2 challenge out.
Proof.
  intros why G X C default pin1 path1 pin2 path2 challenge out H1 H2. unfold new_fido_sshkey_hid, hid_generate. rewrite H1.
  destruct (g_open G path2) as [d|]; [|reflexivity]. cbn [ok_or bind]. rewrite H2. destruct (g_make _ _ _ _ _) as [att|]; [|reflexivity]. cbn [ok_or bind].
  rewrite sk_ed_name. cbn [bind]. destruct (auth_parse _) as [a| |]; [|reflexivity..]. cbn [bind]. destruct (auth_ssh_key _ _) as [pub| |]; [|reflexivity..]. cbn [bind].
  destruct (attestation_verify _ _ _); [|reflexivity..]. cbn [bind]. unfold new_fido_sshkey, fk_private. cbn [sk_pub].
  destruct (pk_display pub); [|reflexivity..]. destruct out; reflexivity.
Qed.
Print Assumptions C113_pin_not_shown.

(** A file appears, or a key is printed, only for a key that a device attested under the root. *)
Theorem C113_only_attested : forall (why : error -> bytes) (G : hid_ops) (X : x509) (C : crypto) (default : bytes)
  (pin path : option bytes) (challenge : bytes) (out : target),
  let o := new_fido_sshkey_hid why G X C default pin path challenge out in
  (exists e, o = mkOutcome (s2b "Failed to generate new SSH Key: " ++ why e ++ [x0a]) None true)
  \/ exists k v, hid_generate G X C default (s2b "ssh:test_sk_key") (s2b "new-fido-sshkey") pin path challenge = Ok k
       /\ attested_by X default (fk_attestation k) v /\ credential_key (va_auth v) (s2b "ssh:test_sk_key") (sk_pub (fk_private k))
       /\ o = new_fido_sshkey why (Ok k) out.
Proof.
  intros why G X C default pin path challenge out o. unfold o, new_fido_sshkey_hid.
  destruct (hid_generate G X C default _ _ pin path challenge) as [k|e|] eqn:E.
  - right. exists k. apply C89_hid in E. destruct E as (d & att & v & pub & fl & _ & _ & _ & H4 & (_ & _ & H5 & _) & _ & H8). exists v.
    rewrite H5. auto.
  - left. exists e. unfold new_fido_sshkey, println, newline. rewrite <- app_assoc. reflexivity.
  - exfalso. eapply (proj1 (C89_never_panics G X C default _ _ pin path challenge (mkMozAtt [] None))), E.
Qed.
Print Assumptions C113_only_attested.

(** The program returns normally though no key was made. *)
Theorem C113_exit_status_tells_refuted : exists (why : error -> bytes) (G : hid_ops) (X : x509) (C : crypto) (default challenge : bytes) (room : nat),
  let o := new_fido_sshkey_hid why G X C default None None challenge (Takes room) in
  oc_returned o = true /\ oc_file o = None.
Proof.
  exists (fun _ => []), (mkHidOps (fun _ => None) (fun _ _ _ _ => None)), ex_x, toy_crypto, [], [], 1000. split; reflexivity.
Qed.
Print Assumptions C113_exit_status_tells_refuted.

Definition ex_hid_any : hid_ops := mkHidOps (fun p => Some 0%N) (fun d app ch pin => Some (ex_hid_att (c_sha256 toy_crypto ch))).
Example C113_case : exists k, hid_generate ex_hid_any ex_x toy_crypto (s2b "root") (s2b "ssh:test_sk_key") (s2b "new-fido-sshkey") (Some (s2b "1234")) None [x07] = Ok k
  /\ generated ex_x (s2b "root") (s2b "ssh:test_sk_key") (s2b "new-fido-sshkey") k
  /\ material_size (fk_private k) = 160%N
  /\ (forall hd, device_signs toy_crypto toy_ops (sk_pub (fk_private k)) hd)
  /\ oc_returned (new_fido_sshkey (fun _ => []) (Ok k) (Takes 700)) = true
  /\ oc_returned (new_fido_sshkey (fun _ => []) (Ok k) (Takes 500)) = false.
Proof.
  destruct (hid_generate ex_hid_any ex_x toy_crypto (s2b "root") (s2b "ssh:test_sk_key") (s2b "new-fido-sshkey") (Some (s2b "1234")) None [x07]) as [k| |] eqn:E; [|vm_compute in E; discriminate..].
  exists k. split; [reflexivity|]. split; [exact (G_hid _ _ _ _ _ _ _ _ _ _ E)|]. vm_compute in E. apply ok_inj in E. 
  assert (Hk : pk_kind (sk_pub (fk_private k)) = PkEd25519 (skipn 193 ex_auth) (Some (s2b "ssh:test_sk_key"))) by (subst k; vm_compute; reflexivity).
  split; [subst k; vm_compute; reflexivity|]. split; [intros; eapply toy_device, Hk|]. subst k. split; vm_compute; reflexivity.
Qed.
(** An ES256 credential too. *)
Example C113_case_es256 : exists k p', moz_finish ex_x (s2b "root") (s2b "ssh:test_sk_key") (s2b "new-fido-sshkey") None [x09] ex_es_moz = Ok k
  /\ generated ex_x (s2b "root") (s2b "ssh:test_sk_key") (s2b "new-fido-sshkey") k /\ stored_form (fk_private k) p'
  /\ sk_kind p' = SkEcdsaSk (mkHw x41 [xaa; xbb] [] None None).
Proof.
  destruct (moz_finish ex_x (s2b "root") (s2b "ssh:test_sk_key") (s2b "new-fido-sshkey") None [x09] ex_es_moz) as [k| |] eqn:E; [|vm_compute in E; discriminate..].
  exists k, (mkPrivKey (pk_type (sk_pub (fk_private k))) (SkEcdsaSk (mkHw x41 [xaa; xbb] [] None None)) (sk_pub (fk_private k)) 0 (s2b "new-fido-sshkey")).
  split; [reflexivity|]. split; [exact (G_moz _ _ _ _ _ _ _ _ E)|]. vm_compute in E. apply ok_inj in E. subst k.
  split; [|reflexivity]. do 5 eexists. repeat split.
Qed.

(** Theorems about certificates that are read, changed and signed again (C117). *)
From Coq Require Import Permutation.
From Verif Require Import Base BaseFacts Utf8 Utf8Facts Str StrFacts Base64 Base64Facts SpecWire SpecText SpecBase64 SpecKeys
  SpecSig SpecCert Reader ReaderFacts KeyType KeyTypeFacts PubKeyType Writer WriterFacts WireFacts
  Crypto PubKey PubKeyFacts Signature SignatureFacts Cert CertFacts TbsFacts PropCert PropCertText PropIssue SpecRenew.

Lemma cert_type_name kt : known kt -> kt_is_cert kt = true -> as_cert_name kt = Ok (kt_name kt).
Proof.
  revert kt. apply (known_forall (fun kt => kt_is_cert kt = true -> as_cert_name kt = Ok (kt_name kt))). unfold key_types.
  repeat (apply Forall_cons; [intros H; first [discriminate H|vm_compute; reflexivity]|]). apply Forall_nil.
Qed.
Lemma plain_plain kt : known kt -> forall p, known p -> kt_name p = kt_plain kt -> kt_plain p = kt_plain kt.
Proof.
  intros H p Hp E. destruct (known_plain kt H) as (q & Hq & _ & _ & Eq & _). apply kt_from_name_ok in Hq.
  assert (q = p); [|congruence]. destruct Hq as [Hq En]. rewrite <- E in En.
  pose proof (proj2 (kt_from_name_ok (kt_name p) q) (conj Hq En)) as A. pose proof (proj2 (kt_from_name_ok (kt_name p) p) (conj Hp eq_refl)). congruence.
Qed.

Lemma core_shaped c sp : core c sp -> shaped c.
Proof.
  intros (pb & cb & eb & skb & skpost & Hkt & Hcert & Hnonce & K1 & K2 & K3 & K4 & Hserial & Hid
      & Hpb & Hps & Hva & Hvb & Hcb & Hco & Heb & Hex & Hrs & Hskb & (S1 & S2 & S3) & Eskb & _).
  split; [exact Hkt|]. split; [exact Hcert|]. split; [apply cert_type_name; assumption|].
  split; [symmetry; apply plain_plain; assumption|].
  split; (split; [assumption|]); [rewrite (canon_ok _ _ K4)|rewrite (canon_ok _ _ S3)]; assumption.
Qed.
Lemma shaped_ops c ops : shaped c -> shaped (apply_ops c ops).
Proof.
  destruct (apply_ops_fixed ops c) as (E1 & _ & E3 & _ & _ & E6 & _ & _). unfold shaped. rewrite E1, E3, E6. auto.
Qed.

Lemma entries_text l bs : entries_rel l bs -> Forall (fun e => utf8_text (fst e) /\ utf8_text (snd e)) l.
Proof.
  induction 1 as [|name v b l bs Hn Hv Hl IH]; constructor; [|exact IH]. cbn [fst snd].
  split; [apply utf8_valid_iff, Hn|]. destruct Hv as [[-> _]|(tl & Hv & _)]; [apply utf8_valid_iff; reflexivity|apply utf8_valid_iff, Hv].
Qed.
Lemma hm_insert_forall (P : bytes * bytes -> Prop) k v m : (forall k', bytes_eqb k k' = true -> P (k', v)) -> P (k, v) -> Forall P m -> Forall P (hm_insert k v m).
Proof.
  intros H0 H. induction 1 as [|[k' v'] m H1 H2 IH]; cbn [hm_insert]; [constructor; [exact H|constructor]|].
  destruct (bytes_eqb k k') eqn:E; constructor; auto.
Qed.
Lemma insert_text k v m : utf8_text k -> utf8_text v -> text_map m -> text_map (hm_insert k v m).
Proof.
  intros Hk Hv [H1 H2]. split.
  - exact (insert_all_nodup [(k, v)] m H1).
  - apply hm_insert_forall; [|auto|exact H2]. intros k' E. apply bytes_eqb_eq in E. subst k'. auto.
Qed.
Lemma insert_all_text l : forall m, Forall (fun e => utf8_text (fst e) /\ utf8_text (snd e)) l -> text_map m -> text_map (insert_all l m).
Proof.
  induction l as [|[k v] l IH]; intros m H Hm; [exact Hm|]. inversion H as [|? ? [H1 H2] H3]; subst. cbn [fst snd] in *.
  apply (IH (hm_insert k v m)); [exact H3|]. apply insert_text; assumption.
Qed.

Lemma core_typed c sp : core c sp -> well_typed c.
Proof.
  intros (pb & cb & eb & skb & skpost & Hkt & Hcert & Hnonce & K1 & K2 & K3 & K4 & Hserial & Hid
      & Hpb & Hps & Hva & Hvb & Hcb & Hco & Heb & Hex & _).
  unfold well_typed, u64_max. split; [lia|]. split; [lia|]. split; [lia|]. split; [apply utf8_valid_iff, Hid|].
  split.
  { apply read_principals_iff in Hps. destruct Hps as [Hps _]. eapply Forall_impl; [|exact Hps]. intros a [_ Ha]. apply utf8_valid_iff, Ha. }
  apply read_options_iff in Hco, Hex. destruct Hco as (co & Hco & ->), Hex as (ex & Hex & ->).
  split; (apply insert_all_text; [eapply entries_text; eassumption|split; constructor]).
Qed.
Lemma typed_op o c : call_ok o -> well_typed c -> well_typed (apply_op c o).
Proof.
  intros Ho (T1 & T2 & T3 & T4 & T5 & T6 & T7).
  destruct o; cbn [call_ok] in Ho; unfold well_typed;
    cbn [apply_op upd ct_serial ct_valid_after ct_valid_before ct_key_id ct_principals ct_critical_options ct_extensions].
  all: repeat (split; [first [assumption|apply insert_text; solve [assumption|apply Ho]|apply Forall_app; auto]|]).
  all: first [assumption|apply insert_text; solve [assumption|apply Ho]].
Qed.
Lemma typed_ops ops : forall c, Forall call_ok ops -> well_typed c -> well_typed (apply_ops c ops).
Proof.
  induction ops as [|o ops IH]; intros c H Hw; [exact Hw|]. inversion H; subst. cbn [apply_ops fold_left].
  apply IH; [assumption|apply typed_op; assumption].
Qed.

Lemma shaped_tbs iter c : (forall m, Permutation (iter m) m) ->
  shaped c -> well_typed c -> forall tbs, tbs_certificate iter c = Ok tbs -> (size tbs <= u32_max)%N ->
  exists pk pca, kt_from_name (kt_plain (pk_type (ct_key c))) = Ok pk
    /\ as_requested c (issued iter c pk pca) /\ core (issued iter c pk pca) tbs.
Proof.
  intros P Hu Hw tbs Ht Hs. pose proof (tbs_sizes _ _ _ Hu Ht Hs) as Hf.
  pose proof (tbs_enc _ _ Hu Hf) as E. assert (tbs = tbs_bytes iter c) by congruence. subst tbs.
  destruct (issued_core iter c P Hu Hw Hf) as (pk & pca & H1 & H2 & H3). exists pk, pca.
  split; [exact H1|]. split; [apply issued_requested; assumption|exact H3].
Qed.

(** A certificate that was read, changed and signed again parses back to what it was, changed. *)
Theorem C117_renewed_parses_back : forall (C C' : crypto) (iter : hashmap -> hashmap) (data : bytes) (c c' : cert) (ops : list build_op) (sg : bytes),
  (forall m, Permutation (iter m) m) -> cert_from_bytes C data = Ok c -> Forall call_ok ops ->
  add_signature C' iter (apply_ops c ops) sg = Ok c' -> (size (ct_serialized c') <= u32_max)%N ->
  exists p, cert_from_bytes C' (ct_serialized c') = Ok p
    /\ as_requested (apply_ops c ops) p /\ ct_key p = ct_key c /\ ct_signature p = sg /\ ct_serialized p = ct_serialized c'.
Proof.
  intros C C' iter data c c' ops sg P Hc Ho Ha Hs.
  apply cert_from_bytes_iff in Hc. destruct Hc as (sp & post & Hc & _).
  pose proof (shaped_ops c ops (core_shaped _ _ Hc)) as Hsh. pose proof (typed_ops ops c Ho (core_typed _ _ Hc)) as Hw.
  destruct (apply_ops_fixed ops c) as (F1 & _ & F3 & _ & _ & F6 & _ & _).
  apply add_signature_iff in Ha. destruct Ha as (tbs & Ht & Hacc & (_ & _ & _ & _ & _ & Hser)).
  rewrite Hser in *. unfold size, u32_max in Hs. rewrite app_length, write_bytes_length in Hs. cbn [writer_new length] in Hs.
  assert (Hfs : fits sg) by (unfold fits; lia).
  destruct (shaped_tbs iter _ P Hsh Hw tbs Ht) as (pk & pca & Hpk & Hr & Hcore); [unfold size, u32_max; lia|].
  rewrite (write_bytes_enc sg) by exact Hfs. change (writer_new ++ enc_bytes sg) with (enc_bytes sg).
  set (d := tbs ++ enc_bytes sg) in *. exists (seal (issued iter (apply_ops c ops) pk pca) sg d).
  destruct Hc as (pb & cb & eb & skb & skpost & Hkt & Hcert & Hnonce & K1 & K2 & K3 & K4 & _ & _
      & _ & _ & _ & _ & _ & _ & _ & _ & _ & _ & (S1 & S2 & S3) & _ & _).
  split; [|split; [|split; [|split; reflexivity]]].
  - apply cert_from_bytes_iff. exists tbs, []. split; [exact (core_seal _ _ _ _ Hcore)|].
    cbn [seal ct_signature ct_signature_key ct_comment ct_serialized]. rewrite app_nil_r.
    split; [reflexivity|]. split; [exact Hfs|]. split; [|split; reflexivity].
    unfold issued. cbn [ct_signature_key]. rewrite F6 in *. rewrite (canon_ok _ _ S3).
    eapply (accepted_plain C' (ct_signature_key c)); [exact S1|exact Hacc| |reflexivity].
    destruct Hr as (_ & _ & _ & _ & _ & _ & _ & _ & _ & _ & _ & _ & Hk & _). rewrite F6 in Hk. exact Hk.
  - exact Hr.
  - unfold seal, issued. cbn [ct_key]. rewrite F3 in *. rewrite (canon_ok _ _ K4).
    rewrite (plain_plain _ Hkt _ K1 K2), <- K2 in Hpk.
    pose proof (proj2 (kt_from_name_ok (kt_name (pk_type (ct_key c))) (pk_type (ct_key c))) (conj K1 eq_refl)) as E.
    assert (pk = pk_type (ct_key c)) as -> by congruence. destruct (ct_key c) as [t kd cm]. cbn in *. subst cm. reflexivity.
Qed.
Print Assumptions C117_renewed_parses_back.

(** Until then changes are not seen by anyone who is given the bytes or the text: only the word
    after the data comes from the new key id. *)
Theorem C117_unsigned_changes : forall (C : crypto) (data : bytes) (c : cert) (ops : list build_op) (ws : list bytes),
  cert_from_bytes C data = Ok c ->
  ct_serialized (apply_ops c ops) = data
  /\ (words_of (ct_key_id (apply_ops c ops)) ws ->
      cert_from_string C (cert_display (apply_ops c ops)) = Ok (with_comment c (hd_error ws))).
Proof.
  intros C data c ops ws H. pose proof H as H0. apply cert_from_bytes_iff in H. destruct H as (sp & post & Hc & Hd & _ & _ & _ & Hser).
  destruct (apply_ops_fixed ops c) as (F1 & _ & _ & _ & _ & _ & _ & F8). split; [congruence|]. intros Hw.
  assert (Hkt : known (ct_key_type c)) by (destruct Hc as (? & ? & ? & ? & ? & Hkt & _); exact Hkt).
  assert (Hne : data <> []).
  { intros E. apply core_length in Hc. rewrite E in Hd. apply f_equal with (f := @length byte) in Hd.
    rewrite app_length in Hd. cbn [length] in Hd. lia. }
  assert (Wt : word (kt_name (ct_key_type c))) by apply known_word, Hkt.
  assert (Wd : word (b64_encode data)) by apply b64_encode_word, Hne.
  apply (C44_label_by_kind C _ (kt_name (ct_key_type c)) (b64_encode data) data ws (ct_key_type c) c).
  - unfold cert_display. rewrite F1, F8, Hser. change [space] with [x20].
    apply (W_cons [] (kt_name (ct_key_type c)) 32 [x20]); [constructor|exact Wt|apply space_char|apply space_ws|].
    apply (W_cons [] (b64_encode data) 32 [x20]); [constructor|exact Wd|apply space_char|apply space_ws|exact Hw].
  - apply known_name_ok, Hkt.
  - apply b64_decode_encode.
  - exact H0.
  - reflexivity.
Qed.
Print Assumptions C117_unsigned_changes.

Lemma layout_part c sp : signed_part c sp <-> exists co cb ex eb skpost, signed_layout c co cb ex eb skpost sp.
Proof.
  split.
  - intros (kd & pb & co & cb & ex & eb & skd & skpost & H). exists co, cb, ex, eb, skpost, kd, pb, skd. exact H.
  - intros (co & cb & ex & eb & skpost & kd & pb & skd & H). exists kd, pb, co, cb, ex, eb, skd, skpost. exact H.
Qed.
Lemma plain_options_iff l bs : plain_options l bs <-> bs = enc_map_body l.
Proof.
  unfold enc_map_body. split.
  - induction 1 as [|name l bs H IH|name v l bs Hv H IH]; cbn [map concat]; [reflexivity| |]; unfold enc_entry at 1; cbn [fst snd];
      rewrite IH, !field_enc, <- app_assoc; [reflexivity|]. destruct v; [congruence|reflexivity].
  - intros ->. induction l as [|[k v] l IH]; cbn [map concat]; [constructor|]. unfold enc_entry at 1. cbn [fst snd]. rewrite <- app_assoc.
    destruct v as [|b v].
    + cbn [enc_opt_value]. rewrite <- !field_enc. constructor. exact IH.
    + cbn [enc_opt_value]. rewrite <- !field_enc. constructor; [discriminate|exact IH].
Qed.

(** When the to-be-signed bytes made from a certificate are the bytes that were signed. *)
Theorem C117_same_bytes : forall (iter : hashmap -> hashmap) (c : cert) (co : list (bytes * bytes)) (cb : bytes) (ex : list (bytes * bytes)) (eb skpost sp : bytes),
  (forall m, Permutation (iter m) m) -> signed_layout c co cb ex eb skpost sp -> (size sp <= u32_max)%N ->
  (tbs_certificate iter c = Ok sp <->
   ct_reserved c = [] /\ kt_name (pk_type (ct_signature_key c)) = kt_plain (pk_type (ct_signature_key c)) /\ skpost = []
   /\ co = iter (ct_critical_options c) /\ plain_options co cb
   /\ ex = iter (ct_extensions c) /\ plain_options ex eb).
Proof.
  intros iter c co cb ex eb skpost sp P HL Hs.
  pose proof (proj2 (layout_part c sp) (ex_intro _ co (ex_intro _ cb (ex_intro _ ex (ex_intro _ eb (ex_intro _ skpost HL)))))) as HP.
  destruct HL as (kd & pb & skd & Hkt & Hcert & Hpl & K3 & Hkd & Hserial & Hva & Hvb & Hid
      & Hnonce & Hrs & Hps & Hpb & Hco & Hcb & Mco & Hex & Heb & Mex & S1 & S2 & Hskd & Hskb & Esp).
  apply signed_core in HP. destruct HP as (c1 & Hc1 & Hsame & _).
  assert (Hsh : shaped c).
  { apply core_shaped in Hc1. destruct Hsame as (E1 & _ & E3 & _ & _ & _ & _ & _ & _ & _ & _ & _ & E13).
    unfold shaped in *. rewrite <- E1, <- E3, <- E13. exact Hc1. }
  apply key_data_iff in Hkd, Hskd. destruct Hkd as [Hkd ->], Hskd as [Hskd ->].
  rewrite !field_enc, !be64_to_be, be32_to_be in Esp. rewrite !field_ok_fits in *. rewrite field_enc in Hskb.
  assert (Epb : pb = concat (map enc_bytes (ct_principals c))).
  { destruct Hps as [_ ->]. f_equal. apply map_ext. intros; apply field_enc. }
  pose proof (proj1 (options_data_iff co cb) Hco) as Rco. pose proof (proj1 (options_data_iff ex eb) Hex) as Rex.
  assert (Tm : forall l b m, entries_rel l b -> map_of l m -> text_map m).
  { intros l b m He [N M]. split; [exact N|]. rewrite Forall_forall. intros [k v] Hi. apply M in Hi. destruct Hi as (pre & post & -> & _).
    apply entries_text in He. rewrite Forall_forall in He. apply (He (k, v)). apply in_or_app. right. left. reflexivity. }
  split.
  - intros Ht. pose proof (tbs_sizes _ _ _ Hsh Ht Hs) as Hf. pose proof (tbs_enc _ _ Hsh Hf) as E.
    assert (Eb : tbs_bytes iter c = sp) by congruence. clear E Ht. rewrite Esp in Eb. unfold tbs_bytes in Eb.
    rewrite (canon_ok _ _ Hkd), (canon_ok _ _ Hskd), <- Epb in Eb.
    repeat (apply app_inv_head in Eb). destruct Hf as (F1 & F2 & F3 & F4 & F5 & F6). rewrite (canon_ok _ _ Hskd) in F6.
    apply enc_bytes_inj in Eb; [|exact F4|exact Hcb]. destruct Eb as [E1 Eb].
    apply enc_bytes_inj in Eb; [|exact F5|exact Heb]. destruct Eb as [E2 Eb].
    apply enc_bytes_inj in Eb; [|unfold fits; cbn; lia|exact Hrs]. destruct Eb as [E3 Eb].
    apply (f_equal (fun x => x ++ [])) in Eb.
    apply enc_bytes_inj in Eb; [|exact F6|exact Hskb]. destruct Eb as [E4 _].
    apply kt_from_name_ok in S1. destruct S1 as [S1 _].
    apply enc_bytes_inj in E4; [|apply known_fits; exact S1|apply known_fits; exact S1]. destruct E4 as [E4 E5].
    rewrite <- (app_nil_r (enc_kind _)) in E5 at 1. apply app_inv_head in E5.
    assert (UM : forall m, text_map m -> Forall (fun e => utf8_text (fst e) /\ utf8_text (snd e)) (iter m)).
    { intros m [_ Hm]. eapply Permutation_Forall; [symmetry; apply P|exact Hm]. }
    assert (co = iter (ct_critical_options c)) as Eco.
    { eapply entries_rel_inj; [exact Rco|]. rewrite <- E1. apply entries_rel_map; [exact F4|]. apply UM, (Tm co cb); assumption. }
    assert (ex = iter (ct_extensions c)) as Eex.
    { eapply entries_rel_inj; [exact Rex|]. rewrite <- E2. apply entries_rel_map; [exact F5|]. apply UM, (Tm ex eb); assumption. }
    split; [symmetry; exact E3|]. split; [symmetry; exact E4|]. split; [symmetry; exact E5|].
    split; [exact Eco|]. split; [apply plain_options_iff; congruence|]. split; [exact Eex|apply plain_options_iff; congruence].
  - intros (Er & En & -> & Eco & Pco & Eex & Pex). apply plain_options_iff in Pco, Pex.
    assert (Hf : tbs_fits iter c).
    { unfold tbs_fits, fits_vec, fits_map. rewrite <- Eco, <- Eex, <- Pco, <- Pex, <- Epb, (canon_ok _ _ Hskd), <- En.
      rewrite app_nil_r in Hskb. split; [exact Hnonce|]. split; [apply field_ok_fits, Hid|]. auto. }
    rewrite (tbs_enc _ _ Hsh Hf). f_equal. rewrite Esp. unfold tbs_bytes.
    rewrite (canon_ok _ _ Hkd), (canon_ok _ _ Hskd), <- Epb, <- Eco, <- Eex, <- Pco, <- Pex, <- En, Er, app_nil_r. reflexivity.
Qed.
Print Assumptions C117_same_bytes.

(** Then the signature can be checked again, and only bytes after it are lost. *)
Theorem C117_checked_again : forall (C : crypto) (iter : hashmap -> hashmap) (c : cert) (sp rest : bytes),
  cert_from_bytes C (sp ++ field (ct_signature c) ++ rest) = Ok c -> signed_part c sp -> tbs_certificate iter c = Ok sp ->
  exists c', add_signature C iter c (ct_signature c) = Ok c' /\ signed_as c c' (ct_signature c) (sp ++ field (ct_signature c)).
Proof.
  intros C iter c sp rest H Hp Ht. apply cert_from_bytes_iff in H. destruct H as (sp' & post & Hc & Hd & Hf & Ha & _).
  assert (sp' = sp) as ->.
  { apply signed_core in Hp. destruct Hp as (c1 & Hc1 & _). apply (core_prefix c1 c) in Hd; [|assumption..]. symmetry. apply Hd. }
  exists (mkCert (ct_key_type c) (ct_nonce c) (ct_key c) (ct_serial c) (ct_cert_type c) (ct_key_id c) (ct_principals c)
    (ct_valid_after c) (ct_valid_before c) (ct_critical_options c) (ct_extensions c) (ct_reserved c) (ct_signature_key c)
    (ct_signature c) (ct_comment c) (sp ++ field (ct_signature c))).
  assert (A : signed_as c (mkCert (ct_key_type c) (ct_nonce c) (ct_key c) (ct_serial c) (ct_cert_type c) (ct_key_id c) (ct_principals c)
    (ct_valid_after c) (ct_valid_before c) (ct_critical_options c) (ct_extensions c) (ct_reserved c) (ct_signature_key c)
    (ct_signature c) (ct_comment c) (sp ++ field (ct_signature c))) (ct_signature c) (sp ++ field (ct_signature c))).
  { repeat split; auto. }
  split; [|exact A]. apply C39_add_signature; [apply field_ok_fits, Hf|]. exists sp. auto.
Qed.
Print Assumptions C117_checked_again.

(** The old signature is not taken for changed fields, unless it is a signature of two messages. *)
Theorem C117_old_signature : forall (C : crypto) (iter : hashmap -> hashmap) (c c' : cert) (data sp : bytes) (ops : list build_op),
  (forall m, Permutation (iter m) m) -> cert_from_bytes C data = Ok c -> signed_part c sp -> (exists x, data = sp ++ x) -> Forall call_ok ops ->
  add_signature C iter (apply_ops c ops) (ct_signature c) = Ok c' -> (size (ct_serialized c') <= u32_max)%N ->
  same_signed_fields (apply_ops c ops) c
  \/ exists other, other <> sp /\ accepted C (ct_signature_key c) other (ct_signature c) /\ accepted C (ct_signature_key c) sp (ct_signature c).
Proof.
  intros C iter c c' data sp ops P H Hp (x & Hx) Ho Ha Hs.
  apply cert_from_bytes_iff in H. destruct H as (sp' & post & Hc & Hd & Hf & Hacc & _).
  assert (sp' = sp) as ->.
  { apply signed_core in Hp. destruct Hp as (c1 & Hc1 & _). rewrite Hx in Hd. apply (core_prefix c1 c) in Hd; [|assumption..]. symmetry. apply Hd. }
  pose proof (shaped_ops c ops (core_shaped _ _ Hc)) as Hsh. pose proof (typed_ops ops c Ho (core_typed _ _ Hc)) as Hw.
  destruct (apply_ops_fixed ops c) as (F1 & F2 & F3 & F4 & F5 & F6 & F7 & F8).
  apply add_signature_iff in Ha. destruct Ha as (tbs & Ht & Hacc' & (_ & _ & _ & _ & _ & Hser)). rewrite F6 in Hacc'.
  rewrite Hser in Hs. unfold size, u32_max in Hs. rewrite app_length in Hs.
  destruct (bytes_dec tbs sp) as [->|Hn]; [|right; eauto]. left.
  destruct (shaped_tbs iter _ P Hsh Hw sp Ht) as (pk & pca & _ & Hr & Hcore); [unfold size, u32_max; lia|].
  destruct (core_prefix _ _ sp sp [] [] Hcore Hc eq_refl) as (E & _).
  destruct Hr as (A1 & A2 & A3 & A4 & A5 & A6 & A7 & A8 & A9 & A10 & A11 & A12 & A13).
  set (p := issued iter (apply_ops c ops) pk pca) in *. clearbody p.
  unfold strip in E. injection E. intros E1 E2 E3 E4 E5 E6 E7 E8 E9 E10 E11 E12 E13.
  rewrite E4 in A10. rewrite E3 in A11. rewrite A4 in E10. rewrite A6 in E8. rewrite A7 in E7. rewrite A8 in E6. rewrite A9 in E5.
  split; [exact F1|]. split; [exact F2|]. split; [exact F3|]. split; [exact E10|]. split; [exact F4|]. split; [exact E8|].
  split; [exact E7|]. split; [exact E6|]. split; [exact E5|]. split; [intros k v; symmetry; apply A10|].
  split; [intros k v; symmetry; apply A11|]. split; [exact F5|exact F6].
Qed.
Print Assumptions C117_old_signature.

(** "The signature of an accepted certificate is good for the to-be-signed bytes made from it": not
    with reserved bytes, which are never written. *)
Definition reserved_part : bytes :=
  field (s2b "ssh-ed25519-cert-v01@openssh.com") ++ field [xaa; xbb] ++ field [x61; x62] ++ be64 7 ++ be32 1 ++ field (s2b "id")
  ++ field (field (s2b "alice")) ++ be64 10 ++ be64 20 ++ field [] ++ field [] ++ field [x01] ++ field (field (s2b "ssh-ed25519") ++ field [x63; x64]).
Definition exact_crypto (m : bytes) : crypto :=
  mkCrypto (fun _ => repeat x11 32) (fun _ => repeat x22 48) (fun _ => repeat x33 64)
    (fun _ _ _ => false) (fun _ _ _ => false) (fun _ m' s => bytes_eqb m' m && (length s =? 3)) (fun _ _ _ _ _ => false).
Theorem C117_always_checkable_refuted : exists C data c, cert_from_bytes C data = Ok c
  /\ forall iter, (forall m, Permutation (iter m) m) -> add_signature C iter c (ct_signature c) = Err EInvalidSignature.
Proof.
  exists (exact_crypto reserved_part), (reserved_part ++ field ex_sig). eexists. split; [vm_compute; reflexivity|].
  intros iter P. assert (E : iter [] = []) by (apply Permutation_nil; symmetry; apply P).
  unfold add_signature, tbs_certificate. cbn [ct_critical_options ct_extensions]. rewrite E. vm_compute. reflexivity.
Qed.
Print Assumptions C117_always_checkable_refuted.

(** A certificate that is read, prolonged and signed again, and one that is only prolonged. *)
Definition ex_changes : list build_op := [OpValidBefore 90; OpExtension (s2b "permit-pty") []; OpKeyId (s2b "new id")].
Example C117_case : exists c c1 c2 co cb ex eb sp rest,
  cert_from_bytes lax_crypto ex_data = Ok c /\ (forall m : hashmap, Permutation (rev m) m) /\ Forall call_ok ex_changes
  /\ add_signature lax_crypto (@rev _) (apply_ops c ex_changes) ex_sig = Ok c1 /\ (size (ct_serialized c1) <= u32_max)%N
  /\ cert_from_bytes lax_crypto (ct_serialized c1) = Ok c2 /\ ct_valid_before c2 = 90%N /\ ct_valid_before c = 20%N
  /\ ct_principals c2 = [s2b "alice"; s2b "root"]
  /\ words_of (ct_key_id (apply_ops c ex_changes)) [s2b "new"; s2b "id"]
  /\ cert_from_string lax_crypto (cert_display (apply_ops c ex_changes)) = Ok (with_comment c (Some (s2b "new")))
  /\ ex_data = sp ++ field (ct_signature c) ++ rest /\ signed_layout c co cb ex eb [] sp
  /\ tbs_certificate (fun m => m) c = Ok sp /\ (size sp <= u32_max)%N /\ length co = 1 /\ length ex = 5.
Proof.
  destruct C35_case as (c & H & _). pose proof H as H0. apply C35_valid_signature in H. destruct H as (sp & rest & Ed & Hp & _).
  pose proof (proj1 (layout_part c sp) Hp) as (co & cb & ex & eb & skpost & HL).
  assert (Ht : exists sp0, tbs_certificate (fun m => m) c = Ok sp0 /\ ex_data = sp0 ++ field ex_sig ++ [] /\ (size sp0 <= u32_max)%N
     /\ ct_signature c = ex_sig /\ length (ct_critical_options c) = 1 /\ length (ct_extensions c) = 5).
  { vm_compute in H0. apply ok_inj in H0. subst c. eexists. split; [vm_compute; reflexivity|].
    split; [vm_compute; reflexivity|]. split; [vm_compute; discriminate|]. vm_compute. auto. }
  destruct Ht as (sp0 & Ht & Ed0 & Hs & Esig & L1 & L2).
  assert (sp = sp0) as ->.
  { apply cert_from_bytes_iff in H0. destruct H0 as (sp' & post & Hc & Hd & _).
    destruct (shaped_tbs (fun m => m) c (fun m => Permutation_refl m) (core_shaped _ _ Hc) (core_typed _ _ Hc) sp0 Ht Hs) as (pk & pca & _ & _ & Hi).
    rewrite Ed in Ed0. apply signed_core in Hp. destruct Hp as (c1 & Hc1 & _).
    apply (core_prefix c1 (issued (fun m => m) c pk pca)) in Ed0; [|assumption..]. apply Ed0. }
  pose proof (proj1 (C117_same_bytes (fun m => m) c co cb ex eb skpost sp0 (fun m => Permutation_refl m) HL Hs) Ht) as (_ & _ & -> & Eco & _ & Eex & _).
  exists c. do 2 eexists. exists co, cb, ex, eb, sp0, rest. split; [exact H0|]. split; [intros m; symmetry; apply Permutation_rev|].
  split.
  { constructor; [vm_compute; discriminate|]. constructor; [split; apply utf8_valid_iff; vm_compute; reflexivity|].
    constructor; [apply utf8_valid_iff; vm_compute; reflexivity|constructor]. }
  rewrite Eco, Eex. rewrite <- Eco at 1. rewrite <- Eex at 1.
  do 8 (split; [vm_compute in H0; apply ok_inj in H0; subst c; first [vm_compute; reflexivity|vm_compute; discriminate|
    apply split_whitespace_iff; [apply utf8_valid_iff; vm_compute; reflexivity|vm_compute; reflexivity]]|]).
  split; [exact Ed|]. split; [exact HL|]. auto.
Qed.

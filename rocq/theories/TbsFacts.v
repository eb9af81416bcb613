(** Lemmas about the to-be-signed bytes of certificates under construction. *)
From Coq Require Import Permutation.
From Verif Require Import Base BaseFacts Utf8 Utf8Facts SpecWire SpecKeys SpecSig SpecCert Reader ReaderFacts
  KeyType KeyTypeFacts PubKeyType Writer WriterFacts WireFacts Crypto PubKey PubKeyFacts
  Signature SignatureFacts Cert CertFacts.

Lemma ok_inj {A} (a b : A) : Ok a = Ok b -> a = b.
Proof. congruence. Qed.

(** ** Output lengths, without any assumption on sizes *)
Lemma write_bytes_length v w : length (write_bytes v w) = length w + 4 + length v.
Proof. unfold write_bytes. rewrite !app_length, to_be_length. lia. Qed.
Lemma write_string_length v w : length (write_string v w) = length w + 4 + length v.
Proof. apply write_bytes_length. Qed.
Lemma write_u32_length n w : length (write_u32 n w) = length w + 4.
Proof. unfold write_u32. rewrite app_length, to_be_length. reflexivity. Qed.
Lemma write_u64_length n w : length (write_u64 n w) = length w + 8.
Proof. unfold write_u64. rewrite app_length, to_be_length. reflexivity. Qed.
Lemma write_string_vec_length vec w :
  length (write_string_vec vec w) = length w + 4 + length (concat (map enc_bytes vec)).
Proof.
  unfold write_string_vec. rewrite <- (write_u32_length (N.of_nat (fold_left (fun x y => x + y) (map (@length byte) vec) (length vec * 4)) mod 2 ^ 32)).
  generalize (write_u32 (N.of_nat (fold_left (fun x y => x + y) (map (@length byte) vec) (length vec * 4)) mod 2 ^ 32) w).
  induction vec as [|v vec IH]; intros u; cbn [fold_left map concat].
  - cbn. lia.
  - rewrite IH, write_string_length, app_length, enc_bytes_length. lia.
Qed.
Lemma write_map_entries_length m : forall w w', write_map_entries m w = Ok w' ->
  length w' = length w + length (enc_map_body m).
Proof.
  unfold enc_map_body. induction m as [|[k v] m IH]; intros w w' H; cbn [write_map_entries map concat] in *.
  - injection H as <-. cbn. lia.
  - unfold write_map_entry in H. cbn [fst snd] in H. rewrite app_length, enc_entry_length. cbn [fst snd].
    destruct v as [|b v].
    + cbn [bind] in H. apply IH in H. rewrite H, write_u32_length, write_string_length. cbn. lia.
    + destruct (u32_add _ _) as [n|e|]; try discriminate. cbn [bind] in H. apply IH in H.
      rewrite H, write_string_length, write_u32_length, write_string_length. cbn. lia.
Qed.
Lemma write_string_map_length m w w' : write_string_map m w = Ok w' ->
  length w' = length w + 4 + length (enc_map_body m).
Proof. intros H. unfold write_string_map in H. apply write_map_entries_length in H. rewrite H, write_u32_length. lia. Qed.

(** ** Certificate types *)
Lemma known_cert kt : known kt -> exists n ck, as_cert_name kt = Ok n /\ kt_from_name n = Ok ck
  /\ known ck /\ kt_is_cert ck = true /\ kt_plain ck = kt_plain kt /\ as_cert_name ck = Ok (kt_name ck)
  /\ kt_is_sk ck = kt_is_sk kt.
Proof.
  revert kt. apply known_forall. unfold key_types.
  repeat (apply Forall_cons; [eexists _, _; split; [vm_compute; reflexivity|]; split; [vm_compute; reflexivity|]; split;
    [unfold known, key_types; cbn [In]; tauto|repeat split] |]). apply Forall_nil.
Qed.

Lemma apply_op_fixed o c : ct_key_type (apply_op c o) = ct_key_type c /\ ct_nonce (apply_op c o) = ct_nonce c
  /\ ct_key (apply_op c o) = ct_key c /\ ct_cert_type (apply_op c o) = ct_cert_type c
  /\ ct_reserved (apply_op c o) = ct_reserved c /\ ct_signature_key (apply_op c o) = ct_signature_key c
  /\ ct_signature (apply_op c o) = ct_signature c /\ ct_serialized (apply_op c o) = ct_serialized c.
Proof. destruct o; cbn; repeat split. Qed.
Lemma apply_ops_fixed l : forall c, ct_key_type (apply_ops c l) = ct_key_type c /\ ct_nonce (apply_ops c l) = ct_nonce c
  /\ ct_key (apply_ops c l) = ct_key c /\ ct_cert_type (apply_ops c l) = ct_cert_type c
  /\ ct_reserved (apply_ops c l) = ct_reserved c /\ ct_signature_key (apply_ops c l) = ct_signature_key c
  /\ ct_signature (apply_ops c l) = ct_signature c /\ ct_serialized (apply_ops c l) = ct_serialized c.
Proof.
  induction l as [|o l IH]; intros c; [repeat split|]. cbn [apply_ops fold_left].
  destruct (IH (apply_op c o)) as (H1 & H2 & H3 & H4 & H5 & H6 & H7 & H8).
  destruct (apply_op_fixed o c) as (G1 & G2 & G3 & G4 & G5 & G6 & G7 & G8).
  unfold apply_ops in *. rewrite H1, H2, H3, H4, H5, H6, H7, H8. auto 10.
Qed.

Lemma builder_ok a b pub t ca c : builder a b pub t ca = Ok c ->
  exists n kt nonce serial, as_cert_name (pk_type pub) = Ok n /\ kt_from_name n = Ok kt
   /\ a = Some nonce /\ b = Some serial
   /\ c = mkCert kt nonce pub (from_be serial) t [] [] 0 0 [] [] [x00; x00; x00; x00; x00; x00; x00; x00] ca [] None [].
Proof.
  unfold builder. intros H. apply bind_ok in H. destruct H as (n & H1 & H).
  apply bind_ok in H. destruct H as (kt & H2 & H). apply bind_ok in H. destruct H as (nonce & H3 & H).
  apply bind_ok in H. destruct H as (serial & H4 & H). exists n, kt, nonce, serial.
  destruct a; [|discriminate]. destruct b; [|discriminate]. cbn in H3, H4. injection H3 as ->. injection H4 as ->.
  injection H as <-. auto.
Qed.

(** The facts about a certificate under construction. *)
Definition encodable' (k : pubkey) : Prop := known (pk_type k) /\ kind_ok (pk_type k) (canon (pk_kind k)).
Lemma encodable_iff k : encodable k <-> encodable' k.
Proof.
  unfold encodable, encodable'. rewrite kt_from_name_ok. split.
  - intros [[H _] (kind & data & Hm & Hd)]. apply key_data_iff in Hd. destruct Hd as [Hd _].
    split; [exact H|]. apply (same_material_canon_iff _ _ _ Hd) in Hm. subst kind. exact Hd.
  - intros [H1 H2]. split; [auto|]. exists (canon (pk_kind k)), (enc_kind (canon (pk_kind k))).
    split; [apply canon_same|apply key_data_iff; auto].
Qed.

Definition shaped (c : cert) : Prop :=
  known (ct_key_type c) /\ kt_is_cert (ct_key_type c) = true
  /\ as_cert_name (ct_key_type c) = Ok (kt_name (ct_key_type c))
  /\ kt_plain (ct_key_type c) = kt_plain (pk_type (ct_key c))
  /\ encodable' (ct_key c) /\ encodable' (ct_signature_key c).
Lemma under_construction_shaped c : under_construction c -> shaped c.
Proof.
  intros (nr & sr & pub & t & ca & ops & c0 & Hb & -> & Hp & Hc). apply encodable_iff in Hp, Hc.
  apply builder_ok in Hb. destruct Hb as (n & kt & nonce & serial & H1 & H2 & -> & -> & ->).
  destruct (known_cert (pk_type pub)) as (n' & ck & G1 & G2 & G3 & G4 & G5 & G6 & G7); [apply Hp|].
  assert (n' = n) by congruence. subst n'. assert (ck = kt) by congruence. subst ck.
  unfold shaped. edestruct (apply_ops_fixed ops) as (F1 & F2 & F3 & F4 & F5 & F6 & F7 & F8).
  rewrite F1, F3, F6. cbn [ct_key_type ct_key ct_signature_key]. repeat (split; [assumption|]). auto.
Qed.

(** ** The bytes *)
Definition tbs_bytes (iter : hashmap -> hashmap) (c : cert) : bytes :=
  enc_bytes (kt_name (ct_key_type c)) ++ enc_bytes (ct_nonce c) ++ enc_kind (canon (pk_kind (ct_key c)))
  ++ to_be 8 (ct_serial c) ++ to_be 4 (type_number (ct_cert_type c)) ++ enc_bytes (ct_key_id c)
  ++ enc_bytes (concat (map enc_bytes (ct_principals c)))
  ++ to_be 8 (ct_valid_after c) ++ to_be 8 (ct_valid_before c)
  ++ enc_bytes (enc_map_body (iter (ct_critical_options c))) ++ enc_bytes (enc_map_body (iter (ct_extensions c)))
  ++ enc_bytes [] ++ enc_bytes (enc_bytes (kt_plain (pk_type (ct_signature_key c)))
                                ++ enc_kind (canon (pk_kind (ct_signature_key c)))).
Definition tbs_fits (iter : hashmap -> hashmap) (c : cert) : Prop :=
  fits (ct_nonce c) /\ fits (ct_key_id c) /\ fits_vec (ct_principals c)
  /\ fits_map (iter (ct_critical_options c)) /\ fits_map (iter (ct_extensions c))
  /\ fits (enc_bytes (kt_plain (pk_type (ct_signature_key c))) ++ enc_kind (canon (pk_kind (ct_signature_key c)))).

Lemma type_number_n t : cert_type_n t = type_number t.
Proof. destruct t; reflexivity. Qed.

Lemma tbs_enc iter c : shaped c -> tbs_fits iter c -> tbs_certificate iter c = Ok (tbs_bytes iter c).
Proof.
  intros (H1 & H2 & H3 & H4 & H5 & H6) (F1 & F2 & F3 & F4 & F5 & F6). unfold tbs_certificate. rewrite H3. cbn [bind].
  rewrite (write_string_enc (kt_name (ct_key_type c))) by apply known_fits, H1.
  rewrite (write_bytes_enc (ct_nonce c)) by exact F1.
  rewrite write_pub_key_data_kind by apply H5. cbn [bind].
  rewrite (write_string_enc (ct_key_id c)) by exact F2.
  rewrite (write_string_vec_enc (ct_principals c)) by exact F3.
  rewrite (write_string_map_enc (iter (ct_critical_options c))) by exact F4. cbn [bind].
  rewrite (write_string_map_enc (iter (ct_extensions c))) by exact F5. cbn [bind].
  rewrite pk_encode_enc by apply H6. cbn [bind].
  rewrite write_bytes_enc by exact F6. unfold write_u64, write_u32. rewrite type_number_n.
  unfold tbs_bytes, enc_vec, enc_map. change (writer_new ++ ?x) with x. rewrite <- !app_assoc. reflexivity.
Qed.

Lemma tbs_sizes iter c tbs : shaped c -> tbs_certificate iter c = Ok tbs -> (size tbs <= u32_max)%N -> tbs_fits iter c.
Proof.
  intros (H1 & H2 & H3 & H4 & H5 & H6) H Hs. unfold tbs_certificate in H. rewrite H3 in H. cbn [bind] in H.
  rewrite write_pub_key_data_kind in H by apply H5. cbn [bind] in H.
  apply bind_ok in H. destruct H as (w1 & E1 & H). apply bind_ok in H. destruct H as (w2 & E2 & H).
  rewrite pk_encode_enc in H by apply H6. cbn [bind] in H. apply ok_inj in H. subst tbs.
  apply write_string_map_length in E1, E2. unfold size, u32_max in Hs.
  rewrite write_bytes_length, write_u32_length, E2, E1 in Hs. clear E1 E2 w1 w2.
  rewrite !write_u64_length, write_string_vec_length, write_string_length, write_u32_length, write_u64_length, app_length,
    write_bytes_length in Hs.
  unfold tbs_fits, fits_vec, fits_map, fits. repeat split; lia.
Qed.

(** What parsing the bytes gives. *)
Lemma entries_rel_map m : fits_map m -> Forall (fun e => utf8_text (fst e) /\ utf8_text (snd e)) m ->
  entries_rel m (enc_map_body m).
Proof.
  unfold fits_map, fits, enc_map_body. induction m as [|[k v] m IH]; intros Hf Hu; [constructor|].
  cbn [map concat] in *. rewrite app_length, enc_entry_length in Hf. cbn [fst snd] in Hf.
  inversion Hu as [|? ? [U1 U2] Hu']; subst. cbn [fst snd] in *. unfold enc_entry at 1. cbn [fst snd].
  rewrite <- app_assoc. constructor.
  - split; [unfold fits; lia|apply utf8_valid_iff, U1].
  - destruct v as [|b v]; [left; auto|]. right. exists []. rewrite !app_nil_r. cbn [enc_opt_value].
    split; [split; [unfold fits; lia|apply utf8_valid_iff, U2]|]. split; [|reflexivity].
    unfold fits. rewrite enc_bytes_length. lia.
  - apply IH; [lia|exact Hu'].
Qed.

Lemma map_of_self m : NoDup (map fst m) -> map_of m m.
Proof.
  intros H. split; [exact H|]. intros k v. split.
  - intros Hi. apply in_split in Hi. destruct Hi as (pre & post & ->). exists pre, post. split; [reflexivity|].
    rewrite map_app in H. cbn [map fst] in H. apply NoDup_remove_2 in H. intros X. apply H. apply in_or_app. auto.
  - intros (pre & post & -> & _). apply in_or_app. right. left. reflexivity.
Qed.
Lemma insert_all_iter (iter : hashmap -> hashmap) m : Permutation (iter m) m -> NoDup (map fst m) ->
  same_map (insert_all (iter m) []) m.
Proof.
  intros P H k v.
  assert (H' : NoDup (map fst (iter m))) by (eapply Permutation_NoDup; [apply Permutation_map; symmetry; exact P|exact H]).
  destruct (map_of_insert_all (iter m)) as [_ A]. destruct (map_of_self _ H') as [_ B].
  rewrite A, <- B. split; apply Permutation_in; [exact P|symmetry; exact P].
Qed.

Definition issued (iter : hashmap -> hashmap) (c : cert) (plain_key plain_ca : key_type) : cert :=
  mkCert (ct_key_type c) (ct_nonce c) (mkPubKey plain_key (canon (pk_kind (ct_key c))) None) (ct_serial c)
    (ct_cert_type c) (ct_key_id c) (ct_principals c) (ct_valid_after c) (ct_valid_before c)
    (insert_all (iter (ct_critical_options c)) []) (insert_all (iter (ct_extensions c)) []) []
    (mkPubKey plain_ca (canon (pk_kind (ct_signature_key c))) None) [] None [].

Lemma issued_core iter c : (forall m, Permutation (iter m) m) -> shaped c -> well_typed c -> tbs_fits iter c ->
  exists pk pca, kt_from_name (kt_plain (pk_type (ct_key c))) = Ok pk
    /\ kt_from_name (kt_plain (pk_type (ct_signature_key c))) = Ok pca
    /\ core (issued iter c pk pca) (tbs_bytes iter c).
Proof.
  intros P (H1 & H2 & H3 & H4 & H5 & H6) (T1 & T2 & T3 & T4 & T5 & T6 & T7) (F1 & F2 & F3 & F4 & F5 & F6).
  destruct (known_plain_family _ (proj1 H5)) as (pk & K1 & K2 & K3 & K4 & K5 & K6 & K7).
  destruct (known_plain_family _ (proj1 H6)) as (pca & L1 & L2 & L3 & L4 & L5 & L6 & L7).
  exists pk, pca. split; [exact K1|]. split; [exact L1|].
  exists (concat (map enc_bytes (ct_principals c))), (enc_map_body (iter (ct_critical_options c))),
    (enc_map_body (iter (ct_extensions c))),
    (enc_bytes (kt_plain (pk_type (ct_signature_key c))) ++ enc_kind (canon (pk_kind (ct_signature_key c)))), [].
  unfold issued. cbn [ct_key_type ct_nonce ct_key ct_serial ct_cert_type ct_key_id ct_principals ct_valid_after ct_valid_before
         ct_critical_options ct_extensions ct_reserved ct_signature_key pk_type pk_kind pk_comment].
  unfold u64_max in *.
  assert (UM : forall m, text_map m -> Forall (fun e => utf8_text (fst e) /\ utf8_text (snd e)) (iter m)).
  { intros m [_ Hm]. eapply Permutation_Forall; [symmetry; apply P|exact Hm]. }
  split; [exact H1|]. split; [exact H2|]. split; [exact F1|]. split; [exact K2|]. split; [congruence|]. split; [reflexivity|].
  split; [eapply kind_ok_ext; [| |apply H5]; congruence|]. split; [lia|]. split; [split; [exact F2|apply utf8_valid_iff, T4]|].
  split; [exact F3|]. split.
  { apply read_principals_iff. split; [|reflexivity]. apply fits_vec_each in F3.
    rewrite Forall_forall in *. intros x Hx. split; [auto|apply utf8_valid_iff; auto]. }
  split; [lia|]. split; [lia|]. split; [exact F4|].
  split; [apply read_options_iff; eexists; split; [apply entries_rel_map; [exact F4|apply UM, T6]|reflexivity]|].
  split; [exact F5|].
  split; [apply read_options_iff; eexists; split; [apply entries_rel_map; [exact F5|apply UM, T7]|reflexivity]|].
  split; [unfold fits; cbn; lia|]. split; [exact F6|].
  split; [split; [exact L2|split; [reflexivity|]]; eapply kind_ok_ext; [| |apply H6]; cbn; congruence|].
  split; [unfold enc_key; cbn [pk_type pk_kind]; rewrite L3, app_nil_r; reflexivity|]. reflexivity.
Qed.

Lemma issued_requested iter c pk pca : (forall m, Permutation (iter m) m) -> well_typed c ->
  kt_from_name (kt_plain (pk_type (ct_key c))) = Ok pk ->
  kt_from_name (kt_plain (pk_type (ct_signature_key c))) = Ok pca ->
  as_requested c (issued iter c pk pca).
Proof.
  intros P (T1 & T2 & T3 & T4 & T5 & T6 & T7) E1 E2. unfold as_requested, issued, key_on_wire. cbn.
  repeat split; try assumption; try apply canon_same.
  all: first [apply (insert_all_iter iter _ (P _) (proj1 T6))|apply (insert_all_iter iter _ (P _) (proj1 T7))].
Qed.

Lemma plain_kind kt : known kt -> forall p,
  kt_k kt <> KRsaCert /\ kt_k kt <> KEcdsaCert /\ kt_k kt <> KEd25519Cert ->
  kt_from_name (kt_plain kt) = Ok p -> kt_k p = kt_k kt.
Proof.
  revert kt. apply (known_forall (fun kt => forall p, 
  kt_k kt <> KRsaCert /\ kt_k kt <> KEcdsaCert /\ kt_k kt <> KEd25519Cert ->
  kt_from_name (kt_plain kt) = Ok p -> kt_k p = kt_k kt)). unfold key_types.
  repeat (apply Forall_cons; [intros p HL Hpl; vm_compute in Hpl; injection Hpl as <-; cbn in *; intuition congruence|]).
  apply Forall_nil.
Qed.

(** Verification does not see the difference between a key and its wire form. *)
Lemma accepted_plain C k msg sg kind p : known (pk_type k) -> accepted C k msg sg ->
  kt_from_name (kt_plain (pk_type k)) = Ok p -> pk_kind k = kind ->
  accepted C (mkPubKey p kind None) msg sg.
Proof.
  intros Hk (label & payload & after & st & E & Hp & Hst & Hkk & H) Hpl <-.
  exists label, payload, after, st. cbn [pk_type pk_kind]. repeat (split; [assumption|]). split; [|exact H].
  assert (HL : kt_k st <> KRsaCert /\ kt_k st <> KEcdsaCert /\ kt_k st <> KEd25519Cert).
  { assert (HH : In (kt_k st) [KRsa; KEcdsa; KEd25519]).
    { destruct (pk_kind k) as [e n|c key app|key app].
      - destruct H as (alg & HL & _). destruct HL; vm_compute in Hst; injection Hst as <-; cbn; tauto.
      - destruct H as (verify & len & r & s & b1 & b2 & tl & fr & fs & m & HL & _).
        destruct HL; vm_compute in Hst; injection Hst as <-; cbn; tauto.
      - destruct H as (m & HL & _). destruct HL; vm_compute in Hst; injection Hst as <-; cbn; tauto. }
    cbn in HH. destruct HH as [<-|[<-|[<-|[]]]]; repeat split; discriminate. }
  rewrite Hkk in *. symmetry. exact (plain_kind _ Hk p HL Hpl).
Qed.

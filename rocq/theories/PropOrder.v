(** Theorems about the order of the options in a certificate (C120). *)
From Coq Require Import Permutation Sorted.
From Verif Require Import Base BaseFacts Utf8 Utf8Facts SpecWire SpecKeys
  SpecSig SpecCert Reader ReaderFacts KeyType KeyTypeFacts PubKeyType Writer WriterFacts WireFacts
  Crypto PubKey PubKeyFacts Signature SignatureFacts Cert CertFacts TbsFacts PropCert PropIssue SpecRenew PropRenew SpecOrder.

(** However the issued bytes are taken apart, the options are listed as the maps were iterated: each
    name once, each value complete, in the order of the maps. *)
Theorem C120_as_iterated : forall (C : crypto) (iter : hashmap -> hashmap) (c c' p : cert) (sg : bytes)
    (co : list (bytes * bytes)) (cb : bytes) (ex : list (bytes * bytes)) (eb skpost sp x : bytes),
  (forall m, Permutation (iter m) m) -> under_construction c -> well_typed c ->
  add_signature C iter c sg = Ok c' -> (size (ct_serialized c') <= u32_max)%N ->
  signed_layout p co cb ex eb skpost sp -> ct_serialized c' = sp ++ x ->
  co = iter (ct_critical_options c) /\ ex = iter (ct_extensions c)
  /\ NoDup (map fst co) /\ NoDup (map fst ex) /\ plain_options co cb /\ plain_options ex eb.
Proof.
  intros C iter c c' p sg co cb ex eb skpost sp x P Hu Hw Ha Hs HL Hx.
  pose proof (under_construction_shaped _ Hu) as Hsh.
  apply add_signature_iff in Ha. destruct Ha as (tbs & Ht & _ & (_ & _ & _ & _ & _ & Hser)).
  assert (Hsz : (size tbs <= u32_max)%N) by (rewrite Hser in Hs; unfold size in *; rewrite app_length in Hs; lia).
  rewrite Hser in Hx. clear Hser Hs.
  pose proof (tbs_sizes _ _ _ Hsh Ht Hsz) as Hf. pose proof (tbs_enc _ _ Hsh Hf) as E.
  assert (Eb : tbs = tbs_bytes iter c) by congruence. clear E.
  destruct (shaped_tbs iter c P Hsh Hw tbs Ht Hsz) as (pk & pca & _ & Hr & Hcore). clear Ht.
  pose proof (proj2 (layout_part p sp) (ex_intro _ co (ex_intro _ cb (ex_intro _ ex (ex_intro _ eb (ex_intro _ skpost HL)))))) as HP.
  apply signed_core in HP. destruct HP as (c1 & Hc1 & Hsame & _).
  destruct (core_prefix _ _ _ _ _ _ Hcore Hc1 Hx) as (E & Et & _). rewrite Et in Eb. clear Hx Hsz Hcore Hc1.
  destruct Hr as (A1 & A2 & A3 & A4 & A5 & A6 & A7 & A8 & A9 & A10 & A11 & A12 & A13).
  set (q := issued iter c pk pca) in *. clearbody q.
  unfold strip in E. injection E. intros _ E2 _ _ E5 E6 E7 E8 E9 E10 E11 E12 E13. clear E.
  destruct Hsame as (S1 & S2 & S3 & S4 & S5 & S6 & S7 & S8 & S9 & _ & _ & _ & _).
  assert (K1 : ct_key_type p = ct_key_type c) by congruence.
  assert (K2 : ct_nonce p = ct_nonce c) by congruence.
  assert (K3 : ct_key p = ct_key q) by congruence.
  assert (K4 : ct_serial p = ct_serial c) by congruence.
  assert (K5 : ct_cert_type p = ct_cert_type c) by congruence.
  assert (K6 : ct_key_id p = ct_key_id c) by congruence.
  assert (K7 : ct_principals p = ct_principals c) by congruence.
  assert (K8 : ct_valid_after p = ct_valid_after c) by congruence.
  assert (K9 : ct_valid_before p = ct_valid_before c) by congruence.
  destruct HL as (kd & pb & skd & _ & _ & _ & _ & Hkd & _ & _ & _ & Hid
      & Hnonce & _ & Hps & Hpb & Hco & Hcb & Mco & Hex & Heb & Mex & _ & _ & _ & _ & Esp).
  apply key_data_iff in Hkd. destruct Hkd as [Hkd ->].
  destruct A3 as (_ & A3 & _). rewrite <- K3 in A3.
  pose proof (proj1 (same_material_canon_iff _ _ _ Hkd) A3) as Ekd.
  rewrite !field_enc, !be64_to_be, be32_to_be in Esp. rewrite !field_ok_fits in *.
  assert (Epb : pb = concat (map enc_bytes (ct_principals c))).
  { destruct Hps as [_ ->]. rewrite K7. f_equal. apply map_ext. intros; apply field_enc. }
  rewrite Esp in Eb. unfold tbs_bytes in Eb. rewrite K1, K2, Ekd, K4, K5, K6, K8, K9, Epb in Eb.
  repeat (apply app_inv_head in Eb). destruct Hf as (_ & _ & _ & F4 & F5 & _).
  apply enc_bytes_inj in Eb; [|exact Hcb|exact F4]. destruct Eb as [G1 Eb].
  apply enc_bytes_inj in Eb; [|exact Heb|exact F5]. destruct Eb as [G2 _].
  destruct Hw as (_ & _ & _ & _ & _ & [N1 U1] & [N2 U2]).
  assert (UM : forall m, Forall (fun e => utf8_text (fst e) /\ utf8_text (snd e)) m ->
                         Forall (fun e => utf8_text (fst e) /\ utf8_text (snd e)) (iter m)).
  { intros m Hm. eapply Permutation_Forall; [symmetry; apply P|exact Hm]. }
  apply options_data_iff in Hco, Hex.
  assert (Eco : co = iter (ct_critical_options c)).
  { eapply entries_rel_inj; [exact Hco|]. rewrite G1. apply entries_rel_map; [exact F4|apply UM, U1]. }
  assert (Eex : ex = iter (ct_extensions c)).
  { eapply entries_rel_inj; [exact Hex|]. rewrite G2. apply entries_rel_map; [exact F5|apply UM, U2]. }
  assert (ND : forall m, NoDup (map fst m) -> NoDup (map fst (iter m))).
  { intros m Hm. eapply Permutation_NoDup; [|exact Hm]. apply Permutation_map. symmetry. apply P. }
  split; [exact Eco|]. split; [exact Eex|]. rewrite Eco at 1. rewrite Eex at 1.
  split; [apply ND, N1|]. split; [apply ND, N2|]. rewrite Eco, Eex. split; apply plain_options_iff; assumption.
Qed.
Print Assumptions C120_as_iterated.

(** Options that are listed in two orders, each name once, are read as equal maps. *)
Theorem C120_any_order_read : forall (l l' : list (bytes * bytes)) (b b' : bytes),
  options_data l b -> options_data l' b' -> Permutation l l' -> NoDup (map fst l) ->
  exists m m', read_options b = Ok m /\ read_options b' = Ok m' /\ same_map m m' /\ same_map m l.
Proof.
  intros l l' b b' H H' P N.
  destruct (C14_accepts_exactly _ _ H) as (m & E & M). destruct (C14_accepts_exactly _ _ H') as (m' & E' & M').
  assert (G : forall l m, map_of l m -> NoDup (map fst l) -> same_map m l).
  { clear. intros l m [_ M] N k v. rewrite M. split.
    - intros (pre & post & -> & _). apply in_or_app. right. left. reflexivity.
    - intros Hi. apply in_split in Hi. destruct Hi as (pre & post & ->). exists pre, post. split; [reflexivity|].
      rewrite map_app in N. cbn [map fst] in N. apply NoDup_remove_2 in N. intros Hk. apply N, in_or_app. right. exact Hk. }
  exists m, m'. split; [exact E|]. split; [exact E'|].
  pose proof (G _ _ M N) as A.
  pose proof (G _ _ M' (Permutation_NoDup (Permutation_map fst P) N)) as B.
  split; [|exact A]. intros k v. rewrite (A k v), (B k v). split; apply Permutation_in; [exact P|symmetry; exact P].
Qed.
Print Assumptions C120_any_order_read.

(** "The names are in lexical order, as PROTOCOL.certkeys demands": nothing sorts them. Here they were
    set in that order. *)
Definition ordered_ops : list build_op := [OpExtension (s2b "permit-X11-forwarding") []; OpExtension (s2b "permit-pty") []].
Definition ordered_request : res cert :=
  do? c <- builder (Some [xaa; xbb]) (Some [x00; x00; x00; x00; x00; x00; x00; x01]) ex_subject User ex_ca;
  Ok (apply_ops c ordered_ops).
Lemma ordered_built : exists c, ordered_request = Ok c /\ under_construction c /\ well_typed c.
Proof.
  eexists. split; [vm_compute; reflexivity|]. split.
  - exists (Some [xaa; xbb]), (Some [x00; x00; x00; x00; x00; x00; x00; x01]), ex_subject, User, ex_ca, ordered_ops.
    eexists. split; [vm_compute; reflexivity|]. split; [vm_compute; reflexivity|].
    split; apply ex_encodable; auto.
  - unfold well_typed. cbn [ct_serial ct_valid_after ct_valid_before ct_key_id ct_principals ct_critical_options ct_extensions].
    split; [vm_compute; discriminate|]. split; [vm_compute; discriminate|]. split; [vm_compute; discriminate|].
    split; [apply utf8_valid_iff; reflexivity|]. split; [repeat constructor; apply utf8_valid_iff; reflexivity|].
    split; (split; [cbn [map fst]; repeat (constructor; [cbn [In]; intuition discriminate|]); constructor
                   |repeat (constructor; [split; apply utf8_valid_iff; reflexivity|]); constructor]).
Qed.
Theorem C120_sorted_refuted : exists (C : crypto) (iter : hashmap -> hashmap) (c c' p : cert) (sg : bytes)
    (co : list (bytes * bytes)) (cb : bytes) (ex : list (bytes * bytes)) (eb skpost sp x : bytes),
  (forall m, Permutation (iter m) m) /\ under_construction c /\ well_typed c
  /\ add_signature C iter c sg = Ok c' /\ (size (ct_serialized c') <= u32_max)%N
  /\ signed_layout p co cb ex eb skpost sp /\ ct_serialized c' = sp ++ x
  /\ in_order (ct_extensions c) /\ ~ in_order ex.
Proof.
  destruct ordered_built as (c & E & Hu & Hw).
  assert (P : forall m : hashmap, Permutation (rev m) m) by (intros m; symmetry; apply Permutation_rev).
  assert (A : exists c' p, add_signature lax_crypto (@rev _) c ex_sig = Ok c' /\ cert_from_bytes lax_crypto (ct_serialized c') = Ok p
     /\ (size (ct_serialized c') <= u32_max)%N).
  { vm_compute in E. apply ok_inj in E. subst c. do 2 eexists. split; [vm_compute; reflexivity|]. split; [vm_compute; reflexivity|vm_compute; discriminate]. }
  destruct A as (c' & p & Ha & Hp & Hs). apply C35_valid_signature in Hp. destruct Hp as (sp & post & Ed & Hsp & _).
  pose proof (proj1 (layout_part p sp) Hsp) as (co & cb & ex & eb & skpost & HL).
  destruct (C120_as_iterated lax_crypto (@rev _) c c' p ex_sig co cb ex eb skpost sp _ P Hu Hw Ha Hs HL Ed) as (_ & Eex & _).
  exists lax_crypto, (@rev _), c, c', p, ex_sig, co, cb, ex, eb, skpost, sp. eexists.
  split; [exact P|]. split; [exact Hu|]. split; [exact Hw|]. split; [exact Ha|]. split; [exact Hs|]. split; [exact HL|]. split; [exact Ed|].
  assert (Ec : ct_extensions c = [(s2b "permit-X11-forwarding", []); (s2b "permit-pty", [])])
    by (vm_compute in E; apply ok_inj in E; subst c; reflexivity).
  rewrite Eex, Ec. clear. split.
  - unfold in_order. cbn [map fst]. constructor; [repeat constructor|]. constructor; [|constructor].
    do 7 (apply B_same). apply B_less. reflexivity.
  - intros H. unfold in_order in H. cbn [rev List.app map fst] in H. inversion H as [|a l _ F]. subst. inversion F as [|a l B _]. subst.
    clear - B. do 7 (inversion B as [|? ? ? ? Hl|? ? ? B']; subst; [vm_compute in Hl; discriminate Hl|clear B; rename B' into B]).
    inversion B as [|? ? ? ? Hl|? ? ? B']; subst. vm_compute in Hl; discriminate Hl.
Qed.
Print Assumptions C120_sorted_refuted.

(** "A request determines the bytes to sign": two orders of the same map do not give the same bytes. *)
Theorem C120_reproducible_refuted : exists (iter iter' : hashmap -> hashmap) (c : cert) (t t' : bytes),
  (forall m, Permutation (iter m) m) /\ (forall m, Permutation (iter' m) m) /\ under_construction c /\ well_typed c
  /\ tbs_certificate iter c = Ok t /\ tbs_certificate iter' c = Ok t' /\ t <> t'.
Proof.
  destruct ordered_built as (c & E & Hu & Hw).
  exists (fun m => m), (@rev _), c. do 2 eexists. split; [intros m; apply Permutation_refl|].
  split; [intros m; symmetry; apply Permutation_rev|]. split; [exact Hu|]. split; [exact Hw|]. clear Hu Hw.
  vm_compute in E. apply ok_inj in E. subst c. split; [vm_compute; reflexivity|]. split; [vm_compute; reflexivity|].
  intros H. discriminate H.
Qed.
Print Assumptions C120_reproducible_refuted.

(** Two extensions in both orders. *)
Example C120_case : exists l l' b b', options_data l b /\ options_data l' b' /\ Permutation l l' /\ NoDup (map fst l) /\ l <> l'.
Proof.
  exists [(s2b "a", []); (s2b "b", [])], [(s2b "b", []); (s2b "a", [])]. do 2 eexists.
  assert (T : forall s, utf8_valid s = true -> (size s <= u32_max)%N -> text_ok s)
    by (intros s H1 H2; split; [apply utf8_valid_iff, H1|exact H2]).
  split; [repeat (constructor; [apply T; [reflexivity|vm_compute; discriminate]|constructor 1|]); constructor|].
  split; [repeat (constructor; [apply T; [reflexivity|vm_compute; discriminate]|constructor 1|]); constructor|].
  split; [constructor|]. split; [|discriminate].
  cbn [map fst]. repeat (constructor; [cbn [In]; intuition discriminate|]); constructor.
Qed.

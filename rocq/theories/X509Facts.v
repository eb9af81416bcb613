(** Facts about attestation checks. *)
From Coq Require Import Lia.
From Verif Require Import Base BaseFacts SpecWire WireFacts KeyType PubKeyType AllowedSigner SpecSigner FileFacts
  TbsFacts Fido SpecFido FidoFacts X509 SpecX509.

(** ** The last value *)
Definition from {A B} (P : A -> B -> Prop) (d : option B) (l : list A) (o : option B) : Prop :=
  exists o', last_where P l o' /\ o = match o' with Some v => Some v | None => d end.
Lemma from_none {A B} (P : A -> B -> Prop) l o : from P None l o <-> last_where P l o.
Proof.
  split.
  - intros (o' & H & ->). destruct o'; exact H.
  - intros H. exists o. split; [exact H|destruct o; reflexivity].
Qed.
Lemma from_nil {A B} (P : A -> B -> Prop) d o : from P d [] o <-> o = d.
Proof.
  split.
  - intros ([v|] & H & ->); [|reflexivity]. destruct H as (l1 & e & l2 & H & _). destruct l1; discriminate.
  - intros ->. exists None. split; [intros e v []|reflexivity].
Qed.
Lemma from_miss {A B} (P : A -> B -> Prop) d e l o : (forall v, ~ P e v) -> from P d (e :: l) o <-> from P d l o.
Proof.
  intros N. split; intros ([v|] & H & ->).
  - destruct H as (l1 & e' & l2 & E & Hv & Hn). destruct l1 as [|e1 l1]; injection E as -> ->; [exfalso; exact (N _ Hv)|].
    exists (Some v). split; [|reflexivity]. exists l1, e', l2. auto.
  - exists None. split; [|reflexivity]. intros e' v Hi. apply H. right. exact Hi.
  - destruct H as (l1 & e' & l2 & -> & Hv & Hn). exists (Some v). split; [|reflexivity]. exists (e :: l1), e', l2. auto.
  - exists None. split; [|reflexivity]. intros e' v [<-|Hi]; [apply N|apply H, Hi].
Qed.
Lemma from_hit {A B} (P : A -> B -> Prop) d e v l o : P e v -> (forall v', P e v' -> v' = v) -> from P d (e :: l) o <-> from P (Some v) l o.
Proof.
  intros Hv Hu. split; intros ([w|] & H & ->).
  - destruct H as (l1 & e' & l2 & E & Hw & Hn). destruct l1 as [|e1 l1]; injection E as -> ->.
    + apply Hu in Hw. subst w. exists None. split; [exact Hn|reflexivity].
    + exists (Some w). split; [|reflexivity]. exists l1, e', l2. auto.
  - exfalso. exact (H e v (or_introl eq_refl) Hv).
  - destruct H as (l1 & e' & l2 & -> & Hw & Hn). exists (Some w). split; [|reflexivity]. exists (e :: l1), e', l2. auto.
  - exists (Some v). split; [|reflexivity]. exists [], e, l. auto.
Qed.

(** ** Versions *)
Lemma dotted_version s : length s = 3 -> exists t, dotted s = Ok t /\ version_text s t /\ forall t', version_text s t' -> t' = t.
Proof.
  intros L. destruct s as [|a [|b [|c [|]]]]; try discriminate. eexists. split; [reflexivity|]. split.
  - exists a, b, c. do 3 eexists. split; [reflexivity|]. split; [apply display_z_decimal|]. split; [apply display_z_decimal|]. split; [apply display_z_decimal|]. reflexivity.
  - intros t' (a' & b' & c' & ta & tb & tc & E & Ha & Hb & Hc & ->). injection E as <- <- <-.
    rewrite (decimal_fun _ _ _ Ha (display_z_decimal _)), (decimal_fun _ _ _ Hb (display_z_decimal _)), (decimal_fun _ _ _ Hc (display_z_decimal _)). reflexivity.
Qed.
Lemma version_length s t : version_text s t -> length s = 3.
Proof. intros (a & b & c & ta & tb & tc & -> & _). reflexivity. Qed.

(** ** Keys *)
Lemma ecdsa_key_ok oid point k : ecdsa_key oid point = Ok k <-> curve_key oid point k.
Proof.
  unfold ecdsa_key, curve_key. destruct (bytes_eqb oid OID_NIST_P256) eqn:E1; [|destruct (bytes_eqb oid OID_NIST_P384) eqn:E2].
  - apply bytes_eqb_eq in E1. subst oid. split.
    + intros H. vm_compute in H. do 3 eexists. split; [left; reflexivity|]. apply ok_inj in H. rewrite <- H. vm_compute. reflexivity.
    + intros (n & i & d & [H|[H|[]]] & ->); [|discriminate]. injection H as <- <- <-. vm_compute. reflexivity.
  - apply bytes_eqb_eq in E2. subst oid. split.
    + intros H. vm_compute in H. do 3 eexists. split; [right; left; reflexivity|]. apply ok_inj in H. rewrite <- H. vm_compute. reflexivity.
    + intros (n & i & d & [H|[H|[]]] & ->); [discriminate|]. injection H as <- <- <-. vm_compute. reflexivity.
  - split; [discriminate|]. intros (n & i & d & [H|[H|[]]] & _); injection H as <- _ _ _; discriminate.
Qed.
Lemma ecdsa_key_other oid point : other_curve oid -> ecdsa_key oid point = Err EKeyTypeMismatch.
Proof.
  intros [H1 H2]. unfold ecdsa_key. destruct (bytes_eqb oid OID_NIST_P256) eqn:E1; [apply bytes_eqb_eq in E1; contradiction|].
  destruct (bytes_eqb oid OID_NIST_P384) eqn:E2; [apply bytes_eqb_eq in E2; contradiction|]. reflexivity.
Qed.
Lemma ecdsa_key_cases oid point : (exists k, ecdsa_key oid point = Ok k) \/ other_curve oid.
Proof.
  unfold ecdsa_key, other_curve. destruct (bytes_eqb oid OID_NIST_P256) eqn:E1; [left; eexists; vm_compute; reflexivity|].
  destruct (bytes_eqb oid OID_NIST_P384) eqn:E2; [left; eexists; vm_compute; reflexivity|]. right. split; intros ->; discriminate.
Qed.

(** ** FIDO extensions *)
Lemma transports_eq bs : transports_of bs = named_transports bs.
Proof. destruct bs as [|b bs]; [reflexivity|]. unfold transports_of, named_transports, b2n. cbn [seq flat_map]. destruct b; reflexivity. Qed.
(** The state of the loop and the rest of the extensions give the final state. *)
Definition fido_from (X : x509) (v : valid_attestation) (l : list (bytes * bytes)) (r : valid_attestation) : Prop :=
  va_auth r = va_auth v /\ Forall (fido_readable X) l
  /\ from (has_firmware X) (va_firmware v) l (va_firmware r)
  /\ from (has_aaguid X) (va_aaguid v) l (va_aaguid r)
  /\ from (has_transports X) (va_transports v) l (va_transports r).
Lemma fido_step X v e : match fido_extension X v e with
  | Ok v' => fido_readable X e /\ forall l r, fido_from X v (e :: l) r <-> fido_from X v' l r
  | Err x => x = EParsingError /\ ~ fido_readable X e
  | Panic => False
  end.
Proof.
  destruct e as [oid value]. unfold fido_extension.
  assert (G : forall v', fido_readable X (oid, value) -> va_auth v' = va_auth v ->
    (forall l o, from (has_firmware X) (va_firmware v) ((oid, value) :: l) o <-> from (has_firmware X) (va_firmware v') l o) ->
    (forall l o, from (has_aaguid X) (va_aaguid v) ((oid, value) :: l) o <-> from (has_aaguid X) (va_aaguid v') l o) ->
    (forall l o, from (has_transports X) (va_transports v) ((oid, value) :: l) o <-> from (has_transports X) (va_transports v') l o) ->
    fido_readable X (oid, value) /\ forall l r, fido_from X v ((oid, value) :: l) r <-> fido_from X v' l r).
  { intros v' Hr Ha H1 H2 H3. split; [exact Hr|]. intros l r. unfold fido_from. rewrite H1, H2, H3, Forall_cons_iff, Ha. tauto. }
  assert (N1 : oid <> fw_oid -> forall t, ~ has_firmware X (oid, value) t) by (intros H t [E _]; exact (H E)).
  assert (N2 : oid <> aaguid_oid -> forall t, ~ has_aaguid X (oid, value) t) by (intros H t [E _]; exact (H E)).
  assert (N3 : oid <> transports_oid -> forall t, ~ has_transports X (oid, value) t) by (intros H t [E _]; exact (H E)).
  destruct (bytes_eqb oid _) eqn:E1; [|destruct (bytes_eqb oid (s2b "1.3.6.1.4.1.45724.1.1.4")) eqn:E2; [|destruct (bytes_eqb oid (s2b "1.3.6.1.4.1.45724.2.1.1")) eqn:E3]].
  - apply bytes_eqb_eq in E1. change (oid = fw_oid) in E1.
    assert (D2 : oid <> aaguid_oid) by (rewrite E1; discriminate). assert (D3 : oid <> transports_oid) by (rewrite E1; discriminate).
    destruct (x_octets X value) as [content|] eqn:Eo; cbn [ok_or bind].
    + assert (R : fido_readable X (oid, value)) by (split; cbn [fst snd]; [congruence|contradiction]).
      destruct content as [s|].
      * destruct (Nat.eqb_spec (length s) 3) as [L|L]; cbn [negb].
        -- destruct (dotted_version s L) as (t & Et & Ht & Hu). rewrite Et. cbn [bind]. apply G; try assumption; try reflexivity; cbn [va_firmware va_aaguid va_transports].
           ++ intros l o. apply from_hit; [split; [exact E1|eauto]|]. intros t' (_ & s' & Es & Ht'). cbn [snd] in Es. rewrite Eo in Es. injection Es as <-. auto.
           ++ intros l o. apply from_miss, N2, D2.
           ++ intros l o. apply from_miss, N3, D3.
        -- apply G; try assumption; try reflexivity; intros l o; apply from_miss; auto.
           intros t (_ & s' & Es & Ht). cbn [snd] in Es. rewrite Eo in Es. injection Es as <-. apply L, (version_length _ _ Ht).
      * apply G; try assumption; try reflexivity; intros l o; apply from_miss; auto.
        intros t (_ & s' & Es & Ht). cbn [snd] in Es. rewrite Eo in Es. discriminate.
    + split; [reflexivity|]. intros [H _]. apply H; [left; exact E1|exact Eo].
  - apply bytes_eqb_neq in E1. apply bytes_eqb_eq in E2. change (oid = aaguid_oid) in E2. change (oid <> fw_oid) in E1.
    assert (D3 : oid <> transports_oid) by (rewrite E2; discriminate).
    destruct (x_octets X value) as [content|] eqn:Eo; cbn [ok_or bind].
    + assert (R : fido_readable X (oid, value)) by (split; cbn [fst snd]; [congruence|contradiction]).
      destruct content as [s|].
      * destruct (Nat.eqb_spec (length s) 16) as [L|L]; cbn [negb].
        -- apply G; try assumption; try reflexivity; cbn [va_firmware va_aaguid va_transports].
           ++ intros l o. apply from_miss, N1, E1.
           ++ intros l o. apply from_hit; [split; [exact E2|auto]|]. intros t' (_ & Es & _). cbn [snd] in Es. congruence.
           ++ intros l o. apply from_miss, N3, D3.
        -- apply G; try assumption; try reflexivity; intros l o; apply from_miss; auto.
           intros t (_ & Es & Ht). cbn [snd] in Es. congruence.
      * apply G; try assumption; try reflexivity; intros l o; apply from_miss; auto.
        intros t (_ & Es & Ht). cbn [snd] in Es. congruence.
    + split; [reflexivity|]. intros [H _]. apply H; [right; exact E2|exact Eo].
  - apply bytes_eqb_neq in E1, E2. apply bytes_eqb_eq in E3. change (oid = transports_oid) in E3. change (oid <> fw_oid) in E1. change (oid <> aaguid_oid) in E2.
    destruct (x_bits X value) as [content|] eqn:Eo; cbn [ok_or bind].
    + assert (R : fido_readable X (oid, value)) by (split; cbn [fst snd]; [intros [H|H]; contradiction|congruence]).
      destruct content as [s|].
      * apply G; try assumption; try reflexivity; cbn [va_firmware va_aaguid va_transports].
        -- intros l o. apply from_miss, N1, E1.
        -- intros l o. apply from_miss, N2, E2.
        -- intros l o. apply from_hit; [split; [exact E3|exists s; split; [exact Eo|apply transports_eq]]|].
           intros t' (_ & s' & Es & ->). cbn [snd] in Es. rewrite Eo in Es. injection Es as <-. symmetry. apply transports_eq.
      * apply G; try assumption; try reflexivity; intros l o; apply from_miss; auto.
        intros t (_ & s' & Es & Ht). cbn [snd] in Es. congruence.
    + split; [reflexivity|]. intros [_ H]. apply H; [exact E3|exact Eo].
  - apply bytes_eqb_neq in E1, E2, E3. change (oid <> fw_oid) in E1. change (oid <> aaguid_oid) in E2. change (oid <> transports_oid) in E3.
    apply G; try reflexivity; try (intros l o; apply from_miss; auto). split; cbn [fst snd]; [intros [H|H]; contradiction|contradiction].
Qed.
Lemma fido_loop X l : forall v, match fido_extensions X l v with
  | Ok r => forall r', fido_from X v l r' <-> r' = r
  | Err x => x = EParsingError /\ ~ Forall (fido_readable X) l
  | Panic => False
  end.
Proof.
  induction l as [|e l IH]; intros v; cbn [fido_extensions].
  - intros r'. unfold fido_from. rewrite !from_nil. destruct v as [a f g t], r' as [a' f' g' t']. cbn. split; [intros (-> & _ & -> & -> & ->); reflexivity|intros [= -> -> -> ->]; auto].
  - pose proof (fido_step X v e) as S. destruct (fido_extension X v e) as [v'|x|]; cbn [bind]; [|destruct S as [-> N]; split; [reflexivity|rewrite Forall_cons_iff; tauto]|exact S].
    destruct S as [R S]. specialize (IH v'). destruct (fido_extensions X l v') as [r|x|]; [|destruct IH as [-> N]; split; [reflexivity|rewrite Forall_cons_iff; tauto]|exact IH].
    intros r'. rewrite S. apply IH.
Qed.
Lemma fido_extract_ok X a c v : fido_extract X a c = Ok v <-> va_auth v = a /\ fido_metadata X (xc_extensions c) v.
Proof.
  unfold fido_extract, fido_metadata. pose proof (fido_loop X (xc_extensions c) (mkValid a None None None)) as H.
  assert (E : forall r, fido_from X (mkValid a None None None) (xc_extensions c) r <-> va_auth r = a /\ fido_metadata X (xc_extensions c) r).
  { intros r. unfold fido_from, fido_metadata. cbn [va_auth va_firmware va_aaguid va_transports]. rewrite !from_none. reflexivity. }
  unfold fido_metadata in E. rewrite <- E. destruct (fido_extensions X _ _) as [r|x|].
  - rewrite H. split; congruence.
  - destruct H as [-> N]. split; [discriminate|]. intros (_ & F & _). contradiction.
  - destruct H.
Qed.
Lemma fido_extract_err X a c x : fido_extract X a c = Err x -> x = EParsingError /\ ~ Forall (fido_readable X) (xc_extensions c).
Proof. unfold fido_extract. pose proof (fido_loop X (xc_extensions c) (mkValid a None None None)) as H. intros E. rewrite E in H. exact H. Qed.
Lemma fido_extract_nopanic X a c : fido_extract X a c <> Panic.
Proof. unfold fido_extract. pose proof (fido_loop X (xc_extensions c) (mkValid a None None None)) as H. intros E. rewrite E in H. exact H. Qed.

(** ** YubiKey extensions *)
Definition piv_from (X : x509) (f : piv_found) (l : list (bytes * bytes)) (r : piv_found) : Prop :=
  Forall (serial_readable X) l /\ Forall policy_readable l
  /\ from has_piv_firmware (pf_firmware f) l (pf_firmware r)
  /\ from (has_piv_serial X) (pf_serial f) l (pf_serial r)
  /\ from has_piv_policy (pf_policies f) l (pf_policies r).
Lemma piv_step X f e : match piv_extension X f e with
  | Ok f' => serial_readable X e /\ policy_readable e /\ forall l r, piv_from X f (e :: l) r <-> piv_from X f' l r
  | Err x => x = EParsingError /\ ~ serial_readable X e /\ policy_readable e
  | Panic => ~ policy_readable e /\ serial_readable X e
  end.
Proof.
  destruct e as [oid value]. unfold piv_extension.
  assert (G : forall f', serial_readable X (oid, value) -> policy_readable (oid, value) ->
    (forall l o, from has_piv_firmware (pf_firmware f) ((oid, value) :: l) o <-> from has_piv_firmware (pf_firmware f') l o) ->
    (forall l o, from (has_piv_serial X) (pf_serial f) ((oid, value) :: l) o <-> from (has_piv_serial X) (pf_serial f') l o) ->
    (forall l o, from has_piv_policy (pf_policies f) ((oid, value) :: l) o <-> from has_piv_policy (pf_policies f') l o) ->
    serial_readable X (oid, value) /\ policy_readable (oid, value) /\ forall l r, piv_from X f ((oid, value) :: l) r <-> piv_from X f' l r).
  { intros f' Hr Hp H1 H2 H3. split; [exact Hr|]. split; [exact Hp|]. intros l r. unfold piv_from. rewrite H1, H2, H3, !Forall_cons_iff. tauto. }
  assert (N1 : oid <> piv_fw_oid -> forall t, ~ has_piv_firmware (oid, value) t) by (intros H t [E _]; exact (H E)).
  assert (N2 : oid <> piv_serial_oid -> forall t, ~ has_piv_serial X (oid, value) t) by (intros H t [E _]; exact (H E)).
  assert (N3 : oid <> piv_policy_oid -> forall t, ~ has_piv_policy (oid, value) t) by (intros H t [E _]; exact (H E)).
  assert (R1 : oid <> piv_serial_oid -> serial_readable X (oid, value)) by (intros H E; contradiction).
  assert (R2 : oid <> piv_policy_oid -> policy_readable (oid, value)) by (intros H E; contradiction).
  destruct (bytes_eqb oid _) eqn:E1; [|destruct (bytes_eqb oid (s2b "1.3.6.1.4.1.41482.3.7")) eqn:E2; [|destruct (bytes_eqb oid (s2b "1.3.6.1.4.1.41482.3.8")) eqn:E3]].
  - apply bytes_eqb_eq in E1. change (oid = piv_fw_oid) in E1.
    assert (D2 : oid <> piv_serial_oid) by (rewrite E1; discriminate). assert (D3 : oid <> piv_policy_oid) by (rewrite E1; discriminate).
    destruct (Nat.eqb_spec (length value) 3) as [L|L]; cbn [negb].
    + destruct (dotted_version value L) as (t & Et & Ht & Hu). rewrite Et. cbn [bind]. apply G; auto; cbn [pf_firmware pf_serial pf_policies]; intros l o.
      * apply from_hit; [split; assumption|]. intros t' [_ Ht']. auto.
      * apply from_miss, N2, D2.
      * apply from_miss, N3, D3.
    + apply G; auto; intros l o; apply from_miss; auto. intros t [_ Ht]. apply L, (version_length _ _ Ht).
  - apply bytes_eqb_neq in E1. apply bytes_eqb_eq in E2. change (oid = piv_serial_oid) in E2. change (oid <> piv_fw_oid) in E1.
    assert (D3 : oid <> piv_policy_oid) by (rewrite E2; discriminate).
    destruct (x_integer X value) as [content|] eqn:Eo; cbn [ok_or bind].
    + assert (R : serial_readable X (oid, value)) by (intros _; cbn [snd]; congruence).
      destruct content as [s|].
      * destruct (Nat.ltb_spec 8 (length s)) as [L|L].
        -- apply G; auto; intros l o; apply from_miss; auto. intros n (_ & s' & Es & Ls & _). cbn [snd] in Es. rewrite Eo in Es. injection Es as <-. lia.
        -- unfold usub. replace (length s <=? 8) with true by lia. cbn [bind]. rewrite app_length, repeat_length.
           replace (8 - length s + length s =? 8) with true by lia. cbn [bind].
           assert (M : from_be (repeat x00 (8 - length s) ++ s) = magnitude s).
           { rewrite magnitude_from_be. clear. induction (8 - length s) as [|k IH]; [reflexivity|]. cbn [repeat app]. rewrite from_be_cons. cbn. exact IH. }
           rewrite M. apply G; auto; cbn [pf_firmware pf_serial pf_policies]; intros l o.
           ++ apply from_miss; auto.
           ++ apply from_hit; [split; [exact E2|exists s; auto]|]. intros n (_ & s' & Es & _ & ->). cbn [snd] in Es. rewrite Eo in Es. injection Es as <-. reflexivity.
           ++ apply from_miss; auto.
      * apply G; auto; intros l o; apply from_miss; auto. intros n (_ & s' & Es & Ls & _). cbn [snd] in Es. congruence.
    + split; [reflexivity|]. split; [|auto]. intros H. apply H; [exact E2|exact Eo].
  - apply bytes_eqb_neq in E1, E2. apply bytes_eqb_eq in E3. change (oid = piv_policy_oid) in E3. change (oid <> piv_fw_oid) in E1. change (oid <> piv_serial_oid) in E2.
    destruct value as [|a [|b value]]; cbn [index nth_error bind].
    + split; [|auto]. intros H. specialize (H E3). cbn in H. lia.
    + split; [|auto]. intros H. specialize (H E3). cbn in H. lia.
    + apply G; auto; cbn [pf_firmware pf_serial pf_policies].
      * intros _. cbn. lia.
      * intros l o. apply from_miss; auto.
      * intros l o. apply from_miss; auto.
      * intros l o. apply from_hit; [split; [exact E3|exists value; reflexivity]|]. intros [p q] (_ & r & Er). cbn in Er. congruence.
  - apply bytes_eqb_neq in E1, E2, E3. change (oid <> piv_fw_oid) in E1. change (oid <> piv_serial_oid) in E2. change (oid <> piv_policy_oid) in E3.
    apply G; auto; intros l o; apply from_miss; auto.
Qed.
(** The first extension that cannot be read decides. *)
Lemma piv_loop X l : forall f, match piv_extensions X l f with
  | Ok r => forall r', piv_from X f l r' <-> r' = r
  | Err x => x = EParsingError /\ exists l1 e l2, l = l1 ++ e :: l2 /\ Forall (serial_readable X) l1 /\ Forall policy_readable l1 /\ ~ serial_readable X e
  | Panic => exists l1 e l2, l = l1 ++ e :: l2 /\ Forall (serial_readable X) l1 /\ Forall policy_readable l1 /\ ~ policy_readable e
  end.
Proof.
  induction l as [|e l IH]; intros f; cbn [piv_extensions].
  - intros r'. unfold piv_from. rewrite !from_nil. destruct f as [a s p], r' as [a' s' p']. cbn. split; [intros (_ & _ & -> & -> & ->); reflexivity|intros [= -> -> ->]; auto].
  - pose proof (piv_step X f e) as S. destruct (piv_extension X f e) as [f'|x|]; cbn [bind].
    + destruct S as (R1 & R2 & S). specialize (IH f'). destruct (piv_extensions X l f') as [r|x|].
      * intros r'. rewrite S. apply IH.
      * destruct IH as (-> & l1 & e' & l2 & -> & F1 & F2 & N). split; [reflexivity|]. exists (e :: l1), e', l2. auto.
      * destruct IH as (l1 & e' & l2 & -> & F1 & F2 & N). exists (e :: l1), e', l2. auto.
    + destruct S as (-> & N & _). split; [reflexivity|]. exists [], e, l. auto.
    + destruct S as [N _]. exists [], e, l. auto.
Qed.

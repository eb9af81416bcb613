(** YubiKeys that other programs use at the same time (C143). *)
From Verif Require Import Base BaseFacts SpecWire SpecKeys SpecSig SpecSign KeyType PubKeyType Writer WriterFacts Crypto Signature SignatureFacts PropSignature Utils
  Cert SpecCert PropCert PropIssue TbsFacts PropSign X509 SpecX509 SpecPiv SpecPivCalls SpecPivReads SpecShared Piv PivCalls PropPrivKey PropPiv PropPivCalls PropPivReads.

Section Shared.
Context {H S W : Type} (D : yubikey H S) (E : world S W).
Lemma shared_effect o t : effect (shared E D) o t = (effect D o (fst (E (fst t) (snd t))), snd (E (fst t) (snd t))).
Proof. destruct o; reflexivity. Qed.
Lemma shared_opens : opens_right D -> opens_right (shared E D).
Proof.
  intros Ho n t g t' Eo. cbn [shared y_open y_serial] in *. unfold lift_op in Eo.
  destruct (y_open D n (fst (E (fst t) (snd t)))) as [r s1] eqn:Er. cbn [fst snd] in Eo. injection Eo as -> _. eapply Ho; exact Er.
Qed.
Lemma shared_may R C n c os : may_do (shared E D) R C n c os -> may_do D R C n c os.
Proof.
  intros (A1 & A2). split; [|exact A2]. revert A1. apply Forall_impl. intros o. destruct o; exact (fun x => x).
Qed.
End Shared.

Lemma merge_run {A} (b : list A) : forall x y z, merge x y z -> merge x (b ++ y) (b ++ z).
Proof. induction b as [|o b IH]; intros x y z M; [exact M|]. cbn [app]. constructor. apply IH, M. Qed.
Lemma scheduled_effects {H S} (D : yubikey H S) os : forall s w s' w', effects (shared (scheduled D) D) os (s, w) = (s', w') ->
  exists done all, merge os done all /\ concat w = done ++ concat w' /\ s' = effects D all s.
Proof.
  induction os as [|o os IH]; intros s w s' w' E; cbn [effects] in E.
  - injection E as <- <-. exists [], []. split; [constructor|]. split; reflexivity.
  - rewrite shared_effect in E. cbn [fst snd] in E. destruct w as [|b w]; cbn [scheduled fst snd] in E.
    + apply IH in E as (done & all & M & Ew & ->). exists done, (o :: all). split; [constructor; exact M|]. split; [exact Ew|reflexivity].
    + apply IH in E as (done & all & M & Ew & ->). exists (b ++ done), (b ++ o :: all).
      split; [apply merge_run; constructor; exact M|]. split; [cbn [concat]; rewrite Ew, app_assoc; reflexivity|].
      rewrite effects_app. reflexivity.
Qed.

(** What happens is a merge of what the other programs do and of what the calls of this one may do. *)
Theorem C143_interleaved : forall (H S : Type) (D : yubikey H S) (R : rcgen) (X : x509) (C : crypto) (l : list call) (h h' : H) (s s' : S)
  (w w' : list (list (device_op H))) (rs : list (res value)),
  opens_right D -> run_calls (shared (scheduled D) D) R X C l h (s, w) = (rs, h', (s', w')) ->
  y_serial D h' = y_serial D h
  /\ exists oss done all, Forall2 (may_do D R C (y_serial D h)) (calls_made l rs) oss /\ merge (concat oss) done all
       /\ concat w = done ++ concat w' /\ s' = effects D all s.
Proof.
  intros H S D R X C l h h' s s' w w' rs Ho Er. apply C95_operations in Er; [|apply shared_opens, Ho].
  destruct Er as (En & oss & F & Ee). split; [exact En|]. symmetry in Ee. apply scheduled_effects in Ee as (done & all & M & Ew & Es).
  exists oss, done, all. split; [|auto]. revert F. clear. induction 1; constructor; [eapply shared_may; eassumption|assumption].
Qed.
Print Assumptions C143_interleaved.

(** What neither this program nor the others change stays as it is, whatever the schedule. *)
Theorem C143_kept : forall (H S W T : Type) (D : yubikey H S) (E : world S W) (R : rcgen) (X : x509) (C : crypto) (f : S -> T) (sl : slot)
  (l : list call) (h h' : H) (t t' : S * W) (rs : list (res value)),
  opens_right D -> run_calls (shared E D) R X C l h t = (rs, h', t') ->
  (forall o s, op_changes o <> Some sl -> f (effect D o s) = f s) -> (forall s w, f (fst (E s w)) = f s) ->
  (forall c, In c l -> call_changes c <> Some sl) -> f (fst t') = f (fst t).
Proof.
  intros H S W T D E R X C f sl l h h' t t' rs Ho Er Hf He Hl.
  apply (C97_slots _ _ _ (shared E D) R X C (fun u => f (fst u)) sl l h h' t t' rs); [apply shared_opens, Ho|exact Er| |exact Hl].
  intros o u N. rewrite shared_effect. cbn [fst]. rewrite Hf by exact N. apply He.
Qed.
Print Assumptions C143_kept.

(** Other programs leave alone a slot that none of their operations is to change, whatever the schedule. *)
Theorem C143_others_leave : forall (H S : Type) (D : yubikey H S) (V : slots S) (n : N) (sl : slot),
  stores_slots D V -> leaves V (scheduled_but D n sl) n sl.
Proof.
  intros H S D V n sl (K1 & K2 & _) s [|os w]; [apply same_refl|]. cbn [scheduled_but fst]. revert s.
  induction os as [|[o Ho] os IH]; intros s; [apply same_refl|]. cbn [map proj1_sig effects]. eapply same_trans; [|apply IH].
  destruct (op_changes o) as [sl'|] eqn:Eo; [|apply K1, Eo].
  assert (On : exists m, on_device D m o) by (destruct o; eexists; reflexivity). destruct On as [m On].
  apply (K2 o s sl' m Eo On). intros [= -> ->]. destruct Ho as [Ho|Ho]; [apply Ho, Eo|apply Ho, On].
Qed.
Print Assumptions C143_others_leave.

(** ** The slot that the others leave alone *)
Section Left.
Context {H S W : Type} (D : yubikey H S) (E : world S W) (V : slots S) (R : rcgen) (X : x509) (C : crypto) (n : N) (sl : slot).
Definition that (m : N) (ot : slot) : bool := (m =? n)%N && (ot =? sl)%N.
Lemma that_eq m ot : that m ot = true -> m = n /\ ot = sl.
Proof. unfold that. intros Ht. apply andb_true_iff in Ht as [A B]. apply N.eqb_eq in A, B. auto. Qed.
Lemma that_ok h : y_serial D h = n -> that (y_serial D h) sl = true.
Proof. intros ->. unfold that. rewrite !N.eqb_refl. reflexivity. Qed.
(** The device, as far as it reads and signs with the slot. *)
Definition narrow : yubikey H (S * W) :=
  mkYubikey H (S * W) (y_serial D) (fun _ t => (None, t)) (fun _ t => (None, t)) (fun _ _ t => (None, t)) (fun _ => false) (fun _ _ t => (None, t))
    (fun h ot t => if that (y_serial D h) ot then y_read (shared E D) h ot t else (None, t))
    (fun _ _ _ _ _ t => (None, t)) (fun _ _ _ _ _ t => (None, t))
    (fun h d a ot t => if that (y_serial D h) ot then y_sign (shared E D) h d a ot t else (None, t))
    (fun t => (None, t)) (fun _ => false) (fun _ _ _ t => (None, t)) (fun _ _ t => (None, t)).
Definition narrow_view : slots (S * W) := mkSlots (S * W)
  (fun t m ot => if that m ot then key_in V (fst t) n sl else None) (fun t m ot => if that m ot then cert_in V (fst t) n sl else None).
Lemma narrow_stores : stores_slots D V -> leaves V E n sl -> stores_slots narrow narrow_view.
Proof.
  intros (K1 & _ & K3 & _) Hl.
  assert (Sm : forall (A : Type) o (f : S -> A * S) t m ot, (forall s, snd (f s) = effect D o s) -> op_changes o = None ->
    same_slot narrow_view t (snd (lift_op E f t)) m ot).
  { intros A o f [s w] m ot Hf Ho. unfold same_slot. cbn [narrow_view key_in cert_in lift_op fst snd]. destruct (that m ot); [|auto].
    rewrite Hf. destruct (Hl s w) as [L1 L2]. destruct (K1 o (fst (E s w)) n sl Ho) as [J1 J2]. rewrite J1, J2. auto. }
  assert (Sr : forall t m ot, same_slot narrow_view t t m ot) by (split; reflexivity).
  split.
  { intros o t m ot Eo. destruct o; cbn [effect narrow y_open y_reconnect y_verify_pin y_authenticate y_read y_sign y_attest snd]; try apply Sr; try discriminate Eo.
    - destruct (that (y_serial D h) sl0); [|apply Sr]. apply (Sm _ (DRead h sl0)); [reflexivity|exact Eo].
    - destruct (that (y_serial D h) sl0); [|apply Sr]. apply (Sm _ (DSign h digest alg sl0)); [reflexivity|exact Eo]. }
  split; [intros o t sl' m Eo _ m' ot' _; destruct o; try discriminate Eo; apply Sr|].
  split.
  { intros h ot [s w] c Er. cbn [narrow y_read narrow_view cert_in y_serial] in *. destruct (that (y_serial D h) ot) eqn:Et; [|discriminate].
    apply that_eq in Et as [En ->]. cbn [shared y_read] in Er. unfold lift_op in Er. cbn [fst snd] in *. apply K3 in Er. rewrite En in Er.
    rewrite (proj2 (Hl s w)) in Er. exact Er. }
  split; [intros h ot a p u t o t' Eg; injection Eg as <- <-; split; [reflexivity|discriminate]|].
  split; [intros h ot a p u t o t' Eg; injection Eg as <- <-; split; [reflexivity|right; auto]|]. reflexivity.
Qed.
Lemma narrow_signs h : leaves V E n sl -> y_serial D h = n -> signs_with_key C D V h sl -> signs_with_key C narrow narrow_view h sl.
Proof.
  intros Hl Hn Hk oid point alg hash verify len view m [s w] g t' P Ek Es. cbn [narrow y_sign narrow_view key_in y_serial fst] in *.
  rewrite (that_ok h Hn) in *. cbn [shared y_sign] in Es. unfold lift_op in Es. cbn [fst snd] in Es.
  destruct (y_sign D h (hash m) alg sl (fst (E s w))) as [r s1] eqn:E1. cbn [fst snd] in Es. injection Es as -> _.
  eapply Hk; [exact P| |exact E1]. rewrite Hn, (proj1 (Hl s w)). exact Ek.
Qed.
Lemma narrow_pubkey h t : y_serial D h = n -> ssh_cert_fetch_pubkey narrow X h sl t = ssh_cert_fetch_pubkey (shared E D) X h sl t.
Proof.
  intros Hn. unfold ssh_cert_fetch_pubkey, fetch_certificate. cbn [narrow y_read]. rewrite (that_ok h Hn). reflexivity.
Qed.
Lemma narrow_ssh h m t : y_serial D h = n -> ssh_cert_signer narrow X C h m sl t = ssh_cert_signer (shared E D) X C h m sl t.
Proof.
  intros Hn. unfold ssh_cert_signer, get_ssh_key_type, sign_data, configured_slot, ssh_cert_fetch_pubkey, fetch_certificate.
  cbn [narrow y_read y_sign]. rewrite (that_ok h Hn). reflexivity.
Qed.
Lemma narrow_reads h k t : y_serial D h = n -> reads_slot k sl -> run_call narrow R X C k h t = run_call (shared E D) R X C k h t.
Proof.
  intros Hn [->|[->|[->|[->| ->]]]]; cbn [run_call]; unfold get_ssh_key_type, configured_slot, fetch_subject, ssh_cert_fetch_pubkey, fetch_certificate;
    cbn [narrow y_read]; rewrite (that_ok h Hn); reflexivity.
Qed.
End Left.

(** Reads tell about the certificate that was there at the start. *)
Theorem C143_reads : forall (H S W : Type) (D : yubikey H S) (E : world S W) (V : slots S) (R : rcgen) (X : x509) (C : crypto)
  (k : call) (sl : slot) (h h' : H) (s : S) (w : W) (t' : S * W) (v : value),
  stores_slots D V -> leaves V E (y_serial D h) sl -> reads_slot k sl -> run_call (shared E D) R X C k h (s, w) = (Ok v, h', t') ->
  exists c, cert_in V s (y_serial D h) sl = Some c /\ told X k sl c v.
Proof.
  intros H S W D E V R X C k sl h h' s w t' v Hs Hl Hk Er.
  rewrite <- (narrow_reads D E R X C (y_serial D h) sl h k (s, w) eq_refl Hk) in Er.
  destruct (C97_reads _ _ _ _ R X C k sl _ _ _ _ _ (narrow_stores D E V _ _ Hs Hl) Hk Er) as ((c & A1 & A2) & _).
  exists c. split; [|exact A2]. cbn [narrow_view cert_in narrow y_serial fst] in A1. rewrite (that_ok D _ sl h eq_refl) in A1. exact A1.
Qed.
Print Assumptions C143_reads.

(** Signatures verify under the key that is reported. *)
Theorem C143_signatures : forall (H S W : Type) (D : yubikey H S) (E : world S W) (V : slots S) (X : x509) (C : crypto) (h : H) (s : S) (w : W)
  (t' : S * W) (sl : slot) (m blob : bytes),
  stores_slots D V -> leaves V E (y_serial D h) sl -> signs_with_key C D V h sl ->
  (forall c, cert_in V s (y_serial D h) sl = Some c -> parsers_agree C X c) -> consistent V s (y_serial D h) sl ->
  ssh_cert_signer (shared E D) X C h m sl (s, w) = (Ok blob, t') ->
  exists k, fst (ssh_cert_fetch_pubkey (shared E D) X h sl (s, w)) = Ok k /\ verify_signature C blob m k = Ok blob.
Proof.
  intros H S W D E V X C h s w t' sl m blob Hs Hl Hk Hp Hc Er.
  rewrite <- (narrow_ssh D E X C (y_serial D h) sl h m (s, w) eq_refl) in Er.
  rewrite <- (narrow_pubkey D E X (y_serial D h) sl h (s, w) eq_refl).
  apply (C98_signatures _ _ _ (narrow_view V (y_serial D h) sl) X C h (s, w) t' sl m blob (narrow_stores D E V _ _ Hs Hl)
    (narrow_signs D E V C _ _ h Hl eq_refl Hk)); [| |exact Er];
    unfold consistent, narrow, narrow_view; cbn [y_serial cert_in key_in fst]; rewrite (that_ok D _ sl h eq_refl); assumption.
Qed.
Print Assumptions C143_signatures.

(** Consistency of a slot lasts as without the others. *)
Theorem C143_consistent : forall (H S W : Type) (D : yubikey H S) (E : world S W) (V : slots S) (R : rcgen) (X : x509) (C : crypto) (l : list call)
  (h h' : H) (t t' : S * W) (rs : list (res value)) (n : N) (sl : slot),
  opens_right D -> stores_slots D V -> leaves V E n sl -> run_calls (shared E D) R X C l h t = (rs, h', t') ->
  consistent V (fst t) n sl ->
  (forall i c r, nth_error l i = Some c -> nth_error rs i = Some r -> ~ spoils sl c r) ->
  consistent V (fst t') n sl.
Proof.
  intros H S W D E V R X C l h h' t t' rs n sl Ho Hst Hl. revert h h' t t' rs.
  assert (Op : forall o u, (op_changes o = None \/ exists m sl', op_changes o = Some sl' /\ on_device D m o /\ (n, sl) <> (m, sl')) ->
    same_slot V (fst u) (fst (effect (shared E D) o u)) n sl).
  { intros o u Q. rewrite shared_effect. cbn [fst]. eapply same_trans; [apply Hl|]. destruct Hst as (K1 & K2 & _).
    destruct Q as [Q|(m & sl' & Q1 & Q2 & Q3)]; [apply K1, Q|apply (K2 _ _ _ _ Q1 Q2), Q3]. }
  assert (Ops : forall os u, Forall (fun o => op_changes o = None \/ exists m sl', op_changes o = Some sl' /\ on_device D m o /\ (n, sl) <> (m, sl')) os ->
    same_slot V (fst u) (fst (effects (shared E D) os u)) n sl).
  { induction os as [|o os IH]; intros u F; [apply same_refl|]. apply Forall_cons_iff in F as [F1 F2]. cbn [effects].
    eapply same_trans; [apply Op, F1|apply IH, F2]. }
  assert (One : forall c h u r h1 u1, run_call (shared E D) R X C c h u = (r, h1, u1) -> consistent V (fst u) n sl -> ~ spoils sl c r -> consistent V (fst u1) n sl).
  { intros c h u r h1 u1 Ec Hc Hn.
    assert (G : (call_changes c <> Some sl \/ n <> y_serial D h) -> consistent V (fst u1) n sl).
    { intros Hd. apply call_facts in Ec; [|apply shared_opens, Ho]. destruct Ec as (_ & os & -> & M). eapply same_consistent; [|exact Hc].
      apply Ops. destruct M as (M1 & _ & _ & M2 & _). rewrite Forall_forall in *. intros o Hi. specialize (M1 o Hi). specialize (M2 o Hi).
      destruct (op_changes o) as [sl'|] eqn:Eo; [right|left; reflexivity]. exists (y_serial D h), sl'. split; [reflexivity|].
      split; [destruct o; exact M1|]. destruct M2 as [M2|M2]; [discriminate|]. intros [= -> ->]. destruct Hd as [Hd|Hd]; congruence. }
    destruct (N.eq_dec n (y_serial D h)) as [En|Hd]; [|auto].
    destruct c; try (apply G; left; discriminate).
    - apply G. left. cbn in *. congruence.
    - cbn [spoils] in Hn. destruct (N.eq_dec sl0 sl) as [->|Hd]; [|apply G; left; cbn; congruence].
      cbn [run_call] in Ec. unfold yvalue, ybind, yret in Ec.
      destruct (provision (shared E D) X h sl common_name alg touch_policy pin_policy u) as [[k|e|] u2] eqn:Ep; injection Ec as <- <- <-;
        [|exfalso; apply Hn; split; [reflexivity|discriminate]..].
      unfold provision, ybind, yop in Ep.
      destruct (y_generate (shared E D) h sl alg pin_policy touch_policy u) as [[info|] u3] eqn:E1; [|discriminate].
      destruct (y_self_sign (shared E D) h sl (repeat x00 20) common_name info u3) as [[x|] u4] eqn:E2; [|discriminate].
      destruct (does_pubkey (shared E D) X h sl u4) as (os & <- & E3). rewrite Ep in E3. cbn [snd effects] in E3.
      cbn [shared y_generate y_self_sign] in E1, E2. unfold lift_op in E1, E2.
      destruct Hst as (K1 & K2 & K3 & K4 & K5 & K6).
      destruct (y_generate D h sl alg pin_policy touch_policy (fst (E (fst u) (snd u)))) as [o1 s1] eqn:E1'. cbn [fst snd] in E1. injection E1 as -> <-.
      cbn [fst snd] in E2.
      destruct (y_self_sign D h sl (repeat x00 20) common_name info (fst (E s1 (snd (E (fst u) (snd u)))))) as [o2 s2] eqn:E2'. cbn [fst snd] in E2. injection E2 as -> <-.
      destruct (K4 _ _ _ _ _ _ _ _ E1') as [_ Kk]. specialize (Kk _ eq_refl).
      destruct (K5 _ _ _ _ _ _ _ _ E2') as [Kk' [(c & Kc & Ki)|[Kn _]]]; [|discriminate].
      rewrite <- En in *. rewrite (proj1 (Hl _ _)), Kk in Kk'.
      eapply same_consistent; [rewrite E3; apply Op; left; reflexivity|]. cbn [fst]. intros c' Ec. rewrite Kc in Ec. injection Ec as <-. congruence. }
  induction l as [|c l IH]; intros h h' t t' rs Er Hc Hn; cbn [run_calls] in Er.
  - injection Er as _ _ <-. exact Hc.
  - destruct (run_call (shared E D) R X C c h t) as [[r h1] t1] eqn:E1.
    assert (H1 : forall rs', rs = r :: rs' -> consistent V (fst t1) n sl).
    { intros rs' ->. eapply One; [exact E1|exact Hc|]. exact (Hn 0 c r eq_refl eq_refl). }
    assert (K : forall rs1, run_calls (shared E D) R X C l h1 t1 = (rs1, h', t') -> rs = r :: rs1 -> consistent V (fst t') n sl).
    { intros rs1 E2 Er'. eapply IH; [exact E2|exact (H1 _ Er')|]. subst rs. intros i c0 r0 A B. exact (Hn (Datatypes.S i) c0 r0 A B). }
    destruct r as [v|e|].
    + destruct (run_calls (shared E D) R X C l h1 t1) as [[rs1 h2] t2] eqn:E2. injection Er as <- <- <-. eapply K; reflexivity.
    + destruct (run_calls (shared E D) R X C l h1 t1) as [[rs1 h2] t2] eqn:E2. injection Er as <- <- <-. eapply K; reflexivity.
    + injection Er as <- <- <-. eapply H1. reflexivity.
Qed.
Print Assumptions C143_consistent.

(** Issuing a certificate gives one that is valid under the key named in it or an error, even if the others
    change the slot. *)
Theorem C143_issue : forall (H S W : Type) (D : yubikey H S) (E : world S W) (X : x509) (C : crypto) (iter : hashmap -> hashmap) (h : H) (sl : slot)
  (tbs : bytes) (c : cert) (t : S * W),
  tbs_certificate iter c = Ok tbs ->
  (exists blob c', cert_sign C iter c (yk_signer (shared E D) X C h sl t) = Ok c' /\ fst (ssh_cert_signer (shared E D) X C h tbs sl t) = Ok blob
     /\ ct_signature c' = blob /\ ct_serialized c' = tbs ++ field blob /\ accepted C (ct_signature_key c) tbs blob)
  \/ exists e, cert_sign C iter c (yk_signer (shared E D) X C h sl t) = Err e.
Proof.
  intros H S W D E X C iter h sl tbs c t Ht. unfold cert_sign, yk_signer. rewrite Ht. cbn [bind].
  pose proof (C83_never_panics H _ (shared E D) X C h tbs EccP256 sl t) as (_ & _ & _ & N).
  destruct (ssh_cert_signer (shared E D) X C h tbs sl t) as [[blob|e|] t'] eqn:Es; cbn [fst bind ok_or]; [|right; eauto|contradiction N; reflexivity].
  unfold add_signature. rewrite Ht. cbn [bind].
  destruct (verify_signature C blob tbs (ct_signature_key c)) as [out|e|] eqn:Ev; cbn [bind]; [left|right; eauto|exfalso; eapply verify_not_panic; exact Ev].
  apply verify_iff in Ev. destruct Ev as [-> Ev].
  eexists. eexists. split; [reflexivity|]. split; [reflexivity|]. split; [reflexivity|]. cbn [ct_serialized]. rewrite write_bytes_field. split; [reflexivity|exact Ev].
Qed.
Print Assumptions C143_issue.

(** ** Cases *)
(** A device with two slots, that makes the keys 2 and 3 in turn. *)
Definition slots_state : Type := slot_state * slot_state.
Definition ours (h : N) (sl : slot) : bool := (h =? 7)%N && ((sl =? 156)%N || (sl =? 157)%N).
Definition get (s : slots_state) (sl : slot) : slot_state := if (sl =? 156)%N then fst s else snd s.
Definition put (s : slots_state) (sl : slot) (v : slot_state) : slots_state := if (sl =? 156)%N then (v, snd s) else (fst s, v).
Definition many_yk : yubikey N slots_state := mkYubikey N slots_state
  (fun h => h) (fun n s => (Some n, s)) (fun _ s => (None, s)) (fun _ _ s => (Some tt, s)) (fun _ => true) (fun _ _ s => (Some tt, s))
  (fun h sl s => ((if ours h sl then snd (get s sl) else None), s))
  (fun h sl _ _ _ s => if ours h sl then let k := PkiP256 (match fst (get s sl) with Some (PkiP256 [x03]) => [x02] | _ => [x03] end) in
                         (Some k, put s sl (Some k, snd (get s sl))) else (None, s))
  (fun h sl _ nm i s => if ours h sl then (Some tt, put s sl (fst (get s sl), Some (cert_for i nm))) else (None, s))
  (fun h _ a sl s => ((if ours h sl then match fst (get s sl), a with
                       | Some (PkiP256 [x02]), EccP256 => Some (der_with x02)
                       | Some (PkiP256 [x03]), EccP256 => Some (der_with x03)
                       | _, _ => None end else None), s))
  (fun s => (Some 7%N, s)) (fun _ => true)
  (fun h sl d s => if ours h sl then (Some tt, put s sl (fst (get s sl), Some (cert_for (PkiP256 d) []))) else (None, s))
  (fun _ _ s => (None, s)).
Definition many_view : slots slots_state := mkSlots slots_state
  (fun s n sl => if ours n sl then fst (get s sl) else None) (fun s n sl => if ours n sl then snd (get s sl) else None).
Lemma many_stores : stores_slots many_yk many_view.
Proof.
  assert (P : forall s sl v, get (put s sl v) sl = v) by (intros s sl v; unfold get, put; destruct (sl =? 156)%N; reflexivity).
  assert (Q : forall s h sl v m ot, ours h sl = true -> ours m ot = true -> (m, ot) <> (h, sl) -> get (put s sl v) ot = get s ot).
  { intros s h sl v m ot Hh Hm Hd. unfold ours in *. apply andb_true_iff in Hh as [A1 A2], Hm as [B1 B2]. apply N.eqb_eq in A1, B1. subst h m.
    unfold get, put. destruct (sl =? 156)%N eqn:E1, (ot =? 156)%N eqn:E2; try reflexivity; cbn [orb] in *;
      repeat match goal with H : (_ =? _)%N = true |- _ => apply N.eqb_eq in H end; subst; contradiction Hd; reflexivity. }
  split; [intros o t n sl E; destruct o; try discriminate E; split; reflexivity|]. split.
  { intros o t sl n E On m ot Hd. destruct o; try discriminate E; injection E as ->; cbn [on_device many_yk y_serial] in On; subst n;
      unfold same_slot; cbn [effect many_yk y_generate y_self_sign y_write many_view key_in cert_in];
      destruct (ours h sl) eqn:Eh; cbn [snd fst]; destruct (ours m ot) eqn:Em; try rewrite (Q _ _ _ _ _ _ Eh Em Hd); split; reflexivity. }
  split; [intros h sl t c; cbn [many_yk y_read y_serial many_view cert_in fst]; auto|].
  split.
  { intros h sl a p u t o t'. cbn [many_yk y_generate y_serial many_view cert_in key_in]. destruct (ours h sl); intros [= <- <-];
      rewrite ?P; cbn [fst snd]; split; auto; discriminate. }
  split.
  { intros h sl n nm i t o t'. cbn [many_yk y_self_sign y_serial many_view cert_in key_in]. destruct (ours h sl);
      intros [= <- <-]; rewrite ?P; cbn [fst snd]; split; eauto. }
  intros h sl d t. cbn [effect many_yk y_write y_serial many_view key_in]. destruct (ours h sl); cbn [snd]; rewrite ?P; reflexivity.
Qed.
Definition start : slots_state := (old_slot, old_slot).
(** The operations of a program that provisions the slot [sl]. *)
Definition provisioning (sl : slot) : list (device_op N) :=
  [DGenerate 7%N sl EccP256 2%N 1%N; DSelfSign 7%N sl (repeat x00 20) (s2b "you") (PkiP256 [x02]); DRead 7%N sl].
Lemma harmless_slot : harmless many_yk 7%N 156%N (DGenerate 7%N 157%N EccP256 2%N 1%N).
Proof. left. cbn [op_changes]. intros [=]. Qed.
Lemma harmless_device : harmless many_yk 7%N 156%N (DWrite 8%N 156%N [x09]).
Proof. right. cbn [on_device many_yk y_serial]. intros [=]. Qed.
Definition other_slot : list {o : device_op N | harmless many_yk 7%N 156%N o} :=
  [exist (harmless many_yk 7%N 156%N) _ harmless_slot; exist (harmless many_yk 7%N 156%N) _ harmless_device].
Example C143_case : opens_right many_yk /\ stores_slots many_yk many_view /\ consistent many_view start 7%N 156%N
  /\ exists k blob w' s' rs s'',
     run_calls (shared (scheduled_but many_yk 7%N 156%N) many_yk) ex_rcgen key_x509 key_crypto
       [CProvision 156%N (s2b "me") EccP256 1%N 2%N; CSshSign (s2b "m") 156%N] 7%N (start, [other_slot; other_slot; []; other_slot])
     = ([Ok (VKey k); Ok (VBytes blob)], 7%N, (s', w'))
  /\ fst s' = (Some (PkiP256 [x03]), Some (cert_for (PkiP256 [x03]) (s2b "me"))) /\ fst (snd s') = Some (PkiP256 [x03])
  /\ verify_signature key_crypto blob (s2b "m") k = Ok blob
  /\ run_calls (shared (scheduled many_yk) many_yk) ex_rcgen key_x509 key_crypto [CProvision 156%N (s2b "me") EccP256 1%N 2%N] 7%N (start, [[]; provisioning 157%N])
     = (rs, 7%N, (s'', [])) /\ length rs = 1.
Proof.
  split; [intros n t g t' [= <- _]; reflexivity|]. split; [apply many_stores|]. split; [intros c [= <-]; reflexivity|].
  do 6 eexists. split; [vm_compute; reflexivity|]. split; [vm_compute; reflexivity|]. split; [vm_compute; reflexivity|]. split; [vm_compute; reflexivity|].
  split; vm_compute; reflexivity.
Qed.

(** Two programs that provision the same slot at the same time: one is told that it has a new key, but the slot
    has the key of the other, and what it signs does not verify under the key reported. *)
Theorem C143_race_refuted : exists (s' : slots_state) (k : pubkey) (blob : bytes),
  consistent many_view start 7%N 156%N
  /\ run_calls (shared (scheduled many_yk) many_yk) ex_rcgen key_x509 key_crypto [CProvision 156%N (s2b "me") EccP256 1%N 2%N] 7%N
       (start, [[]; provisioning 156%N]) = ([Ok (VKey k)], 7%N, (s', []))
  /\ ~ consistent many_view s' 7%N 156%N
  /\ ssh_cert_fetch_pubkey many_yk key_x509 7%N 156%N s' = (Ok k, s')
  /\ ssh_cert_signer many_yk key_x509 key_crypto 7%N (s2b "m") 156%N s' = (Ok blob, s')
  /\ verify_signature key_crypto blob (s2b "m") k <> Ok blob.
Proof.
  do 3 eexists. split; [intros c [= <-]; reflexivity|]. split; [vm_compute; reflexivity|].
  split; [intros Hc; specialize (Hc _ eq_refl); discriminate|]. split; [vm_compute; reflexivity|]. split; [vm_compute; reflexivity|].
  vm_compute. discriminate.
Qed.
Print Assumptions C143_race_refuted.

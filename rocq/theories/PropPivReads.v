(** What the reading calls of a YubiKey tell (C97). *)
From Verif Require Import Base BaseFacts KeyType PubKeyType Crypto X509 SpecX509 SpecPiv SpecPivCalls SpecPivReads Piv PivCalls TbsFacts PropPiv PropPivCalls.

(** A read that succeeds tells about the certificate in the slot it names, and changes nothing. *)
Theorem C97_reads : forall (H S : Type) (D : yubikey H S) (V : slots S) (R : rcgen) (X : x509) (C : crypto)
  (k : call) (sl : slot) (h h' : H) (s s' : S) (v : value),
  stores_slots D V -> reads_slot k sl -> run_call D R X C k h s = (Ok v, h', s') ->
  (exists c, cert_in V s (y_serial D h) sl = Some c /\ told X k sl c v)
  /\ h' = h /\ forall n ot, same_slot V s s' n ot.
Proof.
  intros H S D V R X C k sl h h' s s' v Hs Hk E. pose proof (proj1 Hs (DRead h sl) s) as K. cbn [effect op_changes] in K.
  destruct Hs as (_ & _ & Hr & _).
  assert (G : forall (A : Type) (f : slot_cert -> A) (g : A -> value),
    (let r := yvalue g (ybind (yop (y_read D h sl)) (fun c => yret (f c))) s in (fst r, h, snd r)) = (Ok v, h', s') ->
    exists c, cert_in V s (y_serial D h) sl = Some c /\ v = g (f c) /\ h' = h /\ s' = snd (y_read D h sl s)).
  { intros A f g E'. unfold yvalue, ybind, yop, yret in E'. pose proof (Hr h sl s) as Hr'.
    destruct (y_read D h sl s) as [[c|] s1]; cbn [fst snd] in *; [|discriminate]. injection E' as <- <- <-. exists c. auto. }
  assert (Key : forall r s1, ssh_cert_fetch_pubkey D X h sl s = (Ok r, s1) ->
    s1 = snd (y_read D h sl s) /\ exists c oid point, cert_in V s (y_serial D h) sl = Some c /\ slot_key X c oid point /\ curve_key oid point r).
  { intros r s1 Ef. apply C83_fetch_key in Ef. destruct Ef as [[_ Ef]|(c & Ec & [(oid & point & k' & A & B & Ef)|[[_ Ef]|[[_ Ef]|(_ & _ & Ef)]]])]; try discriminate.
    apply ok_inj in Ef. subst k'. rewrite Ec. split; [reflexivity|]. exists c, oid, point. split; [apply Hr; rewrite Ec; reflexivity|auto]. }
  destruct Hk as [->|[->|[->|[->| ->]]]];
    [apply G in E as (c & E1 & -> & -> & ->);
     (split; [exists c; split; [exact E1|constructor]|split; [reflexivity|intros n ot; apply K; reflexivity]])..| |].
  - cbn [run_call] in E. unfold yvalue, ybind, yret in E. destruct (ssh_cert_fetch_pubkey D X h sl s) as [[r|e|] s1] eqn:Ef; try discriminate E.
    destruct (Key r s1 eq_refl) as (-> & c & oid & point & A1 & A2 & A3). cbn [fst snd] in E. injection E as <- <- <-.
    split; [exists c; split; [exact A1|econstructor; eassumption]|split; [reflexivity|intros n ot; apply K; reflexivity]].
  - cbn [run_call] in E. unfold yvalue, get_ssh_key_type, ybind, yret, yerr in E.
    destruct (ssh_cert_fetch_pubkey D X h sl s) as [[r|e|] s1] eqn:Ef; try discriminate E.
    destruct (Key r s1 eq_refl) as (-> & c & oid & point & A1 & A2 & (name & id & kind & I & ->)).
    destruct I as [I|[I|[]]]; injection I as <- <- <- <-; cbn [pk_kind c_kind fst snd] in E; injection E as <- <- <-;
      (split; [exists c; split; [exact A1|econstructor; [exact A2|cbn [In]; auto]]|split; [reflexivity|intros n ot; apply K; reflexivity]]).
Qed.
Print Assumptions C97_reads.

(** Two reads of a slot tell the same as long as no call between them was to change it. *)
Theorem C97_reads_again : forall (H S : Type) (D : yubikey H S) (V : slots S) (R : rcgen) (X : x509) (C : crypto)
  (k : call) (sl : slot) (l : list call) (h h0 h1 h' : H) (s s0 s1 s' : S) (v v' : value) (rs : list (res value)),
  opens_right D -> stores_slots D V -> reads_slot k sl -> (forall c, In c l -> call_changes c <> Some sl) ->
  run_call D R X C k h s = (Ok v, h0, s0) -> run_calls D R X C l h0 s0 = (rs, h1, s1) ->
  run_call D R X C k h1 s1 = (Ok v', h', s') -> v' = v.
Proof.
  intros H S D V R X C k sl l h h0 h1 h' s s0 s1 s' v v' rs Ho Hs Hk Hl E1 E2 E3.
  destruct (C97_reads _ _ D V R X C k sl _ _ _ _ _ Hs Hk E1) as ((c & A1 & A2) & -> & A3).
  destruct (C97_reads _ _ D V R X C k sl _ _ _ _ _ Hs Hk E3) as ((c' & B1 & B2) & _).
  pose proof (proj1 (C95_operations _ _ D R X C l h h1 s0 s1 rs Ho E2)) as En.
  assert (Ef : cert_in V s1 (y_serial D h) sl = cert_in V s0 (y_serial D h) sl).
  { apply (C97_slots _ _ _ D R X C (fun t => cert_in V t (y_serial D h) sl) sl l h h1 s0 s1 rs Ho E2); [|exact Hl].
    intros o t N. destruct (op_changes o) as [sl'|] eqn:Eo; [|apply (proj1 Hs o t _ _ Eo)].
    assert (On : exists n, on_device D n o) by (destruct o; eexists; reflexivity). destruct On as [n On].
    apply (proj1 (proj2 Hs) o t sl' n Eo On). congruence. }
  rewrite En, Ef, (proj2 (A3 _ _)), A1 in B1. injection B1 as <-.
  destruct A2 as [| | |? ? oid point k1 A4 A5|? ? oid point alg A4 A5]; inversion B2; subst; try reflexivity.
  - match goal with A : slot_key X _ oid point, B : slot_key X _ ?o ?q |- _ => destruct (slot_key_fun _ _ _ _ _ _ A B) as [-> ->] end.
    f_equal. eapply curve_key_fun; eassumption.
  - match goal with A : slot_key X _ oid point, B : slot_key X _ ?o ?q, I : In (?o, _) _ |- _ => destruct (slot_key_fun _ _ _ _ _ _ A B) as [-> ->] end.
    assert (Ne : s2b "1.2.840.10045.3.1.7" <> s2b "1.3.132.0.34") by (vm_compute; discriminate).
    cbn [In] in *. repeat match goal with I : _ \/ _ |- _ => destruct I as [I|I] end; try contradiction; f_equal; congruence.
Qed.
Print Assumptions C97_reads_again.

(** The attestation asked for is the one of the slot it names. *)
Theorem C97_attestation : forall (H S : Type) (D : yubikey H S) (R : rcgen) (X : x509) (C : crypto) (sl : slot) (h h' : H) (s s' : S) (v : value),
  run_call D R X C (CAttest sl) h s = (Ok v, h', s') ->
  h' = h /\ exists a, y_attest D h sl s = (Some a, s') /\ v = VBytes a.
Proof.
  intros H S D R X C sl h h' s s' v E. cbn [run_call] in E. unfold yvalue, fetch_attestation, ybind, yop, yret in E.
  destruct (y_attest D h sl s) as [[a|] s1]; [|discriminate E]. cbn [fst snd] in E. injection E as <- <- <-. eauto.
Qed.
Print Assumptions C97_attestation.

(** The device of the cases of C98 treats its slots as assumed there. *)
Lemma store_stores lost : stores_slots (store_yk lost) store_view.
Proof.
  assert (W : forall m n ot sl, here n sl = true -> (m, ot) <> (n, sl) -> here m ot = false).
  { intros m n ot sl E N. destruct (here m ot) eqn:E'; [|reflexivity]. unfold here in *.
    apply andb_true_iff in E as [E1 E2], E' as [E3 E4]. apply N.eqb_eq in E1, E2, E3, E4. congruence. }
  split; [intros o t n sl E; destruct o; try discriminate E; split; reflexivity|]. split.
  { intros o t sl n E On m ot N. destruct o; try discriminate E; injection E as ->; cbn [on_device store_yk y_serial] in On; subst n;
      unfold same_slot; cbn [effect store_yk y_generate y_self_sign y_write store_view key_in cert_in];
      match goal with |- context [here ?a sl] => destruct (here a sl) eqn:Eh end; cbn [andb snd fst]; try (destruct lost; cbn [negb snd fst]);
      rewrite ?(W _ _ _ _ Eh N); split; reflexivity. }
  split.
  { intros h sl t c. cbn [store_yk y_read y_serial store_view cert_in fst]. auto. }
  split.
  { intros h sl a p u t o t'. cbn [store_yk y_generate y_serial store_view cert_in key_in]. destruct (here h sl) eqn:E; intros [= <- <-]; cbn [fst snd].
    - split; [reflexivity|auto].
    - split; [reflexivity|discriminate]. }
  split.
  { intros h sl n nm i t o t'. cbn [store_yk y_self_sign y_serial store_view cert_in key_in]. destruct (here h sl) eqn:E, lost; cbn [andb negb];
      intros [= <- <-]; cbn [fst snd]; split; eauto. }
  intros h sl d t. cbn [effect store_yk y_write y_serial store_view key_in]. destruct (here h sl); reflexivity.
Qed.
Example C97_case_reads : opens_right (store_yk false) /\ stores_slots (store_yk false) store_view
  /\ run_call (store_yk false) ex_rcgen key_x509 key_crypto (CSubject 156%N) 7%N old_slot = (Ok (VBytes (s2b "old")), 7%N, old_slot)
  /\ (exists k, run_call (store_yk false) ex_rcgen key_x509 key_crypto (CPubkey 156%N) 7%N old_slot = (Ok (VKey k), 7%N, old_slot))
  /\ run_call (store_yk false) ex_rcgen key_x509 key_crypto (CKeyType 156%N) 7%N old_slot = (Ok (VAlg EccP256), 7%N, old_slot)
  /\ exists rs s', run_calls (store_yk false) ex_rcgen key_x509 key_crypto [CWrite 157%N [x01]; CUnlock [] []; CSubject 157%N; CSubject 156%N] 7%N old_slot
     = (rs ++ [Ok (VBytes (s2b "old"))], 7%N, s').
Proof.
  split; [intros n t g t' [= <- _]; reflexivity|]. split; [apply store_stores|]. split; [vm_compute; reflexivity|].
  split; [eexists; vm_compute; reflexivity|]. split; [vm_compute; reflexivity|].
  exists [Err (EYubikeyPIVError PInternal); Ok VUnit; Err (EYubikeyPIVError PInternal)]. eexists. vm_compute. reflexivity.
Qed.

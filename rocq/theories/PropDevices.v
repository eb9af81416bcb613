(** Theorems about finding devices and asking about their PIN (C116). *)
From Verif Require Import Base SpecWire SpecKeys SpecSig SpecPrivKey SpecSign SpecToken KeyType PubKeyType Crypto PrivKey Generate Token Devices SpecDevices PropSignature PropPrivKey PropSign PropToken.
From Coq Require Import ZArith.

Lemma sign_recorded {S} (T : tokens S) F C k m s : exists qs,
  (forall l, token_sign (recorded T) F C k m (s, l) = (fst (token_sign T F C k m s), (snd (token_sign T F C k m s), l ++ qs)))
  /\ forall l, token_sign (recorded_tokens T) F C k m (s, l)
               = (fst (token_sign T F C k m s), (snd (token_sign T F C k m s), l ++ map QToken qs)).
Proof.
  unfold token_sign, hid_token_sign, moz_token_sign.
  assert (N : forall (x : res (option bytes)), exists qs : list request,
    (forall l, (x, (s, l)) = (fst (x, s), (snd (x, s), l ++ qs))) /\ forall l, (x, (s, l)) = (fst (x, s), (snd (x, s), l ++ map QToken qs))).
  { intros x. exists []. split; intros l; cbn [fst snd map]; rewrite app_nil_r; reflexivity. }
  destruct (f_fido F); [apply N| |].
  - destruct (hw_of k) as [h|]; [|apply N]. destruct (pub_app (sk_pub k)) as [[app|]|]; [|apply N|apply N].
    destruct (hw_device_path h) as [p|].
    + destruct (t_open T [HPath p] s) as [[d|] s1] eqn:Eo.
      * destruct (t_assert T d (mkAssertArgs app m (hw_handle h) (hw_pin h)) s1) as [[l0|] s2] eqn:Ea.
        -- exists [ROpen [HPath p] (Some d); RAssert d (mkAssertArgs app m (hw_handle h) (hw_pin h)) (Some l0)].
           split; intros l; cbn [recorded recorded_tokens t_open t_assert fst snd]; rewrite Eo; cbn [fst snd]; rewrite Ea;
             destruct (pop l0); cbn [fst snd map]; rewrite <- app_assoc; reflexivity.
        -- exists [ROpen [HPath p] (Some d); RAssert d (mkAssertArgs app m (hw_handle h) (hw_pin h)) None].
           split; intros l; cbn [recorded recorded_tokens t_open t_assert fst snd]; rewrite Eo; cbn [fst snd]; rewrite Ea;
             cbn [fst snd map]; rewrite <- app_assoc; reflexivity.
      * exists [ROpen [HPath p] None]. split; intros l; cbn [recorded recorded_tokens t_open fst snd]; rewrite Eo; reflexivity.
    + destruct (t_devices T s) as [ps s0] eqn:Ed. destruct (t_open T ps s0) as [[d|] s1] eqn:Eo.
      * destruct (t_assert T d (mkAssertArgs app m (hw_handle h) (hw_pin h)) s1) as [[l0|] s2] eqn:Ea.
        -- exists [RDevices ps; ROpen ps (Some d); RAssert d (mkAssertArgs app m (hw_handle h) (hw_pin h)) (Some l0)].
           split; intros l; cbn [recorded recorded_tokens t_devices t_open t_assert fst snd]; rewrite Ed; cbn [fst snd]; rewrite Eo; cbn [fst snd]; rewrite Ea;
             destruct (pop l0); cbn [fst snd map]; rewrite <- !app_assoc; reflexivity.
        -- exists [RDevices ps; ROpen ps (Some d); RAssert d (mkAssertArgs app m (hw_handle h) (hw_pin h)) None].
           split; intros l; cbn [recorded recorded_tokens t_devices t_open t_assert fst snd]; rewrite Ed; cbn [fst snd]; rewrite Eo; cbn [fst snd]; rewrite Ea;
             cbn [fst snd map]; rewrite <- !app_assoc; reflexivity.
      * exists [RDevices ps; ROpen ps None]. split; intros l; cbn [recorded recorded_tokens t_devices t_open fst snd]; rewrite Ed; cbn [fst snd]; rewrite Eo;
          cbn [fst snd map]; rewrite <- app_assoc; reflexivity.
  - destruct (hw_of k) as [h|]; [|apply N]. destruct (pub_app (sk_pub k)) as [[app|]|]; [|apply N|apply N].
    destruct (t_service T s) as [[|] s1] eqn:Es.
    + destruct (t_sign T (mkSignArgs (c_sha256 C m) app (hw_handle h) (hw_pin h)) s1) as [x s2] eqn:Ea.
      exists [RService true; RSign (mkSignArgs (c_sha256 C m) app (hw_handle h) (hw_pin h)) x].
      split; intros l; cbn [recorded recorded_tokens t_service t_sign fst snd]; rewrite Es; cbn [fst snd]; rewrite Ea;
        destruct x as [| |[a|]]; cbn [fst snd map]; rewrite <- app_assoc; reflexivity.
    + exists [RService false]. split; intros l; cbn [recorded recorded_tokens t_service fst snd]; rewrite Es; reflexivity.
Qed.

Lemma listing_found found : listing found (filter_map describe found).
Proof.
  induction found as [|[[p|v q] name] found IH]; cbn [filter_map describe di_param di_product]; constructor; exact IH.
Qed.

(** One step, recorded: the same answer, and what is asked. *)
Lemma step_recorded {S} (Q : readers S) (T : tokens S) F C o k s : exists qs,
  (forall l, device_step (recorded_readers Q) (recorded_tokens T) F C (unrecorded_op o) k (s, l)
     = (fst (device_step Q T F C o k s), (snd (device_step Q T F C o k s), l ++ qs)))
  /\ (f_fido F = Ctap2Hid -> op_asks o qs (fst (fst (device_step Q T F C o k s))))
  /\ (f_fido F = Mozilla -> (exists t, o = DToken t) \/ qs = [] /\ moz_answer o (fst (fst (device_step Q T F C o k s)))
                                                     /\ snd (device_step Q T F C o k s) = s)
  /\ exists t, signing_part o t
     /\ snd (fst (device_step Q T F C o k s)) = snd (fst (session T F C [t] k s))
     /\ snd (device_step Q T F C o k s) = snd (session T F C [t] k s)
     /\ signatures_of [fst (fst (device_step Q T F C o k s))] = fst (fst (session T F C [t] k s))
     /\ forall l, session (recorded T) F C [unrecorded t] k (s, l)
          = (fst (session T F C [t] k s), (snd (session T F C [t] k s), l ++ token_requests qs)).
Proof.
  assert (N : forall A (x : A) , exists qs : list device_request, (forall l : list device_request, (x, (s, l)) = (x, (s, l ++ qs))) /\ qs = []).
  { intros A x. exists []. split; [intros l; rewrite app_nil_r; reflexivity|reflexivity]. }
  destruct o as [|p|p|[m|p|p|f]]; cbn [unrecorded_op device_step].
  - unfold list_fido_devices, hid_list_fido_devices. destruct (f_fido F) eqn:EF.
    + exists []. split; [intros l; rewrite app_nil_r; reflexivity|]. split; [discriminate|]. split; [discriminate|].
      exists (TOther (fun s => s)). split; [constructor|]. cbn. do 3 (split; [reflexivity|]). intros l; rewrite app_nil_r; reflexivity.
    + destruct (q_devices Q s) as [found s1] eqn:E. exists [QFind found].
      split; [intros l; cbn [recorded_readers q_devices fst snd]; rewrite E; reflexivity|].
      split; [intros _; cbn [fst]; constructor; apply listing_found|]. split; [discriminate|].
      exists (TOther (fun _ => s1)). split; [constructor|]. cbn. do 3 (split; [reflexivity|]). intros l; rewrite app_nil_r; reflexivity.
    + exists []. split; [intros l; rewrite app_nil_r; reflexivity|]. split; [discriminate|].
      split; [intros _; right; split; [reflexivity|split; [constructor|reflexivity]]|].
      exists (TOther (fun s => s)). split; [constructor|]. cbn. do 3 (split; [reflexivity|]). intros l; rewrite app_nil_r; reflexivity.
  - unfold device_requires_pin, hid_device_requires_pin. destruct (f_fido F) eqn:EF.
    + exists []. split; [intros l; rewrite app_nil_r; reflexivity|]. split; [discriminate|]. split; [discriminate|].
      exists (TOther (fun s => s)). split; [constructor|]. cbn. do 3 (split; [reflexivity|]). intros l; rewrite app_nil_r; reflexivity.
    + destruct (q_open Q [HPath p] s) as [[d|] s1] eqn:E.
      * destruct (q_client_pin Q d s1) as [x s2] eqn:E2. exists [QOpen [HPath p] (Some d); QPin d x].
        split; [intros l; cbn [recorded_readers q_open q_client_pin fst snd]; rewrite E; cbn [fst snd]; rewrite E2;
          destruct x as [[b|]|]; cbn [fst snd]; rewrite <- app_assoc; reflexivity|].
        split; [intros _; destruct x as [[b|]|]; cbn [fst]; constructor; auto|]. split; [discriminate|].
        exists (TOther (fun _ => s2)). split; [constructor|].
        destruct x as [[b|]|]; cbn; (do 3 (split; [reflexivity|])); intros l; rewrite app_nil_r; reflexivity.
      * exists [QOpen [HPath p] None]. split; [intros l; cbn [recorded_readers q_open fst snd]; rewrite E; reflexivity|].
        split; [intros _; constructor|]. split; [discriminate|]. exists (TOther (fun _ => s1)). split; [constructor|].
        cbn. do 3 (split; [reflexivity|]). intros l; rewrite app_nil_r; reflexivity.
    + exists []. split; [intros l; rewrite app_nil_r; reflexivity|]. split; [discriminate|].
      split; [intros _; right; split; [reflexivity|split; [constructor|reflexivity]]|].
      exists (TOther (fun s => s)). split; [constructor|]. cbn. do 3 (split; [reflexivity|]). intros l; rewrite app_nil_r; reflexivity.
  - unfold device_pin_retries, hid_device_pin_retries. destruct (f_fido F) eqn:EF.
    + exists []. split; [intros l; rewrite app_nil_r; reflexivity|]. split; [discriminate|]. split; [discriminate|].
      exists (TOther (fun s => s)). split; [constructor|]. cbn. do 3 (split; [reflexivity|]). intros l; rewrite app_nil_r; reflexivity.
    + destruct (q_open Q [HPath p] s) as [[d|] s1] eqn:E.
      * destruct (q_retries Q d s1) as [x s2] eqn:E2. exists [QOpen [HPath p] (Some d); QRetries d x].
        split; [intros l; cbn [recorded_readers q_open q_retries fst snd]; rewrite E; cbn [fst snd]; rewrite E2;
          destruct x as [b|]; cbn [fst snd]; rewrite <- app_assoc; reflexivity|].
        split; [intros _; destruct x as [b|]; cbn [fst]; constructor; auto|]. split; [discriminate|].
        exists (TOther (fun _ => s2)). split; [constructor|].
        destruct x as [b|]; cbn; (do 3 (split; [reflexivity|])); intros l; rewrite app_nil_r; reflexivity.
      * exists [QOpen [HPath p] None]. split; [intros l; cbn [recorded_readers q_open fst snd]; rewrite E; reflexivity|].
        split; [intros _; constructor|]. split; [discriminate|]. exists (TOther (fun _ => s1)). split; [constructor|].
        cbn. do 3 (split; [reflexivity|]). intros l; rewrite app_nil_r; reflexivity.
    + exists []. split; [intros l; rewrite app_nil_r; reflexivity|]. split; [discriminate|].
      split; [intros _; right; split; [reflexivity|split; [constructor|reflexivity]]|].
      exists (TOther (fun s => s)). split; [constructor|]. cbn. do 3 (split; [reflexivity|]). intros l; rewrite app_nil_r; reflexivity.
  - destruct (sign_recorded T F C k m s) as (qs & H1 & H2). exists (map QToken qs).
    split; [intros l; rewrite H2; destruct (token_sign T F C k m s) as [r s1]; reflexivity|].
    split; [intros _; destruct (token_sign T F C k m s) as [r s1]; constructor|]. split; [intros _; left; eexists; reflexivity|].
    exists (TSign m). split; [constructor|]. cbn [session unrecorded]. split; [|split; [|split]].
    1-3: destruct (token_sign T F C k m s) as [r s1]; reflexivity.
    intros l. rewrite H1. destruct (token_sign T F C k m s) as [r s1]; cbn [fst snd]. do 3 f_equal.
    clear. induction qs as [|q qs IH]; [reflexivity|]. cbn. f_equal. exact IH.
  - exists []. split; [intros l; rewrite app_nil_r; reflexivity|]. split; [intros _; constructor; discriminate|]. split; [intros _; left; eexists; reflexivity|].
    exists (TPin p). split; [constructor|]. cbn. do 3 (split; [reflexivity|]). intros l; rewrite app_nil_r; reflexivity.
  - exists []. split; [intros l; rewrite app_nil_r; reflexivity|]. split; [intros _; constructor; discriminate|]. split; [intros _; left; eexists; reflexivity|].
    exists (TPath p). split; [constructor|]. cbn. do 3 (split; [reflexivity|]). intros l; rewrite app_nil_r; reflexivity.
  - exists []. split; [intros l; cbn [fst snd]; rewrite app_nil_r; reflexivity|]. split; [intros _; constructor; discriminate|]. split; [intros _; left; eexists; reflexivity|].
    exists (TOther f). split; [constructor|]. cbn. do 3 (split; [reflexivity|]). intros l; rewrite app_nil_r; reflexivity.
Qed.

Lemma session_cons {S} (T : tokens S) F C t ts k s : session T F C (t :: ts) k s
  = let '(r1, k1, s1) := session T F C [t] k s in let '(rs, k2, s2) := session T F C ts k1 s1 in (r1 ++ rs, k2, s2).
Proof.
  destruct t as [m|p|p|f]; cbn [session].
  - destruct (token_sign T F C k m s) as [r s1]. destruct (session T F C ts k s1) as [[rs k2] s2]. reflexivity.
  - destruct (session T F C ts (set_pin p k) s) as [[rs k2] s2]. reflexivity.
  - destruct (session T F C ts (set_device_path p k) s) as [[rs k2] s2]. reflexivity.
  - destruct (session T F C ts k (f s)) as [[rs k2] s2]. reflexivity.
Qed.

Lemma ops_recorded {S} (Q : readers S) (T : tokens S) F C ops : forall k s, exists qs,
  (forall l, device_session (recorded_readers Q) (recorded_tokens T) F C (map unrecorded_op ops) k (s, l)
     = (fst (device_session Q T F C ops k s), (snd (device_session Q T F C ops k s), l ++ qs)))
  /\ (f_fido F = Ctap2Hid -> ops_ask ops qs (fst (fst (device_session Q T F C ops k s))))
  /\ exists ts, Forall2 signing_part ops ts
     /\ snd (fst (device_session Q T F C ops k s)) = snd (fst (session T F C ts k s))
     /\ signatures_of (fst (fst (device_session Q T F C ops k s))) = fst (fst (session T F C ts k s))
     /\ forall l, session (recorded T) F C (map unrecorded ts) k (s, l)
          = (fst (session T F C ts k s), (snd (session T F C ts k s), l ++ token_requests qs)).
Proof.
  induction ops as [|o ops IH]; intros k s.
  - exists []. split; [intros l; cbn; rewrite app_nil_r; reflexivity|]. split; [intros _; constructor|].
    exists []. split; [constructor|]. cbn. do 2 (split; [reflexivity|]). intros l; rewrite app_nil_r; reflexivity.
  - destruct (step_recorded Q T F C o k s) as (q & Hq & Ha & _ & t & Ht & Hk & Hs & Hr & Hl).
    cbn [device_session map]. destruct (device_step Q T F C o k s) as [[a k1] s1] eqn:E. cbn [fst snd] in *.
    destruct (IH k1 s1) as (qs & HQ & HA & ts & HT & HK & HR & HL).
    exists (q ++ qs). split; [|split].
    + intros l. rewrite Hq, HQ. destruct (device_session Q T F C ops k1 s1) as [[l1 k2] s2]. cbn [fst snd]. rewrite <- app_assoc. reflexivity.
    + intros EF. specialize (Ha EF). specialize (HA EF). destruct (device_session Q T F C ops k1 s1) as [[l1 k2] s2].
      cbn [fst]. constructor; assumption.
    + exists (t :: ts). split; [constructor; assumption|]. rewrite (session_cons T F C t ts). cbn [map].
      destruct (session T F C [t] k s) as [[r1 k1'] s1'] eqn:Et. cbn [fst snd] in *. subst k1' s1'.
      destruct (device_session Q T F C ops k1 s1) as [[l1 k2] s2] eqn:ED. destruct (session T F C ts k1 s1) as [[rs k2'] s2'] eqn:ES. cbn [fst snd] in *.
      split; [exact HK|]. split.
      * rewrite <- HR, <- Hr. cbn. rewrite app_nil_r. reflexivity.
      * intros l. rewrite session_cons, Hl, HL. cbn [fst snd]. unfold token_requests. rewrite flat_map_app, <- app_assoc. reflexivity.
Qed.

(** With ctap-hid-fido2: what a program asks and is told, request by request. *)
Theorem C116_asks : forall (S : Type) (Q : readers S) (T : tokens S) (F : features) (C : crypto) (ops : list device_op) (k : privkey) (s : S),
  f_fido F = Ctap2Hid -> ops_ask ops (device_requests Q T F C ops k s) (device_answers_of Q T F C ops k s).
Proof.
  intros S Q T F C ops k s EF. destruct (ops_recorded Q T F C ops k s) as (qs & H & A & _).
  unfold device_requests, device_answers_of. rewrite H. cbn [snd]. apply (A EF).
Qed.
Print Assumptions C116_asks.

(** Questions are nothing to signing: requests, signatures and key are those of a session of
    signing calls alone. *)
Theorem C116_signing : forall (S : Type) (Q : readers S) (T : tokens S) (F : features) (C : crypto) (ops : list device_op) (k : privkey) (s : S),
  exists ts, Forall2 signing_part ops ts
    /\ token_requests (device_requests Q T F C ops k s) = requests_of T F C ts k s
    /\ signatures_of (device_answers_of Q T F C ops k s) = results_of T F C ts k s
    /\ key_after Q T F C ops k s = snd (fst (session T F C ts k s)).
Proof.
  intros S Q T F C ops k s. destruct (ops_recorded Q T F C ops k s) as (qs & H & _ & ts & HT & HK & HR & HL).
  exists ts. split; [exact HT|]. unfold device_requests, requests_of, device_answers_of, results_of, key_after.
  rewrite H, HL. auto.
Qed.
Print Assumptions C116_signing.

(** Without signing calls no device is asked to sign, and no PIN is sent, whatever the key holds. *)
Theorem C116_questions : forall (S : Type) (Q : readers S) (T : tokens S) (F : features) (C : crypto) (ops : list device_op) (k : privkey) (s : S),
  f_fido F = Ctap2Hid -> (forall m, ~ In (DToken (TSign m)) ops) ->
  token_requests (device_requests Q T F C ops k s) = []
  /\ forall ps d, In (QOpen ps d) (device_requests Q T F C ops k s) ->
       exists p, ps = [HPath p] /\ (In (DNeedsPin p) ops \/ In (DRetries p) ops).
Proof.
  intros S Q T F C ops k s EF HN. pose proof (C116_asks S Q T F C ops k s EF) as H. revert H HN.
  generalize (device_requests Q T F C ops k s), (device_answers_of Q T F C ops k s). intros qs l H.
  induction H as [|o ops' q a qs l H1 H2 IH]; intros HN; [split; [reflexivity|intros ps d []]|].
  destruct IH as [I1 I2]; [intros m Hm; apply (HN m); right; exact Hm|].
  assert (HO : forall m, o <> DToken (TSign m)) by (intros m ->; apply (HN m); left; reflexivity).
  unfold token_requests in *. rewrite flat_map_app, I1, app_nil_r. split.
  - destruct H1; try reflexivity. elim (HO m). reflexivity.
  - intros ps d Hin. apply in_app_or in Hin. destruct Hin as [Hin|Hin].
    + destruct H1; cbn [In] in Hin;
        try (repeat (destruct Hin as [Hin|Hin]; [try discriminate Hin; injection Hin as <- _; exists p; cbn [In]; auto|]); destruct Hin).
      elim (HO m). reflexivity.
    + destruct (I2 ps d Hin) as (p & -> & [Hp|Hp]); exists p; cbn [In]; auto.
Qed.
Print Assumptions C116_questions.

(** A key told a path from the listing asks the device at that path to sign, and never looks for
    others. *)
Theorem C116_listed_device : forall (S : Type) (Q : readers S) (T : tokens S) (F : features) (C : crypto) (k : privkey) (h : hw_priv) (app : bytes) (m : bytes) (s : S) found l x s1,
  f_fido F = Ctap2Hid -> same_devices Q T -> hardware k h -> key_application k app ->
  q_devices Q s = (found, s1) -> list_fido_devices Q F s = Some (l, s1) -> In x l ->
  In (mkInfo (HPath (fd_path x)) (fd_product x)) found
  /\ exists d answers, device_requests Q T F C [DList; DToken (TPath (fd_path x)); DToken (TSign m)] k s
       = QFind found :: map QToken (ROpen [HPath (fd_path x)] d :: answers)
     /\ d = fst (q_open Q [HPath (fd_path x)] s1)
     /\ match d with
        | None => answers = []
        | Some d => exists r, answers = [RAssert d (mkAssertArgs app m (hw_handle h) (hw_pin h)) r]
        end.
Proof.
  intros S Q T F C k h app m s found l x s1 EF [Hd Ho] Hh Ha Hq Hl Hx.
  unfold list_fido_devices in Hl. rewrite EF in Hl. unfold hid_list_fido_devices in Hl. rewrite Hq in Hl.
  assert (l = filter_map describe found) as -> by congruence. clear Hl. split.
  { clear -Hx. induction found as [|[[p|v q] name] found IH]; cbn [filter_map describe di_param di_product In] in *; [exact Hx| |auto].
    destruct Hx as [<-|Hx]; auto. }
  clear Hx. set (p := fd_path x).
  apply hw_of_iff in Hh. destruct (set_path_hw k h p Hh) as (Hpub & h' & Hh' & Hs).
  apply application_app in Ha.
  unfold device_requests. cbn [map unrecorded_op device_session device_step]. unfold list_fido_devices, token_sign. rewrite EF.
  unfold hid_list_fido_devices. cbn [recorded_readers q_devices fst snd]. rewrite Hq. cbn [List.app].
  unfold hid_token_sign. rewrite Hh', Hpub, Ha.
  destruct Hs as (-> & -> & ->). cbn [recorded_tokens t_open t_assert fst snd]. rewrite Ho.
  destruct (q_open Q [HPath p] s1) as [[d|] s2] eqn:E; cbn [fst snd].
  - destruct (t_assert T d (mkAssertArgs app m (hw_handle h) (hw_pin h)) s2) as [r s3] eqn:Er. exists (Some d).
    eexists. split; [|split; [reflexivity|exists r; reflexivity]].
    destruct r as [l|]; [destruct (pop l)|]; reflexivity.
  - exists None, []. split; [reflexivity|auto].
Qed.
Print Assumptions C116_listed_device.

(** The build on the authenticator crate lists nothing and knows nothing, and asks nothing. *)
Theorem C116_mozilla : forall (S : Type) (Q : readers S) (T : tokens S) (F : features) (C : crypto) (o : device_op) (k : privkey) (s : S),
  f_fido F = Mozilla -> (forall t, o <> DToken t) ->
  device_requests Q T F C [o] k s = [] /\ exists a, device_session Q T F C [o] k s = ([a], k, s) /\ moz_answer o a.
Proof.
  intros S Q T F C o k s EF HN. destruct (step_recorded Q T F C o k s) as (qs & H & _ & HM & _).
  destruct (HM EF) as [(t & ->)|(-> & HA & Hs)]; [elim (HN t); reflexivity|].
  assert (K : snd (fst (device_step Q T F C o k s)) = k).
  { destruct o as [|p|p|t]; cbn [device_step]; unfold list_fido_devices, device_requires_pin, device_pin_retries; try rewrite EF; try reflexivity.
    elim (HN t). reflexivity. }
  unfold device_requests. cbn [map device_session]. rewrite H.
  destruct (device_step Q T F C o k s) as [[a k1] s1]. cbn [fst snd List.app] in *. subst. split; [reflexivity|]. exists a. auto.
Qed.
Print Assumptions C116_mozilla.

(** "All devices signing can use are listed": not one that is found by vendor and product. *)
Definition by_number : readers N :=
  mkReaders (fun s => ([mkInfo (HVidPid 1 1) (s2b "Token")], s)) (fun ps s => (Some 0%N, s)) (fun d s => (Some None, s)) (fun d s => (Some 8%Z, s)).
Theorem C116_all_listed_refuted : exists (Q : readers N) (T : tokens N) F C k s m b,
  same_devices Q T /\ f_fido F = Ctap2Hid
  /\ list_fido_devices Q F s = Some ([], s) /\ device_answers_of Q T F C [DList; DToken (TSign m)] k s = [AList []; ASigned (Ok (Some b))].
Proof.
  exists by_number, counting_token, hid_features, toy_crypto, (set_pin (s2b "1234") ex_hw), 6%N, (s2b "m"). eexists.
  split; [split; reflexivity|]. split; [reflexivity|]. split; [reflexivity|]. vm_compute. reflexivity.
Qed.
Print Assumptions C116_all_listed_refuted.

(** Three devices, one without path; one path leads nowhere. *)
Definition desk : readers N :=
  mkReaders (fun s => ([mkInfo (HPath (s2b "/dev/a")) (s2b "A"); mkInfo (HVidPid 1 2) (s2b "B"); mkInfo (HPath (s2b "/dev/c")) (s2b "C")], s))
    (fun ps s => (match ps with HPath p :: _ => if bytes_eqb p (s2b "/dev/a") then Some 1%N else None | HVidPid _ d :: _ => Some d | [] => None end, s))
    (fun d s => (Some (if (d =? 1)%N then Some true else None), s)) (fun d s => (Some 8%Z, s)).
Definition desk_tokens : tokens N :=
  mkTokens (fun s => (map di_param (fst (q_devices desk s)), s)) (q_open desk)
    (fun d a s => (Some [mkAssertion (repeat x11 64) x01 s], s + 1)%N) (fun s => (true, s)) (fun a s => (NoAnswer, s)).
Example C116_case : exists h b, same_devices desk desk_tokens /\ hardware ex_hw h /\ key_application ex_hw (s2b "ssh:")
  /\ let ops := [DList; DNeedsPin (s2b "/dev/a"); DRetries (s2b "/dev/a"); DNeedsPin (s2b "/dev/c"); DToken (TPath (s2b "/dev/a")); DToken (TSign (s2b "m"))] in
     device_answers_of desk desk_tokens hid_features toy_crypto ops ex_hw 7%N
       = [AList [mkDescriptor (s2b "A") (s2b "/dev/a"); mkDescriptor (s2b "C") (s2b "/dev/c")]; ANeedsPin (Ok true); ARetries (Ok 8%Z);
          ANeedsPin (Err unknown_error); ANone; ASigned (Ok (Some b))]
  /\ device_requests desk desk_tokens hid_features toy_crypto ops ex_hw 7%N
       = [QFind (fst (q_devices desk 7%N)); QOpen [HPath (s2b "/dev/a")] (Some 1%N); QPin 1 (Some (Some true));
          QOpen [HPath (s2b "/dev/a")] (Some 1%N); QRetries 1 (Some 8%Z); QOpen [HPath (s2b "/dev/c")] None;
          QToken (ROpen [HPath (s2b "/dev/a")] (Some 1%N));
          QToken (RAssert 1 (mkAssertArgs (s2b "ssh:") (s2b "m") (hw_handle h) None) (Some [mkAssertion (repeat x11 64) x01 7]))].
Proof.
  exists (mkHw x01 (repeat x44 16) [] None None). eexists. split; [split; reflexivity|]. split; [right; reflexivity|].
  split; [exists (mkCurve Nistp256 []); eexists; right; reflexivity|]. split; vm_compute; reflexivity.
Qed.

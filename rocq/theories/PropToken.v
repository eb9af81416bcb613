(** Property C112: what hardware tokens are asked in a session. *)
From Coq Require Import Sorted.
From Verif Require Import Base BaseFacts Utf8 Utf8Facts Str StrFacts SpecWire SpecKeys SpecSig SpecPrivKey SpecSign Reader ReaderFacts
  KeyType KeyTypeFacts PubKeyType Writer WriterFacts WireFacts Crypto PubKey PubKeyFacts Signature SignatureFacts TbsFacts Utils UtilsFacts
  PropSignature PrivKey PrivKeyFacts PropPrivKey PropSign Token SpecToken.

(** ** C112 *)
Lemma pop_snoc {A} (l : list A) a : pop l = Some a -> exists l', l = l' ++ [a].
Proof.
  induction l as [|x l IH]; [discriminate|]. destruct l as [|y l].
  - cbn. intros [= <-]. exists []. reflexivity.
  - intros H. destruct (IH H) as (l' & E). exists (x :: l'). rewrite E. reflexivity.
Qed.
Lemma pop_none {A} (l : list A) : pop l = None -> l = [].
Proof. induction l as [|x l IH]; [auto|]. destruct l as [|y l]; [discriminate|]. intros H. apply IH in H. discriminate. Qed.


Lemma bind_noerr {A B} (x : res A) (f : A -> res B) : (forall e, x <> Err e) -> (forall a e, f a <> Err e) -> forall e, bind x f <> Err e.
Proof. intros H1 H2 e. destruct x; cbn [bind]; [apply H2|exfalso; eapply H1; reflexivity|discriminate]. Qed.
Lemma index_noerr (l : bytes) i e : index l i <> Err e.
Proof. unfold index. destruct (nth_error l i); discriminate. Qed.
Lemma slice_from_noerr (l : bytes) i e : slice_from l i <> Err e.
Proof. unfold slice_from. destruct (_ <=? _); discriminate. Qed.
Lemma slice_to_noerr (l : bytes) i e : slice_to l i <> Err e.
Proof. unfold slice_to. destruct (_ <=? _); discriminate. Qed.
Lemma asn_noerr buf e : asn_der_to_r_s buf <> Err e.
Proof.
  unfold asn_der_to_r_s. revert e.
  repeat first [ intros ? ; discriminate
               | apply bind_noerr; [intros; first [apply index_noerr|apply slice_from_noerr|apply slice_to_noerr]|intros ?]
               | match goal with |- forall e, (if ?b then _ else _) <> _ => destruct b end
               | progress cbv zeta ].
Qed.
Lemma format_no_err pk s e : format_signature_for_ssh pk s <> Err e.
Proof.
  unfold format_signature_for_ssh. destruct (pk_kind pk); try discriminate. revert e. apply bind_noerr.
  - unfold signature_convert_asn1_ecdsa_to_ssh. apply bind_noerr; [apply asn_noerr|]. intros [[r t]|] e; discriminate.
  - intros [x|] e; discriminate.
Qed.
Lemma blob_made pub a : made_from a (hw_blob pub a).
Proof.
  unfold hw_blob, made_from. destruct (format_signature_for_ssh pub (as_signature a)) as [[f|]|e|] eqn:E; cbn [bind].
  - right. exists f. rewrite <- app_assoc, be32_to_be. reflexivity.
  - left. reflexivity.
  - exfalso. eapply format_no_err, E.
  - exfalso. eapply format_total, E.
Qed.

(** One exchange, recorded. *)
Lemma hw_of_iff k h : hw_of k = Some h <-> hardware k h.
Proof.
  unfold hw_of, hardware. destruct (sk_kind k); split; try discriminate; try (intros [E|E]; discriminate E).
  all: intros E; first [injection E as <-; auto|destruct E as [E|E]; try discriminate E; injection E as <-; reflexivity].
Qed.
Lemma application_app k app : key_application k app <-> pub_app (sk_pub k) = Some (Some app).
Proof.
  unfold key_application, pub_app. split.
  - intros (c & key & [->| ->]); reflexivity.
  - destruct (pk_kind (sk_pub k)) as [e n|c key o|key o]; [discriminate|intros [= ->]; exists c, key; auto|intros [= ->]; exists (mkCurve Nistp256 []), key; auto].
Qed.

Definition tells {S} (F : features) (C : crypto) (T : tokens S) k m s q : Prop :=
  forall log, token_sign (recorded T) F C k m (s, log)
    = (fst (token_sign T F C k m s), (snd (token_sign T F C k m s), log ++ q)).

Lemma hid_tells {S} (T : tokens S) F C k h app m s : f_fido F = Ctap2Hid -> hw_of k = Some h -> pub_app (sk_pub k) = Some (Some app) ->
  exists q, tells F C T k m s q
    /\ hid_exchange app (hw_handle h) (hw_pin h) (hw_device_path h) m q (fst (token_sign T F C k m s)).
Proof.
  intros HF Hh Ha. unfold tells, token_sign. rewrite HF. unfold hid_token_sign. rewrite Hh, Ha.
  cbn [recorded t_devices t_open t_assert].
  assert (X : exists before params s1,
    (forall log, match hw_device_path h with Some path => ([HPath path], (s, log))
       | None => let '(x, s0) := t_devices T (fst (s, log)) in (x, (s0, snd (s, log) ++ [RDevices x])) end = (params, (s1, log ++ before)))
    /\ match hw_device_path h with Some path => ([HPath path], s) | None => t_devices T s end = (params, s1)
    /\ ((exists p, hw_device_path h = Some p /\ before = [] /\ params = [HPath p])
     \/ (hw_device_path h = None /\ before = [RDevices params]))).
  { destruct (hw_device_path h) as [p|].
    - exists [], [HPath p], s. split; [intros log; rewrite app_nil_r; reflexivity|]. split; [reflexivity|]. left. eauto.
    - destruct (t_devices T s) as [ps s1] eqn:E. exists [RDevices ps], ps, s1. cbn [fst snd]. rewrite E. auto. }
  destruct X as (before & params & s1 & X1 & X2 & X3). rewrite X2.
  assert (Y : exists tail r s2, 
    (forall log, match (let '(x, s0) := t_open T params (fst (s1, log)) in (x, (s0, snd (s1, log) ++ [ROpen params x]))) with
      | (None, s0) => (Ok None, s0)
      | (Some device, s0) =>
          match (let '(x, s3) := t_assert T device (mkAssertArgs app m (hw_handle h) (hw_pin h)) (fst s0) in (x, (s3, snd s0 ++ [RAssert device (mkAssertArgs app m (hw_handle h) (hw_pin h)) x]))) with
          | (None, s2) => (Ok None, s2)
          | (Some l, s2) => match pop l with Some a => (hw_blob (sk_pub k) a, s2) | None => (Ok None, s2) end
          end
      end = (r, (s2, log ++ tail)))
    /\ match t_open T params s1 with
             | (None, s0) => (Ok None, s0)
             | (Some device, s0) =>
                match t_assert T device (mkAssertArgs app m (hw_handle h) (hw_pin h)) s0 with
                | (None, s2) => (Ok None, s2)
                | (Some l, s2) => match pop l with Some a => (hw_blob (sk_pub k) a, s2) | None => (Ok None, s2) end
                end end = (r, s2)
    /\ ((tail = [ROpen params None] /\ r = Ok None)
     \/ exists d answer, tail = [ROpen params (Some d); RAssert d (mkAssertArgs app m (hw_handle h) (hw_pin h)) answer]
          /\ ((answer = None /\ r = Ok None) \/ (answer = Some [] /\ r = Ok None)
              \/ exists l a, answer = Some (l ++ [a]) /\ made_from a r))).
  { cbn [fst snd]. destruct (t_open T params s1) as [[d|] s2]; cbn [fst snd].
    - destruct (t_assert T d _ s2) as [[l|] s3]; cbn [fst snd].
      + destruct (pop l) as [a|] eqn:Ep.
        * exists [ROpen params (Some d); RAssert d (mkAssertArgs app m (hw_handle h) (hw_pin h)) (Some l)], (hw_blob (sk_pub k) a), s3.
          split; [intros log; rewrite <- app_assoc; reflexivity|]. split; [reflexivity|]. right. exists d, (Some l). split; [reflexivity|].
          right. right. apply pop_snoc in Ep. destruct Ep as (l' & ->). exists l', a. split; [reflexivity|apply blob_made].
        * exists [ROpen params (Some d); RAssert d (mkAssertArgs app m (hw_handle h) (hw_pin h)) (Some l)], (Ok None), s3.
          split; [intros log; rewrite <- app_assoc; reflexivity|]. split; [reflexivity|]. right. exists d, (Some l). split; [reflexivity|].
          right. left. apply pop_none in Ep. subst l. auto.
      + exists [ROpen params (Some d); RAssert d (mkAssertArgs app m (hw_handle h) (hw_pin h)) None], (Ok None), s3.
        split; [intros log; rewrite <- app_assoc; reflexivity|]. split; [reflexivity|]. right. exists d, None. auto.
    - exists [ROpen params None], (Ok None), s2. auto. }
  destruct Y as (tail & r & s2 & Y1 & Y2 & Y3).
  exists (before ++ tail). cbv beta iota. rewrite Y2. cbn [fst snd]. split.
  - intros log. rewrite X1. rewrite app_assoc. exact (Y1 (log ++ before)).
  - exact (HX app (hw_handle h) (hw_pin h) (hw_device_path h) m before params tail r X3 Y3).
Qed.

Lemma moz_tells {S} (T : tokens S) F C k h app m s : f_fido F = Mozilla -> hw_of k = Some h -> pub_app (sk_pub k) = Some (Some app) ->
  exists q, tells F C T k m s q /\ moz_exchange C app (hw_handle h) (hw_pin h) m q (fst (token_sign T F C k m s)).
Proof.
  intros HF Hh Ha. unfold tells, token_sign. rewrite HF. unfold moz_token_sign. rewrite Hh, Ha.
  cbn [recorded t_service t_sign fst snd].
  destruct (t_service T s) as [[] s1]; cbn [fst snd]; [|exists [RService false]; split; [reflexivity|constructor]].
  destruct (t_sign T _ s1) as [x s2].
  exists [RService true; RSign (mkSignArgs (c_sha256 C m) app (hw_handle h) (hw_pin h)) x]. split.
  - intros log. cbn [fst snd]. destruct x as [| |[a|]]; cbn [fst snd]; rewrite <- app_assoc; reflexivity.
  - constructor. destruct x as [| |[a|]]; cbn [fst]; eauto 6. right. right. eauto using blob_made.
Qed.

Lemma set_pin_hw k h p : hw_of k = Some h ->
  sk_pub (set_pin p k) = sk_pub k /\ exists h', hw_of (set_pin p k) = Some h' /\ hw_handle h' = hw_handle h /\ hw_pin h' = Some p /\ hw_device_path h' = hw_device_path h.
Proof. unfold hw_of, set_pin. destruct (sk_kind k); try discriminate; intros [= ->]; cbn; eauto 8. Qed.
Lemma set_path_hw k h p : hw_of k = Some h ->
  sk_pub (set_device_path p k) = sk_pub k /\ exists h', hw_of (set_device_path p k) = Some h' /\ hw_handle h' = hw_handle h /\ hw_pin h' = hw_pin h /\ hw_device_path h' = Some p.
Proof. unfold hw_of, set_device_path. destruct (sk_kind k); try discriminate; intros [= ->]; cbn; eauto 8. Qed.

Lemma session_tells {S} (T : tokens S) F C app handle exchange :
  (forall k h m s, hw_of k = Some h -> hw_handle h = handle -> pub_app (sk_pub k) = Some (Some app) ->
     exists q, tells F C T k m s q /\ exchange (hw_pin h) (hw_device_path h) m q (fst (token_sign T F C k m s))) ->
  forall ops k h s log, hw_of k = Some h -> hw_handle h = handle -> pub_app (sk_pub k) = Some (Some app) ->
  exists q, session (recorded T) F C (map unrecorded ops) k (s, log)
      = (fst (session T F C ops k s), (snd (session T F C ops k s), log ++ q))
    /\ session_asks exchange (hw_pin h) (hw_device_path h) ops q (results_of T F C ops k s).
Proof.
  intros HX ops. unfold results_of. induction ops as [|[m|p|p|f] ops IH]; intros k h s log Hh Hn Ha; cbn [map unrecorded session].
  - exists []. rewrite app_nil_r. split; [reflexivity|constructor].
  - destruct (HX k h m s Hh Hn Ha) as (q & E & Hq). rewrite (E log). destruct (token_sign T F C k m s) as [r s1]. cbn [fst snd] in *.
    destruct (IH k h s1 (log ++ q) Hh Hn Ha) as (qs & E2 & Hqs). rewrite E2. destruct (session T F C ops k s1) as [[rs k1] s2]. cbn [fst snd] in *.
    exists (q ++ qs). rewrite app_assoc. split; [reflexivity|constructor; assumption].
  - destruct (set_pin_hw k h p Hh) as (E1 & h' & E2 & E3 & E4 & E5).
    destruct (IH (set_pin p k) h' s log E2 (eq_trans E3 Hn) (eq_trans (f_equal pub_app E1) Ha)) as (q & Eq & Hq).
    rewrite Eq. exists q. split; [reflexivity|]. constructor. rewrite E4, E5 in Hq. exact Hq.
  - destruct (set_path_hw k h p Hh) as (E1 & h' & E2 & E3 & E4 & E5).
    destruct (IH (set_device_path p k) h' s log E2 (eq_trans E3 Hn) (eq_trans (f_equal pub_app E1) Ha)) as (q & Eq & Hq).
    rewrite Eq. exists q. split; [reflexivity|]. constructor. rewrite E4, E5 in Hq. exact Hq.
  - destruct (IH k h (f s) log Hh Hn Ha) as (q & Eq & Hq). cbn [fst snd]. rewrite Eq. exists q. split; [reflexivity|]. constructor. exact Hq.
Qed.

Theorem C112_hid_session : forall (S : Type) (T : tokens S) (F : features) (C : crypto) (ops : list token_op) (k : privkey) (h : hw_priv) (app : bytes) (s : S),
  f_fido F = Ctap2Hid -> hardware k h -> key_application k app ->
  session_asks (hid_exchange app (hw_handle h)) (hw_pin h) (hw_device_path h) ops
    (requests_of T F C ops k s) (results_of T F C ops k s).
Proof.
  intros S T F C ops k h app s HF Hh Ha. apply hw_of_iff in Hh. apply application_app in Ha.
  destruct (session_tells T F C app (hw_handle h) (hid_exchange app (hw_handle h))) with (ops := ops) (k := k) (h := h) (s := s) (log := @nil request)
    as (q & E & Hq); [|assumption|reflexivity|assumption|].
  - intros k' h' m s' H1 <- H3. apply hid_tells; assumption.
  - unfold requests_of. rewrite E. exact Hq.
Qed.
Print Assumptions C112_hid_session.

Theorem C112_mozilla_session : forall (S : Type) (T : tokens S) (F : features) (C : crypto) (ops : list token_op) (k : privkey) (h : hw_priv) (app : bytes) (s : S),
  f_fido F = Mozilla -> hardware k h -> key_application k app ->
  session_asks (fun pin _ => moz_exchange C app (hw_handle h) pin) (hw_pin h) (hw_device_path h) ops
    (requests_of T F C ops k s) (results_of T F C ops k s).
Proof.
  intros S T F C ops k h app s HF Hh Ha. apply hw_of_iff in Hh. apply application_app in Ha.
  destruct (session_tells T F C app (hw_handle h) (fun pin _ => moz_exchange C app (hw_handle h) pin)) with (ops := ops) (k := k) (h := h) (s := s) (log := @nil request)
    as (q & E & Hq); [|assumption|reflexivity|assumption|].
  - intros k' h' m s' H1 <- H3. apply moz_tells; assumption.
  - unfold requests_of. rewrite E. exact Hq.
Qed.
Print Assumptions C112_mozilla_session.


(** Without a backend nothing is asked. *)
Theorem C112_no_backend : forall (S : Type) (T : tokens S) (F : features) (C : crypto) (ops : list token_op) (k : privkey) (s : S),
  f_fido F = NoFido -> requests_of T F C ops k s = [] /\ Forall (fun r => r = Ok None) (results_of T F C ops k s).
Proof.
  intros S T F C ops k s HF. unfold requests_of, results_of.
  assert (X : forall ops k s, snd (snd (session (recorded T) F C (map unrecorded ops) k (s, []))) = []).
  { induction ops0 as [|[m|p|p|f] ops0 IH]; intros k0 s0; cbn [map unrecorded session]; try apply IH; [reflexivity|].
    unfold token_sign. rewrite HF. specialize (IH k0 s0). destruct (session (recorded T) F C _ _ _) as [[rs k1] [s1 l1]]. exact IH. }
  split; [apply X|]. revert k s. induction ops as [|[m|p|p|f] ops IH]; intros k s; cbn [session]; try apply IH; [constructor|].
  unfold token_sign. rewrite HF. specialize (IH k s). destruct (session T F C ops k s) as [[rs k1] s1]. constructor; [reflexivity|exact IH].
Qed.
Print Assumptions C112_no_backend.

Definition asks {S} (T : tokens S) F C k h app ops s : Prop :=
  f_fido F <> NoFido -> session_asks (fun pin path m q r => hid_exchange app (hw_handle h) pin path m q r \/ moz_exchange C app (hw_handle h) pin m q r)
    (hw_pin h) (hw_device_path h) ops (requests_of T F C ops k s) (results_of T F C ops k s).
Lemma session_asks_weaken {S} (e1 e2 : option bytes -> option bytes -> bytes -> list request -> res (option bytes) -> Prop) :
  (forall pin path m q r, e1 pin path m q r -> e2 pin path m q r) ->
  forall pin path (ops : list (@token_op S)) q r, session_asks e1 pin path ops q r -> session_asks e2 pin path ops q r.
Proof. intros H pin path ops q r. induction 1; constructor; auto. Qed.
Lemma both_ask {S} (T : tokens S) F C k h app ops s : hardware k h -> key_application k app -> asks T F C k h app ops s.
Proof.
  intros Hh Ha HF. destruct (f_fido F) eqn:E; [contradiction|..].
  - eapply session_asks_weaken; [|apply C112_hid_session; eassumption]. auto.
  - eapply session_asks_weaken; [|apply C112_mozilla_session; eassumption]. auto.
Qed.

Theorem C112_one_request : forall (S : Type) (T : tokens S) (F : features) (C : crypto) (ops : list token_op) (k : privkey) (h : hw_priv) (app : bytes) (s : S),
  hardware k h -> key_application k app ->
  length (filter asked_for_signature (requests_of T F C ops k s)) <= length (flat_map signs ops)
  /\ length (results_of T F C ops k s) = length (flat_map signs ops)
  /\ length (flat_map signed (results_of T F C ops k s)) <= length (filter asked_for_signature (requests_of T F C ops k s)).
Proof.
  intros S T F C ops k h app s Hh Ha.
  assert (L : forall ops k s, length (results_of T F C ops k s) = length (flat_map signs ops)).
  { unfold results_of. clear. induction ops as [|[m|p|p|f] ops IH]; intros k s; cbn [session flat_map signs List.app]; try apply IH; [reflexivity|].
    destruct (token_sign T F C k m s) as [r s1]. specialize (IH k s1). destruct (session T F C ops k s1) as [[rs k1] s2]. cbn [fst length] in *. lia. }
  destruct (f_fido F) eqn:E.
  { destruct (C112_no_backend S T F C ops k s E) as [E1 E2]. rewrite E1. cbn [filter length]. split; [lia|]. split; [apply L|].
    induction E2 as [|r rs -> _ IH]; cbn [flat_map signed List.app length]; lia. }
  all: split; [|split; [apply L|]].
  all: assert (A := both_ask T F C k h app ops s Hh Ha ltac:(congruence)); clear -A; induction A as [|pin path m ops q r qs rs Hx _ IH| | |];
    try assumption; cbn [flat_map signs signed filter List.app length]; try lia; rewrite filter_app, app_length.
  all: destruct Hx as [[before params tail r' Hb Ht]|[|x r' Hx]].
  all: try (cbn; lia).
  all: try rewrite filter_app; try rewrite app_length; try rewrite app_length.
  all: try (destruct Hb as [(p & _ & -> & ->)|(_ & ->)]; destruct Ht as [(-> & ->)|(d & ans & -> & Hans)]; cbn [filter asked_for_signature length signed]; try lia;
     destruct r' as [[bl|]|e|]; cbn [length signed]; lia).
  all: try (destruct r' as [[bl|]|e|]; cbn; lia).
Qed.
Print Assumptions C112_one_request.

Theorem C112_pins : forall (S : Type) (T : tokens S) (F : features) (C : crypto) (ops : list token_op) (k : privkey) (h : hw_priv) (app : bytes) (s : S) (q : request) (pin : bytes),
  hardware k h -> key_application k app ->
  In q (requests_of T F C ops k s) -> pin_in q = Some pin ->
  hw_pin h = Some pin \/ In pin (flat_map pins_set ops).
Proof.
  intros S T F C ops k h app s q pin Hh Ha Hq Hp. destruct (f_fido F) eqn:E.
  { destruct (C112_no_backend S T F C ops k s E) as [E1 _]. rewrite E1 in Hq. contradiction. }
  all: assert (A := both_ask T F C k h app ops s Hh Ha ltac:(congruence)); clear -A Hq Hp;
    induction A as [|pin0 path m ops q0 r qs rs Hx _ IH|pin0 path p ops qs rs _ IH| |]; cbn [flat_map pins_set List.app In]; auto; try contradiction.
  all: try (apply IH in Hq; destruct Hq as [[= ->]|Hq]; auto).
  all: apply in_app_or in Hq; destruct Hq as [Hq|Hq]; [|apply IH, Hq].
  all: left; revert Hq; destruct Hx as [[before params tail r' Hb Ht]|[|x r' Hx]]; intros Hq.
  all: try (apply in_app_or in Hq; destruct Hq as [Hq|Hq];
     [destruct Hb as [(p & _ & -> & _)|(_ & ->)]; [contradiction|destruct Hq as [<-|[]]; discriminate]|
      destruct Ht as [(-> & _)|(d & ans & -> & _)]; [destruct Hq as [<-|[]]; discriminate|destruct Hq as [<-|[<-|[]]]; [discriminate|exact Hp]]]).
  all: try (destruct Hq as [<-|[]]; discriminate).
  all: destruct Hq as [<-|[<-|[]]]; [discriminate|exact Hp].
Qed.
Print Assumptions C112_pins.

(** ** Counters *)
Lemma token_counter {S} (T : tokens S) F C count k m s : counting_up T count ->
  (count s <= count (snd (token_sign T F C k m s)))%N
  /\ forall b, fst (token_sign T F C k m s) = Ok (Some b) ->
       exists n, ends_in_counter b n /\ (count s < n <= count (snd (token_sign T F C k m s)))%N.
Proof.
  intros (H1 & H2 & H3 & H4 & H5). 
  assert (B : forall pub a b, hw_blob pub a = Ok (Some b) -> (as_counter a <= u32_max)%N -> ends_in_counter b (as_counter a)).
  { intros pub a b Hb Hc. destruct (blob_made pub a) as [E|(f & E)]; rewrite Hb in E; [discriminate|]. apply ok_inj in E. injection E as ->.
    exists (f ++ [as_flags a]). rewrite <- app_assoc. auto. }
  unfold token_sign. destruct (f_fido F).
  - split; [cbn [snd]; lia|discriminate].
  - unfold hid_token_sign. destruct (hw_of k) as [h|]; [|split; [cbn [snd]; lia|discriminate]].
    destruct (pub_app (sk_pub k)) as [[app|]|]; try (split; [cbn [snd]; lia|discriminate]).
    assert (X : exists params s1, match hw_device_path h with Some path => ([HPath path], s) | None => t_devices T s end = (params, s1) /\ (count s <= count s1)%N).
    { destruct (hw_device_path h) as [p|]; [eexists _, _; split; [reflexivity|lia]|]. specialize (H1 s). destruct (t_devices T s) as [ps s1]. cbn [snd] in H1. eauto. }
    destruct X as (params & s1 & -> & L1). specialize (H2 params s1). destruct (t_open T params s1) as [[d|] s2]; cbn [snd] in H2; [|split; [cbn [snd]; lia|discriminate]].
    destruct (H4 d (mkAssertArgs app m (hw_handle h) (hw_pin h)) s2) as [L2 L3].
    destruct (t_assert T d _ s2) as [[l|] s3]; cbn [fst snd] in *; [|split; [cbn [snd]; lia|discriminate]].
    destruct (pop l) as [a|] eqn:Ep; [|split; [cbn [snd]; lia|discriminate]]. cbn [fst snd].
    apply pop_snoc in Ep. destruct Ep as (l' & ->). destruct (L3 l' a eq_refl) as [L4 L5].
    split; [lia|]. intros b Hb. exists (as_counter a). split; [eapply B; eassumption|lia].
  - unfold moz_token_sign. destruct (hw_of k) as [h|]; [|split; [cbn [snd]; lia|discriminate]].
    destruct (pub_app (sk_pub k)) as [[app|]|]; try (split; [cbn [snd]; lia|discriminate]).
    specialize (H3 s). destruct (t_service T s) as [[] s1]; cbn [snd] in H3; [|split; [cbn [snd]; lia|discriminate]].
    destruct (H5 (mkSignArgs (c_sha256 C m) app (hw_handle h) (hw_pin h)) s1) as [L2 L3].
    destruct (t_sign T _ s1) as [[| |[a|]] s2]; cbn [fst snd] in *; try (split; [cbn [snd]; lia|discriminate]).
    destruct (L3 a eq_refl) as [L4 L5]. split; [lia|]. intros b Hb. exists (as_counter a). split; [eapply B; eassumption|lia].
Qed.

Lemma session_counters {S} (T : tokens S) F C count : counting_up T count -> forall ops k s, others_count_up count ops ->
  exists ns, Forall2 ends_in_counter (flat_map signed (results_of T F C ops k s)) ns
    /\ StronglySorted N.lt ns /\ Forall (fun n => (count s < n)%N) ns.
Proof.
  intros Hc. unfold results_of. induction ops as [|[m|p|p|f] ops IH]; intros k s Ho; cbn [session].
  - exists []. repeat constructor.
  - assert (Ho' : others_count_up count ops) by (intros g Hg; apply Ho; right; exact Hg).
    destruct (token_counter T F C count k m s Hc) as [L1 L2]. destruct (token_sign T F C k m s) as [r s1]. cbn [fst snd] in *.
    destruct (IH k s1 Ho') as (ns & N1 & N2 & N3). destruct (session T F C ops k s1) as [[rs k1] s2]. cbn [fst flat_map] in *.
    assert (N4 : Forall (fun n => (count s < n)%N) ns) by (eapply Forall_impl; [|exact N3]; cbn; lia).
    destruct r as [[b|]|e|]; try (exists ns; auto; fail).
    destruct (L2 b eq_refl) as (n & E1 & E2). exists (n :: ns). split; [constructor; assumption|]. split.
    + constructor; [exact N2|]. eapply Forall_impl; [|exact N3]. cbn. lia.
    + constructor; [lia|exact N4].
  - apply IH. intros g Hg. apply Ho. right. exact Hg.
  - apply IH. intros g Hg. apply Ho. right. exact Hg.
  - assert (Ho' : others_count_up count ops) by (intros g Hg; apply Ho; right; exact Hg).
    destruct (IH k (f s) Ho') as (ns & N1 & N2 & N3). exists ns. split; [exact N1|]. split; [exact N2|].
    pose proof (Ho f (or_introl eq_refl) s). eapply Forall_impl; [|exact N3]. cbn. lia.
Qed.

Lemma counter_unique b n1 n2 : ends_in_counter b n1 -> ends_in_counter b n2 -> n1 = n2.
Proof.
  intros (f1 & E1 & B1) (f2 & E2 & B2). assert (E : f1 ++ be32 n1 = f2 ++ be32 n2) by congruence.
  assert (L : length f1 = length f2).
  { apply (f_equal (@length byte)) in E. rewrite !app_length in E. rewrite !be32_to_be, !to_be_length in E. lia. }
  assert (E' : be32 n1 = be32 n2).
  { apply (f_equal (skipn (length f1))) in E. rewrite L in E at 2. rewrite !skipn_app, !skipn_all, !Nat.sub_diag in E. exact E. }
  rewrite !be32_to_be in E'. unfold u32_max in *. apply to_be_inj in E'; [exact E'|change (256 ^ N.of_nat 4)%N with 4294967296%N; lia..].
Qed.

Theorem C112_counters : forall (S : Type) (T : tokens S) (F : features) (C : crypto) (count : S -> N) (ops : list token_op) (k : privkey) (s : S),
  counting_up T count -> others_count_up count ops ->
  NoDup (flat_map signed (results_of T F C ops k s))
  /\ exists ns, Forall2 ends_in_counter (flat_map signed (results_of T F C ops k s)) ns /\ StronglySorted N.lt ns.
Proof.
  intros S T F C count ops k s Hc Ho. destruct (session_counters T F C count Hc ops k s Ho) as (ns & N1 & N2 & _).
  split; [|eauto]. induction N1 as [|b n bs ns Hb Hbs IH]; constructor.
  - inversion N2 as [|? ? Hs Hf]; subst. intros Hin. clear -Hb Hbs Hf Hin.
    induction Hbs as [|b' n' bs ns Hb' _ IH]; [contradiction|]. inversion Hf as [|? ? H1 H2]; subst. destruct Hin as [->|Hin]; [|auto].
    pose proof (counter_unique _ _ _ Hb Hb'). lia.
  - apply IH. inversion N2; assumption.
Qed.
Print Assumptions C112_counters.

(** ** The exchanges are those of [PrivKey.v] *)
Definition ops_at {S} (T : tokens S) (s : S) : keyops :=
  mkKeyops (fun _ _ _ => None) (fun _ _ _ => None) (fun _ _ => None) (fun _ _ _ _ => None) (fun _ _ _ => None) (fun s => s)
    (fun app ch handle pin path =>
       let '(params, s) := match path with Some p => ([HPath p], s) | None => t_devices T s end in
       match t_open T params s with
       | (None, _) => None
       | (Some d, s) => match fst (t_assert T d (mkAssertArgs app ch handle pin) s) with Some l => pop l | None => None end
       end)
    (fun app digest handle pin =>
       match t_service T s with
       | (false, _) => Ok None
       | (true, s) => match fst (t_sign T (mkSignArgs digest app handle pin) s) with Answered r => Ok r | _ => Panic end
       end).
Lemma ops_at_sign {S} (T : tokens S) F C s k h m : hardware k h -> sk_sign F C (ops_at T s) k m = fst (token_sign T F C k m s).
Proof.
  intros Hh. assert (E : sk_sign F C (ops_at T s) k m = hw_sign F C (ops_at T s) k h m) by (unfold sk_sign; destruct Hh as [-> | ->]; reflexivity).
  rewrite E. apply hw_of_iff in Hh. unfold hw_sign, token_sign. destruct (f_fido F); [reflexivity|..].
  - unfold hid_sign, hid_token_sign. rewrite Hh. destruct (pub_app (sk_pub k)) as [[app|]|]; try reflexivity. cbn [ops_at k_hid].
    destruct (match hw_device_path h with Some _ => _ | None => _ end) as [params s1].
    destruct (t_open T params s1) as [[d|] s2]; [|reflexivity]. destruct (t_assert T d _ s2) as [[l|] s3]; [|reflexivity]. cbn [fst].
    destruct (pop l); reflexivity.
  - unfold moz_sign, moz_token_sign. rewrite Hh. destruct (pub_app (sk_pub k)) as [[app|]|]; try reflexivity. cbn [unwrap bind ops_at k_moz].
    destruct (t_service T s) as [[] s1]; [|reflexivity]. destruct (t_sign T _ s1) as [[| |[a|]] s2]; reflexivity.
Qed.
Theorem C112_same_signatures : forall (S : Type) (T : tokens S) (F : features) (C : crypto) (s : S),
  exists K, forall k h m, hardware k h -> sk_sign F C K k m = fst (token_sign T F C k m s).
Proof. intros S T F C s. exists (ops_at T s). intros k h m. apply ops_at_sign. Qed.
Print Assumptions C112_same_signatures.

Lemma ops_at_signs {S} (T : tokens S) C s pub handle : tokens_sign T C pub handle -> device_signs C (ops_at T s) pub handle.
Proof.
  intros [H1 H2]. split; cbn [ops_at k_hid k_moz].
  - intros app ch pin path a. destruct (match path with Some _ => _ | None => _ end) as [params s1].
    destruct (t_open T params s1) as [[d|] s2]; [|discriminate]. destruct (fst (t_assert T d _ s2)) as [l|] eqn:E; [|discriminate].
    intros Hp. apply pop_snoc in Hp. destruct Hp as (l' & ->). eapply H1, E.
  - intros app digest pin a. destruct (t_service T s) as [[] s1]; [|discriminate].
    destruct (fst (t_sign T _ s1)) as [| |r] eqn:E; try discriminate. intros Hr. apply ok_inj in Hr. subst r. eapply H2, E.
Qed.

Theorem C112_signatures_verify : forall (S : Type) (T : tokens S) (F : features) (C : crypto) (ops : list token_op) (k : privkey) (h : hw_priv) (b : bytes) (s : S),
  priv_data F k b -> hardware k h -> name_fits (sk_pub k) -> tokens_sign T C (sk_pub k) (hw_handle h) ->
  Forall2 (fun m r => forall blob, r = Ok (Some blob) -> verify_signature C blob m (sk_pub k) = Ok blob)
    (flat_map signs ops) (results_of T F C ops k s).
Proof.
  intros S T F C ops k h b s Hp Hh Hn Ht.
  assert (X : forall k' s, configured k k' -> Forall2 (fun m r => forall blob, r = Ok (Some blob) -> verify_signature C blob m (sk_pub k) = Ok blob)
    (flat_map signs ops) (results_of T F C ops k' s)); [|apply X, CfgSame].
  unfold results_of. induction ops as [|[m|p|p|f] ops IH]; intros k' s' Hc; cbn [session flat_map signs List.app].
  - constructor.
  - destruct (token_sign T F C k' m s') as [r s1] eqn:E. specialize (IH k' s1 Hc). destruct (session T F C ops k' s1) as [[rs k1] s2].
    constructor; [|exact IH]. intros blob ->.
    assert (Hh' : exists h', hardware k' h').
    { clear -Hc Hh. apply hw_of_iff in Hh. induction Hc as [|pin k' _ (h' & IH)|path k' _ (h' & IH)].
      - exists h. apply hw_of_iff, Hh.
      - apply hw_of_iff in IH. destruct (set_pin_hw k' h' pin IH) as (_ & h2 & E & _). exists h2. apply hw_of_iff, E.
      - apply hw_of_iff in IH. destruct (set_path_hw k' h' path IH) as (_ & h2 & E & _). exists h2. apply hw_of_iff, E. }
    destruct Hh' as (h' & Hh'). eapply (C75_signatures_verify F C (ops_at T s') k k' b m blob Hp Hc Hn).
    + repeat split; cbn [ops_at k_ed25519_sign k_ecdsa_sign k_rsa_sign] in *; discriminate.
    + intros h2 Hh2. replace h2 with h; [apply ops_at_signs, Ht|]. apply hw_of_iff in Hh, Hh2. congruence.
    + rewrite (ops_at_sign T F C s' k' h' m Hh'), E. reflexivity.
  - apply IH, CfgPin, Hc.
  - apply IH, CfgPath, Hc.
  - apply IH, Hc.
Qed.
Print Assumptions C112_signatures_verify.

(** Two tokens; the first that opens is asked, with the PIN, though only the other has the
    credential. *)
Definition two_tokens : tokens N :=
  mkTokens (fun s => ([HVidPid 1 1; HVidPid 1 2], s))
    (fun ps s => (match ps with HVidPid _ d :: _ => Some d | HPath _ :: _ => Some 2%N | [] => None end, s))
    (fun d a s => match d with
                  | 2%N => (Some [mkAssertion (repeat x11 64) x01 (N.min (s + 1) 4294967295)], N.min (s + 1) 4294967295)
                  | _ => (None, s)
                  end)
    (fun s => (true, s))
    (fun a s => (NoAnswer, s)).
Theorem C112_pin_only_to_holder_refuted : exists (T : tokens N) (holds : N -> bytes -> bool) F C ops k s d args answer pin,
  (forall d args s, holds d (aa_credential args) = false -> fst (t_assert T d args s) = None)
  /\ In (RAssert d args answer) (requests_of T F C ops k s) /\ aa_pin args = Some pin
  /\ holds d (aa_credential args) = false /\ holds 2%N (aa_credential args) = true.
Proof.
  exists two_tokens, (fun d _ => (d =? 2)%N), hid_features, toy_crypto, [TPin (s2b "1234"); TSign (s2b "m")], ex_hw, 0%N, 1%N.
  eexists _, _, _. split; [|split; [vm_compute; right; right; left; reflexivity|split; [reflexivity|split; reflexivity]]].
  intros d args s H. cbn [two_tokens t_assert]. destruct d as [|[p|[p|p|]|]]; try reflexivity. discriminate H.
Qed.
Print Assumptions C112_pin_only_to_holder_refuted.

Theorem C112_mozilla_no_panic_refuted : exists (T : tokens N) F C ops k h b s,
  priv_data F k b /\ hardware k h /\ f_fido F = Mozilla /\ In Panic (results_of T F C ops k s).
Proof.
  exists two_tokens, (mkFeatures true true Mozilla), toy_crypto, [TSign (s2b "m")], ex_hw. eexists _, _, 0%N.
  split; [apply storable_data|].
  - apply enc_storable; [|repeat split; small|reflexivity|vm_compute; lia|vm_compute; lia].
    split; [unfold known, key_types; cbn [In]; tauto|]. split; [right; right; reflexivity|]. repeat split; small.
  - split; [right; reflexivity|]. split; [reflexivity|]. vm_compute. auto.
Qed.
Print Assumptions C112_mozilla_no_panic_refuted.

(** A token that counts: no answer without a PIN, two signatures of the same message after it,
    other use in between. *)
Definition counting_token : tokens N :=
  mkTokens (fun s => ([HVidPid 1 1], s)) (fun ps s => (Some 0%N, s))
    (fun d a s => match aa_pin a with
                  | Some _ => if (s <? 4294967295)%N then (Some [mkAssertion (repeat x11 64) x01 (s + 1)], s + 1)%N else (None, s)
                  | None => (None, s)
                  end)
    (fun s => (false, s)) (fun a s => (NotStarted, s)).
Definition ex_session : list (@token_op N) :=
  [TSign (s2b "m"); TPin (s2b "1234"); TSign (s2b "m"); TOther (fun s => s + 3)%N; TPath (s2b "/dev/x"); TSign (s2b "m")].
Example C112_case : exists h, hardware ex_hw h /\ key_application ex_hw (s2b "ssh:") /\ priv_data hid_features ex_hw (enc_priv ex_hw)
  /\ name_fits (sk_pub ex_hw) /\ tokens_sign counting_token toy_crypto (sk_pub ex_hw) (hw_handle h)
  /\ counting_up counting_token (fun s => s) /\ others_count_up (fun s => s) ex_session
  /\ let sig n := field (s2b "sk-ssh-ed25519@openssh.com") ++ field (repeat x11 64) ++ [x01] ++ be32 n in
     results_of counting_token hid_features toy_crypto ex_session ex_hw 6%N = [Ok None; Ok (Some (sig 7%N)); Ok (Some (sig 11%N))]
  /\ let args pin := mkAssertArgs (s2b "ssh:") (s2b "m") (hw_handle h) pin in
     let answer n := Some [mkAssertion (repeat x11 64) x01 n] in
     requests_of counting_token hid_features toy_crypto ex_session ex_hw 6%N =
       [RDevices [HVidPid 1 1]; ROpen [HVidPid 1 1] (Some 0%N); RAssert 0 (args None) None;
        RDevices [HVidPid 1 1]; ROpen [HVidPid 1 1] (Some 0%N); RAssert 0 (args (Some (s2b "1234"))) (answer 7%N);
        ROpen [HPath (s2b "/dev/x")] (Some 0%N); RAssert 0 (args (Some (s2b "1234"))) (answer 11%N)].
Proof.
  exists (mkHw x01 (repeat x44 16) [] None None). split; [right; reflexivity|].
  split; [exists (mkCurve Nistp256 []); eexists; right; reflexivity|].
  split; [apply storable_data, ex_hw_storable_hid|]. split; [reflexivity|].
  assert (A : forall d a s l x, fst (t_assert counting_token d a s) = Some (l ++ [x]) -> (s < 4294967295)%N /\ x = mkAssertion (repeat x11 64) x01 (s + 1)).
  { intros d a s l x. cbn [counting_token t_assert]. destruct (aa_pin a); [|discriminate]. destruct (N.ltb_spec s 4294967295); [|discriminate].
    cbn [fst]. intros [= H1]. destruct l as [|y [|z l]]; cbn in H1; try discriminate. injection H1 as <-. auto. }
  split.
  { split; [|discriminate]. intros d app m pin s l a H. apply A in H. destruct H as [H ->]. split; [cbn; unfold u32_max; lia|].
    split; [unfold field_ok, size, u32_max; vm_compute; discriminate|reflexivity]. }
  split.
  { split; [cbn; lia|]. split; [cbn; lia|]. split; [cbn; lia|]. split; [|split; [cbn; lia|discriminate]].
    intros d a s. split.
    - cbn [counting_token t_assert]. destruct (aa_pin a); [|cbn; lia]. destruct (_ <? _)%N; cbn [snd]; lia.
    - intros l x H. assert (H' := H). apply A in H'. destruct H' as [H1 ->]. cbn [as_counter]. unfold u32_max. revert H. cbn [counting_token t_assert].
      destruct (aa_pin a); [|discriminate]. destruct (N.ltb_spec s 4294967295); [|lia]. cbn [snd]. lia. }
  split; [intros f [H|[H|[H|[H|[H|[H|[]]]]]]]; try discriminate H; injection H as <-; cbn; lia|].
  split; vm_compute; reflexivity.
Qed.

(** Properties C95-C98 (programs that use a YubiKey). *)
From Coq Require Import Lia.
From Verif Require Import Base BaseFacts SpecWire SpecKeys SpecSig SpecSign KeyType KeyTypeFacts PubKeyType Crypto Signature PropSignature
  Utils X509 SpecX509 PropX509 PropSign SpecPiv SpecPivCalls Piv PivCalls PropPiv.

(** ** The operations each method performs *)
Section Does.
Context {H S : Type} (D : yubikey H S) (R : rcgen) (X : x509) (C : crypto).
Definition does {A} (m : Y S A) (L : list (device_op H) -> Prop) : Prop :=
  forall s, exists os, L os /\ snd (m s) = effects D os s.
Lemma effects_app a : forall b s, effects D (a ++ b) s = effects D b (effects D a s).
Proof. induction a as [|o a IH]; intros b s; [reflexivity|]. cbn [effects app]. apply IH. Qed.
Lemma does_nothing {A} (m : Y S A) : (forall s, snd (m s) = s) -> does m (eq []).
Proof. intros E s. exists []. auto. Qed.
Lemma does_op {A} (f : S -> option A * S) o : (forall s, effect D o s = snd (f s)) -> does (yop f) (eq [o]).
Proof. intros E s. exists [o]. split; [reflexivity|]. cbn [effects]. rewrite E. unfold yop. destruct (f s) as [[a|] s']; reflexivity. Qed.
Lemma does_bind {A B} (m : Y S A) (f : A -> Y S B) L1 L2 : does m L1 ->
  (forall a, (exists s, fst (m s) = Ok a) -> does (f a) L2) ->
  does (ybind m f) (fun os => exists a b, os = a ++ b /\ L1 a /\ (b = [] \/ L2 b)).
Proof.
  intros Hm Hf s. destruct (Hm s) as (a & La & Ea). unfold ybind. destruct (m s) as [[x|e|] s'] eqn:E; cbn [snd] in Ea.
  - destruct (Hf x) with (s := s') as (b & Lb & Eb); [exists s; rewrite E; reflexivity|]. exists (a ++ b). split; [eauto 6|].
    rewrite effects_app, <- Ea. exact Eb.
  - exists a. split; [exists a, []; rewrite app_nil_r; auto|exact Ea].
  - exists a. split; [exists a, []; rewrite app_nil_r; auto|exact Ea].
Qed.
Lemma does_weaken {A} (m : Y S A) (L L' : list (device_op H) -> Prop) : does m L -> (forall os, L os -> L' os) -> does m L'.
Proof. intros Hm Hl s. destruct (Hm s) as (os & Lo & E). eauto. Qed.
Lemma does_pure {A B} (m : Y S A) (f : A -> Y S B) L : does m L -> (forall a s, snd (f a s) = s) -> does (ybind m f) L.
Proof.
  intros Hm Hf. eapply does_weaken; [apply does_bind; [exact Hm|intros a _; apply does_nothing, Hf]|].
  intros os (a & b & -> & La & [-> | <-]); rewrite app_nil_r; exact La.
Qed.

Lemma does_unlock h pin key : does (unlock D h pin key)
  (fun os => os = [DPin h pin] \/ os = [DPin h pin; DAuthenticate h key] /\ y_mgm_key D key = true).
Proof.
  eapply does_weaken; [apply does_bind with (L2 := fun os => os = [] \/ os = [DAuthenticate h key] /\ y_mgm_key D key = true)|].
  - apply (does_op _ (DPin h pin)). reflexivity.
  - intros a _. destruct (y_mgm_key D key).
    + eapply does_weaken; [apply does_pure; [apply (does_op _ (DAuthenticate h key)); reflexivity|reflexivity]|]. auto.
    + eapply does_weaken; [apply does_nothing; reflexivity|]. auto.
  - intros os (a & b & -> & <- & [->|[->|[-> E]]]); cbn [app]; auto.
Qed.
Lemma does_read {A} h sl (f : slot_cert -> Y S A) : (forall a s, snd (f a s) = s) ->
  does (ybind (yop (y_read D h sl)) f) (eq [DRead h sl]).
Proof. intros Hf. apply does_pure; [apply (does_op _ (DRead h sl)); reflexivity|exact Hf]. Qed.
Lemma does_pubkey h sl : does (ssh_cert_fetch_pubkey D X h sl) (eq [DRead h sl]).
Proof.
  unfold ssh_cert_fetch_pubkey. apply does_pure; [apply does_read; reflexivity|]. intros a s.
  destruct (x509_cert_key X a) as [k|e|]; [|destruct e|]; reflexivity.
Qed.
Lemma does_type h sl : does (get_ssh_key_type D X h sl) (eq [DRead h sl]).
Proof.
  unfold get_ssh_key_type. apply does_pure; [apply does_pubkey|]. intros k s. destruct (pk_kind k) as [| c p a|]; try reflexivity.
  destruct (c_kind c); reflexivity.
Qed.
Definition hashed (d m : bytes) : Prop := d = c_sha256 C m \/ d = c_sha384 C m.
Lemma does_sign h m alg sl : does (sign_data D C h m alg sl)
  (fun os => os = [DRead h sl] \/ exists d, hashed d m /\ os = [DRead h sl; DSign h d alg sl]).
Proof.
  intros s. unfold sign_data, configured_slot, ybind, yop, yret, yerr. destruct (y_read D h sl s) as [[c|] s1] eqn:E.
  2:{ exists [DRead h sl]. split; [auto|]. cbn. rewrite E. reflexivity. }
  assert (Go : forall d, hashed d m ->
    exists os, (os = [DRead h sl] \/ exists d, hashed d m /\ os = [DRead h sl; DSign h d alg sl]) /\
      snd (match y_sign D h d alg sl s1 with (Some a, s') => (Ok a, s') | (None, s') => (Err (EYubikeyPIVError PInternal), s') end) = effects D os s).
  { intros d Hd. exists [DRead h sl; DSign h d alg sl]. split; [eauto|]. cbn. rewrite E. cbn [snd]. destruct (y_sign D h d alg sl s1) as [[g|] s2]; reflexivity. }
  assert (No : exists os, (os = [DRead h sl] \/ exists d, hashed d m /\ os = [DRead h sl; DSign h d alg sl]) /\ s1 = effects D os s).
  { exists [DRead h sl]. split; [auto|]. cbn. rewrite E. reflexivity. }
  destruct (sc_info c); match goal with |- context[if ?b then _ else _] => destruct b end; cbn [fst snd]; try exact No; apply Go; unfold hashed; auto.
Qed.
Lemma does_ssh_sign h m sl : does (ssh_cert_signer D X C h m sl)
  (fun os => exists a b, os = DRead h sl :: a ++ b /\ (b = [] \/ b = [DRead h sl])
     /\ (a = [] \/ a = [DRead h sl] \/ exists d alg, hashed d m /\ a = [DRead h sl; DSign h d alg sl])).
Proof.
  intros s. unfold ssh_cert_signer. destruct (does_type h sl s) as (o1 & <- & E1).
  destruct (get_ssh_key_type D X h sl s) as [[alg|e|] s1]; cbn [snd] in E1.
  2:{ exists [DRead h sl]. split; [exists [], []; auto|exact E1]. }
  2:{ exists [DRead h sl]. split; [exists [], []; auto|exact E1]. }
  assert (Hd : does (do~ sig <- sign_data D C h m alg sl; do~ pub_key <- ssh_cert_fetch_pubkey D X h sl;
     do~ x <- (fun s => (format_signature_for_ssh pub_key sig, s)); match x with Some x => yret x | None => yerr PParsingError end)
    (fun os => exists a b, os = a ++ b /\ (b = [] \/ b = [DRead h sl])
       /\ (a = [DRead h sl] \/ exists d alg, hashed d m /\ a = [DRead h sl; DSign h d alg sl]))).
  { eapply does_weaken; [apply does_bind with (L2 := eq [DRead h sl]); [apply does_sign|]|].
    - intros sig _. apply does_pure; [apply does_pubkey|]. intros k t. unfold ybind, yret, yerr. destruct (format_signature_for_ssh k sig) as [[x|]|e|]; reflexivity.
    - intros os (a & b & -> & La & Lb). exists a, b. split; [reflexivity|]. split; [destruct Lb as [->|<-]; auto|].
      destruct La as [->|(d & Hd & ->)]; [auto|right; eauto]. }
  destruct (Hd s1) as (o2 & (a & b & -> & Hb & Ha) & E2). exists (DRead h sl :: a ++ b). split.
  - exists a, b. split; [reflexivity|]. split; [exact Hb|]. destruct Ha as [->|(d & alg' & Hh & ->)]; [auto|right; right; eauto].
  - change (DRead h sl :: a ++ b) with ([DRead h sl] ++ (a ++ b)). rewrite effects_app, <- E1. exact E2.
Qed.
Lemma does_provision h sl name alg touch pin : does (provision D X h sl name alg touch pin)
  (fun os => os = [DGenerate h sl alg pin touch]
     \/ exists info b, os = [DGenerate h sl alg pin touch; DSelfSign h sl (repeat x00 20) name info] ++ b /\ (b = [] \/ b = [DRead h sl])).
Proof.
  unfold provision. eapply does_weaken; [apply does_bind with (L2 := fun os => exists info b, os = DSelfSign h sl (repeat x00 20) name info :: b /\ (b = [] \/ b = [DRead h sl]))|].
  - apply (does_op _ (DGenerate h sl alg pin touch)). reflexivity.
  - intros info _. eapply does_weaken; [apply does_bind with (L2 := eq [DRead h sl])|].
    + apply (does_op _ (DSelfSign h sl (repeat x00 20) name info)). reflexivity.
    + intros _ _. apply does_pubkey.
    + intros os (a & b & -> & <- & Hb). exists info, b. split; [reflexivity|]. destruct Hb as [->|<-]; auto.
  - intros os (a & b & -> & <- & [->|(info & b' & -> & Hb)]); [left; reflexivity|right; exists info, b'; auto].
Qed.
Lemma does_write h sl data : does (write_certificate D h sl data) (fun os => os = [] \/ os = [DWrite h sl data] /\ y_cert D data = true).
Proof.
  unfold write_certificate. destruct (y_cert D data).
  - eapply does_weaken; [apply (does_op _ (DWrite h sl data)); reflexivity|]. auto.
  - eapply does_weaken; [apply does_nothing; reflexivity|]. auto.
Qed.

(** Opening by serial number gives that device. *)
Definition opens_right : Prop := forall n t g t', y_open D n t = (Some g, t') -> y_serial D g = n.
Definition looks (n : N) (sl : slot) (o : device_op H) : Prop := o = DOpen n \/ exists g, y_serial D g = n /\ o = DRead g sl.
Definition request_ops (n : N) (sl : slot) (name : bytes) (os : list (device_op H)) : Prop :=
  exists a b, os = a ++ b /\ Forall (looks n sl) a
    /\ (b = [] \/ exists g d m alg p, y_serial D g = n /\ hashed d m /\ r_request R alg name p = Some m /\ b = [DSign g d alg sl]).
Lemma does_open n : does (open_serial D n) (eq [DOpen n]).
Proof. intros s. exists [DOpen n]. split; [reflexivity|]. unfold open_serial, yerr. cbn. destruct (y_open D n s) as [[g|] s']; reflexivity. Qed.
Lemma does_unwrap {A} (m : Y S A) L : does m L -> does (yunwrap m) L.
Proof. intros Hm s. destruct (Hm s) as (os & Lo & E). exists os. split; [exact Lo|]. unfold yunwrap. destruct (m s) as [[a|e|] s']; exact E. Qed.
Lemma opened n g : opens_right -> (exists s, fst (yunwrap (open_serial D n) s) = Ok g) -> y_serial D g = n.
Proof.
  intros Ho (s & E). unfold yunwrap, open_serial, yerr in E. destruct (y_open D n s) as [[g'|] s'] eqn:E'; [|discriminate].
  injection E as <-. exact (Ho _ _ _ _ E').
Qed.
Lemma does_csr_signer n sl : opens_right -> does (csr_signer D n sl) (Forall (looks n sl)).
Proof.
  intros Ho. unfold csr_signer. eapply does_weaken; [apply does_bind with (L2 := Forall (looks n sl))|].
  - apply does_unwrap, does_open.
  - intros g Hg. apply opened in Hg; [|exact Ho].
    eapply does_weaken; [apply does_pure; [apply does_unwrap, does_read; reflexivity|intros [] ?; reflexivity]|].
    intros os <-. constructor; [right; eauto|constructor].
  - intros os (a & b & -> & <- & Hb). constructor; [left; reflexivity|]. destruct Hb as [->|Hb]; [constructor|exact Hb].
Qed.
Lemma does_csr_sign n sl alg m : opens_right -> does (csr_sign D C n sl alg m)
  (fun os => exists a b, os = a ++ b /\ Forall (looks n sl) a /\ (b = [] \/ exists g d, y_serial D g = n /\ hashed d m /\ b = [DSign g d alg sl])).
Proof.
  intros Ho s. unfold csr_sign, open_serial, yerr. destruct (y_open D n s) as [[g|] s1] eqn:E.
  - pose proof (Ho _ _ _ _ E) as Hg. destruct (does_sign g m alg sl s1) as (os & Lo & E1). exists (DOpen n :: os). split.
    + destruct Lo as [->|(d & Hd & ->)].
      * exists [DOpen n; DRead g sl], []. split; [reflexivity|]. split; [|auto]. constructor; [left; reflexivity|]. constructor; [right; eauto|constructor].
      * exists [DOpen n; DRead g sl], [DSign g d alg sl]. split; [reflexivity|]. split; [|eauto 6]. constructor; [left; reflexivity|]. constructor; [right; eauto|constructor].
    + cbn [effects effect]. rewrite E. cbn [snd]. rewrite <- E1. destruct (sign_data D C g m alg sl s1) as [[x|e|] s2]; reflexivity.
  - exists [DOpen n]. split; [|cbn; rewrite E; reflexivity]. exists [DOpen n], []. split; [reflexivity|]. split; [|auto]. constructor; [left; reflexivity|constructor].
Qed.
Lemma does_csr h sl name : opens_right -> does (generate_csr D R C h sl name) (request_ops (y_serial D h) sl name).
Proof.
  intros Ho. unfold generate_csr.
  eapply does_weaken; [apply does_bind with (L2 := request_ops (y_serial D h) sl name); [apply does_read; reflexivity|]|].
  2:{ intros os (a & b & -> & <- & Hb). assert (Lh : looks (y_serial D h) sl (DRead h sl)) by (right; eauto).
      destruct Hb as [->|(a & b' & -> & Fa & Hb)]; [exists [DRead h sl], []; auto|]. exists (DRead h sl :: a), b'. auto. }
  intros info _.
  eapply does_weaken; [apply does_bind with (L1 := eq []) (L2 := request_ops (y_serial D h) sl name)|].
  - destruct info; apply does_nothing; reflexivity.
  - intros alg _. eapply does_weaken; [apply does_bind with (L2 := request_ops (y_serial D h) sl name); [apply does_csr_signer, Ho|]|].
    2:{ intros os (a & b & -> & Fa & Hb). destruct Hb as [->|(a' & b' & -> & Fa' & Hb)]; [exists a, []; auto|].
        exists (a ++ a'), b'. split; [apply app_assoc|]. split; [apply Forall_app; auto|exact Hb]. }
    intros [point key_alg] _. destruct (negb (algorithm_eqb alg key_alg)) eqn:Ea.
    { eapply does_weaken; [apply does_nothing; reflexivity|]. intros os <-. exists [], []. auto. }
    eapply does_weaken; [apply does_bind with (L1 := eq []) (L2 := request_ops (y_serial D h) sl name)|].
    + apply does_nothing. intros s. unfold yop. destruct (r_request R alg name point); reflexivity.
    + intros tbs (s0 & Ht). unfold yop in Ht. destruct (r_request R alg name point) as [tbs'|] eqn:Er; [|discriminate]. injection Ht as ->.
      apply does_pure; [|intros sig s; unfold yop; destruct (r_finish R alg tbs sig); reflexivity].
      eapply does_weaken; [apply does_csr_sign, Ho|]. intros os (a & b & -> & Fa & Hb). exists a, b. split; [reflexivity|]. split; [exact Fa|].
      destruct Hb as [->|(g & d & Hg & Hd & ->)]; [auto|right].
      assert (alg = key_alg) as <- by (destruct alg, key_alg; try discriminate; reflexivity). exists g, d, tbs, alg, point. auto.
    + intros os (a & b & -> & <- & [->|Hb]); [exists [], []; auto|exact Hb].
  - intros os (a & b & -> & <- & [->|Hb]); [exists [], []; auto|exact Hb].
Qed.
End Does.

(** ** C95 *)
Lemma does_value {H S A} (D : yubikey H S) (f : A -> value) (m : Y S A) L : does D m L -> does D (yvalue f m) L.
Proof. intros Hm. apply does_pure; [exact Hm|reflexivity]. Qed.
Section Facts.
Context {H S : Type} (D : yubikey H S) (R : rcgen) (X : x509) (C : crypto).
Lemma may_nothing n c : pins_given [c] = [] -> may_do D R C n c [].
Proof. intros E. repeat split; auto. Qed.
Lemma may_read n c h sl : y_serial D h = n -> pins_given [c] = [] -> may_do D R C n c [DRead h sl].
Proof. intros Hn E. repeat split; auto. Qed.
Ltac forall_ := repeat (apply Forall_cons; [cbn; auto|]); try apply Forall_nil.
Ltac fin := repeat split; cbn; auto; try (left; forall_; fail); try (forall_; fail).
Lemma keep_facts {A} (f : A -> value) (m : Y S A) L c h s r h' s' : does D m L ->
  (forall os, L os -> may_do D R C (y_serial D h) c os) ->
  (fst (yvalue f m s), h, snd (yvalue f m s)) = (r, h', s') ->
  y_serial D h' = y_serial D h /\ exists os, s' = effects D os s /\ may_do D R C (y_serial D h) c os.
Proof.
  intros Hm Hl E. destruct (does_value _ f _ _ Hm s) as (os & Lo & Eo). injection E as <- <- <-. split; [reflexivity|].
  exists os. split; [exact Eo|apply Hl, Lo].
Qed.
Lemma looks_facts n sl os : Forall (looks D n sl) os -> Forall (on_device D n) os /\ pins_sent os = [] /\ mgm_keys_sent os = []
  /\ Forall (fun o => op_changes o = None) os /\ Forall (fun o => op_signs o = None) os.
Proof.
  induction 1 as [|o os [->|(g & Hg & ->)] _ (I1 & I2 & I3 & I4 & I5)]; [repeat split; constructor| |].
  - repeat split; auto; constructor; auto; reflexivity.
  - repeat split; auto; constructor; auto.
Qed.
Lemma pins_app (a b : list (device_op H)) : pins_sent (a ++ b) = pins_sent a ++ pins_sent b.
Proof. apply flat_map_app. Qed.
Lemma mgm_app (a b : list (device_op H)) : mgm_keys_sent (a ++ b) = mgm_keys_sent a ++ mgm_keys_sent b.
Proof. apply flat_map_app. Qed.
Lemma call_facts c h s r h' s' : opens_right D -> run_call D R X C c h s = (r, h', s') ->
  y_serial D h' = y_serial D h /\ exists os, s' = effects D os s /\ may_do D R C (y_serial D h) c os.
Proof.
  intros Ho. unfold run_call. destruct c as [|pin key|sl|sl|sl|sl data|sl|sl name|sl name alg touch pin|data alg sl|sl|sl|buf sl].
  - destruct (reconnect D h s) as [[r0 h0] s0] eqn:E. intros E'.
    assert (h0 = h' /\ s0 = s') as [-> ->] by (destruct r0; injection E' as _ <- <-; auto). clear E'.
    split; [exact (C87_same_device _ _ D h h' s s' r0 Ho E)|]. apply C87_reconnect in E.
    destruct E as [(E & _)|(s1 & E & [[E1 _]|(E1 & _)])].
    + exists [DReconnect h]. split; [cbn; rewrite E; reflexivity|]. fin.
    + exists [DReconnect h; DOpen (y_serial D h)]. split; [cbn; rewrite E; cbn; rewrite E1; reflexivity|]. fin.
    + exists [DReconnect h; DOpen (y_serial D h)]. split; [cbn; rewrite E; cbn; rewrite E1; reflexivity|]. fin.
  - eapply keep_facts; [apply does_unlock|]. intros os [->|[-> E]].
    + fin.
    + fin. right; eauto 6.
  - eapply keep_facts; [apply does_read; reflexivity|]. intros os <-. apply may_read; reflexivity.
  - eapply keep_facts; [apply does_read; reflexivity|]. intros os <-. apply may_read; reflexivity.
  - eapply keep_facts; [apply does_read; reflexivity|]. intros os <-. apply may_read; reflexivity.
  - eapply keep_facts; [apply does_write|]. intros os [->|[-> E]]; [apply may_nothing; reflexivity|]. fin.
  - eapply keep_facts; [apply (does_op _ _ (DAttest h sl)); reflexivity|]. intros os <-. fin.
  - eapply keep_facts; [apply does_csr, Ho|]. intros os (a & b & -> & Fa & Hb). apply looks_facts in Fa. destruct Fa as (F1 & F2 & F3 & F4 & F5).
    assert (F4' : Forall (fun o => op_changes o = None \/ op_changes o = call_changes (CRequest sl name)) a) by (revert F4; apply Forall_impl; auto).
    unfold may_do. destruct Hb as [->|(g & d & m & alg & p & Hg & Hd & Hr & ->)].
    + rewrite app_nil_r, F2, F3. repeat split; auto.
    + rewrite pins_app, mgm_app, F2, F3. split; [apply Forall_app; split; [exact F1|forall_]|]. split; [reflexivity|]. split; [auto|].
      split; [apply Forall_app; split; [exact F4'|forall_]|]. right. exists a, [], (DSign g d alg sl), d, m, sl. rewrite app_nil_r.
      repeat split; auto. exists alg, p. exact Hr.
  - eapply keep_facts; [apply does_provision|]. intros os [->|(info & b & -> & [->| ->])]; fin.
  - eapply keep_facts; [apply does_sign|]. intros os [->|(d & Hd & ->)]; [apply may_read; reflexivity|].
    fin. right. exists [DRead h sl], [], (DSign h d alg sl), d, data, sl. fin.
  - eapply keep_facts; [apply does_pubkey|]. intros os <-. apply may_read; reflexivity.
  - eapply keep_facts; [apply does_type|]. intros os <-. apply may_read; reflexivity.
  - eapply keep_facts; [apply does_ssh_sign|]. intros os (a & b & -> & Hb & [->|[->|(d & alg & Hd & ->)]]); destruct Hb as [->| ->];
      try (fin; fail).
    + fin. right. exists [DRead h sl; DRead h sl], [], (DSign h d alg sl), d, buf, sl. fin.
    + fin. right. exists [DRead h sl; DRead h sl], [DRead h sl], (DSign h d alg sl), d, buf, sl. fin.
Qed.
End Facts.

(** Every sequence of calls is a sequence of operations of the one device, call by call. *)
Theorem C95_operations : forall (H S : Type) (D : yubikey H S) (R : rcgen) (X : x509) (C : crypto) (l : list call) (h h' : H) (s s' : S)
  (rs : list (res value)),
  opens_right D -> run_calls D R X C l h s = (rs, h', s') ->
  y_serial D h' = y_serial D h
  /\ exists oss, Forall2 (may_do D R C (y_serial D h)) (calls_made l rs) oss /\ s' = effects D (concat oss) s.
Proof.
  intros H S D R X C l. induction l as [|c l IH]; intros h h' s s' rs Ho E; cbn [run_calls] in E.
  - injection E as <- <- <-. split; [reflexivity|]. exists []. split; [constructor|reflexivity].
  - destruct (run_call D R X C c h s) as [[r h1] s1] eqn:E1. apply call_facts in E1; [|exact Ho]. destruct E1 as (Es & os & -> & Hm).
    assert (G : forall rs', calls_made (c :: l) (r :: rs') = c :: calls_made l rs') by reflexivity.
    assert (K : forall rs1 h2 s2, run_calls D R X C l h1 (effects D os s) = (rs1, h2, s2) ->
      y_serial D h2 = y_serial D h /\ exists oss, Forall2 (may_do D R C (y_serial D h)) (c :: calls_made l rs1) oss /\ s2 = effects D (concat oss) s).
    { intros rs1 h2 s2 E2. apply IH in E2; [|exact Ho]. rewrite Es in E2. destruct E2 as (Es2 & oss & F & ->). split; [exact Es2|].
      exists (os :: oss). split; [constructor; assumption|]. cbn [concat]. rewrite effects_app. reflexivity. }
    destruct r as [v|e|].
    + destruct (run_calls D R X C l h1 (effects D os s)) as [[rs1 h2] s2] eqn:E2. injection E as <- <- <-. rewrite G. apply K, eq_refl.
    + destruct (run_calls D R X C l h1 (effects D os s)) as [[rs1 h2] s2] eqn:E2. injection E as <- <- <-. rewrite G. apply K, eq_refl.
    + injection E as <- <- <-. split; [exact Es|]. exists [os]. split; [constructor; [exact Hm|constructor]|]. cbn [concat]. rewrite app_nil_r. reflexivity.
Qed.
Print Assumptions C95_operations.

(** So whatever the operations of this device leave alone, every sequence of calls does: other
    devices in particular. *)
Lemma effects_keep {H S T} (D : yubikey H S) (f : S -> T) os : forall s, Forall (fun o => forall s, f (effect D o s) = f s) os -> f (effects D os s) = f s.
Proof.
  induction os as [|o os IH]; intros s F; [reflexivity|]. apply Forall_cons_iff in F. destruct F as [F1 F2]. cbn [effects]. rewrite IH; auto.
Qed.
Lemma made_forall {H S} (D : yubikey H S) R C n l oss (P : device_op H -> Prop) : Forall2 (may_do D R C n) l oss ->
  (forall c os, In c l -> may_do D R C n c os -> Forall P os) -> Forall P (concat oss).
Proof.
  induction 1 as [|c os l oss Hm _ IH]; intros Hp; cbn [concat]; [constructor|]. apply Forall_app. split.
  - apply (Hp c); [left; reflexivity|exact Hm].
  - apply IH. intros c' os' Hi. apply Hp. right. exact Hi.
Qed.
Theorem C95_other_devices : forall (H S T : Type) (D : yubikey H S) (R : rcgen) (X : x509) (C : crypto) (f : S -> T) (l : list call)
  (h h' : H) (s s' : S) (rs : list (res value)),
  opens_right D -> run_calls D R X C l h s = (rs, h', s') ->
  (forall o t, on_device D (y_serial D h) o -> f (effect D o t) = f t) -> f s' = f s.
Proof.
  intros H S T D R X C f l h h' s s' rs Ho E Hf. apply C95_operations in E; [|exact Ho]. destruct E as (_ & oss & F & ->).
  apply effects_keep. eapply made_forall; [exact F|]. intros c os _ (M & _). revert M. apply Forall_impl. auto.
Qed.
Print Assumptions C95_other_devices.

(** ** C96 *)
(** A record of the PINs that reached devices grows by those passed to [unlock], once each. *)
Theorem C96_pins : forall (H S : Type) (D : yubikey H S) (R : rcgen) (X : x509) (C : crypto) (pins : S -> list bytes) (l : list call)
  (h h' : H) (s s' : S) (rs : list (res value)),
  opens_right D -> run_calls D R X C l h s = (rs, h', s') ->
  (forall g p t, pins (effect D (DPin g p) t) = pins t ++ [p]) ->
  (forall o t, pins_sent [o] = [] -> pins (effect D o t) = pins t) ->
  pins s' = pins s ++ pins_given (calls_made l rs).
Proof.
  intros H S D R X C pins l h h' s s' rs Ho E H1 H2. apply C95_operations in E; [|exact Ho]. destruct E as (_ & oss & F & ->).
  assert (K : forall os t, pins (effects D os t) = pins t ++ pins_sent os).
  { induction os as [|o os IH]; intros t; cbn [effects]; [cbn; rewrite app_nil_r; reflexivity|]. rewrite IH.
    destruct o; try (rewrite H2; reflexivity). rewrite H1, <- app_assoc. reflexivity. }
  rewrite K. f_equal. clear K H1 H2. induction F as [|c os l0 oss0 (_ & M & _) _ IH]; [reflexivity|]. cbn [concat].
  rewrite pins_app, M, IH. unfold pins_given. cbn [flat_map]. rewrite app_nil_r. reflexivity.
Qed.
Print Assumptions C96_pins.

(** A counter of tries falls by at most the number of [unlock] calls. *)
Theorem C96_tries : forall (H S : Type) (D : yubikey H S) (R : rcgen) (X : x509) (C : crypto) (tries : S -> nat) (l : list call)
  (h h' : H) (s s' : S) (rs : list (res value)),
  opens_right D -> run_calls D R X C l h s = (rs, h', s') ->
  (forall g p t, tries t <= tries (effect D (DPin g p) t) + 1) ->
  (forall o t, pins_sent [o] = [] -> tries t <= tries (effect D o t)) ->
  tries s <= tries s' + length (pins_given l).
Proof.
  intros H S D R X C tries l h h' s s' rs Ho E H1 H2. apply C95_operations in E; [|exact Ho]. destruct E as (_ & oss & F & ->).
  assert (K : forall os t, tries t <= tries (effects D os t) + length (pins_sent os)).
  { induction os as [|o os IH]; intros t; cbn [effects]; [cbn; lia|]. specialize (IH (effect D o t)).
    change (o :: os) with ([o] ++ os). rewrite pins_app, app_length.
    assert (Q : pins_sent [o] = [] \/ exists g p, o = DPin g p) by (destruct o; eauto).
    destruct Q as [Q|(g & p & ->)]; [specialize (H2 o t Q); rewrite Q; cbn [length]; lia|].
    specialize (H1 g p t). cbn [pins_sent flat_map app length]. lia. }
  assert (L : length (pins_sent (concat oss)) = length (pins_given (calls_made l rs))).
  { clear K H1 H2. induction F as [|c os l0 oss0 (_ & M & _) _ IH]; [reflexivity|]. cbn [concat].
    rewrite pins_app, M, app_length, IH. unfold pins_given. cbn [flat_map]. rewrite app_nil_r, app_length. reflexivity. }
  specialize (K (concat oss) s). rewrite L in K.
  assert (length (pins_given (calls_made l rs)) <= length (pins_given l)); [|lia].
  unfold calls_made. rewrite <- (firstn_skipn (length rs) l) at 2. unfold pins_given. rewrite flat_map_app, app_length. lia.
Qed.
Print Assumptions C96_tries.

(** ** C97 *)
(** What only changes of slot [sl] alter is left alone by calls that do not provision or write it. *)
Theorem C97_slots : forall (H S T : Type) (D : yubikey H S) (R : rcgen) (X : x509) (C : crypto) (f : S -> T) (sl : slot) (l : list call)
  (h h' : H) (s s' : S) (rs : list (res value)),
  opens_right D -> run_calls D R X C l h s = (rs, h', s') ->
  (forall o t, op_changes o <> Some sl -> f (effect D o t) = f t) ->
  (forall c, In c l -> call_changes c <> Some sl) -> f s' = f s.
Proof.
  intros H S T D R X C f sl l h h' s s' rs Ho E Hf Hc. apply C95_operations in E; [|exact Ho]. destruct E as (_ & oss & F & ->).
  apply effects_keep. eapply made_forall; [exact F|]. intros c os Hi (_ & _ & _ & M & _). revert M. apply Forall_impl.
  intros o Hm t. apply Hf. specialize (Hc c). unfold calls_made in Hi.
  assert (Hi' : In c l) by (rewrite <- (firstn_skipn (length rs) l); apply in_or_app; auto). specialize (Hc Hi').
  destruct Hm as [-> | -> ]; [discriminate|exact Hc].
Qed.
Print Assumptions C97_slots.

(** A record of the signatures made grows by at most one for each call, of a digest of its data
    with the key of its slot. *)
Theorem C97_signatures : forall (H S : Type) (D : yubikey H S) (R : rcgen) (X : x509) (C : crypto) (signed : S -> list (bytes * slot)) (l : list call)
  (h h' : H) (s s' : S) (rs : list (res value)),
  opens_right D -> run_calls D R X C l h s = (rs, h', s') ->
  (forall o t, signed (effect D o t) = signed t ++ match op_signs o with Some x => [x] | None => [] end) ->
  exists xs, signed s' = signed s ++ concat xs
    /\ Forall2 (fun c x => x = [] \/ exists d m sl, x = [(d, sl)] /\ call_signs R c m sl /\ (d = c_sha256 C m \/ d = c_sha384 C m)) (calls_made l rs) xs.
Proof.
  intros H S D R X C signed l h h' s s' rs Ho E Hs. apply C95_operations in E; [|exact Ho]. destruct E as (_ & oss & F & ->).
  set (sg := fun os : list (device_op H) => flat_map (fun o => match op_signs o with Some x => [x] | None => [] end) os).
  assert (K : forall os t, signed (effects D os t) = signed t ++ sg os).
  { induction os as [|o os IH]; intros t; cbn [effects]; [cbn; rewrite app_nil_r; reflexivity|]. rewrite IH, Hs, <- app_assoc. reflexivity. }
  exists (map sg oss). split; [|clear K Hs; induction F as [|c os l0 oss0 M _ IH]; cbn [map]; constructor; [|exact IH]].
  - rewrite K. f_equal. unfold sg. clear. induction oss as [|os oss IH]; [reflexivity|]. cbn [concat map]. rewrite flat_map_app, IH. reflexivity.
  - clear IH. destruct M as (_ & _ & _ & _ & M).
    assert (Z : forall os, Forall (fun o : device_op H => op_signs o = None) os -> sg os = []).
    { induction 1 as [|o os' Eo _ IH]; [reflexivity|]. unfold sg in *. cbn [flat_map]. rewrite Eo, IH. reflexivity. }
    destruct M as [M|(a & b & o & d & m & sl & -> & M & Eo & Hc & Hd)]; [left; apply Z, M|right].
    exists d, m, sl. split; [|auto]. apply Forall_app in M. unfold sg in *. rewrite flat_map_app. cbn [flat_map]. rewrite Eo, !Z; tauto.
Qed.
Print Assumptions C97_signatures.

(** Case for C95-C97: a device that writes down what it is asked to do. *)
Definition log_yk : yubikey N (list (device_op N)) := mkYubikey N (list (device_op N))
  (fun h => h)
  (fun n s => (Some n, s ++ [DOpen n]))
  (fun h s => (None, s ++ [DReconnect h]))
  (fun h pin s => ((if bytes_eqb pin (s2b "1234") then Some tt else None), s ++ [DPin h pin]))
  (fun k => length k =? 24)
  (fun h k s => (Some tt, s ++ [DAuthenticate h k]))
  (fun h sl s => (Some cert256, s ++ [DRead h sl]))
  (fun h sl a p t s => (Some (PkiP256 [x02]), s ++ [DGenerate h sl a p t]))
  (fun h sl n nm i s => (Some tt, s ++ [DSelfSign h sl n nm i]))
  (fun h d a sl s => (Some der12, s ++ [DSign h d a sl]))
  (fun s => (Some 7%N, s)) (fun d => negb (length d =? 0))
  (fun h sl d s => (Some tt, s ++ [DWrite h sl d]))
  (fun h sl s => (Some [x0a], s ++ [DAttest h sl])).
Example C95_case : exists k blob,
  opens_right log_yk /\ run_calls log_yk ex_rcgen ex_x2 toy_crypto
    [CUnlock (s2b "1234") (repeat x01 24); CProvision 156%N (s2b "me") EccP256 1%N 2%N; CSshSign (s2b "m") 156%N; CReconnect;
     CUnlock (s2b "9") []; CWrite 157%N [x01]; CWrite 157%N []; CAttest 156%N] 7%N []
  = ([Ok VUnit; Ok (VKey k); Ok (VBytes blob); Ok VUnit; Err (EYubikeyPIVError PInternal); Ok VUnit; Err (EYubikeyPIVError PInternal); Ok (VBytes [x0a])],
     7%N,
     [DPin 7%N (s2b "1234"); DAuthenticate 7%N (repeat x01 24); DGenerate 7%N 156%N EccP256 2%N 1%N;
      DSelfSign 7%N 156%N (repeat x00 20) (s2b "me") (PkiP256 [x02]); DRead 7%N 156%N; DRead 7%N 156%N; DRead 7%N 156%N;
      DSign 7%N (repeat x0a 32) EccP256 156%N; DRead 7%N 156%N; DReconnect 7%N; DOpen 7%N; DPin 7%N (s2b "9");
      DWrite 7%N 157%N [x01]; DAttest 7%N 156%N]).
Proof.
  do 2 eexists. split; [intros n t g t' [= <- _]; reflexivity|]. vm_compute. reflexivity.
Qed.
(** The records of C96 and C97 for this device. *)
Example C96_case : (forall g p t, pins_sent (effect log_yk (DPin g p) t) = pins_sent t ++ [p])
  /\ (forall o t, pins_sent [o] = [] -> pins_sent (effect log_yk o t) = pins_sent t).
Proof.
  split.
  - intros g p t. change (effect log_yk (DPin g p) t) with (t ++ [DPin g p]). apply pins_app.
  - intros o t E. assert (F : effect log_yk o t = t ++ [o]) by (destruct o; reflexivity). rewrite F, pins_app, E. apply app_nil_r.
Qed.
Definition changes_of (sl : slot) (s : list (device_op N)) : list (device_op N) :=
  filter (fun o => match op_changes o with Some sl' => (sl' =? sl)%N | None => false end) s.
Definition signs_of (s : list (device_op N)) : list (bytes * slot) :=
  flat_map (fun o => match op_signs o with Some x => [x] | None => [] end) s.
Example C97_case : (forall o t, op_changes o <> Some 157%N -> changes_of 157%N (effect log_yk o t) = changes_of 157%N t)
  /\ (forall o t, signs_of (effect log_yk o t) = signs_of t ++ match op_signs o with Some x => [x] | None => [] end).
Proof.
  split.
  - intros o t Hn. assert (E : effect log_yk o t = t ++ [o]) by (destruct o; reflexivity). rewrite E. unfold changes_of. rewrite filter_app. cbn [filter].
    destruct (op_changes o) as [sl|] eqn:Eo; [|apply app_nil_r]. destruct (N.eqb_spec sl 157) as [->|]; [contradiction Hn; reflexivity|apply app_nil_r].
  - intros o t. assert (E : effect log_yk o t = t ++ [o]) by (destruct o; reflexivity). rewrite E. unfold signs_of. rewrite flat_map_app.
    cbn [flat_map]. rewrite app_nil_r. reflexivity.
Qed.

(** ** C98 *)
Section Store.
Context {H S : Type} (D : yubikey H S) (V : slots S) (R : rcgen) (X : x509) (C : crypto).
Lemma same_refl s n sl : same_slot V s s n sl.
Proof. split; reflexivity. Qed.
Lemma same_trans s t u n sl : same_slot V s t n sl -> same_slot V t u n sl -> same_slot V s u n sl.
Proof. intros [A1 A2] [B1 B2]. split; congruence. Qed.
Lemma same_consistent s t n sl : same_slot V s t n sl -> consistent V s n sl -> consistent V t n sl.
Proof. intros [A1 A2] Hc c E. rewrite A1. rewrite A2 in E. apply Hc, E. Qed.
Lemma effects_same n sl os : forall s, Forall (fun o => forall t, same_slot V t (effect D o t) n sl) os -> same_slot V s (effects D os s) n sl.
Proof.
  induction os as [|o os IH]; intros s F; [apply same_refl|]. apply Forall_cons_iff in F. destruct F as [F1 F2]. cbn [effects].
  eapply same_trans; [apply F1|apply IH, F2].
Qed.
Lemma provision_done h sl name alg touch pin s k s' : stores_slots D V -> provision D X h sl name alg touch pin s = (Ok k, s') ->
  consistent V s' (y_serial D h) sl.
Proof.
  intros (K1 & _ & _ & K4 & K5 & _) E. unfold provision, ybind, yop in E.
  destruct (y_generate D h sl alg pin touch s) as [[info|] s1] eqn:E1; [|discriminate].
  destruct (y_self_sign D h sl (repeat x00 20) name info s1) as [[u|] s2] eqn:E2; [|discriminate].
  destruct (does_pubkey D X h sl s2) as (os & <- & E3). rewrite E in E3. cbn [snd effects] in E3.
  destruct (K4 _ _ _ _ _ _ _ _ E1) as [_ Kk]. specialize (Kk _ eq_refl).
  destruct (K5 _ _ _ _ _ _ _ _ E2) as [Kk' [(c & Kc & Ki)|[Kn _]]]; [|discriminate].
  apply (same_consistent s2); [rewrite E3; apply K1; reflexivity|]. intros c' Ec. rewrite Kc in Ec. injection Ec as <-. congruence.
Qed.
Lemma call_consistent c h s r h' s' n sl : opens_right D -> stores_slots D V -> run_call D R X C c h s = (r, h', s') ->
  consistent V s n sl -> ~ spoils sl c r -> consistent V s' n sl.
Proof.
  intros Ho Hst E Hc Hn.
  assert (G : (call_changes c <> Some sl \/ n <> y_serial D h) -> consistent V s' n sl).
  { intros Hd. apply call_facts in E; [|exact Ho]. destruct E as (_ & os & -> & M). eapply same_consistent; [|exact Hc].
    apply effects_same. destruct Hst as (K1 & K2 & _). destruct M as (M1 & _ & _ & M2 & _).
    rewrite Forall_forall in *. intros o Hi t. specialize (M1 o Hi). specialize (M2 o Hi).
    destruct (op_changes o) as [sl'|] eqn:Eo; [|apply K1, Eo]. apply (K2 o t sl' _ Eo M1). destruct M2 as [M2|M2]; [discriminate|].
    intros [= -> ->]. destruct Hd as [Hd|Hd]; congruence. }
  destruct (N.eq_dec n (y_serial D h)) as [->|Hd]; [|auto].
  destruct c; try (apply G; left; discriminate).
  - apply G. left. cbn in *. congruence.
  - cbn [spoils] in Hn. destruct (N.eq_dec sl0 sl) as [->|Hd]; [|apply G; left; cbn; congruence].
    cbn [run_call] in E. unfold yvalue, ybind, yret in E.
    destruct (provision D X h sl common_name alg touch_policy pin_policy s) as [[k|e|] s1] eqn:Ep; injection E as <- <- <-.
    + eapply provision_done; eauto.
    + exfalso. apply Hn. split; [reflexivity|discriminate].
    + exfalso. apply Hn. split; [reflexivity|discriminate].
Qed.
End Store.

(** Consistency lasts until a certificate is written or a provisioning does not report success; at
    whatever point an operation failed. *)
Theorem C98_consistent : forall (H S : Type) (D : yubikey H S) (V : slots S) (R : rcgen) (X : x509) (C : crypto) (l : list call)
  (h h' : H) (s s' : S) (rs : list (res value)) (n : N) (sl : slot),
  opens_right D -> stores_slots D V -> run_calls D R X C l h s = (rs, h', s') ->
  consistent V s n sl ->
  (forall i c r, nth_error l i = Some c -> nth_error rs i = Some r -> ~ spoils sl c r) ->
  consistent V s' n sl.
Proof.
  intros H S D V R X C l. induction l as [|c l IH]; intros h h' s s' rs n sl Ho Hst E Hc Hn; cbn [run_calls] in E.
  - injection E as _ _ <-. exact Hc.
  - destruct (run_call D R X C c h s) as [[r h1] s1] eqn:E1.
    assert (H1 : forall rs', rs = r :: rs' -> consistent V s1 n sl).
    { intros rs' ->. eapply call_consistent; eauto. exact (Hn 0 c r eq_refl eq_refl). }
    assert (K : forall rs1, run_calls D R X C l h1 s1 = (rs1, h', s') -> rs = r :: rs1 -> consistent V s' n sl).
    { intros rs1 E2 Er. eapply IH; [exact Ho|exact Hst|exact E2|exact (H1 _ Er)|]. subst rs. intros i c0 r0 A B. exact (Hn (Datatypes.S i) c0 r0 A B). }
    destruct r as [v|e|].
    + destruct (run_calls D R X C l h1 s1) as [[rs1 h2] s2] eqn:E2. injection E as <- <- <-. eapply K; reflexivity.
    + destruct (run_calls D R X C l h1 s1) as [[rs1 h2] s2] eqn:E2. injection E as <- <- <-. eapply K; reflexivity.
    + injection E as <- <- <-. eapply H1; reflexivity.
Qed.
Print Assumptions C98_consistent.

(** Provisioning that reports success repairs the slot, whatever was in it. *)
Theorem C98_provisioned : forall (H S : Type) (D : yubikey H S) (V : slots S) (R : rcgen) (X : x509) (C : crypto)
  (h h' : H) (s s' : S) (sl : slot) (name : bytes) (alg : algorithm_id) (touch pin : N) (v : value),
  stores_slots D V -> run_call D R X C (CProvision sl name alg touch pin) h s = (Ok v, h', s') ->
  consistent V s' (y_serial D h) sl.
Proof.
  intros H S D V R X C h h' s s' sl name alg touch pin v Hst E. cbn [run_call] in E. unfold yvalue, ybind, yret in E.
  destruct (provision D X h sl name alg touch pin s) as [[k|e|] s1] eqn:Ep; try discriminate. injection E as _ _ <-.
  eapply provision_done; eauto.
Qed.
Print Assumptions C98_provisioned.

(** Signatures made with a consistent slot verify under the key that is reported for it. *)
Theorem C98_signatures : forall (H S : Type) (D : yubikey H S) (V : slots S) (X : x509) (C : crypto) (h : H) (s s' : S) (sl : slot) (m blob : bytes),
  stores_slots D V -> signs_with_key C D V h sl -> (forall c, cert_in V s (y_serial D h) sl = Some c -> parsers_agree C X c) ->
  consistent V s (y_serial D h) sl -> ssh_cert_signer D X C h m sl s = (Ok blob, s') ->
  exists k, fst (ssh_cert_fetch_pubkey D X h sl s) = Ok k /\ verify_signature C blob m k = Ok blob.
Proof.
  intros H S D V X C h s s' sl m blob (K1 & _ & K3 & _) Hk Hp Hc Hs.
  unfold ssh_cert_signer, get_ssh_key_type, ybind in Hs.
  destruct (ssh_cert_fetch_pubkey D X h sl s) as [r s1] eqn:E1. destruct r as [k|e|]; [|discriminate..]. exists k. split; [reflexivity|].
  apply C83_fetch_key in E1. destruct E1 as [[_ E1]|(c & R1 & [(oid & point & k0 & Sk & Ck & E1)|[[_ E1]|[[_ E1]|(_ & _ & E1)]]])]; try discriminate.
  injection E1 as <-.
  destruct (curve_key_facts C oid point k Ck) as (alg & hash & verify & len & view & cv & P1 & P2 & P3 & P4 & P5 & P6 & P7).
  rewrite P2, P6 in Hs. unfold yret in Hs.
  assert (Read : forall t c' t', y_read D h sl t = (Some c', t') -> same_slot V s t (y_serial D h) sl -> c' = c /\ same_slot V s t' (y_serial D h) sl).
  { intros t c' t' Et Hsame. split.
    - pose proof (K3 h sl t c') as A. rewrite Et in A. specialize (A eq_refl). pose proof (K3 h sl s c) as B. rewrite R1 in B. specialize (B eq_refl).
      destruct Hsame as [_ Hsame]. congruence.
    - eapply same_trans; [exact Hsame|]. pose proof (K1 (DRead h sl) t (y_serial D h) sl eq_refl) as A. cbn in A. rewrite Et in A. exact A. }
  destruct (Read _ _ _ R1 (same_refl V _ _ _)) as [_ S1].
  destruct (sign_data D C h m alg sl s1) as [[g|e|] s2] eqn:E2; [|discriminate..].
  apply C81_sign_data in E2. destruct E2 as [[_ E2]|(c2 & s4 & R2 & [(_ & E2 & _)|(hash' & [g'|] & E5 & E6 & E7)])]; [discriminate..| |discriminate].
  injection E7 as <-. destruct (Read _ _ _ R2 S1) as [-> S4]. apply P7 in E5. destruct E5 as [-> _].
  assert (S2 : same_slot V s s2 (y_serial D h) sl).
  { eapply same_trans; [exact S4|]. pose proof (K1 (DSign h (hash m) alg sl) s4 (y_serial D h) sl eq_refl) as A. cbn in A. rewrite E6 in A. exact A. }
  assert (Hkey : key_in V s4 (y_serial D h) sl = Some (view point)).
  { assert (Ec : cert_in V s (y_serial D h) sl = Some c) by (apply K3; rewrite R1; reflexivity).
    destruct S4 as [-> _]. rewrite (Hc c Ec). f_equal. apply (Hp c Ec _ _ _ _ _ _ _ P1). exact Sk. }
  pose proof (Hk _ _ _ _ _ _ _ _ _ _ _ P1 Hkey E6) as Hsg.
  destruct (ssh_cert_fetch_pubkey D X h sl s2) as [r s3] eqn:E3. destruct r as [k2|e|]; [|discriminate..].
  apply C83_fetch_key in E3. destruct E3 as [[_ E3]|(c3 & R3 & [(oid3 & point3 & k3 & Sk3 & Ck3 & E3)|[[_ E3]|[[_ E3]|(_ & _ & E3)]]])]; try discriminate.
  injection E3 as <-. destruct (Read _ _ _ R3 S2) as [-> _]. destruct (slot_key_fun _ _ _ _ _ _ Sk3 Sk) as [-> ->].
  pose proof (curve_key_fun _ _ _ _ Ck3 Ck) as ->.
  destruct (format_ecdsa k cv point None _ len _ _ P2 P3 P5 Hsg) as (pl & r & v & b1 & b2 & fr & fs & H1 & H2 & H3 & H4 & H5 & H6 & H7 & H8).
  rewrite H1 in Hs. injection Hs as <- _. apply C28_accepts_exactly. split; [reflexivity|]. unfold accepted. rewrite P2.
  exists (kt_name (pk_type k)), pl, [], (pk_type k). rewrite app_nil_r. split; [reflexivity|].
  split; [exact H2|]. split; [apply known_name_ok, P3|]. split; [reflexivity|].
  exists verify, len, r, v, b1, b2, [], fr, fs, m. do 6 (split; [assumption|]). split; [reflexivity|exact H8].
Qed.
Print Assumptions C98_signatures.

(** A device with one slot, whose key and certificate are the state. If [lost], it loses power before
    certificates are written. Signatures tell keys apart. *)
Definition here (n : N) (sl : slot) : bool := (n =? 7)%N && (sl =? 156)%N.
Definition der_with (b : byte) : bytes := [x30; x06; x02; x01; x01; x02; x01; b].
Definition key_crypto : crypto :=
  mkCrypto (fun _ => repeat x0a 32) (fun _ => repeat x0b 48) (fun _ => repeat x0c 64)
    (fun k _ s => bytes_eqb s (fixed 32 x01 ++ fixed 32 (match k with b :: _ => b | [] => x00 end)))
    (fun _ _ _ => false) (fun _ _ _ => false) (fun _ _ _ _ _ => false).
Definition key_x509 : x509 := mkX509 (x_pem ex_x) (x_pem_cert ex_x)
  (fun d => Some (mkXcert d (ex_spki d) []))
  (x_csr ex_x) (x_signed ex_x) (x_sequence ex_x) (x_octets ex_x) (x_bits ex_x) (x_integer ex_x) (x_p256_asn1 ex_x).
Definition slot_state : Type := option key_info * option slot_cert.
Definition cert_for (i : key_info) (name : bytes) : slot_cert :=
  mkSlotCert (match i with PkiP256 p => p | PkiP384 p => p | PkiRsa => [] end) i name.
Definition store_yk (lost : bool) : yubikey N slot_state := mkYubikey N slot_state
  (fun h => h) (fun n s => (Some n, s)) (fun _ s => (None, s)) (fun _ _ s => (Some tt, s)) (fun _ => true) (fun _ _ s => (Some tt, s))
  (fun h sl s => ((if here h sl then snd s else None), s))
  (fun h sl _ _ _ s => if here h sl then (Some (PkiP256 [x03]), (Some (PkiP256 [x03]), snd s)) else (None, s))
  (fun h sl _ nm i s => if here h sl && negb lost then (Some tt, (fst s, Some (cert_for i nm))) else (None, s))
  (fun h _ a sl s => ((if here h sl then match fst s, a with
                       | Some (PkiP256 [x02]), EccP256 => Some (der_with x02)
                       | Some (PkiP256 [x03]), EccP256 => Some (der_with x03)
                       | _, _ => None end else None), s))
  (fun s => (Some 7%N, s)) (fun _ => true)
  (fun h sl d s => if here h sl then (Some tt, (fst s, Some (cert_for (PkiP256 d) []))) else (None, s))
  (fun _ _ s => (None, s)).
Definition store_view : slots slot_state := mkSlots slot_state
  (fun s n sl => if here n sl then fst s else None) (fun s n sl => if here n sl then snd s else None).
Lemma store_parsers b nm : parsers_agree key_crypto key_x509 (cert_for (PkiP256 [b]) nm).
Proof.
  intros oid alg hash verify len view point P. split.
  - intros E. destruct P; [|discriminate]. injection E as <-. eexists. repeat split; reflexivity.
  - intros (xc & E1 & E2 & E3 & E4). injection E1 as <-. destruct P; [|discriminate]. cbn in E4. subst point. reflexivity.
Qed.
Definition old_slot : slot_state := (Some (PkiP256 [x02]), Some (cert_for (PkiP256 [x02]) (s2b "old"))).
Example C98_case : exists k blob s',
  consistent store_view old_slot 7%N 156%N
  /\ run_calls (store_yk false) ex_rcgen key_x509 key_crypto
       [CWrite 157%N [x01]; CProvision 156%N (s2b "me") EccP256 1%N 2%N; CSshSign (s2b "m") 156%N] 7%N old_slot
     = ([Err (EYubikeyPIVError PInternal); Ok (VKey k); Ok (VBytes blob)], 7%N, s')
  /\ s' = (Some (PkiP256 [x03]), Some (cert_for (PkiP256 [x03]) (s2b "me")))
  /\ (forall c, cert_in store_view s' 7%N 156%N = Some c -> parsers_agree key_crypto key_x509 c)
  /\ verify_signature key_crypto blob (s2b "m") k = Ok blob.
Proof.
  do 3 eexists. split; [intros c [= <-]; reflexivity|]. split; [vm_compute; reflexivity|]. split; [reflexivity|].
  split; [intros c [= <-]; apply store_parsers|]. vm_compute. reflexivity.
Qed.

(** If power is lost between the two steps of provisioning, the slot keeps the old certificate for a
    new key. Signing then succeeds, with signatures that do not verify under the key reported. *)
Theorem C98_crash_refuted : exists (s' : slot_state) (k : pubkey) (blob : bytes),
  consistent store_view old_slot 7%N 156%N
  /\ run_calls (store_yk true) ex_rcgen key_x509 key_crypto [CProvision 156%N (s2b "me") EccP256 1%N 2%N] 7%N old_slot
     = ([Err (EYubikeyPIVError PInternal)], 7%N, s')
  /\ ~ consistent store_view s' 7%N 156%N
  /\ ssh_cert_fetch_pubkey (store_yk true) key_x509 7%N 156%N s' = (Ok k, s')
  /\ ssh_cert_signer (store_yk true) key_x509 key_crypto 7%N (s2b "m") 156%N s' = (Ok blob, s')
  /\ verify_signature key_crypto blob (s2b "m") k <> Ok blob.
Proof.
  do 3 eexists. split; [intros c [= <-]; reflexivity|]. split; [vm_compute; reflexivity|].
  split; [intros Hc; specialize (Hc _ eq_refl); discriminate|]. split; [vm_compute; reflexivity|]. split; [vm_compute; reflexivity|].
  vm_compute. discriminate.
Qed.
Print Assumptions C98_crash_refuted.

(** Writing the certificate of another key has the same effect, and reports success. *)
Theorem C98_foreign_certificate_refuted : exists (s' : slot_state) (k : pubkey) (blob : bytes),
  run_calls (store_yk false) ex_rcgen key_x509 key_crypto [CWrite 156%N [x03]] 7%N old_slot = ([Ok VUnit], 7%N, s')
  /\ ~ consistent store_view s' 7%N 156%N
  /\ ssh_cert_fetch_pubkey (store_yk false) key_x509 7%N 156%N s' = (Ok k, s')
  /\ ssh_cert_signer (store_yk false) key_x509 key_crypto 7%N (s2b "m") 156%N s' = (Ok blob, s')
  /\ verify_signature key_crypto blob (s2b "m") k <> Ok blob.
Proof.
  do 3 eexists. split; [vm_compute; reflexivity|].
  split; [intros Hc; specialize (Hc _ eq_refl); discriminate|]. split; [vm_compute; reflexivity|]. split; [vm_compute; reflexivity|].
  vm_compute. discriminate.
Qed.
Print Assumptions C98_foreign_certificate_refuted.

(** Properties C81-C88: YubiKey slots. *)
From Coq Require Import Permutation Lia.
From Verif Require Import Base BaseFacts SpecWire SpecKeys SpecSig SpecSign KeyType KeyTypeFacts PubKeyType Writer WriterFacts Crypto
  PubKeyFacts Signature PropSignature Utils UtilsFacts Cert SpecCert PropCert PropIssue TbsFacts PropSign X509 SpecX509 X509Facts PropX509 Piv SpecPiv PropPrivKey.

(** ** C81 *)
Theorem C81_sign_data : forall (H S : Type) (D : yubikey H S) (C : crypto) (h : H) (data : bytes) (alg : algorithm_id) (sl : slot)
  (s s' : S) (r : res bytes),
  sign_data D C h data alg sl s = (r, s') <->
  (y_read D h sl s = (None, s') /\ r = Err (EYubikeyPIVError PUnprovisioned))
  \/ exists c s1, y_read D h sl s = (Some c, s1)
     /\ ((forall hash, ~ slot_signs C (sc_info c) alg hash) /\ r = Err (EYubikeyPIVError PWrongKeyType) /\ s' = s1
         \/ exists hash o, slot_signs C (sc_info c) alg hash /\ y_sign D h (hash data) alg sl s1 = (o, s') /\ r = answer o).
Proof.
  intros H S D C h data alg sl s s' r. unfold sign_data, configured_slot, ybind, yop, yret, yerr.
  destruct (y_read D h sl s) as [[c|] s1].
  2:{ split; [intros [= <- <-]; left; auto|]. intros [[[= <-] ->]|(c & s2 & E & _)]; [reflexivity|discriminate]. }
  assert (Q : forall (hash : bytes -> bytes) (a : algorithm_id),
     (forall hash', slot_signs C (sc_info c) alg hash' <-> a = alg /\ hash' = hash) ->
     (if negb (algorithm_eqb a alg) then (Err (EYubikeyPIVError PWrongKeyType), s1)
      else match y_sign D h (hash data) alg sl s1 with (Some g, t) => (Ok g, t) | (None, t) => (Err (EYubikeyPIVError PInternal), t) end) = (r, s') <->
     ((Some c, s1) = (None, s') /\ r = Err (EYubikeyPIVError PUnprovisioned)
      \/ exists c' s2, (Some c, s1) = (Some c', s2)
         /\ ((forall hash, ~ slot_signs C (sc_info c') alg hash) /\ r = Err (EYubikeyPIVError PWrongKeyType) /\ s' = s2
             \/ exists hash o, slot_signs C (sc_info c') alg hash /\ y_sign D h (hash data) alg sl s2 = (o, s') /\ r = answer o))).
  { intros hash a Ha. destruct (algorithm_eqb a alg) eqn:Ea; cbn [negb].
    - assert (a = alg) by (destruct a, alg; (reflexivity || discriminate)). subst a.
      assert (Hs : slot_signs C (sc_info c) alg hash) by (apply Ha; auto). split.
      + intros E. right. exists c, s1. split; [reflexivity|right]. exists hash.
        destruct (y_sign D h (hash data) alg sl s1) as [[g|] t]; injection E as <- <-; [exists (Some g)|exists None]; auto.
      + intros [[E _]|(c' & s2 & E & [(N & _)|(h' & o & H1 & H2 & ->)])]; [discriminate|..]; injection E as <- <-; [exfalso; exact (N _ Hs)|].
        apply Ha in H1. destruct H1 as [_ ->]. rewrite H2. destruct o; reflexivity.
    - assert (Hn : a <> alg) by (intros ->; destruct alg; discriminate). split.
      + intros [= <- <-]. right. exists c, s1. split; [reflexivity|left]. split; [|auto]. intros h' Hh. apply Ha in Hh. tauto.
      + intros [[E _]|(c' & s2 & E & [(_ & -> & ->)|(h' & o & H1 & _)])]; [discriminate|..]; injection E as <- <-; [reflexivity|].
        apply Ha in H1. tauto. }
  destruct (sc_info c) as [|p|p] eqn:Ei; cbn beta iota zeta.
  - apply (Q (c_sha256 C) Rsa2048). intros h'. split; [inversion 1; auto|intros [<- ->]; constructor].
  - apply (Q (c_sha256 C) EccP256). intros h'. split; [inversion 1; auto|intros [<- ->]; constructor].
  - apply (Q (c_sha384 C) EccP384). intros h'. split; [inversion 1; auto|intros [<- ->]; constructor].
Qed.
Print Assumptions C81_sign_data.

(** A device for the examples: the state counts the operations, and what is read from a slot may
    depend on it. The parser knows two certificates, one per curve. *)
Definition ex_x2 : x509 := mkX509 (x_pem ex_x) (x_pem_cert ex_x)
  (fun d => if bytes_eqb d [x02] then Some ex_inter
            else if bytes_eqb d [x06] then Some (mkXcert [x06] (mkSpki ec_oid (Some (Some (s2b "1.3.132.0.34"))) [x06]) [])
            else if bytes_eqb d [x08] then Some (mkXcert [x08] (mkSpki rsa_oid None [x08]) []) else None)
  (x_csr ex_x) (x_signed ex_x) (x_sequence ex_x) (x_octets ex_x) (x_bits ex_x) (x_integer ex_x) (x_p256_asn1 ex_x).
Definition cert256 : slot_cert := mkSlotCert [x02] (PkiP256 [x02]) (s2b "CN=a").
Definition cert384 : slot_cert := mkSlotCert [x06] (PkiP384 [x06]) (s2b "CN=b").
Definition ex_yk (certs : nat -> option slot_cert) : yubikey N nat := mkYubikey N nat
  (fun h => h)
  (fun n s => ((if (n =? 7)%N then Some n else None), S s))
  (fun h s => (None, S s))
  (fun _ pin s => ((if bytes_eqb pin (s2b "1234") then Some tt else None), S s))
  (fun k => length k =? 24)
  (fun _ _ s => (Some tt, S s))
  (fun _ _ s => (certs s, S s))
  (fun _ _ a _ _ s => ((match a with EccP256 => Some (PkiP256 [x02]) | EccP384 => Some (PkiP384 [x06]) | _ => None end), S s))
  (fun _ _ _ _ info s => ((match info with PkiP256 _ => Some tt | _ => None end), S s))
  (fun _ _ a _ s => ((match a with EccP256 => Some der12 | EccP384 => Some der34 | _ => None end), S s))
  (fun s => (Some 7%N, S s)) (fun d => length d =? 1) (fun _ _ _ s => (Some tt, S s)) (fun _ sl s => ((if (sl =? 156)%N then Some [x0a] else None), S s)).

Example C81_case :
  sign_data (ex_yk (fun _ => Some cert384)) toy_crypto 7%N (s2b "m") EccP384 156%N 0 = (Ok der34, 2)
  /\ sign_data (ex_yk (fun _ => Some cert384)) toy_crypto 7%N (s2b "m") EccP256 156%N 0 = (Err (EYubikeyPIVError PWrongKeyType), 1)
  /\ sign_data (ex_yk (fun _ => None)) toy_crypto 7%N (s2b "m") EccP256 156%N 0 = (Err (EYubikeyPIVError PUnprovisioned), 1).
Proof. repeat split. Qed.

(** ** C83 *)
(** What the key of a slot is, and which error is given for a slot without one. *)
Theorem C83_fetch_key : forall (H S : Type) (D : yubikey H S) (X : x509) (h : H) (sl : slot) (s s' : S) (r : res pubkey),
  ssh_cert_fetch_pubkey D X h sl s = (r, s') <->
  (y_read D h sl s = (None, s') /\ r = Err (EYubikeyPIVError PInternal))
  \/ exists c, y_read D h sl s = (Some c, s')
     /\ ((exists oid point k, slot_key X c oid point /\ curve_key oid point k /\ r = Ok k)
         \/ (exists oid point, slot_key X c oid point /\ other_curve oid) /\ r = Err (EYubikeyPIVError PWrongKeyType)
         \/ (exists xc, x_cert X (sc_der c) = Some xc /\ sp_algorithm (xc_spki xc) = rsa_oid) /\ r = Err (EYubikeyPIVError PUnsupported)
         \/ (forall oid point, ~ slot_key X c oid point)
            /\ (forall xc, x_cert X (sc_der c) = Some xc -> sp_algorithm (xc_spki xc) <> rsa_oid)
            /\ r = Err (EYubikeyPIVError PParsingError)).
Proof.
  intros H S D X h sl s s' r. unfold ssh_cert_fetch_pubkey, fetch_certificate, ybind, yop, yret, yerr.
  destruct (y_read D h sl s) as [[c|] s1].
  2:{ split; [intros [= <- <-]; left; auto|]. intros [[[= <-] ->]|(c & E & _)]; [reflexivity|discriminate]. }
  assert (Q : forall r0, (forall r1, ((exists oid point k, slot_key X c oid point /\ curve_key oid point k /\ r1 = Ok k)
         \/ (exists oid point, slot_key X c oid point /\ other_curve oid) /\ r1 = Err (EYubikeyPIVError PWrongKeyType)
         \/ (exists xc, x_cert X (sc_der c) = Some xc /\ sp_algorithm (xc_spki xc) = rsa_oid) /\ r1 = Err (EYubikeyPIVError PUnsupported)
         \/ (forall oid point, ~ slot_key X c oid point)
            /\ (forall xc, x_cert X (sc_der c) = Some xc -> sp_algorithm (xc_spki xc) <> rsa_oid)
            /\ r1 = Err (EYubikeyPIVError PParsingError)) <-> r1 = r0) ->
     ((r0, s1) = (r, s') <-> ((Some c, s1) = (None, s') /\ r = Err (EYubikeyPIVError PInternal))
       \/ exists c0, (Some c, s1) = (Some c0, s') /\ ((exists oid point k, slot_key X c0 oid point /\ curve_key oid point k /\ r = Ok k)
         \/ (exists oid point, slot_key X c0 oid point /\ other_curve oid) /\ r = Err (EYubikeyPIVError PWrongKeyType)
         \/ (exists xc, x_cert X (sc_der c0) = Some xc /\ sp_algorithm (xc_spki xc) = rsa_oid) /\ r = Err (EYubikeyPIVError PUnsupported)
         \/ (forall oid point, ~ slot_key X c0 oid point)
            /\ (forall xc, x_cert X (sc_der c0) = Some xc -> sp_algorithm (xc_spki xc) <> rsa_oid)
            /\ r = Err (EYubikeyPIVError PParsingError)))).
  { intros r0 HQ. split.
    - intros [= <- <-]. right. exists c. split; [reflexivity|]. apply HQ. reflexivity.
    - intros [[E _]|(c0 & E & HR)]; [discriminate|]. injection E as <- <-. apply HQ in HR. congruence. }
  assert (NE : rsa_oid <> ec_oid) by discriminate.
  destruct (x509_cert_key X (sc_der c)) as [k|e|] eqn:Ek.
  - apply (Q (Ok k)). apply C74_certificate_keys in Ek. destruct Ek as (xc & oid & E1 & [E2 E3] & E4).
    intros r1. split.
    + intros [(o & p & k' & (xc' & F1 & F2 & F3 & F4) & F5 & ->)|[((o & p & (xc' & F1 & F2 & F3 & F4) & F5) & ->)|[((xc' & F1 & F2) & ->)|(F1 & _)]]].
      * assert (xc' = xc) by congruence. subst xc'. assert (o = oid) by congruence. subst o p.
        apply ecdsa_key_ok in E4, F5. congruence.
      * assert (xc' = xc) by congruence. subst xc'. assert (o = oid) by congruence. subst o p.
        apply ecdsa_key_ok in E4. rewrite (ecdsa_key_other _ _ F5) in E4. discriminate.
      * congruence.
      * exfalso. apply (F1 oid (sp_key (xc_spki xc))). exists xc. auto.
    + intros ->. left. exists oid, (sp_key (xc_spki xc)), k. split; [exists xc; auto|auto].
  - destruct (C74_errors X (sc_der c)) as (_ & He & _). apply He in Ek. clear He.
    assert (U : forall xc, x_cert X (sc_der c) = Some xc -> forall oid point, slot_key X c oid point ->
       sp_algorithm (xc_spki xc) = ec_oid /\ sp_parameters (xc_spki xc) = Some (Some oid) /\ sp_key (xc_spki xc) = point).
    { intros xc E oid point (xc' & F & G). assert (xc' = xc) by congruence. subst xc'. exact G. }
    destruct Ek as [[E1 ->]|(xc & E1 & [[E2 ->]|[(E2 & (oid & E3 & E4) & ->)|[(E2 & E3 & ->)|(E2 & E3 & ->)]]])].
    + apply (Q (Err (EYubikeyPIVError PParsingError))). intros r1. split.
      * intros [(o & p & k' & (xc' & F1 & _) & _)|[((o & p & (xc' & F1 & _) & _) & ->)|[((xc' & F1 & F2) & ->)|(_ & _ & ->)]]]; try congruence.
      * intros ->. right. right. right. split; [intros o p (xc' & F1 & _); congruence|]. split; [congruence|reflexivity].
    + apply (Q (Err (EYubikeyPIVError PUnsupported))). intros r1. split.
      * intros [(o & p & k' & F & _)|[((o & p & F & _) & ->)|[(_ & ->)|(_ & F & _)]]].
        -- destruct (U _ E1 _ _ F) as [F' _]. congruence.
        -- destruct (U _ E1 _ _ F) as [F' _]. congruence.
        -- reflexivity.
        -- exfalso. exact (F _ E1 E2).
      * intros ->. right. right. left. eauto.
    + apply (Q (Err (EYubikeyPIVError PWrongKeyType))). intros r1. split.
      * intros [(o & p & k' & F & F5 & _)|[(_ & ->)|[((xc' & F1 & F2) & ->)|(F & _)]]].
        -- destruct (U _ E1 _ _ F) as (_ & F3 & _). assert (o = oid) by congruence. subst o.
           apply ecdsa_key_ok in F5. rewrite (ecdsa_key_other _ _ E4) in F5. discriminate.
        -- reflexivity.
        -- congruence.
        -- exfalso. apply (F oid (sp_key (xc_spki xc))). exists xc. auto.
      * intros ->. right. left. split; [|reflexivity]. exists oid, (sp_key (xc_spki xc)). split; [exists xc; auto|exact E4].
    + apply (Q (Err (EYubikeyPIVError PParsingError))). intros r1. split.
      * intros [(o & p & k' & F & _)|[((o & p & F & _) & ->)|[((xc' & F1 & F2) & ->)|(_ & _ & ->)]]].
        -- destruct (U _ E1 _ _ F) as (_ & F3 & _). exfalso. exact (E3 _ F3).
        -- destruct (U _ E1 _ _ F) as (_ & F3 & _). exfalso. exact (E3 _ F3).
        -- congruence.
        -- reflexivity.
      * intros ->. right. right. right. split; [|split; [congruence|reflexivity]].
        intros o p F. destruct (U _ E1 _ _ F) as (_ & F3 & _). exact (E3 _ F3).
    + apply (Q (Err (EYubikeyPIVError PParsingError))). intros r1. split.
      * intros [(o & p & k' & F & _)|[((o & p & F & _) & ->)|[((xc' & F1 & F2) & ->)|(_ & _ & ->)]]].
        -- destruct (U _ E1 _ _ F) as (F3 & _). contradiction.
        -- destruct (U _ E1 _ _ F) as (F3 & _). contradiction.
        -- congruence.
        -- reflexivity.
      * intros ->. right. right. right. split; [|split; [congruence|reflexivity]].
        intros o p F. destruct (U _ E1 _ _ F) as (F3 & _). contradiction.
  - exfalso. destruct (C74_errors X (sc_der c)) as ((N & _) & _). exact (N Ek).
Qed.
Print Assumptions C83_fetch_key.
Example C83_case :
  (exists k, fst (ssh_cert_fetch_pubkey (ex_yk (fun _ => Some cert256)) ex_x2 7%N 156%N 0) = Ok k /\ pk_kind k = PkEcdsa (mkCurve Nistp256 (s2b "nistp256")) [x02] None)
  /\ ssh_cert_fetch_pubkey (ex_yk (fun _ => Some (mkSlotCert [x08] PkiRsa []))) ex_x2 7%N 156%N 0 = (Err (EYubikeyPIVError PUnsupported), 1)
  /\ ssh_cert_fetch_pubkey (ex_yk (fun _ => Some (mkSlotCert [x09] PkiRsa []))) ex_x2 7%N 156%N 0 = (Err (EYubikeyPIVError PParsingError), 1)
  /\ ssh_cert_fetch_pubkey (ex_yk (fun _ => None)) ex_x2 7%N 156%N 0 = (Err (EYubikeyPIVError PInternal), 1).
Proof. split; [eexists; split; reflexivity|]. repeat split. Qed.

(** The key of a curve, as the signer sees it. *)
Lemma curve_key_facts C oid point k : curve_key oid point k ->
  exists alg hash verify len view cv, piv_curve C oid alg hash verify len view
    /\ pk_kind k = PkEcdsa cv point None /\ known (pk_type k) /\ ecdsa_label C (kt_name (pk_type k)) verify len /\ len < 100
    /\ (forall (S : Type), match c_kind cv with Nistp256 => @yret S _ EccP256 | Nistp384 => yret EccP384 | Nistp521 => yerr PUnsupported end = yret alg)
    /\ (forall info hash', slot_signs C info alg hash' <-> hash' = hash /\ exists p, info = view p).
Proof.
  intros (name & id & kind & [E|[E|[]]] & ->); injection E as <- <- <- <-.
  - exists EccP256, (c_sha256 C), (c_p256_verify C), 32, PkiP256, (mkCurve Nistp256 (s2b "nistp256")).
    split; [constructor|]. split; [reflexivity|]. split; [unfold known, key_types; cbn [In pk_type]; tauto|]. split; [constructor|]. split; [lia|]. split; [reflexivity|].
    intros info hash'. split; [inversion 1; eauto|]. intros (-> & p & ->). constructor.
  - exists EccP384, (c_sha384 C), (c_p384_verify C), 48, PkiP384, (mkCurve Nistp384 (s2b "nistp384")).
    split; [constructor|]. split; [reflexivity|]. split; [unfold known, key_types; cbn [In pk_type]; tauto|]. split; [constructor|]. split; [lia|]. split; [reflexivity|].
    intros info hash'. split; [inversion 1; eauto|]. intros (-> & p & ->). constructor.
Qed.
Lemma piv_curve_fun C oid a1 h1 v1 l1 w1 a2 h2 v2 l2 w2 : piv_curve C oid a1 h1 v1 l1 w1 -> piv_curve C oid a2 h2 v2 l2 w2 ->
  a1 = a2 /\ h1 = h2 /\ v1 = v2 /\ l1 = l2 /\ w1 = w2.
Proof. intros A B. destruct A; inversion B; auto. Qed.
Lemma curve_key_fun oid point k k' : curve_key oid point k -> curve_key oid point k' -> k = k'.
Proof. intros A B. apply ecdsa_key_ok in A, B. congruence. Qed.
Lemma slot_key_fun X c o p o' p' : slot_key X c o p -> slot_key X c o' p' -> o = o' /\ p = p'.
Proof. intros (x & A1 & A2 & A3 & A4) (x' & B1 & B2 & B3 & B4). assert (x' = x) by congruence. subst x'. split; congruence. Qed.
Lemma fetch_key_ok {H S} (D : yubikey H S) X h sl s c s' oid point k : y_read D h sl s = (Some c, s') -> slot_key X c oid point -> curve_key oid point k ->
  ssh_cert_fetch_pubkey D X h sl s = (Ok k, s').
Proof. intros E1 E2 E3. apply C83_fetch_key. right. exists c. split; [exact E1|left]. eauto 8. Qed.

(** A slot without a key on one of the two curves is never asked to sign. Whatever is wrong with it,
    the error is the same. *)
Theorem C83_signer_needs_curve : forall (H S : Type) (D : yubikey H S) (X : x509) (C : crypto) (h : H) (m : bytes) (sl : slot) (s s' : S) (o : option slot_cert),
  y_read D h sl s = (o, s') ->
  (forall c oid point k, o = Some c -> slot_key X c oid point -> ~ curve_key oid point k) ->
  ssh_cert_signer D X C h m sl s = (Err (EYubikeyPIVError PUnsupported), s').
Proof.
  intros H S D X C h m sl s s' o Er Hn. unfold ssh_cert_signer, get_ssh_key_type, ybind.
  destruct (ssh_cert_fetch_pubkey D X h sl s) as [r s1] eqn:Ef. apply C83_fetch_key in Ef.
  destruct Ef as [[E ->]|(c & E & [(oid & point & k & E1 & E2 & _)|[[_ ->]|[[_ ->]|(_ & _ & ->)]]])]; rewrite Er in E; injection E as -> ->; try reflexivity.
  exfalso. eapply Hn; [reflexivity|eassumption..].
Qed.
Print Assumptions C83_signer_needs_curve.
(** In particular the signer does not report an empty slot as such. *)
Theorem C83_empty_slot_reported_refuted : exists (D : yubikey N nat) (X : x509) (C : crypto) (h : N) (m : bytes) (sl : slot) (s : nat),
  (forall t, fst (y_read D h sl t) = None) /\ fst (sign_data D C h m EccP256 sl s) = Err (EYubikeyPIVError PUnprovisioned)
  /\ fst (ssh_cert_signer D X C h m sl s) <> Err (EYubikeyPIVError PUnprovisioned).
Proof. exists (ex_yk (fun _ => None)), ex_x2, toy_crypto, 7%N, (s2b "m"), 156%N, 0. split; [reflexivity|]. split; [reflexivity|discriminate]. Qed.
Print Assumptions C83_empty_slot_reported_refuted.
Lemma format_ecdsa_nopanic k c key app g : pk_kind k = PkEcdsa c key app -> format_signature_for_ssh k g <> Panic.
Proof.
  intros E. unfold format_signature_for_ssh, signature_convert_asn1_ecdsa_to_ssh. rewrite E.
  destruct (der_split_cases g) as [(x & r & s & _ & _ & _ & _ & ->)| -> ]; discriminate.
Qed.
(** Nothing the device does makes the signer panic. *)
Theorem C83_never_panics : forall (H S : Type) (D : yubikey H S) (X : x509) (C : crypto) (h : H) (m : bytes) (alg : algorithm_id) (sl : slot) (s : S),
  fst (ssh_cert_fetch_pubkey D X h sl s) <> Panic /\ fst (get_ssh_key_type D X h sl s) <> Panic
  /\ fst (sign_data D C h m alg sl s) <> Panic /\ fst (ssh_cert_signer D X C h m sl s) <> Panic.
Proof.
  intros H S D X C h m alg sl s0.
  assert (F : forall s, fst (ssh_cert_fetch_pubkey D X h sl s) <> Panic /\ forall k s', ssh_cert_fetch_pubkey D X h sl s = (Ok k, s') -> exists c p a, pk_kind k = PkEcdsa c p a).
  { intros s. destruct (ssh_cert_fetch_pubkey D X h sl s) as [r s1] eqn:Ef. apply C83_fetch_key in Ef.
    destruct Ef as [[E ->]|(c & E & [(oid & point & k & E1 & E2 & ->)|[[_ ->]|[[_ ->]|(_ & _ & ->)]]])]; split; try discriminate.
    intros k' s' E3. injection E3 as <- <-. destruct E2 as (n & i & d & _ & ->). cbn. eauto. }
  assert (G : forall s, fst (get_ssh_key_type D X h sl s) <> Panic).
  { intros s. unfold get_ssh_key_type, ybind. destruct (F s) as [F1 F2]. destruct (ssh_cert_fetch_pubkey D X h sl s) as [[k|e|] s1]; [|discriminate|contradiction].
    destruct (F2 k s1 eq_refl) as (c & p & a & ->). destruct (c_kind c); discriminate. }
  assert (Sg : forall a s, fst (sign_data D C h m a sl s) <> Panic).
  { intros a s. destruct (sign_data D C h m a sl s) as [r s1] eqn:E. apply C81_sign_data in E.
    destruct E as [[_ ->]|(c & s2 & _ & [(_ & -> & _)|(hash & [g|] & _ & _ & ->)])]; discriminate. }
  split; [apply F|]. split; [apply G|]. split; [apply Sg|].
  unfold ssh_cert_signer. specialize (G s0). destruct (get_ssh_key_type D X h sl s0) as [[a|e|] s1]; [|discriminate|contradiction].
  unfold ybind. specialize (Sg a s1). destruct (sign_data D C h m a sl s1) as [[g|e|] s2]; [|discriminate|contradiction].
  destruct (F s2) as [F1 F2]. destruct (ssh_cert_fetch_pubkey D X h sl s2) as [[k|e|] s3]; [|discriminate|contradiction].
  destruct (F2 k s3 eq_refl) as (c & p & ap & Ek). pose proof (format_ecdsa_nopanic k c p ap g Ek) as N.
  destruct (format_signature_for_ssh k g) as [[x|]|e|]; [discriminate..|contradiction].
Qed.
Print Assumptions C83_never_panics.

(** ** C82 *)
Theorem C82_signatures_verify : forall (H S : Type) (D : yubikey H S) (X : x509) (C : crypto) (h : H) (sl : slot) (c : slot_cert)
  (oid point : bytes) (k : pubkey) (m blob : bytes) (s s' : S),
  slot_stable D h sl c -> slot_key X c oid point -> curve_key oid point k -> slot_holds C D h sl oid point ->
  ssh_cert_signer D X C h m sl s = (Ok blob, s') ->
  verify_signature C blob m k = Ok blob.
Proof.
  intros H S D X C h sl c oid point k m blob s s' Hst Hk Hc Hh Hs.
  destruct (curve_key_facts C oid point k Hc) as (alg & hash & verify & len & view & cv & P1 & P2 & P3 & P4 & P5 & P6 & P7).
  unfold ssh_cert_signer, get_ssh_key_type, ybind in Hs.
  assert (F : forall t, exists t', ssh_cert_fetch_pubkey D X h sl t = (Ok k, t')).
  { intros t. specialize (Hst t). destruct (y_read D h sl t) as [o t'] eqn:E. cbn in Hst. subst o. exists t'. eapply fetch_key_ok; eassumption. }
  destruct (F s) as (s1 & E1). rewrite E1, P2 in Hs. rewrite P6 in Hs. unfold yret in Hs.
  destruct (sign_data D C h m alg sl s1) as [[g|e|] s2] eqn:E2; [|discriminate..].
  destruct (F s2) as (s3 & E3). rewrite E3 in Hs.
  apply C81_sign_data in E2. destruct E2 as [[_ E2]|(c' & s4 & _ & [(_ & E2 & _)|(hash' & [g'|] & E5 & E6 & E7)])]; [discriminate..| |discriminate].
  injection E7 as <-. apply P7 in E5. destruct E5 as [-> _].
  pose proof (Hh _ _ _ _ _ _ _ _ _ P1 E6) as Hsg.
  destruct (format_ecdsa k cv point None _ len _ _ P2 P3 P5 Hsg) as (pl & r & v & b1 & b2 & fr & fs & H1 & H2 & H3 & H4 & H5 & H6 & H7 & H8).
  rewrite H1 in Hs. injection Hs as <- _. apply C28_accepts_exactly. split; [reflexivity|]. unfold accepted. rewrite P2.
  exists (kt_name (pk_type k)), pl, [], (pk_type k). rewrite app_nil_r. split; [reflexivity|].
  split; [exact H2|]. split; [apply known_name_ok, P3|]. split; [reflexivity|].
  exists verify, len, r, v, b1, b2, [], fr, fs, m. do 6 (split; [assumption|]). split; [reflexivity|exact H8].
Qed.
Print Assumptions C82_signatures_verify.
(** It signs whenever the device does: the digest of the message, with the algorithm of the slot's
    curve; the device's two views of the certificate must agree. *)
Theorem C82_signs : forall (H S : Type) (D : yubikey H S) (X : x509) (C : crypto) (h : H) (sl : slot) (c : slot_cert)
  (oid point : bytes) (k : pubkey) (m : bytes) (s : S) alg hash verify len view,
  slot_stable D h sl c -> slot_key X c oid point -> curve_key oid point k -> slot_holds C D h sl oid point ->
  piv_curve C oid alg hash verify len view -> sc_info c = view point ->
  (forall t, fst (y_sign D h (hash m) alg sl t) <> None) ->
  exists blob s', ssh_cert_signer D X C h m sl s = (Ok blob, s').
Proof.
  intros H S D X C h sl c oid point k m s alg hash verify len view Hst Hk Hc Hh P1 Hi Hy.
  destruct (curve_key_facts C oid point k Hc) as (alg' & hash' & verify' & len' & view' & cv & P1' & P2 & P3 & P4 & P5 & P6 & P7).
  destruct (piv_curve_fun _ _ _ _ _ _ _ _ _ _ _ _ P1' P1) as (-> & -> & -> & -> & ->).
  assert (R : forall t, exists t', y_read D h sl t = (Some c, t')).
  { intros t. specialize (Hst t). destruct (y_read D h sl t) as [o t'] eqn:E. cbn in Hst. subst o. eauto. }
  assert (F : forall t, exists t', ssh_cert_fetch_pubkey D X h sl t = (Ok k, t')).
  { intros t. destruct (R t) as (t' & E). exists t'. eapply fetch_key_ok; eassumption. }
  unfold ssh_cert_signer, get_ssh_key_type, ybind. destruct (F s) as (s1 & E1). rewrite E1, P2, P6. unfold yret.
  destruct (R s1) as (s2 & E2). specialize (Hy s2). destruct (y_sign D h (hash m) alg sl s2) as [[g|] s3] eqn:E3; [|contradiction Hy; reflexivity].
  assert (E4 : sign_data D C h m alg sl s1 = (Ok g, s3)).
  { apply C81_sign_data. right. exists c, s2. split; [exact E2|right]. exists hash, (Some g). split; [apply P7; eauto|]. split; [exact E3|reflexivity]. }
  rewrite E4. destruct (F s3) as (s4 & E5). rewrite E5.
  pose proof (Hh _ _ _ _ _ _ _ _ _ P1 E3) as Hsg.
  destruct (format_ecdsa k cv point None _ len _ _ P2 P3 P5 Hsg) as (pl & r & v & b1 & b2 & fr & fs & H1 & _). rewrite H1. eauto.
Qed.
Print Assumptions C82_signs.
Lemma ex_holds certs h sl oid point : slot_holds toy_crypto (ex_yk certs) h sl oid point.
Proof.
  intros alg hash verify len view m s g s' P E. destruct P; injection E as <- <-.
  - exists 1%N, 2%N, (fixed 32 x01), (fixed 32 x02). repeat (split; [reflexivity|]). split; [split; reflexivity|]. split; [split; reflexivity|]. split; [apply der12_ok|reflexivity].
  - exists 3%N, 4%N, (fixed 48 x03), (fixed 48 x04). repeat (split; [reflexivity|]). split; [split; reflexivity|]. split; [split; reflexivity|]. split; [apply der34_ok|reflexivity].
Qed.
Example C82_case : exists k blob,
  slot_stable (ex_yk (fun _ => Some cert384)) 7%N 156%N cert384 /\ slot_key ex_x2 cert384 (s2b "1.3.132.0.34") [x06]
  /\ curve_key (s2b "1.3.132.0.34") [x06] k /\ slot_holds toy_crypto (ex_yk (fun _ => Some cert384)) 7%N 156%N (s2b "1.3.132.0.34") [x06]
  /\ ssh_cert_signer (ex_yk (fun _ => Some cert384)) ex_x2 toy_crypto 7%N (s2b "m") 156%N 0 = (Ok blob, 4).
Proof.
  do 2 eexists. split; [intros s; reflexivity|]. split; [eexists; repeat split; reflexivity|].
  split; [do 3 eexists; split; [right; left; reflexivity|reflexivity]|]. split; [apply ex_holds|]. vm_compute. reflexivity.
Qed.
(** The key is read again after signing: if the slot changes in between, the signature is labelled
    for the new key and is valid for neither. *)
Theorem C82_changing_slot_refuted : exists (D : yubikey N nat) (X : x509) (C : crypto) (h : N) (sl : slot) (m blob : bytes) (k1 k2 : pubkey),
  (forall oid point, slot_holds C D h sl oid point)
  /\ fst (ssh_cert_fetch_pubkey D X h sl 0) = Ok k1 /\ ssh_cert_signer D X C h m sl 0 = (Ok blob, 4)
  /\ fst (ssh_cert_fetch_pubkey D X h sl 4) = Ok k2
  /\ verify_signature C blob m k1 <> Ok blob /\ verify_signature C blob m k2 <> Ok blob.
Proof.
  exists (ex_yk (fun n => Some (if n <? 3 then cert256 else cert384))), ex_x2, toy_crypto, 7%N, 156%N, (s2b "m"). do 3 eexists.
  split; [intros; apply ex_holds|]. split; [reflexivity|]. split; [vm_compute; reflexivity|]. split; [reflexivity|]. split; vm_compute; discriminate.
Qed.
Print Assumptions C82_changing_slot_refuted.

(** ** C84 *)
(** The signer given to [Certificate::sign] (examples/sign-cert-with-yubikey.rs 41-49): errors of the
    device are [None]. *)
Definition yk_signer {H S} (D : yubikey H S) (X : x509) (C : crypto) (h : H) (sl : slot) (s : S) (m : bytes) : res (option bytes) :=
  match fst (ssh_cert_signer D X C h m sl s) with Ok b => Ok (Some b) | Err _ => Ok None | Panic => Panic end.
Theorem C84_issue : forall (H S : Type) (D : yubikey H S) (X : x509) (C : crypto) (iter : hashmap -> hashmap) (h : H) (sl : slot) (sc : slot_cert)
  (oid point tbs : bytes) (c : cert) (s : S),
  slot_stable D h sl sc -> slot_key X sc oid point -> curve_key oid point (ct_signature_key c) -> slot_holds C D h sl oid point ->
  tbs_certificate iter c = Ok tbs ->
  (exists blob c', cert_sign C iter c (yk_signer D X C h sl s) = Ok c' /\ ct_signature c' = blob /\ ct_serialized c' = tbs ++ field blob
     /\ accepted C (ct_signature_key c) tbs blob)
  \/ cert_sign C iter c (yk_signer D X C h sl s) = Err ESigningError /\ forall blob, fst (ssh_cert_signer D X C h tbs sl s) <> Ok blob.
Proof.
  intros H S D X C iter h sl sc oid point tbs c s H1 H2 H3 H4 Ht. unfold cert_sign, yk_signer. rewrite Ht. cbn [bind].
  pose proof (C83_never_panics H S D X C h tbs EccP256 sl s) as (_ & _ & _ & N).
  destruct (ssh_cert_signer D X C h tbs sl s) as [[blob|e|] s'] eqn:E; cbn [fst bind ok_or]; [left|right; split; [reflexivity|discriminate]|contradiction N; reflexivity].
  pose proof (C82_signatures_verify _ _ D X C h sl sc oid point _ _ _ _ _ H1 H2 H3 H4 E) as Hv.
  exists blob. unfold add_signature. rewrite Ht. cbn [bind]. rewrite Hv. cbn [bind].
  eexists. split; [reflexivity|]. split; [reflexivity|]. cbn [ct_serialized]. rewrite write_bytes_field. split; [reflexivity|].
  apply C28_accepts_exactly in Hv. apply Hv.
Qed.
Print Assumptions C84_issue.
Example C84_case : exists c tbs c',
  curve_key (s2b "1.2.840.10045.3.1.7") [x02] (ct_signature_key c) /\ tbs_certificate (@rev _) c = Ok tbs
  /\ slot_key ex_x2 cert256 (s2b "1.2.840.10045.3.1.7") [x02]
  /\ cert_sign toy_crypto (@rev _) c (yk_signer (ex_yk (fun _ => Some cert256)) ex_x2 toy_crypto 7%N 156%N 0) = Ok c'.
Proof.
  destruct (builder (Some [xaa; xbb]) (Some [x00; x00; x00; x00; x00; x00; x00; x01]) ex_subject User
    (mkPubKey (mkKeyType (s2b "ecdsa-sha2-nistp256") (s2b "ECDSA") false false KEcdsa (s2b "ecdsa-sha2-nistp256"))
       (PkEcdsa (mkCurve Nistp256 (s2b "nistp256")) [x02] None) None)) as [c|e|] eqn:E; vm_compute in E; [|discriminate..].
  injection E as Ec. exists c. do 2 eexists. subst c. split; [do 3 eexists; split; [left; reflexivity|reflexivity]|].
  split; [vm_compute; reflexivity|]. split; [eexists; repeat split; reflexivity|]. vm_compute. reflexivity.
Qed.

(** ** C85 *)
(** The key returned is the one generated with the given policies, provided that self-signing
    stores what it is given. *)
Theorem C85_provision : forall (H S : Type) (D : yubikey H S) (X : x509) (C : crypto) (h : H) (sl : slot) (name : bytes) (alg : algorithm_id)
  (touch pin : N) (s s' : S) (r : res pubkey),
  stores C X D h sl ->
  provision D X h sl name alg touch pin s = (r, s') <->
  (y_generate D h sl alg pin touch s = (None, s') /\ r = Err (EYubikeyPIVError PInternal))
  \/ exists info s1, y_generate D h sl alg pin touch s = (Some info, s1)
     /\ ((y_self_sign D h sl (repeat x00 20) name info s1 = (None, s') /\ r = Err (EYubikeyPIVError PInternal))
         \/ exists s2 c oid alg' hash verify len view point k,
              y_self_sign D h sl (repeat x00 20) name info s1 = (Some tt, s2) /\ y_read D h sl s2 = (Some c, s')
              /\ piv_curve C oid alg' hash verify len view /\ info = view point /\ curve_key oid point k /\ r = Ok k).
Proof.
  intros H S D X C h sl name alg touch pin s s' r Hst. unfold provision, ybind, yop.
  destruct (y_generate D h sl alg pin touch s) as [[info|] s1].
  2:{ split; [intros [= <- <-]; left; auto|]. intros [[[= <-] ->]|(c & s2 & E & _)]; [reflexivity|discriminate]. }
  destruct (y_self_sign D h sl (repeat x00 20) name info s1) as [[[]|] s2] eqn:Es.
  - destruct (Hst _ _ _ _ _ Es) as (c & s3 & oid & alg' & hash & verify & len & view & point & E1 & E2 & E3 & E4).
    assert (K : exists k, curve_key oid point k).
    { destruct E2; eexists; do 3 eexists; (split; [cbn [In]|reflexivity]); [left|right; left]; reflexivity. }
    destruct K as (k & Hk). rewrite (fetch_key_ok D X h sl s2 c s3 oid point k E1 E4 Hk). split.
    + intros [= <- <-]. right. exists info, s1. split; [reflexivity|right]. exists s2, c, oid, alg', hash, verify, len, view, point, k. auto 10.
    + intros [[E _]|(i & t & E & [[E' _]|(s2' & c' & oid' & a & hs & v & l & w & p & k' & F1 & F2 & F3 & F4 & F5 & ->)])]; [discriminate|..]; injection E as <- <-.
      * rewrite Es in E'. discriminate.
      * rewrite Es in F1. injection F1 as <-. rewrite E1 in F2. injection F2 as <- <-. f_equal. f_equal.
        subst info. destruct E2; inversion F3; subst; try discriminate; injection F4 as <-; eapply curve_key_fun; eassumption.
  - split.
    + intros [= <- <-]. right. exists info, s1. split; [reflexivity|left; auto].
    + intros [[E _]|(i & t & E & [[E' ->]|(s2' & c' & oid' & a & hs & v & l & w & p & k' & F1 & _)])]; [discriminate|..]; injection E as <- <-.
      * rewrite Es in E'. injection E' as <-. reflexivity.
      * rewrite Es in F1. discriminate.
Qed.
Print Assumptions C85_provision.
(** A device that only stores certificates for one key. *)
Definition ex_yk2 : yubikey N nat := mkYubikey N nat (fun h => h) (fun _ s => (None, S s)) (fun _ s => (None, S s)) (fun _ _ s => (None, S s))
  (fun _ => false) (fun _ _ s => (None, S s)) (fun _ _ s => (Some cert256, S s))
  (fun _ _ a _ _ s => ((match a with EccP256 => Some (PkiP256 [x02]) | EccP384 => Some (PkiP384 [x06]) | _ => None end), S s))
  (fun _ _ _ _ info s => ((match info with PkiP256 [x02] => Some tt | _ => None end), S s)) (fun _ _ _ _ s => (None, S s))
  (fun s => (None, S s)) (fun _ => false) (fun _ _ _ s => (None, S s)) (fun _ _ s => (None, S s)).
Example C85_case : stores toy_crypto ex_x2 ex_yk2 7%N 156%N
  /\ (exists k, provision ex_yk2 ex_x2 7%N 156%N (s2b "me") EccP256 1%N 2%N 0 = (Ok k, 3) /\ pk_kind k = PkEcdsa (mkCurve Nistp256 (s2b "nistp256")) [x02] None)
  /\ provision ex_yk2 ex_x2 7%N 156%N (s2b "me") EccP384 1%N 2%N 0 = (Err (EYubikeyPIVError PInternal), 2)
  /\ provision ex_yk2 ex_x2 7%N 156%N (s2b "me") Rsa2048 1%N 2%N 0 = (Err (EYubikeyPIVError PInternal), 1).
Proof.
  split.
  - intros serial name info s s' E. cbn in E. destruct info as [|[|[] [|]]|]; try discriminate. injection E as <-.
    exists cert256. eexists. do 7 eexists. split; [reflexivity|]. split; [constructor|]. split; [reflexivity|]. exists ex_inter. repeat split.
  - split; [eexists; split; reflexivity|]. split; reflexivity.
Qed.

(** ** C86 *)
Theorem C86_unlock : forall (H S : Type) (D : yubikey H S) (h : H) (pin key : bytes) (s s' : S) (r : res unit),
  unlock D h pin key s = (r, s') <->
  (y_verify_pin D h pin s = (None, s') /\ r = Err (EYubikeyPIVError PInternal))
  \/ exists s1, y_verify_pin D h pin s = (Some tt, s1)
     /\ (y_mgm_key D key = false /\ r = Err (EYubikeyPIVError PInvalidManagementKey) /\ s' = s1
         \/ y_mgm_key D key = true /\ exists o, y_authenticate D h key s1 = (o, s') /\ r = answer o).
Proof.
  intros H S D h pin key s s' r. unfold unlock, ybind, yop, yret, yerr.
  destruct (y_verify_pin D h pin s) as [[[]|] s1].
  2:{ split; [intros [= <- <-]; left; auto|]. intros [[[= <-] ->]|(s2 & E & _)]; [reflexivity|discriminate]. }
  destruct (y_mgm_key D key).
  - destruct (y_authenticate D h key s1) as [o s2] eqn:Ea. split.
    + intros E. right. exists s1. split; [reflexivity|right]. split; [reflexivity|]. exists o.
      destruct o as [[]|]; injection E as <- <-; auto.
    + intros [[E _]|(s3 & E & [(E' & _)|(_ & o' & E1 & ->)])]; [discriminate|discriminate|]. injection E as <-. rewrite Ea in E1. injection E1 as <- <-.
      destruct o as [[]|]; reflexivity.
  - split.
    + intros [= <- <-]. right. exists s1. auto.
    + intros [[E _]|(s3 & E & [(_ & -> & ->)|(E' & _)])]; [discriminate| |discriminate]. injection E as <-. reflexivity.
Qed.
Print Assumptions C86_unlock.
Example C86_case :
  unlock (ex_yk (fun _ => None)) 7%N (s2b "1234") (repeat x01 24) 0 = (Ok tt, 2)
  /\ unlock (ex_yk (fun _ => None)) 7%N (s2b "1234") (repeat x01 23) 0 = (Err (EYubikeyPIVError PInvalidManagementKey), 1)
  /\ unlock (ex_yk (fun _ => None)) 7%N (s2b "4321") (repeat x01 24) 0 = (Err (EYubikeyPIVError PInternal), 1).
Proof. repeat split. Qed.

(** ** C87 *)
Theorem C87_reconnect : forall (H S : Type) (D : yubikey H S) (h h' : H) (s s' : S) (r : res unit),
  reconnect D h s = (r, h', s') <->
  (y_reconnect D h s = (Some tt, s') /\ r = Ok tt /\ h' = h)
  \/ exists s1, y_reconnect D h s = (None, s1)
     /\ (y_open D (y_serial D h) s1 = (Some h', s') /\ r = Ok tt
         \/ y_open D (y_serial D h) s1 = (None, s') /\ r = Err (EYubikeyPIVError PNoSuchYubikey) /\ h' = h).
Proof.
  intros H S D h h' s s' r. unfold reconnect. destruct (y_reconnect D h s) as [[[]|] s1].
  - split; [intros [= <- <- <-]; left; auto|]. intros [([= <-] & -> & ->)|(s2 & E & _)]; [reflexivity|discriminate].
  - destruct (y_open D (y_serial D h) s1) as [[h2|] s2] eqn:Eo.
    + split; [intros [= <- <- <-]; right; exists s1; auto|].
      intros [[E _]|(s3 & E & [[E1 ->]|[E1 _]])]; [discriminate|..]; injection E as <-; rewrite Eo in E1; [|discriminate]. injection E1 as <- <-. reflexivity.
    + split; [intros [= <- <- <-]; right; exists s1; auto|].
      intros [[E _]|(s3 & E & [[E1 _]|(E1 & -> & ->)])]; [discriminate|..]; injection E as <-; rewrite Eo in E1; [discriminate|]. injection E1 as <-. reflexivity.
Qed.
Print Assumptions C87_reconnect.
(** If opening by serial opens a device with that serial, the device never changes. *)
Theorem C87_same_device : forall (H S : Type) (D : yubikey H S) (h h' : H) (s s' : S) (r : res unit),
  (forall n t g t', y_open D n t = (Some g, t') -> y_serial D g = n) ->
  reconnect D h s = (r, h', s') -> y_serial D h' = y_serial D h.
Proof.
  intros H S D h h' s s' r Ho E. apply C87_reconnect in E.
  destruct E as [(_ & _ & ->)|(s1 & _ & [[E _]|(_ & _ & ->)])]; [reflexivity|exact (Ho _ _ _ _ E)|reflexivity].
Qed.
Print Assumptions C87_same_device.
Example C87_case : (forall n t g t', y_open (ex_yk (fun _ => None)) n t = (Some g, t') -> y_serial (ex_yk (fun _ => None)) g = n)
  /\ reconnect (ex_yk (fun _ => None)) 7%N 0 = (Ok tt, 7%N, 2)
  /\ reconnect (ex_yk (fun _ => None)) 8%N 0 = (Err (EYubikeyPIVError PNoSuchYubikey), 8%N, 2).
Proof.
  split; [|split; reflexivity]. intros n t g t'. cbn. destruct (n =? 7)%N; [|discriminate]. intros [= <- _]. reflexivity.
Qed.

(** ** C88 *)
Definition ec_info (info : key_info) (alg : algorithm_id) (point : bytes) : Prop :=
  info = PkiP256 point /\ alg = EccP256 \/ info = PkiP384 point /\ alg = EccP384.
(** When a request is made: the slot's key is read on the open connection and again on a new one, and
    a third connection signs the request for the second key with the same slot. *)
Theorem C88_request : forall (H S : Type) (D : yubikey H S) (R : rcgen) (C : crypto) (h : H) (sl : slot) (name csr : bytes) (s s' : S),
  let n := y_serial D h in
  generate_csr D R C h sl name s = (Ok csr, s') <->
  exists c1 s1 h2 s2 c2 s3 alg p1 p2 tbs h3 s4 sig,
    y_read D h sl s = (Some c1, s1) /\ ec_info (sc_info c1) alg p1
    /\ y_open D n s1 = (Some h2, s2) /\ y_read D h2 sl s2 = (Some c2, s3) /\ ec_info (sc_info c2) alg p2
    /\ r_request R alg name p2 = Some tbs
    /\ y_open D n s3 = (Some h3, s4) /\ sign_data D C h3 tbs alg sl s4 = (Ok sig, s')
    /\ r_finish R alg tbs sig = Some csr.
Proof.
  intros H S D R C h sl name csr s s' n. unfold generate_csr, csr_signer, csr_sign, configured_slot, open_serial, yunwrap, ybind, yop, yret, yerr. fold n.
  split.
  - destruct (y_read D h sl s) as [[c1|] s1] eqn:E1; [|discriminate].
    destruct (sc_info c1) as [|p1|p1] eqn:I1; [discriminate|..];
      (cbn beta iota; destruct (y_open D n s1) as [[h2|] s2] eqn:E2; [|discriminate];
       cbn beta iota; destruct (y_read D h2 sl s2) as [[c2|] s3] eqn:E3; [|discriminate];
       cbn beta iota; destruct (sc_info c2) as [|p2|p2] eqn:I2; cbn beta iota delta [algorithm_eqb negb]; try discriminate).
    all: cbn beta iota; destruct (r_request R _ name p2) as [tbs|] eqn:E4; [|discriminate];
      cbn beta iota; destruct (y_open D n s3) as [[h3|] s4] eqn:E5; [|discriminate];
      cbn beta iota; destruct (sign_data D C h3 tbs _ sl s4) as [[sig|e|] s5] eqn:E6; try discriminate;
      cbn beta iota; destruct (r_finish R _ tbs sig) as [csr'|] eqn:E7; [|discriminate]; intros [= <- <-];
      exists c1, s1, h2, s2, c2, s3; do 3 eexists; exists tbs, h3, s4, sig;
      split; [reflexivity|]; rewrite I1, I2.
    + split; [left; eauto|]. split; [exact E2|]. split; [exact E3|]. split; [left; eauto|]. auto 8.
    + split; [right; eauto|]. split; [exact E2|]. split; [exact E3|]. split; [right; eauto|]. auto 8.
  - intros (c1 & s1 & h2 & s2 & c2 & s3 & alg & p1 & p2 & tbs & h3 & s4 & sig & E1 & I1 & E2 & E3 & I2 & E4 & E5 & E6 & E7).
    rewrite E1. destruct I1 as [[I1 ->]|[I1 ->]], I2 as [[I2 A]|[I2 A]]; try discriminate A;
      rewrite I1, E2, E3, I2; cbn beta iota delta [algorithm_eqb negb]; rewrite E4, E5, E6, E7; reflexivity.
Qed.
Print Assumptions C88_request.
(** A device that keeps its slots gives a request for the slot's key, signed with that key. *)
Theorem C88_signed_by_slot : forall (H S : Type) (D : yubikey H S) (R : rcgen) (C : crypto) (h : H) (sl : slot) (c : slot_cert)
  (oid point : bytes) alg hash verify len view (name csr : bytes) (s s' : S),
  (forall g, slot_stable D g sl c) -> piv_curve C oid alg hash verify len view -> sc_info c = view point ->
  (forall g, slot_holds C D g sl oid point) ->
  generate_csr D R C h sl name s = (Ok csr, s') ->
  exists tbs sig, r_request R alg name point = Some tbs /\ ecdsa_signs verify len point tbs sig /\ r_finish R alg tbs sig = Some csr.
Proof.
  intros H S D R C h sl c oid point alg hash verify len view name csr s s' Hst P Hi Hh E. apply C88_request in E.
  destruct E as (c1 & s1 & h2 & s2 & c2 & s3 & alg' & p1 & p2 & tbs & h3 & s4 & sig & E1 & I1 & E2 & E3 & I2 & E4 & E5 & E6 & E7).
  assert (c2 = c) by (specialize (Hst h2 s2); rewrite E3 in Hst; cbn in Hst; congruence). subst c2.
  assert (A : alg' = alg /\ p2 = point) by (destruct P; rewrite Hi in I2; destruct I2 as [[I2 ->]|[I2 ->]]; split; congruence).
  destruct A as [-> ->]. exists tbs, sig. split; [exact E4|]. split; [|exact E7].
  apply C81_sign_data in E6. destruct E6 as [[_ E6]|(c' & s5 & F1 & [(_ & E6 & _)|(hash' & [g|] & F2 & F3 & F4)])]; [discriminate..| |discriminate].
  injection F4 as <-. assert (hash' = hash) by (destruct P; inversion F2; reflexivity). subst hash'. eapply (Hh h3); [exact P|exact F3].
Qed.
Print Assumptions C88_signed_by_slot.
(** It panics exactly when the slot's key is on a curve but cannot be read so on a new connection. *)
Theorem C88_panics : forall (H S : Type) (D : yubikey H S) (R : rcgen) (C : crypto) (h : H) (sl : slot) (name : bytes) (s : S),
  fst (generate_csr D R C h sl name s) = Panic <->
  exists c1 s1 alg p1 o s2, y_read D h sl s = (Some c1, s1) /\ ec_info (sc_info c1) alg p1
    /\ y_open D (y_serial D h) s1 = (o, s2)
    /\ forall h2 c2 alg' p2, o = Some h2 -> fst (y_read D h2 sl s2) = Some c2 -> ~ ec_info (sc_info c2) alg' p2.
Proof.
  intros H S D R C h sl name s. unfold generate_csr, csr_signer, csr_sign, configured_slot, open_serial, yunwrap, ybind, yop, yret, yerr.
  destruct (y_read D h sl s) as [[c1|] s1] eqn:E1; [|split; [discriminate|intros (c & ? & ? & ? & ? & ? & E & _); discriminate]].
  assert (Sg : forall h3 tbs a t, fst (sign_data D C h3 tbs a sl t) <> Panic).
  { intros h3 tbs a t. destruct (sign_data D C h3 tbs a sl t) as [r t1] eqn:E. apply C81_sign_data in E.
    destruct E as [[_ ->]|(c & s2 & _ & [(_ & -> & _)|(hash & [g|] & _ & _ & ->)])]; discriminate. }
  destruct (sc_info c1) as [|p1|p1] eqn:I1.
  { split; [discriminate|]. intros (c & t & a & p & o & t2 & [= <- <-] & [[I _]|[I _]] & _); congruence. }
  all: cbn beta iota; destruct (y_open D (y_serial D h) s1) as [[h2|] s2] eqn:E2;
    [|split; [intros _; exists c1, s1; do 2 eexists; exists None, s2; rewrite I1; split; [reflexivity|]; split; [first [left; split; reflexivity|right; split; reflexivity]|]; split; [exact E2|discriminate]|reflexivity]];
    cbn beta iota; destruct (y_read D h2 sl s2) as [[c2|] s3] eqn:E3;
    [|split; [intros _; exists c1, s1; do 2 eexists; exists (Some h2), s2; rewrite I1; split; [reflexivity|]; split; [first [left; split; reflexivity|right; split; reflexivity]|]; split; [exact E2|intros h' c' a p' [= <-]; rewrite E3; discriminate]|reflexivity]];
    cbn beta iota; destruct (sc_info c2) as [|p2|p2] eqn:I2; cbn beta iota delta [algorithm_eqb negb];
    try (split; [intros _; exists c1, s1; do 2 eexists; exists (Some h2), s2; rewrite I1; split; [reflexivity|]; split; [first [left; split; reflexivity|right; split; reflexivity]|];
           split; [exact E2|intros h' c' a p' [= <-]; rewrite E3; cbn [fst]; intros [= <-] [[I _]|[I _]]; congruence]|reflexivity]).
  all: split; [|intros (c & t & a & p & o & t2 & [= <- <-] & I & F & N); rewrite E2 in F; injection F as <- <-; exfalso;
      eapply (N h2 c2); [reflexivity|rewrite E3; reflexivity|rewrite I2; first [left; split; reflexivity|right; split; reflexivity]]].
  all: try discriminate.
  all: intros F; exfalso; revert F; cbn beta iota; destruct (r_request R _ name p2) as [tbs|]; [|discriminate];
    cbn beta iota; destruct (y_open D (y_serial D h) s3) as [[h3|] s4]; [|discriminate];
    cbn beta iota; match goal with |- context [sign_data _ _ ?g ?t ?a _ ?u] => specialize (Sg g t a u); destruct (sign_data D C g t a sl u) as [[sig|e|] s5] end;
    [cbn beta iota; destruct (r_finish R _ tbs sig); discriminate|discriminate|cbn in Sg; contradiction].
Qed.
Print Assumptions C88_panics.
Definition ex_rcgen : rcgen := mkRcgen (fun _ name p => Some (name ++ p)) (fun _ tbs sig => Some (tbs ++ sig)).
Example C88_case :
  generate_csr (ex_yk (fun _ => Some cert256)) ex_rcgen toy_crypto 7%N 156%N (s2b "me") 0 = (Ok (s2b "me" ++ [x02] ++ der12), 6)
  /\ generate_csr (ex_yk (fun n => Some (if n <? 2 then cert256 else cert384))) ex_rcgen toy_crypto 7%N 156%N (s2b "me") 0 = (Err (EYubikeyPIVError PInternal), 3)
  /\ generate_csr (ex_yk (fun _ => Some cert256)) ex_rcgen toy_crypto 8%N 156%N (s2b "me") 0 = (Panic, 2).
Proof. repeat split. Qed.
(** So a device that is gone is a panic, not an error. *)
Theorem C88_never_panics_refuted : exists (D : yubikey N nat) (R : rcgen) (C : crypto) (h : N) (sl : slot) (name : bytes) (s : nat),
  fst (open_serial D (y_serial D h) s) = Err (EYubikeyPIVError PNoSuchYubikey) /\ fst (generate_csr D R C h sl name s) = Panic.
Proof. exists (ex_yk (fun _ => Some cert256)), ex_rcgen, toy_crypto, 8%N, 156%N, (s2b "me"), 0. split; reflexivity. Qed.
Print Assumptions C88_never_panics_refuted.

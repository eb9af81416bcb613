(** Properties C107 to C109: the example programs that use a YubiKey. *)
From Coq Require Import Permutation Lia.
From Verif Require Import Base BaseFacts Utf8 Utf8Facts Str StrFacts SpecWire SpecText SpecBase64
  SpecKeys SpecSig SpecSshSig SpecPrivKey SpecSign Base64 Base64Facts Reader ReaderFacts KeyType
  KeyTypeFacts PubKeyType Writer WriterFacts WireFacts Crypto PubKey PubKeyFacts PropKeyType PropPubKey Signature
  SignatureFacts TbsFacts SshSigFacts PropSignature PrivKey PrivKeyFacts Cert CertFacts SpecCert PropCert
  PropCertText PropIssue PropSshSig PropPrivKey PropSign PropDefaults SpecFiles Files CutFacts PropFiles
  Utils X509 SpecX509 PropX509 Piv SpecPiv PropPiv PivCalls SpecPivCalls PropPivCalls Show SpecShow ShowFacts SpecTools Tools PropTools PropSlots.

(** ** Steps *)
Section Steps.
Context {H S : Type} (D : yubikey H S) (X : x509) (C : crypto).
Lemma ybind_ok {A B} (m : Y S A) (f : A -> Y S B) s b s' : ybind m f s = (Ok b, s') ->
  exists a s1, m s = (Ok a, s1) /\ f a s1 = (Ok b, s').
Proof. unfold ybind. destruct (m s) as [[a|e|] s1]; try discriminate. eauto. Qed.
Lemma yunwrap_ok {A} (m : Y S A) s a s' : yunwrap m s = (Ok a, s') -> m s = (Ok a, s').
Proof. unfold yunwrap. destruct (m s) as [[b|e|] s1]; congruence. Qed.
Lemma ylift_ok {A} (r : res A) (s : S) a s' : ylift r s = (Ok a, s') -> r = Ok a /\ s' = s.
Proof. unfold ylift. intros E. injection E as -> ->. auto. Qed.
Lemma yop_ok {A} (f : S -> option A * S) s a s' : yop f s = (Ok a, s') -> f s = (Some a, s').
Proof. unfold yop. destruct (f s) as [[b|] s1]; congruence. Qed.

(** What a program may ask of the outside. *)
Definition tdoes {A} (m : Y S A) (L : list (tool_op H) -> Prop) : Prop :=
  forall s, exists os, L os /\ snd (m s) = tool_effects D os s.
Lemma tool_effects_app a : forall b s, tool_effects D (a ++ b) s = tool_effects D b (tool_effects D a s).
Proof. induction a as [|o a IH]; intros b s; [reflexivity|]. cbn [tool_effects app]. apply IH. Qed.
Lemma tdoes_weaken {A} (m : Y S A) (L L' : list (tool_op H) -> Prop) : tdoes m L -> (forall os, L os -> L' os) -> tdoes m L'.
Proof. intros Hm Hl s. destruct (Hm s) as (os & Lo & E). eauto. Qed.
Lemma tdoes_nothing {A} (m : Y S A) : (forall s, snd (m s) = s) -> tdoes m (eq []).
Proof. intros E s. exists []. auto. Qed.
Lemma tdoes_bind {A B} (m : Y S A) (f : A -> Y S B) L1 L2 : tdoes m L1 ->
  (forall a, (exists s, fst (m s) = Ok a) -> tdoes (f a) L2) ->
  tdoes (ybind m f) (fun os => exists a b, os = a ++ b /\ L1 a /\ (b = [] \/ L2 b)).
Proof.
  intros Hm Hf s. destruct (Hm s) as (a & La & Ea). unfold ybind. destruct (m s) as [[x|e|] s'] eqn:E; cbn [snd] in Ea.
  - destruct (Hf x) with (s := s') as (b & Lb & Eb); [exists s; rewrite E; reflexivity|]. exists (a ++ b). split; [eauto 6|].
    rewrite tool_effects_app, <- Ea. exact Eb.
  - exists a. split; [exists a, []; rewrite app_nil_r; auto|exact Ea].
  - exists a. split; [exists a, []; rewrite app_nil_r; auto|exact Ea].
Qed.
Lemma tdoes_pure {A B} (r : res A) (f : A -> Y S B) (L : list (tool_op H) -> Prop) : L [] -> (forall a, r = Ok a -> tdoes (f a) L) -> tdoes (ybind (ylift r) f) L.
Proof. intros Hn Hf s. unfold ybind, ylift. destruct r as [a|e|]; [apply Hf; reflexivity|exists []; auto|exists []; auto]. Qed.
Lemma tdoes_unwrap {A} (m : Y S A) L : tdoes m L -> tdoes (yunwrap m) L.
Proof. intros Hm s. destruct (Hm s) as (os & Lo & E). exists os. split; [exact Lo|]. unfold yunwrap. destruct (m s) as [[a|e|] s']; exact E. Qed.
Lemma tdoes_open : tdoes (open_new D) (eq [TOpen]).
Proof. intros s. exists [TOpen]. split; [reflexivity|]. unfold open_new, yop. cbn. destruct (y_open_any D s) as [[a|] s']; reflexivity. Qed.
Lemma effects_tool os : forall s, effects D os s = tool_effects D (map TOp os) s.
Proof. induction os as [|o os IH]; intros s; [reflexivity|]. cbn [effects map tool_effects]. rewrite IH. reflexivity. Qed.
Lemma tdoes_ops {A} (m : Y S A) L : does D m L -> tdoes m (fun os => exists o, L o /\ os = map TOp o).
Proof. intros Hm s. destruct (Hm s) as (os & Lo & E). exists (map TOp os). split; [eauto|]. rewrite E. apply effects_tool. Qed.
Lemma tdoes_all {A B} (m : Y S A) (f : A -> Y S B) P : tdoes m (Forall P) -> (forall a, tdoes (f a) (Forall P)) -> tdoes (ybind m f) (Forall P).
Proof.
  intros Hm Hf. eapply tdoes_weaken; [apply tdoes_bind; [exact Hm|intros a _; apply Hf]|].
  intros os (a & b & -> & Ha & Hb). apply Forall_app. split; [exact Ha|]. destruct Hb as [->|Hb]; auto.
Qed.

Lemma fetched h sl s k s' : ssh_cert_fetch_pubkey D X h sl s = (Ok k, s') ->
  exists c, y_read D h sl s = (Some c, s') /\ cert_ssh_key X c k.
Proof.
  intros E. apply C83_fetch_key in E.
  destruct E as [[_ E]|(c & E & [(oid & point & k' & E1 & E2 & E3)|[[_ E3]|[[_ E3]|(_ & _ & E3)]]])]; try discriminate.
  injection E3 as <-. exists c. split; [exact E|]. exists oid, point. auto.
Qed.
End Steps.

(** ** C107 *)
Lemma tbs_holds_ca iter c tbs : tbs_certificate iter c = Ok tbs ->
  exists sk, pk_encode (ct_signature_key c) = Ok sk /\ length sk <= length tbs.
Proof.
  unfold tbs_certificate. intros H. apply bind_ok in H. destruct H as (n & _ & H).
  apply bind_ok in H. destruct H as (w1 & _ & H). apply bind_ok in H. destruct H as (w2 & _ & H).
  apply bind_ok in H. destruct H as (w3 & _ & H). apply bind_ok in H. destruct H as (sk & Hsk & H). apply ok_inj in H.
  exists sk. split; [exact Hsk|]. rewrite <- H, write_bytes_length. lia.
Qed.
Lemma curve_key_wire oid point k : curve_key oid point k -> known (pk_type k) /\ kt_is_sk (pk_type k) = false
  /\ (exists sk, pk_encode k = Ok sk /\ length point <= length sk)
  /\ (field_ok point -> key_data (pk_type k) (pk_kind k) (enc_kind (pk_kind k))).
Proof.
  intros H. destruct (curve_key_facts lax_crypto oid point k H) as (_ & _ & _ & _ & _ & _ & _ & _ & Kn & _).
  split; [exact Kn|]. clear Kn. destruct H as (name & id & kind & [E|[E|[]]] & ->); injection E as <- <- <- <-; (split; [reflexivity|]; split;
    [eexists; split; [reflexivity|]; rewrite write_bytes_length; lia
    |intros Hf; apply kd_intro; split; [reflexivity|]; split; [unfold good_curve; tauto|]; split; [apply field_ok_fits, Hf|exact I]]).
Qed.
Lemma request_well_typed nonce serial pub ca n principal b : builder nonce serial pub User ca = Ok b -> (n <= u64_max)%N -> utf8_text principal ->
  well_typed (apply_ops b (tool_request n principal)).
Proof.
  intros Hb Hn Hu.
  pose proof (C41_fixed_fields nonce serial pub ca User b [] Hb) as Fx. cbn zeta in Fx. unfold apply_ops in Fx. cbn [fold_left] in Fx.
  destruct Fx as (_ & _ & _ & _ & _ & _ & _ & F8 & _ & _ & F11 & _).
  destruct (request_fields b n principal) as (R1 & R2 & R3 & R4 & R5 & R6 & R7 & _).
  unfold well_typed. rewrite R1, R2, R3, R4, R5, R6, R7, F8, F11. split; [exact Hn|]. split; [vm_compute; discriminate|].
  split; [vm_compute; discriminate|]. split; [apply utf8_valid_iff; reflexivity|]. split; [repeat constructor; exact Hu|].
  split; [split; constructor|]. split; [apply C99_standard_permissions|].
  vm_compute. repeat (constructor; [split; apply utf8_valid_iff; reflexivity|]). constructor.
Qed.
Lemma tool_signed iter nonce serial pub ca n principal b tbs pd cd :
  (forall m, Permutation (iter m) m) ->
  known (pk_type pub) -> key_data (pk_type pub) (pk_kind pub) pd ->
  known (pk_type ca) -> key_data (pk_type ca) (pk_kind ca) cd ->
  builder nonce serial pub User ca = Ok b -> (n <= u64_max)%N -> utf8_text principal ->
  tbs_certificate iter (apply_ops b (tool_request n principal)) = Ok tbs -> (size tbs <= u32_max)%N ->
  exists p, signed_part p tbs /\ certifies n principal pub ca p.
Proof.
  intros P Kp Dp Kc Dc Hb Hn Hu Ht Hs. pose proof (request_well_typed _ _ _ _ _ _ _ Hb Hn Hu) as Wc.
  pose proof (C41_fixed_fields nonce serial pub ca User b [] Hb) as Fx. cbn zeta in Fx. unfold apply_ops in Fx. cbn [fold_left] in Fx.
  destruct Fx as (F1 & F2 & F3 & _ & _ & _ & _ & F8 & _ & _ & F11 & _).
  destruct (request_fields b n principal) as (R1 & R2 & R3 & R4 & R5 & R6 & R7 & R8 & R9 & R10 & R11).
  set (c := apply_ops b (tool_request n principal)) in *.
  assert (Uc : under_construction c).
  { exists nonce, serial, pub, User, ca, (tool_request n principal), b. split; [exact Hb|]. split; [reflexivity|].
    split; eapply encodable_known; eassumption. }
  destruct (under_construction_tbs iter c P Uc Wc tbs Ht Hs) as (pk & pca & Hr & Hc). apply core_signed in Hc.
  exists (issued iter c pk pca). split; [exact Hc|]. clear Hc. revert Hr. generalize (issued iter c pk pca). intros p Hr.
  destruct Hr as (Q1 & Q2 & Q3 & Q4 & Q5 & Q6 & Q7 & Q8 & Q9 & Q10 & Q11 & Q12 & Q13).
  unfold certifies.
  rewrite R1, R2, R3, R4, R5, F8 in *. rewrite R9, F1 in Q3. rewrite R10, F2 in Q13. rewrite R6, F11 in Q10. rewrite R7 in Q11.
  rewrite Q4, Q5, Q6, Q7, Q8, Q9, R8, F3. repeat (split; [reflexivity|]).
  split; [intros k v H; apply Q10 in H; exact H|]. split; [|split; assumption].
  intros k v. rewrite (Q11 k v). apply C99_standard_permissions.
Qed.

Lemma sign_with_adds {S} C iter c sg s c' s' : @cert_sign_with S C iter c sg s = (Ok c', s') -> exists g, add_signature C iter c g = Ok c'.
Proof.
  unfold cert_sign_with. intros E. apply ybind_ok in E. destruct E as (tbs & t & E8 & E). apply ybind_ok in E. destruct E as (og & s4 & _ & E).
  apply ybind_ok in E. destruct E as (g & t' & _ & E). apply ylift_ok in E. exists g. apply E.
Qed.
(** The steps of a run that printed something. *)
Lemma yubikey_steps {H S} (D : yubikey H S) X C iter known_slot nr sr slot_text key principal s text s' :
  sign_cert_with_yubikey D X C iter known_slot nr sr slot_text key principal s = (Ok text, s') ->
  exists sl h s1 s2 ca pub b sg c', slot_parser known_slot slot_text = Ok (Some sl) /\ y_open_any D s = (Some h, s1)
    /\ ssh_cert_fetch_pubkey D X h sl s1 = (Ok ca, s2) /\ pk_from_path key = Ok pub /\ builder nr sr pub User ca = Ok b
    /\ add_signature C iter (apply_ops b (tool_request 18374403900871474942 principal)) sg = Ok c'
    /\ text = cert_display c' ++ [newline].
Proof.
  intros E. unfold sign_cert_with_yubikey in E.
  apply ybind_ok in E. destruct E as (o & t & E1 & E). apply ylift_ok in E1. destruct E1 as [E1 ->].
  apply ybind_ok in E. destruct E as (sl & t & E2 & E). apply ylift_ok in E2. destruct E2 as [E2 ->]. apply unwrap_ok in E2.
  apply ybind_ok in E. destruct E as (h & s1 & E3 & E). apply yunwrap_ok in E3. apply yop_ok in E3.
  apply ybind_ok in E. destruct E as (ca & s2 & E4 & E). apply yunwrap_ok in E4.
  apply ybind_ok in E. destruct E as (pub & t & E5 & E). apply ylift_ok in E5. destruct E5 as [E5 ->]. apply unwrap_ok in E5.
  apply ybind_ok in E. destruct E as (b & t & E6 & E). apply ylift_ok in E6. destruct E6 as [E6 ->]. apply unwrap_ok in E6.
  apply ybind_ok in E. destruct E as (c' & s3 & E7 & E). apply yunwrap_ok in E7.
  destruct (sign_with_adds _ _ _ _ _ _ _ E7) as (sg & E8). clear E7. injection E as E _.
  destruct o as [sl'|]; [|discriminate]. injection E2 as ->.
  exists sl, h, s1, s2, ca, pub, b, sg, c'. do 6 (split; [assumption|]). symmetry. exact E.
Qed.

(** Whatever the program prints is a line that is read as a certificate for the key in the file, with
    the requested contents, signed by the key of the certificate in the named slot of the device that
    was opened first. Signatures are made by whichever device is opened then. *)
Theorem C107_issue : forall (H S : Type) (D : yubikey H S) (X : x509) (C : crypto) (iter : hashmap -> hashmap) (known_slot : N -> bool)
    (nonce_rng serial_rng key : option bytes) (slot_text principal text : bytes) (s s' : S),
  (forall m, Permutation (iter m) m) -> utf8_text principal -> (size text <= u32_max)%N ->
  sign_cert_with_yubikey D X C iter known_slot nonce_rng serial_rng slot_text key principal s = (Ok text, s') ->
  exists sl h s1 s2 c ca pub line p, slot_name slot_text sl /\ known_slot sl = true
    /\ y_open_any D s = (Some h, s1) /\ y_read D h sl s1 = (Some c, s2) /\ cert_ssh_key X c ca
    /\ pk_from_path key = Ok pub /\ text = line ++ [newline]
    /\ cert_from_string C line = Ok p /\ cert_from_path C (Some text) = Ok p
    /\ certifies 18374403900871474942 principal pub ca p.
Proof.
  intros H S D X C iter ks nr sr key st principal text s s' P Hu Hs E.
  apply yubikey_steps in E. destruct E as (sl & h & s1 & s2 & ca & pub & b & sg & c' & E1 & E2 & E3 & E4 & E5 & E6 & E7).
  apply (C105_slot_names ks st) in E1. destruct E1 as [E1 E1']. apply fetched in E3. destruct E3 as (c & E3 & Hk).
  pose proof Hk as (oid & point & _ & Hc). destruct (curve_key_wire _ _ _ Hc) as (Kc & _ & (sk & Hsk & Lp) & Dc).
  destruct (path_key _ _ E4) as [Kp (pd & Dp)].
  assert (Ln : (size (cert_display c') <= u32_max)%N) by (rewrite E7 in Hs; unfold size in *; rewrite app_length in Hs; lia).
  assert (Fp : field_ok point).
  { pose proof E6 as Ha. apply add_signature_iff in Ha. destruct Ha as (tbs & Ht & _ & (_ & _ & _ & _ & _ & Hser)).
    destruct (tbs_holds_ca _ _ _ Ht) as (sk' & Hsk' & L). destruct (request_fields b 18374403900871474942 principal) as (_ & _ & _ & _ & _ & _ & _ & _ & _ & R10 & _).
    rewrite R10 in Hsk'. pose proof (C41_fixed_fields _ _ pub ca User b [] E5) as Fx. cbn zeta in Fx. unfold apply_ops in Fx. cbn [fold_left] in Fx.
    destruct Fx as (_ & F2 & _). rewrite F2, Hsk in Hsk'. apply ok_inj in Hsk'. subst sk'.
    revert Ln. unfold cert_display, size. rewrite !app_length, (proj2 (b64_encode_length _)), Hser, app_length. cbn [length]. intros Ln.
    set (x := length tbs + length (write_bytes sg writer_new)) in *. pose proof (Nat.div_mod (x + 2) 3 ltac:(lia)) as Q.
    pose proof (Nat.mod_upper_bound (x + 2) 3 ltac:(lia)). unfold field_ok, size. unfold x in *. lia. }
  destruct (tool_issue C iter nr sr pub ca 18374403900871474942 principal b sg c' pd _ P Kp Dp Kc (Dc Fp) E5) as (p & Hp & Hpp & Hcert);
    [vm_compute; discriminate|exact Hu|exact E6|exact Ln|].
  exists sl, h, s1, s2, c, ca, pub, (cert_display c'), p. do 7 (split; [assumption|]). split; [exact Hp|]. split; [rewrite E7; exact Hpp|exact Hcert].
Qed.
Print Assumptions C107_issue.

(** It asks the devices only to be opened and for the certificate in the named slot, and for at most
    one signature with that slot. What is signed is such a certificate. No PIN or management key is
    sent and nothing is changed. Without a slot name nothing is done. *)
Definition at_most_one {H} (C : crypto) (sl : slot) (Q : bytes -> Prop) (os : list (tool_op H)) : Prop :=
  Forall (harmless [sl]) os
  \/ exists a o b m, os = a ++ o :: b /\ Forall (harmless [sl]) (a ++ b) /\ signs_digest C sl m o /\ Q m.
Lemma at_most_before {H} C sl Q (a os : list (tool_op H)) : Forall (harmless [sl]) a -> at_most_one C sl Q os -> at_most_one C sl Q (a ++ os).
Proof.
  intros Ha [Ho|(x & o & b & m & -> & F & Sg)]; [left; apply Forall_app; auto|]. right. exists (a ++ x), o, b, m.
  split; [rewrite <- app_assoc; reflexivity|]. split; [rewrite <- app_assoc; apply Forall_app; auto|exact Sg].
Qed.
Lemma tdoes_fresh {H S} (D : yubikey H S) X C sl m (Q : bytes -> Prop) : Q m -> tdoes D (fresh_signer D X C sl m) (at_most_one C sl Q).
Proof.
  intros Hq s. unfold fresh_signer. destruct (tdoes_unwrap D _ _ (tdoes_open D) s) as (os & <- & Eo).
  destruct (yunwrap (open_new D) s) as [[h|e|] s1]; cbn [snd] in Eo.
  2,3: exists [TOpen]; split; [left; repeat constructor|exact Eo].
  destruct (does_ssh_sign D X C h m sl s1) as (os & Lo & E).
  exists (TOpen :: map TOp os). split.
  - change (TOpen :: map TOp os) with ([@TOpen H] ++ map TOp os). apply at_most_before; [repeat constructor|].
    assert (R : forall g, @harmless H [sl] (TOp (DRead g sl))) by (intros g; left; reflexivity).
    destruct Lo as (a & b & -> & Hb & Ha). cbn [map].
    assert (Fb : Forall (harmless [sl]) (map TOp b)) by (destruct Hb as [-> | ->]; repeat constructor; apply R).
    change (at_most_one C sl Q ([TOp (DRead h sl)] ++ map TOp (a ++ b))). apply at_most_before; [repeat constructor|].
    rewrite map_app. destruct Ha as [->|[->|(d & alg & Hd & ->)]]; cbn [map app].
    + left. exact Fb.
    + left. constructor; [apply R|exact Fb].
    + right. exists [TOp (DRead h sl)], (TOp (DSign h d alg sl)), (map TOp b), m. split; [reflexivity|].
      split; [constructor; [apply R|exact Fb]|]. split; [|exact Hq]. exists h, d, alg. split; [reflexivity|exact Hd].
  - destruct (ssh_cert_signer D X C h m sl s1) as [[g|e|] s2]; cbn [snd] in *;
      rewrite E, effects_tool; cbn [tool_effects]; f_equal; exact Eo.
Qed.
Lemma tdoes_then {H S A B} (D : yubikey H S) C sl Q (m : Y S A) (f : A -> Y S B) : tdoes D m (Forall (harmless [sl])) ->
  (forall a, (exists s, fst (m s) = Ok a) -> tdoes D (f a) (at_most_one C sl Q)) -> tdoes D (ybind m f) (at_most_one C sl Q).
Proof.
  intros Hm Hf. eapply tdoes_weaken; [apply tdoes_bind; [exact Hm|exact Hf]|]. intros os (a & b & -> & Fa & Hb).
  apply at_most_before; [exact Fa|]. destruct Hb as [->|Hb]; [left; constructor|exact Hb].
Qed.
Lemma tdoes_after {H S A B} (D : yubikey H S) L (m : Y S A) (f : A -> Y S B) : tdoes D m L -> (forall a s, snd (f a s) = s) -> tdoes D (ybind m f) L.
Proof.
  intros Hm Hf. eapply tdoes_weaken; [apply tdoes_bind; [exact Hm|intros a _; apply tdoes_nothing, Hf]|].
  intros os (a & b & -> & La & [-> | <-]); rewrite app_nil_r; exact La.
Qed.
Lemma tdoes_sign_with {H S} (D : yubikey H S) X C iter c sl (Q : bytes -> Prop) : (forall tbs, tbs_certificate iter c = Ok tbs -> Q tbs) ->
  tdoes D (cert_sign_with C iter c (fresh_signer D X C sl)) (at_most_one C sl Q).
Proof.
  intros Hq. unfold cert_sign_with. apply tdoes_pure; [left; constructor|]. intros tbs Ht.
  apply tdoes_after; [apply tdoes_fresh, Hq, Ht|]. intros o s. unfold ybind, ylift. destruct o; reflexivity.
Qed.
Lemma tdoes_fetch {H S} (D : yubikey H S) X h sl : tdoes D (ssh_cert_fetch_pubkey D X h sl) (Forall (harmless [sl])).
Proof.
  eapply tdoes_weaken; [apply tdoes_ops, does_pubkey|]. intros os (o & <- & ->). repeat constructor.
Qed.
Theorem C107_operations : forall (H S : Type) (D : yubikey H S) (X : x509) (C : crypto) (iter : hashmap -> hashmap) (known_slot : N -> bool)
    (nonce_rng serial_rng key : option bytes) (slot_text principal : bytes) (r : res bytes) (s s' : S),
  (forall m, Permutation (iter m) m) -> utf8_text principal ->
  sign_cert_with_yubikey D X C iter known_slot nonce_rng serial_rng slot_text key principal s = (r, s') ->
  exists os, s' = tool_effects D os s
    /\ (os = [] \/ exists sl, slot_name slot_text sl /\ known_slot sl = true
        /\ (Forall (harmless [sl]) os
            \/ exists a o b tbs, os = a ++ o :: b /\ Forall (harmless [sl]) (a ++ b) /\ signs_digest C sl tbs o
                 /\ ((size tbs <= u32_max)%N -> exists c ca pub p, cert_ssh_key X c ca /\ pk_from_path key = Ok pub
                       /\ signed_part p tbs /\ certifies 18374403900871474942 principal pub ca p))).
Proof.
  intros H S D X C iter ks nr sr key st principal r s s' P Hu E.
  assert (T : tdoes D (sign_cert_with_yubikey D X C iter ks nr sr st key principal) (fun os => os = [] \/ exists sl, slot_name st sl /\ ks sl = true
    /\ at_most_one C sl (fun tbs => (size tbs <= u32_max)%N -> exists c ca pub p, cert_ssh_key X c ca /\ pk_from_path key = Ok pub
         /\ signed_part p tbs /\ certifies 18374403900871474942 principal pub ca p) os)).
  { clear E. unfold sign_cert_with_yubikey. apply tdoes_pure; [auto|]. intros o Ho. apply tdoes_pure; [auto|]. intros sl Hsl.
    apply unwrap_ok in Hsl. destruct o as [sl'|]; [|discriminate]. injection Hsl as ->. apply (C105_slot_names ks st) in Ho.
    eapply tdoes_weaken; [|intros os L; right; exists sl; split; [apply Ho|split; [apply Ho|exact L]]].
    apply tdoes_then; [eapply tdoes_weaken; [apply tdoes_unwrap, tdoes_open|intros os <-; repeat constructor]|]. intros h _.
    apply tdoes_then; [apply tdoes_unwrap, tdoes_fetch|]. intros ca (t & Hca).
    assert (exists c, cert_ssh_key X c ca) as (c & Hc).
    { destruct (yunwrap (ssh_cert_fetch_pubkey D X h sl) t) as [r' t'] eqn:E. cbn in Hca. subst r'. apply yunwrap_ok in E.
      apply fetched in E. destruct E as (c & _ & Hc). eauto. }
    apply tdoes_pure; [left; constructor|]. intros pub Hpub. apply unwrap_ok in Hpub.
    apply tdoes_pure; [left; constructor|]. intros b Hb. apply unwrap_ok in Hb.
    apply tdoes_after; [|reflexivity]. apply tdoes_unwrap, tdoes_sign_with. intros tbs Ht Hs.
    pose proof Hc as (oid & point & _ & Hck). destruct (curve_key_wire _ _ _ Hck) as (Kc & _ & (sk & Hsk & Lp) & Dc).
    destruct (path_key _ _ Hpub) as [Kp (pd & Dp)].
    assert (Fp : field_ok point).
    { destruct (tbs_holds_ca _ _ _ Ht) as (sk' & Hsk' & L). destruct (request_fields b 18374403900871474942 principal) as (_ & _ & _ & _ & _ & _ & _ & _ & _ & R10 & _).
      rewrite R10 in Hsk'. pose proof (C41_fixed_fields _ _ pub ca User b [] Hb) as Fx. cbn zeta in Fx. unfold apply_ops in Fx. cbn [fold_left] in Fx.
      destruct Fx as (_ & F2 & _). rewrite F2, Hsk in Hsk'. apply ok_inj in Hsk'. subst sk'. unfold field_ok, size in *. lia. }
    destruct (tool_signed iter nr sr pub ca 18374403900871474942 principal b tbs pd _ P Kp Dp Kc (Dc Fp) Hb) as (p & Hp1 & Hp2);
      [vm_compute; discriminate|exact Hu|exact Ht|exact Hs|]. exists c, ca, pub, p. auto. }
  destruct (T s) as (os & L & Eo). rewrite E in Eo. exists os. split; [exact Eo|exact L].
Qed.
Print Assumptions C107_operations.

(** It prints if the slot is named, the files can be read, random bytes are available, and every
    device that answers holds the same key in that slot and signs. *)
Lemma ybind_step {S A B} (m : Y S A) (f : A -> Y S B) s a s1 : m s = (Ok a, s1) -> ybind m f s = f a s1.
Proof. intros E. unfold ybind. rewrite E. reflexivity. Qed.
Lemma ylift_step {S A B} (r : res A) (f : A -> Y S B) (s : S) a : r = Ok a -> ybind (ylift r) f s = f a s.
Proof. intros ->. reflexivity. Qed.
Lemma yunwrap_step {S A} (m : Y S A) s a s1 : m s = (Ok a, s1) -> yunwrap m s = (Ok a, s1).
Proof. intros E. unfold yunwrap. rewrite E. reflexivity. Qed.
Lemma sign_with_step {S} C iter c (sg : bytes -> Y S (option bytes)) s tbs blob s1 : tbs_certificate iter c = Ok tbs ->
  sg tbs s = (Ok (Some blob), s1) -> verify_signature C blob tbs (ct_signature_key c) = Ok blob ->
  exists c', cert_sign_with C iter c sg s = (Ok c', s1).
Proof.
  intros Ht Hs Hv. unfold cert_sign_with. rewrite (ylift_step _ _ _ _ Ht). rewrite (ybind_step _ _ _ _ _ Hs).
  rewrite (ylift_step _ _ _ blob) by reflexivity. unfold ylift, add_signature. rewrite Ht. cbn [bind]. rewrite Hv. cbn [bind]. eauto.
Qed.
Theorem C107_prints : forall (H S : Type) (D : yubikey H S) (X : x509) (C : crypto) (iter : hashmap -> hashmap) (known_slot : N -> bool)
    (nonce serial slot_text principal oid point : bytes) (key : option bytes) (sl : slot) (c : slot_cert) (ca pub : pubkey) alg hash verify len view (s : S),
  (forall m, Permutation (iter m) m) -> utf8_text principal -> field_ok (field principal) -> field_ok nonce ->
  slot_name slot_text sl -> known_slot sl = true -> pk_from_path key = Ok pub ->
  slot_key X c oid point -> curve_key oid point ca -> (size point + 100 <= u32_max)%N ->
  piv_curve C oid alg hash verify len view -> sc_info c = view point ->
  (forall t, exists h t', y_open_any D t = (Some h, t') /\ slot_stable D h sl c /\ slot_holds C D h sl oid point
     /\ forall m u, fst (y_sign D h (hash m) alg sl u) <> None) ->
  exists text s', sign_cert_with_yubikey D X C iter known_slot (Some nonce) (Some serial) slot_text key principal s = (Ok text, s').
Proof.
  intros H S D X C iter ks nonce serial st principal oid point key sl c ca pub alg hash verify len view s P Hu Hf Hn Hsl Hks Hpub Hk Hc Hp Hpc Hi Hd.
  assert (Hst : slot_parser ks st = Ok (Some sl)) by (apply (C105_slot_names ks st); auto).
  unfold sign_cert_with_yubikey. rewrite (ylift_step _ _ _ _ Hst). rewrite (ylift_step _ _ _ sl) by reflexivity.
  assert (Open : forall t, exists h t', open_new D t = (Ok h, t') /\ slot_stable D h sl c /\ slot_holds C D h sl oid point
     /\ forall m u, fst (y_sign D h (hash m) alg sl u) <> None).
  { intros t. destruct (Hd t) as (h & t' & E & R). exists h, t'. split; [|exact R]. unfold open_new, yop. rewrite E. reflexivity. }
  destruct (Open s) as (h & s1 & Eo & Hs1 & Hh1 & Hy1). rewrite (ybind_step _ _ _ _ _ (yunwrap_step _ _ _ _ Eo)).
  pose proof (Hs1 s1) as Hr. destruct (y_read D h sl s1) as [o s2] eqn:Er. cbn in Hr. subst o.
  pose proof (fetch_key_ok _ _ _ _ _ _ _ _ _ _ Er Hk Hc) as Ef. rewrite (ybind_step _ _ _ _ _ (yunwrap_step _ _ _ _ Ef)).
  rewrite (ylift_step _ _ _ pub) by (rewrite Hpub; reflexivity).
  destruct (path_key _ _ Hpub) as [Kp (pd & Dp)]. destruct (tool_builds nonce serial pub ca Kp) as (b & Hb).
  rewrite (ylift_step _ _ _ b) by (rewrite Hb; reflexivity).
  destruct (curve_key_wire _ _ _ Hc) as (Kc & _ & _ & Dc).
  assert (Fp : field_ok point) by (unfold field_ok; lia). specialize (Dc Fp).
  destruct (tool_encodes iter nonce serial pub ca 18374403900871474942 principal b pd _ P Hu Hf Hn ltac:(vm_compute; discriminate) Kp Dp Kc Dc) as (Hsk & tbs & Ht).
  { assert (Lf : forall x, length (field x) = 4 + length x) by (intros x; unfold field, be32; rewrite app_length; reflexivity).
    destruct Hc as (name & id & kind & [E|[E|[]]] & ->); injection E as <- <- <- <-; unfold field_ok, size; cbn [pk_type kt_plain pk_kind enc_kind c_identifier enc_app];
      rewrite <- ?field_enc, !app_length, !Lf; change (length (s2b "ecdsa-sha2-nistp256")) with 19; change (length (s2b "ecdsa-sha2-nistp384")) with 19;
      change (length (s2b "nistp256")) with 8; change (length (s2b "nistp384")) with 8; unfold size in Hp; clear - Hp; cbn [length]; lia. }
  { exact Hb. }
  destruct (Open s2) as (h2 & s3 & Eo2 & Hs2 & Hh2 & Hy2).
  destruct (C82_signs _ _ D X C h2 sl c oid point ca tbs s3 alg hash verify len view Hs2 Hk Hc Hh2 Hpc Hi (Hy2 tbs)) as (blob & s4 & Eg).
  pose proof (C82_signatures_verify _ _ D X C h2 sl c oid point ca tbs blob s3 s4 Hs2 Hk Hc Hh2 Eg) as Hv.
  destruct (sign_with_step C iter (apply_ops b (tool_request 18374403900871474942 principal)) (fresh_signer D X C sl) s2 tbs blob s4 Ht) as (c' & Ec').
  { unfold fresh_signer. rewrite (yunwrap_step _ _ _ _ Eo2), Eg. reflexivity. }
  { rewrite Hsk. exact Hv. }
  rewrite (ybind_step _ _ _ _ _ (yunwrap_step _ _ _ _ Ec')). unfold yret. eauto.
Qed.
Print Assumptions C107_prints.
(** Two devices are plugged in and answer in turn: a signature is made with a key that was not chosen
    as the issuer. Then nothing is printed. *)
Definition two_yk : yubikey N (bool * list (tool_op N)) := mkYubikey N (bool * list (tool_op N))
  (fun h => h)
  (fun n s => (None, s)) (fun h s => (None, s)) (fun h pin s => (None, s)) (fun k => false) (fun h k s => (None, s))
  (fun h sl s => ((if (h =? 1)%N then Some cert256 else Some cert384), (fst s, snd s ++ [TOp (DRead h sl)])))
  (fun h sl a p t s => (None, s)) (fun h sl n nm i s => (None, s))
  (fun h d a sl s => ((match a with EccP256 => Some der12 | _ => Some der34 end), (fst s, snd s ++ [TOp (DSign h d a sl)])))
  (fun s => (Some (if fst s then 2%N else 1%N), (negb (fst s), snd s ++ [TOpen]))) (fun d => false)
  (fun h sl d s => (None, s)) (fun h sl s => (None, s)).
Definition key_crypto : crypto :=
  mkCrypto (c_sha256 toy_crypto) (c_sha384 toy_crypto) (c_sha512 toy_crypto) (fun k m s => bytes_eqb k [x02] && c_p256_verify toy_crypto k m s)
    (fun k m s => bytes_eqb k [x06] && c_p384_verify toy_crypto k m s) (c_ed25519_verify toy_crypto) (c_rsa_verify toy_crypto).
Theorem C107_issuer_signs_refuted : exists (D : yubikey N (bool * list (tool_op N))) X C key ca other d a ops,
  (forall h sl s, fst (y_read D h sl s) = Some (if (h =? 1)%N then ca else other)) /\ ca <> other
  /\ sign_cert_with_yubikey D X C (@rev _) (fun _ => true) (Some (repeat x41 32)) (Some (repeat x00 8)) (s2b "R1") key (s2b "root") (false, [])
     = (Panic, (false, ops))
  /\ In (TOp (DRead 1%N 130%N)) ops /\ In (TOp (DSign 2%N d a 130%N)) ops.
Proof.
  exists two_yk, ex_x2, key_crypto, (Some ex_pub_file), cert256, cert384. do 3 eexists.
  split; [intros h sl s; cbn; destruct (h =? 1)%N; reflexivity|]. split; [discriminate|].
  split; [vm_compute; reflexivity|]. cbn [In]. split; [tauto|]. do 5 right. left. reflexivity.
Qed.
Print Assumptions C107_issuer_signs_refuted.
Example C107_case : exists k pub text p s', slot_name (s2b "0x9c") 156 /\ pk_from_path (Some ex_pub_file) = Ok pub
  /\ slot_key ex_x2 cert384 (s2b "1.3.132.0.34") [x06] /\ curve_key (s2b "1.3.132.0.34") [x06] k
  /\ piv_curve toy_crypto (s2b "1.3.132.0.34") EccP384 (c_sha384 toy_crypto) (c_p384_verify toy_crypto) 48 PkiP384 /\ sc_info cert384 = PkiP384 [x06]
  /\ (forall t, exists h t', y_open_any (ex_yk (fun _ => Some cert384)) t = (Some h, t') /\ slot_stable (ex_yk (fun _ => Some cert384)) h 156%N cert384
       /\ slot_holds toy_crypto (ex_yk (fun _ => Some cert384)) h 156%N (s2b "1.3.132.0.34") [x06]
       /\ forall m u, fst (y_sign (ex_yk (fun _ => Some cert384)) h (c_sha384 toy_crypto m) EccP384 156%N u) <> None)
  /\ sign_cert_with_yubikey (ex_yk (fun _ => Some cert384)) ex_x2 toy_crypto (@rev _) (fun _ => true) (Some (repeat x41 32)) (Some (repeat x00 8))
       (s2b "0x9c") (Some ex_pub_file) (s2b "root") 0 = (Ok text, s')
  /\ cert_from_path toy_crypto (Some text) = Ok p /\ ct_principals p = [s2b "root"] /\ pk_kind (ct_signature_key p) = pk_kind k.
Proof.
  do 5 eexists. split; [apply (SN_hex x39 x63 9 12); [apply Hex_dec; [lia|reflexivity]|apply Hex_low; [lia|reflexivity]]|].
  split; [vm_compute; reflexivity|]. split; [eexists; repeat split; reflexivity|].
  split; [do 3 eexists; split; [right; left; reflexivity|reflexivity]|]. split; [constructor|]. split; [reflexivity|].
  split; [intros t; exists 7%N; eexists; split; [reflexivity|]; split; [intros u; reflexivity|]; split; [apply ex_holds|discriminate]|].
  split; [vm_compute; reflexivity|]. split; [vm_compute; reflexivity|]. split; reflexivity.
Qed.

(** ** C108 *)
Lemma hex_decode_iff : forall n t, length t <= n -> forall k, hex_text t k <-> exists l, hex_decode t = Some l /\ map n2b l = k.
Proof.
  induction n as [|n IH]; intros [|a [|b t]] Ln k; cbn [length] in Ln; try lia.
  - split; [inversion 1; exists []; auto|]. intros (l & E & <-). injection E as <-. constructor.
  - split; [inversion 1; exists []; auto|]. intros (l & E & <-). injection E as <-. constructor.
  - split; [inversion 1|]. intros (l & E & _). discriminate.
  - cbn [hex_decode]. split.
    + intros E. inversion E as [|a' b' x y t' k' Ha Hb Ht]; subst. apply hex_value_iff in Ha, Hb. rewrite Ha, Hb.
      apply IH in Ht; [|lia]. destruct Ht as (l & -> & <-). eexists. split; reflexivity.
    + intros (l & E & <-). destruct (hex_value a) as [x|] eqn:Ha; [|discriminate]. destruct (hex_value b) as [y|] eqn:Hb; [|discriminate].
      destruct (hex_decode t) as [r|] eqn:Ht; [|discriminate]. injection E as <-. apply hex_value_iff in Ha, Hb. cbn [map].
      constructor; [exact Ha|exact Hb|]. apply IH; [lia|]. eauto.
Qed.
Definition touch_of (secure : bool) : N := if secure then 2%N else 1%N.
(** All runs. *)
Lemma provision_runs {H S} (D : yubikey H S) X ks st subject pin mgm alg secure s r s' :
  yk_provision D X ks st subject pin mgm alg secure s = (r, s') ->
  (r = Panic /\ s' = s)
  \/ exists sl key a, slot_name st sl /\ ks sl = true /\ hex_text mgm key /\ chosen_algorithm alg a
     /\ ((r = Panic /\ fst (y_open_any D s) = None /\ s' = tool_effects D [TOpen] s)
         \/ exists h info os rest, provision_steps h pin key sl a (touch_of secure) subject info = os ++ rest /\ 1 < length os
              /\ s' = tool_effects D os s /\ stops_at_failure D os s
              /\ fst (y_open_any D s) = Some h
              /\ (2 < length os -> y_mgm_key D key = true)
              /\ (4 < length os -> fst (y_generate D h sl a 1 (touch_of secure) (tool_effects D (firstn 3 os) s)) = Some info)
              /\ (r = Panic \/ rest = [] /\ exists c k line, fst (y_read D h sl (tool_effects D (firstn 5 os) s)) = Some c
                    /\ cert_ssh_key X c k /\ pk_display k = Ok line /\ r = Ok (s2b "New hardware backed SSH Public Key: " ++ line ++ [newline]))).
Proof.
  unfold yk_provision. destruct (slot_parser ks st) as [[sl|]|e|] eqn:Es.
  2,4: intros E; injection E as <- <-; auto.
  2:{ exfalso. destruct (C105_slot_names ks st) as (_ & _ & _ & N). exact (N _ Es). }
  apply (C105_slot_names ks st) in Es. destruct Es as [Hn Hk].
  rewrite (ylift_step _ _ _ (Some sl)) by reflexivity. rewrite (ylift_step _ _ _ sl) by reflexivity.
  destruct (hex_decode mgm) as [l|] eqn:Eh.
  2:{ intros E; injection E as <- <-; auto. }
  rewrite (ylift_step _ _ _ l) by reflexivity. set (key := map n2b l).
  assert (Hh : hex_text mgm key) by (apply (hex_decode_iff _ _ (le_n _)); eauto).
  set (a := if bytes_eqb alg (s2b "p256") then EccP256 else EccP384).
  assert (Ha : chosen_algorithm alg a).
  { unfold chosen_algorithm, a. destruct (bytes_eqb alg (s2b "p256")) eqn:E; [left; split; [apply bytes_eqb_eq, E|reflexivity]|right; split; [|reflexivity]].
    intros ->. rewrite bytes_eqb_refl in E. discriminate. }
  cbn zeta. fold (touch_of secure). intros E. right. exists sl, key, a. do 4 (split; [assumption|]). revert E. clearbody key a.
  unfold ybind at 1, yunwrap at 1, open_new, yop at 1. destruct (y_open_any D s) as [[h|] s1] eqn:E1.
  2:{ intros E. injection E as <- <-. left. cbn. rewrite E1. auto. }
  intros E. right. exists h.
  assert (T1 : tool_effects D [TOpen] s = s1) by (cbn; rewrite E1; reflexivity).
  assert (U1 : succeeds D TOpen s) by (cbn; rewrite E1; discriminate).
  assert (F1 : tool_effect D TOpen s = s1) by exact T1.
  revert E. unfold ybind at 1, yunwrap at 1, unlock, ybind at 1, yop at 1. destruct (y_verify_pin D h pin s1) as [[[]|] s2] eqn:E2.
  2:{ intros E. injection E as <- <-. exists PkiRsa, [TOpen; TOp (DPin h pin)]. eexists. split; [reflexivity|]. split; [cbn; lia|].
      split; [cbn [tool_effects]; rewrite F1; cbn; rewrite E2; reflexivity|].
      split; [apply SF_next; [exact U1|apply SF_last]|]. split; [reflexivity|]. split; [cbn; lia|]. split; [cbn; lia|auto]. }
  assert (U2 : succeeds D (TOp (DPin h pin)) s1) by (cbn; rewrite E2; discriminate).
  assert (F2 : tool_effect D (TOp (DPin h pin)) s1 = s2) by (cbn; rewrite E2; reflexivity).
  destruct (y_mgm_key D key) eqn:Em.
  2:{ intros E. injection E as <- <-. exists PkiRsa, [TOpen; TOp (DPin h pin)]. eexists. split; [reflexivity|]. split; [cbn; lia|].
      split; [cbn [tool_effects]; rewrite F1, F2; reflexivity|].
      split; [apply SF_next; [exact U1|apply SF_last]|]. split; [reflexivity|]. split; [cbn; lia|]. split; [cbn; lia|auto]. }
  unfold ybind at 1, yop at 1. destruct (y_authenticate D h key s2) as [[[]|] s3] eqn:E3.
  2:{ intros E. injection E as <- <-. exists PkiRsa, [TOpen; TOp (DPin h pin); TOp (DAuthenticate h key)]. eexists. split; [reflexivity|]. split; [cbn; lia|].
      split; [cbn [tool_effects]; rewrite F1, F2; cbn; rewrite E3; reflexivity|].
      split; [apply SF_next; [exact U1|rewrite F1; apply SF_next; [exact U2|apply SF_last]]|]. split; [reflexivity|]. split; [reflexivity|]. split; [cbn; lia|auto]. }
  assert (U3 : succeeds D (TOp (DAuthenticate h key)) s2) by (cbn; rewrite E3; discriminate).
  assert (F3 : tool_effect D (TOp (DAuthenticate h key)) s2 = s3) by (cbn; rewrite E3; reflexivity).
  unfold yret at 1. unfold ybind at 1, yunwrap at 1, provision, ybind at 1, yop at 1.
  destruct (y_generate D h sl a 1 (touch_of secure) s3) as [[info|] s4] eqn:E4.
  2:{ intros E. injection E as <- <-. exists PkiRsa, [TOpen; TOp (DPin h pin); TOp (DAuthenticate h key); TOp (DGenerate h sl a 1 (touch_of secure))].
      eexists. split; [reflexivity|]. split; [cbn; lia|].
      split; [cbn [tool_effects]; rewrite F1, F2, F3; cbn; rewrite E4; reflexivity|].
      split; [apply SF_next; [exact U1|rewrite F1; apply SF_next; [exact U2|rewrite F2; apply SF_next; [exact U3|apply SF_last]]]|].
      split; [reflexivity|]. split; [reflexivity|]. split; [cbn; lia|auto]. }
  assert (U4 : succeeds D (TOp (DGenerate h sl a 1 (touch_of secure))) s3) by (cbn; rewrite E4; discriminate).
  assert (F4 : tool_effect D (TOp (DGenerate h sl a 1 (touch_of secure))) s3 = s4) by (cbn; rewrite E4; reflexivity).
  exists info. revert E. unfold ybind at 1, yop at 1.
  destruct (y_self_sign D h sl (repeat x00 20) subject info s4) as [[[]|] s5] eqn:E5.
  2:{ intros E. injection E as <- <-. exists [TOpen; TOp (DPin h pin); TOp (DAuthenticate h key); TOp (DGenerate h sl a 1 (touch_of secure)); TOp (DSelfSign h sl (repeat x00 20) subject info)].
      eexists. split; [reflexivity|]. split; [cbn; lia|].
      split; [cbn [tool_effects]; rewrite F1, F2, F3, F4; cbn [tool_effect effect]; rewrite E5; reflexivity|].
      split; [apply SF_next; [exact U1|rewrite F1; apply SF_next; [exact U2|rewrite F2; apply SF_next; [exact U3|rewrite F3; apply SF_next; [exact U4|apply SF_last]]]]|].
      split; [reflexivity|]. split; [reflexivity|]. split; [intros _; cbn [firstn tool_effects]; rewrite F1, F2, F3, E4; reflexivity|auto]. }
  assert (U5 : succeeds D (TOp (DSelfSign h sl (repeat x00 20) subject info)) s4) by (cbn [succeeds]; rewrite E5; discriminate).
  assert (F5 : tool_effect D (TOp (DSelfSign h sl (repeat x00 20) subject info)) s4 = s5) by (cbn [tool_effect effect]; rewrite E5; reflexivity).
  intros E. exists (provision_steps h pin key sl a (touch_of secure) subject info), []. split; [rewrite app_nil_r; reflexivity|].
  split; [cbn; lia|]. unfold provision_steps. split.
  { cbn [tool_effects]. rewrite F1, F2, F3, F4, F5. cbn [tool_effect effect].
    destruct (does_pubkey D X h sl s5) as (os & <- & Ep). cbn [effects effect] in Ep. rewrite <- Ep.
    destruct (ssh_cert_fetch_pubkey D X h sl s5) as [[k|e|] s6]; cbn [snd]; revert E; unfold ybind, ylift, yret;
      try (intros E; injection E as _ <-; reflexivity). destruct (unwrap_res (pk_display k)); intros E; injection E as _ <-; reflexivity. }
  split; [apply SF_next; [exact U1|rewrite F1; apply SF_next; [exact U2|rewrite F2; apply SF_next; [exact U3|rewrite F3; apply SF_next; [exact U4|rewrite F4; apply SF_next; [exact U5|apply SF_last]]]]]|].
  split; [reflexivity|]. split; [reflexivity|]. split; [intros _; cbn [firstn tool_effects]; rewrite F1, F2, F3, E4; reflexivity|].
  cbn [firstn tool_effects]. rewrite F1, F2, F3, F4, F5.
  destruct (ssh_cert_fetch_pubkey D X h sl s5) as [[k|e|] s6] eqn:Ef; try (injection E as <- _; left; reflexivity).
  apply fetched in Ef. destruct Ef as (c & Er & Hc). unfold ybind, ylift in E.
  destruct (pk_display k) as [line|e|] eqn:Ed; cbn [unwrap_res] in E; try (injection E as <- _; left; reflexivity).
  right. split; [reflexivity|]. exists c, k, line. rewrite Er. split; [reflexivity|]. split; [exact Hc|]. split; [exact Ed|].
  pose proof (f_equal fst E) as E'. cbn [fst yret] in E'. rewrite <- E'. unfold println. rewrite <- app_assoc. reflexivity.
Qed.

(** A key is generated only after the PIN and the management key have been accepted, in the named slot,
    with the chosen algorithm and touch policy. The PIN is sent at most once. After a failure nothing
    more is done. *)
Theorem C108_operations : forall (H S : Type) (D : yubikey H S) (X : x509) (known_slot : N -> bool) (slot_text subject pin mgm_hex alg : bytes)
    (secure : bool) (r : res bytes) (s s' : S),
  yk_provision D X known_slot slot_text subject pin mgm_hex alg secure s = (r, s') ->
  exists os, s' = tool_effects D os s /\ stops_at_failure D os s
    /\ (os = [] \/ os = [TOpen]
        \/ exists sl key a h info rest, slot_name slot_text sl /\ known_slot sl = true /\ hex_text mgm_hex key /\ chosen_algorithm alg a
             /\ provision_steps h pin key sl a (if secure then 2 else 1)%N subject info = os ++ rest
             /\ fst (y_open_any D s) = Some h /\ (2 < length os -> y_mgm_key D key = true)
             /\ (4 < length os -> fst (y_generate D h sl a 1 (if secure then 2 else 1)%N (tool_effects D (firstn 3 os) s)) = Some info)).
Proof.
  intros H S D X ks st subject pin mgm alg secure r s s' E. apply provision_runs in E.
  destruct E as [[_ ->]|(sl & key & a & H1 & H2 & H3 & H4 & [(_ & _ & ->)|(h & info & os & rest & H5 & H6 & H7 & H8 & H9 & H10 & H11 & _)])].
  - exists []. split; [reflexivity|]. split; [constructor|auto].
  - exists [TOpen]. split; [reflexivity|]. split; [constructor|auto].
  - exists os. split; [exact H7|]. split; [exact H8|]. right. right. exists sl, key, a, h, info, rest. auto 10.
Qed.
Print Assumptions C108_operations.

(** If it prints a line, all six operations succeeded and the line shows the key of the certificate
    then in the slot, so that it can be read back. It is the generated key if the device stores the
    certificate it was given. *)
Theorem C108_provisions : forall (H S : Type) (D : yubikey H S) (X : x509) (known_slot : N -> bool) (slot_text subject pin mgm_hex alg : bytes)
    (secure : bool) (text : bytes) (s s' : S),
  yk_provision D X known_slot slot_text subject pin mgm_hex alg secure s = (Ok text, s') ->
  exists sl key a h info c k line, slot_name slot_text sl /\ known_slot sl = true /\ hex_text mgm_hex key /\ chosen_algorithm alg a
    /\ (let os := provision_steps h pin key sl a (if secure then 2 else 1)%N subject info in
        stops_at_failure D os s /\ s' = tool_effects D os s
        /\ fst (y_generate D h sl a 1 (if secure then 2 else 1)%N (tool_effects D (firstn 3 os) s)) = Some info
        /\ fst (y_read D h sl (tool_effects D (firstn 5 os) s)) = Some c)
    /\ cert_ssh_key X c k /\ text = s2b "New hardware backed SSH Public Key: " ++ line ++ [newline]
    /\ ((size text <= u32_max)%N -> pk_from_string line = Ok k)
    /\ forall C, stores C X D h sl ->
         exists oid alg' hash verify len view point, piv_curve C oid alg' hash verify len view /\ info = view point /\ curve_key oid point k.
Proof.
  intros H S D X ks st subject pin mgm alg secure text s s' E. apply provision_runs in E.
  destruct E as [[E _]|(sl & key & a & H1 & H2 & H3 & H4 & [(E & _ & _)|(h & info & os & rest & H5 & H6 & H7 & H8 & H9 & H10 & H11 & [E|(-> & c & k & line & H12 & H13 & H14 & E)])])];
    try discriminate.
  rewrite app_nil_r in H5. subst os. apply ok_inj in E. subst text. specialize (H11 ltac:(cbn; lia)). exists sl, key, a, h, info, c, k, line. do 4 (split; [assumption|]).
  split; [cbn zeta; auto|]. split; [exact H13|]. split; [reflexivity|].
  pose proof H13 as (oid & point & Hk & Hc). split.
  - intros Hs. destruct (curve_key_wire _ _ _ Hc) as (Kn & Hns & (sk & Hsk & Lp) & Hd).
    destruct (C23_single_word_comment k (enc_kind (pk_kind k))) as (t' & Ht' & Hp).
    + apply known_name_ok, Kn.
    + destruct Hc as (name & id & kind & [E|[E|[]]] & ->); injection E as <- <- <- <-; reflexivity.
    + apply Hd. unfold pk_display in H14. rewrite Hsk in H14. cbn [bind] in H14.
      assert (Lsk : length sk <= length line).
      { pose proof (proj2 (b64_encode_length sk)) as Lb. pose proof (Nat.div_mod (length sk + 2) 3 ltac:(lia)) as Q.
        pose proof (Nat.mod_upper_bound (length sk + 2) 3 ltac:(lia)).
        assert (length (b64_encode sk) <= length line); [|lia].
        destruct Hc as (name & id & kind & _ & ->). cbn [pk_comment] in H14. apply ok_inj in H14. rewrite <- H14, !app_length. lia. }
      unfold field_ok, size in *. rewrite !app_length in Hs. lia.
    + destruct Hc as (name & id & kind & _ & ->). exact I.
    + pose proof (eq_trans (eq_sym H14) Ht') as X0. apply ok_inj in X0. subst t'. exact Hp.
  - intros C Hst. unfold provision_steps in H8, H12. cbn [firstn] in H12.
    inversion_clear H8 as [| |o os t U1 H8']. inversion_clear H8' as [| |o os t U2 H8]. inversion_clear H8 as [| |o os t U3 H8'].
    inversion_clear H8' as [| |o os t U4 H8]. inversion_clear H8 as [| |o os t U5 H8'].
    cbn [tool_effects] in H12. set (t4 := tool_effect D (TOp (DGenerate h sl a 1 (touch_of secure))) _) in *.
    cbn [tool_effect effect] in H12. change (fst (y_self_sign D h sl (repeat x00 20) subject info t4) <> None) in U5.
    change (fst (y_read D h sl (snd (y_self_sign D h sl (repeat x00 20) subject info t4))) = Some c) in H12.
    destruct (y_self_sign D h sl (repeat x00 20) subject info t4) as [[[]|] t5] eqn:E5; [|contradiction U5; reflexivity].
    cbn [snd] in H12. destruct (Hst _ _ _ _ _ E5) as (c' & t6 & oid' & alg' & hash & verify & len & view & point' & R & Pc & Hi & Hk').
    rewrite R in H12. cbn [fst] in H12. injection H12 as ->. destruct (slot_key_fun _ _ _ _ _ _ Hk Hk') as [-> ->].
    exists oid', alg', hash, verify, len, view, point'. auto.
Qed.
Print Assumptions C108_provisions.

(** It prints if all these operations succeed and the certificate is for a key on a curve. *)
Theorem C108_prints : forall (H S : Type) (D : yubikey H S) (X : x509) (known_slot : N -> bool) (slot_text subject pin mgm_hex alg : bytes)
    (secure : bool) (sl : slot) (key : bytes) (a : algorithm_id) (h : H) (info : key_info) (c : slot_cert) (k : pubkey) (s : S),
  slot_name slot_text sl -> known_slot sl = true -> hex_text mgm_hex key -> chosen_algorithm alg a -> y_mgm_key D key = true ->
  fst (y_open_any D s) = Some h ->
  (let os := provision_steps h pin key sl a (if secure then 2 else 1)%N subject info in
   stops_at_failure D os s
   /\ fst (y_generate D h sl a 1 (if secure then 2 else 1)%N (tool_effects D (firstn 3 os) s)) = Some info
   /\ fst (y_read D h sl (tool_effects D (firstn 5 os) s)) = Some c) ->
  cert_ssh_key X c k ->
  exists text s', yk_provision D X known_slot slot_text subject pin mgm_hex alg secure s = (Ok text, s').
Proof.
  intros H S D X ks st subject pin mgm alg secure sl key a h info c k s H1 H2 H3 H4 H5 H6 (H7 & H8 & H9) H10.
  fold (touch_of secure) in *. unfold provision_steps in *. cbn [firstn tool_effects] in H8, H9.
  inversion_clear H7 as [| |o os t U1 G]. inversion_clear G as [| |o os t U2 G1]. inversion_clear G1 as [| |o os t U3 G].
  inversion_clear G as [| |o os t U4 G1]. inversion_clear G1 as [| |o os t U5 _].
  unfold yk_provision. assert (Hst : slot_parser ks st = Ok (Some sl)) by (apply (C105_slot_names ks st); auto).
  rewrite (ylift_step _ _ _ _ Hst). rewrite (ylift_step _ _ _ sl) by reflexivity.
  apply (hex_decode_iff _ _ (le_n _)) in H3. destruct H3 as (l & El & El').
  rewrite (ylift_step _ _ _ l) by (rewrite El; reflexivity). rewrite El'. cbn zeta. fold (touch_of secure).
  assert (Ea : (if bytes_eqb alg (s2b "p256") then EccP256 else EccP384) = a).
  { destruct H4 as [[-> ->]|[Hn ->]]; [reflexivity|]. destruct (bytes_eqb alg (s2b "p256")) eqn:E; [|reflexivity]. apply bytes_eqb_eq in E. contradiction. }
  rewrite Ea. clear Ea H4 El El' l H1 H2 Hst ks st mgm alg.
  cbn [tool_effect] in *. destruct (y_open_any D s) as [[h'|] s1] eqn:E1; [|discriminate]. cbn [fst] in H6. injection H6 as ->. cbn [snd] in *.
  rewrite (ybind_step _ _ _ h s1) by (apply yunwrap_step; unfold open_new, yop; rewrite E1; reflexivity).
  cbn [effect succeeds] in *. destruct (y_verify_pin D h pin s1) as [[[]|] s2] eqn:E2; [|contradiction U2; reflexivity]. cbn [snd] in *.
  destruct (y_authenticate D h key s2) as [[[]|] s3] eqn:E3; [|contradiction U3; reflexivity]. cbn [snd] in *.
  rewrite (ybind_step _ _ _ tt s3).
  2:{ apply yunwrap_step. unfold unlock. rewrite (ybind_step _ _ _ tt s2) by (unfold yop; rewrite E2; reflexivity).
      rewrite H5. rewrite (ybind_step _ _ _ tt s3) by (unfold yop; rewrite E3; reflexivity). reflexivity. }
  destruct (y_generate D h sl a 1 (touch_of secure) s3) as [[i|] s4] eqn:E4; [|discriminate]. cbn [fst snd] in *. injection H8 as ->.
  change (fst (y_self_sign D h sl (repeat x00 20) subject info s4) <> None) in U5.
  change (fst (y_read D h sl (snd (y_self_sign D h sl (repeat x00 20) subject info s4))) = Some c) in H9.
  destruct (y_self_sign D h sl (repeat x00 20) subject info s4) as [[[]|] s5] eqn:E5; [|contradiction U5; reflexivity]. cbn [snd] in *.
  destruct (y_read D h sl s5) as [o s6] eqn:E6. cbn [fst] in H9. subst o. destruct H10 as (oid & point & Hk & Hc).
  rewrite (ybind_step _ _ _ k s6).
  2:{ apply yunwrap_step. unfold provision. rewrite (ybind_step _ _ _ info s4) by (unfold yop; rewrite E4; reflexivity).
      rewrite (ybind_step _ _ _ tt s5) by (unfold yop; rewrite E5; reflexivity). eapply fetch_key_ok; eassumption. }
  destruct (curve_key_wire _ _ _ Hc) as (_ & _ & (sk & Hsk & _) & _). unfold pk_display. rewrite Hsk. cbn [bind].
  unfold ybind, ylift, yret. destruct (pk_comment k); cbn [unwrap_res]; eauto.
Qed.
Print Assumptions C108_prints.
Example C108_case : exists text s', slot_name (s2b "R1") 130 /\ hex_text (s2b "0a") [x0a] /\ chosen_algorithm (s2b "p256") EccP256
  /\ yk_provision (ex_yk (fun _ => Some cert256)) ex_x2 (fun _ => true) (s2b "R1") (s2b "me") (s2b "1234")
       (concat (repeat (s2b "01") 24)) (s2b "p256") true 0 = (Ok text, s') /\ s' = 6
  /\ yk_provision (ex_yk (fun _ => Some cert256)) ex_x2 (fun _ => true) (s2b "R1") (s2b "me") (s2b "4321")
       (concat (repeat (s2b "01") 24)) (s2b "p256") true 0 = (Panic, 2)
  /\ yk_provision (ex_yk (fun _ => Some cert256)) ex_x2 (fun _ => true) (s2b "R1") (s2b "me") (s2b "1234")
       (concat (repeat (s2b "01") 23)) (s2b "p256") true 0 = (Panic, 2).
Proof.
  do 2 eexists. split; [apply (SN_retired (s2b "1") 1); [cbn; lia|apply Num; [discriminate|apply (D_app [] 0 x31 1); [constructor|lia|reflexivity]]|lia]|].
  split; [apply (HT_byte x30 x61 0 10); [apply Hex_dec; [lia|reflexivity]|apply Hex_low; [lia|reflexivity]|constructor]|].
  split; [left; auto|]. split; [vm_compute; reflexivity|]. split; [reflexivity|]. split; vm_compute; reflexivity.
Qed.

(** ** C109 *)
(** Only slots of the list are looked at; nothing is sent, changed or signed. *)
Lemma tdoes_line {H S} (D : yubikey H S) X C debug h sl sls : In sl sls -> tdoes D (slot_line D X C debug h sl) (Forall (harmless sls)).
Proof.
  intros Hi s. unfold slot_line.
  destruct (tdoes_ops D _ _ (does_read D h sl (fun c => yret (sc_subject c)) ltac:(reflexivity)) s) as (o1 & (q1 & <- & ->) & E1).
  change (ybind (yop (y_read D h sl)) (fun c => yret (sc_subject c)) s) with (fetch_subject D h sl s) in E1.
  destruct (fetch_subject D h sl s) as [subject s1]. cbn [snd] in E1.
  destruct (tdoes_ops D _ _ (does_pubkey D X h sl) s1) as (o2 & (q2 & <- & ->) & E2).
  destruct (ssh_cert_fetch_pubkey D X h sl s1) as [key s2]. cbn [snd] in E2.
  assert (R : harmless sls (TOp (DRead h sl))) by exact Hi.
  assert (E12 : s2 = tool_effects D [TOp (DRead h sl); TOp (DRead h sl)] s) by (rewrite E2, E1; reflexivity).
  destruct subject as [subj|e|], key as [k|e'|];
    try (exists [TOp (DRead h sl); TOp (DRead h sl)]; split; [repeat (constructor; try exact R)|exact E12]).
  unfold fetch_attestation. destruct (yop (y_attest D h sl) s2) as [att s3] eqn:Ea.
  exists [TOp (DRead h sl); TOp (DRead h sl); TOp (DAttest h sl)]. split; [repeat (constructor; try exact R); exact Hi|].
  assert (E3 : s3 = tool_effect D (TOp (DAttest h sl)) s2) by (cbn; unfold yop in Ea; destruct (y_attest D h sl s2) as [[x|] t]; injection Ea as _ <-; reflexivity).
  cbn [snd]. rewrite E3, E12. reflexivity.
Qed.
Lemma tdoes_lines {H S} (D : yubikey H S) X C debug ks h sls l : incl l sls -> tdoes D (slot_lines D X C debug ks h l) (Forall (harmless sls)).
Proof.
  induction l as [|n l IH]; intros Hi; cbn [slot_lines].
  - intros s. exists []. split; [constructor|reflexivity].
  - apply tdoes_pure; [constructor|]. intros sl Hsl. unfold slot_try_from in Hsl. destruct (ks n); [|discriminate]. injection Hsl as <-.
    apply tdoes_all; [apply tdoes_line, Hi; left; reflexivity|]. intros line.
    apply tdoes_after; [|reflexivity]. apply IH. intros x Hx. apply Hi. right. exact Hx.
Qed.
Definition shown_slots : list slot := [154; 156; 158; 157; 249]%N ++ map N.of_nat (seq 130 20).
Theorem C109_operations : forall (H S : Type) (D : yubikey H S) (X : x509) (C : crypto) (debug : slot -> bytes) (known_slot : N -> bool) (s s' : S) (r : res bytes),
  yk_fingerprint D X C debug known_slot s = (r, s') -> exists os, Forall (harmless shown_slots) os /\ s' = tool_effects D os s.
Proof.
  intros H S D X C debug ks s s' r E.
  assert (T : tdoes D (yk_fingerprint D X C debug ks) (Forall (harmless shown_slots))).
  { unfold yk_fingerprint. apply tdoes_all; [eapply tdoes_weaken; [apply tdoes_unwrap, tdoes_open|intros os <-; repeat constructor]|]. intros h.
    apply tdoes_all; [apply tdoes_lines; intros x; unfold shown_slots; rewrite in_app_iff; cbn [In]; tauto|]. intros a.
    apply tdoes_after; [|reflexivity]. apply tdoes_lines. intros x Hx. apply in_app_iff. right. exact Hx. }
  destruct (T s) as (os & F & Eo). rewrite E in Eo. eauto.
Qed.
Print Assumptions C109_operations.

(** The report is right about every slot it lists, if the slots do not change while it is made. *)
Lemma no_cert_line (name : bytes) : println ([x09] ++ name ++ s2b ":" ++ [x09] ++ s2b "No cert found")
  = (x09 :: name ++ x3a :: x09 :: s2b "No cert found") ++ [newline].
Proof. unfold println. rewrite <- ?app_comm_cons, <- ?app_assoc. reflexivity. Qed.
Lemma cert_line (name h a subj : bytes) :
  println ([x09] ++ name ++ s2b ":" ++ [x09] ++ s2b "[Fingerprint: " ++ h ++ s2b "] [Attest: " ++ a ++ s2b "] Subject: [" ++ subj ++ s2b "]")
  = (x09 :: name ++ x3a :: x09 :: s2b "[Fingerprint: " ++ h ++ s2b "] [Attest: " ++ a ++ s2b "] Subject: [" ++ subj ++ s2b "]") ++ [newline].
Proof. reflexivity. Qed.
Lemma line_reports {H S} (D : yubikey H S) X C debug h sl cert (att : bool) s :
  (forall t, fst (y_read D h sl t) = cert) -> (forall t, fst (y_attest D h sl t) <> None <-> att = true) ->
  exists line s', slot_line D X C debug h sl s = (Ok (line ++ [newline]), s') /\ slot_report X C (debug sl) cert att line.
Proof.
  intros Hr Ha. unfold slot_line, fetch_subject.
  pose proof (Hr s) as R1. unfold ybind at 1, yop at 1. destruct (y_read D h sl s) as [o1 s1]. cbn in R1. subst o1.
  destruct cert as [c|].
  2:{ pose proof (Hr s1) as R2. destruct (ssh_cert_fetch_pubkey D X h sl s1) as [key s2] eqn:Ef. pose proof Ef as Ef'. apply C83_fetch_key in Ef'.
      destruct Ef' as [[_ ->]|(c & E & _)]; [|rewrite E in R2; discriminate].
      exists (x09 :: debug sl ++ x3a :: x09 :: s2b "No cert found"), s2. split; [apply (f_equal (fun l => (Ok l, s2))); exact (no_cert_line _)|right; split; [discriminate|reflexivity]]. }
  unfold yret at 1. pose proof (Hr s1) as R2. destruct (ssh_cert_fetch_pubkey D X h sl s1) as [key s2] eqn:Ef. pose proof Ef as Ef'. apply C83_fetch_key in Ef'.
  destruct Ef' as [[E _]|(c' & E & Cases)]; [rewrite E in R2; discriminate|]. rewrite E in R2. cbn in R2. injection R2 as ->.
  assert (None_case : (forall k, key <> Ok k) -> key <> Panic -> (forall k, ~ cert_ssh_key X c k) ->
    exists line s', match key with Panic => (Panic, s2) | Ok k =>
        let (attest, s) := fetch_attestation D h sl s2 in
        (do? f <- unwrap_res (pk_fingerprint C k);
         Ok (println ([x09] ++ debug sl ++ s2b ":" ++ [x09] ++ s2b "[Fingerprint: " ++ fp_hash f ++ s2b "] [Attest: "
                    ++ match attest with Ok _ => s2b "Yes" | _ => s2b "No " end ++ s2b "] Subject: [" ++ sc_subject c ++ s2b "]")), s)
      | Err _ => (Ok (println ([x09] ++ debug sl ++ s2b ":" ++ [x09] ++ s2b "No cert found")), s2) end = (Ok (line ++ [newline]), s')
      /\ slot_report X C (debug sl) (Some c) att line).
  { intros N1 N2 N3. destruct key as [k|e|]; [contradiction (N1 k); reflexivity| |contradiction N2; reflexivity].
    exists (x09 :: debug sl ++ x3a :: x09 :: s2b "No cert found"), s2. split; [|right; split; [|reflexivity]].
    - apply (f_equal (fun l => (Ok l, s2))). exact (no_cert_line _).
    - intros c0 k E0. injection E0 as <-. apply N3. }
  assert (Hk : forall k, ssh_cert_fetch_pubkey D X h sl s1 = (Ok k, s2) <-> cert_ssh_key X c k).
  { intros k. split.
    - intros E0. apply fetched in E0. destruct E0 as (c0 & E1 & E2). rewrite E in E1. injection E1 as ->. exact E2.
    - intros (oid & point & K1 & K2). eapply fetch_key_ok; eassumption. }
  destruct key as [k|e|].
  - clear None_case. assert (Hc : cert_ssh_key X c k) by (apply Hk; exact Ef).
    unfold fetch_attestation, yop. pose proof (Ha s2) as A. destruct (y_attest D h sl s2) as [oa s3]. cbn [fst] in A.
    pose proof Hc as (oid & point & _ & Hck). destruct (curve_key_wire _ _ _ Hck) as (_ & _ & (sk & Hsk & _) & _).
    destruct (pk_fingerprint C k) as [f|e|] eqn:Hf; [|unfold pk_fingerprint, pk_fingerprint_with in Hf; rewrite Hsk in Hf; discriminate..].
    apply fingerprint_digest in Hf. destruct Hf as (_ & Dg & _). cbn [unwrap_res bind].
    exists (x09 :: debug sl ++ x3a :: x09 :: s2b "[Fingerprint: " ++ fp_hash f ++ s2b "] [Attest: "
               ++ (if att then s2b "Yes" else s2b "No ") ++ s2b "] Subject: [" ++ sc_subject c ++ s2b "]"), s3.
    split; [|left; exists c, k, (fp_hash f); repeat (split; [first [reflexivity|assumption]|]); reflexivity].
    destruct oa as [at_|], att; try (exfalso; apply (proj2 A); reflexivity); try (exfalso; assert (X0 : false = true) by (apply A; discriminate); discriminate);
      apply (f_equal (fun l => (Ok l, s3))); exact (cert_line _ _ _ _).
  - apply None_case; [discriminate|discriminate|]. intros k Hc. apply Hk in Hc. rewrite Ef in Hc. discriminate.
  - exfalso. destruct (C83_never_panics H S D X C h [] EccP256 sl s1) as (N & _). rewrite Ef in N. apply N. reflexivity.
Qed.
Lemma lines_report {H S} (D : yubikey H S) X C debug ks h cert att l : (forall n, In n l -> ks n = true) ->
  (forall sl t, fst (y_read D h sl t) = cert sl) -> (forall sl t, fst (y_attest D h sl t) <> None <-> att sl = true) ->
  forall s, exists lines s', slot_lines D X C debug ks h l s = (Ok (ended_lines lines), s')
    /\ Forall2 (fun sl line => slot_report X C (debug sl) (cert sl) (att sl) line) l lines.
Proof.
  intros Hk Hr Ha. induction l as [|n l IH]; intros s; cbn [slot_lines].
  - exists [], s. split; [reflexivity|constructor].
  - destruct (line_reports D X C debug h n (cert n) (att n) s) as (line & s1 & E1 & R1); [intros t; apply Hr|intros t; apply Ha|].
    destruct (IH ltac:(intros m Hm; apply Hk; right; exact Hm) s1) as (lines & s2 & E2 & R2).
    exists (line :: lines), s2. split; [|constructor; assumption].
    rewrite (ylift_step _ _ _ n) by (unfold slot_try_from; rewrite (Hk n (or_introl eq_refl)); reflexivity).
    rewrite (ybind_step _ _ _ _ _ E1), (ybind_step _ _ _ _ _ E2). reflexivity.
Qed.
Theorem C109_report : forall (H S : Type) (D : yubikey H S) (X : x509) (C : crypto) (debug : slot -> bytes) (known_slot : N -> bool) (h : H)
    (cert : slot -> option slot_cert) (att : slot -> bool) (s : S),
  fst (y_open_any D s) = Some h -> (forall sl, In sl shown_slots -> known_slot sl = true) ->
  (forall sl t, fst (y_read D h sl t) = cert sl) -> (forall sl t, fst (y_attest D h sl t) <> None <-> att sl = true) ->
  exists normal retired s', yk_fingerprint D X C debug known_slot s
      = (Ok (ended_lines (s2b "Normal Slots:" :: normal ++ s2b "Retired Slots:" :: retired)), s')
    /\ Forall2 (fun sl line => slot_report X C (debug sl) (cert sl) (att sl) line) [154; 156; 158; 157; 158; 249]%N normal
    /\ Forall2 (fun sl line => slot_report X C (debug sl) (cert sl) (att sl) line)
         [130; 131; 132; 133; 134; 135; 136; 137; 138; 139; 140; 141; 142; 143; 144; 145; 146; 147; 148; 149]%N retired.
Proof.
  intros H S D X C debug ks h cert att s Ho Hk Hr Ha.
  destruct (y_open_any D s) as [o s1] eqn:E1. cbn [fst] in Ho. subst o. unfold yk_fingerprint.
  rewrite (ybind_step _ _ _ h s1) by (apply yunwrap_step; unfold open_new, yop; rewrite E1; reflexivity).
  destruct (lines_report D X C debug ks h cert att [154; 156; 158; 157; 158; 249]%N) with (s := s1) as (normal & s2 & E2 & R2);
    [intros n Hn; apply Hk; unfold shown_slots; rewrite in_app_iff; cbn [In] in *; tauto|exact Hr|exact Ha|].
  destruct (lines_report D X C debug ks h cert att (map N.of_nat (seq 130 20))) with (s := s2) as (retired & s3 & E3 & R3);
    [intros n Hn; apply Hk; unfold shown_slots; rewrite in_app_iff; right; exact Hn|exact Hr|exact Ha|].
  rewrite (ybind_step _ _ _ _ _ E2), (ybind_step _ _ _ _ _ E3). exists normal, retired, s3. split; [|split; [exact R2|exact R3]].
  unfold yret, println, ended_lines. cbn [map concat]. rewrite map_app, concat_app. cbn [map concat]. rewrite <- ?app_assoc. reflexivity.
Qed.
Print Assumptions C109_report.

(** "No cert found" does not mean that there is no certificate: RSA keys are not shown. *)
Theorem C109_no_certificate_refuted : exists (D : yubikey N nat) X c, fst (y_read D 7%N 154%N 0) = Some c
  /\ forall C debug, slot_line D X C debug 7%N 154%N 0 = (Ok (x09 :: debug 154%N ++ s2b ":" ++ [x09] ++ s2b "No cert found" ++ [newline]), 2).
Proof.
  exists (ex_yk (fun _ => Some (mkSlotCert [x08] PkiRsa []))), ex_x2. eexists. split; [reflexivity|]. intros C debug.
  unfold slot_line. cbn. unfold println. cbn [app]. rewrite <- ?app_assoc. reflexivity.
Qed.
Print Assumptions C109_no_certificate_refuted.
(** Slot 9e is listed twice. *)
Theorem C109_listed_once_refuted : exists (D : yubikey N nat) X C debug text a line b c s',
  yk_fingerprint D X C debug (fun _ => true) 0 = (Ok text, s') /\ text = a ++ line ++ b ++ line ++ c
  /\ line = x09 :: debug 158%N ++ s2b ":" ++ [x09] ++ s2b "No cert found" ++ [newline] /\ NoDup (map debug shown_slots).
Proof.
  exists (ex_yk (fun _ => None)), ex_x2, toy_crypto, (fun sl => [n2b sl]). eexists.
  set (l := fun n => x09 :: n2b n :: s2b ":" ++ [x09] ++ s2b "No cert found" ++ [newline]).
  exists (s2b "Normal Slots:" ++ [newline] ++ l 154%N ++ l 156%N), (l 158%N), (l 157%N),
    (l 249%N ++ s2b "Retired Slots:" ++ [newline] ++ concat (map l (map N.of_nat (seq 130 20)))).
  eexists. split; [vm_compute; reflexivity|]. split; [vm_compute; reflexivity|]. split; [reflexivity|].
  vm_compute. repeat (constructor; [cbn; intuition discriminate|]). constructor.
Qed.
Print Assumptions C109_listed_once_refuted.
Example C109_case : exists text,
  let D := ex_yk (fun _ => Some cert384) in
  fst (y_open_any D 0) = Some 7%N /\ (forall sl t, fst (y_read D 7%N sl t) = Some cert384) /\ (forall sl t, fst (y_attest D 7%N sl t) <> None <-> (sl =? 156)%N = true)
  /\ yk_fingerprint D ex_x2 toy_crypto (fun sl => [n2b sl]) (fun _ => true) 0 = (Ok text, 79).
Proof.
  eexists. cbn zeta. split; [reflexivity|]. split; [reflexivity|].
  split; [intros sl t; cbn; destruct (sl =? 156)%N; cbn [fst]; (split; [intros E1; first [reflexivity|contradiction E1; reflexivity]|discriminate])|]. vm_compute. reflexivity.
Qed.

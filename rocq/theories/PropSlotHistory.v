(** Theorems about everything that is accepted under a key in a slot of a YubiKey (C144). *)
From Coq Require Import Permutation.
From Verif Require Import Base BaseFacts SpecWire SpecKeys SpecSig SpecSign SpecCert SpecSshSig SpecRenew SpecHistory KeyType PubKeyType Writer WriterFacts Crypto
  Signature SignatureFacts PropSignature Utils Cert CertFacts TbsFacts SshSigFacts PropCert PropIssue PropSshSig PropHistory X509 SpecX509 PropX509 PropSign
  SpecPiv SpecPivCalls SpecShared SpecSlotHistory Piv PivCalls PropPiv PropPivCalls PropShared.

Lemma digest_dec C m d : {digest C m d} + {~ digest C m d}.
Proof.
  unfold digest. destruct (bytes_dec d (c_sha256 C m)); [left; auto|]. destruct (bytes_dec d (c_sha384 C m)); [left; auto|right; tauto].
Qed.
Lemma digest_found C m ds : (exists d, In d ds /\ digest C m d) \/ forall d, In d ds -> ~ digest C m d.
Proof.
  induction ds as [|d ds IH]; [right; intros d []|]. destruct (digest_dec C m d); [left; exists d; cbn; auto|].
  destruct IH as [(d' & A & B)|IH]; [left; exists d'; cbn; auto|right]. intros d' [<-|A]; auto.
Qed.

(** What an operation signs in a call. *)
Lemma may_sign {H S} (D : yubikey H S) R C n c os h d alg sl : may_do D R C n c os -> In (DSign h d alg sl) os ->
  y_serial D h = n /\ exists m, call_signs R c m sl /\ digest C m d.
Proof.
  intros (M1 & _ & _ & _ & M) Hi. rewrite Forall_forall in M1. split; [exact (M1 _ Hi)|].
  destruct M as [M|(a & b & o & d' & m & sl' & -> & M & Eo & Hc & Hd)].
  - rewrite Forall_forall in M. discriminate (M _ Hi).
  - rewrite Forall_forall in M. apply in_app_or in Hi. cbn [In] in Hi.
    assert (G : In (DSign h d alg sl) (a ++ b) -> False) by (intros G; discriminate (M _ G)).
    destruct Hi as [Hi|[->|Hi]]; [destruct G; apply in_or_app; auto| |destruct G; apply in_or_app; auto].
    injection Eo as <- <-. exists m. auto.
Qed.

(** Every digest that a slot signed is one of something it was to sign in a call, or of its own certificate. *)
Theorem C144_digests : forall (H S : Type) (D : yubikey H S) (R : rcgen) (C : crypto) (ders : list bytes) (rec : S -> N -> slot -> list bytes)
  (ps : list (N * call)) (ops : list (device_op H)) (s : S) (n : N) (sl : slot) (d : bytes),
  recorded C D ders rec -> done_in D R C ps ops -> rec s n sl = [] -> In d (rec (effects D ops s) n sl) ->
  exists m, digest C m d /\ (asked R ps n sl m \/ In m ders).
Proof.
  intros H S D R C ders rec ps ops s n sl d Hr Hd H0 Hi.
  assert (G : forall os t, (forall o, In o os -> In o ops) -> In d (rec (effects D os t) n sl) -> In d (rec t n sl) \/ exists m, digest C m d /\ (asked R ps n sl m \/ In m ders)).
  { induction os as [|o os IH]; intros t Ho Ht; [left; exact Ht|]. cbn [effects] in Ht.
    apply IH in Ht; [|intros o' Ho'; apply Ho; cbn; auto]. destruct Ht as [Ht|Ht]; [|right; exact Ht].
    destruct (Hr o t n sl) as (new & En & Hn). rewrite En in Ht. apply in_app_or in Ht. destruct Ht as [Ht|Ht]; [left; exact Ht|right].
    specialize (Hn d Ht). destruct o; try contradiction Hn.
    - destruct Hn as (_ & _ & m & A & B). eauto.
    - destruct Hn as (-> & En' & ->). destruct (Hd _ (Ho _ (or_introl eq_refl))) as (n' & c & os' & A1 & A2 & A3).
      destruct (may_sign D R C _ _ _ _ _ _ _ A2 A3) as (<- & m & B1 & B2). subst n. exists m. split; [exact B2|]. left. exists c. auto. }
  destruct (G ops s (fun o x => x) Hi) as [Hs|Hs]; [rewrite H0 in Hs; destruct Hs|exact Hs].
Qed.
Print Assumptions C144_digests.

(** What is accepted under a key goes back to such a message, or to a forgery. *)
Theorem C144_message : forall (H S : Type) (D : yubikey H S) (R : rcgen) (C : crypto) (ders : list bytes) (rec : S -> N -> slot -> list bytes)
  (ps : list (N * call)) (ops : list (device_op H)) (s : S) (n : N) (sl : slot) (k : pubkey) (m sg : bytes),
  recorded C D ders rec -> done_in D R C ps ops -> rec s n sl = [] -> accepted C k m sg ->
  asked R ps n sl m \/ In m ders \/ (exists b, collide C b m /\ (asked R ps n sl b \/ In b ders))
  \/ slot_forged C (rec (effects D ops s) n sl) k m sg.
Proof.
  intros H S D R C ders rec ps ops s n sl k m sg Hr Hd H0 Ha.
  destruct (digest_found C m (rec (effects D ops s) n sl)) as [(d & A & B)|N]; [|do 3 right; split; assumption].
  destruct (C144_digests H S D R C ders rec ps ops s n sl d Hr Hd H0 A) as (b & B1 & B2).
  destruct (bytes_dec b m) as [->|Ne]; [tauto|]. right. right. left. exists b. split; [split; [exact Ne|eauto]|exact B2].
Qed.
Print Assumptions C144_message.

Lemma asked_given R ps n sl m : (forall alg name p x, r_request R alg name p = Some x -> der x) -> asked R ps n sl m -> given ps n sl m \/ der m.
Proof.
  intros Hr (c & A & B). destruct c; cbn [call_signs] in B; try contradiction B.
  - destruct B as (-> & alg & p & B). right. eapply Hr, B.
  - destruct B as [-> ->]. left. right. eauto.
  - destruct B as [-> ->]. left. left. exact A.
Qed.

(** A certificate: its signed part was given to a call to sign with this slot. *)
Theorem C144_certificate : forall (H S : Type) (D : yubikey H S) (R : rcgen) (C : crypto) (ders : list bytes) (rec : S -> N -> slot -> list bytes)
  (ps : list (N * call)) (ops : list (device_op H)) (s : S) (n : N) (sl : slot) (data : bytes) (c : cert),
  (forall alg name p x, r_request R alg name p = Some x -> der x) -> Forall der ders ->
  recorded C D ders rec -> done_in D R C ps ops -> rec s n sl = [] -> cert_from_bytes C data = Ok c ->
  exists sp, signed_part c sp
    /\ (given ps n sl sp \/ (exists b, collide C b sp /\ (asked R ps n sl b \/ In b ders))
        \/ slot_forged C (rec (effects D ops s) n sl) (ct_signature_key c) sp (ct_signature c)).
Proof.
  intros H S D R C ders rec ps ops s n sl data c Hq Hders Hr Hd H0 Hc. apply C35_valid_signature in Hc. destruct Hc as (sp & rest & _ & Hp & Ha).
  exists sp. split; [exact Hp|].
  assert (Nd : ~ der sp) by (intros (x & ->); eapply foreign_certificate; [exact Hp|constructor]).
  destruct (C144_message H S D R C ders rec ps ops s n sl _ _ _ Hr Hd H0 Ha) as [A|[A|A]]; [|rewrite Forall_forall in Hders; destruct (Nd (Hders _ A))|tauto].
  apply asked_given in A; [tauto|exact Hq].
Qed.
Print Assumptions C144_certificate.

(** A file signature: the same with its payload. *)
Theorem C144_file : forall (H S : Type) (D : yubikey H S) (R : rcgen) (C : crypto) (ders : list bytes) (rec : S -> N -> slot -> list bytes)
  (ps : list (N * call)) (ops : list (device_op H)) (s : S) (n : N) (sl : slot) (m : bytes) (g : sshsig) (ns : bytes) (expected : option pubkey) (v : verified),
  (forall alg name p x, r_request R alg name p = Some x -> der x) -> Forall der ders -> digests_fit C -> field_ok (ss_namespace g) ->
  recorded C D ders rec -> done_in D R C ps ops -> rec s n sl = [] -> from_ssh_signature C m g ns expected = Ok v ->
  exists p, payload C ns (ss_hash g) m p
    /\ (given ps n sl p \/ (exists b, collide C b p /\ (asked R ps n sl b \/ In b ders))
        \/ slot_forged C (rec (effects D ops s) n sl) (ss_pubkey g) p (ss_signature g)).
Proof.
  intros H S D R C ders rec ps ops s n sl m g ns ex v Hq Hders Hf Hn Hr Hd H0 Hv. apply C48_binds in Hv; [|exact Hn|exact Hf].
  destruct Hv as (_ & _ & (p & P & Ha) & _). exists p. split; [exact P|].
  assert (Nd : ~ der p) by (intros (x & ->); eapply foreign_file; [exact P|constructor]).
  destruct (C144_message H S D R C ders rec ps ops s n sl _ _ _ Hr Hd H0 Ha) as [A|[A|A]]; [|rewrite Forall_forall in Hders; destruct (Nd (Hders _ A))|tauto].
  apply asked_given in A; [tauto|exact Hq].
Qed.
Print Assumptions C144_file.

(** If the slot was only given what stands for certificates to be issued and files to be signed, every
    certificate accepted under its key was asked for, field by field. *)
Theorem C144_issued : forall (H S : Type) (D : yubikey H S) (R : rcgen) (C : crypto) (ders : list bytes) (rec : S -> N -> slot -> list bytes)
  (ps : list (N * call)) (ops : list (device_op H)) (s : S) (n : N) (sl : slot) (data : bytes) (c : cert) (history : list use),
  (forall alg name p x, r_request R alg name p = Some x -> der x) -> Forall der ders -> digests_fit C -> Forall within history ->
  recorded C D ders rec -> done_in D R C ps ops -> rec s n sl = [] ->
  (forall m, given ps n sl m -> exists u, In u history /\ signs C u m) -> cert_from_bytes C data = Ok c ->
  (exists iter r, In (Issue iter r) history /\ as_requested r c)
  \/ exists sp, signed_part c sp
       /\ (In (SignBytes sp) history \/ (exists b, collide C b sp /\ (asked R ps n sl b \/ In b ders))
           \/ slot_forged C (rec (effects D ops s) n sl) (ct_signature_key c) sp (ct_signature c)).
Proof.
  intros H S D R C ders rec ps ops s n sl data c history Hq Hders Hf Hw Hr Hd H0 Hg Hc.
  pose proof Hc as Hc'. apply cert_from_bytes_iff in Hc as (sp & post & Hcore & _ & _ & Ha & _).
  pose proof (core_signed _ _ Hcore) as Hp.
  assert (Nd : ~ der sp) by (intros (x & ->); eapply foreign_certificate; [exact Hp|constructor]).
  destruct (C144_message H S D R C ders rec ps ops s n sl _ _ _ Hr Hd H0 Ha) as [A|[A|A]]; [|rewrite Forall_forall in Hders; destruct (Nd (Hders _ A))|right; exists sp; tauto].
  apply asked_given in A; [|exact Hq]. destruct A as [A|A]; [|contradiction].
  destruct (Hg _ A) as (u & U & Su). rewrite Forall_forall in Hw.
  destruct (signs_certificate C u c sp (Hw _ U) Hcore Su) as [(iter & r & -> & B)| ->]; [left; eauto|right; exists sp; auto].
Qed.
Print Assumptions C144_issued.

(** The operations of one program, and those of one program among others. *)
Theorem C144_programs : forall (H S : Type) (D : yubikey H S) (R : rcgen) (X : x509) (C : crypto) (l : list call) (h h' : H) (s s' : S) (rs : list (res value)),
  opens_right D ->
  (run_calls D R X C l h s = (rs, h', s') ->
   exists ops, done_in D R C (map (pair (y_serial D h)) (calls_made l rs)) ops /\ s' = effects D ops s)
  /\ (forall w w' ps, run_calls (shared (scheduled D) D) R X C l h (s, w) = (rs, h', (s', w')) -> done_in D R C ps (concat w) ->
      exists ops, done_in D R C (map (pair (y_serial D h)) (calls_made l rs) ++ ps) ops /\ s' = effects D ops s).
Proof.
  intros H S D R X C l h h' s s' rs Ho.
  assert (G : forall n cs oss, Forall2 (may_do D R C n) cs oss -> done_in D R C (map (pair n) cs) (concat oss)).
  { intros n cs oss F. induction F as [|c os cs oss M F IH]; intros o Hi; [destruct Hi|]. cbn [concat] in Hi. apply in_app_or in Hi. destruct Hi as [Hi|Hi].
    - exists n, c, os. split; [left; reflexivity|auto].
    - destruct (IH o Hi) as (n' & c' & os' & A & B). exists n', c', os'. split; [right; exact A|exact B]. }
  split.
  - intros E. apply C95_operations in E; [|exact Ho]. destruct E as (_ & oss & F & ->). exists (concat oss). auto.
  - intros w w' ps E Hw. apply C143_interleaved in E; [|exact Ho]. destruct E as (_ & oss & done & all & F & M & Ew & ->). exists all. split; [|reflexivity].
    intros o Hi.
    assert (K : In o (concat oss) \/ In o done).
    { clear -M Hi. induction M; [destruct Hi| |]; destruct Hi as [->|Hi]; cbn [In]; auto; destruct (IHM Hi); auto. }
    destruct K as [K|K].
    + destruct (G _ _ _ F o K) as (n & c & os & A & B). exists n, c, os. split; [apply in_or_app; auto|exact B].
    + destruct (Hw o) as (n & c & os & A & B); [rewrite Ew; apply in_or_app; auto|]. exists n, c, os. split; [apply in_or_app; auto|exact B].
Qed.
Print Assumptions C144_programs.

(** ** Case *)
Definition slot_request : res cert := builder (Some [xaa; xbb]) (Some [x00; x00; x00; x00; x00; x00; x00; x01]) ex_subject User
  (mkPubKey (mkKeyType (s2b "ecdsa-sha2-nistp256") (s2b "ECDSA") false false KEcdsa (s2b "ecdsa-sha2-nistp256"))
     (PkEcdsa (mkCurve Nistp256 (s2b "nistp256")) [x02] None) None).
Definition slot_tbs : bytes :=
  match slot_request with Ok c => match tbs_certificate (@rev _) c with Ok t => t | _ => [] end | _ => [] end.
(** Signatures are accepted for these bytes only. *)
Definition slot_crypto : crypto :=
  mkCrypto (fun m => repeat (if bytes_eqb m slot_tbs then x0a else x09) 32) (fun _ => repeat x0b 48) (fun _ => repeat x0c 64)
    (fun _ m s => bytes_eqb m slot_tbs && bytes_eqb s (fixed 32 x01 ++ fixed 32 x02))
    (fun _ _ _ => false) (fun _ _ _ => false) (fun _ _ _ _ _ => false).
Definition log_record (s : list (device_op N)) (n : N) (sl : slot) : list bytes :=
  flat_map (fun o => match o with
                     | DSign h d _ sl' => if ((h =? n) && (sl' =? sl))%N then [d] else []
                     | DSelfSign h sl' _ _ _ => if ((h =? n) && (sl' =? sl))%N then [c_sha256 slot_crypto [x30]] else []
                     | _ => []
                     end) s.
Lemma log_recorded : recorded slot_crypto log_yk [[x30]] log_record.
Proof.
  intros o s n sl. assert (E : effect log_yk o s = s ++ [o]) by (destruct o; reflexivity). rewrite E. unfold log_record. rewrite flat_map_app.
  eexists. split; [reflexivity|]. cbn [flat_map]. rewrite app_nil_r. intros d Hd.
  destruct o; try destruct Hd; destruct ((h =? n) && (sl0 =? sl))%N eqn:Eh; try destruct Hd as [<-|[]]; try destruct Hd;
    apply andb_true_iff in Eh as [A B]; apply N.eqb_eq in A, B; subst.
  - split; [reflexivity|]. split; [reflexivity|]. exists [x30]. split; [left; reflexivity|left; reflexivity].
  - auto.
Qed.
Example C144_case : exists c c1 c2 blob s',
  slot_request = Ok c /\ cert_sign slot_crypto (@rev _) c (yk_signer log_yk ex_x2 slot_crypto 7%N 156%N []) = Ok c1
  /\ cert_from_bytes slot_crypto (ct_serialized c1) = Ok c2
  /\ run_calls log_yk ex_rcgen ex_x2 slot_crypto [CProvision 156%N (s2b "me") EccP256 1%N 2%N; CSshSign slot_tbs 156%N; CSshSign (s2b "x") 157%N] 7%N []
     = ([Ok (VKey (ct_signature_key c)); Ok (VBytes blob); Ok (VBytes blob)], 7%N, s')
  /\ recorded slot_crypto log_yk [[x30]] log_record /\ log_record [] 7%N 156%N = [] /\ Forall der [[x30]] /\ digests_fit slot_crypto
  /\ (forall k m sg, pk_kind k = pk_kind (ct_signature_key c) -> ~ slot_forged slot_crypto (log_record s' 7%N 156%N) k m sg).
Proof.
  destruct slot_request as [c|e|] eqn:E; [|vm_compute in E; discriminate..]. vm_compute in E. injection E as Ec.
  exists c. do 4 eexists. split; [reflexivity|]. subst c. split; [vm_compute; reflexivity|]. split; [vm_compute; reflexivity|]. split; [vm_compute; reflexivity|].
  split; [apply log_recorded|]. split; [reflexivity|]. split; [constructor; [eexists; reflexivity|constructor]|].
  split; [intros m h d Hd; destruct Hd; vm_compute; discriminate|].
  intros k m sg Hk [A N]. destruct A as (label & pl & af & st & _ & _ & _ & _ & A). rewrite Hk in A. cbn [ct_signature_key pk_kind] in A.
  destruct A as (verify & len & r & v & b1 & b2 & tl & fr & fs & m' & L & _ & _ & _ & _ & _ & M & V). cbn [signed_message] in M. subst m'.
  assert (Em : m = slot_tbs).
  { destruct L; cbn [slot_crypto c_p256_verify c_p384_verify] in V; try discriminate V; apply andb_true_iff in V as [V _]; apply bytes_eqb_eq, V. }
  subst m. apply (N (repeat x0a 32)); [vm_compute; auto|left; vm_compute; reflexivity].
Qed.

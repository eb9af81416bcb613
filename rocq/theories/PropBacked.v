(** Theorems about signatures of hardware keys and the assertions behind them (C142). *)
From Coq Require Import Permutation.
From Verif Require Import Base BaseFacts SpecWire SpecKeys SpecSig SpecCert SpecSshSig SpecCross SpecBacked Reader KeyType KeyTypeFacts
  PubKeyType Writer WriterFacts WireFacts Crypto PubKey PubKeyFacts Signature SignatureFacts Cert CertFacts TbsFacts
  SshSigFacts PropCert PropIssue PropSshSig PropPrivKey PropSize PropCross LeftFacts.

Lemma carries_fun blob fl n fl' n' : carries blob fl n -> carries blob fl' n' -> fl = fl' /\ n = n'.
Proof.
  intros (l & p & t & E & H1 & H2 & H3) (l' & p' & t' & E' & H1' & H2' & H3'). rewrite E in E'.
  apply field_inj in E'; [|assumption..]. destruct E' as [_ E']. apply field_inj in E'; [|assumption..]. destruct E' as [_ E'].
  assert (I : forall (x y : byte) u v, x :: u = y :: v -> x = y /\ u = v) by (intros; split; congruence).
  apply I in E' as [-> E']. apply be32_inj in E'; [|assumption..]. split; [reflexivity|apply E'].
Qed.

(** The assertion that stands for a message is determined. *)
Lemma token_message_hardware C app fl n msg a : digest_sizes C -> assertion_ok a -> (n <= u32_max)%N ->
  token_message a = hardware_message C app fl n msg ->
  at_application a = c_sha256 C app /\ at_flags a = fl /\ at_counter a = n /\ at_more a = [] /\ at_challenge a = c_sha256 C msg.
Proof.
  intros [Hd _] (L1 & L2 & L3) Hn E. unfold token_message, hardware_message in E.
  assert (L : length (at_more a) = 0).
  { apply (f_equal (@length _)) in E. rewrite !app_length, !be32_length, !Hd, L1, L3 in E. cbn [length] in E. lia. }
  apply app_inj_length in E; [|rewrite L1, Hd; reflexivity]. destruct E as [E1 E].
  apply app_inj_length in E; [|reflexivity]. destruct E as [E2 E].
  apply be32_inj in E; [|assumption..]. destruct E as [E3 E].
  destruct (at_more a); [|discriminate L]. cbn [Datatypes.app] in E. injection E2 as ->.
  split; [exact E1|]. split; [reflexivity|]. auto.
Qed.

Definition plain_key (k : pubkey) : pubkey :=
  mkPubKey (pk_type k) match pk_kind k with PkEcdsa c key _ => PkEcdsa c key None | PkEd25519 key _ => PkEd25519 key None | x => x end None.

(** A signature that is accepted with a hardware key goes back to an assertion of the token for the
    application of the key and for this very message, or the primitive was forged. *)
Theorem C142_signature : forall (C : crypto) (history : list assertion) (k : pubkey) (app : bytes) (kind : pubkey_kind) (blob msg : bytes),
  digest_sizes C -> Forall assertion_ok history -> plain_twin (pk_kind k) app kind ->
  accepted C k msg blob -> backed C history app blob msg \/ token_forged C history k blob.
Proof.
  intros C history k app kind blob msg Hd Hh Ht Ha.
  assert (Hp : plain_twin (pk_kind k) app (pk_kind (plain_key k))) by (unfold plain_key; cbn [pk_kind]; inversion Ht; constructor).
  assert (Hv : verify_signature C blob msg k = Ok blob) by (apply verify_iff; split; [reflexivity|exact Ha]).
  apply (C123_same_primitive C k (plain_key k) app msg blob Hp eq_refl) in Hv.
  destruct Hv as (label & payload & fl & n & tl & E & H1 & H2 & H3 & Hv). apply verify_iff in Hv. destruct Hv as [_ Hv].
  assert (D : (exists a, In a history /\ token_message a = hardware_message C app fl n msg)
    \/ (forall a, In a history -> hardware_message C app fl n msg <> token_message a)).
  { clear -C. induction history as [|a l IH]; [right; intros a []|].
    destruct (bytes_dec (token_message a) (hardware_message C app fl n msg)) as [Ea|N]; [left; exists a; cbn; auto|].
    destruct IH as [(b & B1 & B2)|IH]; [left; exists b; cbn; auto|right]. intros b [<-|B]; auto. }
  destruct D as [(a & A1 & A2)|D].
  - left. rewrite Forall_forall in Hh. destruct (token_message_hardware C app fl n msg a Hd (Hh _ A1) H3 A2) as (E1 & E2 & E3 & E4 & E5).
    exists a. split; [exact A1|]. split; [exact E1|]. split; [|auto]. rewrite E2, E3. exists label, payload, tl. auto.
  - right. exists app, (plain_key k), (hardware_message C app fl n msg). auto.
Qed.
Print Assumptions C142_signature.

(** Certificates and file signatures under a hardware key: the token was asked for them. *)
Theorem C142_certificate : forall (C : crypto) (history : list assertion) (data : bytes) (c : cert) (app : bytes) (kind : pubkey_kind),
  digest_sizes C -> Forall assertion_ok history -> plain_twin (pk_kind (ct_signature_key c)) app kind ->
  cert_from_bytes C data = Ok c ->
  exists sp, signed_part c sp
    /\ (backed C history app (ct_signature c) sp \/ token_forged C history (ct_signature_key c) (ct_signature c)).
Proof.
  intros C history data c app kind Hd Hh Ht H. apply C35_valid_signature in H. destruct H as (sp & rest & _ & S & A).
  exists sp. split; [exact S|]. eapply C142_signature; eassumption.
Qed.
Print Assumptions C142_certificate.
Theorem C142_file : forall (C : crypto) (history : list assertion) (m : bytes) (s : sshsig) (ns : bytes) (expected : option pubkey) (v : verified) (app : bytes) (kind : pubkey_kind),
  digest_sizes C -> Forall assertion_ok history -> plain_twin (pk_kind (ss_pubkey s)) app kind -> field_ok (ss_namespace s) ->
  from_ssh_signature C m s ns expected = Ok v ->
  exists p, payload C ns (ss_hash s) m p
    /\ (backed C history app (ss_signature s) p \/ token_forged C history (ss_pubkey s) (ss_signature s)).
Proof.
  intros C history m s ns ex v app kind Hd Hh Ht Hn H. apply C48_binds in H; [|exact Hn|].
  - destruct H as (_ & _ & (p & P & A) & _). exists p. split; [exact P|]. eapply C142_signature; eassumption.
  - intros x h d D. unfold field_ok, size, u32_max. destruct Hd as [H1 H2]. destruct D; rewrite ?H1, ?H2; vm_compute; discriminate.
Qed.
Print Assumptions C142_file.

(** What the token signed for other applications (web sites), or with extensions, is good for nothing
    here. *)
Theorem C142_other_uses : forall (C : crypto) (history : list assertion) (k : pubkey) (app : bytes) (kind : pubkey_kind) (blob msg : bytes),
  digest_sizes C -> Forall assertion_ok history -> plain_twin (pk_kind k) app kind ->
  (forall a, In a history -> at_application a <> c_sha256 C app \/ at_more a <> []) ->
  accepted C k msg blob -> token_forged C history k blob.
Proof.
  intros C history k app kind blob msg Hd Hh Ht Ho Ha.
  destruct (C142_signature C history k app kind blob msg Hd Hh Ht Ha) as [(a & A1 & A2 & _ & A4 & _)|F]; [|exact F].
  destruct (Ho a A1); contradiction.
Qed.
Print Assumptions C142_other_uses.

(** If the token signs for this application only when it is touched, every accepted signature says
    that it was. *)
Theorem C142_touched : forall (C : crypto) (history : list assertion) (k : pubkey) (app : bytes) (kind : pubkey_kind) (blob msg : bytes),
  digest_sizes C -> Forall assertion_ok history -> plain_twin (pk_kind k) app kind ->
  (forall a, In a history -> at_application a = c_sha256 C app -> touched (at_flags a)) ->
  ~ token_forged C history k blob -> accepted C k msg blob ->
  exists flags counter, carries blob flags counter /\ touched flags.
Proof.
  intros C history k app kind blob msg Hd Hh Ht Ho Hf Ha.
  destruct (C142_signature C history k app kind blob msg Hd Hh Ht Ha) as [(a & A1 & A2 & A3 & _)|F]; [|contradiction].
  exists (at_flags a), (at_counter a). auto.
Qed.
Print Assumptions C142_touched.

(** If the token never uses a counter twice, no two messages are accepted with the same counter
    (unless their digests are the same). *)
Theorem C142_counter : forall (C : crypto) (history : list assertion) (k : pubkey) (app : bytes) (kind : pubkey_kind) (b1 b2 m1 m2 : bytes) (f1 f2 : byte) (n : N),
  digest_sizes C -> Forall assertion_ok history -> plain_twin (pk_kind k) app kind ->
  NoDup (map at_counter history) -> ~ token_forged C history k b1 -> ~ token_forged C history k b2 ->
  accepted C k m1 b1 -> accepted C k m2 b2 -> carries b1 f1 n -> carries b2 f2 n ->
  f1 = f2 /\ c_sha256 C m1 = c_sha256 C m2.
Proof.
  intros C history k app kind b1 b2 m1 m2 f1 f2 n Hd Hh Ht Hc N1 N2 A1 A2 C1 C2.
  destruct (C142_signature C history k app kind b1 m1 Hd Hh Ht A1) as [(a & I1 & _ & D1 & _ & E1)|F]; [|contradiction].
  destruct (C142_signature C history k app kind b2 m2 Hd Hh Ht A2) as [(b & I2 & _ & D2 & _ & E2)|F]; [|contradiction].
  destruct (carries_fun _ _ _ _ _ C1 D1) as [-> ->]. destruct (carries_fun _ _ _ _ _ C2 D2) as [-> En].
  assert (a = b); [|subst b; split; [reflexivity|congruence]].
  clear -I1 I2 En Hc. induction history as [|x l IH]; [destruct I1|]. cbn [map] in Hc. inversion Hc as [|? ? Hx Hl]; subst.
  destruct I1 as [->|I1], I2 as [->|I2]; [reflexivity| | |auto].
  - destruct Hx. rewrite En. apply in_map, I2.
  - destruct Hx. rewrite <- En. apply in_map, I1.
Qed.
Print Assumptions C142_counter.

(** The token of the example signed one message and, for a web site, another. *)
Definition ex_assertions : list assertion :=
  [mkAssertion (c_sha256 plain_crypto (s2b "ssh:")) x01 5 [] (c_sha256 plain_crypto (s2b "a message"));
   mkAssertion (c_sha256 plain_crypto (s2b "example.com")) x05 6 [xa0] (c_sha256 plain_crypto (s2b "login"))].
Lemma ex_assertions_ok : Forall assertion_ok ex_assertions.
Proof. repeat (constructor; [split; [vm_compute; reflexivity|split; [vm_compute; discriminate|vm_compute; reflexivity]]|]). constructor. Qed.
Example C142_case : digest_sizes plain_crypto /\ Forall assertion_ok ex_assertions
  /\ plain_twin (pk_kind twin_hw) (s2b "ssh:") (PkEd25519 [x63; x64] None)
  /\ accepted plain_crypto twin_hw (s2b "a message") twin_blob /\ carries twin_blob x01 5 /\ touched x01 /\ ~ touched x04
  /\ NoDup (map at_counter ex_assertions) /\ backed plain_crypto ex_assertions (s2b "ssh:") twin_blob (s2b "a message").
Proof.
  split; [exact plain_crypto_sizes|]. split; [exact ex_assertions_ok|]. split; [constructor|].
  split; [apply (proj1 (verify_iff plain_crypto twin_blob (s2b "a message") twin_hw twin_blob)); vm_compute; reflexivity|].
  assert (K : carries twin_blob x01 5).
  { exists (s2b "sk-ssh-ed25519@openssh.com"), ([x63; x64] ++ twin_message), []. split; [rewrite app_nil_r; reflexivity|].
    split; [vm_compute; discriminate|]. split; [vm_compute; discriminate|]. vm_compute. discriminate. }
  split; [exact K|]. split; [reflexivity|]. split; [intros T; discriminate T|].
  split; [cbn; repeat (constructor; [cbn [In]; intuition discriminate|]); constructor|].
  eexists. split; [left; reflexivity|]. auto.
Qed.

(** That an accepted signature of a hardware key says that the token was touched is false: the
    library does not look at the flags. *)
Theorem C142_touched_refuted : exists C k msg blob flags counter,
  digest_sizes C /\ kt_is_sk (pk_type k) = true /\ verify_signature C blob msg k = Ok blob
  /\ carries blob flags counter /\ ~ touched flags.
Proof.
  exists plain_crypto, twin_hw, (s2b "a message"),
    (field (s2b "sk-ssh-ed25519@openssh.com") ++ field ([x63; x64] ++ hardware_message plain_crypto (s2b "ssh:") x00 5 (s2b "a message")) ++ x00 :: be32 5), x00, 5%N.
  split; [exact plain_crypto_sizes|]. split; [reflexivity|]. split; [vm_compute; reflexivity|]. split; [|intros T; discriminate T].
  exists (s2b "sk-ssh-ed25519@openssh.com"), ([x63; x64] ++ hardware_message plain_crypto (s2b "ssh:") x00 5 (s2b "a message")), [].
  split; [rewrite app_nil_r; reflexivity|]. split; [vm_compute; discriminate|]. split; [vm_compute; discriminate|]. vm_compute. discriminate.
Qed.
Print Assumptions C142_touched_refuted.

(** Theorems about bytes that can be changed without a key (C122). *)
From Verif Require Import Base BaseFacts Utf8 Utf8Facts SpecWire SpecKeys
  SpecSig SpecCert SpecText SpecSshSig Str StrFacts Reader ReaderFacts KeyType KeyTypeFacts PubKeyType Writer WriterFacts WireFacts
  Crypto PubKey PubKeyFacts Signature SignatureFacts SshSigFacts Cert CertFacts TbsFacts PropCert PropIssue PropSignature PropSshSig.

(** Bytes behind a signature do not spoil it, for keys of all types. *)
Theorem C122_signature_tail : forall (C : crypto) (k : pubkey) (msg blob x : bytes),
  (exists o, verify_signature C blob msg k = Ok o) -> exists o, verify_signature C (blob ++ x) msg k = Ok o.
Proof.
  intros C k msg blob x (o & H). exists (blob ++ x). apply verify_iff in H. apply verify_iff.
  destruct H as [_ (label & payload & after & st & -> & Hf & Hl & Hk & Hm)]. split; [reflexivity|].
  exists label, payload, (after ++ x), st. rewrite <- !app_assoc. split; [reflexivity|]. do 3 (split; [assumption|]).
  assert (T : forall app m, signed_message C app msg after m -> signed_message C app msg (after ++ x) m).
  { intros [a|] m; cbn [signed_message]; [|auto]. intros (fl & n & tl & -> & Hn & ->). exists fl, n, (tl ++ x).
    split; [cbn [List.app]; rewrite <- app_assoc; reflexivity|auto]. }
  destruct (pk_kind k) as [e n|cv key app|key app]; [exact Hm| |].
  - destruct Hm as (v & len & r & s & b1 & b2 & tl & fr & fs & m & H1 & H2 & H3 & H4 & H5 & H6 & H7 & H8).
    exists v, len, r, s, b1, b2, tl, fr, fs, m. do 6 (split; [assumption|]). split; [apply T, H7|exact H8].
  - destruct Hm as (m & H1 & H2 & H3). exists m. split; [exact H1|]. split; [apply T, H2|exact H3].
Qed.
Print Assumptions C122_signature_tail.

(** A certificate can be made longer in two places; its fields stay. *)
Theorem C122_certificates : forall (C : crypto) (data : bytes) (c : cert),
  cert_from_bytes C data = Ok c ->
  exists sp rest, data = sp ++ field (ct_signature c) ++ rest
    /\ forall x y, field_ok (ct_signature c ++ x) ->
         exists c', cert_from_bytes C (sp ++ field (ct_signature c ++ x) ++ y) = Ok c'
           /\ same_signed_fields c' c /\ ct_signature c' = ct_signature c ++ x
           /\ ct_serialized c' = sp ++ field (ct_signature c ++ x) ++ y.
Proof.
  intros C data c H. apply C35_valid_signature in H. destruct H as (sp & rest & E & Hp & Ha).
  exists sp, rest. split; [exact E|]. intros x y Hf.
  destruct (C122_signature_tail C (ct_signature_key c) sp (ct_signature c) x) as (o & Ho).
  { exists (ct_signature c). apply verify_iff. auto. }
  apply verify_iff in Ho. destruct (C35_accepts_exactly C sp (ct_signature c ++ x) y c Hp Hf (proj2 Ho)) as (c' & Hc & Hs & Hg & _).
  exists c'. split; [exact Hc|]. split; [exact Hs|]. split; [exact Hg|].
  apply cert_from_bytes_iff in Hc. destruct Hc as (_ & _ & _ & _ & _ & _ & _ & Hc). exact Hc.
Qed.
Print Assumptions C122_certificates.

(** So the bytes of a certificate never identify it: another one holds the same. *)
Theorem C122_another_certificate : forall (C : crypto) (data : bytes) (c : cert),
  cert_from_bytes C data = Ok c ->
  forall n, exists data' c', cert_from_bytes C data' = Ok c' /\ same_signed_fields c' c /\ ct_signature c' = ct_signature c
    /\ data' <> data /\ ct_serialized c' <> ct_serialized c /\ n <= length data'.
Proof.
  intros C data c H n. pose proof H as H0. destruct (C122_certificates C data c H) as (sp & rest & E & G).
  apply cert_from_bytes_iff in H0. destruct H0 as (sp' & post & _ & _ & Hf & _ & _ & Hser).
  destruct (G [] (repeat x00 n ++ x00 :: rest)) as (c' & Hc & Hs & Hg & Hr); [rewrite app_nil_r; apply field_ok_fits, Hf|].
  rewrite app_nil_r in Hc, Hr, Hg.
  assert (D : sp ++ field (ct_signature c) ++ repeat x00 n ++ x00 :: rest <> data).
  { intros K. rewrite E in K. apply app_inv_head in K. apply app_inv_head in K. apply (f_equal (@length byte)) in K.
    rewrite app_length in K. cbn [length] in K. lia. }
  eexists _, c'. split; [exact Hc|]. split; [exact Hs|]. split; [exact Hg|]. split; [exact D|].
  split; [rewrite Hr, Hser; exact D|]. rewrite !app_length, repeat_length. lia.
Qed.
Print Assumptions C122_another_certificate.

(** The signature of a file stays good when bytes are added to it. *)
Theorem C122_file_signatures : forall (C : crypto) (m : bytes) (s : sshsig) (ns x : bytes) (expected : option pubkey) (v : verified),
  from_ssh_signature C m s ns expected = Ok v ->
  exists v', from_ssh_signature C m (mkSshSig (ss_pubkey s) (ss_namespace s) (ss_hash s) (ss_signature s ++ x)) ns expected = Ok v'.
Proof.
  intros C m s ns x ex v H. unfold from_ssh_signature in *. cbn [ss_pubkey ss_namespace ss_hash ss_signature].
  destruct (match ex with Some k => negb (pubkey_eqb (ss_pubkey s) k) | None => false end); [discriminate|].
  destruct (negb (bytes_eqb ns (ss_namespace s))); [discriminate|].
  change (to_signed_format C (mkSshSig (ss_pubkey s) (ss_namespace s) (ss_hash s) (ss_signature s ++ x)) m) with (to_signed_format C s m).
  destruct (verify_signature C (ss_signature s) (to_signed_format C s m) (ss_pubkey s)) as [o|e|] eqn:E; [|discriminate..].
  destruct (C122_signature_tail C (ss_pubkey s) (to_signed_format C s m) (ss_signature s) x) as (o' & ->); eauto.
Qed.
Print Assumptions C122_file_signatures.

Lemma lines_after e x pre : forall text rest, ~ In x0a e -> (forall l, e <> l ++ [x0d]) -> lines_of text (pre ++ e :: rest) ->
  exists rest', lines_of (text ++ x0a :: x) (pre ++ e :: rest').
Proof.
  assert (A : forall l more, (l ++ x0d :: x0a :: more) ++ x0a :: x = l ++ x0d :: x0a :: (more ++ x0a :: x))
    by (intros; rewrite <- app_assoc; reflexivity).
  assert (B : forall l more, (l ++ x0a :: more) ++ x0a :: x = l ++ x0a :: (more ++ x0a :: x))
    by (intros; rewrite <- app_assoc; reflexivity).
  induction pre as [|p pre IH]; intros text rest He Hc H; cbn [List.app] in *.
  - inversion H as [|l Hn Hl E1 E2|l more ls Hn Hm E1 E2|l more ls Hn Hr Hm E1 E2]; subst.
    + destruct (lines_total x) as (ls & Hx). exists ls. apply L_lf; assumption.
    + destruct (lines_total (more ++ x0a :: x)) as (ls & Hx). exists ls. rewrite A. apply L_crlf; assumption.
    + destruct (lines_total (more ++ x0a :: x)) as (ls & Hx). exists ls. rewrite B. apply L_lf; assumption.
  - inversion H as [|l Hn Hl E1 E2|l more ls Hn Hm E1 E2|l more ls Hn Hr Hm E1 E2]; subst.
    + destruct pre; discriminate.
    + destruct (IH more rest He Hc Hm) as (rest' & G). exists rest'. rewrite A. apply L_crlf; assumption.
    + destruct (IH more rest He Hc Hm) as (rest' & G). exists rest'. rewrite B. apply L_lf; assumption.
Qed.

(** Text can be added below an armored signature. *)
Theorem C122_armored : forall (text x : bytes) (s : sshsig),
  sshsig_from_armored_string text = Ok s -> sshsig_from_armored_string (text ++ x0a :: x) = Ok s.
Proof.
  intros text x s H. apply C47_accepts_exactly in H. apply C47_accepts_exactly.
  destruct H as (bs & tl & Hs & body & rest & k & Hl & Hn & Hb).
  destruct (lines_after end_line x (begin_line :: body) text rest) as (rest' & G).
  - vm_compute. intuition discriminate.
  - intros l E. apply (f_equal (fun l => last l x00)) in E. rewrite last_last in E. vm_compute in E. discriminate E.
  - exact Hl.
  - exists bs, tl. split; [exact Hs|]. exists body, rest', k. auto.
Qed.
Print Assumptions C122_armored.

(** A certificate with bytes added in both places. *)
Example C122_case : exists c sp rest, cert_from_bytes lax_crypto ex_data = Ok c /\ ex_data = sp ++ field (ct_signature c) ++ rest
  /\ field_ok (ct_signature c ++ [x07]) /\ ct_signature c <> [].
Proof.
  destruct C35_case as (c & H & _). destruct (C122_certificates _ _ _ H) as (sp & rest & E & _). exists c, sp, rest.
  split; [exact H|]. split; [exact E|]. vm_compute in H. apply ok_inj in H. subst c. split; vm_compute; discriminate.
Qed.

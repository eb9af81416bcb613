(** Property C99 (the names of certificate types, and the standard permissions). *)
From Coq Require Import Permutation.
From Verif Require Import Base BaseFacts Utf8 Utf8Facts SpecWire SpecKeys
  SpecSig SpecCert Reader ReaderFacts KeyType KeyTypeFacts PubKeyType Writer WriterFacts WireFacts
  Crypto PubKey PubKeyFacts Signature SignatureFacts Cert CertFacts TbsFacts PropCert PropIssue Show.

(** ** Specification *)
(** The names that are understood. *)
Inductive type_name : cert_type -> bytes -> Prop :=
| TN_user : type_name User (s2b "user")
| TN_User : type_name User (s2b "User")
| TN_host : type_name Host (s2b "host")
| TN_Host : type_name Host (s2b "Host").

(** What a certificate for ordinary logins permits. *)
Definition login_permissions : list bytes :=
  [s2b "permit-X11-forwarding"; s2b "permit-agent-forwarding"; s2b "permit-port-forwarding";
   s2b "permit-pty"; s2b "permit-user-rc"].

(** Calls that have to do with extensions. *)
Definition about_extensions (o : build_op) : Prop :=
  match o with OpExtension _ _ | OpSetExtensions _ => True | _ => False end.

(** ** C99 *)
Theorem C99_type_names : forall (s : bytes) (t : cert_type),
  cert_type_try_from s = Some t <-> type_name t s.
Proof.
  intros s t. unfold cert_type_try_from. split.
  - destruct (bytes_eqb s (s2b "user")) eqn:E1; cbn [orb].
    { apply bytes_eqb_eq in E1. intros H. injection H as <-. subst s. constructor. }
    destruct (bytes_eqb s (s2b "User")) eqn:E2; cbn [orb].
    { apply bytes_eqb_eq in E2. intros H. injection H as <-. subst s. constructor. }
    destruct (bytes_eqb s (s2b "host")) eqn:E3; cbn [orb].
    { apply bytes_eqb_eq in E3. intros H. injection H as <-. subst s. constructor. }
    destruct (bytes_eqb s (s2b "Host")) eqn:E4; cbn [orb].
    { apply bytes_eqb_eq in E4. intros H. injection H as <-. subst s. constructor. }
    discriminate.
  - intros H; destruct H; reflexivity.
Qed.
Print Assumptions C99_type_names.

(** The text printed for a type is not among the names it is read from. *)
Theorem C99_printed_type_read_refuted :
  exists t, cert_type_try_from (cert_type_display t) <> Some t.
Proof. exists User. vm_compute. discriminate. Qed.
Print Assumptions C99_printed_type_read_refuted.

Theorem C99_standard_permissions :
  NoDup (map fst standard_extensions)
  /\ forall k v, In (k, v) standard_extensions <-> v = [] /\ In k login_permissions.
Proof.
  split.
  - vm_compute. repeat (constructor; [cbn [In]; intuition discriminate|]). constructor.
  - intros k v. assert (P : Permutation standard_extensions (map (fun n => (n, [])) login_permissions)).
    { change standard_extensions with
        [(s2b "permit-agent-forwarding", @nil byte); (s2b "permit-port-forwarding", []); (s2b "permit-pty", []);
         (s2b "permit-user-rc", []); (s2b "permit-X11-forwarding", [])].
      unfold login_permissions. cbn [map].
      generalize (s2b "permit-agent-forwarding", @nil byte) (s2b "permit-port-forwarding", @nil byte)
        (s2b "permit-pty", @nil byte) (s2b "permit-user-rc", @nil byte) (s2b "permit-X11-forwarding", @nil byte).
      intros a b c d e. symmetry. apply (Permutation_cons_append [a; b; c; d] e). }
    split.
    + intros H. apply (Permutation_in _ P) in H. apply in_map_iff in H. destruct H as (n & E & H).
      injection E as <- <-. auto.
    + intros [-> H]. apply (Permutation_in _ (Permutation_sym P)). apply in_map_iff. eauto.
Qed.
Print Assumptions C99_standard_permissions.

(** A certificate issued with the standard extensions permits exactly these when it is read back,
    whatever the other calls. *)
Lemma no_ext_ops ops : forall c, (forall o, In o ops -> ~ about_extensions o) ->
  ct_extensions (apply_ops c ops) = ct_extensions c.
Proof.
  induction ops as [|o ops IH]; intros c H; [reflexivity|].
  unfold apply_ops in *. cbn [fold_left]. rewrite IH by (intros o' Ho; apply H; right; exact Ho).
  specialize (H o (or_introl eq_refl)). destruct o; try reflexivity; exfalso; apply H; exact I.
Qed.

Theorem C99_issued_with_standard : forall (C : crypto) (iter : hashmap -> hashmap) (c0 c' : cert)
    (before after : list build_op) (sg cadata : bytes) (c := apply_ops c0 (before ++ OpSetExtensions standard_extensions :: after)),
  (forall m, Permutation (iter m) m) -> under_construction c -> well_typed c ->
  (forall o, In o after -> ~ about_extensions o) ->
  key_data (pk_type (ct_signature_key c)) (pk_kind (ct_signature_key c)) cadata ->
  add_signature C iter c sg = Ok c' -> (size (ct_serialized c') <= u32_max)%N ->
  exists p, cert_from_bytes C (ct_serialized c') = Ok p
    /\ forall k v, In (k, v) (ct_extensions p) <-> v = [] /\ In k login_permissions.
Proof.
  intros C iter c0 c' before after sg cad c P Hu Hw Hn Hk Ha Hs.
  assert (E : ct_extensions c = standard_extensions).
  { unfold c, apply_ops. rewrite fold_left_app. cbn [fold_left].
    change (ct_extensions (apply_ops (apply_op (fold_left apply_op before c0) (OpSetExtensions standard_extensions)) after)
            = standard_extensions).
    rewrite no_ext_ops by exact Hn. reflexivity. }
  destruct (C38_issued_parses_back C iter c c' sg cad P Hu Hw Hk Ha Hs) as (p & Hp & Hr & _).
  exists p. split; [exact Hp|]. destruct Hr as (_ & _ & _ & _ & _ & _ & _ & _ & _ & _ & Hm & _).
  rewrite E in Hm. intros k v. rewrite (Hm k v). apply C99_standard_permissions.
Qed.
Print Assumptions C99_issued_with_standard.

Example C99_case : exists c c' p, ex_request = Ok c
  /\ under_construction c /\ well_typed c /\ add_signature lax_crypto (@rev _) c ex_sig = Ok c'
  /\ cert_from_bytes lax_crypto (ct_serialized c') = Ok p
  /\ map fst (ct_extensions p) = rev [s2b "permit-agent-forwarding"; s2b "permit-port-forwarding";
       s2b "permit-pty"; s2b "permit-user-rc"; s2b "permit-X11-forwarding"]
  /\ ex_ops = [OpSerial 9; OpKeyId (s2b "alice laptop"); OpPrincipal (s2b "alice"); OpPrincipal (s2b "root");
       OpValidAfter 10; OpValidBefore 20; OpCriticalOption (s2b "force-command") (s2b "ls")]
       ++ OpSetExtensions standard_extensions :: [OpSerial 7]
  /\ cert_type_try_from (s2b "User") = Some User /\ cert_type_try_from (s2b "HOST") = None.
Proof.
  destruct ex_under_construction as (c & E & Hu & Hw). exists c. vm_compute in E. injection E as <-.
  eexists _, _. split; [vm_compute; reflexivity|]. split; [exact Hu|]. split; [exact Hw|].
  split; [vm_compute; reflexivity|]. split; [vm_compute; reflexivity|]. split; [vm_compute; reflexivity|].
  split; [reflexivity|]. split; reflexivity.
Qed.

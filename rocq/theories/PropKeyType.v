(** Properties C17-C19: key type names and curves. *)
From Verif Require Import Base BaseFacts SpecNames KeyType KeyTypeFacts.

(** ** Specification of the supported names, by their structure *)
Fixpoint has_prefix (p l : bytes) : bool :=
  match p, l with
  | [], _ => true
  | x :: p', y :: l' => if Byte.eqb x y then has_prefix p' l' else false
  | _, [] => false
  end.
Fixpoint contains (p l : bytes) : bool :=
  has_prefix p l || match l with [] => false | _ :: l' => contains p l' end.

Definition cert_suffix : bytes := s2b "-cert-v01@openssh.com".

(** The algorithm family: the one of "rsa", "ecdsa", "ed25519" that occurs in the name. *)
Definition family_kind (name : bytes) (as_cert : bool) : option kt_kind :=
  if contains (s2b "ecdsa") name then Some (if as_cert then KEcdsaCert else KEcdsa)
  else if contains (s2b "ed25519") name then Some (if as_cert then KEd25519Cert else KEd25519)
  else if contains (s2b "rsa") name then Some (if as_cert then KRsaCert else KRsa)
  else None.

Definition describes (name : bytes) (kt : key_type) : Prop :=
  kt_name kt = name
  /\ kt_is_cert kt = contains cert_suffix name
  /\ kt_is_sk kt = has_prefix (s2b "sk-") name
  (** hardware certificates carry the plain kind *)
  /\ Some (kt_k kt) = family_kind name (kt_is_cert kt && negb (kt_is_sk kt))
  (** the plain name *)
  /\ (if kt_is_cert kt
      then exists stem, name = stem ++ cert_suffix
           /\ kt_plain kt = if kt_is_sk kt then stem ++ s2b "@openssh.com" else stem
      else kt_plain kt = if has_prefix (s2b "rsa-sha2-") name then s2b "ssh-rsa" else name).

Theorem C17_key_type_names : forall n : bytes,
  (In n supported_names ->
     exists kt, kt_from_name n = Ok kt /\ describes n kt
       /\ exists p, kt_from_name (kt_plain kt) = Ok p
            /\ kt_is_cert p = false /\ kt_plain p = kt_name p
            /\ kt_is_sk p = kt_is_sk kt)
  /\ (~ In n supported_names -> kt_from_name n = Err (EUnknownKeyType n)).
Proof.
  intros n. split.
  - intros H. unfold supported_names in H. cbn [map In] in H.
    repeat (destruct H as [<-|H];
      [eexists; split; [vm_compute; reflexivity|]; split;
        [repeat split; try reflexivity;
         try (cbn [kt_is_cert kt_is_sk]; match goal with
              | |- exists stem, s2b ?x = _ /\ ?p = _ => exists (firstn (length (s2b x) - 21) (s2b x));
                                          split; reflexivity
              end)
        |eexists; split; [vm_compute; reflexivity|repeat split]] |]); contradiction.
  - intros H. apply kt_from_name_err. intros kt Hk. apply kt_from_name_ok in Hk.
    destruct Hk as [Hi ->]. apply H.
    change supported_names with (map kt_name key_types). apply in_map, Hi.
Qed.
Print Assumptions C17_key_type_names.

Example C17_case : In (s2b "sk-ssh-ed25519-cert-v01@openssh.com") supported_names
  /\ ~ In (s2b "ssh-dss") supported_names
  /\ kt_from_name (s2b "ssh-dss") = Err (EUnknownKeyType (s2b "ssh-dss"))
  /\ kt_from_name (s2b "ssh-rsa ") = Err (EUnknownKeyType (s2b "ssh-rsa ")).
Proof.
  split; [cbn; tauto|]. split.
  - cbn [supported_names map In]. intros H.
    repeat (destruct H as [H|H]; [discriminate H|]). exact H.
  - split; reflexivity.
Qed.

Theorem C18_cert_names : forall (n : bytes) (kt : key_type), kt_from_name n = Ok kt ->
  exists cn ckt, as_cert_name kt = Ok cn /\ kt_from_name cn = Ok ckt
    /\ kt_is_cert ckt = true /\ kt_plain ckt = kt_plain kt /\ kt_is_sk ckt = kt_is_sk kt
    /\ as_cert_name ckt = Ok cn.
Proof.
  intros n kt H. apply kt_from_name_ok in H. destruct H as [Hi _]. fold (known kt) in Hi.
  revert kt Hi. apply known_forall. unfold key_types.
  repeat (apply Forall_cons; [do 2 eexists; split; [vm_compute; reflexivity|];
    split; [vm_compute; reflexivity|]; repeat split |]). apply Forall_nil.
Qed.
Print Assumptions C18_cert_names.

Example C18_case :
  bind (kt_from_name (s2b "sk-ssh-ed25519@openssh.com")) as_cert_name
  = Ok (s2b "sk-ssh-ed25519-cert-v01@openssh.com")
  /\ bind (kt_from_name (s2b "rsa-sha2-512")) as_cert_name = Ok (s2b "ssh-rsa-cert-v01@openssh.com").
Proof. split; reflexivity. Qed.

Theorem C19_curves : forall id : bytes,
  (In id (map s2b ["nistp256"; "nistp384"; "nistp521"]%string) ->
     exists c, curve_from_identifier id = Ok c /\ c_identifier c = id
       /\ id = s2b match c_kind c with
                   | Nistp256 => "nistp256" | Nistp384 => "nistp384" | Nistp521 => "nistp521"
                   end)
  /\ (~ In id (map s2b ["nistp256"; "nistp384"; "nistp521"]%string) ->
     curve_from_identifier id = Err (EUnknownCurve id))
  /\ (forall id' c c', curve_from_identifier id = Ok c -> curve_from_identifier id' = Ok c' ->
        c_kind c = c_kind c' -> id = id').
Proof.
  intros id. split; [|split].
  - cbn [map In]. intros [<-|[<-|[<-|[]]]]; eexists; repeat split; reflexivity.
  - intros H. apply curve_err. intros c Hc. apply curve_ok in Hc. destruct Hc as [Hg ->].
    apply H. cbn [map In]. destruct Hg as [->|[->| ->]]; cbn; tauto.
  - intros id' c c' H1 H2 Hk. apply curve_ok in H1, H2. destruct H1 as [G1 ->], H2 as [G2 ->].
    destruct G1 as [->|[->| ->]], G2 as [->|[->| ->]]; cbn in *; congruence.
Qed.
Print Assumptions C19_curves.

Example C19_case : curve_from_identifier (s2b "nistp521") = Ok (mkCurve Nistp521 (s2b "nistp521"))
  /\ curve_from_identifier (s2b "NISTP256") = Err (EUnknownCurve (s2b "NISTP256")).
Proof. split; reflexivity. Qed.

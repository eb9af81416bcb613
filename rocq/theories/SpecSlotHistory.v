(** Specification of the history of a key in a slot of a YubiKey: what it was asked to sign by all the
    programs that used the device (C144). *)
From Verif Require Import Base SpecSig SpecPiv SpecPivCalls KeyType PubKeyType Crypto X509 Piv PivCalls.

(** Digests of a message that a slot may be given. *)
Definition digest (C : crypto) (m d : bytes) : Prop := d = c_sha256 C m \/ d = c_sha384 C m.
(** Two messages with a digest in common. *)
Definition collide (C : crypto) (a b : bytes) : Prop := a <> b /\ exists d, digest C a d /\ digest C b d.

(** [rec] is what the slots signed so far: what they were given, and when self-signing one of [ders]. *)
Definition recorded {H S} (C : crypto) (D : yubikey H S) (ders : list bytes) (rec : S -> N -> slot -> list bytes) : Prop :=
  forall o s n sl, exists new, rec (effect D o s) n sl = rec s n sl ++ new
    /\ forall d, In d new ->
       match o with
       | DSign h d' _ sl' => d = d' /\ y_serial D h = n /\ sl' = sl
       | DSelfSign h sl' _ _ _ => y_serial D h = n /\ sl' = sl /\ exists m, In m ders /\ digest C m d
       | _ => False
       end.

(** The operations [ops] were done in calls of [ps], each with the serial number of the device it was for. *)
Definition done_in {H S} (D : yubikey H S) (R : rcgen) (C : crypto) (ps : list (N * call)) (ops : list (device_op H)) : Prop :=
  forall o, In o ops -> exists n c os, In (n, c) ps /\ may_do D R C n c os /\ In o os.
(** One of the calls was to sign [m] with the slot, as it is or in a request. *)
Definition asked (R : rcgen) (ps : list (N * call)) (n : N) (sl : slot) (m : bytes) : Prop :=
  exists c, In (n, c) ps /\ call_signs R c m sl.
(** One of the calls was given [m] to sign. *)
Definition given (ps : list (N * call)) (n : N) (sl : slot) (m : bytes) : Prop :=
  In (n, CSshSign m sl) ps \/ exists alg, In (n, CSign m alg sl) ps.
(** Something in DER. *)
Definition der (m : bytes) : Prop := exists rest, m = x30 :: rest.

(** [sg] is accepted as a signature of [m] under [k] although none of the digests signed is one of [m]. *)
Definition slot_forged (C : crypto) (ds : list bytes) (k : pubkey) (m sg : bytes) : Prop :=
  accepted C k m sg /\ forall d, In d ds -> ~ digest C m d.

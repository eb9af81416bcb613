(** Specification of what sequences of calls do to YubiKeys: operations of the device, and the slots
    as a store of keys and certificates. *)
From Verif Require Import Base SpecPiv KeyType PubKeyType Crypto X509 Piv PivCalls.

(** Operations of the yubikey crate, with their arguments. *)
Inductive device_op (H : Type) :=
| DOpen (serial : N)
| DReconnect (h : H)
| DPin (h : H) (pin : bytes)
| DAuthenticate (h : H) (mgm_key : bytes)
| DRead (h : H) (sl : slot)
| DGenerate (h : H) (sl : slot) (alg : algorithm_id) (pin touch : N)
| DSelfSign (h : H) (sl : slot) (serial name : bytes) (info : key_info)
| DSign (h : H) (digest : bytes) (alg : algorithm_id) (sl : slot)
| DWrite (h : H) (sl : slot) (data : bytes)
| DAttest (h : H) (sl : slot).
Arguments DOpen {H}. Arguments DReconnect {H}. Arguments DPin {H}. Arguments DAuthenticate {H}. Arguments DRead {H}.
Arguments DGenerate {H}. Arguments DSelfSign {H}. Arguments DSign {H}. Arguments DWrite {H}. Arguments DAttest {H}.

(** Their effect on the outside. *)
Definition effect {H S} (D : yubikey H S) (o : device_op H) (s : S) : S :=
  match o with
  | DOpen n => snd (y_open D n s)
  | DReconnect h => snd (y_reconnect D h s)
  | DPin h p => snd (y_verify_pin D h p s)
  | DAuthenticate h k => snd (y_authenticate D h k s)
  | DRead h sl => snd (y_read D h sl s)
  | DGenerate h sl a p t => snd (y_generate D h sl a p t s)
  | DSelfSign h sl n c i => snd (y_self_sign D h sl n c i s)
  | DSign h d a sl => snd (y_sign D h d a sl s)
  | DWrite h sl d => snd (y_write D h sl d s)
  | DAttest h sl => snd (y_attest D h sl s)
  end.
Fixpoint effects {H S} (D : yubikey H S) (os : list (device_op H)) (s : S) : S :=
  match os with [] => s | o :: os => effects D os (effect D o s) end.

(** Operations of the YubiKey with serial number [n]. *)
Definition on_device {H S} (D : yubikey H S) (n : N) (o : device_op H) : Prop :=
  match o with
  | DOpen m => m = n
  | DReconnect h | DPin h _ | DAuthenticate h _ | DRead h _ | DGenerate h _ _ _ _ | DSelfSign h _ _ _ _
  | DSign h _ _ _ | DWrite h _ _ | DAttest h _ => y_serial D h = n
  end.
(** PINs and management keys sent, in order. *)
Definition pins_sent {H} (os : list (device_op H)) : list bytes :=
  flat_map (fun o => match o with DPin _ p => [p] | _ => [] end) os.
Definition mgm_keys_sent {H} (os : list (device_op H)) : list bytes :=
  flat_map (fun o => match o with DAuthenticate _ k => [k] | _ => [] end) os.
Definition pins_given (l : list call) : list bytes :=
  flat_map (fun c => match c with CUnlock p _ => [p] | _ => [] end) l.
(** The slot an operation or call changes, if any. *)
Definition op_changes {H} (o : device_op H) : option slot :=
  match o with DGenerate _ sl _ _ _ | DSelfSign _ sl _ _ _ | DWrite _ sl _ => Some sl | _ => None end.
Definition call_changes (c : call) : option slot :=
  match c with CProvision sl _ _ _ _ | CWrite sl _ => Some sl | _ => None end.
(** The private key an operation or call uses, with the data signed. *)
Definition op_signs {H} (o : device_op H) : option (bytes * slot) :=
  match o with DSign _ d _ sl => Some (d, sl) | _ => None end.
(** A call asks for a signature of this data with this slot. A request is built by rcgen. *)
Definition call_signs (R : rcgen) (c : call) (m : bytes) (sl : slot) : Prop :=
  match c with
  | CSign data _ sl' => m = data /\ sl = sl'
  | CSshSign buf sl' => m = buf /\ sl = sl'
  | CRequest sl' name => sl = sl' /\ exists alg p, r_request R alg name p = Some m
  | _ => False
  end.

(** What a call on the YubiKey with serial number [n] may do: only operations of that device, a PIN
    or management key only if it was passed, changes only of the slot it names, and at most one
    signature, of a digest of the data it is about. *)
Definition may_do {H S} (D : yubikey H S) (R : rcgen) (C : crypto) (n : N) (c : call) (os : list (device_op H)) : Prop :=
  Forall (on_device D n) os
  /\ pins_sent os = pins_given [c]
  /\ (mgm_keys_sent os = [] \/ exists p k, c = CUnlock p k /\ mgm_keys_sent os = [k] /\ y_mgm_key D k = true)
  /\ Forall (fun o => op_changes o = None \/ op_changes o = call_changes c) os
  /\ (Forall (fun o => op_signs o = None) os
      \/ exists a b o d m sl, os = a ++ o :: b /\ Forall (fun o => op_signs o = None) (a ++ b) /\ op_signs o = Some (d, sl)
           /\ call_signs R c m sl /\ (d = c_sha256 C m \/ d = c_sha384 C m)).
(** The calls that were made: all, or those up to a panic. *)
Definition calls_made (l : list call) (rs : list (res value)) : list call := firstn (length rs) l.

(** ** Slots as a store *)
(** The private key and the certificate in the slots of the devices. *)
Record slots (S : Type) := mkSlots {
  key_in : S -> N -> slot -> option key_info;
  cert_in : S -> N -> slot -> option slot_cert
}.
Arguments key_in {S}. Arguments cert_in {S}.
Definition same_slot {S} (V : slots S) (s s' : S) (n : N) (sl : slot) : Prop :=
  key_in V s' n sl = key_in V s n sl /\ cert_in V s' n sl = cert_in V s n sl.
(** Slots other than [sl] of the device with serial number [n] stay as they are. *)
Definition only_slot {S} (V : slots S) (s s' : S) (n : N) (sl : slot) : Prop :=
  forall m ot, (m, ot) <> (n, sl) -> same_slot V s s' m ot.

(** How a device treats its slots. Any operation may fail at any time, also by loss of power: a failed
    generation leaves any key, a failed self-signing leaves the old certificate or the new one. *)
Definition stores_slots {H S} (D : yubikey H S) (V : slots S) : Prop :=
  (forall o t n sl, op_changes o = None -> same_slot V t (effect D o t) n sl)
  /\ (forall o t sl n, op_changes o = Some sl -> on_device D n o -> only_slot V t (effect D o t) n sl)
  /\ (forall h sl t c, fst (y_read D h sl t) = Some c -> cert_in V t (y_serial D h) sl = Some c)
  /\ (forall h sl a p u t o t', y_generate D h sl a p u t = (o, t') ->
        cert_in V t' (y_serial D h) sl = cert_in V t (y_serial D h) sl
        /\ forall i, o = Some i -> key_in V t' (y_serial D h) sl = Some i)
  /\ (forall h sl n nm i t o t', y_self_sign D h sl n nm i t = (o, t') ->
        key_in V t' (y_serial D h) sl = key_in V t (y_serial D h) sl
        /\ ((exists c, cert_in V t' (y_serial D h) sl = Some c /\ sc_info c = i)
            \/ o = None /\ cert_in V t' (y_serial D h) sl = cert_in V t (y_serial D h) sl))
  /\ (forall h sl d t, key_in V (effect D (DWrite h sl d) t) (y_serial D h) sl = key_in V t (y_serial D h) sl).

(** The slot's certificate, if there is one, is about the slot's key. *)
Definition consistent {S} (V : slots S) (s : S) (n : N) (sl : slot) : Prop :=
  forall c, cert_in V s n sl = Some c -> key_in V s n sl = Some (sc_info c).
(** Calls that can spoil this: writing a certificate, and provisioning that is not reported as done. *)
Definition spoils (sl : slot) (c : call) (r : res value) : Prop :=
  match c with
  | CWrite sl' _ => sl' = sl
  | CProvision sl' _ _ _ _ => sl' = sl /\ forall v, r <> Ok v
  | _ => False
  end.
(** The device signs digests with the key in the slot. *)
Definition signs_with_key {H S} (C : crypto) (D : yubikey H S) (V : slots S) (h : H) (sl : slot) : Prop :=
  forall oid point alg hash verify len view m s g s', piv_curve C oid alg hash verify len view ->
    key_in V s (y_serial D h) sl = Some (view point) ->
    y_sign D h (hash m) alg sl s = (Some g, s') -> SpecSign.ecdsa_signs verify len point m g.
(** The two parsers agree about the certificate: the device's view of the key and the X.509 one. *)
Definition parsers_agree (C : crypto) (X : x509) (c : slot_cert) : Prop :=
  forall oid alg hash verify len view point, piv_curve C oid alg hash verify len view ->
    (sc_info c = view point <-> slot_key X c oid point).

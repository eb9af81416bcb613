(** Programs that use a YubiKey: sequences of method calls on one open connection
    (src/yubikey/piv/management.rs and ssh.rs). Definitions only. *)
From Verif Require Import Base KeyType PubKeyType Crypto Utils X509 Piv.

(** The public methods of [Yubikey], management.rs 85-211 and ssh.rs 11-51, with their arguments. *)
Inductive call :=
| CReconnect
| CUnlock (pin mgm_key : bytes)
| CConfigured (sl : slot)
| CSubject (sl : slot)
| CCertificate (sl : slot)
| CWrite (sl : slot) (data : bytes)
| CAttest (sl : slot)
| CRequest (sl : slot) (common_name : bytes)
| CProvision (sl : slot) (common_name : bytes) (alg : algorithm_id) (touch_policy pin_policy : N)
| CSign (data : bytes) (alg : algorithm_id) (sl : slot)
| CPubkey (sl : slot)
| CKeyType (sl : slot)
| CSshSign (buf : bytes) (sl : slot).
(** What they return; no code. *)
Inductive value :=
| VUnit
| VInfo (i : key_info)
| VBytes (b : bytes)
| VKey (k : pubkey)
| VAlg (a : algorithm_id).
Definition yvalue {S A} (f : A -> value) (m : Y S A) : Y S value := do~ a <- m; yret (f a).

Section Calls.
Context {H S : Type} (D : yubikey H S) (R : rcgen) (X : x509) (C : crypto).

(** One call, management.rs 86-211 and ssh.rs 11-51: its result, the connection held afterwards
    (only [reconnect] replaces it) and the new state of the outside. *)
Definition run_call (c : call) (h : H) (s : S) : res value * H * S :=
  let keep (r : res value * S) := (fst r, h, snd r) in
  match c with
  | CReconnect =>
      match reconnect D h s with
      | (Ok _, h', s') => (Ok VUnit, h', s')
      | (Err e, h', s') => (Err e, h', s')
      | (Panic, h', s') => (Panic, h', s')
      end
  | CUnlock pin key => keep (yvalue (fun _ => VUnit) (unlock D h pin key) s)
  | CConfigured sl => keep (yvalue VInfo (configured_slot D h sl) s)
  | CSubject sl => keep (yvalue VBytes (fetch_subject D h sl) s)
  | CCertificate sl => keep (yvalue VBytes (fetch_certificate D h sl) s)
  | CWrite sl data => keep (yvalue (fun _ => VUnit) (write_certificate D h sl data) s)
  | CAttest sl => keep (yvalue VBytes (fetch_attestation D h sl) s)
  | CRequest sl name => keep (yvalue VBytes (generate_csr D R C h sl name) s)
  | CProvision sl name alg touch pin => keep (yvalue VKey (provision D X h sl name alg touch pin) s)
  | CSign data alg sl => keep (yvalue VBytes (sign_data D C h data alg sl) s)
  | CPubkey sl => keep (yvalue VKey (ssh_cert_fetch_pubkey D X h sl) s)
  | CKeyType sl => keep (yvalue VAlg (get_ssh_key_type D X h sl) s)
  | CSshSign buf sl => keep (yvalue VBytes (ssh_cert_signer D X C h buf sl) s)
  end.

(** A program: calls chosen in advance, results collected. A panic ends it, as in Rust. No code:
    the caller is arbitrary, and a caller that looks at results makes one of these sequences. *)
Fixpoint run_calls (l : list call) (h : H) (s : S) : list (res value) * H * S :=
  match l with
  | [] => ([], h, s)
  | c :: l =>
      match run_call c h s with
      | (Panic, h', s') => ([Panic], h', s')
      | (r, h', s') => let '(rs, h'', s'') := run_calls l h' s' in (r :: rs, h'', s'')
      end
  end.
End Calls.

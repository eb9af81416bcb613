(** src/yubikey/piv/management.rs and ssh.rs. Definitions only.
    The yubikey and rcgen crates are records of functions; nothing is assumed about them. Errors
    are those of piv/mod.rs 11-34, as [EYubikeyPIVError]. *)
From Verif Require Import Base KeyType PubKeyType Crypto Utils X509.

(** yubikey crate [AlgorithmId] and [PublicKeyInfo], as used in management.rs 30-34, 194-197. The
    contents of RSA keys are dropped. *)
Inductive algorithm_id := Rsa1024 | Rsa2048 | EccP256 | EccP384.
Inductive key_info := PkiRsa | PkiP256 (point : bytes) | PkiP384 (point : bytes).
(** [!=] on [AlgorithmId], management.rs 201. *)
Definition algorithm_eqb (a b : algorithm_id) : bool :=
  match a, b with
  | Rsa1024, Rsa1024 | Rsa2048, Rsa2048 | EccP256, EccP256 | EccP384, EccP384 => true
  | _, _ => false
  end.
(** yubikey crate [SlotId], by number, management.rs 6. *)
Definition slot := N.
(** yubikey crate [Certificate], management.rs 112-113, 118-119, 124-125: [as_ref], [subject_pki]
    and [subject]. *)
Record slot_cert := mkSlotCert { sc_der : bytes; sc_info : key_info; sc_subject : bytes }.

(** The operations of the yubikey crate that are used. [H] is an open connection, [S] the state of
    everything outside the program. [None] is any error. *)
Record yubikey (H S : Type) := mkYubikey {
  y_serial : H -> N;                                                   (* management.rs 89, 154 *)
  y_open : N -> S -> option H * S;                                     (* 79, 89: open_by_serial *)
  y_reconnect : H -> S -> option unit * S;                             (* 87 *)
  y_verify_pin : H -> bytes -> S -> option unit * S;                   (* 101 *)
  y_mgm_key : bytes -> bool;                                           (* 103: MgmKey::from_bytes *)
  y_authenticate : H -> bytes -> S -> option unit * S;                 (* 104 *)
  y_read : H -> slot -> S -> option slot_cert * S;                     (* 112, 124 *)
  y_generate : H -> slot -> algorithm_id -> N -> N -> S -> option key_info * S; (* 173: pin, touch *)
  y_self_sign : H -> slot -> bytes -> bytes -> key_info -> S -> option unit * S; (* 176-184: serial, name *)
  y_sign : H -> bytes -> algorithm_id -> slot -> S -> option bytes * S; (* 204-209 *)
  y_open_any : S -> option H * S;                                      (* 73: YubiKey::open *)
  y_cert : bytes -> bool;                                              (* 130: Certificate::from_bytes *)
  y_write : H -> slot -> bytes -> S -> option unit * S;                (* 130-134: write, uncompressed *)
  y_attest : H -> slot -> S -> option bytes * S                        (* 139: attest *)
}.
Arguments y_serial {H S}. Arguments y_open {H S}. Arguments y_reconnect {H S}.
Arguments y_verify_pin {H S}. Arguments y_mgm_key {H S}. Arguments y_authenticate {H S}.
Arguments y_read {H S}. Arguments y_generate {H S}. Arguments y_self_sign {H S}. Arguments y_sign {H S}.
Arguments y_open_any {H S}. Arguments y_cert {H S}. Arguments y_write {H S}. Arguments y_attest {H S}.

(** rcgen crate, management.rs 144-158: the request to be signed for an algorithm, a name and a
    key, and the finished request with a signature. Its check that the key's algorithm is the
    requested one is part of [generate_csr]. *)
Record rcgen := mkRcgen {
  r_request : algorithm_id -> bytes -> bytes -> option bytes;
  r_finish : algorithm_id -> bytes -> bytes -> option bytes
}.

(** Methods: a result and the new state of the outside. No code: plumbing for [?]. *)
Definition Y (S A : Type) := S -> res A * S.
Definition yret {S A} (a : A) : Y S A := fun s => (Ok a, s).
Definition yerr {S A} (e : piv_error) : Y S A := fun s => (Err (EYubikeyPIVError e), s).
Definition ybind {S A B} (m : Y S A) (f : A -> Y S B) : Y S B := fun s =>
  match m s with
  | (Ok a, s') => f a s'
  | (Err e, s') => (Err e, s')
  | (Panic, s') => (Panic, s')
  end.
Notation "'do~' x '<-' m ';' k" := (ybind m (fun x => k))
  (at level 200, x pattern, m at level 100, k at level 200, right associativity).
(** [?] on the yubikey crate's errors, mod.rs 57-61; the text is dropped. *)
Definition yop {S A} (f : S -> option A * S) : Y S A := fun s =>
  match f s with
  | (Some a, s') => (Ok a, s')
  | (None, s') => (Err (EYubikeyPIVError PInternal), s')
  end.

Section Methods.
Context {H S : Type} (D : yubikey H S) (R : rcgen) (X : x509) (C : crypto).

(** management.rs 71-75 [new] *)
Definition open_new : Y S H := yop (y_open_any D).
(** management.rs 78-83 [open] *)
Definition open_serial (serial : N) : Y S H := fun s =>
  match y_open D serial s with
  | (Some h, s') => (Ok h, s')
  | (None, s') => yerr PNoSuchYubikey s'
  end.
(** management.rs 86-97 [reconnect]; also returns the connection held afterwards. *)
Definition reconnect (h : H) (s : S) : res unit * H * S :=
  match y_reconnect D h s with
  | (Some _, s') => (Ok tt, h, s')
  | (None, s') =>
      match y_open D (y_serial D h) s' with
      | (Some h', s'') => (Ok tt, h', s'')
      | (None, s'') => (Err (EYubikeyPIVError PNoSuchYubikey), h, s'')
      end
  end.
(** management.rs 100-108 [unlock] *)
Definition unlock (h : H) (pin mgm_key : bytes) : Y S unit :=
  do~ _ <- yop (y_verify_pin D h pin);
  if y_mgm_key D mgm_key then do~ _ <- yop (y_authenticate D h mgm_key); yret tt
  else yerr PInvalidManagementKey.
(** management.rs 111-114 [configured] *)
Definition configured_slot (h : H) (sl : slot) : Y S key_info :=
  do~ c <- yop (y_read D h sl); yret (sc_info c).
(** management.rs 117-120 [fetch_subject] *)
Definition fetch_subject (h : H) (sl : slot) : Y S bytes :=
  do~ c <- yop (y_read D h sl); yret (sc_subject c).
(** management.rs 123-126 [fetch_certificate] *)
Definition fetch_certificate (h : H) (sl : slot) : Y S bytes :=
  do~ c <- yop (y_read D h sl); yret (sc_der c).
(** management.rs 129-135 [write_certificate] *)
Definition write_certificate (h : H) (sl : slot) (data : bytes) : Y S unit :=
  if y_cert D data then yop (y_write D h sl data) else yerr PInternal.
(** management.rs 138-140 [fetch_attestation] *)
Definition fetch_attestation (h : H) (sl : slot) : Y S bytes := yop (y_attest D h sl).
(** management.rs 193-211 [sign_data] *)
Definition sign_data (h : H) (data : bytes) (alg : algorithm_id) (sl : slot) : Y S bytes := fun s =>
  match configured_slot h sl s with
  | (Ok info, s') =>
      let (slot_alg, hashed) :=
        match info with
        | PkiP256 _ => (EccP256, c_sha256 C data)
        | PkiP384 _ => (EccP384, c_sha384 C data)
        | PkiRsa => (Rsa2048, c_sha256 C data)
        end in
      if negb (algorithm_eqb slot_alg alg) then yerr PWrongKeyType s'
      else yop (y_sign D h hashed alg sl) s'
  | (Err _, s') => yerr PUnprovisioned s'
  | (Panic, s') => (Panic, s')
  end.

(** ssh.rs 11-18 [ssh_cert_fetch_pubkey] *)
Definition ssh_cert_fetch_pubkey (h : H) (sl : slot) : Y S pubkey :=
  do~ cert <- fetch_certificate h sl;
  match x509_cert_key X cert with
  | Ok k => yret k
  | Err EParsingError => yerr PParsingError
  | Err EKeyTypeMismatch => yerr PWrongKeyType
  | Err _ => yerr PUnsupported
  | Panic => fun s => (Panic, s)
  end.
(** ssh.rs 23-35 [get_ssh_key_type] *)
Definition get_ssh_key_type (h : H) (sl : slot) : Y S algorithm_id :=
  do~ k <- ssh_cert_fetch_pubkey h sl;
  match pk_kind k with
  | PkEcdsa c _ _ =>
      match c_kind c with
      | Nistp256 => yret EccP256
      | Nistp384 => yret EccP384
      | Nistp521 => yerr PUnsupported
      end
  | PkRsa _ _ => yerr PUnsupported
  | PkEd25519 _ _ => yerr PUnsupported
  end.
(** ssh.rs 38-51 [ssh_cert_signer] *)
Definition ssh_cert_signer (h : H) (buf : bytes) (sl : slot) : Y S bytes := fun s =>
  match get_ssh_key_type h sl s with
  | (Ok alg, s1) =>
      (do~ sig <- sign_data h buf alg sl;
       do~ pub_key <- ssh_cert_fetch_pubkey h sl;
       do~ x <- (fun s => (format_signature_for_ssh pub_key sig, s));
       match x with
       | Some x => yret x
       | None => yerr PParsingError
       end) s1
  | (Err _, s1) => yerr PUnsupported s1
  | (Panic, s1) => (Panic, s1)
  end.
(** management.rs 165-187 [provision] *)
Definition provision (h : H) (sl : slot) (common_name : bytes) (alg : algorithm_id)
    (touch_policy pin_policy : N) : Y S pubkey :=
  do~ key <- yop (y_generate D h sl alg pin_policy touch_policy);
  do~ _ <- yop (y_self_sign D h sl (repeat x00 20) common_name key);
  ssh_cert_fetch_pubkey h sl.

(** [unwrap], management.rs 28-29 *)
Definition yunwrap {A} (m : Y S A) : Y S A := fun s =>
  match m s with (Ok a, s') => (Ok a, s') | (_, s') => (Panic, s') end.
(** management.rs 27-42 [CSRSigner::new]: the key and algorithm. *)
Definition csr_signer (serial : N) (sl : slot) : Y S (bytes * algorithm_id) :=
  do~ h <- yunwrap (open_serial serial);
  do~ pki <- yunwrap (configured_slot h sl);
  match pki with
  | PkiRsa => fun s => (Panic, s)
  | PkiP256 p => yret (p, EccP256)
  | PkiP384 p => yret (p, EccP384)
  end.
(** management.rs 50-58 [CSRSigner::sign]; its errors become internal ones in line 158. *)
Definition csr_sign (serial : N) (sl : slot) (alg : algorithm_id) (message : bytes) : Y S bytes := fun s =>
  match open_serial serial s with
  | (Ok h, s') =>
      match sign_data h message alg sl s' with
      | (Err _, s'') => yerr PInternal s''
      | r => r
      end
  | (_, s') => yerr PInternal s'
  end.
(** management.rs 143-161 [generate_csr] *)
Definition generate_csr (h : H) (sl : slot) (common_name : bytes) : Y S bytes :=
  do~ info <- configured_slot h sl;
  do~ alg <- match info with
             | PkiP256 _ => yret EccP256
             | PkiP384 _ => yret EccP384
             | PkiRsa => yerr PUnsupported
             end;
  do~ (point, key_alg) <- csr_signer (y_serial D h) sl;
  if negb (algorithm_eqb alg key_alg) then yerr PInternal
  else
    do~ tbs <- yop (fun s => (r_request R alg common_name point, s));
    do~ sig <- csr_sign (y_serial D h) sl key_alg tbs;
    yop (fun s => (r_finish R alg tbs sig, s)).
End Methods.

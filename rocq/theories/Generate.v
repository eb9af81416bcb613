(** src/fido/generate/{mod,ctap2_hid,mozilla}.rs: new keys on FIDO devices. Definitions only.
    The texts of unknown errors are dropped. *)
From Verif Require Import Base KeyType PubKeyType Crypto PrivKey Fido X509.

(** generate/mod.rs 17-29 [U2FAttestation] *)
Record u2f_attestation := mkAtt {
  at_auth_data : bytes;
  at_sig : bytes;
  at_intermediate : bytes;
  at_challenge : bytes;
  at_alg : Z
}.
(** generate/mod.rs 33-38 [FIDOSSHKey] *)
Record fido_key := mkFidoKey { fk_private : privkey; fk_attestation : u2f_attestation }.
(** generate/mod.rs 42-51 [U2FAttestation::verify] *)
Definition attestation_verify (X : x509) (default : bytes) (a : u2f_attestation) : res valid_attestation :=
  verify_auth_data X default (at_auth_data a) (at_sig a) (at_challenge a) (at_alg a) (at_intermediate a) None.

Definition funknown : error := EFidoError FUnknown.

(** ** ctap2_hid.rs *)
(** ctap-hid-fido2 crate [Attestation], the fields read in ctap2_hid.rs 51-102. *)
Record hid_attestation := mkHidAtt {
  ha_up : bool; ha_uv : bool; ha_at : bool; ha_ed : bool;
  ha_id : bytes;
  ha_auth : bytes;
  ha_sig : bytes;
  ha_x5c : list bytes;
  ha_alg : Z
}.
(** The devices: opening one (by path, or whichever is there) and making an Ed25519 credential for
    an application and a challenge with or without PIN. *)
Record hid_ops := mkHidOps {
  g_open : option bytes -> option N;                                         (* ctap2_hid.rs 26-34 *)
  g_make : N -> bytes -> bytes -> option bytes -> option hid_attestation     (* 37-44, 47-48 *)
}.
(** ctap2_hid.rs 51-63 *)
Definition hid_flags (a : hid_attestation) : byte :=
  n2b (N.lor (N.lor (N.lor (if ha_up a then 1 else 0) (if ha_uv a then 4 else 0))
                    (if ha_at a then 64 else 0)) (if ha_ed a then 128 else 0)).
(** ctap2_hid.rs 84-88, mozilla.rs 163-167 *)
Definition first_cert (l : list bytes) : bytes := match l with [] => [] | c :: _ => c end.
(** ctap2_hid.rs 20-110 [generate_new_ssh_key]; [challenge] comes from line 36. *)
Definition hid_generate (G : hid_ops) (X : x509) (C : crypto) (default application comment : bytes)
    (pin device_path : option bytes) (challenge : bytes) : res fido_key :=
  do? device <- ok_or (g_open G device_path) funknown;
  do? att <- ok_or (g_make G device application challenge pin) funknown;
  do? key_type <- kt_from_name (s2b "sk-ssh-ed25519@openssh.com");
  let kind := SkEd25519Sk (mkHw (hid_flags att) (ha_id att) [] pin device_path) in
  do? auth <- auth_parse (ha_auth att);
  do? pub <- auth_ssh_key auth application;
  let private_key := mkPrivKey key_type kind pub 0 comment in
  let attestation := mkAtt (ha_auth att) (ha_sig att) (first_cert (ha_x5c att)) (c_sha256 C challenge) (ha_alg att) in
  do? _ <- attestation_verify X default attestation;
  Ok (mkFidoKey private_key attestation).

(** ** mozilla.rs *)
(** authenticator crate [AttestationObject]: the data and, for a packed statement, signature,
    certificates and algorithm (mozilla.rs 129, 150-161). *)
Record moz_attestation := mkMozAtt {
  ma_auth : bytes;
  ma_packed : option (bytes * list bytes * Z)
}.
(** mozilla.rs 129-182: after a registration. *)
Definition moz_finish (X : x509) (default application comment : bytes) (pin : option bytes) (challenge : bytes)
    (att : moz_attestation) : res fido_key :=
  do? auth <- auth_parse (ma_auth att);
  do? key_type <- kt_from_name (s2b "sk-ssh-ed25519@openssh.com");
  let kind := SkEd25519Sk (mkHw (ad_flags auth) (ad_credential_id auth) [] pin None) in
  do? pub <- auth_ssh_key auth application;
  let private_key := mkPrivKey key_type kind pub 0 comment in
  do? (sig, certs, alg) <- ok_or (ma_packed att) funknown;
  let attestation := mkAtt (ma_auth att) sig (first_cert certs) challenge alg in
  do? _ <- attestation_verify X default attestation;
  Ok (mkFidoKey private_key attestation).

(** authenticator crate [StatusUpdate], by the arms of mozilla.rs 91-108. *)
Inductive status := StPinRequired | StPinAuthBlocked | StPinBlocked | StInvalidPin (attempts : option N) | StOther.
(** mozilla.rs 92-108: the error the status thread sends, if any. *)
Definition status_error (u : status) : option fido_error :=
  match u with
  | StPinRequired => Some FPinRequired
  | StPinAuthBlocked => Some FKeyLocked
  | StPinBlocked => Some FKeyBlocked
  | StInvalidPin n => Some (FInvalidPin n)
  | StOther => None
  end.
(** Where the calling thread is: at line 116, at line 121, or returned. *)
Inductive moz_main := AtRegister | AtError | Returned (r : res fido_key).
Definition returned (m : moz_main) : bool := match m with Returned _ => true | _ => false end.
(** Three unbounded channels, with the senders that are alive. The caller's own [status_tx] (77)
    lives until it returns; [error_tx] (80) lives in the status thread (89). *)
Record moz_state := mkMoz {
  ms_status : list status;              (* queued in status_rx *)
  ms_library : bool;                    (* the library's clone of status_tx (85) is alive *)
  ms_thread : bool;                     (* the status thread runs *)
  ms_errors : list fido_error;          (* queued in error_rx *)
  ms_callback : bool;                   (* the callback with register_tx (81) is alive *)
  ms_register : list (option moz_attestation); (* queued in register_rx; [None]: an error *)
  ms_main : moz_main
}.
(** mozilla.rs 77-113: all is set up and the library is running. Not modelled: lines 44-51 and
    85-87, which return an unknown error or panic before. *)
Definition moz_init : moz_state := mkMoz [] true true [] true [] AtRegister.
(** What can happen: the library reports a status, calls the callback (once), drops it uncalled, or
    drops its [status_tx]; or the program takes a step. *)
Inductive moz_event :=
| LibStatus (u : status) | LibResult (r : option moz_attestation) | LibDropCallback | LibDropStatus
| Program.
Section Steps.
Context (finish : moz_attestation -> res fido_key).
Inductive moz_step : moz_state -> moz_event -> moz_state -> Prop :=
(* the library *)
| S_status u q t e c r m :
    moz_step (mkMoz q true t e c r m) (LibStatus u) (mkMoz (if t then q ++ [u] else q) true t e c r m)
| S_result x q l t e r m :
    moz_step (mkMoz q l t e true r m) (LibResult x) (mkMoz q l t e false (r ++ [x]) m)
| S_drop_callback q l t e r m :
    moz_step (mkMoz q l t e true r m) LibDropCallback (mkMoz q l t e false r m)
| S_drop_status q t e c r m :
    moz_step (mkMoz q true t e c r m) LibDropStatus (mkMoz q false t e c r m)
(* the status thread, mozilla.rs 89-113 *)
| S_pin u f q l e c r m : status_error u = Some f ->
    moz_step (mkMoz (u :: q) l true e c r m) Program (mkMoz [] l false (e ++ [f]) c r m)
| S_other u q l e c r m : status_error u = None ->
    moz_step (mkMoz (u :: q) l true e c r m) Program (mkMoz q l true e c r m)
| S_closed e c r m : returned m = true ->
    moz_step (mkMoz [] false true e c r m) Program (mkMoz [] false false e c r m)
(* the caller, mozilla.rs 115-127 *)
| S_registered a q l t e c r :
    moz_step (mkMoz q l t e c (Some a :: r) AtRegister) Program (mkMoz q l t e c r (Returned (finish a)))
| S_failed q l t e c r :
    moz_step (mkMoz q l t e c (None :: r) AtRegister) Program (mkMoz q l t e c r AtError)
| S_no_callback q l t e :
    moz_step (mkMoz q l t e false [] AtRegister) Program (mkMoz q l t e false [] (Returned (Err funknown)))
| S_error f q l t e c r :
    moz_step (mkMoz q l t (f :: e) c r AtError) Program (mkMoz q l t e c r (Returned (Err (EFidoError f))))
| S_no_error q l c r :
    moz_step (mkMoz q l false [] c r AtError) Program (mkMoz q l false [] c r (Returned (Err funknown))).
(** Runs, with the events in order. *)
Inductive moz_run : moz_state -> list moz_event -> moz_state -> Prop :=
| R_nil s : moz_run s [] s
| R_snoc s tr s1 e s2 : moz_run s tr s1 -> moz_step s1 e s2 -> moz_run s (tr ++ [e]) s2.
End Steps.

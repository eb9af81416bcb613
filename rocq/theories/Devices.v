(** src/fido/utils/{ctap2_hid,mozilla}.rs: finding devices, and asking them about their PIN.
    Definitions only. *)
From Verif Require Import Base PubKeyType Crypto PrivKey Generate Token.
From Coq Require Import ZArith.

(** ctap-hid-fido2 crate [HidInfo]: the two fields used (ctap2_hid.rs 14-16). *)
Record device_info := mkInfo { di_param : hid_param; di_product : bytes }.
(** utils/mod.rs 18-24 [FidoDeviceDescriptor] *)
Record descriptor := mkDescriptor { fd_product : bytes; fd_path : bytes }.
(** Everything outside: [get_fidokey_devices] (ctap2_hid.rs 12), [FidoKeyHid::new] (30, 51),
    [enable_info_option] for [ClientPin] (35) and [get_pin_retries] (57). [None] outside is a
    failure. The texts of failures are dropped, as those of all [FidoError::Unknown] are. *)
Record readers (S : Type) := mkReaders {
  q_devices : S -> list device_info * S;
  q_open : list hid_param -> S -> option N * S;
  q_client_pin : N -> S -> option (option bool) * S;
  q_retries : N -> S -> option Z * S
}.
Arguments mkReaders {S}. Arguments q_devices {S}. Arguments q_open {S}. Arguments q_client_pin {S}. Arguments q_retries {S}.

Section Asking.
Context {S : Type} (Q : readers S).

(** ctap2_hid.rs 14-20: the closure of [filter_map]. *)
Definition describe (x : device_info) : option descriptor :=
  match di_param x with
  | HPath p => Some (mkDescriptor (di_product x) p)
  | _ => None
  end.
(** [Iterator::filter_map] and [collect] *)
Fixpoint filter_map {A B} (f : A -> option B) (l : list A) : list B :=
  match l with
  | [] => []
  | a :: l => match f a with Some b => b :: filter_map f l | None => filter_map f l end
  end.
(** ctap2_hid.rs 9-22 [list_fido_devices] *)
Definition hid_list_fido_devices (s : S) : list descriptor * S :=
  let '(found, s) := q_devices Q s in (filter_map describe found, s).
(** ctap2_hid.rs 26-43 [device_requires_pin] *)
Definition hid_device_requires_pin (path : bytes) (s : S) : res bool * S :=
  match q_open Q [HPath path] s with
  | (None, s) => (Err funknown, s)
  | (Some device, s) =>
    match q_client_pin Q device s with
    | (Some (Some result), s) => (Ok result, s)
    | (Some None, s) => (Err funknown, s)
    | (None, s) => (Err funknown, s)
    end
  end.
(** ctap2_hid.rs 47-59 [device_pin_retries] *)
Definition hid_device_pin_retries (path : bytes) (s : S) : res Z * S :=
  match q_open Q [HPath path] s with
  | (None, s) => (Err funknown, s)
  | (Some device, s) =>
    match q_retries Q device s with
    | (Some n, s) => (Ok n, s)
    | (None, s) => (Err funknown, s)
    end
  end.

(** mozilla.rs 7-9, 12-16, 19-23; mod.rs 1-9: the version that is compiled in. Without hardware
    support there are no such functions; [None] then. *)
Definition list_fido_devices (F : features) (s : S) : option (list descriptor * S) :=
  match f_fido F with
  | NoFido => None
  | Ctap2Hid => Some (hid_list_fido_devices s)
  | Mozilla => Some ([], s)
  end.
Definition device_requires_pin (F : features) (path : bytes) (s : S) : option (res bool * S) :=
  match f_fido F with
  | NoFido => None
  | Ctap2Hid => Some (hid_device_requires_pin path s)
  | Mozilla => Some (Err funknown, s)
  end.
Definition device_pin_retries (F : features) (path : bytes) (s : S) : option (res Z * S) :=
  match f_fido F with
  | NoFido => None
  | Ctap2Hid => Some (hid_device_pin_retries path s)
  | Mozilla => Some (Err funknown, s)
  end.

(** A program that asks about devices and signs with one key. *)
Inductive device_op :=
| DList | DNeedsPin (path : bytes) | DRetries (path : bytes) | DToken (o : @token_op S).
Inductive device_answer :=
| AList (l : list descriptor) | ANeedsPin (r : res bool) | ARetries (r : res Z) | ASigned (r : res (option bytes))
| ANone.
(** One operation; [ANone] for one without result or that does not exist. *)
Definition device_step (T : tokens S) (F : features) (C : crypto) (o : device_op) (k : privkey) (s : S)
  : device_answer * privkey * S :=
  match o with
  | DList => match list_fido_devices F s with Some (l, s) => (AList l, k, s) | None => (ANone, k, s) end
  | DNeedsPin p => match device_requires_pin F p s with Some (r, s) => (ANeedsPin r, k, s) | None => (ANone, k, s) end
  | DRetries p => match device_pin_retries F p s with Some (r, s) => (ARetries r, k, s) | None => (ANone, k, s) end
  | DToken (TSign m) => let '(r, s) := token_sign T F C k m s in (ASigned r, k, s)
  | DToken (TPin p) => (ANone, set_pin p k, s)
  | DToken (TPath p) => (ANone, set_device_path p k, s)
  | DToken (TOther f) => (ANone, k, f s)
  end.
Fixpoint device_session (T : tokens S) (F : features) (C : crypto) (ops : list device_op) (k : privkey) (s : S)
  : list device_answer * privkey * S :=
  match ops with
  | [] => ([], k, s)
  | o :: ops => let '(a, k, s) := device_step T F C o k s in
                let '(l, k, s) := device_session T F C ops k s in (a :: l, k, s)
  end.
End Asking.
Arguments DList {S}. Arguments DNeedsPin {S}. Arguments DRetries {S}. Arguments DToken {S}.

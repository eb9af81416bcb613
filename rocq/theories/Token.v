(** src/fido/signing/{ctap2_hid,mozilla}.rs again, with the devices as a world that has a state:
    what is asked of hardware tokens, in which order. PrivKey.v has the same functions with the
    whole exchange as one answer. Definitions only. *)
From Verif Require Import Base KeyType PubKeyType Crypto PrivKey.

(** ctap-hid-fido2 crate [HidParam]: how to find a device. *)
Inductive hid_param := HPath (path : bytes) | HVidPid (vid pid : N).
(** ctap2_hid.rs 47-53: the arguments of [get_assertion_with_args]. Without PIN the builder is
    told [without_pin_and_uv]. *)
Record assert_args := mkAssertArgs {
  aa_application : bytes; aa_challenge : bytes; aa_credential : bytes; aa_pin : option bytes
}.
(** mozilla.rs 46-56 [SignArgs]: the arguments that are not constants; the allow list has one
    credential (35-38). *)
Record sign_args := mkSignArgs {
  sa_hash : bytes; sa_application : bytes; sa_credential : bytes; sa_pin : option bytes
}.
(** mozilla.rs 64-91: [sign] failed (75), the callback was dropped uncalled (79), or it was called
    with an assertion or an error. *)
Inductive sign_outcome := NotStarted | NoAnswer | Answered (r : option assertion).
(** Everything outside: [get_fidokey_devices] (ctap2_hid.rs 40), [FidoKeyHid::new] (38, 44),
    [get_assertion_with_args] (55), [AuthenticatorService::new] (mozilla.rs 58), [sign] and its
    callback (70-79). [None] and [false] are failures. *)
Record tokens (S : Type) := mkTokens {
  t_devices : S -> list hid_param * S;
  t_open : list hid_param -> S -> option N * S;
  t_assert : N -> assert_args -> S -> option (list assertion) * S;
  t_service : S -> bool * S;
  t_sign : sign_args -> S -> sign_outcome * S
}.
Arguments mkTokens {S}. Arguments t_devices {S}. Arguments t_open {S}. Arguments t_assert {S}.
Arguments t_service {S}. Arguments t_sign {S}.

(** ctap2_hid.rs 10-22, mozilla.rs 20-24: the hardware part of a key, if it has one. *)
Definition hw_of (k : privkey) : option hw_priv :=
  match sk_kind k with SkEcdsaSk h | SkEd25519Sk h => Some h | _ => None end.

(** [Vec::pop] *)
Fixpoint pop {A} (l : list A) : option A :=
  match l with [] => None | [a] => Some a | _ :: l' => pop l' end.

Section Signing.
Context {S : Type} (T : tokens S).

(** ctap2_hid.rs 9-66 [sign_with_private_key] *)
Definition hid_token_sign (k : privkey) (challenge : bytes) (s : S) : res (option bytes) * S :=
  match hw_of k with
  | None => (Ok None, s)
  | Some h =>
    match pub_app (sk_pub k) with
    | Some (Some app) =>
      let '(params, s) := match hw_device_path h with
                          | Some path => ([HPath path], s)
                          | None => t_devices T s
                          end in
      match t_open T params s with
      | (None, s) => (Ok None, s)
      | (Some device, s) =>
        match t_assert T device (mkAssertArgs app challenge (hw_handle h) (hw_pin h)) s with
        | (None, s) => (Ok None, s)
        | (Some l, s) =>
          match pop l with
          | None => (Ok None, s)
          | Some a => (hw_blob (sk_pub k) a, s)
          end
        end
      end
    | _ => (Ok None, s)
    end
  end.

(** mozilla.rs 18-96 [sign_with_private_key]. The lines it prints are dropped. *)
Definition moz_token_sign (C : crypto) (k : privkey) (challenge : bytes) (s : S) : res (option bytes) * S :=
  match hw_of k with
  | None => (Ok None, s)
  | Some h =>
    match pub_app (sk_pub k) with
    | None => (Ok None, s)
    | Some None => (Panic, s)
    | Some (Some app) =>
      match t_service T s with
      | (false, s) => (Ok None, s)
      | (true, s) =>
        match t_sign T (mkSignArgs (c_sha256 C challenge) app (hw_handle h) (hw_pin h)) s with
        | (NotStarted, s) | (NoAnswer, s) => (Panic, s)
        | (Answered None, s) => (Ok None, s)
        | (Answered (Some a), s) => (hw_blob (sk_pub k) a, s)
        end
      end
    end
  end.

(** signing/mod.rs 1-9, privkey.rs 284-290: the backend that is compiled in. *)
Definition token_sign (F : features) (C : crypto) (k : privkey) (m : bytes) (s : S) : res (option bytes) * S :=
  match f_fido F with
  | NoFido => (Ok None, s)
  | Ctap2Hid => hid_token_sign k m s
  | Mozilla => moz_token_sign C k m s
  end.

(** What a program does with one key: signing (privkey.rs 217-292), [set_pin] (622-632),
    [set_device_path] (636-646); or anything happens to the devices meanwhile. *)
Inductive token_op := TSign (m : bytes) | TPin (pin : bytes) | TPath (path : bytes) | TOther (f : S -> S).
(** The results of the signatures asked for, the key and the world afterwards. A call that
    panics leaves key and world as they are then. *)
Fixpoint session (F : features) (C : crypto) (ops : list token_op) (k : privkey) (s : S)
  : list (res (option bytes)) * privkey * S :=
  match ops with
  | [] => ([], k, s)
  | TSign m :: ops =>
      let '(r, s) := token_sign F C k m s in
      let '(rs, k, s) := session F C ops k s in (r :: rs, k, s)
  | TPin p :: ops => session F C ops (set_pin p k) s
  | TPath p :: ops => session F C ops (set_device_path p k) s
  | TOther f :: ops => session F C ops k (f s)
  end.
End Signing.
Arguments TSign {S}. Arguments TPin {S}. Arguments TPath {S}. Arguments TOther {S}.

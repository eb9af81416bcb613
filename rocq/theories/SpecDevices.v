(** Specification of what finding devices and asking about their PIN does. *)
From Verif Require Import Base SpecToken PubKeyType Crypto PrivKey Token Devices.
From Coq Require Import ZArith.

(** What goes over to the devices, with the answers: questions, and all that signing asks. *)
Inductive device_request :=
| QFind (found : list device_info)
| QOpen (params : list hid_param) (device : option N)
| QPin (device : N) (answer : option (option bool))
| QRetries (device : N) (answer : option Z)
| QToken (r : request).
Definition token_requests (l : list device_request) : list request :=
  flat_map (fun q => match q with QToken r => [r] | _ => [] end) l.
(** The same world, keeping a record of all requests. *)
Definition recorded_readers {S} (Q : readers S) : readers (S * list device_request) :=
  mkReaders
    (fun sl => let '(x, s) := q_devices Q (fst sl) in (x, (s, snd sl ++ [QFind x])))
    (fun ps sl => let '(x, s) := q_open Q ps (fst sl) in (x, (s, snd sl ++ [QOpen ps x])))
    (fun d sl => let '(x, s) := q_client_pin Q d (fst sl) in (x, (s, snd sl ++ [QPin d x])))
    (fun d sl => let '(x, s) := q_retries Q d (fst sl) in (x, (s, snd sl ++ [QRetries d x]))).
Definition recorded_tokens {S} (T : tokens S) : tokens (S * list device_request) :=
  mkTokens
    (fun sl => let '(x, s) := t_devices T (fst sl) in (x, (s, snd sl ++ [QToken (RDevices x)])))
    (fun ps sl => let '(x, s) := t_open T ps (fst sl) in (x, (s, snd sl ++ [QToken (ROpen ps x)])))
    (fun d a sl => let '(x, s) := t_assert T d a (fst sl) in (x, (s, snd sl ++ [QToken (RAssert d a x)])))
    (fun sl => let '(x, s) := t_service T (fst sl) in (x, (s, snd sl ++ [QToken (RService x)])))
    (fun a sl => let '(x, s) := t_sign T a (fst sl) in (x, (s, snd sl ++ [QToken (RSign a x)]))).
Definition unrecorded_op {S} (o : @device_op S) : @device_op (S * list device_request) :=
  match o with
  | DList => DList | DNeedsPin p => DNeedsPin p | DRetries p => DRetries p
  | DToken (TSign m) => DToken (TSign m) | DToken (TPin p) => DToken (TPin p) | DToken (TPath p) => DToken (TPath p)
  | DToken (TOther f) => DToken (TOther (fun sl => (f (fst sl), snd sl)))
  end.
(** All requests of a program, its answers, and the key it ends with. *)
Definition device_requests {S} (Q : readers S) (T : tokens S) F C (ops : list (@device_op S)) k s : list device_request :=
  snd (snd (device_session (recorded_readers Q) (recorded_tokens T) F C (map unrecorded_op ops) k (s, []))).
Definition device_answers_of {S} (Q : readers S) (T : tokens S) F C (ops : list (@device_op S)) k s : list device_answer :=
  fst (fst (device_session Q T F C ops k s)).
Definition key_after {S} (Q : readers S) (T : tokens S) F C (ops : list (@device_op S)) k s : privkey :=
  snd (fst (device_session Q T F C ops k s)).
Definition signatures_of (l : list device_answer) : list (res (option bytes)) :=
  flat_map (fun a => match a with ASigned r => [r] | _ => [] end) l.

(** What is listed of the devices found: those that have a path, in their order. *)
Inductive listing : list device_info -> list descriptor -> Prop :=
| L_end : listing [] []
| L_path p name found l : listing found l -> listing (mkInfo (HPath p) name :: found) (mkDescriptor name p :: l)
| L_other vid pid name found l : listing found l -> listing (mkInfo (HVidPid vid pid) name :: found) l.

(** [FidoError::Unknown], whatever its text. *)
Definition unknown_error : error := EFidoError FUnknown.
(** The requests and the answer of one operation, with ctap-hid-fido2: a question opens the device
    at the path given, no other, and asks it one thing. *)
Inductive op_asks {S} : @device_op S -> list device_request -> device_answer -> Prop :=
| OA_list found l : listing found l -> op_asks DList [QFind found] (AList l)
| OA_pin_closed p : op_asks (DNeedsPin p) [QOpen [HPath p] None] (ANeedsPin (Err unknown_error))
| OA_pin p d b : op_asks (DNeedsPin p) [QOpen [HPath p] (Some d); QPin d (Some (Some b))] (ANeedsPin (Ok b))
| OA_pin_unknown p d x : x = None \/ x = Some None ->
    op_asks (DNeedsPin p) [QOpen [HPath p] (Some d); QPin d x] (ANeedsPin (Err unknown_error))
| OA_retries_closed p : op_asks (DRetries p) [QOpen [HPath p] None] (ARetries (Err unknown_error))
| OA_retries p d n : op_asks (DRetries p) [QOpen [HPath p] (Some d); QRetries d (Some n)] (ARetries (Ok n))
| OA_retries_unknown p d : op_asks (DRetries p) [QOpen [HPath p] (Some d); QRetries d None] (ARetries (Err unknown_error))
| OA_sign m qs r : op_asks (DToken (TSign m)) (map QToken qs) (ASigned r)
| OA_set o : (forall m, o <> TSign m) -> op_asks (DToken o) [] ANone.
Inductive ops_ask {S} : list (@device_op S) -> list device_request -> list device_answer -> Prop :=
| OAs_end : ops_ask [] [] []
| OAs_one o ops q a qs l : op_asks o q a -> ops_ask ops qs l -> ops_ask (o :: ops) (q ++ qs) (a :: l).

(** The signing part of a program. To signing, questions are things that happen to the devices. *)
Inductive signing_part {S} : @device_op S -> @token_op S -> Prop :=
| SP_token o : signing_part (DToken o) o
| SP_list f : signing_part DList (TOther f)
| SP_pin p f : signing_part (DNeedsPin p) (TOther f)
| SP_retries p f : signing_part (DRetries p) (TOther f).

(** What the answers of the authenticator build are, without anything asked. *)
Inductive moz_answer {S} : @device_op S -> device_answer -> Prop :=
| MA_list : moz_answer DList (AList [])
| MA_pin p : moz_answer (DNeedsPin p) (ANeedsPin (Err unknown_error))
| MA_retries p : moz_answer (DRetries p) (ARetries (Err unknown_error)).

(** Questions and signing see the same devices. *)
Definition same_devices {S} (Q : readers S) (T : tokens S) : Prop :=
  (forall s, t_devices T s = (map di_param (fst (q_devices Q s)), snd (q_devices Q s)))
  /\ forall ps s, t_open T ps s = q_open Q ps s.

(** Specification of what is asked of hardware tokens in a session. *)
From Verif Require Import Base SpecWire SpecKeys SpecSig SpecPrivKey SpecSign KeyType PubKeyType Crypto PrivKey Token.

(** What goes over to the tokens, with the answers. *)
Inductive request :=
| RDevices (found : list hid_param)
| ROpen (params : list hid_param) (device : option N)
| RAssert (device : N) (args : assert_args) (answer : option (list assertion))
| RService (ok : bool)
| RSign (args : sign_args) (answer : sign_outcome).
(** The same world, keeping a record of all requests. *)
Definition recorded {S} (T : tokens S) : tokens (S * list request) :=
  mkTokens
    (fun sl => let '(x, s) := t_devices T (fst sl) in (x, (s, snd sl ++ [RDevices x])))
    (fun ps sl => let '(x, s) := t_open T ps (fst sl) in (x, (s, snd sl ++ [ROpen ps x])))
    (fun d a sl => let '(x, s) := t_assert T d a (fst sl) in (x, (s, snd sl ++ [RAssert d a x])))
    (fun sl => let '(x, s) := t_service T (fst sl) in (x, (s, snd sl ++ [RService x])))
    (fun a sl => let '(x, s) := t_sign T a (fst sl) in (x, (s, snd sl ++ [RSign a x]))).
(** Other things that happen are not recorded. *)
Definition unrecorded {S} (o : @token_op S) : @token_op (S * list request) :=
  match o with
  | TSign m => TSign m | TPin p => TPin p | TPath p => TPath p
  | TOther f => TOther (fun sl => (f (fst sl), snd sl))
  end.
(** The requests of a session, and its results. *)
Definition requests_of {S} (T : tokens S) F C (ops : list (@token_op S)) k s : list request :=
  snd (snd (session (recorded T) F C (map unrecorded ops) k (s, []))).
Definition results_of {S} (T : tokens S) F C (ops : list (@token_op S)) k s : list (res (option bytes)) :=
  fst (fst (session T F C ops k s)).

(** A result made from the answer [a]: a signature that ends in the flags and the counter of [a],
    or none. *)
Definition made_from (a : assertion) (r : res (option bytes)) : Prop :=
  r = Ok None
  \/ exists front, r = Ok (Some (front ++ [as_flags a] ++ be32 (as_counter a))).

(** One signature of [m] with ctap-hid-fido2: the device at the path, or the one that opens of
    those found, is asked once. The last assertion it gives counts. *)
Inductive hid_exchange (app handle : bytes) (pin path : option bytes) (m : bytes)
  : list request -> res (option bytes) -> Prop :=
| HX before params tail r :
    ((exists p, path = Some p /\ before = [] /\ params = [HPath p])
     \/ (path = None /\ before = [RDevices params])) ->
    ((tail = [ROpen params None] /\ r = Ok None)
     \/ exists d answer, tail = [ROpen params (Some d); RAssert d (mkAssertArgs app m handle pin) answer]
          /\ ((answer = None /\ r = Ok None) \/ (answer = Some [] /\ r = Ok None)
              \/ exists l a, answer = Some (l ++ [a]) /\ made_from a r)) ->
    hid_exchange app handle pin path m (before ++ tail) r.
(** One signature with the authenticator crate. The path plays no part. *)
Inductive moz_exchange (C : crypto) (app handle : bytes) (pin : option bytes) (m : bytes)
  : list request -> res (option bytes) -> Prop :=
| MX_service : moz_exchange C app handle pin m [RService false] (Ok None)
| MX_sign x r :
    ((x = NotStarted \/ x = NoAnswer) /\ r = Panic
     \/ x = Answered None /\ r = Ok None
     \/ exists a, x = Answered (Some a) /\ made_from a r) ->
    moz_exchange C app handle pin m
      [RService true; RSign (mkSignArgs (c_sha256 C m) app handle pin) x] r.

(** A whole session: each signature is one exchange, with the PIN and the path set last. *)
Inductive session_asks {S} (exchange : option bytes -> option bytes -> bytes -> list request -> res (option bytes) -> Prop)
  : option bytes -> option bytes -> list (@token_op S) -> list request -> list (res (option bytes)) -> Prop :=
| SA_end pin path : session_asks exchange pin path [] [] []
| SA_sign pin path m ops q r qs rs : exchange pin path m q r -> session_asks exchange pin path ops qs rs ->
    session_asks exchange pin path (TSign m :: ops) (q ++ qs) (r :: rs)
| SA_pin pin path p ops qs rs : session_asks exchange (Some p) path ops qs rs ->
    session_asks exchange pin path (TPin p :: ops) qs rs
| SA_path pin path p ops qs rs : session_asks exchange pin (Some p) ops qs rs ->
    session_asks exchange pin path (TPath p :: ops) qs rs
| SA_other pin path f ops qs rs : session_asks exchange pin path ops qs rs ->
    session_asks exchange pin path (TOther f :: ops) qs rs.

(** Signatures, assertions and PINs among the operations and requests. *)
Definition signs {S} (o : @token_op S) : list bytes := match o with TSign m => [m] | _ => [] end.
Definition pins_set {S} (o : @token_op S) : list bytes := match o with TPin p => [p] | _ => [] end.
Definition asked_for_signature (q : request) : bool := match q with RAssert _ _ _ | RSign _ _ => true | _ => false end.
Definition pin_in (q : request) : option bytes :=
  match q with RAssert _ a _ => aa_pin a | RSign a _ => sa_pin a | _ => None end.

(** Tokens whose counters only go up: [count] is below every later counter. *)
Definition counting_up {S} (T : tokens S) (count : S -> N) : Prop :=
  (forall s, (count s <= count (snd (t_devices T s)))%N)
  /\ (forall ps s, (count s <= count (snd (t_open T ps s)))%N)
  /\ (forall s, (count s <= count (snd (t_service T s)))%N)
  /\ (forall d a s, (count s <= count (snd (t_assert T d a s)))%N
        /\ forall l x, fst (t_assert T d a s) = Some (l ++ [x]) ->
             (count s < as_counter x <= count (snd (t_assert T d a s)))%N /\ (as_counter x <= u32_max)%N)
  /\ (forall a s, (count s <= count (snd (t_sign T a s)))%N
        /\ forall x, fst (t_sign T a s) = Answered (Some x) ->
             (count s < as_counter x <= count (snd (t_sign T a s)))%N /\ (as_counter x <= u32_max)%N).
Definition others_count_up {S} (count : S -> N) (ops : list (@token_op S)) : Prop :=
  forall f, In (TOther f) ops -> forall s, (count s <= count (f s))%N.

(** The tokens sign with the key of the credential [handle]: they hash the challenge
    (ctap-hid-fido2) or are given the hash (authenticator). *)
Definition tokens_sign {S} (T : tokens S) (C : crypto) (pub : pubkey) (handle : bytes) : Prop :=
  (forall d app m pin s l a, fst (t_assert T d (mkAssertArgs app m handle pin) s) = Some (l ++ [a]) ->
     device_answers C pub app (c_sha256 C m) a)
  /\ (forall app h pin s a, fst (t_sign T (mkSignArgs h app handle pin) s) = Answered (Some a) ->
     device_answers C pub app h a).

(** Signatures among results; the counter a hardware signature ends in. *)
Definition signed (r : res (option bytes)) : list bytes := match r with Ok (Some b) => [b] | _ => [] end.
Definition ends_in_counter (b : bytes) (n : N) : Prop := exists front, b = front ++ be32 n /\ (n <= u32_max)%N.

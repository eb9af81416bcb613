(** Bytes, big-endian integers, results with explicit panics, and the crate's
    error type. Definitions only. *)
From Coq Require Export Strings.String.
From Coq Require Export Init.Byte Strings.Byte.
From Coq Require Export Bool NArith ZArith List.
Export ListNotations.
Open Scope list_scope.

(** Rust [u8]; [&[u8]], [Vec<u8>], [&str] and [String] are all [bytes]
    (a Rust string is its UTF-8 byte sequence). *)
Notation byte := Coq.Init.Byte.byte.
Definition bytes := list byte.

(** Byte string literals of the Rust sources. *)
Definition s2b (s : string) : bytes := list_byte_of_string s.
Arguments s2b s%string_scope.

(** Value of a byte; [n as u8]. *)
Definition b2n (b : byte) : N := Byte.to_N b.
Definition n2b (n : N) : byte :=
  match Byte.of_N (n mod 256) with Some b => b | None => x00 end.

Definition byte_eqb (a b : byte) : bool := (b2n a =? b2n b)%N.

(** [==] on byte strings. *)
Fixpoint bytes_eqb (a b : bytes) : bool :=
  match a, b with
  | [], [] => true
  | x :: a', y :: b' => byte_eqb x y && bytes_eqb a' b'
  | _, _ => false
  end.

(** [uN::to_be_bytes] for [k] bytes (the value is reduced modulo [256^k]). *)
Fixpoint to_be (k : nat) (n : N) : bytes :=
  match k with
  | O => []
  | S k' => to_be k' (n / 256)%N ++ [n2b n]
  end.

(** [uN::from_be_bytes] of any length; also the value of a big-endian magnitude. *)
Definition from_be (l : bytes) : N :=
  fold_left (fun acc b => (acc * 256 + b2n b)%N) l 0%N.

(** [len as u32] *)
Definition len32 (l : bytes) : N := (N.of_nat (length l) mod 2 ^ 32)%N.

(** Errors of src/ssh/allowed_signer.rs, lines 12-35. *)
Inductive signer_error :=
| ASInvalidQuotes
| ASMissingPrincipals
| ASInvalidPrincipals
| ASMissingKey
| ASDuplicateOptions (option_name : bytes)
| ASInvalidOption (option_name : bytes)
| ASInvalidKey
| ASInvalidTimestamp
| ASInvalidTimestamps
| ASUnexpectedEnd.

(** src/fido/mod.rs, lines 7-20. The text of [Unknown] is dropped. *)
Inductive fido_error :=
| FInvalidPin (attempts : option N)
| FPinRequired
| FKeyLocked
| FKeyBlocked
| FCborFormat (text : bytes)
| FUnknown.

(** src/yubikey/piv/mod.rs, lines 11-34. The text of [InternalYubiKeyError] is dropped. *)
Inductive piv_error :=
| PUnprovisioned
| PWrongKeyType
| PUnsupported
| PInvalidManagementKey
| PParsingError
| PNoSuchYubikey
| PInternal.

(** src/error.rs, lines 6-54. The payloads of [Io], [Decode] and [Utf8Error] are dropped. *)
Inductive error :=
| EIo
| EDecode
| EUtf8
| EInvalidCertType (n : N)
| EInvalidFormat
| EUnexpectedEof
| ENotCertificate
| EKeyTypeMismatch
| EInvalidSignature
| EInvalidAllowedSigner (e : signer_error)
| EInvalidAllowedSigners (e : signer_error) (line : nat)
| ESigningError
| EEncryptedPrivateKey
| EEncryptedPrivateKeyNotSupported
| EUnknownKeyType (name : bytes)
| EUnknownCurve (name : bytes)
| EParsingError
| EFidoError (e : fido_error)
| EYubikeyPIVError (e : piv_error)
| EUnsupported.

(** [Result<A, Error>] of a Rust function that may also panic. *)
Inductive res (A : Type) :=
| Ok (a : A)
| Err (e : error)
| Panic.
Arguments Ok {A} a.
Arguments Err {A} e.
Arguments Panic {A}.

Definition bind {A B} (m : res A) (f : A -> res B) : res B :=
  match m with
  | Ok a => f a
  | Err e => Err e
  | Panic => Panic
  end.

(** The [?] operator, and sequencing of code that may panic. *)
Notation "'do?' x '<-' m ';' k" := (bind m (fun x => k))
  (at level 200, x pattern, m at level 100, k at level 200, right associativity).

(** [opt.ok_or(e)] *)
Definition ok_or {A} (o : option A) (e : error) : res A :=
  match o with Some a => Ok a | None => Err e end.

(** [opt.unwrap()] *)
Definition unwrap {A} (o : option A) : res A :=
  match o with Some a => Ok a | None => Panic end.

(** [r.map_err(|_| e)]; a panic stays a panic. *)
Definition map_err {A} (r : res A) (e : error) : res A :=
  match r with Err _ => Err e | x => x end.

(** Slice expressions [&s[i..]], [&s[..j]], [&s[i..j]] and [s[i]]: out of range panics. *)
Definition slice_from (s : bytes) (i : nat) : res bytes :=
  if i <=? length s then Ok (skipn i s) else Panic.
Definition slice_to (s : bytes) (j : nat) : res bytes :=
  if j <=? length s then Ok (firstn j s) else Panic.
Definition slice_range (s : bytes) (i j : nat) : res bytes :=
  if (i <=? j) && (j <=? length s) then Ok (firstn (j - i) (skipn i s)) else Panic.
Definition index (s : bytes) (i : nat) : res byte :=
  match nth_error s i with Some b => Ok b | None => Panic end.

(** [a - b] on [usize]: underflow panics (debug builds; a release build would wrap). *)
Definition usub (a b : nat) : res nat :=
  if b <=? a then Ok (a - b) else Panic.

(** Association lists standing for [HashMap<String, String>]: the list order is
    an iteration order. [insert] replaces in place or adds an entry. *)
Definition hashmap := list (bytes * bytes).

Fixpoint hm_insert (k v : bytes) (m : hashmap) : hashmap :=
  match m with
  | [] => [(k, v)]
  | (k', v') :: m' =>
      if bytes_eqb k k' then (k', v) :: m' else (k', v') :: hm_insert k v m'
  end.

Fixpoint hm_get (k : bytes) (m : hashmap) : option bytes :=
  match m with
  | [] => None
  | (k', v') :: m' => if bytes_eqb k k' then Some v' else hm_get k m'
  end.

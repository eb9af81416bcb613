(** Vocabulary for C136: questions to the crypto backend. *)
From Verif Require Import Base Crypto SpecWire PubKeyType.

(** What a signature is over: the bytes themselves, or what a token signs for an application, with its flags
    and counter. *)
Inductive message := Plain (m : bytes) | Token (application : bytes) (flags : byte) (counter : N) (m : bytes).
Definition hashed (C : crypto) (m : message) : bytes :=
  match m with
  | Plain m => m
  | Token a f n m => c_sha256 C a ++ [f] ++ be32 n ++ c_sha256 C m
  end.
(** One question: is this a signature over this message for this key? *)
Inductive question :=
| AskRsa (alg : rsa_alg) (modulus exponent : bytes) (m : message) (signature : bytes)
| AskP256 (key : bytes) (m : message) (signature : bytes)
| AskP384 (key : bytes) (m : message) (signature : bytes)
| AskEd25519 (key : bytes) (m : message) (signature : bytes).
Definition answer (C : crypto) (q : question) : bool :=
  match q with
  | AskRsa alg n e m s => c_rsa_verify C alg n e (hashed C m) s
  | AskP256 key m s => c_p256_verify C key (hashed C m) s
  | AskP384 key m s => c_p384_verify C key (hashed C m) s
  | AskEd25519 key m s => c_ed25519_verify C key (hashed C m) s
  end.
(** The message is [m], for the application if there is one. *)
Definition over (application : option bytes) (m : bytes) (asked : message) : Prop :=
  match application with
  | None => asked = Plain m
  | Some a => exists f n, asked = Token a f n m
  end.
(** The question is about the key and the message [m]. *)
Definition about (q : question) (k : pubkey) (m : bytes) : Prop :=
  match q, pk_kind k with
  | AskRsa _ n e asked _, PkRsa e' n' => n = n' /\ e = e' /\ asked = Plain m
  | AskP256 key asked _, PkEcdsa _ key' app | AskP384 key asked _, PkEcdsa _ key' app
  | AskEd25519 key asked _, PkEd25519 key' app => key = key' /\ over app m asked
  | _, _ => False
  end.

(** Specification of what a hardware token signed for one credential (CTAP 2, 6.2): assertions, each
    over authenticator data and a challenge digest. Only the data types come from the model. *)
From Verif Require Import Base SpecWire SpecSig SpecCross KeyType PubKeyType Crypto.

(** An assertion: the digest of the application it was made for, the flags, the counter, what the
    token put behind them (extensions), and the digest it was given. *)
Record assertion := mkAssertion {
  at_application : bytes;
  at_flags : byte;
  at_counter : N;
  at_more : bytes;
  at_challenge : bytes
}.
Definition token_message (a : assertion) : bytes :=
  at_application a ++ [at_flags a] ++ be32 (at_counter a) ++ at_more a ++ at_challenge a.
Definition assertion_ok (a : assertion) : Prop :=
  length (at_application a) = 32 /\ (at_counter a <= u32_max)%N /\ length (at_challenge a) = 32.

(** The user was there. *)
Definition touched (flags : byte) : Prop := N.testbit (Byte.to_N flags) 0 = true.

(** The flags and the counter that a signature blob carries. *)
Definition carries (blob : bytes) (flags : byte) (counter : N) : Prop :=
  exists label payload tl, blob = field label ++ field payload ++ flags :: be32 counter ++ tl
    /\ field_ok label /\ field_ok payload /\ (counter <= u32_max)%N.

(** [backed C history app blob msg]: some assertion of the token is exactly this signature's: for this
    application and message, with the flags and the counter of the blob, and nothing more. *)
Definition backed (C : crypto) (history : list assertion) (app blob msg : bytes) : Prop :=
  exists a, In a history /\ at_application a = c_sha256 C app /\ carries blob (at_flags a) (at_counter a)
    /\ at_more a = [] /\ at_challenge a = c_sha256 C msg.

(** [token_forged C history k blob]: the blob holds a signature that the primitive accepts with the
    key bytes of [k] although the token signed nothing like it. *)
Definition token_forged (C : crypto) (history : list assertion) (k : pubkey) (blob : bytes) : Prop :=
  exists app p m, plain_twin (pk_kind k) app (pk_kind p) /\ kt_k (pk_type p) = kt_k (pk_type k)
    /\ accepted C p m blob /\ forall a, In a history -> m <> token_message a.

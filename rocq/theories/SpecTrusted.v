(** What the text of an allowed_signers line says about a signer: the principals and the key. Written
    without the model's parsers. *)
From Verif Require Import Base SpecWire SpecText SpecBase64 SpecKeys KeyType PubKeyType SpecSigner.

(** The last two words of the line spell the key [k] and nothing more: the name of its type and the
    base64 text of its blob; bytes behind the blob are free. *)
Definition spells (line : bytes) (k : pubkey) : Prop :=
  exists pw ows kt kd w pad d post,
    line_words line (pw :: ows ++ [kt; kd]) /\ words_of (kt ++ [x20] ++ kd) [kt_name (pk_type k); w]
    /\ key_data (pk_type k) (pk_kind k) d
    /\ base64_text (field (kt_name (pk_type k)) ++ d ++ post) (w ++ repeat x3d pad).
(** The first word of the line lists the principal [p]. *)
Definition names (line p : bytes) : Prop :=
  exists pw ws u l, line_words line (pw :: ws) /\ unquoted pw u /\ comma_list l u /\ In p l.
Definition printable_ascii (line : bytes) : Prop :=
  Forall (fun b => (32 <= Byte.to_N b < 127)%N) line.

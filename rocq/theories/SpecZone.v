(** Vocabulary for C138: times in an allowed-signers text that are left to the time zone of the machine. *)
From Verif Require Import Base SpecWire SpecText PubKeyType Chrono AllowedSigner SpecSigner.

(** What can follow a word: nothing, a comment, a control character or space, or a character beyond ASCII. *)
Definition value_ends (rest : bytes) : Prop :=
  forall b r, rest = b :: r -> b = x23 \/ (Byte.to_N b <= 32)%N \/ (128 <= Byte.to_N b)%N.
(** The text has an option called [n] whose value without quotes satisfies [P]. *)
Definition written (n text : bytes) (P : bytes -> Prop) : Prop :=
  exists pre name v u post, text = pre ++ name ++ x3d :: v ++ post /\ value_ends post /\ named name n /\ unquoted v u /\ P u.
(** It is the time [t] in UTC, or the time [t] left to the time zone; [t] is then read as if it were UTC. *)
Definition utc_value (t : Z) (u : bytes) : Prop := exists body k, u = body ++ repeat x5a (S k) /\ ~ ends_in x5a body /\ denotes body t.
Definition local_value (t : Z) (u : bytes) : Prop := ~ ends_in x5a u /\ denotes u t.
Definition local_bound (text : bytes) (t : Z) : Prop :=
  written (s2b "valid-after") text (local_value t) \/ written (s2b "valid-before") text (local_value t).
(** The bound [n] in two time zones: the same if it is in UTC, else a local time of the text. *)
Definition same_bound (tz tz' : timezone) (n text : bytes) (x y : option Z) : Prop :=
  match x, y with
  | None, None => True
  | Some a, Some b => a = b /\ written n text (utc_value a)
      \/ exists t p q, written n text (local_value t) /\ tz t = Single p /\ tz' t = Single q /\ a = (t - p)%Z /\ b = (t - q)%Z
  | _, _ => False
  end.
Definition same_entry (tz tz' : timezone) (text : bytes) (a b : allowed_signer) : Prop :=
  as_principals a = as_principals b /\ as_cert_authority a = as_cert_authority b /\ as_namespaces a = as_namespaces b
  /\ as_key a = as_key b
  /\ same_bound tz tz' (s2b "valid-after") text (as_valid_after a) (as_valid_after b) /\ same_bound tz tz' (s2b "valid-before") text (as_valid_before a) (as_valid_before b).
(** The text has a local time that does not denote one instant. *)
Definition no_instant (tz : timezone) (text : bytes) : Prop := exists t, local_bound text t /\ forall off, tz t <> Single off.

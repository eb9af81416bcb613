(** Vocabulary for C145: texts of which only the beginning is read. *)
From Verif Require Import Base SpecText PubKeyType Cert.

(** The comment [c], or in its absence the first word of what follows. *)
Definition comment_before (c : option bytes) (following : list bytes) : option bytes :=
  match c with Some x => Some x | None => match following with w :: _ => Some w | [] => None end end.
(** Two keys, or two certificates, that differ at most in the comment. *)
Definition key_but_comment (k' k : pubkey) : Prop := pk_type k' = pk_type k /\ pk_kind k' = pk_kind k.
Definition cert_but_comment (c' c : cert) : Prop :=
  ct_key_type c' = ct_key_type c /\ ct_nonce c' = ct_nonce c /\ ct_key c' = ct_key c
  /\ ct_serial c' = ct_serial c /\ ct_cert_type c' = ct_cert_type c /\ ct_key_id c' = ct_key_id c
  /\ ct_principals c' = ct_principals c /\ ct_valid_after c' = ct_valid_after c
  /\ ct_valid_before c' = ct_valid_before c /\ ct_critical_options c' = ct_critical_options c
  /\ ct_extensions c' = ct_extensions c /\ ct_reserved c' = ct_reserved c
  /\ ct_signature_key c' = ct_signature_key c /\ ct_signature c' = ct_signature c
  /\ ct_serialized c' = ct_serialized c.
(** The number of line breaks in a text. *)
Definition breaks (t : bytes) : nat := count_occ Byte.byte_eq_dec t x0a.

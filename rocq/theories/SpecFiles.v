(** Specification for files that were cut off: beginnings of texts, and keys, certificates and
    entries that agree but for their comments. Only the data types come from the model. *)
From Verif Require Import Base PubKeyType Cert Chrono AllowedSigner.

(** [p] is the beginning of [t]. *)
Definition beginning {A} (p t : list A) : Prop := exists r, t = p ++ r.

(** A comment that was cut off: gone, or the beginning of the comment. *)
Definition comment_cut (c' c : option bytes) : Prop :=
  match c', c with
  | None, _ => True
  | Some x', Some x => beginning x' x
  | Some _, None => False
  end.

(** The same public key, its comment cut off. *)
Definition key_cut (k' k : pubkey) : Prop :=
  pk_type k' = pk_type k /\ pk_kind k' = pk_kind k /\ comment_cut (pk_comment k') (pk_comment k).

(** The same certificate; of its comment and of bytes behind it some may be missing. *)
Definition cert_cut (c' c : cert) : Prop :=
  ct_key_type c' = ct_key_type c /\ ct_nonce c' = ct_nonce c /\ ct_key c' = ct_key c
  /\ ct_serial c' = ct_serial c /\ ct_cert_type c' = ct_cert_type c /\ ct_key_id c' = ct_key_id c
  /\ ct_principals c' = ct_principals c /\ ct_valid_after c' = ct_valid_after c
  /\ ct_valid_before c' = ct_valid_before c /\ ct_critical_options c' = ct_critical_options c
  /\ ct_extensions c' = ct_extensions c /\ ct_reserved c' = ct_reserved c
  /\ ct_signature_key c' = ct_signature_key c /\ ct_signature c' = ct_signature c
  /\ comment_cut (ct_comment c') (ct_comment c) /\ beginning (ct_serialized c') (ct_serialized c).

(** The same allowed signer but for a comment on its key. *)
Definition signer_cut (a' a : allowed_signer) : Prop :=
  as_principals a' = as_principals a /\ as_cert_authority a' = as_cert_authority a
  /\ as_namespaces a' = as_namespaces a /\ as_valid_after a' = as_valid_after a
  /\ as_valid_before a' = as_valid_before a /\ key_cut (as_key a') (as_key a).

(** The first entries, the last of them possibly with a cut comment. *)
Definition signers_cut (l' l : list allowed_signer) : Prop :=
  exists same rest, l = same ++ rest
    /\ (l' = same \/ exists a' a rest', l' = same ++ [a'] /\ rest = a :: rest' /\ signer_cut a' a).

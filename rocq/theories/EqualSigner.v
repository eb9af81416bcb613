(** Equality ([==]) of allowed-signers entries and files: what [#[derive(PartialEq)]] compares.
    Definitions only. *)
From Verif Require Import Base PubKeyType Equal AllowedSigner.

(** [PartialEq for Option<i64>] and for [Option<Vec<String>>] (std) *)
Definition opt_z_eqb (a b : option Z) : bool :=
  match a, b with Some x, Some y => (x =? y)%Z | None, None => true | _, _ => false end.
Definition opt_texts_eqb (a b : option (list bytes)) : bool :=
  match a, b with Some x, Some y => texts_eqb x y | None, None => true | _, _ => false end.
(** allowed_signer.rs 57-76 *)
Definition signer_eqb (a b : allowed_signer) : bool :=
  texts_eqb (as_principals a) (as_principals b) && Bool.eqb (as_cert_authority a) (as_cert_authority b)
  && opt_texts_eqb (as_namespaces a) (as_namespaces b) && opt_z_eqb (as_valid_after a) (as_valid_after b)
  && opt_z_eqb (as_valid_before a) (as_valid_before b) && pubkey_eqb (as_key a) (as_key b).
(** allowed_signer.rs 81-82: [PartialEq for Vec] *)
Fixpoint signers_eqb (a b : list allowed_signer) : bool :=
  match a, b with
  | [], [] => true
  | x :: a', y :: b' => signer_eqb x y && signers_eqb a' b'
  | _, _ => false
  end.

(** src/ssh/pubkey.rs 15-75: public key data. Definitions only. *)
From Verif Require Import Base KeyType.

(** pubkey.rs 31-37 [RsaPublicKey] (e, n), 41-51 [EcdsaPublicKey]
    (curve, key, sk_application), 56-62 [Ed25519PublicKey] (key, sk_application),
    17-26 [PublicKeyKind] *)
Inductive pubkey_kind :=
| PkRsa (e n : bytes)
| PkEcdsa (c : curve) (key : bytes) (app : option bytes)
| PkEd25519 (key : bytes) (app : option bytes).

(** pubkey.rs 66-75 [PublicKey] *)
Record pubkey := mkPubKey {
  pk_type : key_type;
  pk_kind : pubkey_kind;
  pk_comment : option bytes
}.

Definition opt_bytes_eqb (a b : option bytes) : bool :=
  match a, b with
  | None, None => true
  | Some x, Some y => bytes_eqb x y
  | _, _ => false
  end.

Definition pubkey_kind_eqb (a b : pubkey_kind) : bool :=
  match a, b with
  | PkRsa e n, PkRsa e' n' => bytes_eqb e e' && bytes_eqb n n'
  | PkEcdsa c k s, PkEcdsa c' k' s' => curve_eqb c c' && bytes_eqb k k' && opt_bytes_eqb s s'
  | PkEd25519 k s, PkEd25519 k' s' => bytes_eqb k k' && opt_bytes_eqb s s'
  | _, _ => false
  end.

(** Derived [PartialEq] of [PublicKey] (pubkey.rs 65): the comment takes part. *)
Definition pubkey_eqb (a b : pubkey) : bool :=
  key_type_eqb (pk_type a) (pk_type b) && pubkey_kind_eqb (pk_kind a) (pk_kind b)
  && opt_bytes_eqb (pk_comment a) (pk_comment b).

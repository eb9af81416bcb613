(** How many bytes the values hold that parsing returns. Only the data types come from the
    model; fixed-size parts (numbers, flags, names from tables) are not counted. *)
From Verif Require Import Base KeyType PubKeyType Signature Cert PrivKey Chrono AllowedSigner.

Definition total (l : list bytes) : nat := list_sum (map (@length byte) l).
Definition some_length (o : option bytes) : nat := match o with Some b => length b | None => 0 end.
Definition pairs_total (m : list (bytes * bytes)) : nat :=
  list_sum (map (fun e => length (fst e) + length (snd e)) m).

(** The numbers or points of a public key, its application and its comment. *)
Definition material_held (k : pubkey_kind) : nat :=
  match k with
  | PkRsa e n => length e + length n
  | PkEcdsa _ key app | PkEd25519 key app => length key + some_length app
  end.
Definition key_held (k : pubkey) : nat := material_held (pk_kind k) + some_length (pk_comment k).

(** The fields of a certificate without the copy of its bytes, and the number of entries
    of its lists. *)
Definition cert_held (c : cert) : nat :=
  length (ct_nonce c) + key_held (ct_key c) + length (ct_key_id c) + total (ct_principals c)
  + pairs_total (ct_critical_options c) + pairs_total (ct_extensions c) + length (ct_reserved c)
  + key_held (ct_signature_key c) + length (ct_signature c) + some_length (ct_comment c).
Definition cert_entries (c : cert) : nat :=
  length (ct_principals c) + length (ct_critical_options c) + length (ct_extensions c).

Definition sshsig_held (s : sshsig) : nat :=
  key_held (ss_pubkey s) + length (ss_namespace s) + length (ss_signature s).

(** The secret part of a private key. *)
Definition secret_held (k : priv_kind) : nat :=
  match k with
  | SkRsa r => length (rp_n r) + length (rp_e r) + length (rp_d r) + length (rp_coefficient r)
      + length (rp_p r) + length (rp_q r) + some_length (rp_exp r) + some_length (rp_exq r)
  | SkEcdsa _ key | SkEd25519 key => length key
  | SkEcdsaSk h | SkEd25519Sk h =>
      length (hw_handle h) + length (hw_reserved h) + some_length (hw_pin h) + some_length (hw_device_path h)
  end.
Definition privkey_held (k : privkey) : nat :=
  key_held (sk_pub k) + secret_held (sk_kind k) + length (sk_comment k).

Definition signer_held (a : allowed_signer) : nat :=
  total (as_principals a) + key_held (as_key a)
  + match as_namespaces a with Some l => total l | None => 0 end.
Definition signer_entries (a : allowed_signer) : nat :=
  length (as_principals a) + match as_namespaces a with Some l => length l | None => 0 end.

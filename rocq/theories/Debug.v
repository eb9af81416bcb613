(** The derived [Debug] output ([{:?}]) of keys: what [#[derive(Debug)]] writes for the types of
    keytype.rs, pubkey.rs, privkey.rs and fido/generate/mod.rs. Definitions only. *)
From Verif Require Import Base Str KeyType PubKeyType PrivKey AllowedSigner Generate.

(** ** The parts of [core::fmt] that derived implementations use (not in /repo). *)

(** Lower-case hexadecimal without leading zeros ([char::escape_unicode]). *)
Definition hex_char (v : N) : byte := if (v <? 10)%N then n2b (48 + v) else n2b (87 + v).
Fixpoint hex_aux (fuel : nat) (n : N) (acc : bytes) : bytes :=
  match fuel with
  | O => acc
  | S f => let acc := hex_char (n mod 16) :: acc in
           if (n <? 16)%N then acc else hex_aux f (n / 16) acc
  end.
Definition hex (n : N) : bytes := hex_aux (S (N.to_nat (N.size n))) n [].
Definition backslash : byte := x5c.
Definition dbg_unicode (c : N) : bytes := backslash :: s2b "u{" ++ hex c ++ s2b "}".

(** [char::escape_debug] inside a string, for ASCII ... *)
Definition dbg_ascii (a : byte) : bytes :=
  let n := b2n a in
  if (n =? 0)%N then backslash :: s2b "0"
  else if (n =? 9)%N then backslash :: s2b "t"
  else if (n =? 10)%N then backslash :: s2b "n"
  else if (n =? 13)%N then backslash :: s2b "r"
  else if (n =? 34)%N then [backslash; quote]
  else if (n =? 92)%N then [backslash; backslash]
  else if (32 <=? n)%N && (n <=? 126)%N then [a]
  else dbg_unicode n.
(** ... and for other characters: those that the standard library's tables call printable are
    written as they are. The tables are not modelled: [printable] is arbitrary. *)
Definition dbg_wide (printable : N -> bool) (c : N) (encoded : bytes) : bytes :=
  if printable c then encoded else dbg_unicode c.

(** [Debug for str], character by character between quotes. (A string is valid UTF-8; the cases
    of a cut character at the end do not arise.) *)
Fixpoint dbg_body (p : N -> bool) (l : bytes) : bytes :=
  match l with
  | [] => []
  | a :: l1 =>
    if (b2n a <? 128)%N then dbg_ascii a ++ dbg_body p l1 else
    match l1 with
    | [] => []
    | b :: l2 =>
      if (b2n a <? 224)%N then dbg_wide p ((b2n a - 192) * 64 + (b2n b - 128)) [a; b] ++ dbg_body p l2 else
      match l2 with
      | [] => []
      | c :: l3 =>
        if (b2n a <? 240)%N
        then dbg_wide p ((b2n a - 224) * 4096 + (b2n b - 128) * 64 + (b2n c - 128)) [a; b; c] ++ dbg_body p l3
        else
        match l3 with
        | [] => []
        | d :: l4 =>
          dbg_wide p ((b2n a - 240) * 262144 + (b2n b - 128) * 4096 + (b2n c - 128) * 64 + (b2n d - 128))
            [a; b; c; d] ++ dbg_body p l4
        end
      end
    end
  end.
Definition dbg_str (p : N -> bool) (s : bytes) : bytes := quote :: dbg_body p s ++ [quote].

(** [Debug] for [bool], [u8] and [u32], [Vec<u8>], [Option]. *)
Definition dbg_bool (b : bool) : bytes := if b then s2b "true" else s2b "false".
Definition dbg_vec (l : bytes) : bytes := s2b "[" ++ join (s2b ", ") (map (fun b => decimal (b2n b)) l) ++ s2b "]".
Definition dbg_option {A} (f : A -> bytes) (o : option A) : bytes :=
  match o with Some a => s2b "Some(" ++ f a ++ s2b ")" | None => s2b "None" end.
(** [debug_struct(..).field(..)..finish()], [debug_tuple(..).field(..).finish()] *)
Definition dbg_struct (name : bytes) (fields : list (bytes * bytes)) : bytes :=
  name ++ s2b " { " ++ join (s2b ", ") (map (fun f => fst f ++ s2b ": " ++ snd f) fields) ++ s2b " }".
Definition dbg_tuple (name value : bytes) : bytes := name ++ s2b "(" ++ value ++ s2b ")".

(** ** The derived implementations *)
(** keytype.rs 8-27 *)
Definition dbg_kt_kind (k : kt_kind) : bytes :=
  match k with
  | KRsa => s2b "Rsa" | KEd25519 => s2b "Ed25519" | KEcdsa => s2b "Ecdsa"
  | KRsaCert => s2b "RsaCert" | KEd25519Cert => s2b "Ed25519Cert" | KEcdsaCert => s2b "EcdsaCert"
  end.
(** keytype.rs 30-49 *)
Definition dbg_key_type (p : N -> bool) (t : key_type) : bytes :=
  dbg_struct (s2b "KeyType")
    [(s2b "name", dbg_str p (kt_name t)); (s2b "short_name", dbg_str p (kt_short_name t));
     (s2b "is_cert", dbg_bool (kt_is_cert t)); (s2b "is_sk", dbg_bool (kt_is_sk t));
     (s2b "kind", dbg_kt_kind (kt_k t)); (s2b "plain", dbg_str p (kt_plain t))].
(** keytype.rs 52-73 *)
Definition dbg_curve_kind (k : curve_kind) : bytes :=
  match k with Nistp256 => s2b "Nistp256" | Nistp384 => s2b "Nistp384" | Nistp521 => s2b "Nistp521" end.
Definition dbg_curve (p : N -> bool) (c : curve) : bytes :=
  dbg_struct (s2b "Curve") [(s2b "kind", dbg_curve_kind (c_kind c)); (s2b "identifier", dbg_str p (c_identifier c))].
(** pubkey.rs 16-62 *)
Definition dbg_pubkey_kind (p : N -> bool) (k : pubkey_kind) : bytes :=
  match k with
  | PkRsa e n => dbg_tuple (s2b "Rsa") (dbg_struct (s2b "RsaPublicKey") [(s2b "e", dbg_vec e); (s2b "n", dbg_vec n)])
  | PkEcdsa c key app =>
      dbg_tuple (s2b "Ecdsa") (dbg_struct (s2b "EcdsaPublicKey")
        [(s2b "curve", dbg_curve p c); (s2b "key", dbg_vec key); (s2b "sk_application", dbg_option (dbg_str p) app)])
  | PkEd25519 key app =>
      dbg_tuple (s2b "Ed25519") (dbg_struct (s2b "Ed25519PublicKey")
        [(s2b "key", dbg_vec key); (s2b "sk_application", dbg_option (dbg_str p) app)])
  end.
(** pubkey.rs 65-75 *)
Definition dbg_pubkey (p : N -> bool) (k : pubkey) : bytes :=
  dbg_struct (s2b "PublicKey")
    [(s2b "key_type", dbg_key_type p (pk_type k)); (s2b "kind", dbg_pubkey_kind p (pk_kind k));
     (s2b "comment", dbg_option (dbg_str p) (pk_comment k))].
(** privkey.rs 78-97, 107-126 *)
Definition dbg_hw (p : N -> bool) (name : bytes) (h : hw_priv) : bytes :=
  dbg_struct name
    [(s2b "flags", decimal (b2n (hw_flags h))); (s2b "handle", dbg_vec (hw_handle h));
     (s2b "reserved", dbg_vec (hw_reserved h)); (s2b "pin", dbg_option (dbg_str p) (hw_pin h));
     (s2b "device_path", dbg_option (dbg_str p) (hw_device_path h))].
(** privkey.rs 40-75, 100-104, 129-145 *)
Definition dbg_priv_kind (p : N -> bool) (k : priv_kind) : bytes :=
  match k with
  | SkRsa r =>
      dbg_tuple (s2b "Rsa") (dbg_struct (s2b "RsaPrivateKey")
        [(s2b "n", dbg_vec (rp_n r)); (s2b "e", dbg_vec (rp_e r)); (s2b "d", dbg_vec (rp_d r));
         (s2b "coefficient", dbg_vec (rp_coefficient r)); (s2b "p", dbg_vec (rp_p r)); (s2b "q", dbg_vec (rp_q r));
         (s2b "exp", dbg_option dbg_vec (rp_exp r)); (s2b "exq", dbg_option dbg_vec (rp_exq r))])
  | SkEcdsa c key =>
      dbg_tuple (s2b "Ecdsa") (dbg_struct (s2b "EcdsaPrivateKey")
        [(s2b "curve", dbg_curve p c); (s2b "key", dbg_vec key)])
  | SkEcdsaSk h => dbg_tuple (s2b "EcdsaSk") (dbg_hw p (s2b "EcdsaSkPrivateKey") h)
  | SkEd25519 key => dbg_tuple (s2b "Ed25519") (dbg_struct (s2b "Ed25519PrivateKey") [(s2b "key", dbg_vec key)])
  | SkEd25519Sk h => dbg_tuple (s2b "Ed25519Sk") (dbg_hw p (s2b "Ed25519SkPrivateKey") h)
  end.
(** privkey.rs 148-167 *)
Definition dbg_privkey (p : N -> bool) (k : privkey) : bytes :=
  dbg_struct (s2b "PrivateKey")
    [(s2b "key_type", dbg_key_type p (sk_type k)); (s2b "kind", dbg_priv_kind p (sk_kind k));
     (s2b "pubkey", dbg_pubkey p (sk_pub k)); (s2b "magic", decimal (sk_magic k));
     (s2b "comment", dbg_str p (sk_comment k))].
(** fido/generate/mod.rs 16-27, 32-38 *)
Definition dbg_attestation (a : u2f_attestation) : bytes :=
  dbg_struct (s2b "U2FAttestation")
    [(s2b "auth_data", dbg_vec (at_auth_data a)); (s2b "auth_data_sig", dbg_vec (at_sig a));
     (s2b "intermediate", dbg_vec (at_intermediate a)); (s2b "challenge", dbg_vec (at_challenge a));
     (s2b "alg", display_z (at_alg a))].
Definition dbg_fido_key (p : N -> bool) (k : fido_key) : bytes :=
  dbg_struct (s2b "FIDOSSHKey")
    [(s2b "private_key", dbg_privkey p (fk_private k)); (s2b "attestation", dbg_attestation (fk_attestation k))].

(** src/ssh/signature.rs: signature verification and SSHSIG. Definitions only. *)
From Verif Require Import Base Utf8 Base64 Str Crypto Reader KeyType PubKeyType Writer PubKey.

(** The two fixed-form ECDSA algorithms of signature.rs 297-303. *)
Inductive ecdsa_alg := EcP256 | EcP384.

Definition ecdsa_verify (C : crypto) (a : ecdsa_alg) : bytes -> bytes -> bytes -> bool :=
  match a with EcP256 => c_p256_verify C | EcP384 => c_p384_verify C end.

(** signature.rs 297-303: algorithm and integer size by signature type name. *)
Definition ecdsa_alg_of (name : bytes) : res (ecdsa_alg * nat) :=
  if bytes_eqb name (s2b "ecdsa-sha2-nistp256")
     || bytes_eqb name (s2b "sk-ecdsa-sha2-nistp256@openssh.com") then Ok (EcP256, 32)
  else if bytes_eqb name (s2b "ecdsa-sha2-nistp384") then Ok (EcP384, 48)
  else Err EKeyTypeMismatch.

(** signature.rs 353-358 *)
Definition rsa_alg_of (name : bytes) : res rsa_alg :=
  if bytes_eqb name (s2b "rsa-sha2-256") then Ok RsaSha256
  else if bytes_eqb name (s2b "rsa-sha2-512") then Ok RsaSha512
  else if bytes_eqb name (s2b "ssh-rsa") then Ok RsaSha1
  else Err EKeyTypeMismatch.

(** signature.rs 368-372 *)
Definition ed25519_type_check (name : bytes) : res unit :=
  if bytes_eqb name (s2b "ssh-ed25519") then Ok tt
  else if bytes_eqb name (s2b "sk-ssh-ed25519@openssh.com") then Ok tt
  else Err EKeyTypeMismatch.

(** [key.verify(..)?]: ring's [Unspecified] becomes [InvalidSignature] (error.rs 111-115). *)
Definition check (b : bool) : res unit := if b then Ok tt else Err EInvalidSignature.

(** signature.rs 330-343 and 378-391: read flags and counter, build the signed data of
    a hardware key. *)
Definition read_sk_message (C : crypto) (app signed_bytes : bytes) : M bytes :=
  do! f <- read_raw_bytes 1;
  do! flags <- lift (index f 0);
  do! counter <- read_u32;
  ret (((c_sha256 C app ++ [flags]) ++ to_be 4 counter) ++ c_sha256 C signed_bytes).

(** signature.rs 273-401 [verify_signature] *)
Definition verify_signature (C : crypto) (signature_buf signed_bytes : bytes)
  (public_key : pubkey) : res bytes :=
  run (
    do! v <- read_string;
    do! sig_type <- lift (kt_from_name v);
    if negb (kt_kind_eqb (kt_k (pk_type public_key)) (kt_k sig_type))
    then throw EKeyTypeMismatch else
    match pk_kind public_key with
    | PkEcdsa _ key app =>
        do! inner <- read_bytes;
        do! al <- lift (ecdsa_alg_of (kt_name sig_type));
        let (alg, len) := al in
        do! rs <- lift (run (do! r <- read_positive_mpint;
                             do! s <- read_positive_mpint;
                             ret (r, s)) inner);
        let (r_bytes, s_bytes) := rs in
        if (len <? length r_bytes) || (len <? length s_bytes)
        then throw EInvalidFormat else
        do! nr <- lift (usub len (length r_bytes));
        do! ns <- lift (usub len (length s_bytes));
        let sig := (repeat x00 nr ++ r_bytes) ++ (repeat x00 ns ++ s_bytes) in
        do! msg <- match app with
                   | Some a => read_sk_message C a signed_bytes
                   | None => ret signed_bytes
                   end;
        do! _ <- lift (check (ecdsa_verify C alg key msg sig));
        ret signature_buf
    | PkRsa e n =>
        do! alg <- lift (rsa_alg_of (kt_name sig_type));
        do! signature <- read_bytes;
        do! _ <- lift (check (c_rsa_verify C alg n e signed_bytes signature));
        ret signature_buf
    | PkEd25519 key app =>
        do! _ <- lift (ed25519_type_check (kt_name sig_type));
        do! signature <- read_bytes;
        do! msg <- match app with
                   | Some a => read_sk_message C a signed_bytes
                   | None => ret signed_bytes
                   end;
        do! _ <- lift (check (c_ed25519_verify C key msg signature));
        ret signature_buf
    end) signature_buf.

(** signature.rs 16-31 [HashAlgorithm] *)
Inductive hash_alg := HSha256 | HSha512.
Definition hash_alg_name (h : hash_alg) : bytes :=
  match h with HSha256 => s2b "sha256" | HSha512 => s2b "sha512" end.

(** signature.rs 36-45 [SshSignature] *)
Record sshsig := mkSshSig {
  ss_pubkey : pubkey;
  ss_namespace : bytes;
  ss_hash : hash_alg;
  ss_signature : bytes
}.

Definition sshsig_magic : bytes := [x53; x53; x48; x53; x49; x47].

(** [slice.chunks(n)] *)
Fixpoint chunks_aux (fuel n : nat) (l : bytes) : list bytes :=
  match fuel with
  | O => []
  | S fuel' => match l with
               | [] => []
               | _ => firstn n l :: chunks_aux fuel' n (skipn n l)
               end
  end.
Definition chunks (n : nat) (l : bytes) : list bytes := chunks_aux (length l) n l.

Definition sig_begin : bytes := s2b "-----BEGIN SSH SIGNATURE-----".
Definition sig_end : bytes := s2b "-----END SSH SIGNATURE-----".

(** signature.rs 49-57: the binary form printed by [Display]. *)
Definition sshsig_blob (s : sshsig) : res bytes :=
  let w := write_u32 1 (write_raw_bytes sshsig_magic writer_new) in
  do? w <- write_pub_key (ss_pubkey s) w;
  Ok (write_bytes (ss_signature s)
        (write_string (hash_alg_name (ss_hash s))
           (write_bytes [] (write_string (ss_namespace s) w)))).

(** signature.rs 47-73 [Display for SshSignature] *)
Definition sshsig_display (s : sshsig) : res bytes :=
  do? blob <- sshsig_blob s;
  Ok (sig_begin ++ [newline] ++ join [newline] (chunks 76 (b64_encode blob))
        ++ [newline] ++ sig_end).

(** signature.rs 105-117: collect the body lines up to the END line. *)
Fixpoint armor_body (end_line : bytes) (ls : list bytes) (acc : bytes) : res bytes :=
  match ls with
  | [] => Err EInvalidFormat
  | p :: ls' => if bytes_eqb p end_line then Ok acc else armor_body end_line ls' (acc ++ p)
  end.

(** signature.rs 125-176 [SshSignature::from_reader] *)
Definition sshsig_from_reader : M sshsig :=
  do! preamble <- read_raw_bytes 6;
  if negb (bytes_eqb preamble sshsig_magic) then throw EInvalidFormat else
  do! version <- read_u32;
  if negb (version =? 1)%N then throw EUnsupported else
  do! pkb <- read_bytes;
  do! pubkey <- lift (pk_from_bytes pkb);
  do! namespace <- read_string;
  match namespace with
  | [] => throw EInvalidFormat
  | _ =>
    do! _reserved <- read_string;
    do! h <- read_string;
    do! hash <- lift (if bytes_eqb h (s2b "sha256") then Ok HSha256
                      else if bytes_eqb h (s2b "sha512") then Ok HSha512
                      else Err EUnsupported);
    do! signature <- read_bytes;
    ret (mkSshSig pubkey namespace hash signature)
  end.

(** signature.rs 97-123 [SshSignature::from_armored_string] *)
Definition sshsig_from_armored_string (contents : bytes) : res sshsig :=
  let ls := lines contents in
  let header := match ls with h :: _ => h | [] => [] end in
  if negb (bytes_eqb header sig_begin) then Err EInvalidFormat else
  do? encoded <- armor_body sig_end (tl ls) [];
  do? decoded <- ok_or (b64_decode encoded) EDecode;
  run sshsig_from_reader decoded.

(** signature.rs 188-191 *)
Definition hash_digest (C : crypto) (h : hash_alg) : bytes -> bytes :=
  match h with HSha256 => c_sha256 C | HSha512 => c_sha512 C end.

(** signature.rs 178-197 [to_signed_format] *)
Definition to_signed_format (C : crypto) (s : sshsig) (message : bytes) : bytes :=
  write_bytes (hash_digest C (ss_hash s) message)
    (write_string (hash_alg_name (ss_hash s))
       (write_bytes []
          (write_string (ss_namespace s)
             (write_raw_bytes sshsig_magic writer_new)))).

(** signature.rs 78-83 [VerifiedSshSignature] *)
Record verified := mkVerified { vs_signature : sshsig; vs_message : bytes }.

(** signature.rs 203-233 [VerifiedSshSignature::from_ssh_signature] *)
Definition from_ssh_signature (C : crypto) (message : bytes) (s : sshsig)
  (namespace : bytes) (pub_key : option pubkey) : res verified :=
  if match pub_key with
     | Some k => negb (pubkey_eqb (ss_pubkey s) k)
     | None => false
     end
  then Err EInvalidSignature else
  if negb (bytes_eqb namespace (ss_namespace s)) then Err EInvalidSignature else
  match verify_signature C (ss_signature s) (to_signed_format C s message) (ss_pubkey s) with
  | Ok _ => Ok (mkVerified s message)
  | Err _ => Err EInvalidSignature
  | Panic => Panic
  end.

(** src/ssh/mod.rs 22-25 [SSHCertificateSigner]: [None] is a refusal. *)
Definition signer := bytes -> res (option bytes).

(** signature.rs 239-266 [new_with_private_key]. The private key is given by its public
    key and its signing function. *)
Definition new_with_private_key (C : crypto) (message namespace : bytes)
  (key_pub : pubkey) (key_sign : signer) (h : option hash_alg) : res verified :=
  let h := match h with Some h => h | None => HSha512 end in
  let tbs := to_signed_format C (mkSshSig key_pub namespace h []) message in
  do? o <- key_sign tbs;
  do? sg <- ok_or o ESigningError;
  from_ssh_signature C message (mkSshSig key_pub namespace h sg) namespace (Some key_pub).

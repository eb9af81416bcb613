(** src/ssh/cert.rs: certificates. Definitions only. *)
From Verif Require Import Base Utf8 Base64 Str Crypto Reader KeyType PubKeyType Writer
  PubKey Signature.

(** cert.rs 17-23 [CertType] *)
Inductive cert_type := User | Host.
Definition cert_type_n (t : cert_type) : N := match t with User => 1 | Host => 2 end.

(** cert.rs 25-35 [TryFrom<&str> for CertType] *)
Definition cert_type_try_from (s : bytes) : option cert_type :=
  if bytes_eqb s (s2b "user") || bytes_eqb s (s2b "User") then Some User
  else if bytes_eqb s (s2b "host") || bytes_eqb s (s2b "Host") then Some Host
  else None.

(** cert.rs 60-110 [Certificate] *)
Record cert := mkCert {
  ct_key_type : key_type;
  ct_nonce : bytes;
  ct_key : pubkey;
  ct_serial : N;
  ct_cert_type : cert_type;
  ct_key_id : bytes;
  ct_principals : list bytes;
  ct_valid_after : N;
  ct_valid_before : N;
  ct_critical_options : hashmap;
  ct_extensions : hashmap;
  ct_reserved : bytes;
  ct_signature_key : pubkey;
  ct_signature : bytes;
  ct_comment : option bytes;
  ct_serialized : bytes
}.

(** cert.rs 509-524 [read_principals]: one iteration per recursion step; the fuel
    [length buf + 1] is more than the number of iterations, because each one that
    continues consumes at least four bytes. *)
Fixpoint read_principals_loop (fuel : nat) (items : list bytes) : M (list bytes) :=
  fun r =>
  match read_string r with
  | (Err EUnexpectedEof, r') => (Ok items, r')
  | (Err e, r') => (Err e, r')
  | (Panic, r') => (Panic, r')
  | (Ok v, r') =>
      match fuel with
      | O => (Panic, r')
      | S fuel' => read_principals_loop fuel' (items ++ [v]) r'
      end
  end.
Definition read_principals (buf : bytes) : res (list bytes) :=
  run (read_principals_loop (S (length buf)) []) buf.

(** cert.rs 491-496: value of one option. *)
Definition read_option_value : M bytes :=
  do! value_buf <- read_bytes;
  match value_buf with
  | [] => ret []
  | _ => lift (run read_string value_buf)
  end.

(** cert.rs 474-502 [read_options], with fuel as above. *)
Fixpoint read_options_loop (fuel : nat) (options : hashmap) : M hashmap :=
  fun r =>
  match read_string r with
  | (Err EUnexpectedEof, r') => (Ok options, r')
  | (Err e, r') => (Err e, r')
  | (Panic, r') => (Panic, r')
  | (Ok name, r') =>
      match fuel with
      | O => (Panic, r')
      | S fuel' =>
          (do! value <- read_option_value;
           read_options_loop fuel' (hm_insert name value options)) r'
      end
  end.
Definition read_options (buf : bytes) : res hashmap :=
  run (read_options_loop (S (length buf)) []) buf.

(** cert.rs 185-189 *)
Definition read_cert_type : M cert_type :=
  do! n <- read_u32;
  if (n =? 1)%N then ret User
  else if (n =? 2)%N then ret Host
  else throw (EInvalidCertType n).

(** cert.rs 170-229 [Certificate::from_bytes] *)
Definition cert_from_bytes (C : crypto) (data : bytes) : res cert :=
  run (
    do! kt_name <- read_string;
    do! kt <- lift (kt_from_name kt_name);
    if negb (kt_is_cert kt) then throw ENotCertificate else
    do! nonce <- read_bytes;
    do! key <- pk_from_reader (as_pubkey_name kt);
    do! serial <- read_u64;
    do! ctype <- read_cert_type;
    do! key_id <- read_string;
    do! pb <- read_bytes;
    do! principals <- lift (read_principals pb);
    do! valid_after <- read_u64;
    do! valid_before <- read_u64;
    do! cb <- read_bytes;
    do! critical_options <- lift (read_options cb);
    do! eb <- read_bytes;
    do! extensions <- lift (read_options eb);
    do! reserved <- read_bytes;
    do! skb <- read_bytes;
    do! signature_key <- lift (pk_from_bytes skb);
    do! signed_len <- get_offset;
    do! signature <- read_bytes;
    do! _ <- set_offset 0;
    do! signed_bytes <- read_raw_bytes signed_len;
    do! _ <- lift (verify_signature C signature signed_bytes signature_key);
    ret (mkCert kt nonce key serial ctype key_id principals valid_after valid_before
           critical_options extensions reserved signature_key signature None data)) data.

(** Replace the comment ([cert.comment = comment], cert.rs 158). *)
Definition with_comment (c : cert) (comment : option bytes) : cert :=
  mkCert (ct_key_type c) (ct_nonce c) (ct_key c) (ct_serial c) (ct_cert_type c) (ct_key_id c)
    (ct_principals c) (ct_valid_after c) (ct_valid_before c) (ct_critical_options c)
    (ct_extensions c) (ct_reserved c) (ct_signature_key c) (ct_signature c) comment
    (ct_serialized c).

(** cert.rs 149-164 [Certificate::from_string] *)
Definition cert_from_string (C : crypto) (s : bytes) : res cert :=
  let ws := split_whitespace s in
  do? outer <- ok_or (nth_error ws 0) EInvalidFormat;
  do? outer_kt <- kt_from_name outer;
  do? data <- ok_or (nth_error ws 1) EInvalidFormat;
  let comment := nth_error ws 2 in
  do? decoded <- ok_or (b64_decode data) EDecode;
  do? c <- cert_from_bytes C decoded;
  let c := with_comment c comment in
  if negb (kt_kind_eqb (kt_k (ct_key_type c)) (kt_k outer_kt)) then Err EKeyTypeMismatch
  else Ok c.

(** cert.rs 49-55, 234-240 [standard_extensions] *)
Definition standard_extensions : hashmap :=
  fold_left (fun hm e => hm_insert (fst e) (snd e) hm)
    [ (s2b "permit-agent-forwarding", []); (s2b "permit-port-forwarding", []);
      (s2b "permit-pty", []); (s2b "permit-user-rc", []);
      (s2b "permit-X11-forwarding", []) ] [].

(** cert.rs 277-317 [builder]; the two random fills are parameters ([None]: the RNG
    failed). *)
Definition builder (nonce_rng serial_rng : option bytes) (pub : pubkey) (t : cert_type)
  (signing_key : pubkey) : res cert :=
  do? kt_name <- as_cert_name (pk_type pub);
  do? kt <- kt_from_name kt_name;
  do? nonce <- ok_or nonce_rng EUnexpectedEof;
  do? serial <- ok_or serial_rng EUnexpectedEof;
  Ok (mkCert kt nonce pub (from_be serial) t [] [] 0 0 [] []
        [x00; x00; x00; x00; x00; x00; x00; x00] signing_key [] None []).

(** cert.rs 320-385: the builder methods, as data. *)
Inductive build_op :=
| OpSerial (n : N)
| OpKeyId (s : bytes)
| OpPrincipal (s : bytes)
| OpSetPrincipals (l : list bytes)
| OpValidAfter (n : N)
| OpValidBefore (n : N)
| OpCriticalOption (k v : bytes)
| OpSetCriticalOptions (m : hashmap)
| OpExtension (k v : bytes)
| OpSetExtensions (m : hashmap)
| OpComment (s : bytes).

(** Update of all builder-settable fields. *)
Definition upd (c : cert) (serial : N) (key_id : bytes) (principals : list bytes)
  (va vb : N) (co ex : hashmap) (comment : option bytes) : cert :=
  mkCert (ct_key_type c) (ct_nonce c) (ct_key c) serial (ct_cert_type c) key_id principals
    va vb co ex (ct_reserved c) (ct_signature_key c) (ct_signature c) comment
    (ct_serialized c).

(** cert.rs 320-385 *)
Definition apply_op (c : cert) (o : build_op) : cert :=
  let sn := ct_serial c in let id := ct_key_id c in let pr := ct_principals c in
  let va := ct_valid_after c in let vb := ct_valid_before c in
  let co := ct_critical_options c in let ex := ct_extensions c in
  let cm := ct_comment c in
  match o with
  | OpSerial n => upd c n id pr va vb co ex cm
  | OpKeyId s => upd c sn s pr va vb co ex cm
  | OpPrincipal s => upd c sn id (pr ++ [s]) va vb co ex cm
  | OpSetPrincipals l => upd c sn id l va vb co ex cm
  | OpValidAfter n => upd c sn id pr n vb co ex cm
  | OpValidBefore n => upd c sn id pr va n co ex cm
  | OpCriticalOption k v => upd c sn id pr va vb (hm_insert k v co) ex cm
  | OpSetCriticalOptions m => upd c sn id pr va vb m ex cm
  | OpExtension k v => upd c sn id pr va vb co (hm_insert k v ex) cm
  | OpSetExtensions m => upd c sn id pr va vb co m cm
  | OpComment s => upd c sn id pr va vb co ex (Some s)
  end.
Definition apply_ops (c : cert) (l : list build_op) : cert := fold_left apply_op l c.

(** cert.rs 388-432 [tbs_certificate]. [iter] is the iteration order of the maps. *)
Definition tbs_certificate (iter : hashmap -> hashmap) (c : cert) : res bytes :=
  do? kt_name <- as_cert_name (ct_key_type c);
  let w := write_string kt_name writer_new in
  let w := write_bytes (ct_nonce c) w in
  do? w <- write_pub_key_data (ct_key c) w;
  let w := write_u64 (ct_serial c) w in
  let w := write_u32 (cert_type_n (ct_cert_type c)) w in
  let w := write_string (ct_key_id c) w in
  let w := write_string_vec (ct_principals c) w in
  let w := write_u64 (ct_valid_after c) w in
  let w := write_u64 (ct_valid_before c) w in
  do? w <- write_string_map (iter (ct_critical_options c)) w;
  do? w <- write_string_map (iter (ct_extensions c)) w;
  let w := write_u32 0 w in
  do? sk <- pk_encode (ct_signature_key c);
  Ok (write_bytes sk w).

(** cert.rs 437-451 [add_signature] *)
Definition add_signature (C : crypto) (iter : hashmap -> hashmap) (c : cert)
  (signature : bytes) : res cert :=
  do? tbs <- tbs_certificate iter c;
  do? _ <- verify_signature C signature tbs (ct_signature_key c);
  let tbs := tbs ++ write_bytes signature writer_new in
  Ok (mkCert (ct_key_type c) (ct_nonce c) (ct_key c) (ct_serial c) (ct_cert_type c)
        (ct_key_id c) (ct_principals c) (ct_valid_after c) (ct_valid_before c)
        (ct_critical_options c) (ct_extensions c) (ct_reserved c) (ct_signature_key c)
        signature (ct_comment c) tbs).

(** cert.rs 454-460 [sign] *)
Definition cert_sign (C : crypto) (iter : hashmap -> hashmap) (c : cert) (sg : signer)
  : res cert :=
  do? tbs <- tbs_certificate iter c;
  do? o <- sg tbs;
  do? signature <- ok_or o ESigningError;
  add_signature C iter c signature.

(** cert.rs 526-536 [Display for Certificate], non-alternate form *)
Definition cert_display (c : cert) : bytes :=
  kt_name (ct_key_type c) ++ [space] ++ b64_encode (ct_serialized c) ++ [space] ++ ct_key_id c.

(** src/fido/parsing.rs: authenticator data and its COSE key. Definitions only. *)
From Verif Require Import Base KeyType PubKeyType AllowedSigner.

(** ** minicbor 0.13 [Decoder] (not in /repo; modelled from RFC 8949 and the crate's API).
    A decoder is the list of the bytes that are left. *)
Definition take (n : nat) (l : bytes) : option (bytes * bytes) :=
  if n <=? length l then Some (firstn n l, skipn n l) else None.

(** The argument of a head byte with additional information [info]. *)
Definition cbor_argument (info : N) (l : bytes) : option (N * bytes) :=
  let long k := match take k l with Some (b, r) => Some (from_be b, r) | None => None end in
  if (info <? 24)%N then Some (info, l)
  else if (info =? 24)%N then long 1
  else if (info =? 25)%N then long 2
  else if (info =? 26)%N then long 4
  else if (info =? 27)%N then long 8
  else None.
Definition cbor_head (l : bytes) : option (N * N * bytes) :=
  match l with
  | [] => None
  | b :: r => Some (b2n b / 32, b2n b mod 32, r)%N
  end.

(** [Decoder::datatype], for integers; for negative integers it looks at the next byte. *)
Inductive cbor_type := TU8 | TU16 | TU32 | TU64 | TI8 | TI16 | TI32 | TI64 | TOther.
Definition cbor_datatype (l : bytes) : option cbor_type :=
  let peek r a b := match r with [] => None | p :: _ => Some (if (b2n p <? 128)%N then a else b) end in
  match l with
  | [] => None
  | b :: r =>
      let n := b2n b in
      if (n <=? 24)%N then Some TU8
      else if (n =? 25)%N then Some TU16
      else if (n =? 26)%N then Some TU32
      else if (n =? 27)%N then Some TU64
      else if (32 <=? n)%N && (n <=? 55)%N then Some TI8
      else if (n =? 56)%N then peek r TI8 TI16
      else if (n =? 57)%N then peek r TI16 TI32
      else if (n =? 58)%N then peek r TI32 TI64
      else if (n =? 59)%N then peek r TI64 TOther
      else Some TOther
  end.
(** [Decoder::u8] to [u64]: an unsigned integer below [bound]. *)
Definition cbor_unsigned (bound : N) (l : bytes) : option (Z * bytes) :=
  match cbor_head l with
  | Some (0%N, info, r) =>
      match cbor_argument info r with
      | Some (n, r') => if (n <? bound)%N then Some (Z.of_N n, r') else None
      | None => None
      end
  | _ => None
  end.
(** [Decoder::i8] to [i64]: an integer [n] or [-1 - n] with [n] below [bound]. *)
Definition cbor_signed (bound : N) (l : bytes) : option (Z * bytes) :=
  match cbor_head l with
  | Some (major, info, r) =>
      match cbor_argument info r with
      | Some (n, r') =>
          if (n <? bound)%N then
            if (major =? 0)%N then Some (Z.of_N n, r')
            else if (major =? 1)%N then Some (-1 - Z.of_N n, r')%Z
            else None
          else None
      | None => None
      end
  | None => None
  end.
(** [Decoder::map]: the number of entries; [None] in the pair is an indefinite map. *)
Definition cbor_map (l : bytes) : option (option N * bytes) :=
  match cbor_head l with
  | Some (5%N, info, r) =>
      if (info =? 31)%N then Some (None, r)
      else match cbor_argument info r with Some (n, r') => Some (Some n, r') | None => None end
  | _ => None
  end.
(** [Decoder::bytes]: a byte string of definite length. *)
Definition cbor_bytes (l : bytes) : option (bytes * bytes) :=
  match cbor_head l with
  | Some (2%N, info, r) =>
      match cbor_argument info r with Some (n, r') => take (N.to_nat n) r' | None => None end
  | _ => None
  end.
(** [Decoder::undefined] *)
Definition cbor_undefined (l : bytes) : option bytes :=
  match l with
  | b :: r => if byte_eqb b xf7 then Some r else None
  | [] => None
  end.

(** ** parsing.rs *)
(** parsing.rs 16-26 [CoseKey]; [parameters] is a list of pairs. *)
Record cose_key := mkCose {
  ck_type : Z;
  ck_algorithm : Z;
  ck_key : bytes;
  ck_parameters : list (Z * bytes)
}.
(** parsing.rs 31-44 [AuthData] *)
Record auth_data := mkAuth {
  ad_rpid_hash : bytes;
  ad_flags : byte;
  ad_sign_count : N;
  ad_aaguid : bytes;
  ad_credential_id : bytes;
  ad_cose_key : cose_key
}.
(** [HashMap<i128, String>::insert] *)
Fixpoint zm_insert (k : Z) (v : bytes) (m : list (Z * bytes)) : list (Z * bytes) :=
  match m with
  | [] => [(k, v)]
  | (k', v') :: m' => if (k =? k')%Z then (k', v) :: m' else (k', v') :: zm_insert k v m'
  end.

(** parsing.rs 46-61 [read_integer] *)
Definition read_integer (l : bytes) : res (Z * bytes) :=
  match cbor_datatype l with
  | Some TU8 => ok_or (cbor_unsigned (2 ^ 8) l) EParsingError
  | Some TU16 => ok_or (cbor_unsigned (2 ^ 16) l) EParsingError
  | Some TU32 => ok_or (cbor_unsigned (2 ^ 32) l) EParsingError
  | Some TU64 => ok_or (cbor_unsigned (2 ^ 64) l) EParsingError
  | Some TI8 => ok_or (cbor_signed (2 ^ 7) l) EParsingError
  | Some TI16 => ok_or (cbor_signed (2 ^ 15) l) EParsingError
  | Some TI32 => ok_or (cbor_signed (2 ^ 31) l) EParsingError
  | Some TI64 => ok_or (cbor_signed (2 ^ 63) l) EParsingError
  | Some TOther | None => Err EParsingError
  end.

(** parsing.rs 64-66, 69-71 *)
Definition user_presence (a : auth_data) : bool := (0 <? N.land (b2n (ad_flags a)) 1)%N.
Definition user_verification (a : auth_data) : bool := (0 <? N.land (b2n (ad_flags a)) 4)%N.

Definition cbor_format (text : bytes) : error := EFidoError (FCborFormat text).

(** parsing.rs 151-193: one entry of the map. The text of minicbor's error behind "threw
    error" is dropped. *)
Definition cose_entry (k : cose_key) (l : bytes) : res (cose_key * bytes) :=
  do? (key, l) <- read_integer l;
  if (key =? -1)%Z then
    do? (v, l) <- map_err (read_integer l) (cbor_format (s2b "Could not read integer for key -1 (parameters)"));
    Ok (mkCose (ck_type k) (ck_algorithm k) (ck_key k) (zm_insert key (display_z v) (ck_parameters k)), l)
  else if (key =? 1)%Z then
    do? (v, l) <- map_err (read_integer l)
      (cbor_format (s2b "Could not read integer for key 1 (key_type): Could not parse the data provided"));
    Ok (mkCose v (ck_algorithm k) (ck_key k) (ck_parameters k), l)
  else if (key =? 3)%Z then
    do? (v, l) <- map_err (read_integer l) (cbor_format (s2b "Could not read integer for key 3 (algorithm)"));
    Ok (mkCose (ck_type k) v (ck_key k) (ck_parameters k), l)
  else if (key =? -2)%Z || (key =? -3)%Z then
    do? (v, l) <- ok_or (cbor_bytes l) (cbor_format (s2b "Could not bytes for key -2|-3 (key)"));
    Ok (mkCose (ck_type k) (ck_algorithm k) v (ck_parameters k), l)
  else
    do? l <- ok_or (cbor_undefined l)
      (cbor_format (s2b "We got something else " ++ display_z key ++ s2b " and threw error "));
    Ok (k, l).
(** parsing.rs 150-194: the loop runs once for each entry. *)
Fixpoint cose_entries (n : nat) (k : cose_key) (l : bytes) : res cose_key :=
  match n with
  | O => Ok k
  | S n' => do? (k', l') <- cose_entry k l; cose_entries n' k' l'
  end.

(** [Cursor::read_exact] *)
Definition read_exact (n : nat) (l : bytes) (text : bytes) : res (bytes * bytes) :=
  ok_or (take n l) (cbor_format text).

(** parsing.rs 74-213 [AuthData::parse] *)
Definition auth_parse (raw : bytes) : res auth_data :=
  do? (rpid_hash, l) <- read_exact 32 raw (s2b "Could not read RPID");
  do? (flags, l) <- read_exact 1 l (s2b "Could not read flags");
  do? flags <- index flags 0;
  let included := (N.land (b2n flags) 64 =? 64)%N in
  do? (sign_count, l) <- read_exact 4 l (s2b "Could not read sign count");
  do? (aaguid, l) <- read_exact 16 l (s2b "Could not read AAGUID");
  do? (cred_len, l) <- read_exact 2 l (s2b "Could not read credential length");
  do? (credential_id, l) <- read_exact (N.to_nat (from_be cred_len)) l (s2b "Could not read credential ID");
  do? cose <-
    (if included then
       do? (len, l) <- match cbor_map l with
                        | Some (Some len, l') => Ok (len, l')
                        | _ => Err (cbor_format (s2b "Refusing to read indefinite map"))
                        end;
       if (256 <? len)%N then Err (cbor_format (s2b "Map is too long"))
       else do? k <- cose_entries (N.to_nat len) (mkCose 0 0 [] []) l; Ok (Some k)
     else Ok None);
  do? cose <- ok_or cose EParsingError;
  Ok (mkAuth rpid_hash flags (from_be sign_count) aaguid credential_id cose).

(** parsing.rs 217-252 [AuthData::ssh_public_key] *)
Definition auth_ssh_key (a : auth_data) (app : bytes) : res pubkey :=
  let k := ad_cose_key a in
  if (ck_algorithm k =? -7)%Z then
    do? c <- match curve_from_identifier (s2b "nistp256") with Ok c => Ok c | _ => Panic end;
    do? kt <- match kt_from_name (s2b "sk-ecdsa-sha2-nistp256@openssh.com") with Ok t => Ok t | _ => Panic end;
    Ok (mkPubKey kt (PkEcdsa c (ck_key k) (Some app)) None)
  else if (ck_algorithm k =? -8)%Z then
    do? kt <- match kt_from_name (s2b "sk-ssh-ed25519@openssh.com") with Ok t => Ok t | _ => Panic end;
    Ok (mkPubKey kt (PkEd25519 (ck_key k) (Some app)) None)
  else Err EParsingError.

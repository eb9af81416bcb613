(** src/ssh/allowed_signer.rs: entries and files of allowed signers. Definitions only.
    [from_path] (reads a file and calls [from_string]) is in Files.v. *)
From Verif Require Import Base Str KeyType PubKeyType PubKey Chrono.

Definition quote : byte := x22.
Definition pound : byte := x23.

(** allowed_signer.rs 433-469 [parse_timestamp]; [unwrap] of a skipped or repeated local time
    panics. *)
Definition ends_with_byte (c : byte) (s : bytes) : bool :=
  match rev s with b :: _ => byte_eqb b c | [] => false end.
Definition parse_timestamp (tz : timezone) (s : bytes) : res Z :=
  let s := trim_matches quote s in
  let is_utc := ends_with_byte x5a s in
  if Nat.odd (length s) && negb is_utc then Err (EInvalidAllowedSigner ASInvalidTimestamp) else
  let s := if is_utc then trim_end_matches x5a s else s in
  do? dt <- (match length s with
             | 8 => ok_or (parse_ymd s) (EInvalidAllowedSigner ASInvalidTimestamp)
             | 12 => ok_or (parse_ymdhm s) (EInvalidAllowedSigner ASInvalidTimestamp)
             | 14 => ok_or (parse_ymdhms s) (EInvalidAllowedSigner ASInvalidTimestamp)
             | _ => Err (EInvalidAllowedSigner ASInvalidTimestamp)
             end);
  if is_utc then Ok (dt_timestamp dt)
  else match tz (dt_timestamp dt) with
       | Single offset => Ok (dt_timestamp dt - offset)%Z
       | Skipped | Repeated => Panic
       end.

(** allowed_signer.rs 301-333 [AllowedSignerSplitter]: the pieces of the line. The code keeps
    them in reverse order and works on the end; here the first piece comes first, so
    [buffer.last()] is the head and [buffer[0]] the last element. *)
Definition splitter := list bytes.
Definition is_delim (b : byte) : bool := byte_eqb b space || byte_eqb b quote || byte_eqb b pound.
Definition flush (cur : bytes) (l : list bytes) : list bytes :=
  match cur with [] => l | _ => cur :: l end.
Fixpoint split_delims (l cur : bytes) : splitter :=
  match l with
  | [] => flush cur []
  | b :: l' => if is_delim b then flush cur ([b] :: split_delims l' []) else split_delims l' (cur ++ [b])
  end.
Definition splitter_new (s : bytes) : splitter := split_delims s [].

(** allowed_signer.rs 391-405 [trim] *)
Fixpoint splitter_trim (b : splitter) : splitter :=
  match b with
  | t :: b' => if bytes_eqb t [space] then splitter_trim b' else if bytes_eqb t [pound] then [] else b
  | [] => []
  end.

(** allowed_signer.rs 407-430 [split_quote] *)
Definition invalid_quotes : error := EInvalidAllowedSigner ASInvalidQuotes.
Fixpoint until_quote (b : splitter) (s : bytes) : res (bytes * splitter) :=
  match b with
  | [] => Err invalid_quotes
  | t :: b' => if bytes_eqb t [quote] then Ok (s ++ t, b') else until_quote b' (s ++ t)
  end.
Definition split_quote (b : splitter) : res (bytes * splitter) :=
  match b with
  | t :: b' => if bytes_eqb t [quote] then until_quote b' [quote] else Err invalid_quotes
  | [] => Err invalid_quotes
  end.

(** allowed_signer.rs 335-389 [is_empty_after_trim], [next] *)
Fixpoint take_plain (b : splitter) (s : bytes) : bytes * splitter :=
  match b with
  | t :: b' =>
      if bytes_eqb t [space] || bytes_eqb t [quote] || bytes_eqb t [pound] then (s, b)
      else take_plain b' (s ++ t)
  | [] => (s, [])
  end.
Definition splitter_next (opening_quotes_allowed : bool) (b : splitter) : res (option bytes * splitter) :=
  let b := splitter_trim b in
  match b with
  | [] => Ok (None, [])
  | _ =>
    if bytes_eqb (last b []) [quote] then
      if opening_quotes_allowed then
        do? (v, b) <- split_quote b; Ok (Some v, b)
      else Err invalid_quotes
    else
      let (s, b) := take_plain b [] in
      match b with
      | t :: _ =>
          if bytes_eqb t [quote] then
            do? (q, b) <- split_quote b;
            match b with
            | t :: _ => if bytes_eqb t [space] || bytes_eqb t [pound] then Ok (Some (s ++ q), b)
                        else Err invalid_quotes
            | [] => Ok (Some (s ++ q), b)
            end
          else Ok (Some s, b)
      | [] => Ok (Some s, b)
      end
  end.

(** allowed_signer.rs 57-76 *)
Record allowed_signer := mkSigner {
  as_principals : list bytes;
  as_cert_authority : bool;
  as_namespaces : option (list bytes);
  as_valid_after : option Z;
  as_valid_before : option Z;
  as_key : pubkey
}.

(** The options read so far. *)
Record options := mkOptions {
  o_cert_authority : bool;
  o_namespaces : option (list bytes);
  o_valid_after : option Z;
  o_valid_before : option Z
}.
Definition no_options : options := mkOptions false None None None.

(** allowed_signer.rs 119-168: the body of the loop. [Ok None] means that [option] is the key
    type. [str::to_lowercase] maps Unicode; the only non-ASCII character it maps to ASCII is
    the Kelvin sign, to [k], which no option name contains, so lowering ASCII only decides the
    same names. *)
Definition nonempty (l : bytes) : bool := match l with [] => false | _ => true end.
Definition read_option (tz : timezone) (o : options) (option : bytes) : res (Datatypes.option options) :=
  let (key, value) := match split_once x3d option with Some v => v | None => (option, []) end in
  let value := trim_matches quote value in
  if contains_byte quote value then Err invalid_quotes else
  let name := to_lowercase key in
  if bytes_eqb name (s2b "cert-authority") then
    Ok (Some (mkOptions true (o_namespaces o) (o_valid_after o) (o_valid_before o)))
  else if bytes_eqb name (s2b "namespaces") then
    match o_namespaces o with
    | Some _ => Err (EInvalidAllowedSigner (ASDuplicateOptions (s2b "namespaces")))
    | None => Ok (Some (mkOptions (o_cert_authority o) (Some (filter nonempty (split_on x2c value)))
                          (o_valid_after o) (o_valid_before o)))
    end
  else if bytes_eqb name (s2b "valid-after") then
    match o_valid_after o with
    | Some _ => Err (EInvalidAllowedSigner (ASDuplicateOptions (s2b "valid-after")))
    | None =>
        do? t <- map_err (parse_timestamp tz value) (EInvalidAllowedSigner (ASInvalidOption (s2b "valid-after")));
        Ok (Some (mkOptions (o_cert_authority o) (o_namespaces o) (Some t) (o_valid_before o)))
    end
  else if bytes_eqb name (s2b "valid-before") then
    match o_valid_before o with
    | Some _ => Err (EInvalidAllowedSigner (ASDuplicateOptions (s2b "valid-before")))
    | None =>
        do? t <- map_err (parse_timestamp tz value) (EInvalidAllowedSigner (ASInvalidOption (s2b "valid-before")));
        Ok (Some (mkOptions (o_cert_authority o) (o_namespaces o) (o_valid_after o) (Some t)))
    end
  else Ok None.

(** allowed_signer.rs 118-168: the loop, which consumes at least one piece per round. The
    number of rounds is bounded by [fuel]; running out of it is modelled as a panic, and
    shown not to happen. *)
Fixpoint read_options (fuel : nat) (tz : timezone) (o : options) (b : splitter)
  : res (bytes * options * splitter) :=
  match fuel with
  | O => Panic
  | S fuel =>
      do? (t, b) <- splitter_next false b;
      do? option <- ok_or t (EInvalidAllowedSigner ASMissingKey);
      do? r <- read_option tz o option;
      match r with
      | Some o => read_options fuel tz o b
      | None => Ok (option, o, b)
      end
  end.

(** allowed_signer.rs 99-205 [AllowedSigner::from_string] *)
Definition as_from_string (tz : timezone) (s : bytes) : res allowed_signer :=
  let b := splitter_new s in
  do? (t, b) <- splitter_next true b;
  do? principals <- ok_or t (EInvalidAllowedSigner ASMissingPrincipals);
  let principals := split_on x2c (trim_matches quote principals) in
  if existsb (fun p => negb (nonempty p)) principals
  then Err (EInvalidAllowedSigner ASInvalidPrincipals) else
  do? (kt, o, b) <- read_options (S (length b)) tz no_options b;
  do? (t, b) <- splitter_next false b;
  do? key_data <- ok_or t (EInvalidAllowedSigner ASInvalidKey);
  do? key <- map_err (pk_from_string (kt ++ [space] ++ key_data)) (EInvalidAllowedSigner ASInvalidKey);
  if (match o_valid_before o, o_valid_after o with
      | Some before, Some after => (before <=? after)%Z
      | _, _ => false
      end)
  then Err (EInvalidAllowedSigner ASInvalidTimestamps) else
  match splitter_trim b with
  | [] => Ok (mkSigner principals (o_cert_authority o) (o_namespaces o) (o_valid_after o)
                (o_valid_before o) key)
  | _ => Err (EInvalidAllowedSigner ASUnexpectedEnd)
  end.

(** [Display for i64] *)
Fixpoint decimal_aux (fuel : nat) (n : N) (acc : bytes) : bytes :=
  match fuel with
  | O => acc
  | S f => let acc := n2b (48 + n mod 10) :: acc in
           if (n <? 10)%N then acc else decimal_aux f (n / 10) acc
  end.
Definition decimal (n : N) : bytes := decimal_aux (S (N.to_nat (N.size n))) n [].
Definition display_z (z : Z) : bytes :=
  if (z <? 0)%Z then x2d :: decimal (Z.abs_N z) else decimal (Z.abs_N z).

(** allowed_signer.rs 208-234 [Display for AllowedSigner] *)
Definition as_display (a : allowed_signer) : res bytes :=
  let out := join [x2c] (as_principals a) in
  let out := if as_cert_authority a then out ++ s2b " cert-authority" else out in
  let out := match as_namespaces a with
             | Some ns => out ++ s2b " namespaces=" ++ join [x2c] ns
             | None => out
             end in
  let out := match as_valid_after a with
             | Some t => out ++ s2b " valid-after=" ++ display_z t
             | None => out
             end in
  let out := match as_valid_before a with
             | Some t => out ++ s2b " valid-before=" ++ display_z t
             | None => out
             end in
  do? key <- pk_display (as_key a);
  Ok (out ++ [space] ++ key).

(** allowed_signer.rs 272-293 [AllowedSigners::from_string] *)
Fixpoint read_lines (tz : timezone) (line_number : nat) (ls : list bytes) : res (list allowed_signer) :=
  match ls with
  | [] => Ok []
  | l :: ls =>
      let l := trim l in
      if negb (nonempty l) || starts_with_byte pound l then read_lines tz (S line_number) ls else
      match as_from_string tz l with
      | Ok v => do? rest <- read_lines tz (S line_number) ls; Ok (v :: rest)
      | Err (EInvalidAllowedSigner e) => Err (EInvalidAllowedSigners e line_number)
      | Err _ => Err EParsingError
      | Panic => Panic
      end
  end.
Definition signers_from_string (tz : timezone) (s : bytes) : res (list allowed_signer) :=
  read_lines tz 0 (lines s).

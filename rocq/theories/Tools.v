(** The programs in /repo/examples. Definitions only. A program that stops with [unwrap] on an
    error, or any other panic, is [Panic]. What a program prints is the text on standard output,
    which is taken to be writable. The parsing of command lines by clap and the help texts are
    left out: the arguments are given. Files are as in Files.v. *)
From Verif Require Import Base Str Utf8 Crypto KeyType PubKeyType PubKey Signature Cert PrivKey AllowedSigner Show
  X509 Piv Files.

(** [println!] *)
Definition println (text : bytes) : bytes := text ++ [newline].

(** ** examples/sign-cert-with-file.rs *)
(** 47-52: the optional PIN *)
Definition with_pin (pin : option bytes) (k : privkey) : privkey :=
  match pin with Some p => set_pin p k | None => k end.
(** 54-62; sign-cert-with-yubikey.rs 88-97 with another serial *)
Definition tool_request (serial : N) (principal : bytes) : list build_op :=
  [ OpSerial serial; OpKeyId (s2b "key_id"); OpPrincipal principal; OpValidAfter 0;
    OpValidBefore 18446744073709551615; OpSetExtensions standard_extensions ].
(** 46-64 *)
Definition sign_cert_with_file (F : features) (C : crypto) (K : keyops) (iter : hashmap -> hashmap)
  (nonce_rng serial_rng : option bytes) (file sign pin : option bytes) (principal : bytes) : res bytes :=
  do? ssh_pubkey <- unwrap_res (pk_from_path file);
  do? ca <- unwrap_res (sk_from_path F K sign);
  let ca_private_key := with_pin pin ca in
  do? b <- unwrap_res (builder nonce_rng serial_rng ssh_pubkey User (sk_pub ca_private_key));
  do? user_cert <- unwrap_res (cert_sign C iter (apply_ops b (tool_request 0 principal))
                                 (sk_sign F C K ca_private_key));
  Ok (println (cert_display user_cert)).

(** ** examples/sign-file-with-file.rs *)
(** 45-61; [std::fs::read] gives the bytes of the file. *)
Definition sign_file_with_file (F : features) (C : crypto) (K : keyops)
  (sign pin file : option bytes) (namespace : bytes) : res bytes :=
  do? k <- unwrap_res (sk_from_path F K sign);
  let private_key := with_pin pin k in
  do? contents <- unwrap_res (ok_or file EIo);
  do? signature <- unwrap_res (new_with_private_key C contents namespace (sk_pub private_key)
                                 (sk_sign F C K private_key) None);
  do? text <- unwrap_res (sshsig_display (vs_signature signature));
  Ok (println text).

(** ** Slots: examples/yk-provision.rs 46-62, sign-cert-with-yubikey.rs 11-26 *)
(** The value of an ASCII digit. *)
Definition digit_value (b : byte) : option N :=
  let n := Byte.to_N b in if ((48 <=? n) && (n <=? 57))%N then Some (n - 48)%N else None.
Fixpoint u8_digits (l : bytes) (acc : N) : option N :=
  match l with
  | [] => Some acc
  | b :: r =>
      match digit_value b with
      | Some d => let n := (10 * acc + d)%N in if (n <=? 255)%N then u8_digits r n else None
      | None => None
      end
  end.
(** [str::parse::<u8>] (core, [from_str_radix] with radix 10): a leading plus is allowed. *)
Definition parse_u8 (s : bytes) : option N :=
  match s with
  | [] => None
  | [b] => if (byte_eqb b x2b || byte_eqb b x2d)%bool then None else u8_digits s 0
  | b :: r => if byte_eqb b x2b then u8_digits r 0 else u8_digits s 0
  end.
(** hex 0.4 [decode] *)
Definition hex_value (b : byte) : option N :=
  let n := Byte.to_N b in
  if ((48 <=? n) && (n <=? 57))%N then Some (n - 48)%N
  else if ((97 <=? n) && (n <=? 102))%N then Some (n - 87)%N
  else if ((65 <=? n) && (n <=? 70))%N then Some (n - 55)%N
  else None.
Fixpoint hex_decode (l : bytes) : option (list N) :=
  match l with
  | [] => Some []
  | a :: b :: r =>
      match hex_value a, hex_value b, hex_decode r with
      | Some x, Some y, Some t => Some ((16 * x + y)%N :: t)
      | _, _, _ => None
      end
  | _ => None
  end.
(** [SlotId::try_from(n).unwrap()] (yubikey crate); [known] tells which numbers are slots. *)
Definition slot_try_from (known : N -> bool) (n : N) : res slot := if known n then Ok n else Panic.
(** 46-62 *)
Definition slot_parser (known : N -> bool) (s : bytes) : res (option slot) :=
  if ((length s =? 2) || (length s =? 3)) && starts_with_byte x52 s then
    match parse_u8 (tl s) with
    | Some v => if (v <=? 20)%N then do? x <- slot_try_from known (129 + v)%N; Ok (Some x) else Ok None
    | None => Ok None
    end
  else if (length s =? 4) && bytes_eqb (firstn 2 s) (s2b "0x") then
    match hex_decode (skipn 2 s) with
    | Some (slot_value :: _) => do? x <- slot_try_from known slot_value; Ok (Some x)
    | _ => Panic
    end
  else Ok None.

(** ** examples/ssh-cert-info.rs 25-37, ssh-pubkey-from-cert.rs 25-39 *)
(** The lines of [contents.split('\n')], up to the first empty one. [show] is what is printed for a
    certificate ([None]: formatting fails and [println!] panics); [why] is the text of an error. The
    flag is false after a panic. *)
Fixpoint certificate_lines (C : crypto) (show : cert -> res bytes) (why : error -> bytes) (i : N)
  (ls : list bytes) : bytes * bool :=
  match ls with
  | [] => ([], true)
  | [] :: _ => ([], true)
  | line :: rest =>
      match
        match cert_from_string C line with
        | Ok c => show c
        | Err e => Ok (s2b "Line " ++ decimal i ++ s2b ": Certificate not valid: " ++ why e)
        | Panic => Panic
        end
      with
      | Ok text => let (out, ended) := certificate_lines C show why (i + 1) rest in (println text ++ out, ended)
      | _ => ([], false)
      end
  end.
Definition ssh_cert_info (C : crypto) (iter : hashmap -> hashmap) (why : error -> bytes) (contents : bytes) : bytes * bool :=
  certificate_lines C (cert_listing C iter) why 0 (split_on newline contents).
Definition ssh_pubkey_from_cert (C : crypto) (why : error -> bytes) (contents : bytes) : bytes * bool :=
  certificate_lines C (fun c => pk_display (ct_key c)) why 0 (split_on newline contents).

(** ** examples/ssh-pubkey-info.rs 18-30: printed text, or the reported error *)
Definition ssh_pubkey_info (C : crypto) (file : option bytes) : res bytes :=
  do? c <- pk_from_path file;
  do? f <- unwrap_res (pk_fingerprint C c);
  Ok (println (s2b "256 SHA256:" ++ fp_hash f ++ [space]
               ++ match pk_comment c with Some t => t | None => s2b "no comment" end)).
(** ** examples/ssh-pkey-info.rs 25-31 *)
Definition ssh_pkey_info (F : features) (C : crypto) (K : keyops) (file passphrase : option bytes) : res bytes :=
  do? k <- sk_from_path_with_passphrase F K file passphrase;
  do? text <- unwrap_res (privkey_display C k);
  Ok (println text).
(** ** examples/into-ssh-pubkey.rs 26-29 *)
Definition into_ssh_pubkey (X : x509) (why : error -> bytes) (contents : bytes) : res bytes :=
  match der_to_ssh_key X contents with
  | Ok public_key => do? text <- unwrap_res (pk_display public_key); Ok (println text)
  | Err e => Ok (println (s2b "Error: " ++ why e))
  | Panic => Panic
  end.

(** ** Programs that use a YubiKey *)
Section Yubikeys.
Context {H S : Type} (D : yubikey H S) (X : x509) (C : crypto).
(** [unwrap] on something that does not touch the device *)
Definition ylift {A} (r : res A) : Y S A := fun s => (r, s).

(** examples/sign-cert-with-yubikey.rs 41-48: every signature opens some device anew. *)
Definition fresh_signer (sl : slot) (buffer : bytes) : Y S (option bytes) := fun s =>
  match yunwrap (open_new D) s with
  | (Ok h, s1) =>
      match ssh_cert_signer D X C h buffer sl s1 with
      | (Ok sig, s2) => (Ok (Some sig), s2)
      | (Err _, s2) => (Ok None, s2)
      | (Panic, s2) => (Panic, s2)
      end
  | (Err e, s1) => (Err e, s1)
  | (Panic, s1) => (Panic, s1)
  end.
(** cert.rs 454-460 [sign] with a signer that changes the outside: the signer is called once, on
    the bytes to be signed. *)
Definition cert_sign_with (iter : hashmap -> hashmap) (c : cert) (sg : bytes -> Y S (option bytes)) : Y S cert :=
  do~ tbs <- ylift (tbs_certificate iter c);
  do~ o <- sg tbs;
  do~ signature <- ylift (ok_or o ESigningError);
  ylift (add_signature C iter c signature).
(** 82-101 *)
Definition sign_cert_with_yubikey (iter : hashmap -> hashmap) (known : N -> bool)
  (nonce_rng serial_rng : option bytes) (slot_text : bytes) (key : option bytes) (principal : bytes) : Y S bytes :=
  do~ o <- ylift (slot_parser known slot_text);
  do~ sl <- ylift (unwrap_res (ok_or o EIo));
  do~ h <- yunwrap (open_new D);
  do~ yk_pubkey <- yunwrap (ssh_cert_fetch_pubkey D X h sl);
  do~ ssh_pubkey <- ylift (unwrap_res (pk_from_path key));
  do~ b <- ylift (unwrap_res (builder nonce_rng serial_rng ssh_pubkey User yk_pubkey));
  do~ user_cert <- yunwrap (cert_sign_with iter (apply_ops b (tool_request 18374403900871474942 principal)) (fresh_signer sl));
  yret (println (cert_display user_cert)).

(** examples/yk-provision.rs 10-44, 128-142. The first two lines it prints are left out. The touch
    policies (yubikey crate) are numbers: never 1, always 2; the PIN policy never is 1. *)
Definition yk_provision (known : N -> bool) (slot_text subject pin mgm_hex alg : bytes) (secure : bool) : Y S bytes :=
  do~ o <- ylift (slot_parser known slot_text);
  do~ sl <- ylift (unwrap_res (ok_or o EIo));
  do~ mgm <- ylift (unwrap_res (ok_or (hex_decode mgm_hex) EIo));
  let mgm_key := map n2b mgm in
  let alg := if bytes_eqb alg (s2b "p256") then EccP256 else EccP384 in
  let policy := if secure then 2%N else 1%N in
  do~ h <- yunwrap (open_new D);
  do~ _ <- yunwrap (unlock D h pin mgm_key);
  do~ pk <- yunwrap (provision D X h sl subject alg policy 1%N);
  do~ text <- ylift (unwrap_res (pk_display pk));
  yret (println (s2b "New hardware backed SSH Public Key: " ++ text)).

(** examples/yk-fingerprint.rs 24-37, 42-56: the line about a slot. [debug] is the text of a slot
    with [{:?}] (yubikey crate). *)
Definition slot_line (debug : slot -> bytes) (h : H) (sl : slot) : Y S bytes := fun s =>
  let (subject, s) := fetch_subject D h sl s in
  let (key, s) := ssh_cert_fetch_pubkey D X h sl s in
  match subject, key with
  | Panic, _ | _, Panic => (Panic, s)
  | Ok subj, Ok k =>
      let (attest, s) := fetch_attestation D h sl s in
      (do? f <- unwrap_res (pk_fingerprint C k);
       Ok (println ([x09] ++ debug sl ++ s2b ":" ++ [x09] ++ s2b "[Fingerprint: " ++ fp_hash f ++ s2b "] [Attest: "
                    ++ match attest with Ok _ => s2b "Yes" | _ => s2b "No " end ++ s2b "] Subject: [" ++ subj ++ s2b "]")), s)
  | _, _ => (Ok (println ([x09] ++ debug sl ++ s2b ":" ++ [x09] ++ s2b "No cert found")), s)
  end.
(** 20-23, 40-41 *)
Fixpoint slot_lines (debug : slot -> bytes) (known : N -> bool) (h : H) (l : list N) : Y S bytes :=
  match l with
  | [] => yret []
  | n :: r =>
      do~ sl <- ylift (slot_try_from known n);
      do~ line <- slot_line debug h sl;
      do~ rest <- slot_lines debug known h r;
      yret (line ++ rest)
  end.
(** 17-57; the text printed before a panic is left out. *)
Definition yk_fingerprint (debug : slot -> bytes) (known : N -> bool) : Y S bytes :=
  do~ h <- yunwrap (open_new D);
  do~ normal <- slot_lines debug known h [154; 156; 158; 157; 158; 249]%N;
  do~ retired <- slot_lines debug known h (map N.of_nat (seq 130 20));
  yret (println (s2b "Normal Slots:") ++ normal ++ println (s2b "Retired Slots:") ++ retired).
End Yubikeys.

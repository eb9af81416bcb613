(** The buffers that reading, writing and signing with private keys use for a while: privkey.rs
    222-240, 294-437, 480-618, 648-728. None of them is a [PrivateKey], so none is wiped when it is
    given back. Definitions only.
    Left out: buffers without secrets (names, public keys, salts, signatures), copies that a
    growing vector or string leaves behind, values on the stack (the derived AES key), and what other
    crates allocate ([BigUint], [ASN1Block], ring, the partial output of a failing
    [base64::decode], device libraries). All of these can only leave more. *)
From Verif Require Import Base Str Base64 Reader KeyType PubKeyType Writer Crypto PubKey Signature PrivKey Memory.

(** A reader with memory. *)
Definition HM (A : Type) := reader -> heap -> (res A * reader) * heap.
Definition hret {A} (x : A) : HM A := fun r h => ((Ok x, r), h).
Definition hbind {A B} (m : HM A) (f : A -> HM B) : HM B := fun r h =>
  match m r h with
  | ((Ok x, r), h) => f x r h
  | ((Err e, r), h) => ((Err e, r), h)
  | ((Panic, r), h) => ((Panic, r), h)
  end.
(** A step that keeps no secret. *)
Definition plainly {A} (m : M A) : HM A := fun r h => (m r, h).
(** A local vector that is moved into the result. When what follows fails (or panics) it is
    given back as it is: fields on their own are not wiped. *)
Definition held {A B} (o : A) (add : A -> heap -> B * heap) (drop : B -> heap -> heap) {C} (f : B -> HM C) : HM C := fun r h =>
  let '(a, h) := add o h in
  match f a r h with
  | ((Ok x, r), h) => ((Ok x, r), h)
  | (failed, h) => (failed, drop a h)
  end.
Definition hold {C} (m : M bytes) (f : bytes -> nat -> HM C) : HM C :=
  hbind (plainly m) (fun c => held c alloc (fun a => update a free_block) (f c)).
Definition hold_opt {C} (m : M (option bytes)) (f : option nat -> HM C) : HM C :=
  hbind (plainly m) (fun o => held o alloc_opt free_opt f).

(** privkey.rs 427-436: the comment, and the key *)
Definition mem_finish (kt : key_type) (kind : kind_over nat) (pub : pubkey_kind) : HM mem_key :=
  hbind (plainly read_string) (fun comment => hret (mkMemKey kt kind (mkPubKey kt pub None) 0 comment)).
(** privkey.rs 356-363 and 394-401: a hardware key *)
Definition mem_read_hw {C} (f : bytes -> byte -> nat -> nat -> HM C) : HM C :=
  hbind (plainly read_string) (fun app =>
  hbind (plainly (read_raw_bytes 1)) (fun fl =>
  hbind (plainly (lift (index fl 0))) (fun flags =>
  hold read_bytes (fun _ handle => hold read_bytes (fun _ reserved => f app flags handle reserved))))).
(** privkey.rs 307-329: one exponent *)
Definition exponent (F : features) (d p : bytes) : res (option bytes) :=
  if f_rsa F then do? x <- crt_exponent d p; Ok (Some x) else Ok None.
(** privkey.rs 294-437 [read_private_key] *)
Definition mem_read_private_key (F : features) : HM mem_key :=
  hbind (plainly read_string) (fun name =>
  hbind (plainly (lift (kt_from_name name))) (fun kt =>
  match kt_k kt with
  | KRsa =>
      hold read_positive_mpint (fun n an =>
      hold read_positive_mpint (fun e ae =>
      hold read_positive_mpint (fun d ad =>
      hold read_positive_mpint (fun _ ac =>
      hold read_positive_mpint (fun p ap =>
      hold read_positive_mpint (fun q aq =>
      hold_opt (lift (exponent F d p)) (fun ax =>
      hold_opt (lift (exponent F d q)) (fun ay =>
      mem_finish kt (MRsa an ae ad ac ap aq ax ay) (PkRsa e n)))))))))
  | KEcdsa =>
      hbind (plainly read_string) (fun id =>
      hbind (plainly (lift (curve_from_identifier id))) (fun c =>
      hbind (plainly read_bytes) (fun pk =>
      if kt_is_sk kt then
        mem_read_hw (fun app flags handle reserved =>
          mem_finish kt (MEcdsaSk flags handle reserved None None) (PkEcdsa c pk (Some app)))
      else hold read_bytes (fun _ key => mem_finish kt (MEcdsa c key) (PkEcdsa c pk None)))))
  | KEd25519 =>
      hbind (plainly read_bytes) (fun pk =>
      if kt_is_sk kt then
        mem_read_hw (fun app flags handle reserved =>
          mem_finish kt (MEd25519Sk flags handle reserved None None) (PkEd25519 pk (Some app)))
      else hold read_bytes (fun _ key => mem_finish kt (MEd25519 key) (PkEd25519 pk None)))
  | _ => plainly (throw (EUnknownKeyType (kt_name kt)))
  end)).

(** privkey.rs 599-617: the section; a key with another public key is dropped, and wiped. *)
Definition mem_section (F : features) (pub : pubkey) : HM mem_key :=
  hbind (plainly read_u32) (fun m1 =>
  hbind (plainly read_u32) (fun m2 =>
  if negb (m1 =? m2)%N then plainly (throw EInvalidFormat) else
  hbind (mem_read_private_key F) (fun k =>
  let k := mkMemKey (mk_type k) (mk_kind k) (mk_pub k) m1 (mk_comment k) in
  if negb (pubkey_eqb (mk_pub k) pub) then fun r h => ((Err EInvalidFormat, r), mem_drop k h) else hret k))).

(** privkey.rs 571-597: [remaining_bytes] is decrypted where it is. *)
Definition overwrite (c : bytes) (b : block) : block := mkBlock (bl_live b) c.
Definition mem_unlock (F : features) (K : keyops) (cipher kdf options : bytes) (passphrase : option bytes)
  (pub : pubkey) (section : bytes) (h : heap) : res mem_key * heap :=
  let '(a, h) := alloc section h in
  let '(k, h) := match decrypt F K cipher kdf options passphrase section with
                 | Ok plain =>
                     let h := update a (overwrite plain) h in
                     let '(k, h) := mem_section F pub (reader_new plain) h in (fst k, h)
                 | Err e => (Err e, h)
                 | Panic => (Panic, h)
                 end in
  (k, update a free_block h).
(** privkey.rs 537-618 [from_reader] *)
Definition mem_from_reader (F : features) (K : keyops) (passphrase : option bytes) : HM mem_key :=
  hbind (plainly read_cstring) (fun preamble =>
  if negb (bytes_eqb preamble (s2b "openssh-key-v1")) then plainly (throw EInvalidFormat) else
  hbind (plainly read_string) (fun cipher =>
  hbind (plainly read_string) (fun kdf =>
  hbind (plainly read_bytes) (fun options =>
  hbind (plainly read_u32) (fun count =>
  if negb (count =? 1)%N then plainly (throw EInvalidFormat) else
  hbind (plainly read_bytes) (fun pkb =>
  hbind (plainly (lift (pk_from_bytes pkb))) (fun pub =>
  hbind (plainly read_u32) (fun remaining =>
  hbind (plainly (read_raw_bytes (N.to_nat remaining))) (fun section =>
  fun r h => let '(k, h) := mem_unlock F K cipher kdf options passphrase pub section h in ((k, r), h)))))))))).

(** privkey.rs 504-517: [encoded_key] when the loop ends, with or without an END line *)
Fixpoint collected (end_line : bytes) (ls : list bytes) (acc : bytes) : bytes :=
  match ls with
  | [] => acc
  | p :: ls' => if bytes_eqb p end_line then acc else collected end_line ls' (acc ++ p)
  end.
(** privkey.rs 498-499: [iter.next().unwrap_or("")] *)
Definition first_line (ls : list bytes) : bytes := match ls with l :: _ => l | [] => [] end.
(** privkey.rs 497-523, all but the owner of the passphrase; [base64::decode] takes [encoded_key]
    and drops it. *)
Definition mem_from_text (F : features) (K : keyops) (text : bytes) (passphrase : option bytes) (h : heap)
  : res mem_key * heap :=
  let ls := lines text in
  if negb (bytes_eqb (first_line ls) key_begin) then (Err EInvalidFormat, h) else
  let '(encoded, h) := alloc (collected key_end (tl ls) []) h in
  match armor_body key_end (tl ls) [] with
  | Ok text =>
      match b64_decode text with
      | Some data =>
          let '(decoded, h) := alloc data h in
          let h := update encoded free_block h in
          let '(k, h) := mem_from_reader F K passphrase (reader_new data) h in
          (fst k, update decoded free_block h)
      | None => (Err EDecode, update encoded free_block h)
      end
  | Err e => (Err e, update encoded free_block h)
  | Panic => (Panic, update encoded free_block h)
  end.
(** privkey.rs 497-523 [from_string_with_passphrase]; the passphrase is moved in. *)
Definition mem_from_string (F : features) (K : keyops) (text : bytes) (passphrase : option bytes) (h : heap)
  : res mem_key * heap :=
  let '(pass, h) := alloc_opt passphrase h in
  let '(k, h) := mem_from_text F K text passphrase h in (k, free_opt pass h).
(** privkey.rs 481-489 [from_path_with_passphrase], for a file that was read *)
Definition mem_from_path (F : features) (K : keyops) (text : bytes) (passphrase : option bytes) (h : heap)
  : res mem_key * heap :=
  let '(contents, h) := alloc text h in
  let '(k, h) := mem_from_string F K text passphrase h in (k, update contents free_block h).
(** privkey.rs 531-534 [from_bytes]; the caller's bytes are not ours. *)
Definition mem_from_bytes (F : features) (data : bytes) (h : heap) : res mem_key * heap :=
  let '(k, h) := mem_read_private_key F (reader_new data) h in (fst k, h).

(** privkey.rs 649-704 [encode]: the writer of the section; the result is the caller's. A key that
    cannot be written panics before the section is begun. *)
Definition mem_encode (k : mem_key) (h : heap) : res nat * heap :=
  let key := load h k in
  match sk_encode key, write_section key with
  | Ok data, Ok section =>
      let '(w, h) := alloc section h in
      let '(a, h) := alloc data h in (Ok a, update w free_block h)
  | _, _ => (Panic, h)
  end.
(** privkey.rs 707-728 [write]: [encoded], [data] and [split] *)
Definition mem_write (k : mem_key) (h : heap) : heap :=
  let '(encoded, h) := mem_encode k h in
  match encoded with
  | Ok encoded =>
      let '(data, h) := alloc (b64_encode (contents h encoded)) h in
      let '(split, h) := alloc (split_lines 0 (contents h data)) h in
      update encoded free_block (update data free_block (update split free_block h))
  | _ => h
  end.
(** privkey.rs 222-240: [asn_privkey] when an RSA key signs *)
Definition mem_sign (F : features) (k : mem_key) (h : heap) : heap :=
  match sk_kind (load h k) with
  | SkRsa r =>
      if f_rsa F then
        match rsa_der r with
        | Ok der => let '(a, h) := alloc der h in update a free_block h
        | _ => h
        end
      else h
  | _ => h
  end.

(** What a program does with its keys: as in [Memory.v] ([KNew] for generated keys), reading,
    writing and signing. *)
Inductive use_op :=
| UKey (o : key_op)
| UFromBytes (data : bytes)
| UFromString (text : bytes) (passphrase : option bytes)
| UFromPath (text : bytes) (passphrase : option bytes)
| UWrite (i : nat)
| USign (i : nat).
Definition add_key (vars : list (option mem_key)) (x : res mem_key * heap) : store :=
  match x with (Ok k, h) => (vars ++ [Some k], h) | (_, h) => (vars, h) end.
Definition use_step (F : features) (K : keyops) (o : use_op) (s : store) : store :=
  let '(vars, h) := s in
  match o with
  | UKey o => mem_step o s
  | UFromBytes data => add_key vars (mem_from_bytes F data h)
  | UFromString text pass => add_key vars (mem_from_string F K text pass h)
  | UFromPath text pass => add_key vars (mem_from_path F K text pass h)
  | UWrite i => match nth_error vars i with Some (Some k) => (vars, mem_write k h) | _ => s end
  | USign i => match nth_error vars i with Some (Some k) => (vars, mem_sign F k h) | _ => s end
  end.
Definition use_run (F : features) (K : keyops) (ops : list use_op) : store :=
  fold_left (fun s o => use_step F K o s) ops ([], []).

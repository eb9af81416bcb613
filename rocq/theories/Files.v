(** Files: the [from_path] functions and the [write] methods on a writer that may fail.
    Definitions only. A file is its contents, [None] if it cannot be opened or read. *)
From Verif Require Import Base Utf8 Crypto PubKeyType PubKey Cert PrivKey Chrono AllowedSigner.

(** [File::open(path)?.read_to_string(&mut contents)?] (pubkey.rs 184-185, cert.rs 126-127,
    privkey.rs 485-486, allowed_signer.rs 249-250). Contents that are not UTF-8 are an I/O
    error. *)
Definition read_to_string (file : option bytes) : res bytes :=
  match file with
  | Some b => if utf8_valid b then Ok b else Err EIo
  | None => Err EIo
  end.

(** pubkey.rs 183-188 [PublicKey::from_path] *)
Definition pk_from_path (file : option bytes) : res pubkey :=
  do? contents <- read_to_string file; pk_from_string contents.

(** cert.rs 125-130 [Certificate::from_path] *)
Definition cert_from_path (C : crypto) (file : option bytes) : res cert :=
  do? contents <- read_to_string file; cert_from_string C contents.

(** privkey.rs 481-489 [from_path_with_passphrase]; 492-494 [from_path] passes no passphrase. *)
Definition sk_from_path_with_passphrase (F : features) (K : keyops) (file passphrase : option bytes) : res privkey :=
  do? contents <- read_to_string file; sk_from_string F K contents passphrase.
Definition sk_from_path (F : features) (K : keyops) (file : option bytes) : res privkey :=
  sk_from_path_with_passphrase F K file None.

(** allowed_signer.rs 248-253 [AllowedSigners::from_path] *)
Definition signers_from_path (tz : timezone) (file : option bytes) : res (list allowed_signer) :=
  do? contents <- read_to_string file; signers_from_string tz contents.

(** [write!] on an [io::Write] that takes [room] bytes and then fails: the outcome and what
    has been written. The text is handed over in pieces, in order, each with [write_all]; so
    at a failure (or a crash) what is there is the beginning of the text. *)
Definition write_fmt (room : nat) (text : bytes) : res unit * bytes :=
  if length text <=? room then (Ok tt, text) else (Err EIo, firstn room text).
Definition write_out (room : nat) (text : res bytes) : res unit * bytes :=
  match text with
  | Ok t => write_fmt room t
  | Err e => (Err e, [])
  | Panic => (Panic, [])
  end.

(** pubkey.rs 414-421 [PublicKey::write], privkey.rs 707-728 [PrivateKey::write] *)
Definition pk_write_to (room : nat) (k : pubkey) : res unit * bytes := write_out room (pk_write k).
Definition sk_write_to (room : nat) (k : privkey) : res unit * bytes := write_out room (sk_write k).

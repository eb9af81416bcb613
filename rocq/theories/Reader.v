(** src/ssh/reader.rs: the [Reader] and its methods. Definitions only. *)
From Verif Require Import Base Utf8.

(** reader.rs 7-10 *)
Record reader := mkReader { r_inner : bytes; r_off : nat }.

(** Methods take [&mut self]: they return the result and the state left behind,
    also when they fail. *)
Definition M (A : Type) := reader -> res A * reader.

Definition ret {A} (a : A) : M A := fun r => (Ok a, r).
Definition throw {A} (e : error) : M A := fun r => (Err e, r).
Definition lift {A} (x : res A) : M A := fun r => (x, r).
Definition get : M reader := fun r => (Ok r, r).
Definition put_off (o : nat) : M unit := fun r => (Ok tt, mkReader (r_inner r) o).
Definition mbind {A B} (m : M A) (f : A -> M B) : M B :=
  fun r => match m r with
           | (Ok a, r') => f a r'
           | (Err e, r') => (Err e, r')
           | (Panic, r') => (Panic, r')
           end.
Notation "'do!' x '<-' m ';' k" := (mbind m (fun x => k))
  (at level 200, x pattern, m at level 100, k at level 200, right associativity).

(** reader.rs 23-28 [Reader::new] *)
Definition reader_new (b : bytes) : reader := mkReader b 0.

(** reader.rs 43-47 [set_offset] *)
Definition set_offset (o : nat) : M unit := put_off o.

(** reader.rs 60-62 [get_offset] *)
Definition get_offset : M nat := fun r => (Ok (r_off r), r).

(** reader.rs 77-107 [read_bytes] *)
Definition read_bytes : M bytes :=
  do! s <- get;
  if length (r_inner s) <=? r_off s then throw EUnexpectedEof else
  do! slice <- lift (slice_from (r_inner s) (r_off s));
  if length slice <? 4 then throw EInvalidFormat else
  do! sz <- lift (slice_to slice 4);
  let size := from_be sz in
  do! room <- lift (usub (length slice) 4);
  if (N.of_nat room <? size)%N then throw EInvalidFormat else
  let size := N.to_nat size in
  do! _ <- put_off (r_off s + (size + 4));
  lift (slice_range slice 4 (size + 4)).

(** reader.rs 118-141 [read_raw_bytes] *)
Definition read_raw_bytes (len : nat) : M bytes :=
  do! s <- get;
  if length (r_inner s) <=? r_off s then throw EUnexpectedEof else
  do! room <- lift (usub (length (r_inner s)) (r_off s));
  if room <? len then throw EUnexpectedEof else
  do! slice <- lift (slice_from (r_inner s) (r_off s));
  do! _ <- put_off (r_off s + len);
  lift (slice_to slice len).

(** reader.rs 155-186 [read_positive_mpint] *)
Definition read_positive_mpint : M bytes :=
  do! b <- read_bytes;
  match b with
  | [] => ret b
  | _ =>
    do! b0 <- lift (index b 0);
    if (b2n b0 =? 0)%N then
      if length b =? 1 then throw EInvalidFormat else
      do! b1 <- lift (index b 1);
      if (b2n b1 <? 128)%N then throw EInvalidFormat else
      lift (slice_from b 1)
    else if (b2n b0 <=? 127)%N then ret b
    else throw EInvalidFormat
  end.

(** reader.rs 199-204 [read_string] *)
Definition read_string : M bytes :=
  do! b <- read_bytes;
  if utf8_valid b then ret b else throw EUtf8.

(** [s.push(chr as char)]: the byte is a Latin-1 code point appended in UTF-8. *)
Definition push_latin1 (b : byte) : bytes := utf8_encode (b2n b).

(** reader.rs 217-229, the loop of [read_cstring], with the unread bytes in hand:
    the string and the number of bytes up to and including the NUL, if there is one. *)
Fixpoint cstring_loop (rest : bytes) (s : bytes) (count : nat) : option (bytes * nat) :=
  match rest with
  | [] => None
  | chr :: rest' =>
      if (b2n chr =? 0)%N then Some (s, S count)
      else cstring_loop rest' (s ++ push_latin1 chr) (S count)
  end.

(** reader.rs 213-230 [read_cstring]. The offset is reset when no NUL is found. *)
Definition read_cstring : M bytes :=
  do! s <- get;
  match cstring_loop (skipn (r_off s) (r_inner s)) [] 0 with
  | Some (str, count) => do! _ <- put_off (r_off s + count); ret str
  | None => do! _ <- put_off (r_off s); throw EUnexpectedEof
  end.

(** reader.rs 242-256 [read_u32] and 268-282 [read_u64] *)
Definition read_uint (k : nat) : M N :=
  do! s <- get;
  if length (r_inner s) <=? r_off s then throw EUnexpectedEof else
  do! slice <- lift (slice_from (r_inner s) (r_off s));
  if length slice <? k then throw EInvalidFormat else
  do! _ <- put_off (r_off s + k);
  do! b <- lift (slice_to slice k);
  ret (from_be b).

Definition read_u32 : M N := read_uint 4.
Definition read_u64 : M N := read_uint 8.

(** Run a reader program on a fresh reader and keep only the result. *)
Definition run {A} (m : M A) (b : bytes) : res A := fst (m (reader_new b)).

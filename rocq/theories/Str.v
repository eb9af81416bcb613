(** The string functions of Rust's standard library that the crate calls, on the
    UTF-8 bytes of a string. Definitions only. *)
From Verif Require Import Base.

(** Number of bytes of the [char::is_whitespace] character at the front of a string,
    0 if there is none: U+0009-000D, 0020, 0085, 00A0, 1680, 2000-200A, 2028, 2029,
    202F, 205F, 3000 in UTF-8. *)
Definition ws_len (l : bytes) : nat :=
  match l with
  | [] => 0
  | a :: l1 =>
    let n := b2n a in
    if ((9 <=? n)%N && (n <=? 13)%N) || (n =? 32)%N then 1 else
    match l1 with
    | [] => 0
    | b :: l2 =>
      let m := b2n b in
      if (n =? 194)%N && ((m =? 133)%N || (m =? 160)%N) then 2 else
      match l2 with
      | [] => 0
      | c :: _ =>
        let k := b2n c in
        if (n =? 225)%N && (m =? 154)%N && (k =? 128)%N then 3
        else if (n =? 226)%N && (m =? 128)%N
                && (((128 <=? k)%N && (k <=? 138)%N) || (k =? 168)%N || (k =? 169)%N || (k =? 175)%N)
             then 3
        else if (n =? 226)%N && (m =? 129)%N && (k =? 159)%N then 3
        else if (n =? 227)%N && (m =? 128)%N && (k =? 128)%N then 3
        else 0
      end
    end
  end.

(** [str::split_whitespace], collected. [skip] counts remaining bytes of a white-space
    character, [cur] is the word being read. *)
Fixpoint split_ws_aux (l : bytes) (skip : nat) (cur : bytes) : list bytes :=
  match l with
  | [] => match cur with [] => [] | _ => [cur] end
  | b :: l' =>
    match skip with
    | S k => split_ws_aux l' k cur
    | O =>
      match ws_len l with
      | O => split_ws_aux l' 0 (cur ++ [b])
      | S k =>
        match cur with
        | [] => split_ws_aux l' k []
        | _ => cur :: split_ws_aux l' k []
        end
      end
    end
  end.
Definition split_whitespace (l : bytes) : list bytes := split_ws_aux l 0 [].

Definition newline : byte := x0a.
Definition carriage_return : byte := x0d.

(** Remove one trailing carriage return. *)
Fixpoint strip_cr (l : bytes) : bytes :=
  match l with
  | [] => []
  | [b] => if byte_eqb b carriage_return then [] else [b]
  | b :: l' => b :: strip_cr l'
  end.

(** [str::lines], collected: split at newlines, one carriage return before the newline
    is removed, an empty last line is dropped. *)
Fixpoint lines_aux (l : bytes) (cur : bytes) : list bytes :=
  match l with
  | [] => match cur with [] => [] | _ => [cur] end
  | b :: l' =>
    if byte_eqb b newline then strip_cr cur :: lines_aux l' []
    else lines_aux l' (cur ++ [b])
  end.
Definition lines (l : bytes) : list bytes := lines_aux l [].

(** [str::split(c)] for an ASCII character, collected. *)
Fixpoint split_on_aux (c : byte) (l : bytes) (cur : bytes) : list bytes :=
  match l with
  | [] => [cur]
  | b :: l' => if byte_eqb b c then cur :: split_on_aux c l' [] else split_on_aux c l' (cur ++ [b])
  end.
Definition split_on (c : byte) (l : bytes) : list bytes := split_on_aux c l [].

(** [str::split_once(c)] for an ASCII character. *)
Fixpoint split_once (c : byte) (l : bytes) : option (bytes * bytes) :=
  match l with
  | [] => None
  | b :: l' =>
    if byte_eqb b c then Some ([], l')
    else match split_once c l' with
         | Some (x, y) => Some (b :: x, y)
         | None => None
         end
  end.

(** [trim_start_matches(c)], [trim_end_matches(c)], [trim_matches(c)]. *)
Fixpoint trim_start_matches (c : byte) (l : bytes) : bytes :=
  match l with
  | b :: l' => if byte_eqb b c then trim_start_matches c l' else l
  | [] => []
  end.
Definition trim_end_matches (c : byte) (l : bytes) : bytes :=
  rev (trim_start_matches c (rev l)).
Definition trim_matches (c : byte) (l : bytes) : bytes :=
  trim_end_matches c (trim_start_matches c l).

(** [str::trim_start] (Unicode white space). *)
Fixpoint trim_start_aux (l : bytes) (skip : nat) : bytes :=
  match l with
  | [] => []
  | b :: l' =>
    match skip with
    | S k => trim_start_aux l' k
    | O => match ws_len l with
           | O => l
           | S k => trim_start_aux l' k
           end
    end
  end.
Definition trim_start (l : bytes) : bytes := trim_start_aux l 0.

(** Whether the whole string consists of white-space characters. *)
Fixpoint all_ws (l : bytes) (skip : nat) : bool :=
  match l with
  | [] => true
  | b :: l' =>
    match skip with
    | S k => all_ws l' k
    | O => match ws_len l with
           | O => false
           | S k => all_ws l' k
           end
    end
  end.

(** [str::trim_end]: cut before the shortest all-white-space suffix chain. *)
Fixpoint trim_end (l : bytes) : bytes :=
  match l with
  | [] => []
  | b :: l' => if all_ws l 0 then [] else b :: trim_end l'
  end.
Definition trim (l : bytes) : bytes := trim_end (trim_start l).

(** [str::to_ascii_lowercase]-style mapping. *)
Definition to_lower_byte (b : byte) : byte :=
  if (65 <=? b2n b)%N && (b2n b <=? 90)%N then n2b (b2n b + 32) else b.
Definition to_lowercase (l : bytes) : bytes := map to_lower_byte l.

(** [starts_with] / [ends_with] for one ASCII character, [strip_prefix]. *)
Definition starts_with_byte (c : byte) (l : bytes) : bool :=
  match l with b :: _ => byte_eqb b c | [] => false end.
Definition contains_byte (c : byte) (l : bytes) : bool := existsb (byte_eqb c) l.

(** [slice.join(",")] *)
Fixpoint join (sep : bytes) (l : list bytes) : bytes :=
  match l with
  | [] => []
  | [x] => x
  | x :: l' => x ++ sep ++ join sep l'
  end.

(** [str::find(c)]: everything before the first occurrence. *)
Fixpoint take_until (c : byte) (l : bytes) : bytes :=
  match l with
  | b :: l' => if byte_eqb b c then [] else b :: take_until c l'
  | [] => []
  end.

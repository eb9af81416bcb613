(** The parts of Rust's [core::str] / [String] UTF-8 handling the crate relies on.
    Definitions only. *)
From Verif Require Import Base.

(** Continuation byte in the range [lo..=hi]. *)
Definition in_range (lo hi : N) (b : byte) : bool :=
  (lo <=? b2n b)%N && (b2n b <=? hi)%N.
Definition cont (b : byte) : bool := in_range 128 191 b.

(** [String::from_utf8(bytes).is_ok()] (used at reader.rs 201), following the
    byte-range table of [core::str::validations::run_utf8_validation]. *)
Fixpoint utf8_valid (l : bytes) : bool :=
  match l with
  | [] => true
  | a :: l1 =>
    if (b2n a <? 128)%N then utf8_valid l1 else
    match l1 with
    | [] => false
    | b :: l2 =>
      if in_range 194 223 a then cont b && utf8_valid l2 else
      match l2 with
      | [] => false
      | c :: l3 =>
        if (b2n a =? 224)%N then in_range 160 191 b && cont c && utf8_valid l3 else
        if in_range 225 236 a || in_range 238 239 a
        then cont b && cont c && utf8_valid l3 else
        if (b2n a =? 237)%N then in_range 128 159 b && cont c && utf8_valid l3 else
        match l3 with
        | [] => false
        | d :: l4 =>
          if (b2n a =? 240)%N then in_range 144 191 b && cont c && cont d && utf8_valid l4 else
          if in_range 241 243 a then cont b && cont c && cont d && utf8_valid l4 else
          if (b2n a =? 244)%N then in_range 128 143 b && cont c && cont d && utf8_valid l4
          else false
        end
      end
    end
  end.

(** [String::push(char)]: UTF-8 of one code point ([core::char::encode_utf8]). *)
Definition utf8_encode (c : N) : bytes :=
  if (c <? 128)%N then [n2b c]
  else if (c <? 2048)%N then [n2b (192 + c / 64); n2b (128 + c mod 64)]
  else if (c <? 65536)%N then
    [n2b (224 + c / 4096); n2b (128 + c / 64 mod 64); n2b (128 + c mod 64)]
  else
    [n2b (240 + c / 262144); n2b (128 + c / 4096 mod 64);
     n2b (128 + c / 64 mod 64); n2b (128 + c mod 64)].

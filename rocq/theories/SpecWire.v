(** Specification of the SSH wire format (RFC 4251 section 5) and of UTF-8
    (Unicode 3.9, table 3-6), written without the model's functions. *)
From Verif Require Import Base.

(** The four and eight big-endian bytes of a number. *)
Definition be32 (n : N) : bytes :=
  [n2b (n / 16777216); n2b (n / 65536); n2b (n / 256); n2b n].
Definition be64 (n : N) : bytes := be32 (n / 4294967296) ++ be32 n.

(** Length in bytes, as a number. *)
Definition size (b : bytes) : N := N.of_nat (length b).
Definition u32_max : N := 4294967295.
Definition u64_max : N := 18446744073709551615.

(** A [string] field: 32-bit length and content. *)
Definition field (b : bytes) : bytes := be32 (size b) ++ b.
Definition field_ok (b : bytes) : Prop := (size b <= u32_max)%N.

(** Value of a big-endian magnitude. *)
Fixpoint magnitude (l : bytes) : N :=
  match l with
  | [] => 0
  | b :: l' => (Byte.to_N b * 256 ^ size l' + magnitude l')%N
  end.

(** Shortest magnitude: no leading zero byte. *)
Definition shortest (l : bytes) : Prop := forall l', l <> x00 :: l'.

(** Value of a two's complement big-endian byte string (RFC 4251 mpint content). *)
Definition twos_complement (l : bytes) : Z :=
  match l with
  | [] => 0
  | b :: _ =>
      if (128 <=? Byte.to_N b)%N
      then Z.of_N (magnitude l) - 2 ^ (8 * Z.of_nat (length l))
      else Z.of_N (magnitude l)
  end.

(** [l] is the mpint content for [z]: it denotes [z] and no shorter byte string does. *)
Definition mpint_content_of (z : Z) (l : bytes) : Prop :=
  twos_complement l = z /\ forall l', twos_complement l' = z -> length l <= length l'.

(** UTF-8: the bytes of one Unicode scalar value. *)
Definition cbyte (b : byte) : Prop := (128 <= Byte.to_N b < 192)%N.
Definition scalar (c : N) : Prop := (c < 55296 \/ 57344 <= c <= 1114111)%N.

Inductive utf8_char : N -> bytes -> Prop :=
| Utf8_1 a : (Byte.to_N a < 128)%N -> utf8_char (Byte.to_N a) [a]
| Utf8_2 c a b : (192 <= Byte.to_N a < 224)%N -> cbyte b ->
    (c = (Byte.to_N a - 192) * 64 + (Byte.to_N b - 128))%N -> (128 <= c)%N ->
    utf8_char c [a; b]
| Utf8_3 x a b c : (224 <= Byte.to_N a < 240)%N -> cbyte b -> cbyte c ->
    (x = (Byte.to_N a - 224) * 4096 + (Byte.to_N b - 128) * 64 + (Byte.to_N c - 128))%N ->
    (2048 <= x)%N -> scalar x ->
    utf8_char x [a; b; c]
| Utf8_4 x a b c d : (240 <= Byte.to_N a < 248)%N -> cbyte b -> cbyte c -> cbyte d ->
    (x = (Byte.to_N a - 240) * 262144 + (Byte.to_N b - 128) * 4096
         + (Byte.to_N c - 128) * 64 + (Byte.to_N d - 128))%N ->
    (65536 <= x)%N -> scalar x ->
    utf8_char x [a; b; c; d].

(** Well-formed UTF-8: the encodings of a sequence of scalar values. *)
Inductive utf8_text : bytes -> Prop :=
| Utf8_nil : utf8_text []
| Utf8_cons c bs l : utf8_char c bs -> utf8_text l -> utf8_text (bs ++ l).

(** The Unicode text as scalar values. *)
Inductive utf8_decodes : list N -> bytes -> Prop :=
| Ud_nil : utf8_decodes [] []
| Ud_cons c bs cs l : utf8_char c bs -> utf8_decodes cs l -> utf8_decodes (c :: cs) (bs ++ l).

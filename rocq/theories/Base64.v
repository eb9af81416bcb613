(** base64 0.13: [base64::encode] and [base64::decode] (configuration STANDARD:
    standard alphabet, padded output, trailing bits rejected; padding is optional
    when decoding). The crate calls them at pubkey.rs 84-88, 160, 207, 416;
    cert.rs 157, 580; signature.rs 60, 119; privkey.rs 517, 717. Definitions only.
    Decode errors are collapsed to one. *)
From Verif Require Import Base.

(** Alphabet A-Z a-z 0-9 + / *)
Definition b64_char (v : N) : byte :=
  if (v <? 26)%N then n2b (65 + v)
  else if (v <? 52)%N then n2b (71 + v)
  else if (v <? 62)%N then n2b (v - 4)
  else if (v =? 62)%N then x2b
  else x2f.

(** Inverse alphabet. *)
Definition b64_val (c : byte) : option N :=
  let n := b2n c in
  if (65 <=? n)%N && (n <=? 90)%N then Some (n - 65)%N
  else if (97 <=? n)%N && (n <=? 122)%N then Some (n - 71)%N
  else if (48 <=? n)%N && (n <=? 57)%N then Some (n + 4)%N
  else if (n =? 43)%N then Some 62%N
  else if (n =? 47)%N then Some 63%N
  else None.

Definition pad : byte := x3d.

Fixpoint b64_encode (l : bytes) : bytes :=
  match l with
  | [] => []
  | [a] =>
      let n := b2n a in
      [b64_char (n / 4); b64_char (n mod 4 * 16); pad; pad]
  | [a; b] =>
      let n := (b2n a * 256 + b2n b)%N in
      [b64_char (n / 1024); b64_char (n / 16 mod 64); b64_char (n mod 16 * 4); pad]
  | a :: b :: c :: l' =>
      let n := (b2n a * 65536 + b2n b * 256 + b2n c)%N in
      b64_char (n / 262144) :: b64_char (n / 4096 mod 64)
        :: b64_char (n / 64 mod 64) :: b64_char (n mod 64) :: b64_encode l'
  end.

(** Last, possibly partial group of two symbols: 12 bits, the low 4 must be zero. *)
Definition b64_tail2 (c1 c2 : byte) : option bytes :=
  match b64_val c1, b64_val c2 with
  | Some v1, Some v2 =>
      if (v2 mod 16 =? 0)%N then Some [n2b (v1 * 4 + v2 / 16)] else None
  | _, _ => None
  end.

(** Last group of three symbols: 18 bits, the low 2 must be zero. *)
Definition b64_tail3 (c1 c2 c3 : byte) : option bytes :=
  match b64_val c1, b64_val c2, b64_val c3 with
  | Some v1, Some v2, Some v3 =>
      if (v3 mod 4 =? 0)%N
      then Some [n2b (v1 * 4 + v2 / 16); n2b (v2 mod 16 * 16 + v3 / 4)] else None
  | _, _, _ => None
  end.

Definition is_pad (c : byte) : bool := byte_eqb c pad.

Fixpoint b64_decode (l : bytes) : option bytes :=
  match l with
  | [] => Some []
  | [_] => None
  | [c1; c2] => b64_tail2 c1 c2
  | [c1; c2; c3] => if is_pad c3 then b64_tail2 c1 c2 else b64_tail3 c1 c2 c3
  | c1 :: c2 :: c3 :: c4 :: l' =>
      if is_pad c4 then
        match l' with
        | [] => if is_pad c3 then b64_tail2 c1 c2 else b64_tail3 c1 c2 c3
        | _ => None
        end
      else
        match b64_val c1, b64_val c2, b64_val c3, b64_val c4 with
        | Some v1, Some v2, Some v3, Some v4 =>
            match b64_decode l' with
            | Some rest =>
                Some (n2b (v1 * 4 + v2 / 16) :: n2b (v2 mod 16 * 16 + v3 / 4)
                        :: n2b (v3 mod 4 * 64 + v4) :: rest)
            | None => None
            end
        | _, _, _, _ => None
        end
  end.

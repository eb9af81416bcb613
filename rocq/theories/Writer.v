(** src/ssh/writer.rs: the [Writer]. A writer is the byte vector written so far;
    each method takes it and returns the extended one. Definitions only. *)
From Verif Require Import Base KeyType PubKeyType.

(** writer.rs 7-9, 19-21 *)
Definition writer := bytes.
Definition writer_new : writer := [].

(** writer.rs 33-37 *)
Definition write_cstring (s : bytes) (w : writer) : writer := (w ++ s) ++ [x00].

(** writer.rs 51-56 *)
Definition write_bytes (val : bytes) (w : writer) : writer :=
  (w ++ to_be 4 (len32 val)) ++ val.

(** writer.rs 68-70 *)
Definition write_raw_bytes (val : bytes) (w : writer) : writer := w ++ val.

(** writer.rs 82-84 *)
Definition write_string (val : bytes) (w : writer) : writer := write_bytes val w.

(** writer.rs 96-99, 111-114 *)
Definition write_u64 (val : N) (w : writer) : writer := w ++ to_be 8 val.
Definition write_u32 (val : N) (w : writer) : writer := w ++ to_be 4 val.

(** writer.rs 132-140: number of leading zero bytes. *)
Fixpoint leading_zeros (val : bytes) : nat :=
  match val with
  | b :: val' => if (b2n b =? 0)%N then S (leading_zeros val') else 0
  | [] => 0
  end.

(** writer.rs 131-152 ([& 0x80 != 0] is "at least 128") *)
Definition write_mpint (val : bytes) (w : writer) : writer :=
  let val := skipn (leading_zeros val) val in
  let first := match val with b :: _ => b2n b | [] => 0%N end in
  let bytes := if (128 <=? first)%N then x00 :: val else val in
  write_bytes bytes w.

(** writer.rs 165-175 *)
Definition write_string_vec (vec : list bytes) (w : writer) : writer :=
  let total_length :=
    fold_left (fun x y => x + y) (map (@length byte) vec) (length vec * 4) in
  let w := write_u32 (N.of_nat total_length mod 2 ^ 32) w in
  fold_left (fun w item => write_string item w) vec w.

(** [a + b] on [u32]: overflow panics (debug builds). *)
Definition u32_add (a b : N) : res N :=
  if (a + b <? 2 ^ 32)%N then Ok (a + b)%N else Panic.

(** writer.rs 199-207: one entry of the map loop. *)
Definition write_map_entry (kv : bytes * bytes) (w : writer) : res writer :=
  let w := write_string (fst kv) w in
  match snd kv with
  | [] => Ok (write_u32 0 w)
  | _ =>
      do? n <- u32_add (len32 (snd kv)) 4;
      Ok (write_string (snd kv) (write_u32 n w))
  end.

Fixpoint write_map_entries (m : hashmap) (w : writer) : res writer :=
  match m with
  | [] => Ok w
  | kv :: m' => do? w <- write_map_entry kv w; write_map_entries m' w
  end.

(** writer.rs 191-208. [m] lists the map in its iteration order. *)
Definition write_string_map (m : hashmap) (w : writer) : res writer :=
  let total_length :=
    fold_left (fun x y => x + y)
      (map (fun x => length (fst x) + length (snd x)
                     + match snd x with [] => 0 | _ => 4 end) m)
      (length m * 8) in
  write_map_entries m (write_u32 (N.of_nat total_length mod 2 ^ 32) w).

(** writer.rs 229-250; [unwrap] of a missing application panics. *)
Definition write_pub_key_data (key : pubkey) (w : writer) : res writer :=
  match pk_kind key with
  | PkRsa e n => Ok (write_mpint n (write_mpint e w))
  | PkEcdsa c k app =>
      let w := write_bytes k (write_string (c_identifier c) w) in
      if kt_is_sk (pk_type key) then
        do? a <- unwrap app;
        Ok (write_string a w)
      else Ok w
  | PkEd25519 k app =>
      let w := write_bytes k w in
      if kt_is_sk (pk_type key) then
        do? a <- unwrap app;
        Ok (write_string a w)
      else Ok w
  end.

(** writer.rs 215-222 *)
Definition write_pub_key (key : pubkey) (w : writer) : res writer :=
  do? inner <- write_pub_key_data key (write_string (kt_name (pk_type key)) writer_new);
  Ok (write_bytes inner w).

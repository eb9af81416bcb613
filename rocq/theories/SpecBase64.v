(** RFC 4648 section 4, as a statement about bit strings. *)
From Verif Require Import Base.

Definition alphabet : bytes :=
  s2b "ABCDEFGHIJKLMNOPQRSTUVWXYZabcdefghijklmnopqrstuvwxyz0123456789+/".

(** The [k] low bits of [n], most significant first. *)
Fixpoint bits (k : nat) (n : N) : list bool :=
  match k with
  | O => []
  | S k' => N.testbit n (N.of_nat k') :: bits k' n
  end.

Definition bitstring (b : bytes) : list bool := concat (map (fun x => bits 8 (Byte.to_N x)) b).

(** [t] is the padded base64 text of [b]: the bits of [b], padded with zero bits to
    a multiple of six, are cut into six-bit indices into the alphabet; the text is filled
    with '=' to a multiple of four characters. *)
Definition base64_text (b t : bytes) : Prop :=
  exists (idx : list nat) (npad : nat),
    t = map (fun i => nth i alphabet x00) idx ++ repeat x3d npad
    /\ Forall (fun i => i < 64) idx
    /\ concat (map (fun i => bits 6 (N.of_nat i)) idx) = bitstring b ++ repeat false (2 * npad)
    /\ npad < 3 /\ Nat.modulo (length t) 4 = 0.

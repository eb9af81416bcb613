(** The armored texts that are written. *)
From Verif Require Import Base SpecBase64 SpecSshSig.

(** The first line, the base64 text of the data in lines of [width] characters of which only the
    last may be shorter, each line ended by one line feed, the last line, and [final]. *)
Definition written_armor (first last final : bytes) (width : nat) (data t : bytes) : Prop :=
  exists body, filled width body /\ base64_text data (concat body)
    /\ t = concat (map (fun l => l ++ [x0a]) (first :: body)) ++ last ++ final.

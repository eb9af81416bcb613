(** The lines in which keys and certificates are printed (sshd(8), AUTHORIZED_KEYS FILE FORMAT). *)
From Verif Require Import Base SpecBase64.

(** A name, the base64 text of the data, and perhaps a comment, each behind one space. *)
Definition printed_line (name data : bytes) (comment : option bytes) (t : bytes) : Prop :=
  exists text, base64_text data text
    /\ t = name ++ [x20] ++ text ++ match comment with Some c => [x20] ++ c | None => [] end.

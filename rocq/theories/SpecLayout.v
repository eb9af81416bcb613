(** Vocabulary for C146: the layout of texts. *)
From Verif Require Import Base SpecText SpecBase64 SpecSigner.

(** The lines of an armored text: a first line, the lines of the body, the last line, and whatever follows. *)
Definition armored_lines (first last : bytes) (body : list bytes) (t : bytes) : Prop :=
  exists rest, lines_of t (first :: body ++ last :: rest) /\ ~ In last body.
(** A byte that base64 texts do not have: neither a letter of the alphabet nor padding. *)
Definition foreign (b : byte) : Prop := ~ In b alphabet /\ b <> x3d.
(** The lines that count in an allowed-signers file, without the white space around them. *)
Inductive meant : list bytes -> list bytes -> Prop :=
| M_nil : meant [] []
| M_skip l ls us : no_entry l -> meant ls us -> meant (l :: ls) us
| M_line l u ls us : ~ no_entry l -> stripped l u -> meant ls us -> meant (l :: ls) (u :: us).

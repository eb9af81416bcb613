(** Vocabulary for C134: texts with other line ends. *)
From Verif Require Import Base.

(** Every line break LF becomes CR LF, as when a text is stored on Windows. *)
Definition windows (t : bytes) : bytes := flat_map (fun b => match b with x0a => [x0d; x0a] | _ => [b] end) t.
(** No line break of the text is CR LF already. *)
Definition unix_text (t : bytes) : Prop := forall a b, t <> a ++ x0d :: x0a :: b.
(** No line is empty, except perhaps after the last line break. *)
Definition no_empty_line (t : bytes) : Prop := (forall b, t <> x0a :: b) /\ forall a b, t <> a ++ x0a :: x0a :: b.

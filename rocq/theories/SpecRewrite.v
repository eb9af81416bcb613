(** When an allowed_signers entry survives being printed and read again. Written without the model's
    parsers and printers. *)
From Verif Require Import Base SpecWire SpecText Chrono SpecSigner.

(** A time bound that the calendar happens to give back: read as a date, its decimal digits denote it. *)
Definition bound_kept (tz : timezone) (bound : option Z) : Prop :=
  forall x, bound = Some x -> exists d, decimal_text x d /\ stamp tz d x.
(** The text begins with white space. *)
Definition blank_first (p : bytes) : Prop := exists c bs r, utf8_char c bs /\ ws_scalar c /\ p = bs ++ r.

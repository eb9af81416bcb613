(** White space and words of Unicode text, and lines, specified on scalar values. *)
From Verif Require Import Base SpecWire.

(** Unicode White_Space. *)
Definition ws_scalar (c : N) : Prop :=
  ((9 <= c <= 13) \/ c = 32 \/ c = 133 \/ c = 160 \/ c = 5760 \/ (8192 <= c <= 8202)
   \/ c = 8232 \/ c = 8233 \/ c = 8239 \/ c = 8287 \/ c = 12288)%N.

(** A run of white-space characters. *)
Inductive ws_run : bytes -> Prop :=
| WsR_nil : ws_run []
| WsR_cons c bs l : utf8_char c bs -> ws_scalar c -> ws_run l -> ws_run (bs ++ l).

(** Characters none of which is white space. *)
Inductive no_ws : bytes -> Prop :=
| NoW_nil : no_ws []
| NoW_cons c bs l : utf8_char c bs -> ~ ws_scalar c -> no_ws l -> no_ws (bs ++ l).

(** A word: non-empty text without white space. *)
Definition word (w : bytes) : Prop := no_ws w /\ w <> [].

(** [words_of s ws]: the text [s] consists of the words [ws], separated by white space. *)
Inductive words_of : bytes -> list bytes -> Prop :=
| W_end s : ws_run s -> words_of s []
| W_last pre w : ws_run pre -> word w -> words_of (pre ++ w) [w]
| W_cons pre w c bs rest ws : ws_run pre -> word w -> utf8_char c bs -> ws_scalar c ->
    words_of rest ws -> words_of (pre ++ w ++ bs ++ rest) (w :: ws).

(** Lines of a text: separated by newlines; a last line without newline counts
    if it is not empty; one carriage return in front of a newline does not count. *)
Definition no_nl (l : bytes) : Prop := ~ In x0a l.
Inductive lines_of : bytes -> list bytes -> Prop :=
| L_end : lines_of [] []
| L_last l : no_nl l -> l <> [] -> lines_of l [l]
| L_crlf l rest ls : no_nl l -> lines_of rest ls -> lines_of (l ++ x0d :: x0a :: rest) (l :: ls)
| L_lf l rest ls : no_nl l -> (forall l', l <> l' ++ [x0d]) -> lines_of rest ls ->
    lines_of (l ++ x0a :: rest) (l :: ls).

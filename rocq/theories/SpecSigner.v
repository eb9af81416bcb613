(** Specification of allowed_signers files: the calendar, timestamps, the words of a line,
    options and entries. Written without the model's parsers. *)
From Verif Require Import Base SpecWire SpecText KeyType PubKeyType PubKey Chrono AllowedSigner.

(** ** The proleptic Gregorian calendar *)
Definition leap (y : Z) : Prop := (4 | y)%Z /\ (~ (100 | y)%Z \/ (400 | y)%Z).
Inductive last_day : Z -> Z -> Z -> Prop :=
| LD_31 y m : In m [1; 3; 5; 7; 8; 10; 12]%Z -> last_day y m 31
| LD_30 y m : In m [4; 6; 9; 11]%Z -> last_day y m 30
| LD_28 y : ~ leap y -> last_day y 2 28
| LD_29 y : leap y -> last_day y 2 29.
Definition date : Type := (Z * Z * Z)%type.
Definition calendar_date (dt : date) : Prop :=
  let '(y, m, d) := dt in exists n, last_day y m n /\ (1 <= d <= n)%Z.
Inductive next_date : date -> date -> Prop :=
| ND_day y m d n : last_day y m n -> (1 <= d < n)%Z -> next_date (y, m, d) (y, m, d + 1)%Z
| ND_month y m n : last_day y m n -> (m < 12)%Z -> next_date (y, m, n) (y, m + 1, 1)%Z
| ND_year y : next_date (y, 12, 31)%Z (y + 1, 1, 1)%Z.
(** Days since 1 January 1970. *)
Inductive day_no : date -> Z -> Prop :=
| DN_epoch : day_no (1970, 1, 1)%Z 0
| DN_next a b n : day_no a n -> next_date a b -> day_no b (n + 1)
| DN_prev a b n : day_no b n -> next_date a b -> day_no a (n - 1).
(** Unix seconds of a date and time of day. *)
Definition instant (dt : date) (h mi s t : Z) : Prop :=
  exists n, day_no dt n /\ t = (n * 86400 + h * 3600 + mi * 60 + s)%Z.

(** ** Timestamps *)
Definition digit (b : byte) : Prop := (48 <= Byte.to_N b <= 57)%N.
Definition dec (ds : bytes) : Z :=
  fold_left (fun a b => 10 * a + (Z.of_N (Byte.to_N b) - 48))%Z ds 0%Z.
(** A number in decimal, without leading zeros. *)
Definition decimal_text (x : Z) (t : bytes) : Prop :=
  exists ds, Forall digit ds /\ ds <> [] /\ (forall b r, ds <> x30 :: b :: r)
    /\ ((0 <= x)%Z /\ t = ds /\ dec ds = x \/ (x < 0)%Z /\ t = x2d :: ds /\ dec ds = (- x)%Z).
Definition no_digit_first (l : bytes) : Prop := forall b t, l = b :: t -> ~ digit b.
(** A number of at most [max] digits at the front of [text], behind white space. *)
Definition num_field (max : nat) (v : Z) (text rest : bytes) : Prop :=
  exists pre ds, ws_run pre /\ Forall digit ds /\ 1 <= length ds <= max
    /\ (length ds = max \/ no_digit_first rest) /\ v = dec ds /\ text = pre ++ ds ++ rest.
(** A year: up to four digits, or a sign and any number of digits. *)
Definition year_field (v : Z) (text rest : bytes) : Prop :=
  num_field 4 v text rest
  \/ exists pre sign ds, ws_run pre /\ Forall digit ds /\ ds <> [] /\ no_digit_first rest
       /\ (sign = x2b /\ v = dec ds \/ sign = x2d /\ v = (- dec ds)%Z)
       /\ text = pre ++ sign :: ds ++ rest.
(** The numbers of a timestamp of the three lengths. *)
Inductive stamp_numbers : bytes -> date -> Z -> Z -> Z -> Prop :=
| SN_8 text y m d r1 r2 : length text = 8 ->
    year_field y text r1 -> num_field 2 m r1 r2 -> num_field 2 d r2 [] ->
    stamp_numbers text (y, m, d) 0 0 0
| SN_12 text y m d h mi r1 r2 r3 r4 : length text = 12 ->
    year_field y text r1 -> num_field 2 m r1 r2 -> num_field 2 d r2 r3 ->
    num_field 2 h r3 r4 -> num_field 2 mi r4 [] ->
    stamp_numbers text (y, m, d) h mi 0
| SN_14 text y m d h mi s r1 r2 r3 r4 r5 : length text = 14 ->
    year_field y text r1 -> num_field 2 m r1 r2 -> num_field 2 d r2 r3 ->
    num_field 2 h r3 r4 -> num_field 2 mi r4 r5 -> num_field 2 s r5 [] ->
    stamp_numbers text (y, m, d) h mi s.
(** They denote an instant if they are a date and a time of day; second 60 counts as 59. *)
Definition denotes (text : bytes) (t : Z) : Prop :=
  exists dt h mi s, stamp_numbers text dt h mi s /\ calendar_date dt
    /\ (h <= 23)%Z /\ (mi <= 59)%Z /\ (s <= 60)%Z /\ instant dt h mi (Z.min s 59) t.

(** [v] without the double quotes around it. *)
Definition unquoted (v u : bytes) : Prop :=
  exists i j, v = repeat x22 i ++ u ++ repeat x22 j
    /\ (forall t, u <> x22 :: t) /\ (forall t, u <> t ++ [x22]).
Definition ends_in (c : byte) (l : bytes) : Prop := exists l', l = l' ++ [c].

(** A UTC timestamp ends in one or more [Z]; others are local. *)
Inductive stamp (tz : timezone) (text : bytes) : Z -> Prop :=
| St_utc u body k t : unquoted text u -> u = body ++ repeat x5a (S k) -> ~ ends_in x5a body ->
    denotes body t -> stamp tz text t
| St_local u t off : unquoted text u -> ~ ends_in x5a u -> denotes u t -> tz t = Single off ->
    stamp tz text (t - off).
(** A local time that the time zone does not map to one instant. *)
Definition unmapped (tz : timezone) (text : bytes) : Prop :=
  exists u t, unquoted text u /\ ~ ends_in x5a u /\ denotes u t /\ forall off, tz t <> Single off.

(** ** The words of a line *)
Definition plain_text (p : bytes) : Prop := forall b, In b p -> b <> x20 /\ b <> x22 /\ b <> x23.
Definition quoted (q : bytes) : Prop := exists c, ~ In x22 c /\ q = x22 :: c ++ [x22].
Definition line_word (w : bytes) : Prop :=
  w <> [] /\ exists p q, plain_text p /\ (q = [] \/ quoted q) /\ w = p ++ q.
Definition word_ends (rest : bytes) : Prop :=
  rest = [] \/ (exists r, rest = x20 :: r) \/ (exists r, rest = x23 :: r).
Definition no_words (l : bytes) : Prop :=
  exists n, l = repeat x20 n \/ exists comment, l = repeat x20 n ++ x23 :: comment.
Inductive line_words : bytes -> list bytes -> Prop :=
| LW_end l : no_words l -> line_words l []
| LW_word n w rest ws : line_word w -> word_ends rest -> line_words rest ws ->
    line_words (repeat x20 n ++ w ++ rest) (w :: ws).

(** The line starts with these words; [rest] follows them. *)
Inductive line_starts : bytes -> list bytes -> bytes -> Prop :=
| LS_nil l : line_starts l [] l
| LS_word n w rest ws l : line_word w -> word_ends rest -> line_starts rest ws l ->
    line_starts (repeat x20 n ++ w ++ rest) (w :: ws) l.
(** Something follows that is not a word: its quotes are wrong. *)
Definition bad_quotes (l : bytes) : Prop := ~ no_words l /\ forall w rest, ~ line_starts l [w] rest.

(** ** Options *)
Definition option_parts (w name value : bytes) : Prop :=
  exists v, unquoted v value /\ ~ In x3d name
    /\ (w = name ++ x3d :: v \/ w = name /\ v = []).
(** [name] is the lower-case [n] up to the case of letters. *)
Definition named (name n : bytes) : Prop :=
  Forall2 (fun a b => a = b \/ (65 <= Byte.to_N a <= 90)%N /\ (Byte.to_N a + 32 = Byte.to_N b)%N) name n.
Fixpoint commas (l : list bytes) : bytes :=
  match l with [] => [] | [x] => x | x :: l' => x ++ x2c :: commas l' end.
Definition comma_list (l : list bytes) (v : bytes) : Prop :=
  l <> [] /\ Forall (fun x => ~ In x2c x) l /\ v = commas l.
Definition without_empty (l : list bytes) : list bytes :=
  filter (fun x => negb (length x =? 0)) l.

Inductive option_word (tz : timezone) (o : options) (w : bytes) : options -> Prop :=
| OW_cert_authority name v : option_parts w name v -> ~ In x22 v -> named name (s2b "cert-authority") ->
    option_word tz o w (mkOptions true (o_namespaces o) (o_valid_after o) (o_valid_before o))
| OW_namespaces name v l : option_parts w name v -> ~ In x22 v -> named name (s2b "namespaces") ->
    o_namespaces o = None -> comma_list l v ->
    option_word tz o w (mkOptions (o_cert_authority o) (Some (without_empty l)) (o_valid_after o) (o_valid_before o))
| OW_valid_after name v t : option_parts w name v -> ~ In x22 v -> named name (s2b "valid-after") ->
    o_valid_after o = None -> stamp tz v t ->
    option_word tz o w (mkOptions (o_cert_authority o) (o_namespaces o) (Some t) (o_valid_before o))
| OW_valid_before name v t : option_parts w name v -> ~ In x22 v -> named name (s2b "valid-before") ->
    o_valid_before o = None -> stamp tz v t ->
    option_word tz o w (mkOptions (o_cert_authority o) (o_namespaces o) (o_valid_after o) (Some t)).
Inductive option_words (tz : timezone) : options -> list bytes -> options -> Prop :=
| OWs_nil o : option_words tz o [] o
| OWs_cons o o1 o2 w ws : option_word tz o w o1 -> option_words tz o1 ws o2 -> option_words tz o (w :: ws) o2.
Definition option_names : list bytes :=
  [s2b "cert-authority"; s2b "namespaces"; s2b "valid-after"; s2b "valid-before"].
(** A word that is not an option. *)
Definition other_word (w : bytes) : Prop :=
  exists name v, option_parts w name v /\ ~ In x22 v /\ Forall (fun n => ~ named name n) option_names.

(** ** Entries *)
Definition accepted_line (tz : timezone) (s : bytes) (a : allowed_signer) : Prop :=
  ~ ends_in x22 s
  /\ exists pw ptext ows kt kd o,
       line_words s (pw :: ows ++ [kt; kd])
       /\ unquoted pw ptext /\ comma_list (as_principals a) ptext /\ Forall (fun p => p <> []) (as_principals a)
       /\ option_words tz no_options ows o /\ other_word kt
       /\ pk_from_string (kt ++ [x20] ++ kd) = Ok (as_key a)
       /\ as_cert_authority a = o_cert_authority o /\ as_namespaces a = o_namespaces o
       /\ as_valid_after a = o_valid_after o /\ as_valid_before a = o_valid_before o
       /\ (forall x y, as_valid_after a = Some x -> as_valid_before a = Some y -> (x < y)%Z).

(** ** Rejected entries *)
Definition second_option (o : options) (name n : bytes) : Prop :=
  (n = s2b "namespaces" /\ o_namespaces o <> None
   \/ n = s2b "valid-after" /\ o_valid_after o <> None
   \/ n = s2b "valid-before" /\ o_valid_before o <> None) /\ named name n.
Definition first_bound (o : options) (name n : bytes) : Prop :=
  (n = s2b "valid-after" /\ o_valid_after o = None
   \/ n = s2b "valid-before" /\ o_valid_before o = None) /\ named name n.
Inductive option_error (tz : timezone) (o : options) (w : bytes) : signer_error -> Prop :=
| OE_quotes name v : option_parts w name v -> In x22 v -> option_error tz o w ASInvalidQuotes
| OE_duplicate name v n : option_parts w name v -> ~ In x22 v -> second_option o name n ->
    option_error tz o w (ASDuplicateOptions n)
| OE_time name v n : option_parts w name v -> ~ In x22 v -> first_bound o name n ->
    (forall t, ~ stamp tz v t) -> ~ unmapped tz v -> option_error tz o w (ASInvalidOption n).
Definition option_panic (tz : timezone) (o : options) (w : bytes) : Prop :=
  exists name v n, option_parts w name v /\ ~ In x22 v /\ first_bound o name n /\ unmapped tz v.

(** The principals and the options read so far are right; [rest] follows. *)
Definition read_so_far (tz : timezone) (s : bytes) (ps : list bytes) (o : options) (rest : bytes) : Prop :=
  ~ ends_in x22 s
  /\ exists pw ptext ows, line_starts s (pw :: ows) rest
       /\ unquoted pw ptext /\ comma_list ps ptext /\ Forall (fun p => p <> []) ps
       /\ option_words tz no_options ows o.
Definition ordered (o : options) : Prop :=
  forall x y, o_valid_after o = Some x -> o_valid_before o = Some y -> (x < y)%Z.
Inductive rejected_line (tz : timezone) (s : bytes) : signer_error -> Prop :=
| RL_empty : no_words s -> rejected_line tz s ASMissingPrincipals
| RL_quotes : ~ ends_in x22 s -> bad_quotes s -> rejected_line tz s ASInvalidQuotes
| RL_principals pw r ptext ps : ~ ends_in x22 s -> line_starts s [pw] r -> unquoted pw ptext ->
    comma_list ps ptext -> In [] ps -> rejected_line tz s ASInvalidPrincipals
| RL_no_key ps o r : read_so_far tz s ps o r -> no_words r -> rejected_line tz s ASMissingKey
| RL_option_quotes ps o r : read_so_far tz s ps o r -> bad_quotes r -> rejected_line tz s ASInvalidQuotes
| RL_option ps o r w r' e : read_so_far tz s ps o r -> line_starts r [w] r' -> option_error tz o w e ->
    rejected_line tz s e
| RL_no_key_data ps o r kt r' : read_so_far tz s ps o r -> line_starts r [kt] r' -> other_word kt ->
    no_words r' -> rejected_line tz s ASInvalidKey
| RL_key_quotes ps o r kt r' : read_so_far tz s ps o r -> line_starts r [kt] r' -> other_word kt ->
    bad_quotes r' -> rejected_line tz s ASInvalidQuotes
| RL_key ps o r kt kd r' : read_so_far tz s ps o r -> line_starts r [kt; kd] r' -> other_word kt ->
    (forall k, pk_from_string (kt ++ [x20] ++ kd) <> Ok k) -> rejected_line tz s ASInvalidKey
| RL_order ps o r kt kd r' k : read_so_far tz s ps o r -> line_starts r [kt; kd] r' -> other_word kt ->
    pk_from_string (kt ++ [x20] ++ kd) = Ok k -> ~ ordered o -> rejected_line tz s ASInvalidTimestamps
| RL_more ps o r kt kd r' k : read_so_far tz s ps o r -> line_starts r [kt; kd] r' -> other_word kt ->
    pk_from_string (kt ++ [x20] ++ kd) = Ok k -> ordered o -> ~ no_words r' -> rejected_line tz s ASUnexpectedEnd
(* lines that end in a double quote *)
| RL_q_quotes : ends_in x22 s -> ~ no_words s ->
    (forall n c r, ~ In x22 c -> s <> repeat x20 n ++ x22 :: c ++ x22 :: r) -> rejected_line tz s ASInvalidQuotes
| RL_q_principals n c r ps : ends_in x22 s -> s = repeat x20 n ++ x22 :: c ++ x22 :: r -> ~ In x22 c ->
    comma_list ps c -> In [] ps -> rejected_line tz s ASInvalidPrincipals
| RL_q_no_key n c r ps : ends_in x22 s -> s = repeat x20 n ++ x22 :: c ++ x22 :: r -> ~ In x22 c ->
    comma_list ps c -> Forall (fun p => p <> []) ps -> no_words r -> rejected_line tz s ASMissingKey
| RL_q_more n c r ps : ends_in x22 s -> s = repeat x20 n ++ x22 :: c ++ x22 :: r -> ~ In x22 c ->
    comma_list ps c -> Forall (fun p => p <> []) ps -> ~ no_words r -> rejected_line tz s ASInvalidQuotes.
(** A local time without one instant is reached. *)
Definition panicking_line (tz : timezone) (s : bytes) : Prop :=
  exists ps o r w r', read_so_far tz s ps o r /\ line_starts r [w] r' /\ option_panic tz o w.

(** ** Files *)
(** [l] without the white space around it. *)
Definition stripped (l t : bytes) : Prop :=
  exists pre post, l = pre ++ t ++ post /\ ws_run pre /\ ws_run post
    /\ (forall a b, t = a ++ b -> ws_run a -> a = [])
    /\ (forall a b, t = a ++ b -> ws_run b -> b = []).
(** A blank line or a comment. *)
Definition no_entry (l : bytes) : Prop := stripped l [] \/ exists c, stripped l (x23 :: c).
Inductive entries (tz : timezone) : list bytes -> list allowed_signer -> Prop :=
| En_nil : entries tz [] []
| En_skip l ls es : no_entry l -> entries tz ls es -> entries tz (l :: ls) es
| En_entry l t a ls es : ~ no_entry l -> stripped l t -> accepted_line tz t a -> entries tz ls es ->
    entries tz (l :: ls) (a :: es).

(** The part of the chrono crate (0.4) that src/ssh/allowed_signer.rs calls: parsing of
    timestamps by format, and conversion to unix seconds. Definitions only. *)
From Verif Require Import Base Str.

Definition is_digit (b : byte) : bool := (48 <=? b2n b)%N && (b2n b <=? 57)%N.
Definition digit_val (b : byte) : Z := Z.of_N (b2n b - 48).

(** [format::scan::number(s, 1, max)]: at least one and at most [max] digits. The [i64]
    overflow check is left out: the strings are at most 14 bytes long. *)
Fixpoint digits_upto (max : nat) (s : bytes) (n : Z) : Z * bytes :=
  match max, s with
  | S k, c :: s' => if is_digit c then digits_upto k s' (n * 10 + digit_val c)%Z else (n, s)
  | _, _ => (n, s)
  end.
Definition scan_number (max : nat) (s : bytes) : option (Z * bytes) :=
  match s with
  | c :: _ => if is_digit c then Some (digits_upto max s 0%Z) else None
  | [] => None
  end.

(** [format::parse] of an [Item::Numeric]: leading white space is skipped; the year ([%Y])
    may have a sign, then the number of its digits is not limited. *)
Definition parse_unsigned (max : nat) (s : bytes) : option (Z * bytes) :=
  scan_number max (trim_start s).
Definition parse_year (s : bytes) : option (Z * bytes) :=
  match trim_start s with
  | c :: s' =>
      if byte_eqb c x2d then
        match scan_number (length s') s' with Some (v, r) => Some ((- v)%Z, r) | None => None end
      else if byte_eqb c x2b then scan_number (length s') s'
      else scan_number 4 (c :: s')
  | [] => None
  end.

Definition leap_year (y : Z) : bool :=
  ((y mod 4 =? 0) && (negb (y mod 100 =? 0) || (y mod 400 =? 0)))%Z.
Definition month_length (y m : Z) : Z :=
  (if m =? 2 then if leap_year y then 29 else 28
   else if (m =? 4) || (m =? 6) || (m =? 9) || (m =? 11) then 30 else 31)%Z.

(** [NaiveDate::from_ymd_opt] (years -262143 to 262142); chrono's packed table of ordinals is
    modelled by what it stores. *)
Definition valid_date (y m d : Z) : bool :=
  ((-262143 <=? y) && (y <=? 262142) && (1 <=? m) && (m <=? 12) && (1 <=? d) && (d <=? month_length y m))%Z.
Definition ordinal (y m d : Z) : Z :=
  (nth (Z.to_nat (m - 1)) [0; 31; 59; 90; 120; 151; 181; 212; 243; 273; 304; 334] 0
   + (if (2 <? m) && leap_year y then 1 else 0) + d)%Z.

(** [Datelike::num_days_from_ce] *)
Definition days_from_ce (y m d : Z) : Z :=
  let year := (y - 1)%Z in
  let excess := (if year <? 0 then 1 + (- year) / 400 else 0)%Z in
  let year := (year + excess * 400)%Z in
  let div100 := (year / 100)%Z in
  (- excess * 146097 + ((year * 1461) / 4 - div100 + div100 / 4) + ordinal y m d)%Z.

(** [NaiveDateTime]: date, hour, minute, second. A leap second is second 59 with a nanosecond
    part, which [timestamp] drops. *)
Record datetime := mkDT { dt_year : Z; dt_month : Z; dt_day : Z; dt_hour : Z; dt_min : Z; dt_sec : Z }.

(** [NaiveDateTime::timestamp] *)
Definition dt_timestamp (t : datetime) : Z :=
  ((days_from_ce (dt_year t) (dt_month t) (dt_day t) - 719163) * 86400
   + (dt_hour t * 3600 + dt_min t * 60 + dt_sec t))%Z.

(** [Parsed::to_naive_date], [to_naive_time]: range checks; second 60 is a leap second. *)
Definition to_datetime (y m d h mi s : Z) : option datetime :=
  if valid_date y m d && ((h <=? 23) && (mi <=? 59) && (s <=? 60))%Z
  then Some (mkDT y m d h mi (if s =? 60 then 59 else s)%Z) else None.

Notation "'do_opt' x '<-' m ';' k" := (match m with Some x => k | None => None end)
  (at level 200, x pattern, m at level 100, k at level 200, right associativity).
Definition ends {A} (s : bytes) (a : option A) : option A := match s with [] => a | _ => None end.

(** [NaiveDate::parse_from_str(s, "%Y%m%d")], and [NaiveDateTime::parse_from_str] with
    "%Y%m%d%H%M" and "%Y%m%d%H%M%S"; the whole string must be used. *)
Definition parse_ymd (s : bytes) : option datetime :=
  do_opt (y, s) <- parse_year s; do_opt (m, s) <- parse_unsigned 2 s; do_opt (d, s) <- parse_unsigned 2 s;
  ends s (to_datetime y m d 0 0 0).
Definition parse_ymdhm (s : bytes) : option datetime :=
  do_opt (y, s) <- parse_year s; do_opt (m, s) <- parse_unsigned 2 s; do_opt (d, s) <- parse_unsigned 2 s;
  do_opt (h, s) <- parse_unsigned 2 s; do_opt (mi, s) <- parse_unsigned 2 s;
  ends s (to_datetime y m d h mi 0).
Definition parse_ymdhms (s : bytes) : option datetime :=
  do_opt (y, s) <- parse_year s; do_opt (m, s) <- parse_unsigned 2 s; do_opt (d, s) <- parse_unsigned 2 s;
  do_opt (h, s) <- parse_unsigned 2 s; do_opt (mi, s) <- parse_unsigned 2 s; do_opt (sec, s) <- parse_unsigned 2 s;
  ends s (to_datetime y m d h mi sec).

(** The local time zone, as what [and_local_timezone(Local)] answers for a local time given
    as seconds: its offset, or that the time is skipped or repeated. *)
Inductive mapped := Single (offset : Z) | Skipped | Repeated.
Definition timezone := Z -> mapped.

(** Model of how times are written: the calendar of Python's datetime (used by
    obspy.UTCDateTime) and the decimal formats of str() and f-strings.

    A day is counted from 1970-01-01 (day 0). Strings are lists of characters. *)
From Coq Require Import List ZArith Bool Ascii.
From Verif Require Import Lib.
Import ListNotations.
Open Scope Z_scope.

(** Lib/datetime.py (CPython) _DAYS_BEFORE_MONTH and _DAYS_IN_MONTH, 1-based. *)
Definition days_before_month (m : Z) : Z :=
  nth (Z.to_nat m) [-1; 0; 31; 59; 90; 120; 151; 181; 212; 243; 273; 304; 334] 0.
Definition days_in_month0 (m : Z) : Z :=
  nth (Z.to_nat m) [-1; 31; 28; 31; 30; 31; 30; 31; 31; 30; 31; 30; 31] 0.

(** CPython _ord2ymd on [n0 = ordinal - 1], i.e. days since 0001-01-01. *)
Definition ord2ymd (n0 : Z) : Z * Z * Z :=
  let n400 := n0 / 146097 in let n := n0 mod 146097 in
  let n100 := n / 36524 in let n := n mod 36524 in
  let n4 := n / 1461 in let n := n mod 1461 in
  let n1 := n / 365 in let n := n mod 365 in
  let year := n400 * 400 + 1 + n100 * 100 + n4 * 4 + n1 in
  if (n1 =? 4) || (n100 =? 4) then (year - 1, 12, 31)
  else
    let leapyear := (n1 =? 3) && (negb (n4 =? 24) || (n100 =? 3)) in
    let month := (n + 50) / 32 in
    let preceding := days_before_month month + (if (2 <? month) && leapyear then 1 else 0) in
    if n <? preceding then
      let month := month - 1 in
      let preceding := preceding - (days_in_month0 month + (if (month =? 2) && leapyear then 1 else 0)) in
      (year, month, n - preceding + 1)
    else (year, month, n - preceding + 1).

(** date.toordinal() of 1970-01-01 is 719163. *)
Definition civil (d : Z) : Z * Z * Z := ord2ymd (d + 719162).
Definition year (d : Z) : Z := fst (fst (civil d)).
Definition month (d : Z) : Z := snd (fst (civil d)).
Definition mday (d : Z) : Z := snd (civil d).
(** CPython _days_before_year and timetuple().tm_yday; obspy's julday. *)
Definition days_before_year (y : Z) : Z := let y := y - 1 in y * 365 + y / 4 - y / 100 + y / 400.
Definition julday (d : Z) : Z := d + 719162 - days_before_year (year d) + 1.

(** A number in [w] decimal digits with leading zeros ([%0wd]), for 0 <= n < 10^w. *)
Definition digit (d : Z) : ascii := ascii_of_nat (48 + Z.to_nat d).
Fixpoint digits (w : nat) (n : Z) : list ascii :=
  match w with
  | O => []
  | S w' => digits w' (n / 10) ++ [digit (n mod 10)]
  end.

Definition c_dash : ascii := "-". Definition c_colon : ascii := ":". Definition c_dot : ascii := ".".
Definition c_space : ascii := " ". Definition c_Z : ascii := "Z". Definition c_T : ascii := "T".
Definition c_us : ascii := "_". Definition c_0 : ascii := "0".

(** obspy UTCDateTime.__str__: [%04d-%02d-%02dT%02d:%02d:%02d.%06dZ] for a time in
    microseconds. *)
Definition str_time (us : Z) : list ascii :=
  let d := us / 86400000000 in let s := us mod 86400000000 in
  digits 4 (year d) ++ [c_dash] ++ digits 2 (month d) ++ [c_dash] ++ digits 2 (mday d) ++ [c_T]
  ++ digits 2 (s / 3600000000) ++ [c_colon] ++ digits 2 (s / 60000000 mod 60) ++ [c_colon]
  ++ digits 2 (s / 1000000 mod 60) ++ [c_dot] ++ digits 6 (s mod 1000000) ++ [c_Z].

(** f"{t.year}_{t.julday:03d}": names of the daily files (scanmseed.py:210, 283;
    triggered_events.py:69, 133). Years are written with four digits here; Python writes years
    below 1000 without leading zeros. *)
Definition fstem (d : Z) : list ascii := digits 4 (year d) ++ [c_us] ++ digits 3 (julday d).

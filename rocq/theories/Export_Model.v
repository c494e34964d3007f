(** Model of export/to_nlloc.py and export/to_snuffler.py: phase files for NonLinLoc, and station and
    marker files for Snuffler.

    A time is a number of microseconds since 1970-01-01. A text is a list of characters.

    SIMPLIFICATIONS: years have four digits; exact arithmetic for binary64 in the seconds of a phase
    file (a tie between two fourth decimals goes to the even one); the codes of a waveform are
    strings, where the empty string also stands for None; how "{:9.2e}" and "{}" write a float is a
    parameter; directories and the name of the marker file are left out. *)
From Coq Require Import String Ascii.
From Coq Require Import List ZArith Reals Bool.
From Verif Require Import Lib PyDict Calendar_Model.
Import ListNotations.
Open Scope Z_scope.

Notation text := (list ascii).
Definition txt (s : string) : text := list_ascii_of_string s.
Definition newline : ascii := ascii_of_nat 10.

(** * Formats of numbers and strings *)

(** str(n) of an integer that is not negative. *)
Fixpoint width_from (fuel : nat) (n : Z) : nat :=
  match fuel with O => 1%nat | S f => if n <? 10 then 1%nat else S (width_from f (n / 10)) end.
Definition str_int (n : Z) : text := let w := width_from (Z.to_nat (Z.log2 n + 1)) n in digits w n.
(** s.ljust(w), and the right alignment of numbers in a field of width w. *)
Definition ljust (w : nat) (s : text) : text := s ++ repeat c_space (w - length s).
Definition rjust (w : nat) (s : text) : text := repeat c_space (w - length s) ++ s.
(** s.zfill(w) for a string without sign. *)
Definition zfill (w : nat) (s : text) : text := repeat c_0 (w - length s) ++ s.
(** Rounding of [n] hundredths to an integer, ties to even. *)
Definition round_hundredths (n : Z) : Z :=
  let q := n / 100 in let r := n mod 100 in
  if r <? 50 then q else if 50 <? r then q + 1 else if Z.even q then q else q + 1.
(** "{:7.4f}" of a number of microseconds, in seconds. *)
Definition fmt_7_4f (us : Z) : text :=
  let n := round_hundredths us in rjust 7 (str_int (n / 10000) ++ [c_dot] ++ digits 4 (n mod 10000)).
(** s.upper() of one character. *)
Definition upper_ascii (a : ascii) : ascii :=
  let n := nat_of_ascii a in if (97 <=? n)%nat && (n <=? 122)%nat then ascii_of_nat (n - 32) else a.

(** * Times *)

(** The attributes of obspy's UTCDateTime. *)
Definition day_of (us : Z) : Z := us / 86400000000.
Definition hour (us : Z) : Z := us mod 86400000000 / 3600000000.
Definition minute (us : Z) : Z := us mod 86400000000 / 60000000 mod 60.
Definition second (us : Z) : Z := us mod 86400000000 / 1000000 mod 60.
Definition microsecond (us : Z) : Z := us mod 1000000.

(** * Events *)

(** obspy.core.event.Pick: the attributes that are used. *)
Record pick : Type := mk_pick {
  pk_method : string; pk_network : string; pk_station : string; pk_channel : string;
  pk_onset : string; pk_polarity : string; pk_phase : string; pk_time : Z;
  pk_unc : option R; pk_upper : option R; pk_lower : option R }.

(** * NonLinLoc phase files *)

(** to_nlloc.py:20-23 *)
Definition onsets_reverse : dict string := [("impulsive", "i"); ("emergent", "e")]%string.
Definition polarities_reverse : dict string := [("positive", "u"); ("negative", "d")]%string.
(** [x or "?"] *)
Definition or_unknown (s : string) : text := match s with EmptyString => txt "?" | _ => txt s end.
Definition look_up (d : dict string) (k : string) : text := match dget d k with Some v => txt v | None => txt "?" end.
(** to_nlloc.py:64-66 *)
Definition component (channel : string) : text :=
  match rev (txt channel) with
  | [] => txt "?"
  | c :: _ => let u := upper_ascii c in if existsb (Ascii.eqb u) (txt "ZNEH") then [u] else txt "?"
  end.
(** to_nlloc.py:73-81: [uncertainty or -1], replaced by the mean of the two one-sided uncertainties
    if both are given. *)
Definition real_eqb (a b : R) : bool := if Req_EM_T a b then true else false.
Definition time_error (p : pick) : R :=
  let e := match pk_unc p with Some u => if real_eqb u 0 then (-1)%R else u | None => (-1)%R end in
  if real_eqb e (-1) then match pk_upper p, pk_lower p with Some a, Some b => ((a + b) / 2)%R | _, _ => e end else e.
(** to_nlloc.py:70-72 *)
Definition date_text (us : Z) : text := let d := day_of us in digits 4 (year d) ++ digits 2 (month d) ++ digits 2 (mday d).
Definition hourminute_text (us : Z) : text := digits 2 (hour us) ++ digits 2 (minute us).

Section Nlloc.
Variable fmt_e : R -> text.
(** to_nlloc.py:55-58, 60-98: the line of a pick. *)
Definition fmt_9_2e (x : R) : text := rjust 9 (fmt_e x).
Definition nlloc_line (p : pick) : text :=
  let sp := [c_space] in
  ljust 6 (or_unknown (pk_station p)) ++ sp ++ ljust 4 (txt "?") ++ sp ++ ljust 4 (component (pk_channel p)) ++ sp
  ++ ljust 1 (look_up onsets_reverse (pk_onset p)) ++ sp ++ ljust 6 (or_unknown (pk_phase p)) ++ sp
  ++ ljust 1 (look_up polarities_reverse (pk_polarity p)) ++ sp
  ++ date_text (pk_time p) ++ sp ++ hourminute_text (pk_time p) ++ sp
  ++ fmt_7_4f (second (pk_time p) * 1000000 + microsecond (pk_time p))
  ++ txt " GAU " ++ fmt_9_2e (time_error p) ++ sp ++ fmt_9_2e (-1) ++ sp ++ fmt_9_2e (-1) ++ sp ++ fmt_9_2e (-1) ++ sp ++ fmt_9_2e 1.
(** Comparison of strings by code points, and sorted(). *)
Fixpoint text_leb (a b : text) : bool :=
  match a, b with
  | [], _ => true
  | _, [] => false
  | x :: a', y :: b' =>
      let m := nat_of_ascii x in let n := nat_of_ascii y in
      if (m <? n)%nat then true else if (n <? m)%nat then false else text_leb a' b'
  end.
Fixpoint insert (x : text) (l : list text) : list text :=
  match l with [] => [x] | y :: r => if text_leb x y then x :: l else y :: insert x r end.
Definition sorted (l : list text) : list text := fold_right insert [] l.
(** to_nlloc.py:26-108 nlloc_obs: the lines of the file, each ended by a newline. *)
Definition nlloc_obs (picks : list pick) (autopick : bool) : list text :=
  let method := if autopick then "autopick"%string else "modelled"%string in
  sorted (map nlloc_line (filter (fun p => String.eqb (pk_method p) method) picks)).
End Nlloc.

(** * Snuffler marker files *)

(** to_snuffler.py:82-109, 118-124: year, month, day, time of day; the microseconds are not padded. *)
Definition snuffler_stamp (us : Z) : text :=
  let d := day_of us in
  str_int (year d) ++ [c_dash] ++ zfill 2 (str_int (month d)) ++ [c_dash] ++ zfill 2 (str_int (mday d)) ++ [c_space]
  ++ zfill 2 (str_int (hour us)) ++ [c_colon] ++ zfill 2 (str_int (minute us)) ++ [c_colon] ++ zfill 2 (str_int (second us))
  ++ [c_dot] ++ str_int (microsecond us).
(** to_snuffler.py:91-109: the line of the origin. *)
Definition event_line (otime : Z) (eventid : string) : text :=
  txt "event: " ++ snuffler_stamp otime ++ txt " 0 " ++ txt eventid ++ txt " 0.0 0.0 None None None Event None".
(** to_snuffler.py:84-87, 113-128: the line of a pick. *)
Definition marker_line (p : pick) (comp : string) : text :=
  txt "phase: " ++ snuffler_stamp (pk_time p) ++ txt " 5 " ++ txt (pk_network p) ++ [c_dot] ++ txt (pk_station p) ++ txt ".."
  ++ txt comp ++ txt " None None None " ++ txt (pk_phase p) ++ txt " None False".
(** to_snuffler.py:113-117: [comp] keeps the value of an earlier pick if the phase is neither P nor S. *)
Definition marker_comp (comp : option string) (phase : string) : option string :=
  if String.eqb phase "P" then Some "BHZ"%string else if String.eqb phase "S" then Some "BHN"%string else comp.
Fixpoint marker_lines (comp : option string) (picks : list pick) : outcome (list text) :=
  match picks with
  | [] => Ret []
  | p :: r =>
      match marker_comp comp (pk_phase p) with
      | None => Raise NameError
      | Some c => bind (marker_lines (Some c) r) (fun l => Ret (marker_line p c :: l))
      end
  end.
(** to_snuffler.py:58-128 snuffler_markers; [otimes]: the times of the origins of the event. *)
Definition snuffler_markers (eventid : string) (otimes : list Z) (picks : list pick) : outcome (list text) :=
  match otimes with
  | [] => Raise IndexError
  | t :: _ => bind (marker_lines None picks) (fun l => Ret (txt "# Snuffler Markers File Version 0.2" :: event_line t eventid :: l))
  end.

(** * Snuffler station files *)

(** A row of the station table: io/core.py:61-101 read_stations reverses the sign of the elevation.
    [st_network]: None if the table has no column "Network". *)
Record station : Type := mk_station { st_name : string; st_network : option string; st_lat : R; st_lon : R; st_elev : R }.
Definition read_station (s : station) : station :=
  mk_station (st_name s) (st_network s) (st_lat s) (st_lon s) (-1 * st_elev s).
(** A line "{nw}.{stat}. {lat} {lon} {elev} {dep}" with its fields. *)
Record station_line : Type := mk_sline { sl_network : string; sl_station : string; sl_lat : R; sl_lon : R; sl_elev : R; sl_depth : R }.
(** to_snuffler.py:17-55 snuffler_stations: [network_code] is assigned in the first turn of the loop. *)
Fixpoint snuffler_stations (network_code : option string) (stations : list station) : list station_line :=
  match stations with
  | [] => []
  | s :: r =>
      let nw := match network_code with
                | Some n => n
                | None => match st_network s with Some n => n | None => ""%string end
                end in
      mk_sline nw (st_name s) (st_lat s) (st_lon s) (st_elev s) 0 :: snuffler_stations (Some nw) r
  end.

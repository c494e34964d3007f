(** Vocabulary for the statements about the onset functions of a time window. *)
From Coq Require Import String Ascii.
From Coq Require Import List ZArith Reals.
From Verif Require Import Lib PyDict Avail_Model StaLta_Spec Resample_Spec.
Import ListNotations.
Open Scope Z_scope.

(** The id belongs to the station. *)
Definition of_station (s i : string) : Prop := i = s \/ exists ch, i = (s ++ "." ++ ch)%string.
Definition plain_station (s : string) : Prop := ~ In "."%char (list_ascii_of_string s).
(** The two streams hold the same traces of each channel of the station. *)
Definition same_data (s : string) (st st' : list seg) : Prop :=
  forall i, of_station s i -> filter (fun g => String.eqb (sg_id g) i) st = filter (fun g => String.eqb (sg_id g) i) st'.
(** [onsets[station][phase]] *)
Definition onset_for {A} (d : dict (dict A)) (station phase : string) : option A :=
  match dget d station with Some e => dget e phase | None => None end.

(** The STA/LTA function of a signal of [n] samples [x]: the mean of [nsta] samples that follow the sample (centred), or end with it, over that of the [nlta] samples that end with it; 1 where a window does not fit. *)
Definition sta_lta (centred : bool) (n nsta nlta : Z) (x : Z -> R) (i : Z) : R :=
  if i <? nlta - 1 then 1%R
  else if centred then (if n - nsta <=? i then 1%R else (window_mean x (i + 1) nsta / window_mean x (i - nlta + 1) nlta)%R)
  else (window_mean x (i - nsta + 1) nsta / window_mean x (i - nlta + 1) nlta)%R.
(** The long-term average is at least [tiny] wherever its window fits. *)
Definition never_silent (tiny : R) (n nlta : Z) (x : Z -> R) : Prop := forall i, nlta - 1 <= i < n -> (tiny <= window_mean x (i - nlta + 1) nlta)%R.
(** Sample [i] of an array (0 outside). *)
Definition sample (l : list R) (i : Z) : R := match rd l i with Some v => v | None => 0%R end.
(** A trace on its sampling times, at no more than 500 kHz: at the output rate already; or with a rate that can be converted, and data for the whole window; or with another rate, when there is no resampling. *)
Definition usable (secs rate : Z) (resample : bool) (upfactor : option Z) (starttime endtime : Z) (s : seg) : Prop :=
  on_own_grid s /\ sg_data s <> [] /\ secs <= 500000 * sg_delta s /\
  (sg_delta s = secs / rate
   \/ (convertible secs rate resample upfactor s /\ covers starttime endtime s)
   \/ (~ (sg_delta s | secs / rate) /\ (resample = false \/ upfactor = None))).

(** Vocabulary for the statements about the waveform archive. *)
From Coq Require Import String Ascii.
From Coq Require Import List ZArith Reals.
From Verif Require Import Lib Calendar_Model Timeline_Model Archive_Model.
Import ListNotations.
Open Scope Z_scope.

(** A name fits a shell pattern. *)
Inductive fits : list gtok -> name -> Prop :=
| fits_nil : fits [] []
| fits_char c g s : fits g s -> fits (GChar c :: g) (c :: s)
| fits_any c g s : fits g s -> fits (GAny :: g) (c :: s)
| fits_in c cs g s : In c cs -> fits g s -> fits (GSet false cs :: g) (c :: s)
| fits_not_in c cs g s : ~ In c cs -> fits g s -> fits (GSet true cs :: g) (c :: s)
| fits_star u g s : fits g s -> fits (GStar :: g) (u ++ s).

(** Texts used in names: year, day of the year, and month with day, of day number [d]. *)
Definition Y (d : Z) : name := digits 4 (year d).
Definition J (d : Z) : name := digits 3 (julday d).
Definition MD (d : Z) : name := digits 2 (month d) ++ digits 2 (mday d).
Definition txt (s : string) : name := list_ascii_of_string s.

(** The documented layout of each archive format: the paths of the files of station [s] for
    day [d]. [s] and [s'] are the station named by the directory and by the file (the same one,
    except when all stations are read). *)
Definition layout (archive_format : string) (channels : list gtok) (s s' : name) (d : Z) (p : path) : Prop :=
  (archive_format = "SeisComp3"%string /\ exists net ch u v w,
     p = [Y d; net; s; ch; u ++ txt "." ++ s' ++ txt "." ++ v ++ txt "." ++ w ++ txt ".D." ++ Y d ++ txt "." ++ J d]
     /\ fits channels ch)
  \/ (archive_format = "YEAR/JD/*_STATION_*"%string /\ s = s' /\ exists u v,
     p = [Y d; J d; u ++ txt "_" ++ s ++ txt "_" ++ v])
  \/ (archive_format = "YEAR/JD/STATION"%string /\ s = s' /\ exists v, p = [Y d; J d; s ++ v])
  \/ (archive_format = "STATION.YEAR.JULIANDAY"%string /\ s = s' /\ exists u v,
     p = [u ++ s ++ txt "." ++ v ++ txt "." ++ Y d ++ txt "." ++ J d])
  \/ (archive_format = "/STATION/STATION.YearMonthDay"%string /\ p = [s; s' ++ txt "." ++ Y d ++ MD d])
  \/ (archive_format = "YEAR_JD/STATION*"%string /\ s = s' /\ exists v, p = [Y d ++ txt "_" ++ J d; s ++ v])
  \/ (archive_format = "YEAR_JD/STATION_*"%string /\ s = s' /\ exists v, p = [Y d ++ txt "_" ++ J d; s ++ txt "_" ++ v]).

(** Day [d] shares a moment with the period from [t0] to [t1]. *)
Definition day_in (c : clock) (t0 t1 d : Z) : Prop := exists t, t0 <= t <= t1 /\ d * day c <= t < (d + 1) * day c.

(** [u] is a prefix of [v]. *)
Definition prefix_of (u v : name) : Prop := exists w, v = u ++ w.

(** Trace [t] has the value [v] at time [tau]. *)
Definition has_sample (t : wtrace) (tau : Z) (v : R) : Prop :=
  exists i, rd (w_data t) i = Some v /\ tau = w_start t + i * w_delta t.

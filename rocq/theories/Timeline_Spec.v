(** Vocabulary for the statements about the time axis. *)
From Coq Require Import List ZArith Reals.
From Verif Require Import Lib Timeline_Model.
Import ListNotations.
Open Scope Z_scope.

(** A usable unit of time: 10 microseconds are a whole number of ticks, and a sample is longer
    than 20 microseconds (rate below 50 kHz). *)
Definition clock_ok (c : clock) : Prop :=
  0 < sec c /\ (100000 | sec c) /\ 2 * (sec c / 100000) < delta c.
(** The sampling rate is a whole number of Hz. *)
Definition integer_rate (c : clock) : Prop := (delta c | sec c).
(** The sampling interval is a whole number of milliseconds; with [integer_rate] this says that
    the rate divides 1000 (e.g. 20, 40, 50, 100, 125, 200, 250 or 500 Hz). *)
Definition whole_ms (c : clock) : Prop := (sec c / 1000 | delta c).

(** A time that is a whole number of samples after midnight. *)
Definition on_sample (c : clock) (t : Z) : Prop := (delta c | t).

(** A gap-free, on-sample trace with samples at least from [lo] to [hi]. *)
Definition complete (c : clock) (t : trace) (lo hi : Z) : Prop :=
  on_sample c (phase t) /\ sample_time c t (k0 t) <= lo /\ hi <= sample_time c t (k1 t).

(** [n] consecutive sample times from [t0] on. *)
Definition times_from (c : clock) (t0 n : Z) : list Z := map (fun k => t0 + k * delta c) (zrange n).

(** [x] is a nearest integer to [a / b]. *)
Definition nearest (x a b : Z) : Prop := 2 * Z.abs (x * b - a) <= b.

(** Straight line through [(0, y0)] and [(u, y1)]. *)
Definition line (y0 y1 : R) (i u : Z) : R := (y0 + IZR i / IZR u * (y1 - y0))%R.

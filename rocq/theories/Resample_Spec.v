(** Vocabulary for the statements about resampling and gap filling. *)
From Coq Require Import List ZArith Reals.
From Verif Require Import Lib Avail_Model.
Import ListNotations.
Open Scope Z_scope.

(** The trace has a sample of value [v] at time [t]. *)
Definition sample_at (s : seg) (t : Z) (v : R) : Prop :=
  exists k, rd (sg_data s) k = Some v /\ t = sg_start s + k * sg_delta s.

(** [times] are whole numbers of ticks: one second is [secs] ticks, 10 microseconds are a whole
    number of them, the output rate is a whole number of Hz below 50 kHz with an interval of a
    whole number of ticks. *)
Definition ticks_ok (secs rate : Z) : Prop :=
  0 < rate /\ (100000 | secs) /\ (rate | secs) /\ 0 < secs / 100000 /\ 2 * (secs / 100000) < secs / rate.

(** The number of output samples from [starttime] to [endtime]. *)
Definition n_window (secs rate starttime endtime : Z) : Z := (endtime - starttime) / (secs / rate) + 1.

(** A trace with samples at multiples of its own interval since time 0, as left by
    shift_to_sample. *)
Definition on_own_grid (s : seg) : Prop := 0 < sg_delta s /\ (sg_delta s | sg_start s).

(** [t] is a whole number of intervals away from [t0]. *)
Definition aligned (d t0 t : Z) : Prop := exists k, t = t0 + k * d.

(** What upsampling by [u] asks of a trace: the upsampled rate is a whole number of Hz and a
    multiple of the output rate, its interval a whole number of ticks longer than 10
    microseconds. *)
Definition upsamples (secs rate u : Z) (s : seg) : Prop :=
  1 <= u /\ (u | sg_delta s) /\ (sg_delta s | secs * u) /\ (rate | secs * u / sg_delta s)
  /\ secs / 100000 * u < sg_delta s.
(** The trace is at a multiple of the output rate, or can be brought there with the upfactor. *)
Definition convertible (secs rate : Z) (resample : bool) (upfactor : option Z) (s : seg) : Prop :=
  (sg_delta s | secs / rate) \/ exists u, resample = true /\ upfactor = Some u /\ upsamples secs rate u s.
(** The trace begins and ends less than one of its samples from the ends of the window. *)
Definition covers (starttime endtime : Z) (s : seg) : Prop :=
  sg_data s <> [] /\ Z.abs (sg_start s - starttime) < sg_delta s /\ Z.abs (sg_end s - endtime) < sg_delta s.

(** The trace with its data changed by [f]. *)
Definition with_data (f : list R -> list R) (s : seg) : seg := mk_seg (sg_id s) (sg_start s) (sg_delta s) (f (sg_data s)).

(** Traces in order of time, none starting before the next sample of its predecessor. *)
Fixpoint in_order (l : list seg) : Prop :=
  match l with
  | a :: ((b :: _) as r) => sg_start a + npts a * sg_delta a <= sg_start b /\ in_order r
  | _ => True
  end.

(** Vocabulary for the statements about scans of data recorded at a multiple of the output rate. *)
From Coq Require Import String.
From Coq Require Import List ZArith Reals.
From Verif Require Import Lib PyDict Timeline_Model Avail_Model Migrate_Spec Resample_Spec Onset_Model Onset_Spec Window_Spec Chain_Model Chain_Spec Decim_Spec.
Import ListNotations.
Open Scope Z_scope.

(** The data are one trace for each channel of [ids], at [f] times the output rate, for the whole window: sample [j], at the time [j * (secs / o_rate k / f)], of the channel [i] is [x i j]. *)
Definition fast_length (f n : Z) : Z := f * (n - 1) + 1.
Definition fast_window (secs : Z) (k : onset_cfg) (f : Z) (x : string -> Z -> R) (d : wdata) (i : string) : list R :=
  cut (x i) (f * (d_start d / (secs / o_rate k))) (fast_length f (n_window secs (o_rate k) (d_start d) (d_end d))).
Definition recorded_fast (secs : Z) (k : onset_cfg) (f : Z) (x : string -> Z -> R) (ids : list string) (d : wdata) : Prop :=
  d_waveforms d = map (fun i => mk_seg i (d_start d) (secs / o_rate k / f) (fast_window secs k f x d i)) ids.
(** [n] samples, every [f]-th of [l]. *)
Definition thinned (f n : Z) (l : list R) : list R := array1 n (fun j => sample l (f * j)).
(** Every [f]-th sample of the data after the low-pass filter, at the output sample [t]. *)
Definition slowed (lowpass : Z -> list R -> list R) (secs : Z) (k : onset_cfg) (f : Z) (x : string -> Z -> R) (d : wdata) (i : string) (t : Z) : R :=
  sample (lowpass (secs / o_rate k / f) (fast_window secs k f x d i)) (f * (t - d_start d / (secs / o_rate k))).
(** The archive answers a window with its part of the records; after the filters no channel is flat and no long-term average vanishes. *)
Definition reads_fast (lowpass : Z -> list R -> list R) (tiny : R) (secs : Z) (k : onset_cfg) (f : Z) (x : string -> Z -> R) (ids stations : list string) (read : Z -> Z -> outcome wdata) (a b : Z) : Prop :=
  exists d, read a b = Ret d /\ d_start d = a /\ d_end d = b /\ d_stations d = stations /\ recorded_fast secs k f x ids d /\ lively tiny secs k (slowed lowpass secs k f x d) ids d.
(** Where a window of [n] output samples from [b] is far enough from its ends, the channel [i], low-passed, decimated, filtered and transformed for the phase [ph], is [y ph i], give or take [e]. *)
Definition nearly_fast (lowpass : Z -> list R -> list R) (secs : Z) (k : onset_cfg) (f : Z) (m : Z -> Z) (e : R) (x : string -> Z -> R) (ids : list string) (y : string -> string -> Z -> R) : Prop :=
  forall ph pc i b n t, In ph (o_phases k) -> dget (o_cfg k) ph = Some pc -> In i ids -> b + m n <= t < b + n - m n ->
  (Rabs (sample (o_transform k (ph_band pc (secs / o_rate k)%Z (thinned f n (lowpass (secs / o_rate k / f)%Z (cut (x i) (f * b)%Z (fast_length f n)))))) (t - b) - y ph i t) <= e)%R.
(** Room for the band-pass, and for the low-pass before it. *)
Definition both_settle (J J' : nat) (f n : Z) : Z := Z.max 0 (Z.max (settling J' n) (Z.of_nat J' + settling J (fast_length f n) / f + 1)).
(** The energy of the record without ends after both filters, and what it can be off by when the samples are at most [M]. *)
Definition fast_energy (lp : list section_) (bp : string -> list section_) (J J' : nat) (f : Z) (x : string -> Z -> R) (ph i : string) (t : Z) : R :=
  let y := both_filters (response (sosfilt lp)) (response (sosfilt (bp ph))) J J' (Z.to_nat f) (x i) t in (y * y)%R.
Definition fast_error (M A E A' E' : R) : R := (80 * M * A * A * A' * E' + 10 * M * A * E * A' * A' + 4 * M * A * A * E' * E')%R.
Definition fast_energy_error (M A E A' E' : R) : R := (fast_error M A E A' E' * (2 * A' * A' * (A * A * M) + fast_error M A E A' E'))%R.

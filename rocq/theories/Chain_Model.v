(** What pre_process does to a trace between the resampling and the onset function (quakemigrate/signal/onsets/stalta.py:200-209): the least-squares line is removed, then the mean; the ends are tapered; the band-pass filter is run forwards and backwards.
    The steps are calls of obspy, which passes the first two and the filter on to scipy.  They are written out here from the documentation of scipy.signal.detrend and scipy.signal.sosfilt; real numbers stand for float64.  The weights of the taper and the coefficients of the filter are parameters. *)
From Coq Require Import List Reals.
Import ListNotations.
Open Scope R_scope.

(** A sum of [n] terms; the sample [j] of a trace. *)
Fixpoint total (n : nat) (f : nat -> R) : R := match n with O => 0 | S k => total k f + f k end.
Definition at_ (x : list R) (j : nat) : R := nth j x 0.
(** A new trace, of the same length, sample by sample. *)
Definition each (x : list R) (f : nat -> R) : list R := map f (seq 0 (length x)).

(** The mean; the slope of the least-squares line; the line. *)
Definition mean_of (x : list R) : R := total (length x) (at_ x) / INR (length x).
Definition centre (n : nat) : R := (INR n - 1) / 2.
Definition slope_of (x : list R) : R :=
  total (length x) (fun j => (INR j - centre (length x)) * at_ x j) / total (length x) (fun j => (INR j - centre (length x)) * (INR j - centre (length x))).
Definition fitted (x : list R) (j : nat) : R := mean_of x + slope_of x * (INR j - centre (length x)).

(** stalta.py:203: [filtered_waveforms.detrend("linear")] *)
Definition detrend_linear (x : list R) : list R := each x (fun j => at_ x j - fitted x j).
(** stalta.py:204: [filtered_waveforms.detrend("constant")] *)
Definition detrend_constant (x : list R) : list R := each x (fun j => at_ x j - mean_of x).
(** stalta.py:205: [filtered_waveforms.taper(type="cosine", max_percentage=0.05)]; [w n j] is the weight of the sample [j] of [n]. *)
Definition taper (w : nat -> nat -> R) (x : list R) : list R := each x (fun j => w (length x) j * at_ x j).

(** A second-order section (with [a0 = 1]) and its loop over the samples, from the state [z1], [z2] (scipy's sosfilt: the transposed direct form II). *)
Record section_ : Type := mk_section { b0 : R; b1 : R; b2 : R; a1 : R; a2 : R }.
Fixpoint section_run (s : section_) (z1 z2 : R) (x : list R) : list R :=
  match x with
  | [] => []
  | v :: r => let y := b0 s * v + z1 in y :: section_run s (b1 s * v - a1 s * y + z2) (b2 s * v - a2 s * y) r
  end.
(** All sections, one after the other, each from rest. *)
Definition sosfilt (sos : list section_) (x : list R) : list R := fold_left (fun d s => section_run s 0 0 d) sos x.
(** stalta.py:206-208, with [zerophase=True]: forwards, then backwards. *)
Definition zerophase (sos : list section_) (x : list R) : list R := rev (sosfilt sos (rev (sosfilt sos x))).

(** stalta.py:202-208 *)
Definition pre_filter (w : nat -> nat -> R) (sos : list section_) (x : list R) : list R := zerophase sos (taper w (detrend_constant (detrend_linear x))).
(** stalta.py:516-519: [signal_transform="energy"], the default, and ["abs"]. *)
Definition transform_energy (x : list R) : list R := map (fun v => v * v) x.
Definition transform_abs (x : list R) : list R := map Rabs x.

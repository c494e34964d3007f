(** Model of the measurements on one trace, signal/local_mag/amplitude.py _measure_signal_amps,
    _measure_noise_amp and _average_amplitude.

    Times and samples are rationals, averages are reals. SIMPLIFICATIONS: obspy's Trace.slice and
    scipy's linear detrend are modelled from their documentation and source (neither is part of
    the repository), without rounding; the gain of the filter at a frequency (scipy sosfreqz)
    and the envelope (scipy hilbert) are parameters. *)
From Coq Require Import String Ascii.
From Coq Require Import List ZArith QArith Qabs Bool Reals Qreals.
From Verif Require Import Lib Amp_Model Resample_Model.
Import ListNotations.
Open Scope Z_scope.

(** A trace: time of the first sample, sampling interval, samples. *)
Record qtrace : Set := mk_qtrace { q_start : Q; q_delta : Q; q_data : list Q }.

(** obspy's round_away of a rational. *)
Definition qround (q : Q) : Z := round_away (Qnum q) (Zpos (Qden q)).
(** obspy Trace.slice(starttime, endtime), i.e. Trace.trim on a view of the data
    (nearest_sample=True, pad=False): _ltrim, then _rtrim. *)
Definition slice (tr : qtrace) (starttime endtime : Q) : outcome qtrace :=
  if Qlt_b endtime starttime then Raise ValueError
  else
    let n := Z.of_nat (length (q_data tr)) in
    let cut := Z.max 0 (qround ((starttime - q_start tr) / q_delta tr)) in
    let start := (q_start tr + inject_Z cut * q_delta tr)%Q in
    let data := skipn (Z.to_nat cut) (q_data tr) in
    let m := n - cut in
    let dlt := qround ((endtime - start) / q_delta tr) - m + 1 in
    if (m <=? 0) || ((dlt <? 0) && Qlt_b endtime start) then Ret (mk_qtrace start (q_delta tr) [])
    else if 0 <=? dlt then Ret (mk_qtrace start (q_delta tr) data)
    else Ret (mk_qtrace start (q_delta tr) (firstn (Z.to_nat (m + dlt)) data)).

Definition qsum (l : list Q) : Q := fold_right Qplus 0%Q l.
Definition qlen (l : list Q) : Q := inject_Z (Z.of_nat (length l)).
Definition qmean (l : list Q) : Q := (qsum l / qlen l)%Q.
(** Sample numbers, with their mean subtracted. *)
Definition centred (n : nat) : list Q :=
  map (fun i => (inject_Z i - (inject_Z (Z.of_nat n) - 1) / 2)%Q) (zrange (Z.of_nat n)).
Definition qdot (a b : list Q) : Q := qsum (map (fun uv => (fst uv * snd uv)%Q) (combine a b)).
(** scipy.signal.detrend(x, type="linear"): the least squares line is subtracted. *)
Definition detrend (x : list Q) : list Q :=
  let t := centred (length x) in
  let slope := (qdot t x / qdot t t)%Q in
  map (fun tx => (snd tx - qmean x - slope * fst tx)%Q) (combine t x).

(** [not bool(window) or data.max() == data.min()] *)
Definition flat (x : list Q) : bool := match x with [] => true | v :: r => forallb (Qeq_bool v) r end.

Inductive measure : Set := RMS | STD | ENV | Other.
Definition rmean (l : list R) : R := (fold_right Rplus 0 l / INR (length l))%R.
(** amplitude.py:972-1009 _average_amplitude *)
Definition average_amplitude (envelope : list Q -> list R) (m : measure) (x : list Q) : outcome R :=
  match m with
  | RMS => Ret (sqrt (rmean (map (fun v => Q2R v * Q2R v) x)) * 1000)%R
  | STD => let mu := rmean (map Q2R x) in Ret (sqrt (rmean (map (fun v => (Q2R v - mu) * (Q2R v - mu)) x)) * 1000)%R
  | ENV => Ret (rmean (envelope x) * 1000)%R
  | Other => Raise NotImplementedErr
  end.

(** A measurement: half the peak-to-trough amplitude, frequency, time, average amplitude, gain. *)
Record sig_meas : Type := mk_sig { s_half : Q; s_freq : Q; s_time : Q; s_avg : R; s_gain : option Q }.
(** amplitude.py:764-817: one window; [None]: no measurement. [gain]: of the filter, if one was
    applied. *)
Definition measure_window (envelope : list Q -> list R) (m : measure) (prominence_multiplier : Q) (gain : option (Q -> Q))
  (window : qtrace) : outcome (option sig_meas) :=
  let x := detrend (q_data window) in
  if flat x then Ret None
  else match peak_to_trough_amplitude prominence_multiplier x (q_start window) (q_delta window) with
       | Raise PeakToTrough => Ret None
       | Raise e => Raise e
       | Undef => Undef
       | Ret (half_amp, approx_freq, p2t_time) =>
           bind (average_amplitude envelope m x) (fun avg =>
           match gain with
           | None => Ret (Some (mk_sig half_amp approx_freq p2t_time avg None))
           | Some g =>
               let v := g approx_freq in
               if Qeq_bool v 0 then Ret None
               else Ret (Some (mk_sig (half_amp / v)%Q approx_freq p2t_time (avg / Q2R v)%R (Some v)))
           end)
       end.
Definition measure_phase (envelope : list Q -> list R) (m : measure) (prominence_multiplier : Q) (gain : option (Q -> Q))
  (tr : qtrace) (w : Q * Q) : outcome (option sig_meas) :=
  bind (slice tr (fst w) (snd w)) (measure_window envelope m prominence_multiplier gain).
(** amplitude.py:692-819 _measure_signal_amps: the P and the S window. *)
Definition measure_signal_amps (envelope : list Q -> list R) (m : measure) (prominence_multiplier : Q) (gain : option (Q -> Q))
  (tr : qtrace) (ws : (Q * Q) * (Q * Q)) : outcome (option sig_meas * option sig_meas) :=
  bind (measure_phase envelope m prominence_multiplier gain tr (fst ws)) (fun p =>
  bind (measure_phase envelope m prominence_multiplier gain tr (snd ws)) (fun s => Ret (p, s))).
(** amplitude.py:916-970 _measure_noise_amp; [None]: NaN. Flatness is tested before detrending. *)
Definition measure_noise_amp (envelope : list Q -> list R) (m : measure) (k : amp_params) (tr : qtrace) (ws : (Q * Q) * (Q * Q)) : outcome (option R) :=
  let w := noise_window_of k ws in
  bind (slice tr (fst w) (snd w)) (fun noise =>
  if flat (q_data noise) then Ret None
  else bind (average_amplitude envelope m (detrend (q_data noise))) (fun a => Ret (Some a))).

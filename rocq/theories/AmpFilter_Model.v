(** Model of the filter options of the amplitude measurement: signal/local_mag/amplitude.py Amplitude.__init__,
    _filter_trace, _bandpass_filter, _highpass_filter, and the exceptions of the loop of get_amplitudes.

    SIMPLIFICATIONS: reals for binary64; a filter is its design (kind, critical frequencies relative to the
    Nyquist frequency, order); detrending and tapering before the filter are left out. obspy.signal.filter and
    scipy.signal.iirfilter are modelled by their checks and the design they make. *)
From Coq Require Import String Ascii.
From Coq Require Import List ZArith Reals Bool.
From Verif Require Import Lib PyDict.
Import ListNotations.
Open Scope R_scope.

(** amplitude_params; [k_deprecated]: whether one of the removed response parameters is among them. *)
Record params : Set := mk_params
  { k_signal : option R; k_noise : option R; k_high : option bool; k_freq : option R; k_band : option bool;
    k_low : option R; k_up : option R; k_corners : option Z; k_deprecated : bool }.
(** The attributes; [highpass_freq] exists only with a high-pass filter, the cuts (which may be None) only with a
    band-pass filter. *)
Record amp : Set := mk_amp
  { a_signal : R; a_noise : R; a_high : bool; a_freq : option R; a_band : bool; a_low : option (option R); a_up : option (option R);
    a_corners : Z }.

(** dict.get with a default *)
Definition opt {A} (o : option A) (d : A) : A := match o with Some x => x | None => d end.

(** amplitude.py:95-143 __init__ *)
Definition amp_init (k : params) : outcome amp :=
  let high := opt (k_high k) false in
  let band := opt (k_band k) false in
  match high, k_freq k with
  | true, None => Raise AttributeError
  | _, _ =>
      if high && band then Raise AttributeError
      else if k_deprecated k then Raise AttributeError
      else Ret (mk_amp (opt (k_signal k) 0) (opt (k_noise k) 5) high (if high then k_freq k else None) band
                  (if band then Some (k_low k) else None) (if band then Some (k_up k) else None)
                  (opt (k_corners k) 4%Z))
  end.

Inductive design : Set := Band (low up : R) (corners : Z) | High (f : R) (corners : Z).

(** scipy.signal.iirfilter(ftype="butter") *)
Definition butter_band (low up : R) (n : Z) : outcome design :=
  if Rlt_dec 0 low then if Rlt_dec low up then if Rlt_dec up 1 then Ret (Band low up n)
  else Raise ValueError else Raise ValueError else Raise ValueError.
Definition butter_high (f : R) (n : Z) : outcome design :=
  if Rlt_dec 0 f then if Rlt_dec f 1 then Ret (High f n) else Raise ValueError else Raise ValueError.

(** obspy.signal.filter.highpass and bandpass: the filter applied to data of sampling rate [df]. *)
Definition obspy_highpass (freq df : R) (corners : Z) : outcome design :=
  let fe := df / 2 in
  let f := freq / fe in
  if Rlt_dec 1 f then Raise ValueError else butter_high f corners.
Definition obspy_bandpass (freqmin freqmax df : R) (corners : Z) : outcome design :=
  let fe := df / 2 in
  let low := freqmin / fe in
  let high := freqmax / fe in
  if Rlt_dec (- / 1000000) (high - 1) then obspy_highpass freqmin df corners
  else if Rlt_dec 1 low then Raise ValueError
  else butter_band low high corners.

(** Division of an attribute: None / float raises TypeError. *)
Definition number (x : option (option R)) : outcome R :=
  match x with Some (Some v) => Ret v | Some None => Raise TypeError | None => Raise AttributeError end.

(** amplitude.py:443-498 _bandpass_filter: the filter applied and the filter returned. *)
Definition bandpass_filter (a : amp) (sr : R) : outcome (design * design) :=
  bind (number (a_low a)) (fun freqmin =>
  let f_nyquist := / 2 * sr in
  let low_f_crit := freqmin / f_nyquist in
  bind (number (a_up a)) (fun freqmax =>
  let high_f_crit := freqmax / f_nyquist in
  if Rlt_dec (- / 1000000) (high_f_crit - 1) then Raise NyquistException
  else
    bind (obspy_bandpass freqmin freqmax sr (a_corners a)) (fun applied =>
    bind (butter_band low_f_crit high_f_crit (a_corners a)) (fun sos => Ret (applied, sos))))).

(** amplitude.py:500-539 _highpass_filter *)
Definition highpass_filter (a : amp) (sr : R) : outcome (design * design) :=
  bind (if a_band a then number (a_low a) else match a_freq a with Some f => Ret f | None => Raise AttributeError end) (fun filt_freq =>
  let f_nyquist := / 2 * sr in
  let f_crit := filt_freq / f_nyquist in
  bind (obspy_highpass filt_freq sr (a_corners a)) (fun applied =>
  bind (butter_high f_crit (a_corners a)) (fun sos => Ret (applied, sos)))).

(** amplitude.py:413-441 _filter_trace *)
Definition filter_trace (a : amp) (sr : R) : outcome (design * design) :=
  if a_band a then
    match bandpass_filter a sr with
    | Raise NyquistException => highpass_filter a sr
    | o => o
    end
  else highpass_filter a sr.

(** amplitude.py:344-347 *)
Definition filtered (a : amp) (sr : R) : outcome (option (design * design)) :=
  if a_band a || a_high a then bind (filter_trace a sr) (fun f => Ret (Some f)) else Ret None.

(** amplitude.py:282-367, the loop over the traces that are measured (given by their sampling rates): nothing catches
    what the filter raises. [measure f]: the row measured with the filter [f]. *)
Fixpoint measure_traces {W} (a : amp) (measure : option (design * design) -> W) (rates : list R) : outcome (list W) :=
  match rates with
  | [] => Ret []
  | sr :: r => bind (filtered a sr) (fun f => bind (measure_traces a measure r) (fun ws => Ret (measure f :: ws)))
  end.

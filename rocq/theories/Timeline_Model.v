(** Model of the time arithmetic of QuakeMigrate: sample/second conversions, pads, the
    timesteps of detect(), the windows read from the archive, the number of samples that
    come out of a window, resampling by linear interpolation and time-stamp correction.

    Times are integers counted in ticks; [sec] ticks make a second and [delta] ticks make one
    sample (sampling rate [sec / delta] as a rational number). SIMPLIFICATION: Python computes
    with binary64 seconds and obspy with integer nanoseconds; the model computes exactly. The
    place where the rounding of binary64 is visible to the user (the full-timespan check) is
    modelled in Float_Model.v. Time 0 is a midnight. *)
From Coq Require Import List ZArith Reals Bool Lia.
From Verif Require Import Lib PySlice Migrate_Spec.
Import ListNotations.
Open Scope Z_scope.

Record clock : Set := { sec : Z; delta : Z }.

(** Ticks in 10 microseconds (the +/- 0.00001 s of util.py:472, 600 and stalta.py:455), one
    millisecond, one microsecond and one day. *)
Definition eps (c : clock) : Z := sec c / 100000.
Definition ms (c : clock) : Z := sec c / 1000.
Definition us (c : clock) : Z := sec c / 1000000.
Definition day (c : clock) : Z := 86400 * sec c.

(** [np.ceil(a / b)] for b > 0. *)
Definition cdiv (a b : Z) : Z := - ((- a) / b).
(** Python's [round(a / b)] and [np.rint(a / b)] for b > 0: nearest integer, ties to even. *)
Definition rnd_he (a b : Z) : Z :=
  let q := a / b in
  let r := a mod b in
  if 2 * r <? b then q
  else if b <? 2 * r then q + 1
  else if Z.even q then q else q + 1.

(** util.py:152-172 time2sample: [int(round(time * int(sampling_rate)))]; int() truncates a
    fractional sampling rate. *)
Definition time2sample (c : clock) (t : Z) : Z := rnd_he (t * (sec c / delta c)) (sec c).

(** util.py:248-269 trim2sample: [int(np.ceil(time * sr) / sr * 1000) / 1000]; int() truncates
    to a whole number of milliseconds. *)
Definition trim2sample (c : clock) (t : Z) : Z :=
  Z.quot (cdiv t (delta c) * delta c * 1000) (sec c) * ms c.

(** signal/onsets/base.py:64-93 Onset.pad, given the pre- and post-pad properties. *)
Definition onset_pad (c : clock) (timespan pre post : Z) : Z * Z :=
  let timespan' := timespan + (pre + post) in
  let taper := cdiv (timespan' * 6) (100 * sec c) * sec c in
  (trim2sample c (pre + taper), trim2sample c (post + taper)).

(** Python's max of a non-empty list of numbers. *)
Definition zmax (l : list Z) : Z := fold_right Z.max (hd 0 l) l.

(** signal/onsets/stalta.py:601-608 STALTAOnset.pre_pad; [windows] are the (sta, lta) pairs of
    the phases. *)
Definition stalta_pre_pad (windows : list (Z * Z)) : Z :=
  zmax (map snd windows) + 3 * zmax (map fst windows).
(** signal/onsets/stalta.py:627-635 STALTAOnset.post_pad setter; scan.py:217-219 passes the
    largest traveltime of the lookup table. *)
Definition stalta_post_pad (c : clock) (windows : list (Z * Z)) (ttmax : Z) : Z :=
  cdiv (ttmax + 2 * zmax (map snd windows)) (sec c) * sec c.
(** signal/onsets/stalta.py:393-395: window lengths in samples. *)
Definition stw_samples (c : clock) (sta : Z) : Z := time2sample c sta + 1.
Definition ltw_samples (c : clock) (lta : Z) : Z := time2sample c lta + 1.

(** lut/lut.py:576-603 _serve_traveltimes: [np.rint(traveltimes * sampling_rate)]. *)
Definition tt_samples (c : clock) (tt : Z) : Z := rnd_he tt (delta c).

(** * detect() *)

(** signal/scan.py:321-326: an end time at midnight is moved one sample earlier; [time(0,0)]
    means the time of day has no hours, minutes, seconds or microseconds (SIMPLIFICATION:
    nanoseconds below one microsecond, which .time drops, count as part of the time of day). *)
Definition detect_endtime (c : clock) (endtime : Z) : Z :=
  if endtime mod day c =? 0 then endtime - delta c else endtime.
(** signal/scan.py:329. *)
Definition n_steps (c : clock) (starttime endtime timestep : Z) : Z :=
  cdiv (detect_endtime c endtime - starttime) timestep.
(** signal/scan.py:438-441: window read for timestep [i]. *)
Definition step_window (c : clock) (starttime timestep pre post i : Z) : Z * Z :=
  (starttime + timestep * i - pre, starttime + timestep * (i + 1) - delta c + post).

(** The samples of a continuous trace: times [g + k * delta] for [k0 <= k <= k1]. *)
Record trace : Set := { phase : Z; k0 : Z; k1 : Z }.
Definition npts (t : trace) : Z := k1 t - k0 t + 1.
Definition sample_time (c : clock) (t : trace) (k : Z) : Z := phase t + k * delta c.

(** util.py:468-474 (end of resample): trim to [w_beg - 1e-5 s, w_end + 1e-5 s] with
    nearest_sample=False, i.e. keep the samples inside the interval. [None]: no sample left.
    SIMPLIFICATION: covers traces already at the onset sampling rate; obspy's 1e-7 sample
    tolerance is dropped. *)
Definition trim_window (c : clock) (w_beg w_end : Z) (t : trace) : option trace :=
  let a := Z.max (k0 t) (cdiv (w_beg - eps c - phase t) (delta c)) in
  let b := Z.min (k1 t) ((w_end + eps c - phase t) / delta c) in
  if a <=? b then Some {| phase := phase t; k0 := a; k1 := b |} else None.

(** io/data.py:606-616 full-timespan part of check_availability:
    [npts < timespan * sampling_rate + 1] means not available (exact arithmetic). *)
Definition full_timespan_ok (c : clock) (w_beg w_end n : Z) : bool :=
  negb (n * delta c <? (w_end - w_beg) + delta c).

(** One window: scan.py:594-647 _compute with lib.py:92-96 [n_samples = t_samples - first_idx -
    last_idx]. Result: number of migrated samples, [None] when the data are not available and
    the window is left empty. SIMPLIFICATION: one trace stands for all stations (every station
    that passes the check yields an onset as long as its trace). *)
Definition window_samples (c : clock) (pre post w_beg w_end : Z) (t : trace) : option Z :=
  match trim_window c w_beg w_end t with
  | None => None
  | Some t' =>
      if full_timespan_ok c w_beg w_end (npts t')
      then Some (npts t' - time2sample c pre - time2sample c post)
      else None
  end.

(** scan.py:437-466 one iteration of _continuous_compute: start time and number of samples
    handed to ScanmSEED.append, with data (time = data.starttime + pre_pad, scan.py:643) or
    through ScanmSEED.empty (scanmseed.py:175-179). *)
Definition detect_step (c : clock) (starttime timestep pre post i : Z) (t : trace) : Z * Z :=
  let w := step_window c starttime timestep pre post i in
  match window_samples c pre post (fst w) (snd w) t with
  | Some n => (fst w + pre, n)
  | None => (starttime + timestep * i, time2sample c timestep)
  end.
(** Whether timestep [i] was computed from data. *)
Definition detect_step_has_data (c : clock) (starttime timestep pre post i : Z) (t : trace) : bool :=
  let w := step_window c starttime timestep pre post i in
  match window_samples c pre post (fst w) (snd w) t with Some _ => true | None => false end.

(** The sample times of an appended block: obspy trace of [snd b] samples from [fst b]. *)
Definition block_times (c : clock) (b : Z * Z) : list Z :=
  map (fun k => fst b + k * delta c) (zrange (snd b)).

(** scan.py:297-349 detect and 407-470 _continuous_compute: all appended sample times, in
    order; [data i] is the archive trace seen by timestep [i]. *)
Definition detect_times (c : clock) (starttime endtime timestep pre post : Z) (data : Z -> trace) : list Z :=
  flat_map (fun i => block_times c (detect_step c starttime timestep pre post i (data i)))
           (zrange (n_steps c starttime endtime timestep)).

(** * locate() *)

(** scan.py:497-498: window read around a triggered event. *)
Definition locate_window (trigger mw pre post : Z) : Z * Z :=
  (trigger - 2 * mw - pre, trigger + 2 * mw + post).
(** io/event.py:398-419 mw_times: an obspy trace with [npts = 4 * mw * rate + 1] (truncated to
    an integer by obspy) from [trigger - 2 mw]. *)
Definition mw_times (c : clock) (trigger mw : Z) : list Z :=
  map (fun k => trigger - 2 * mw + k * delta c) (zrange (4 * mw / delta c + 1)).
(** Number of coalescence samples computed for a triggered event. *)
Definition locate_samples (c : clock) (trigger mw pre post : Z) (t : trace) : option Z :=
  let w := locate_window trigger mw pre post in
  window_samples c pre post (fst w) (snd w) t.

(** * Tapers *)

(** obspy Trace.taper(max_percentage=0.05): number of samples tapered at each end, used at
    stalta.py:204, util.py:503 and amplitude.py:479, 530. *)
Definition taper_samples (n : Z) : Z := Z.min (n * 5 / 100) (n / 2).

(** signal/local_mag/amplitude.py:1011-1051 AmplitudeMeasurement.pad; [tt_extra] stands for
    [max_tt * (1 + fraction_tt)]. *)
Definition amp_raw_pads (noise_window signal_window mw tt_extra : Z) : Z * Z :=
  (noise_window + mw, signal_window + tt_extra + mw).
Definition amp_pad (c : clock) (noise_window signal_window mw tt_extra : Z) : Z * Z :=
  let raw := amp_raw_pads noise_window signal_window mw tt_extra in
  let timespan := fst raw + snd raw in
  let taper := cdiv (timespan * 6) (100 * sec c) * sec c in
  (fst raw + taper, snd raw + taper).

(** * Off-sample time stamps *)

(** util.py:355-357: [starttime.microsecond % (1e6 / sampling_rate)], in ticks. *)
Definition off_sample (c : clock) (start : Z) : Z :=
  (((start mod sec c) / us c) * us c) mod delta c.
(** util.py:367-371: [round(delta / 1e6 * sr) / sr - delta / 1e6]. *)
Definition time_shift (c : clock) (start : Z) : Z :=
  let d := off_sample c start in rnd_he d (delta c) * delta c - d.
(** util.py:345-401 shift_to_sample, default branch: start time of one trace afterwards. *)
Definition shift_to_sample (c : clock) (start : Z) : Z :=
  if off_sample c start =? 0 then start else start + time_shift c start.
(** util.py:382-398 shift_to_sample(interpolate=True): start and number of samples afterwards.
    obspy's Trace.interpolate keeps the samples [new_start + k * delta] not after the old end;
    the interpolated values are not modelled. *)
Definition shift_interpolate (c : clock) (start n : Z) : Z * Z :=
  if off_sample c start =? 0 then (start, n)
  else
    let sh := time_shift c start in
    let new_start := if sh <? 0 then start + sh + delta c else start + sh in
    let last := start + (n - 1) * delta c in
    let n' := (last - new_start) / delta c + 1 in
    if 0 <? sh then (new_start, n' + 1)
    else (new_start - delta c, n' + 1).

(** * Upsampling *)

(** numpy strided assignment [l[i::u] = vals]: element [i + j * u] becomes [vals[j]]; the
    lengths must match (ValueError otherwise). *)
Definition set_stride {A} (l : list A) (i u : Z) (vals : list A) : option (list A) :=
  if cdiv (Z.of_nat (length l) - i) u =? Z.of_nat (length vals)
  then for_ 0 (Z.of_nat (length vals))
         (fun j l => match rd vals j with Some v => wr l (i + j * u) v | None => None end) l
  else None.

(** util.py:543-549: the interpolated array. [data[1:]] and [data[:-1]] are combined
    element-wise. *)
Definition upsample_data (data : list R) (u : Z) : option (list R) :=
  let n := Z.of_nat (length data) in
  let dnew := repeat 0%R (Z.to_nat ((n - 1) * u + 1)) in
  match set_stride dnew 0 u data with
  | None => None
  | Some dnew =>
      for_ 1 u (fun i dnew =>
        let line := map (fun p => (IZR i / IZR u * fst p + IZR (u - i) / IZR u * snd p)%R)
                        (combine (pyslice data (Some 1) None) (pyslice data None (Some (-1)))) in
        set_stride dnew i u line) dnew
  end.

(** The part of a real towards zero: conversion of a float to an int dtype. *)
Definition trunc (x : R) : R :=
  if Rle_dec 0 x then IZR (Int_part x) else (- IZR (Int_part (- x)))%R.

(** util.py:555-588: constant pads up to the window edges; [np.full(n, value, dtype=int)]
    truncates the value. Result: start time and data at spacing [delta / u]. [Undef] for an
    empty trace (IndexError on [trace.data[0]] is only reached when a pad is needed). *)
Definition upsample (c : clock) (start : Z) (data : list R) (u starttime endtime : Z) : option (Z * list R) :=
  match upsample_data data u with
  | None => None
  | Some dnew =>
      let tr_end := start + (Z.of_nat (length data) - 1) * delta c in
      let a :=
        if (0 <? start - starttime) && (start - starttime <? delta c) then
          let start_pad := rnd_he ((start - starttime) * u) (delta c) in
          match rd data 0 with
          | Some v => Some (start - start_pad * delta c / u, repeat (trunc v) (Z.to_nat start_pad) ++ dnew)
          | None => None
          end
        else Some (start, dnew) in
      match a with
      | None => None
      | Some (s, d) =>
          if (0 <? endtime - tr_end) && (endtime - tr_end <? delta c) then
            let end_pad := rnd_he ((endtime - tr_end) * u) (delta c) in
            match pyget data (-1) with
            | Some v => Some (s, d ++ repeat (trunc v) (Z.to_nat end_pad))
            | None => None
            end
          else Some (s, d)
      end
  end.

(** Model of signal/local_mag/magnitude.py and of calc_magnitude in signal/local_mag/local_mag.py.

    Floats are the real numbers with infinities and NaN; rounding, signed zeros and overflow are
    not modelled. A table holds the columns of the phase chosen by amp_feature. SIMPLIFICATIONS:
    columns have the dtypes their contents suggest; a callable A0 acts on each distance by itself;
    a regular expression is its set of matches; warnings, log output and the drawing of plots are
    left out. *)
From Coq Require Import String Ascii.
From Coq Require Import List ZArith Reals Bool.
From Verif Require Import Lib PyDict.
Import ListNotations.
Open Scope R_scope.

(** * Floats *)

Inductive ext : Type := Fin (r : R) | PInf | NInf | NaN.

Definition is_nan (x : ext) : bool := match x with NaN => true | _ => false end.

Definition eadd (x y : ext) : ext :=
  match x, y with
  | Fin a, Fin b => Fin (a + b)
  | NaN, _ | _, NaN | PInf, NInf | NInf, PInf => NaN
  | PInf, _ | _, PInf => PInf
  | NInf, _ | _, NInf => NInf
  end.
Definition eneg (x : ext) : ext := match x with Fin a => Fin (- a) | PInf => NInf | NInf => PInf | NaN => NaN end.
Definition esub (x y : ext) : ext := eadd x (eneg y).

(** A positive or negative infinity times a finite number. *)
Definition inf_times (pos : bool) (b : R) : ext :=
  if Rlt_dec 0 b then (if pos then PInf else NInf) else if Rlt_dec b 0 then (if pos then NInf else PInf) else NaN.
Definition emul (x y : ext) : ext :=
  match x, y with
  | Fin a, Fin b => Fin (a * b)
  | NaN, _ | _, NaN => NaN
  | PInf, Fin b | Fin b, PInf => inf_times true b
  | NInf, Fin b | Fin b, NInf => inf_times false b
  | PInf, PInf | NInf, NInf => PInf
  | PInf, NInf | NInf, PInf => NInf
  end.
Definition ediv (x y : ext) : ext :=
  match x, y with
  | Fin a, Fin b => if Req_EM_T b 0 then inf_times true a else Fin (a / b)
  | NaN, _ | _, NaN => NaN
  | Fin _, _ => Fin 0
  | PInf, Fin b => if Rlt_dec b 0 then NInf else PInf
  | NInf, Fin b => if Rlt_dec b 0 then PInf else NInf
  | _, _ => NaN
  end.
Definition esq (x : ext) : ext := emul x x.
Definition esqrt (x : ext) : ext :=
  match x with Fin a => if Rlt_dec a 0 then NaN else Fin (sqrt a) | PInf => PInf | _ => NaN end.
Definition log10 (x : R) : R := ln x / ln 10.
Definition elog10 (x : ext) : ext :=
  match x with
  | Fin a => if Rlt_dec 0 a then Fin (log10 a) else if Rlt_dec a 0 then NaN else NInf
  | PInf => PInf
  | _ => NaN
  end.
Definition eexp (x : ext) : ext := match x with Fin a => Fin (exp a) | PInf => PInf | NInf => Fin 0 | NaN => NaN end.

(** Comparisons; false if an operand is NaN. *)
Definition eltb (x y : ext) : bool :=
  match x, y with
  | Fin a, Fin b => if Rlt_dec a b then true else false
  | NInf, Fin _ | NInf, PInf | Fin _, PInf => true
  | _, _ => false
  end.
Definition eeqb (x y : ext) : bool :=
  match x, y with
  | Fin a, Fin b => if Req_EM_T a b then true else false
  | PInf, PInf | NInf, NInf => true
  | _, _ => false
  end.
Definition eleb (x y : ext) : bool := eltb x y || eeqb x y.

(** numpy's sum, and pandas' sum, which skips NaN. *)
Definition esum (l : list ext) : ext := fold_left eadd l (Fin 0).
Definition nansum (l : list ext) : ext := esum (filter (fun x => negb (is_nan x)) l).
Fixpoint map2 {A B C} (f : A -> B -> C) (a : list A) (b : list B) : list C :=
  match a, b with x :: a', y :: b' => f x y :: map2 f a' b' | _, _ => [] end.

(** * Parameters and tables *)

(** [A0]: a name or a callable. *)
Inductive attenuation : Type := Named (eqn : string) | Callable (f : ext -> ext).

(** quakemigrate/signal/local_mag/magnitude.py:102-121 (Magnitude.__init__); dist_filter = False
    is [None]. *)
Record mag_params : Type := mk_mag_params
  { A0 : attenuation; use_hyp_dist : bool; station_corrections : list (string * R); amp_multiplier : R;
    weighted_mean : bool; trace_filter : option (string -> bool); noise_filter : R; station_filter : option (list string);
    dist_filter : option R; pick_filter : bool; r2_only_used : bool }.

(** A row of the table of amplitudes: trace id, epi_dist, z_dist, amplitude and filter gain of the
    chosen phase, Noise_amp, is_picked. *)
Record obs : Type := mk_obs
  { o_id : string; o_epi : ext; o_z : ext; o_amp : ext; o_gain : ext; o_noise : ext; o_picked : bool }.
(** The same with ML and ML_Err. *)
Record mobs : Type := mk_mobs { m_obs : obs; m_ml : ext; m_err : ext }.
(** The same with Station_Correction, Noise_Filter, Trace_Filter, Station_Filter, Dist_Filter, Dist
    and Used. A column that is not made is [true] here; it is not read then. *)
Record fobs : Type := mk_fobs
  { f_mobs : mobs; f_corr : R; f_noise_ok : bool; f_trace_ok : bool; f_station_ok : bool; f_dist_ok : bool; f_dist : ext; f_used : bool }.

(** * Individual magnitudes *)

Definition real_eqb (a b : R) : bool := if Req_EM_T a b then true else false.

(** quakemigrate/signal/local_mag/magnitude.py:603-606, 377-380: 0 for a trace without correction. *)
Fixpoint correction (d : list (string * R)) (id : string) : R :=
  match d with [] => 0 | (k, v) :: r => if String.eqb k id then v else correction r id end.

(** c1 * log10(d / d0) + c2 * (d - d0) + c3 *)
Definition log_linear (c1 d0 c2 c3 : R) (d : ext) : ext :=
  eadd (eadd (emul (Fin c1) (elog10 (ediv d (Fin d0)))) (emul (Fin c2) (esub d (Fin d0)))) (Fin c3).

(** quakemigrate/signal/local_mag/magnitude.py:645-706 (_logA0) *)
Definition logA0 (eqn : string) : outcome (ext -> ext) :=
  if String.eqb eqn "keir2006" then Ret (log_linear (1196997 / 1000000) 17 (1066 / 1000000) 2)
  else if String.eqb eqn "Danakil2017" then Ret (log_linear (1274336 / 1000000) 17 (- (273 / 1000000)) 2)
  else if String.eqb eqn "Greenfield2018_askja" then Ret (log_linear (14406 / 10000) 17 (3 / 1000) 2)
  else if String.eqb eqn "Greenfield2018_bardarbunga" then Ret (log_linear (12534 / 10000) 17 (32 / 10000) 2)
  else if String.eqb eqn "Greenfield2018_comb" then Ret (log_linear (11999 / 10000) 17 (16 / 10000) 2)
  else if String.eqb eqn "Hutton-Boore" then Ret (log_linear (111 / 100) 100 (189 / 100000) 3)
  else if String.eqb eqn "Langston1998" then Ret (log_linear (776 / 1000) 17 (902 / 1000000) 2)
  else if String.eqb eqn "UK" then
    Ret (fun d => esub (esub (eadd (emul (Fin (111 / 100)) (elog10 d)) (emul (Fin (189 / 100000)) d))
                             (emul (Fin (116 / 100)) (eexp (emul (Fin (- (2 / 10))) d)))) (Fin (209 / 100)))
  else Raise ValueError.

(** quakemigrate/signal/local_mag/magnitude.py:621-643 (_get_attenuation) *)
Definition get_attenuation (k : mag_params) : outcome (ext -> ext) :=
  match A0 k with Named s => logA0 s | Callable f => Ret f end.

(** quakemigrate/signal/local_mag/magnitude.py:574-619 (_calc_mags), one trace *)
Definition calc_mag (k : mag_params) (att : ext -> ext) (id : string) (amp noise dist : ext) : ext * ext :=
  let corr := Fin (correction (station_corrections k) id) in
  let ml := eadd (eadd (elog10 amp) (att dist)) corr in
  let upper := eadd (eadd (elog10 (eadd amp noise)) (att dist)) corr in
  let lower := eadd (eadd (elog10 (esub amp noise)) (att dist)) corr in
  (ml, esub upper lower).

(** [filter_gains.isnull().values.all()] *)
Definition no_filter (gains : list ext) : bool := forallb is_nan gains.

(** quakemigrate/signal/local_mag/magnitude.py:244-248, 776-780: epicentral or hypocentral distance *)
Definition distance (k : mag_params) (o : obs) : ext :=
  if use_hyp_dist k then esqrt (eadd (esq (o_epi o)) (esq (o_z o))) else o_epi o.
Definition zero_to_nan (x : ext) : ext := if eeqb x (Fin 0) then NaN else x.
(** [dist[dist == 0.0] = np.nan]: without use_hyp_dist [dist] is the epi_dist column itself, which
    thus changes, too (pandas before copy-on-write). *)
Definition blank_zero_distance (k : mag_params) (o : obs) : obs :=
  if use_hyp_dist k then o
  else mk_obs (o_id o) (zero_to_nan (o_epi o)) (o_z o) (o_amp o) (o_gain o) (o_noise o) (o_picked o).

(** quakemigrate/signal/local_mag/magnitude.py:150-258 (calculate_magnitudes) *)
Definition magnitude_row (k : mag_params) (att : ext -> ext) (unfiltered : bool) (o : obs) : mobs :=
  let noise0 := emul (o_noise o) (Fin (amp_multiplier k)) in
  let noise := if unfiltered then noise0 else ediv noise0 (o_gain o) in
  let amp0 := emul (o_amp o) (Fin (amp_multiplier k)) in
  let amp1 := if eltb amp0 noise then NaN else amp0 in
  let amp := if eeqb amp1 (Fin 0) then NaN else amp1 in
  let dist := zero_to_nan (distance k o) in
  let '(ml, err) := calc_mag k att (o_id o) amp noise dist in
  mk_mobs (blank_zero_distance k o) ml err.
Definition calculate_magnitudes (k : mag_params) (rows : list obs) : outcome (list mobs) :=
  bind (get_attenuation k) (fun att => Ret (map (magnitude_row k att (no_filter (map o_gain rows))) rows)).

(** * Filters *)

(** [str.contains(sub, regex=False)] *)
Definition contains (sub s : string) : bool := match String.index 0 sub s with Some _ => true | None => false end.

(** [if self.dist_filter:] *)
Definition dist_filter_on (k : mag_params) : option R :=
  match dist_filter k with Some d => if real_eqb d 0 then None else Some d | None => None end.

(** quakemigrate/signal/local_mag/magnitude.py:387-389: correction of the noise for the filter gain *)
Definition gain_corrected (unfiltered : bool) (m : mobs) : mobs :=
  let o := m_obs m in
  if unfiltered then m
  else mk_mobs (mk_obs (o_id o) (o_epi o) (o_z o) (o_amp o) (o_gain o) (ediv (o_noise o) (o_gain o)) (o_picked o)) (m_ml m) (m_err m).

(** quakemigrate/signal/local_mag/magnitude.py:708-804 (_filter_mags), one row *)
Definition filter_row (k : mag_params) (m : mobs) : fobs :=
  let o := m_obs m in
  let noise_on := negb (real_eqb (noise_filter k) 0) in
  let noise_ok := if noise_on then eltb (emul (o_noise o) (Fin (noise_filter k))) (o_amp o) else true in
  let trace_ok := match trace_filter k with Some f => f (o_id o) | None => true end in
  let station_ok := match station_filter k with
                    | Some l => negb (existsb (fun stn => contains ("." ++ stn ++ ".") (o_id o)) l)
                    | None => true
                    end in
  let dist_ok := match dist_filter_on k with Some d => eleb (distance k o) (Fin d) | None => true end in
  let used := trace_ok && station_ok && dist_ok && (if pick_filter k then o_picked o else true) && noise_ok in
  mk_fobs (mk_mobs (blank_zero_distance k o) (m_ml m) (m_err m)) (correction (station_corrections k) (o_id o))
    noise_ok trace_ok station_ok dist_ok (zero_to_nan (distance k o)) used.
(** [dropna(subset=[amp_feature, "Noise_amp"])] *)
Definition complete (m : mobs) : bool := negb (is_nan (o_amp (m_obs m))) && negb (is_nan (o_noise (m_obs m))).
Definition filter_mags (k : mag_params) (rows : list mobs) : list fobs :=
  map (filter_row k) (filter complete rows).

(** * Network magnitude *)

(** quakemigrate/signal/local_mag/magnitude.py:411-423: mean and error for given weights. A sum
    over a Series (the weights of a weighted mean are one) skips NaN, one over an array does not. *)
Definition total (series : bool) (l : list ext) : ext := if series then nansum l else esum l.
Definition network_mean (series : bool) (mags weights : list ext) : ext :=
  ediv (total series (map2 emul mags weights)) (total series weights).
Definition network_error (series : bool) (mags weights : list ext) : ext :=
  let mean := network_mean series mags weights in
  esqrt (ediv (total series (map2 (fun m w => esq (emul (esub m mean) w)) mags weights)) (total series weights)).

(** quakemigrate/signal/local_mag/magnitude.py:405-409 *)
Definition mag_weights (weighted : bool) (used : list fobs) : list ext :=
  map (fun f => if weighted then esq (ediv (Fin 1) (m_err (f_mobs f))) else Fin 1) used.

(** [amps.min() == amps.max()] *)
Definition all_same (l : list ext) : bool :=
  match filter (fun x => negb (is_nan x)) l with [] => false | x :: r => forallb (eeqb x) r end.

(** Mean of a Series, without NaN. *)
Definition nanmean (l : list ext) : ext :=
  ediv (nansum l) (Fin (INR (length (filter (fun x => negb (is_nan x)) l)))).

(** quakemigrate/signal/local_mag/magnitude.py:806-928 (_mag_r_squared). The loop of lines 878-891
    calls [magnitudes.drop], which returns a new table that is not kept: it has no effect. *)
Definition r2_rows (k : mag_params) (rows : list fobs) : outcome (list fobs) :=
  if r2_only_used k then Ret (filter f_used rows)
  else
    let rows := match trace_filter k with Some _ => filter f_trace_ok rows | None => rows end in
    let rows := match station_filter k with Some _ => filter f_station_ok rows | None => rows end in
    let rows := match dist_filter_on k with Some _ => filter f_dist_ok rows | None => rows end in
    if Rle_dec (noise_filter k) 0 then Raise AttributeError else Ret rows.
Definition corrected_amp (k : mag_params) (f : fobs) : ext :=
  emul (emul (o_amp (m_obs (f_mobs f))) (Fin (amp_multiplier k))) (Fin (Rpower 10 (f_corr f))).
Definition r_squared_of (att : ext -> ext) (mean_mag : ext) (amps dists : list ext) : ext :=
  if (length amps <? 2)%nat || all_same amps then NaN
  else
    let logs := map elog10 amps in
    let log_mean := nanmean logs in
    let log_variance := nansum (map (fun x => esq (esub x log_mean)) logs) in
    let mod_variance := nansum (map2 (fun x d => esq (esub x (esub mean_mag (att d)))) logs dists) in
    ediv (esub log_variance mod_variance) log_variance.
Definition mag_r_squared (k : mag_params) (rows : list fobs) (mean_mag : ext) : outcome ext :=
  bind (r2_rows k rows) (fun rows =>
  bind (get_attenuation k) (fun att => Ret (r_squared_of att mean_mag (map (corrected_amp k) rows) (map f_dist rows)))).

(** quakemigrate/signal/local_mag/magnitude.py:260-431 (mean_magnitude). [None]: the early return
    of three times [np.nan]. *)
Definition mean_magnitude (k : mag_params) (rows : list mobs) : outcome (option (ext * ext * ext) * list fobs) :=
  let unfiltered := no_filter (map (fun m => o_gain (m_obs m)) rows) in
  let rows := filter_mags k (map (gain_corrected unfiltered) rows) in
  let used := filter f_used rows in
  match used with
  | [] => Ret (None, rows)
  | u :: rest =>
      let mags := map (fun f => m_ml (f_mobs f)) used in
      let weights := mag_weights (weighted_mean k) used in
      let mean := network_mean (weighted_mean k) mags weights in
      let err := match rest with [] => m_err (f_mobs u) | _ => network_error (weighted_mean k) mags weights end in
      bind (mag_r_squared k rows mean) (fun r2 => Ret (Some (mean, err, r2), rows))
  end.

(** quakemigrate/signal/local_mag/local_mag.py:142-208 (calc_magnitude), after the measurement of
    the amplitudes: the local magnitude of the event, and whether a plot is made. [mag is not
    np.nan] holds for every computed magnitude, NaN or not. *)
Definition calc_magnitude (k : mag_params) (plot : bool) (amps : list obs) : outcome ((ext * ext * ext) * bool) :=
  if forallb (fun o => is_nan (o_amp o)) amps then Ret ((NaN, NaN, NaN), false)
  else
    bind (calculate_magnitudes k amps) (fun mags =>
    bind (mean_magnitude k mags) (fun r =>
    Ret (match fst r with None => ((NaN, NaN, NaN), false) | Some m => (m, plot) end))).

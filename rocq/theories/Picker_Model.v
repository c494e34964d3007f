(** Model of the phase picker, signal/pickers/gaussian.py.

    Onset values are rationals. SIMPLIFICATIONS: scipy's curve_fit is a parameter; its mean and
    width are in samples (the code divides by the sampling rate before and multiplies after the
    fit); NaN thresholds are [None]; plots and the csv file are not modelled. *)
From Coq Require Import String Ascii.
From Coq Require Import List ZArith QArith Qround Bool.
From Verif Require Import Lib PySlice Timeline_Model Trigger_Model.
Import ListNotations.
Open Scope Z_scope.

(** [lower_idx, arrival_idx, upper_idx] *)
Record window : Set := mk_window { w_lo : Z; w_arr : Z; w_hi : Z }.

(** gaussian.py:245-285 _determine_window. [tt] is the traveltime, [ttf] traveltime times
    fraction_tt, both in ticks. *)
Definition determine_window (c : clock) (otime starttime mw tt ttf : Z) : window :=
  let arrival_idx := time2sample c (otime + tt - starttime) in
  let samples := time2sample c (ttf + mw) in
  mk_window (arrival_idx - samples) arrival_idx (arrival_idx + samples).

(** gaussian.py:307-313, the loop over neighbouring phases; [w1] is the window of the current
    phase, [r] the windows of the later ones; [int(x / 2)] truncates towards 0. *)
Fixpoint narrow (w1 : window) (r : list window) : list window :=
  match r with
  | [] => [w1]
  | w2 :: r' =>
      let mid_idx := Z.quot (w_arr w1 + w_arr w2) 2 in
      mk_window (w_lo w1) (w_arr w1) (Z.min mid_idx (w_hi w1))
      :: narrow (mk_window (Z.max mid_idx (w_lo w2)) (w_arr w2) (w_hi w2)) r'
  end.
(** gaussian.py:315-317: the window of the last phase. *)
Fixpoint clamp_last (samples : Z) (ws : list window) : list window :=
  match ws with
  | [] => []
  | [w] => [mk_window (w_lo w) (w_arr w) (if samples <? w_hi w then samples else w_hi w)]
  | w :: r => w :: clamp_last samples r
  end.
(** gaussian.py:287-317 _distinguish_windows. The windows are listed in the order of the phases
    (the dictionary has one entry per phase). *)
Definition distinguish_windows (ws : list window) (samples : Z) : outcome (list window) :=
  match ws with
  | [] => Raise IndexError
  | w :: r => let w := mk_window (if w_lo w <? 0 then 0 else w_lo w) (w_arr w) (w_hi w) in
              Ret (clamp_last samples (narrow w r))
  end.

(** ** Threshold *)

Inductive pick_method : Set := Percentile (p : Q) | MadMultiple (k : Q).
(** np.percentile (linear interpolation) of a non-empty array, [p] in [0, 1]. *)
Definition percentile (l : list Q) (p : Q) : Q :=
  let s := sort_q l in
  let v := (p * inject_Z (Z.of_nat (length s) - 1))%Q in
  let i := Z.max 0 (Z.min (Z.of_nat (length s) - 1) (Qfloor v)) in
  let a := nth (Z.to_nat i) s 0%Q in
  let b := nth (Z.to_nat (Z.min (Z.of_nat (length s) - 1) (i + 1))) s 0%Q in
  (a + (v - inject_Z i) * (b - a))%Q.
(** gaussian.py:338-344: the onset values outside all pick windows and above 1. *)
Definition onset_noise (onset : list Q) (windows : list window) : list Q :=
  filter (fun v => negb (Qle_bool v 1))
    (fold_left (fun l w => pyfill l (Some (w_lo w)) (Some (w_hi w)) (-1 # 1)%Q) windows onset).
(** gaussian.py:319-357 _find_pick_threshold. Without noise samples np.median is NaN (and so is
    np.percentile, or it raises IndexError, depending on the version of numpy). *)
Definition find_pick_threshold (onset : list Q) (windows : list window) (m : pick_method) : option Q :=
  match onset_noise onset windows with
  | [] => None
  | noise => Some match m with
                  | Percentile p => percentile noise p
                  | MadMultiple k => (median noise + calculate_mad noise * k)%Q
                  end
  end.

(** ** Peak *)

(** [windowed_onset > pick_threshold], false for NaN. *)
Definition exceeds (t : option Q) (v : Q) : bool :=
  match t with Some t => negb (Qle_bool v t) | None => false end.
(** np.where(...)[0] *)
Definition where_exceeds (t : option Q) (l : list Q) : list Z :=
  map fst (filter (fun iv => exceeds t (snd iv)) (combine (zrange (Z.of_nat (length l))) l)).
(** np.split(x, np.where(np.diff(x) != 1)[0] + 1): runs of consecutive numbers. *)
Fixpoint split_runs (l : list Z) : list (list Z) :=
  match l with
  | [] => [[]]
  | x :: r => match split_runs r with
              | ((y :: _) as g) :: gs => if y =? x + 1 then (x :: g) :: gs else [x] :: g :: gs
              | _ => [[x]]
              end
  end.
(** np.argmax: first position of the largest value of a non-empty array. *)
Fixpoint argmax_q_from (i best : Z) (bv : Q) (l : list Q) : Z :=
  match l with
  | [] => best
  | v :: r => if Qle_bool v bv then argmax_q_from (i + 1) best bv r else argmax_q_from (i + 1) i v r
  end.
Definition argmax_q (l : list Q) : Z := match l with [] => 0 | v :: r => argmax_q_from 1 0 v r end.
(** gaussian.py:545-547: the first run that contains the index, else the last one. *)
Fixpoint run_with (k : Z) (runs : list (list Z)) : list Z :=
  match runs with
  | [] => []
  | [g] => g
  | g :: r => if existsb (Z.eqb k) g then g else run_with k r
  end.
(** gaussian.py:501-560 _find_peak *)
Definition find_peak (windowed_onset : list Q) (pick_threshold : option Q) : outcome (Z * Z) :=
  match where_exceeds pick_threshold windowed_onset with
  | [] => Raise NoOnsetPeak
  | exceedence =>
      let peaks := split_runs exceedence in
      match run_with (argmax_q windowed_onset) peaks with
      | x :: ((_ :: _) as r) => Ret (x, last r x + 1)
      | _ => Raise NoOnsetPeak
      end
  end.

(** ** Fit *)

(** Height, mean and width; [None]: the pick failed (every field -1). *)
Definition fit : Set := option (Q * Q * Q).
Definition Qlt_b (x y : Q) : bool := negb (Qle_bool y x).

(** gaussian.py:359-471 _fit_gaussian. [curve_fit] is given the sample numbers and the values;
    arrays of different length make it raise ValueError. The TypeError branch leaves [popt]
    unbound. [max] of an empty list raises ValueError, outside the [try]. *)
Definition fit_gaussian (curve_fit : list Z -> list Q -> outcome (Q * Q * Q)) (onset : list Q)
    (pick_threshold : option Q) (w : window) : outcome fit :=
  let onset_signal := pyslice onset (Some (w_lo w)) (Some (w_hi w)) in
  match find_peak onset_signal pick_threshold with
  | Raise NoOnsetPeak => Ret None
  | Raise e => Raise e
  | Undef => Undef
  | Ret (p0, p1) =>
      let lo := w_lo w + (p0 - 1) in
      let hi := w_lo w + (p1 + 1) in
      let x_data := zseq lo (Z.to_nat (hi - lo)) in
      let y_data := pyslice onset (Some lo) (Some hi) in
      match y_data with
      | [] => Raise ValueError
      | _ =>
          match (if Z.of_nat (length x_data) =? Z.of_nat (length y_data)
                 then curve_fit x_data y_data else Raise ValueError) with
          | Ret (height, mean, sigma) =>
              if Qlt_b (inject_Z (w_lo w)) mean && Qlt_b mean (inject_Z (w_hi w))
              then Ret (Some (height, mean, Qabs.Qabs sigma)) else Ret None
          | Raise ValueError | Raise RuntimeError => Ret None
          | Raise TypeError => Raise NameError
          | Raise e => Raise e
          | Undef => Undef
          end
      end
  end.

(** ** Picks *)

(** What is known of a phase at a station: its name, onset function, traveltime and traveltime
    times fraction_tt. *)
Record phase_data : Set := mk_phase { ph_name : string; ph_onset : list Q; ph_tt : Z; ph_ttf : Z }.
(** A row of the table of picks. Times in ticks; [None]: -1. *)
Record pick_row : Set := mk_row { p_station : string; p_phase : string; p_model : Z;
  p_time : option Q; p_error : option Q; p_snr : option Q; p_residual : option Q }.

Fixpoint outcome_map {A B} (f : A -> outcome B) (l : list A) : outcome (list B) :=
  match l with
  | [] => Ret []
  | x :: r => bind (f x) (fun y => bind (outcome_map f r) (fun ys => Ret (y :: ys)))
  end.

(** gaussian.py:171-181: the windows of the phases of one station. *)
Definition station_windows (c : clock) (otime starttime mw : Z) (phases : list phase_data) : outcome (list window) :=
  distinguish_windows (map (fun p => determine_window c otime starttime mw (ph_tt p) (ph_ttf p)) phases)
    (Z.of_nat (length (ph_onset (last phases (mk_phase "" [] 0 0))))).

(** gaussian.py:183-226: the picks of one station. *)
Definition pick_row_of (c : clock) (otime starttime : Z) (station : string) (p : phase_data) (f : fit) : pick_row :=
  let model_time := otime + ph_tt p in
  let time := match f with Some (_, m, _) => Some (inject_Z starttime + m * inject_Z (delta c))%Q | None => None end in
  mk_row station (ph_name p) model_time time
    (match f with Some (_, _, s) => Some (s * inject_Z (delta c))%Q | None => None end)
    (match f with Some (h, _, _) => Some h | None => None end)
    (match time with Some t => Some (t - inject_Z model_time)%Q | None => None end).
Definition pick_station (curve_fit : list Z -> list Q -> outcome (Q * Q * Q)) (m : pick_method) (c : clock)
    (otime starttime mw : Z) (station : string) (phases : list phase_data) : outcome (list pick_row) :=
  bind (station_windows c otime starttime mw phases) (fun ws =>
  outcome_map (fun pw : phase_data * window =>
    bind (fit_gaussian curve_fit (ph_onset (fst pw)) (find_pick_threshold (ph_onset (fst pw)) ws m) (snd pw)) (fun f =>
    Ret (pick_row_of c otime starttime station (fst pw) f)))
    (combine phases ws)).
(** gaussian.py:170-226 pick_phases: all stations in order. *)
Definition pick_phases (curve_fit : list Z -> list Q -> outcome (Q * Q * Q)) (m : pick_method) (c : clock)
    (otime starttime mw : Z) (onsets : list (string * list phase_data)) : outcome (list pick_row) :=
  bind (outcome_map (fun so : string * list phase_data => pick_station curve_fit m c otime starttime mw (fst so) (snd so)) onsets)
    (fun rows => Ret (concat rows)).

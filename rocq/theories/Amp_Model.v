(** Model of the amplitude measurements, signal/local_mag/amplitude.py.

    Times are rational seconds, amplitudes rationals. SIMPLIFICATIONS: scipy's find_peaks is modelled
    from its documentation and source (scipy is not part of the repository); reading, response
    removal, filtering and cutting of waveforms are parameters; NaN is [CNan]. *)
From Coq Require Import String Ascii.
From Coq Require Import List ZArith QArith Qround Qminmax Qabs Bool.
From Verif Require Import Lib PySlice.
Import ListNotations.
Open Scope Z_scope.

(** ** Windows *)

(** A row of the pick table: station, phase, pick time ([None]: the failed pick "-1"). *)
Record pick_row : Set := mk_pick { pk_station : string; pk_phase : string; pk_time : option Q }.
Inductive pick : Set := Picked (t : Q) | Failed | NoOnset.
(** amplitude.py:671-686: the pick of one phase; [.iloc[0]] takes the first row. *)
Definition pick_of (rows : list pick_row) (phase : string) : pick :=
  match filter (fun r => String.eqb (pk_phase r) phase) rows with
  | [] => NoOnset
  | r :: _ => match pk_time r with Some t => Picked t | None => Failed end
  end.
Definition is_time (p : pick) : bool := match p with Picked _ => true | _ => false end.
(** amplitude.py:641-690 _get_picks *)
Definition get_picks (table : list pick_row) (station : string) : pick * pick * bool :=
  match filter (fun r => String.eqb (pk_station r) station) table with
  | [] => (Failed, Failed, false)
  | rows => let p := pick_of rows "P" in let s := pick_of rows "S" in (p, s, is_time p || is_time s)
  end.

(** amplitude.py:588-608: the arrival times used, the modelled one for a failed pick, both
    modelled ones if a phase has no onset. *)
Definition arrival_times (otime ptt stt : Q) (p s : pick) : Q * Q :=
  let mp := (otime + ptt)%Q in let ms := (otime + stt)%Q in
  match p with
  | NoOnset => (mp, ms)
  | _ => let tp := match p with Picked t => t | _ => mp end in
         match s with
         | NoOnset => (mp, ms)
         | Picked t => (tp, t)
         | Failed => (tp, ms)
         end
  end.

Record amp_params : Set := mk_amp_params { signal_window : Q; noise_window : Q }.
Definition Qlt_b (x y : Q) : bool := negb (Qle_bool y x).
(** amplitude.py:616-637: the windows of the P and of the S phase. *)
Definition windows_at (k : amp_params) (mw ptt stt fraction_tt p_pick s_pick : Q) : (Q * Q) * (Q * Q) :=
  (let p_start := p_pick - mw - ptt * fraction_tt in
   let p_end := p_pick + mw + ptt * fraction_tt in
   let s_start := s_pick - mw - stt * fraction_tt in
   let s_end := s_pick + mw + stt * fraction_tt + signal_window k in
   if Qlt_b s_start p_end then
     let mid_time := p_end + (s_start - p_end) / 2 in ((p_start, mid_time), (mid_time, s_end))
   else if Qlt_b (s_start - p_end) (signal_window k) then ((p_start, s_start), (s_start, s_end))
   else ((p_start, p_end + signal_window k), (s_start, s_end)))%Q.
(** amplitude.py:541-639 _get_amplitude_windows *)
Definition get_amplitude_windows (k : amp_params) (table : list pick_row) (station : string)
    (otime mw ptt stt fraction_tt : Q) : outcome (((Q * Q) * (Q * Q)) * bool) :=
  let '(p, s, picked) := get_picks table station in
  let '(p_pick, s_pick) := arrival_times otime ptt stt p s in
  if Qlt_b p_pick s_pick then Ret (windows_at k mw ptt stt fraction_tt p_pick s_pick, picked)
  else Raise PickOrder.
(** amplitude.py:949-955: the noise window. *)
Definition noise_window_of (k : amp_params) (ws : (Q * Q) * (Q * Q)) : Q * Q :=
  let p_start := fst (fst ws) in ((p_start - noise_window k)%Q, p_start).
(** amplitude.py:1011-1051 pad *)
Definition raw_pre (k : amp_params) (mw : Q) : Q := (noise_window k + mw)%Q.
Definition raw_post (k : amp_params) (mw max_tt fraction_tt : Q) : Q :=
  (signal_window k + max_tt * (1 + fraction_tt) + mw)%Q.
Definition pad (k : amp_params) (mw max_tt fraction_tt : Q) : Q * Q :=
  let pre_pad := raw_pre k mw in
  let post_pad := raw_post k mw max_tt fraction_tt in
  let timespan := (pre_pad + post_pad)%Q in
  let extra := inject_Z (Qceiling (timespan * (6 # 100))) in
  ((pre_pad + extra)%Q, (post_pad + extra)%Q).

(** ** Peaks *)

Definition at_ (x : list Q) (i : Z) : Q := match rd x i with Some v => v | None => 0%Q end.
(** Last sample of the run of equal values that starts at [i]; [fuel] bounds its length. *)
Fixpoint run_end (fuel : nat) (x : list Q) (i : Z) : Z :=
  match fuel with
  | O => i
  | S f => match rd x (i + 1) with
           | Some v => if Qeq_bool v (at_ x i) then run_end f x (i + 1) else i
           | None => i
           end
  end.
(** scipy.signal local maxima: the middle of every run of equal values that is preceded and
    followed by a smaller value. *)
Definition maximum_at (x : list Q) (i : Z) : list Z :=
  let r := run_end (length x) x i in
  if Qlt_b (at_ x (i - 1)) (at_ x i) then
    match rd x (r + 1) with
    | Some v => if Qlt_b v (at_ x i) then [(i + r) / 2] else []
    | None => []
    end
  else [].
Definition local_maxima (x : list Q) : list Z := flat_map (maximum_at x) (zseq 1 (length x - 1)).
(** Smallest value from a sample outwards, as far as the values do not exceed [v]. *)
Fixpoint base (v m : Q) (l : list Q) : Q :=
  match l with [] => m | y :: r => if Qle_bool y v then base v (Qmin m y) r else m end.
(** scipy.signal.peak_prominences *)
Definition prominence (x : list Q) (p : Z) : Q :=
  let v := at_ x p in
  let left := base v v (rev (firstn (Z.to_nat p) x)) in
  let right := base v v (skipn (Z.to_nat (p + 1)) x) in
  (v - Qmax left right)%Q.
(** scipy.signal.find_peaks(x, prominence=t) *)
Definition find_peaks (x : list Q) (t : Q) : list Z :=
  filter (fun p => Qle_bool t (prominence x p)) (local_maxima x).

(** ** Peak-to-trough amplitude *)

Definition max_abs (x : list Q) : Q := fold_left (fun m v => Qmax m (Qabs v)) x 0%Q.
(** [np.abs(data[a] - data[b])]; arrays of different length raise ValueError. *)
Definition swings (x : list Q) (a b : list Z) : outcome (list Q) :=
  if (Z.of_nat (length a) =? Z.of_nat (length b)) then
    Ret (map (fun ij => Qabs (at_ x (fst ij) - at_ x (snd ij))) (combine a b))
  else Raise ValueError.
(** np.argmax of a non-empty array: the first largest value, with its position. *)
Fixpoint amax_from (i best : Z) (bv : Q) (l : list Q) : Z * Q :=
  match l with
  | [] => (best, bv)
  | v :: r => if Qlt_b bv v then amax_from (i + 1) i v r else amax_from (i + 1) best bv r
  end.
Definition amax (l : list Q) : outcome (Z * Q) :=
  match l with [] => Raise ValueError | v :: r => Ret (amax_from 1 0 v r) end.

(** amplitude.py:868-893: the pairs compared; [inl (p, t, amp)]: the pair is given. *)
Definition pairs (x : list Q) (peaks troughs : list Z) : outcome ((Z * Z * Q) + (list Z * list Z * list Z * list Z)) :=
  let np := Z.of_nat (length peaks) in let nt := Z.of_nat (length troughs) in
  match peaks, troughs with
  | [], _ | _, [] => Raise PeakToTrough
  | p :: _, t :: _ =>
      if (np =? 1) && (nt =? 1) then
        (* a measurement of zero is no measurement: a, b, c, d are unbound *)
        let f := Qabs (at_ x p - at_ x t) in if Qeq_bool f 0 then Raise NameError else Ret (inl (p, t, f))
      else if np =? nt then
        if p <? t then Ret (inr (peaks, troughs, pyslice peaks (Some 1) None, pyslice troughs None (Some (-1))))
        else Ret (inr (peaks, troughs, pyslice peaks None (Some (-1)), pyslice troughs (Some 1) None))
      else if negb (Z.abs (np - nt) =? 1) then Raise PeakToTrough
      else if nt <? np then
        if p <? t then Ret (inr (pyslice peaks None (Some (-1)), troughs, pyslice peaks (Some 1) None, troughs))
        else Raise PeakToTrough
      else
        if t <? p then Ret (inr (peaks, pyslice troughs (Some 1) None, peaks, pyslice troughs None (Some (-1))))
        else Raise PeakToTrough
  end.
(** amplitude.py:895-905: the pair with the largest difference, and this difference. *)
Definition best_pair (x : list Q) (peaks troughs : list Z) : outcome (Z * Z * Q) :=
  bind (pairs x peaks troughs) (fun r =>
  match r with
  | inl q => Ret q
  | inr (a, b, c, d) =>
      bind (swings x a b) (fun fp1 => bind (swings x c d) (fun fp2 =>
      bind (amax fp1) (fun m1 => bind (amax fp2) (fun m2 =>
      let '(l, l', pos, f) := if Qle_bool (snd m2) (snd m1) then (a, b, fst m1, snd m1) else (c, d, fst m2, snd m2) in
      match rd l pos, rd l' pos with Some i, Some j => Ret (i, j, f) | _, _ => Raise IndexError end))))
  end).
(** amplitude.py:821-914 _peak_to_trough_amplitude: half the amplitude in millimetres, the
    frequency and the time. *)
Definition peak_to_trough_amplitude (prominence_multiplier : Q) (x : list Q) (starttime delta : Q) : outcome (Q * Q * Q) :=
  let t := (prominence_multiplier * max_abs x)%Q in
  let peaks := find_peaks x t in
  let troughs := find_peaks (map Qopp x) t in
  bind (best_pair x peaks troughs) (fun r =>
  let '(i, j, full_amp) := r in
  let peak_time := (inject_Z i * delta)%Q in
  let trough_time := (inject_Z j * delta)%Q in
  Ret ((full_amp * 1000 / 2)%Q, (1 / (Qabs (peak_time - trough_time) * 2))%Q,
       (starttime + peak_time + (trough_time - peak_time) / 2)%Q)).

(** ** Table *)

Inductive cell : Set := CNan | CNum (v : Q) | CStr (s : string) | CBool (b : bool).
Record measurement : Set := mk_meas { m_amp : Q; m_freq : Q; m_time : Q; m_avg : Q; m_gain : option Q }.
Definition gain_cell (g : option Q) : cell := match g with Some v => CNum v | None => CNan end.
Definition cells (m : measurement) : list cell :=
  [CNum (m_amp m); CNum (m_freq m); CNum (m_time m); CNum (m_avg m); gain_cell (m_gain m)].
(** amplitude.py:768-817: the columns of phase [k] are set, unless the measurement failed. *)
Definition set_phase (row : list cell) (k : Z) (m : option measurement) : list cell :=
  match m with
  | None => row
  | Some m => match pyset row (Some (3 + k * 5)) (Some (8 + k * 5)) (cells m) with Some r => r | None => row end
  end.
Definition set_cell (row : list cell) (i : Z) (v : cell) : list cell :=
  match pyset row (Some i) (Some (i + 1)) [v] with Some r => r | None => row end.

(** What became of one trace of a station. *)
Inductive trace_result : Set :=
  | NoTrace                     (* missing, several traces, or not covering the window *)
  | NoResponse (id : string)    (* no instrument response, or its removal failed *)
  | BadPicks (id : string)      (* P pick not before the S pick *)
  | Measured (id : string) (picked : bool) (p s : option measurement) (noise : option Q).
(** amplitude.py:293-308: the template of a row. *)
Definition template (epi_dist z_dist : Q) : list cell :=
  [CStr ""; CNum epi_dist; CNum z_dist] ++ repeat CNan 11 ++ [CBool false].
(** amplitude.py:316-368: one row of the table. *)
Definition amp_row (station comp : string) (epi_dist z_dist : Q) (r : trace_result) : list cell :=
  let amps := template epi_dist z_dist in
  match r with
  | NoTrace => set_cell amps 0 (CStr (String.append "." (String.append station (String.append ".." comp))))
  | NoResponse id => set_cell amps 0 (CStr id)
  | BadPicks id => set_cell amps 0 (CStr id)
  | Measured id picked p s noise =>
      let amps := set_cell amps 0 (CStr id) in
      let amps := set_cell amps 14 (CBool picked) in
      let amps := set_phase (set_phase amps 0 p) 1 s in
      set_cell amps 13 (match noise with Some v => CNum v | None => CNan end)
  end.
(** [amplitudes.loc[label] = row]: the row with this label is replaced, or one is added. *)
Fixpoint set_row (t : list (Z * list cell)) (label : Z) (row : list cell) : list (Z * list cell) :=
  match t with
  | [] => [(label, row)]
  | (l, r) :: rest => if l =? label then (label, row) :: rest else (l, r) :: set_row rest label row
  end.
Definition components : list string := ["[E,2]"; "[N,1]"; "Z"]%string.
(** amplitude.py:286-370 get_amplitudes: the loops over stations and components. [stations]: name,
    epicentral and vertical distance. *)
Definition add_station (result : string -> string -> trace_result) (t : list (Z * list cell)) (i : Z) (s : string * Q * Q) : list (Z * list cell) :=
  let '(name, epi, z) := s in
  fold_left (fun t jc => set_row t (i * 3 + fst jc) (amp_row name (snd jc) epi z (result name (snd jc))))
    (combine (zrange 3) components) t.
Definition get_amplitudes (result : string -> string -> trace_result) (stations : list (string * Q * Q)) : list (Z * list cell) :=
  fold_left (fun t is => add_station result t (fst is) (snd is)) (combine (zrange (Z.of_nat (length stations))) stations) [].
(** amplitude.py:373-411 _get_distances, the vertical distance in kilometres; [unit_conversion_factor]
    is the length of a unit of the grid in metres. *)
Definition z_distance (evdp stel unit_conversion_factor : Q) : Q := ((evdp - stel) / (1000 / unit_conversion_factor))%Q.

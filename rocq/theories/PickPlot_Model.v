(** Model of the pick plot, plot/phase_picks.py, and of the call of it in signal/pickers/gaussian.py.

    The figure is what is drawn on its five axes: 0 the P panel, 1 and 2 the S panels, 3 and 4 the onset functions.
    SIMPLIFICATIONS: values are rationals; colours, texts, legend, the curve of the Gaussian and the file are left out, but
    for whether a pick is drawn grey. Times are ticks; sample [i] is at [start + i * delta]. *)
From Coq Require Import String Ascii.
From Coq Require Import List ZArith QArith Qminmax Qabs Bool.
From Verif Require Import Lib PySlice Timeline_Model Trigger_Model Picker_Model.
Import ListNotations.
Open Scope Z_scope.

(** A phase of the station: its data, pick window and pick threshold (None: NaN). *)
Record item : Set := mk_item { i_phase : phase_data; i_window : window; i_thresh : option Q }.

(** A modelled arrival with its pick window: phase, time, first and last sample of the window; a pick: phase, time, the times of its two uncertainty
    lines, in colour or grey. *)
Record span : Set := mk_span { sp_phase : string; sp_time : Z; sp_lo : Z; sp_hi : Z }.
Record pick_line : Set := mk_line { ln_phase : string; ln_time : Q; ln_lo : Q; ln_hi : Q; ln_colour : bool }.
(** [d_waves]: axis, curves, half-height; [d_onsets]: axis, phase, curve, threshold, height; [d_origin]: the axes with the line of the origin time. *)
Record drawing : Set := mk_drawing { d_xlim : Z * Z; d_waves : list (Z * (list (list Q) * Q)); d_onsets : list (Z * (string * list Q * option Q * Q));
  d_spans : list (Z * span); d_origin : list Z; d_picks : list (Z * pick_line) }.

(** [np.argmin] of [f] over the samples *)
Fixpoint argmin_from (f : Z -> Z) (best : Z) (l : list Z) : Z :=
  match l with [] => best | i :: r => argmin_from f (if f i <? f best then i else best) r end.
Definition argmin (f : Z -> Z) (n : Z) : outcome Z := match zrange n with [] => Raise ValueError | i :: r => Ret (argmin_from f i r) end.
(** [max] of a sequence *)
Definition qmax_list (l : list Q) : outcome Q := match l with [] => Raise ValueError | x :: r => Ret (fold_left Qmax r x) end.
(** Position of [l[i]] in a list of length [n] *)
Definition pyindex (n i : Z) : outcome Z :=
  if (- n <=? i) && (i <? n) then Ret (if i <? 0 then i + n else i) else Raise IndexError.
Definition zmin_list (d : Z) (l : list Z) : Z := fold_right Z.min d l.
Definition zmax_list (d : Z) (l : list Z) : Z := fold_right Z.max d l.

(** phase_picks.py:103-134: the samples shown; also the padded pick windows. *)
Definition plot_limits (c : clock) (start n otime : Z) (first last : item) (items : list item) : outcome (Z * Z * Z * Z) :=
  bind (argmin (fun i => Z.abs (2 * (start + i * delta c) - (2 * otime + ph_tt (i_phase first)))) n) (fun min_t_idx =>
  bind (argmin (fun i => Z.abs (2 * (start + i * delta c) - (2 * otime + 3 * ph_tt (i_phase last)))) n) (fun max_t_idx =>
  let min_win_idx := zmin_list (w_lo (i_window first)) (map (fun i => w_lo (i_window i)) items) - 10 in
  let max_win_idx := zmax_list (w_hi (i_window first)) (map (fun i => w_hi (i_window i)) items) + 10 in
  let min_idx := Z.min min_t_idx min_win_idx in
  let max_idx := Z.max max_t_idx max_win_idx in
  Ret (if min_idx <? 0 then 0 else min_idx, if n <=? max_idx then n - 1 else max_idx, min_win_idx, max_win_idx))).

(** [ax.plot(dtimes[a : b], y[a : b])]; matplotlib rejects curves of different lengths. *)
Definition curve (n a b : Z) (y : list Q) : outcome (list Q) :=
  let ys := pyslice y (Some a) (Some b) in
  if Nat.eqb (length ys) (length (pyslice (zrange n) (Some a) (Some b))) then Ret ys else Raise ValueError.

(** phase_picks.py:136-174: one panel of waveforms; [y] is the last of its traces when the limits are set. *)
Definition wave_panel (n min_idx max_idx min_win max_win : Z) (st : list (list Q)) : outcome (option (list (list Q) * Q)) :=
  match st with
  | [] => Ret None
  | _ => bind (outcome_map (curve n min_idx (max_idx + 1)) st) (fun curves =>
         bind (qmax_list (map Qabs (pyslice (List.last st []) (Some min_win) (Some (max_win + 1))))) (fun y_max =>
         Ret (Some (curves, y_max))))
  end.
Fixpoint wave_panels (n min_idx max_idx min_win max_win axis : Z) (panels : list (list (list Q))) : outcome (list (Z * (list (list Q) * Q))) :=
  match panels with
  | [] => Ret []
  | st :: r => bind (wave_panel n min_idx max_idx min_win max_win st) (fun w =>
               bind (wave_panels n min_idx max_idx min_win max_win (axis + 1) r) (fun l =>
               Ret match w with Some p => (axis, p) :: l | None => l end))
  end.

(** phase_picks.py:176-232: the onset functions, on as many axes as there are from [axis] to 4. [max(onset_max, thresh)] is [onset_max] if [thresh] is NaN. *)
Fixpoint onset_panels (n min_idx max_idx axis : Z) (items : list item) : outcome (list (Z * (string * list Q * option Q * Q))) :=
  match items with
  | [] => Ret []
  | it :: r =>
      if 5 <=? axis then Ret [] else
      bind (curve n min_idx (max_idx + 1) (ph_onset (i_phase it))) (fun y =>
      bind (qmax_list (pyslice (ph_onset (i_phase it)) (Some (w_lo (i_window it))) (Some (w_hi (i_window it) + 1)))) (fun onset_max =>
      let y_max := match i_thresh it with Some t => if negb (Qle_bool t onset_max) then t else onset_max | None => onset_max end in
      bind (onset_panels n min_idx max_idx (axis + 1) r) (fun l =>
      Ret ((axis, (ph_name (i_phase it), y, i_thresh it, y_max)) :: l))))
  end.

Definition is_single (name : string) (items : list item) : bool := match items with [it] => String.eqb (ph_name (i_phase it)) name | _ => false end.
(** phase_picks.py:234-245 *)
Definition axes_of (items : list item) : list Z :=
  match items with
  | [it] => if String.eqb (ph_name (i_phase it)) "P" then [0; 3] else [1; 2; 4]
  | _ => zrange 5
  end.
(** phase_picks.py:247-267 *)
Definition span_of (c : clock) (otime n : Z) (first last : item) (axis : Z) : outcome span :=
  let it := if axis mod 3 =? 0 then first else last in
  bind (pyindex n (w_lo (i_window it))) (fun lo => bind (pyindex n (w_hi (i_window it))) (fun hi =>
  Ret (mk_span (ph_name (i_phase it)) (otime + ph_tt (i_phase it)) lo hi))).

(** phase_picks.py:269-281, 302-321: the lines of one pick. *)
Definition pick_lines (axes : list Z) (row : pick_row) : list (Z * pick_line) :=
  match p_time row, p_error row with
  | Some t, Some err =>
      map (fun a => (a, mk_line (p_phase row) t (t - err / 2)%Q (t + err / 2)%Q (Bool.eqb (a mod 3 =? 0) (String.eqb (p_phase row) "P")))) axes
  | _, _ => []
  end.

(** phase_picks.py:20-299 pick_summary for a station with traces; [items] in the order of the phases. *)
Definition pick_summary (c : clock) (start n otime : Z) (panels : list (list (list Q))) (items : list item) (picks : list pick_row) : outcome drawing :=
  match items with
  | [] => Raise IndexError
  | first :: _ =>
      let last := List.last items first in
      bind (plot_limits c start n otime first last items) (fun lim =>
      let '(min_idx, max_idx, min_win, max_win) := lim in
      bind (wave_panels n min_idx max_idx min_win max_win 0 panels) (fun waves =>
      bind (onset_panels n min_idx max_idx (if is_single "S" items then 4 else 3) items) (fun onsets =>
      let axes := axes_of items in
      bind (outcome_map (fun a => bind (span_of c otime n first last a) (fun s => Ret (a, s))) axes) (fun spans =>
      Ret (mk_drawing (min_idx, max_idx) waves onsets spans
             (if start + min_idx * delta c <? otime then axes else []) (flat_map (pick_lines axes) picks))))))
  end.

(** gaussian.py:592-612 plot: a station without traces has no figure. [traces]: component and samples; [sel]: the selection of components for the three
    panels. *)
Definition plot (c : clock) (start otime : Z) (sel : list (ascii -> bool)) (traces : list (ascii * list Q)) (station : string) (items : list item)
    (table : list pick_row) : outcome (option drawing) :=
  match traces with
  | [] => Ret None
  | tr :: _ =>
      bind (pick_summary c start (Z.of_nat (length (snd tr))) otime
              (map (fun s => map snd (filter (fun t => s (fst t)) traces)) sel) items
              (filter (fun r => String.eqb (p_station r) station) table)) (fun d => Ret (Some d))
  end.

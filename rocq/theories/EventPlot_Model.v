(** Model of the event summary, plot/event.py: the waveform gather, the slices through the map, the legend, the uncertainty
    ellipses and the text.

    Waveform values are rationals, times are ticks (sample [i] of the waveforms is at [start + i * delta]), coordinates are reals.
    SIMPLIFICATIONS: what is drawn is listed, not its style, but for the number of its colour; layout, the xy files and
    the file of the figure are left out. [np.argsort] is a parameter: its order of equal values is not specified. *)
From Coq Require Import String Ascii.
From Coq Require Import List ZArith QArith Qabs Reals Bool.
From Verif Require Import Lib PyDict PySlice Timeline_Model Lut_Model Comps_Model Catalogue_Model PickPlot_Model Picker_Model.
Import ListNotations.
Open Scope Z_scope.

(** * The stations listed *)

(** [key.split("_")] *)
Fixpoint split_us (s : list ascii) : list (list ascii) :=
  match s with
  | [] => [[]]
  | c :: r => match split_us r with
              | w :: ws => if Ascii.eqb c "_" then [] :: w :: ws else (c :: w) :: ws
              | [] => []
              end
  end.
(** event.py:86-90 (the order of [list(set(...))] is left open: every order of the result without repetitions). *)
Fixpoint available_stations (availability : list (list ascii * Z)) : outcome (list (list ascii)) :=
  match availability with
  | [] => Ret []
  | (key, a) :: r =>
      match split_us key with
      | [station; _] => bind (available_stations r) (fun l => Ret (if a =? 1 then station :: l else l))
      | _ => Raise ValueError
      end
  end.

(** * Waveform gather *)

(** A marker: colour, phase and the points (time, row). *)
Record mark : Set := mk_mark { m_colour : Z; m_phase : string; m_points : list (Z * Z) }.
(** A waveform: station, component, phase, colour, row, the first sample shown and the values; [None]: not a number (division by zero). *)
Record wave : Set := mk_wave { v_station : string; v_comp : ascii; v_phase : string; v_colour : Z; v_row : Z; v_from : Z; v_values : list (option Q) }.
(** [g_xlim]: twice the times. *)
Record gather : Set := mk_gather { g_marks : list mark; g_waves : list wave; g_xlim : Z * Z; g_ylim : Z * Z; g_ticks : list (Z * string) }.
Record trace : Set := mk_trace { t_station : string; t_comp : ascii; t_data : list Q }.

(** event.py:222: [abs(np.argsort(np.argsort(arrivals)) - len(arrivals)) * 2] *)
Definition rows (argsort : list Z -> list Z) (arrivals : list Z) : list Z :=
  map (fun r => Z.abs (r - Z.of_nat (length arrivals)) * 2) (argsort (argsort arrivals)).
Definition max_of (l : list Z) : outcome Z := match l with [] => Raise ValueError | x :: r => Ret (fold_left Z.max r x) end.
(** event.py:252: the sample closest to a time, given as twice the time. *)
Definition closest (c : clock) (start n t2 : Z) : outcome Z := argmin (fun i => Z.abs (2 * (start + i * delta c) - t2)) n.
(** event.py:228-242: PICK_COLOURS are 0 and 1. *)
Definition pick_colours (phases : list string) : list Z :=
  match phases with
  | [p] => if String.eqb p "P" then [0] else [0; 1]
  | _ => [0; 1]
  end.
Definition marks (otime : Z) (phases : list string) (traveltimes : list (list Z)) (rws : list Z) : list mark :=
  map (fun x : (list Z * Z) * string => mk_mark (snd (fst x)) (snd x) (combine (map (fun tt => otime + tt) (fst (fst x))) rws))
    (combine (combine traveltimes (pick_colours phases)) phases).
(** event.py:262-281: one trace; [tts]: the traveltimes of the station. *)
Definition wave_of (c : clock) (start n otime mint_i maxt_i : Z) (tts : list Z) (colour row : Z) (phase : string) (t : trace) : outcome wave :=
  bind (max_of tts) (fun tt => bind (closest c start n (2 * otime + 3 * tt)) (fun stat_i =>
  bind (qmax_list (map Qabs (pyslice (t_data t) (Some mint_i) (Some stat_i)))) (fun norm =>
  Ret (mk_wave (t_station t) (t_comp t) phase colour row mint_i
         (map (fun v => if Qeq_bool norm 0 then None else Some (v / norm + inject_Z row)%Q) (pyslice (t_data t) (Some mint_i) (Some maxt_i))))))).
(** event.py:253-281: the traces of one station; [sel]: the components of the three panels. *)
Definition station_waves (c : clock) (start n otime mint_i maxt_i : Z) (sel : list (ascii -> bool)) (waveforms : list trace) (x : string * list Z * Z) : outcome (list wave) :=
  let '(station, tts, row) := x in
  let stn_waveforms := filter (fun t => String.eqb (t_station t) station) waveforms in
  bind (outcome_map (fun p : Z * (ascii -> bool) * string => let '(colour, s, phase) := p in
          outcome_map (wave_of c start n otime mint_i maxt_i tts colour row phase) (filter (fun t => s (t_comp t)) stn_waveforms))
        (combine (combine [0; 1; 2] sel) ["P"; "S"; "S"]%string)) (fun l => Ret (concat l)).
(** [traveltimes[:, i]] for every station *)
Definition column (traveltimes : list (list Z)) (i : Z) : list Z := flat_map (fun r => match rd r i with Some t => [t] | None => [] end) traveltimes.
(** event.py:188-290 _plot_waveform_gather; [traveltimes]: for every phase one traveltime per station. *)
Definition plot_gather (argsort : list Z -> list Z) (c : clock) (start n otime endtime : Z) (phases : list string) (traveltimes : list (list Z)) (stations : list string)
    (sel : list (ascii -> bool)) (waveforms : list trace) : outcome gather :=
  match traveltimes with
  | [] => Raise IndexError
  | first :: _ =>
      let range_order := rows argsort (map (fun tt => otime + tt) first) in
      bind (max_of range_order) (fun top =>
      bind (max_of (concat traveltimes)) (fun max_tt =>
      let mint := 2 * otime - 2 * (sec c / 10) in
      let maxt := Z.min (2 * otime + 3 * max_tt) (2 * endtime) in
      match waveforms with
      | [] => Raise IndexError
      | _ =>
      bind (closest c start n mint) (fun mint_i => bind (closest c start n maxt) (fun maxt_i =>
      bind (outcome_map (station_waves c start n otime mint_i maxt_i sel waveforms)
              (combine (combine stations (map (column traveltimes) (zrange (Z.of_nat (length stations))))) range_order)) (fun waves =>
      Ret (mk_gather (marks otime phases traveltimes range_order) (concat waves) (mint, maxt) (0, top + 2) (combine range_order stations)))))
      end))
  end.

(** * Slices *)

(** The nodes of a grid in the order of np.where. *)
Definition nodes (n : ijk) : list ijk :=
  let '(nx, ny, nz) := n in flat_map (fun i => flat_map (fun j => map (fun k => (i, j, k)) (zrange nz)) (zrange ny)) (zrange nx).
(** event.py:67-69: the first node where the map, without its invalid values ([None]), is largest. *)
Fixpoint best_from (f : ijk -> option Q) (best : option (ijk * Q)) (l : list ijk) : option (ijk * Q) :=
  match l with
  | [] => best
  | x :: r => best_from f (match f x, best with
                           | Some v, Some (_, b) => if Qle_bool v b then best else Some (x, v)
                           | Some v, None => Some (x, v)
                           | None, _ => best
                           end) r
  end.
Definition idx_max (n : ijk) (f : ijk -> option Q) : outcome ijk :=
  match best_from f None (nodes n) with Some (x, _) => Ret x | None => Raise IndexError end.
(** event.py:70-74: the slices as functions of their row and column: [coa_map[:, :, k]], [coa_map[:, j, :]], [coa_map[i, :, :].T] *)
Definition slices (f : ijk -> option Q) (x : ijk) : (Z -> Z -> option Q) * (Z -> Z -> option Q) * (Z -> Z -> option Q) :=
  let '(i, j, k) := x in (fun a b => f (a, b, k), fun a b => f (a, j, b), fun a b => f (i, b, a)).

(** * Legend *)

(** "Modelled P", "Z component (P)", "1, N component (S)" *)
Inductive label : Set := Modelled (phase : string) | Single (c : ascii) (phase : string) | Pair (b a : ascii) (phase : string).
Definition label_eqb (x y : label) : bool :=
  match x, y with
  | Modelled p, Modelled q => String.eqb p q
  | Single c p, Single d q => Ascii.eqb c d && String.eqb p q
  | Pair b a p, Pair b' a' q => Ascii.eqb b b' && Ascii.eqb a a' && String.eqb p q
  | _, _ => false
  end.
(** event.py:128-149: one pair of components. [text[1::2]] *)
Definition merge_step (labels : list label) (x : string * list ascii) : list label :=
  let '(ph, text) := x in
  match every_second (tl text) with
  | [cp1; cp2] =>
      if existsb (label_eqb (Single cp1 ph)) labels && existsb (label_eqb (Single cp2 ph)) labels
      then map (fun l => if label_eqb l (Single cp1 ph) || label_eqb l (Single cp2 ph) then Pair cp2 cp1 ph else l) labels
      else labels
  | _ => labels
  end.
(** [dict(zip(labels, handles))] *)
Fixpoint by_label {H} (l : list (label * H)) (d : list (label * H)) : list (label * H) :=
  match l with
  | [] => d
  | (k, h) :: r => by_label r (if existsb (fun x => label_eqb (fst x) k) d then map (fun x => if label_eqb (fst x) k then (k, h) else x) d else d ++ [(k, h)])
  end.
(** event.py:119-150; [handles]: label and colour of everything drawn on the gather. *)
Definition legend {H} (texts : list ascii * list ascii * list ascii) (handles : list (label * H)) : list (label * H) :=
  let '(p, s1, s2) := texts in
  by_label (combine (fold_left merge_step [("P", p); ("S", s1); ("S", s2)]%string (map fst handles)) (map snd handles)) [].

(** * Ellipses *)

(** Centre, width and height. *)
Definition ellipse : Set := (R * R * (R * R))%type.
(** event.py:397-425 _make_ellipses, in the order of the axes: map, XZ and YZ section. *)
Definition make_ellipses (transform : Z -> Z -> vec -> vec) (gproj cproj : Z) (coord error : vec) : ellipse * ellipse * ellipse :=
  let xyz := coord2grid transform gproj cproj false coord in
  let '(x, y, z) := coord in
  let '(dx, dy, dz) := vmap2 (fun a b => Rabs (a - b)) coord (coord2grid transform gproj cproj true (vmap2 Rplus xyz error)) in
  ((x, y, (2 * dx, 2 * dy)), (x, z, (2 * dx, 2 * dz)), (z, y, (2 * dz, 2 * dy)))%R.

(** * Text *)

(** event.py:341-353: latitude, longitude and depth with their uncertainties as shown (degrees, km); [cf]: lut.unit_conversion_factor. *)
Definition text_summary (prec : ijk) (km : bool) (cf : R) (hypocentre uncertainty : vec) : (R * R) * (R * R) * (R * R) :=
  let km_cf := (1000 / cf)%R in
  let '(px, py, pz) := prec in let '(x, y, z) := hypocentre in let '(ux, uy, uz) := uncertainty in
  let dz := z_decimals km pz in
  let unc u := round_to dz (u / km_cf) in
  ((round_to (xy_decimals py) y, unc uy), (round_to (xy_decimals px) x, unc ux), (round_to dz z / km_cf, unc uz))%R.

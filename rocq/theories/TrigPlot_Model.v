(** Model of the trigger summary, plot/trigger.py: what is drawn of the traces, thresholds, events, region and station availability.

    SIMPLIFICATIONS: exact numbers; times are ticks; what is drawn is listed, not its style; the axes of a map are numbered map, XZ and YZ section; layout, xy files, the map of the
    lookup table (LutPlot_Model) and the figure file are left out. Availability tables have no missing values. *)
From Coq Require Import String Ascii.
From Coq Require Import List ZArith QArith Bool.
From Verif Require Import Lib Timeline_Model Lut_Model Avail_Model Trigger_Model.
Import ListNotations.
Open Scope Z_scope.

(** * Station availability *)

Definition phase_part (col : string) : outcome string :=
  match split_on underscore col with _ :: p :: _ => Ret p | _ => Raise IndexError end.
Fixpoint phase_parts (cols : list string) : outcome (list string) :=
  match cols with
  | [] => Ret []
  | x :: r => bind (phase_part x) (fun p => bind (phase_parts r) (fun l => Ret (p :: l)))
  end.
(** [sorted(set(l))] *)
Fixpoint insert_name (x : string) (l : list string) : list string :=
  match l with
  | [] => [x]
  | y :: r => match String.compare x y with Lt => x :: l | Eq => l | Gt => y :: insert_name x r end
  end.
Definition sorted_set (l : list string) : list string := fold_right insert_name [] l.
(** [filter(like=...)]: the name contains the text; [filter(regex=...$)]: it ends with it. *)
Fixpoint contains (x s : string) : bool := String.prefix x s || match s with EmptyString => false | String _ r => contains x r end.
Fixpoint ends_with (x s : string) : bool := String.eqb x s || match s with EmptyString => false | String _ r => ends_with x r end.
(** The values of the columns chosen, row by row. *)
Definition select (f : string -> bool) (t : atable) : list (Z * list Z) :=
  map (fun r : Z * list Z => (fst r, map snd (filter (fun x => f (fst x)) (combine (at_cols t) (snd r))))) (at_rows t).
(** A line: phase ("*": by station), colour (0: P, 1: S, 2: by station) and points. *)
Record aline : Set := mk_aline { al_phase : string; al_colour : Z; al_points : list (Z * Z) }.
Definition list_sum (l : list Z) : Z := fold_right Z.add 0 l.
Definition max_list (l : list Z) : outcome Z := match l with [] => Raise ValueError | x :: r => Ret (fold_right Z.max x r) end.
Definition min_list (l : list Z) : outcome Z := match l with [] => Raise ValueError | x :: r => Ret (fold_right Z.min x r) end.
(** plot/trigger.py:233-264: phases drawn, colours and the divisor. Arrays of different shapes: [Undef]. *)
Definition by_phase (t : atable) (phases : list string) : outcome (list (string * Z) * Z) :=
  match phases with
  | [] => Raise IndexError
  | [p] => Ret ([(p, if String.eqb p "P" then 0 else 1)], 1)
  | [p; q] =>
      let a := select (contains ("_" ++ p)) t in let b := select (contains ("_" ++ q)) t in
      if negb (forallb (fun x : (Z * list Z) * (Z * list Z) => Nat.eqb (length (snd (fst x))) (length (snd (snd x)))) (combine a b)) then Undef
      else if forallb (fun x : (Z * list Z) * (Z * list Z) => forallb (fun y : Z * Z => fst y =? snd y) (combine (snd (fst x)) (snd (snd x)))) (combine a b)
      then Ret ([("*"%string, 2)], 2) else Ret ([(p, 0); (q, 1)], 1)
  | _ => Ret ([("*"%string, 2)], 1)
  end.
(** plot/trigger.py:269-289: one line; [(available / divideby).astype(int)] *)
Definition phase_line (t : atable) (endtime divideby : Z) (x : string * Z) : outcome aline :=
  let '(phase, colour) := x in
  let sel := select (if String.eqb phase "*" then fun _ => true else ends_with ("_" ++ phase)) t in
  let available := map (fun r => Z.quot (list_sum (snd r)) divideby) sel in
  match rev available with
  | [] => Raise IndexError
  | z :: _ => Ret (mk_aline phase colour (combine (map fst sel ++ [endtime]) (available ++ [z])))
  end.
Fixpoint phase_lines (t : atable) (endtime divideby : Z) (l : list (string * Z)) : outcome (list aline) :=
  match l with
  | [] => Ret []
  | x :: r => bind (phase_line t endtime divideby x) (fun a => bind (phase_lines t endtime divideby r) (fun b => Ret (a :: b)))
  end.
(** plot/trigger.py:218-298 _plot_station_availability; limits: [int(m * 0.8)] and [int(np.ceil(M * 1.1))]. *)
Definition plot_availability (t : atable) (endtime : Z) : outcome (list aline * (Z * Z)) :=
  bind (phase_parts (at_cols t)) (fun l =>
  bind (by_phase t (sorted_set l)) (fun p =>
  bind (phase_lines t endtime (snd p) (fst p)) (fun lines =>
  let vs := concat (map (fun a => map snd (al_points a)) lines) in
  bind (max_list vs) (fun hi => bind (min_list vs) (fun lo =>
  Ret (lines, (Z.quot (lo * 4) 5, - (- (hi * 11) / 10)))))))).
(** plot/trigger.py:130-142: the stations on the map. *)
Definition map_stations (plot_all : bool) (t : atable) : list string :=
  if plot_all then map head_part (at_cols t)
  else map head_part (filter (fun c => match column t c with Ret v => existsb (Z.eqb 1) v | _ => false end) (at_cols t)).

(** * Events *)

Inductive kind : Set := Interval | Marginal | Discarded.
Record span : Set := mk_span { sp_kind : kind; sp_from : Z; sp_to : Z }.
(** plot/trigger.py:398-444 _plot_event_windows: spans and lines (kept or not, time), the same on both traces. *)
Definition event_spans (mw : Z) (discarded : bool) (events : list event) : list span :=
  flat_map (fun ev => let e := cand ev in
    if discarded then [mk_span Discarded (MinTime e) (MaxTime e)]
    else [mk_span Interval (MinTime e) (CoaTime e - mw); mk_span Interval (CoaTime e + mw) (MaxTime e); mk_span Marginal (CoaTime e - mw) (CoaTime e + mw)]) events.
Definition event_lines (discarded : bool) (events : list event) : list (bool * Z) := map (fun ev => (negb discarded, CoaTime (cand ev))) events.
(** plot/trigger.py:350-395 _plot_event_scatter: the points of the three axes, in order of the events; the values of the colours and their limits. *)
Record scatter : Set := mk_scatter { sc_xy : list (Q * Q); sc_xz : list (Q * Q); sc_yz : list (Q * Q); sc_colours : option (list Q * (Q * Q)) }.
Definition qmin_list (l : list Q) : option Q := match l with [] => None | x :: r => Some (fold_right (fun a b => if Qle_bool a b then a else b) x r) end.
Definition qmax_list' (l : list Q) : option Q := match l with [] => None | x :: r => Some (fold_right (fun a b => if Qle_bool a b then b else a) x r) end.
Definition event_scatter (discarded : bool) (events : list event) : scatter :=
  let es := map cand events in
  mk_scatter (map (fun e => (COA_X e, COA_Y e)) es) (map (fun e => (COA_X e, COA_Z e)) es) (map (fun e => (COA_Z e, COA_Y e)) es)
    (if discarded then None else
     match qmin_list (map TRIG_COA es), qmax_list' (map TRIG_COA es) with
     | Some lo, Some hi => Some (map TRIG_COA es, (lo * (999 # 1000), hi * (1001 # 1000))%Q)
     | _, _ => None
     end).
(** plot/trigger.py:497-538 _plot_trigger_region *)
Definition region_boxes (g : region) : list (list (Q * Q)) :=
  [ combine [xmin g; xmin g; xmax g; xmax g; xmin g] [ymin g; ymax g; ymax g; ymin g; ymin g];
    combine [xmin g; xmin g; xmax g; xmax g; xmin g] [zmin g; zmax_ g; zmax_ g; zmin g; zmin g];
    combine [zmin g; zmax_ g; zmax_ g; zmin g; zmin g] [ymin g; ymin g; ymax g; ymax g; ymin g] ].

(** * The summary *)

Record trig_plot : Type := mk_trig_plot {
  tp_xlim : Z * Z; tp_traces : list (list (Z * Q)); tp_threshold : Z * list (Z * Q);
  tp_spans : list span; tp_lines : list (bool * Z); tp_scatters : list scatter; tp_boxes : list (list (Q * Q));
  tp_stations : option (list string); tp_avail : option (list aline * (Z * Z)); tp_text : bool * Z }.
(** plot/trigger.py:25-215 trigger_summary; [availability]: what read_availability found. [step] needs as many thresholds as times. *)
Definition trigger_summary (mw : Z) (normalise : bool) (availability : option atable) (plot_all : bool) (reg : option region)
    (events discarded : list event) (starttime endtime : Z) (threshold : list Q) (data : list scanrow) : outcome trig_plot :=
  let dt := map DT data in
  bind (match availability with None => Ret None | Some t => bind (plot_availability t endtime) (fun a => Ret (Some a)) end) (fun av =>
  let drawn_discarded := match reg with Some _ => discarded | None => [] end in
  if negb (Nat.eqb (length dt) (length threshold)) then Raise ValueError
  else Ret (mk_trig_plot (starttime, endtime) [combine dt (map COA data); combine dt (map COA_N data)]
    (if normalise then 1 else 0, combine dt threshold)
    (event_spans mw true drawn_discarded ++ event_spans mw false events)
    (event_lines true drawn_discarded ++ event_lines false events)
    ((match reg with Some _ => [event_scatter true discarded] | None => [] end) ++ (match events with [] => [] | _ => [event_scatter false events] end))
    (match reg with Some g => region_boxes g | None => [] end)
    (option_map (map_stations plot_all) availability) av (normalise, Z.of_nat (length events)))).

(** signal/trigger.py:318-401: the summary of a batch. [refined_events.index.isin(events.index)]: an event is kept or not by itself. *)
Definition discarded_events (refined : list event) (s e : Z) (reg : option region) : list event :=
  filter (fun x => match filter_events [x] s e reg with [] => true | _ => false end) refined.
Definition batch_summary (c : clock) (p : params) (read : Z -> Z -> outcome (list scanrow)) (reg : option region) (availability : option atable) (plot_all : bool)
    (batchstart batchend : Z) : outcome trig_plot :=
  bind (read batchstart batchend) (fun data =>
  let batchend := if batchend mod day c =? 0 then batchend - delta c else batchend in
  let threshold := get_threshold p (map (trigger_on p) data) (Qmake (sec c) (Z.to_pos (delta c))) in
  bind (identify_candidates p data threshold) (fun cands =>
  bind (match cands with
        | [] => Ret ([], [])
        | _ => bind (refine_candidates c p cands) (fun refined => Ret (filter_events refined batchstart batchend reg, discarded_events refined batchstart batchend reg))
        end) (fun ed =>
  trigger_summary (marginal_window p) (normalise_coalescence p) availability plot_all reg (fst ed) (snd ed) batchstart batchend threshold data))).

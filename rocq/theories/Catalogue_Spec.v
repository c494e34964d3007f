(** Vocabulary for the statements about event files and exported catalogues. *)
From Coq Require Import String Ascii.
From Coq Require Import List ZArith Reals.
From Verif Require Import Lib PyDict Lut_Model Mag_Model Export_Model Catalogue_Model.
Import ListNotations.
Open Scope R_scope.

(** [y] is [x] up to an error of [e]. *)
Definition near (e y x : R) : Prop := Rabs (y - x) <= e.
(** The coordinates of two neighbouring nodes on a diagonal of the grid differ in all axes; the
    difference on each axis. *)
Definition node_steps (transform : Z -> Z -> vec -> vec) (g : grid) (steps : vec) : Prop :=
  let '(a, b, c) := index2coord transform g (0, 0, 0)%Z in let '(p, q, r) := index2coord transform g (1, 1, 1)%Z in
  steps = (Rabs (a - p), Rabs (b - q), Rabs (c - r)) /\ a <> p /\ b <> q /\ c <> r.
(** The picks of the catalogue are the modelled arrivals of all rows, and the measured ones. *)
Definition picks_match (rows : list pick_row) (picks : list pick) : Prop :=
  map (fun p => (pk_station p, pk_phase p, pk_time p)) (filter (fun p => String.eqb (pk_method p) "modelled") picks)
  = map (fun r => (r_station r, r_phase r, r_model r)) rows
  /\ map (fun p => (pk_station p, pk_phase p, pk_time p, pk_unc p)) (filter (fun p => String.eqb (pk_method p) "autopick") picks)
     = flat_map (fun r => match r_pick r with Some (t, err, _) => [(r_station r, r_phase r, t, Some err)] | None => [] end) rows
  /\ Forall (fun p => pk_method p = "modelled"%string \/ pk_method p = "autopick"%string) picks.
(** A row of the pick file shows a row of the pick table: uncertainties have three digits. *)
Definition same_pick (r w : pick_row) : Prop :=
  r_station w = r_station r /\ r_phase w = r_phase r /\ r_model w = r_model r
  /\ match r_pick r, r_pick w with
     | None, None => True
     | Some (t, err, snr), Some (t', err', snr') => t' = t /\ near (Rabs err / 200) err' err /\ near (Rabs snr / 200) snr' snr
     | _, _ => False
     end.
(** The station of a trace id "network.station.location.channel". *)
Fixpoint after_dot (s : string) : string :=
  match s with EmptyString => EmptyString | String c r => if Ascii.eqb c "."%char then r else after_dot r end.
Fixpoint before_dot (s : string) : string :=
  match s with EmptyString => EmptyString | String c r => if Ascii.eqb c "."%char then EmptyString else String c (before_dot r) end.
Definition station_of (id : string) : string := before_dot (after_dot id).
(** The files hold the located events [items], each with its picks, and magnitudes if there are amplitudes. *)
Definition run_of (prec : ijk) (km : bool) (items : list (located * list pick_row)) (rf : run_files) : Prop :=
  rf_events rf = Some (map (fun it => (l_uid (fst it), write_event prec km (fst it))) items)
  /\ (forall e rows, In (e, rows) items -> dget (rf_picks rf) (l_uid e) = Some (write_picks rows))
  /\ (forall e rows amps, In (e, rows) items -> dget (rf_amps rf) (l_uid e) = Some amps ->
        l_ml e <> None /\ Forall (fun r => am_ml r <> None) amps).
(** A magnitude shows [x] with three digits. *)
Definition near_ext (e : R) (y x : ext) : Prop := match x, y with Fin a, Fin b => near (Rabs a * e) b a | _, _ => y = x end.
(** The origin is at [v], given in units of [k] metres; [steps]: the node spacing. *)
Definition located_at (steps : vec) (k : R) (e : located) (v : vec) (o : origin) : Prop :=
  let '(x, y, z) := v in let '(sx, sy, sz) := steps in let '(gx, gy, gz) := l_gau_err e in
  or_time o = l_otime e
  /\ near (sx / 200) (or_lon o) x /\ near (5 / 10000000) (or_lon o) x
  /\ near (sy / 200) (or_lat o) y /\ near (5 / 10000000) (or_lat o) y
  /\ near (sz / 200 * k) (or_depth o) (z * k) /\ near (1 / 2) (or_depth o) (z * k)
  /\ near (km2deg (1 / 2000)) (or_lon_err o) (km2deg (gx * k / 1000)) /\ near (km2deg (1 / 2000)) (or_lat_err o) (km2deg (gy * k / 1000))
  /\ near (1 / 2) (or_depth_err o) (gz * k).
(** The time of an arrival: measured, or modelled if the pick failed. *)
Definition best_time (r : pick_row) : Z := match r_pick r with Some (t, _, _) => t | None => r_model r end.
(** [r] is the row of the station and phase in the pick table. *)
Definition only_row (rows : list pick_row) (station phase : string) (r : pick_row) : Prop :=
  In r rows /\ r_station r = station /\ r_phase r = phase
  /\ forall r', In r' rows -> r_station r' = station -> r_phase r' = phase -> r' = r.
Definition start_together (stream : list trace) (station : string) : Prop :=
  forall t t', In t stream -> In t' stream -> t_station t = station -> t_station t' = station -> t_start t = t_start t'.
(** The last letter of the channel of a component. *)
Definition component_letter (comp : string) (c : ascii) : Prop :=
  (comp = "z"%string /\ c = "Z"%char) \/ (comp = "n"%string /\ c = "N"%char) \/ (comp = "e"%string /\ c = "E"%char).
Definition last_letter (s : string) (c : ascii) : Prop := exists p, s = (p ++ String c EmptyString)%string.

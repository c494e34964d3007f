(** Vocabulary for the statements about the scan of an archive. *)
From Coq Require Import String.
From Coq Require Import List ZArith QArith Reals.
From Verif Require Import Lib PyDict Timeline_Model Timeline_Spec ScanMseed_Model Migrate_Spec Lut_Model Lut_Spec Locate_Spec Resample_Spec Onset_Model Onset_Spec Compute_Spec.
Import ListNotations.
Open Scope Z_scope.

(** The stack at sample [i] for a source at the node [q]: the geometric mean of the onset functions (not below 0.01) at the arrival times. *)
Definition stacked (d : dict (dict (list (option R)))) (used : list (string * string)) (tt : string -> string -> ijk -> Z) (i : Z) (q : ijk) : R :=
  geometric_mean (map (fun sp => Rmax (onset_value d (fst sp) (snd sp) (i + Z.max 0 (tt (fst sp) (snd sp) q))) (1 / 100)) used).
(** The row describes the largest value of [f] on the grid: the value, its ratio to the mean over the grid, and the coordinates of the node (of the first one, if there are several). *)
Definition is_peak (n : ijk) (coord : ijk -> vec) (f : ijk -> R) (r : row R) : Prop :=
  exists q, is_node n q /\ (forall q', is_node n q' -> (f q' <= f q)%R) /\ (forall q', is_node n q' -> flat n q' < flat n q -> (f q' < f q)%R)
  /\ coa r = f q /\ coa_n r = (f q / arithmetic_mean (map f (all_nodes n)))%R /\ (px r, py r, pz r) = coord q.
(** The coordinates of a node in the input projection. *)
Definition node_coord (transform : Z -> Z -> vec -> vec) (g : grid) (q : ijk) : vec :=
  transform (g_gproj g) (g_cproj g) (let '(lx, ly, lz) := g_ll g in let '(sx, sy, sz) := g_spacing g in let '(i, j, h) := q in (lx + IZR i * sx, ly + IZR j * sy, lz + IZR h * sz)%R).
(** Exceptions that mean: no data for this timestep. *)
Definition no_data (e : exn) : Prop := e = ArchiveEmpty \/ e = DataGapException \/ e = DataAvailabilityException.

(** A scan that can be made: settings, lookup table and times. [tab]: the traveltimes of a station and phase; [pre], [post]: the pads. *)
Record scan_ready (lowpass : Z -> list R -> list R) (taper : list R -> list R) (tiny : R) (secs : Z) (k : onset_cfg) (transform : Z -> Z -> vec -> vec) (ucf : R) (l : lut)
  (tab : string -> string -> table) (stations : list string) (starttime timestep pre post : Z) : Prop := {
  sr_ticks : ticks_ok secs (o_rate k); sr_tiny : (0 < tiny <= 1)%R; sr_python : o_python k = true;
  sr_lowpass : forall dd x, length (lowpass dd x) = length x; sr_taper : forall x, length (taper x) = length x; sr_transform : forall x, length (o_transform k x) = length x;
  sr_ms : whole_ms (o_clock secs k); sr_step : 0 < timestep <= 86400 * secs; sr_whole : (secs / o_rate k | timestep); sr_start : (secs / o_rate k | starttime);
  sr_pre0 : 0 <= stalta_pre_pad (map (fun kv => (ph_sta (snd kv), ph_lta (snd kv))) (o_cfg k)); sr_post0 : 0 <= o_post k;
  sr_pads : onset_pad (o_clock secs k) timestep (stalta_pre_pad (map (fun kv => (ph_sta (snd kv), ph_lta (snd kv))) (o_cfg k))) (o_post k) = (pre, post);
  sr_phases : forall ph, In ph (o_phases k) -> exists pc, dget (o_cfg k) ph = Some pc
    /\ (let nsta := stw_samples (o_clock secs k) (ph_sta pc) in let nlta := ltw_samples (o_clock secs k) (ph_lta pc) in 1 <= nsta < nlta /\ nlta + nsta <= (timestep + pre + post) / (secs / o_rate k))
    /\ (o_all k = true -> 0 < ph_count pc) /\ (forall dd x, length (ph_band pc dd x) = length x) /\ (ph_highcut pc < inject_Z (o_rate k) * (1 # 2))%Q;
  sr_grid : grid_ok (l_grid l); sr_nd_phases : NoDup (o_phases k); sr_nd_stations : NoDup stations; sr_pl_phases : Forall plain_name (o_phases k); sr_pl_stations : Forall plain_name stations;
  sr_tables : forall s p, In s stations -> In p (o_phases k) -> table_of l s p (tab s p) /\ has_shape (tab s p) (g_count (l_grid l))
    /\ forall q, is_node (g_count (l_grid l)) q -> (-2147483648 <= entry0 (tab s p) q * IZR (o_rate k) <= IZR (post / (secs / o_rate k)))%R;
  sr_size : Z.of_nat (length (o_phases k) * length stations) * ((timestep + pre + post) / (secs / o_rate k)) < 2147483648;
  sr_ucf : (0 < ucf)%R;
  sr_coords : forall q, is_node (g_count (l_grid l)) q -> let '(x, y, z) := node_coord transform (l_grid l) q in (Rabs x <= 2147 /\ Rabs y <= 2147 /\ Rabs (z * (1000 * ucf)) <= 2147483647)%R }.
(** What the archive may answer for a window: no data, or traces on their sampling times, of the given stations. *)
Definition answers (secs : Z) (k : onset_cfg) (stations : list string) (a b : Z) (o : outcome wdata) : Prop :=
  (exists e, o = Raise e /\ no_data e)
  \/ exists d, o = Ret d /\ d_start d = a /\ d_end d = b /\ d_stations d = stations /\ Forall (usable secs (o_rate k) (d_resample d) (d_upfactor d) a b) (d_waveforms d).

(** The stations of each phase in turn; 1 for a station and phase with an onset function, 0 for the others. *)
Definition pairs_of (phases stations : list string) : list (string * string) := flat_map (fun p => map (fun s => (s, p)) stations) phases.
Definition flag (d : dict (dict (list (option R)))) (sp : string * string) : Z := match onset_for d (fst sp) (snd sp) with Some _ => 1 | None => 0 end.
(** What a timestep with the answer [o] of the archive should give: zeros if there are no data; otherwise, for each sample, the peak of the stack of the onset functions, and the flags. *)
Definition step_result (lowpass : Z -> list R -> list R) (taper : list R -> list R) (tiny : R) (secs : Z) (k : onset_cfg) (transform : Z -> Z -> vec -> vec) (l : lut) (tab : string -> string -> table)
  (stations : list string) (pre : Z) (o : outcome wdata) (rs : list (row R)) (a : list Z) : Prop :=
  (((exists e, o = Raise e /\ no_data e) \/ exists d, o = Ret d /\ calculate_onsets lowpass taper tiny secs k d None = Raise DataAvailabilityException)
   /\ Forall (eq (mk_row 0 0 0 0 0)%R) rs /\ length a = length (pairs_of (o_phases k) stations) /\ Forall (eq 0) a)
  \/ exists d r (tt : string -> string -> ijk -> Z), o = Ret d /\ calculate_onsets lowpass taper tiny secs k d None = Ret r
     /\ (forall s p q, (Rabs (IZR (tt s p q) - entry0 (tab s p) q * IZR (o_rate k)) <= 1 / 2)%R)
     /\ a = map (flag (l_dict r)) (pairs_of (o_phases k) stations)
     /\ forall j row, rd rs j = Some row ->
          is_peak (g_count (l_grid l)) (node_coord transform (l_grid l)) (stacked (l_dict r) (with_onset (l_dict r) (o_phases k) stations) tt (pre / (secs / o_rate k) + j)) row.

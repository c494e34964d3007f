(** Vocabulary for the statements about the coalescence as a function of the records. Times are counted in samples; sample [t] is at the time [t * (secs / o_rate k)]. *)
From Coq Require Import String Ascii.
From Coq Require Import List ZArith Reals Bool.
From Verif Require Import Lib PyDict Timeline_Model StaLta_Model Archive_Model Avail_Model Read_Model StaLta_Spec Migrate_Spec Lut_Spec Resample_Spec Onset_Model Onset_Spec Window_Spec.
From Verif Require Lut_Model ScanMseed_Model.
Import ListNotations.
Open Scope Z_scope.

(** [y ph i] is the channel [i] after the filter and the transform for the phase [ph], wherever a window is far enough from its ends. *)
Definition processed (secs : Z) (k : onset_cfg) (m : Z -> Z) (x : string -> Z -> R) (ids : list string) (y : string -> string -> Z -> R) : Prop :=
  forall ph pc i a n t, In ph (o_phases k) -> dget (o_cfg k) ph = Some pc -> In i ids -> a + m n <= t < a + n - m n ->
  sample (o_transform k (ph_band pc (secs / o_rate k) (cut (x i) a n))) (t - a) = y ph i t.

(** The STA/LTA ratio of a signal: the mean of [nsta] samples after [t] (or up to it), over that of the [nlta] samples up to [t]. *)
Definition ratio (centred : bool) (nsta nlta : Z) (y : Z -> R) (t : Z) : R :=
  (window_mean y (if centred then t + 1 else t - nsta + 1) nsta / window_mean y (t - nlta + 1) nlta)%R.

(** The channels of a station for a phase: those with the name of the station before the dot, and a name that matches the pattern of the phase after it. *)
Definition channels_of (pc : phase_cfg) (ids : list string) (s : string) : list string :=
  filter (fun i => let '(a, b) := at_dot (list_ascii_of_string i) in fnmatch (ph_map pc) b && String.eqb (string_of_list_ascii a) s) ids.
Definition has_onset (k : onset_cfg) (ids : list string) (s ph : string) : bool :=
  match dget (o_cfg k) ph with
  | Some pc => match channels_of pc ids s with [] => false | cs => if o_all k then Z.of_nat (length cs) =? ph_count pc else true end
  | None => false
  end.
(** The onset function: the root mean square of the ratios of the channels, not below the floor. *)
Definition onset_of (secs : Z) (k : onset_cfg) (ids : list string) (y : string -> string -> Z -> R) (s ph : string) (t : Z) : R :=
  match dget (o_cfg k) ph with
  | Some pc => Rmax (rms (map (fun i => ratio (o_centred k) (stw_samples (o_clock secs k) (ph_sta pc)) (ltw_samples (o_clock secs k) (ph_lta pc)) (y ph i) t) (channels_of pc ids s))) (o_floor k)
  | None => 0%R
  end.
(** The stations and phases with an onset function. *)
Definition contributing (k : onset_cfg) (ids stations : list string) : list (string * string) := filter (fun sp => has_onset k ids (fst sp) (snd sp)) (pairs (o_phases k) stations).
(** The arrival of a phase at a station from a node: a traveltime (in whole samples, none below 0) after the origin time. *)
Definition arrive (k : onset_cfg) (tab : string -> string -> Lut_Model.table) (s ph : string) (q : Lut_Model.ijk) (t : Z) : Z := t + Z.max 0 (ScanMseed_Model.np_round (entry0 (tab s ph) q * IZR (o_rate k))).
(** The coalescence of a node at a time: the geometric mean of the onset functions (not below 0.01) at the arrivals. *)
Definition coalescence_of (secs : Z) (k : onset_cfg) (tab : string -> string -> Lut_Model.table) (ids stations : list string) (y : string -> string -> Z -> R) (t : Z) (q : Lut_Model.ijk) : R :=
  geometric_mean (map (fun sp => Rmax (onset_of secs k ids y (fst sp) (snd sp) (arrive k tab (fst sp) (snd sp) q t)) (1 / 100)) (contributing k ids stations)).

(** A source at the node [q0] at the sample [t0]: each onset function has its largest value at the arrival from the source, and no other node and time, of those in [T], have the same arrivals. *)
Record source (secs : Z) (k : onset_cfg) (tab : string -> string -> Lut_Model.table) (ids stations : list string) (y : string -> string -> Z -> R) (n : Lut_Model.ijk) (T : Z -> Prop) (t0 : Z) (q0 : Lut_Model.ijk) : Prop := {
  so_node : is_node n q0;
  so_seen : forall s ph, In (s, ph) (contributing k ids stations) -> (1 / 100 < onset_of secs k ids y s ph (arrive k tab s ph q0 t0))%R;
  so_peak : forall s ph t q, In (s, ph) (contributing k ids stations) -> T t -> is_node n q -> arrive k tab s ph q t <> arrive k tab s ph q0 t0 -> (onset_of secs k ids y s ph (arrive k tab s ph q t) < onset_of secs k ids y s ph (arrive k tab s ph q0 t0))%R;
  so_unique : forall t q, T t -> is_node n q -> (t, q) <> (t0, q0) -> exists s ph, In (s, ph) (contributing k ids stations) /\ arrive k tab s ph q t <> arrive k tab s ph q0 t0 }.

(** The hypotheses of [steady] about the settings, the channels and the traveltimes, without the one about the filter. *)
Record regular (secs : Z) (k : onset_cfg) (l : Lut_Model.lut) (tab : string -> string -> Lut_Model.table) (ids stations : list string) (reach : Z) : Prop := {
  rg_gaps : o_gaps k = false; rg_full : o_full k = true; rg_ids : NoDup ids; rg_dots : Forall plain_station stations; rg_reach : 0 <= reach;
  rg_times : forall s p q, In s stations -> In p (o_phases k) -> is_node (Lut_Model.g_count (Lut_Model.l_grid l)) q -> (entry0 (tab s p) q * IZR (o_rate k) <= IZR reach)%R }.

(** Vocabulary for the statements about the same sample in two time windows. *)
From Coq Require Import String.
From Coq Require Import List ZArith Reals.
From Verif Require Import Lib PyDict Timeline_Model Avail_Model Avail_Spec Migrate_Spec Lut_Spec Locate_Spec Resample_Spec Onset_Model Onset_Spec StationSet_Spec.
From Verif Require Lut_Model.
Import ListNotations.
Open Scope Z_scope.

(** [n] samples of a signal, from sample [a]. *)
Definition cut (x : Z -> R) (a n : Z) : list R := array1 n (fun j => x (a + j)).
(** A step in the processing whose result at a sample, more than [m n] samples from the ends of [n], does not depend on where the signal was cut. *)
Definition settles (m : Z -> Z) (f : list R -> list R) : Prop :=
  forall x a n a' n' t, a + m n <= t < a + n - m n -> a' + m n' <= t < a' + n' - m n' -> sample (f (cut x a n)) (t - a) = sample (f (cut x a' n')) (t - a').

(** The data are one trace for each channel of [ids], at the output rate, for the whole window: sample [j], at the time [j * (secs / o_rate k)], of the channel [i] is [x i j]. *)
Definition window_of (secs : Z) (k : onset_cfg) (x : string -> Z -> R) (d : wdata) (i : string) : list R :=
  cut (x i) (d_start d / (secs / o_rate k)) (n_window secs (o_rate k) (d_start d) (d_end d)).
Definition recorded (secs : Z) (k : onset_cfg) (x : string -> Z -> R) (ids : list string) (d : wdata) : Prop :=
  d_waveforms d = map (fun i => mk_seg i (d_start d) (secs / o_rate k) (window_of secs k x d i)) ids.
(** After the filter, no channel is flat; after the transform, no long-term average vanishes. *)
Definition lively (tiny : R) (secs : Z) (k : onset_cfg) (x : string -> Z -> R) (ids : list string) (d : wdata) : Prop :=
  forall ph pc i, In ph (o_phases k) -> dget (o_cfg k) ph = Some pc -> In i ids ->
  let y := ph_band pc (secs / o_rate k) (window_of secs k x d i) in
  ~ Avail_Spec.flat y /\ never_silent tiny (Z.of_nat (length (o_transform k y))) (ltw_samples (o_clock secs k) (ph_lta pc)) (sample (o_transform k y)).
(** The samples [first + i] to [first + i + reach], whatever [i] in the part of the window that is kept, are clear of the ends: the windows of the onset functions keep [m] samples away from them. *)
Definition clear_of_ends (secs : Z) (k : onset_cfg) (m first last reach : Z) : Prop :=
  forall ph pc, In ph (o_phases k) -> dget (o_cfg k) ph = Some pc ->
  ltw_samples (o_clock secs k) (ph_lta pc) - 1 + m <= first /\ reach + stw_samples (o_clock secs k) (ph_sta pc) + m <= last.

(** Two windows of the same records, with the default settings for gaps (none are allowed). [first], [last]: the samples of the pads; [reach]: no traveltime is longer; [m]: where the processing settles. *)
Record comparable (lowpass : Z -> list R -> list R) (taper : list R -> list R) (tiny : R) (secs : Z) (k : onset_cfg) (l : Lut_Model.lut) (tab : string -> string -> Lut_Model.table) (rate : R)
  (x : string -> Z -> R) (ids : list string) (m : Z -> Z) (reach first last first' last' : Z) (d d' : wdata) : Prop := {
  cp_ready : window_ready lowpass taper tiny secs k l tab rate first last d; cp_ready' : window_ready lowpass taper tiny secs k l tab rate first' last' d';
  cp_gaps : o_gaps k = false; cp_full : o_full k = true; cp_ids : NoDup ids; cp_stations : d_stations d' = d_stations d;
  cp_data : recorded secs k x ids d; cp_data' : recorded secs k x ids d'; cp_lively : lively tiny secs k x ids d; cp_lively' : lively tiny secs k x ids d';
  cp_m : forall n, 0 <= m n; cp_settles : forall ph pc, In ph (o_phases k) -> dget (o_cfg k) ph = Some pc -> settles m (fun y => o_transform k (ph_band pc (secs / o_rate k) y));
  cp_reach : 0 <= reach; cp_times : forall s p q, In s (d_stations d) -> In p (o_phases k) -> is_node (Lut_Model.g_count (Lut_Model.l_grid l)) q -> (entry0 (tab s p) q * rate <= IZR reach)%R;
  cp_clear : clear_of_ends secs k (m (n_window secs (o_rate k) (d_start d) (d_end d))) first last reach; cp_clear' : clear_of_ends secs k (m (n_window secs (o_rate k) (d_start d') (d_end d'))) first' last' reach }.

(** The whole scan. The archive answers a window with its part of the records. *)
Definition reads (tiny : R) (secs : Z) (k : onset_cfg) (x : string -> Z -> R) (ids stations : list string) (read : Z -> Z -> outcome wdata) (a b : Z) : Prop :=
  exists d, read a b = Ret d /\ d_start d = a /\ d_end d = b /\ d_stations d = stations /\ recorded secs k x ids d /\ lively tiny secs k x ids d.
(** Settings and records for which the place of a sample in its window does not matter. *)
Record steady (secs : Z) (k : onset_cfg) (l : Lut_Model.lut) (tab : string -> string -> Lut_Model.table) (ids stations : list string) (m : Z -> Z) (reach : Z) : Prop := {
  st_gaps : o_gaps k = false; st_full : o_full k = true; st_ids : NoDup ids; st_dots : Forall plain_station stations; st_m : forall n, 0 <= m n; st_reach : 0 <= reach;
  st_settles : forall ph pc, In ph (o_phases k) -> dget (o_cfg k) ph = Some pc -> settles m (fun y => o_transform k (ph_band pc (secs / o_rate k) y));
  st_times : forall s p q, In s stations -> In p (o_phases k) -> is_node (Lut_Model.g_count (Lut_Model.l_grid l)) q -> (entry0 (tab s p) q * IZR (o_rate k) <= IZR reach)%R }.

(** Vocabulary for the statements about a processing that settles only approximately. *)
From Coq Require Import String.
From Coq Require Import List ZArith Reals.
From Verif Require Import Lib PyDict Timeline_Model StaLta_Model Migrate_Spec Lut_Spec Locate_Spec StaLta_Spec Onset_Model Onset_Spec DetectRun_Spec Window_Spec Formula_Spec ScanMseed_Model.
From Verif Require Lut_Model.
Import ListNotations.
Open Scope Z_scope.

(** Where a window is far enough from its ends, the channel [i] after the filter and the transform for the phase [ph] is [y ph i], give or take [e]. *)
Definition nearly (secs : Z) (k : onset_cfg) (m : Z -> Z) (e : R) (x : string -> Z -> R) (ids : list string) (y : string -> string -> Z -> R) : Prop :=
  forall ph pc i a n t, In ph (o_phases k) -> dget (o_cfg k) ph = Some pc -> In i ids -> a + m n <= t < a + n - m n ->
  (Rabs (sample (o_transform k (ph_band pc (secs / o_rate k) (cut (x i) a n))) (t - a) - y ph i t) <= e)%R.
(** The signals have no negative samples, and no long-term average below [L]. *)
Definition loud (secs : Z) (k : onset_cfg) (ids : list string) (y : string -> string -> Z -> R) (L : R) : Prop :=
  forall ph pc i t, In ph (o_phases k) -> dget (o_cfg k) ph = Some pc -> In i ids -> (0 <= y ph i t)%R /\ (L <= window_mean (y ph i) t (ltw_samples (o_clock secs k) (ph_lta pc)))%R.
(** How far the coalescence can be off, relative to itself. *)
Definition slack (e L : R) : R := (101 * (e / (L - e)))%R.
(** The values on the grid are those of [f], give or take [g] times as much. *)
Definition within (n : Lut_Model.ijk) (g : R) (f f' : Lut_Model.ijk -> R) : Prop := forall q, is_node n q -> ((1 - g) * f q <= f' q <= (1 + g) * f q)%R.
(** The peak of a function that is so close to [f]. *)
Definition near_peak (n : Lut_Model.ijk) (coord : Lut_Model.ijk -> Lut_Model.vec) (g : R) (f : Lut_Model.ijk -> R) (r : row R) : Prop := exists f', within n g f f' /\ is_peak n coord f' r.
(** A source that stands out: at its node and time the coalescence is larger than at any other of the nodes and times in [T], by more than the two can be off. *)
Definition stands_out (n : Lut_Model.ijk) (g : R) (F : Z -> Lut_Model.ijk -> R) (T : Z -> Prop) (t0 : Z) (q0 : Lut_Model.ijk) : Prop :=
  is_node n q0 /\ T t0 /\ forall t q, T t -> is_node n q -> (t, q) <> (t0, q0) -> ((1 + g) * F t q < (1 - g) * F t0 q0)%R.

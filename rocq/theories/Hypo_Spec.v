(** Vocabulary for the statements about the location of an event as a function of the records. *)
From Coq Require Import List ZArith Reals.
From Verif Require Import Lib Migrate_Spec Lut_Spec Locate_Model Locate_Spec LocateRun_Spec.
From Verif Require Lut_Model.
Open Scope Z_scope.

(** The first sample, from [lo] to [hi], with the largest value of all nodes and samples, and a node that has it. *)
Definition first_peak_in (n : Lut_Model.ijk) (lo hi : Z) (F : Z -> Lut_Model.ijk -> R) (t0 : Z) (q0 : Lut_Model.ijk) : Prop :=
  lo <= t0 <= hi /\ is_node n q0 /\ forall t q, lo <= t <= hi -> is_node n q -> (F t q <= F t0 q0)%R /\ (t < t0 -> (F t q < F t0 q0)%R).
(** The sum of [2 * w] samples around [t0], from [t0 - w] on. *)
Definition around (F : Z -> Lut_Model.ijk -> R) (t0 w : Z) (q : Lut_Model.ijk) : R := sum (fun i => F (t0 - w + i) q) (zrange (2 * w)).
(** The node with the largest sum. *)
Definition largest_around (n : Lut_Model.ijk) (F : Z -> Lut_Model.ijk -> R) (t0 w : Z) (p : Lut_Model.ijk) : Prop := is_node n p /\ forall q, is_node n q -> (around F t0 w q <= around F t0 w p)%R.

(** Vocabulary for the statements about the scan and the location of the same time. *)
From Coq Require Import String.
From Coq Require Import List ZArith Reals.
From Verif Require Import Lib Timeline_Model ScanMseed_Model ScanMseed_Spec Locate_Model.
Import ListNotations.
Open Scope Z_scope.

(** The sample of a scan at the time [t]: what is in the file of the day of [t]. *)
Definition stored (c : clock) (f : @files (row Z)) (t : Z) (z : row Z) : Prop := In (t, z) (file_samples c (f (t / (86400 * sec c)))).
(** The coalescence of an event at a time is the sample [r]. *)
Definition same_sample (t : Z) (r : row R) (e : coarow) : Prop := e = mk_coarow t (coa r) (coa_n r) (px r, py r, pz r).
(** [t] is the first of the times on the sampling grid in [lo, hi] at which [g] is largest. *)
Definition first_best (D lo hi : Z) (g : Z -> R) (t : Z) : Prop :=
  lo <= t <= hi /\ (D | t) /\ forall u, lo <= u <= hi -> (D | u) -> (g u <= g t)%R /\ (u < t -> (g u < g t)%R).

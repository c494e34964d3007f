(** Vocabulary for the statements about migration, independent of the model of the kernel. *)
From Coq Require Import List ZArith Reals.
From Verif Require Import Lib.
Import ListNotations.

(** Product and geometric mean of a list of reals. *)
Definition Rprod (xs : list R) : R := fold_right Rmult 1%R xs.
Definition geometric_mean (xs : list R) : R := Rpower (Rprod xs) (/ INR (length xs)).

(** Sum and arithmetic mean. *)
Definition Rsum (xs : list R) : R := fold_right Rplus 0%R xs.
Definition arithmetic_mean (xs : list R) : R := (Rsum xs / INR (length xs))%R.

(** [x] is the value of [f] first attained at [k] among 0..n-1 as the overall maximum. *)
Definition first_max_at (f : Z -> R) (n k : Z) : Prop :=
  (0 <= k < n)%Z /\
  (forall j, (0 <= j < n)%Z -> (f j <= f k)%R) /\
  (forall j, (0 <= j < k)%Z -> (f j < f k)%R).

(** The flat, C-ordered array of shape (n, c) whose element (i, j) is [f i j]. *)
Definition array2 {A} (n c : Z) (f : Z -> Z -> A) : list A :=
  flat_map (fun i => map (f i) (zrange c)) (zrange n).

(** The one-dimensional array of length n whose element i is [f i]. *)
Definition array1 {A} (n : Z) (f : Z -> A) : list A := map f (zrange n).

Open Scope Z_scope.

(** An onset value clipped from below at 0.01. *)
Definition clip01 (x : R) : R := Rmax x (1 / 100).

(** The coalescence at a grid node and output sample [s]: the geometric mean over [n] stations
    of the clipped onset [on k] at sample [s] + traveltime [tt node k] (negative ones counted
    as 0) + number of leading pad samples [first]. *)
Definition coalescence (n : Z) (on : Z -> Z -> R) (tt : Z -> Z -> Z) (first node s : Z) : R :=
  geometric_mean (map (fun k => clip01 (on k (first + s + Z.max 0 (tt node k)))) (zrange n)).

(** The arrays built from a list of stations: each an onset function (of the sample number)
    and a traveltime table (a function of the node). *)
Definition station_onsets (t : Z) (sts : list ((Z -> R) * (Z -> Z))) : list R :=
  flat_map (fun st => map (fst st) (zrange t)) sts.
Definition station_tables (n_nodes : Z) (sts : list ((Z -> R) * (Z -> Z))) : list Z :=
  flat_map (fun node => map (fun st => snd st node) sts) (zrange n_nodes).

(** Vocabulary for the statements about the way from the onsets to a location. *)
From Coq Require Import List ZArith Reals.
From Verif Require Import Lib Migrate_Spec Timeline_Model Lut_Model Lut_Spec Locate_Spec Pipeline_Spec.
Import ListNotations.
Open Scope Z_scope.

(** The sum of the stacks of a node over [len] samples from [lo]. *)
Definition marginal (n first : Z) (tt : Z -> Z -> Z) (on : Z -> Z -> R) (node lo len : Z) : R :=
  sum (fun i => stack n first tt on node (lo + i)) (zrange len).

(** The first sample with the largest stack of all nodes and samples, and a node that has it. *)
Definition largest_stack (n first : Z) (tt : Z -> Z -> Z) (on : Z -> Z -> R) (nodes ns node0 s0 : Z) : Prop :=
  0 <= node0 < nodes /\ 0 <= s0 < ns /\
  (forall node s, 0 <= node < nodes -> 0 <= s < ns ->
     (stack n first tt on node s <= stack n first tt on node0 s0)%R /\
     (s < s0 -> (stack n first tt on node s < stack n first tt on node0 s0)%R)).

(** [p] has the largest marginal sum. *)
Definition largest_marginal (n first : Z) (tt : Z -> Z -> Z) (on : Z -> Z -> R) (cnt : ijk) (lo len : Z) (p : ijk) : Prop :=
  is_node cnt p /\ forall q, is_node cnt q ->
    (marginal n first tt on (flat cnt q) lo len <= marginal n first tt on (flat cnt p) lo len)%R.

(** A location (grid indices) within two nodes of [p] along every axis. *)
Definition within_two (p : ijk) (loc : vec) : Prop := forall a, 0 <= a < 3 -> (Rabs (comp a loc - IZR (idx a p)) <= 2)%R.

(** The stack at an absolute sample number [j], for onsets [X] given at absolute sample numbers. *)
Definition stack_at (n : Z) (tt : Z -> Z -> Z) (X : Z -> Z -> R) (node j : Z) : R :=
  geometric_mean (map (fun k => Rmax (X k (j + Z.max 0 (tt node k))) (1 / 100)) (zrange n)).
(** Onsets whose output starts at the absolute sample [j0] after [first] samples of padding. *)
Definition window_of (X : Z -> Z -> R) (first j0 k j : Z) : R := X k (j0 - first + j).
(** The sum of the stacks of a node over [len] absolute samples from [lo]. *)
Definition marginal_at (n : Z) (tt : Z -> Z -> Z) (X : Z -> Z -> R) (node lo len : Z) : R :=
  sum (fun i => stack_at n tt X node (lo + i)) (zrange len).

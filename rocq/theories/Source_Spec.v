(** Vocabulary for the statements about finding a source by stacking. *)
From Coq Require Import List ZArith Reals.
From Verif Require Import Lib.
Import ListNotations.
Open Scope Z_scope.

(** The sample of the onset of a station at which a source at [node], with origin at output
    sample [s], arrives: [first] samples of leading padding, then the traveltime of the
    lookup table (negative ones counted as 0). *)
Definition arrival (tt : Z -> Z -> Z) (first node s k : Z) : Z := first + s + Z.max 0 (tt node k).

(** The scan finds a source at [node] at sample [s0]: the node is the one reported at that
    sample, its value is the one reported, and every other sample has a smaller one. *)
Definition source_found (maxima : list R) (nodes : list Z) (ns node s0 : Z) : Prop :=
  rd nodes s0 = Some node
  /\ exists v, rd maxima s0 = Some v
     /\ forall s, 0 <= s < ns -> s <> s0 -> exists w, rd maxima s = Some w /\ (w < v)%R.

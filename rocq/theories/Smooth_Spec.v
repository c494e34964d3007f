(** Vocabulary for the statements about the smoothing of the coalescence. *)
From Coq Require Import List ZArith Reals.
From Verif Require Import Lib Locate_Spec Smooth_Model.
Import ListNotations.
Open Scope Z_scope.

(** The samples at most [r] away. *)
Definition around (r : Z) : list Z := zseq (- r) (Z.to_nat (2 * r + 1)).
(** [e] continues the [n] samples [x] in both directions by mirror images of themselves. *)
Definition mirrored (x : list R) (e : Z -> R) : Prop :=
  let n := Z.of_nat (length x) in
  (forall i v, rd x i = Some v -> e i = v) /\ (forall i, e (- 1 - i) = e i) /\ (forall i, e (2 * n - 1 - i) = e i).
(** Weights of a Gaussian of standard deviation [sigma] seconds for samples [d] apart at
    [rate] samples per second, over [2 r + 1] samples. *)
Definition gaussian_weights (sigma rate : R) (r : Z) (w : Z -> R) : Prop :=
  sum w (around r) = 1%R
  /\ (0 < w 0%Z)%R
  /\ forall d, w d = (w 0%Z * exp (- (IZR d / rate * (IZR d / rate)) / (2 * sigma * sigma)))%R.
(** [r] samples are [width] standard deviations, to the nearest sample. *)
Definition radius_ok (sigma rate width : R) (r : Z) : Prop :=
  0 <= r /\ (IZR r - 1 / 2 <= width * sigma * rate < IZR r + 1 / 2)%R.

(** The two columns of coalescence values. *)
Inductive column : (rrow -> R) -> Prop := col_coa : column r_coa | col_coa_n : column r_coa_n.

(** Vocabulary for the statements about the Gaussian location. *)
From Coq Require Import List ZArith Reals.
From Verif Require Import Lib Lut_Model Lut_Spec Locate_Model Locate_Spec GauFit_Model.
Import ListNotations.
Open Scope R_scope.

(** The value of a quadratic, and its derivatives. *)
Definition qeval (P : quadratic) (v : vec) : R :=
  let '(x, y, z) := v in
  q0 P * (x * x) + q1 P * (y * y) + q2 P * (z * z) + q3 P * (x * y) + q4 P * (x * z) + q5 P * (y * z) + q6 P * x + q7 P * y + q8 P * z + q9 P.
Definition stationary (P : quadratic) (v : vec) : Prop :=
  let '(x, y, z) := v in
  2 * q0 P * x + q3 P * y + q4 P * z + q6 P = 0 /\ q3 P * x + 2 * q1 P * y + q5 P * z + q7 P = 0 /\ q4 P * x + q5 P * y + 2 * q2 P * z + q8 P = 0.
(** Sum of the squared misfits to data at points. *)
Definition misfit (P : quadratic) (data : list (vec * R)) : R := sum (fun d => (qeval P (fst d) - snd d) ^ 2) data.
(** The product with the pseudo-inverse is a least squares solution. *)
Definition least_squares (fit : list vec -> list R -> quadratic) : Prop :=
  forall pts ys P, length pts = length ys -> misfit (fit pts ys) (combine pts ys) <= misfit P (combine pts ys).
(** The eigenvalues of a symmetric matrix are the zeros of the characteristic polynomial; required only of
    matrices that leave the third axis alone. *)
Definition eigenvalues (eig : matrix -> vec) : Prop :=
  forall a b c d t, let '(x, y, z) := eig ((a, d, 0), (d, b, 0), (0, 0, c)) in
  ((a - t) * (b - t) - d * d) * (c - t) = (x - t) * (y - t) * (z - t).

(** A symmetric matrix by its elements xx, yy, zz, xy, xz, yz, and its quadratic form. *)
Record sym : Set := mk_sym { sxx : R; syy : R; szz : R; sxy : R; sxz : R; syz : R }.
Definition form (S : sym) (v : vec) : R :=
  let '(x, y, z) := v in sxx S * x ^ 2 + syy S * y ^ 2 + szz S * z ^ 2 + 2 * sxy S * x * y + 2 * sxz S * x * z + 2 * syz S * y * z.
Definition posdef (S : sym) : Prop := forall v, v <> (0, 0, 0) -> 0 < form S v.
Definition vsub (v w : vec) : vec := let '(x, y, z) := v in let '(a, b, c) := w in (x - a, y - b, z - c).
(** A Gaussian with peak [A] at [c] and inverse covariance [S] (in nodes). *)
Definition gauss (A : R) (S : sym) (c v : vec) : R := A * exp (- (1 / 2) * form S (vsub v c)).
Definition map_mean (n : ijk) (m : list R) : R := sum (at_node n m) (all_nodes n) / IZR (n_nodes n).
(** Around the largest node, within three nodes, the map is its mean plus a Gaussian (and positive). *)
Definition gaussian_peak (n : ijk) (m : list R) (A : R) (S : sym) (c : vec) : Prop :=
  forall p, peak_node n m p -> forall q, in_win n p 3 q ->
  0 < at_node n m q /\ at_node n m q - map_mean n m = gauss A S c (of_node q) /\ powerRZ 10 (-300) <= gauss A S c (of_node q).
(** The inverse covariance of independent deviations. *)
Definition independent (a b c : R) : sym := mk_sym (/ a ^ 2) (/ b ^ 2) (/ c ^ 2) 0 0 0.
(** A map with one non-zero node. *)
Definition spike (n p : ijk) (m : list R) : Prop :=
  Z.of_nat (length m) = n_nodes n /\ 0 < at_node n m p /\ forall q, is_node n q -> q <> p -> at_node n m q = 0.

(** Model of the Gaussian location: signal/scan.py _mask3d, _gaufilt3d, _gaufit3d and util.py gaussian_3d.

    A map is a list in C order. SIMPLIFICATIONS: reals for binary64, no NaN in the map; scipy's
    fftconvolve is the convolution it computes; numpy's pinv and eig are parameters ([fit]: the product
    of the data with the pseudo-inverse of the design matrix; [eig]: the eigenvalues); a division by
    a largest value of zero is an exception here, as the NaN it leaves make np.nanargmax raise. *)
From Coq Require Import List ZArith Reals Bool.
From Verif Require Import Lib PyDict ScanMseed_Model Lut_Model Locate_Model.
Import ListNotations.
Open Scope Z_scope.

(** All indices of an array of shape [n], in C order. *)
Definition indices (n : ijk) : list ijk :=
  let '(nx, ny, nz) := n in
  flat_map (fun i => flat_map (fun j => map (fun k => (i, j, k)) (zrange nz)) (zrange ny)) (zrange nx).

(** * Smoothing *)

(** util.py:76-116 gaussian_3d with the same width along all axes: element [k] of the array. *)
Definition gaussian_3d (n : ijk) (sgm : R) (k : ijk) : R :=
  let '(nx, ny, nz) := n in let '(a, b, c) := k in
  let ax i m := (IZR i - IZR (m - 1) / 2)%R in
  let ix := ax a nx in let iy := ax b ny in let iz := ax c nz in
  exp (- (ix * ix) / (2 * sgm * sgm) - (iy * iy) / (2 * sgm * sgm) - (iz * iz) / (2 * sgm * sgm)).
(** scipy.signal.fftconvolve(m, f, mode="same") for two arrays of shape [n]: the middle of the full
    convolution, which starts at element (n - 1) // 2. *)
Definition inside (n k : ijk) : bool :=
  let '(nx, ny, nz) := n in let '(a, b, c) := k in
  (0 <=? a) && (a <? nx) && (0 <=? b) && (b <? ny) && (0 <=? c) && (c <? nz).
Definition convolve_same (n : ijk) (m : list R) (f : ijk -> R) : list R :=
  let '(nx, ny, nz) := n in
  map (fun o => let '(i, j, k) := o in
    fold_left Rplus (map (fun p => let '(a, b, c) := p in
      let e := (i - a + (nx - 1) / 2, j - b + (ny - 1) / 2, k - c + (nz - 1) / 2) in
      if inside n e then (node_value m (c_index n p) * f e)%R else 0%R) (indices n)) 0%R) (indices n).
(** scan.py:1008-1043 _gaufilt3d; reversing the three axes of an array reverses the list. *)
Definition gaufilt3d (n : ijk) (sgm : R) (m : list R) : outcome (list R) :=
  bind (normalise (rev (convolve_same n m (gaussian_3d n sgm)))) (fun a =>
  normalise (rev (convolve_same n a (gaussian_3d n sgm)))).

(** * The fit *)

(** scan.py:1045-1079 _mask3d *)
Definition mask3d (n i : ijk) (window : Z) (p : ijk) : bool :=
  let w2 := (window - 1) / 2 in
  let '(nx, ny, nz) := n in let '(ix, iy, iz) := i in let '(a, b, c) := p in
  (np_clip (ix - w2) 0 nx <=? a) && (a <? np_clip (ix + w2 + 1) 0 nx)
  && (np_clip (iy - w2) 0 ny <=? b) && (b <? np_clip (iy + w2 + 1) 0 ny)
  && (np_clip (iz - w2) 0 nz <=? c) && (c <? np_clip (iz + w2 + 1) 0 nz).
(** The ten coefficients P, of x*x, y*y, z*z, x*y, x*z, y*z, x, y, z, 1. *)
Record quadratic : Set := mk_quadratic { q0 : R; q1 : R; q2 : R; q3 : R; q4 : R; q5 : R; q6 : R; q7 : R; q8 : R; q9 : R }.
Definition det3 (m : matrix) : R :=
  let '((a, b, c), (d, e, f), (g, h, i)) := m in (a * (e * i - f * h) - b * (d * i - f * g) + c * (d * h - e * g))%R.
(** [np.matmul(np.linalg.inv(m), v)]; LinAlgError is a ValueError. *)
Definition solve3 (m : matrix) (v : vec) : outcome vec :=
  let '((a, b, c), (d, e, f), (g, h, i)) := m in let '(x, y, z) := v in
  let dt := det3 m in
  if Req_EM_T dt 0 then Raise ValueError
  else Ret ((x * (e * i - f * h) + y * (c * h - b * i) + z * (b * f - c * e)) / dt,
            (x * (f * g - d * i) + y * (a * i - c * g) + z * (c * d - a * f)) / dt,
            (x * (d * h - e * g) + y * (b * g - a * h) + z * (a * e - b * d)) / dt)%R.
Section Fit.
Variable fit : list vec -> list R -> quadratic.
Variable eig : matrix -> vec.
(** scan.py:894-898: [loc] *)
Definition fit_location (P : quadratic) : outcome vec :=
  solve3 ((- (2 * q0 P), - q3 P, - q4 P), (- q3 P, - (2 * q1 P), - q5 P), (- q4 P, - q5 P, - (2 * q2 P)))%R (q6 P, q7 P, q8 P).
(** scan.py:910-924: [sgm] *)
Definition fit_sigma (P : quadratic) : vec :=
  let '(a, b, c) := eig ((q0 P, q3 P / 2, q4 P / 2), (q3 P / 2, q1 P, q5 P / 2), (q4 P / 2, q5 P / 2, q2 P))%R in
  let s v := (sqrt (1 / 2 / Rmax (Rabs v) (powerRZ 10 (-10))) / 2)%R in (s a, s b, s c).
(** scan.py:844-936 _gaufit3d: location and uncertainty. *)
Definition gaufit3d (transform : Z -> Z -> vec -> vec) (g : grid) (coa_map : list R) (thresh : R) (win : Z) : outcome (vec * vec) :=
  let n := g_count g in
  bind (argmax coa_map) (fun am =>
  bind (unravel_index am n) (fun ijk =>
  let flag := filter (fun p => (if Rlt_dec thresh (node_value coa_map (c_index n p)) then true else false) && mask3d n ijk win p) (indices n) in
  let mean := (fold_left Rplus coa_map 0 / IZR (Z.of_nat (length coa_map)))%R in
  let pts := map (fun p => vmap2 (fun a b => IZR (a - b)) p ijk) flag in
  let Y := map (fun p => (- ln (Rmax (node_value coa_map (c_index n p) - mean) (powerRZ 10 (-300))))%R) flag in
  let P := fit pts Y in
  bind (fit_location P) (fun loc =>
  Ret (frac2coord transform g (vmap2 (fun x i => (x + IZR i)%R) loc ijk), vmap2 Rmult (fit_sigma P) (g_spacing g))))).
End Fit.

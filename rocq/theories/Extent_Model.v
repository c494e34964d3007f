(** Model of the extents of the grid and of the network, of the summary printed for a lookup table
    and of the cells drawn for a slice (lut/lut.py).

    SIMPLIFICATIONS: reals for binary64; pyproj's [Transformer] is a parameter [transform]; the
    drawing functions of matplotlib are left out, only the coordinates handed to them are modelled. *)
From Coq Require Import String Ascii.
From Coq Require Import List ZArith Reals Bool.
From Verif Require Import Lib PyDict Lut_Model.
Import ListNotations.
Open Scope Z_scope.

(** [a[0]] and [a[-1]] *)
Definition first_vec (l : list vec) : outcome vec := match l with [] => Raise IndexError | v :: _ => Ret v end.
Definition last_vec (l : list vec) : outcome vec := first_vec (rev l).

(** lut.py:298-324 get_grid_extent *)
Definition grid_extent (transform : Z -> Z -> vec -> vec) (g : grid) (cells : bool) : outcome (vec * vec) :=
  bind (first_vec (grid_corners g)) (fun ll =>
  bind (last_vec (grid_corners g)) (fun ur =>
  let half := vmap2 (fun s two => (s / two)%R) (g_spacing g) (2, 2, 2)%R in
  let ll' := if cells then vmap2 Rminus ll half else ll in
  let ur' := if cells then vmap2 Rplus ur half else ur in
  Ret (coord2grid transform (g_gproj g) (g_cproj g) true ll',
       coord2grid transform (g_gproj g) (g_cproj g) true ur'))).

(** Python's [min] and [max] of a sequence; empty raises. *)
Definition py_min (l : list R) : outcome R :=
  match l with [] => Raise ValueError | x :: r => Ret (fold_left (fun m v => if Rlt_dec v m then v else m) r x) end.
Definition py_max (l : list R) : outcome R :=
  match l with [] => Raise ValueError | x :: r => Ret (fold_left (fun m v => if Rlt_dec m v then v else m) r x) end.

Definition c1 (v : vec) : R := fst (fst v).
Definition c2 (v : vec) : R := snd (fst v).
Definition c3 (v : vec) : R := snd v.

(** [[f(dim) for dim in coordinates.values.T]] *)
Definition per_axis (f : list R -> outcome R) (l : list vec) : outcome vec :=
  bind (f (map c1 l)) (fun a => bind (f (map c2 l)) (fun b => bind (f (map c3 l)) (fun c => Ret (a, b, c)))).

(** lut.py:847-853 station_extent; [stations] are the longitude, latitude and (downward) elevation of
    the stations. *)
Definition station_extent (stations : list vec) : outcome (vec * vec) :=
  bind (per_axis py_min stations) (fun lo => bind (per_axis py_max stations) (fun hi => Ret (lo, hi))).

Definition min2 (a b : R) : R := if Rlt_dec b a then b else a.
Definition max2 (a b : R) : R := if Rlt_dec a b then b else a.

(** lut.py:825-839 max_extent *)
Definition max_extent (transform : Z -> Z -> vec -> vec) (g : grid) (stations : list vec) : outcome (vec * vec) :=
  bind (station_extent stations) (fun s =>
  bind (grid_extent transform g true) (fun c =>
  let lo := vmap2 min2 (fst s) (fst c) in
  let hi := vmap2 max2 (snd s) (snd c) in
  let diff := vmap2 (fun h l => Rabs (h - l)) hi lo in
  Ret (vmap2 (fun l d => (l - 5 / 100 * d)%R) lo diff, vmap2 (fun h d => (h + 5 / 100 * d)%R) hi diff))).

(** lut.py:470-493: the numbers of __str__: latitude, longitude and depth printed for the lower-left
    and for the upper-right corner. *)
Record corner_line : Set := mk_line { p_lat : R; p_lon : R; p_dep : R }.
Definition summary (transform : Z -> Z -> vec -> vec) (g : grid) : outcome (corner_line * corner_line) :=
  let corners := map (coord2grid transform (g_gproj g) (g_cproj g) true) (grid_corners g) in
  bind (first_vec corners) (fun ll =>
  bind (last_vec corners) (fun ur =>
  Ret (mk_line (c1 ll) (c2 ll) (c3 ll), mk_line (c1 ur) (c2 ur) (c3 ur)))).

(** lut.py:690-709: edge [k] of the cells drawn along one axis,
    [np.mgrid[gmin : gmax : (n + 1) * 1j]] for [n] nodes. *)
Definition cell_edge (gmin gmax : R) (n k : Z) : R := (gmin + IZR k * ((gmax - gmin) / IZR n))%R.

(** Vocabulary for the statements about lookup tables. *)
From Coq Require Import String Ascii.
From Coq Require Import List ZArith Reals.
From Verif Require Import Lib PyDict Lut_Model.
Import ListNotations.
Open Scope Z_scope.

(** A node of a grid with [n] nodes per axis. *)
Definition is_node (n p : ijk) : Prop :=
  let '(nx, ny, nz) := n in let '(i, j, k) := p in 0 <= i < nx /\ 0 <= j < ny /\ 0 <= k < nz.
(** Number of nodes, and the position of a node when the array is flattened in C order. *)
Definition n_nodes (n : ijk) : Z := let '(nx, ny, nz) := n in nx * ny * nz.
Definition flat (n p : ijk) : Z := let '(nx, ny, nz) := n in let '(i, j, k) := p in (i * ny + j) * nz + k.

(** The grid coordinate of node [i] on an axis starting at [ll] with spacing [s]. *)
Definition axis_coord (ll s : R) (i : Z) : R := (ll + IZR i * s)%R.

(** Each of three coordinates satisfies P. *)
Definition each3 {A B C D} (P : A -> B -> C -> D -> Prop) (a : A * A * A) (b : B * B * B) (c : C * C * C) (d : D * D * D) : Prop :=
  let '(a1, a2, a3) := a in let '(b1, b2, b3) := b in let '(c1, c2, c3) := c in let '(d1, d2, d3) := d in
  P a1 b1 c1 d1 /\ P a2 b2 c2 d2 /\ P a3 b3 c3 d3.

(** The grid is as the setters of Grid3D leave it. *)
Definition grid_ok (g : grid) : Prop :=
  let '(sx, sy, sz) := g_spacing g in let '(nx, ny, nz) := g_count g in
  (0 < sx /\ 0 < sy /\ 0 < sz)%R /\ 0 < nx <= 2147483647 /\ 0 < ny <= 2147483647 /\ 0 < nz <= 2147483647.

(** The entry of a three-dimensional array. *)
Definition entry (t : table) (p : ijk) : option R :=
  let '(i, j, k) := p in
  match rd t i with
  | Some plane => match rd plane j with Some row => rd row k | None => None end
  | None => None
  end.
(** The array has the shape [n]. *)
Definition has_shape (t : table) (n : ijk) : Prop :=
  let '(nx, ny, nz) := n in
  Z.of_nat (length t) = nx
  /\ Forall (fun plane => Z.of_nat (length plane) = ny
                          /\ Forall (fun row => Z.of_nat (length row) = nz) plane) t.

(** [t] is the table stored for the phase of the station (under the phase or under TIME_phase). *)
Definition table_of (l : lut) (station phase : string) (t : table) : Prop :=
  exists m, dget (l_tt l) station = Some m
    /\ (dget m phase = Some t \/ (dget m phase = None /\ dget m ("TIME_" ++ phase)%string = Some t)).

(** A name without underscore. *)
Definition plain_name (s : string) : Prop := ~ In underscore (list_ascii_of_string s).

(** A lookup table whose arrays all have the shape of its grid. *)
Definition lut_ok (l : lut) : Prop :=
  grid_ok (l_grid l)
  /\ forall s m p t, dget (l_tt l) s = Some m -> dget m p = Some t -> has_shape t (g_count (l_grid l)).

(** Squared distance. *)
Definition dist2 (v w : vec) : R :=
  let '(a, b, c) := v in let '(x, y, z) := w in
  ((a - x) * (a - x) + (b - y) * (b - y) + (c - z) * (c - z))%R.
(** The point lies between the first and the last node of every axis. *)
Definition inside (g : grid) (v : vec) : Prop :=
  let '(l1, l2, l3) := g_ll g in let '(s1, s2, s3) := g_spacing g in let '(n1, n2, n3) := g_count g in
  let '(a, b, c) := v in
  (l1 <= a <= axis_coord l1 s1 (n1 - 1) /\ l2 <= b <= axis_coord l2 s2 (n2 - 1)
   /\ l3 <= c <= axis_coord l3 s3 (n3 - 1))%R.

(** All (station, phase) pairs, phases outermost. *)
Definition pairs (phases stations : list string) : list (string * string) :=
  flat_map (fun p => map (fun s => (s, p)) stations) phases.

(** The pairs for which data are available, in the same order. *)
Definition used (check : string -> string -> bool) (phases stations : list string) : list (string * string) :=
  filter (fun sp => check (fst sp) (snd sp)) (pairs phases stations).

(** Element [i] of an array (0 outside). *)
Definition value (l : list R) (i : Z) : R := match rd l i with Some v => v | None => 0%R end.

(** The entry of an array at a node (0 outside). *)
Definition entry0 (t : table) (p : ijk) : R := match entry t p with Some v => v | None => 0%R end.

(** Vocabulary for the statements about the creation of lookup tables. *)
From Coq Require Import String Ascii.
From Coq Require Import List ZArith Reals.
From Verif Require Import Lib PyDict Lut_Model Lut_Spec CreateLut_Model.
Import ListNotations.
Open Scope R_scope.

(** * Two-dimensional tables *)

(** The entry of a two-dimensional array. *)
Definition entry2 (t : list (list R)) (i k : Z) : option R := match rd t i with Some row => rd row k | None => None end.
Definition has_shape2 (t : list (list R)) (nx nz : Z) : Prop :=
  Z.of_nat (length t) = nx /\ Forall (fun row => Z.of_nat (length row) = nz) t.
(** [x] lies in cell [i] of an axis with nodes at [o + i * s]. *)
Definition in_cell (o s : R) (i : Z) (x : R) : Prop := o + IZR i * s <= x < o + IZR (i + 1) * s.
(** The table covers the position [x] on an axis with [n] nodes. *)
Definition covered (o s : R) (n : Z) (x : R) : Prop := o <= x < o + IZR (n - 1) * s.
(** The origin is a multiple of the spacing. *)
Definition aligned (o s : R) : Prop := exists m : Z, o = IZR m * s.
(** Bilinear interpolation of the corner values [a] (i, k), [b] (i+1, k), [c] (i, k+1), [d] (i+1, k+1)
    of the cell [x0, x1] x [z0, z1]. *)
Definition bilinear_value (x0 x1 z0 z1 a b c d x z : R) : R :=
  (a * ((x1 - x) * (z1 - z)) + b * ((x - x0) * (z1 - z)) + c * ((x1 - x) * (z - z0)) + d * ((x - x0) * (z - z0)))
  / ((x1 - x0) * (z1 - z0)).
(** [r] lies between the smallest and the largest of four numbers. *)
Definition within4 (a b c d r : R) : Prop := Rmin (Rmin a b) (Rmin c d) <= r <= Rmax (Rmax a b) (Rmax c d).

(** * NonLinLoc *)

(** The number has at most six decimals. *)
Definition six_decimals (x : R) : Prop := exists n : Z, x = IZR n / 1000000.
(** The NonLinLoc programs leave a table on the grid of the control file. *)
Definition obeys (nlloc : control -> outcome (nll_grid * list (list R))) : Prop :=
  forall c nx ny nz, n_count (c_grid c) = (nx, ny, nz) -> (0 < ny)%Z -> (0 < nz)%Z ->
  exists t, nlloc c = Ret (c_grid c, t) /\ has_shape2 t ny nz.
(** The velocity at depth [z] of NonLinLoc's layers (depth of the top, velocity there, gradient): that
    of the last layer whose top is not below [z]. *)
Fixpoint layer_velocity (layers : list (R * R * R)) (z : R) : option R :=
  match layers with
  | [] => None
  | (top, v, g) :: r =>
      match layer_velocity r z with
      | Some w => Some w
      | None => if Rle_dec top z then Some (v + g * (z - top)) else None
      end
  end.

(** * Velocity models *)

Fixpoint increasing (l : list R) : Prop :=
  match l with x :: ((y :: _) as r) => x < y /\ increasing r | _ => True end.
(** A velocity model as read from a file: rows labelled 0, 1, ..., depths increasing. *)
Definition standard (m : vmodel) (phase : string) (depths vs : list R) : Prop :=
  vm_index m = zrange (Z.of_nat (length depths)) /\ dget (vm_cols m) "Depth" = Some depths
  /\ dget (vm_cols m) (v_column phase) = Some vs /\ length vs = length depths /\ increasing depths /\ depths <> [].
(** The velocity at depth [z] of the model with linear gradients: constant above the first and below
    the last depth. *)
Definition gradient_velocity (depths vs : list R) (z v : R) : Prop :=
  (exists d w, rd depths 0 = Some d /\ rd vs 0 = Some w /\ z <= d /\ v = w)
  \/ (exists d w, rd depths (Z.of_nat (length depths) - 1) = Some d /\ rd vs (Z.of_nat (length depths) - 1) = Some w /\ d <= z /\ v = w)
  \/ (exists i d d' w w', rd depths i = Some d /\ rd depths (i + 1) = Some d' /\ rd vs i = Some w /\ rd vs (i + 1) = Some w'
      /\ d <= z <= d' /\ v = w + (w' - w) * ((z - d) / (d' - d))).

(** * Grids *)

(** The node is at least as close to the point as any other node of the grid. *)
Definition closest (g : grid) (v : vec) (n : ijk) : Prop :=
  is_node (g_count g) n /\ forall q, is_node (g_count g) q -> dist2 v (node2grid g n) <= dist2 v (node2grid g q).
(** The fast marching method returns a time for each node. *)
Definition makes_tables (skfmm : ijk -> ijk -> (ijk -> R) -> vec -> table) : Prop :=
  forall nx ny nz q v s, (0 < nx)%Z -> (0 < ny)%Z -> (0 < nz)%Z -> has_shape (skfmm (nx, ny, nz) q v s) (nx, ny, nz).
Definition distance (v w : vec) : R := sqrt (dist2 v w).

(** * Projections *)

(** Centre (latitude, longitude) of a projection: PROJ's parameters lat_0 and lon_0, zero if not given. *)
Definition number (o : option parg) : R := match o with Some (PNum v) => v | _ => 0 end.
Definition centre (p : dict parg) : R * R := (number (dget p "lat_0"), number (dget p "lon_0")).
(** The value that follows a keyword in the TRANSFORM line of a NonLinLoc header. *)
Fixpoint after (l : list string) (key : string) : option string :=
  match l with k :: ((v :: _) as r) => if String.eqb k key then Some v else after r key | _ => None end.
(** A transform line as written by NonLinLoc: the keywords with their values. *)
Definition simple_line (lat lon rot : string) : list string := ["TRANSFORM"; "SIMPLE"; "LatOrig"; lat; "LongOrig"; lon; "RotCW"; rot]%string.
Definition lambert_line (ell lat lon p1 p2 rot : string) : list string :=
  ["TRANSFORM"; "LAMBERT"; "RefEllipsoid"; ell; "LatOrig"; lat; "LongOrig"; lon; "FirstStdParal"; p1; "SecondStdParal"; p2; "RotCW"; rot]%string.
Definition tmerc_line (ell lat lon rot : string) : list string :=
  ["TRANSFORM"; "TRANS_MERC"; "RefEllipsoid"; ell; "LatOrig"; lat; "LongOrig"; lon; "RotCW"; rot]%string.

(** The first line of a header: numbers of nodes, origin and spacing of the grid. *)
Definition header_says (to_int : string -> outcome Z) (to_float : string -> outcome R) (h : header) (gs : nll_grid) : Prop :=
  exists t0 t1 t2 t3 t4 t5 t6 t7 t8 rest nx ny nz x0 y0 z0 dx dy dz,
  h_grid h = t0 :: t1 :: t2 :: t3 :: t4 :: t5 :: t6 :: t7 :: t8 :: rest
  /\ to_int t0 = Ret nx /\ to_int t1 = Ret ny /\ to_int t2 = Ret nz
  /\ to_float t3 = Ret x0 /\ to_float t4 = Ret y0 /\ to_float t5 = Ret z0
  /\ to_float t6 = Ret dx /\ to_float t7 = Ret dy /\ to_float t8 = Ret dz
  /\ n_count gs = (nx, ny, nz) /\ n_origin gs = (x0, y0, z0) /\ n_spacing gs = (dx, dy, dz).
(** The name of a file of travel times. *)
Definition nll_name (phase station : string) : string := ("layer." ++ phase ++ "." ++ station ++ ".time")%string.
(** The names of ellipsoids in NonLinLoc and in PROJ. *)
Definition proj_ellipsoids : list (string * string) :=
  [("WGS-84", "WGS84"); ("GRS-80", "GRS80"); ("WGS-72", "WGS72"); ("Australian", "aust_SA"); ("Krasovsky", "krass");
   ("International", "intl"); ("Hayford-1909", "intl"); ("Clarke-1880", "clrk80"); ("Clarke-1866", "clrk66"); ("Airy", "airy");
   ("Bessel", "bessel"); ("Hayford-1830", "evrst30"); ("Sphere", "sphere")]%string.

(** Vocabulary for the statements about extents. *)
From Coq Require Import String Ascii.
From Coq Require Import List ZArith Reals.
From Verif Require Import Lib Lut_Model Lut_Spec.
Import ListNotations.
Open Scope Z_scope.

(** Coordinates are longitude, latitude, depth (template_scripts/make_lut.py:40; the station table is
    converted in this order, lut.py:859). *)
Definition longitude (v : vec) : R := let '(x, _, _) := v in x.
Definition latitude (v : vec) : R := let '(_, y, _) := v in y.
Definition depth (v : vec) : R := let '(_, _, z) := v in z.

(** [v] lies in the box between [lo] and [hi]. *)
Definition within (lo hi v : vec) : Prop :=
  (longitude lo <= longitude v <= longitude hi
   /\ latitude lo <= latitude v <= latitude hi
   /\ depth lo <= depth v <= depth hi)%R.

(** The projections act on each axis separately and increase along it. *)
Definition axes_increase (f : vec -> vec) : Prop :=
  exists fx fy fz : R -> R, (forall x y z, f (x, y, z) = (fx x, fy y, fz z))
    /\ (forall a b, (a <= b -> fx a <= fx b)%R) /\ (forall a b, (a <= b -> fy a <= fy b)%R)
    /\ (forall a b, (a <= b -> fz a <= fz b)%R).

(** ... and are linear along it. *)
Definition axes_linear (f : vec -> vec) : Prop :=
  exists ax bx ay bY az bz : R, (0 < ax /\ 0 < ay /\ 0 < az)%R
    /\ forall x y z, f (x, y, z) = (ax * x + bx, ay * y + bY, az * z + bz)%R.

(** The point [v] lies in the cell around node [p], a box of the size of the node spacing. *)
Definition in_cell (g : grid) (p : ijk) (v : vec) : Prop :=
  each3 (fun l s i x => (l + (IZR i - / 2) * s <= x <= l + (IZR i + / 2) * s)%R) (g_ll g) (g_spacing g) p v.

(** The box shrunk by 1/22 of its size on each side, i.e. without the 5% margin. *)
Definition shrunk (lo hi : vec) : vec * vec :=
  (vmap2 (fun l h => (l + (h - l) / 22)%R) lo hi, vmap2 (fun h l => (h - (h - l) / 22)%R) hi lo).

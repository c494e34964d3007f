(** What a map of a lookup table is to show. *)
From Coq Require Import String Ascii.
From Coq Require Import List ZArith QArith Reals.
From Verif Require Import Lib Lut_Model Lut_Spec Extent_Spec LutPlot_Model.
Import ListNotations.
Open Scope Z_scope.

(** The cell is centred on a point, with the given width and height. *)
Definition centred (c : cell) (x y w h : R) : Prop :=
  (c_left c = x - w / 2 /\ c_right c = x + w / 2 /\ c_low c = y - h / 2 /\ c_high c = y + h / 2)%R.
(** The point is in the cell. *)
Definition covers (c : cell) (x y : R) : Prop := (c_left c <= x < c_right c /\ c_low c <= y < c_high c)%R.
(** A panel of a map: its axes (coordinates) and the nodes it shows, those of a plane. *)
Definition panel_of (k : Z) (cx cy : vec -> R) (plane : ijk -> ijk -> Prop) : Prop :=
  (k = 0 /\ cx = longitude /\ cy = latitude /\ plane = fun x p => snd p = snd x)
  \/ (k = 1 /\ cx = longitude /\ cy = depth /\ plane = fun x p => snd (fst p) = snd (fst x))
  \/ (k = 2 /\ cx = depth /\ cy = latitude /\ plane = fun x p => fst (fst p) = fst (fst x)).

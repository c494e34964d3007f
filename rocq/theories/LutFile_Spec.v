(** What users expect of lookup table files. *)
From Coq Require Import String Ascii.
From Coq Require Import List ZArith Reals.
From Verif Require Import Lib PyDict Lut_Model Lut_Spec LutFile_Model.
Import ListNotations.
Open Scope Z_scope.

(** All attributes that LUT() sets are there. *)
Definition complete (d : attrs) : Prop :=
  a_fraction d <> None /\ a_phases d <> None /\ a_stations d <> None /\ NoDup (keys (a_other d)).

Definition valid_count (n : ijk) : Prop :=
  let '(a, b, c) := n in 0 < a < 2147483648 /\ 0 < b < 2147483648 /\ 0 < c < 2147483648.
Definition valid_spacing (s : vec) : Prop := let '(a, b, c) := s in (0 < a /\ 0 < b /\ 0 < c)%R.

(** A table written by an old version: [maps] with the keys TIME_P, TIME_S ..., cell counts and
    sizes. Other attributes may be missing. *)
Definition old_style (f : attrs) (maps : dict (dict table)) (n : ijk) (sp : vec) : Prop :=
  a_maps f = Some maps /\ a_tt f = None /\ a_nc f = None /\ a_ns f = None
  /\ a_cc f = Some n /\ a_cs f = Some sp /\ valid_count n /\ valid_spacing sp
  /\ NoDup (keys (a_other f)) /\ NoDup (keys maps)
  /\ forall st m, In (st, m) maps -> NoDup (keys m)
     /\ forall k t, In (k, t) m -> exists p, plain_name p /\ k = ("TIME_" ++ p)%string.

(** A table written by this version. *)
Definition new_style (f : attrs) (tt : dict (dict table)) (n : ijk) (sp : vec) : Prop :=
  a_maps f = None /\ a_tt f = Some tt /\ a_nc f = Some n /\ a_ns f = Some sp
  /\ a_cc f = None /\ a_cs f = None /\ valid_count n /\ valid_spacing sp.

(** Same stations and same values of the attributes that are only carried along. *)
Definition same_rest (f g : attrs) : Prop :=
  a_stations g = a_stations f /\ forall k, dget (a_other g) k = dget (a_other f) k.

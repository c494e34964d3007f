(** Vocabulary for the statements about the locate stage. *)
From Coq Require Import String Ascii.
From Coq Require Import List ZArith Reals.
From Verif Require Import Lib PyDict Timeline_Model Lut_Model Lut_Spec Locate_Model.
Import ListNotations.
Open Scope Z_scope.

(** Position [p] holds the largest value of [l], and the values before it are smaller. *)
Definition first_largest (l : list R) (p : Z) : Prop :=
  exists v, rd l p = Some v
  /\ (forall q w, rd l q = Some w -> (w <= v)%R)
  /\ (forall q w, q < p -> rd l q = Some w -> (w < v)%R).

(** Strictly increasing times. *)
Definition increasing (l : list Z) : Prop :=
  forall i j a b, i < j -> rd l i = Some a -> rd l j = Some b -> a < b.

(** An event as add_compute_output leaves it: increasing times, one map slice per row, origin
    time at the peak (position [p]). *)
Definition computed {M} (e : event M) (p : Z) : Prop :=
  increasing (map r_dt (e_rows e)) /\ length (e_map e) = length (e_rows e)
  /\ first_largest (map r_coa (e_rows e)) p /\ rd (map r_dt (e_rows e)) p = Some (e_otime e).

(** Within [mw] of [t]. *)
Definition near (t mw u : Z) : Prop := t - mw <= u <= t + mw.

(** ** Archive *)

(** The sample is stored in a readable file of its own day: in a file of one of the stations, or,
    when all stations are read, in any file of the day. *)
Definition stored (c : clock) (glob : Z -> option Z -> list file) (all : bool) (stations : list Z) (x : sample) : Prop :=
  if all then exists f, In (Some f) (glob (s_time x / day c) None) /\ In x f
  else exists s f, In s stations /\ In (Some f) (glob (s_time x / day c) (Some s)) /\ In x f.
(** The sample is in some file of the archive. *)
Definition in_archive (glob : Z -> option Z -> list file) (x : sample) : Prop :=
  exists d s f, In (Some f) (glob d s) /\ In x f.

(** ** Maps *)

(** Sum over a list. *)
Definition sum {A} (f : A -> R) (l : list A) : R := fold_right Rplus 0%R (map f l).
(** All nodes of a grid. *)
Definition all_nodes (n : ijk) : list ijk :=
  let '(nx, ny, nz) := n in
  flat_map (fun i => flat_map (fun j => map (fun k => (i, j, k)) (zrange nz)) (zrange ny)) (zrange nx).
(** The value of a map (a list in C order) at a node. *)
Definition at_node (n : ijk) (m : list R) (p : ijk) : R := value m (flat n p).
(** The nodes above the threshold. *)
Definition above (n : ijk) (thresh : R) (m : list R) : list ijk :=
  filter (fun p => if Rlt_dec thresh (at_node n m p) then true else false) (all_nodes n).
(** Weighted mean of [f] over the nodes above the threshold. *)
Definition wmean (n : ijk) (thresh : R) (m : list R) (f : ijk -> R) : R :=
  (sum (fun p => at_node n m p * f p) (above n thresh m) / sum (at_node n m) (above n thresh m))%R.

Definition comp (a : Z) (v : vec) : R := let '(x, y, z) := v in if a =? 0 then x else if a =? 1 then y else z.
Definition mrow (a : Z) (m : matrix) : vec := let '(x, y, z) := m in if a =? 0 then x else if a =? 1 then y else z.
Definition mcell (a b : Z) (m : matrix) : R := comp b (mrow a m).
Definition idx (a : Z) (p : ijk) : Z := let '(x, y, z) := p in if a =? 0 then x else if a =? 1 then y else z.

(** A node with the largest value; among several, the first in C order. *)
Definition peak_node (n : ijk) (m : list R) (p : ijk) : Prop :=
  is_node n p /\ (forall q, is_node n q -> (at_node n m q <= at_node n m p)%R)
  /\ (forall q, is_node n q -> flat n q < flat n p -> (at_node n m q < at_node n m p)%R).

(** An interpolating method: at the points it was given, it returns the values it was given. *)
Definition interpolating (rbf : list vec -> list R -> vec -> R) : Prop :=
  forall pts vals i p v, NoDup pts -> length pts = length vals ->
  rd pts i = Some p -> rd vals i = Some v -> rbf pts vals p = v.

(** Distance of a node from the lower-left corner along axis [a]. *)
Definition offset (g : grid) (a : Z) (p : ijk) : R := (IZR (idx a p) * comp a (g_spacing g))%R.

(** The nodes within [w2] of the node [p] along every axis, inside the grid: bounds of axis [a]. *)
Definition win_lo (n p : ijk) (w2 a : Z) : Z := Z.max 0 (idx a p - w2).
Definition win_hi (n p : ijk) (w2 a : Z) : Z := Z.min (idx a n - 1) (idx a p + w2).
Definition in_win (n p : ijk) (w2 : Z) (q : ijk) : Prop :=
  forall a, 0 <= a < 3 -> win_lo n p w2 a <= idx a q <= win_hi n p w2 a.
Definition of_node (p : ijk) : vec := let '(i, j, k) := p in (IZR i, IZR j, IZR k).

(** The sum of the maps of all times, at a node. *)
Definition stacked (n : ijk) (map4d : list (list R)) (p : ijk) : R := sum (fun m => at_node n m p) map4d.

(** The window has the same number of nodes along every axis. *)
Definition eq_sizes (n p : ijk) (w2 : Z) : Prop :=
  forall a, 0 <= a < 3 -> win_hi n p w2 a - win_lo n p w2 a = win_hi n p w2 0 - win_lo n p w2 0.
(** A point (grid indices) relative to the corner of the window, first two axes exchanged. *)
Definition rel (n p : ijk) (w2 : Z) (q : vec) : vec :=
  let '(x, y, z) := q in
  let a := IZR (win_lo n p w2 0) in let b := IZR (win_lo n p w2 1) in let c := IZR (win_lo n p w2 2) in
  (y - b, x - a, z - c)%R.
(** A point of the grid [up] times finer than the nodes of the window. *)
Definition fine_point (n p : ijk) (w2 up : Z) (f : ijk) : vec :=
  let '(i, j, k) := f in
  let a := IZR (win_lo n p w2 0) in let b := IZR (win_lo n p w2 1) in let c := IZR (win_lo n p w2 2) in
  (IZR i / IZR up + a, IZR j / IZR up + b, IZR k / IZR up + c)%R.
(** The point lies between the first and the last node of the window. *)
Definition inside_win (n p : ijk) (w2 : Z) (q : vec) : Prop :=
  forall a, 0 <= a < 3 -> (IZR (win_lo n p w2 a) <= comp a q <= IZR (win_hi n p w2 a))%R.

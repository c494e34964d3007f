(** Python/numpy slices of one-dimensional arrays with step 1. *)
From Coq Require Import List ZArith.
From Verif Require Import Lib.
Import ListNotations.
Open Scope Z_scope.

(** A slice bound against a sequence of length [n]: negative bounds count from the end, all
    bounds are clamped to [0, n].  (Python language reference, slicing.) *)
Definition pynorm (n i : Z) : Z := if i <? 0 then Z.max 0 (i + n) else Z.min i n.
Definition pylo (n : Z) (a : option Z) : Z := match a with None => 0 | Some i => pynorm n i end.
Definition pyhi (n : Z) (b : option Z) : Z := match b with None => n | Some i => pynorm n i end.

(** [l[a:b]] *)
Definition pyslice {A} (l : list A) (a b : option Z) : list A :=
  let n := Z.of_nat (length l) in
  firstn (Z.to_nat (pyhi n b - pylo n a)) (skipn (Z.to_nat (pylo n a)) l).

(** [l[a:b] = vals] for numpy arrays; a length mismatch raises ValueError ([None]).
    (numpy also accepts a right-hand side of length 1 by broadcasting; the modelled code never
    relies on it.) *)
Definition pyset {A} (l : list A) (a b : option Z) (vals : list A) : option (list A) :=
  let n := Z.of_nat (length l) in
  let lo := pylo n a in let hi := Z.max lo (pyhi n b) in
  if Z.of_nat (length vals) =? hi - lo
  then Some (firstn (Z.to_nat lo) l ++ vals ++ skipn (Z.to_nat hi) l)
  else None.

(** [l[a:b] = v] for a scalar [v]. *)
Definition pyfill {A} (l : list A) (a b : option Z) (v : A) : list A :=
  let n := Z.of_nat (length l) in
  let lo := pylo n a in let hi := Z.max lo (pyhi n b) in
  firstn (Z.to_nat lo) l ++ repeat v (Z.to_nat (hi - lo)) ++ skipn (Z.to_nat hi) l.

(** Python's [l[i]] with negative indices counted from the end; IndexError is [None]. *)
Definition pyget {A} (l : list A) (i : Z) : option A :=
  if i <? 0 then rd l (i + Z.of_nat (length l)) else rd l i.

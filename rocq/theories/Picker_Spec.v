(** Vocabulary for the statements about the phase picker. *)
From Coq Require Import String Ascii.
From Coq Require Import List ZArith QArith.
From Verif Require Import Lib Timeline_Model Picker_Model.
Import ListNotations.
Open Scope Z_scope.

(** The arrivals are in order. *)
Fixpoint in_order (ws : list window) : Prop :=
  match ws with
  | w1 :: ((w2 :: _) as r) => w_arr w1 <= w_arr w2 /\ in_order r
  | _ => True
  end.
(** The arrival lies between the bounds. *)
Definition proper (w : window) : Prop := w_lo w <= w_arr w <= w_hi w.

(** Sample [k] of the onset function exceeds the threshold. *)
Definition above (onset : list Q) (t : Q) (k : Z) : Prop := exists v, rd onset k = Some v /\ (t < v)%Q.
(** [s, e) is the maximal run of samples above the threshold, within [lo, hi), around [k]. *)
Definition run_around (onset : list Q) (t : Q) (lo hi k s e : Z) : Prop :=
  lo <= s /\ s <= k < e /\ e <= hi
  /\ (forall i, s <= i < e -> above onset t i)
  /\ (s = lo \/ ~ above onset t (s - 1)) /\ (e = hi \/ ~ above onset t e).
(** The first of the largest samples of [lo, hi). *)
Definition window_max (onset : list Q) (lo hi k : Z) : Prop :=
  lo <= k < hi /\ exists v, rd onset k = Some v
  /\ (forall i w, lo <= i < hi -> rd onset i = Some w -> (w <= v)%Q)
  /\ (forall i w, lo <= i < k -> rd onset i = Some w -> (w < v)%Q).

(** Sample [k] lies in one of the windows. *)
Definition in_windows (ws : list window) (k : Z) : Prop := exists w, In w ws /\ w_lo w <= k < w_hi w.
(** The windows lie inside an array of [n] samples. *)
Definition windows_inside (n : Z) (ws : list window) : Prop := Forall (fun w => 0 <= w_lo w <= w_hi w /\ w_hi w <= n) ws.

(** A fitting procedure that fails only with the exceptions curve_fit documents for bad data. *)
Definition fails_softly (cf : list Z -> list Q -> outcome (Q * Q * Q)) : Prop :=
  forall x y, length x = length y -> (3 <= length y)%nat ->
  (exists p, cf x y = Ret p) \/ cf x y = Raise ValueError \/ cf x y = Raise RuntimeError.

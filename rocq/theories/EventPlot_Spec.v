(** What an event summary is to show. *)
From Coq Require Import String Ascii.
From Coq Require Import List ZArith QArith Qabs Permutation.
From Verif Require Import Lib Timeline_Model Lut_Model Comps_Model EventPlot_Model.
Import ListNotations.
Open Scope Z_scope.

(** What np.argsort returns: the positions, in an order in which the values do not decrease. *)
Definition is_argsort (argsort : list Z -> list Z) : Prop :=
  forall l, Permutation (argsort l) (zrange (Z.of_nat (length l)))
  /\ forall i j a b x y, i < j -> rd (argsort l) i = Some a -> rd (argsort l) j = Some b -> rd l a = Some x -> rd l b = Some y -> x <= y.

(** One traveltime per phase and station. *)
Definition table (phases stations : nat) (traveltimes : list (list Z)) : Prop := length traveltimes = phases /\ Forall (fun r => length r = stations) traveltimes.

(** The sample [k] is closest to the time (doubled). *)
Definition is_closest (c : clock) (start n t2 k : Z) : Prop :=
  0 <= k < n /\ forall i, 0 <= i < n -> Z.abs (2 * (start + k * delta c) - t2) <= Z.abs (2 * (start + i * delta c) - t2)
  /\ (i < k -> Z.abs (2 * (start + k * delta c) - t2) < Z.abs (2 * (start + i * delta c) - t2)).
(** The largest of some numbers. *)
Definition is_max (l : list Z) (m : Z) : Prop := In m l /\ Forall (fun x => x <= m) l.

(** The waveform shows the samples [a] to [b] (without [b]) of the trace, scaled by [m] and shifted to its row. *)
Definition scaled (data : list Q) (a b : Z) (m : Q) (row : Z) (values : list (option Q)) : Prop :=
  (forall j, 0 <= j < b - a -> a + j < Z.of_nat (length data) -> rd values j = option_map (fun v => if Qeq_bool m 0 then None else Some (v / m + inject_Z row)%Q) (rd data (a + j)))
  /\ Z.of_nat (length values) = Z.max 0 (Z.min b (Z.of_nat (length data)) - Z.min a (Z.of_nat (length data))).
(** [m] is the largest absolute value of the samples [a] to [b] (without [b]). *)
Definition largest (data : list Q) (a b : Z) (m : Q) : Prop :=
  (forall k v, a <= k < b -> rd data k = Some v -> (Qabs v <= m)%Q) /\ exists k v, a <= k < b /\ rd data k = Some v /\ (Qabs v == m)%Q.

(** The panels: colour, components and phase. *)
Definition panels (s0 s1 s2 : ascii -> bool) : list (Z * (ascii -> bool) * string) := [(0, s0, "P"); (1, s1, "S"); (2, s2, "S")]%string.
(** The waveform [w] shows the trace [t] of station number [i] in its row. [a], [b]: the samples of the limits of the plot; the scale is the largest value up to 1.5 times the
    traveltime of the last phase. *)
Definition shows_trace (c : clock) (start n otime a b : Z) (traveltimes : list (list Z)) (i row colour : Z) (phase : string) (t : trace) (w : wave) : Prop :=
  v_station w = t_station t /\ v_comp w = t_comp t /\ v_phase w = phase /\ v_colour w = colour /\ v_row w = row /\ v_from w = a
  /\ exists tt e m, is_max (column traveltimes i) tt /\ is_closest c start n (2 * otime + 3 * tt) e /\ largest (t_data t) a e m /\ scaled (t_data t) a b m row (v_values w).
(** The two components that share a panel: the text is "[a,b]". *)
Definition pair_of (texts : list ascii * list ascii * list ascii) (ph : string) (a b : ascii) : Prop :=
  let pair t := exists x y z, t = x :: a :: y :: b :: z /\ (length z <= 1)%nat in
  let '(p, s1, s2) := texts in (ph = "P"%string /\ pair p) \/ (ph = "S"%string /\ (pair s1 \/ pair s2)).
(** A label and what it becomes in the legend. *)
Definition shortens (texts : list ascii * list ascii * list ascii) (l l' : label) : Prop :=
  l' = l \/ exists a b ph, pair_of texts ph a b /\ l' = Pair b a ph /\ (l = Single a ph \/ l = Single b ph).
(** Labels as drawn on the gather. *)
Definition drawn_label (l : label) : Prop := match l with Pair _ _ _ => False | _ => True end.

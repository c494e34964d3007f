(** Vocabulary for the statements about amplitude measurements. *)
From Coq Require Import String Ascii.
From Coq Require Import List ZArith QArith Qabs Qminmax.
From Verif Require Import Lib Amp_Model.
Import ListNotations.
Open Scope Z_scope.

(** The sample [p] is the middle of a run of equal samples between smaller ones. *)
Definition is_maximum (x : list Q) (p : Z) : Prop :=
  exists l r, 1 <= l /\ l <= r /\ r + 1 < Z.of_nat (length x) /\ p = (l + r) / 2
  /\ (forall k, l <= k <= r -> (at_ x k == at_ x l)%Q) /\ (at_ x (l - 1) < at_ x l)%Q /\ (at_ x (r + 1) < at_ x l)%Q.
Definition is_minimum (x : list Q) (p : Z) : Prop :=
  exists l r, 1 <= l /\ l <= r /\ r + 1 < Z.of_nat (length x) /\ p = (l + r) / 2
  /\ (forall k, l <= k <= r -> (at_ x k == at_ x l)%Q) /\ (at_ x l < at_ x (l - 1))%Q /\ (at_ x l < at_ x (r + 1))%Q.

Definition increasing (l : list Z) : Prop := forall i j a b, i < j -> rd l i = Some a -> rd l j = Some b -> a < b.
(** Between two peaks lies a trough, between two troughs a peak. *)
Definition alternate (peaks troughs : list Z) : Prop :=
  increasing peaks /\ increasing troughs /\ (forall k, In k peaks -> ~ In k troughs)
  /\ (forall a b, In a peaks -> In b peaks -> a < b -> exists k, In k troughs /\ a < k < b)
  /\ (forall a b, In a troughs -> In b troughs -> a < b -> exists k, In k peaks /\ a < k < b).
(** A peak and a trough with nothing in between. *)
Definition neighbours (peaks troughs : list Z) (i j : Z) : Prop :=
  In i peaks /\ In j troughs /\ forall k, In k peaks \/ In k troughs -> ~ (Z.min i j < k < Z.max i j).
(** The largest difference between a peak and a neighbouring trough. *)
Definition largest_swing (x : list Q) (peaks troughs : list Z) (i j : Z) : Prop :=
  neighbours peaks troughs i j
  /\ forall i' j', neighbours peaks troughs i' j' -> (Qabs (at_ x i' - at_ x j') <= Qabs (at_ x i - at_ x j))%Q.
(** No two of the samples have the same value. *)
Definition different (x : list Q) (l : list Z) : Prop := forall a b, In a l -> In b l -> a <> b -> ~ (at_ x a == at_ x b)%Q.

(** [a, b] lies in [c, d]. *)
Definition within (w v : Q * Q) : Prop := (fst v <= fst w /\ snd w <= snd v)%Q.

(** The pick used for a phase of a station: the first row of the table for them. *)
Definition first_row (table : list pick_row) (station phase : string) (r : pick_row) : Prop :=
  exists a b, table = a ++ r :: b /\ pk_station r = station /\ pk_phase r = phase
  /\ forall q, In q a -> pk_station q = station -> pk_phase q <> phase.
Definition no_row (table : list pick_row) (station phase : string) : Prop :=
  forall q, In q table -> pk_station q = station -> pk_phase q <> phase.

(** The signal falls by [t] from the sample [p], on both sides, before it exceeds it. *)
Definition prominent (x : list Q) (p : Z) (t : Q) : Prop :=
  exists a b, 0 <= a /\ a <= p /\ p <= b /\ b < Z.of_nat (length x)
  /\ (at_ x a <= at_ x p - t)%Q /\ (at_ x b <= at_ x p - t)%Q
  /\ forall k, a <= k <= b -> (at_ x k <= at_ x p)%Q.

(** The pick is close to the modelled arrival, [e] closer than asked of the picker. *)
Definition near (table : list pick_row) (station : string) (otime mw ptt stt f e : Q) : Prop :=
  forall r t, In r table -> pk_station r = station -> pk_time r = Some t ->
  (pk_phase r = "P"%string -> (Qabs (t - (otime + ptt)) < mw + ptt * f + e)%Q)
  /\ (pk_phase r = "S"%string -> (Qabs (t - (otime + stt)) < mw + stt * f + e)%Q).

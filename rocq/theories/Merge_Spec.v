(** Vocabulary for the statements about merging. *)
From Coq Require Import String Ascii.
From Coq Require Import List ZArith Reals.
From Verif Require Import Lib Avail_Model.
Import ListNotations.
Open Scope Z_scope.

(** A trace has the value [v] at time [t]. *)
Definition sample (s : seg) (t : Z) (v : R) : Prop := exists k, t = sg_start s + k * sg_delta s /\ rd (sg_data s) k = Some v.
(** Some trace of channel [i] has. *)
Definition recorded (st : list seg) (i : string) (t : Z) (v : R) : Prop := exists s, In s st /\ sg_id s = i /\ sample s t v.

(** The order in which a set of ids may be gone through. *)
Definition enumerates (order : list string) (st : list seg) : Prop := NoDup order /\ forall i, In i order <-> In i (map sg_id st).
(** The traces of a channel that hold data have the sampling interval [d], and lie on one grid. *)
Definition on_rate (st : list seg) (i : string) (d : Z) : Prop := 0 < d /\ forall s, In s st -> sg_id s = i -> sg_data s <> [] -> sg_delta s = d.
Definition on_grid (st : list seg) (i : string) (d : Z) : Prop :=
  forall s s', In s st -> In s' st -> sg_id s = i -> sg_id s' = i -> sg_data s <> [] -> sg_data s' <> [] -> exists k, sg_start s' - sg_start s = k * d.
(** No two values at one time. *)
Definition consistent (st : list seg) (i : string) : Prop := forall t v v', recorded st i t v -> recorded st i t v' -> v = v'.
(** Traces in order of time, more than one sampling interval apart. *)
Fixpoint separated (d : Z) (l : list seg) : Prop :=
  match l with a :: ((b :: _) as r) => sg_end a + d < sg_start b /\ separated d r | _ => True end.
(** Two traces overlap in time, and are not sampled at the same times or differ at some time. *)
Definition clash (d : Z) (s s' : seg) : Prop :=
  sg_start s <= sg_end s' /\ sg_start s' <= sg_end s
  /\ (~ (exists k, sg_start s' - sg_start s = k * d) \/ exists t v v', sample s t v /\ sample s' t v' /\ v <> v').
(** Two streams hold the same samples of channel [i]: at interval [d], on one grid, without contradictions. *)
Definition same_channel (st st' : list seg) (i : string) (d : Z) : Prop :=
  on_rate st i d /\ on_rate st' i d /\ on_grid st i d /\ on_grid st' i d /\ consistent st i /\ forall t v, recorded st i t v <-> recorded st' i t v.

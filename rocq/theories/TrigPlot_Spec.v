(** What a trigger summary is to show. *)
From Coq Require Import String Ascii.
From Coq Require Import List ZArith QArith.
From Verif Require Import Lib Lut_Spec Avail_Model Trigger_Model Trigger_Spec TrigPlot_Model.
Import ListNotations.
Open Scope Z_scope.

Definition within (s : span) (t : Z) : Prop := sp_from s <= t <= sp_to s.
(** [n] things satisfy [P]. *)
Definition counts {A} (n : Z) (P : A -> Prop) : Prop := exists l, NoDup l /\ Z.of_nat (length l) = n /\ forall x, In x l <-> P x.

(** An availability table with one column "station_phase" for each element of [ks]. *)
Definition key (k : string * string) : string := (fst k ++ "_" ++ snd k)%string.
Definition phases_of (ks : list (string * string)) (p : string) : Prop := exists s, In (s, p) ks.
Record table_of (t : atable) (ks : list (string * string)) : Prop := {
  to_cols : at_cols t = map key ks;
  to_once : NoDup ks;
  to_plain : forall s p, In (s, p) ks -> plain_name s /\ plain_name p /\ p <> "*"%string;
  to_rows : forall r, In r (at_rows t) -> length (snd r) = length ks /\ forall v, In v (snd r) -> v = 0 \/ v = 1 }.
(** Phase [p] of station [s] is available in a row. *)
Definition available (ks : list (string * string)) (row : list Z) (s p : string) : Prop := exists i, rd ks i = Some (s, p) /\ rd row i = Some 1.
(** The stations of a phase, in the order of the columns. *)
Definition stations_of (ks : list (string * string)) (p : string) : list string := map fst (filter (fun k => String.eqb (snd k) p) ks).
(** The number of stations a line is to show in a row. *)
Definition shown (ks : list (string * string)) (phase : string) (row : list Z) (n : Z) : Prop :=
  if String.eqb phase "*" then counts n (fun s => exists p, available ks row s p) /\ counts n (fun s => (exists p, In (s, p) ks) /\ forall p, In (s, p) ks -> available ks row s p)
  else counts n (fun s => available ks row s phase).
(** A closed polygon through the corners of the rectangle. *)
Definition rectangle (l : list (Q * Q)) (x0 x1 y0 y1 : Q) : Prop :=
  exists a b c d, l = [a; b; c; d; a] /\ forall z, In z [a; b; c; d] <-> In z [(x0, y0); (x0, y1); (x1, y1); (x1, y0)].

(** What users expect of the plot of amplitudes against distance. *)
From Coq Require Import String Ascii.
From Coq Require Import List Reals Bool.
From Verif Require Import Lib Mag_Model Mag_Spec AmpPlot_Model.
Import ListNotations.
Open Scope R_scope.

(** Trace id of component [c] of station [s] (network, station, location and first letters of the channel). *)
Definition trace_id (s : string) (c : ascii) : string := append s (String c EmptyString).

(** Rows [g] are those of station [s] with components [cs]. *)
Definition of_station (s : string) (g : list lrow) (cs : list ascii) : Prop :=
  s <> EmptyString /\ g <> [] /\ Forall2 (fun r c => l_id r = trace_id s c) g cs.

(** The label of a station: its name with the components shown, at its distance, above its highest amplitude. *)
Definition station_label (s : string) (g : list lrow) (grey : bool) (n : note) : Prop :=
  exists cs, of_station s g cs
  /\ n_text n = append s (append "[" (append (String.concat "," (map (fun c => String c EmptyString) cs)) "]"))
  /\ (exists r, In r g /\ n_dist n = l_dist r)
  /\ (exists r, In r g /\ n_amp n = l_amp r) /\ (forall r, In r g -> eleb (l_amp r) (n_amp n) = true)
  /\ n_grey n = grey.

(** The rows of the table are listed station by station. *)
Definition by_station (k : mag_params) (table : list fobs) (gs : list (string * list fobs)) : Prop :=
  table = concat (map snd gs) /\ NoDup (map fst gs)
  /\ forall s g, In (s, g) gs -> exists cs, of_station s (map (row_of k) g) cs.

Definition used_rows (g : list fobs) : list fobs := filter f_used g.
Definition rejected_rows (g : list fobs) : list fobs := filter (fun f => negb (f_used f)) g.
(** Stations with some observation in use, and those with none. *)
Definition in_use (gs : list (string * list fobs)) : list (string * list fobs) :=
  filter (fun sg => negb (match used_rows (snd sg) with [] => true | _ => false end)) gs.
Definition not_in_use (gs : list (string * list fobs)) : list (string * list fobs) :=
  filter (fun sg => match used_rows (snd sg) with [] => true | _ => false end) gs.

(** Position of a point of the plot within the axes. *)
Definition inside (lim : ext * ext) (x : ext) : Prop :=
  exists a b r, lim = (Fin a, Fin b) /\ x = Fin r /\ a < r < b.

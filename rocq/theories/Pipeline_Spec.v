(** Vocabulary for the statements about the way from the scan to triggered events. *)
From Coq Require Import List ZArith Reals QArith Qreals.
From Verif Require Import Lib Timeline_Model Migrate_Model Migrate_Spec ScanMseed_Model ScanMseed_Spec Lut_Model Trigger_Model Source_Spec Pipeline_Model.
Import ListNotations.
Open Scope Z_scope.

(** A scan that ran from [start] on, in steps [l], with no older files in the way of reading the
    batch from [s] to [e] with the padding [pad]; all times on the sample grid. *)
Record scanned (c : clock) (ucf : Q) (fs fs' : files) (start : Z) (l : list (seg (row R))) (pad s e : Z) : Prop := {
  sc_sec : 0 < sec c; sc_delta : 0 < delta c; sc_day : (delta c | 86400 * sec c); sc_start : (delta c | start);
  sc_ucf : (0 < ucf)%Q; sc_some : l <> []; sc_steps : consecutive c start l;
  sc_stored : exists cw, store_run c (Q2R ucf) cw fs l = Ret fs';
  sc_lo : (delta c | s - pad); sc_hi : (delta c | e + pad);
  sc_old : forall d, (s - pad) / (86400 * sec c) <= d <= (e + pad) / (86400 * sec c) ->
             on_date c d (run_samples c l) = [] -> fs d = None }.

(** What is stored of a coalescence value: values above 21474 are cut off. *)
Definition kept (x : R) : R := Rmin x 21474.

(** [ev] is the event at the sample [r] of the scan at time [t], to within the rounding of the store. *)
Definition event_at (ucf : Q) (t : Z) (v : R) (r : row R) (ev : event) : Prop :=
  CoaTime (cand ev) = t /\ (Rabs (Q2R (TRIG_COA (cand ev)) - v) <= 5 / 1000000)%R /\
  (Rabs (Q2R (COA_X (cand ev)) - px r) <= 5 / 10000000)%R /\ (Rabs (Q2R (COA_Y (cand ev)) - py r) <= 5 / 10000000)%R /\
  (Rabs (Q2R (COA_Z (cand ev)) - pz r) <= 1 / (2 * (1000 * Q2R ucf)))%R.

(** The stack at a node and an output sample of a timestep: the geometric mean of the onsets (not below 0.01)
    at the arrivals from the node. *)
Definition stack (n first : Z) (tt : Z -> Z -> Z) (on : Z -> Z -> R) (node s : Z) : R :=
  geometric_mean (map (fun k => Rmax (on k (arrival tt first node s k)) (1 / 100)) (zrange n)).

(** The block [g] of a run is what the migration of the onsets [on] gives. *)
Definition migrated (coord : Z -> vec) (n n_nodes first last : Z) (tt : Z -> Z -> Z) (g : seg (row R)) (on : Z -> Z -> R) : Prop :=
  exists r0 r1 m o, let t := first + Z.of_nat (length (rows g)) + last in
    n * t < 2147483648 /\
    lib_migrate r0 (array2 n t on) n t (array2 n_nodes n tt) n_nodes n first last n = Ret m /\
    lib_find_max_coa r1 m n_nodes (t - first - last) = Ret o /\ step_rows coord o = Some (rows g).

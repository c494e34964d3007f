(** From the onsets around a triggered event to its location: the steps between the models of the
    migration library and of the locate stage. *)
From Coq Require Import List ZArith Reals Bool.
From Verif Require Import Lib Timeline_Model Migrate_Model ScanMseed_Model Lut_Model Locate_Model.
Import ListNotations.
Open Scope Z_scope.

(** The array returned by migrate (lib.py:96-123, shape (nodes, samples)) as one map per time, the form in which
    event.py:238 stores it for trim2window and _calculate_location. *)
Definition time_slices (n_nodes ns : Z) (m : list R) : list (list R) :=
  map (fun s => map (fun node => node_value m (node * ns + s)) (zrange n_nodes)) (zrange ns).

(** scan.py:618-648 _compute and event.py:203-242 add_compute_output for the onsets [os] around a triggered
    event: [coord] is lut.index2coord with unravel=True. A normalised maximum that is not a number is Undef. *)
Definition compute_event (r0 : mreg) (r1 : freg) (coord : Z -> vec) (c : clock) (n t_samples : Z) (tts : list Z)
    (n_nodes first last mw : Z) (os : list R) (trig : Z) : outcome (event (list R)) :=
  bind (lib_migrate r0 os n t_samples tts n_nodes n first last n) (fun m =>
  let ns := t_samples - first - last in
  bind (lib_find_max_coa r1 m n_nodes ns) (fun o =>
  match map_opt (fun x => x) (o_norm o) with
  | Some norms => add_compute_output trig mw (mw_times c trig mw) (o_max o) norms (map coord (o_idx o)) (time_slices n_nodes ns m)
  | None => Undef
  end)).

(** scan.py:535-536 for an event inside its marginal window: the trimmed event and its location. SIMPLIFICATION: picks, magnitudes and
    files (scan.py:538-591) are in other models. *)
Definition finish_event (rbf : list vec -> list R -> vec -> R) (g : grid) (ev : event (list R))
  : outcome (event (list R) * (vec * option (vec * matrix * vec))) :=
  bind (calculate_location rbf g (e_map ev)) (fun loc => Ret (ev, loc)).

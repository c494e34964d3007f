(** From the migration of a timestep to triggered events: the steps between the models of the migration
    library, of the scan store and of the trigger. *)
From Coq Require Import List ZArith Reals QArith Bool.
From Verif Require Import Lib Timeline_Model Migrate_Model ScanMseed_Model Lut_Model Trigger_Model.
Import ListNotations.
Open Scope Z_scope.

(** scan.py:637-643, the output of one timestep: the maxima, the normalised maxima and the coordinates of the
    nodes ([coord] is lut.index2coord with unravel=True). None: a normalised maximum is not a number. *)
Definition step_rows (coord : Z -> vec) (o : fout) : option (list (row R)) :=
  map_opt (fun x => let '(m, nm, i) := x in
             match nm with
             | Some nv => let '(cx, cy, cz) := coord i in Some (mk_row m nv cx cy cz)
             | None => None
             end)
          (combine (combine (o_max o) (o_norm o)) (o_idx o)).

(** scan.py:434-468: the appends of a run, and the last write. *)
Fixpoint append_all (c : clock) (ucf : R) (cw : bool) (fs : files) (o : scanmseed) (l : list (seg (row R)))
  : outcome (files * scanmseed) :=
  match l with
  | [] => Ret (fs, o)
  | g :: r => bind (append c ucf cw fs o (t0 g) (rows g)) (fun p => append_all c ucf cw (fst p) (snd p) r)
  end.
Definition store_run (c : clock) (ucf : R) (cw : bool) (fs : files) (l : list (seg (row R))) : outcome files :=
  bind (append_all c ucf cw fs new_scanmseed l) (fun p =>
    if written (snd p) then Ret (fst p) else write c (fst p) (stream (snd p))).

(** scanmseed.py:302-308: a row of the table read back. *)
Definition scanrow_of (ucf : Q) (t : Z) (z : row Z) : scanrow :=
  {| DT := t; COA := coa z # 100000; COA_N := coa_n z # 100000; PX := px z # 1000000; PY := py z # 1000000;
     PZ := (inject_Z (pz z) / ((1000 # 1) * ucf))%Q |}.
(** scanmseed.py:244-325 read_scanmseed as called by trigger.py:338-341 *)
Definition trigger_read (c : clock) (ucf : Q) (fs : files) (pad starttime endtime : Z) : outcome (list scanrow) :=
  bind (read_scanmseed c fs starttime endtime pad) (fun g =>
    Ret (map (fun iz => scanrow_of ucf (t0 g + fst iz * delta c) (snd iz)) (indexed (rows g)))).

(** Vocabulary for the statements about the scan store. *)
From Coq Require Import List ZArith Reals Bool.
From Verif Require Import Lib Timeline_Model ScanMseed_Model.
Import ListNotations.
Open Scope Z_scope.

(** The samples of a trace with their times, and of a whole file. *)
Fixpoint samples_from {A} (d t : Z) (l : list A) : list (Z * A) :=
  match l with [] => [] | x :: r => (t, x) :: samples_from d (t + d) r end.
Definition samples {A} (c : clock) (g : seg A) : list (Z * A) := samples_from (delta c) (t0 g) (rows g).
Definition file_samples {A} (c : clock) (f : option (list (seg A))) : list (Z * A) :=
  match f with Some l => flat_map (samples c) l | None => [] end.

(** The samples that fall on date [d]. *)
Definition on_date {A} (c : clock) (d : Z) (l : list (Z * A)) : list (Z * A) :=
  filter (fun p => fst p / (86400 * sec c) =? d) l.
(** The samples from [lo] to [hi] (both included). *)
Definition between {A} (lo hi : Z) (l : list (Z * A)) : list (Z * A) :=
  filter (fun p => (lo <=? fst p) && (fst p <=? hi)) l.

(** The blocks appended by a run that starts at [t]: each follows directly on the previous one,
    none is empty and none is longer than a day. *)
Fixpoint consecutive {A} (c : clock) (t : Z) (l : list (seg A)) : Prop :=
  match l with
  | [] => True
  | g :: r => t0 g = t /\ rows g <> [] /\ Z.of_nat (length (rows g)) * delta c <= 86400 * sec c
              /\ consecutive c (t + Z.of_nat (length (rows g)) * delta c) r
  end.
(** Everything that a run appended. *)
Definition run_samples {A} (c : clock) (l : list (seg A)) : list (Z * A) := flat_map (samples c) l.
(** Time just after the last appended sample. *)
Definition run_end {A} (c : clock) (t : Z) (l : list (seg A)) : Z :=
  t + Z.of_nat (length (flat_map rows l)) * delta c.

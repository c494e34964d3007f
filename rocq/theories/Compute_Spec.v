(** Vocabulary for the statements about the coalescence of a time window. *)
From Coq Require Import String List ZArith Reals.
From Verif Require Import Lib PyDict Onset_Spec.
Import ListNotations.
Open Scope Z_scope.

(** The value of the onset function of a station and phase at a sample (0 if there is none). *)
Definition onset_value (d : dict (dict (list (option R)))) (station phase : string) (i : Z) : R :=
  match onset_for d station phase with Some o => match rd o i with Some (Some v) => v | _ => 0%R end | None => 0%R end.
(** The stations and phases that have an onset function, phase by phase. *)
Definition with_onset (d : dict (dict (list (option R)))) (phases stations : list string) : list (string * string) :=
  filter (fun sp => match onset_for d (fst sp) (snd sp) with Some _ => true | None => false end) (flat_map (fun p => map (fun s => (s, p)) stations) phases).

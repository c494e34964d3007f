(** What users expect of the files of a run: nothing is overwritten by another run, sub-run, day or event. *)
From Coq Require Import String Ascii.
From Coq Require Import List ZArith.
From Verif Require Import Lib Calendar_Model Files_Model.
Import ListNotations.
Open Scope Z_scope.

(** A name without the separator of paths and without the separator of suffixes. *)
Definition free (s : name) : Prop := ~ In "/"%char s /\ ~ In "."%char s.
Definition plain (s : name) : Prop := s <> [] /\ free s.

(** Event identifiers as the trigger stage writes them: digits only. *)
Definition is_digit (c : ascii) : Prop := (48 <= nat_of_ascii c <= 57)%nat.
Definition digit_uid (s : name) : Prop := s <> [] /\ Forall is_digit s.

Definition four_digit_year (d : Z) : Prop := 0 <= year d <= 9999.

Definition usual_output (o : output) : Prop :=
  match o with
  | OScan d | OAvail d | OTrig d | OTrigPlot d => four_digit_year d
  | OEvent uid | OPicks uid | OAmps uid | OAmpPlot uid | OSummary uid | OMap _ uid => digit_uid uid
  | OPickPlot uid station => digit_uid uid /\ free station
  | OCut k uid f => digit_uid uid /\ In k [str "raw"; str "real"; str "wa"]
                    /\ In f [str "MSEED"; str "SAC"; str "SEGY"; str "GSE2"]
  end.

(** The detect stage has no sub-runs. *)
Definition of_detect (o : output) : Prop := match o with OScan _ | OAvail _ => True | _ => False end.

(** Vocabulary for the statements about the phase of the filter. *)
From Coq Require Import List ZArith Reals.
From Verif Require Import Lib Chain_Model Chain_Spec.
Import ListNotations.
Open Scope R_scope.

(** The record, backwards in time about [c]. *)
Definition mirrored (c : Z) (x : Z -> R) (t : Z) : R := x (2 * c - t)%Z.
(** The energy of the first [J] samples of a response. *)
Definition energy_of (h : nat -> R) (J : nat) : R := total J (fun i => h i * h i).
(** A single sample that is not zero. *)
Definition impulse (c : Z) (v : R) (t : Z) : R := if (t =? c)%Z then v else 0.

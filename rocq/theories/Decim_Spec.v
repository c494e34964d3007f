(** Vocabulary for the statements about decimated data. *)
From Coq Require Import List ZArith Reals.
From Verif Require Import Lib Chain_Model Chain_Spec.
Import ListNotations.
Open Scope R_scope.

(** A low-pass filter may let constants and lines through; only its size counts, and what is left of it after [J] samples. *)
Definition fading (h : nat -> R) (A E : R) (J : nat) : Prop :=
  (forall N, total N (fun j => Rabs (h j)) <= A) /\ (forall N, total N (fun j => Rabs (h (J + j)%nat)) <= E).
(** Both filters on the record without ends: the low-pass at the rate of the data, the band-pass at that of the output. *)
Definition both_filters (hl hb : nat -> R) (J J' k : nat) (x : Z -> R) (T : Z) : R := two_sided hb J' (fun s => two_sided hl J x (Z.of_nat k * s)%Z) T.
(** How many samples come out of [n]. *)
Definition n_out (k : nat) (n : Z) : Z := ((n + Z.of_nat k - 1) / Z.of_nat k)%Z.
(** The output sample [s] is away from the ends of the output, and its surroundings are away from the ends of the data. *)
Definition clear_of_both (J J' k : nat) (n s : Z) : Prop :=
  (settling J' (n_out k n) <= s < n_out k n - settling J' (n_out k n))%Z
  /\ (settling J n <= Z.of_nat k * (s - Z.of_nat J'))%Z /\ (Z.of_nat k * (s + Z.of_nat J') < n - settling J n)%Z.

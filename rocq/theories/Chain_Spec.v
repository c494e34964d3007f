(** Vocabulary for the statements about the processing before the onset function. *)
From Coq Require Import List ZArith Reals.
From Verif Require Import Lib Chain_Model.
Import ListNotations.
Open Scope R_scope.

(** The response of a filter to an impulse. *)
Definition response (F : list R -> list R) (j : nat) : R := nth j (F (1 :: repeat 0 j)) 0.
(** Of the response [h], all is at most [A]; what comes from [J] on is at most [E]; and up to [J] it takes a constant signal to zero, give or take [E]. *)
Definition calm (h : nat -> R) (A E : R) (J : nat) : Prop :=
  (forall N, total N (fun j => Rabs (h j)) <= A) /\ (forall N, total N (fun j => Rabs (h (J + j)%nat)) <= E)
  /\ Rabs (total J h) <= E.
(** The response dies away geometrically, and the filter removes constants: its transfer function has a zero at frequency zero. *)
Definition band_pass (h : nat -> R) (C rho : R) : Prop :=
  0 <= rho < 1 /\ (forall j, Rabs (h j) <= C * rho ^ j) /\ Un_cv (fun N => total N h) 0.
(** What is left of such a response after [J] samples. *)
Definition leftover (C rho : R) (J : nat) : R := C * rho ^ J * / (1 - rho).
(** Weights between zero and one, and one for all but the first and the last twentieth. *)
Definition taper_weights (w : nat -> nat -> R) : Prop :=
  forall n j, 0 <= w n j <= 1 /\ ((n / 20 <= j)%nat -> (j + n / 20 < n)%nat -> w n j = 1).
(** The first [J] samples of the response, run forwards and backwards over a signal without ends. *)
Definition two_sided (h : nat -> R) (J : nat) (x : Z -> R) (t : Z) : R :=
  total J (fun i => h i * total J (fun j => h j * x (t + Z.of_nat i - Z.of_nat j)%Z)).
(** How many samples to keep clear of either end. *)
Definition settling (J : nat) (n : Z) : Z := (n / 20 + Z.of_nat J)%Z.

(** Both poles of the section are inside the unit circle: a pair of complex conjugates, or two real numbers. *)
Definition stable (s : section_) : Prop :=
  (a1 s * a1 s < 4 * a2 s /\ a2 s < 1) \/ (exists r1 r2, Rabs r1 < 1 /\ Rabs r2 < 1 /\ a1 s = - (r1 + r2) /\ a2 s = r1 * r2).
(** The sections have, together, (at least) so many zeros at frequency zero, where [z = 1]. *)
Inductive zeros : list section_ -> nat -> Prop :=
| z_nil : zeros [] 0
| z_none : forall s l k, zeros l k -> zeros (s :: l) k
| z_one : forall s l k, b0 s + b1 s + b2 s = 0 -> zeros l k -> zeros (s :: l) (S k)
| z_two : forall s l k, b0 s + b1 s + b2 s = 0 -> b1 s + 2 * b2 s = 0 -> zeros l k -> zeros (s :: l) (S (S k)).

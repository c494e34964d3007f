(** Vocabulary for the statements about STA/LTA. *)
From Coq Require Import List ZArith Reals.
From Verif Require Import Lib Migrate_Spec.
Import ListNotations.
Open Scope Z_scope.

(** Mean of the [w] samples of [x] starting at [lo]. *)
Definition window_mean (x : Z -> R) (lo w : Z) : R :=
  (Rsum (map x (zseq lo (Z.to_nat w))) / IZR w)%R.

(** Quotient, or nothing when the divisor is zero. *)
Definition ratio (a b : R) : option R := if Req_EM_T b 0 then None else Some (a / b)%R.

(** A sample that is a number. *)
Definition is_number (v : option R) : Prop := v <> None.

(** Exponentially weighted average with weight [c] over samples 1..i (sample 0 ignored). *)
Fixpoint exp_average (c : R) (x : Z -> R) (i : nat) : R :=
  match i with
  | O => 0%R
  | S j => (c * x (Z.of_nat i) + (1 - c) * exp_average c x j)%R
  end.

(** Root-mean-square of a list. *)
Definition rms (l : list R) : R := sqrt (Rsum (map (fun v => v * v)%R l) / INR (length l)).

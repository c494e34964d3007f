(** Vocabulary for the statements about the measurements on one trace. *)
From Coq Require Import String Ascii.
From Coq Require Import List ZArith QArith Qabs Reals Qreals.
From Verif Require Import Lib Amp_Model Amp_Spec AmpMeas_Model.
Import ListNotations.
Open Scope Z_scope.

(** [y] is [c] times [x]. *)
Definition scaled (c : Q) (x y : list Q) : Prop := Forall2 (fun u v => (v == c * u)%Q) x y.
(** [y] is [c] times [x], plus the line [a + b i]. *)
Definition transformed (c a b : Q) (x y : list Q) : Prop :=
  length x = length y /\ forall i u v, rd x i = Some u -> rd y i = Some v -> (v == c * u + a + b * inject_Z i)%Q.

(** A measurement with amplitudes [c] times those of another one. *)
Definition meas_scaled (c : Q) (m m' : sig_meas) : Prop :=
  (s_half m' == c * s_half m)%Q /\ s_freq m' = s_freq m /\ s_time m' = s_time m /\ s_avg m' = (Q2R c * s_avg m)%R /\ s_gain m' = s_gain m.
(** Both fail in the same way, or the results are related. *)
Definition same_outcome {A} (rel : A -> A -> Prop) (o o' : outcome A) : Prop :=
  match o, o' with
  | Ret m, Ret m' => rel m m'
  | Raise e, Raise e' => e = e'
  | Undef, Undef => True
  | _, _ => False
  end.
Definition both {A} (rel : A -> A -> Prop) (o o' : option A) : Prop :=
  match o, o' with Some m, Some m' => rel m m' | None, None => True | _, _ => False end.
(** The envelope of a multiple of a signal is the multiple of the envelope; it does not depend on
    the sign. *)
Definition homogeneous (envelope : list Q -> list R) : Prop :=
  forall c x y, scaled c x y -> envelope y = map (Rmult (Rabs (Q2R c))) (envelope x).

(** Time of sample [i] of a trace. *)
Definition time_of (tr : qtrace) (i : Z) : Q := (q_start tr + inject_Z i * q_delta tr)%Q.
(** The trace has a sample of value [v] at the time [t]. *)
Definition has_sample (tr : qtrace) (t v : Q) : Prop := exists i, rd (q_data tr) i = Some v /\ (t == time_of tr i)%Q.
(** Sum of products with the sample numbers. *)
Definition first_moment (x : list Q) : Q := qsum (map (fun iv => (inject_Z (fst iv) * snd iv)%Q) (combine (zrange (Z.of_nat (length x))) x)).
(** No two pairs of neighbouring extrema have the largest difference. *)
Definition unique_swing (x : list Q) : Prop :=
  let P := find_peaks x 0 in let T := find_peaks (map Qopp x) 0 in
  forall i j i' j', largest_swing x P T i j -> largest_swing x P T i' j' -> i = i' /\ j = j'.

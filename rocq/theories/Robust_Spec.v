(** Vocabulary for the statements about thresholds that follow the level of the scan. *)
From Coq Require Import List ZArith Reals QArith Qreals Bool.
From Verif Require Import Lib LibFacts Timeline_Model Migrate_Spec ScanMseed_Model ScanMseed_Spec Trigger_Model Trigger_Spec Pipeline_Model Pipeline_Spec.
Import ListNotations.

(** More than half of the elements satisfy [P]: those that [keep] marks. *)
Definition mostly {A} (P : A -> Prop) (l : list A) : Prop :=
  exists keep : list bool, Forall2 (fun (k : bool) x => k = true -> P x) keep l
    /\ (length (filter negb keep) < length (filter (fun k => k) keep))%nat.

(** If most of the values are between [a] and [b]: the smallest and the largest threshold they can lead to. *)
Definition threshold_floor (p : params) (a : R) : R :=
  match threshold_method p with Static => Q2R (static_threshold p) | Mad => a | MedianRatio => a * Q2R (median_multiplier p) end%R.
Definition threshold_ceiling (p : params) (a b : R) : R :=
  match threshold_method p with Static => Q2R (static_threshold p) | Mad => b + Q2R (mad_multiplier p) * (14826 / 10000 * (b - a)) | MedianRatio => b * Q2R (median_multiplier p) end%R.
(** The length, in seconds, of the windows in which the level is measured; of no importance for the static threshold. *)
Definition level_window (p : params) : Q := match threshold_method p with MedianRatio => median_window_length p | _ => mad_window_length p end.
Definition multiplier_ok (p : params) : Prop := match threshold_method p with Static => True | Mad => (0 <= mad_multiplier p)%Q | MedianRatio => (0 <= median_multiplier p)%Q end.

(** The samples of the scan that the batch from [s] to [e] is triggered from, and the value of a sample that is triggered on, as stored. *)
Definition batch_samples (c : clock) (p : params) (l : list (seg (row R))) (s e : Z) : list (Z * row R) := between (s - pad p) (e + pad p) (run_samples c l).
Definition value (p : params) (r : row R) : R := kept (if normalise_coalescence p then coa_n r else coa r).
(** Most of the samples in the window of sample [i] have values from [a] to [b]. *)
Definition level_steady (p : params) (w : Z) (a b : R) (samples : list (Z * row R)) (i : Z) : Prop := mostly (fun tr => a <= value p (snd tr) <= b)%R (chunk_of w samples i).

(** The times of the samples of the batch, if the scan goes from [start] to before [stop]; and the time [t] has a largest value between [a] and [b] of [f] over the nodes. *)
Definition batch_times (c : clock) (p : params) (start stop s e : Z) : list Z :=
  let lo := Z.max (s - pad p) start in map (fun j => lo + j * delta c) (zrange ((Z.min (e + pad p) (stop - delta c) - lo) / delta c + 1)).
Definition background {A} (f : Z -> A -> R) (node : A -> Prop) (a b : R) (t : Z) : Prop := (exists q, node q /\ (a <= f t q)%R) /\ forall q, node q -> (f t q <= b)%R.

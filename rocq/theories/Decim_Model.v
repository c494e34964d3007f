(** Decimation (quakemigrate/util.py:503-518), and the processing of data recorded at a multiple of the output rate: decimation, then stalta.py:202-208.
    obspy's [Trace.decimate(factor, strict_length=False, no_filter=True)] keeps every [factor]-th sample, from the first. *)
From Coq Require Import List Reals.
From Verif Require Import Chain_Model.
Import ListNotations.
Open Scope R_scope.

(** [x[::k]] *)
Definition every (k : nat) (x : list R) : list R := map (fun j => at_ x (k * j)) (seq 0 ((length x + k - 1) / k)).
(** util.py:504-516: the line and the mean, the taper and the two passes are those of Chain_Model, here with the low-pass filter [lp]. *)
Definition decimate (w : nat -> nat -> R) (lp : list section_) (k : nat) (x : list R) : list R := every k (pre_filter w lp x).
(** stalta.py:189-208, where the rate of the data is [k] times the output rate. *)
Definition decimated_filter (w : nat -> nat -> R) (lp bp : list section_) (k : nat) (x : list R) : list R := pre_filter w bp (decimate w lp k x).

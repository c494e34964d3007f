(** Vocabulary for the statements about picks from waveforms. *)
From Coq Require Import String List ZArith.
From Verif Require Import Lib Avail_Model.
Import ListNotations.
Open Scope Z_scope.

(** The samples of an onset function of [n] samples whose short and long windows keep clear of the tapered ends of the data. *)
Definition untapered (n taper nsta nlta i : Z) : Prop := taper + nlta - 1 <= i < n - (nsta + taper).
(** The ids of the traces. *)
Definition ids_of (w : list seg) (i : string) : Prop := exists g, In g w /\ sg_id g = i.

(** Vocabulary for the statements about the units and the polarity of the waveforms. *)
From Coq Require Import String.
From Coq Require Import List ZArith Reals.
From Verif Require Import Lib Avail_Model Onset_Model Onset_Spec.
Import ListNotations.
Open Scope Z_scope.

(** The trace, with its data multiplied by the factor of its channel. *)
Definition gained (gain : string -> R) (s : seg) : seg := mk_seg (sg_id s) (sg_start s) (sg_delta s) (map (Rmult (gain (sg_id s))) (sg_data s)).
Definition gained_data (gain : string -> R) (d : wdata) : wdata := mk_wdata (map (gained gain) (d_waveforms d)) (d_stations d) (d_resample d) (d_upfactor d) (d_start d) (d_end d).
(** A step in the processing that commutes with factors; detrending, tapering and filtering do. *)
Definition homogeneous (f : list R -> list R) : Prop := forall c x, f (map (Rmult c) x) = map (Rmult c) (f x).
(** A transform that turns a factor into a positive factor. *)
Definition positively (f : list R -> list R) : Prop := forall c x, c <> 0%R -> exists m, (0 < m)%R /\ f (map (Rmult c) x) = map (Rmult m) (f x).
(** Neither end of the trace is within a sample of the window, on the inside. *)
Definition unpadded (starttime endtime : Z) (s : seg) : Prop :=
  ~ (0 < sg_start s - starttime < sg_delta s) /\ ~ (0 < endtime - sg_end s < sg_delta s).
(** The result of a call, changed by [f]; exceptions stay as they are. *)
Definition out_map {A B} (f : A -> B) (o : outcome A) : outcome B := match o with Ret a => Ret (f a) | Raise e => Raise e | Undef => Undef end.
(** The trace is converted to the rate [rate] without padding: it is at that rate, or at a multiple, or is not converted, or is [unpadded]. *)
Definition scalable (secs rate : Z) (resample : bool) (upfactor : option Z) (starttime endtime : Z) (s : seg) : Prop :=
  sg_delta s = secs / rate \/ (sg_delta s | secs / rate) \/ resample = false \/ upfactor = None \/ unpadded starttime endtime s.
(** The long-term average of the transformed data is never below [tiny]; asked of the Python backend only. *)
Definition loud (tiny : R) (k : onset_cfg) (nlta : Z) (s : seg) : Prop :=
  o_python k = true -> let x := o_transform k (sg_data s) in never_silent tiny (Z.of_nat (length x)) nlta (sample x).

(** Vocabulary for the statements about moving the waveforms in time. *)
From Coq Require Import String.
From Coq Require Import List ZArith QArith Reals.
From Verif Require Import Lib Avail_Model Onset_Model Gain_Spec.
From Verif Require Picker_Model.
Import ListNotations.
Open Scope Z_scope.

(** The trace, and the data with their window, [t] later. *)
Definition later (t : Z) (s : seg) : seg := mk_seg (sg_id s) (sg_start s + t) (sg_delta s) (sg_data s).
Definition later_data (t : Z) (d : wdata) : wdata := mk_wdata (map (later t) (d_waveforms d)) (d_stations d) (d_resample d) (d_upfactor d) (d_start d + t) (d_end d + t).
(** Two numbers, if there are, that differ by [t]. *)
Definition apart (t : Q) (a b : option Q) : Prop := match a, b with Some x, Some y => (y == x + t)%Q | None, None => True | _, _ => False end.
(** The second pick is the first, [t] later: the same uncertainty and signal-to-noise ratio, and the same residual. *)
Definition later_pick (t : Z) (a b : Picker_Model.pick_row) : Prop :=
  Picker_Model.p_station b = Picker_Model.p_station a /\ Picker_Model.p_phase b = Picker_Model.p_phase a /\ Picker_Model.p_model b = Picker_Model.p_model a + t
  /\ apart (inject_Z t) (Picker_Model.p_time a) (Picker_Model.p_time b) /\ Picker_Model.p_error b = Picker_Model.p_error a /\ Picker_Model.p_snr b = Picker_Model.p_snr a
  /\ apart 0 (Picker_Model.p_residual a) (Picker_Model.p_residual b).
(** Both calls return, and the results are related; or both end with the same exception. *)
Definition out_rel {A} (P : A -> A -> Prop) (a b : outcome A) : Prop := match a, b with Ret x, Ret y => P x y | Raise e, Raise e' => e = e' | Undef, Undef => True | _, _ => False end.

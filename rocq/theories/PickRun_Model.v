(** Model of signal/pickers/gaussian.py GaussianPicker.pick_phases from the waveforms of an event to the table of picks: Onset_Model and Picker_Model put together, and the column SEED_ids.

    SIMPLIFICATIONS: those of the two models. The picker model has rational onset values: [rat] turns the values of the onset functions (reals, or not a number) into
    rationals, and is any function. The SEED ids are STATION.CHANNEL. *)
From Coq Require Import String Ascii.
From Coq Require Import List ZArith Reals QArith.
From Verif Require Import Lib PyDict Timeline_Model Avail_Model Archive_Model Onset_Model.
From Verif Require Picker_Model.
Import ListNotations.
Open Scope Z_scope.

Section Run.
Variables (lowpass : Z -> list R -> list R) (taper : list R -> list R) (tiny : R) (secs : Z) (k : onset_cfg).
Variables (rat : option R -> Q) (curve_fit : list Z -> list Q -> outcome (Q * Q * Q)) (m : Picker_Model.pick_method).
(** [tts station phase]: the traveltime to the station from the hypocentre (gaussian.py:173, 201), and that times [fraction_tt]. *)
Variable tts : string -> string -> Z * Z.

(** gaussian.py:170-172: the phases of a station. *)
Definition station_phases (station : string) (onsets : dict (list (option R))) : list Picker_Model.phase_data :=
  map (fun po => Picker_Model.mk_phase (fst po) (map rat (snd po)) (fst (tts station (fst po))) (snd (tts station (fst po)))) onsets.
(** gaussian.py:209-213 *)
Definition seed_ids (pc : phase_cfg) (filtered : list seg) (station : string) : list string :=
  sorted_ids (select_channel (ph_map pc) (select_station filtered station)).
(** gaussian.py:116-243 pick_phases with [write_seed_ids]; onsets are recalculated for 4 marginal windows (142-144). *)
Definition pick_run (d : wdata) (otime mw : Z) : outcome (list (Picker_Model.pick_row * list string)) :=
  bind (calculate_onsets lowpass taper tiny secs k d (Some (4 * mw))) (fun st =>
  bind (Picker_Model.pick_phases curve_fit m (o_clock secs k) otime (d_start d) mw (map (fun so => (fst so, station_phases (fst so) (snd so))) (l_dict st))) (fun rows =>
  map_out (fun row => match dget (o_cfg k) (Picker_Model.p_phase row) with
                      | None => Raise KeyError
                      | Some pc => Ret (row, seed_ids pc (l_filtered st) (Picker_Model.p_station row))
                      end) rows)).
End Run.

(** Vocabulary for the statements about the room that the pads leave for the filter. *)
From Coq Require Import String.
From Coq Require Import List ZArith Reals.
From Verif Require Import Lib PyDict Timeline_Model Onset_Model Chain_Model Chain_Spec.
Import ListNotations.
Open Scope Z_scope.

(** The short and the long window of each phase. *)
Definition windows_of (k : onset_cfg) : list (Z * Z) := map (fun kv => (ph_sta (snd kv), ph_lta (snd kv))) (o_cfg k).
(** The filter has [J] samples to settle: no more than three of the longest short windows, and no more than the longest long window, with a 250th of the time span on top. *)
Record room (secs : Z) (k : onset_cfg) (timespan ttmax reach : Z) (J : nat) : Prop := {
  ro_rate : 3 <= o_rate k; ro_windows : Forall (fun w => 0 <= fst w /\ 0 <= snd w) (windows_of k);
  ro_post : o_post k = stalta_post_pad (o_clock secs k) (windows_of k) ttmax; ro_reach : 0 <= reach; ro_ttmax : reach * (secs / o_rate k) <= ttmax;
  ro_pre_room : exists w, In w (windows_of k) /\ 250 * (Z.of_nat J + 1) * (secs / o_rate k) <= 750 * fst w + timespan;
  ro_post_room : exists w, In w (windows_of k) /\ 250 * (Z.of_nat J + 2) * (secs / o_rate k) <= 250 * snd w + timespan }.
(** The energy of the filtered record without ends. *)
Definition clean_energy (sos : string -> list section_) (J : nat) (x : string -> Z -> R) (ph i : string) (t : Z) : R :=
  (two_sided (response (sosfilt (sos ph))) J (x i) t * two_sided (response (sosfilt (sos ph))) J (x i) t)%R.
(** What the energy can be off by, when the samples are at most [M]. *)
Definition energy_error (M A E : R) : R := (16 * M * A * E * (2 * A * A * M + 16 * M * A * E))%R.

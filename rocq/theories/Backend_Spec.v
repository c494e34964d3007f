(** Vocabulary for the statements about the two implementations of the STA/LTA. *)
From Coq Require Import String.
From Coq Require Import List ZArith Reals.
From Verif Require Import Lib PyDict Timeline_Model Avail_Model StaLta_Model Onset_Model Onset_Spec.
Open Scope Z_scope.

(** The same settings with the Python functions ([true]) or the compiled ones ([false]). *)
Definition with_backend (python : bool) (k : onset_cfg) : onset_cfg :=
  mk_onset (o_phases k) (o_cfg k) (o_all k) (o_gaps k) (o_full k) (o_rate k) (o_centred k) python (o_transform k) (o_floor k) (o_post k).
(** Every trace of which an onset function is made is longer than the two windows together, and none of its long-term averages vanishes. *)
Definition heard (lowpass : Z -> list R -> list R) (taper : list R -> list R) (tiny : R) (secs : Z) (k : onset_cfg) (d : wdata) : Prop :=
  forall ph pc filtered s verdict av w g, In ph (o_phases k) -> dget (o_cfg k) ph = Some pc -> phase_waveforms lowpass secs k d pc = Ret filtered -> In s (d_stations d) ->
  check_availability (o_clock secs k) (d_start d) (d_end d) (mk_criteria (o_all k) (Some (ph_count pc)) (o_gaps k) (o_full k) true (Some (secs / o_rate k)) false) (select_station filtered s) = Ret (verdict, av) ->
  fill_gaps taper tiny secs k (d_start d) (d_end d) (remove_unavailable av (select_station filtered s)) = Ret w -> In g w ->
  let x := o_transform k (sg_data g) in let nsta := stw_samples (o_clock secs k) (ph_sta pc) in let nlta := ltw_samples (o_clock secs k) (ph_lta pc) in
  1 <= nsta < nlta /\ nlta + nsta <= Z.of_nat (length x) /\ never_silent tiny (Z.of_nat (length x)) nlta (sample x).

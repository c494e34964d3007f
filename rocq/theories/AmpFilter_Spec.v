(** What users expect of the filter options of the amplitude measurement. *)
From Coq Require Import Reals ZArith.
From Verif Require Import AmpFilter_Model.
Open Scope R_scope.

(** The filter wanted for data of sampling rate [sr]: the band, or what is left of it below the Nyquist frequency. *)
Definition wanted_band (low up : R) (corners : Z) (sr : R) : design :=
  if Rlt_dec (sr / 2 * (1 - / 1000000)) up then High (low / (sr / 2)) corners else Band (low / (sr / 2)) (up / (sr / 2)) corners.
Definition wanted_high (f : R) (corners : Z) (sr : R) : design := High (f / (sr / 2)) corners.

(** Parameters for one filter, or none. *)
Definition asks_band (k : params) (low up : R) : Prop :=
  k_band k = Some true /\ k_low k = Some low /\ k_up k = Some up /\ k_high k <> Some true /\ k_deprecated k = false.
Definition asks_high (k : params) (f : R) : Prop :=
  k_high k = Some true /\ k_freq k = Some f /\ k_band k <> Some true /\ k_deprecated k = false.
Definition asks_none (k : params) : Prop :=
  k_high k <> Some true /\ k_band k <> Some true /\ k_deprecated k = false.
Definition order_of (k : params) : Z := match k_corners k with Some n => n | None => 4%Z end.

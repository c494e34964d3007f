(** What the amplitude file must keep. *)
From Coq Require Import String Ascii.
From Coq Require Import List ZArith Reals.
From Verif Require Import Lib Mag_Model Catalogue_Model Catalogue_Spec Amps_Model.
Import ListNotations.
Open Scope R_scope.

(** The row [w] of the file stands for the row [r] of the table: trace, times and flag are the same,
    distances and amplitudes agree to 1/20000, gains and magnitudes to 1/200, frequencies to 1/20, and
    what was not measured stays so. *)
Definition kept (r w : amps_row) : Prop :=
  ar_id w = ar_id r /\ ar_p_time w = ar_p_time r /\ ar_s_time w = ar_s_time r /\ ar_picked w = ar_picked r /\
  near_ext (1 / 20000) (ar_epi w) (ar_epi r) /\ near_ext (1 / 20000) (ar_z w) (ar_z r) /\
  near_ext (1 / 20000) (ar_p_amp w) (ar_p_amp r) /\ near_ext (1 / 20000) (ar_s_amp w) (ar_s_amp r) /\
  near_ext (1 / 20000) (ar_p_avg w) (ar_p_avg r) /\ near_ext (1 / 20000) (ar_s_avg w) (ar_s_avg r) /\
  near_ext (1 / 20000) (ar_noise w) (ar_noise r) /\
  near_ext (1 / 200) (ar_p_gain w) (ar_p_gain r) /\ near_ext (1 / 200) (ar_s_gain w) (ar_s_gain r) /\
  near_ext (1 / 20) (ar_p_freq w) (ar_p_freq r) /\ near_ext (1 / 20) (ar_s_freq w) (ar_s_freq r) /\
  match ar_ml r, ar_ml w with
  | None, None => True
  | Some (m, e), Some (m', e') => near_ext (1 / 200) m' m /\ near_ext (1 / 200) e' e
  | _, _ => False
  end.

(** The columns of measured and computed numbers. *)
Definition columns : list (amps_row -> ext) :=
  [ar_epi; ar_z; ar_p_amp; ar_p_freq; ar_p_avg; ar_p_gain; ar_s_amp; ar_s_freq; ar_s_avg; ar_s_gain; ar_noise].

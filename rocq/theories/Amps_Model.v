(** Model of quakemigrate/io/amplitudes.py write_amplitudes. *)
From Coq Require Import String Ascii.
From Coq Require Import List ZArith Reals.
From Verif Require Import Lib Mag_Model Catalogue_Model.
Import ListNotations.
Open Scope Z_scope.

(** A row of the table of amplitudes; NaN where nothing was measured. [ar_ml]: ML and ML_Err, None for a
    table without these columns. Times are whole microseconds, None where there is none. *)
Record amps_row : Type := mk_amps_row {
  ar_id : string; ar_epi : ext; ar_z : ext;
  ar_p_amp : ext; ar_p_freq : ext; ar_p_time : option Z; ar_p_avg : ext; ar_p_gain : ext;
  ar_s_amp : ext; ar_s_freq : ext; ar_s_time : option Z; ar_s_avg : ext; ar_s_gain : ext;
  ar_noise : ext; ar_picked : bool; ar_ml : option (ext * ext) }.

(** amplitudes.py:44-66, one row; the numbers that the text in the file stands for ([sig_ext] is the
    conversion "%.ng" of a number, NaN ignored). *)
Definition write_row (r : amps_row) : amps_row :=
  mk_amps_row (ar_id r) (sig_ext 5 (ar_epi r)) (sig_ext 5 (ar_z r))
    (sig_ext 5 (ar_p_amp r)) (sig_ext 2 (ar_p_freq r)) (ar_p_time r) (sig_ext 5 (ar_p_avg r)) (sig_ext 3 (ar_p_gain r))
    (sig_ext 5 (ar_s_amp r)) (sig_ext 2 (ar_s_freq r)) (ar_s_time r) (sig_ext 5 (ar_s_avg r)) (sig_ext 3 (ar_s_gain r))
    (sig_ext 5 (ar_noise r)) (ar_picked r)
    (option_map (fun m => (sig_ext 3 (fst m), sig_ext 3 (snd m))) (ar_ml r)).
(** amplitudes.py:17-69 write_amplitudes *)
Definition write_amps (rows : list amps_row) : list amps_row := map write_row rows.

(** What users expect of the simulated Wood-Anderson seismograph. *)
From Coq Require Import Reals.
Open Scope R_scope.

(** The seismograph of natural angular frequency w0, damping h and magnification v: square of its
    magnification of displacement at angular frequency w (Bormann, New Manual of Seismological Observatory
    Practice: v w^2 / sqrt((w0^2 - w^2)^2 + (2 h w0 w)^2)). *)
Definition torsion2 (v w0 h w : R) : R := v ^ 2 * w ^ 4 / ((w0 ^ 2 - w ^ 2) ^ 2 + (2 * h * w0 * w) ^ 2).

(** C108: the simulated Wood-Anderson seismograph. *)
From Coq Require Import String Ascii.
From Coq Require Import List ZArith Reals Bool Lra.
From Verif Require Import Lib WoodAnderson_Model WoodAnderson_Spec WoodAnderson_Proofs.
Import ListNotations.
Open Scope R_scope.

(** Both definitions are torsion seismographs of magnification 2080 and natural angular frequency 7.854 (period
    0.8 s), with damping 0.8 and 0.7. *)
Theorem C108_seismograph :
  forall d, exists w0 h,
    (forall w, cabs2 (response (wa_response "DIS2DIS" d) w) = torsion2 2080 w0 h w)
    /\ 7.853 < w0 < 7.855 /\ (if d then 0.799 < h < 0.801 else 0.699 < h < 0.701).
Proof.
  intros d. exists (sqrt (w0sq d)), (pole_a d / sqrt (w0sq d)).
  split; [exact (torsion d)|]. pose proof (natural_frequency d). pose proof (damping d) as D. cbv zeta in D.
  split; [lra|]. destruct d; lra.
Qed.
Print Assumptions C108_seismograph.

(** The definition in use magnifies more with frequency and never reaches 2080. *)
Theorem C108_increasing_partial :
  forall w w', 0 <= w < w' ->
    cabs2 (response (wa_response "DIS2DIS" true) w) < cabs2 (response (wa_response "DIS2DIS" true) w') < 2080 * 2080.
Proof. intros w w' H. split; [apply increasing; tauto|apply below]. Qed.
Print Assumptions C108_increasing_partial.

(** From 160 rad/s (25 Hz) the magnification is within one per cent of 2080. *)
Theorem C108_passband :
  forall d w, 160 <= w -> (99 / 100) ^ 2 * (2080 * 2080) <= cabs2 (response (wa_response "DIS2DIS" d) w).
Proof. exact passband. Qed.
Print Assumptions C108_passband.

(** Displacement is magnified as velocity, and a velocity record (i w times the displacement) simulated with VEL2DIS
    gives what the displacement record gives with DIS2DIS. *)
Theorem C108_units :
  forall d w u, cmul (response (wa_response "DIS2DIS" d) w) u = cmul (response (wa_response "VEL2DIS" d) w) (cmul (0, w) u)
    /\ wa_response "VEL2VEL" d = wa_response "DIS2DIS" d.
Proof.
  intros d w u. destruct (velocity_input d w) as (E & E'). split; [|exact E']. rewrite E.
  unfold cmul. cbn [fst snd]. f_equal; ring.
Qed.
Print Assumptions C108_units.

Example C108_applies :
  0 <= 1 < 2 /\ cabs2 (response (wa_response "DIS2DIS" true) 0) = 0
  /\ cabs2 (response (wa_response "DIS2DIS" true) 8) > 1000 * 1000.
Proof.
  split; [lra|]. split; [rewrite magnification; unfold Rdiv; ring|]. rewrite magnification.
  pose proof (den_pos true 8) as P. apply Rmult_gt_reg_l with (den true 8); [exact P|].
  replace (den true 8 * (2080 * 2080 * (8 * 8 * (8 * 8)) / den true 8)) with (2080 * 2080 * (8 * 8 * (8 * 8))) by (field; lra).
  unfold den, w0sq. cbn [pole_a pole_b]. lra.
Qed.

(** REFUTED for the other definition (obspy_def=False): there the magnification exceeds 2080 at some frequencies. *)
Theorem C108_overshoot_refuted : exists w, 2080 * 2080 < cabs2 (response (wa_response "DIS2DIS" false) w).
Proof. exact overshoot. Qed.
Print Assumptions C108_overshoot_refuted.

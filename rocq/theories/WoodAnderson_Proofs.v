(** Proofs about the Wood-Anderson response. *)
From Coq Require Import String Ascii.
From Coq Require Import List ZArith Reals Bool Lia Lra Psatz.
From Verif Require Import Lib WoodAnderson_Model WoodAnderson_Spec.
Import ListNotations.
Open Scope R_scope.

(** Real part (negated) and imaginary part of the poles. *)
Definition pole_a (obspy_def : bool) : R := if obspy_def then 6283185 / 1000000 else 549779 / 100000.
Definition pole_b (obspy_def : bool) : R := if obspy_def then 4712 / 1000 else 560886 / 100000.
Definition w0sq (d : bool) : R := pole_a d * pole_a d + pole_b d * pole_b d.
Definition den (d : bool) (w : R) : R := (w0sq d - w * w) * (w0sq d - w * w) + 4 * (pole_a d * pole_a d) * (w * w).

Lemma den_pos d w : 0 < den d w.
Proof.
  unfold den.
  assert (A : 0 < pole_a d * pole_a d) by (destruct d; cbn; lra).
  assert (K : 0 < w0sq d) by (unfold w0sq; destruct d; cbn; lra).
  set (a := pole_a d * pole_a d) in *. set (k := w0sq d) in *. clearbody a k.
  pose proof (Rle_0_sqr (k - w * w)) as S. unfold Rsqr in S.
  destruct (Req_dec w 0) as [->|N].
  - assert (0 < k * k) by (apply Rmult_lt_0_compat; assumption). replace ((k - 0 * 0) * (k - 0 * 0) + 4 * a * (0 * 0)) with (k * k) by ring. assumption.
  - pose proof (Rsqr_pos_lt w N) as W. unfold Rsqr in W.
    assert (0 < a * (w * w)) by (apply Rmult_lt_0_compat; assumption). lra.
Qed.

Lemma poles_prod d w c : cprod (map (csub (0, w)) (z_poles (wa_response c d)))
  = (w0sq d - w * w, 2 * pole_a d * w).
Proof.
  unfold wa_response, w0sq, pole_a, pole_b, cprod, csub, cmul. destruct d; cbn [z_poles map fold_right fst snd]; f_equal; field.
Qed.
Lemma poles_abs d w c : cabs2 (cprod (map (csub (0, w)) (z_poles (wa_response c d)))) = den d w.
Proof. rewrite poles_prod. unfold cabs2, den. cbn [fst snd]. ring. Qed.

Lemma cabs2_cdiv a b : cabs2 b <> 0 -> cabs2 (cdiv a b) = cabs2 a / cabs2 b.
Proof.
  intros H. unfold cdiv at 1. unfold cabs2 at 1. cbn [fst snd].
  transitivity (((fst a * fst b + snd a * snd b) * (fst a * fst b + snd a * snd b) + (snd a * fst b - fst a * snd b) * (snd a * fst b - fst a * snd b)) / (cabs2 b * cabs2 b)).
  { field. exact H. }
  replace ((fst a * fst b + snd a * snd b) * (fst a * fst b + snd a * snd b) + (snd a * fst b - fst a * snd b) * (snd a * fst b - fst a * snd b))
    with (cabs2 a * cabs2 b) by (unfold cabs2; ring).
  field. exact H.
Qed.
Lemma zeros_two d w : cprod (map (csub (0, w)) (z_zeros (wa_response "DIS2DIS" d))) = (- (w * w), 0).
Proof. unfold cprod, csub, cmul. destruct d; cbn [z_zeros wa_response existsb String.eqb Ascii.eqb Bool.eqb orb app map fold_right fst snd]; f_equal; ring. Qed.
Lemma zeros_one d w : cprod (map (csub (0, w)) (z_zeros (wa_response "VEL2DIS" d))) = (0, w).
Proof. unfold cprod, csub, cmul. destruct d; cbn [z_zeros wa_response existsb String.eqb Ascii.eqb Bool.eqb orb app map fold_right fst snd]; f_equal; ring. Qed.
Lemma scale d c : z_sensitivity (wa_response c d) * z_gain (wa_response c d) = 2080.
Proof. destruct d; cbn; ring. Qed.

Lemma magnification d w :
  cabs2 (response (wa_response "DIS2DIS" d) w) = 2080 * 2080 * (w * w * (w * w)) / den d w.
Proof.
  unfold response. cbv zeta. rewrite scale.
  assert (E : forall q, cabs2 (2080 * fst q, 2080 * snd q) = 2080 * 2080 * cabs2 q) by (intros q; unfold cabs2; cbn [fst snd]; ring).
  rewrite E. pose proof (den_pos d w) as P. rewrite cabs2_cdiv by (rewrite poles_abs; lra).
  rewrite poles_abs, zeros_two. unfold cabs2. cbn [fst snd]. field. lra.
Qed.

Lemma torsion d w :
  cabs2 (response (wa_response "DIS2DIS" d) w) = torsion2 2080 (sqrt (w0sq d)) (pole_a d / sqrt (w0sq d)) w.
Proof.
  rewrite magnification. unfold torsion2.
  assert (W : 0 < w0sq d) by (unfold w0sq; destruct d; cbn; nra).
  pose proof (sqrt_lt_R0 _ W) as S. pose proof (sqrt_def (w0sq d) ltac:(lra)) as Q.
  replace (2 * (pole_a d / sqrt (w0sq d)) * sqrt (w0sq d) * w) with (2 * pole_a d * w) by (field; lra).
  replace (sqrt (w0sq d) ^ 2) with (w0sq d) by (rewrite <- Q at 1; ring).
  f_equal; [ring|]. f_equal. unfold den. ring.
Qed.

Lemma natural_frequency d : 7853 / 1000 < sqrt (w0sq d) < 7855 / 1000.
Proof.
  assert (L : (7853 / 1000) * (7853 / 1000) < w0sq d) by (unfold w0sq; destruct d; cbn; lra).
  assert (U : w0sq d < (7855 / 1000) * (7855 / 1000)) by (unfold w0sq; destruct d; cbn; lra).
  split.
  - rewrite <- (sqrt_square (7853 / 1000)) by lra. apply sqrt_lt_1; lra.
  - rewrite <- (sqrt_square (7855 / 1000)) by lra. apply sqrt_lt_1; lra.
Qed.
Lemma damping d : let h := pole_a d / sqrt (w0sq d) in
  (if d then 799 / 1000 else 699 / 1000) < h < (if d then 801 / 1000 else 701 / 1000).
Proof.
  cbv zeta. destruct (natural_frequency d) as (L & U). set (s := sqrt (w0sq d)) in *.
  assert (0 < s) by lra.
  assert (Q : pole_a d / s * s = pole_a d) by (field; lra).
  set (h := pole_a d / s) in *. destruct d; cbn [pole_a] in Q; split; nra.
Qed.

(** The magnification for w <> 0 as a function of 1/w^2. *)
Lemma den_decreasing w w' : 0 < w -> w < w' ->
  den true w' * (w * w * (w * w)) < den true w * (w' * w' * (w' * w')).
Proof.
  intros H H'. unfold den.
  assert (K : 0 < w0sq true) by (unfold w0sq; cbn; nra).
  assert (C : 2 * w0sq true < 4 * (pole_a true * pole_a true)) by (unfold w0sq; cbn; lra).
  set (k := w0sq true) in *. set (c := 4 * (pole_a true * pole_a true)) in *.
  set (u := w * w). set (v := w' * w'). assert (0 < u) by (unfold u; nra). assert (u < v) by (unfold u, v; nra).
  clearbody k c u v. clear H H'.
  assert (E : ((k - u) * (k - u) + c * u) * (v * v) - ((k - v) * (k - v) + c * v) * (u * u)
    = (v - u) * (k * k * (u + v) + (c - 2 * k) * (u * v))) by ring.
  assert (0 < u * v) by nra. assert (0 < k * k * (u + v)) by (apply Rmult_lt_0_compat; nra).
  assert (0 < (c - 2 * k) * (u * v)) by (apply Rmult_lt_0_compat; nra).
  assert (0 < (v - u) * (k * k * (u + v) + (c - 2 * k) * (u * v))) by (apply Rmult_lt_0_compat; lra).
  lra.
Qed.
Lemma increasing w w' : 0 <= w -> w < w' ->
  cabs2 (response (wa_response "DIS2DIS" true) w) < cabs2 (response (wa_response "DIS2DIS" true) w').
Proof.
  intros H H'. rewrite !magnification. pose proof (den_pos true w) as P. pose proof (den_pos true w') as P'.
  assert (F : forall x y, 0 < y -> x / y = x * / y) by (intros; reflexivity).
  assert (G : w * w * (w * w) * den true w' < w' * w' * (w' * w') * den true w).
  { destruct (Req_dec w 0) as [->|N].
    - assert (0 < w' * w') by nra. assert (0 < w' * w' * (w' * w')) by nra.
      assert (0 < w' * w' * (w' * w') * den true 0) by (apply Rmult_lt_0_compat; assumption). lra.
    - pose proof (den_decreasing w w' ltac:(lra) H'). lra. }
  apply Rmult_lt_reg_r with (den true w * den true w'); [apply Rmult_lt_0_compat; assumption|].
  replace (2080 * 2080 * (w * w * (w * w)) / den true w * (den true w * den true w'))
    with (2080 * 2080 * (w * w * (w * w) * den true w')) by (field; lra).
  replace (2080 * 2080 * (w' * w' * (w' * w')) / den true w' * (den true w * den true w'))
    with (2080 * 2080 * (w' * w' * (w' * w') * den true w)) by (field; lra).
  lra.
Qed.
Lemma below w : cabs2 (response (wa_response "DIS2DIS" true) w) < 2080 * 2080.
Proof.
  rewrite magnification. pose proof (den_pos true w) as P.
  apply Rmult_lt_reg_r with (den true w); [exact P|].
  replace (2080 * 2080 * (w * w * (w * w)) / den true w * den true w) with (2080 * 2080 * (w * w * (w * w))) by (field; lra).
  assert (w * w * (w * w) < den true w); [|lra].
  unfold den. assert (K : 0 < w0sq true) by (unfold w0sq; cbn; nra).
  assert (C : 2 * w0sq true < 4 * (pole_a true * pole_a true)) by (unfold w0sq; cbn; lra).
  set (k := w0sq true) in *. set (c := 4 * (pole_a true * pole_a true)) in *.
  assert (0 <= w * w) by nra. set (u := w * w) in *. clearbody k c u. nra.
Qed.
(** At twenty times the natural frequency and beyond the magnification is within one per cent of 2080. *)
Lemma passband d w : 160 <= w -> (99 / 100) ^ 2 * (2080 * 2080) <= cabs2 (response (wa_response "DIS2DIS" d) w).
Proof.
  intros H. rewrite magnification. pose proof (den_pos d w) as P.
  apply Rmult_le_reg_r with (den d w); [exact P|].
  replace (2080 * 2080 * (w * w * (w * w)) / den d w * den d w) with (2080 * 2080 * (w * w * (w * w))) by (field; lra).
  unfold den. assert (U : 25600 <= w * w) by nra. set (u := w * w) in *. clearbody u.
  assert (K : 0 < w0sq d < 62) by (unfold w0sq; destruct d; cbn; lra).
  assert (C : 0 < 4 * (pole_a d * pole_a d) < 160) by (destruct d; cbn; lra).
  set (k := w0sq d) in *. set (c := 4 * (pole_a d * pole_a d)) in *. clearbody k c.
  assert (E : (k - u) * (k - u) + c * u <= u * u + 160 * u + 62 * 62).
  { assert (0 <= k * u) by (apply Rmult_le_pos; lra). assert (c * u <= 160 * u) by (apply Rmult_le_compat_r; lra).
    assert (k * k <= 62 * 62) by (apply Rmult_le_compat; lra). lra. }
  assert (F : 160 * u + 62 * 62 <= u * u * (1 / 100)).
  { assert (25600 * u <= u * u) by (apply Rmult_le_compat_r; lra). lra. }
  lra.
Qed.
Lemma overshoot : exists w, 2080 * 2080 < cabs2 (response (wa_response "DIS2DIS" false) w).
Proof.
  exists 100. rewrite magnification. pose proof (den_pos false 100) as P.
  apply Rmult_lt_reg_r with (den false 100); [exact P|].
  replace (2080 * 2080 * (100 * 100 * (100 * 100)) / den false 100 * den false 100) with (2080 * 2080 * (100 * 100 * (100 * 100))) by (field; lra).
  apply Rmult_lt_compat_l; [lra|]. unfold den, w0sq. cbn [pole_a pole_b]. lra.
Qed.
Lemma velocity_input d w :
  response (wa_response "DIS2DIS" d) w = cmul (0, w) (response (wa_response "VEL2DIS" d) w)
  /\ wa_response "VEL2VEL" d = wa_response "DIS2DIS" d.
Proof.
  split; [|reflexivity]. unfold response. cbv zeta. rewrite !scale, zeros_two, zeros_one, !poles_prod.
  pose proof (poles_abs d w "DIS2DIS") as P. rewrite poles_prod in P. pose proof (den_pos d w) as D.
  unfold cdiv, cmul. rewrite P. cbn [fst snd]. f_equal; field; lra.
Qed.

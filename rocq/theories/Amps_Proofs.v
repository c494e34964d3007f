(** Proofs about numbers written with a number of significant digits. *)
From Coq Require Import String Ascii.
From Coq Require Import List ZArith Reals Lra Lia.
From Verif Require Import Lib Mag_Model ScanMseed_Model ScanMseed_Proofs Catalogue_Model Catalogue_Spec Catalogue_Proofs Amps_Model Amps_Spec.
Import ListNotations.
Open Scope R_scope.

Lemma ten_strict a b : (a < b)%Z -> powerRZ 10 a < powerRZ 10 b.
Proof. intros H. rewrite !ten_pow. apply Rpower_lt; [lra|apply IZR_lt; exact H]. Qed.
Lemma ten_int n : (0 <= n)%Z -> powerRZ 10 n = IZR (10 ^ n).
Proof.
  intros H. rewrite <- (Z2Nat.id n H). rewrite <- pow_powerRZ. rewrite <- (pow_IZR 10 (Z.to_nat n)). reflexivity.
Qed.

Lemma exponent10_unique x a : powerRZ 10 a <= Rabs x < powerRZ 10 (a + 1) -> exponent10 x = a.
Proof.
  intros [A B]. assert (N : x <> 0) by (intros ->; rewrite Rabs_R0 in A; pose proof (ten_pos a); lra).
  destruct (exponent10_spec x N) as [C D]. set (e := exponent10 x) in *.
  destruct (Z_lt_le_dec e a) as [L|L].
  - assert (powerRZ 10 (e + 1) <= powerRZ 10 a) by (apply ten_mono; lia). lra.
  - destruct (Z_lt_le_dec a e) as [M|M]; [|lia].
    assert (powerRZ 10 (a + 1) <= powerRZ 10 e) by (apply ten_mono; lia). lra.
Qed.
Lemma exponent10_mono x y : x <> 0 -> Rabs x <= Rabs y -> (exponent10 x <= exponent10 y)%Z.
Proof.
  intros N H. assert (Ny : y <> 0) by (intros ->; rewrite Rabs_R0 in H; pose proof (Rabs_pos_lt x N); lra).
  destruct (exponent10_spec x N) as [A _]. destruct (exponent10_spec y Ny) as [_ B].
  destruct (Z_lt_le_dec (exponent10 y) (exponent10 x)) as [L|L]; [|exact L].
  assert (powerRZ 10 (exponent10 y + 1) <= powerRZ 10 (exponent10 x)) by (apply ten_mono; lia). lra.
Qed.

Lemma round_to_mono d x y : x <= y -> round_to d x <= round_to d y.
Proof.
  intros H. unfold round_to. pose proof (ten_pos d) as P. apply Rmult_le_compat_r; [apply Rlt_le, Rinv_0_lt_compat; exact P|].
  apply IZR_le, np_round_mono. apply Rmult_le_compat_r; lra.
Qed.
(** A multiple of the last digit stays. *)
Lemma round_to_multiple d k : round_to d (IZR k / powerRZ 10 d) = IZR k / powerRZ 10 d.
Proof.
  unfold round_to. pose proof (ten_pos d) as P. replace (IZR k / powerRZ 10 d * powerRZ 10 d) with (IZR k) by (field; lra).
  now rewrite np_round_IZR.
Qed.
Lemma round_to_power d a : (- d <= a)%Z -> round_to d (powerRZ 10 a) = powerRZ 10 a.
Proof.
  intros H. assert (E : powerRZ 10 a = IZR (10 ^ (a + d)) / powerRZ 10 d).
  { rewrite <- ten_int by lia. rewrite ten_add. pose proof (ten_pos d). field. lra. }
  rewrite E. apply round_to_multiple.
Qed.
Lemma round_to_neg_power d a : (- d <= a)%Z -> round_to d (- powerRZ 10 a) = - powerRZ 10 a.
Proof.
  intros H. assert (E : - powerRZ 10 a = IZR (- 10 ^ (a + d)) / powerRZ 10 d).
  { rewrite opp_IZR, <- ten_int by lia. rewrite ten_add. pose proof (ten_pos d). field. lra. }
  rewrite E. apply round_to_multiple.
Qed.

(** A number stays within its decade, the upper end included. *)
Lemma sig_decade_pos n x : (1 <= n)%Z -> 0 < x -> powerRZ 10 (exponent10 x) <= sig n x <= powerRZ 10 (exponent10 x + 1).
Proof.
  intros Hn Hx. assert (N : x <> 0) by lra. destruct (exponent10_spec x N) as [A B]. rewrite Rabs_right in A, B by lra.
  unfold sig. destruct (Req_EM_T x 0); [contradiction|]. set (e := exponent10 x) in *. set (d := (n - 1 - e)%Z).
  rewrite <- (round_to_power d e) at 1 by (unfold d; lia). rewrite <- (round_to_power d (e + 1)) by (unfold d; lia).
  split; apply round_to_mono; lra.
Qed.
Lemma sig_decade_neg n x : (1 <= n)%Z -> x < 0 -> - powerRZ 10 (exponent10 x + 1) <= sig n x <= - powerRZ 10 (exponent10 x).
Proof.
  intros Hn Hx. assert (N : x <> 0) by lra. destruct (exponent10_spec x N) as [A B]. rewrite Rabs_left in A, B by lra.
  unfold sig. destruct (Req_EM_T x 0); [contradiction|]. set (e := exponent10 x) in *. set (d := (n - 1 - e)%Z).
  rewrite <- (round_to_neg_power d e) by (unfold d; lia). rewrite <- (round_to_neg_power d (e + 1)) by (unfold d; lia).
  split; apply round_to_mono; lra.
Qed.
Lemma sig_zero n : sig n 0 = 0.
Proof. unfold sig. destruct (Req_EM_T 0 0); [reflexivity|congruence]. Qed.
Lemma sig_pos n x : (1 <= n)%Z -> 0 < x -> 0 < sig n x.
Proof. intros Hn Hx. destruct (sig_decade_pos n x Hn Hx) as [A _]. pose proof (ten_pos (exponent10 x)). lra. Qed.
Lemma sig_neg n x : (1 <= n)%Z -> x < 0 -> sig n x < 0.
Proof. intros Hn Hx. destruct (sig_decade_neg n x Hn Hx) as [_ A]. pose proof (ten_pos (exponent10 x)). lra. Qed.

Lemma sig_mono n x y : (1 <= n)%Z -> x <= y -> sig n x <= sig n y.
Proof.
  intros Hn H. destruct (Rtotal_order x 0) as [Hx|[Hx|Hx]].
  - destruct (Rtotal_order y 0) as [Hy|[Hy|Hy]].
    + assert (E : (exponent10 y <= exponent10 x)%Z) by (apply exponent10_mono; [lra|rewrite !Rabs_left by lra; lra]).
      destruct (Z_lt_le_dec (exponent10 y) (exponent10 x)) as [L|L].
      * destruct (sig_decade_neg n x Hn Hx) as [_ A]. destruct (sig_decade_neg n y Hn Hy) as [B _].
        assert (powerRZ 10 (exponent10 y + 1) <= powerRZ 10 (exponent10 x)) by (apply ten_mono; lia). lra.
      * assert (E2 : exponent10 x = exponent10 y) by lia. unfold sig.
        destruct (Req_EM_T x 0), (Req_EM_T y 0); try lra. rewrite E2. apply round_to_mono. exact H.
    + subst y. rewrite sig_zero. apply Rlt_le, sig_neg; assumption.
    + pose proof (sig_neg n x Hn Hx). pose proof (sig_pos n y Hn Hy). lra.
  - subst x. rewrite sig_zero. destruct (Req_EM_T y 0) as [->|N]; [rewrite sig_zero; lra|].
    apply Rlt_le, sig_pos; [exact Hn|lra].
  - assert (Hy : 0 < y) by lra. assert (E : (exponent10 x <= exponent10 y)%Z) by (apply exponent10_mono; [lra|rewrite !Rabs_right by lra; lra]).
    destruct (Z_lt_le_dec (exponent10 x) (exponent10 y)) as [L|L].
    + destruct (sig_decade_pos n x Hn Hx) as [_ A]. destruct (sig_decade_pos n y Hn Hy) as [B _].
      assert (powerRZ 10 (exponent10 x + 1) <= powerRZ 10 (exponent10 y)) by (apply ten_mono; lia). lra.
    + assert (E2 : exponent10 x = exponent10 y) by lia. unfold sig.
      destruct (Req_EM_T x 0), (Req_EM_T y 0); try lra. rewrite E2. apply round_to_mono. exact H.
Qed.

(** Written again, a written number stays the same. *)
Lemma sig_again n x : (1 <= n)%Z -> sig n (sig n x) = sig n x.
Proof.
  intros Hn. destruct (Req_EM_T x 0) as [->|N]; [now rewrite !sig_zero|].
  assert (M : exists k, sig n x = IZR k / powerRZ 10 (n - 1 - exponent10 x)).
  { unfold sig. destruct (Req_EM_T x 0); [contradiction|]. eexists; reflexivity. }
  destruct M as [k M].
  assert (D : powerRZ 10 (exponent10 x) <= Rabs (sig n x) <= powerRZ 10 (exponent10 x + 1) /\ sig n x <> 0).
  { destruct (Rtotal_order x 0) as [Hx|[Hx|Hx]]; [|contradiction|].
    - pose proof (sig_decade_neg n x Hn Hx). pose proof (sig_neg n x Hn Hx). rewrite Rabs_left by lra. split; lra.
    - pose proof (sig_decade_pos n x Hn Hx). pose proof (sig_pos n x Hn Hx). rewrite Rabs_right by lra. split; lra. }
  destruct D as [[D1 D2] D3]. set (y := sig n x) in *. set (e := exponent10 x) in *.
  unfold sig at 1. destruct (Req_EM_T y 0); [contradiction|].
  destruct (Req_EM_T (Rabs y) (powerRZ 10 (e + 1))) as [E|E].
  - assert (X : exponent10 y = (e + 1)%Z).
    { apply exponent10_unique. rewrite E. split; [lra|]. apply ten_strict. lia. }
    rewrite X. unfold Rabs in E. destruct (Rcase_abs y).
    + assert (Ey : y = - powerRZ 10 (e + 1)) by lra. rewrite Ey. apply round_to_neg_power. lia.
    + assert (Ey : y = powerRZ 10 (e + 1)) by lra. rewrite Ey. apply round_to_power. lia.
  - assert (X : exponent10 y = e) by (apply exponent10_unique; lra). rewrite X, M. apply round_to_multiple.
Qed.

Lemma sig_ext_near n e x : powerRZ 10 (1 - n) / 2 <= e -> near_ext e (sig_ext n x) x.
Proof.
  intros H. destruct x as [r| | |]; try reflexivity. cbn [sig_ext near_ext]. eapply near_weaken; [apply sig_near|].
  pose proof (Rabs_pos r). replace (Rabs r * powerRZ 10 (1 - n) / 2) with (Rabs r * (powerRZ 10 (1 - n) / 2)) by field.
  apply Rmult_le_compat_l; assumption.
Qed.
Lemma ten_m4 : powerRZ 10 (-4) = / 10000. Proof. change (powerRZ 10 (-4)) with (/ 10 ^ 4). simpl. field. Qed.
Lemma ten_m1 : powerRZ 10 (-1) = / 10. Proof. change (powerRZ 10 (-1)) with (/ 10 ^ 1). simpl. field. Qed.

Lemma sig_small n x : (1 <= n)%Z -> Rabs x < 10 -> near (powerRZ 10 (1 - n) / 2) (sig n x) x.
Proof.
  intros Hn H. destruct (Req_EM_T x 0) as [->|N].
  - rewrite sig_zero. unfold near. rewrite Rminus_0_r, Rabs_R0. pose proof (ten_pos (1 - n)). lra.
  - unfold sig. destruct (Req_EM_T x 0); [contradiction|]. eapply near_weaken; [apply round_to_near|].
    destruct (exponent10_spec x N) as [A _]. assert (L : (exponent10 x <= 0)%Z).
    { destruct (Z_lt_le_dec 0 (exponent10 x)); [|assumption].
      assert (powerRZ 10 1 <= powerRZ 10 (exponent10 x)) by (apply ten_mono; lia). rewrite powerRZ_1 in *. lra. }
    assert (powerRZ 10 (- (n - 1 - exponent10 x)) <= powerRZ 10 (1 - n)) by (apply ten_mono; lia). lra.
Qed.

Lemma ln10_ge_2 : 2 <= ln 10.
Proof.
  rewrite <- (ln_exp 2). apply Rlt_le, ln_increasing; [apply exp_pos|].
  replace 2 with (1 + 1) by ring. rewrite exp_plus. pose proof exp_le_3. pose proof (exp_pos 1).
  assert (exp 1 * exp 1 <= 3 * 3) by (apply Rmult_le_compat; lra). lra.
Qed.
Lemma ln_le_sub u : 0 < u -> ln u <= u - 1.
Proof.
  intros H. destruct (Req_EM_T (u - 1) 0) as [E|E]; [replace u with 1 by lra; rewrite ln_1; lra|].
  rewrite <- (ln_exp (u - 1)). apply Rlt_le, ln_increasing; [exact H|]. pose proof (exp_ineq1 (u - 1) E). lra.
Qed.
Lemma log_near e a b : 0 < a -> 0 <= e <= 1 / 10 -> near (a * e) b a -> Rabs (ln b / ln 10 - ln a / ln 10) <= e * (6 / 10).
Proof.
  intros Ha He H. apply near_bounds in H. assert (a * e <= a * (1 / 10)) by (apply Rmult_le_compat_l; lra).
  assert (Hb : 0 < b) by lra. pose proof ln10_ge_2 as L.
  assert (U : ln b - ln a <= e).
  { assert (E : b = a * (b / a)) by (field; lra). assert (Q : 0 < b / a) by (apply Rmult_lt_0_compat; [exact Hb|apply Rinv_0_lt_compat; exact Ha]).
    rewrite E, ln_mult by assumption. pose proof (ln_le_sub (b / a) Q).
    assert (b / a <= 1 + e) by (apply Rmult_le_reg_r with a; [exact Ha|]; unfold Rdiv; rewrite Rmult_assoc, Rinv_l by lra; lra). lra. }
  assert (V : ln a - ln b <= e * (12 / 10)).
  { assert (E : a = b * (a / b)) by (field; lra). assert (Q : 0 < a / b) by (apply Rmult_lt_0_compat; [exact Ha|apply Rinv_0_lt_compat; exact Hb]).
    rewrite E at 1. rewrite ln_mult by assumption. pose proof (ln_le_sub (a / b) Q).
    assert (a / b <= 1 + e * (12 / 10)).
    { apply Rmult_le_reg_r with b; [exact Hb|]. unfold Rdiv. rewrite Rmult_assoc, Rinv_l by lra.
      assert (a * (1 - e) * (1 + e * (12 / 10)) <= b * (1 + e * (12 / 10))) by (apply Rmult_le_compat_r; lra).
      assert (0 <= a * (e * (1 / 10 - e)) ) by (apply Rmult_le_pos; [lra|]; apply Rmult_le_pos; lra). nra. }
    lra. }
  assert (W : Rabs (ln b - ln a) <= e * (12 / 10)) by (apply Rabs_le; lra).
  replace (ln b / ln 10 - ln a / ln 10) with ((ln b - ln a) * / ln 10) by (field; lra).
  rewrite Rabs_mult, (Rabs_right (/ ln 10)) by (apply Rle_ge, Rlt_le, Rinv_0_lt_compat; lra).
  assert (I : / ln 10 <= 1 / 2) by (replace (1 / 2) with (/ 2) by lra; apply Rinv_le_contravar; lra).
  assert (0 <= / ln 10) by (apply Rlt_le, Rinv_0_lt_compat; lra). pose proof (Rabs_pos (ln b - ln a)).
  apply Rle_trans with (e * (12 / 10) * (1 / 2)); [|lra].
  apply Rmult_le_compat; assumption.
Qed.

From Coq Require Import List ZArith Reals Lra Lia.
From Verif Require Import Lib LibFacts Chain_Model Chain_Spec Chain_Proofs Phase_Spec.
Import ListNotations.
Open Scope R_scope.

Lemma total_swap n m f : total n (fun i => total m (fun j => f i j)) = total m (fun j => total n (fun i => f i j)).
Proof. induction n as [|n IH]; cbn [total]; [symmetry; apply total_zero|]. rewrite IH, <- total_plus. reflexivity. Qed.
Lemma two_sided_double h J x t : two_sided h J x t = total J (fun i => total J (fun j => h i * h j * x (t + Z.of_nat i - Z.of_nat j)%Z)).
Proof. unfold two_sided. apply total_ext. intros i _. rewrite <- total_scal. apply total_ext. intros j _. ring. Qed.
Lemma two_sided_mirrored h J c x t : two_sided h J (mirrored c x) (2 * c - t) = two_sided h J x t.
Proof.
  rewrite !two_sided_double. rewrite total_swap. apply total_ext. intros i _. apply total_ext. intros j _. unfold mirrored. rewrite (Rmult_comm (h j)). f_equal. f_equal. lia.
Qed.

(** The response, continued by zeros. *)
Definition wide (h : nat -> R) (J : nat) (z : Z) : R := if andb (0 <=? z)%Z (z <? Z.of_nat J)%Z then h (Z.to_nat z) else 0.
Lemma total_single n k f : (forall j, j <> k -> f j = 0) -> total n f = if (k <? n)%nat then f k else 0.
Proof.
  intros H. induction n as [|n IH]; [reflexivity|]. cbn [total]. rewrite IH. destruct (Nat.ltb_spec k n), (Nat.ltb_spec k (S n)); try lia.
  - rewrite (H n) by lia. lra.
  - replace n with k by lia. lra.
  - rewrite (H n) by lia. lra.
Qed.
Lemma impulse_row h J c v z : total J (fun j => h j * impulse c v (z - Z.of_nat j)%Z) = v * wide h J (z - c).
Proof.
  unfold wide. destruct (Z.leb_spec 0 (z - c)) as [H|H].
  - rewrite (total_single J (Z.to_nat (z - c))).
    + destruct (Nat.ltb_spec (Z.to_nat (z - c)) J); destruct (Z.ltb_spec (z - c) (Z.of_nat J)); try lia; cbn [andb]; [|ring]. unfold impulse. destruct (Z.eqb_spec (z - Z.of_nat (Z.to_nat (z - c))) c); [ring|lia].
    + intros j Hj. unfold impulse. destruct (Z.eqb_spec (z - Z.of_nat j) c); [lia|ring].
  - cbn [andb]. rewrite (total_ext J _ (fun _ => 0)); [rewrite total_zero; ring|]. intros j Hj. unfold impulse. destruct (Z.eqb_spec (z - Z.of_nat j) c); [lia|ring].
Qed.
Lemma two_sided_impulse h J c v t : two_sided h J (impulse c v) t = v * total J (fun i => h i * wide h J (t - c + Z.of_nat i)).
Proof. unfold two_sided. rewrite <- total_scal. apply total_ext. intros i _. rewrite impulse_row. replace (t + Z.of_nat i - c)%Z with (t - c + Z.of_nat i)%Z by lia. ring. Qed.
Lemma wide_at h J i : (i < J)%nat -> wide h J (Z.of_nat i) = h i.
Proof. intros H. unfold wide. destruct (Z.leb_spec 0 (Z.of_nat i)); [|lia]. destruct (Z.ltb_spec (Z.of_nat i) (Z.of_nat J)); [|lia]. cbn. rewrite Nat2Z.id. reflexivity. Qed.
Lemma wide_out h J z : (z < 0 \/ Z.of_nat J <= z)%Z -> wide h J z = 0.
Proof. intros H. unfold wide. destruct (Z.leb_spec 0 z); destruct (Z.ltb_spec z (Z.of_nat J)); try lia; reflexivity. Qed.
Lemma wide_energy h J d : total J (fun i => wide h J (d + Z.of_nat i) * wide h J (d + Z.of_nat i)) <= energy_of h J.
Proof.
  unfold energy_of. destruct (Z.le_gt_cases (Z.of_nat J) (Z.abs d)) as [F|F].
  - rewrite (total_ext J _ (fun _ => 0)); [rewrite total_zero; apply total_pos; intros j _; apply Rle_0_sqr|]. intros i Hi. rewrite wide_out by lia. ring.
  - destruct (Z.le_gt_cases 0 d) as [D|D].
    + set (k := Z.to_nat d). replace J with ((J - k) + k)%nat at 1 by (unfold k; lia). rewrite total_split.
      rewrite (total_ext k _ (fun _ => 0)) by (intros i Hi; rewrite wide_out by (unfold k in *; lia); ring). rewrite total_zero, Rplus_0_r.
      replace (total J (fun i => h i * h i)) with (total (k + (J - k)) (fun i => h i * h i)) by (f_equal; unfold k; lia). rewrite total_split.
      assert (P : 0 <= total k (fun i => h i * h i)) by (apply total_pos; intros j _; apply Rle_0_sqr).
      rewrite (total_ext (J - k) (fun i => wide h J (d + Z.of_nat i) * wide h J (d + Z.of_nat i)) (fun j => h (k + j)%nat * h (k + j)%nat)); [lra|]. intros i Hi. replace (d + Z.of_nat i)%Z with (Z.of_nat (k + i)) by (unfold k; lia). rewrite wide_at by lia. reflexivity.
    + set (k := Z.to_nat (- d)). replace J with (k + (J - k))%nat at 1 by (unfold k; lia). rewrite total_split. rewrite (total_ext k _ (fun _ => 0)) by (intros i Hi; rewrite wide_out by (unfold k in *; lia); ring). rewrite total_zero, Rplus_0_l.
      replace (total J (fun i => h i * h i)) with (total ((J - k) + k) (fun i => h i * h i)) by (f_equal; unfold k; lia). rewrite total_split.
      assert (P : 0 <= total k (fun j => h (J - k + j)%nat * h (J - k + j)%nat)) by (apply total_pos; intros j _; apply Rle_0_sqr).
      rewrite (total_ext (J - k) (fun j => wide h J (d + Z.of_nat (k + j)) * wide h J (d + Z.of_nat (k + j))) (fun i => h i * h i)); [lra|]. intros i Hi. replace (d + Z.of_nat (k + i))%Z with (Z.of_nat i) by (unfold k; lia). rewrite wide_at by lia. reflexivity.
Qed.
Lemma correlation_bound h J d : Rabs (total J (fun i => h i * wide h J (d + Z.of_nat i))) <= energy_of h J.
Proof.
  eapply Rle_trans; [apply total_abs|]. apply Rle_trans with (total J (fun i => / 2 * (h i * h i + wide h J (d + Z.of_nat i) * wide h J (d + Z.of_nat i)))).
  - apply total_le. intros i _. set (a := h i). set (b := wide h J _). rewrite Rabs_mult. pose proof (Rle_0_sqr (Rabs a - Rabs b)) as Q. unfold Rsqr in Q.
    assert (Ea : Rabs a * Rabs a = a * a) by (rewrite <- Rabs_mult, Rabs_pos_eq; [reflexivity|apply Rle_0_sqr]). assert (Eb : Rabs b * Rabs b = b * b) by (rewrite <- Rabs_mult, Rabs_pos_eq; [reflexivity|apply Rle_0_sqr]). lra.
  - rewrite total_scal, total_plus. pose proof (wide_energy h J d). fold (energy_of h J). lra.
Qed.
Lemma impulse_peak h J c v : two_sided h J (impulse c v) c = v * energy_of h J.
Proof. rewrite two_sided_impulse. f_equal. unfold energy_of. apply total_ext. intros i Hi. replace (c - c + Z.of_nat i)%Z with (Z.of_nat i) by lia. rewrite wide_at by exact Hi. reflexivity. Qed.
Lemma energy_pos h J : 0 <= energy_of h J.
Proof. apply total_pos. intros j _. apply Rle_0_sqr. Qed.
Lemma impulse_bound h J c v t : Rabs (two_sided h J (impulse c v) t) <= Rabs (two_sided h J (impulse c v) c).
Proof.
  rewrite impulse_peak, two_sided_impulse, !Rabs_mult. apply Rmult_le_compat_l; [apply Rabs_pos|]. rewrite (Rabs_pos_eq (energy_of h J)) by apply energy_pos. apply correlation_bound.
Qed.

Section Fit.
Variable x : list R.
Hypothesis Two : (2 <= length x)%nat.
Lemma detrended_trend : total (length x) (fun j => (INR j - centre (length x)) * (at_ x j - fitted x j)) = 0.
Proof.
  set (n := length x). assert (T : 2 <= INR n) by (change 2 with (INR 2); apply le_INR; exact Two).
  rewrite (total_ext n _ (fun j => (INR j - centre n) * at_ x j - (mean_of x * (INR j - centre n) + slope_of x * ((INR j - centre n) * (INR j - centre n))))) by (intros j _; unfold fitted; fold n; ring).
  rewrite total_minus, total_plus, !total_scal, total_centred. unfold slope_of. fold n. rewrite total_spread. field. split; [|lra]. assert (2 * 2 <= INR n * INR n) by (apply Rmult_le_compat; lra). lra.
Qed.
Lemma detrended_sum : total (length x) (fun j => at_ x j - fitted x j) = 0.
Proof.
  set (n := length x). assert (T : 2 <= INR n) by (change 2 with (INR 2); apply le_INR; exact Two). rewrite total_minus. unfold fitted. fold n. rewrite total_plus, total_scal, total_centred, total_const. unfold mean_of. fold n. field. lra.
Qed.
(** The line is the best one. *)
Lemma least_squares p q : total (length x) (fun j => (at_ x j - fitted x j) * (at_ x j - fitted x j)) <= total (length x) (fun j => (at_ x j - (p + q * INR j)) * (at_ x j - (p + q * INR j))).
Proof.
  set (n := length x). set (r := fun j => at_ x j - fitted x j). set (u := mean_of x - slope_of x * centre n - p). set (v := slope_of x - q).
  rewrite (total_ext n (fun j => (at_ x j - (p + q * INR j)) * (at_ x j - (p + q * INR j))) (fun j => r j * r j + ((2 * (u + v * centre n)) * r j + (2 * v) * ((INR j - centre n) * r j)) + (u + v * INR j) * (u + v * INR j))).
  2: { intros j _. unfold r, u, v, fitted. fold n. ring. }
  rewrite !total_plus, !total_scal. unfold r. pose proof detrended_trend as E1. pose proof detrended_sum as E2. fold n in E1, E2. rewrite E1, E2.
  assert (0 <= total n (fun j => (u + v * INR j) * (u + v * INR j))) by (apply total_pos; intros; apply Rle_0_sqr). lra.
Qed.
End Fit.

(** C139: the filter does not move arrivals; the line taken off is the best fitting one. *)
From Coq Require Import List ZArith Reals Lra Lia.
From Verif Require Import Lib LibFacts Onset_Spec Window_Spec Chain_Model Chain_Spec Chain_Proofs Phase_Spec Phase_Proofs Chain_Props.
Import ListNotations.
Open Scope R_scope.

(** The line that is taken off is the one with the least squares; the removal of the mean after it changes nothing. *)
Theorem C139_least_squares_line :
  forall x, (2 <= length x)%nat ->
  (exists p q, forall j, (j < length x)%nat -> fitted x j = p + q * INR j)
  /\ (forall j, (j < length x)%nat -> nth j (detrend_constant (detrend_linear x)) 0 = nth j x 0 - fitted x j)
  /\ (forall p q, total (length x) (fun j => (nth j x 0 - fitted x j) * (nth j x 0 - fitted x j)) <= total (length x) (fun j => (nth j x 0 - (p + q * INR j)) * (nth j x 0 - (p + q * INR j)))).
Proof.
  intros x H. split; [|split].
  - exists (mean_of x - slope_of x * centre (length x)), (slope_of x). intros j _. unfold fitted. ring.
  - intros j Hj. exact (detrended_at x H j Hj).
  - exact (least_squares x H).
Qed.
Print Assumptions C139_least_squares_line.
(** By itself, the removal of the mean leaves data with mean zero, and every difference as it was. *)
Theorem C139_mean_removed :
  forall x, x <> [] -> total (length x) (fun j => nth j (detrend_constant x) 0) = 0
  /\ (forall i j, (i < length x)%nat -> (j < length x)%nat -> nth i (detrend_constant x) 0 - nth j (detrend_constant x) 0 = nth i x 0 - nth j x 0).
Proof.
  intros x H. assert (N : INR (length x) <> 0) by (apply not_0_INR; destruct x; [congruence|discriminate]).
  assert (A : forall j, (j < length x)%nat -> nth j (detrend_constant x) 0 = nth j x 0 - mean_of x) by (intros j Hj; exact (at_each x _ j Hj)). split.
  - rewrite (total_ext _ _ _ A), total_minus, total_const. unfold mean_of. change (fun j => nth j x 0) with (at_ x). field. exact N.
  - intros i j Hi Hj. rewrite !A by assumption. ring.
Qed.
Print Assumptions C139_mean_removed.

(** Backwards in time, the filter does the same. *)
Theorem C139_same_both_ways :
  forall h J c x t, two_sided h J (mirrored c x) (2 * c - t) = two_sided h J x t.
Proof. exact two_sided_mirrored. Qed.
Print Assumptions C139_same_both_ways.
(** An impulse comes out largest where it is, with its own sign, and the same on both sides. *)
Theorem C139_impulse :
  forall h J c v, two_sided h J (impulse c v) c = v * energy_of h J /\ 0 <= energy_of h J
  /\ (forall t, Rabs (two_sided h J (impulse c v) t) <= Rabs (two_sided h J (impulse c v) c))
  /\ (forall d, two_sided h J (impulse c v) (c + d) = two_sided h J (impulse c v) (c - d)).
Proof.
  intros h J c v. split; [apply impulse_peak|]. split; [apply energy_pos|]. split; [intros; apply impulse_bound|]. intros d.
  rewrite <- (two_sided_mirrored h J c (impulse c v) (c - d)). replace (2 * c - (c - d))%Z with (c + d)%Z by lia. unfold two_sided. apply total_ext. intros i _. f_equal. apply total_ext. intros j _. f_equal.
  unfold mirrored, impulse. destruct (Z.eqb_spec (c + d + Z.of_nat i - Z.of_nat j) c); destruct (Z.eqb_spec (2 * c - (c + d + Z.of_nat i - Z.of_nat j)) c); try lia; reflexivity.
Qed.
Print Assumptions C139_impulse.
(** In a window: what pre_process makes of a record with one impulse is largest at the impulse, but for the error of C138. *)
Theorem C139_not_moved_partial :
  forall w sos c v A E J a n t, let h := response (sosfilt sos) in let y := pre_filter w sos (cut (impulse c v) a n) in
  taper_weights w -> calm h A E J -> (0 < J)%nat -> (a + settling J n <= t < a + n - settling J n)%Z -> (a + settling J n <= c < a + n - settling J n)%Z ->
  Rabs (sample y (t - a)) <= Rabs (sample y (c - a)) + 32 * Rabs v * A * E.
Proof.
  intros w sos c v A E J a n t h y Hw Hc HJ Ht Hcc. assert (B : forall j, (a <= j < a + n)%Z -> Rabs (impulse c v j) <= Rabs v) by (intros j _; unfold impulse; destruct (j =? c)%Z; [lra|rewrite Rabs_R0; apply Rabs_pos]).
  pose proof (chain_window w sos (impulse c v) (Rabs v) A E J a n t Hw Hc HJ B Ht) as H1. pose proof (chain_window w sos (impulse c v) (Rabs v) A E J a n c Hw Hc HJ B Hcc) as H2. fold h y in H1, H2.
  pose proof (impulse_bound h J c v t) as H3. pose proof (Rabs_triang_inv (sample y (t - a)) (two_sided h J (impulse c v) t)) as Q1. pose proof (Rabs_triang_inv (two_sided h J (impulse c v) c) (sample y (c - a))) as Q2. rewrite Rabs_minus_sym in Q2. lra.
Qed.
Print Assumptions C139_not_moved_partial.
(** One pass does move an impulse: after the filter of C138_band_pass with its response delayed, say, the largest sample is later. *)
Example C139_one_pass_moves : let sos := [mk_section 0 1 (-2) 0 0] in nth 1 (sosfilt sos [0; 1; 0; 0]) 0 = 0 /\ nth 3 (sosfilt sos [0; 1; 0; 0]) 0 = -2.
Proof. cbv zeta. unfold sosfilt. cbn. split; ring. Qed.
Example C139_applies :
  let w := cosine_weights in let h := response (sosfilt ex_sos) in taper_weights w /\ calm h 6 (leftover 3 (1 / 2) 60) 60 /\ (0 + settling 60 2000 <= 1000 < 0 + 2000 - settling 60 2000)%Z
  /\ 1 <= energy_of h 60 /\ (2 <= length [1; 2; 4])%nat.
Proof.
  cbv zeta. destruct C138_applies as (H1 & H2 & H3 & _). split; [exact H1|]. split; [exact H2|]. split; [rewrite H3; lia|]. split; [|cbn; lia].
  destruct ex_response as (R0 & _ & _). unfold energy_of. rewrite (total_first 59). rewrite R0. assert (0 <= total 59 (fun j => response (sosfilt ex_sos) (S j) * response (sosfilt ex_sos) (S j))) by (apply total_pos; intros; apply Rle_0_sqr). lra.
Qed.

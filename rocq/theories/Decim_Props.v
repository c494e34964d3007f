(** C141: data recorded at a multiple of the output rate: decimated, detrended, tapered and filtered, away from the ends of the window they are those of the record without ends. *)
From Coq Require Import List ZArith Reals Lra Lia.
From Verif Require Import Lib LibFacts Onset_Spec Window_Spec Chain_Model Chain_Spec Chain_Proofs Poles_Proofs Chain_Props Decim_Model Decim_Spec Decim_Proofs.
Import ListNotations.
Open Scope R_scope.

(** Every [k]-th sample of the filtered data, from the first. *)
Theorem C141_every_kth_sample :
  forall w lp k x, (0 < k)%nat -> Z.of_nat (length (decimate w lp k x)) = n_out k (Z.of_nat (length x))
  /\ (forall j, (j < length (decimate w lp k x))%nat -> (k * j < length x)%nat /\ nth j (decimate w lp k x) 0 = nth (k * j) (pre_filter w lp x) 0).
Proof.
  intros w lp k x Hk. unfold decimate. rewrite every_length, chain_length. split.
  - unfold n_out. rewrite Nat2Z.inj_div, Nat2Z.inj_sub, Nat2Z.inj_add by lia. reflexivity.
  - intros j Hj. split.
    + assert (k * S j <= length x + k - 1)%nat; [|lia]. eapply Nat.le_trans; [apply Nat.mul_le_mono_l, Hj|]. apply Nat.mul_div_le. lia.
    + apply (at_every k (pre_filter w lp x) j). rewrite chain_length. exact Hj.
Qed.
Print Assumptions C141_every_kth_sample.

Theorem C141_decimated_partial :
  forall w lp bp k x M A E A' E' J J' b n s, let hl := response (sosfilt lp) in let hb := response (sosfilt bp) in
  taper_weights w -> fading hl A E J -> calm hb A' E' J' -> (0 < k)%nat -> (0 < J)%nat -> (0 < J')%nat ->
  (forall j, (Z.of_nat k * b <= j < Z.of_nat k * b + n)%Z -> Rabs (x j) <= M) -> clear_of_both J J' k n (s - b) ->
  Rabs (sample (decimated_filter w lp bp k (cut x (Z.of_nat k * b) n)) (s - b) - both_filters hl hb J J' k x s) <= 80 * M * A * A * A' * E' + 10 * M * A * E * A' * A' + 4 * M * A * A * E' * E'.
Proof.
  intros w lp bp k x M A E A' E' J J' b n s hl hb Hw Hl Hb Hk HJ HJ' Bx Hs. pose proof (both_inside w lp bp k x M A E A' E' J J' b n Hw Hl Hb Hk HJ HJ' Bx (s - b)%Z Hs) as Q. fold hl hb in Q. replace (b + (s - b))%Z with s in Q by ring.
  pose proof (out_pos k J J' n Hk HJ HJ' (s - b)%Z Hs) as No. destruct Hs as (S1 & _). unfold settling in S1. assert (0 <= n_out k n / 20)%Z by (apply Z.div_pos; lia).
  replace (s - b)%Z with (Z.of_nat (Z.to_nat (s - b))) at 1 by lia. rewrite sample_at. exact Q.
Qed.
Print Assumptions C141_decimated_partial.

(** Two windows that begin on samples of the output agree. *)
Theorem C141_two_windows_partial :
  forall w lp bp k x M A E A' E' J J' b n b' n' s, let hl := response (sosfilt lp) in let hb := response (sosfilt bp) in
  taper_weights w -> fading hl A E J -> calm hb A' E' J' -> (0 < k)%nat -> (0 < J)%nat -> (0 < J')%nat -> (forall j, Rabs (x j) <= M) -> clear_of_both J J' k n (s - b) -> clear_of_both J J' k n' (s - b') ->
  Rabs (sample (decimated_filter w lp bp k (cut x (Z.of_nat k * b) n)) (s - b) - sample (decimated_filter w lp bp k (cut x (Z.of_nat k * b') n')) (s - b'))
  <= 2 * (80 * M * A * A * A' * E' + 10 * M * A * E * A' * A' + 4 * M * A * A * E' * E').
Proof.
  intros w lp bp k x M A E A' E' J J' b n b' n' s hl hb Hw Hl Hb Hk HJ HJ' Bx Hs Hs'.
  pose proof (C141_decimated_partial w lp bp k x M A E A' E' J J' b n s Hw Hl Hb Hk HJ HJ' (fun j _ => Bx j) Hs) as H1. pose proof (C141_decimated_partial w lp bp k x M A E A' E' J J' b' n' s Hw Hl Hb Hk HJ HJ' (fun j _ => Bx j) Hs') as H2.
  fold hl hb in H1, H2. set (u := sample _ (s - b)) in *. set (u' := sample _ (s - b')) in *. set (y := both_filters _ _ _ _ _ _ _) in *.
  replace (u - u') with ((u - y) + - (u' - y)) by ring. eapply Rle_trans; [apply Rabs_triang|]. rewrite Rabs_Ropp. lra.
Qed.
Print Assumptions C141_two_windows_partial.

(** A low-pass of sections with their poles inside the unit circle dies away as well. *)
Lemma decay_fading h C rho J : 0 <= C -> 0 < rho < 1 -> (forall n, Rabs (h n) <= C * rho ^ n) -> fading h (C * / (1 - rho)) (C * / (1 - rho) * rho ^ J) J.
Proof.
  intros HC Hr Hh. split; intros N.
  - apply Rle_trans with (total N (fun j => C * rho ^ j)); [apply total_le; intros; apply Hh|]. rewrite total_scal. apply Rmult_le_compat_l; [exact HC|apply total_pow; lra].
  - apply Rle_trans with (total N (fun j => C * rho ^ J * rho ^ j)); [apply total_le; intros; eapply Rle_trans; [apply Hh|rewrite pow_add; right; ring]|]. rewrite total_scal.
    replace (C * / (1 - rho) * rho ^ J) with (C * rho ^ J * / (1 - rho)) by ring. apply Rmult_le_compat_l; [apply Rmult_le_pos; [exact HC|apply pow_le; lra]|apply total_pow; lra].
Qed.
Lemma any_zeros sos : zeros sos 0.
Proof. induction sos; constructor; assumption. Qed.
Theorem C141_stable_low_pass :
  forall lp, Forall stable lp -> exists A, 0 <= A /\ forall eps, 0 < eps -> exists J0, forall J, (J0 <= J)%nat -> fading (response (sosfilt lp)) A eps J.
Proof.
  intros lp HS. destruct (order_sosfilt lp 0 HS (any_zeros lp) 0%nat (le_n 0)) as (C & rho & HC & Hr & Hh). cbn [cumuls] in Hh. assert (P : 0 < / (1 - rho)) by (apply Rinv_0_lt_compat; lra).
  assert (A0 : 0 <= C * / (1 - rho)) by (apply Rmult_le_pos; lra). exists (C * / (1 - rho)). split; [exact A0|]. intros eps He.
  destruct (pow_lt_1_zero rho) with (y := eps / (C * / (1 - rho) + 1)) as (N & HN); [rewrite Rabs_pos_eq; lra|apply Rdiv_lt_0_compat; lra|].
  exists N. intros J HJ. destruct (decay_fading _ C rho J HC Hr Hh) as (F1 & F2). split; [exact F1|]. intros m. eapply Rle_trans; [apply F2|]. specialize (HN J HJ). rewrite Rabs_pos_eq in HN by (apply pow_le; lra).
  assert (Q : C * / (1 - rho) * rho ^ J <= C * / (1 - rho) * (eps / (C * / (1 - rho) + 1))) by (apply Rmult_le_compat_l; lra). eapply Rle_trans; [exact Q|].
  assert (0 < eps / (C * / (1 - rho) + 1)) by (apply Rdiv_lt_0_compat; lra). replace eps with ((C * / (1 - rho) + 1) * (eps / (C * / (1 - rho) + 1))) at 2 by (field; split; [lra|]; apply Rgt_not_eq; unfold Rdiv in *; nra). lra.
Qed.
Print Assumptions C141_stable_low_pass.

(** So the result is as independent of the window as one likes, if one stays away from the ends. *)
Theorem C141_any_accuracy_partial :
  forall w lp bp z k x M eps, taper_weights w -> Forall stable lp -> Forall stable bp -> zeros bp z -> (1 <= z)%nat -> (0 < k)%nat -> (forall j, Rabs (x j) <= M) -> 0 < eps ->
  exists J0, forall J b n b' n' s, (J0 <= J)%nat -> clear_of_both J J k n (s - b) -> clear_of_both J J k n' (s - b') ->
  Rabs (sample (decimated_filter w lp bp k (cut x (Z.of_nat k * b) n)) (s - b) - sample (decimated_filter w lp bp k (cut x (Z.of_nat k * b') n')) (s - b')) <= eps.
Proof.
  intros w lp bp z k x M eps Hw HL HB HZ Hz Hk Bx He. assert (M0 : 0 <= M) by (pose proof (Bx 0%Z); pose proof (Rabs_pos (x 0%Z)); lra).
  destruct (C141_stable_low_pass lp HL) as (A & A0 & FA). destruct (sections_band_pass bp z HB HZ Hz) as (C & rho & Hbp). pose proof Hbp as (Hr & Hh & _).
  assert (P : 0 < / (1 - rho)) by (apply Rinv_0_lt_compat; lra). assert (C0 : 0 <= C). { pose proof (Hh O) as Q. pose proof (Rabs_pos (response (sosfilt bp) O)). cbn [pow] in Q. lra. }
  set (A' := C * / (1 - rho)). assert (A'0 : 0 <= A') by (apply Rmult_le_pos; lra).
  set (K := 2 * (80 * M * A * A * A' + 10 * M * A * A' * A' + 4 * M * A * A)). assert (K0 : 0 <= K).
  { unfold K. apply Rmult_le_pos; [lra|]. apply Rplus_le_le_0_compat; [apply Rplus_le_le_0_compat|]; repeat apply Rmult_le_pos; lra. }
  set (d := Rmin 1 (eps / (K + 1))). assert (D0 : 0 < eps / (K + 1)) by (apply Rdiv_lt_0_compat; lra). assert (d0 : 0 < d) by (unfold d; apply Rmin_pos; lra). assert (d1 : d <= 1) by apply Rmin_l. assert (dK : d <= eps / (K + 1)) by apply Rmin_r.
  destruct (FA d d0) as (JA & HJA). destruct (leftover_vanishes C rho Hr d d0) as (JB & HJB). exists (S (Nat.max JA JB)). intros J b n b' n' s HJ Hs Hs'.
  pose proof (HJA J ltac:(lia)) as Fd. pose proof (HJB J ltac:(lia)) as Ld. unfold R_dist in Ld. rewrite Rminus_0_r in Ld. pose proof (Rle_abs (leftover C rho J)) as La.
  destruct (band_pass_calm _ C rho J Hbp) as (c1 & c2 & c3). fold A' in c1.
  assert (Cd : calm (response (sosfilt bp)) A' d J) by (split; [exact c1|]; split; [intros N; eapply Rle_trans; [apply c2|lra]|]; lra).
  eapply Rle_trans; [apply (C141_two_windows_partial w lp bp k x M A d A' d J J b n b' n' s Hw Fd Cd Hk); [lia|lia|exact Bx|exact Hs|exact Hs']|].
  assert (DD : 4 * M * A * A * d * d <= 4 * M * A * A * d). { rewrite <- (Rmult_1_r (4 * M * A * A * d)) at 2. apply Rmult_le_compat_l; [repeat apply Rmult_le_pos; lra|exact d1]. }
  apply Rle_trans with (K * d).
  - unfold K. lra.
  - apply Rle_trans with (K * (eps / (K + 1))); [apply Rmult_le_compat_l; assumption|]. replace eps with ((K + 1) * (eps / (K + 1))) at 2 by (field; lra). lra.
Qed.
Print Assumptions C141_any_accuracy_partial.

(** A low-pass with one pole, the band-pass of C138, and data at twice the output rate. *)
Definition ex_low : list section_ := [mk_section (1 / 2) 0 0 (-1 / 2) 0].
Example C141_applies : taper_weights cosine_weights /\ Forall stable ex_low /\ Forall stable ex_pairs /\ zeros ex_pairs 2 /\ clear_of_both 60 60 2 4000 1000 /\ clear_of_both 60 60 2 4400 (1000 + 100).
Proof.
  split; [exact C138_cosine|]. split.
  - apply Forall_cons; [|apply Forall_nil]. right. exists (1 / 2), 0. cbn. rewrite Rabs_R0, Rabs_pos_eq by lra. repeat split; lra.
  - split; [apply C138_pairs|]. split; [apply C138_pairs|]. unfold clear_of_both, settling, n_out. cbn [Z.of_nat]. repeat split; vm_compute; congruence.
Qed.
(** Windows that begin between samples of the output keep other samples. *)
Example C141_begin_on_the_grid : every 2 [1; 2; 3; 4; 5] = [1; 3; 5] /\ every 2 [2; 3; 4; 5] = [2; 4].
Proof. split; reflexivity. Qed.

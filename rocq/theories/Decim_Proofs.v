From Coq Require Import List ZArith Reals Lra Lia.
From Verif Require Import Lib LibFacts Onset_Spec Window_Spec Chain_Model Chain_Spec Chain_Proofs Decim_Model Decim_Spec.
Import ListNotations.
Open Scope R_scope.

Lemma every_length k x : length (every k x) = ((length x + k - 1) / k)%nat.
Proof. unfold every. rewrite map_length, seq_length. reflexivity. Qed.
Lemma at_every k x j : (j < (length x + k - 1) / k)%nat -> at_ (every k x) j = at_ x (k * j).
Proof. intros H. unfold every. unfold at_ at 1. rewrite (nth_indep _ 0 (at_ x (k * 0))) by (rewrite map_length, seq_length; exact H). rewrite (map_nth (fun j => at_ x (k * j))). rewrite seq_nth by exact H. reflexivity. Qed.
Lemma two_sided_cong h J f g t : (forall i j, (i < J)%nat -> (j < J)%nat -> f (t + Z.of_nat i - Z.of_nat j)%Z = g (t + Z.of_nat i - Z.of_nat j)%Z) -> two_sided h J f t = two_sided h J g t.
Proof. intros H. unfold two_sided. apply total_ext. intros i Hi. f_equal. apply total_ext. intros j Hj. f_equal. apply H; assumption. Qed.
Lemma two_sided_minus h J f g t : two_sided h J (fun z => f z - g z) t = two_sided h J f t - two_sided h J g t.
Proof. unfold two_sided. rewrite <- total_minus. apply total_ext. intros i _. rewrite <- Rmult_minus_distr_l. f_equal. rewrite <- total_minus. apply total_ext. intros j _. ring. Qed.
Lemma two_sided_small h J f A B t : (forall N, total N (fun j => Rabs (h j)) <= A) -> 0 <= B -> (forall i j, (i < J)%nat -> (j < J)%nat -> Rabs (f (t + Z.of_nat i - Z.of_nat j)%Z) <= B) -> Rabs (two_sided h J f t) <= A * (A * B).
Proof.
  intros HA HB H. assert (PA : 0 <= A) by exact (HA O). unfold two_sided. eapply Rle_trans; [apply (total_weighted J h _ (A * B))|].
  - intros i Hi. eapply Rle_trans; [apply (total_weighted J h (fun j => f _) B); intros j Hj; apply H; assumption|]. apply Rmult_le_compat_r; [exact HB|apply HA].
  - apply Rmult_le_compat_r; [apply Rmult_le_pos; assumption|apply HA].
Qed.
Lemma two_sided_line h J p q t : two_sided h J (fun z => p + q * IZR z) t = (p + q * IZR t) * (total J h * total J h).
Proof.
  rewrite <- two_pass_line. unfold two_sided. apply total_ext. intros i _. f_equal. apply total_ext. intros j _. f_equal. rewrite minus_IZR, plus_IZR, <- !INR_IZR_INZ. ring.
Qed.

Section Both.
Variables (w : nat -> nat -> R) (lp bp : list section_) (k : nat) (x : Z -> R) (M A E A' E' : R) (J J' : nat) (b n : Z).
Let hl := response (sosfilt lp).
Let hb := response (sosfilt bp).
Hypothesis Hw : taper_weights w.
Hypothesis Hl : fading hl A E J.
Hypothesis Hb : calm hb A' E' J'.
Hypothesis Hk : (0 < k)%nat.
Hypothesis HJ : (0 < J)%nat.
Hypothesis HJ' : (0 < J')%nat.
Hypothesis Bx : forall j, (Z.of_nat k * b <= j < Z.of_nat k * b + n)%Z -> Rabs (x j) <= M.
Variable s : Z.
Hypothesis Hs : clear_of_both J J' k n s.
Let data := cut x (Z.of_nat k * b) n.
Let n' := n_out k n.

Lemma n_pos : (2 <= n)%Z.
Proof.
  destruct Hs as (_ & H1 & H2). unfold settling in *. assert (P : (Z.of_nat k * (s - Z.of_nat J') <= Z.of_nat k * (s + Z.of_nat J'))%Z) by (apply Z.mul_le_mono_nonneg_l; lia).
  destruct (Z.le_gt_cases 0 n) as [Hn|Hn]; [pose proof (Z.div_pos n 20); lia|]. exfalso. pose proof (Z.div_mod n 20). pose proof (Z.mod_pos_bound n 20). lia.
Qed.
Lemma data_length : length data = Z.to_nat n.
Proof. apply cut_length. pose proof n_pos. lia. Qed.
Lemma data_two : (2 <= length data)%nat.
Proof. rewrite data_length. pose proof n_pos. lia. Qed.
Lemma data_bound j : (j < length data)%nat -> Rabs (at_ data j) <= M.
Proof. rewrite data_length. intros H. pose proof n_pos. unfold data. rewrite at_cut by lia. apply Bx. lia. Qed.
Lemma M_pos : 0 <= M.
Proof. exact (bound_pos data M data_two data_bound). Qed.
Let z := pre_filter w lp data.
Lemma z_length : length z = Z.to_nat n.
Proof. unfold z. rewrite (chain_length w lp data). apply data_length. Qed.
Let c := every k z.
Lemma c_length : length c = Z.to_nat n'.
Proof.
  unfold c. rewrite every_length, z_length. unfold n', n_out. pose proof n_pos. apply Nat2Z.inj. rewrite Nat2Z.inj_div, Nat2Z.inj_sub, Nat2Z.inj_add, Z2Nat.id by lia.
  rewrite Z2Nat.id; [reflexivity|]. apply Z.div_pos; lia.
Qed.
Lemma out_pos : (2 <= n')%Z.
Proof. destruct Hs as (H1 & _). fold n' in H1. unfold settling in H1. destruct (Z.le_gt_cases 0 n') as [Hn|Hn]; [pose proof (Z.div_pos n' 20); lia|]. exfalso. pose proof (Z.div_mod n' 20). pose proof (Z.mod_pos_bound n' 20). lia. Qed.
Lemma c_bound j : (j < length c)%nat -> Rabs (at_ c j) <= A * (A * (5 * M)).
Proof.
  intros H. unfold c in *. rewrite every_length in H. rewrite at_every by exact H. destruct Hl as (HA & HE). exact (chain_bound w lp data M A data_two data_bound Hw HA (k * j)).
Qed.
(** The line of the data, seen at the output rate. *)
Let p := mean_of data - slope_of data * centre (length data).
Let q := slope_of data.
Let g := total J hl * total J hl.
Definition clean (t : Z) : R := two_sided hl J x (Z.of_nat k * t).
Lemma c_inside (j : Z) : (settling J n <= Z.of_nat k * j)%Z -> (Z.of_nat k * j < n - settling J n)%Z ->
  Rabs (at_ c (Z.to_nat j) - (clean (b + j) - g * (p + q * (IZR (Z.of_nat k) * IZR j)))) <= 10 * M * A * E.
Proof.
  intros H1 H2. pose proof n_pos as Np. unfold settling in *. assert (H20 : (0 <= n / 20)%Z) by (apply Z.div_pos; lia).
  assert (J0 : (0 <= j)%Z) by (destruct (Z.le_gt_cases 0 j); [assumption|]; exfalso; assert (Z.of_nat k * j < 0)%Z by (apply Z.mul_pos_neg; lia); lia).
  assert (Kj : (k * Z.to_nat j)%nat = Z.to_nat (Z.of_nat k * j)) by (rewrite Z2Nat.inj_mul by lia; rewrite Nat2Z.id; reflexivity).
  assert (Lj : (Z.to_nat j < (length z + k - 1) / k)%nat).
  { rewrite z_length. apply Nat.div_le_lower_bound; [lia|]. rewrite Nat.mul_succ_r, Kj. lia. }
  unfold c. rewrite at_every by exact Lj. rewrite Kj. set (t := Z.to_nat (Z.of_nat k * j)).
  assert (D : Z.of_nat (Z.to_nat n / 20) = (n / 20)%Z) by (rewrite Nat2Z.inj_div, Z2Nat.id by lia; reflexivity).
  destruct Hl as (HA & HE). pose proof (chain_near w lp data M A E J data_two data_bound Hw HA HE t) as Q. rewrite data_length in Q. specialize (Q ltac:(unfold t; lia) ltac:(unfold t; lia)). fold z in Q. fold hl in Q.
  eapply Rle_trans; [|exact Q]. right. f_equal. f_equal.
  rewrite (total_ext J (fun i => hl i * total J (fun j0 => hl j0 * (at_ data (t + i - j0) - fitted data (t + i - j0)))) (fun i => hl i * total J (fun j0 => hl j0 * x (Z.of_nat k * b + Z.of_nat t + Z.of_nat i - Z.of_nat j0)%Z) - hl i * total J (fun j0 => hl j0 * (p + q * (INR t + INR i - INR j0))))).
  2: { intros i Hi. rewrite <- Rmult_minus_distr_l. f_equal. rewrite <- total_minus. apply total_ext. intros j0 Hj0. rewrite <- Rmult_minus_distr_l. f_equal. unfold data at 1. rewrite at_cut by (unfold t; lia). f_equal.
       - f_equal. unfold t. lia.
       - unfold fitted, p, q. rewrite minus_INR, plus_INR by (unfold t; lia). ring. }
  rewrite total_minus, two_pass_line. unfold clean, two_sided. f_equal.
  - apply total_ext. intros i Hi. f_equal. apply total_ext. intros j0 Hj0. f_equal. f_equal. unfold t. lia.
  - fold g. rewrite INR_IZR_INZ. unfold t. rewrite Z2Nat.id by lia. rewrite mult_IZR. ring.
Qed.
Lemma line_bound j : (0 <= Z.of_nat k * j < n)%Z -> Rabs (p + q * (IZR (Z.of_nat k) * IZR j)) <= 4 * M.
Proof.
  intros H. pose proof (fitted_bound data M data_two data_bound (Z.to_nat (Z.of_nat k * j))) as Q. rewrite data_length in Q. specialize (Q ltac:(lia)). unfold fitted in Q. rewrite INR_IZR_INZ, Z2Nat.id, mult_IZR in Q by lia.
  replace (p + q * (IZR (Z.of_nat k) * IZR j)) with (mean_of data + slope_of data * (IZR (Z.of_nat k) * IZR j - centre (length data))) by (unfold p, q; ring). exact Q.
Qed.
Lemma both_inside : Rabs (at_ (decimated_filter w lp bp k data) (Z.to_nat s) - both_filters hl hb J J' k x (b + s)) <= 80 * M * A * A * A' * E' + 10 * M * A * E * A' * A' + 4 * M * A * A * E' * E'.
Proof.
  pose proof n_pos as Np. pose proof out_pos as No. pose proof M_pos as PM. pose proof Hs as (S1 & S2 & S3). fold n' in S1. destruct Hb as (HA' & HE' & H0'). pose proof Hl as (HA & HE).
  assert (PA : 0 <= A) by exact (HA O). assert (PE : 0 <= E) by exact (HE O). assert (PA' : 0 <= A') by exact (HA' O). assert (PE' : 0 <= E') by exact (HE' O).
  assert (H20 : (0 <= n' / 20)%Z) by (apply Z.div_pos; lia). unfold settling in S1. assert (D : Z.of_nat (Z.to_nat n' / 20) = (n' / 20)%Z) by (rewrite Nat2Z.inj_div, Z2Nat.id by lia; reflexivity).
  set (t := Z.to_nat s). assert (Et : Z.of_nat t = s) by (unfold t; lia).
  assert (C2 : (2 <= length c)%nat) by (rewrite c_length; lia).
  pose proof (chain_inside w bp c (A * (A * (5 * M))) A' E' J' C2 c_bound Hw HA' HE' H0' t) as Q. rewrite c_length in Q. specialize (Q ltac:(lia) ltac:(lia)). fold hb in Q.
  change (pre_filter w bp c) with (decimated_filter w lp bp k data) in Q. set (out := at_ (decimated_filter w lp bp k data) t) in *.
  set (line := fun u : Z => g * (p + q * (IZR (Z.of_nat k) * IZR u))). set (err := fun u : Z => at_ c (Z.to_nat u) - (clean (b + u) - line u)).
  assert (Ec : total J' (fun i => hb i * total J' (fun j => hb j * at_ c (t + i - j))) = two_sided hb J' (fun u => at_ c (Z.to_nat u)) s).
  { unfold two_sided. apply total_ext. intros i Hi. f_equal. apply total_ext. intros j Hj. f_equal. f_equal. lia. }
  rewrite Ec in Q.
  assert (Ed : two_sided hb J' (fun u => at_ c (Z.to_nat u)) s = two_sided hb J' (fun u => clean (b + u)) s - two_sided hb J' line s + two_sided hb J' err s).
  { rewrite <- two_sided_minus. replace (two_sided hb J' (fun u => at_ c (Z.to_nat u)) s) with (two_sided hb J' (fun u => (clean (b + u) - line u) - - err u) s).
    - rewrite two_sided_minus. replace (two_sided hb J' (fun u => - err u) s) with (- two_sided hb J' err s); [ring|]. unfold two_sided. replace (- total J' (fun i => hb i * total J' (fun j => hb j * err (s + Z.of_nat i - Z.of_nat j)%Z))) with ((-1) * total J' (fun i => hb i * total J' (fun j => hb j * err (s + Z.of_nat i - Z.of_nat j)%Z))) by ring. rewrite <- total_scal. apply total_ext. intros i _. replace (total J' (fun j => hb j * - err (s + Z.of_nat i - Z.of_nat j)%Z)) with ((-1) * total J' (fun j => hb j * err (s + Z.of_nat i - Z.of_nat j)%Z)); [ring|]. rewrite <- total_scal. apply total_ext. intros j _. ring.
    - apply two_sided_cong. intros i j _ _. unfold err. ring. }
  assert (Eb : two_sided hb J' (fun u => clean (b + u)) s = both_filters hl hb J J' k x (b + s)).
  { unfold both_filters, two_sided at 1 2. apply total_ext. intros i _. f_equal. apply total_ext. intros j _. f_equal. unfold clean. f_equal. lia. }
  assert (Bl : Rabs (two_sided hb J' line s) <= 4 * M * A * A * E' * E').
  { replace (two_sided hb J' line s) with (two_sided hb J' (fun u => g * p + (g * q * IZR (Z.of_nat k)) * IZR u) s) by (apply two_sided_cong; intros; unfold line; ring). rewrite two_sided_line.
    replace (g * p + g * q * IZR (Z.of_nat k) * IZR s) with (g * (p + q * (IZR (Z.of_nat k) * IZR s))) by ring. rewrite !Rabs_mult.
    assert (G : Rabs g <= A * A). { unfold g. rewrite Rabs_mult. assert (Rabs (total J hl) <= A) by (eapply Rle_trans; [apply total_abs|apply HA]). apply Rmult_le_compat; try apply Rabs_pos; assumption. }
    assert (L : Rabs (p + q * (IZR (Z.of_nat k) * IZR s)) <= 4 * M). { apply line_bound. unfold settling in *. assert (0 <= n / 20)%Z by (apply Z.div_pos; lia). assert (Z.of_nat k * (s - Z.of_nat J') <= Z.of_nat k * s)%Z by (apply Z.mul_le_mono_nonneg_l; lia). assert (Z.of_nat k * s <= Z.of_nat k * (s + Z.of_nat J'))%Z by (apply Z.mul_le_mono_nonneg_l; lia). lia. }
    replace (4 * M * A * A * E' * E') with ((A * A) * (4 * M) * (E' * E')) by ring. apply Rmult_le_compat; [apply Rmult_le_pos; apply Rabs_pos|apply Rmult_le_pos; apply Rabs_pos| |].
    - apply Rmult_le_compat; try apply Rabs_pos; assumption.
    - apply Rmult_le_compat; try apply Rabs_pos; assumption. }
  assert (Be : Rabs (two_sided hb J' err s) <= 10 * M * A * E * A' * A').
  { replace (10 * M * A * E * A' * A') with (A' * (A' * (10 * M * A * E))) by ring. apply two_sided_small; [exact HA'|repeat apply Rmult_le_pos; lra|]. intros i j Hi Hj. unfold err. apply c_inside.
    - eapply Z.le_trans; [exact S2|]. apply Z.mul_le_mono_nonneg_l; lia.
    - eapply Z.le_lt_trans; [|exact S3]. apply Z.mul_le_mono_nonneg_l; lia. }
  rewrite Ed, Eb in Q. set (y := both_filters hl hb J J' k x (b + s)) in *. set (l := two_sided hb J' line s) in *. set (r := two_sided hb J' err s) in *.
  replace (out - y) with ((out - (y - l + r)) + (- l) + r) by ring. eapply Rle_trans; [apply Rabs_triang|]. eapply Rle_trans; [apply Rplus_le_compat_r, Rabs_triang|]. rewrite Rabs_Ropp.
  replace (80 * M * A * A * A' * E') with (16 * (A * (A * (5 * M))) * A' * E') by ring. lra.
Qed.
End Both.

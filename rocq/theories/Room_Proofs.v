From Coq Require Import String.
From Coq Require Import List ZArith Reals Lia Lra.
From Verif Require Import Lib LibFacts PyDict Migrate_Spec Timeline_Model Timeline_Spec Onset_Model Onset_Spec Resample_Spec StaLta_Spec Window_Spec Near_Spec Chain_Model Chain_Spec Chain_Proofs Room_Spec.
From Verif Require Timeline_Proofs.
Import ListNotations.
Open Scope Z_scope.

Lemma pads_core c windows ts ttmax reach pre post n sta lta J :
  clock_ok c -> integer_rate c -> whole_ms c -> 3 * delta c <= sec c -> 0 < ts -> Forall (fun w => 0 <= fst w /\ 0 <= snd w) windows -> In (sta, lta) windows -> 0 <= reach -> reach * delta c <= ttmax ->
  onset_pad c ts (stalta_pre_pad windows) (stalta_post_pad c windows ttmax) = (pre, post) -> 0 <= n -> n * delta c <= ts + pre + post + delta c -> 1 <= stw_samples c sta < ltw_samples c lta -> 0 <= J ->
  (exists w, In w windows /\ 250 * (J + 1) * delta c <= 750 * fst w + ts) -> (exists w, In w windows /\ 250 * (J + 2) * delta c <= 250 * snd w + ts) ->
  ltw_samples c lta - 1 + (n / 20 + J) <= time2sample c pre /\ reach + stw_samples c sta + (n / 20 + J) <= time2sample c post.
Proof.
  intros Ck Ir Ms D3 Ts Hw Iw Re0 Re Ep Hn0 Hn Hnn J0 (w1 & I1 & R1) (w2 & I2 & R2). pose proof (Timeline_Proofs.delta_pos c Ck) as Dp. set (D := delta c) in *.
  destruct (Timeline_Proofs.windows_facts windows _ _ Iw Hw) as (W1 & W2 & W3 & W4). destruct (Timeline_Proofs.windows_nonneg windows Hw) as (W5 & W6). destruct w1 as (s1, l1), w2 as (s2, l2). cbn [fst snd] in R1, R2.
  destruct (Timeline_Proofs.windows_facts windows _ _ I1 Hw) as (_ & _ & X1 & _). destruct (Timeline_Proofs.windows_facts windows _ _ I2 Hw) as (_ & _ & _ & X2).
  pose proof (Timeline_Proofs.stalta_post_ge c Ck windows ttmax) as Pq. set (Q := stalta_post_pad c windows ttmax) in *.
  unfold stalta_pre_pad in *. set (sm := zmax (map fst windows)) in *. set (lm := zmax (map snd windows)) in *. set (P := lm + 3 * sm) in *. unfold onset_pad in Ep. cbv zeta in Ep.
  assert (T0 : 0 <= ttmax) by (pose proof (Z.mul_nonneg_nonneg reach D Re0 ltac:(lia)); lia).
  set (T := cdiv ((ts + (P + Q)) * 6) (100 * sec c) * sec c) in *. assert (HT : 6 * (ts + P + Q) <= 100 * T /\ sec c <= T).
  { assert (Sc : 0 < sec c) by lia. pose proof (Timeline_Proofs.cdiv_spec ((ts + (P + Q)) * 6) (100 * sec c) ltac:(lia)) as C1. pose proof (Timeline_Proofs.cdiv_pos ((ts + (P + Q)) * 6) (100 * sec c) ltac:(lia) ltac:(lia)) as C2. unfold T. split; [lia|]. assert (1 * sec c <= cdiv ((ts + (P + Q)) * 6) (100 * sec c) * sec c) by (apply Z.mul_le_mono_nonneg_r; lia). lia. }
  injection Ep as E1 E2. rewrite (Timeline_Proofs.trim2sample_whole c Ck) in E1, E2 by (assumption || lia). fold D in E1, E2. clearbody T Q.
  pose proof (Timeline_Proofs.cdiv_spec (P + T) D Dp) as C1. pose proof (Timeline_Proofs.cdiv_spec (Q + T) D Dp) as C2. set (a := cdiv (P + T) D) in *. set (b := cdiv (Q + T) D) in *. clearbody a b.
  assert (Ta : time2sample c pre = a) by (rewrite <- E1, (Timeline_Proofs.time2sample_rate c Ck _ Ir); apply Timeline_Proofs.rnd_he_mul; exact Dp).
  assert (Tb : time2sample c post = b) by (rewrite <- E2, (Timeline_Proofs.time2sample_rate c Ck _ Ir); apply Timeline_Proofs.rnd_he_mul; exact Dp). rewrite Ta, Tb.
  set (v := n / 20). assert (V : 20 * v <= n) by (apply Z.mul_div_le; lia). assert (VD : 20 * (v * D) <= n * D) by (rewrite Z.mul_assoc; apply Z.mul_le_mono_nonneg_r; lia).
  assert (Key : 250 * (v * D) + ts <= 250 * T + 250 * D) by lia.
  assert (Rn : forall t N, t <= N * D -> time2sample c t <= N). { intros t N Ht. rewrite (Timeline_Proofs.time2sample_rate c Ck t Ir). fold D. rewrite <- (Timeline_Proofs.rnd_he_mul N D Dp). apply Timeline_Proofs.rnd_he_mono; [exact Dp|exact Ht]. }
  unfold stw_samples, ltw_samples in *. replace (250 * (J + 1) * D) with (250 * (J * D) + 250 * D) in R1 by ring. replace (250 * (J + 2) * D) with (250 * (J * D) + 500 * D) in R2 by ring. split.
  - assert (time2sample c lta <= a - v - J); [|lia]. apply Rn. rewrite !Z.mul_sub_distr_r. lia.
  - assert (Rl : 2 * (time2sample c lta * D) <= 2 * lta + D) by (rewrite (Timeline_Proofs.time2sample_rate c Ck _ Ir); fold D; pose proof (Timeline_Proofs.rnd_he_nearest lta D Dp) as N; unfold Timeline_Spec.nearest in N; lia).
    set (s := time2sample c sta) in *. set (t := time2sample c lta) in *. assert ((s + 1) * D <= t * D) by (apply Z.mul_le_mono_nonneg_r; lia).
    apply (Z.mul_le_mono_pos_r _ _ D Dp). rewrite !Z.mul_add_distr_r in *. lia.
Qed.

(** A sample of [f] in a window of non-negative samples. *)
Lemma window_mean_ge (f : Z -> R) s n t : 0 < n -> s <= t < s + n -> (forall j, s <= j < s + n -> (0 <= f j)%R) -> (f t / IZR n <= window_mean f s n)%R.
Proof.
  intros Hn Ht Hf. unfold window_mean, Rdiv. apply Rmult_le_compat_r; [left; apply Rinv_0_lt_compat, IZR_lt; exact Hn|].
  assert (G : forall m s, s <= t < s + Z.of_nat m -> (forall j, s <= j < s + Z.of_nat m -> (0 <= f j)%R) -> (f t <= Rsum (map f (zseq s m)))%R).
  { clear. induction m as [|m IH]; intros s Ht Hf; [lia|]. cbn [zseq map]. unfold Rsum in *. cbn [fold_right]. destruct (Z.eq_dec s t) as [->|N].
    - assert (P : forall l, (forall j, In j l -> (0 <= f j)%R) -> (0 <= fold_right Rplus 0 (map f l))%R) by (induction l as [|j l IHl]; intros H; cbn; [lra|]; pose proof (H j (or_introl eq_refl)); pose proof (IHl (fun i Hi => H i (or_intror Hi))); lra).
      pose proof (P (zseq (t + 1) m)) as Q. assert ((0 <= fold_right Rplus 0 (map f (zseq (t + 1) m)))%R); [|lra]. apply Q. intros j Hj. apply Hf. apply in_zseq in Hj. lia.
    - pose proof (Hf s ltac:(lia)). assert (f t <= fold_right Rplus 0 (map f (zseq (s + 1) m)))%R; [|lra]. apply IH; [lia|]. intros j Hj. apply Hf. lia. }
  apply G; [lia|]. intros j Hj. apply Hf. lia.
Qed.

(** A cascade of stable sections dies away geometrically; each zero at [z = 1] removes a power of time. *)
From Coq Require Import List ZArith Reals Lra Lia.
From Verif Require Import Lib LibFacts Chain_Model Chain_Spec Chain_Proofs.
Import ListNotations.
Open Scope R_scope.

Definition geo (f : nat -> R) : Prop := exists C rho, 0 <= C /\ 0 < rho < 1 /\ forall n, Rabs (f n) <= C * rho ^ n.
Lemma pow_mono r s n : 0 <= r <= s -> r ^ n <= s ^ n.
Proof. intros H. apply pow_incr. exact H. Qed.
Lemma geo_weaken C rho f s : 0 <= C -> 0 <= rho <= s -> (forall n, Rabs (f n) <= C * rho ^ n) -> forall n, Rabs (f n) <= C * s ^ n.
Proof. intros HC H G n. eapply Rle_trans; [apply G|]. apply Rmult_le_compat_l; [exact HC|]. apply pow_mono. exact H. Qed.
Lemma geo_ext f g : (forall n, f n = g n) -> geo f -> geo g.
Proof. intros E (C & r & HC & Hr & H). exists C, r. repeat split; try tauto. intros n. rewrite <- E. apply H. Qed.
Lemma geo_two f g : geo f -> geo g -> exists C D rho, 0 <= C /\ 0 <= D /\ 0 < rho < 1 /\ (forall n, Rabs (f n) <= C * rho ^ n) /\ (forall n, Rabs (g n) <= D * rho ^ n).
Proof.
  intros (C & r & HC & Hr & Hf) (D & s & HD & Hs & Hg). exists C, D, (Rmax r s). split; [exact HC|]. split; [exact HD|]. pose proof (Rmax_l r s). pose proof (Rmax_r r s).
  split; [split; [lra|apply Rmax_lub_lt; lra]|]. split; [apply (geo_weaken C r)|apply (geo_weaken D s)]; try assumption; lra.
Qed.
(** A factor [n + 1] does not matter. *)
Lemma geo_linear C rho : 0 <= C -> 0 < rho < 1 -> exists K s, 0 <= K /\ 0 < s < 1 /\ forall n, C * (INR n + 1) * rho ^ n <= K * s ^ n.
Proof.
  intros HC H. set (s := (1 + rho) / 2). set (k := rho / s). assert (Hs : 0 < s < 1) by (unfold s; lra).
  assert (Hk : 0 <= k < 1). { unfold k. split; [apply Rmult_le_pos; [lra|apply Rlt_le, Rinv_0_lt_compat; lra]|]. apply (Rmult_lt_reg_r s); [lra|]. unfold Rdiv. rewrite Rmult_assoc, Rinv_l by lra. unfold s. lra. }
  set (K := k * / (1 - k) * / (1 - k)). assert (HK : forall J, INR J * k ^ J <= K).
  { intros J. eapply Rle_trans; [|apply (total_ipow k (S J) Hk)]. cbn [total]. assert (0 <= total J (fun i => INR i * k ^ i)); [|lra]. apply total_pos. intros j _. apply Rmult_le_pos; [apply pos_INR|apply pow_le; lra]. }
  assert (K0 : 0 <= K) by (pose proof (HK O) as Q; cbn in Q; lra). exists (C * (K + 1)), s. split; [apply Rmult_le_pos; lra|]. split; [exact Hs|]. intros n.
  assert (Er : rho ^ n = k ^ n * s ^ n) by (rewrite <- Rpow_mult_distr; f_equal; unfold k; field; lra). rewrite Er. rewrite !Rmult_assoc. apply Rmult_le_compat_l; [exact HC|].
  rewrite <- Rmult_assoc. apply Rmult_le_compat_r; [apply pow_le; lra|]. assert (k ^ n <= 1) by (rewrite <- (pow1 n); apply pow_mono; lra). pose proof (HK n). lra.
Qed.
Lemma geo_index f : geo f -> geo (fun n => INR n * f n).
Proof.
  intros (C & r & HC & Hr & Hf). destruct (geo_linear C r HC Hr) as (K & s & HK & Hs & H). exists K, s. split; [exact HK|]. split; [exact Hs|]. intros n. eapply Rle_trans; [|apply H].
  rewrite Rabs_mult, (Rabs_pos_eq (INR n)) by apply pos_INR. pose proof (pos_INR n). pose proof (Hf n). pose proof (Rabs_pos (f n)). pose proof (pow_lt r n (proj1 Hr)).
  apply Rle_trans with (INR n * (C * r ^ n)); [apply Rmult_le_compat_l; assumption|]. assert (0 <= C * r ^ n) by (apply Rmult_le_pos; lra). lra.
Qed.
Lemma geo_minus f g : geo f -> geo g -> geo (fun n => f n - g n).
Proof.
  intros F G. destruct (geo_two f g F G) as (C & D & r & HC & HD & Hr & Hf & Hg). exists (C + D), r. split; [lra|]. split; [exact Hr|]. intros n. unfold Rminus. eapply Rle_trans; [apply Rabs_triang|].
  rewrite Rabs_Ropp. pose proof (Hf n). pose proof (Hg n). lra.
Qed.
Lemma geo_later f : geo (fun n => f (S n)) -> geo f.
Proof.
  intros (C & r & HC & Hr & H). exists (Rabs (f O) + C / r), r. assert (0 <= C / r) by (apply Rmult_le_pos; [exact HC|apply Rlt_le, Rinv_0_lt_compat; lra]). pose proof (Rabs_pos (f O)). split; [lra|]. split; [exact Hr|].
  intros [|n]; [cbn [pow]; lra|]. eapply Rle_trans; [apply H|]. cbn [pow]. replace (C * r ^ n) with (C / r * (r * r ^ n)) by (field; lra). pose proof (pow_lt r n (proj1 Hr)). apply Rmult_le_compat_r; [apply Rmult_le_pos; lra|lra].
Qed.
Lemma geo_vanishes f : geo f -> Un_cv f 0.
Proof.
  intros (C & r & HC & Hr & H) eps He. destruct (pow_lt_1_zero r) with (y := eps / (C + 1)) as (N & HN); [rewrite Rabs_pos_eq; lra|apply Rdiv_lt_0_compat; lra|].
  exists N. intros n Hn. unfold R_dist. rewrite Rminus_0_r. specialize (HN n Hn). pose proof (pow_lt r n (proj1 Hr)) as P. rewrite Rabs_pos_eq in HN by lra. eapply Rle_lt_trans; [apply H|].
  apply Rle_lt_trans with ((C + 1) * r ^ n); [apply Rmult_le_compat_r; lra|]. apply (Rmult_lt_compat_l (C + 1)) in HN; [|lra]. replace ((C + 1) * (eps / (C + 1))) with eps in HN by (field; lra). exact HN.
Qed.

(** * Convolutions and running sums *)
Definition conv (f g : nat -> R) (n : nat) : R := total (S n) (fun i => f i * g (n - i)%nat).
Definition cumul (f : nat -> R) (n : nat) : R := total (S n) f.
Lemma conv_comm f g n : conv f g n = conv g f n.
Proof. unfold conv. rewrite total_rev. apply total_ext. intros j Hj. replace (S n - 1 - j)%nat with (n - j)%nat by lia. replace (n - (n - j))%nat with j by lia. ring. Qed.
Lemma geo_conv f g : geo f -> geo g -> geo (conv f g).
Proof.
  intros F G. destruct (geo_two f g F G) as (C & D & r & HC & HD & Hr & Hf & Hg). destruct (geo_linear (C * D) r) as (K & s & HK & Hs & H); [apply Rmult_le_pos; assumption|exact Hr|].
  exists K, s. split; [exact HK|]. split; [exact Hs|]. intros n. eapply Rle_trans; [|apply H]. unfold conv. eapply Rle_trans; [apply total_abs|].
  apply Rle_trans with (total (S n) (fun _ => C * D * r ^ n)).
  - apply total_le. intros i Hi. rewrite Rabs_mult. replace (C * D * r ^ n) with ((C * r ^ i) * (D * r ^ (n - i))).
    2: { replace (r ^ n) with (r ^ i * r ^ (n - i)) by (rewrite <- pow_add; f_equal; lia). ring. }
    apply Rmult_le_compat; try apply Rabs_pos; [apply Hf|apply Hg].
  - rewrite total_const, S_INR. right. ring.
Qed.
Lemma cumul_conv f g n : cumul (conv f g) n = conv (cumul f) g n.
Proof.
  induction n as [|n IH]; [unfold cumul, conv; cbn; ring|]. change (cumul (conv f g) (S n)) with (cumul (conv f g) n + conv f g (S n)). rewrite IH. clear IH. unfold conv at 2 3.
  rewrite (total_first (S n) (fun i => f i * g (S n - i)%nat)), (total_first (S n) (fun i => cumul f i * g (S n - i)%nat)). unfold conv.
  rewrite (total_ext (S n) (fun j => cumul f (S j) * g (S n - S j)%nat) (fun j => cumul f j * g (n - j)%nat + f (S j) * g (n - j)%nat)).
  2: { intros j _. change (cumul f (S j)) with (cumul f j + f (S j)). replace (S n - S j)%nat with (n - j)%nat by lia. ring. }
  rewrite total_plus. rewrite (total_ext (S n) (fun j => f (S j) * g (S n - S j)%nat) (fun j => f (S j) * g (n - j)%nat)) by (intros; reflexivity). change (cumul f 0) with (0 + f O). ring.
Qed.
Fixpoint cumuls (k : nat) (f : nat -> R) : nat -> R := match k with O => f | S j => cumuls j (cumul f) end.
Lemma cumul_ext f g : (forall n, f n = g n) -> forall n, cumul f n = cumul g n.
Proof. intros H n. apply total_ext. intros; apply H. Qed.
Lemma conv_ext f f' g g' : (forall n, f n = f' n) -> (forall n, g n = g' n) -> forall n, conv f g n = conv f' g' n.
Proof. intros H G n. apply total_ext. intros. rewrite H, G. reflexivity. Qed.
Lemma cumuls_ext k : forall f g, (forall n, f n = g n) -> forall n, cumuls k f n = cumuls k g n.
Proof. induction k as [|k IH]; intros f g H n; [apply H|]. cbn [cumuls]. apply IH. apply cumul_ext. exact H. Qed.
Lemma cumuls_conv_l k : forall f g n, cumuls k (conv f g) n = conv (cumuls k f) g n.
Proof. induction k as [|k IH]; intros f g n; [reflexivity|]. cbn [cumuls]. rewrite (cumuls_ext k _ (conv (cumul f) g)) by (intros; apply cumul_conv). apply IH. Qed.
Lemma cumuls_conv j k f g n : cumuls (j + k) (conv f g) n = conv (cumuls j f) (cumuls k g) n.
Proof.
  revert f g n. induction j as [|j IH]; intros f g n; cbn [plus cumuls].
  - rewrite (cumuls_ext k _ (conv g f)) by (intros; apply conv_comm). rewrite cumuls_conv_l. apply conv_comm.
  - rewrite (cumuls_ext (j + k) _ (conv (cumul f) g)) by (intros; apply cumul_conv). apply IH.
Qed.

(** The response and its first [k] running sums die away. *)
Definition order (h : nat -> R) (k : nat) : Prop := forall j, (j <= k)%nat -> geo (cumuls j h).
Lemma order_ext h g k : (forall n, h n = g n) -> order h k -> order g k.
Proof. intros E H j Hj. apply (geo_ext (cumuls j h)); [apply cumuls_ext; exact E|apply H; exact Hj]. Qed.
Lemma order_conv f g j k : order f j -> order g k -> order (conv f g) (j + k).
Proof.
  intros F G i Hi. set (p := Nat.min i j). apply (geo_ext (conv (cumuls p f) (cumuls (i - p) g))).
  - intros n. rewrite <- cumuls_conv. f_equal. unfold p. lia.
  - apply geo_conv; [apply F; unfold p; lia|apply G; unfold p; lia].
Qed.
Lemma order_band_pass h : order h 1 -> exists C rho, band_pass h C rho.
Proof.
  intros H. destruct (H 0%nat ltac:(lia)) as (C & r & HC & Hr & G0). pose proof (H 1%nat ltac:(lia)) as G1. cbn [cumuls] in *. exists C, r. split; [lra|]. split; [exact G0|].
  apply geo_vanishes. apply geo_later. exact G1.
Qed.

(** * One section *)
Fixpoint free (s : section_) (z1 z2 : R) (n : nat) : R := match n with O => z1 | S k => free s (- a1 s * z1 + z2) (- a2 s * z1) k end.
Lemma free_run s : forall n z1 z2 m, (n < m)%nat -> at_ (section_run s z1 z2 (repeat 0 m)) n = free s z1 z2 n.
Proof.
  induction n as [|n IH]; intros z1 z2 [|m] H; try lia; cbn [repeat section_run]; unfold at_ in *; cbn [nth free]; [ring|]. rewrite IH by lia. f_equal; ring.
Qed.
Lemma section_response s : response (section_run s 0 0) 0 = b0 s /\ forall n, response (section_run s 0 0) (S n) = free s (b1 s - a1 s * b0 s) (b2 s - a2 s * b0 s) n.
Proof.
  split; [unfold response; cbn; ring|]. intros n. unfold response. cbn [section_run nth]. rewrite <- (free_run s n _ _ (S n)) by lia. unfold at_. f_equal. f_equal; ring.
Qed.
Lemma free_next s : forall n z1 z2, free s z1 z2 (S (S n)) = - a1 s * free s z1 z2 (S n) - a2 s * free s z1 z2 n.
Proof. induction n as [|n IH]; intros z1 z2; [cbn; ring|]. change (free s z1 z2 (S (S (S n)))) with (free s (- a1 s * z1 + z2) (- a2 s * z1) (S (S n))). rewrite IH. reflexivity. Qed.
Lemma free_linear s : forall n u1 u2 v1 v2, free s (u1 - v1) (u2 - v2) n = free s u1 u2 n - free s v1 v2 n.
Proof. induction n as [|n IH]; intros; cbn [free]; [reflexivity|]. rewrite <- IH. f_equal; ring. Qed.
Lemma free_geo s z1 z2 : stable s -> geo (free s z1 z2).
Proof.
  intros [[H1 H2]|(r1 & r2 & H1 & H2 & E1 & E2)]; set (g := free s z1 z2).
  - set (V := fun n => g (S n) * g (S n) + a1 s * g (S n) * g n + a2 s * g n * g n).
    assert (P2 : 0 < a2 s) by (pose proof (Rle_0_sqr (a1 s)) as Q; unfold Rsqr in Q; lra).
    assert (EV : forall n, V n = V O * a2 s ^ n). { induction n as [|n IH]; [cbn; ring|]. cbn [pow]. replace (V 0%nat * (a2 s * a2 s ^ n)) with (a2 s * (V O * a2 s ^ n)) by ring. rewrite <- IH. unfold V, g. rewrite free_next. ring. }
    set (c := a2 s - a1 s * a1 s / 4). assert (Pc : 0 < c) by (unfold c; lra).
    assert (LV : forall n, c * (g n * g n) <= V n). { intros n. unfold V, c. assert (Q := Rle_0_sqr (g (S n) + a1 s / 2 * g n)). unfold Rsqr in Q. lra. }
    assert (V0 : 0 <= V O). { eapply Rle_trans; [|apply LV]. apply Rmult_le_pos; [lra|]. pose proof (Rle_0_sqr (g O)) as Q. exact Q. }
    assert (Q0 : 0 <= V O / c) by (apply Rmult_le_pos; [exact V0|apply Rlt_le, Rinv_0_lt_compat; exact Pc]).
    exists (sqrt (V O / c)), (sqrt (a2 s)). split; [apply sqrt_pos|]. split; [split; [apply sqrt_lt_R0; exact P2|rewrite <- sqrt_1; apply sqrt_lt_1; lra]|]. intros n.
    assert (Ps : 0 <= sqrt (a2 s) ^ n) by (apply pow_le, sqrt_pos). apply Rsqr_incr_0; [|apply Rabs_pos|apply Rmult_le_pos; [apply sqrt_pos|exact Ps]].
    rewrite <- Rsqr_abs. rewrite Rsqr_mult, Rsqr_sqrt by exact Q0. assert (S1 : Rsqr (sqrt (a2 s) ^ n) = a2 s ^ n) by (unfold Rsqr; rewrite <- Rpow_mult_distr, sqrt_sqrt by lra; reflexivity). rewrite S1.
    apply (Rmult_le_reg_l c); [exact Pc|]. eapply Rle_trans; [apply LV|]. rewrite EV. right. field. lra.
  - pose proof (Rabs_pos r1). pose proof (Rabs_pos r2). set (rho := (1 + Rmax (Rabs r1) (Rabs r2)) / 2). pose proof (Rmax_l (Rabs r1) (Rabs r2)) as M1. pose proof (Rmax_r (Rabs r1) (Rabs r2)) as M2.
    assert (M3 : Rmax (Rabs r1) (Rabs r2) < 1) by (apply Rmax_lub_lt; assumption). assert (R1 : Rabs r1 < rho) by (unfold rho; lra). assert (R2 : Rabs r2 < rho) by (unfold rho; lra). assert (Hr : 0 < rho < 1) by (unfold rho; lra).
    set (d := fun n => g (S n) - r1 * g n). assert (Ed : forall n, d n = r2 ^ n * d O). { induction n as [|n IH]; [cbn; ring|]. cbn [pow]. replace (r2 * r2 ^ n * d 0%nat) with (r2 * (r2 ^ n * d O)) by ring. rewrite <- IH. unfold d, g. rewrite free_next, E1, E2. ring. }
    set (D := Rabs (d O)). assert (D0 : 0 <= D) by apply Rabs_pos. assert (Dn : forall n, Rabs (d n) <= D * rho ^ n). { intros n. rewrite Ed, Rabs_mult, <- RPow_abs. fold D. rewrite Rmult_comm. apply Rmult_le_compat_l; [exact D0|]. apply pow_mono. lra. }
    set (K := Rabs (g O) + D / (rho - Rabs r1)). assert (P : 0 <= D / (rho - Rabs r1)) by (apply Rmult_le_pos; [exact D0|apply Rlt_le, Rinv_0_lt_compat; lra]). pose proof (Rabs_pos (g O)).
    exists K, rho. split; [unfold K; lra|]. split; [exact Hr|]. induction n as [|n IH]; [cbn [pow]; unfold K; lra|].
    assert (Ex : g (S n) = r1 * g n + d n) by (unfold d; ring). rewrite Ex. eapply Rle_trans; [apply Rabs_triang|]. rewrite Rabs_mult. pose proof (Dn n) as Q. pose proof (pow_lt rho n (proj1 Hr)) as Pn.
    assert (Rabs r1 * Rabs (g n) <= Rabs r1 * (K * rho ^ n)) by (apply Rmult_le_compat_l; assumption).
    assert (KD : D <= K * (rho - Rabs r1)). { unfold K. rewrite Rmult_plus_distr_r. replace (D / (rho - Rabs r1) * (rho - Rabs r1)) with D by (field; lra). assert (0 <= Rabs (g O) * (rho - Rabs r1)) by (apply Rmult_le_pos; lra). lra. }
    apply (Rmult_le_compat_r (rho ^ n)) in KD; [|lra]. cbn [pow]. lra.
Qed.
Lemma section_geo s : stable s -> geo (response (section_run s 0 0)).
Proof. intros H. destruct (section_response s) as [_ R]. apply geo_later. apply (geo_ext (free s (b1 s - a1 s * b0 s) (b2 s - a2 s * b0 s))); [intros n; symmetry; apply R|]. apply free_geo. exact H. Qed.
(** A zero at [z = 1]: the running sum is the response of the section without it. *)
Definition less (s : section_) : section_ := mk_section (b0 s) (b0 s + b1 s) 0 (a1 s) (a2 s).
Lemma free_less s z1 z2 n : free (less s) z1 z2 n = free s z1 z2 n.
Proof. revert z1 z2. induction n as [|n IH]; intros; [reflexivity|]. cbn [free]. rewrite IH. reflexivity. Qed.
Lemma cumul_less s : b0 s + b1 s + b2 s = 0 -> forall n, cumul (response (section_run s 0 0)) n = response (section_run (less s) 0 0) n.
Proof.
  intros Z. destruct (section_response s) as [R0 RS]. destruct (section_response (less s)) as [L0 LS]. cbn [less b0 b1 b2 a1 a2] in L0, LS. assert (B2 : b2 s = - b0 s - b1 s) by lra.
  induction n as [|n IH]; [unfold cumul; cbn [total]; rewrite R0, L0; ring|]. change (cumul (response (section_run s 0 0)) (S n)) with (cumul (response (section_run s 0 0)) n + response (section_run s 0 0) (S n)). rewrite IH, RS, LS, free_less.
  destruct n as [|n]; [rewrite L0; cbn [free]; ring|]. rewrite LS, free_less. cbn [free]. set (z1 := b0 s + b1 s - a1 s * b0 s). set (z2 := 0 - a2 s * b0 s).
  change (free s z1 z2 n + free s (- a1 s * (b1 s - a1 s * b0 s) + (b2 s - a2 s * b0 s)) (- a2 s * (b1 s - a1 s * b0 s)) n = free s (- a1 s * z1 + z2) (- a2 s * z1) n).
  assert (E : free s (- a1 s * (b1 s - a1 s * b0 s) + (b2 s - a2 s * b0 s)) (- a2 s * (b1 s - a1 s * b0 s)) n = free s (- a1 s * z1 + z2 - z1) (- a2 s * z1 - z2) n) by (f_equal; unfold z1, z2; rewrite ?B2; ring).
  rewrite E, free_linear. ring.
Qed.
Lemma section_order_one s : stable s -> b0 s + b1 s + b2 s = 0 -> order (response (section_run s 0 0)) 1.
Proof.
  intros H Z j Hj. destruct j as [|[|j]]; [apply section_geo; exact H| |lia]. cbn [cumuls]. apply (geo_ext (response (section_run (less s) 0 0))); [intros; symmetry; apply cumul_less; exact Z|]. apply section_geo. exact H.
Qed.
Lemma section_order_two s : stable s -> b0 s + b1 s + b2 s = 0 -> b1 s + 2 * b2 s = 0 -> order (response (section_run s 0 0)) 2.
Proof.
  intros H Z Z' j Hj. destruct j as [|[|[|j]]]; [apply (section_order_one s H Z 0%nat); lia|apply (section_order_one s H Z 1%nat); lia| |lia]. cbn [cumuls].
  apply (geo_ext (response (section_run (less (less s)) 0 0))).
  - intros n. rewrite <- (cumul_less (less s)) by (cbn; lra). apply cumul_ext. intros m. symmetry. apply cumul_less. exact Z.
  - apply section_geo. exact H.
Qed.

(** * The cascade *)
Lemma response_compose F G : causal F -> causal G -> forall n, response (fun x => G (F x)) n = conv (response G) (response F) n.
Proof.
  intros HF HG n. unfold response at 1. change (nth n (G (F (1 :: repeat 0 n))) 0) with (at_ (G (F (1 :: repeat 0 n))) n).
  rewrite (causal_convolution G _ HG) by (rewrite (ca_length F HF); cbn; rewrite repeat_length; lia). apply total_ext. intros i Hi. f_equal. apply causal_impulse; [exact HF|lia].
Qed.
Lemma order_id : order (response (fun x => x)) 0.
Proof.
  intros j Hj. replace j with O by lia. cbn [cumuls]. exists 1, (1 / 2). split; [lra|]. split; [lra|]. intros [|n]; [cbn; rewrite Rabs_R1; lra|]. unfold response. cbn [nth].
  assert (E : nth n (repeat 0 (S n)) 0 = 0) by apply nth_repeat. rewrite E, Rabs_R0. apply Rmult_le_pos; [lra|]. apply pow_le. lra.
Qed.
Lemma order_sosfilt sos k : Forall stable sos -> zeros sos k -> order (response (sosfilt sos)) k.
Proof.
  intros HS HZ. unfold sosfilt. enough (G : forall F j, causal F -> order (response F) j -> order (response (fun x => fold_left (fun d s => section_run s 0 0 d) sos (F x))) (k + j)).
  { pose proof (G _ 0%nat causal_id order_id) as Q. rewrite Nat.add_0_r in Q. exact Q. }
  assert (St : forall s F i j, causal F -> order (response (section_run s 0 0)) i -> order (response F) j -> order (response (fun x => section_run s 0 0 (F x))) (i + j)).
  { intros s F i j HF H1 H2. apply (order_ext (conv (response (section_run s 0 0)) (response F))); [intros; symmetry; apply response_compose; [exact HF|apply causal_section]|]. apply order_conv; assumption. }
  induction HZ as [|s l k HZ IH|s l k Z HZ IH|s l k Z Z' HZ IH]; intros F j HF HO; cbn [fold_left]; [exact HO| | |]; inversion HS as [|? ? Hs Hl]; subst.
  - apply (IH Hl (fun x => section_run s 0 0 (F x)) j); [apply causal_compose; [exact HF|apply causal_section]|]. apply (St s F 0%nat j HF); [|exact HO]. intros i Hi. replace i with O by lia. apply section_geo. exact Hs.
  - replace (S k + j)%nat with (k + (1 + j))%nat by lia. apply (IH Hl (fun x => section_run s 0 0 (F x)) (1 + j)%nat); [apply causal_compose; [exact HF|apply causal_section]|]. apply (St s F 1%nat j HF); [apply section_order_one; assumption|exact HO].
  - replace (S (S k) + j)%nat with (k + (2 + j))%nat by lia. apply (IH Hl (fun x => section_run s 0 0 (F x)) (2 + j)%nat); [apply causal_compose; [exact HF|apply causal_section]|]. apply (St s F 2%nat j HF); [apply section_order_two; assumption|exact HO].
Qed.
Lemma sections_band_pass sos k : Forall stable sos -> zeros sos k -> (1 <= k)%nat -> exists C rho, band_pass (response (sosfilt sos)) C rho.
Proof. intros HS HZ Hk. apply order_band_pass. intros j Hj. apply (order_sosfilt sos k HS HZ). lia. Qed.

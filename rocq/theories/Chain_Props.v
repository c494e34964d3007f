(** C138: away from the ends of a window, the detrending and the taper leave next to nothing behind, and the filtered data do not depend on the window. *)
From Coq Require Import String.
From Coq Require Import List ZArith Reals Lra Lia.
From Verif Require Import Lib LibFacts PyDict Onset_Model Onset_Spec Window_Spec Near_Spec Chain_Model Chain_Spec Chain_Proofs Poles_Proofs.
Import ListNotations.
Open Scope R_scope.

(** The loop over the sections is a convolution with the response to an impulse. *)
Theorem C138_filter_is_its_response :
  forall sos x j, (j < length x)%nat -> nth j (sosfilt sos x) 0 = total (S j) (fun i => response (sosfilt sos) i * nth (j - i) x 0).
Proof. intros sos x j Hj. exact (causal_convolution _ x (causal_sosfilt sos) j Hj). Qed.
Print Assumptions C138_filter_is_its_response.

Theorem C138_processing_partial :
  forall w sos x M A E J a n t, let h := response (sosfilt sos) in
  taper_weights w -> calm h A E J -> (0 < J)%nat -> (forall j, (a <= j < a + n)%Z -> Rabs (x j) <= M) -> (a + settling J n <= t < a + n - settling J n)%Z ->
  Rabs (sample (pre_filter w sos (cut x a n)) (t - a) - two_sided h J x t) <= 16 * M * A * E.
Proof. intros. apply chain_window; assumption. Qed.
Print Assumptions C138_processing_partial.

Theorem C138_window_partial :
  forall w sos x M A E J a n a' n' t, let h := response (sosfilt sos) in
  taper_weights w -> calm h A E J -> (0 < J)%nat -> (forall j, (a <= j < a + n)%Z \/ (a' <= j < a' + n')%Z -> Rabs (x j) <= M) ->
  (a + settling J n <= t < a + n - settling J n)%Z -> (a' + settling J n' <= t < a' + n' - settling J n')%Z ->
  Rabs (sample (pre_filter w sos (cut x a n)) (t - a) - sample (pre_filter w sos (cut x a' n')) (t - a')) <= 32 * M * A * E.
Proof.
  intros w sos x M A E J a n a' n' t h Hw Hc HJ Bx Ht Ht'.
  pose proof (chain_window w sos x M A E J a n t Hw Hc HJ (fun j Hj => Bx j (or_introl Hj)) Ht) as H1. pose proof (chain_window w sos x M A E J a' n' t Hw Hc HJ (fun j Hj => Bx j (or_intror Hj)) Ht') as H2.
  fold h in H1, H2. set (u := sample (pre_filter w sos (cut x a n)) (t - a)) in *. set (u' := sample (pre_filter w sos (cut x a' n')) (t - a')) in *. set (y := two_sided h J x t) in *.
  replace (u - u') with ((u - y) + - (u' - y)) by ring. eapply Rle_trans; [apply Rabs_triang|]. rewrite Rabs_Ropp. lra.
Qed.
Print Assumptions C138_window_partial.

(** With a response that dies away, and a double zero at frequency zero, it suffices to wait. *)
Theorem C138_decaying_filter :
  forall h C rho J, band_pass h C rho -> calm h (C * / (1 - rho)) (leftover C rho J) J.
Proof. exact band_pass_calm. Qed.
Print Assumptions C138_decaying_filter.
Theorem C138_any_accuracy_partial :
  forall w sos x M C rho eps, taper_weights w -> band_pass (response (sosfilt sos)) C rho -> (forall j, Rabs (x j) <= M) -> 0 < eps ->
  exists J0, forall J a n a' n' t, (J0 <= J)%nat -> (a + settling J n <= t < a + n - settling J n)%Z -> (a' + settling J n' <= t < a' + n' - settling J n')%Z ->
  Rabs (sample (pre_filter w sos (cut x a n)) (t - a) - sample (pre_filter w sos (cut x a' n')) (t - a')) <= eps.
Proof.
  intros w sos x M C rho eps Hw Hb Bx He. pose proof Hb as (Hr & Hh & _). assert (M0 : 0 <= M) by (pose proof (Bx 0%Z); pose proof (Rabs_pos (x 0%Z)); lra).
  assert (P : 0 < / (1 - rho)) by (apply Rinv_0_lt_compat; lra). assert (C0 : 0 <= C). { pose proof (Hh O) as Q. pose proof (Rabs_pos (response (sosfilt sos) O)). cbn [pow] in Q. lra. }
  set (B := 32 * M * (C * / (1 - rho))). assert (B0 : 0 <= B) by (unfold B; apply Rmult_le_pos; [lra|apply Rmult_le_pos; lra]).
  destruct (leftover_vanishes C rho Hr (eps / (B + 1))) as (N & HN); [apply Rdiv_lt_0_compat; lra|]. exists (S N). intros J a n a' n' t HJ Ht Ht'.
  eapply Rle_trans; [apply (C138_window_partial w sos x M (C * / (1 - rho)) (leftover C rho J) J); [exact Hw|apply band_pass_calm; exact Hb|lia|intros; apply Bx|exact Ht|exact Ht']|].
  specialize (HN J ltac:(lia)). unfold R_dist in HN. rewrite Rminus_0_r in HN. fold B. pose proof (Rle_abs (leftover C rho J)) as La.
  assert (L : leftover C rho J <= eps / (B + 1)) by lra. apply Rle_trans with (B * (eps / (B + 1))); [apply Rmult_le_compat_l; assumption|].
  assert (0 < eps / (B + 1)) by (apply Rdiv_lt_0_compat; lra). replace eps with ((B + 1) * (eps / (B + 1))) at 2 by (field; lra). lra.
Qed.
Print Assumptions C138_any_accuracy_partial.

(** Sections with their poles inside the unit circle and, together, a zero at frequency zero, as a Butterworth band-pass of any order has. *)
Theorem C138_stable_sections :
  forall sos k, Forall stable sos -> zeros sos k -> (1 <= k)%nat -> exists C rho, band_pass (response (sosfilt sos)) C rho.
Proof. exact sections_band_pass. Qed.
Print Assumptions C138_stable_sections.
Theorem C138_stable_sections_settle_partial :
  forall w sos k x M eps, taper_weights w -> Forall stable sos -> zeros sos k -> (1 <= k)%nat -> (forall j, Rabs (x j) <= M) -> 0 < eps ->
  exists J0, forall J a n a' n' t, (J0 <= J)%nat -> (a + settling J n <= t < a + n - settling J n)%Z -> (a' + settling J n' <= t < a' + n' - settling J n')%Z ->
  Rabs (sample (pre_filter w sos (cut x a n)) (t - a) - sample (pre_filter w sos (cut x a' n')) (t - a')) <= eps.
Proof. intros w sos k x M eps Hw HS HZ Hk Bx He. destruct (sections_band_pass sos k HS HZ Hk) as (C & rho & Hb). exact (C138_any_accuracy_partial w sos x M C rho eps Hw Hb Bx He). Qed.
Print Assumptions C138_stable_sections_settle_partial.

(** What C134 asks of the processing. *)
Definition chained (w : nat -> nat -> R) (sos : string -> list section_) (k : onset_cfg) : Prop :=
  forall ph pc d l, In ph (o_phases k) -> dget (o_cfg k) ph = Some pc -> ph_band pc d l = pre_filter w (sos ph) l.
Lemma sample_map f l i : f 0 = 0 -> sample (map f l) i = f (sample l i).
Proof. intros H. unfold sample. rewrite rd_map. destruct (rd l i); [reflexivity|]. symmetry. exact H. Qed.
Theorem C138_energy_partial :
  forall secs k w sos x ids M A E J, let e := 16 * M * A * E in
  taper_weights w -> chained w sos k -> (forall l, o_transform k l = transform_energy l) -> (forall ph, In ph (o_phases k) -> calm (response (sosfilt (sos ph))) A E J) -> (0 < J)%nat ->
  0 <= M -> (forall i j, In i ids -> Rabs (x i j) <= M) ->
  nearly secs k (settling J) (e * (2 * A * A * M + e)) x ids (fun ph i t => two_sided (response (sosfilt (sos ph))) J (x i) t * two_sided (response (sosfilt (sos ph))) J (x i) t).
Proof.
  intros secs k w sos x ids M A E J e Hw Hk Ho Hc HJ HM Bx ph pc i a n t Hp Hg Hi Ht. rewrite Ho, (Hk ph pc _ _ Hp Hg). unfold transform_energy. rewrite (sample_map (fun v => v * v)) by ring.
  pose proof (chain_window w (sos ph) (x i) M A E J a n t Hw (Hc ph Hp) HJ (fun j _ => Bx i j Hi) Ht) as H1. fold e in H1.
  pose proof (two_sided_bound (response (sosfilt (sos ph))) J (x i) M A t (proj1 (Hc ph Hp)) HM (fun j => Bx i j Hi)) as H2.
  set (u := sample _ _) in *. set (y := two_sided _ _ _ _) in *. replace (u * u - y * y) with ((u - y) * (2 * y + (u - y))) by ring. rewrite Rabs_mult. apply Rmult_le_compat; try apply Rabs_pos; [exact H1|].
  eapply Rle_trans; [apply Rabs_triang|]. rewrite Rabs_mult, (Rabs_pos_eq 2) by lra. lra.
Qed.
Print Assumptions C138_energy_partial.
Theorem C138_abs_partial :
  forall secs k w sos x ids M A E J,
  taper_weights w -> chained w sos k -> (forall l, o_transform k l = transform_abs l) -> (forall ph, In ph (o_phases k) -> calm (response (sosfilt (sos ph))) A E J) -> (0 < J)%nat ->
  0 <= M -> (forall i j, In i ids -> Rabs (x i j) <= M) ->
  nearly secs k (settling J) (16 * M * A * E) x ids (fun ph i t => Rabs (two_sided (response (sosfilt (sos ph))) J (x i) t)).
Proof.
  intros secs k w sos x ids M A E J Hw Hk Ho Hc HJ HM Bx ph pc i a n t Hp Hg Hi Ht. rewrite Ho, (Hk ph pc _ _ Hp Hg). unfold transform_abs. rewrite (sample_map Rabs) by apply Rabs_R0.
  eapply Rle_trans; [apply Rabs_triang_inv2|]. apply (chain_window w (sos ph) (x i) M A E J a n t Hw (Hc ph Hp) HJ (fun j _ => Bx i j Hi) Ht).
Qed.
Print Assumptions C138_abs_partial.

(** A filter with a double zero at frequency zero and a pole at one half; a cosine taper. *)
Definition ex_sos : list section_ := [mk_section 1 (-2) 1 (-1 / 2) 0].
Definition cosine_weights (n j : nat) : R :=
  if (j <? n / 20)%nat then (1 - cos (PI * INR j / INR (n / 20))) / 2 else if (n - n / 20 <=? j)%nat then (1 - cos (PI * INR (n - 1 - j) / INR (n / 20))) / 2 else 1.
Example C138_cosine : taper_weights cosine_weights.
Proof.
  intros n j. unfold cosine_weights. destruct (Nat.ltb_spec j (n / 20)) as [H|H].
  - split; [pose proof (COS_bound (PI * INR j / INR (n / 20))); lra|intros; lia].
  - destruct (Nat.leb_spec (n - n / 20) j) as [G|G]; (split; [|intros]); try lra; try lia. pose proof (COS_bound (PI * INR (n - 1 - j) / INR (n / 20))). lra.
Qed.
Lemma ex_tail : forall j z m, (j < m)%nat -> nth j (section_run (mk_section 1 (-2) 1 (-1 / 2) 0) z 0 (repeat 0 m)) 0 = z * (1 / 2) ^ j.
Proof.
  intros j z m. revert j z. induction m as [|m IH]; intros j z Hj; [lia|]. cbn [repeat section_run b0 b1 b2 a1 a2]. destruct j as [|j]; [cbn; ring|]. cbn [nth].
  replace (-2 * 0 - -1 / 2 * (1 * 0 + z) + 0) with (z / 2) by field. replace (1 * 0 - 0 * (1 * 0 + z)) with 0 by ring. rewrite IH by lia. cbn [pow]. field.
Qed.
Lemma ex_response : response (sosfilt ex_sos) 0 = 1 /\ response (sosfilt ex_sos) 1 = -3 / 2 /\ forall j, response (sosfilt ex_sos) (S (S j)) = 1 / 4 * (1 / 2) ^ j.
Proof.
  unfold response, ex_sos, sosfilt. cbn [fold_left]. split; [cbn; ring|]. split; [cbn; field|]. intros j. change (repeat 0 (S (S j))) with (0 :: repeat 0 (S j)). cbn [section_run b0 b1 b2 a1 a2 nth].
  match goal with |- nth j (section_run _ ?p ?q _) 0 = _ => replace p with (1 / 4) by field; replace q with 0 by field end. apply ex_tail. lia.
Qed.
Lemma half_pos n : 0 < (1 / 2) ^ n.
Proof. apply pow_lt. lra. Qed.
Lemma half_vanishes c : Un_cv (fun N => c * (1 / 2) ^ N) 0.
Proof.
  intros eps He. destruct (pow_lt_1_zero (1 / 2)) with (y := eps / (Rabs c + 1)) as (N & HN); [rewrite Rabs_pos_eq; lra|apply Rdiv_lt_0_compat; [lra|pose proof (Rabs_pos c); lra]|].
  exists N. intros n Hn. unfold R_dist. rewrite Rminus_0_r, Rabs_mult. specialize (HN n Hn). pose proof (Rabs_pos c) as Pc. pose proof (Rabs_pos ((1 / 2) ^ n)) as Pn.
  apply Rle_lt_trans with ((Rabs c + 1) * Rabs ((1 / 2) ^ n)); [apply Rmult_le_compat_r; lra|]. apply (Rmult_lt_compat_l (Rabs c + 1)) in HN; [|lra]. replace ((Rabs c + 1) * (eps / (Rabs c + 1))) with eps in HN by (field; lra). exact HN.
Qed.
Lemma from_two f g : (forall N, f (S (S N)) = g N) -> Un_cv g 0 -> Un_cv f 0.
Proof. intros E H eps He. destruct (H eps He) as (N & HN). exists (S (S N)). intros n Hn. destruct n as [|[|n]]; [lia|lia|]. rewrite E. apply HN. lia. Qed.
Example C138_band_pass : band_pass (response (sosfilt ex_sos)) 3 (1 / 2).
Proof.
  destruct ex_response as (R0 & R1 & R2). set (h := response (sosfilt ex_sos)) in *. split; [lra|]. split.
  - intros [|[|j]]; [rewrite R0, Rabs_R1; cbn; lra|rewrite R1; rewrite Rabs_left by lra; cbn; lra|]. rewrite R2. pose proof (half_pos j). rewrite Rabs_pos_eq by lra. cbn [pow]. lra.
  - apply (from_two _ (fun N => - (1 / 2) * (1 / 2) ^ N)); [|apply half_vanishes]. induction N as [|N IH]; [cbn [total]; rewrite R0, R1; cbn; lra|]. change (total (S (S (S N))) h) with (total (S (S N)) h + h (S (S N))). rewrite IH, R2. cbn [pow]. lra.
Qed.
(** The hypotheses of the theorems are met, and with 60 samples to settle the relative error is below one in a million millions. *)
Example C138_applies :
  taper_weights cosine_weights /\ calm (response (sosfilt ex_sos)) 6 (leftover 3 (1 / 2) 60) 60 /\ (settling 60 2000 = 160)%Z /\ 16 * 1 * 6 * leftover 3 (1 / 2) 60 <= 1 / 10 ^ 12.
Proof.
  split; [exact C138_cosine|]. split; [|split; [reflexivity|]].
  - pose proof (C138_decaying_filter _ 3 (1 / 2) 60 C138_band_pass) as Q. replace (3 * / (1 - 1 / 2)) with 6 in Q by field. exact Q.
  - unfold leftover. replace (3 * (1 / 2) ^ 60 * / (1 - 1 / 2)) with (6 * (1 / 2) ^ 60) by field. cbn [pow]. lra.
Qed.
(** An onset with this processing, and a record of bounded samples. *)
Definition ex_phase (d : Z) (l : list R) : list R := pre_filter cosine_weights ex_sos l.
Definition ex_onset : onset_cfg := mk_onset ["P"%string] [("P"%string, mk_phase [] 1%Z 1%Z 2%Z (QArith_base.Qmake 1 1) ex_phase)] true false true 50%Z true true transform_energy 1 0%Z.
Example C138_onset : let e := 16 * 1 * 6 * leftover 3 (1 / 2) 60 in
  nearly 100000%Z ex_onset (settling 60) (e * (2 * 6 * 6 * 1 + e)) (fun _ t => cos (INR (Z.to_nat t))) ["S.Z"%string] (fun _ _ t => two_sided (response (sosfilt ex_sos)) 60 (fun t => cos (INR (Z.to_nat t))) t * two_sided (response (sosfilt ex_sos)) 60 (fun t => cos (INR (Z.to_nat t))) t).
Proof.
  intros e. apply (C138_energy_partial 100000%Z ex_onset cosine_weights (fun _ => ex_sos) (fun _ t => cos (INR (Z.to_nat t))) ["S.Z"%string] 1 6 (leftover 3 (1 / 2) 60) 60); try lra; try lia.
  - exact C138_cosine.
  - intros ph pc d l [<-|[]] G. cbn in G. injection G as <-. reflexivity.
  - reflexivity.
  - intros ph _. apply C138_applies.
  - intros i j _. pose proof (COS_bound (INR (Z.to_nat j))). apply Rabs_le. lra.
Qed.
(** A pair of complex poles and two zeros at [z = -1]; another pair and two zeros at [z = 1]: what a second-order band-pass looks like. *)
Definition ex_pairs : list section_ := [mk_section (1 / 10) (2 / 10) (1 / 10) (-1 / 2) (1 / 4); mk_section 1 (-2) 1 (-1) (1 / 2)].
Example C138_pairs : Forall stable ex_pairs /\ zeros ex_pairs 2.
Proof.
  split.
  - apply Forall_cons; [left; cbn; lra|apply Forall_cons; [left; cbn; lra|apply Forall_nil]].
  - apply z_none. apply z_two; [cbn; lra|cbn; lra|]. apply z_nil.
Qed.
(** Real poles, and a zero at [z = 1] in each of two sections. *)
Example C138_real_poles : let s := mk_section 1 0 (-1) (-3 / 4) (1 / 8) in Forall stable [s; s] /\ zeros [s; s] 2.
Proof.
  cbv zeta. split.
  - assert (S : stable (mk_section 1 0 (-1) (-3 / 4) (1 / 8))) by (right; exists (1 / 2), (1 / 4); cbn; rewrite !Rabs_pos_eq by lra; repeat split; lra). apply Forall_cons; [exact S|apply Forall_cons; [exact S|apply Forall_nil]].
  - apply z_one; [cbn; lra|]. apply z_one; [cbn; lra|]. apply z_nil.
Qed.
(** One section with a zero at [z = 1] and one at [z = -1]: what a first-order band-pass looks like. *)
Example C138_first_order : let s := mk_section (1 / 4) 0 (-1 / 4) (-1) (1 / 2) in Forall stable [s] /\ zeros [s] 1.
Proof.
  cbv zeta. split; [apply Forall_cons; [left; cbn; lra|apply Forall_nil]|]. apply z_one; [cbn; lra|]. apply z_nil.
Qed.
(** Without the zeros a line in the data leaves a trace that depends on the window: the slope of the window, not of the record, is removed. Here the filter does nothing, and the record is zero but for one sample. *)
Example C138_zeros_are_needed : let x j := if (j =? 0)%Z then 6 else 0 in let w (_ _ : nat) := 1 in
  sample (pre_filter w [] (cut x 0%Z 2%Z)) 0%Z <> sample (pre_filter w [] (cut x 0%Z 3%Z)) 0%Z.
Proof.
  cbv zeta. change (cut (fun j => if (j =? 0)%Z then 6 else 0) 0%Z 2%Z) with [6; 0]. change (cut (fun j => if (j =? 0)%Z then 6 else 0) 0%Z 3%Z) with [6; 0; 0].
  assert (E2 : detrend_linear [6; 0] = [0; 0]) by (unfold detrend_linear, each, fitted, slope_of, mean_of, centre, at_; cbn; f_equal; [field; lra|f_equal; field; lra]).
  assert (E3 : detrend_linear [6; 0; 0] = [1; -2; 1]) by (unfold detrend_linear, each, fitted, slope_of, mean_of, centre, at_; cbn; f_equal; [field; lra|f_equal; [field; lra|f_equal; field; lra]]).
  unfold pre_filter, zerophase, sosfilt. cbn [fold_left]. rewrite !rev_involutive, E2, E3. unfold taper, detrend_constant, each, mean_of, at_, sample. cbn. lra.
Qed.

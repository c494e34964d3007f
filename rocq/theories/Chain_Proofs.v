From Coq Require Import List ZArith Reals Lra Lia.
From Verif Require Import Lib LibFacts Chain_Model Chain_Spec.
Import ListNotations.
Open Scope R_scope.

(** * Sums *)
Lemma total_ext n f g : (forall j, (j < n)%nat -> f j = g j) -> total n f = total n g.
Proof. induction n; intros H; cbn; [reflexivity|]. rewrite IHn by (intros; apply H; lia). rewrite H by lia. reflexivity. Qed.
Lemma total_plus n f g : total n (fun j => f j + g j) = total n f + total n g.
Proof. induction n; cbn; [lra|]. rewrite IHn. lra. Qed.
Lemma total_minus n f g : total n (fun j => f j - g j) = total n f - total n g.
Proof. induction n; cbn; [lra|]. rewrite IHn. lra. Qed.
Lemma total_scal n c f : total n (fun j => c * f j) = c * total n f.
Proof. induction n; cbn; [lra|]. rewrite IHn. lra. Qed.
Lemma total_zero n : total n (fun _ => 0) = 0.
Proof. induction n; cbn; [reflexivity|]. rewrite IHn. lra. Qed.
Lemma total_const n c : total n (fun _ => c) = INR n * c.
Proof. induction n; [cbn; lra|]. rewrite S_INR. cbn [total]. rewrite IHn. lra. Qed.
Lemma total_first n f : total (S n) f = f O + total n (fun j => f (S j)).
Proof. induction n; [cbn; lra|]. cbn [total] in *. rewrite IHn. lra. Qed.
Lemma total_split n m f : total (n + m) f = total n f + total m (fun j => f (n + j)%nat).
Proof. induction m; [rewrite Nat.add_0_r; cbn; lra|]. rewrite Nat.add_succ_r. cbn [total]. rewrite IHm. lra. Qed.
Lemma total_rev n f : total n f = total n (fun j => f (n - 1 - j)%nat).
Proof.
  induction n; [reflexivity|]. rewrite (total_first n (fun j => f (S n - 1 - j)%nat)). change (total (S n) f) with (total n f + f n). rewrite IHn.
  replace (S n - 1 - 0)%nat with n by lia. rewrite (total_ext n (fun j => f (S n - 1 - S j)%nat) (fun j => f (n - 1 - j)%nat)); [lra|]. intros j Hj. f_equal. lia.
Qed.
Lemma total_abs n f : Rabs (total n f) <= total n (fun j => Rabs (f j)).
Proof. induction n; cbn; [rewrite Rabs_R0; lra|]. eapply Rle_trans; [apply Rabs_triang|]. lra. Qed.
Lemma total_le n f g : (forall j, (j < n)%nat -> f j <= g j) -> total n f <= total n g.
Proof. induction n; intros H; cbn; [lra|]. apply Rplus_le_compat; [apply IHn; intros; apply H; lia|apply H; lia]. Qed.
Lemma total_pos n f : (forall j, (j < n)%nat -> 0 <= f j) -> 0 <= total n f.
Proof. intros H. rewrite <- (total_zero n). apply total_le. exact H. Qed.
(** A sum weighted by bounded samples. *)
Lemma total_weighted n h v B : (forall j, (j < n)%nat -> Rabs (v j) <= B) -> Rabs (total n (fun j => h j * v j)) <= total n (fun j => Rabs (h j)) * B.
Proof.
  intros H. eapply Rle_trans; [apply total_abs|]. rewrite (Rmult_comm _ B), <- total_scal. apply total_le. intros j Hj. rewrite Rabs_mult, (Rmult_comm B).
  apply Rmult_le_compat_l; [apply Rabs_pos|auto].
Qed.

Lemma each_length x f : length (each x f) = length x.
Proof. unfold each. rewrite map_length, seq_length. reflexivity. Qed.
Lemma at_each x f j : (j < length x)%nat -> at_ (each x f) j = f j.
Proof. intros H. unfold at_, each. rewrite (nth_indep _ 0 (f O)) by (rewrite map_length, seq_length; exact H). rewrite map_nth, seq_nth by exact H. reflexivity. Qed.
Lemma at_beyond x j : (length x <= j)%nat -> at_ x j = 0.
Proof. intros H. apply nth_overflow. exact H. Qed.
Lemma at_rev x j : (j < length x)%nat -> at_ (rev x) j = at_ x (length x - 1 - j).
Proof. intros H. unfold at_. rewrite rev_nth by exact H. f_equal. lia. Qed.

(** * A causal filter from rest is a convolution with its response *)
Record causal (F : list R -> list R) : Prop := mk_causal {
  ca_length : forall x, length (F x) = length x;
  ca_add : forall x y j, length x = length y -> at_ (F (map (fun p => fst p + snd p) (combine x y))) j = at_ (F x) j + at_ (F y) j;
  ca_scal : forall c x j, at_ (F (map (fun v => c * v) x)) j = c * at_ (F x) j;
  ca_rest : forall x, F (0 :: x) = 0 :: F x;
  ca_prefix : forall x y j, (j < length x)%nat -> at_ (F (x ++ y)) j = at_ (F x) j }.

Lemma causal_impulse F n j : causal F -> (j <= n)%nat -> at_ (F (1 :: repeat 0 n)) j = response F j.
Proof.
  intros H Hj. unfold response. replace (repeat 0 n) with (repeat 0 j ++ repeat 0 (n - j))%R by (rewrite <- repeat_app; f_equal; lia).
  change (1 :: repeat 0 j ++ repeat 0 (n - j)) with ((1 :: repeat 0 j) ++ repeat 0 (n - j)). rewrite (ca_prefix F H); [reflexivity|]. cbn. rewrite repeat_length. lia.
Qed.
Lemma causal_cons F a x j : causal F -> (j <= length x)%nat -> at_ (F (a :: x)) j = a * response F j + match j with O => 0 | S i => at_ (F x) i end.
Proof.
  intros H Hj. set (u := map (fun v => a * v) (1 :: repeat 0 (length x))). set (z := 0 :: x).
  assert (E : a :: x = map (fun p => fst p + snd p) (combine u z)).
  { unfold u, z. cbn. f_equal; [ring|]. clear. induction x; [reflexivity|]. cbn. f_equal; [ring|exact IHx]. }
  rewrite E, (ca_add F H) by (unfold u, z; cbn; rewrite map_length, repeat_length; reflexivity).
  unfold u. rewrite (ca_scal F H), (causal_impulse F _ _ H Hj). unfold z. rewrite (ca_rest F H). destruct j; reflexivity.
Qed.
Lemma causal_convolution F x : causal F -> forall j, (j < length x)%nat -> at_ (F x) j = total (S j) (fun i => response F i * at_ x (j - i)).
Proof.
  intros H. induction x as [|a x IH]; intros j Hj; [cbn in Hj; lia|]. cbn in Hj. rewrite (causal_cons F a x j H) by lia. destruct j as [|j].
  - cbn. lra.
  - rewrite IH by lia. cbn [total]. rewrite <- Rplus_assoc. replace (S j - S j)%nat with O by lia. change (at_ (a :: x) 0) with a.
    replace (S j - j)%nat with 1%nat by lia. change (at_ (a :: x) 1) with (at_ x 0). replace (j - j)%nat with O by lia.
    rewrite (total_ext j (fun i => response F i * at_ (a :: x) (S j - i)) (fun i => response F i * at_ x (j - i))); [lra|]. intros i Hi. replace (S j - i)%nat with (S (j - i)) by lia. reflexivity.
Qed.

Lemma causal_id : causal (fun x => x).
Proof.
  split; intros; try reflexivity.
  - unfold at_. revert y j H. induction x as [|a x IH]; intros [|b y] j H; cbn in H; try discriminate; [destruct j; cbn; lra|]. destruct j; [reflexivity|]. cbn. apply IH. lia.
  - unfold at_. revert j. induction x as [|a x IH]; intros [|j]; cbn; try lra. apply IH.
  - apply app_nth1. exact H.
Qed.
Lemma ext_at x y : length x = length y -> (forall j, at_ x j = at_ y j) -> x = y.
Proof. intros L H. apply nth_ext with (d := 0) (d' := 0); [exact L|]. intros n _. apply H. Qed.
Lemma add_length (x y : list R) : length x = length y -> length (map (fun p => fst p + snd p) (combine x y)) = length x.
Proof. intros H. rewrite map_length, combine_length, H. lia. Qed.
Lemma causal_compose F G : causal F -> causal G -> causal (fun x => G (F x)).
Proof.
  intros HF HG. split; intros.
  - rewrite (ca_length G HG). apply (ca_length F HF).
  - rewrite <- (ca_add G HG) by (rewrite !(ca_length F HF); exact H). f_equal. f_equal. apply ext_at.
    + rewrite (ca_length F HF), !add_length; [symmetry; apply (ca_length F HF)|rewrite !(ca_length F HF); exact H|exact H].
    + intros i. rewrite (ca_add F HF) by exact H. pose proof (ca_add _ causal_id (F x) (F y) i) as Q. cbn beta in Q. rewrite Q; [reflexivity|]. rewrite !(ca_length F HF). exact H.
  - rewrite <- (ca_scal G HG). f_equal. f_equal. apply ext_at; [rewrite (ca_length F HF), !map_length; symmetry; apply (ca_length F HF)|].
    intros i. rewrite (ca_scal F HF). pose proof (ca_scal _ causal_id c (F x) i) as Q. cbn beta in Q. rewrite Q. reflexivity.
  - rewrite (ca_rest F HF), (ca_rest G HG). reflexivity.
  - assert (E : F (x ++ y) = F x ++ skipn (length x) (F (x ++ y))).
    { rewrite <- (firstn_skipn (length x) (F (x ++ y))) at 1. f_equal. apply ext_at.
      - rewrite firstn_length, !(ca_length F HF), app_length. lia.
      - intros i. destruct (Nat.lt_ge_cases i (length x)) as [Hi|Hi].
        + rewrite <- (ca_prefix F HF x y i Hi). unfold at_. rewrite <- (firstn_skipn (length x) (F (x ++ y))) at 2. rewrite app_nth1; [reflexivity|]. rewrite firstn_length, (ca_length F HF), app_length. lia.
        + rewrite !at_beyond; [reflexivity|rewrite (ca_length F HF); exact Hi|]. rewrite firstn_length. lia. }
    rewrite E. apply (ca_prefix G HG). rewrite (ca_length F HF). exact H.
Qed.

Lemma section_length s z1 z2 x : length (section_run s z1 z2 x) = length x.
Proof. revert z1 z2; induction x; intros; cbn; [reflexivity|]. rewrite IHx. reflexivity. Qed.
Lemma causal_section s : causal (section_run s 0 0).
Proof.
  split.
  - apply section_length.
  - intros x y j L. enough (G : forall u1 u2 v1 v2, at_ (section_run s (u1 + v1) (u2 + v2) (map (fun p => fst p + snd p) (combine x y))) j = at_ (section_run s u1 u2 x) j + at_ (section_run s v1 v2 y) j).
    { pose proof (G 0 0 0 0) as Q. rewrite !Rplus_0_r in Q. exact Q. }
    revert y j L. induction x as [|a x IH]; intros [|b y] j L u1 u2 v1 v2; cbn in L; try discriminate; [destruct j; cbn; lra|].
    cbn [combine map section_run fst snd]. destruct j as [|j]; [cbn; ring|].
    unfold at_ in *. cbn [nth]. rewrite <- (IH y j); [|lia]. f_equal. f_equal; ring.
  - intros c x j. enough (G : forall u1 u2, at_ (section_run s (c * u1) (c * u2) (map (fun v => c * v) x)) j = c * at_ (section_run s u1 u2 x) j).
    { pose proof (G 0 0) as Q. rewrite !Rmult_0_r in Q. exact Q. }
    revert j. induction x as [|a x IH]; intros j u1 u2; [destruct j; cbn; lra|]. cbn [map section_run]. destruct j as [|j]; [cbn; ring|].
    unfold at_ in *. cbn [nth]. rewrite <- IH. f_equal. f_equal; ring.
  - intros x. cbn [section_run]. f_equal; [ring|]. f_equal; ring.
  - intros x y. generalize 0 at 1 3 as z1. generalize 0 at 1 2 as z2. induction x as [|a x IH]; intros z2 z1 j Hj; [cbn in Hj; lia|].
    cbn [app section_run]. destruct j as [|j]; [reflexivity|]. unfold at_ in *. cbn [nth]. apply IH. cbn in Hj. lia.
Qed.
Lemma causal_sosfilt sos : causal (sosfilt sos).
Proof.
  unfold sosfilt. enough (G : forall F, causal F -> causal (fun x => fold_left (fun d s => section_run s 0 0 d) sos (F x))) by exact (G _ causal_id).
  induction sos as [|s sos IH]; intros F HF; cbn [fold_left]; [exact HF|]. apply (IH (fun x => section_run s 0 0 (F x))). apply causal_compose; [exact HF|apply causal_section].
Qed.

(** * The least-squares line *)
Lemma total_index n : total n INR = INR n * (INR n - 1) / 2.
Proof. induction n; [cbn; lra|]. rewrite S_INR. cbn [total]. rewrite IHn. lra. Qed.
Lemma total_squares n : total n (fun j => INR j * INR j) = (INR n - 1) * INR n * (2 * INR n - 1) / 6.
Proof. induction n; [cbn; lra|]. rewrite S_INR. cbn [total]. rewrite IHn. lra. Qed.
Lemma total_spread n : total n (fun j => (INR j - centre n) * (INR j - centre n)) = INR n * (INR n * INR n - 1) / 12.
Proof.
  transitivity (total n (fun j => INR j * INR j - (2 * centre n) * INR j + centre n * centre n)); [apply total_ext; intros; ring|].
  rewrite total_plus, total_minus, total_scal, total_const, total_squares, total_index. unfold centre. field.
Qed.
Lemma total_centred n : total n (fun j => INR j - centre n) = 0.
Proof. rewrite total_minus, total_const, total_index. unfold centre. field. Qed.
Lemma deviation n j : (j < n)%nat -> Rabs (INR j - centre n) <= (INR n - 1) / 2.
Proof. intros H. unfold centre. pose proof (pos_INR j). assert (INR j <= INR n - 1). { pose proof (le_INR (S j) n H) as Q. rewrite S_INR in Q. lra. } apply Rabs_le. lra. Qed.

Section Line.
Variables (x : list R) (M : R).
Hypothesis Two : (2 <= length x)%nat.
Hypothesis Bx : forall j, (j < length x)%nat -> Rabs (at_ x j) <= M.
Let n := length x.
Lemma INR_two : 2 <= INR n.
Proof. change 2 with (INR 2). apply le_INR. exact Two. Qed.
Lemma bound_pos : 0 <= M.
Proof. pose proof (Bx 0%nat). pose proof (Rabs_pos (at_ x 0)). assert (0 < length x)%nat by lia. pose proof (H H1). lra. Qed.
Lemma mean_bound : Rabs (mean_of x) <= M.
Proof.
  pose proof INR_two as T. unfold mean_of. fold n. unfold Rdiv. rewrite Rabs_mult, Rabs_inv, (Rabs_pos_eq (INR n)) by lra.
  apply (Rmult_le_reg_r (INR n)); [lra|]. rewrite Rmult_assoc, Rinv_l, Rmult_1_r by lra. eapply Rle_trans; [apply total_abs|].
  rewrite Rmult_comm, <- total_const. apply total_le. intros j Hj. apply Bx. exact Hj.
Qed.
Lemma slope_bound : Rabs (slope_of x) * (INR n + 1) <= 6 * M.
Proof.
  pose proof INR_two as T. pose proof bound_pos as P. unfold slope_of. fold n. rewrite total_spread. set (u := total n _).
  assert (U : Rabs u <= INR n * ((INR n - 1) / 2 * M)).
  { unfold u. eapply Rle_trans; [apply total_abs|]. rewrite <- total_const. apply total_le. intros j Hj. rewrite Rabs_mult. apply Rmult_le_compat; try apply Rabs_pos; [apply deviation; exact Hj|apply Bx; exact Hj]. }
  assert (S0 : 0 < INR n * (INR n * INR n - 1) / 12). { assert (0 < INR n * (INR n * INR n - 1)); [|lra]. apply Rmult_lt_0_compat; [lra|]. assert (2 * 2 <= INR n * INR n) by (apply Rmult_le_compat; lra). lra. }
  unfold Rdiv at 1. rewrite Rabs_mult, Rabs_inv, (Rabs_pos_eq (INR n * (INR n * INR n - 1) / 12)) by lra.
  apply (Rmult_le_reg_r (INR n * (INR n * INR n - 1) / 12)); [exact S0|].
  replace (Rabs u * / (INR n * (INR n * INR n - 1) / 12) * (INR n + 1) * (INR n * (INR n * INR n - 1) / 12)) with (Rabs u * (INR n + 1)).
  2: { set (s := INR n * (INR n * INR n - 1) / 12) in *. field. lra. }
  apply Rle_trans with (INR n * ((INR n - 1) / 2 * M) * (INR n + 1)); [apply Rmult_le_compat_r; lra|]. right. field.
Qed.
Lemma slope_small : Rabs (slope_of x) <= 2 * M.
Proof. pose proof INR_two as T. pose proof slope_bound as S. pose proof (Rabs_pos (slope_of x)) as P. assert (Rabs (slope_of x) * 3 <= Rabs (slope_of x) * (INR n + 1)) by (apply Rmult_le_compat_l; lra). lra. Qed.
Lemma fitted_bound j : (j < n)%nat -> Rabs (fitted x j) <= 4 * M.
Proof.
  intros Hj. pose proof INR_two as T. pose proof slope_bound as S. pose proof (Rabs_pos (slope_of x)) as P. pose proof bound_pos. unfold fitted. fold n. eapply Rle_trans; [apply Rabs_triang|]. rewrite Rabs_mult.
  assert (Rabs (slope_of x) * Rabs (INR j - centre n) <= Rabs (slope_of x) * ((INR n + 1) / 2)). { apply Rmult_le_compat_l; [exact P|]. pose proof (deviation n j Hj). lra. }
  pose proof mean_bound. lra.
Qed.
Lemma detrended_mean : mean_of (detrend_linear x) = 0.
Proof.
  pose proof INR_two as T. unfold mean_of, detrend_linear. rewrite each_length. fold n. rewrite (total_ext n _ (fun j => at_ x j - fitted x j)) by (intros j Hj; apply at_each; exact Hj).
  rewrite total_minus. unfold fitted. fold n. rewrite total_plus, total_scal, total_centred, total_const. unfold mean_of. fold n. field. lra.
Qed.
Lemma detrended_at j : (j < n)%nat -> at_ (detrend_constant (detrend_linear x)) j = at_ x j - fitted x j.
Proof. intros Hj. unfold detrend_constant. rewrite at_each, detrended_mean by (unfold detrend_linear; rewrite each_length; exact Hj). unfold detrend_linear. rewrite at_each by exact Hj. lra. Qed.
End Line.

(** * The whole chain *)
(** Both passes over a line give the line, times the square of the sum of the response. *)
Lemma two_pass_line h J p q t :
  total J (fun i => h i * total J (fun j => h j * (p + q * (t + INR i - INR j)))) = (p + q * t) * (total J h * total J h).
Proof.
  set (G0 := total J h). set (G1 := total J (fun j => INR j * h j)).
  assert (E : forall i, total J (fun j => h j * (p + q * (t + INR i - INR j))) = (p + q * t + q * INR i) * G0 - q * G1).
  { intros i. unfold G0, G1. rewrite <- !total_scal, <- total_minus. apply total_ext. intros j _. ring. }
  rewrite (total_ext J _ (fun i => (G0 * (p + q * t) - q * G1) * h i + (q * G0) * (INR i * h i))) by (intros i _; rewrite E; ring).
  rewrite total_plus, !total_scal. fold G0 G1. ring.
Qed.
Section Chain.
Variables (w : nat -> nat -> R) (sos : list section_) (x : list R) (M A E : R) (J : nat).
Let h := response (sosfilt sos).
Let n := length x.
Hypothesis Two : (2 <= length x)%nat.
Hypothesis Bx : forall j, (j < length x)%nat -> Rabs (at_ x j) <= M.
Hypothesis Hw : taper_weights w.
Hypothesis HA : forall N, total N (fun j => Rabs (h j)) <= A.
Hypothesis HE : forall N, total N (fun j => Rabs (h (J + j)%nat)) <= E.
Let v := taper w (detrend_constant (detrend_linear x)).
Let u := sosfilt sos v.

Lemma detrended_length : length (detrend_constant (detrend_linear x)) = n.
Proof. unfold detrend_constant, detrend_linear. rewrite !each_length. reflexivity. Qed.
Lemma v_length : length v = n.
Proof. unfold v, taper. rewrite each_length. apply detrended_length. Qed.
Lemma u_length : length u = n.
Proof. unfold u. rewrite (ca_length _ (causal_sosfilt sos)). apply v_length. Qed.
Lemma v_at j : (j < n)%nat -> at_ v j = w n j * (at_ x j - fitted x j).
Proof. intros Hj. unfold v, taper. rewrite at_each, detrended_length by (rewrite detrended_length; exact Hj). rewrite (detrended_at x Two j Hj). reflexivity. Qed.
Lemma v_inside j : (n / 20 <= j)%nat -> (j + n / 20 < n)%nat -> at_ v j = at_ x j - fitted x j.
Proof. intros H1 H2. rewrite v_at by lia. destruct (Hw n j) as [_ W]. rewrite W by assumption. lra. Qed.
Lemma v_bound j : Rabs (at_ v j) <= 5 * M.
Proof.
  pose proof (bound_pos x M Two Bx) as P. destruct (Nat.lt_ge_cases j n) as [Hj|Hj].
  - rewrite v_at by exact Hj. rewrite Rabs_mult. destruct (Hw n j) as [[W0 W1] _]. rewrite (Rabs_pos_eq (w n j)) by exact W0.
    assert (B : Rabs (at_ x j - fitted x j) <= 5 * M). { unfold Rminus. eapply Rle_trans; [apply Rabs_triang|]. rewrite Rabs_Ropp. pose proof (Bx j Hj). pose proof (fitted_bound x M Two Bx j Hj). lra. }
    pose proof (Rabs_pos (at_ x j - fitted x j)). replace (5 * M) with (1 * (5 * M)) by lra. apply Rmult_le_compat; lra.
  - rewrite at_beyond by (rewrite v_length; exact Hj). rewrite Rabs_R0. lra.
Qed.
Lemma A_pos : 0 <= A.
Proof. exact (HA O). Qed.
Lemma E_pos : 0 <= E.
Proof. exact (HE O). Qed.
Lemma u_at j : (j < n)%nat -> at_ u j = total (S j) (fun i => h i * at_ v (j - i)).
Proof. intros Hj. apply (causal_convolution _ v (causal_sosfilt sos)). rewrite v_length. exact Hj. Qed.
Lemma u_bound j : Rabs (at_ u j) <= A * (5 * M).
Proof.
  pose proof (bound_pos x M Two Bx) as P. pose proof A_pos as PA. destruct (Nat.lt_ge_cases j n) as [Hj|Hj].
  - rewrite u_at by exact Hj. eapply Rle_trans; [apply total_weighted; intros; apply v_bound|]. apply Rmult_le_compat_r; [lra|]. apply HA.
  - rewrite at_beyond by (rewrite u_length; exact Hj). rewrite Rabs_R0. apply Rmult_le_pos; lra.
Qed.
(** The output of a pass in the inside of the window: the response, on the data without the line. *)
Lemma u_near j : (n / 20 + J <= j)%nat -> (j + n / 20 < n)%nat -> Rabs (at_ u j - total J (fun i => h i * (at_ x (j - i) - fitted x (j - i)))) <= 5 * M * E.
Proof.
  intros H1 H2. pose proof (bound_pos x M Two Bx) as P. rewrite u_at by lia. replace (S j) with (J + (S j - J))%nat by lia. rewrite total_split.
  rewrite (total_ext J (fun i => h i * at_ v (j - i)) (fun i => h i * (at_ x (j - i) - fitted x (j - i)))) by (intros i Hi; rewrite v_inside by lia; reflexivity).
  set (a := total J _). set (r := total (S j - J) _). replace (a + r - a) with r by ring.
  unfold r. eapply Rle_trans; [apply (total_weighted _ (fun i => h (J + i)%nat)); intros; apply v_bound|]. replace (5 * M * E) with (E * (5 * M)) by ring. apply Rmult_le_compat_r; [lra|]. apply HE.
Qed.
Lemma chain_at t : (t < n)%nat -> at_ (pre_filter w sos x) t = total (n - t) (fun i => h i * at_ u (t + i)).
Proof.
  intros H1. unfold pre_filter, zerophase. fold v. fold u. rewrite at_rev by (rewrite (ca_length _ (causal_sosfilt sos)), rev_length, u_length; lia).
  rewrite (ca_length _ (causal_sosfilt sos)), rev_length, u_length. rewrite (causal_convolution _ _ (causal_sosfilt sos)) by (rewrite rev_length, u_length; lia).
  replace (S (n - 1 - t)) with (n - t)%nat by lia. apply total_ext. intros i Hi. fold h. rewrite at_rev by (rewrite u_length; lia). rewrite u_length. do 2 f_equal. lia.
Qed.
Lemma chain_near t : (n / 20 + J <= t)%nat -> (t + n / 20 + J < n)%nat ->
  Rabs (at_ (pre_filter w sos x) t - total J (fun i => h i * total J (fun j => h j * (at_ x (t + i - j) - fitted x (t + i - j))))) <= 10 * M * A * E.
Proof.
  intros H1 H2. pose proof (bound_pos x M Two Bx) as P. pose proof A_pos as PA. pose proof E_pos as PE. rewrite chain_at by lia.
  replace (n - t)%nat with (J + (n - t - J))%nat by lia. rewrite total_split. set (r := total (n - t - J) _). set (a := total J (fun i => h i * total J _)).
  assert (B1 : Rabs r <= E * (A * (5 * M))). { unfold r. eapply Rle_trans; [apply (total_weighted _ (fun i => h (J + i)%nat)); intros; apply u_bound|]. apply Rmult_le_compat_r; [apply Rmult_le_pos; lra|]. apply HE. }
  assert (B2 : Rabs (total J (fun i => h i * at_ u (t + i)) - a) <= A * (5 * M * E)).
  { unfold a. rewrite <- total_minus. rewrite (total_ext J _ (fun i => h i * (at_ u (t + i) - total J (fun j => h j * (at_ x (t + i - j) - fitted x (t + i - j)))))) by (intros; ring).
    eapply Rle_trans; [apply (total_weighted J h _ (5 * M * E))|].
    - intros i Hi. apply u_near; lia.
    - apply Rmult_le_compat_r; [|apply HA]. apply Rmult_le_pos; lra. }
  replace (total J (fun i => h i * at_ u (t + i)) + r - a) with ((total J (fun i => h i * at_ u (t + i)) - a) + r) by ring. eapply Rle_trans; [apply Rabs_triang|].
  replace (10 * M * A * E) with (A * (5 * M * E) + E * (A * (5 * M))) by ring. lra.
Qed.
Lemma chain_bound t : Rabs (at_ (pre_filter w sos x) t) <= A * (A * (5 * M)).
Proof.
  pose proof (bound_pos x M Two Bx) as P. pose proof A_pos as PA. assert (PM : 0 <= A * (5 * M)) by (apply Rmult_le_pos; lra). destruct (Nat.lt_ge_cases t n) as [H|H].
  - rewrite chain_at by exact H. eapply Rle_trans; [apply total_weighted; intros; apply u_bound|]. apply Rmult_le_compat_r; [assumption|apply HA].
  - rewrite at_beyond; [rewrite Rabs_R0; apply Rmult_le_pos; assumption|]. unfold pre_filter, zerophase. rewrite rev_length, (ca_length _ (causal_sosfilt sos)), rev_length. fold v. fold u. rewrite u_length. exact H.
Qed.
(** The line, filtered twice, is the line times the square of what the filter leaves of a constant. *)
Hypothesis H0 : Rabs (total J h) <= E.
Lemma chain_inside t : (n / 20 + J <= t)%nat -> (t + n / 20 + J < n)%nat ->
  Rabs (at_ (pre_filter w sos x) t - total J (fun i => h i * total J (fun j => h j * at_ x (t + i - j)))) <= 16 * M * A * E.
Proof.
  intros H1 H2. pose proof (bound_pos x M Two Bx) as P. pose proof A_pos as PA. pose proof E_pos as PE. pose proof (chain_near t H1 H2) as Q.
  assert (L : total J (fun i => h i * total J (fun j => h j * (at_ x (t + i - j) - fitted x (t + i - j)))) = total J (fun i => h i * total J (fun j => h j * at_ x (t + i - j))) - fitted x t * (total J h * total J h)).
  { replace (fitted x t) with (mean_of x - slope_of x * centre (length x) + slope_of x * INR t) by (unfold fitted; ring). rewrite <- two_pass_line, <- total_minus. apply total_ext. intros i Hi.
    rewrite <- Rmult_minus_distr_l, <- total_minus. f_equal. apply total_ext. intros j Hj. unfold fitted. rewrite minus_INR, plus_INR by lia. ring. }
  rewrite L in Q. set (a := total J (fun i => h i * total J _)) in *. set (g := total J h) in *.
  assert (GA : Rabs g <= A). { eapply Rle_trans; [apply total_abs|apply HA]. }
  assert (B : Rabs (fitted x t * (g * g)) <= 4 * M * (A * E)).
  { rewrite !Rabs_mult. apply Rmult_le_compat; try apply Rabs_pos; [apply Rmult_le_pos; apply Rabs_pos|apply (fitted_bound x M Two Bx); fold n; lia|]. apply Rmult_le_compat; try apply Rabs_pos; assumption. }
  replace (at_ (pre_filter w sos x) t - a) with ((at_ (pre_filter w sos x) t - (a - fitted x t * (g * g))) + - (fitted x t * (g * g))) by ring.
  eapply Rle_trans; [apply Rabs_triang|]. rewrite Rabs_Ropp. assert (0 <= M * A * E) by (repeat apply Rmult_le_pos; lra). lra.
Qed.
Lemma chain_length : length (pre_filter w sos x) = n.
Proof. unfold pre_filter, zerophase. rewrite rev_length, (ca_length _ (causal_sosfilt sos)), rev_length. apply u_length. Qed.
End Chain.

(** * A response that dies away geometrically *)
Lemma total_pow rho N : 0 <= rho < 1 -> total N (fun i => rho ^ i) <= / (1 - rho).
Proof.
  intros H. induction N; [cbn; apply Rlt_le, Rinv_0_lt_compat; lra|]. rewrite total_first. change (rho ^ 0) with 1. change (fun j : nat => rho ^ S j) with (fun j : nat => rho * rho ^ j). rewrite total_scal.
  assert (G : rho * total N (fun i => rho ^ i) <= rho * / (1 - rho)) by (apply Rmult_le_compat_l; lra). apply Rle_trans with (1 + rho * / (1 - rho)); [apply Rplus_le_compat_l; exact G|]. right. field. lra.
Qed.
Lemma total_ipow rho N : 0 <= rho < 1 -> total N (fun i => INR i * rho ^ i) <= rho * / (1 - rho) * / (1 - rho).
Proof.
  intros H. assert (P : 0 < / (1 - rho)) by (apply Rinv_0_lt_compat; lra). induction N; [cbn; apply Rmult_le_pos; [apply Rmult_le_pos|]; lra|]. rewrite total_first. change (INR 0) with 0. rewrite Rmult_0_l, Rplus_0_l.
  rewrite (total_ext N _ (fun j => rho * (INR j * rho ^ j + rho ^ j))) by (intros j _; rewrite S_INR; cbn [pow]; ring). rewrite total_scal, total_plus.
  pose proof (total_pow rho N H) as Q. assert (G : rho * (total N (fun i => INR i * rho ^ i) + total N (fun i => rho ^ i)) <= rho * (rho * / (1 - rho) * / (1 - rho) + / (1 - rho))) by (apply Rmult_le_compat_l; lra).
  eapply Rle_trans; [exact G|]. right. field. lra.
Qed.
Lemma limit_tail (g : nat -> R) (J : nat) (B : R) : Un_cv (fun N => total N g) 0 -> (forall N, total N (fun j => Rabs (g (J + j)%nat)) <= B) -> Rabs (total J g) <= B.
Proof.
  intros L T. apply Rnot_lt_le. intros C. destruct (L ((Rabs (total J g) - B) / 1)) as (N & HN); [lra|]. specialize (HN (J + N)%nat ltac:(lia)). unfold R_dist in HN. rewrite Rminus_0_r in HN. rewrite total_split in HN.
  pose proof (Rabs_triang_inv (total J g) (- total N (fun j => g (J + j)%nat))) as Q. rewrite Rabs_Ropp in Q. unfold Rminus in Q at 2. rewrite Ropp_involutive in Q.
  pose proof (total_abs N (fun j => g (J + j)%nat)). pose proof (T N). lra.
Qed.
Lemma band_pass_calm h C rho J : band_pass h C rho -> calm h (C * / (1 - rho)) (leftover C rho J) J.
Proof.
  intros (Hr & Hh & L0). assert (P : 0 < / (1 - rho)) by (apply Rinv_0_lt_compat; lra). assert (C0 : 0 <= C). { pose proof (Hh O) as Q. pose proof (Rabs_pos (h O)). cbn in Q. lra. }
  assert (P1 : 1 <= / (1 - rho)) by (rewrite <- Rinv_1; apply Rinv_le_contravar; lra).
  pose proof (pow_le rho J (proj1 Hr)) as PJ. pose proof (pos_INR J) as IJ.
  assert (T0 : forall N, total N (fun j => Rabs (h (J + j)%nat)) <= leftover C rho J).
  { intros N. apply Rle_trans with (total N (fun j => C * rho ^ J * rho ^ j)).
    - apply total_le. intros j _. eapply Rle_trans; [apply Hh|]. rewrite pow_add. right. ring.
    - rewrite total_scal. unfold leftover. apply Rmult_le_compat_l; [apply Rmult_le_pos; assumption|]. apply total_pow, Hr. }
  repeat split; [|exact T0|apply (limit_tail _ _ _ L0 T0)].
  intros N. apply Rle_trans with (total N (fun j => C * rho ^ j)); [apply total_le; intros; apply Hh|]. rewrite total_scal. apply Rmult_le_compat_l; [exact C0|apply total_pow, Hr].
Qed.

Lemma leftover_vanishes C rho : 0 <= rho < 1 -> Un_cv (leftover C rho) 0.
Proof.
  intros H eps He. assert (P : 0 < / (1 - rho)) by (apply Rinv_0_lt_compat; lra). set (B := Rabs C * / (1 - rho) + 1).
  assert (B0 : 0 < B). { unfold B. assert (0 <= Rabs C * / (1 - rho)); [apply Rmult_le_pos; [apply Rabs_pos|lra]|lra]. }
  destruct (pow_lt_1_zero rho) with (y := eps / B) as (N & HN); [rewrite Rabs_pos_eq; lra|apply Rdiv_lt_0_compat; lra|]. exists N. intros J HJ. specialize (HN J HJ).
  unfold R_dist. rewrite Rminus_0_r. unfold leftover. rewrite !Rabs_mult, (Rabs_pos_eq (/ (1 - rho))) by lra. pose proof (Rabs_pos (rho ^ J)) as PJ.
  apply Rle_lt_trans with (Rabs (rho ^ J) * B); [|apply (Rmult_lt_compat_r B) in HN; [|exact B0]; unfold Rdiv in HN; rewrite Rmult_assoc, Rinv_l, Rmult_1_r in HN by lra; exact HN].
  unfold B. replace (Rabs C * Rabs (rho ^ J) * / (1 - rho)) with (Rabs (rho ^ J) * (Rabs C * / (1 - rho))) by ring. apply Rmult_le_compat_l; [exact PJ|lra].
Qed.

(** * Windows of a signal *)
From Verif Require Import Onset_Spec Window_Spec StaLta_Proofs.
Open Scope R_scope.
Lemma sample_at (l : list R) j : Onset_Spec.sample l (Z.of_nat j) = at_ l j.
Proof.
  unfold Onset_Spec.sample, rd, at_. destruct (Z.ltb_spec (Z.of_nat j) 0); [lia|]. rewrite Nat2Z.id. destruct (nth_error l j) eqn:E.
  - symmetry. apply nth_error_nth. exact E.
  - symmetry. apply nth_overflow. apply nth_error_None. exact E.
Qed.
Lemma cut_length x a n : (0 <= n)%Z -> length (cut x a n) = Z.to_nat n.
Proof. intros H. pose proof (array1_length _ n (fun j => x (a + j)%Z)) as Q. unfold cut. rewrite Z.max_r in Q by exact H. lia. Qed.
Lemma at_cut x a n j : (0 <= Z.of_nat j < n)%Z -> at_ (cut x a n) j = x (a + Z.of_nat j)%Z.
Proof. intros H. rewrite <- sample_at. unfold Onset_Spec.sample, cut. rewrite rd_array1 by exact H. reflexivity. Qed.

Lemma chain_window w sos x M A E J a n t : taper_weights w -> calm (response (sosfilt sos)) A E J -> (0 < J)%nat -> (forall j, (a <= j < a + n)%Z -> Rabs (x j) <= M) ->
  (a + settling J n <= t < a + n - settling J n)%Z ->
  Rabs (Onset_Spec.sample (pre_filter w sos (cut x a n)) (t - a) - two_sided (response (sosfilt sos)) J x t) <= 16 * M * A * E.
Proof.
  intros Hw Hc HJ Bx Ht. unfold settling in Ht. assert (Hn : (0 <= n)%Z) by (destruct (Z.le_gt_cases 0 n); [assumption|]; exfalso; assert (n / 20 < 0)%Z by (apply Z.div_lt_upper_bound; lia); pose proof (Z.mul_div_le n 20); pose proof (Z.mod_pos_bound n 20); pose proof (Z.div_mod n 20); lia).
  assert (H20 : (0 <= n / 20)%Z) by (apply Z.div_pos; lia). assert (Ln : length (cut x a n) = Z.to_nat n) by (apply cut_length; exact Hn).
  assert (D : Z.of_nat (Z.to_nat n / 20) = (n / 20)%Z) by (rewrite Nat2Z.inj_div, Z2Nat.id by exact Hn; reflexivity).
  replace (t - a)%Z with (Z.of_nat (Z.to_nat (t - a))) by lia. rewrite sample_at. set (k := Z.to_nat (t - a)).
  assert (Hk : t = (a + Z.of_nat k)%Z) by (unfold k; lia).
  assert (E2 : two_sided (response (sosfilt sos)) J x t = total J (fun i => response (sosfilt sos) i * total J (fun j => response (sosfilt sos) j * at_ (cut x a n) (k + i - j)))).
  { unfold two_sided. apply total_ext. intros i Hi. f_equal. apply total_ext. intros j Hj. f_equal. rewrite at_cut by lia. f_equal. lia. }
  destruct Hc as (HA & HE & H0). rewrite E2. apply chain_inside; [rewrite Ln; lia| |exact Hw|exact HA|exact HE|exact H0|rewrite Ln; lia|rewrite Ln; lia]. rewrite Ln.
  intros j Hj. rewrite at_cut by lia. apply Bx. lia.
Qed.
Lemma two_sided_bound h J x M A t : (forall N, total N (fun j => Rabs (h j)) <= A) -> 0 <= M -> (forall j, Rabs (x j) <= M) -> Rabs (two_sided h J x t) <= A * (A * M).
Proof.
  intros HA HM Hx. assert (PA : 0 <= A) by exact (HA O). unfold two_sided. eapply Rle_trans; [apply (total_weighted J h _ (A * M))|].
  - intros i _. eapply Rle_trans; [apply (total_weighted J h (fun j => x _) M); intros; apply Hx|]. apply Rmult_le_compat_r; [exact HM|apply HA].
  - apply Rmult_le_compat_r; [apply Rmult_le_pos; assumption|apply HA].
Qed.

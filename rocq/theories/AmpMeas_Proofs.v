(** Lemmas about the measurements on one trace. *)
From Coq Require Import String Ascii.
From Coq Require Import List ZArith QArith Qabs Qminmax Bool Reals Qreals Lra Lia Lqa Psatz.
From Verif Require Import Lib LibFacts PySlice PySliceFacts Amp_Model Amp_Spec Amp_Proofs Resample_Model AmpMeas_Model AmpMeas_Spec.
Import ListNotations.
Open Scope Z_scope.

(** ** Lists of rationals by position *)

Lemma scaled_length c x y : scaled c x y -> length x = length y.
Proof. intros H. induction H; cbn [length]; congruence. Qed.
Lemma scaled_at c x y : scaled c x y -> forall i, (at_ y i == c * at_ x i)%Q.
Proof.
  intros H. unfold at_. induction H as [|u v x y E H IH]; intros i; [rewrite !rd_nil; ring|]. rewrite !rd_cons. destruct (i =? 0); [exact E|apply IH].
Qed.
Lemma scaled_of_at c x y : length x = length y -> (forall i, 0 <= i < Z.of_nat (length x) -> (at_ y i == c * at_ x i)%Q) -> scaled c x y.
Proof.
  revert y. induction x as [|u x IH]; intros [|v y] L H; try discriminate; constructor.
  - specialize (H 0 ltac:(cbn [length]; lia)). exact H.
  - apply IH; [injection L as L; exact L|]. intros i Hi. specialize (H (i + 1) ltac:(cbn [length]; lia)). unfold at_ in *. rewrite !rd_S in H by lia. exact H.
Qed.
Lemma scaled_opp c x y : scaled c x y -> scaled c (map Qopp x) (map Qopp y).
Proof. intros H. induction H as [|u v x y E H IH]; constructor; [rewrite E; ring|exact IH]. Qed.

(** ** Sums *)

Lemma qsum_app a b : (qsum (a ++ b) == qsum a + qsum b)%Q.
Proof. induction a as [|x a IH]; cbn [app qsum fold_right]; [unfold qsum; ring|]. fold (qsum (a ++ b)) (qsum a). rewrite IH. ring. Qed.
Definition QS (f : Z -> Q) (n : nat) : Q := qsum (map f (zseq 0 n)).
Lemma QS_S f n : (QS f (S n) == QS f n + f (Z.of_nat n))%Q.
Proof. unfold QS. replace (S n) with (n + 1)%nat by lia. rewrite zseq_app, map_app, qsum_app. cbn [zseq map qsum fold_right]. rewrite Z.add_0_l. ring. Qed.
Lemma QS_0 f : QS f 0 = 0%Q. Proof. reflexivity. Qed.
Lemma QS_ext f g n : (forall i, 0 <= i < Z.of_nat n -> (f i == g i)%Q) -> (QS f n == QS g n)%Q.
Proof. induction n as [|n IH]; intros H; [reflexivity|]. rewrite !QS_S, IH, H by (try (intros; apply H); lia). reflexivity. Qed.
Lemma QS_lin a b f g n : (QS (fun i => a * f i + b * g i) n == a * QS f n + b * QS g n)%Q.
Proof. induction n as [|n IH]; [rewrite !QS_0; ring|]. rewrite !QS_S, IH. ring. Qed.
Lemma QS_nonneg f n : (forall i, 0 <= i < Z.of_nat n -> (0 <= f i)%Q) -> (0 <= QS f n)%Q.
Proof. induction n as [|n IH]; intros H; [rewrite QS_0; lra|]. rewrite QS_S. assert (0 <= QS f n)%Q by (apply IH; intros; apply H; lia). specialize (H (Z.of_nat n) ltac:(lia)). lra. Qed.
Lemma QS_ge f n i : (forall i, 0 <= i < Z.of_nat n -> (0 <= f i)%Q) -> 0 <= i < Z.of_nat n -> (f i <= QS f n)%Q.
Proof.
  induction n as [|n IH]; intros H Hi; [lia|]. rewrite QS_S. assert (0 <= QS f n)%Q by (apply QS_nonneg; intros; apply H; lia).
  destruct (Z.eq_dec i (Z.of_nat n)) as [->|N]; [lra|]. assert (f i <= QS f n)%Q by (apply IH; [intros; apply H; lia|lia]). specialize (H (Z.of_nat n) ltac:(lia)). lra.
Qed.
Lemma qsum_at x : (qsum x == QS (at_ x) (length x))%Q.
Proof.
  unfold QS. assert (E : x = map (at_ x) (zseq 0 (length x))).
  { apply rd_ext_opt. intros i. rewrite rd_map. destruct (Z_lt_dec i 0); [rewrite !rd_none by lia; reflexivity|].
    destruct (Z_lt_dec i (Z.of_nat (length x))); [|rewrite !rd_none by (rewrite ?zseq_length; lia); reflexivity]. rewrite rd_zseq by lia. cbn [option_map]. rewrite at_rd by lia. reflexivity. }
  rewrite E at 1. reflexivity.
Qed.
Definition tc (n : nat) (i : Z) : Q := (inject_Z i - (inject_Z (Z.of_nat n) - 1) / 2)%Q.
Lemma centred_len n : length (centred n) = n.
Proof. unfold centred. rewrite map_length, zrange_length. lia. Qed.
Lemma centred_at n i : 0 <= i < Z.of_nat n -> at_ (centred n) i = tc n i.
Proof. intros H. unfold centred, at_. rewrite rd_map, rd_zrange by lia. reflexivity. Qed.
Lemma combine_at {B} (f : Q * Q -> B) (a b : list Q) i : length a = length b -> 0 <= i < Z.of_nat (length a) -> rd (map f (combine a b)) i = Some (f (at_ a i, at_ b i)).
Proof. intros L H. rewrite rd_map. rewrite (rd_combine_2 a b i (at_ a i) (at_ b i)); [reflexivity|apply at_rd; lia|apply at_rd; lia]. Qed.
Lemma qdot_at a b : length a = length b -> (qdot a b == QS (fun i => at_ a i * at_ b i) (length a))%Q.
Proof.
  intros L. unfold qdot. rewrite qsum_at. rewrite map_length, combine_length, <- L, Nat.min_id. apply QS_ext. intros i Hi. unfold at_ at 1. rewrite combine_at by assumption. reflexivity.
Qed.
Lemma sum_index n : (QS inject_Z n == inject_Z (Z.of_nat n) * (inject_Z (Z.of_nat n) - 1) / 2)%Q.
Proof. induction n as [|n IH]; [reflexivity|]. rewrite QS_S, IH, Nat2Z.inj_succ. unfold Z.succ. rewrite inject_Z_plus. field. Qed.
Lemma sum_const n k : (QS (fun _ => k) n == inject_Z (Z.of_nat n) * k)%Q.
Proof. induction n as [|n IH]; [rewrite QS_0; ring|]. rewrite QS_S, IH, Nat2Z.inj_succ. unfold Z.succ. rewrite inject_Z_plus. ring. Qed.
Lemma sum_tc n : (QS (tc n) n == 0)%Q.
Proof.
  transitivity (QS (fun i => 1 * inject_Z i + (- ((inject_Z (Z.of_nat n) - 1) / 2)) * 1) n)%Q; [apply QS_ext; intros; unfold tc; ring|].
  rewrite (QS_lin 1 _ inject_Z (fun _ => 1%Q)), sum_index, sum_const. field.
Qed.

(** ** Detrending *)

Definition slope (x : list Q) : Q := (qdot (centred (length x)) x / qdot (centred (length x)) (centred (length x)))%Q.
Definition D (n : nat) : Q := QS (fun i => tc n i * tc n i)%Q n.
Lemma detrend_len x : length (detrend x) = length x.
Proof. unfold detrend. rewrite map_length, combine_length, centred_len. lia. Qed.
Lemma detrend_at x i : 0 <= i < Z.of_nat (length x) -> at_ (detrend x) i = (at_ x i - qmean x - slope x * tc (length x) i)%Q.
Proof. intros H. unfold detrend, at_ at 1. rewrite combine_at by (rewrite ?centred_len; lia). cbn [fst snd]. rewrite centred_at by exact H. reflexivity. Qed.
Lemma dot_tc x : (qdot (centred (length x)) x == QS (fun i => tc (length x) i * at_ x i) (length x))%Q.
Proof. rewrite qdot_at by apply centred_len. rewrite centred_len. apply QS_ext. intros i Hi. rewrite centred_at by exact Hi. reflexivity. Qed.
Lemma dot_tt n : (qdot (centred n) (centred n) == D n)%Q.
Proof. rewrite qdot_at by reflexivity. rewrite centred_len. apply QS_ext. intros i Hi. rewrite centred_at by exact Hi. reflexivity. Qed.
Lemma D_zero n i : (D n == 0)%Q -> 0 <= i < Z.of_nat n -> (tc n i == 0)%Q.
Proof.
  intros H Hi. assert (L : (tc n i * tc n i <= D n)%Q) by (apply (QS_ge (fun i => tc n i * tc n i)%Q); [intros; nra|exact Hi]). rewrite H in L.
  destruct (Q_dec (tc n i) 0) as [[C|C]|C]; [nra|nra|exact C].
Qed.
Lemma slope_tc x : (slope x * D (length x) == QS (fun i => tc (length x) i * at_ x i) (length x))%Q.
Proof.
  unfold slope. rewrite dot_tc, dot_tt. destruct (Qeq_dec (D (length x)) 0) as [E|E]; [|field; exact E].
  rewrite E, Qmult_0_r. symmetry. transitivity (QS (fun _ => 0%Q) (length x)); [apply QS_ext; intros i Hi; rewrite (D_zero _ _ E Hi); ring|]. rewrite sum_const. ring.
Qed.
Lemma qmean_at x : x <> [] -> (qmean x * inject_Z (Z.of_nat (length x)) == QS (at_ x) (length x))%Q.
Proof.
  intros H. unfold qmean, qlen. rewrite qsum_at. field. intros C. change 0%Q with (inject_Z 0) in C. apply (proj1 (inject_Z_injective _ _)) in C. destruct x; [congruence|cbn [length] in C; lia].
Qed.
Lemma detrend_transformed c a b x y : transformed c a b x y -> scaled c (detrend x) (detrend y).
Proof.
  intros [L H]. apply scaled_of_at; [rewrite !detrend_len; exact L|]. rewrite detrend_len. intros i Hi.
  assert (A : forall k, 0 <= k < Z.of_nat (length x) -> (at_ y k == c * at_ x k + a + b * inject_Z k)%Q).
  { intros k Hk. apply (H k); [apply at_rd; lia|apply at_rd; lia]. }
  rewrite !detrend_at by lia. rewrite <- L. set (n := length x) in *.
  assert (Nn : ~ (inject_Z (Z.of_nat n) == 0)%Q) by (intros C; change 0%Q with (inject_Z 0) in C; apply (proj1 (inject_Z_injective _ _)) in C; lia).
  assert (M : (qmean y == c * qmean x + a + b * ((inject_Z (Z.of_nat n) - 1) / 2))%Q).
  { apply (Qmult_inj_r _ _ (inject_Z (Z.of_nat n)) Nn). assert (x <> [] /\ y <> []) as [Nx Ny] by (split; intros ->; cbn in *; lia).
    pose proof (qmean_at y Ny) as Ey. pose proof (qmean_at x Nx) as Ex. rewrite <- L in Ey. fold n in Ex, Ey. rewrite Ey.
    transitivity (QS (fun k => c * at_ x k + 1 * (a * 1 + b * inject_Z k)) n)%Q; [apply QS_ext; intros k Hk; rewrite A by exact Hk; ring|].
    rewrite (QS_lin c 1 (at_ x) (fun k => a * 1 + b * inject_Z k)%Q), (QS_lin a b (fun _ => 1%Q) inject_Z), sum_const, sum_index, <- Ex. field. }
  assert (S : ((slope y - c * slope x - b) * D n == 0)%Q).
  { pose proof (slope_tc y) as Ey. pose proof (slope_tc x) as Ex. rewrite <- L in Ey. fold n in Ex, Ey.
    transitivity (QS (fun i => tc n i * at_ y i) n - c * QS (fun i => tc n i * at_ x i) n - b * D n)%Q; [rewrite <- Ey, <- Ex; ring|].
    transitivity (QS (fun i => c * (tc n i * at_ x i) + 1 * ((a + b * ((inject_Z (Z.of_nat n) - 1) / 2)) * tc n i + b * (tc n i * tc n i))) n - c * QS (fun i => tc n i * at_ x i) n - b * D n)%Q.
    { apply Qplus_comp; [apply Qplus_comp; [|reflexivity]|reflexivity]. apply QS_ext. intros k Hk. rewrite A by exact Hk. unfold tc. field. }
    rewrite (QS_lin c 1 (fun i => tc n i * at_ x i)%Q (fun i => (a + b * ((inject_Z (Z.of_nat n) - 1) / 2)) * tc n i + b * (tc n i * tc n i))%Q).
    rewrite (QS_lin _ b (tc n) (fun i => tc n i * tc n i)%Q), sum_tc. unfold D. ring. }
  assert (T : ((slope y - c * slope x - b) * tc n i == 0)%Q).
  { destruct (Qeq_dec (D n) 0) as [E|E]; [rewrite (D_zero n i E Hi); ring|]. apply Qmult_integral in S. destruct S as [S|S]; [rewrite S; ring|contradiction]. }
  rewrite A by exact Hi. rewrite M. unfold tc in *. 
  setoid_replace (slope y * (inject_Z i - (inject_Z (Z.of_nat n) - 1) / 2))%Q with ((slope y - c * slope x - b) * (inject_Z i - (inject_Z (Z.of_nat n) - 1) / 2) + (c * slope x + b) * (inject_Z i - (inject_Z (Z.of_nat n) - 1) / 2))%Q by ring.
  rewrite T. field.
Qed.
(** What is left has no mean and no trend. *)
Lemma detrend_sums x : (QS (at_ (detrend x)) (length x) == 0)%Q /\ (QS (fun i => inject_Z i * at_ (detrend x) i) (length x) == 0)%Q.
Proof.
  set (n := length x). destruct (Nat.eq_dec n 0) as [E|E]; [rewrite E; split; reflexivity|]. assert (Nx : x <> []) by (intros ->; apply E; reflexivity).
  assert (Sx : (QS (at_ (detrend x)) n == 0)%Q).
  { transitivity (QS (fun i => 1 * at_ x i + 1 * ((- qmean x) * 1 + (- slope x) * tc n i)) n)%Q; [apply QS_ext; intros i Hi; rewrite detrend_at by exact Hi; fold n; ring|].
    rewrite (QS_lin 1 1 (at_ x) (fun i => - qmean x * 1 + - slope x * tc n i)%Q), (QS_lin _ _ (fun _ => 1%Q) (tc n)), sum_const, sum_tc. pose proof (qmean_at x Nx) as M. fold n in M. rewrite <- M. ring. }
  split; [exact Sx|].
  transitivity (QS (fun i => 1 * (tc n i * at_ (detrend x) i) + ((inject_Z (Z.of_nat n) - 1) / 2) * at_ (detrend x) i) n)%Q; [apply QS_ext; intros i Hi; unfold tc; field|].
  rewrite (QS_lin 1 _ (fun i => tc n i * at_ (detrend x) i)%Q (at_ (detrend x))), Sx.
  assert (T : (QS (fun i => tc n i * at_ (detrend x) i) n == 0)%Q); [|rewrite T; ring].
  transitivity (QS (fun i => 1 * (tc n i * at_ x i) + 1 * ((- qmean x) * tc n i + (- slope x) * (tc n i * tc n i))) n)%Q; [apply QS_ext; intros i Hi; rewrite detrend_at by exact Hi; fold n; ring|].
  rewrite (QS_lin 1 1 (fun i => tc n i * at_ x i)%Q (fun i => - qmean x * tc n i + - slope x * (tc n i * tc n i))%Q), (QS_lin _ _ (tc n) (fun i => tc n i * tc n i)%Q), sum_tc.
  pose proof (slope_tc x) as Sl. fold n in Sl. rewrite <- Sl. unfold D. ring.
Qed.

(** ** Peaks of a multiple of a signal *)

Lemma scaled_inv c x y : (0 < c)%Q -> scaled c x y -> scaled (/ c) y x.
Proof. intros Hc H. induction H as [|u v x y E H IH]; constructor; [rewrite E; field; lra|exact IH]. Qed.
Lemma increasing_eq l l' : increasing l -> increasing l' -> (forall k, In k l <-> In k l') -> l = l'.
Proof.
  revert l'. induction l as [|a l IH]; intros [|b l'] I I' H.
  - reflexivity.
  - destruct (proj2 (H b) (or_introl eq_refl)).
  - destruct (proj1 (H a) (or_introl eq_refl)).
  - apply increasing_cons in I, I'. destruct I as [I1 I2], I' as [I1' I2'].
    assert (E : a = b).
    { destruct (proj1 (H a) (or_introl eq_refl)) as [->|A]; [reflexivity|]. destruct (proj2 (H b) (or_introl eq_refl)) as [->|B]; [reflexivity|]. pose proof (I1' _ A). pose proof (I1 _ B). lia. }
    subst b. f_equal. apply IH; [exact I2|exact I2'|]. intros k. specialize (H k). cbn [In] in H. split; intros K.
    + destruct (proj1 H (or_intror K)) as [<-|Y]; [pose proof (I1 _ K); lia|exact Y].
    + destruct (proj2 H (or_intror K)) as [<-|Y]; [pose proof (I1' _ K); lia|exact Y].
Qed.
Lemma is_maximum_scaled c x y p : (0 < c)%Q -> scaled c x y -> is_maximum x p -> is_maximum y p.
Proof.
  intros Hc H (l & r & A1 & A2 & A3 & A4 & A5 & A6 & A7). exists l, r. rewrite <- (scaled_length _ _ _ H). repeat (split; [assumption|]). pose proof (scaled_at _ _ _ H) as A.
  split; [intros k Hk; rewrite !A, (A5 k Hk); reflexivity|]. rewrite !A. split; apply Qmult_lt_l; assumption.
Qed.
Lemma prominent_scaled c x y p t : (0 < c)%Q -> scaled c x y -> prominent x p t -> prominent y p (c * t).
Proof.
  intros Hc H (a & b & A1 & A2 & A3 & A4 & A5 & A6 & A7). exists a, b. rewrite <- (scaled_length _ _ _ H). repeat (split; [assumption|]). pose proof (scaled_at _ _ _ H) as A.
  rewrite !A. assert (M : forall u v, (u <= v -> c * u <= c * v)%Q) by (intros u v L; apply Qmult_le_l; assumption).
  split; [apply M in A5; lra|]. split; [apply M in A6; lra|]. intros k Hk. rewrite !A. apply M, A7, Hk.
Qed.
Lemma find_peaks_scaled c x y t t' : (0 < c)%Q -> scaled c x y -> (t' == c * t)%Q -> find_peaks y t' = find_peaks x t.
Proof.
  assert (G : forall c x y t t' p, (0 < c)%Q -> scaled c x y -> (t' == c * t)%Q -> In p (find_peaks x t) -> In p (find_peaks y t')).
  { clear. intros c x y t t' p Hc H Et Hp. apply find_peaks_in in Hp. destruct Hp as [A B]. apply find_peaks_in. pose proof (is_maximum_scaled _ _ _ _ Hc H A) as A'. split; [exact A'|].
    pose proof (peak_inside x p A). pose proof (peak_inside y p A'). apply prominence_spec in B; [|lia]. rewrite Et. apply prominence_spec; [lia|]. apply (prominent_scaled _ x); assumption. }
  intros Hc H Et. apply increasing_eq; [apply find_peaks_increasing|apply find_peaks_increasing|]. intros k. split; intros K.
  - apply (G (/ c)%Q y x t' t); [apply Qinv_lt_0_compat, Hc|apply scaled_inv; assumption|rewrite Et; field; lra|exact K].
  - apply (G c x y t t'); assumption.
Qed.
Lemma Qmax_scaled c a b : (0 <= c)%Q -> (Qmax (c * a) (c * b) == c * Qmax a b)%Q.
Proof.
  intros Hc. assert (M : forall u v, (u <= v -> c * u <= c * v)%Q) by (intros u v L; rewrite (Qmult_comm c u), (Qmult_comm c v); apply Qmult_le_compat_r; assumption).
  destruct (Q.max_spec a b) as [[L ->]|[L ->]]; [apply Q.max_r, M; lra|apply Q.max_l, M; lra].
Qed.
Lemma max_abs_scaled c x y : scaled c x y -> (max_abs y == Qabs c * max_abs x)%Q.
Proof.
  intros H. unfold max_abs. assert (G : forall m m', (m' == Qabs c * m)%Q -> (fold_left (fun m v => Qmax m (Qabs v)) y m' == Qabs c * fold_left (fun m v => Qmax m (Qabs v)) x m)%Q); [|apply G; ring].
  induction H as [|u v x y E H IH]; intros m m' Em; [exact Em|]. cbn [fold_left]. apply IH. rewrite Em, E, Qabs_Qmult. apply Qmax_scaled, Qabs_nonneg.
Qed.

(** ** The pair of a multiple of a signal *)

Lemma Qabs_diff_scaled c x y i j : scaled c x y -> (Qabs (at_ y i - at_ y j) == Qabs c * Qabs (at_ x i - at_ x j))%Q.
Proof. intros H. rewrite !(scaled_at _ _ _ H), <- Qabs_Qmult. apply Qabs_wd. ring. Qed.
Lemma Qeq_bool_eq_iff a b : (Qeq_bool a b = true) <-> (a == b)%Q. Proof. apply Qeq_bool_iff. Qed.
Lemma bool_eq a b : (a = true <-> b = true) -> a = b.
Proof. destruct a, b; intros [H1 H2]; try reflexivity; [symmetry; apply H1; reflexivity|apply H2; reflexivity]. Qed.
Lemma Qlt_b_scaled c a b a' b' : (0 < c)%Q -> (a' == c * a)%Q -> (b' == c * b)%Q -> Qlt_b a' b' = Qlt_b a b.
Proof. intros Hc Ea Eb. apply bool_eq. rewrite !Qlt_b_spec, Ea, Eb. apply Qmult_lt_l, Hc. Qed.
Lemma Qle_bool_scaled c a b a' b' : (0 < c)%Q -> (a' == c * a)%Q -> (b' == c * b)%Q -> Qle_bool a' b' = Qle_bool a b.
Proof. intros Hc Ea Eb. apply bool_eq. rewrite !Qle_bool_iff, Ea, Eb. apply Qmult_le_l, Hc. Qed.
Lemma Qeq_bool_scaled c a b a' b' : (0 < c)%Q -> (a' == c * a)%Q -> (b' == c * b)%Q -> Qeq_bool a' b' = Qeq_bool a b.
Proof. intros Hc Ea Eb. apply bool_eq. rewrite !Qeq_bool_iff, Ea, Eb. split; [apply Qmult_inj_l; lra|intros ->; reflexivity]. Qed.

Lemma swings_scaled c x y a b : (0 < c)%Q -> scaled c x y -> same_outcome (scaled c) (swings x a b) (swings y a b).
Proof.
  intros Hc H. unfold swings. destruct (_ =? _); [|reflexivity]. cbn [same_outcome]. generalize (combine a b). intros l. induction l as [|[i j] l IH]; constructor; [|exact IH].
  cbn [fst snd]. rewrite (Qabs_diff_scaled _ _ _ _ _ H), (Qabs_pos c) by lra. reflexivity.
Qed.
Lemma amax_scaled c l l' : (0 < c)%Q -> scaled c l l' -> same_outcome (fun m m' => fst m' = fst m /\ (snd m' == c * snd m)%Q) (amax l) (amax l').
Proof.
  intros Hc H. destruct H as [|u v l l' E H]; [reflexivity|]. cbn [amax same_outcome]. revert u v E. generalize 0 1. 
  induction H as [|u' v' l l' E' H IH]; intros best i u v E; cbn [amax_from fst snd]; [split; [reflexivity|exact E]|].
  rewrite (Qlt_b_scaled c _ _ _ _ Hc E E'). destruct (Qlt_b u u'); apply IH; assumption.
Qed.
Definition pair_rel (c : Q) (r r' : Z * Z * Q) : Prop := fst r' = fst r /\ (snd r' == c * snd r)%Q.
Lemma best_pair_scaled c x y P T : (0 < c)%Q -> scaled c x y -> same_outcome (pair_rel c) (best_pair x P T) (best_pair y P T).
Proof.
  intros Hc H. unfold best_pair.
  assert (Hp : same_outcome (fun r r' => match r, r' with inl q, inl q' => pair_rel c q q' | inr q, inr q' => q = q' | _, _ => False end) (pairs x P T) (pairs y P T)).
  { unfold pairs. destruct P as [|p P]; [reflexivity|]. destruct T as [|t T]; [reflexivity|]. destruct (_ && _).
    - cbv zeta. pose proof (Qabs_diff_scaled _ _ _ p t H) as A. setoid_rewrite (Qabs_pos c) in A; [|lra].
      rewrite (Qeq_bool_scaled c (Qabs (at_ x p - at_ x t)) 0 _ 0 Hc A ltac:(ring)). destruct (Qeq_bool _ 0); [reflexivity|]. cbn [same_outcome]. split; [reflexivity|exact A].
    - destruct (_ =? _); [destruct (p <? t); reflexivity|]. destruct (negb _); [reflexivity|]. destruct (_ <? _); [destruct (p <? t); reflexivity|destruct (t <? p); reflexivity]. }
  destruct (pairs x P T) as [[q|[[[a b] cc] d]]| |], (pairs y P T) as [[q'|[[[a' b'] cc'] d']]| |]; cbn [same_outcome] in Hp; try contradiction; cbn [bind same_outcome]; try exact Hp; try exact I.
  injection Hp as <- <- <- <-. pose proof (swings_scaled c x y a b Hc H) as S1. pose proof (swings_scaled c x y cc d Hc H) as S2.
  destruct (swings x a b) as [f1| |], (swings y a b) as [g1| |]; cbn [same_outcome] in S1; try contradiction; cbn [bind same_outcome]; try exact S1; try exact I.
  destruct (swings x cc d) as [f2| |], (swings y cc d) as [g2| |]; cbn [same_outcome] in S2; try contradiction; cbn [bind same_outcome]; try exact S2; try exact I.
  pose proof (amax_scaled c f1 g1 Hc S1) as M1. pose proof (amax_scaled c f2 g2 Hc S2) as M2.
  destruct (amax f1) as [m1| |], (amax g1) as [n1| |]; cbn [same_outcome] in M1; try contradiction; cbn [bind same_outcome]; try exact M1; try exact I.
  destruct (amax f2) as [m2| |], (amax g2) as [n2| |]; cbn [same_outcome] in M2; try contradiction; cbn [bind same_outcome]; try exact M2; try exact I.
  destruct M1 as [-> V1], M2 as [-> V2]. rewrite (Qle_bool_scaled c _ _ _ _ Hc V2 V1).
  destruct (Qle_bool (snd m2) (snd m1)).
  - destruct (rd a (fst m1)); [|reflexivity]. destruct (rd b (fst m1)); [|reflexivity]. cbn [same_outcome]. split; [reflexivity|exact V1].
  - destruct (rd cc (fst m2)); [|reflexivity]. destruct (rd d (fst m2)); [|reflexivity]. cbn [same_outcome]. split; [reflexivity|exact V2].
Qed.
Lemma p2t_scaled c mult x y start delta : (0 < c)%Q -> scaled c x y ->
  same_outcome (fun r r' => (fst (fst r') == c * fst (fst r))%Q /\ snd (fst r') = snd (fst r) /\ snd r' = snd r)
    (peak_to_trough_amplitude mult x start delta) (peak_to_trough_amplitude mult y start delta).
Proof.
  intros Hc H. unfold peak_to_trough_amplitude. cbv zeta. pose proof (max_abs_scaled _ _ _ H) as M. rewrite (Qabs_pos c) in M by lra.
  assert (Et : (mult * max_abs y == c * (mult * max_abs x))%Q) by (rewrite M; ring).
  rewrite (find_peaks_scaled c x y _ _ Hc H Et), (find_peaks_scaled c _ _ _ _ Hc (scaled_opp _ _ _ H) Et).
  set (P := find_peaks x _). set (T := find_peaks (map Qopp x) _). pose proof (best_pair_scaled c x y P T Hc H) as B.
  destruct (best_pair x P T) as [[[i j] f]| |], (best_pair y P T) as [[[i' j'] f']| |]; cbn [same_outcome] in B; try contradiction; cbn [bind same_outcome]; try exact B; try exact I.
  destruct B as [E V]. cbn [fst snd] in *. injection E as -> ->. split; [rewrite V; field|split; reflexivity].
Qed.

(** ** Averages *)

Lemma Q2R_scaled c x y : scaled c x y -> map Q2R y = map (Rmult (Q2R c)) (map Q2R x).
Proof. intros H. induction H as [|u v x y E H IH]; [reflexivity|]. cbn [map]. rewrite IH. f_equal. rewrite (Qeq_eqR _ _ E). apply Q2R_mult. Qed.
Lemma rsum_scaled k l : fold_right Rplus 0%R (map (Rmult k) l) = (k * fold_right Rplus 0 l)%R.
Proof. induction l as [|v l IH]; cbn [map fold_right]; [ring|]. rewrite IH. ring. Qed.
Lemma rmean_scaled k l : rmean (map (Rmult k) l) = (k * rmean l)%R.
Proof. unfold rmean. rewrite rsum_scaled, map_length. unfold Rdiv. ring. Qed.
Lemma sqrt_scaled k a : (0 <= k)%R -> sqrt (k * k * a) = (k * sqrt a)%R.
Proof. intros Hk. rewrite sqrt_mult_alt by nra. rewrite sqrt_square by exact Hk. reflexivity. Qed.
Lemma average_scaled env m c x y : homogeneous env -> scaled c x y ->
  same_outcome (fun a a' => a' = (Rabs (Q2R c) * a)%R) (average_amplitude env m x) (average_amplitude env m y).
Proof.
  intros He H. pose proof (Rabs_pos (Q2R c)) as Hr. assert (Sq : (Rabs (Q2R c) * Rabs (Q2R c) = Q2R c * Q2R c)%R) by (rewrite <- Rabs_mult; apply Rabs_pos_eq; nra). pose proof (Q2R_scaled _ _ _ H) as E.
  destruct m; cbn [average_amplitude same_outcome]; [| | |reflexivity].
  - rewrite <- Rmult_assoc, <- (sqrt_scaled _ _ Hr), Sq. f_equal. f_equal. rewrite <- rmean_scaled. f_equal.
    rewrite <- (map_map Q2R (fun v => (v * v)%R) y), E, !map_map. apply map_ext. intros v. ring.
  - rewrite <- Rmult_assoc, <- (sqrt_scaled _ _ Hr), Sq. f_equal. f_equal. rewrite <- rmean_scaled. f_equal. cbv zeta. rewrite E, rmean_scaled. set (mu := rmean (map Q2R x)).
    rewrite <- (map_map Q2R (fun v => ((v - Q2R c * mu) * (v - Q2R c * mu))%R) y), E, !map_map. apply map_ext. intros v. ring.
  - rewrite (He c x y H), rmean_scaled. ring.
Qed.
Lemma flat_scaled c x y : (0 < c)%Q -> scaled c x y -> flat y = flat x.
Proof.
  intros Hc H. destruct H as [|u v x y E H]; [reflexivity|]. cbn [flat]. induction H as [|u' v' x y E' H IH]; [reflexivity|]. cbn [forallb]. rewrite IH, (Qeq_bool_scaled c _ _ _ _ Hc E E'). reflexivity.
Qed.
Lemma measure_window_scaled env m mult gain c a b start delta x y : homogeneous env -> (0 < c)%Q -> transformed c a b x y ->
  same_outcome (both (meas_scaled c)) (measure_window env m mult gain (mk_qtrace start delta x)) (measure_window env m mult gain (mk_qtrace start delta y)).
Proof.
  intros He Hc Ht. apply detrend_transformed in Ht. unfold measure_window. cbn [q_data q_start q_delta]. set (dx := detrend x) in *. set (dy := detrend y) in *. cbv zeta.
  rewrite (flat_scaled _ _ _ Hc Ht). destruct (flat dx); [exact I|].
  pose proof (p2t_scaled c mult dx dy start delta Hc Ht) as P. pose proof (average_scaled env m c dx dy He Ht) as A. rewrite Rabs_pos_eq in A by (apply Qlt_Rlt in Hc; rewrite RMicromega.Q2R_0 in Hc; lra).
  destruct (peak_to_trough_amplitude mult dx start delta) as [[[h f] t]|e|], (peak_to_trough_amplitude mult dy start delta) as [[[h' f'] t']|e'|]; cbn [same_outcome] in P; try contradiction; try exact I.
  2:{ subst e'. destruct e; cbn [same_outcome both]; auto. }
  cbn [fst snd] in P. destruct P as (Ph & -> & ->).
  destruct (average_amplitude env m dx) as [v| |], (average_amplitude env m dy) as [v'| |]; cbn [same_outcome] in A; try contradiction; cbn [bind same_outcome]; try exact A; try exact I.
  subst v'. destruct gain as [g|].
  - destruct (Qeq_bool (g f) 0); cbn [same_outcome both]; [exact I|]. unfold meas_scaled. cbn. split; [rewrite Ph; unfold Qdiv; ring|]. repeat split. unfold Rdiv. ring.
  - cbn [same_outcome both]. unfold meas_scaled. cbn. auto.
Qed.

(** ** Cutting *)

Lemma qround_near q : (q - (1 # 2) <= inject_Z (qround q) <= q + (1 # 2))%Q.
Proof.
  destruct q as [n d]. unfold qround, round_away. cbn [Qnum Qden]. destruct (0 <=? n) eqn:E.
  - pose proof (Z.div_mod (2 * n + Zpos d) (2 * Zpos d) ltac:(lia)) as D1. pose proof (Z.mod_pos_bound (2 * n + Zpos d) (2 * Zpos d) ltac:(lia)) as B. set (k := (2 * n + Zpos d) / (2 * Zpos d)) in *.
    unfold Qle, Qminus, Qplus, Qopp, inject_Z. cbn [Qnum Qden]. rewrite !Pos2Z.inj_mul. split; nia.
  - pose proof (Z.div_mod (2 * (- n) + Zpos d) (2 * Zpos d) ltac:(lia)) as D1. pose proof (Z.mod_pos_bound (2 * (- n) + Zpos d) (2 * Zpos d) ltac:(lia)) as B. set (k := (2 * (- n) + Zpos d) / (2 * Zpos d)) in *.
    unfold Qle, Qminus, Qplus, Qopp, inject_Z. cbn [Qnum Qden]. rewrite !Pos2Z.inj_mul. split; nia.
Qed.
Lemma qround_mul a d : (0 < d)%Q -> (a - (1 # 2) * d <= inject_Z (qround (a / d)) * d <= a + (1 # 2) * d)%Q.
Proof.
  intros Hd. pose proof (qround_near (a / d)) as [L U]. apply (Qmult_le_compat_r _ _ d) in L, U; try lra.
  setoid_replace ((a / d - (1 # 2)) * d)%Q with (a - (1 # 2) * d)%Q in L by (field; lra). setoid_replace ((a / d + (1 # 2)) * d)%Q with (a + (1 # 2) * d)%Q in U by (field; lra). split; assumption.
Qed.
(** First sample kept and number of samples. *)
Definition cuts (n : Z) (st dl s e : Q) : outcome (Z * Z) :=
  if Qlt_b e s then Raise ValueError
  else
    let cut := Z.max 0 (qround ((s - st) / dl)) in
    let start := (st + inject_Z cut * dl)%Q in
    let m := n - cut in
    let dlt := qround ((e - start) / dl) - m + 1 in
    if (m <=? 0) || ((dlt <? 0) && Qlt_b e start) then Ret (cut, 0)
    else if 0 <=? dlt then Ret (cut, m) else Ret (cut, m + dlt).
Lemma slice_cuts st dl data s e : slice (mk_qtrace st dl data) s e =
  bind (cuts (Z.of_nat (length data)) st dl s e) (fun kc => Ret (mk_qtrace (st + inject_Z (fst kc) * dl)%Q dl (firstn (Z.to_nat (snd kc)) (skipn (Z.to_nat (fst kc)) data)))).
Proof.
  unfold slice, cuts. cbn [q_data q_start q_delta]. destruct (Qlt_b e s); [reflexivity|]. cbv zeta. destruct (_ || _); [reflexivity|]. destruct (0 <=? _); [|reflexivity].
  cbn [bind fst snd]. do 2 f_equal. symmetry. apply firstn_all2. rewrite skipn_length. lia.
Qed.
Lemma cuts_ok n st dl s e cut cnt : (0 < dl)%Q -> cuts n st dl s e = Ret (cut, cnt) ->
  (s <= e)%Q /\ 0 <= cut /\ 0 <= cnt /\ (cnt = 0 \/ cut + cnt <= n)
  /\ (forall k, cut <= k < cut + cnt -> (s - (1 # 2) * dl <= st + inject_Z k * dl <= e + (1 # 2) * dl)%Q)
  /\ (forall k, 0 <= k < n -> (s <= st + inject_Z k * dl <= e)%Q -> cut <= k < cut + cnt).
Proof.
  intros Hd E. unfold cuts in E. destruct (Qlt_b e s) eqn:Es; [discriminate|]. apply Qlt_b_false in Es. split; [exact Es|]. cbv zeta in E.
  pose proof (qround_mul (s - st) dl Hd) as [L1 U1]. set (q := qround ((s - st) / dl)) in *. set (c := Z.max 0 q) in *.
  pose proof (qround_mul (e - (st + inject_Z c * dl)) dl Hd) as [L2 U2]. set (r := qround ((e - (st + inject_Z c * dl)) / dl)) in *. clearbody q r.
  assert (Mul : forall a b, a <= b -> (inject_Z a * dl <= inject_Z b * dl)%Q) by (intros a b H; apply Qmult_le_compat_r; [rewrite <- Zle_Qle; exact H|lra]).
  assert (Mul' : forall a b, a + 1 <= b -> (inject_Z a * dl + dl <= inject_Z b * dl)%Q).
  { intros a b H. specialize (Mul _ _ H). rewrite inject_Z_plus in Mul. setoid_replace ((inject_Z a + inject_Z 1) * dl)%Q with (inject_Z a * dl + dl)%Q in Mul by (change (inject_Z 1) with 1%Q; ring). exact Mul. }
  assert (Add : forall a b, (inject_Z (a + b) * dl == inject_Z a * dl + inject_Z b * dl)%Q) by (intros a b; rewrite inject_Z_plus; ring).
  assert (C0 : 0 <= c) by lia.
  assert (Lo : (s - (1 # 2) * dl <= st + inject_Z c * dl)%Q).
  { destruct (Z_le_dec 0 q); [replace c with q by lia; lra|]. pose proof (Mul' q 0 ltac:(lia)). pose proof (Mul 0 c C0). setoid_replace (inject_Z 0 * dl)%Q with 0%Q in H by (change (inject_Z 0) with 0%Q; ring). setoid_replace (inject_Z 0 * dl)%Q with 0%Q in H0 by (change (inject_Z 0) with 0%Q; ring). lra. }
  assert (Ge : forall k, 0 <= k -> (s <= st + inject_Z k * dl)%Q -> c <= k).
  { intros k Hk H. destruct (Z_le_dec c k); [assumption|]. exfalso. assert (c = q) as E1 by lia. pose proof (Mul' k q ltac:(lia)). lra. }
  assert (Le : forall k, (st + inject_Z k * dl <= e)%Q -> k <= c + r).
  { intros k H. destruct (Z_le_dec k (c + r)); [assumption|]. exfalso. pose proof (Mul' (c + r) k ltac:(lia)) as M. rewrite Add in M. lra. }
  assert (Range : forall k, c <= k <= c + r -> (s - (1 # 2) * dl <= st + inject_Z k * dl <= e + (1 # 2) * dl)%Q).
  { intros k [H1 H2]. pose proof (Mul _ _ H1). pose proof (Mul _ _ H2) as M. rewrite Add in M. split; lra. }
  destruct ((n - c <=? 0) || ((r - (n - c) + 1 <? 0) && Qlt_b e (st + inject_Z c * dl))) eqn:E0; [injection E as <- <-|destruct (0 <=? r - (n - c) + 1) eqn:E1; injection E as <- <-].
  - split; [lia|]. split; [lia|]. split; [left; reflexivity|]. split; [intros k Hk; lia|]. intros k Hk [A B]. exfalso. pose proof (Ge k ltac:(lia) A). apply orb_true_iff in E0. destruct E0 as [E0|E0]; [lia|].
    apply andb_true_iff in E0. destruct E0 as [_ E0]. apply Qlt_b_spec in E0. pose proof (Mul _ _ H). apply (Qlt_not_le _ _ E0). lra.
  - apply orb_false_iff in E0. destruct E0 as [E0 _]. split; [lia|]. split; [lia|]. split; [right; lia|]. split; [intros k Hk; apply Range; lia|]. intros k Hk [A B]. pose proof (Ge k ltac:(lia) A). lia.
  - apply orb_false_iff in E0. destruct E0 as [E0 E2]. replace (r - (n - c) + 1 <? 0) with true in E2 by lia. cbn [andb] in E2. apply Qlt_b_false in E2.
    assert (Hr : 0 <= r) by (specialize (Le c E2); lia).
    split; [lia|]. split; [lia|]. split; [right; lia|]. split; [intros k Hk; apply Range; lia|]. intros k Hk [A B]. pose proof (Ge k ltac:(lia) A). pose proof (Le k B). lia.
Qed.
Lemma rd_cut {A} (l : list A) k n i : 0 <= k -> rd (firstn (Z.to_nat n) (skipn (Z.to_nat k) l)) i = if (0 <=? i) && (i <? n) then rd l (k + i) else None.
Proof.
  intros Hk. destruct (Z_lt_dec i 0); [rewrite rd_none by lia; replace (0 <=? i) with false by lia; reflexivity|]. replace (0 <=? i) with true by lia. cbn [andb].
  destruct (Z_lt_dec i n).
  - replace (i <? n) with true by lia. rewrite rd_firstn by lia. apply rd_skipn; lia.
  - replace (i <? n) with false by lia. apply rd_none. right. rewrite firstn_length. lia.
Qed.
Lemma slice_transformed c a b st dl x y s e : transformed c a b x y ->
  same_outcome (fun w w' => q_start w' = q_start w /\ q_delta w' = q_delta w /\ exists a', transformed c a' b (q_data w) (q_data w')) (slice (mk_qtrace st dl x) s e) (slice (mk_qtrace st dl y) s e).
Proof.
  intros [L H]. rewrite !slice_cuts, <- L. destruct (cuts _ st dl s e) as [[k n]| |] eqn:E; cbn [bind same_outcome]; [|reflexivity|exact I]. cbn [fst snd q_start q_delta q_data].
  split; [reflexivity|]. split; [reflexivity|]. exists (a + b * inject_Z k)%Q. split; [rewrite !firstn_length, !skipn_length, L; reflexivity|].
  assert (Hk : 0 <= k). { unfold cuts in E. destruct (Qlt_b e s); [discriminate|]. cbv zeta in E. destruct (_ || _); [injection E as <- <-; lia|]. destruct (0 <=? _); injection E as <- <-; lia. }
  intros i u v Hu Hv. rewrite rd_cut in Hu, Hv by exact Hk. destruct (_ && _); [|discriminate]. rewrite (H _ _ _ Hu Hv), inject_Z_plus. ring.
Qed.

(** ** The extrema of a pair *)

Lemma pyslice_in {A} (l : list A) a b v : In v (pyslice l a b) -> In v l.
Proof. intros H. apply in_rd in H. destruct H as [i H]. pose proof (rd_bounds _ _ _ _ H) as B. rewrite pyslice_length in B. rewrite rd_pyslice in H by lia. apply rd_in in H. exact H. Qed.
Lemma best_pair_in x P T i j f : best_pair x P T = Ret (i, j, f) -> In i P /\ In j T.
Proof.
  unfold best_pair. destruct (pairs x P T) as [[q|[[[a b] c] d]]| |] eqn:Ep; cbn [bind]; try discriminate.
  - intros E. injection E as ->. unfold pairs in Ep. destruct P as [|p P]; [discriminate|]. destruct T as [|t T]; [discriminate|]. destruct (_ && _).
    + cbv zeta in Ep. destruct (Qeq_bool _ 0); [discriminate|]. injection Ep as <- <- _. split; left; reflexivity.
    + exfalso. revert Ep. destruct (_ =? _); [destruct (p <? t); discriminate|]. destruct (negb _); [discriminate|]. destruct (_ <? _); [destruct (p <? t); discriminate|destruct (t <? p); discriminate].
  - assert (Sub : (forall v, In v a -> In v P) /\ (forall v, In v b -> In v T) /\ (forall v, In v c -> In v P) /\ (forall v, In v d -> In v T)).
    { unfold pairs in Ep. destruct P as [|p P]; [discriminate|]. destruct T as [|t T]; [discriminate|]. destruct (_ && _); [cbv zeta in Ep; destruct (Qeq_bool _ 0); discriminate|]. revert Ep.
      destruct (_ =? _); [destruct (p <? t)|destruct (negb _); [discriminate|]; destruct (_ <? _); [destruct (p <? t)|destruct (t <? p)]]; intros Ep; try discriminate; injection Ep as <- <- <- <-;
      repeat split; intros v Hv; try exact Hv; apply pyslice_in in Hv; exact Hv. }
    destruct Sub as (Sa & Sb & Sc & Sd). destruct (swings x a b) as [f1| |]; cbn [bind]; try discriminate. destruct (swings x c d) as [f2| |]; cbn [bind]; try discriminate.
    destruct (amax f1) as [m1| |]; cbn [bind]; try discriminate. destruct (amax f2) as [m2| |]; cbn [bind]; try discriminate. destruct (Qle_bool (snd m2) (snd m1)).
    + destruct (rd a (fst m1)) eqn:E1; [|discriminate]. destruct (rd b (fst m1)) eqn:E2; [|discriminate]. intros E. injection E as -> -> _. split; [apply Sa|apply Sb]; eapply rd_in; eassumption.
    + destruct (rd c (fst m2)) eqn:E1; [|discriminate]. destruct (rd d (fst m2)) eqn:E2; [|discriminate]. intros E. injection E as -> -> _. split; [apply Sc|apply Sd]; eapply rd_in; eassumption.
Qed.
Lemma p2t_pair mult x st dl h f t : peak_to_trough_amplitude mult x st dl = Ret (h, f, t) ->
  exists i j, 1 <= i < Z.of_nat (length x) - 1 /\ 1 <= j < Z.of_nat (length x) - 1 /\ (t == st + (inject_Z i * dl + inject_Z j * dl) / 2)%Q.
Proof.
  unfold peak_to_trough_amplitude. cbv zeta. destruct (best_pair _ _ _) as [[[i j] fa]| |] eqn:E; cbn [bind]; try discriminate. intros H. injection H as _ _ <-.
  apply best_pair_in in E. destruct E as [Hi Hj]. apply find_peaks_in in Hi, Hj. destruct Hi as [Hi _], Hj as [Hj _]. apply peak_inside in Hi, Hj. rewrite len_opp in Hj.
  exists i, j. split; [lia|]. split; [lia|]. field.
Qed.

(** ** Reversed polarity *)

Lemma scaled_flip c x y : scaled c x y -> scaled (- c) (map Qopp x) y.
Proof. intros H. induction H as [|u v x y E H IH]; constructor; [rewrite E; ring|exact IH]. Qed.
Lemma find_peaks_nonpos x t : (t <= 0)%Q -> find_peaks x t = find_peaks x 0.
Proof.
  intros Ht. apply increasing_eq; [apply find_peaks_increasing|apply find_peaks_increasing|]. intros k. rewrite !find_peaks_in. pose proof (prom_nonneg x k). split; intros [A B]; (split; [exact A|lra]).
Qed.
Lemma flipped_swing c x y P T i j : (c < 0)%Q -> scaled c x y -> largest_swing y T P j i -> largest_swing x P T i j.
Proof.
  intros Hc H [N M]. split; [apply neighbours_sym, N|]. intros i' j' N'. apply neighbours_sym in N'. specialize (M j' i' N').
  rewrite (Qabs_diff_scaled _ _ _ j' i' H), (Qabs_diff_scaled _ _ _ j i H) in M. rewrite (Qabs_neg c) in M by lra. rewrite (Qabs_Qminus (at_ x i')), (Qabs_Qminus (at_ x i)).
  apply (Qmult_le_l _ _ (- c)); [lra|exact M].
Qed.
Lemma p2t_flipped c mult x y st dl : (c < 0)%Q -> (mult <= 0)%Q -> (0 < dl)%Q -> scaled c x y ->
  same_outcome (fun r r' => (fst (fst r') == - c * fst (fst r))%Q /\ (unique_swing x -> (snd (fst r') == snd (fst r))%Q /\ (snd r' == snd r)%Q))
    (peak_to_trough_amplitude mult x st dl) (peak_to_trough_amplitude mult y st dl).
Proof.
  intros Hc Hm Hd H. pose proof (max_abs_nonneg x) as Mx. pose proof (max_abs_nonneg y) as My.
  assert (Tx : (mult * max_abs x <= 0)%Q) by nra. assert (Ty : (mult * max_abs y <= 0)%Q) by nra.
  set (P := find_peaks x 0). set (T := find_peaks (map Qopp x) 0).
  assert (Py : find_peaks y 0 = T) by (apply (find_peaks_scaled (- c)); [lra|apply scaled_flip, H|ring]).
  assert (Tp : find_peaks (map Qopp y) 0 = P).
  { apply (find_peaks_scaled (- c)); [lra| |ring]. apply scaled_flip in H. apply scaled_opp in H. rewrite opp_opp in H. exact H. }
  pose proof (peaks_alternate x (mult * max_abs x) (or_introl Tx)) as Ax. pose proof (peaks_alternate y (mult * max_abs y) (or_introl Ty)) as Ay.
  pose proof (measured mult x st dl Hd) as Sx. pose proof (measured mult y st dl Hd) as Sy. pose proof (no_extrema mult x st dl) as Nx. pose proof (no_extrema mult y st dl) as Ny. cbv zeta in Sx, Sy, Nx, Ny.
  rewrite !(find_peaks_nonpos _ _ Tx) in Ax, Sx, Nx. rewrite !(find_peaks_nonpos _ _ Ty), Py, Tp in Ay, Sy, Ny. fold P T in Ax, Sx, Nx.
  destruct P as [|p P'] eqn:EP; [rewrite Nx, Ny by auto; reflexivity|]. destruct T as [|q T'] eqn:ET; [rewrite Nx, Ny by auto; reflexivity|].
  destruct (Sx Ax ltac:(discriminate) ltac:(discriminate)) as (i & j & a & fr & tm & -> & L & D & Ea & Ef & Et).
  destruct (Sy Ay ltac:(discriminate) ltac:(discriminate)) as (i' & j' & a' & fr' & tm' & -> & L' & D' & Ea' & Ef' & Et'). cbn [same_outcome fst snd].
  pose proof (flipped_swing c x y _ _ j' i' Hc H L') as F. 
  assert (Ox : (at_ x j < at_ x i)%Q) by (apply (neighbours_differ x 0); fold P T; rewrite EP, ET; apply L).
  assert (Of : (at_ x i' < at_ x j')%Q) by (apply (neighbours_differ x 0); fold P T; rewrite EP, ET; apply F).
  assert (V : (at_ x i - at_ x j == at_ x j' - at_ x i')%Q).
  { pose proof (proj2 L _ _ (proj1 F)) as A. pose proof (proj2 F _ _ (proj1 L)) as B. rewrite (Qabs_pos (at_ x i - at_ x j)) in A, B by lra. rewrite (Qabs_pos (at_ x j' - at_ x i')) in A, B by lra. apply Qle_antisym; assumption. }
  split; [rewrite Ea, Ea', !(scaled_at _ _ _ H), V; ring|]. intros U. destruct (U i j j' i') as [E1 E2]; [unfold P, T in *; rewrite EP, ET; exact L|unfold P, T in *; rewrite EP, ET; exact F|]. subst j' i'.
  split; [|rewrite Et, Et', (Z.add_comm j i); reflexivity].
  replace (Z.abs (j - i)) with (Z.abs (i - j)) in Ef' by lia.
  assert (Nz : (0 < 2 * (inject_Z (Z.abs (i - j)) * dl))%Q). { assert (0 < inject_Z (Z.abs (i - j)))%Q by (change 0%Q with (inject_Z 0); rewrite <- Zlt_Qlt; lia). nra. }
  apply (Qmult_inj_r _ _ (2 * (inject_Z (Z.abs (i - j)) * dl))); [lra|]. rewrite Ef, Ef'. reflexivity.
Qed.
Lemma flat_flipped c x y : (c < 0)%Q -> scaled c x y -> flat y = flat x.
Proof.
  intros Hc H. apply scaled_flip in H. rewrite (flat_scaled (- c) (map Qopp x) y); [|lra|exact H]. destruct x as [|v x]; [reflexivity|]. cbn [map flat]. clear H. induction x as [|u x IH]; [reflexivity|]. cbn [map forallb]. rewrite IH. f_equal.
  apply bool_eq. rewrite !Qeq_bool_iff. split; intros E; lra.
Qed.

(** ** Bounds of the averages *)

Lemma rsum_between l b : (forall v, In v l -> 0 <= v <= b)%R -> (0 <= fold_right Rplus 0 l <= INR (length l) * b)%R.
Proof.
  induction l as [|v l IH]; intros H; [cbn; lra|]. cbn [fold_right]. change (length (v :: l)) with (S (length l)). rewrite S_INR. specialize (IH (fun u Hu => H u (or_intror Hu))). specialize (H v (or_introl eq_refl)). lra.
Qed.
Lemma rmean_between l b : l <> [] -> (forall v, In v l -> 0 <= v <= b)%R -> (0 <= rmean l <= b)%R.
Proof.
  intros N H. apply rsum_between in H. unfold rmean. assert (0 < INR (length l))%R by (apply lt_0_INR; destruct l; [congruence|cbn; lia]). split.
  - apply Rmult_le_pos; [apply H|]. left. apply Rinv_0_lt_compat. assumption.
  - apply (Rmult_le_reg_r (INR (length l))); [assumption|]. unfold Rdiv. rewrite Rmult_assoc, Rinv_l by lra. lra.
Qed.
Lemma max_abs_ge x v : In v x -> (Qabs v <= max_abs x)%Q.
Proof.
  unfold max_abs. assert (G : forall l m, (m <= fold_left (fun m v => Qmax m (Qabs v)) l m)%Q).
  { induction l as [|u l IH]; intros m; cbn [fold_left]; [lra|]. eapply Qle_trans; [|apply IH]. apply Q.le_max_l. }
  generalize 0%Q. induction x as [|u x IH]; intros m H; [destruct H|]. cbn [fold_left]. destruct H as [->|H]; [|apply IH, H]. eapply Qle_trans; [|apply G]. apply Q.le_max_r.
Qed.
Lemma rms_bounds x : x <> [] -> (0 <= sqrt (rmean (map (fun v => Q2R v * Q2R v) x)) * 1000 <= 1000 * Q2R (max_abs x))%R.
Proof.
  intros N. set (M := Q2R (max_abs x)). assert (HM : (0 <= M)%R) by (unfold M; rewrite <- RMicromega.Q2R_0; apply Qle_Rle, max_abs_nonneg).
  assert (B : (0 <= rmean (map (fun v => Q2R v * Q2R v) x) <= M * M)%R).
  { apply rmean_between; [destruct x; [congruence|discriminate]|]. intros v Hv. apply in_map_iff in Hv. destruct Hv as (u & <- & Hu). apply max_abs_ge in Hu. apply Qle_Rle in Hu. fold M in Hu.
    assert (Rabs (Q2R u) <= M)%R. { replace (Rabs (Q2R u)) with (Q2R (Qabs u)); [exact Hu|]. destruct (Qlt_le_dec u 0).
      - rewrite (Qeq_eqR _ _ (Qabs_neg u ltac:(lra))), Q2R_opp. rewrite Rabs_left; [reflexivity|]. rewrite <- RMicromega.Q2R_0. apply Qlt_Rlt. assumption.
      - rewrite (Qeq_eqR _ _ (Qabs_pos u q)). rewrite Rabs_pos_eq; [reflexivity|]. rewrite <- RMicromega.Q2R_0. apply Qle_Rle. assumption. }
    unfold Rabs in H. destruct (Rcase_abs (Q2R u)); nra. }
  pose proof (sqrt_pos (rmean (map (fun v => Q2R v * Q2R v) x)))%R. split; [lra|]. assert (sqrt (rmean (map (fun v => Q2R v * Q2R v) x)) <= M)%R; [|lra].
  rewrite <- (sqrt_square M HM). apply sqrt_le_1_alt. apply B.
Qed.
Lemma qsum_rsum x : fold_right Rplus 0%R (map Q2R x) = Q2R (qsum x).
Proof. induction x as [|v x IH]; cbn [map fold_right qsum]; [rewrite RMicromega.Q2R_0; reflexivity|]. rewrite IH. symmetry. apply Q2R_plus. Qed.
Lemma detrend_mean x : rmean (map Q2R (detrend x)) = 0%R.
Proof.
  unfold rmean. rewrite qsum_rsum. assert (E : (qsum (detrend x) == 0)%Q) by (rewrite qsum_at, detrend_len; apply (detrend_sums x)). rewrite (Qeq_eqR _ _ E), RMicromega.Q2R_0. unfold Rdiv. ring.
Qed.

(** Lemmas about the smoothing of the coalescence. *)
From Coq Require Import List ZArith Reals R_Ifp Lra Lia Psatz.
From Verif Require Import Lib LibFacts Locate_Spec Locate_Proofs GauFit_Proofs GauSmooth_Proofs Smooth_Model Smooth_Spec.
Import ListNotations.
Open Scope Z_scope.

(** ** Sums over ranges *)

Lemma zseq_shift lo n : zseq lo n = map (fun k => lo + k) (zseq 0 n).
Proof.
  apply rd_ext_opt. intros i. rewrite rd_map. destruct (Z_lt_dec i 0); [rewrite !rd_none by lia; reflexivity|].
  destruct (Z_lt_dec i (Z.of_nat n)); [|rewrite !rd_none by (rewrite zseq_length; lia); reflexivity].
  rewrite !rd_zseq by lia. reflexivity.
Qed.
Lemma sum_shift (F : Z -> R) a lo n : sum F (zseq (lo + a) n) = sum (fun m => F (m + a)) (zseq lo n).
Proof.
  rewrite (zseq_shift (lo + a)), (zseq_shift lo), !sum_map. apply sum_ext. intros x _. f_equal. lia.
Qed.
Lemma sum_zero {A} (F : A -> R) l : (forall x, In x l -> F x = 0%R) -> sum F l = 0%R.
Proof. intros H. induction l as [|a l IH]; [reflexivity|]. rewrite sum_cons, H, IH by (intros; try apply H; cbn; tauto). lra. Qed.
Lemma sum_halves (F : Z -> R) (M : nat) : sum F (zseq (- Z.of_nat M) (2 * M)) = sum (fun m => F m + F (- m - 1)%Z)%R (zseq 0 M).
Proof.
  induction M as [|M IH]; [reflexivity|].
  replace (zseq (- Z.of_nat (S M)) (2 * S M)) with ((- Z.of_nat (S M)) :: (zseq (- Z.of_nat M) (2 * M)) ++ [Z.of_nat M]).
  2:{ replace (2 * S M)%nat with (1 + (2 * M + 1))%nat by lia. rewrite zseq_app. cbn [zseq app]. f_equal.
      rewrite zseq_app. cbn [zseq]. f_equal; [f_equal|f_equal]; lia. }
  replace (S M) with (M + 1)%nat at 2 by lia. rewrite zseq_app, sum_app. cbn [zseq]. rewrite sum_cons, sum_app, !sum_cons, !sum_nil, IH.
  replace (- Z.of_nat (S M)) with (- (0 + Z.of_nat M) - 1) by lia. replace (Z.of_nat M) with (0 + Z.of_nat M) at 2 by lia. lra.
Qed.
Lemma sum_neg (F : Z -> R) r : 0 <= r -> sum (fun d => F (- d)) (around r) = sum F (around r).
Proof.
  intros Hr. unfold around. replace (- r) with (0 + - r) by lia. rewrite !sum_shift.
  set (k := Z.to_nat (2 * r + 1)). pose proof (sum_zrange_rev (fun m => F (m + - r)) k) as E. unfold zrange in E. rewrite Nat2Z.id in E.
  rewrite <- E. apply sum_ext. intros x _. f_equal. lia.
Qed.

(** ** Mirroring *)

Lemma reflect_in n i : 0 <= i < n -> reflect n i = i.
Proof. intros H. unfold reflect. rewrite Z.mod_small by lia. destruct (Z.ltb_spec i n); lia. Qed.
Lemma reflect_range n i : 0 < n -> 0 <= reflect n i < n.
Proof. intros H. unfold reflect. pose proof (Z.mod_pos_bound i (2 * n) ltac:(lia)). destruct (Z.ltb_spec (i mod (2 * n)) n); lia. Qed.
Lemma reflect_near n i j : 0 <= i < n -> Z.abs (reflect n j - i) <= Z.abs (j - i).
Proof.
  intros H. unfold reflect. pose proof (Z.mod_pos_bound j (2 * n) ltac:(lia)) as B. pose proof (Z.div_mod j (2 * n) ltac:(lia)) as E.
  set (m := j mod (2 * n)) in *. set (q := j / (2 * n)) in *. clearbody m q.
  assert (Q : q = 0 \/ n <= n * q \/ n * q <= - n) by (destruct (Z.lt_trichotomy q 0) as [L|[L|L]]; [right; right|left; exact L|right; left]; nia).
  destruct Q as [->|Q]; destruct (Z.ltb_spec m n); lia.
Qed.
Lemma reflect_left n i : 0 < n -> reflect n (- 1 - i) = reflect n i.
Proof.
  intros H. unfold reflect. pose proof (Z.mod_pos_bound i (2 * n) ltac:(lia)) as B. pose proof (Z.div_mod i (2 * n) ltac:(lia)) as E.
  assert (M : (- 1 - i) mod (2 * n) = 2 * n - 1 - i mod (2 * n)).
  { symmetry. apply (Z.mod_unique_pos _ _ (- 1 - i / (2 * n))); [lia|]. lia. }
  rewrite M. destruct (Z.ltb_spec (2 * n - 1 - i mod (2 * n)) n), (Z.ltb_spec (i mod (2 * n)) n); lia.
Qed.
Lemma reflect_right n i : 0 < n -> reflect n (2 * n - 1 - i) = reflect n i.
Proof.
  intros H. rewrite <- (reflect_left n i H). unfold reflect. replace (2 * n - 1 - i) with (- 1 - i + 1 * (2 * n)) by lia. rewrite Z.mod_add by lia. reflexivity.
Qed.
Definition extend (x : list R) (i : Z) : R := value x (reflect (Z.of_nat (length x)) i).
Lemma extend_mirrored x : mirrored x (extend x).
Proof.
  unfold mirrored, extend. set (n := Z.of_nat (length x)). split; [|split].
  - intros i v H. rewrite reflect_in by (apply (rd_bounds _ _ _ _ H)). unfold value. rewrite H. reflexivity.
  - intros i. destruct (Z.eq_dec n 0) as [E|E]; [|rewrite reflect_left by lia; reflexivity]. destruct x; [|cbn in n; lia]. unfold value. rewrite !rd_nil. reflexivity.
  - intros i. destruct (Z.eq_dec n 0) as [E|E]; [|rewrite reflect_right by lia; reflexivity]. destruct x; [|cbn in n; lia]. unfold value. rewrite !rd_nil. reflexivity.
Qed.
Lemma mirrored_unique x e : x <> [] -> mirrored x e -> forall i, e i = extend x i.
Proof.
  intros Hx (A & B & C). set (n := Z.of_nat (length x)) in *. assert (Hn : 0 < n) by (destruct x; [congruence|cbn in n; lia]).
  assert (P : forall i, e (i + 2 * n) = e i). { intros i. rewrite <- (B i), <- (C (- 1 - i)). f_equal. lia. }
  assert (Pk : forall i (k : nat), e (i + 2 * n * Z.of_nat k) = e i).
  { intros i k. induction k as [|k IH]; [f_equal; lia|]. rewrite <- IH, <- (P (i + 2 * n * Z.of_nat k)). f_equal. lia. }
  assert (Pz : forall i, e i = e (i mod (2 * n))).
  { intros i. pose proof (Z.div_mod i (2 * n) ltac:(lia)) as E. destruct (Z_le_dec 0 (i / (2 * n))) as [L|L].
    - rewrite <- (Pk (i mod (2 * n)) (Z.to_nat (i / (2 * n)))). f_equal. rewrite Z2Nat.id by exact L. lia.
    - rewrite <- (Pk i (Z.to_nat (- (i / (2 * n))))). f_equal. rewrite Z2Nat.id by lia. lia. }
  assert (I : forall i, 0 <= i < n -> e i = value x i). { intros i Hi. unfold value. destruct (rd_in_range _ x i Hi) as [v E]. rewrite E. apply A, E. }
  intros i. rewrite (Pz i). unfold extend, reflect. fold n. pose proof (Z.mod_pos_bound i (2 * n) ltac:(lia)) as Bd.
  destruct (Z.ltb_spec (i mod (2 * n)) n); [apply I; lia|]. rewrite <- C. apply I. lia.
Qed.

(** ** The filter *)

Definition gw (sd : R) (d : Z) : R := exp (- (1 / 2) / (sd * sd) * (IZR d * IZR d)).
Definition weight (sd : R) (r : Z) (d : Z) : R := (gw sd d / sum (gw sd) (around r))%R.
Lemma gw_pos sd d : (0 < gw sd d)%R. Proof. apply exp_pos. Qed.
Lemma gw_neg sd d : gw sd (- d) = gw sd d. Proof. unfold gw. rewrite opp_IZR. f_equal. ring. Qed.
Lemma gw_0 sd : gw sd 0 = 1%R. Proof. unfold gw. replace (_ * (0 * 0))%R with 0%R by ring. apply exp_0. Qed.
Lemma around_in r d : 0 <= r -> In d (around r) <-> - r <= d <= r.
Proof. intros H. unfold around. rewrite in_zseq, Z2Nat.id by lia. lia. Qed.
Lemma total_pos sd r : 0 <= r -> (0 < sum (gw sd) (around r))%R.
Proof. intros H. apply (sum_pos_in _ _ 0); [apply around_in; lia|intros; left; apply gw_pos|apply gw_pos]. Qed.
Lemma weight_pos sd r d : 0 <= r -> (0 < weight sd r d)%R.
Proof. intros H. apply Rdiv_lt_0_compat; [apply gw_pos|apply total_pos, H]. Qed.
Lemma weight_neg sd r d : weight sd r (- d) = weight sd r d. Proof. unfold weight. rewrite gw_neg. reflexivity. Qed.
Lemma weight_sum sd r : 0 <= r -> sum (weight sd r) (around r) = 1%R.
Proof.
  intros H. pose proof (total_pos sd r H). unfold weight. rewrite (sum_ext _ (fun d => / sum (gw sd) (around r) * gw sd d)%R) by (intros; field; lra).
  rewrite sum_scal. field. lra.
Qed.
Lemma weight_lt sd r a b : (0 < sd)%R -> 0 <= r -> Z.abs a < Z.abs b -> (weight sd r b < weight sd r a)%R.
Proof.
  intros Hs Hr H. unfold weight. apply Rmult_lt_compat_r; [apply Rinv_0_lt_compat, total_pos, Hr|]. apply exp_increasing.
  assert (IZR a * IZR a < IZR b * IZR b)%R by (rewrite <- !mult_IZR; apply IZR_lt; nia).
  assert (0 < 1 / 2 / (sd * sd))%R by (apply Rdiv_lt_0_compat; [lra|apply Rmult_lt_0_compat; exact Hs]). nra.
Qed.

Lemma rsum_sum {A} (f : A -> R) l : rsum (map f l) = sum f l. Proof. reflexivity. Qed.
Lemma combine_range {A} (w : list A) (f : Z * A -> R) (d : A) :
  sum f (combine (zrange (Z.of_nat (length w))) w) = sum (fun k => f (k, match rd w k with Some v => v | None => d end)) (zrange (Z.of_nat (length w))).
Proof.
  unfold zrange. rewrite Nat2Z.id.
  assert (G : forall lo, sum f (combine (zseq lo (length w)) w) = sum (fun k => f (k, match rd w (k - lo) with Some v => v | None => d end)) (zseq lo (length w))).
  { induction w as [|a w IH]; intros lo; [reflexivity|]. cbn [length zseq combine]. rewrite !sum_cons, IH. f_equal; [replace (lo - lo) with 0 by lia; reflexivity|].
    apply sum_ext. intros k Hk. apply in_zseq in Hk. rewrite (rd_cons _ a w (k - lo)). destruct (Z.eqb_spec (k - lo) 0); [lia|]. replace (k - lo - 1) with (k - (lo + 1)) by lia. reflexivity. }
  rewrite (G 0). apply sum_ext. intros k _. rewrite Z.sub_0_r. reflexivity.
Qed.
Lemma kernel_length sd r : length (gaussian_kernel1d sd r) = Z.to_nat (2 * r + 1).
Proof. unfold gaussian_kernel1d. rewrite !map_length, zseq_length. reflexivity. Qed.
Lemma kernel_rd sd r k : 0 <= r -> 0 <= k < 2 * r + 1 -> rd (gaussian_kernel1d sd r) k = Some (weight sd r (k - r)).
Proof.
  intros Hr H. unfold gaussian_kernel1d. rewrite !rd_map, rd_zseq by lia. cbn [option_map]. rewrite rsum_sum. unfold weight, gw, around. do 4 f_equal; f_equal; f_equal; lia.
Qed.
Lemma filter_value x sd tr r y : Int_part (tr * sd + 1 / 2) = r -> gaussian_filter1d x sd tr = Ret y ->
  (0 < sd)%R /\ 0 <= r /\ length y = length x
  /\ forall i, 0 <= i < Z.of_nat (length x) -> rd y i = Some (sum (fun d => weight sd r d * extend x (i + d))%R (around r)).
Proof.
  intros Er E. unfold gaussian_filter1d in E. rewrite Er in E. destruct (Rle_dec sd 0); [discriminate|]. destruct (Z.ltb_spec r 0) as [|Hr]; [discriminate|].
  injection E as <-. split; [lra|]. split; [exact Hr|]. unfold correlate1d. split; [rewrite map_length, zrange_length; lia|].
  intros i Hi. rewrite rd_map, rd_zrange by exact Hi. cbn [option_map]. f_equal. rewrite rsum_sum, (combine_range _ _ 0%R).
  rewrite rev_length, kernel_length, Z2Nat.id by lia. cbn [fst snd].
  rewrite (sum_ext _ (fun k => weight sd r (k + - r) * extend x (i + (k + - r)))%R).
  2:{ intros k Hk. apply in_zrange in Hk. rewrite rd_rev, kernel_length, Z2Nat.id, kernel_rd by (rewrite ?kernel_length; lia).
      f_equal; [rewrite <- weight_neg; f_equal; lia|]. unfold extend. do 2 f_equal. lia. }
  unfold zrange, around. replace (- r) with (0 + - r) at 5 by lia. rewrite <- (sum_shift (fun d => weight sd r d * extend x (i + d))%R (- r) 0). reflexivity.
Qed.
Lemma filter_ok x sd tr : (0 < sd)%R -> (0 <= tr * sd)%R -> exists y, gaussian_filter1d x sd tr = Ret y.
Proof.
  intros H H'. unfold gaussian_filter1d. destruct (Rle_dec sd 0); [lra|]. destruct (Z.ltb_spec (Int_part (tr * sd + 1 / 2)) 0) as [L|]; [|eexists; reflexivity].
  exfalso. pose proof (base_Int_part (tr * sd + 1 / 2)) as [_ B]. assert (IZR (Int_part (tr * sd + 1 / 2)) <= -1)%R by (apply IZR_le; lia). lra.
Qed.
Lemma radius_spec sigma rate width r : Int_part (width * (sigma * rate) + 1 / 2) = r -> 0 <= r -> radius_ok sigma rate width r.
Proof.
  intros E H. split; [exact H|]. pose proof (base_Int_part (width * (sigma * rate) + 1 / 2)) as [A B]. rewrite E in A, B. lra.
Qed.
Lemma weight_gaussian sigma rate r : (0 < sigma * rate)%R -> 0 <= r -> gaussian_weights sigma rate r (weight (sigma * rate) r).
Proof.
  intros H Hr. assert (sigma <> 0 /\ rate <> 0)%R as [Hs Ht] by (split; intros ->; lra). split; [apply weight_sum, Hr|]. split; [apply weight_pos, Hr|].
  intros d. unfold weight. rewrite gw_0. unfold gw. replace (- (1 / 2) / (sigma * rate * (sigma * rate)) * (IZR d * IZR d))%R with (- (IZR d / rate * (IZR d / rate)) / (2 * sigma * sigma))%R; [|field; split; assumption].
  pose proof (total_pos (sigma * rate) r Hr). unfold gw in H0. field. lra.
Qed.

(** A mean of values lies between two of them. *)
Lemma mean_between {A} (w v : A -> R) l : l <> [] -> (forall x, In x l -> 0 < w x)%R -> sum w l = 1%R ->
  (exists x, In x l /\ sum (fun x => w x * v x)%R l <= v x)%R /\ (exists x, In x l /\ v x <= sum (fun x => w x * v x)%R l)%R.
Proof.
  intros N P S. set (m := sum (fun x => w x * v x)%R l).
  assert (D : forall a, sum (fun x => w x * (v x - a))%R l = (m - a)%R).
  { intros a. rewrite (sum_ext _ (fun x => w x * v x + (- a) * w x)%R) by (intros; ring). rewrite sum_plus, sum_scal, S. unfold m. ring. }
  assert (X : forall (Q : A -> bool), (forall x, In x l -> Q x = false) \/ exists x, In x l /\ Q x = true).
  { intros Q. clear. induction l as [|a l IH]; [left; intros ? []|]. destruct (Q a) eqn:E; [right; exists a; split; [left; reflexivity|exact E]|].
    destruct IH as [IH|(x & I & H)]; [left; intros x [<-|I]; [exact E|apply IH, I]|right; exists x; split; [right; exact I|exact H]]. }
  destruct l as [|a0 l0] eqn:El; [congruence|]. rewrite <- El in *. assert (I0 : In a0 l) by (rewrite El; left; reflexivity). split.
  - destruct (X (fun x => if Rle_dec m (v x) then true else false)) as [H|(x & I & H)]; [|exists x; split; [exact I|]; destruct (Rle_dec m (v x)); [assumption|discriminate]].
    exfalso. assert (0 < sum (fun x => w x * (m - v x))%R l)%R.
    { apply (sum_pos _ _ a0); [|exact I0|]; [intros y Hy|]; [apply Rlt_le|]; apply Rmult_lt_0_compat; auto; match goal with |- (0 < _ - v ?z)%R => specialize (H z) end; destruct (Rle_dec m (v _)) in H; [discriminate H; assumption|lra|discriminate H; assumption|lra]. }
    rewrite (sum_ext _ (fun x => (-1) * (w x * (v x - m)))%R), sum_scal, D in H0 by (intros; ring). lra.
  - destruct (X (fun x => if Rle_dec (v x) m then true else false)) as [H|(x & I & H)]; [|exists x; split; [exact I|]; destruct (Rle_dec (v x) m); [assumption|discriminate]].
    exfalso. assert (0 < sum (fun x => w x * (v x - m))%R l)%R.
    { apply (sum_pos _ _ a0); [|exact I0|]; [intros y Hy|]; [apply Rlt_le|]; apply Rmult_lt_0_compat; auto; match goal with |- (0 < v ?z - _)%R => specialize (H z) end; destruct (Rle_dec (v _) m) in H; [discriminate H; assumption|lra|discriminate H; assumption|lra]. }
    rewrite D in H0. lra.
Qed.

(** Smoothing of a symmetric peak with symmetric weights that decrease outwards. *)
Section Peak.
  Variables (sd : R) (r : Z).
  Hypotheses (Hs : (0 < sd)%R) (Hr : 0 <= r).
  Definition cw (d : Z) : R := if Z.abs d <=? r then weight sd r d else 0%R.
  Lemma cw_le a b : Z.abs a <= Z.abs b -> (cw b <= cw a)%R.
  Proof.
    intros H. unfold cw. destruct (Z.leb_spec (Z.abs b) r), (Z.leb_spec (Z.abs a) r); try lia; try lra.
    - destruct (Z.eq_dec (Z.abs a) (Z.abs b)) as [E|E]; [|left; apply weight_lt; lia || assumption].
      assert (a = b \/ a = - b) as [->| ->] by lia; [lra|rewrite weight_neg; lra].
    - left. apply weight_pos, Hr.
  Qed.
  Lemma cw_lt a b : Z.abs a < Z.abs b -> Z.abs a <= r -> (cw b < cw a)%R.
  Proof.
    intros H Ha. unfold cw. destruct (Z.leb_spec (Z.abs a) r); [|lia]. destruct (Z.leb_spec (Z.abs b) r); [apply weight_lt; assumption|apply weight_pos, Hr].
  Qed.
  Variable f : Z -> R.
  Hypotheses (Fs : forall k, f (- k) = f k) (Fd : forall k, 0 <= k -> (f (k + 1)%Z <= f k)%R).
  Definition g (i : Z) : R := sum (fun d => weight sd r d * f (i + d))%R (around r).
  Lemma g_neg i : g (- i) = g i.
  Proof.
    unfold g. rewrite <- (sum_neg (fun d => weight sd r d * f (- i + d))%R r Hr). apply sum_ext. intros d _. rewrite weight_neg, <- (Fs (i + d)). do 2 f_equal. lia.
  Qed.
  Lemma g_step i : 0 <= i -> (g i - g (i + 1) = sum (fun m => (f m - f (m + 1)%Z) * (cw (m - i) - cw (m + 1 + i))) (zseq 0 (Z.to_nat (i + r + 1))))%R.
  Proof.
    intros Hi. unfold g. rewrite <- sum_minus.
    rewrite (sum_ext _ (fun d => cw (d + i - i) * (f (d + i)%Z - f (d + i + 1)%Z))%R).
    2:{ intros d Hd. apply around_in in Hd; [|exact Hr]. unfold cw. replace (d + i - i) with d by lia. destruct (Z.leb_spec (Z.abs d) r); [|lia].
        replace (d + i) with (i + d) by lia. replace (i + d + 1) with (i + 1 + d) by lia. ring. }
    unfold around. rewrite <- (sum_shift (fun m => cw (m - i) * (f m - f (m + 1)%Z))%R i).
    set (M := Z.to_nat (i + r + 1)). pose proof (sum_halves (fun m => cw (m - i) * (f m - f (m + 1)%Z))%R M) as E.
    replace (2 * M)%nat with (Z.to_nat (2 * i + 1) + Z.to_nat (2 * r + 1))%nat in E by lia. rewrite zseq_app, sum_app in E.
    rewrite (sum_zero _ (zseq (- Z.of_nat M) _)) in E.
    2:{ intros m Hm. apply in_zseq in Hm. unfold cw. destruct (Z.leb_spec (Z.abs (m - i)) r); [lia|ring]. }
    rewrite Rplus_0_l in E. replace (- Z.of_nat M + Z.of_nat (Z.to_nat (2 * i + 1))) with (- r + i) in E by lia. rewrite E.
    apply sum_ext. intros m _. replace (- m - 1 + 1) with (- m) by lia. replace (- m - 1) with (- (m + 1)) by lia. rewrite !Fs.
    replace (- (m + 1) - i) with (- (m + 1 + i)) by lia. replace (cw (- (m + 1 + i))) with (cw (m + 1 + i)); [ring|]. unfold cw. rewrite Z.abs_opp, weight_neg. reflexivity.
  Qed.
  Lemma g_term i m : 0 <= i -> 0 <= m -> (0 <= (f m - f (m + 1)%Z) * (cw (m - i) - cw (m + 1 + i)))%R.
  Proof. intros Hi Hm. pose proof (Fd m Hm). pose proof (cw_le (m - i) (m + 1 + i) ltac:(lia)). apply Rmult_le_pos; lra. Qed.
  Lemma g_decr i : 0 <= i -> (g (i + 1) <= g i)%R.
  Proof.
    intros Hi. pose proof (g_step i Hi) as E. assert (0 <= g i - g (i + 1))%R; [|lra]. rewrite E. apply sum_nonneg. intros m Hm. apply in_zseq in Hm. apply g_term; lia.
  Qed.
  Lemma g_strict : (f 1 < f 0)%R -> (g 1 < g 0)%R.
  Proof.
    intros H. pose proof (g_step 0 ltac:(lia)) as E. change (0 + 1) with 1 in E. assert (0 < g 0 - g 1)%R; [|lra]. rewrite E.
    apply (sum_pos _ _ 0); [intros m Hm; apply in_zseq in Hm; apply g_term; lia|apply in_zseq; lia|]. apply Rmult_lt_0_compat; [cbn; lra|].
    pose proof (cw_lt (0 - 0) (0 + 1 + 0) ltac:(lia) ltac:(lia)). lra.
  Qed.
  Lemma g_peak i : i <> 0 -> (f 1 < f 0)%R -> (g i < g 0)%R.
  Proof.
    intros Hi H. assert (K : forall k : nat, (g (Z.of_nat k + 1) < g 0)%R).
    { induction k as [|k IH]; [apply g_strict, H|]. eapply Rle_lt_trans; [|exact IH]. replace (Z.of_nat (S k) + 1) with (Z.of_nat k + 1 + 1) by lia. apply g_decr. lia. }
    destruct (Z_lt_dec 0 i); [replace i with (Z.of_nat (Z.to_nat (i - 1)) + 1) by lia; apply K|].
    rewrite <- g_neg. replace (- i) with (Z.of_nat (Z.to_nat (- i - 1)) + 1) by lia. apply K.
  Qed.
End Peak.

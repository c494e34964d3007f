(** Lemmas about the smoothing of a map before the Gaussian fit. *)
From Coq Require Import List ZArith Reals Bool Lia Lra.
From Verif Require Import Lib LibFacts ScanMseed_Model Lut_Model Lut_Spec Lut_Proofs Locate_Model Locate_Spec Locate_Proofs GauFit_Model GauFit_Spec GauFit_Proofs.
Import ListNotations.
Open Scope R_scope.

Open Scope Z_scope.
Lemma rd_rev {A} (l : list A) i : 0 <= i < Z.of_nat (length l) -> rd (rev l) i = rd l (Z.of_nat (length l) - 1 - i).
Proof.
  revert i. induction l as [|a l IH]; intros i Hi; [cbn in Hi; lia|]. cbn [rev length] in *.
  destruct (Z.eq_dec i (Z.of_nat (length l))) as [->|Hn].
  - rewrite rd_app2 by (rewrite rev_length; lia). rewrite rev_length. replace (Z.of_nat (length l) - Z.of_nat (length l)) with 0 by lia.
    replace (Z.of_nat (S (length l)) - 1 - Z.of_nat (length l)) with 0 by lia. reflexivity.
  - rewrite rd_app1 by (rewrite rev_length; lia). rewrite IH by lia.
    replace (Z.of_nat (S (length l)) - 1 - i) with ((Z.of_nat (length l) - 1 - i) + 1) by lia. rewrite rd_S by lia. reflexivity.
Qed.
Close Scope Z_scope.
Definition mirror (n q : ijk) : ijk := let '(nx, ny, nz) := n in let '(i, j, k) := q in (nx - 1 - i, ny - 1 - j, nz - 1 - k)%Z.
Lemma mirror_node n q : is_node n q -> is_node n (mirror n q).
Proof. destruct n as ((nx, ny), nz), q as ((i, j), k). unfold is_node, mirror. lia. Qed.
Lemma mirror_mirror n q : mirror n (mirror n q) = q.
Proof. destruct n as ((nx, ny), nz), q as ((i, j), k). unfold mirror. f_equal; [f_equal|]; lia. Qed.
Lemma flat_mirror n q : flat n (mirror n q) = (n_nodes n - 1 - flat n q)%Z.
Proof. destruct n as ((nx, ny), nz), q as ((i, j), k). unfold flat, mirror, n_nodes. ring. Qed.
Lemma at_rev n l q : Z.of_nat (length l) = n_nodes n -> is_node n q -> at_node n (rev l) q = at_node n l (mirror n q).
Proof. intros Hl Hq. unfold at_node, value. pose proof (flat_range n q Hq). rewrite rd_rev by lia. rewrite Hl, flat_mirror. reflexivity. Qed.

Definition kern (n : ijk) (f : ijk -> R) (o p : ijk) : R :=
  let '(nx, ny, nz) := n in let '(i, j, k) := o in let '(a, b, c) := p in
  let e := (i - a + (nx - 1) / 2, j - b + (ny - 1) / 2, k - c + (nz - 1) / 2)%Z in
  if inside n e then f e else 0.
Lemma convolve_length n m f : pos3 n -> Z.of_nat (length (convolve_same n m f)) = n_nodes n.
Proof. intros H. pose proof (all_nodes_length n H) as L. rewrite <- indices_all_nodes in L. destruct n as ((nx, ny), nz). unfold convolve_same. rewrite map_length. exact L. Qed.
Lemma convolve_at n m f o : is_node n o -> at_node n (convolve_same n m f) o = sum (fun p => at_node n m p * kern n f o p) (all_nodes n).
Proof.
  intros H. destruct n as ((nx, ny), nz) eqn:En. unfold convolve_same. rewrite <- En in *. rewrite indices_all_nodes. rewrite at_map_nodes by exact H. destruct o as ((i, j), k).
  rewrite fold_plus_sum, Rplus_0_l, (sum_map _ (fun x => x)). apply sum_ext. intros p Hp. apply in_all_nodes in Hp. rewrite node_at by exact Hp. destruct p as ((a, b), c).
  unfold kern. rewrite En. destruct (inside _ _); ring.
Qed.
Lemma nodup_flat_map {A B} (f : A -> list B) l : NoDup l -> (forall x, In x l -> NoDup (f x)) -> (forall x y b, In b (f x) -> In b (f y) -> x = y) -> NoDup (flat_map f l).
Proof.
  induction l as [|x l IH]; intros N H D; [constructor|]. inversion N as [|? ? N1 N2]; subst. cbn [flat_map]. apply nodup_app; [apply H; left; reflexivity|apply IH; [exact N2|intros; apply H; right; assumption|exact D]|].
  intros b Hb Hb'. apply in_flat_map in Hb'. destruct Hb' as (y & Hy & Hby). rewrite (D x y b Hb Hby) in N1. contradiction.
Qed.
Lemma nodup_nodes nx ny nz : NoDup (flat_map (fun i => flat_map (fun j => map (fun k => (i, j, k)) (zrange nz)) (zrange ny)) (zrange nx)).
Proof.
  apply nodup_flat_map; [apply zrange_nodup| |].
  - intros i _. apply nodup_flat_map; [apply zrange_nodup| |].
    + intros j _. apply FinFun.Injective_map_NoDup; [|apply zrange_nodup]. intros a b E. injection E as E. exact E.
    + intros j j' x Hj Hj'. apply in_map_iff in Hj. apply in_map_iff in Hj'. destruct Hj as (k & E & _), Hj' as (k' & E' & _). subst x. injection E' as E' _. symmetry. exact E'.
  - intros i i' x Hi Hi'. apply in_flat_map in Hi. apply in_flat_map in Hi'. destruct Hi as (j & _ & Hj), Hi' as (j' & _ & Hj').
    apply in_map_iff in Hj. apply in_map_iff in Hj'. destruct Hj as (k & E & _), Hj' as (k' & E' & _). subst x. injection E' as E' _ _. symmetry. exact E'.
Qed.
Lemma sum_pos_in {A} (f : A -> R) l x : In x l -> (forall y, In y l -> 0 <= f y) -> 0 < f x -> 0 < sum f l.
Proof.
  induction l as [|y l IH]; intros I N P; [destruct I|]. rewrite sum_cons. assert (0 <= sum f l) by (apply sum_nonneg; intros; apply N; right; assumption).
  destruct I as [->|I]; [lra|]. pose proof (N y (or_introl eq_refl)). assert (0 < sum f l) by (apply IH; [exact I|intros; apply N; right; assumption|exact P]). lra.
Qed.
Lemma sum_single (f : ijk -> R) n p : is_node n p -> (forall q, is_node n q -> q <> p -> f q = 0) -> sum f (all_nodes n) = f p.
Proof.
  intros Hp H. assert (ND : NoDup (all_nodes n)).
  { destruct n as ((nx, ny), nz). unfold all_nodes. apply nodup_nodes. }
  assert (I : In p (all_nodes n)) by (apply in_all_nodes; exact Hp). assert (K : forall q, In q (all_nodes n) -> q <> p -> f q = 0) by (intros q Hq; apply H; apply in_all_nodes; exact Hq).
  clear H. induction (all_nodes n) as [|x l IH]; [destruct I|]. inversion ND as [|? ? N1 N2]; subst. rewrite sum_cons. destruct I as [->|I].
  - rewrite (sum_ext f (fun _ => 0)); [rewrite sum_const; ring|]. intros q Hq. apply K; [right; exact Hq|]. intros ->. contradiction.
  - rewrite (IH N2 I) by (intros q Hq; apply K; right; exact Hq). rewrite (K x); [ring|left; reflexivity|]. intros ->. contradiction.
Qed.
Lemma kern_nonneg n f o p : (forall e, 0 <= f e) -> 0 <= kern n f o p.
Proof. intros H. destruct n as ((nx, ny), nz), o as ((i, j), k), p as ((a, b), c). unfold kern. destruct (inside _ _); [apply H|lra]. Qed.
Lemma kern_self n f p : (forall e, 0 < f e) -> pos3 n -> 0 < kern n f p p.
Proof.
  intros H Hn. destruct n as ((nx, ny), nz), p as ((a, b), c). destruct Hn as (A & B & C). unfold kern. assert (E : inside (nx, ny, nz) (a - a + (nx - 1) / 2, b - b + (ny - 1) / 2, c - c + (nz - 1) / 2)%Z = true).
  { unfold inside. rewrite !andb_true_iff, !Z.leb_le, !Z.ltb_lt. pose proof (Z.div_mod (nx - 1) 2 ltac:(lia)). pose proof (Z.mod_pos_bound (nx - 1) 2 ltac:(lia)). pose proof (Z.div_mod (ny - 1) 2 ltac:(lia)). pose proof (Z.mod_pos_bound (ny - 1) 2 ltac:(lia)).
    pose proof (Z.div_mod (nz - 1) 2 ltac:(lia)). pose proof (Z.mod_pos_bound (nz - 1) 2 ltac:(lia)). lia. }
  rewrite E. apply H.
Qed.
(** One half of the smoothing. *)
Lemma half_ok n f m : pos3 n -> (forall e, 0 < f e) -> Z.of_nat (length m) = n_nodes n -> (forall q, is_node n q -> 0 <= at_node n m q) -> (exists q, is_node n q /\ 0 < at_node n m q) ->
  exists top l, 0 < top /\ normalise (rev (convolve_same n m f)) = Ret l /\ Z.of_nat (length l) = n_nodes n
  /\ forall o, is_node n o -> at_node n l o = / top * sum (fun p => at_node n m p * kern n f (mirror n o) p) (all_nodes n).
Proof.
  intros Hn Hf Hl H0 (q & Hq & Pq). set (L := rev (convolve_same n m f)).
  assert (LL : Z.of_nat (length L) = n_nodes n) by (unfold L; rewrite rev_length; apply convolve_length, Hn).
  assert (LA : forall o, is_node n o -> at_node n L o = sum (fun p => at_node n m p * kern n f (mirror n o) p) (all_nodes n)).
  { intros o Ho. unfold L. rewrite at_rev by (try exact Ho; apply convolve_length, Hn). apply convolve_at, mirror_node, Ho. }
  assert (NN : forall o, is_node n o -> 0 <= at_node n L o).
  { intros o Ho. rewrite LA by exact Ho. apply sum_nonneg. intros p Hp. apply in_all_nodes in Hp. apply Rmult_le_pos; [apply H0, Hp|]. apply kern_nonneg. intros e. left. apply Hf. }
  assert (PP : 0 < at_node n L (mirror n q)).
  { rewrite LA by apply mirror_node, Hq. rewrite mirror_mirror. assert (Iq : In q (all_nodes n)) by (apply in_all_nodes; exact Hq). apply sum_pos_in with q; [exact Iq| |].
    - intros p Hp. apply in_all_nodes in Hp. apply Rmult_le_pos; [apply H0, Hp|]. apply kern_nonneg. intros e. left. apply Hf.
    - apply Rmult_lt_0_compat; [exact Pq|]. apply kern_self; assumption. }
  assert (LI : forall v, In v L -> exists o, is_node n o /\ v = at_node n L o).
  { intros v Hv. rewrite <- (map_all_nodes n L Hn LL) in Hv. apply in_map_iff in Hv. destruct Hv as (o & E & Ho). apply in_all_nodes in Ho. exists o. split; [exact Ho|symmetry; exact E]. }
  destruct (normalise_ok L) as (top & T0 & _ & _ & E).
  - intros ->. cbn in LL. pose proof (flat_range n q Hq). lia.
  - intros v Hv. destruct (LI v Hv) as (o & Ho & ->). apply NN, Ho.
  - exists (at_node n L (mirror n q)). split; [|exact PP]. rewrite <- (map_all_nodes n L Hn LL) at 2. apply in_map, in_all_nodes, mirror_node, Hq.
  - exists top, (map (fun x => x / top) L). split; [exact T0|]. split; [exact E|]. split; [rewrite map_length; exact LL|].
    intros o Ho. rewrite <- (LA o Ho). unfold at_node, value. rewrite rd_map. destruct (rd L (flat n o)); cbn; [unfold Rdiv; ring|ring].
Qed.
(** The smoothed spike, up to a factor. *)
Lemma spike_smoothed n sgm p m : pos3 n -> is_node n p -> spike n p m ->
  exists k l, 0 < k /\ gaufilt3d n sgm m = Ret l /\ Z.of_nat (length l) = n_nodes n
  /\ forall o, is_node n o -> at_node n l o = k * sum (fun q => kern n (gaussian_3d n sgm) (mirror n q) p * kern n (gaussian_3d n sgm) (mirror n o) q) (all_nodes n).
Proof.
  intros Hn Hp (Hl & P0 & Z0). set (f := gaussian_3d n sgm). assert (Hf : forall e, 0 < f e). { intros e. unfold f, gaussian_3d. destruct n as ((?, ?), ?), e as ((?, ?), ?). apply exp_pos. }
  destruct (half_ok n f m Hn Hf Hl) as (t1 & l1 & T1 & E1 & L1 & A1).
  { intros q Hq. assert (q = p \/ q <> p) as [->|N] by (destruct q as ((a, b), d), p as ((i, j), k); destruct (Z.eq_dec a i), (Z.eq_dec b j), (Z.eq_dec d k); subst; try (left; reflexivity); right; congruence); [lra|]. rewrite (Z0 q Hq N). lra. }
  { exists p. split; assumption. }
  assert (B1 : forall o, is_node n o -> at_node n l1 o = / t1 * at_node n m p * kern n f (mirror n o) p).
  { intros o Ho. rewrite (A1 o Ho), (sum_single _ n p Hp); [ring|]. intros q Hq N. rewrite (Z0 q Hq N). ring. }
  assert (I1 : 0 < / t1) by (apply Rinv_0_lt_compat; exact T1).
  destruct (half_ok n f l1 Hn Hf L1) as (t2 & l2 & T2 & E2 & L2 & A2).
  { intros q Hq. rewrite (B1 q Hq). apply Rmult_le_pos; [apply Rmult_le_pos; lra|]. apply kern_nonneg. intros e. left. apply Hf. }
  { exists (mirror n p). split; [apply mirror_node, Hp|]. rewrite B1 by apply mirror_node, Hp. rewrite mirror_mirror. apply Rmult_lt_0_compat; [apply Rmult_lt_0_compat; assumption|]. apply kern_self; assumption. }
  exists (/ t2 * (/ t1 * at_node n m p)), l2. split; [|split; [|split; [exact L2|]]].
  - apply Rmult_lt_0_compat; [apply Rinv_0_lt_compat; exact T2|]. apply Rmult_lt_0_compat; assumption.
  - unfold gaufilt3d. fold f. rewrite E1. cbn [bind]. exact E2.
  - intros o Ho. rewrite (A2 o Ho). rewrite (Rmult_assoc (/ t2)). f_equal. rewrite <- sum_scal. apply sum_ext. intros q Hq. apply in_all_nodes in Hq. rewrite (B1 q Hq). ring.
Qed.

(** * One axis with an odd number of nodes *)

Definition phi (d : Z) : R := exp (- (IZR d * IZR d) / (2 * (4 / 5) * (4 / 5))).
Definition cut (c d : Z) : R := if (Z.abs d <=? c)%Z then phi d else 0.
Lemma half_exp : exp (- (25 / 32)) <= 1 / 2.
Proof.
  rewrite exp_Ropp. assert (2 <= exp (25 / 32)).
  { replace (25 / 32) with (INR 8 * (25 / 256)) by (rewrite INR_IZR_INZ; cbn; field). rewrite <- exp_pow_nat. pose proof (exp_ineq1 (25 / 256) ltac:(lra)) as H.
    apply Rle_trans with ((1 + 25 / 256) ^ 8); [simpl; lra|]. apply pow_incr. lra. }
  replace (1 / 2) with (/ 2) by field. apply Rinv_le_contravar; lra.
Qed.
Lemma phi_pos d : 0 < phi d. Proof. apply exp_pos. Qed.
Lemma phi_0 : phi 0 = 1. Proof. unfold phi. rewrite Rmult_0_l. replace (- 0 / (2 * (4 / 5) * (4 / 5))) with 0 by field. apply exp_0. Qed.
Lemma phi_neg d : phi (- d) = phi d. Proof. unfold phi. rewrite opp_IZR. f_equal. field. Qed.
Lemma exp_le x y : x <= y -> exp x <= exp y.
Proof. intros [H| ->]; [left; apply exp_increasing, H|right; reflexivity]. Qed.
Lemma phi_mono a b : (Z.abs a <= Z.abs b)%Z -> phi b <= phi a.
Proof.
  intros H. unfold phi. apply exp_le. assert (a * a <= b * b)%Z by (rewrite <- (Z.abs_square a), <- (Z.abs_square b); apply Z.mul_le_mono_nonneg; lia).
  apply IZR_le in H0. rewrite !mult_IZR in H0. lra.
Qed.
Lemma phi_prod a b k : (Z.of_nat k <= a * a + b * b)%Z -> phi a * phi b <= (1 / 2) ^ k.
Proof.
  intros H. unfold phi. rewrite <- exp_plus. apply Rle_trans with (exp (- (25 / 32)) ^ k).
  - rewrite exp_pow_nat. apply exp_le. rewrite INR_IZR_INZ. apply IZR_le in H. rewrite plus_IZR, !mult_IZR in H. lra.
  - apply pow_incr. split; [left; apply exp_pos|apply half_exp].
Qed.
Lemma cut_nonneg c d : 0 <= cut c d.
Proof. unfold cut. destruct (Z.abs d <=? c)%Z; [left; apply phi_pos|lra]. Qed.
Lemma cut_neg c d : cut c (- d) = cut c d.
Proof. unfold cut. rewrite Z.abs_opp, phi_neg. reflexivity. Qed.
Lemma cut_0 c : (0 <= c)%Z -> cut c 0 = 1.
Proof. intros H. unfold cut. cbn [Z.abs]. destruct (Z.leb_spec 0 c); [apply phi_0|lia]. Qed.
Lemma cut_half c d : d <> 0%Z -> cut c d <= 1 / 2.
Proof.
  intros H. unfold cut. destruct (Z.abs d <=? c)%Z; [|lra]. pose proof (phi_prod d 0 1) as P. rewrite phi_0, Rmult_1_r, pow_1 in P. apply P.
  assert (1 * 1 <= Z.abs d * Z.abs d)%Z by (apply Z.mul_le_mono_nonneg; lia). rewrite Z.abs_square in H0. lia.
Qed.
Definition tail (o j : Z) : R := if (j =? o)%Z then 0 else 1 / 2 * (1 / 16) ^ Z.abs_nat (j - o).
Lemma tail_nonneg o j : 0 <= tail o j.
Proof. unfold tail. destruct (j =? o)%Z; [lra|]. assert (0 < (1 / 16) ^ Z.abs_nat (j - o)) by (apply pow_lt; lra). lra. Qed.
Lemma sum_app {A} (f : A -> R) l m : sum f (l ++ m) = sum f l + sum f m.
Proof. induction l as [|x l IH]; [cbn [app]; rewrite sum_nil; ring|]. cbn [app]. rewrite !sum_cons, IH. ring. Qed.
Lemma zrange_S n : (0 <= n)%Z -> zrange (n + 1) = zrange n ++ [n].
Proof. intros H. unfold zrange. replace (Z.to_nat (n + 1)) with (Z.to_nat n + 1)%nat by lia. rewrite zseq_app. cbn. rewrite Z2Nat.id by lia. reflexivity. Qed.
Lemma tail_sum o (k : nat) : (0 <= o)%Z ->
  sum (tail o) (zrange (Z.of_nat k)) <= (if (Z.of_nat k <=? o)%Z then 1 / 30 * (1 / 16) ^ Z.abs_nat (o - Z.of_nat k) else 1 / 15 - 1 / 30 * (1 / 16) ^ Z.abs_nat (Z.of_nat k - 1 - o)).
Proof.
  intros Ho. induction k as [|k IH].
  - destruct (Z.leb_spec (Z.of_nat 0) o); [|lia]. change (zrange (Z.of_nat 0)) with (@nil Z). rewrite sum_nil. assert (0 < (1 / 16) ^ Z.abs_nat (o - Z.of_nat 0)) by (apply pow_lt; lra). lra.
  - rewrite Nat2Z.inj_succ. unfold Z.succ. rewrite zrange_S by lia. rewrite sum_app, sum_cons, sum_nil. unfold tail at 2.
    destruct (Z.leb_spec (Z.of_nat k) o), (Z.leb_spec (Z.of_nat k + 1) o), (Z.eqb_spec (Z.of_nat k) o); try lia.
    + replace (Z.abs_nat (Z.of_nat k - o)) with (S (Z.abs_nat (o - (Z.of_nat k + 1)))) by lia. replace (Z.abs_nat (o - Z.of_nat k)) with (S (Z.abs_nat (o - (Z.of_nat k + 1)))) in IH by lia.
      rewrite <- tech_pow_Rmult in *. lra.
    + replace (Z.abs_nat (o - Z.of_nat k)) with 0%nat in IH by lia. replace (Z.abs_nat (Z.of_nat k + 1 - 1 - o)) with 0%nat by lia. simpl in *. lra.
    + replace (Z.abs_nat (Z.of_nat k + 1 - 1 - o)) with (S (Z.abs_nat (Z.of_nat k - 1 - o))) by lia. replace (Z.abs_nat (Z.of_nat k - o)) with (S (Z.abs_nat (Z.of_nat k - 1 - o))) by lia.
      rewrite <- tech_pow_Rmult. lra.
Qed.
Lemma sum_zrange_rev (f : Z -> R) (k : nat) : sum (fun j => f (Z.of_nat k - 1 - j)%Z) (zrange (Z.of_nat k)) = sum f (zrange (Z.of_nat k)).
Proof.
  assert (E : forall (g : Z -> R) (i : nat) lo, sum g (zseq lo i) = sum (fun j => g (lo + (Z.of_nat i - 1 - (j - lo)))%Z) (zseq lo i)); [|].
  { intros g i. induction i as [|i IH]; intros lo; [reflexivity|].
    transitivity (sum g (zseq lo i) + g (lo + Z.of_nat i)%Z). { replace (S i) with (i + 1)%nat by lia. rewrite zseq_app, sum_app. cbn [zseq]. rewrite sum_cons, sum_nil. ring. }
    cbn [zseq]. rewrite sum_cons. replace (lo + (Z.of_nat (S i) - 1 - (lo - lo)))%Z with (lo + Z.of_nat i)%Z by lia. rewrite Rplus_comm. f_equal. rewrite (IH lo).
    assert (Sh : forall (h : Z -> R) a b (w : nat), sum h (zseq (a + b) w) = sum (fun j => h (j + b)%Z) (zseq a w)).
    { intros h a b w. revert a. induction w as [|w IHw]; intros a; [reflexivity|]. cbn [zseq]. rewrite !sum_cons. replace (a + b + 1)%Z with (a + 1 + b)%Z by lia. rewrite IHw. reflexivity. }
    rewrite (Sh _ lo 1%Z). apply sum_ext. intros j _. f_equal. lia. }
  unfold zrange. rewrite Nat2Z.id. rewrite (E f k 0%Z). apply sum_ext. intros j _. f_equal. lia.
Qed.
Definition axis (c p o : Z) : R := sum (fun j => cut c (2 * c - j - p) * cut c (2 * c - o - j)) (zrange (2 * c + 1)).
Lemma axis_eq c p o : (0 <= c)%Z -> axis c p o = sum (fun j => cut c (j - p) * cut c (j - o)) (zrange (2 * c + 1)).
Proof.
  intros H. unfold axis. replace (2 * c + 1)%Z with (Z.of_nat (Z.to_nat (2 * c + 1))) by lia. rewrite <- sum_zrange_rev. apply sum_ext. intros j _. f_equal; f_equal; lia.
Qed.
Lemma axis_nonneg c p o : 0 <= axis c p o.
Proof. unfold axis. apply sum_nonneg. intros. apply Rmult_le_pos; apply cut_nonneg. Qed.
Lemma sum_minus {A} (f g : A -> R) l : sum (fun x => f x - g x) l = sum f l - sum g l.
Proof. induction l as [|x l IH]; [rewrite !sum_nil; ring|]. rewrite !sum_cons, IH. ring. Qed.
Lemma sum_pick (k : R) p n : (0 <= p < n)%Z -> sum (fun j => if (j =? p)%Z then k else 0) (zrange n) = k.
Proof.
  intros H. assert (I : In p (zrange n)) by (apply in_zrange; exact H). pose proof (zrange_nodup n) as ND. induction (zrange n) as [|x l IH]; [destruct I|].
  inversion ND as [|? ? N1 N2]; subst. rewrite sum_cons. destruct (Z.eqb_spec x p) as [->|N].
  - rewrite (sum_ext _ (fun _ => 0)); [rewrite sum_const; ring|]. intros y Hy. destruct (Z.eqb_spec y p) as [->|]; [contradiction|reflexivity].
  - destruct I as [E|I]; [contradiction|]. rewrite (IH I N2). ring.
Qed.
Lemma axis_peak c p o : (0 <= c)%Z -> (0 <= p < 2 * c + 1)%Z -> (0 <= o < 2 * c + 1)%Z -> o <> p -> axis c p o < axis c p p.
Proof.
  intros Hc Hp Ho N. rewrite !axis_eq by exact Hc. set (y := cut c (o - p)). assert (Y : 0 <= y <= 1 / 2) by (split; [apply cut_nonneg|apply cut_half; lia]).
  assert (L : sum (fun j => ((if (j =? p)%Z then 1 - y else 0) + (if (j =? o)%Z then - (y * (1 - y)) else 0)) - tail o j) (zrange (2 * c + 1))
     <= sum (fun j => cut c (j - p) * cut c (j - p) - cut c (j - p) * cut c (j - o)) (zrange (2 * c + 1))).
  { apply sum_le. intros j _. destruct (Z.eqb_spec j p) as [->|Np]; [|destruct (Z.eqb_spec j o) as [->|No]].
    - destruct (Z.eqb_spec p o); [congruence|]. rewrite Z.sub_diag, cut_0 by exact Hc. replace (p - o)%Z with (- (o - p))%Z by lia. rewrite cut_neg. fold y. pose proof (tail_nonneg o p). lra.
    - rewrite Z.sub_diag, cut_0 by exact Hc. fold y. pose proof (tail_nonneg o o). lra.
    - unfold tail. destruct (Z.eqb_spec j o) as [|_]; [contradiction|]. assert (T0 : 0 < (1 / 16) ^ Z.abs_nat (j - o)) by (apply pow_lt; lra).
      unfold cut. destruct (Z.leb_spec (Z.abs (j - p)) c) as [Lp|Lp]; [|lra]. pose proof (phi_pos (j - p)) as Pp.
      destruct (Z.leb_spec (Z.abs (j - o)) c) as [Lo|Lo]; [|pose proof (Rmult_lt_0_compat _ _ Pp Pp); lra].
      destruct (Z.leb_spec (Z.abs (j - p)) (Z.abs (j - o))) as [C|C].
      + apply phi_mono in C. pose proof (Rmult_le_compat_l (phi (j - p)) _ _ (Rlt_le _ _ Pp) C). lra.
      + assert (Q : phi (j - p) * phi (j - o) <= (1 / 2) ^ (4 * Z.abs_nat (j - o) + 1)).
        { apply phi_prod. rewrite <- (Z.abs_square (j - p)), <- (Z.abs_square (j - o)). set (m := Z.abs (j - o)) in *.
          assert (m * m + m + m + 1 <= Z.abs (j - p) * Z.abs (j - p))%Z. { replace (m * m + m + m + 1)%Z with ((m + 1) * (m + 1))%Z by ring. apply Z.mul_le_mono_nonneg; lia. }
          assert (1 * m <= m * m)%Z by (apply Z.mul_le_mono_nonneg_r; lia). lia. }
        rewrite pow_add, pow_mult, pow_1 in Q. replace ((1 / 2) ^ 4) with (1 / 16) in Q by (simpl; field). pose proof (Rmult_lt_0_compat _ _ Pp Pp). lra. }
  rewrite sum_minus, sum_plus, !sum_pick in L by assumption. rewrite sum_minus in L.
  pose proof (tail_sum o (Z.to_nat (2 * c + 1)) ltac:(lia)) as T. rewrite Z2Nat.id in T by lia. destruct (Z.leb_spec (2 * c + 1) o); [lia|].
  assert (0 < (1 / 16) ^ Z.abs_nat (2 * c + 1 - 1 - o)) by (apply pow_lt; lra).
  assert (1 / 4 <= (1 - y) - y * (1 - y)). { replace ((1 - y) - y * (1 - y)) with ((1 - y) * (1 - y)) by ring. replace (1 / 4) with (1 / 2 * (1 / 2)) by field. apply Rmult_le_compat; lra. }
  lra.
Qed.
Lemma axis_max c p o : (0 <= c)%Z -> (0 <= p < 2 * c + 1)%Z -> (0 <= o < 2 * c + 1)%Z -> axis c p o <= axis c p p.
Proof. intros Hc Hp Ho. destruct (Z.eq_dec o p) as [->|N]; [right; reflexivity|left; apply axis_peak; assumption]. Qed.
Lemma axis_pos c p : (0 <= c)%Z -> (0 <= p < 2 * c + 1)%Z -> 0 < axis c p p.
Proof.
  intros Hc Hp. rewrite axis_eq by exact Hc. apply sum_pos_in with p; [apply in_zrange; exact Hp| |].
  - intros. apply Rmult_le_pos; apply cut_nonneg.
  - rewrite Z.sub_diag, cut_0 by exact Hc. lra.
Qed.

(** * One axis with an even number of nodes *)

Definition chi (d : Z) : R := exp (- (25 / 32) * IZR (d * (d - 1))).
Definition cut2 (c d : Z) : R := if (Z.abs (2 * d - 1) <=? 2 * c - 1)%Z then chi d else 0.
Lemma chi_pos d : 0 < chi d. Proof. apply exp_pos. Qed.
Lemma odd_square d : ((2 * d - 1) * (2 * d - 1) = 4 * (d * (d - 1)) + 1)%Z. Proof. ring. Qed.
Lemma abs_le_square a b : (Z.abs a <= Z.abs b)%Z -> (a * a <= b * b)%Z.
Proof. intros H. rewrite <- (Z.abs_square a), <- (Z.abs_square b). apply Z.mul_le_mono_nonneg; lia. Qed.
Lemma chi_mono a b : (Z.abs (2 * a - 1) <= Z.abs (2 * b - 1))%Z -> chi b <= chi a.
Proof.
  intros H. apply abs_le_square in H. rewrite !odd_square in H. unfold chi. apply exp_le. assert (K : (a * (a - 1) <= b * (b - 1))%Z) by lia. apply IZR_le in K. lra.
Qed.
Lemma chi_prod a b k : (Z.of_nat k <= a * (a - 1) + b * (b - 1))%Z -> chi a * chi b <= (1 / 2) ^ k.
Proof.
  intros H. unfold chi. rewrite <- exp_plus. apply Rle_trans with (exp (- (25 / 32)) ^ k).
  - rewrite exp_pow_nat. apply exp_le. rewrite INR_IZR_INZ. apply IZR_le in H. rewrite plus_IZR in H. lra.
  - apply pow_incr. split; [left; apply exp_pos|apply half_exp].
Qed.
Lemma chi_one d : (d = 0 \/ d = 1)%Z -> chi d = 1.
Proof. intros [->| ->]; unfold chi; cbn [Z.mul Z.sub]; replace (- (25 / 32) * IZR _) with 0 by (cbn; ring); apply exp_0. Qed.
Lemma cut2_nonneg c d : 0 <= cut2 c d.
Proof. unfold cut2. destruct (_ <=? _)%Z; [left; apply chi_pos|lra]. Qed.
Lemma cut2_one c d : (1 <= c)%Z -> (d = 0 \/ d = 1)%Z -> cut2 c d = 1.
Proof. intros H K. unfold cut2. destruct (Z.leb_spec (Z.abs (2 * d - 1)) (2 * c - 1)); [apply chi_one, K|lia]. Qed.
Lemma cut2_quarter c d : (d < 0 \/ 1 < d)%Z -> cut2 c d <= 1 / 4.
Proof.
  intros H. unfold cut2. destruct (_ <=? _)%Z; [|lra]. pose proof (chi_prod d 0 2) as P. rewrite (chi_one 0), Rmult_1_r in P by (left; reflexivity). replace ((1 / 2) ^ 2) with (1 / 4) in P by (simpl; field). apply P.
  assert (3 * 3 <= (2 * d - 1) * (2 * d - 1))%Z by (apply abs_le_square; lia). rewrite odd_square in H0. lia.
Qed.
Definition steps (o j : Z) : nat := if (j <=? o)%Z then Z.to_nat (o - j) else Z.to_nat (j - o - 1).
Definition tail2 (o j : Z) : R := 1 / 4 * (1 / 16) ^ steps o j.
Lemma tail2_pos o j : 0 < tail2 o j.
Proof. unfold tail2. assert (0 < (1 / 16) ^ steps o j) by (apply pow_lt; lra). lra. Qed.
Lemma tail2_sum o (k : nat) : (0 <= o)%Z ->
  sum (tail2 o) (zrange (Z.of_nat k)) <= (if (Z.of_nat k <=? o + 1)%Z then 4 / 15 * (1 / 16) ^ Z.abs_nat (o + 1 - Z.of_nat k) else 8 / 15 - 4 / 15 * (1 / 16) ^ Z.abs_nat (Z.of_nat k - 1 - o)).
Proof.
  intros Ho. induction k as [|k IH].
  - destruct (Z.leb_spec (Z.of_nat 0) (o + 1)); [|lia]. change (zrange (Z.of_nat 0)) with (@nil Z). rewrite sum_nil. assert (0 < (1 / 16) ^ Z.abs_nat (o + 1 - Z.of_nat 0)) by (apply pow_lt; lra). lra.
  - rewrite Nat2Z.inj_succ. unfold Z.succ. rewrite zrange_S by lia. rewrite sum_app, sum_cons, sum_nil. unfold tail2 at 2. unfold steps.
    destruct (Z.leb_spec (Z.of_nat k) (o + 1)), (Z.leb_spec (Z.of_nat k + 1) (o + 1)), (Z.leb_spec (Z.of_nat k) o); try lia.
    + replace (Z.to_nat (o - Z.of_nat k)) with (Z.abs_nat (o + 1 - (Z.of_nat k + 1))) by lia. replace (Z.abs_nat (o + 1 - Z.of_nat k)) with (S (Z.abs_nat (o + 1 - (Z.of_nat k + 1)))) in IH by lia.
      rewrite <- tech_pow_Rmult in *. lra.
    + replace (Z.abs_nat (o + 1 - Z.of_nat k)) with 0%nat in IH by lia. replace (Z.abs_nat (Z.of_nat k + 1 - 1 - o)) with 1%nat by lia. replace (Z.to_nat (Z.of_nat k - o - 1)) with 0%nat by lia. simpl in *. lra.
    + replace (Z.abs_nat (Z.of_nat k + 1 - 1 - o)) with (S (Z.abs_nat (Z.of_nat k - 1 - o))) by lia. replace (Z.to_nat (Z.of_nat k - o - 1)) with (Z.abs_nat (Z.of_nat k - 1 - o)) by lia.
      rewrite <- tech_pow_Rmult. lra.
Qed.
Lemma even_peak c p o : (1 <= c)%Z -> (0 <= p < 2 * c - 1)%Z -> (0 <= o < 2 * c)%Z -> o <> p ->
  sum (fun j => cut2 c (j - p) * cut2 c (j - o)) (zrange (2 * c)) < sum (fun j => cut2 c (j - p) * cut2 c (j - p)) (zrange (2 * c)).
Proof.
  intros Hc Hp Ho N. set (far := if (p <? o)%Z then p else (p + 1)%Z). assert (Hf : (0 <= far < 2 * c)%Z) by (unfold far; destruct (Z.ltb_spec p o); lia).
  assert (F1 : cut2 c (far - p) = 1) by (apply cut2_one; [exact Hc|unfold far; destruct (Z.ltb_spec p o); lia]).
  assert (F2 : cut2 c (far - o) <= 1 / 4) by (apply cut2_quarter; unfold far; destruct (Z.ltb_spec p o); lia).
  assert (L : sum (fun j => (if (j =? far)%Z then 3 / 4 else 0) - tail2 o j) (zrange (2 * c))
     <= sum (fun j => cut2 c (j - p) * cut2 c (j - p) - cut2 c (j - p) * cut2 c (j - o)) (zrange (2 * c))).
  { apply sum_le. intros j _. pose proof (tail2_pos o j) as T0. destruct (Z.eqb_spec j far) as [->|Nf]; [rewrite F1; lra|].
    unfold cut2. destruct (Z.leb_spec (Z.abs (2 * (j - p) - 1)) (2 * c - 1)) as [Lp|Lp]; [|lra]. pose proof (chi_pos (j - p)) as Pp.
    destruct (Z.leb_spec (Z.abs (2 * (j - o) - 1)) (2 * c - 1)) as [Lo|Lo]; [|pose proof (Rmult_lt_0_compat _ _ Pp Pp); lra].
    destruct (Z.leb_spec (Z.abs (2 * (j - p) - 1)) (Z.abs (2 * (j - o) - 1))) as [C|C].
    - apply chi_mono in C. pose proof (Rmult_le_compat_l (chi (j - p)) _ _ (Rlt_le _ _ Pp) C). lra.
    - assert (Q : chi (j - p) * chi (j - o) <= (1 / 2) ^ (4 * steps o j + 2)).
      { apply chi_prod. set (r := Z.of_nat (steps o j)). assert (Hr : (0 <= r)%Z) by (unfold r; lia).
        assert (Eo : (Z.abs (2 * (j - o) - 1) = 2 * r + 1)%Z) by (unfold r, steps; destruct (Z.leb_spec j o); lia).
        assert (So : ((2 * r + 1) * (2 * r + 1) = (2 * (j - o) - 1) * (2 * (j - o) - 1))%Z) by (rewrite <- Eo; apply Z.abs_square).
        assert (Sp : ((2 * r + 3) * (2 * r + 3) <= (2 * (j - p) - 1) * (2 * (j - p) - 1))%Z) by (apply abs_le_square; lia).
        rewrite odd_square in So, Sp. assert (0 <= r * r)%Z by (apply Z.mul_nonneg_nonneg; lia). replace (Z.of_nat (4 * steps o j + 2)) with (4 * r + 2)%Z by (unfold r; lia). lia. }
      rewrite pow_add, pow_mult in Q. replace ((1 / 2) ^ 4) with (1 / 16) in Q by (simpl; field). replace ((1 / 2) ^ 2) with (1 / 4) in Q by (simpl; field).
      unfold tail2. pose proof (Rmult_lt_0_compat _ _ Pp Pp). lra. }
  rewrite sum_minus, sum_pick in L by assumption. rewrite sum_minus in L.
  pose proof (tail2_sum o (Z.to_nat (2 * c)) ltac:(lia)) as T. rewrite Z2Nat.id in T by lia.
  assert (P0 : 0 < (1 / 16) ^ Z.abs_nat (2 * c - 1 - o)) by (apply pow_lt; lra).
  assert (P1 : (1 / 16) ^ Z.abs_nat (o + 1 - 2 * c) <= 1) by (generalize (Z.abs_nat (o + 1 - 2 * c)); intros w; induction w as [|w IH]; [simpl; lra|rewrite <- tech_pow_Rmult; lra]).
  destruct (2 * c <=? o + 1)%Z; lra.
Qed.

(** * Any number of nodes *)

(** The factor of one axis: the filter [d] nodes from its middle element. *)
Definition ker1 (n d : Z) : R :=
  if ((0 <=? d + (n - 1) / 2) && (d + (n - 1) / 2 <? n))%Z then
    exp (- ((IZR (d + (n - 1) / 2) - IZR (n - 1) / 2) * (IZR (d + (n - 1) / 2) - IZR (n - 1) / 2)) / (2 * (4 / 5) * (4 / 5)))
  else 0.
Definition smooth1 (n p o : Z) : R := sum (fun j => ker1 n (n - 1 - j - p) * ker1 n (n - 1 - o - j)) (zrange n).
Lemma inside_odd a c : ((0 <=? a + c) && (a + c <? 2 * c + 1))%Z = (Z.abs a <=? c)%Z.
Proof. destruct (Z.leb_spec 0 (a + c)), (Z.ltb_spec (a + c) (2 * c + 1)), (Z.leb_spec (Z.abs a) c); cbn; try reflexivity; lia. Qed.
Lemma inside_even a c : ((0 <=? a + (c - 1)) && (a + (c - 1) <? 2 * c))%Z = (Z.abs (2 * a - 1) <=? 2 * c - 1)%Z.
Proof. destruct (Z.leb_spec 0 (a + (c - 1))), (Z.ltb_spec (a + (c - 1)) (2 * c)), (Z.leb_spec (Z.abs (2 * a - 1)) (2 * c - 1)); cbn; try reflexivity; lia. Qed.
Lemma ker1_odd c d : ker1 (2 * c + 1) d = cut c d.
Proof.
  unfold ker1. replace ((2 * c + 1 - 1) / 2)%Z with c by (replace (2 * c + 1 - 1)%Z with (c * 2)%Z by ring; rewrite Z.div_mul by lia; reflexivity).
  rewrite inside_odd. unfold cut. destruct (_ <=? _)%Z; [|reflexivity]. unfold phi. replace (IZR (d + c) - IZR (2 * c + 1 - 1) / 2) with (IZR d) by (rewrite minus_IZR, !plus_IZR, mult_IZR; field). reflexivity.
Qed.
Definition quarter : R := exp (- (25 / 128)).
Lemma ker1_even c d : ker1 (2 * c) d = quarter * cut2 c d.
Proof.
  unfold ker1. replace ((2 * c - 1) / 2)%Z with (c - 1)%Z by (replace (2 * c - 1)%Z with (1 + (c - 1) * 2)%Z by ring; rewrite Z.div_add by lia; reflexivity).
  rewrite inside_even. unfold cut2. destruct (_ <=? _)%Z; [|ring]. unfold chi, quarter. rewrite <- exp_plus. f_equal. rewrite mult_IZR, !minus_IZR, plus_IZR, minus_IZR, mult_IZR. field.
Qed.
Lemma smooth1_eq n p o : (1 <= n)%Z -> smooth1 n p o = sum (fun j => ker1 n (j - p) * ker1 n (j - o)) (zrange n).
Proof. intros H. unfold smooth1. replace n with (Z.of_nat (Z.to_nat n)) by lia. rewrite <- sum_zrange_rev. apply sum_ext. intros j _. f_equal; f_equal; lia. Qed.
Lemma ker1_nonneg n d : 0 <= ker1 n d.
Proof. unfold ker1. destruct (_ && _); [left; apply exp_pos|lra]. Qed.
Lemma smooth1_nonneg n p o : 0 <= smooth1 n p o.
Proof. unfold smooth1. apply sum_nonneg. intros. apply Rmult_le_pos; apply ker1_nonneg. Qed.
(** All nodes but the last one of an even number. *)
Definition off_edge (n p : Z) : Prop := (0 <= p < n)%Z /\ (Z.even n = true -> p < n - 1)%Z.
Lemma smooth1_peak n p o : off_edge n p -> (0 <= o < n)%Z -> o <> p -> smooth1 n p o < smooth1 n p p.
Proof.
  intros (Hp & He) Ho N. rewrite !smooth1_eq by lia. destruct (Z.even n) eqn:E.
  - apply Z.even_spec in E. destruct E as (c & ->). specialize (He eq_refl). assert (K : forall a, sum (fun j => ker1 (2 * c) (j - p) * ker1 (2 * c) (j - a)) (zrange (2 * c)) = quarter * quarter * sum (fun j => cut2 c (j - p) * cut2 c (j - a)) (zrange (2 * c))).
    { intros a. rewrite <- sum_scal. apply sum_ext. intros j _. rewrite !ker1_even. ring. }
    rewrite !K. apply Rmult_lt_compat_l; [apply Rmult_lt_0_compat; apply exp_pos|]. apply even_peak; lia.
  - assert (O : Z.odd n = true) by (rewrite <- Z.negb_even, E; reflexivity). apply Z.odd_spec in O. destruct O as (c & ->).
    assert (K : forall a, sum (fun j => ker1 (2 * c + 1) (j - p) * ker1 (2 * c + 1) (j - a)) (zrange (2 * c + 1)) = axis c p a).
    { intros a. rewrite axis_eq by lia. apply sum_ext. intros j _. rewrite !ker1_odd. reflexivity. }
    rewrite !K. apply axis_peak; lia.
Qed.
Lemma smooth1_max n p o : off_edge n p -> (0 <= o < n)%Z -> smooth1 n p o <= smooth1 n p p.
Proof. intros Hp Ho. destruct (Z.eq_dec o p) as [->|N]; [right; reflexivity|left; apply smooth1_peak; assumption]. Qed.
Lemma smooth1_pos n p : off_edge n p -> 0 < smooth1 n p p.
Proof.
  intros (Hp & _). rewrite smooth1_eq by lia. apply sum_pos_in with p; [apply in_zrange; exact Hp| |].
  - intros. apply Rmult_le_pos; apply ker1_nonneg.
  - assert (0 < ker1 n (p - p)); [|apply Rmult_lt_0_compat; assumption]. unfold ker1. rewrite Z.sub_diag, Z.add_0_l.
    pose proof (Z.div_pos (n - 1) 2 ltac:(lia) ltac:(lia)). assert ((n - 1) / 2 < n)%Z by (apply Z.div_lt_upper_bound; lia).
    destruct (Z.leb_spec 0 ((n - 1) / 2)); [|lia]. destruct (Z.ltb_spec ((n - 1) / 2) n); [|lia]. apply exp_pos.
Qed.

(** * Three axes *)

Lemma sum_flat_map {A B} (f : B -> R) (g : A -> list B) l : sum f (flat_map g l) = sum (fun x => sum f (g x)) l.
Proof. induction l as [|x l IH]; [reflexivity|]. cbn [flat_map]. rewrite sum_app, sum_cons, IH. reflexivity. Qed.
Lemma sum_product (F G H : Z -> R) nx ny nz : sum (fun q => let '(i, j, k) := q in F i * G j * H k) (all_nodes (nx, ny, nz)) = sum F (zrange nx) * sum G (zrange ny) * sum H (zrange nz).
Proof.
  unfold all_nodes. rewrite sum_flat_map. rewrite (sum_ext _ (fun i => (sum G (zrange ny) * sum H (zrange nz)) * F i)).
  - rewrite sum_scal. ring.
  - intros i _. rewrite sum_flat_map. rewrite (sum_ext _ (fun j => (F i * sum H (zrange nz)) * G j)).
    + rewrite sum_scal. ring.
    + intros j _. rewrite sum_map. rewrite (sum_scal H (F i * G j)). ring.
Qed.
Lemma kern_product nx ny nz o p : kern (nx, ny, nz) (gaussian_3d (nx, ny, nz) (4 / 5)) o p =
  let '(i, j, k) := o in let '(a, b, c) := p in ker1 nx (i - a) * ker1 ny (j - b) * ker1 nz (k - c).
Proof.
  destruct o as ((i, j), k), p as ((a, b), c). unfold kern, inside, ker1.
  set (X := (i - a + (nx - 1) / 2)%Z). set (Y := (j - b + (ny - 1) / 2)%Z). set (W := (k - c + (nz - 1) / 2)%Z).
  destruct ((0 <=? X) && (X <? nx))%Z eqn:E1; [|cbn; ring]. rewrite <- (andb_assoc _ (0 <=? Y)%Z). destruct ((0 <=? Y) && (Y <? ny))%Z eqn:E2; [|cbn; ring].
  rewrite <- (andb_assoc _ (0 <=? W)%Z). destruct ((0 <=? W) && (W <? nz))%Z eqn:E3; [|cbn; ring].
  cbn [andb]. unfold gaussian_3d. rewrite <- !exp_plus. f_equal. field.
Qed.
Lemma smoothed_product nx ny nz p o : sum (fun q => kern (nx, ny, nz) (gaussian_3d (nx, ny, nz) (4 / 5)) (mirror (nx, ny, nz) q) p * kern (nx, ny, nz) (gaussian_3d (nx, ny, nz) (4 / 5)) (mirror (nx, ny, nz) o) q) (all_nodes (nx, ny, nz))
  = let '(a, b, c) := p in let '(i, j, k) := o in smooth1 nx a i * smooth1 ny b j * smooth1 nz c k.
Proof.
  destruct p as ((a, b), c), o as ((i, j), k). unfold smooth1. rewrite <- sum_product. apply sum_ext. intros ((x, y), z) _. rewrite !kern_product. unfold mirror. ring.
Qed.
Lemma spike_stays nx ny nz a b c m : off_edge nx a -> off_edge ny b -> off_edge nz c -> spike (nx, ny, nz) (a, b, c) m ->
  exists l, gaufilt3d (nx, ny, nz) (4 / 5) m = Ret l /\ Z.of_nat (length l) = n_nodes (nx, ny, nz)
  /\ forall o, is_node (nx, ny, nz) o -> o <> (a, b, c) -> at_node (nx, ny, nz) l o < at_node (nx, ny, nz) l (a, b, c).
Proof.
  intros Pa Pb Pc Hs. assert (Hp : is_node (nx, ny, nz) (a, b, c)) by (split; [apply Pa|split; [apply Pb|apply Pc]]). assert (Hn : pos3 (nx, ny, nz)) by (unfold pos3, is_node in *; lia).
  destruct (spike_smoothed (nx, ny, nz) (4 / 5) _ m Hn Hp Hs) as (k & l & K & E & L & A). exists l. split; [exact E|]. split; [exact L|]. intros o Ho N. rewrite (A o Ho), (A _ Hp).
  apply Rmult_lt_compat_l; [exact K|]. rewrite !smoothed_product. destruct o as ((i, j), r). destruct Ho as (Oi & Oj & Or).
  pose proof (smooth1_pos nx a Pa) as A0. pose proof (smooth1_pos ny b Pb) as B0. pose proof (smooth1_pos nz c Pc) as C0.
  pose proof (smooth1_max nx a i Pa Oi) as A1. pose proof (smooth1_max ny b j Pb Oj) as B1. pose proof (smooth1_max nz c r Pc Or) as C1.
  pose proof (smooth1_nonneg nx a i) as A2. pose proof (smooth1_nonneg ny b j) as B2. pose proof (smooth1_nonneg nz c r) as C2.
  destruct (Z.eq_dec i a) as [->|Na]; [destruct (Z.eq_dec j b) as [->|Nb]; [destruct (Z.eq_dec r c) as [->|Nc]; [congruence|]|]|].
  - apply Rmult_lt_compat_l; [apply Rmult_lt_0_compat; assumption|]. apply smooth1_peak; assumption.
  - pose proof (smooth1_peak ny b j Pb Oj Nb) as Q. apply Rle_lt_trans with (smooth1 nx a a * smooth1 ny b j * smooth1 nz c c); [apply Rmult_le_compat_l; [apply Rmult_le_pos; lra|exact C1]|].
    apply Rmult_lt_compat_r; [exact C0|]. apply Rmult_lt_compat_l; assumption.
  - pose proof (smooth1_peak nx a i Pa Oi Na) as Q. apply Rle_lt_trans with (smooth1 nx a i * smooth1 ny b b * smooth1 nz c c).
    + apply Rmult_le_compat; [apply Rmult_le_pos; assumption|exact C2|apply Rmult_le_compat_l; assumption|exact C1].
    + apply Rmult_lt_compat_r; [exact C0|]. apply Rmult_lt_compat_r; assumption.
Qed.

(** * An even number of nodes *)

Lemma spike_moves m : spike (4, 1, 1)%Z (3, 0, 0)%Z m ->
  exists l, gaufilt3d (4, 1, 1)%Z (4 / 5) m = Ret l /\ at_node (4, 1, 1)%Z l (3, 0, 0)%Z < at_node (4, 1, 1)%Z l (2, 0, 0)%Z.
Proof.
  intros Hs. assert (Hp : is_node (4, 1, 1)%Z (3, 0, 0)%Z) by (unfold is_node; lia). assert (Hq : is_node (4, 1, 1)%Z (2, 0, 0)%Z) by (unfold is_node; lia).
  destruct (spike_smoothed (4, 1, 1)%Z (4 / 5) (3, 0, 0)%Z m ltac:(unfold pos3; lia) Hp Hs) as (k & l & K & E & L & A). exists l. split; [exact E|].
  rewrite (A _ Hp), (A _ Hq). apply Rmult_lt_compat_l; [exact K|]. clear A E L l K Hs m k.
  assert (F : forall e, gaussian_3d (4, 1, 1)%Z (4 / 5) (e, 0, 0)%Z = exp (- ((IZR e - 3 / 2) * (IZR e - 3 / 2)) / (2 * (4 / 5) * (4 / 5)))).
  { intros e. unfold gaussian_3d. f_equal. change (4 - 1)%Z with 3%Z. change (1 - 1)%Z with 0%Z. field. }
  assert (F2 : gaussian_3d (4, 1, 1)%Z (4 / 5) (2, 0, 0)%Z = gaussian_3d (4, 1, 1)%Z (4 / 5) (1, 0, 0)%Z) by (rewrite !F; f_equal; field).
  assert (F0 : gaussian_3d (4, 1, 1)%Z (4 / 5) (0, 0, 0)%Z < gaussian_3d (4, 1, 1)%Z (4 / 5) (1, 0, 0)%Z) by (rewrite !F; apply exp_increasing; lra).
  assert (P0 : 0 < gaussian_3d (4, 1, 1)%Z (4 / 5) (0, 0, 0)%Z) by (rewrite F; apply exp_pos).
  set (f := gaussian_3d (4, 1, 1)%Z (4 / 5)) in *. change (all_nodes (4, 1, 1)%Z) with [(0, 0, 0); (1, 0, 0); (2, 0, 0); (3, 0, 0)]%Z. rewrite !sum_cons, !sum_nil.
  change (kern (4, 1, 1)%Z f (mirror (4, 1, 1)%Z (0, 0, 0)%Z) (3, 0, 0)%Z) with (f (1, 0, 0)%Z). change (kern (4, 1, 1)%Z f (mirror (4, 1, 1)%Z (1, 0, 0)%Z) (3, 0, 0)%Z) with (f (0, 0, 0)%Z).
  change (kern (4, 1, 1)%Z f (mirror (4, 1, 1)%Z (2, 0, 0)%Z) (3, 0, 0)%Z) with 0. change (kern (4, 1, 1)%Z f (mirror (4, 1, 1)%Z (3, 0, 0)%Z) (3, 0, 0)%Z) with 0.
  change (kern (4, 1, 1)%Z f (mirror (4, 1, 1)%Z (3, 0, 0)%Z) (0, 0, 0)%Z) with (f (1, 0, 0)%Z). change (kern (4, 1, 1)%Z f (mirror (4, 1, 1)%Z (3, 0, 0)%Z) (1, 0, 0)%Z) with (f (0, 0, 0)%Z).
  change (kern (4, 1, 1)%Z f (mirror (4, 1, 1)%Z (2, 0, 0)%Z) (0, 0, 0)%Z) with (f (2, 0, 0)%Z). change (kern (4, 1, 1)%Z f (mirror (4, 1, 1)%Z (2, 0, 0)%Z) (1, 0, 0)%Z) with (f (1, 0, 0)%Z).
  rewrite F2. pose proof (Rmult_lt_compat_l _ _ _ P0 F0). lra.
Qed.

(** Proofs about amplitude measurements. *)
From Coq Require Import String Ascii.
From Coq Require Import List ZArith QArith Qround Qminmax Qabs Lia Lqa Bool.
From Verif Require Import Lib LibFacts PySlice PySliceFacts Amp_Model Amp_Spec.
Import ListNotations.
Open Scope Z_scope.

Lemma Qlt_b_spec x y : Qlt_b x y = true <-> (x < y)%Q.
Proof.
  unfold Qlt_b. rewrite negb_true_iff. destruct (Qle_bool y x) eqn:E.
  - split; [discriminate|]. intros H. apply Qle_bool_iff in E. lra.
  - split; [|reflexivity]. intros _. apply Qnot_le_lt. intros C. apply Qle_bool_iff in C. congruence.
Qed.
Lemma Qlt_b_false x y : Qlt_b x y = false <-> (y <= x)%Q.
Proof.
  unfold Qlt_b. rewrite negb_false_iff. apply Qle_bool_iff.
Qed.

(** * Samples *)
Lemma at_rd x i : 0 <= i < Z.of_nat (length x) -> rd x i = Some (at_ x i).
Proof. intros H. unfold at_. destruct (rd_in_range _ x i H) as [v ->]. reflexivity. Qed.
Lemma at_of x i v : rd x i = Some v -> at_ x i = v.
Proof. intros H. unfold at_. rewrite H. reflexivity. Qed.
Lemma at_opp x i : at_ (map Qopp x) i = Qopp (at_ x i).
Proof. unfold at_. rewrite rd_map. destruct (rd x i); reflexivity. Qed.
Lemma opp_opp x : map Qopp (map Qopp x) = x.
Proof.
  rewrite map_map. rewrite <- (map_id x) at 2. apply map_ext. intros [n d]. unfold Qopp. cbn. rewrite Z.opp_involutive. reflexivity.
Qed.
Lemma len_opp x : length (map Qopp x) = length x. Proof. apply map_length. Qed.

Lemma rd_none_ge {A} (l : list A) i : 0 <= i -> rd l i = None -> Z.of_nat (length l) <= i.
Proof. intros H E. destruct (Z.lt_ge_cases i (Z.of_nat (length l))) as [L|L]; [|exact L]. destruct (rd_in_range _ l i ltac:(lia)) as [v Hv]. congruence. Qed.

(** * Runs *)
Lemma run_end_ok x : forall fuel i, 0 <= i < Z.of_nat (length x) -> Z.of_nat (length x) - i <= Z.of_nat fuel ->
  let r := run_end fuel x i in
  i <= r < Z.of_nat (length x) /\ (forall k, i <= k <= r -> (at_ x k == at_ x i)%Q)
  /\ (r + 1 < Z.of_nat (length x) -> ~ (at_ x (r + 1) == at_ x i)%Q).
Proof.
  induction fuel as [|f IH]; intros i Hi Hf; [lia|]. cbn [run_end].
  destruct (rd x (i + 1)) as [v|] eqn:E.
  - pose proof (rd_bounds _ _ _ _ E) as B. pose proof (at_of _ _ _ E) as Ev. destruct (Qeq_bool v (at_ x i)) eqn:Eq.
    + apply Qeq_bool_iff in Eq. rewrite <- Ev in Eq. destruct (IH (i + 1) ltac:(lia) ltac:(lia)) as (I1 & I2 & I3).
      cbv zeta in *. split; [lia|]. split.
      * intros k Hk. destruct (Z.eq_dec k i) as [->|Hn]; [lra|]. rewrite (I2 k) by lia. exact Eq.
      * intros Hr C. apply (I3 Hr). rewrite C. lra.
    + cbv zeta. split; [lia|]. split; [intros k Hk; replace k with i by lia; lra|].
      intros _ C. rewrite Ev in C. apply Qeq_bool_iff in C. congruence.
  - cbv zeta. assert (Hn : Z.of_nat (length x) <= i + 1) by (apply rd_none_ge; [lia|exact E]). split; [lia|]. split; [intros k Hk; replace k with i by lia; lra|]. intros C. lia.
Qed.

(** * Local maxima *)
Definition plateau (x : list Q) (l r : Z) : Prop :=
  1 <= l /\ l <= r /\ r + 1 < Z.of_nat (length x)
  /\ (forall k, l <= k <= r -> (at_ x k == at_ x l)%Q) /\ (at_ x (l - 1) < at_ x l)%Q /\ (at_ x (r + 1) < at_ x l)%Q.
Lemma is_maximum_plateau x p : is_maximum x p <-> exists l r, plateau x l r /\ p = (l + r) / 2.
Proof.
  unfold is_maximum, plateau. split; intros (l & r & H); exists l, r; tauto.
Qed.
Lemma mid_in l r : l <= r -> l <= (l + r) / 2 <= r.
Proof. intros H. split; [apply Z.div_le_lower_bound; lia|apply Z.div_le_upper_bound; lia]. Qed.

Lemma maximum_at_ok x i p : 0 <= i < Z.of_nat (length x) -> 1 <= i ->
  (In p (maximum_at x i) <-> exists r, plateau x i r /\ p = (i + r) / 2).
Proof.
  intros Hi H1. unfold maximum_at. set (r := run_end (length x) x i).
  destruct (run_end_ok x (length x) i Hi ltac:(lia)) as (R1 & R2 & R3). fold r in R1, R2, R3.
  assert (Huniq : forall r', plateau x i r' -> r' = r).
  { intros r' (_ & P1 & P2 & P3 & _ & P4). destruct (Z.lt_trichotomy r' r) as [L|[E|L]]; [|exact E|]; exfalso.
    - assert (E : (at_ x (r' + 1) == at_ x i)%Q) by (apply R2; lia). lra.
    - apply R3; [lia|]. apply P3. lia. }
  destruct (Qlt_b (at_ x (i - 1)) (at_ x i)) eqn:E1.
  - apply Qlt_b_spec in E1. destruct (rd x (r + 1)) as [v|] eqn:E2.
    + pose proof (rd_bounds _ _ _ _ E2). pose proof (at_of _ _ _ E2) as Ev. destruct (Qlt_b v (at_ x i)) eqn:E3.
      * apply Qlt_b_spec in E3. split.
        -- intros [<-|[]]. exists r. split; [|reflexivity]. repeat split; try lia; try assumption. rewrite Ev. exact E3.
        -- intros (r' & HP & ->). left. rewrite (Huniq r' HP). reflexivity.
      * split; [intros []|]. intros (r' & HP & _). pose proof (Huniq r' HP) as ->. destruct HP as (_ & _ & _ & _ & _ & HP). rewrite Ev in HP.
        apply Qlt_b_spec in HP. congruence.
    + split; [intros []|]. intros (r' & HP & _). pose proof (Huniq r' HP) as ->. apply rd_none_ge in E2; [|lia]. destruct HP as (_ & _ & HP & _). lia.
  - split; [intros []|]. intros (r' & (_ & _ & _ & _ & HP & _) & _). apply Qlt_b_spec in HP. congruence.
Qed.

Lemma local_maxima_in x p : In p (local_maxima x) <-> is_maximum x p.
Proof.
  rewrite is_maximum_plateau. unfold local_maxima. rewrite in_flat_map. split.
  - intros (i & Hi & Hp). apply in_zseq in Hi. apply maximum_at_ok in Hp; [|lia|lia]. destruct Hp as (r & HP & E). exists i, r. auto.
  - intros (l & r & HP & E). pose proof HP as (H1 & H2 & H3 & _). exists l. split; [apply in_zseq; lia|]. apply maximum_at_ok; [lia|lia|]. exists r. auto.
Qed.

Lemma plateau_apart x l r l' r' : plateau x l r -> plateau x l' r' -> l < l' -> r < l' - 1.
Proof.
  intros (A1 & A2 & A3 & A4 & A5 & A6) (B1 & B2 & B3 & B4 & B5 & B6) H.
  destruct (Z.lt_ge_cases r (l' - 1)) as [L|L]; [exact L|exfalso].
  destruct (Z.eq_dec r (l' - 1)) as [E|E].
  - assert (C : (at_ x r == at_ x l)%Q) by (apply A4; lia). subst r. replace (l' - 1 + 1) with l' in A6 by lia. lra.
  - assert (C1 : (at_ x (l' - 1) == at_ x l)%Q) by (apply A4; lia). assert (C2 : (at_ x l' == at_ x l)%Q) by (apply A4; lia). lra.
Qed.
Lemma plateau_left_unique x l r r' : plateau x l r -> plateau x l r' -> r = r'.
Proof.
  intros (A1 & A2 & A3 & A4 & A5 & A6) (B1 & B2 & B3 & B4 & B5 & B6). destruct (Z.lt_trichotomy r r') as [L|[E|L]]; [|exact E|]; exfalso.
  - assert (E : (at_ x (r + 1) == at_ x l)%Q) by (apply B4; lia). lra.
  - assert (E : (at_ x (r' + 1) == at_ x l)%Q) by (apply A4; lia). lra.
Qed.

(** * Increasing lists *)
Lemma increasing_cons a l : increasing (a :: l) <-> (forall b, In b l -> a < b) /\ increasing l.
Proof.
  split.
  - intros H. split.
    + intros b Hb. destruct (in_rd _ _ _ Hb) as [j Hj]. pose proof (rd_bounds _ _ _ _ Hj). apply (H 0 (j + 1)); [lia|reflexivity|rewrite rd_S by lia; exact Hj].
    + intros i j u v Hij Hu Hv. pose proof (rd_bounds _ _ _ _ Hu). pose proof (rd_bounds _ _ _ _ Hv). apply (H (i + 1) (j + 1)); [lia| |]; rewrite rd_S by lia; assumption.
  - intros [H1 H2] i j u v Hij Hu Hv. pose proof (rd_bounds _ _ _ _ Hu). pose proof (rd_bounds _ _ _ _ Hv).
    replace j with ((j - 1) + 1) in Hv by lia. rewrite rd_S in Hv by lia. destruct (Z.eq_dec i 0) as [->|Hi].
    + rewrite rd_0 in Hu. assert (a = u) by congruence. subst u. apply H1. exact (rd_in _ _ _ _ Hv).
    + replace i with ((i - 1) + 1) in Hu by lia. rewrite rd_S in Hu by lia. apply (H2 (i - 1) (j - 1)); [lia|exact Hu|exact Hv].
Qed.
Lemma increasing_nil : increasing []. Proof. intros i j a b _ H. rewrite rd_nil in H. discriminate. Qed.
Lemma increasing_app l l' : increasing l -> increasing l' -> (forall a b, In a l -> In b l' -> a < b) -> increasing (l ++ l').
Proof.
  induction l as [|a l IH]; intros H H' Hab; cbn [app]; [exact H'|]. apply increasing_cons in H. destruct H as [H1 H2].
  apply increasing_cons. split.
  - intros b Hb. apply in_app_iff in Hb. destruct Hb as [Hb|Hb]; [apply H1, Hb|apply Hab; [left; reflexivity|exact Hb]].
  - apply IH; [exact H2|exact H'|]. intros u v Hu Hv. apply Hab; [right; exact Hu|exact Hv].
Qed.
Lemma increasing_filter f l : increasing l -> increasing (filter f l).
Proof.
  induction l as [|a l IH]; intros H; cbn [filter]; [exact increasing_nil|]. apply increasing_cons in H. destruct H as [H1 H2].
  destruct (f a); [|apply IH, H2]. apply increasing_cons. split; [|apply IH, H2]. intros b Hb. apply filter_In in Hb. apply H1, Hb.
Qed.

Lemma maxima_increasing x : forall n k, 1 <= k -> k + Z.of_nat n <= Z.of_nat (length x) -> increasing (flat_map (maximum_at x) (zseq k n)).
Proof.
  induction n as [|n IH]; intros k Hk Hn; cbn [zseq flat_map]; [exact increasing_nil|]. apply increasing_app.
  - unfold maximum_at. destruct (Qlt_b _ _); [|exact increasing_nil]. destruct (rd x _); [|exact increasing_nil]. destruct (Qlt_b _ _); [|exact increasing_nil].
    apply increasing_cons. split; [intros b []|exact increasing_nil].
  - apply IH; lia.
  - intros a b Ha Hb. apply maximum_at_ok in Ha; [|lia|lia]. destruct Ha as (r & HP & ->). apply in_flat_map in Hb. destruct Hb as (j & Hj & Hb).
    apply in_zseq in Hj. apply maximum_at_ok in Hb; [|lia|lia]. destruct Hb as (r' & HP' & ->).
    pose proof (plateau_apart _ _ _ _ _ HP HP' ltac:(lia)). pose proof (mid_in k r). pose proof (mid_in j r'). destruct HP as (_ & P & _), HP' as (_ & P' & _). lia.
Qed.
Lemma local_maxima_increasing x : increasing (local_maxima x).
Proof.
  unfold local_maxima. destruct x as [|a x]; [exact increasing_nil|]. apply maxima_increasing; cbn [length]; lia.
Qed.
Lemma find_peaks_increasing x t : increasing (find_peaks x t).
Proof. apply increasing_filter, local_maxima_increasing. Qed.
Lemma find_peaks_in x t p : In p (find_peaks x t) <-> is_maximum x p /\ (t <= prominence x p)%Q.
Proof. unfold find_peaks. rewrite filter_In, local_maxima_in, Qle_bool_iff. reflexivity. Qed.
Lemma minimum_opp x p : is_minimum x p <-> is_maximum (map Qopp x) p.
Proof.
  unfold is_minimum, is_maximum. rewrite len_opp. split; intros (l & r & H1 & H2 & H3 & H4 & H5 & H6 & H7); exists l, r.
  - rewrite !at_opp. repeat (split; [assumption|]). split; [|split; lra]. intros k Hk. rewrite !at_opp, (H5 k Hk). reflexivity.
  - rewrite !at_opp in *. repeat (split; [assumption|]). split; [|split; lra]. intros k Hk. specialize (H5 k Hk). rewrite !at_opp in H5. lra.
Qed.

Lemma plateau_bounds x l r k : plateau x l r -> l <= k <= r -> 0 <= k < Z.of_nat (length x).
Proof. intros (A & B & C & _). lia. Qed.
Lemma max_not_min x p : is_maximum x p -> ~ is_minimum x p.
Proof.
  intros H H'. apply is_maximum_plateau in H. destruct H as (l & r & (A1 & A2 & A3 & A4 & A5 & A6) & E).
  destruct H' as (l' & r' & B1 & B2 & B3 & E' & B4 & B5 & B6). pose proof (mid_in l r A2). pose proof (mid_in l' r' B2).
  assert (Hp : (at_ x p == at_ x l)%Q) by (apply A4; lia). assert (Hp' : (at_ x p == at_ x l')%Q) by (apply B4; lia).
  destruct (Z.lt_trichotomy l l') as [L|[->|L]].
  - assert (C : (at_ x (l' - 1) == at_ x l)%Q) by (apply A4; lia). lra.
  - lra.
  - assert (C : (at_ x (l - 1) == at_ x l')%Q) by (apply B4; lia). lra.
Qed.

(** * Prominence *)
Lemma base_le_m v : forall l m, (base v m l <= m)%Q.
Proof.
  induction l as [|y l IH]; intros m; cbn [base]; [lra|]. destruct (Qle_bool y v); [|lra]. specialize (IH (Qmin m y)). pose proof (Q.le_min_l m y). lra.
Qed.
Lemma base_le v : forall l m k y, rd l k = Some y -> (forall j z, 0 <= j <= k -> rd l j = Some z -> (z <= v)%Q) -> (base v m l <= y)%Q.
Proof.
  induction l as [|a l IH]; intros m k y Hk Hall; [rewrite rd_nil in Hk; discriminate|]. cbn [base]. pose proof (rd_bounds _ _ _ _ Hk) as B.
  assert (Ha : (a <= v)%Q) by (apply (Hall 0 a); [lia|reflexivity]). apply Qle_bool_iff in Ha. rewrite Ha.
  destruct (Z.eq_dec k 0) as [->|Hn].
  - rewrite rd_0 in Hk. assert (a = y) by congruence. subst y. pose proof (base_le_m v l (Qmin m a)). pose proof (Q.le_min_r m a). lra.
  - replace k with ((k - 1) + 1) in Hk by lia. rewrite rd_S in Hk by lia. apply (IH _ (k - 1)); [exact Hk|].
    intros j z Hj Hz. apply (Hall (j + 1) z); [lia|rewrite rd_S by lia; exact Hz].
Qed.
Lemma base_ge v b : forall l m, (b <= m)%Q ->
  (forall k y, rd l k = Some y -> (forall j z, 0 <= j <= k -> rd l j = Some z -> (z <= v)%Q) -> (b <= y)%Q) -> (b <= base v m l)%Q.
Proof.
  induction l as [|a l IH]; intros m Hm H; cbn [base]; [exact Hm|]. destruct (Qle_bool a v) eqn:E; [|exact Hm]. apply Qle_bool_iff in E. apply IH.
  - apply Q.min_glb; [exact Hm|]. apply (H 0 a); [reflexivity|]. intros j z Hj Hz. replace j with 0 in Hz by lia. rewrite rd_0 in Hz.
    assert (a = z) by congruence. subst z. exact E.
  - intros k y Hk Hall. pose proof (rd_bounds _ _ _ _ Hk). apply (H (k + 1) y); [rewrite rd_S by lia; exact Hk|]. intros j z Hj Hz.
    destruct (Z.eq_dec j 0) as [->|Hn]; [rewrite rd_0 in Hz; assert (a = z) by congruence; subst z; exact E|].
    replace j with ((j - 1) + 1) in Hz by lia. rewrite rd_S in Hz by lia. apply (Hall (j - 1) z); [lia|exact Hz].
Qed.

Lemma rd_right (x : list Q) p k : 0 <= p -> 0 <= k -> rd (skipn (Z.to_nat (p + 1)) x) k = rd x (p + 1 + k).
Proof. intros Hp Hk. rewrite rd_skipn by lia. reflexivity. Qed.
Lemma rd_rev {A} (l : list A) i : 0 <= i < Z.of_nat (length l) -> rd (rev l) i = rd l (Z.of_nat (length l) - 1 - i).
Proof.
  revert i. induction l as [|a l IH]; intros i Hi; [cbn in Hi; lia|]. cbn [rev length] in *.
  destruct (Z.eq_dec i (Z.of_nat (length l))) as [->|Hn].
  - rewrite rd_app2 by (rewrite rev_length; lia). rewrite rev_length. replace (Z.of_nat (length l) - Z.of_nat (length l)) with 0 by lia.
    replace (Z.of_nat (S (length l)) - 1 - Z.of_nat (length l)) with 0 by lia. reflexivity.
  - rewrite rd_app1 by (rewrite rev_length; lia). rewrite IH by lia.
    replace (Z.of_nat (S (length l)) - 1 - i) with ((Z.of_nat (length l) - 1 - i) + 1) by lia. rewrite rd_S by lia. reflexivity.
Qed.
Lemma rd_left (x : list Q) p k : 0 <= p <= Z.of_nat (length x) -> 0 <= k < p -> rd (rev (firstn (Z.to_nat p) x)) k = rd x (p - 1 - k).
Proof.
  intros Hp Hk. assert (L : Z.of_nat (length (firstn (Z.to_nat p) x)) = p) by (rewrite firstn_length; lia).
  rewrite rd_rev by lia. rewrite L. apply rd_firstn. lia.
Qed.
Lemma left_bound (x : list Q) p k y : 0 <= p <= Z.of_nat (length x) -> rd (rev (firstn (Z.to_nat p) x)) k = Some y -> 0 <= k < p.
Proof. intros Hp H. apply rd_bounds in H. rewrite rev_length, firstn_length in H. lia. Qed.

(** The prominence of [p] is at most its height above the lowest sample before a higher one. *)
Lemma prom_le_right x p k b : 0 <= p -> p < k < Z.of_nat (length x) -> (at_ x p < at_ x k)%Q -> (b <= at_ x p)%Q ->
  (forall j, p < j < k -> (b <= at_ x j)%Q) -> (prominence x p <= at_ x p - b)%Q.
Proof.
  intros Hp Hk Hgt Hb Hall. unfold prominence. set (v := at_ x p) in *.
  assert (H : (b <= base v v (skipn (Z.to_nat (p + 1)) x))%Q).
  { apply base_ge; [exact Hb|]. intros j y Hj Hw. pose proof (rd_bounds _ _ _ _ Hj) as Bj. rewrite rd_right in Hj by lia.
    rewrite <- (at_of _ _ _ Hj). destruct (Z.lt_ge_cases (p + 1 + j) k) as [L|L]; [apply Hall; lia|]. exfalso.
    assert (C : (at_ x k <= v)%Q).
    { apply (Hw (k - p - 1)); [lia|]. rewrite rd_right by lia. replace (p + 1 + (k - p - 1)) with k by lia. apply at_rd. lia. }
    lra. }
  pose proof (Q.le_max_r (base v v (rev (firstn (Z.to_nat p) x))) (base v v (skipn (Z.to_nat (p + 1)) x))). lra.
Qed.
Lemma prom_le_left x p k b : 0 <= k < p -> p < Z.of_nat (length x) -> (at_ x p < at_ x k)%Q -> (b <= at_ x p)%Q ->
  (forall j, k < j < p -> (b <= at_ x j)%Q) -> (prominence x p <= at_ x p - b)%Q.
Proof.
  intros Hk Hp Hgt Hb Hall. unfold prominence. set (v := at_ x p) in *.
  assert (H : (b <= base v v (rev (firstn (Z.to_nat p) x)))%Q).
  { apply base_ge; [exact Hb|]. intros j y Hj Hw. pose proof (left_bound x p j y ltac:(lia) Hj) as Bj. rewrite rd_left in Hj by lia.
    rewrite <- (at_of _ _ _ Hj). destruct (Z.lt_ge_cases k (p - 1 - j)) as [L|L]; [apply Hall; lia|]. exfalso.
    assert (C : (at_ x k <= v)%Q).
    { apply (Hw (p - 1 - k)); [lia|]. rewrite rd_left by lia. replace (p - 1 - (p - 1 - k)) with k by lia. apply at_rd. lia. }
    lra. }
  pose proof (Q.le_max_l (base v v (rev (firstn (Z.to_nat p) x))) (base v v (skipn (Z.to_nat (p + 1)) x))). lra.
Qed.
(** It is at least the height above the higher of two samples, one on each side, that can be
    reached without passing a higher one. *)
Lemma prom_ge x p a b : 0 <= a < p -> p < b < Z.of_nat (length x) -> (forall j, a <= j <= b -> (at_ x j <= at_ x p)%Q) ->
  (at_ x p - Qmax (at_ x a) (at_ x b) <= prominence x p)%Q.
Proof.
  intros Ha Hb Hall. unfold prominence. set (v := at_ x p) in *.
  assert (Hl : (base v v (rev (firstn (Z.to_nat p) x)) <= at_ x a)%Q).
  { apply (base_le _ _ _ (p - 1 - a)); [rewrite rd_left by lia; replace (p - 1 - (p - 1 - a)) with a by lia; apply at_rd; lia|].
    intros j z Hj Hz. rewrite rd_left in Hz by lia. rewrite <- (at_of _ _ _ Hz). apply Hall. lia. }
  assert (Hr : (base v v (skipn (Z.to_nat (p + 1)) x) <= at_ x b)%Q).
  { apply (base_le _ _ _ (b - p - 1)); [rewrite rd_right by lia; replace (p + 1 + (b - p - 1)) with b by lia; apply at_rd; lia|].
    intros j z Hj Hz. rewrite rd_right in Hz by lia. rewrite <- (at_of _ _ _ Hz). apply Hall. lia. }
  pose proof (Q.le_max_l (at_ x a) (at_ x b)). pose proof (Q.le_max_r (at_ x a) (at_ x b)).
  assert (Hm : (Qmax (base v v (rev (firstn (Z.to_nat p) x))) (base v v (skipn (Z.to_nat (p + 1)) x)) <= Qmax (at_ x a) (at_ x b))%Q)
    by (apply Q.max_lub; lra). lra.
Qed.
Lemma prom_nonneg x p : (0 <= prominence x p)%Q.
Proof.
  unfold prominence. set (v := at_ x p). pose proof (base_le_m v (rev (firstn (Z.to_nat p) x)) v). pose proof (base_le_m v (skipn (Z.to_nat (p + 1)) x) v).
  assert (Hm : (Qmax (base v v (rev (firstn (Z.to_nat p) x))) (base v v (skipn (Z.to_nat (p + 1)) x)) <= v)%Q) by (apply Q.max_lub; lra). lra.
Qed.

(** * A trough between *)
Lemma first_lowest (x : list Q) a : forall n, exists l, a <= l <= a + Z.of_nat n /\ (forall k, a <= k <= a + Z.of_nat n -> (at_ x l <= at_ x k)%Q)
  /\ (forall k, a <= k < l -> (at_ x l < at_ x k)%Q).
Proof.
  induction n as [|n (l & H1 & H2 & H3)].
  - exists a. split; [lia|]. split; [intros k Hk; replace k with a by lia; lra|intros k Hk; lia].
  - destruct (Qlt_le_dec (at_ x (a + Z.of_nat (S n))) (at_ x l)) as [L|L].
    + exists (a + Z.of_nat (S n)). split; [lia|]. split; intros k Hk.
      * destruct (Z.eq_dec k (a + Z.of_nat (S n))) as [->|Hn]; [lra|]. specialize (H2 k ltac:(lia)). lra.
      * specialize (H2 k ltac:(lia)). lra.
    + exists l. split; [lia|]. split; [|exact H3]. intros k Hk.
      destruct (Z.eq_dec k (a + Z.of_nat (S n))) as [->|Hn]; [exact L|apply H2; lia].
Qed.
Lemma equal_run (x : list Q) l : forall n, exists r, l <= r <= l + Z.of_nat n /\ (forall k, l <= k <= r -> (at_ x k == at_ x l)%Q)
  /\ (r < l + Z.of_nat n -> ~ (at_ x (r + 1) == at_ x l)%Q).
Proof.
  induction n as [|n (r & H1 & H2 & H3)].
  - exists l. split; [lia|]. split; [intros k Hk; replace k with l by lia; lra|lia].
  - destruct (Z.eq_dec r (l + Z.of_nat n)) as [E|Hn].
    + destruct (Qeq_dec (at_ x (r + 1)) (at_ x l)) as [Eq|Ne].
      * exists (r + 1). split; [lia|]. split; [|lia]. intros k Hk. destruct (Z.eq_dec k (r + 1)) as [->|H]; [exact Eq|apply H2; lia].
      * exists r. split; [lia|]. split; [exact H2|]. intros _. exact Ne.
    + exists r. split; [lia|]. split; [exact H2|]. intros _. apply H3. lia.
Qed.

Lemma trough_between x a b j : 0 <= a -> b < Z.of_nat (length x) -> a < j < b -> (at_ x j < at_ x a)%Q -> (at_ x j < at_ x b)%Q ->
  exists q, is_maximum (map Qopp x) q /\ a < q < b /\ (forall k, a <= k <= b -> (at_ x q <= at_ x k)%Q)
  /\ (forall a' b', a <= a' < q -> q < b' <= b -> (Qmin (at_ x a') (at_ x b') - at_ x q <= prominence (map Qopp x) q)%Q).
Proof.
  intros Ha Hb Hj Hja Hjb. destruct (first_lowest x a (Z.to_nat (b - a))) as (l & L1 & L2 & L3).
  rewrite Z2Nat.id in * by lia. replace (a + (b - a)) with b in * by lia.
  pose proof (L2 j ltac:(lia)) as Hlj. assert (Hal : a < l).
  { destruct (Z.eq_dec l a) as [->|]; [lra|lia]. }
  assert (Hlb : l < b). { destruct (Z.eq_dec l b) as [->|]; [lra|lia]. }
  destruct (equal_run x l (Z.to_nat (b - l))) as (r & R1 & R2 & R3). rewrite Z2Nat.id in * by lia. replace (l + (b - l)) with b in * by lia.
  assert (Hrb : r < b). { destruct (Z.eq_dec r b) as [->|]; [specialize (R2 b ltac:(lia)); lra|lia]. }
  pose proof (mid_in l r ltac:(lia)) as Hmid. set (q := (l + r) / 2) in *. assert (Hq : (at_ x q == at_ x l)%Q) by (apply R2; lia).
  exists q. split; [|split; [lia|split]].
  - exists l, r. rewrite len_opp, !at_opp. split; [lia|]. split; [lia|]. split; [lia|]. split; [reflexivity|]. split; [|split].
    + intros k Hk. rewrite !at_opp, (R2 k Hk). reflexivity.
    + specialize (L3 (l - 1) ltac:(lia)). lra.
    + specialize (L2 (r + 1) ltac:(lia)). specialize (R3 Hrb). apply Qle_lteq in L2. destruct L2 as [L|E]; [lra|exfalso; apply R3; lra].
  - intros k Hk. specialize (L2 k Hk). lra.
  - intros a' b' Ha' Hb'. assert (P : (at_ (map Qopp x) q - Qmax (at_ (map Qopp x) a') (at_ (map Qopp x) b') <= prominence (map Qopp x) q)%Q).
    { apply prom_ge; [lia|rewrite len_opp; lia|]. intros k Hk. rewrite !at_opp. specialize (L2 k ltac:(lia)). lra. }
    rewrite !at_opp in P. assert (E : (Qmax (- at_ x a') (- at_ x b') == - Qmin (at_ x a') (at_ x b'))%Q).
    { destruct (Q.min_spec (at_ x a') (at_ x b')) as [[H ->]|[H ->]].
      - destruct (Q.max_spec (- at_ x a') (- at_ x b')) as [[H' ->]|[H' ->]]; lra.
      - destruct (Q.max_spec (- at_ x a') (- at_ x b')) as [[H' ->]|[H' ->]]; lra. }
    lra.
Qed.

Section Alternation.
Variables (x : list Q) (t : Q).

Lemma peak_inside p : is_maximum x p -> 1 <= p /\ p + 1 < Z.of_nat (length x).
Proof.
  intros H. apply is_maximum_plateau in H. destruct H as (l & r & (A & B & C & _) & ->). pose proof (mid_in l r B). lia.
Qed.

(** Between two maxima there is a smaller value. *)
Lemma lower_between p p' : is_maximum x p -> is_maximum x p' -> p < p' ->
  exists j, p < j < p' /\ (at_ x j < at_ x p)%Q /\ exists j', p < j' < p' /\ (at_ x j' < at_ x p')%Q.
Proof.
  intros H H' L. apply is_maximum_plateau in H. apply is_maximum_plateau in H'.
  destruct H as (l & r & HP & ->), H' as (l' & r' & HP' & ->).
  pose proof HP as (A1 & A2 & A3 & A4 & A5 & A6). pose proof HP' as (B1 & B2 & B3 & B4 & B5 & B6).
  pose proof (mid_in l r A2) as M. pose proof (mid_in l' r' B2) as M'.
  assert (Hl : l < l').
  { destruct (Z.lt_trichotomy l l') as [X|[X|X]]; [exact X| |].
    - subst l'. rewrite (plateau_left_unique _ _ _ _ HP HP') in L. lia.
    - pose proof (plateau_apart _ _ _ _ _ HP' HP X). lia. }
  pose proof (plateau_apart _ _ _ _ _ HP HP' Hl).
  exists (r + 1). assert (E : (at_ x ((l + r) / 2) == at_ x l)%Q) by (apply A4; lia). assert (E' : (at_ x ((l' + r') / 2) == at_ x l')%Q) by (apply B4; lia).
  split; [lia|]. split; [lra|]. exists (l' - 1). split; [lia|]. lra.
Qed.

Lemma trough_between_peaks p p' : In p (find_peaks x t) -> In p' (find_peaks x t) -> p < p' ->
  (t <= 0 \/ ~ (at_ x p == at_ x p'))%Q ->
  exists q, In q (find_peaks (map Qopp x) t) /\ p < q < p'.
Proof.
  intros H H' L Ht. apply find_peaks_in in H. apply find_peaks_in in H'. destruct H as [H Hp], H' as [H' Hp'].
  destruct (lower_between p p' H H' L) as (j & Hj & Hlt & j' & Hj' & Hlt').
  pose proof (peak_inside p H). pose proof (peak_inside p' H').
  set (k := if Qlt_le_dec (at_ x j) (at_ x j') then j else j').
  assert (Hk : p < k < p' /\ (at_ x k < at_ x p)%Q /\ (at_ x k < at_ x p')%Q).
  { unfold k. destruct (Qlt_le_dec (at_ x j) (at_ x j')); split; try lia; split; lra. }
  destruct Hk as (Hk & Hk1 & Hk2).
  destruct (trough_between x p p' k ltac:(lia) ltac:(lia) Hk Hk1 Hk2) as (q & Hq & Hpq & Hmin & Hprom).
  exists q. split; [|exact Hpq]. apply find_peaks_in. split; [exact Hq|]. destruct Ht as [Ht|Hne]; [pose proof (prom_nonneg (map Qopp x) q); lra|].
  specialize (Hprom p p' ltac:(lia) ltac:(lia)).
  pose proof (Hmin p ltac:(lia)). pose proof (Hmin p' ltac:(lia)).
  destruct (Qlt_le_dec (at_ x p) (at_ x p')) as [C|C].
  - pose proof (prom_le_right x p p' (at_ x q) ltac:(lia) ltac:(lia) C ltac:(lra) ltac:(intros i Hi; apply Hmin; lia)).
    destruct (Q.min_spec (at_ x p) (at_ x p')) as [[_ E]|[C' E]]; rewrite E in Hprom; lra.
  - assert (C' : (at_ x p' < at_ x p)%Q) by (apply Qle_lteq in C; destruct C as [C|C]; [exact C|exfalso; apply Hne; lra]).
    pose proof (prom_le_left x p' p (at_ x q) ltac:(lia) ltac:(lia) C' ltac:(lra) ltac:(intros i Hi; apply Hmin; lia)).
    destruct (Q.min_spec (at_ x p) (at_ x p')) as [[C'' E]|[_ E]]; rewrite E in Hprom; lra.
Qed.

(** A peak followed by a trough that is not lower: there is another trough in between. *)
Lemma trough_before p q : In p (find_peaks x t) -> In q (find_peaks (map Qopp x) t) -> p < q -> (at_ x p <= at_ x q)%Q ->
  exists q', In q' (find_peaks (map Qopp x) t) /\ p < q' < q.
Proof.
  intros H H' L Hle. apply find_peaks_in in H. apply find_peaks_in in H'. destruct H as [H Hp], H' as [H' _].
  pose proof (peak_inside p H) as Bp. pose proof H as Hmax. apply is_maximum_plateau in H. destruct H as (l & r & (A1 & A2 & A3 & A4 & A5 & A6) & Ep).
  pose proof (mid_in l r A2) as M. assert (Ex : (at_ x p == at_ x l)%Q) by (apply A4; lia).
  rewrite <- minimum_opp in H'. destruct H' as (l' & r' & B1 & B2 & B3 & Eq & B4 & B5 & B6).
  pose proof (mid_in l' r' B2) as M'. assert (Ex' : (at_ x q == at_ x l')%Q) by (apply B4; lia).
  (* a sample above the peak, not beyond the trough *)
  assert (Hb : exists b, p < b <= q /\ (at_ x p < at_ x b)%Q).
  { apply Qle_lteq in Hle. destruct Hle as [C|C]; [exists q; split; [lia|exact C]|].
    exists (l' - 1). split; [|lra]. destruct (Z.lt_trichotomy p (l' - 1)) as [X|[X|X]]; [lia| |].
    - exfalso. subst p. rewrite X in *. lra.
    - exfalso. apply (max_not_min x p Hmax). exfalso. (* p lies in the run of the trough *)
      destruct (Z.lt_trichotomy l l') as [Y|[Y|Y]].
      + assert ((at_ x (l' - 1) == at_ x l)%Q) by (apply A4; lia). lra.
      + subst l'. lra.
      + assert ((at_ x (l - 1) == at_ x l')%Q) by (apply B4; lia). lra. }
  destruct Hb as (b & Hb & Hgt).
  assert (Hrb : r + 1 < b).
  { destruct (Z.lt_ge_cases (r + 1) b) as [X|X]; [exact X|exfalso]. destruct (Z.eq_dec b (r + 1)) as [->|Hn]; [lra|].
    assert ((at_ x b == at_ x l)%Q) by (apply A4; lia). lra. }
  destruct (trough_between x p b (r + 1) ltac:(lia) ltac:(lia) ltac:(lia) ltac:(lra) ltac:(lra)) as (q' & Hq & Hpq & Hmin & Hprom).
  exists q'. split; [|lia]. apply find_peaks_in. split; [exact Hq|]. specialize (Hprom p b ltac:(lia) ltac:(lia)).
  pose proof (Hmin p ltac:(lia)).
  pose proof (prom_le_right x p b (at_ x q') ltac:(lia) ltac:(lia) Hgt ltac:(lra) ltac:(intros i Hi; apply Hmin; lia)).
  destruct (Q.min_spec (at_ x p) (at_ x b)) as [[_ E]|[C' E]]; rewrite E in Hprom; lra.
Qed.
End Alternation.

Lemma peaks_alternate x t :
  (t <= 0)%Q \/ (different x (find_peaks x t) /\ different x (find_peaks (map Qopp x) t)) ->
  alternate (find_peaks x t) (find_peaks (map Qopp x) t).
Proof.
  intros Ht. split; [apply find_peaks_increasing|]. split; [apply find_peaks_increasing|]. split; [|split].
  - intros k Hk Hk'. apply find_peaks_in in Hk. apply find_peaks_in in Hk'. apply (max_not_min x k); [apply Hk|apply minimum_opp, Hk'].
  - intros a b Ha Hb L. apply trough_between_peaks; [exact Ha|exact Hb|exact L|]. destruct Ht as [Ht|[D _]]; [left; exact Ht|right; apply D; [exact Ha|exact Hb|lia]].
  - intros a b Ha Hb L. destruct (trough_between_peaks (map Qopp x) t a b Ha Hb L) as (q & Hq & Hab).
    + destruct Ht as [Ht|[_ D]]; [left; exact Ht|right]. rewrite !at_opp. intros C. apply (D a b Ha Hb ltac:(lia)). lra.
    + rewrite opp_opp in Hq. exists q. auto.
Qed.
Lemma neighbours_differ x t i j : neighbours (find_peaks x t) (find_peaks (map Qopp x) t) i j -> (at_ x j < at_ x i)%Q.
Proof.
  intros (Hi & Hj & Hn). apply Qnot_le_lt. intros C. destruct (Z.lt_trichotomy i j) as [L|[L|L]].
  - destruct (trough_before x t i j Hi Hj L C) as (q & Hq & Hb). apply (Hn q (or_intror Hq)). lia.
  - subst j. apply find_peaks_in in Hi. apply find_peaks_in in Hj. apply (max_not_min x i); [apply Hi|apply minimum_opp, Hj].
  - rewrite <- (opp_opp x) in Hi. destruct (trough_before (map Qopp x) t j i Hj Hi L) as (q & Hq & Hb); [rewrite !at_opp; lra|].
    rewrite opp_opp in Hq. apply (Hn q (or_introl Hq)). lia.
Qed.

(** * Pairs *)
(** [a] and [b] alternate, beginning with [a]. *)
Inductive alt : list Z -> list Z -> Prop :=
  | alt_nil : alt [] []
  | alt_cons a A B : (forall b, In b B -> a < b) -> alt B A -> alt (a :: A) B.

Lemma alternate_alt : forall n P T, (length P + length T <= n)%nat -> alternate P T ->
  match P, T with
  | [], [] => True
  | p :: _, [] => alt P T
  | [], t :: _ => alt T P
  | p :: _, t :: _ => (p < t -> alt P T) /\ (t < p -> alt T P)
  end.
Proof.
  assert (Hsym : forall P T, alternate P T -> alternate T P).
  { intros P T (H1 & H2 & H3 & H4 & H5). split; [exact H2|]. split; [exact H1|]. split; [intros k Hk Hk'; exact (H3 k Hk' Hk)|]. split; assumption. }
  assert (Htail : forall p P T, alternate (p :: P) T -> (forall k, In k T -> p < k) -> alternate P T).
  { intros p P T (H1 & H2 & H3 & H4 & H5) Hlt. apply increasing_cons in H1. destruct H1 as [H0 H1]. split; [exact H1|]. split; [exact H2|].
    split; [intros k Hk; apply H3; right; exact Hk|]. split; [intros a b Ha Hb; apply H4; right; assumption|].
    intros a b Ha Hb L. destruct (H5 a b Ha Hb L) as (k & [->|Hk] & Hab); [specialize (Hlt a Ha); lia|exists k; auto]. }
  assert (Hhead : forall P T p P', alternate P T -> P = p :: P' -> (match T with [] => True | t :: _ => p < t end) -> forall k, In k T -> p < k).
  { intros P T p P' (H1 & H2 & H3 & H4 & H5) -> Ht k Hk. destruct T as [|t T]; [destruct Hk|]. apply increasing_cons in H2. destruct H2 as [H2 _].
    destruct Hk as [->|Hk]; [exact Ht|specialize (H2 k Hk); lia]. }
  assert (Hgo : forall n P T, (length P + length T <= n)%nat -> alternate P T -> forall p P', P = p :: P' -> (match T with [] => True | t :: _ => p < t end) -> alt P T).
  { induction n as [|n IH]; intros P T Hn Ha p P' -> Ht; [cbn in Hn; lia|]. pose proof (Hhead _ _ p P' Ha eq_refl Ht) as Hlt.
    pose proof (Htail _ _ _ Ha Hlt) as Ha'. constructor; [exact Hlt|]. destruct T as [|t T].
    - destruct P' as [|p' P']; [constructor|]. destruct Ha as (H1 & _ & _ & H4 & _). apply increasing_cons in H1. destruct H1 as [H1 _].
      destruct (H4 p p' (or_introl eq_refl) (or_intror (or_introl eq_refl)) (H1 p' (or_introl eq_refl))) as (k & [] & _).
    - apply (IH (t :: T) P') with (p := t) (P' := T); [cbn [length] in *; lia|apply Hsym, Ha'|reflexivity|]. destruct P' as [|p' P']; [exact I|].
      pose proof Ha as (H1 & H2 & _ & H4 & _). apply increasing_cons in H1. destruct H1 as [H1 _].
      destruct (H4 p p' (or_introl eq_refl) (or_intror (or_introl eq_refl)) (H1 p' (or_introl eq_refl))) as (k & [->|Hk] & Hb); [lia|].
      apply increasing_cons in H2. destruct H2 as [H2 _]. specialize (H2 k Hk). lia. }
  intros n P T Hn Ha. destruct P as [|p P], T as [|t T]; [exact I| | |].
  - eapply (Hgo n); [cbn [length] in *; lia|apply Hsym, Ha|reflexivity|exact I].
  - eapply (Hgo n); [exact Hn|exact Ha|reflexivity|exact I].
  - split; intros L.
    + eapply (Hgo n); [exact Hn|exact Ha|reflexivity|exact L].
    + eapply (Hgo n); [|apply Hsym; exact Ha|reflexivity|exact L]. cbn [length] in *; lia.
Qed.

Lemma alt_length A B : alt A B -> length A = length B \/ length A = S (length B).
Proof. induction 1 as [|a A B Hlt Hab IH]; [left; reflexivity|]. cbn [length]. lia. Qed.
(** a_k < b_k < a_(k+1) *)
Lemma alt_order A B : alt A B -> forall k, (forall a b, rd A k = Some a -> rd B k = Some b -> a < b)
  /\ (forall a b, rd A (k + 1) = Some a -> rd B k = Some b -> b < a).
Proof.
  induction 1 as [|a0 A B Hlt Hab IH]; intros k; [split; intros a b H; rewrite rd_nil in H; discriminate|].
  split; intros a b Ha Hb; pose proof (rd_bounds _ _ _ _ Ha); pose proof (rd_bounds _ _ _ _ Hb).
  - destruct (Z.eq_dec k 0) as [->|Hn]; [rewrite rd_0 in Ha; assert (a0 = a) by congruence; subst a0; apply Hlt; exact (rd_in _ _ _ _ Hb)|].
    replace k with ((k - 1) + 1) in Ha by lia. rewrite rd_S in Ha by lia. apply (proj2 (IH (k - 1)) b a); [|exact Ha].
    replace (k - 1 + 1) with k by lia. exact Hb.
  - rewrite rd_S in Ha by lia. apply (proj1 (IH k) b a Hb Ha).
Qed.

Lemma alt_neighbours A B i j : alt A B -> increasing A -> increasing B -> neighbours A B i j ->
  exists k, rd B k = Some j /\ (rd A k = Some i \/ rd A (k + 1) = Some i).
Proof.
  intros Hab HA HB (Hi & Hj & Hn). destruct (in_rd _ _ _ Hi) as [k Hk]. destruct (in_rd _ _ _ Hj) as [l Hl].
  pose proof (rd_bounds _ _ _ _ Hk) as Bk. pose proof (rd_bounds _ _ _ _ Hl) as Bl. pose proof (alt_length _ _ Hab) as Hlen.
  exists l. split; [exact Hl|]. destruct (Z.eq_dec k l) as [->|Hn1]; [left; exact Hk|]. destruct (Z.eq_dec k (l + 1)) as [->|Hn2]; [right; exact Hk|].
  exfalso. destruct (Z.lt_trichotomy k l) as [L|[L|L]]; [|lia|].
  - destruct (rd_in_range _ B k ltac:(lia)) as [b Eb]. pose proof (proj1 (alt_order _ _ Hab k) i b Hk Eb). pose proof (HB k l b j L Eb Hl).
    apply (Hn b); [right; exact (rd_in _ _ _ _ Eb)|lia].
  - destruct (rd_in_range _ A (l + 1) ltac:(lia)) as [a Ea]. pose proof (proj2 (alt_order _ _ Hab l) a j Ea Hl). pose proof (HA (l + 1) k a i ltac:(lia) Ea Hk).
    apply (Hn a); [left; exact (rd_in _ _ _ _ Ea)|lia].
Qed.
Lemma alt_pair A B i j k : alt A B -> increasing A -> increasing B -> rd B k = Some j -> (rd A k = Some i \/ rd A (k + 1) = Some i) -> neighbours A B i j.
Proof.
  intros Hab HA HB Hj Hi. pose proof (rd_bounds _ _ _ _ Hj) as Bj. pose proof (alt_length _ _ Hab) as Hlen.
  assert (Hmono : forall l u v, increasing l -> forall m n, rd l m = Some u -> rd l n = Some v -> u < v -> m < n).
  { intros l u v Hl m n Hm Hv Huv. destruct (Z.lt_trichotomy m n) as [X|[->|X]]; [exact X|assert (u = v) by congruence; lia|]. pose proof (Hl n m v u X Hv Hm). lia. }
  destruct Hi as [Hi|Hi]; (split; [exact (rd_in _ _ _ _ Hi)|]; split; [exact (rd_in _ _ _ _ Hj)|]); intros m Hm Hb; pose proof (rd_bounds _ _ _ _ Hi) as Bi.
  - pose proof (proj1 (alt_order _ _ Hab k) i j Hi Hj) as Lij. replace (Z.min i j) with i in Hb by lia. replace (Z.max i j) with j in Hb by lia. destruct Hm as [Hm|Hm].
    + destruct (in_rd _ _ _ Hm) as [n En]. pose proof (Hmono A i m HA k n Hi En ltac:(lia)) as G.
      destruct (rd_in_range _ A (k + 1)) as [a Ea]; [pose proof (rd_bounds _ _ _ _ En); lia|]. pose proof (proj2 (alt_order _ _ Hab k) a j Ea Hj).
      destruct (Z.eq_dec n (k + 1)) as [->|Hne]; [assert (a = m) by congruence; lia|]. pose proof (HA (k + 1) n a m ltac:(lia) Ea En). lia.
    + destruct (in_rd _ _ _ Hm) as [n En]. pose proof (Hmono B m j HB n k En Hj ltac:(lia)) as G. pose proof (rd_bounds _ _ _ _ En) as Bn.
      destruct (rd_in_range _ A (n + 1) ltac:(lia)) as [a Ea]. pose proof (proj2 (alt_order _ _ Hab n) a m Ea En).
      destruct (Z.eq_dec (n + 1) k) as [Ek|Hne]; [rewrite Ek in Ea; assert (a = i) by congruence; lia|]. pose proof (HA (n + 1) k a i ltac:(lia) Ea Hi). lia.
  - pose proof (proj2 (alt_order _ _ Hab k) i j Hi Hj) as Lij. replace (Z.min i j) with j in Hb by lia. replace (Z.max i j) with i in Hb by lia. destruct Hm as [Hm|Hm].
    + destruct (in_rd _ _ _ Hm) as [n En]. pose proof (Hmono A m i HA n (k + 1) En Hi ltac:(lia)) as G. pose proof (rd_bounds _ _ _ _ En) as Bn.
      destruct (rd_in_range _ A k ltac:(lia)) as [a Ea]. pose proof (proj1 (alt_order _ _ Hab k) a j Ea Hj).
      destruct (Z.eq_dec n k) as [->|Hne]; [assert (a = m) by congruence; lia|]. pose proof (HA n k m a ltac:(lia) En Ea). lia.
    + destruct (in_rd _ _ _ Hm) as [n En]. pose proof (Hmono B j m HB k n Hj En ltac:(lia)) as G. pose proof (rd_bounds _ _ _ _ En) as Bn.
      destruct (rd_in_range _ A (k + 1) ltac:(lia)) as [a Ea]. destruct (rd_in_range _ B (k + 1) ltac:(lia)) as [b Eb].
      pose proof (proj1 (alt_order _ _ Hab (k + 1)) i b Hi Eb). destruct (Z.eq_dec n (k + 1)) as [->|Hne]; [assert (b = m) by congruence; lia|].
      pose proof (HB (k + 1) n b m ltac:(lia) Eb En). lia.
Qed.
Lemma neighbours_sym P T i j : neighbours P T i j <-> neighbours T P j i.
Proof.
  unfold neighbours. rewrite (Z.min_comm i j), (Z.max_comm i j).
  split; (intros (A & B & C); split; [exact B|]; split; [exact A|]; intros k Hk; apply C; destruct Hk; auto).
Qed.

(** * Largest value *)
Lemma amax_from_ok : forall l i best bv, let '(p, f) := amax_from i best bv l in
  (forall v, In v l -> (v <= f)%Q) /\ (bv <= f)%Q /\ ((p = best /\ f = bv) \/ exists k, 0 <= k /\ rd l k = Some f /\ p = i + k).
Proof.
  induction l as [|v l IH]; intros i best bv; cbn [amax_from]; [split; [intros v []|]; split; [lra|left; auto]|].
  destruct (Qlt_b bv v) eqn:E.
  - apply Qlt_b_spec in E. specialize (IH (i + 1) i v). destruct (amax_from (i + 1) i v l) as [p f]. destruct IH as (I1 & I2 & I3).
    split; [intros w [<-|Hw]; [exact I2|apply I1, Hw]|]. split; [lra|]. right. destruct I3 as [[-> ->]|(k & H1 & H2 & ->)].
    + exists 0. split; [lia|]. split; [reflexivity|lia].
    + exists (k + 1). split; [lia|]. split; [rewrite rd_S by lia; exact H2|lia].
  - apply Qlt_b_false in E. specialize (IH (i + 1) best bv). destruct (amax_from (i + 1) best bv l) as [p f]. destruct IH as (I1 & I2 & I3).
    split; [intros w [<-|Hw]; [lra|apply I1, Hw]|]. split; [exact I2|]. destruct I3 as [H|(k & H1 & H2 & ->)]; [left; exact H|right].
    exists (k + 1). split; [lia|]. split; [rewrite rd_S by lia; exact H2|lia].
Qed.
Lemma amax_ok l : l <> [] -> exists p f, amax l = Ret (p, f) /\ rd l p = Some f /\ forall v, In v l -> (v <= f)%Q.
Proof.
  destruct l as [|v l]; intros Hn; [congruence|]. cbn [amax]. pose proof (amax_from_ok l 1 0 v) as H. destruct (amax_from 1 0 v l) as [p f].
  destruct H as (H1 & H2 & H3). exists p, f. split; [reflexivity|]. split; [|intros w [<-|Hw]; [exact H2|apply H1, Hw]].
  destruct H3 as [[-> ->]|(k & K1 & K2 & ->)]; [reflexivity|]. replace (1 + k) with (k + 1) by lia. rewrite rd_S by lia. exact K2.
Qed.

Lemma rd_combine_inv {A B} (a : list A) : forall (b : list B) k u v, rd (combine a b) k = Some (u, v) -> rd a k = Some u /\ rd b k = Some v.
Proof.
  induction a as [|x a IH]; intros b k u v H; [rewrite rd_nil in H; discriminate|]. destruct b as [|y b]; [cbn in H; rewrite rd_nil in H; discriminate|].
  cbn [combine] in H. pose proof (rd_bounds _ _ _ _ H). destruct (Z.eq_dec k 0) as [->|Hn]; [rewrite rd_0 in H; rewrite !rd_0; split; congruence|].
  replace k with ((k - 1) + 1) in * by lia. rewrite rd_S in H by lia. rewrite !rd_S by lia. apply IH, H.
Qed.
Lemma rd_combine_2 {A B} (a : list A) : forall (b : list B) k u v, rd a k = Some u -> rd b k = Some v -> rd (combine a b) k = Some (u, v).
Proof.
  induction a as [|x a IH]; intros b k u v H H'; [rewrite rd_nil in H; discriminate|]. destruct b as [|y b]; [rewrite rd_nil in H'; discriminate|].
  cbn [combine]. pose proof (rd_bounds _ _ _ _ H). destruct (Z.eq_dec k 0) as [->|Hn]; [rewrite rd_0 in H, H'; rewrite rd_0; congruence|].
  replace k with ((k - 1) + 1) in * by lia. rewrite rd_S in H, H' by lia. rewrite rd_S by lia. apply IH; assumption.
Qed.

Definition swing (x : list Q) (i j : Z) : Q := Qabs (at_ x i - at_ x j).
Lemma swings_ok x a b : length a = length b -> a <> [] -> exists fs p f i j, swings x a b = Ret fs /\ amax fs = Ret (p, f)
  /\ rd a p = Some i /\ rd b p = Some j /\ f = swing x i j /\ (forall k i' j', rd a k = Some i' -> rd b k = Some j' -> (swing x i' j' <= f)%Q).
Proof.
  intros Hl Hn. unfold swings. replace (Z.of_nat (length a) =? Z.of_nat (length b)) with true by (symmetry; apply Z.eqb_eq; lia).
  set (fs := map _ (combine a b)).
  assert (Hne : fs <> []). { unfold fs. destruct a as [|u a], b as [|v b]; [congruence|discriminate|discriminate|discriminate]. }
  destruct (amax_ok fs Hne) as (p & f & E & Hp & Hmax). unfold fs in Hp. rewrite rd_map in Hp.
  destruct (rd (combine a b) p) as [[i j]|] eqn:Ec; [|discriminate]. destruct (rd_combine_inv _ _ _ _ _ Ec) as [Ei Ej].
  exists fs, p, f, i, j. split; [reflexivity|]. split; [exact E|]. split; [exact Ei|]. split; [exact Ej|]. split; [unfold swing; cbn [option_map fst snd] in Hp; congruence|].
  intros k i' j' Hi Hj. apply Hmax. unfold fs. apply in_map_iff. exists (i', j'). split; [reflexivity|]. exact (rd_in _ _ _ _ (rd_combine_2 _ _ _ _ _ Hi Hj)).
Qed.

Lemma rd_tail {A} (l : list A) k : 0 <= k -> rd (pyslice l (Some 1) None) k = rd l (k + 1).
Proof.
  intros Hk. destruct l as [|a l]; [unfold pyslice; cbn [length]; change (Z.to_nat _) with 0%nat; rewrite firstn_nil, !rd_nil; reflexivity|].
  destruct (Z.lt_ge_cases k (Z.of_nat (length l))) as [L|L].
  - rewrite rd_pyslice by (unfold pylo, pyhi, pynorm; cbn [length]; destruct (Z.ltb_spec 1 0); lia).
    f_equal. unfold pylo, pynorm. cbn [length]. destruct (Z.ltb_spec 1 0); lia.
  - rewrite (rd_none _ (a :: l)) by (cbn [length]; lia). apply rd_none. right. rewrite pyslice_length. unfold pylo, pyhi, pynorm. cbn [length]. destruct (Z.ltb_spec 1 0); lia.
Qed.
Lemma rd_init {A} (l : list A) k : 0 <= k < Z.of_nat (length l) - 1 -> rd (pyslice l None (Some (-1))) k = rd l k.
Proof.
  intros Hk. rewrite rd_pyslice by (unfold pylo, pyhi, pynorm; destruct (Z.ltb_spec (-1) 0); lia). f_equal.
Qed.
Lemma tail_length {A} (l : list A) : l <> [] -> Z.of_nat (length (pyslice l (Some 1) None)) = Z.of_nat (length l) - 1.
Proof.
  intros H. destruct l as [|a l]; [congruence|]. rewrite pyslice_length. unfold pylo, pyhi, pynorm. cbn [length]. destruct (Z.ltb_spec 1 0); lia.
Qed.
Lemma init_length {A} (l : list A) : l <> [] -> Z.of_nat (length (pyslice l None (Some (-1)))) = Z.of_nat (length l) - 1.
Proof.
  intros H. destruct l as [|a l]; [congruence|]. rewrite pyslice_length. unfold pylo, pyhi, pynorm. cbn [length]. destruct (Z.ltb_spec (-1) 0); lia.
Qed.

Section Best.
Variables (x : list Q) (P T : list Z).
Hypothesis Halt : alternate P T.
Hypothesis Hdiff : forall i j, neighbours P T i j -> ~ (at_ x i == at_ x j)%Q.
Hypothesis HP : P <> [].
Hypothesis HT : T <> [].

(** The two lists of pairs that are compared are the pairs of neighbours. *)
Lemma best_of a b c d : pairs x P T = Ret (inr (a, b, c, d)) -> length a = length b -> length c = length d -> a <> [] -> c <> [] ->
  (forall k i j, rd a k = Some i -> rd b k = Some j -> neighbours P T i j) ->
  (forall k i j, rd c k = Some i -> rd d k = Some j -> neighbours P T i j) ->
  (forall i j, neighbours P T i j -> exists k, (rd a k = Some i /\ rd b k = Some j) \/ (rd c k = Some i /\ rd d k = Some j)) ->
  exists i j f, best_pair x P T = Ret (i, j, f) /\ f = swing x i j /\ largest_swing x P T i j.
Proof.
  intros Ep L1 L2 N1 N2 A1 A2 A3. unfold best_pair. rewrite Ep. cbn [bind].
  destruct (swings_ok x a b L1 N1) as (fs1 & p1 & f1 & i1 & j1 & -> & E1 & R1 & S1 & F1 & M1).
  destruct (swings_ok x c d L2 N2) as (fs2 & p2 & f2 & i2 & j2 & -> & E2 & R2 & S2 & F2 & M2).
  cbn [bind]. rewrite E1, E2. cbn [bind fst snd]. destruct (Qle_bool f2 f1) eqn:E.
  - apply Qle_bool_iff in E. rewrite R1, S1. exists i1, j1, f1. split; [reflexivity|]. split; [exact F1|]. split; [apply (A1 p1); assumption|].
    intros i' j' Hn. fold (swing x i' j') (swing x i1 j1). rewrite <- F1. destruct (A3 i' j' Hn) as (k & [[Hi Hj]|[Hi Hj]]); [exact (M1 k _ _ Hi Hj)|].
    specialize (M2 k _ _ Hi Hj). lra.
  - assert (E' : (f1 < f2)%Q) by (apply Qnot_le_lt; intros C; apply Qle_bool_iff in C; congruence). rewrite R2, S2. exists i2, j2, f2.
    split; [reflexivity|]. split; [exact F2|]. split; [apply (A2 p2); assumption|].
    intros i' j' Hn. fold (swing x i' j') (swing x i2 j2). rewrite <- F2. destruct (A3 i' j' Hn) as (k & [[Hi Hj]|[Hi Hj]]); [|exact (M2 k _ _ Hi Hj)].
    specialize (M1 k _ _ Hi Hj). lra.
Qed.

Lemma best_pair_ok : exists i j f, best_pair x P T = Ret (i, j, f) /\ f = swing x i j /\ largest_swing x P T i j.
Proof.
  pose proof Halt as (IP & IT & HD & _). pose proof (alternate_alt _ P T (le_n _) Halt) as HA.
  destruct P as [|p P'] eqn:EP; [congruence|]. destruct T as [|t T'] eqn:ET; [congruence|]. destruct HA as [HA1 HA2].
  rewrite <- EP, <- ET in *.
  assert (Hp : rd P 0 = Some p) by (rewrite EP; reflexivity). assert (Htt : rd T 0 = Some t) by (rewrite ET; reflexivity).
  assert (Hpt : p <> t). { intros C. apply (HD p); [rewrite EP; left; reflexivity|rewrite ET, C; left; reflexivity]. }
  assert (LP : 1 <= Z.of_nat (length P)) by (rewrite EP; cbn [length]; lia). assert (LT : 1 <= Z.of_nat (length T)) by (rewrite ET; cbn [length]; lia).
  assert (Hpairs : pairs x P T = 
      if (Z.of_nat (length P) =? 1) && (Z.of_nat (length T) =? 1) then
        let f := Qabs (at_ x p - at_ x t) in if Qeq_bool f 0 then Raise NameError else Ret (inl (p, t, f))
      else if Z.of_nat (length P) =? Z.of_nat (length T) then
        if p <? t then Ret (inr (P, T, pyslice P (Some 1) None, pyslice T None (Some (-1))))
        else Ret (inr (P, T, pyslice P None (Some (-1)), pyslice T (Some 1) None))
      else if negb (Z.abs (Z.of_nat (length P) - Z.of_nat (length T)) =? 1) then Raise PeakToTrough
      else if Z.of_nat (length T) <? Z.of_nat (length P) then
        if p <? t then Ret (inr (pyslice P None (Some (-1)), T, pyslice P (Some 1) None, T)) else Raise PeakToTrough
      else
        if t <? p then Ret (inr (P, pyslice T (Some 1) None, P, pyslice T None (Some (-1)))) else Raise PeakToTrough).
  { unfold pairs. rewrite EP, ET. reflexivity. }
  assert (Hlen : forall (l l' : list Z), Z.of_nat (length l) = Z.of_nat (length l') -> length l = length l') by (intros; lia).
  assert (Hne : forall l : list Z, 1 <= Z.of_nat (length l) -> l <> []) by (intros l H ->; cbn in H; lia).
  assert (TP := tail_length P ltac:(apply Hne, LP)). assert (TT := tail_length T ltac:(apply Hne, LT)).
  assert (NP := init_length P ltac:(apply Hne, LP)). assert (NT := init_length T ltac:(apply Hne, LT)).
  assert (Htl : forall (l : list Z) k v, rd (pyslice l (Some 1) None) k = Some v -> rd l (k + 1) = Some v).
  { intros l k v H. pose proof (rd_bounds _ _ _ _ H). rewrite rd_tail in H by lia. exact H. }
  assert (Hin : forall (l : list Z) k v, l <> [] -> rd (pyslice l None (Some (-1))) k = Some v -> rd l k = Some v /\ k < Z.of_nat (length l) - 1).
  { intros l k v Hl H. pose proof (rd_bounds _ _ _ _ H) as B. rewrite init_length in B by exact Hl. rewrite rd_init in H by lia. split; [exact H|lia]. }
  destruct (Z.lt_trichotomy p t) as [L|[L|L]]; [|congruence|].
  - (* peaks first *)
    specialize (HA1 L). clear HA2. pose proof (alt_length _ _ HA1) as HL.
    pose proof (fun i j k => alt_pair P T i j k HA1 IP IT) as Hpair. pose proof (fun i j => alt_neighbours P T i j HA1 IP IT) as Hnb.
    replace (p <? t) with true in Hpairs by (symmetry; apply Z.ltb_lt; lia). replace (t <? p) with false in Hpairs by (symmetry; apply Z.ltb_ge; lia).
    destruct (Z.eqb_spec (Z.of_nat (length P)) 1) as [E1|E1], (Z.eqb_spec (Z.of_nat (length T)) 1) as [E2|E2]; cbn [andb] in Hpairs.
    { assert (Hn : neighbours P T p t) by (apply (Hpair p t 0); [exact Htt|left; exact Hp]).
      destruct (Qeq_bool (Qabs (at_ x p - at_ x t)) 0) eqn:E0.
      { exfalso. apply Qeq_bool_iff in E0. apply (Hdiff p t Hn). revert E0. apply Qabs_case; intros; lra. }
      exists p, t, (swing x p t). unfold best_pair. rewrite Hpairs. cbv zeta. cbn [bind]. split; [reflexivity|]. split; [reflexivity|].
      split; [exact Hn|]. intros i' j' Hn'. destruct (Hnb i' j' Hn') as (k & Hj & Hi). pose proof (rd_bounds _ _ _ _ Hj). assert (k = 0) by lia. subst k.
      assert (j' = t) by congruence. subst j'. destruct Hi as [Hi|Hi]; [assert (i' = p) by congruence; subst i'; lra|].
      pose proof (rd_bounds _ _ _ _ Hi). lia. }
    1,2,3: destruct (Z.eqb_spec (Z.of_nat (length P)) (Z.of_nat (length T))) as [E3|E3]; try lia.
    3: replace (negb (Z.abs (Z.of_nat (length P) - Z.of_nat (length T)) =? 1)) with false in Hpairs by (symmetry; apply negb_false_iff, Z.eqb_eq; lia).
    3: replace (Z.of_nat (length T) <? Z.of_nat (length P)) with true in Hpairs by (symmetry; apply Z.ltb_lt; lia).
    1: replace (negb (Z.abs (Z.of_nat (length P) - Z.of_nat (length T)) =? 1)) with false in Hpairs by (symmetry; apply negb_false_iff, Z.eqb_eq; lia).
    1: replace (Z.of_nat (length T) <? Z.of_nat (length P)) with true in Hpairs by (symmetry; apply Z.ltb_lt; lia).
    + (* one more peak, one trough *)
      eapply (best_of _ _ _ _ Hpairs); [apply Hlen; lia|apply Hlen; lia|apply Hne; lia|apply Hne; lia| | |].
      * intros k i j Hi Hj. apply Hin in Hi; [|apply Hne, LP]. apply (Hpair i j k Hj). left. apply Hi.
      * intros k i j Hi Hj. apply Htl in Hi. apply (Hpair i j k Hj). right. exact Hi.
      * intros i j Hn. destruct (Hnb i j Hn) as (k & Hj & [Hi|Hi]); pose proof (rd_bounds _ _ _ _ Hj); exists k; [left|right]; (split; [|exact Hj]).
        -- rewrite rd_init by lia. exact Hi.
        -- rewrite rd_tail by lia. exact Hi.
    + (* as many *)
      eapply (best_of _ _ _ _ Hpairs); [apply Hlen; lia|apply Hlen; lia|apply Hne; lia|apply Hne; lia| | |].
      * intros k i j Hi Hj. apply (Hpair i j k Hj). left. exact Hi.
      * intros k i j Hi Hj. apply Htl in Hi. apply Hin in Hj; [|apply Hne, LT]. apply (Hpair i j k); [apply Hj|]. right. exact Hi.
      * intros i j Hn. destruct (Hnb i j Hn) as (k & Hj & [Hi|Hi]); pose proof (rd_bounds _ _ _ _ Hj); pose proof (rd_bounds _ _ _ _ Hi); exists k; [left; auto|right].
        rewrite rd_tail by lia. rewrite rd_init by lia. auto.
    + eapply (best_of _ _ _ _ Hpairs); [apply Hlen; lia|apply Hlen; lia|apply Hne; lia|apply Hne; lia| | |].
      * intros k i j Hi Hj. apply Hin in Hi; [|apply Hne, LP]. apply (Hpair i j k Hj). left. apply Hi.
      * intros k i j Hi Hj. apply Htl in Hi. apply (Hpair i j k Hj). right. exact Hi.
      * intros i j Hn. destruct (Hnb i j Hn) as (k & Hj & [Hi|Hi]); pose proof (rd_bounds _ _ _ _ Hj); exists k; [left|right]; (split; [|exact Hj]).
        -- rewrite rd_init by lia. exact Hi.
        -- rewrite rd_tail by lia. exact Hi.
  - (* troughs first *)
    specialize (HA2 L). clear HA1. pose proof (alt_length _ _ HA2) as HL.
    assert (Hpair : forall i j k, rd P k = Some i -> (rd T k = Some j \/ rd T (k + 1) = Some j) -> neighbours P T i j).
    { intros i j k H1 H2. apply neighbours_sym. apply (alt_pair T P j i k HA2 IT IP H1 H2). }
    assert (Hnb : forall i j, neighbours P T i j -> exists k, rd P k = Some i /\ (rd T k = Some j \/ rd T (k + 1) = Some j)).
    { intros i j H. apply neighbours_sym in H. exact (alt_neighbours T P j i HA2 IT IP H). }
    replace (p <? t) with false in Hpairs by (symmetry; apply Z.ltb_ge; lia). replace (t <? p) with true in Hpairs by (symmetry; apply Z.ltb_lt; lia).
    destruct (Z.eqb_spec (Z.of_nat (length P)) 1) as [E1|E1], (Z.eqb_spec (Z.of_nat (length T)) 1) as [E2|E2]; cbn [andb] in Hpairs.
    { assert (Hn : neighbours P T p t) by (apply (Hpair p t 0); [exact Hp|left; exact Htt]).
      destruct (Qeq_bool (Qabs (at_ x p - at_ x t)) 0) eqn:E0.
      { exfalso. apply Qeq_bool_iff in E0. apply (Hdiff p t Hn). revert E0. apply Qabs_case; intros; lra. }
      exists p, t, (swing x p t). unfold best_pair. rewrite Hpairs. cbv zeta. cbn [bind]. split; [reflexivity|]. split; [reflexivity|].
      split; [exact Hn|]. intros i' j' Hn'. destruct (Hnb i' j' Hn') as (k & Hi & Hj). pose proof (rd_bounds _ _ _ _ Hi). assert (k = 0) by lia. subst k.
      assert (i' = p) by congruence. subst i'. destruct Hj as [Hj|Hj]; [assert (j' = t) by congruence; subst j'; lra|].
      pose proof (rd_bounds _ _ _ _ Hj). lia. }
    1,2,3: destruct (Z.eqb_spec (Z.of_nat (length P)) (Z.of_nat (length T))) as [E3|E3]; try lia.
    3: replace (negb (Z.abs (Z.of_nat (length P) - Z.of_nat (length T)) =? 1)) with false in Hpairs by (symmetry; apply negb_false_iff, Z.eqb_eq; lia).
    3: replace (Z.of_nat (length T) <? Z.of_nat (length P)) with false in Hpairs by (symmetry; apply Z.ltb_ge; lia).
    1: replace (negb (Z.abs (Z.of_nat (length P) - Z.of_nat (length T)) =? 1)) with false in Hpairs by (symmetry; apply negb_false_iff, Z.eqb_eq; lia).
    1: replace (Z.of_nat (length T) <? Z.of_nat (length P)) with false in Hpairs by (symmetry; apply Z.ltb_ge; lia).
    + eapply (best_of _ _ _ _ Hpairs); [apply Hlen; lia|apply Hlen; lia|apply Hne; lia|apply Hne; lia| | |].
      * intros k i j Hi Hj. apply Htl in Hj. apply (Hpair i j k Hi). right. exact Hj.
      * intros k i j Hi Hj. apply Hin in Hj; [|apply Hne, LT]. apply (Hpair i j k Hi). left. apply Hj.
      * intros i j Hn. destruct (Hnb i j Hn) as (k & Hi & [Hj|Hj]); pose proof (rd_bounds _ _ _ _ Hi); exists k; [right|left]; (split; [exact Hi|]).
        -- rewrite rd_init by lia. exact Hj.
        -- rewrite rd_tail by lia. exact Hj.
    + eapply (best_of _ _ _ _ Hpairs); [apply Hlen; lia|apply Hlen; lia|apply Hne; lia|apply Hne; lia| | |].
      * intros k i j Hi Hj. apply (Hpair i j k Hi). left. exact Hj.
      * intros k i j Hi Hj. apply Htl in Hj. apply Hin in Hi; [|apply Hne, LP]. apply (Hpair i j k); [apply Hi|]. right. exact Hj.
      * intros i j Hn. destruct (Hnb i j Hn) as (k & Hi & [Hj|Hj]); pose proof (rd_bounds _ _ _ _ Hi); pose proof (rd_bounds _ _ _ _ Hj); exists k; [left; auto|right].
        rewrite rd_tail by lia. rewrite rd_init by lia. auto.
    + eapply (best_of _ _ _ _ Hpairs); [apply Hlen; lia|apply Hlen; lia|apply Hne; lia|apply Hne; lia| | |].
      * intros k i j Hi Hj. apply Htl in Hj. apply (Hpair i j k Hi). right. exact Hj.
      * intros k i j Hi Hj. apply Hin in Hj; [|apply Hne, LT]. apply (Hpair i j k Hi). left. apply Hj.
      * intros i j Hn. destruct (Hnb i j Hn) as (k & Hi & [Hj|Hj]); pose proof (rd_bounds _ _ _ _ Hi); exists k; [right|left]; (split; [exact Hi|]).
        -- rewrite rd_init by lia. exact Hj.
        -- rewrite rd_tail by lia. exact Hj.
Qed.
End Best.

(** * The measurement *)
Lemma max_abs_from_nonneg l : forall m, (0 <= m)%Q -> (0 <= fold_left (fun m v => Qmax m (Qabs v)) l m)%Q.
Proof.
  induction l as [|v l IH]; intros m Hm; [exact Hm|]. cbn [fold_left]. apply IH. apply Qle_trans with m; [exact Hm|apply Q.le_max_l].
Qed.
Lemma max_abs_nonneg x : (0 <= max_abs x)%Q.
Proof. apply max_abs_from_nonneg. lra. Qed.

Lemma measured mult x starttime dl : (0 < dl)%Q ->
  let t := (mult * max_abs x)%Q in
  let P := find_peaks x t in let T := find_peaks (map Qopp x) t in
  alternate P T -> P <> [] -> T <> [] ->
  exists i j a fr tm, peak_to_trough_amplitude mult x starttime dl = Ret (a, fr, tm)
  /\ largest_swing x P T i j /\ i <> j
  /\ (a == 500 * (at_ x i - at_ x j))%Q /\ (fr * (2 * (inject_Z (Z.abs (i - j)) * dl)) == 1)%Q
  /\ (tm == starttime + inject_Z (i + j) * dl / 2)%Q.
Proof.
  intros Hd t P T Ha HP HT.
  destruct (best_pair_ok x P T Ha) as (i & j & f & E & Ef & Hs); [intros i j Hn C; pose proof (neighbours_differ x t i j Hn); lra|exact HP|exact HT|].
  pose proof (neighbours_differ x t i j (proj1 Hs)) as Hlt.
  assert (Hij : i <> j) by (intros ->; lra).
  unfold peak_to_trough_amplitude. cbv zeta. fold t. fold P T. rewrite E. cbn [bind].
  exists i, j. eexists. eexists. eexists. split; [reflexivity|]. split; [exact Hs|]. split; [exact Hij|].
  assert (Ej : (inject_Z (Z.abs (i - j)) == Qabs (inject_Z i - inject_Z j))%Q).
  { transitivity (Qabs (inject_Z (i - j))); [reflexivity|]. apply Qabs_wd. unfold Z.sub. rewrite inject_Z_plus, inject_Z_opp. reflexivity. }
  assert (Hpos : (0 < Qabs (inject_Z i - inject_Z j))%Q).
  { rewrite <- Ej. change 0%Q with (inject_Z 0). rewrite <- Zlt_Qlt. lia. }
  split; [subst f; unfold swing; rewrite Qabs_pos by lra; field|]. split.
  - rewrite Ej. setoid_replace (inject_Z i * dl - inject_Z j * dl)%Q with ((inject_Z i - inject_Z j) * dl)%Q by ring.
    rewrite Qabs_Qmult. setoid_replace (Qabs dl) with dl by (apply Qabs_pos; lra). field.
    split; intros C; [rewrite C in Hd|rewrite C in Hpos]; lra.
  - rewrite inject_Z_plus. field.
Qed.
Lemma no_extrema mult x starttime dl :
  let t := (mult * max_abs x)%Q in
  find_peaks x t = [] \/ find_peaks (map Qopp x) t = [] -> peak_to_trough_amplitude mult x starttime dl = Raise PeakToTrough.
Proof.
  intros t H. unfold peak_to_trough_amplitude. cbv zeta. fold t. unfold best_pair, pairs. destruct H as [-> | ->]; [reflexivity|].
  destruct (find_peaks x t); reflexivity.
Qed.

(** * Table *)
Lemma set_row_new t label row : (forall r, In r t -> fst r <> label) -> set_row t label row = t ++ [(label, row)].
Proof.
  induction t as [|[l r] t IH]; intros H; [reflexivity|]. cbn [set_row app]. destruct (Z.eqb_spec l label) as [E|E]; [exfalso; apply (H (l, r)); [left; reflexivity|exact E]|].
  f_equal. apply IH. intros q Hq. apply H. right. exact Hq.
Qed.
Definition station_rows (result : string -> string -> trace_result) (i : Z) (s : string * Q * Q) : list (Z * list cell) :=
  map (fun jc => (i * 3 + fst jc, amp_row (fst (fst s)) (snd jc) (snd (fst s)) (snd s) (result (fst (fst s)) (snd jc)))) (combine (zrange 3) components).
Lemma add_station_new result t i s : (forall r, In r t -> fst r < i * 3) -> add_station result t i s = t ++ station_rows result i s.
Proof.
  intros H. destruct s as [[name epi] z]. unfold add_station, station_rows. change (combine (zrange 3) components) with [(0, "[E,2]"); (1, "[N,1]"); (2, "Z")]%string.
  cbn [fold_left map fst snd].
  rewrite (set_row_new t); [|intros r Hr; specialize (H r Hr); lia].
  rewrite (set_row_new (t ++ _)); [|intros r Hr; apply in_app_or in Hr; destruct Hr as [Hr|[<-|[]]]; [specialize (H r Hr); lia|cbn [fst]; lia]].
  rewrite set_row_new; [rewrite <- !app_assoc; reflexivity|].
  intros r Hr. apply in_app_or in Hr. destruct Hr as [Hr|[<-|[]]]; [|cbn [fst]; lia]. apply in_app_or in Hr. destruct Hr as [Hr|[<-|[]]]; [specialize (H r Hr); lia|cbn [fst]; lia].
Qed.
Lemma rows_labels result i s r : In r (station_rows result i s) -> i * 3 <= fst r < (i + 1) * 3.
Proof. intros H. unfold station_rows in H. cbn in H. destruct H as [<-|[<-|[<-|[]]]]; cbn [fst]; lia. Qed.
Lemma get_amplitudes_rows result : forall (stations : list (string * Q * Q)) i t, (forall r, In r t -> fst r < i * 3) ->
  fold_left (fun t is => add_station result t (fst is) (snd is)) (combine (zseq i (length stations)) stations) t
  = t ++ concat (map (fun is => station_rows result (fst is) (snd is)) (combine (zseq i (length stations)) stations)).
Proof.
  induction stations as [|s stations IH]; intros i t H; [cbn; rewrite app_nil_r; reflexivity|].
  cbn [length zseq combine fold_left map concat fst snd]. rewrite add_station_new by exact H. rewrite IH, app_assoc; [reflexivity|].
  intros r Hr. apply in_app_or in Hr. destruct Hr as [Hr|Hr]; [specialize (H r Hr); lia|apply rows_labels in Hr; lia].
Qed.
Lemma concat3 {A} (ls : list (list A)) : (forall l, In l ls -> length l = 3%nat) -> forall i j l, 0 <= j < 3 -> rd ls i = Some l -> rd (concat ls) (3 * i + j) = rd l j.
Proof.
  induction ls as [|a ls IH]; intros H i j l Hj E; [rewrite rd_nil in E; discriminate|]. pose proof (rd_bounds _ _ _ _ E). cbn [concat].
  pose proof (H a (or_introl eq_refl)) as La. destruct (Z.eq_dec i 0) as [->|Hn].
  - rewrite rd_0 in E. assert (a = l) by congruence. subst l. rewrite rd_app1 by lia. f_equal; lia.
  - rewrite rd_app2 by lia. rewrite La. replace (3 * i + j - Z.of_nat 3) with (3 * (i - 1) + j) by lia. apply IH; [intros q Hq; apply H; right; exact Hq|lia|].
    replace i with ((i - 1) + 1) in E by lia. rewrite rd_S in E by lia. exact E.
Qed.
Lemma length_concat3 {A} (ls : list (list A)) : (forall l, In l ls -> length l = 3%nat) -> length (concat ls) = (3 * length ls)%nat.
Proof.
  induction ls as [|a ls IH]; intros H; [reflexivity|]. cbn [concat length]. rewrite app_length, IH by (intros q Hq; apply H; right; exact Hq).
  rewrite (H a) by (left; reflexivity). lia.
Qed.

(** * Picks *)
Lemma filter_first {A} (f : A -> bool) l r rest : filter f l = r :: rest -> exists a b, l = a ++ r :: b /\ f r = true /\ forall q, In q a -> f q = false.
Proof.
  induction l as [|x l IH]; intros H; [discriminate|]. cbn [filter] in H. destruct (f x) eqn:E.
  - exists [], l. assert (x = r) by congruence. subst x. split; [reflexivity|]. split; [exact E|intros q []].
  - destruct (IH H) as (a & b & -> & H1 & H2). exists (x :: a), b. split; [reflexivity|]. split; [exact H1|]. intros q [<-|Hq]; [exact E|apply H2, Hq].
Qed.
Lemma filter_filter {A} (f g : A -> bool) l : filter f (filter g l) = filter (fun x => g x && f x) l.
Proof. induction l as [|x l IH]; [reflexivity|]. cbn [filter]. destruct (g x); cbn [andb filter]; [destruct (f x); rewrite IH; reflexivity|exact IH]. Qed.
Lemma pick_of_spec table station phase :
  match pick_of (filter (fun r => String.eqb (pk_station r) station) table) phase with
  | Picked t => exists r, first_row table station phase r /\ pk_time r = Some t
  | Failed => exists r, first_row table station phase r /\ pk_time r = None
  | NoOnset => no_row table station phase
  end.
Proof.
  unfold pick_of. rewrite filter_filter. destruct (filter _ table) as [|r rest] eqn:E.
  - intros q Hq Hs C. assert (In q []) as []. rewrite <- E. apply filter_In. split; [exact Hq|]. rewrite Hs, C, !String.eqb_refl. reflexivity.
  - apply filter_first in E. destruct E as (a & b & -> & H1 & H2). apply andb_true_iff in H1. destruct H1 as [H1 H1']. apply String.eqb_eq in H1, H1'.
    assert (Hf : first_row (a ++ r :: b) station phase r).
    { exists a, b. split; [reflexivity|]. split; [exact H1|]. split; [exact H1'|]. intros q Hq Hs C. specialize (H2 q Hq). rewrite Hs, C, !String.eqb_refl in H2. discriminate. }
    destruct (pk_time r) as [t|] eqn:Et; exists r; auto.
Qed.

(** * Prominence *)
Lemma base_attained v : forall l m, base v m l = m \/ exists k y, rd l k = Some y /\ (base v m l == y)%Q
  /\ forall j z, 0 <= j <= k -> rd l j = Some z -> (z <= v)%Q.
Proof.
  induction l as [|a l IH]; intros m; cbn [base]; [left; reflexivity|]. destruct (Qle_bool a v) eqn:E; [|left; reflexivity]. apply Qle_bool_iff in E.
  destruct (IH (Qmin m a)) as [H|(k & y & H1 & H2 & H3)].
  - rewrite H. destruct (Qlt_le_dec a m) as [C|C].
    + right. exists 0, a. split; [reflexivity|]. split; [apply Q.min_r; lra|]. intros j z Hj Hz. replace j with 0 in Hz by lia. rewrite rd_0 in Hz. assert (a = z) by congruence. subst z. exact E.
    + left. unfold Qmin, GenericMinMax.gmin. destruct (m ?= a)%Q eqn:Ec; try reflexivity. exfalso. apply Qgt_alt in Ec. lra.
  - right. pose proof (rd_bounds _ _ _ _ H1). exists (k + 1), y. split; [rewrite rd_S by lia; exact H1|]. split; [exact H2|]. intros j z Hj Hz.
    destruct (Z.eq_dec j 0) as [->|Hn]; [rewrite rd_0 in Hz; assert (a = z) by congruence; subst z; exact E|].
    replace j with ((j - 1) + 1) in Hz by lia. rewrite rd_S in Hz by lia. apply (H3 (j - 1) z); [lia|exact Hz].
Qed.
Lemma prominence_spec x p t : 0 <= p < Z.of_nat (length x) -> ((t <= prominence x p)%Q <-> prominent x p t).
Proof.
  intros Hp. unfold prominence. set (v := at_ x p). set (L := base v v (rev (firstn (Z.to_nat p) x))). set (R := base v v (skipn (Z.to_nat (p + 1)) x)).
  split.
  - intros H. pose proof (Q.le_max_l L R). pose proof (Q.le_max_r L R).
    assert (HL : exists a, 0 <= a <= p /\ (at_ x a <= v - t)%Q /\ forall k, a <= k <= p -> (at_ x k <= v)%Q).
    { pose proof (base_attained v (rev (firstn (Z.to_nat p) x)) v) as HH. fold L in HH. destruct HH as [E|(k & y & E1 & E2 & E3)].
      - exists p. split; [lia|]. split; [fold v; rewrite E in *; lra|]. intros k Hk. replace k with p by lia. fold v. lra.
      - pose proof (left_bound x p k y ltac:(lia) E1) as B. rewrite rd_left in E1 by lia. exists (p - 1 - k). split; [lia|]. split; [rewrite (at_of _ _ _ E1); lra|].
        intros m Hm. destruct (Z.eq_dec m p) as [->|Hn]; [fold v; lra|]. apply (E3 (p - 1 - m)); [lia|]. rewrite rd_left by lia. replace (p - 1 - (p - 1 - m)) with m by lia. apply at_rd. lia. }
    assert (HR : exists b, p <= b < Z.of_nat (length x) /\ (at_ x b <= v - t)%Q /\ forall k, p <= k <= b -> (at_ x k <= v)%Q).
    { pose proof (base_attained v (skipn (Z.to_nat (p + 1)) x) v) as HH. fold R in HH. destruct HH as [E|(k & y & E1 & E2 & E3)].
      - exists p. split; [lia|]. split; [fold v; rewrite E in *; lra|]. intros k Hk. replace k with p by lia. fold v. lra.
      - pose proof (rd_bounds _ _ _ _ E1) as B. rewrite rd_right in E1 by lia. pose proof (rd_bounds _ _ _ _ E1). exists (p + 1 + k). split; [lia|]. split; [rewrite (at_of _ _ _ E1); lra|].
        intros m Hm. destruct (Z.eq_dec m p) as [->|Hn]; [fold v; lra|]. apply (E3 (m - p - 1)); [lia|]. rewrite rd_right by lia. replace (p + 1 + (m - p - 1)) with m by lia. apply at_rd. lia. }
    destruct HL as (a & A1 & A2 & A3), HR as (b & B1 & B2 & B3). exists a, b. fold v. do 4 (split; [lia|]). split; [exact A2|]. split; [exact B2|].
    intros k Hk. destruct (Z.le_ge_cases k p); [apply A3|apply B3]; lia.
  - intros (a & b & A1 & A2 & A3 & A4 & A5 & A6 & A7). fold v in A5, A6, A7.
    assert (HL : (L <= v - t)%Q).
    { destruct (Z.eq_dec a p) as [->|Hn]; [pose proof (base_le_m v (rev (firstn (Z.to_nat p) x)) v); fold L in H; fold v in A5; lra|].
      apply Qle_trans with (at_ x a); [|exact A5]. apply (base_le _ _ _ (p - 1 - a)); [rewrite rd_left by lia; replace (p - 1 - (p - 1 - a)) with a by lia; apply at_rd; lia|].
      intros j z Hj Hz. rewrite rd_left in Hz by lia. rewrite <- (at_of _ _ _ Hz). apply A7. lia. }
    assert (HR : (R <= v - t)%Q).
    { destruct (Z.eq_dec b p) as [->|Hn]; [pose proof (base_le_m v (skipn (Z.to_nat (p + 1)) x) v); fold R in H; fold v in A6; lra|].
      apply Qle_trans with (at_ x b); [|exact A6]. apply (base_le _ _ _ (b - p - 1)); [rewrite rd_right by lia; replace (p + 1 + (b - p - 1)) with b by lia; apply at_rd; lia|].
      intros j z Hj Hz. rewrite rd_right in Hz by lia. rewrite <- (at_of _ _ _ Hz). apply A7. lia. }
    pose proof (Q.max_lub L R (v - t) HL HR). lra.
Qed.

(** Proofs about the creation of lookup tables. *)
From Coq Require Import String Ascii.
From Coq Require Import List ZArith Reals Lra Lia Bool.
From Verif Require Import Lib LibFacts PyDict Migrate_Model Migrate_Spec Migrate_Proofs ScanMseed_Model ScanMseed_Proofs
  Timeline_Proofs Lut_Model Lut_Spec Lut_Proofs Locate_Spec Locate_Proofs CreateLut_Model CreateLut_Spec.
Import ListNotations.
Open Scope Z_scope.

(** * Arrays on the grid *)

Lemma mesh_nodes n : mesh n = all_nodes n.
Proof. destruct n as ((nx, ny), nz). reflexivity. Qed.

Lemma tabulate_entry n (f : ijk -> R) p : is_node n p -> entry (tabulate n f) p = Some (f p).
Proof.
  destruct n as ((nx, ny), nz), p as ((i, j), k). intros (Hi & Hj & Hk). cbn [tabulate entry].
  rewrite rd_map, rd_zrange by lia. cbn [option_map]. rewrite rd_map, rd_zrange by lia. cbn [option_map].
  rewrite rd_map, rd_zrange by lia. reflexivity.
Qed.

Lemma tabulate_shape n (f : ijk -> R) : pos3 n -> has_shape (tabulate n f) n.
Proof.
  destruct n as ((nx, ny), nz). intros (Hx & Hy & Hz). cbn [tabulate has_shape]. split; [rewrite map_length, zrange_length; lia|].
  apply Forall_forall. intros pl Hp. apply in_map_iff in Hp. destruct Hp as (i & <- & _). split; [rewrite map_length, zrange_length; lia|].
  apply Forall_forall. intros row Hr. apply in_map_iff in Hr. destruct Hr as (j & <- & _). rewrite map_length, zrange_length. lia.
Qed.

Lemma reshape_ok n l t : pos3 n -> reshape n l = Ret t ->
  Z.of_nat (length l) = n_nodes n /\ has_shape t n /\ forall p, is_node n p -> entry t p = rd l (flat n p).
Proof.
  destruct n as ((nx, ny), nz). intros Hn. unfold reshape. destruct (Z.eqb_spec (Z.of_nat (length l)) (nx * ny * nz)) as [E|]; [|discriminate].
  set (f := fun p : ijk => _). intros H. assert (t = tabulate (nx, ny, nz) f) by congruence. subst t.
  split; [exact E|]. split; [apply tabulate_shape; exact Hn|]. intros p Hp.
  rewrite tabulate_entry by exact Hp. pose proof (flat_range _ _ Hp) as F. destruct p as ((i, j), k). cbn [flat n_nodes] in *. unfold f.
  destruct (rd_in_range _ l ((i * ny + j) * nz + k)) as [v Hv]; [lia|]. rewrite Hv. reflexivity.
Qed.

Lemma reshape_some n l : Z.of_nat (length l) = n_nodes n -> exists t, reshape n l = Ret t.
Proof. destruct n as ((nx, ny), nz). cbn [n_nodes]. intros H. unfold reshape. rewrite (proj2 (Z.eqb_eq _ _) H). eauto. Qed.

(** * Dictionaries of tables *)

Definition stored (tt : dict (dict table)) (s p : string) : option table :=
  match dget tt s with Some m => dget m p | None => None end.

Lemma put_stored tt s p t s' p' :
  stored (put tt s p t) s' p' = if (String.eqb s s' && String.eqb p p')%bool then Some t else stored tt s' p'.
Proof.
  unfold stored, put. rewrite dget_dset. destruct (String.eqb_spec s s') as [<-|]; cbn [andb]; [|reflexivity].
  rewrite dget_dset. destruct (String.eqb p p'); [reflexivity|]. destruct (dget tt s); reflexivity.
Qed.

Lemma put_stations_ok f phase : forall stations tt tt', put_stations f phase stations tt = Ret tt' ->
  NoDup (map fst stations) ->
  (forall s, In s stations -> exists t, f s = Ret t /\ stored tt' (fst s) phase = Some t)
  /\ (forall n p, (p <> phase \/ ~ In n (map fst stations)) -> stored tt' n p = stored tt n p).
Proof.
  induction stations as [|s r IH]; cbn [put_stations map]; intros tt tt' H Hnd.
  - injection H as <-. split; [intros s []|reflexivity].
  - destruct (f s) as [t| |] eqn:Ef; cbn [bind] in H; try discriminate. inversion Hnd as [|? ? Hn Hr]; subst.
    destruct (IH _ _ H Hr) as (A & B). split.
    + intros s' [<-|Hs'].
      * exists t. split; [exact Ef|]. rewrite B by (right; exact Hn). rewrite put_stored, !String.eqb_refl. reflexivity.
      * apply A. exact Hs'.
    + intros n p Hp. rewrite B by (destruct Hp as [Hp|Hp]; [left; exact Hp|right; intros C; apply Hp; right; exact C]).
      rewrite put_stored. destruct (String.eqb_spec (fst s) n) as [<-|]; [|reflexivity].
      destruct (String.eqb_spec phase p) as [<-|]; [|reflexivity]. exfalso. destruct Hp as [Hp|Hp]; [congruence|apply Hp; left; reflexivity].
Qed.

Lemma put_stations_all f phase : forall stations tt tt', put_stations f phase stations tt = Ret tt' ->
  forall n p t, stored tt' n p = Some t -> stored tt n p = Some t \/ (p = phase /\ exists s, In s stations /\ fst s = n /\ f s = Ret t).
Proof.
  induction stations as [|s r IH]; cbn [put_stations]; intros tt tt' H n p t Hs.
  - injection H as <-. left. exact Hs.
  - destruct (f s) as [t0| |] eqn:Ef; cbn [bind] in H; try discriminate.
    destruct (IH _ _ H n p t Hs) as [E|(-> & s' & Hin & E & F)].
    + rewrite put_stored in E. destruct (String.eqb_spec (fst s) n) as [E1|]; cbn [andb] in E; [|left; exact E].
      destruct (String.eqb_spec phase p) as [E2|]; [|left; exact E]. injection E as ->. right. split; [congruence|].
      exists s. split; [left; reflexivity|]. split; [exact E1|exact Ef].
    + right. split; [reflexivity|]. exists s'. split; [right; exact Hin|]. tauto.
Qed.

Lemma put_stations_total f phase : forall stations tt, (forall s, In s stations -> exists t, f s = Ret t) ->
  exists tt', put_stations f phase stations tt = Ret tt'.
Proof.
  induction stations as [|s r IH]; cbn [put_stations]; intros tt H; [eauto|].
  destruct (H s (or_introl eq_refl)) as (t & ->). cbn [bind]. apply IH. intros s' Hs'. apply H. right. exact Hs'.
Qed.

(** The phases one after the other, each step being one of the methods. *)
Fixpoint run_phases (step : string -> dict (dict table) -> outcome (dict (dict table))) (phases : list string) (tt : dict (dict table))
    : outcome (dict (dict table)) :=
  match phases with [] => Ret tt | p :: r => bind (step p tt) (run_phases step r) end.

Lemma put_phases_run f before stations : forall phases tt,
  put_phases f before stations phases tt = run_phases (fun p tt => bind (before p) (fun _ => put_stations (f p) p stations tt)) phases tt.
Proof.
  induction phases as [|p r IH]; cbn [put_phases run_phases]; intros tt; [reflexivity|].
  destruct (before p); cbn [bind]; try reflexivity. destruct (put_stations _ _ _ _); cbn [bind]; try reflexivity. apply IH.
Qed.

Lemma fold_phases_run (step : string -> dict (dict table) -> outcome (dict (dict table))) : forall phases o,
  fold_left (fun acc p => bind acc (step p)) phases o = bind o (run_phases step phases).
Proof.
  induction phases as [|p r IH]; cbn [fold_left run_phases]; intros o; [destruct o; reflexivity|].
  rewrite IH. destruct o as [tt| |]; reflexivity.
Qed.

Lemma run_phases_ok step (f : string -> string * vec -> outcome table) stations : NoDup (map fst stations) ->
  (forall p tt tt', step p tt = Ret tt' -> put_stations (f p) p stations tt = Ret tt') ->
  forall phases tt tt', run_phases step phases tt = Ret tt' ->
  (forall s p, In s stations -> In p phases -> exists t, f p s = Ret t /\ stored tt' (fst s) p = Some t)
  /\ (forall n p, ~ In p phases -> stored tt' n p = stored tt n p)
  /\ (forall n p t, stored tt' n p = Some t -> stored tt n p = Some t \/ (In p phases /\ exists s, In s stations /\ fst s = n /\ f p s = Ret t)).
Proof.
  intros Hnd Hstep. induction phases as [|p r IH]; cbn [run_phases]; intros tt tt' H.
  - injection H as <-. split; [intros s p _ []|]. split; [reflexivity|]. auto.
  - destruct (step p tt) as [t1| |] eqn:E1; cbn [bind] in H; try discriminate. apply Hstep in E1.
    destruct (IH _ _ H) as (A & B & C). destruct (put_stations_ok _ _ _ _ _ E1 Hnd) as (D & E). split; [|split].
    + intros s q Hs Hq. destruct (in_dec string_dec q r) as [Hr|Hr]; [apply A; assumption|].
      destruct Hq as [<-|Hq]; [|contradiction]. destruct (D s Hs) as (t & F & G). exists t. split; [exact F|]. rewrite B by exact Hr. exact G.
    + intros n q Hq. rewrite B by (intros X; apply Hq; right; exact X). apply E. left. intros ->. apply Hq. left. reflexivity.
    + intros n q t Hs. destruct (C n q t Hs) as [F|(F & G)]; [|right; split; [right; exact F|exact G]].
      destruct (put_stations_all _ _ _ _ _ E1 n q t F) as [G|(-> & G)]; [left; exact G|]. right. split; [left; reflexivity|exact G].
Qed.

(** * Closest node *)
Lemma amin_from_spec : forall l i best bv, 0 <= best < i ->
  let b := amin_from i best bv l in
  (b = best \/ (i <= b < i + Z.of_nat (length l)))
  /\ exists m, (m = bv /\ b = best \/ rd l (b - i) = Some m /\ i <= b) /\ (m <= bv)%R /\ forall j v, rd l j = Some v -> (m <= v)%R.
Proof.
  induction l as [|v r IH]; intros i best bv Hb; cbn [amin_from].
  - split; [left; reflexivity|]. exists bv. split; [left; auto|]. split; [lra|]. intros j w Hj. rewrite rd_nil in Hj. discriminate.
  - destruct (Rlt_dec v bv) as [L|L].
    + destruct (IH (i + 1) i v) as (A & m & B & C & D); [lia|]. set (b := amin_from (i + 1) i v r) in *. cbn [length]. rewrite Nat2Z.inj_succ. split; [lia|].
      exists m. split.
      * right. destruct B as [(-> & B)|(B & B')]; [rewrite B, Z.sub_diag; split; [apply rd_0|lia]|].
        split; [|lia]. replace (b - i) with ((b - (i + 1)) + 1) by lia. rewrite rd_S by lia. exact B.
      * split; [lra|]. intros j w Hj. pose proof (rd_bounds _ _ _ _ Hj). destruct (Z.eq_dec j 0) as [->|].
        -- rewrite rd_0 in Hj. injection Hj as <-. exact C.
        -- replace j with ((j - 1) + 1) in Hj by lia. rewrite rd_S in Hj by lia. exact (D _ _ Hj).
    + destruct (IH (i + 1) best bv) as (A & m & B & C & D); [lia|]. set (b := amin_from (i + 1) best bv r) in *. cbn [length]. rewrite Nat2Z.inj_succ. split; [lia|].
      exists m. split.
      * destruct B as [B|(B & B')]; [left; exact B|]. right. split; [|lia].
        replace (b - i) with ((b - (i + 1)) + 1) by lia. rewrite rd_S by lia. exact B.
      * split; [exact C|]. intros j w Hj. pose proof (rd_bounds _ _ _ _ Hj). destruct (Z.eq_dec j 0) as [->|].
        -- rewrite rd_0 in Hj. injection Hj as <-. lra.
        -- replace j with ((j - 1) + 1) in Hj by lia. rewrite rd_S in Hj by lia. exact (D _ _ Hj).
Qed.

Lemma argmin_spec l : l <> [] -> exists b m, argmin l = Ret b /\ rd l b = Some m /\ forall j v, rd l j = Some v -> (m <= v)%R.
Proof.
  destruct l as [|v r]; [contradiction|]. intros _. cbn [argmin]. destruct (amin_from_spec r 1 0 v ltac:(lia)) as (A & m & B & C & D).
  set (b := amin_from 1 0 v r) in *. exists b, m. split; [reflexivity|]. split.
  - destruct B as [(-> & ->)|(B & B')]; [apply rd_0|]. replace b with ((b - 1) + 1) by lia. rewrite rd_S by lia. exact B.
  - intros j w Hj. pose proof (rd_bounds _ _ _ _ Hj). destruct (Z.eq_dec j 0) as [->|].
    + rewrite rd_0 in Hj. injection Hj as <-. exact C.
    + replace j with ((j - 1) + 1) in Hj by lia. rewrite rd_S in Hj by lia. exact (D _ _ Hj).
Qed.

Lemma station_node_min g st : grid_ok g -> exists n, station_node g st = Ret n /\ is_node (g_count g) n
  /\ forall q, is_node (g_count g) q -> (grid_distance st (node2grid g n) <= grid_distance st (node2grid g q))%R.
Proof.
  intros Hg. pose proof (grid_ok_pos g Hg) as Hp. unfold station_node, grid_xyz. rewrite map_map, mesh_nodes.
  pose proof (all_nodes_length _ Hp) as L. pose proof (pos3_nodes _ Hp) as N.
  destruct (argmin_spec (map (fun x => grid_distance st (node2grid g x)) (all_nodes (g_count g)))) as (b & m & E & R & M).
  { destruct (all_nodes (g_count g)); [cbn in L; lia|discriminate]. }
  rewrite E. cbn [bind]. pose proof (rd_bounds _ _ _ _ R) as B. rewrite map_length, L in B.
  destruct (unravel_inv b (g_count g)) as (n & U & Hn & F); [exact Hp|exact B|]. exists n. split; [exact U|]. split; [exact Hn|].
  intros q Hq. subst b. rewrite rd_map, all_nodes_rd in R by exact Hn. cbn [option_map] in R. injection R as R.
  specialize (M (flat (g_count g) q) (grid_distance st (node2grid g q))). rewrite rd_map, all_nodes_rd in M by exact Hq. specialize (M eq_refl). lra.
Qed.

Open Scope R_scope.
Lemma station_node_axes g st n : grid_ok g -> station_node g st = Ret n ->
  is_node (g_count g) n /\
  let '(l1, l2, l3) := g_ll g in let '(s1, s2, s3) := g_spacing g in let '(n1, n2, n3) := g_count g in
  let '(i, j, k) := n in let '(x, y, z) := st in
  (forall i', (0 <= i' < n1)%Z -> Rabs (x - axis_coord l1 s1 i) <= Rabs (x - axis_coord l1 s1 i'))
  /\ (forall i', (0 <= i' < n2)%Z -> Rabs (y - axis_coord l2 s2 j) <= Rabs (y - axis_coord l2 s2 i'))
  /\ (forall i', (0 <= i' < n3)%Z -> Rabs (z - axis_coord l3 s3 k) <= Rabs (z - axis_coord l3 s3 i')).
Proof.
  intros Hg E. destruct (station_node_min g st Hg) as (n' & E' & Hn & M). assert (n' = n) by congruence. subst n'.
  split; [exact Hn|]. unfold grid_distance in M. rewrite node2grid_eq in M.
  destruct (g_ll g) as ((l1, l2), l3) eqn:El, (g_spacing g) as ((s1, s2), s3) eqn:Es, (g_count g) as ((n1, n2), n3), n as ((i, j), k), st as ((x, y), z).
  destruct Hn as (Hi & Hj & Hk).
  assert (M' : forall i' j' k', (0 <= i' < n1 /\ 0 <= j' < n2 /\ 0 <= k' < n3)%Z ->
    Rabs (x - axis_coord l1 s1 i) + Rabs (y - axis_coord l2 s2 j) + Rabs (z - axis_coord l3 s3 k)
    <= Rabs (x - axis_coord l1 s1 i') + Rabs (y - axis_coord l2 s2 j') + Rabs (z - axis_coord l3 s3 k')).
  { intros i' j' k' Hq. specialize (M (i', j', k')). rewrite node2grid_eq, El, Es in M. cbn [vmap2 is_node] in M.
    rewrite (Rabs_minus_sym x), (Rabs_minus_sym y), (Rabs_minus_sym z), (Rabs_minus_sym x (axis_coord l1 s1 i')),
      (Rabs_minus_sym y (axis_coord l2 s2 j')), (Rabs_minus_sym z (axis_coord l3 s3 k')). apply M. tauto. }
  split; [|split]; intros a Ha.
  - specialize (M' a j k). assert (Q := M' ltac:(tauto)); lra.
  - specialize (M' i a k). assert (Q := M' ltac:(tauto)); lra.
  - specialize (M' i j a). assert (Q := M' ltac:(tauto)); lra.
Qed.

Lemma abs_sq x y : Rabs x <= Rabs y -> x * x <= y * y.
Proof. intros H. exact (Rsqr_le_abs_1 x y H). Qed.

Lemma station_node_closest g st n : grid_ok g -> station_node g st = Ret n -> closest g st n.
Proof.
  intros Hg E. destruct (station_node_axes g st n Hg E) as (Hn & H). split; [exact Hn|]. intros q Hq. rewrite !node2grid_eq.
  destruct (g_ll g) as ((l1, l2), l3), (g_spacing g) as ((s1, s2), s3), (g_count g) as ((n1, n2), n3), n as ((i, j), k), st as ((x, y), z), q as ((i', j'), k').
  destruct H as (A & B & C), Hq as (Qi & Qj & Qk). unfold dist2.
  pose proof (abs_sq _ _ (A i' Qi)). pose proof (abs_sq _ _ (B j' Qj)). pose proof (abs_sq _ _ (C k' Qk)). lra.
Qed.

Lemma station_node_half g st n : grid_ok g -> station_node g st = Ret n -> inside g st ->
  let '(x, y, z) := st in let '(a, b, c) := node2grid g n in let '(s1, s2, s3) := g_spacing g in
  Rabs (x - a) <= s1 / 2 /\ Rabs (y - b) <= s2 / 2 /\ Rabs (z - c) <= s3 / 2.
Proof.
  intros Hg E Hin. destruct (station_node_axes g st n Hg E) as (Hn & H). rewrite node2grid_eq. unfold inside in Hin. unfold grid_ok in Hg.
  destruct (g_ll g) as ((l1, l2), l3), (g_spacing g) as ((s1, s2), s3), (g_count g) as ((n1, n2), n3), n as ((i, j), k), st as ((x, y), z).
  destruct H as (A & B & C), Hin as (I1 & I2 & I3), Hg as ((S1 & S2 & S3) & N1 & N2 & N3).
  split; [|split].
  - eapply Rle_trans; [apply A, (axis_in_range l1 s1 x n1); [exact S1|lia|exact I1]|apply axis_near; exact S1].
  - eapply Rle_trans; [apply B, (axis_in_range l2 s2 y n2); [exact S2|lia|exact I2]|apply axis_near; exact S2].
  - eapply Rle_trans; [apply C, (axis_in_range l3 s3 z n3); [exact S3|lia|exact I3]|apply axis_near; exact S3].
Qed.

(** * Straight rays *)
Lemma straight_nonneg v st p : 0 < v -> 0 <= straight_time v st p.
Proof.
  intros Hv. unfold straight_time. destruct (vmap2 Rminus p st) as ((dx, dy), dz). apply Rmult_le_pos; [apply sqrt_pos|].
  apply Rlt_le, Rinv_0_lt_compat. exact Hv.
Qed.

Lemma straight_distance v st p : 0 < v -> straight_time v st p * v = distance st p.
Proof.
  intros Hv. unfold straight_time, distance, dist2. destruct st as ((x, y), z), p as ((a, b), c). cbn [vmap2].
  unfold Rdiv. rewrite Rmult_assoc, Rinv_l, Rmult_1_r by lra. f_equal. ring.
Qed.

Lemma dist2_nonneg v w : 0 <= dist2 v w.
Proof. destruct v as ((a, b), c), w as ((x, y), z). unfold dist2. pose proof (Rle_0_sqr (a - x)). pose proof (Rle_0_sqr (b - y)). pose proof (Rle_0_sqr (c - z)). unfold Rsqr in *. lra. Qed.

Lemma distance_zero v w : distance v w = 0 <-> v = w.
Proof.
  unfold distance. split.
  - intros H. apply sqrt_eq_0 in H; [|apply dist2_nonneg]. destruct v as ((a, b), c), w as ((x, y), z). unfold dist2 in H.
    pose proof (Rle_0_sqr (a - x)). pose proof (Rle_0_sqr (b - y)). pose proof (Rle_0_sqr (c - z)). unfold Rsqr in *.
    assert (A : (a - x) * (a - x) = 0) by lra. assert (B : (b - y) * (b - y) = 0) by lra. assert (C : (c - z) * (c - z) = 0) by lra.
    apply Rmult_integral in A, B, C. f_equal; [f_equal|]; lra.
  - intros ->. destruct w as ((x, y), z). unfold dist2. replace (_ + _ + _) with 0 by ring. apply sqrt_0.
Qed.

Lemma cauchy a b c p q r : a * p + b * q + c * r <= sqrt (a * a + b * b + c * c) * sqrt (p * p + q * q + r * r).
Proof.
  assert (Pu : forall x y z, 0 <= x * x + y * y + z * z).
  { intros x y z. pose proof (Rle_0_sqr x). pose proof (Rle_0_sqr y). pose proof (Rle_0_sqr z). unfold Rsqr in *. lra. }
  rewrite <- sqrt_mult by apply Pu. destruct (Rle_dec 0 (a * p + b * q + c * r)) as [H|H].
  - rewrite <- (sqrt_square (a * p + b * q + c * r)) by exact H. apply sqrt_le_1_alt.
    pose proof (Rle_0_sqr (a * q - b * p)). pose proof (Rle_0_sqr (a * r - c * p)). pose proof (Rle_0_sqr (b * r - c * q)). unfold Rsqr in *.
    assert (E : (a * a + b * b + c * c) * (p * p + q * q + r * r) = (a * p + b * q + c * r) * (a * p + b * q + c * r)
      + (a * q - b * p) * (a * q - b * p) + (a * r - c * p) * (a * r - c * p) + (b * r - c * q) * (b * r - c * q)) by ring. lra.
  - pose proof (sqrt_pos ((a * a + b * b + c * c) * (p * p + q * q + r * r))). lra.
Qed.

Lemma triangle u v w : distance u w <= distance u v + distance v w.
Proof.
  unfold distance. destruct u as ((a, b), c), v as ((p, q), r), w as ((x, y), z). unfold dist2.
  set (N := sqrt ((a - p) * (a - p) + (b - q) * (b - q) + (c - r) * (c - r))).
  set (M := sqrt ((p - x) * (p - x) + (q - y) * (q - y) + (r - z) * (r - z))).
  assert (Pu : forall x y z, 0 <= x * x + y * y + z * z).
  { intros x0 y0 z0. pose proof (Rle_0_sqr x0). pose proof (Rle_0_sqr y0). pose proof (Rle_0_sqr z0). unfold Rsqr in *. lra. }
  assert (HN : 0 <= N) by apply sqrt_pos. assert (HM : 0 <= M) by apply sqrt_pos.
  rewrite <- (sqrt_square (N + M)) by lra. apply sqrt_le_1_alt.
  pose proof (cauchy (a - p) (b - q) (c - r) (p - x) (q - y) (r - z)) as C. fold N M in C.
  assert (EN : N * N = (a - p) * (a - p) + (b - q) * (b - q) + (c - r) * (c - r)) by (apply sqrt_sqrt, Pu).
  assert (EM : M * M = (p - x) * (p - x) + (q - y) * (q - y) + (r - z) * (r - z)) by (apply sqrt_sqrt, Pu).
  replace ((N + M) * (N + M)) with (N * N + 2 * (N * M) + M * M) by ring. rewrite EN, EM.
  replace (a - x) with ((a - p) + (p - x)) by ring. replace (b - y) with ((b - q) + (q - y)) by ring. replace (c - z) with ((c - r) + (r - z)) by ring. lra.
Qed.

Lemma distance_sym v w : distance v w = distance w v.
Proof. unfold distance. f_equal. destruct v as ((a, b), c), w as ((x, y), z). unfold dist2. ring. Qed.

(** * Two-dimensional interpolation *)
Lemma floor_cell o s x i : 0 < s -> floor_div (x - o) s = i -> in_cell o s i x.
Proof.
  intros Hs <-. unfold in_cell, floor_div. pose proof (base_Int_part ((x - o) / s)) as (A & B). set (k := Int_part ((x - o) / s)) in *.
  assert (Q : (x - o) / s * s = x - o) by (field; lra). rewrite plus_IZR.
  split.
  - assert (IZR k * s <= (x - o) / s * s) by (apply Rmult_le_compat_r; lra). lra.
  - assert ((x - o) / s * s < (IZR k + 1) * s) by (apply Rmult_lt_compat_r; lra). lra.
Qed.

Lemma cell_floor o s x i : 0 < s -> in_cell o s i x -> floor_div (x - o) s = i.
Proof.
  intros Hs (A & B). unfold floor_div. apply Int_part_unique. rewrite plus_IZR in B.
  assert (Q : (x - o) / s * s = x - o) by (field; lra). split.
  - apply Rmult_lt_reg_r with s; [exact Hs|]. lra.
  - apply Rmult_le_reg_r with s; [exact Hs|]. lra.
Qed.

Lemma cell_in o s n x : 0 < s -> covered o s n x -> (0 <= floor_div (x - o) s < n - 1)%Z.
Proof.
  intros Hs (A & B). destruct (floor_cell o s x _ Hs eq_refl) as (C & D). set (i := floor_div (x - o) s) in *. rewrite plus_IZR in D. split.
  - destruct (Z_lt_le_dec i 0) as [L|L]; [|exact L]. exfalso. assert (IZR i + 1 <= 0) by (rewrite <- plus_IZR; apply IZR_le; lia).
    assert ((IZR i + 1) * s <= 0 * s) by (apply Rmult_le_compat_r; lra). lra.
  - destruct (Z_lt_le_dec i (n - 1)) as [L|L]; [exact L|]. exfalso. apply IZR_le in L.
    assert (IZR (n - 1) * s <= IZR i * s) by (apply Rmult_le_compat_r; lra). lra.
Qed.

(** The fraction used by the code. *)
Lemma remainder_range x s : 0 < s -> 0 <= remainder x s / s < 1.
Proof.
  intros Hs. unfold remainder. destruct (floor_cell 0 s x _ Hs eq_refl) as (A & B). rewrite Rminus_0_r, plus_IZR in *.
  set (k := floor_div x s) in *. split.
  - apply Rmult_le_reg_r with s; [exact Hs|]. unfold Rdiv. rewrite Rmult_assoc, Rinv_l by lra. lra.
  - apply Rmult_lt_reg_r with s; [exact Hs|]. unfold Rdiv. rewrite Rmult_assoc, Rinv_l by lra. lra.
Qed.

Lemma remainder_aligned o x s : 0 < s -> aligned o s -> remainder x s = x - (o + IZR (floor_div (x - o) s) * s).
Proof.
  intros Hs (m & ->). unfold remainder.
  assert (E : floor_div x s = (m + floor_div (x - IZR m * s) s)%Z).
  { destruct (floor_cell (IZR m * s) s x _ Hs eq_refl) as (A & B). set (i := floor_div (x - IZR m * s) s) in *.
    rewrite <- (Rminus_0_r x). apply cell_floor; [exact Hs|]. unfold in_cell. rewrite !plus_IZR in *. lra. }
  rewrite E, plus_IZR. ring.
Qed.

Lemma np_index_in {A} (l : list A) i v : rd l i = Some v -> np_index l i = Ret v.
Proof. intros H. pose proof (rd_bounds _ _ _ _ H). unfold np_index. rewrite (proj2 (Z.ltb_ge _ _)) by lia. rewrite H. reflexivity. Qed.

Lemma entry2_some t nx nz i k : has_shape2 t nx nz -> (0 <= i < nx)%Z -> (0 <= k < nz)%Z -> exists v, entry2 t i k = Some v.
Proof.
  intros (A & B) Hi Hk. unfold entry2. destruct (rd_in_range _ t i) as [row Hr]; [lia|]. rewrite Hr.
  rewrite Forall_forall in B. specialize (B row (rd_in _ _ _ _ Hr)). apply rd_in_range. lia.
Qed.

Lemma entry2_index t i k v : entry2 t i k = Some v -> bind (np_index t i) (fun row => np_index row k) = Ret v.
Proof.
  unfold entry2. destruct (rd t i) as [row|] eqn:Hr; [|discriminate]. intros H. rewrite (np_index_in _ _ _ Hr). cbn [bind]. apply np_index_in. exact H.
Qed.

Lemma bilinear_in ox oz sx sz tt nx nz x z : 0 < sx -> 0 < sz -> has_shape2 tt nx nz -> covered ox sx nx x -> covered oz sz nz z ->
  exists i k a b c d, in_cell ox sx i x /\ in_cell oz sz k z
  /\ entry2 tt i k = Some a /\ entry2 tt (i + 1) k = Some b /\ entry2 tt i (k + 1) = Some c /\ entry2 tt (i + 1) (k + 1) = Some d
  /\ let x_d := remainder x sx / sx in let z_d := remainder z sz / sz in
     bilinear (ox, oz) (sx, sz) tt (x, z) = Ret ((a * (1 - x_d) + b * x_d) * (1 - z_d) + (c * (1 - x_d) + d * x_d) * z_d).
Proof.
  intros Hsx Hsz Hs Hx Hz. pose proof (cell_in _ _ _ _ Hsx Hx) as Ix. pose proof (cell_in _ _ _ _ Hsz Hz) as Iz.
  set (i := floor_div (x - ox) sx) in *. set (k := floor_div (z - oz) sz) in *. exists i, k.
  destruct (entry2_some tt nx nz i k Hs) as [a Ea]; [lia|lia|]. destruct (entry2_some tt nx nz (i + 1) k Hs) as [b Eb]; [lia|lia|].
  destruct (entry2_some tt nx nz i (k + 1) Hs) as [c Ec]; [lia|lia|]. destruct (entry2_some tt nx nz (i + 1) (k + 1) Hs) as [d Ed]; [lia|lia|].
  exists a, b, c, d. split; [apply floor_cell; [exact Hsx|reflexivity]|]. split; [apply floor_cell; [exact Hsz|reflexivity]|].
  do 4 (split; [assumption|]). cbv zeta. unfold bilinear. fold i k.
  rewrite (entry2_index _ _ _ _ Ea). cbn [bind]. rewrite (entry2_index _ _ _ _ Eb). cbn [bind].
  rewrite (entry2_index _ _ _ _ Ed). cbn [bind]. rewrite (entry2_index _ _ _ _ Ec). cbn [bind]. reflexivity.
Qed.

Lemma mix a b t lo hi : 0 <= t <= 1 -> lo <= a <= hi -> lo <= b <= hi -> lo <= a * (1 - t) + b * t <= hi.
Proof.
  intros Ht Ha Hb.
  assert (lo * (1 - t) <= a * (1 - t) <= hi * (1 - t)) by (split; apply Rmult_le_compat_r; lra).
  assert (lo * t <= b * t <= hi * t) by (split; apply Rmult_le_compat_r; lra). lra.
Qed.

Lemma mix4 a b c d t u : 0 <= t <= 1 -> 0 <= u <= 1 ->
  within4 a b c d ((a * (1 - t) + b * t) * (1 - u) + (c * (1 - t) + d * t) * u).
Proof.
  intros Ht Hu. unfold within4. set (lo := Rmin (Rmin a b) (Rmin c d)). set (hi := Rmax (Rmax a b) (Rmax c d)).
  assert (lo <= a <= hi /\ lo <= b <= hi /\ lo <= c <= hi /\ lo <= d <= hi) as (A & B & C & D).
  { unfold lo, hi. pose proof (Rmin_l a b). pose proof (Rmin_r a b). pose proof (Rmin_l c d). pose proof (Rmin_r c d).
    pose proof (Rmin_l (Rmin a b) (Rmin c d)). pose proof (Rmin_r (Rmin a b) (Rmin c d)).
    pose proof (Rmax_l a b). pose proof (Rmax_r a b). pose proof (Rmax_l c d). pose proof (Rmax_r c d).
    pose proof (Rmax_l (Rmax a b) (Rmax c d)). pose proof (Rmax_r (Rmax a b) (Rmax c d)). repeat split; lra. }
  apply mix; [exact Hu| |]; apply mix; assumption.
Qed.

Lemma bilinear_aligned ox oz sx sz i k a b c d x z : 0 < sx -> 0 < sz -> aligned ox sx -> aligned oz sz ->
  in_cell ox sx i x -> in_cell oz sz k z ->
  let x_d := remainder x sx / sx in let z_d := remainder z sz / sz in
  (a * (1 - x_d) + b * x_d) * (1 - z_d) + (c * (1 - x_d) + d * x_d) * z_d
  = bilinear_value (ox + IZR i * sx) (ox + IZR (i + 1) * sx) (oz + IZR k * sz) (oz + IZR (k + 1) * sz) a b c d x z.
Proof.
  intros Hsx Hsz Ax Az Cx Cz. cbv zeta. rewrite (remainder_aligned ox) by assumption. rewrite (remainder_aligned oz) by assumption.
  rewrite (cell_floor _ _ _ _ Hsx Cx), (cell_floor _ _ _ _ Hsz Cz). unfold bilinear_value. rewrite !plus_IZR. field. lra.
Qed.

(** The interpolant of values that are linear in the two coordinates. *)
Lemma bilinear_linear x0 x1 z0 z1 p q r x z : x0 <> x1 -> z0 <> z1 ->
  bilinear_value x0 x1 z0 z1 (p + q * x0 + r * z0) (p + q * x1 + r * z0) (p + q * x0 + r * z1) (p + q * x1 + r * z1) x z = p + q * x + r * z.
Proof. intros Hx Hz. unfold bilinear_value. field. lra. Qed.

Lemma bilinear_corner x0 x1 z0 z1 a b c d : x0 <> x1 -> z0 <> z1 -> bilinear_value x0 x1 z0 z1 a b c d x0 z0 = a.
Proof. intros Hx Hz. unfold bilinear_value. field. lra. Qed.

(** * Sweeping the two-dimensional table *)
Lemma fmt6_near x : Rabs (fmt6 x - x) <= 5 / 10000000.
Proof.
  unfold fmt6. pose proof (np_round_near (x * 1000000)) as H. apply Rabs_le. apply Rabs_le_inv in H.
  assert (E : IZR (np_round (x * 1000000)) / 1000000 - x = (IZR (np_round (x * 1000000)) - x * 1000000) / 1000000) by field. rewrite E.
  unfold Rdiv at 1 2 3 4. lra.
Qed.

Lemma fmt6_id x : six_decimals x -> fmt6 x = x.
Proof. intros (n & ->). unfold fmt6. replace (IZR n / 1000000 * 1000000) with (IZR n) by field. rewrite np_round_IZR. reflexivity. Qed.

Lemma covers_span o len s x : 0 < s -> o <= x <= o + len -> covered o s (np_ceil (len / s) + 5) x.
Proof.
  intros Hs (A & B). split; [exact A|]. replace (np_ceil (len / s) + 5 - 1)%Z with (np_ceil (len / s) + 4)%Z by lia. rewrite plus_IZR.
  destruct (np_ceil_spec (len / s)) as (C & _). assert (E : len / s * s = len) by (field; lra).
  assert (len / s * s <= IZR (np_ceil (len / s)) * s) by (apply Rmult_le_compat_r; lra). lra.
Qed.

Lemma outcomes_map {A B} (f : A -> outcome B) : forall l, (forall x, In x l -> exists v, f x = Ret v) ->
  exists vs, outcomes (map f l) = Ret vs /\ length vs = length l /\ forall i x, rd l i = Some x -> exists v, f x = Ret v /\ rd vs i = Some v.
Proof.
  induction l as [|x l IH]; intros H.
  - exists []. cbn. split; [reflexivity|]. split; [reflexivity|]. intros i x Hx. rewrite rd_nil in Hx. discriminate.
  - destruct (H x (or_introl eq_refl)) as (v & Ev). destruct IH as (vs & E & L & R); [intros y Hy; apply H; right; exact Hy|].
    exists (v :: vs). split; [|split].
    + apply outcomes_ok. cbn [map]. rewrite Ev. f_equal. apply outcomes_ok. exact E.
    + cbn. congruence.
    + intros i y Hy. pose proof (rd_bounds _ _ _ _ Hy). destruct (Z.eq_dec i 0) as [->|].
      * rewrite rd_0 in Hy. injection Hy as <-. exists v. split; [exact Ev|apply rd_0].
      * replace i with ((i - 1) + 1)%Z in Hy |- * by lia. rewrite rd_S in Hy by lia. destruct (R _ _ Hy) as (w & F & G).
        exists w. split; [exact F|]. rewrite rd_S by lia. exact G.
Qed.

Lemma combine_maps {A B C} (f : A -> B) (g : A -> C) : forall l, combine (map f l) (map g l) = map (fun x => (f x, g x)) l.
Proof. induction l as [|x l IH]; cbn; [reflexivity|]. rewrite IH. reflexivity. Qed.

Lemma node_depth g n c : grid_ok g -> is_node (g_count g) n -> 0 < c ->
  snd (node2grid g first_node) / c <= snd (node2grid g n) / c <= snd (node2grid g (last_node (g_count g))) / c.
Proof.
  intros Hg Hn Hc. unfold first_node. rewrite !node2grid_eq. unfold grid_ok in Hg.
  destruct (g_ll g) as ((l1, l2), l3), (g_spacing g) as ((s1, s2), s3), (g_count g) as ((n1, n2), n3), n as ((i, j), k).
  destruct Hg as ((_ & _ & S3) & _), Hn as (_ & _ & Hk). cbn [last_node snd]. unfold axis_coord.
  assert (Ic : 0 < / c) by (apply Rinv_0_lt_compat; exact Hc).
  assert (K1 : 0 <= IZR k <= IZR (n3 - 1)) by (split; apply IZR_le; lia).
  assert (0 * s3 <= IZR k * s3 <= IZR (n3 - 1) * s3) by (split; apply Rmult_le_compat_r; lra).
  unfold Rdiv. split; apply Rmult_le_compat_r; lra.
Qed.

Lemma nlloc_table_ok nlloc g km_cf m dx block phase name st layers :
  obeys nlloc -> grid_ok g -> 0 < km_cf -> 0 < dx -> six_decimals dx ->
  vmodel_string (mk_vmodel (vm_index m) (map (fun kc => (fst kc, map (fun v => v / km_cf) (snd kc))) (vm_cols m))) block phase = Ret layers ->
  let depth n := snd (node2grid g n) / km_cf in
  let xyz := scale km_cf st in
  let top := Rmin (depth first_node) (snd xyz) in
  six_decimals top ->
  exists c t2 t, nlloc c = Ret (c_grid c, t2) /\ c_phase c = phase /\ c_station c = name /\ c_layers c = layers
  /\ nlloc_table nlloc g km_cf m dx block phase (name, st) = Ret t /\ has_shape t (g_count g)
  /\ forall n, is_node (g_count g) n ->
     let x := horizontal xyz (scale km_cf (node2grid g n)) in let z := depth n in
     exists i k v00 v10 v01 v11 v, in_cell 0 dx i x /\ in_cell top dx k z
     /\ entry2 t2 i k = Some v00 /\ entry2 t2 (i + 1) k = Some v10 /\ entry2 t2 i (k + 1) = Some v01 /\ entry2 t2 (i + 1) (k + 1) = Some v11
     /\ entry t n = Some v /\ within4 v00 v10 v01 v11 v
     /\ (aligned top dx ->
         v = bilinear_value (IZR i * dx) (IZR (i + 1) * dx) (top + IZR k * dx) (top + IZR (k + 1) * dx) v00 v10 v01 v11 x z).
Proof.
  intros Hnll Hg Hc Hdx Fdx Hl depth xyz top Ftop. pose proof (grid_ok_pos g Hg) as Hp.
  set (bottom := Rmax (depth (last_node (g_count g))) (snd xyz)).
  set (nodes := map (scale km_cf) (grid_xyz g)).
  assert (Ln : Z.of_nat (length nodes) = n_nodes (g_count g)).
  { unfold nodes, grid_xyz. rewrite !map_length, mesh_nodes. apply all_nodes_length. exact Hp. }
  pose proof (pos3_nodes _ Hp) as Nn.
  destruct (map (horizontal xyz) nodes) as [|d0 dr] eqn:Ed.
  { assert (length nodes = 0%nat) by (rewrite <- (map_length (horizontal xyz)), Ed; reflexivity). lia. }
  set (maxd := fold_left Rmax dr d0).
  assert (Hmax : forall w, In w nodes -> 0 <= horizontal xyz w <= 0 + maxd).
  { intros w Hw. split; [unfold horizontal; destruct (vmap2 Rminus w xyz) as ((?, ?), ?); apply sqrt_pos|].
    rewrite Rplus_0_l. unfold maxd. destruct (fold_Rmax_ge dr d0) as (A & B). apply (in_map (horizontal xyz)) in Hw. rewrite Ed in Hw.
    destruct Hw as [<-|Hw]; [exact A|apply B; exact Hw]. }
  set (c := mk_control phase name (grid_string maxd top bottom dx) layers (let '(x, y, z) := xyz in (fmt6 x, fmt6 y, fmt6 z))).
  assert (Hbt : top <= bottom).
  { unfold top, bottom. pose proof (Rmin_r (depth first_node) (snd xyz)). pose proof (Rmax_r (depth (last_node (g_count g))) (snd xyz)). lra. }
  assert (Hceil : forall len, 0 <= len -> (0 <= np_ceil (len / dx))%Z).
  { intros len H. apply le_IZR. destruct (np_ceil_spec (len / dx)) as (A & _). assert (0 <= len / dx) by (apply Rmult_le_pos; [lra|apply Rlt_le, Rinv_0_lt_compat; exact Hdx]). lra. }
  assert (Hmd : 0 <= maxd). { destruct nodes as [|w ws]; [discriminate|]. pose proof (Hmax w (or_introl eq_refl)). lra. }
  destruct (Hnll c 2%Z (np_ceil (maxd / dx) + 5)%Z (np_ceil ((bottom - top) / dx) + 5)%Z eq_refl) as (t2 & Et2 & Hs2).
  { pose proof (Hceil maxd Hmd). lia. }
  { pose proof (Hceil (bottom - top) ltac:(lra)). lia. }
  set (points := combine (d0 :: dr) (map snd nodes)).
  assert (Epts : points = map (fun w => (horizontal xyz w, snd w)) nodes).
  { unfold points. rewrite <- Ed. apply combine_maps. }
  assert (Etop : fmt6 top = top) by (apply fmt6_id; exact Ftop). assert (Edx : fmt6 dx = dx) by (apply fmt6_id; exact Fdx).
  assert (Hpt : forall w, In w nodes -> exists i k v00 v10 v01 v11 v, in_cell 0 dx i (horizontal xyz w) /\ in_cell top dx k (snd w)
     /\ entry2 t2 i k = Some v00 /\ entry2 t2 (i + 1) k = Some v10 /\ entry2 t2 i (k + 1) = Some v01 /\ entry2 t2 (i + 1) (k + 1) = Some v11
     /\ bilinear (0, top) (dx, dx) t2 (horizontal xyz w, snd w) = Ret v /\ within4 v00 v10 v01 v11 v
     /\ (aligned top dx -> v = bilinear_value (IZR i * dx) (IZR (i + 1) * dx) (top + IZR k * dx) (top + IZR (k + 1) * dx) v00 v10 v01 v11 (horizontal xyz w) (snd w))).
  { intros w Hw. assert (Hz : top <= snd w <= top + (bottom - top)).
    { unfold nodes in Hw. apply in_map_iff in Hw. destruct Hw as (u & <- & Hu). unfold grid_xyz in Hu. apply in_map_iff in Hu.
      destruct Hu as (n & <- & Hn). rewrite mesh_nodes in Hn. apply in_all_nodes in Hn. pose proof (node_depth g n km_cf Hg Hn Hc) as D.
      assert (E : snd (scale km_cf (node2grid g n)) = snd (node2grid g n) / km_cf) by (destruct (node2grid g n) as ((?, ?), ?); reflexivity).
      rewrite E. unfold top, bottom, depth. pose proof (Rmin_l (snd (node2grid g first_node) / km_cf) (snd xyz)).
      pose proof (Rmax_l (snd (node2grid g (last_node (g_count g))) / km_cf) (snd xyz)). lra. }
    destruct (bilinear_in 0 top dx dx t2 _ _ (horizontal xyz w) (snd w) Hdx Hdx Hs2 (covers_span _ _ _ _ Hdx (Hmax w Hw)) (covers_span _ _ _ _ Hdx Hz))
      as (i & k & a & b & c' & d & C1 & C2 & E1 & E2 & E3 & E4 & Eb). cbv zeta in Eb.
    exists i, k, a, b, c', d. eexists. split; [exact C1|]. split; [exact C2|]. do 4 (split; [assumption|]). split; [exact Eb|].
    pose proof (remainder_range (horizontal xyz w) dx Hdx). pose proof (remainder_range (snd w) dx Hdx).
    split; [apply mix4; lra|]. intros Ha.
    assert (A0 : aligned 0 dx) by (exists 0%Z; ring).
    pose proof (bilinear_aligned 0 top dx dx i k a b c' d (horizontal xyz w) (snd w) Hdx Hdx A0 Ha C1 C2) as Q.
    cbv zeta in Q. rewrite Q. f_equal; ring. }
  destruct (outcomes_map (bilinear (0, top) (dx, dx) t2) points) as (vs & Evs & Lvs & Rvs).
  { intros x Hx. rewrite Epts in Hx. apply in_map_iff in Hx. destruct Hx as (w & <- & Hw).
    destruct (Hpt w Hw) as (i & k & a & b & c' & d & v & _ & _ & _ & _ & _ & _ & E & _). eauto. }
  assert (Lv : Z.of_nat (length vs) = n_nodes (g_count g)) by (rewrite Lvs, Epts, map_length; exact Ln).
  destruct (reshape_some _ _ Lv) as (t & Et). destruct (reshape_ok _ _ _ Hp Et) as (_ & Hst & Hent).
  exists c, t2, t. split; [exact Et2|]. do 3 (split; [reflexivity|]). split; [|split; [exact Hst|]].
  - unfold nlloc_table. cbn [fst snd]. cbv zeta. fold xyz nodes. fold (depth first_node) (depth (last_node (g_count g))). fold top bottom.
    rewrite Ed. cbn [max_distance bind]. fold maxd. unfold control_file. rewrite Hl. cbn [bind].
    assert (Ec : (let '(x, y, z) := xyz in Ret (mk_control phase name (grid_string maxd top bottom dx) layers (fmt6 x, fmt6 y, fmt6 z))) = Ret c).
    { unfold c. destruct xyz as ((?, ?), ?). reflexivity. }
    rewrite Ec. cbn [bind]. rewrite Et2. cbn [bind fst snd]. cbn [c_grid c grid_string n_origin n_spacing]. rewrite Etop, Edx.
    fold points. rewrite Evs. cbn [bind]. exact Et.
  - intros n Hn. cbv zeta. rewrite (Hent n Hn).
    assert (Er : rd nodes (flat (g_count g) n) = Some (scale km_cf (node2grid g n))).
    { unfold nodes, grid_xyz. rewrite !rd_map, mesh_nodes, all_nodes_rd by exact Hn. reflexivity. }
    destruct (Hpt _ (rd_in _ _ _ _ Er)) as (i & k & a & b & c' & d & v & C1 & C2 & E1 & E2 & E3 & E4 & Eb & Wv & Av).
    destruct (Rvs (flat (g_count g) n) (horizontal xyz (scale km_cf (node2grid g n)), snd (scale km_cf (node2grid g n)))) as (v' & Ev & Rv).
    { rewrite Epts, rd_map, Er. reflexivity. }
    assert (v' = v) by congruence. subst v'.
    assert (E : snd (scale km_cf (node2grid g n)) = depth n) by (unfold depth; destruct (node2grid g n) as ((?, ?), ?); reflexivity).
    rewrite E in *. exists i, k, a, b, c', d, v. tauto.
Qed.

(** * Velocity models *)
Lemma increasing_lt : forall l, increasing l -> forall i j x y, (i < j)%Z -> rd l i = Some x -> rd l j = Some y -> x < y.
Proof.
  induction l as [|a r IH]; intros H i j x y Hij Hx Hy; [rewrite rd_nil in Hx; discriminate|].
  pose proof (rd_bounds _ _ _ _ Hx) as Bx. replace j with ((j - 1) + 1)%Z in Hy by lia. rewrite rd_S in Hy by lia.
  assert (Hr : increasing r) by (destruct r; [exact I|apply H]).
  destruct (Z.eq_dec i 0) as [->|].
  - rewrite rd_0 in Hx. injection Hx as <-. destruct r as [|b r]; [rewrite rd_nil in Hy; discriminate|].
    destruct H as (H & _). destruct (Z.eq_dec (j - 1) 0) as [E|E].
    + rewrite E, rd_0 in Hy. injection Hy as <-. exact H.
    + pose proof (IH Hr 0%Z (j - 1)%Z b y ltac:(lia) (rd_0 _ _ _) Hy). lra.
  - replace i with ((i - 1) + 1)%Z in Hx by lia. rewrite rd_S in Hx by lia. apply (IH Hr (i - 1)%Z (j - 1)%Z); [lia|exact Hx|exact Hy].
Qed.

Lemma increasing_snoc l y : increasing l -> (forall x, In x l -> x < y) -> increasing (l ++ [y]).
Proof.
  induction l as [|a [|b r] IH]; intros H Hy; cbn [app increasing]; [exact I|split; [apply Hy; left; reflexivity|exact I]|].
  destruct H as (H1 & H2). split; [exact H1|]. apply IH; [exact H2|]. intros x Hx. apply Hy. right. exact Hx.
Qed.

(** The deepest depth not below [z]. *)
Definition deepest (depths : list R) (z : R) (i : Z) : Prop :=
  (exists d, rd depths i = Some d /\ d <= z) /\ forall j d, (i < j)%Z -> rd depths j = Some d -> z < d.

Lemma deepest_cases : forall depths z, (forall j d, rd depths j = Some d -> z < d) \/ exists i, deepest depths z i.
Proof.
  induction depths as [|a r IH] using rev_ind; intros z; [left; intros j d H; rewrite rd_nil in H; discriminate|].
  destruct (Rle_lt_dec a z) as [L|L].
  - right. exists (Z.of_nat (length r)). split.
    + exists a. split; [|exact L]. rewrite rd_app2 by lia. rewrite Z.sub_diag. reflexivity.
    + intros j d Hj H. pose proof (rd_bounds _ _ _ _ H) as B. rewrite app_length in B. cbn [length] in B. lia.
  - destruct (IH z) as [H|(i & (d & Hd & Hz) & H)].
    + left. intros j d Hj. destruct (Z_lt_le_dec j (Z.of_nat (length r))) as [Lj|Lj]; [rewrite rd_app1 in Hj by lia; eauto|].
      pose proof (rd_bounds _ _ _ _ Hj) as B. rewrite app_length in B. cbn [length] in B. assert (j = Z.of_nat (length r)) by lia. subst j.
      rewrite rd_app2, Z.sub_diag, rd_0 in Hj by lia. injection Hj as <-. exact L.
    + right. exists i. pose proof (rd_bounds _ _ _ _ Hd) as Bi. split; [exists d; split; [rewrite rd_app1 by lia; exact Hd|exact Hz]|].
      intros j e Hij Hj. destruct (Z_lt_le_dec j (Z.of_nat (length r))) as [Lj|Lj]; [rewrite rd_app1 in Hj by lia; eauto|].
      pose proof (rd_bounds _ _ _ _ Hj) as B. rewrite app_length in B. cbn [length] in B. assert (j = Z.of_nat (length r)) by lia. subst j.
      rewrite rd_app2, Z.sub_diag, rd_0 in Hj by lia. injection Hj as <-. exact L.
Qed.

(** The velocity by the deepest depth. *)
Lemma gradient_by_deepest depths vs z v i : increasing depths -> length vs = length depths -> gradient_velocity depths vs z v -> deepest depths z i ->
  exists d w, rd depths i = Some d /\ rd vs i = Some w /\ d <= z
  /\ ((i = Z.of_nat (length depths) - 1)%Z /\ v = w
      \/ exists d' w', rd depths (i + 1) = Some d' /\ rd vs (i + 1) = Some w' /\ d < d' /\ z < d' /\ v = w + (w' - w) / (d' - d) * (z - d)).
Proof.
  intros Hinc Hlen Hv ((d & Hd & Hz) & Hdeep). pose proof (rd_bounds _ _ _ _ Hd) as Bi.
  destruct (rd_in_range _ vs i) as [w Hw]; [lia|]. exists d, w. split; [exact Hd|]. split; [exact Hw|]. split; [exact Hz|].
  unfold gradient_velocity in Hv. set (n := Z.of_nat (length depths)) in *.
  assert (Hnext : (i = n - 1)%Z \/ exists d' w', rd depths (i + 1) = Some d' /\ rd vs (i + 1) = Some w' /\ d < d' /\ z < d').
  { destruct (Z.eq_dec i (n - 1)) as [E|E]; [left; exact E|]. right.
    destruct (rd_in_range _ depths (i + 1)) as [d' Hd']; [lia|]. destruct (rd_in_range _ vs (i + 1)) as [w' Hw']; [lia|]. exists d', w'.
    split; [exact Hd'|]. split; [exact Hw'|]. split; [exact (increasing_lt _ Hinc i (i + 1)%Z d d' ltac:(lia) Hd Hd')|refine (Hdeep (i + 1)%Z d' _ Hd'); lia]. }
  assert (Hle : forall j e, (0 <= j)%Z -> (j < i)%Z -> rd depths j = Some e -> e < d).
  { intros j e _ Hj He. exact (increasing_lt _ Hinc j i e d Hj He Hd). }
  assert (at_i : v = w -> (i = n - 1)%Z /\ v = w \/ exists d' w', rd depths (i + 1) = Some d' /\ rd vs (i + 1) = Some w' /\ d < d' /\ z < d' /\ (z = d -> v = w + (w' - w) / (d' - d) * (z - d))).
  { intros ->. destruct Hnext as [E|(d' & w' & A & B & C & D)]; [left; auto|]. right. exists d', w'. do 4 (split; [assumption|]). intros ->. field. lra. }
  destruct Hv as [(e & u & He & Hu & Hze & ->)|[(e & u & He & Hu & Hze & ->)|(j & e & e' & u & u' & He & He' & Hu & Hu' & Hz1 & ->)]].
  - (* above the first depth: i = 0 and z = d *)
    assert (i = 0)%Z. { destruct (Z.eq_dec i 0); [assumption|]. pose proof (Hle 0%Z e ltac:(lia) ltac:(lia) He). lra. }
    subst i. assert (e = d) by congruence. subst e. assert (u = w) by congruence. subst u. assert (z = d) by lra. subst z.
    destruct (at_i eq_refl) as [A|(d' & w' & A & B & C & D & E)]; [left; exact A|]. right. exists d', w'. do 4 (split; [assumption|]). apply E. reflexivity.
  - assert (i = n - 1)%Z. { destruct (Z.eq_dec i (n - 1)); [assumption|]. pose proof (Hdeep (n - 1)%Z e ltac:(lia) He). lra. }
    left. split; [assumption|]. congruence.
  - pose proof (rd_bounds _ _ _ _ He') as Bj. pose proof (rd_bounds _ _ _ _ He) as Bj0.
    destruct (Z.eq_dec j i) as [->|Nji].
    + destruct Hnext as [E|(d' & w' & A & B & C & D)]; [lia|]. right. exists d', w'. do 4 (split; [assumption|]).
      assert (e = d) by congruence. assert (e' = d') by congruence. assert (u = w) by congruence. assert (u' = w') by congruence. subst. field. lra.
    + destruct (Z_lt_le_dec i j) as [L|L]; [pose proof (Hdeep j e L He); lra|].
      assert (j + 1 = i)%Z. { destruct (Z.eq_dec (j + 1) i); [assumption|]. pose proof (Hle (j + 1)%Z e' ltac:(lia) ltac:(lia) He'). lra. }
      subst i. assert (e' = d) by congruence. subst e'. assert (u' = w) by congruence. subst u'.
      pose proof (increasing_lt _ Hinc j (j + 1)%Z e d ltac:(lia) He Hd). assert (z = d) by lra. subst z.
      assert (Ew : u + (w - u) * ((d - e) / (d - e)) = w) by (field; lra). rewrite Ew in *.
      destruct (at_i eq_refl) as [A|(d' & w' & A & B & C & D & E)]; [left; exact A|]. right. exists d', w'. do 4 (split; [assumption|]). apply E. reflexivity.
Qed.

Lemma gradient_unique depths vs z v v' : increasing depths -> length vs = length depths ->
  gradient_velocity depths vs z v -> gradient_velocity depths vs z v' -> v = v'.
Proof.
  intros Hinc Hlen H H'. destruct (deepest_cases depths z) as [Hn|(i & Hi)].
  - assert (F : forall u, gradient_velocity depths vs z u -> exists w, rd vs 0 = Some w /\ u = w).
    { intros u [(e & w & He & Hw & Hze & ->)|[(e & w & He & Hu & Hze & ->)|(j & e & e' & w & u' & He & He' & Hu & Hu' & Hz1 & ->)]].
      - eauto.
      - pose proof (Hn _ _ He). lra.
      - pose proof (Hn _ _ He). lra. }
    destruct (F _ H) as (w & A & ->), (F _ H') as (w' & B & ->). congruence.
  - destruct (gradient_by_deepest _ _ _ _ _ Hinc Hlen H Hi) as (d & w & A & B & C & D).
    destruct (gradient_by_deepest _ _ _ _ _ Hinc Hlen H' Hi) as (d' & w' & A' & B' & C' & D').
    assert (d' = d) by congruence. assert (w' = w) by congruence. subst d' w'.
    destruct D as [(D & ->)|(e & u & D1 & D2 & D3 & D4 & ->)], D' as [(D' & ->)|(e' & u' & D1' & D2' & D3' & D4' & ->)].
    + reflexivity.
    + exfalso. pose proof (rd_bounds _ _ _ _ D1'). lia.
    + exfalso. pose proof (rd_bounds _ _ _ _ D1). lia.
    + assert (e' = e) by congruence. assert (u' = u) by congruence. subst. reflexivity.
Qed.

Lemma last_default {A} : forall (l : list A) d d', l <> [] -> last l d = last l d'.
Proof. induction l as [|a [|b r] IH]; intros d d' H; [contradiction|reflexivity|]. cbn [last] in *. apply IH. discriminate. Qed.

(** Linear interpolation between increasing nodes. *)
Lemma interp_seg : forall nodes x0 y0 x, nodes <> [] -> increasing (x0 :: map fst nodes) -> x0 <= x -> x <= fst (last nodes (x0, y0)) ->
  exists i a b c d, rd ((x0, y0) :: nodes) i = Some (a, b) /\ rd ((x0, y0) :: nodes) (i + 1) = Some (c, d) /\ a <= x <= c
  /\ interp_from x0 y0 nodes x = (d - b) / (c - a) * (x - a) + b.
Proof.
  induction nodes as [|(x1, y1) r IH]; intros x0 y0 x Hne Hinc H0 Hl; [contradiction|]. cbn [interp_from].
  destruct r as [|n2 r].
  - exists 0%Z, x0, y0, x1, y1. split; [reflexivity|]. split; [reflexivity|]. split; [|reflexivity]. cbn in Hl. lra.
  - destruct (Rle_dec x x1) as [L|L].
    + exists 0%Z, x0, y0, x1, y1. split; [reflexivity|]. split; [reflexivity|]. split; [lra|reflexivity].
    + destruct Hinc as (_ & Hinc). destruct (IH x1 y1 x) as (i & a & b & c & d & A & B & C & D); [discriminate|exact Hinc|lra| |].
      * rewrite (last_default (n2 :: r) (x1, y1) (x0, y0)) by discriminate. exact Hl.
      * exists (i + 1)%Z, a, b, c, d. pose proof (rd_bounds _ _ _ _ A). rewrite !(rd_S _ (x0, y0)) by lia. tauto.
Qed.

Lemma last_app {A} (l : list A) x d : last (l ++ [x]) d = x.
Proof. induction l as [|a [|b r] IH]; cbn [app last] in *; [reflexivity|reflexivity|exact IH]. Qed.
Lemma last_rd {A} : forall (l : list A) d, l <> [] -> rd l (Z.of_nat (length l) - 1) = Some (last l d).
Proof.
  intros l d H. destruct (exists_last H) as (r & x & ->). rewrite last_app, app_length. cbn [length].
  rewrite rd_app2 by lia. replace (_ - _)%Z with 0%Z by lia. reflexivity.
Qed.
Lemma map_fst_combine_ {A B} (a : list A) : forall (b : list B), length a = length b -> map fst (combine a b) = a.
Proof. induction a as [|x a IH]; intros [|y b] H; cbn in *; try discriminate; [reflexivity|]. f_equal. apply IH. congruence. Qed.
Lemma rd_combine_inv {A B} : forall (a : list A) (b : list B) i x y, rd (combine a b) i = Some (x, y) -> rd a i = Some x /\ rd b i = Some y.
Proof.
  induction a as [|x0 a IH]; intros [|y0 b] i x y H; cbn [combine] in H; try (rewrite rd_nil in H; discriminate).
  pose proof (rd_bounds _ _ _ _ H). destruct (Z.eq_dec i 0) as [->|].
  - rewrite rd_0 in *. injection H as -> ->. split; reflexivity.
  - replace i with ((i - 1) + 1)%Z in * by lia. rewrite !rd_S in * by lia. apply IH. exact H.
Qed.

Lemma fmm_velocity fmin fmax depths vs z : increasing depths -> depths <> [] -> length vs = length depths ->
  (forall d, In d depths -> fmin < d < fmax) -> fmin <= z <= fmax ->
  exists nodes v, extended fmin fmax depths vs = Ret nodes /\ interp1d nodes z = Ret v /\ gradient_velocity depths vs z v.
Proof.
  intros Hinc Hne Hlen Hd (Hz1 & Hz2). destruct vs as [|v0 vr]; [destruct depths; [contradiction|discriminate]|].
  set (vs := v0 :: vr) in *. set (vl := last vs v0).
  destruct depths as [|d0 dr] eqn:Edep; [contradiction|]. rewrite <- Edep in *.
  set (nodes := combine (depths ++ [fmax]) (vs ++ [vl])).
  assert (Ln : length (depths ++ [fmax]) = length (vs ++ [vl])) by (rewrite !app_length, Hlen; reflexivity).
  assert (En : map fst nodes = depths ++ [fmax]) by (apply map_fst_combine_; exact Ln).
  assert (Hfm : fmin < fmax) by (pose proof (Hd d0 ltac:(rewrite Edep; left; reflexivity)); lra).
  assert (Hinc' : increasing (fmin :: map fst nodes)).
  { rewrite En. rewrite Edep. cbn [app increasing]. split; [apply Hd; rewrite Edep; left; reflexivity|]. change (increasing ((d0 :: dr) ++ [fmax])).
    rewrite <- Edep. apply increasing_snoc; [exact Hinc|]. intros x Hx. apply Hd. exact Hx. }
  assert (Hnn : nodes <> []) by (intros E; rewrite E in En; destruct depths; discriminate).
  assert (Hlast : fst (last nodes (fmin, v0)) = fmax).
  { destruct (exists_last Hnn) as (r & (p & q) & E). rewrite E, last_app. rewrite E, map_app in En. cbn [map fst] in En. apply app_inj_tail in En. cbn. tauto. }
  assert (Hz' : z <= fst (last nodes (fmin, v0))) by lra.
  destruct (interp_seg nodes fmin v0 z Hnn Hinc' Hz1 Hz') as (i & a & b & c & d & A & B & C & D).
  exists ((fmin, v0) :: nodes), (interp_from fmin v0 nodes z). split; [reflexivity|]. split.
  { cbn [interp1d]. destruct (Rlt_dec z fmin); [lra|]. rewrite Hlast. destruct (Rlt_dec fmax z); [lra|]. reflexivity. }
  rewrite D.
  change ((fmin, v0) :: nodes) with (combine (fmin :: depths ++ [fmax]) (v0 :: vs ++ [vl])) in A, B.
  apply rd_combine_inv in A. destruct A as (A1 & A2). apply rd_combine_inv in B. destruct B as (B1 & B2).
  pose proof (rd_bounds _ _ _ _ A1) as Bi. rewrite !rd_S in B1, B2 by lia. pose proof (rd_bounds _ _ _ _ B1) as Bi1. rewrite app_length in Bi1. cbn [length] in Bi1.
  set (n := Z.of_nat (length depths)) in *.
  assert (Nn : (0 < n)%Z) by (unfold n; rewrite Edep; cbn [length]; lia).
  destruct (Z.eq_dec i 0) as [->|Ni].
  - rewrite rd_0 in A1, A2. injection A1 as <-. injection A2 as <-. rewrite rd_app1 in B1, B2 by lia.
    left. exists c, d. split; [exact B1|]. split; [exact B2|]. split; [lra|].
    unfold vs in B2. rewrite rd_0 in B2. injection B2 as <-. pose proof (Hd c (rd_in _ _ _ _ B1)). field. lra.
  - replace i with ((i - 1) + 1)%Z in A1, A2 by lia. rewrite rd_S in A1, A2 by lia. rewrite rd_app1 in A1, A2 by lia.
    destruct (Z.eq_dec i n) as [->|Nn'].
    + right. left. exists a, b. split; [exact A1|]. split; [exact A2|]. split; [lra|].
      rewrite rd_app2 in B2 by lia. replace (n - Z.of_nat (length vs))%Z with 0%Z in B2 by lia. rewrite rd_0 in B2. injection B2 as <-.
      rewrite rd_app2 in B1 by lia. replace (n - Z.of_nat (length depths))%Z with 0%Z in B1 by lia. rewrite rd_0 in B1. injection B1 as <-.
      assert (E : rd vs (n - 1) = Some vl) by (unfold n; rewrite <- Hlen; apply last_rd; discriminate).
      assert (b = vl) by congruence. subst b. pose proof (Hd a (rd_in _ _ _ _ A1)). field. lra.
    + right. right. rewrite rd_app1 in B1, B2 by lia. exists (i - 1)%Z, a, c, b, d. replace (i - 1 + 1)%Z with i by lia.
      split; [exact A1|]. split; [exact B1|]. split; [exact A2|]. split; [exact B2|]. split; [lra|].
      pose proof (increasing_lt _ Hinc (i - 1)%Z i a c ltac:(lia) A1 B1). field. lra.
Qed.

(** Rows by label. *)
Lemma by_label_seq : forall (c : list R) lo i, by_label (zseq lo (length c)) c (lo + i) = match rd c i with Some v => Ret v | None => Raise KeyError end.
Proof.
  induction c as [|v c IH]; intros lo i; [rewrite rd_nil; reflexivity|]. cbn [length zseq by_label].
  destruct (Z.eqb_spec lo (lo + i)) as [E|E].
  - replace i with 0%Z by lia. rewrite rd_0. reflexivity.
  - destruct (Z_lt_le_dec i 0) as [L|L].
    + replace (lo + i)%Z with (lo + 1 + (i - 1))%Z by lia. rewrite IH. unfold rd. destruct (i - 1)%Z eqn:E1, i; try lia; reflexivity.
    + replace (lo + i)%Z with (lo + 1 + (i - 1))%Z by lia. rewrite IH. replace i with ((i - 1) + 1)%Z at 2 by lia. rewrite rd_S by lia. reflexivity.
Qed.
Lemma by_label_range (c : list R) n i : n = Z.of_nat (length c) -> by_label (zrange n) c i = match rd c i with Some v => Ret v | None => Raise KeyError end.
Proof. intros ->. unfold zrange. rewrite Nat2Z.id. exact (by_label_seq c 0 i). Qed.

Definition slope (depths vs : list R) (i : Z) : R :=
  match rd depths i, rd depths (i + 1), rd vs i, rd vs (i + 1) with
  | Some d, Some d', Some v, Some v' => (v' - v) / (d' - d)
  | _, _, _, _ => 0
  end.

Lemma layer_line_ok m phase depths vs block i d v : standard m phase depths vs -> rd depths i = Some d -> rd vs i = Some v ->
  layer_line m depths vs block i = Ret (fmt6 d, fmt6 v, fmt6 (if block then 0 else slope depths vs i)).
Proof.
  intros (Hi & _ & _ & Hl & _ & _) Hd Hv. unfold layer_line, velocity_gradient. rewrite Hi.
  rewrite !(by_label_range depths _) by reflexivity. rewrite !(by_label_range vs) by congruence. unfold slope. rewrite Hd, Hv.
  destruct block; [reflexivity|]. destruct (rd depths (i + 1)) as [d'|] eqn:E; [|reflexivity].
  pose proof (rd_bounds _ _ _ _ E). pose proof (rd_bounds _ _ _ _ Hv). destruct (rd_in_range _ vs (i + 1)) as [v' Hv']; [lia|]. rewrite Hv'. reflexivity.
Qed.

Lemma vmodel_string_ok m phase depths vs block : standard m phase depths vs ->
  exists layers, vmodel_string m block phase = Ret layers /\ length layers = length depths
  /\ forall i d v, rd depths i = Some d -> rd vs i = Some v -> rd layers i = Some (fmt6 d, fmt6 v, fmt6 (if block then 0 else slope depths vs i)).
Proof.
  intros Hstd. pose proof Hstd as (Hi & Hd & Hv & Hl & Hinc & Hne). unfold vmodel_string. rewrite Hi.
  assert (Hlen : length (zrange (Z.of_nat (length depths))) = length depths) by (rewrite zrange_length; lia).
  destruct (zrange (Z.of_nat (length depths))) as [|z0 zr] eqn:Ez.
  { destruct depths; [contradiction|]. cbn [length] in Hlen. lia. }
  rewrite <- Ez in *. unfold column. rewrite Hd, Hv. cbn [bind]. rewrite Hlen.
  destruct (outcomes_map (layer_line m depths vs block) (zrange (Z.of_nat (length depths)))) as (layers & A & B & C).
  { intros i Hin. apply in_zrange in Hin.
    destruct (rd_in_range _ depths i) as [d Hd']; [lia|]. destruct (rd_in_range _ vs i) as [v Hv']; [lia|].
    eexists. apply (layer_line_ok m phase); [|exact Hd'|exact Hv']. exact Hstd. }
  exists layers. split; [exact A|]. split; [congruence|]. intros i d v Hd' Hv'. pose proof (rd_bounds _ _ _ _ Hd').
  destruct (C i i) as (l & E & F); [rewrite rd_zrange by lia; reflexivity|]. rewrite F. rewrite (layer_line_ok m phase depths vs block i d v Hstd Hd' Hv') in E. congruence.
Qed.

Lemma layer_none : forall layers z, (forall i t v g, rd layers i = Some (t, v, g) -> z < t) -> layer_velocity layers z = None.
Proof.
  induction layers as [|((t, v), g) r IH]; intros z H; [reflexivity|]. cbn [layer_velocity]. rewrite IH.
  - pose proof (H 0%Z t v g (rd_0 _ _ _)). destruct (Rle_dec t z); [lra|reflexivity].
  - intros i t' v' g' Hr. apply (H (i + 1)%Z t' v' g'). pose proof (rd_bounds _ _ _ _ Hr). rewrite rd_S by lia. exact Hr.
Qed.
Lemma layer_at : forall layers z i t v g, rd layers i = Some (t, v, g) -> t <= z ->
  (forall j t' v' g', (i < j)%Z -> rd layers j = Some (t', v', g') -> z < t') -> layer_velocity layers z = Some (v + g * (z - t)).
Proof.
  induction layers as [|((t0, v0), g0) r IH]; intros z i t v g H Ht Hn; [rewrite rd_nil in H; discriminate|]. cbn [layer_velocity].
  pose proof (rd_bounds _ _ _ _ H) as B. destruct (Z.eq_dec i 0) as [->|].
  - rewrite rd_0 in H. injection H as -> -> ->. rewrite layer_none.
    + destruct (Rle_dec t z); [reflexivity|lra].
    + intros j t' v' g' Hr. pose proof (rd_bounds _ _ _ _ Hr). apply (Hn (j + 1)%Z t' v' g'); [lia|]. rewrite rd_S by lia. exact Hr.
  - replace i with ((i - 1) + 1)%Z in H by lia. rewrite rd_S in H by lia. rewrite (IH z (i - 1)%Z t v g); [reflexivity|exact H|exact Ht|].
    intros j t' v' g' Hj Hr. pose proof (rd_bounds _ _ _ _ Hr). apply (Hn (j + 1)%Z t' v' g'); [lia|]. rewrite rd_S by lia. exact Hr.
Qed.

(** The layers of the control file against the gradient model. *)
Lemma layers_gradient m phase depths vs z v : standard m phase depths vs ->
  (forall d, In d depths -> six_decimals d) -> (forall w, In w vs -> six_decimals w) -> gradient_velocity depths vs z v ->
  exists layers, vmodel_string m false phase = Ret layers
  /\ forall i, deepest depths z i -> exists d w, rd depths i = Some d /\ layer_velocity layers z = Some w /\ Rabs (w - v) <= 5 / 10000000 * (z - d).
Proof.
  intros Hm Hd6 Hv6 Hg. destruct (vmodel_string_ok m phase depths vs false Hm) as (layers & HL & Hlen & Hrow). exists layers. split; [exact HL|].
  intros i Hi. destruct Hm as (_ & _ & _ & Hl & Hinc & Hne).
  destruct (gradient_by_deepest _ _ _ _ _ Hinc Hl Hg Hi) as (d & w & Hd & Hw & Hz & Hcase). pose proof Hi as (_ & Hdeep).
  pose proof (Hrow i d w Hd Hw) as Hr. cbn match in Hr. rewrite (fmt6_id d (Hd6 d (rd_in _ _ _ _ Hd))), (fmt6_id w (Hv6 w (rd_in _ _ _ _ Hw))) in Hr.
  exists d, (w + fmt6 (slope depths vs i) * (z - d)). split; [exact Hd|]. split.
  - apply (layer_at _ _ i); [exact Hr|exact Hz|]. intros j t' v' g' Hj Hr'. pose proof (rd_bounds _ _ _ _ Hr') as B.
    pose proof (rd_bounds _ _ _ _ Hd). destruct (rd_in_range _ depths j) as [dj Hdj]; [lia|]. destruct (rd_in_range _ vs j) as [vj Hvj]; [lia|].
    rewrite (Hrow j dj vj Hdj Hvj) in Hr'. rewrite (fmt6_id dj (Hd6 dj (rd_in _ _ _ _ Hdj))) in Hr'.
    assert (t' = dj) by congruence. subst t'. exact (Hdeep j dj Hj Hdj).
  - assert (Ev : v = w + slope depths vs i * (z - d)).
    { unfold slope. rewrite Hd, Hw. destruct Hcase as [(-> & ->)|(d' & w' & A & B & _ & _ & ->)].
      - destruct (rd depths (Z.of_nat (length depths) - 1 + 1)) eqn:E; [pose proof (rd_bounds _ _ _ _ E); lia|]. ring.
      - rewrite A, B. reflexivity. }
    rewrite Ev. replace (_ - _) with ((fmt6 (slope depths vs i) - slope depths vs i) * (z - d)) by ring.
    rewrite Rabs_mult, (Rabs_right (z - d)) by lra. apply Rmult_le_compat_r; [lra|]. apply fmt6_near.
Qed.

Lemma layers_block m phase depths vs : standard m phase depths vs ->
  (forall d, In d depths -> six_decimals d) -> (forall w, In w vs -> six_decimals w) ->
  exists layers, vmodel_string m true phase = Ret layers
  /\ forall z i, deepest depths z i -> exists w, rd vs i = Some w /\ layer_velocity layers z = Some w.
Proof.
  intros Hm Hd6 Hv6. destruct (vmodel_string_ok m phase depths vs true Hm) as (layers & HL & Hlen & Hrow). exists layers. split; [exact HL|].
  intros z i ((d & Hd & Hz) & Hdeep). destruct Hm as (_ & _ & _ & Hl & Hinc & Hne). pose proof (rd_bounds _ _ _ _ Hd).
  destruct (rd_in_range _ vs i) as [w Hw]; [lia|]. exists w. split; [exact Hw|].
  pose proof (Hrow i d w Hd Hw) as Hr. cbn match in Hr. rewrite (fmt6_id d (Hd6 d (rd_in _ _ _ _ Hd))), (fmt6_id w (Hv6 w (rd_in _ _ _ _ Hw))) in Hr.
  rewrite (layer_at _ z i d w (fmt6 0)); [|exact Hr|exact Hz|].
  - rewrite fmt6_id by (exists 0%Z; lra). f_equal. ring.
  - intros j t' v' g' Hj Hr'. pose proof (rd_bounds _ _ _ _ Hr') as B.
    destruct (rd_in_range _ depths j) as [dj Hdj]; [lia|]. destruct (rd_in_range _ vs j) as [vj Hvj]; [lia|].
    rewrite (Hrow j dj vj Hdj Hvj) in Hr'. rewrite (fmt6_id dj (Hd6 dj (rd_in _ _ _ _ Hdj))) in Hr'.
    assert (t' = dj) by congruence. subst t'. exact (Hdeep j dj Hj Hdj).
Qed.

(** * compute_traveltimes *)
Lemma put_stations_ext f f' phase : forall stations tt, (forall s, In s stations -> f s = f' s) -> put_stations f phase stations tt = put_stations f' phase stations tt.
Proof.
  induction stations as [|s r IH]; intros tt H; [reflexivity|]. cbn [put_stations]. rewrite (H s (or_introl eq_refl)).
  destruct (f' s); cbn [bind]; try reflexivity. apply IH. intros s' Hs'. apply H. right. exact Hs'.
Qed.

Lemma grid_xy_tr transform gp cp v : coord2grid transform gp cp false v = transform cp gp v.
Proof. reflexivity. Qed.

Section ComputeProofs.
Variable transform : Z -> Z -> vec -> vec.
Variable skfmm : ijk -> ijk -> (ijk -> R) -> vec -> table.
Variable nlloc : control -> outcome (nll_grid * list (list R)).

(** The table of one station, for each method. *)
Definition method_table (fmin fmax : R) (g : grid) (ur : vec) (km_cf : R) (stations : list (string * vec)) (method : string) (kw : kwargs)
    (p : string) (s : string * vec) : outcome table :=
  if String.eqb method "homogeneous" then
    match kw_velocity kw ("v" ++ lower p)%string with Some v => Ret (homogeneous_table g v (snd s)) | None => Raise TypeError end
  else match kw_vmod kw with
       | None => Raise TypeError
       | Some m =>
           if String.eqb method "1dfmm" then
             bind (fmm_nodes fmin fmax m p) (fun nodes =>
             if existsb (fun s => outside (g_ll g) ur (snd s)) stations then Raise ValueError
             else bind (velocities nodes g) (fun v => fmm_table skfmm g v s))
           else nlloc_table nlloc g km_cf m (kw_dx kw) (kw_block kw) p s
       end.

Lemma compute_parts fmin fmax llc urc spacing gp cp km_cf stations method phases kw l :
  compute_traveltimes transform skfmm nlloc fmin fmax llc urc spacing gp cp km_cf stations method phases kw = Ret l -> NoDup (map fst stations) ->
  let ur := transform cp gp urc in
  let sts := map (fun s => (fst s, transform cp gp (snd s))) stations in
  grid_init transform llc urc spacing gp cp = Ret (l_grid l) /\ l_names l = map fst stations /\ l_phases l = phases
  /\ (method = "homogeneous" \/ method = "1dfmm" \/ method = "1dnlloc" \/ method = "1dsweep")%string
  /\ (forall s p, In s sts -> In p phases ->
      exists t, method_table fmin fmax (l_grid l) ur km_cf sts method kw p s = Ret t /\ stored (l_tt l) (fst s) p = Some t)
  /\ (forall n p t, stored (l_tt l) n p = Some t ->
      In p phases /\ exists s, In s sts /\ fst s = n /\ method_table fmin fmax (l_grid l) ur km_cf sts method kw p s = Ret t).
Proof.
  unfold compute_traveltimes. intros H Hnd. cbv zeta. destruct (grid_init _ _ _ _ _ _) as [g| |] eqn:Eg; try discriminate. cbn [bind] in H.
  rewrite grid_xy_tr in H. change (fun s : string * vec => (fst s, coord2grid transform gp cp false (snd s))) with (fun s : string * vec => (fst s, transform cp gp (snd s))) in H.
  set (ur := transform cp gp urc) in *. set (sts := map (fun s => (fst s, transform cp gp (snd s))) stations) in *.
  assert (En : map fst sts = map fst stations) by (unfold sts; rewrite map_map; reflexivity). rewrite <- En in Hnd.
  match type of H with bind ?X _ = _ => destruct X as [tts| |] eqn:Et end; cbn [bind] in H; try discriminate.
  assert (l = mk_lut g tts (map fst sts) phases) by congruence. subst l. cbn [l_grid l_names l_phases l_tt]. split; [reflexivity|]. split; [exact En|]. split; [reflexivity|].
  assert (K : forall step, run_phases step phases [] = Ret tts ->
    (forall p tt tt', step p tt = Ret tt' -> put_stations (method_table fmin fmax g ur km_cf sts method kw p) p sts tt = Ret tt') ->
    (forall s p, In s sts -> In p phases -> exists t, method_table fmin fmax g ur km_cf sts method kw p s = Ret t /\ stored tts (fst s) p = Some t)
    /\ (forall n p t, stored tts n p = Some t -> In p phases /\ exists s, In s sts /\ fst s = n /\ method_table fmin fmax g ur km_cf sts method kw p s = Ret t)).
  { intros step Hr Hs. destruct (run_phases_ok step (method_table fmin fmax g ur km_cf sts method kw) sts Hnd Hs phases _ _ Hr) as (A & _ & C).
    split; [exact A|]. intros n p t Hst. destruct (C n p t Hst) as [D|D]; [discriminate|exact D]. }
  destruct (String.eqb_spec method "1dsweep") as [->|N1].
  - cbn [String.eqb Ascii.eqb Bool.eqb] in Et. destruct (kw_vmod kw) as [m|] eqn:Em; [|discriminate]. split; [tauto|].
    rewrite put_phases_run in Et. apply (K _ Et). intros p tt tt' Hp. cbn [no_check bind] in Hp. rewrite <- Hp. apply put_stations_ext.
    intros s _. unfold method_table. rewrite Em. reflexivity.
  - destruct (String.eqb_spec method "homogeneous") as [->|N2].
    + split; [tauto|]. rewrite put_phases_run in Et. apply (K _ Et). intros p tt tt' Hp.
      destruct (kw_velocity kw ("v" ++ lower p)) as [v|] eqn:Ev; [|discriminate]. cbn [bind] in Hp. rewrite <- Hp. apply put_stations_ext.
      intros s _. unfold method_table. rewrite Ev. reflexivity.
    + destruct (String.eqb_spec method "1dfmm") as [->|N3].
      * destruct (kw_vmod kw) as [m|] eqn:Em; [|discriminate]. split; [tauto|]. rewrite fold_phases_run in Et. cbn [bind] in Et. apply (K _ Et).
        intros p tt tt' Hp. unfold compute_1d_fmm in Hp. destruct (fmm_nodes fmin fmax m p) as [nodes| |] eqn:E1; cbn [bind] in Hp; try discriminate.
        destruct (existsb _ sts) eqn:E2; [discriminate|]. destruct (velocities nodes g) as [v| |] eqn:E3; cbn [bind] in Hp; try discriminate.
        rewrite <- Hp. apply put_stations_ext. intros s _. unfold method_table. rewrite Em, E1. cbn [bind]. rewrite E2, E3. reflexivity.
      * destruct (String.eqb_spec method "3dfmm") as [->|N4]; [discriminate|].
        destruct (String.eqb_spec method "1dnlloc") as [->|N5]; [|discriminate].
        destruct (kw_vmod kw) as [m|] eqn:Em; [|discriminate]. split; [tauto|].
        rewrite put_phases_run in Et. apply (K _ Et). intros p tt tt' Hp. cbn [no_check bind] in Hp. rewrite <- Hp. apply put_stations_ext.
        intros s _. unfold method_table. rewrite Em. reflexivity.
Qed.

Lemma nlloc_shape g km_cf m dx block p s t : grid_ok g -> nlloc_table nlloc g km_cf m dx block p s = Ret t -> has_shape t (g_count g).
Proof.
  intros Hg. unfold nlloc_table. cbv zeta. destruct (max_distance _); cbn [bind]; try discriminate. destruct (control_file _ _ _ _ _ _ _ _ _); cbn [bind]; try discriminate.
  destruct (nlloc _); cbn [bind]; try discriminate. destruct (n_origin _) as ((o1, o2), o3), (n_spacing _) as ((q1, q2), q3).
  destruct (outcomes _); cbn [bind]; try discriminate. intros H. apply reshape_ok in H; [tauto|]. apply grid_ok_pos. exact Hg.
Qed.

Lemma method_shape fmin fmax g ur km_cf sts method kw p s t : makes_tables skfmm -> grid_ok g ->
  method_table fmin fmax g ur km_cf sts method kw p s = Ret t -> has_shape t (g_count g).
Proof.
  intros Hsk Hg. unfold method_table. destruct (String.eqb method "homogeneous").
  - destruct (kw_velocity _ _); [|discriminate]. intros H. injection H as <-. apply tabulate_shape, grid_ok_pos, Hg.
  - destruct (kw_vmod kw); [|discriminate]. destruct (String.eqb method "1dfmm"); [|apply nlloc_shape; exact Hg].
    destruct (fmm_nodes _ _ _ _); cbn [bind]; try discriminate. destruct (existsb _ _); [discriminate|]. destruct (velocities _ _); cbn [bind]; try discriminate.
    unfold fmm_table. destruct (station_node _ _); cbn [bind]; try discriminate. intros H. injection H as <-. pose proof (grid_ok_pos g Hg) as Hp. destruct (g_count g) as ((nx, ny), nz). apply Hsk; apply Hp.
Qed.

Lemma stored_lookup l s p t : stored (l_tt l) s p = Some t -> lookup l s p = Ret t.
Proof. unfold stored, lookup, getitem. destruct (dget (l_tt l) s) as [m|]; [|discriminate]. intros ->. reflexivity. Qed.
End ComputeProofs.

Lemma velocities_at nodes g v : velocities nodes g = Ret v -> forall n, is_node (g_count g) n -> interp1d nodes (snd (node2grid g n)) = Ret (v n).
Proof.
  unfold velocities. destruct (outcomes _) as [vs| |] eqn:E; cbn [bind]; try discriminate. intros H n Hn.
  assert (v = fun n => match node_velocity nodes g n with Ret v => v | _ => 0 end) by congruence. subst v. clear H.
  assert (F : exists w, node_velocity nodes g n = Ret w).
  { assert (Hin : In n (mesh (g_count g))) by (rewrite mesh_nodes; apply in_all_nodes; exact Hn). clear Hn. revert vs E Hin.
    induction (mesh (g_count g)) as [|q r IH]; intros vs E Hin; [contradiction|]. cbn [map outcomes] in E.
    destruct (node_velocity nodes g q) as [w| |] eqn:Ew; cbn [bind] in E; try discriminate.
    destruct (outcomes (map (node_velocity nodes g) r)) as [ws| |] eqn:Er; cbn [bind] in E; try discriminate.
    destruct Hin as [->|Hin]; [exists w; exact Ew|]. apply (IH ws); [reflexivity|exact Hin]. }
  destruct F as (w & F). rewrite F. exact F.
Qed.

Lemma outside_inside transform llc urc spacing gp cp g st : grid_init transform llc urc spacing gp cp = Ret g ->
  outside (g_ll g) (transform cp gp urc) st = false -> inside g st.
Proof.
  intros Hg Ho. apply grid_init_ok in Hg. destruct Hg as (Hok & Hll & _ & _ & _ & Hc). rewrite <- Hll in Hc. unfold inside. unfold grid_ok in Hok.
  destruct (g_ll g) as ((l1, l2), l3), (transform cp gp urc) as ((u1, u2), u3), (g_spacing g) as ((s1, s2), s3), st as ((a, b), c).
  rewrite Hc in *. destruct Hok as ((S1 & S2 & S3) & _). unfold outside in Ho. apply orb_false_elim in Ho. destruct Ho as (Ho & O3). apply orb_false_elim in Ho. destruct Ho as (O1 & O2).
  assert (K : forall l x u s, 0 < s -> (if Rlt_dec x l then true else if Rlt_dec u x then true else false) = false -> l <= x <= axis_coord l s (axis_count l u s - 1)).
  { intros l x u s Hs. destruct (Rlt_dec x l); [discriminate|]. destruct (Rlt_dec u x); [discriminate|]. intros _.
    pose proof (axis_count_covers l u s Hs ltac:(lra)). lra. }
  split; [apply K; assumption|]. split; apply K; assumption.
Qed.

(** * Reading NonLinLoc files *)
Lemma axis_count_exact o n s : 0 < s -> axis_count o (o + IZR (n - 1) * s) s = n.
Proof.
  intros Hs. unfold axis_count. replace ((o + IZR (n - 1) * s - o) / s) with (IZR (n - 1)) by (field; lra).
  pose proof (np_ceil_spec (IZR (n - 1))) as (A & B). apply le_IZR in A. rewrite <- plus_IZR in B. apply lt_IZR in B. lia.
Qed.

Section ReadProofs.
Variable to_int : string -> outcome Z.
Variable to_float : string -> outcome R.
Variable transform : Z -> Z -> vec -> vec.
Variable pid : dict parg -> Z.
Variable cproj : Z.

Lemma grid_of_file_exact gs tr g : (forall p v, transform cproj (pid p) (transform (pid p) cproj v) = v) ->
  grid_of_file transform pid cproj gs tr = Ret g ->
  grid_ok g /\ g_count g = n_count gs /\ g_ll g = n_origin gs /\ g_spacing g = n_spacing gs /\ g_cproj g = cproj
  /\ exists p, fst tr = Some p /\ g_gproj g = pid p.
Proof.
  intros Hinv. unfold grid_of_file. destruct (fst tr) as [p|] eqn:Ep; [|discriminate]. cbv zeta. destruct (n_spacing gs) as ((sx, sy), sz) eqn:Es.
  intros H. apply grid_init_ok in H. destruct H as (Hok & Hll & Hgp & Hcp & Hs & Hc). rewrite !Hinv in Hc. rewrite Hinv in Hll.
  apply set_spacing_inv in Hs as Hpos. 
  assert (Esp : g_spacing g = (sx, sy, sz)).
  { unfold set_spacing in Hs. do 3 (destruct Rlt_dec; [|discriminate]). injection Hs as <-. reflexivity. }
  split; [exact Hok|]. split; [|split; [exact Hll|split; [exact Esp|split; [exact Hcp|exists p; split; [reflexivity|exact Hgp]]]]].
  rewrite Hc, Esp. unfold grid_ok in Hok. rewrite Esp in Hok. destruct (n_origin gs) as ((o1, o2), o3), (n_count gs) as ((n1, n2), n3). cbn [vmap2].
  destruct (g_count g) as ((c1, c2), c3). destruct Hok as ((S1 & S2 & S3) & _). rewrite !axis_count_exact by assumption. reflexivity.
Qed.

(** What one file contributes. *)
Definition file_table (files : dict (header * list R)) (sp : string * string) : outcome (nll_grid * (option (dict parg) * string) * table) :=
  bind (open_file files (snd sp) (fst sp)) (fun f => read_nlloc_file to_int to_float f).

Lemma read_fold files : forall sps o tt o' tt',
  fold_left (fun acc sp => bind acc (fun a => read_step to_int to_float transform pid cproj files a sp)) sps (Ret (o, tt)) = Ret (o', tt') ->
  (forall s p, In (s, p) sps -> exists gs tr t, file_table files (s, p) = Ret (gs, tr, t) /\ stored tt' s p = Some t)
  /\ (forall s p, ~ In (s, p) sps -> stored tt' s p = stored tt s p)
  /\ match o with
     | Some g => o' = Some g
     | None => match sps with
               | [] => o' = None
               | sp :: _ => exists gs tr t g, file_table files sp = Ret (gs, tr, t) /\ grid_of_file transform pid cproj gs tr = Ret g /\ o' = Some g
               end
     end.
Proof.
  induction sps as [|(s, p) r IH]; intros o tt o' tt' H; cbn [fold_left] in H.
  - assert (o' = o) by congruence. assert (tt' = tt) by congruence. subst. split; [intros s p []|]. split; [reflexivity|]. destruct o; reflexivity.
  - cbn [bind] in H. unfold read_step in H at 2. cbn [fst snd] in H.
    destruct (open_file files p s) as [f| |] eqn:Ef; cbn [bind] in H.
    2,3: exfalso; clear -H; induction r as [|x r IHr]; [discriminate|apply IHr; exact H].
    destruct (read_nlloc_file to_int to_float f) as [((gs, tr), t)| |] eqn:Er; cbn [bind] in H.
    2,3: exfalso; clear -H; induction r as [|x r IHr]; [discriminate|apply IHr; exact H].
    assert (Ft : file_table files (s, p) = Ret (gs, tr, t)) by (unfold file_table; cbn [fst snd]; rewrite Ef; exact Er).
    assert (K : exists g, (match o with Some g => Ret g | None => grid_of_file transform pid cproj gs tr end) = Ret g
      /\ fold_left (fun acc sp => bind acc (fun a => read_step to_int to_float transform pid cproj files a sp)) r (Ret (Some g, put tt s p t)) = Ret (o', tt')).
    { destruct (match o with Some g => Ret g | None => grid_of_file transform pid cproj gs tr end) as [g| |]; cbn [bind] in H.
      - exists g. split; [reflexivity|exact H].
      - exfalso; clear -H; induction r as [|x r IHr]; [discriminate|apply IHr; exact H].
      - exfalso; clear -H; induction r as [|x r IHr]; [discriminate|apply IHr; exact H]. }
    destruct K as (g & Eg & K). destruct (IH _ _ _ _ K) as (A & B & C). split; [|split].
    + intros s' p' Hin. destruct (in_dec (fun a b : string * string => ltac:(decide equality; apply string_dec)) (s', p') r) as [Hr|Hr]; [apply A; exact Hr|].
      destruct Hin as [E|Hin]; [|contradiction]. assert (s' = s) by congruence. assert (p' = p) by congruence. subst s' p'.
      exists gs, tr, t. split; [exact Ft|]. rewrite B by exact Hr. rewrite put_stored, !String.eqb_refl. reflexivity.
    + intros s' p' Hn. rewrite B by (intros X; apply Hn; right; exact X). rewrite put_stored.
      destruct (String.eqb_spec s s') as [->|]; [|reflexivity]. destruct (String.eqb_spec p p') as [->|]; [|reflexivity]. exfalso. apply Hn. left. reflexivity.
    + destruct o as [g0|]; [congruence|]. exists gs, tr, t, g. split; [exact Ft|]. split; [exact Eg|exact C].
Qed.

Lemma file_table_parts files s p gs tr t : file_table files (s, p) = Ret (gs, tr, t) ->
  exists h buf, dget files (file_name p s) = Some (h, buf) /\ read_grid to_int to_float h = Ret gs /\ read_transform to_float h = Ret tr
  /\ read_buffer (n_count gs) buf = Ret t.
Proof.
  clear transform pid cproj. unfold file_table, open_file, read_nlloc_file. cbn [fst snd]. destruct (dget files (file_name p s)) as [(h, buf)|]; [|discriminate]. cbn [bind fst snd].
  destruct (read_grid _ _ h) as [gs'| |] eqn:E1; cbn [bind]; try discriminate. destruct (read_transform _ h) as [tr'| |] eqn:E2; cbn [bind]; try discriminate.
  destruct (read_buffer (n_count gs') buf) as [t'| |] eqn:E3; cbn [bind]; try discriminate. intros H.
  assert (gs' = gs) by congruence. assert (tr' = tr) by congruence. assert (t' = t) by congruence. subst. exists h, buf. tauto.
Qed.

Lemma rd_firstn {A} (l : list A) n i : (0 <= i < Z.of_nat n)%Z -> rd (firstn n l) i = rd l i.
Proof.
  revert n i. induction l as [|x l IH]; intros n i Hi; [rewrite firstn_nil; reflexivity|]. destruct n as [|n]; [lia|]. cbn [firstn].
  destruct (Z.eq_dec i 0) as [->|]; [reflexivity|]. replace i with ((i - 1) + 1)%Z by lia. rewrite !rd_S by lia. apply IH. lia.
Qed.

Lemma read_buffer_ok n buf t : pos3 n -> read_buffer n buf = Ret t -> has_shape t n /\ forall p, is_node n p -> entry t p = rd buf (flat n p).
Proof.
  clear to_int to_float transform pid cproj. intros Hn. unfold read_buffer. pose proof (pos3_nodes _ Hn) as Hpos. destruct n as ((nx, ny), nz). cbn [n_nodes] in Hpos.
  destruct (Z.ltb_spec (Z.of_nat (length buf)) (nx * ny * nz)); [discriminate|]. intros H1. apply reshape_ok in H1; [|exact Hn]. destruct H1 as (_ & A & B).
  split; [exact A|]. intros p Hp. rewrite (B p Hp). apply rd_firstn. pose proof (flat_range _ _ Hp) as F. cbn [n_nodes] in F. lia.
Qed.

Lemma read_nlloc_parts files stations phases l : read_nlloc to_int to_float transform pid cproj files stations phases = Ret l ->
  l_names l = stations /\ l_phases l = phases
  /\ (exists s0 p0 gs tr t, In s0 stations /\ In p0 phases /\ rd stations 0 = Some s0 /\ rd phases 0 = Some p0
      /\ file_table files (s0, p0) = Ret (gs, tr, t) /\ grid_of_file transform pid cproj gs tr = Ret (l_grid l))
  /\ (forall s p, In s stations -> In p phases -> exists gs tr t, file_table files (s, p) = Ret (gs, tr, t) /\ stored (l_tt l) s p = Some t)
  /\ (forall s p t, stored (l_tt l) s p = Some t -> In s stations /\ In p phases).
Proof.
  unfold read_nlloc. cbv zeta. remember (flat_map (fun p => map (fun s => (s, p)) stations) phases) as sps eqn:Esd. destruct (fold_left _ _ _) as [(o', tt')| |] eqn:E; cbn [bind]; try discriminate. cbn [fst snd].
  destruct (read_fold files _ _ _ _ _ E) as (A & B & C). destruct o' as [g|]; [|discriminate]. intros H.
  assert (l = mk_lut g tt' stations phases) by congruence. subst l. cbn [l_names l_phases l_grid l_tt]. split; [reflexivity|]. split; [reflexivity|].
  assert (Hin : forall s p, In (s, p) sps <-> In s stations /\ In p phases).
  { intros s p. rewrite Esd, in_flat_map. split.
    - intros (q & Hq & Hm). apply in_map_iff in Hm. destruct Hm as (s' & E1 & Hs'). assert (s' = s) by congruence. assert (q = p) by congruence. subst. tauto.
    - intros (Hs & Hp). exists p. split; [exact Hp|]. apply in_map_iff. exists s. tauto. }
  split; [|split].
  - destruct sps as [|(s0, p0) r]; [discriminate|]. destruct C as (gs & tr & t & g' & D1 & D2 & D3). assert (g' = g) by congruence. subst g'.
    exists s0, p0, gs, tr, t. destruct (proj1 (Hin s0 p0) (or_introl eq_refl)) as (I1 & I2). split; [exact I1|]. split; [exact I2|].
    destruct stations as [|s1 st]; [contradiction|]. destruct phases as [|p1 ph]; [contradiction|]. cbn [flat_map map app] in Esd. rewrite !rd_0.
    assert (s1 = s0) by congruence. assert (p1 = p0) by congruence. subst. tauto.
  - intros s p Hs Hp. apply A. apply Hin. tauto.
  - intros s p t Hst. apply Hin. destruct (in_dec (fun a b : string * string => ltac:(decide equality; apply string_dec)) (s, p) sps) as [Hr|Hr]; [exact Hr|].
    rewrite (B s p Hr) in Hst. discriminate.
Qed.
End ReadProofs.

(** * Headers *)

Lemma read_grid_says to_int to_float h gs : read_grid to_int to_float h = Ret gs <-> header_says to_int to_float h gs.
Proof.
  unfold read_grid, header_says, int_at, float_at. split.
  - intros H. destruct (h_grid h) as [|t0 [|t1 [|t2 [|t3 [|t4 [|t5 [|t6 [|t7 [|t8 rest]]]]]]]]];
      unfold token, rd in H; cbn [Z.ltb Z.compare Z.to_nat] in H;
      repeat match type of H with context [Pos.to_nat ?p] => let n := eval compute in (Pos.to_nat p) in change (Pos.to_nat p) with n in H end;
      cbn [nth_error bind] in H;
      repeat match type of H with bind ?o _ = Ret _ => let E := fresh "E" in destruct o eqn:E; cbn [bind] in H; [|discriminate|discriminate] end;
      try discriminate.
    injection H as H. subst gs. do 19 eexists. split; [reflexivity|]. repeat (split; [eassumption|]). repeat split; reflexivity.
  - intros (t0 & t1 & t2 & t3 & t4 & t5 & t6 & t7 & t8 & rest & nx & ny & nz & x0 & y0 & z0 & dx & dy & dz & -> & H).
    unfold token, rd. cbn [Z.ltb Z.compare Z.to_nat].
    repeat match goal with |- context [Pos.to_nat ?p] => let n := eval compute in (Pos.to_nat p) in change (Pos.to_nat p) with n end.
    cbn [nth_error bind]. destruct H as (-> & -> & -> & -> & -> & -> & -> & -> & -> & A & B & C). cbn [bind].
    destruct gs as [a b c]. cbn in A, B, C. subst. reflexivity.
Qed.

(** Lemmas about the Gaussian location. *)
From Coq Require Import List ZArith Reals Bool Permutation Lia Lra.
From Verif Require Import Lib LibFacts ScanMseed_Model Lut_Model Lut_Spec Lut_Proofs Locate_Model Locate_Spec Locate_Proofs GauFit_Model GauFit_Spec.
Import ListNotations.
Open Scope R_scope.

(** * Small linear algebra *)

Lemma fit_location_stationary P l : fit_location P = Ret l -> stationary P l.
Proof.
  unfold fit_location, solve3. destruct (Req_EM_T _ 0) as [|N]; [discriminate|]. intros H. injection H as <-. unfold stationary, det3 in *.
  repeat split; field; exact N.
Qed.
Definition det_of (P : quadratic) : R :=
  det3 ((- (2 * q0 P), - q3 P, - q4 P), (- q3 P, - (2 * q1 P), - q5 P), (- q4 P, - q5 P, - (2 * q2 P))).
Lemma stationary_unique P v : det_of P <> 0 -> stationary P v -> fit_location P = Ret v.
Proof.
  intros N H. unfold fit_location, solve3. fold (det_of P). destruct (Req_EM_T (det_of P) 0) as [|_]; [contradiction|]. destruct v as ((x, y), z). destruct H as (A & B & C).
  assert (E6 : q6 P = - (2 * q0 P * x + q3 P * y + q4 P * z)) by lra. assert (E7 : q7 P = - (q3 P * x + 2 * q1 P * y + q5 P * z)) by lra.
  assert (E8 : q8 P = - (q4 P * x + q5 P * y + 2 * q2 P * z)) by lra. rewrite E6, E7, E8. clear A B C E6 E7 E8. unfold det_of, det3 in *.
  f_equal. f_equal; [f_equal|]; field; exact N.
Qed.
Definition det_sym (S : sym) : R :=
  sxx S * (syy S * szz S - syz S * syz S) - sxy S * (sxy S * szz S - syz S * sxz S) + sxz S * (sxy S * syz S - syy S * sxz S).
Lemma posdef_det S : posdef S -> 0 < det_sym S.
Proof.
  intros H. assert (A : 0 < sxx S). { assert (N : (1, 0, 0) <> (0, 0, 0)) by (intros E; injection E; lra). specialize (H _ N). unfold form in H. lra. }
  assert (B : 0 < sxx S * syy S - sxy S * sxy S).
  { assert (N : (sxy S, - sxx S, 0) <> (0, 0, 0)) by (intros E; injection E; lra). specialize (H _ N). unfold form in H.
    assert (E : sxx S * (sxx S * syy S - sxy S * sxy S) > 0).
    { replace (sxx S * (sxx S * syy S - sxy S * sxy S)) with (sxx S * sxy S ^ 2 + syy S * (- sxx S) ^ 2 + szz S * 0 ^ 2 + 2 * sxy S * sxy S * - sxx S + 2 * sxz S * sxy S * 0 + 2 * syz S * - sxx S * 0) by ring. exact H. }
    apply (Rmult_lt_reg_l (sxx S)); [exact A|]. rewrite Rmult_0_r. exact E. }
  set (u := sxy S * syz S - syy S * sxz S). set (v := sxy S * sxz S - sxx S * syz S). set (w := sxx S * syy S - sxy S * sxy S) in *.
  assert (N : (u, v, w) <> (0, 0, 0)) by (intros E; injection E; lra). specialize (H _ N).
  assert (E : form S (u, v, w) = w * det_sym S) by (unfold form, det_sym, u, v, w; ring). rewrite E in H.
  apply (Rmult_lt_reg_l w); [exact B|]. rewrite Rmult_0_r. exact H.
Qed.

(** The quadratic of a Gaussian around the origin moved by [d]. *)
Definition quad_of (A : R) (S : sym) (d : vec) : quadratic :=
  let '(x, y, z) := d in
  mk_quadratic (sxx S / 2) (syy S / 2) (szz S / 2) (sxy S) (sxz S) (syz S)
    (- (sxx S * x + sxy S * y + sxz S * z)) (- (sxy S * x + syy S * y + syz S * z)) (- (sxz S * x + syz S * y + szz S * z))
    (1 / 2 * form S d - ln A).
Lemma quad_of_eval A S d v : qeval (quad_of A S d) v = 1 / 2 * form S (vsub v d) - ln A.
Proof. destruct d as ((a, b), c), v as ((x, y), z). unfold quad_of, qeval, form, vsub. cbn [q0 q1 q2 q3 q4 q5 q6 q7 q8 q9]. field. Qed.
Lemma quad_of_location A S d : det_sym S <> 0 -> fit_location (quad_of A S d) = Ret d.
Proof.
  intros H. apply stationary_unique.
  - destruct d as ((x, y), z). unfold det_of, det3, quad_of. cbn [q0 q1 q2 q3 q4 q5 q6 q7 q8 q9]. unfold det_sym in H.
    match goal with |- ?e <> 0 => replace e with (- (sxx S * (syy S * szz S - syz S * syz S) - sxy S * (sxy S * szz S - syz S * sxz S) + sxz S * (sxy S * syz S - syy S * sxz S))) by field end. lra.
  - destruct d as ((x, y), z). unfold stationary, quad_of. cbn [q0 q1 q2 q3 q4 q5 q6 q7 q8 q9]. repeat split; field.
Qed.

(** * Least squares *)

Lemma misfit_zero P data : misfit P data = 0 -> forall v y, In (v, y) data -> qeval P v = y.
Proof.
  unfold misfit. induction data as [|(w, u) l IH]; intros H v y I; [destruct I|]. rewrite sum_cons in H. cbn [fst snd] in H.
  assert (N : 0 <= sum (fun d => (qeval P (fst d) - snd d) ^ 2) l) by (apply sum_nonneg; intros; apply pow2_ge_0). pose proof (pow2_ge_0 (qeval P w - u)).
  destruct I as [E|I]; [|apply IH; [lra|exact I]]. injection E as -> ->. assert (Z0 : (qeval P v - y) ^ 2 = 0) by lra.
  assert (qeval P v - y = 0); [|lra]. apply Rsqr_0_uniq. unfold Rsqr. rewrite <- Z0. ring.
Qed.
Lemma misfit_exact P data : (forall v y, In (v, y) data -> qeval P v = y) -> misfit P data = 0.
Proof.
  unfold misfit. induction data as [|(w, u) l IH]; intros H; [reflexivity|]. rewrite sum_cons, IH by (intros; apply H; right; assumption).
  cbn [fst snd]. rewrite (H w u (or_introl eq_refl)). ring.
Qed.
Lemma fit_exact fit Q pts ys : least_squares fit -> length pts = length ys -> (forall v y, In (v, y) (combine pts ys) -> qeval Q v = y) ->
  forall v, In v pts -> qeval (fit pts ys) v = qeval Q v.
Proof.
  intros L E H v I. assert (M : misfit (fit pts ys) (combine pts ys) = 0).
  { pose proof (L pts ys Q E) as K. rewrite (misfit_exact Q _ H) in K. assert (0 <= misfit (fit pts ys) (combine pts ys)) by (apply sum_nonneg; intros; apply pow2_ge_0). lra. }
  assert (exists y, In (v, y) (combine pts ys)) as (y & Iy).
  { clear - E I. revert ys E. induction pts as [|p l IH]; intros [|y ys] E; try discriminate; [destruct I|]. destruct I as [->|I]; [exists y; left; reflexivity|].
    destruct (IH I ys) as (u & J); [cbn in E; lia|]. exists u. right. exact J. }
  rewrite (misfit_zero _ _ M v y Iy). symmetry. apply (H v y Iy).
Qed.
(** A quadratic is determined by its values on three nodes along each axis. *)
Lemma quadratic_unique P Q x y z :
  (forall i j k, 0 <= i <= 2 -> 0 <= j <= 2 -> 0 <= k <= 2 -> (i = 0 \/ i = 1 \/ i = 2) -> (j = 0 \/ j = 1 \/ j = 2) -> (k = 0 \/ k = 1 \/ k = 2) ->
     qeval P (x + i, y + j, z + k) = qeval Q (x + i, y + j, z + k)) -> P = Q.
Proof.
  intros H. destruct P as [a0 a1 a2 a3 a4 a5 a6 a7 a8 a9], Q as [b0 b1 b2 b3 b4 b5 b6 b7 b8 b9].
  set (D := fun i j k => qeval (mk_quadratic a0 a1 a2 a3 a4 a5 a6 a7 a8 a9) (x + i, y + j, z + k) - qeval (mk_quadratic b0 b1 b2 b3 b4 b5 b6 b7 b8 b9) (x + i, y + j, z + k)).
  assert (Z0 : forall i j k, (i = 0 \/ i = 1 \/ i = 2) -> (j = 0 \/ j = 1 \/ j = 2) -> (k = 0 \/ k = 1 \/ k = 2) -> D i j k = 0).
  { intros i j k Hi Hj Hk. unfold D. rewrite (H i j k); try lra; assumption. }
  assert (F : forall i j k, D i j k = (a0 - b0) * ((x + i) * (x + i)) + (a1 - b1) * ((y + j) * (y + j)) + (a2 - b2) * ((z + k) * (z + k))
     + (a3 - b3) * ((x + i) * (y + j)) + (a4 - b4) * ((x + i) * (z + k)) + (a5 - b5) * ((y + j) * (z + k)) + (a6 - b6) * (x + i) + (a7 - b7) * (y + j) + (a8 - b8) * (z + k) + (a9 - b9)).
  { intros. unfold D, qeval. cbn [q0 q1 q2 q3 q4 q5 q6 q7 q8 q9]. ring. }
  pose proof (Z0 0 0 0 ltac:(tauto) ltac:(tauto) ltac:(tauto)) as H000. pose proof (Z0 1 0 0 ltac:(tauto) ltac:(tauto) ltac:(tauto)) as H100.
  pose proof (Z0 2 0 0 ltac:(tauto) ltac:(tauto) ltac:(tauto)) as H200. pose proof (Z0 0 1 0 ltac:(tauto) ltac:(tauto) ltac:(tauto)) as H010.
  pose proof (Z0 0 2 0 ltac:(tauto) ltac:(tauto) ltac:(tauto)) as H020. pose proof (Z0 0 0 1 ltac:(tauto) ltac:(tauto) ltac:(tauto)) as H001.
  pose proof (Z0 0 0 2 ltac:(tauto) ltac:(tauto) ltac:(tauto)) as H002. pose proof (Z0 1 1 0 ltac:(tauto) ltac:(tauto) ltac:(tauto)) as H110.
  pose proof (Z0 1 0 1 ltac:(tauto) ltac:(tauto) ltac:(tauto)) as H101. pose proof (Z0 0 1 1 ltac:(tauto) ltac:(tauto) ltac:(tauto)) as H011. clear Z0 H.
  assert (E0 : 2 * (a0 - b0) = D 2 0 0 - 2 * D 1 0 0 + D 0 0 0) by (rewrite !F; ring). assert (E1 : 2 * (a1 - b1) = D 0 2 0 - 2 * D 0 1 0 + D 0 0 0) by (rewrite !F; ring).
  assert (E2 : 2 * (a2 - b2) = D 0 0 2 - 2 * D 0 0 1 + D 0 0 0) by (rewrite !F; ring). assert (E3 : a3 - b3 = D 1 1 0 - D 1 0 0 - D 0 1 0 + D 0 0 0) by (rewrite !F; ring).
  assert (E4 : a4 - b4 = D 1 0 1 - D 1 0 0 - D 0 0 1 + D 0 0 0) by (rewrite !F; ring). assert (E5 : a5 - b5 = D 0 1 1 - D 0 1 0 - D 0 0 1 + D 0 0 0) by (rewrite !F; ring).
  assert (G0 : a0 - b0 = 0) by lra. assert (G1 : a1 - b1 = 0) by lra. assert (G2 : a2 - b2 = 0) by lra. assert (G3 : a3 - b3 = 0) by lra. assert (G4 : a4 - b4 = 0) by lra. assert (G5 : a5 - b5 = 0) by lra.
  rewrite F in H000, H100, H010, H001. rewrite G0, G1, G2, G3, G4, G5 in H000, H100, H010, H001.
  assert (G6 : a6 - b6 = 0) by lra. assert (G7 : a7 - b7 = 0) by lra. assert (G8 : a8 - b8 = 0) by lra. rewrite G6, G7, G8 in H000. assert (G9 : a9 - b9 = 0) by lra.
  f_equal; lra.
Qed.

(** * The window *)

Lemma indices_all_nodes n : indices n = all_nodes n.
Proof. destruct n as ((?, ?), ?). reflexivity. Qed.
Lemma in_win_iff nx ny nz i j k w a b c : in_win (nx, ny, nz) (i, j, k) w (a, b, c) <->
  (Z.max 0 (i - w) <= a <= Z.min (nx - 1) (i + w) /\ Z.max 0 (j - w) <= b <= Z.min (ny - 1) (j + w) /\ Z.max 0 (k - w) <= c <= Z.min (nz - 1) (k + w))%Z.
Proof.
  unfold in_win. split.
  - intros H. split; [|split]; [exact (H 0%Z ltac:(lia))|exact (H 1%Z ltac:(lia))|exact (H 2%Z ltac:(lia))].
  - intros (A & B & C) x Hx. assert (x = 0 \/ x = 1 \/ x = 2)%Z as [->|[->| ->]] by lia; [exact A|exact B|exact C].
Qed.
Lemma win_axis n i w a : (0 <= i < n)%Z -> (0 <= w)%Z -> (Z.max 0 (i - w) <= a <= Z.min (n - 1) (i + w))%Z -> (0 <= a < n)%Z.
Proof. lia. Qed.
Lemma in_win_node n p w q : (0 <= w)%Z -> is_node n p -> in_win n p w q -> is_node n q.
Proof.
  intros W Hp H. destruct n as ((nx, ny), nz), p as ((i, j), k), q as ((a, b), c). apply in_win_iff in H. destruct H as (A & B & C). destruct Hp as (P1 & P2 & P3).
  split; [|split]; eapply win_axis; eassumption.
Qed.
Lemma clip_axis n i a : (0 <= i < n)%Z -> (0 <= a < n)%Z ->
  (np_clip (i - 3) 0 n <= a /\ a < np_clip (i + 3 + 1) 0 n <-> Z.max 0 (i - 3) <= a <= Z.min (n - 1) (i + 3))%Z.
Proof. unfold np_clip. lia. Qed.
Lemma mask3d_win n p q : is_node n p -> is_node n q -> mask3d n p 7 q = true <-> in_win n p 3 q.
Proof.
  intros Hp Hq. destruct n as ((nx, ny), nz), p as ((i, j), k), q as ((a, b), c). destruct Hp as (P1 & P2 & P3). destruct Hq as (Q1 & Q2 & Q3).
  unfold mask3d. change ((7 - 1) / 2)%Z with 3%Z. rewrite !andb_true_iff, !Z.leb_le, !Z.ltb_lt, in_win_iff, <- !clip_axis by assumption. tauto.
Qed.
Lemma mean_eq n m : pos3 n -> Z.of_nat (length m) = n_nodes n -> fold_left Rplus m 0 / IZR (Z.of_nat (length m)) = map_mean n m.
Proof.
  intros Hn Hl. rewrite fold_plus_sum, Rplus_0_l, Hl. unfold map_mean. f_equal.
  transitivity (sum (fun x => x) (map (at_node n m) (all_nodes n))); [rewrite map_all_nodes by assumption; reflexivity|]. exact (sum_map (at_node n m) (fun x => x) (all_nodes n)).
Qed.
Lemma node_at n m q : is_node n q -> node_value m (c_index n q) = at_node n m q.
Proof. intros H. rewrite c_index_flat. unfold at_node. apply node_value_value. pose proof (flat_range n q H). lia. Qed.
(** Three nodes in a row along each axis around every node. *)
Definition start3 (n i : Z) : Z := Z.max 0 (Z.min (n - 3) (i - 1)).
Lemma start3_axis n i a : (3 <= n)%Z -> (0 <= i < n)%Z -> (0 <= a <= 2)%Z -> (Z.max 0 (i - 3) <= start3 n i + a <= Z.min (n - 1) (i + 3))%Z.
Proof. unfold start3. lia. Qed.
Lemma start3_win nx ny nz i j k : (3 <= nx)%Z -> (3 <= ny)%Z -> (3 <= nz)%Z -> is_node (nx, ny, nz) (i, j, k) -> forall a b c, (0 <= a <= 2)%Z -> (0 <= b <= 2)%Z -> (0 <= c <= 2)%Z ->
  in_win (nx, ny, nz) (i, j, k) 3 (start3 nx i + a, start3 ny j + b, start3 nz k + c)%Z.
Proof.
  intros Hx Hy Hz (P1 & P2 & P3) a b c Ha Hb Hc. apply in_win_iff. split; [|split]; apply start3_axis; assumption.
Qed.

Section Fit.
Variable fit : list vec -> list R -> quadratic.
Variable eig : matrix -> vec.
Variable transform : Z -> Z -> vec -> vec.
(** The data of the fit: the nodes of the window above the threshold. *)
Definition window_nodes (n : ijk) (m : list R) (thresh : R) (p : ijk) : list ijk :=
  filter (fun q => (if Rlt_dec thresh (node_value m (c_index n q)) then true else false) && mask3d n p 7 q) (indices n).
Definition from_peak (p q : ijk) : vec := vmap2 (fun a b => IZR (a - b)) q p.
Definition log_value (n : ijk) (m : list R) (q : ijk) : R := - ln (Rmax (at_node n m q - map_mean n m) (powerRZ 10 (-300))).
Lemma in_window_nodes n m thresh p q : is_node n p -> In q (window_nodes n m thresh p) <-> in_win n p 3 q /\ thresh < at_node n m q.
Proof.
  intros Hp. unfold window_nodes. rewrite filter_In, indices_all_nodes, in_all_nodes, andb_true_iff. split.
  - intros (Hq & T & M). rewrite node_at in T by exact Hq. destruct (Rlt_dec _ _) as [L|]; [|discriminate]. split; [apply mask3d_win; assumption|exact L].
  - intros (W & L). pose proof (in_win_node n p 3 q ltac:(lia) Hp W) as Hq. split; [exact Hq|]. rewrite node_at by exact Hq. destruct (Rlt_dec _ _); [|contradiction].
    split; [reflexivity|apply mask3d_win; assumption].
Qed.
Lemma gaufit_eq g m thresh : pos3 (g_count g) -> Z.of_nat (length m) = n_nodes (g_count g) ->
  exists p, peak_node (g_count g) m p
  /\ gaufit3d fit eig transform g m thresh 7 =
     (let W := window_nodes (g_count g) m thresh p in
      let P := fit (map (from_peak p) W) (map (log_value (g_count g) m) W) in
      bind (fit_location P) (fun loc => Ret (frac2coord transform g (vmap2 (fun x i => x + IZR i) loc p), vmap2 Rmult (fit_sigma eig P) (g_spacing g)))).
Proof.
  intros Hn Hl. assert (m <> []). { intros ->. cbn in Hl. destruct (g_count g) as ((a, b), c). unfold n_nodes in Hl. destruct Hn as (? & ? & ?). assert (0 < a * b * c)%Z by (repeat apply Z.mul_pos_pos; lia). lia. }
  destruct (argmax_total m H) as (q & Eq). pose proof (argmax_ok m q Eq) as F. destruct (peak_of_argmax (g_count g) m q Hn Hl F) as (p & Eu & Hp). exists p. split; [exact Hp|].
  unfold gaufit3d. rewrite Eq. cbn [bind]. rewrite Eu. cbn [bind]. fold (window_nodes (g_count g) m thresh p). cbv zeta.
  assert (E : map (fun p0 => - ln (Rmax (node_value m (c_index (g_count g) p0) - fold_left Rplus m 0 / IZR (Z.of_nat (length m))) (powerRZ 10 (-300)))) (window_nodes (g_count g) m thresh p)
     = map (log_value (g_count g) m) (window_nodes (g_count g) m thresh p)).
  { apply map_ext_in. intros x I. apply in_window_nodes in I; [|apply (proj1 Hp)]. destruct I as (W & _). unfold log_value. rewrite (mean_eq _ m Hn Hl), node_at; [reflexivity|].
    exact (in_win_node _ p 3 x ltac:(lia) (proj1 Hp) W). }
  rewrite E. reflexivity.
Qed.
(** The fit recovers a Gaussian exactly. *)
Lemma gaufit_exact g m A S c : least_squares fit -> (let '(nx, ny, nz) := g_count g in (3 <= nx)%Z /\ (3 <= ny)%Z /\ (3 <= nz)%Z) ->
  Z.of_nat (length m) = n_nodes (g_count g) -> 0 < A -> det_sym S <> 0 -> gaussian_peak (g_count g) m A S c ->
  exists p, gaufit3d fit eig transform g m 0 7 = Ret (frac2coord transform g c, vmap2 Rmult (fit_sigma eig (quad_of A S (vsub c (of_node p)))) (g_spacing g)).
Proof.
  intros L H3 Hl HA HS HG. assert (Hn : pos3 (g_count g)) by (destruct (g_count g) as ((a, b), d); unfold pos3; lia).
  destruct (gaufit_eq g m 0 Hn Hl) as (p & Hp & E). exists p. rewrite E. cbv zeta. clear E. set (n := g_count g) in *. set (W := window_nodes n m 0 p).
  specialize (HG p Hp). assert (IW : forall q, In q W <-> in_win n p 3 q).
  { intros q. unfold W. rewrite in_window_nodes by apply (proj1 Hp). split; [tauto|]. intros I. split; [exact I|]. apply (proj1 (HG q I)). }
  set (Q := quad_of A S (vsub c (of_node p))).
  assert (Ev : forall q, in_win n p 3 q -> qeval Q (from_peak p q) = log_value n m q).
  { intros q I. destruct (HG q I) as (_ & G1 & G2). unfold Q. rewrite quad_of_eval. unfold log_value. rewrite G1, Rmax_left by exact G2. unfold gauss.
    rewrite ln_mult by (try exact HA; apply exp_pos). rewrite ln_exp.
    assert (V : vsub (from_peak p q) (vsub c (of_node p)) = vsub (of_node q) c).
    { destruct p as ((i, j), k), q as ((a, b), d), c as ((x, y), z). unfold from_peak, vsub, of_node. cbn [vmap2]. rewrite !minus_IZR. f_equal; [f_equal|]; ring. }
    rewrite V. field. }
  assert (FQ : fit (map (from_peak p) W) (map (log_value n m) W) = Q).
  { assert (Ag : forall q, in_win n p 3 q -> qeval (fit (map (from_peak p) W) (map (log_value n m) W)) (from_peak p q) = qeval Q (from_peak p q)).
    { intros q I. apply (fit_exact fit Q _ _ L); [rewrite !map_length; reflexivity| |apply in_map; apply IW; exact I].
      intros v y J. assert (exists q', In q' W /\ v = from_peak p q' /\ y = log_value n m q') as (q' & I' & -> & ->).
      { clear - J. induction W as [|w l IH]; [destruct J|]. destruct J as [J|J]; [injection J as <- <-; exists w; split; [left; reflexivity|split; reflexivity]|].
        destruct (IH J) as (q' & ? & ?). exists q'. split; [right; assumption|assumption]. }
      apply Ev, IW, I'. }
    destruct n as ((nx, ny), nz) eqn:En. destruct p as ((i, j), k) eqn:Ep. destruct H3 as (A1 & A2 & A3).
    apply (quadratic_unique _ _ (IZR (start3 nx i - i)) (IZR (start3 ny j - j)) (IZR (start3 nz k - k))).
    assert (K : forall a b d, (0 <= a <= 2)%Z -> (0 <= b <= 2)%Z -> (0 <= d <= 2)%Z ->
       from_peak (i, j, k) (start3 nx i + a, start3 ny j + b, start3 nz k + d)%Z = (IZR (start3 nx i - i) + IZR a, IZR (start3 ny j - j) + IZR b, IZR (start3 nz k - k) + IZR d)).
    { intros a b d _ _ _. unfold from_peak. cbn [vmap2]. rewrite !minus_IZR, !plus_IZR. f_equal; [f_equal|]; ring. }
    assert (G : forall a b d, (0 <= a <= 2)%Z -> (0 <= b <= 2)%Z -> (0 <= d <= 2)%Z -> forall ra rb rd, ra = IZR a -> rb = IZR b -> rd = IZR d ->
       qeval (fit (map (from_peak (i, j, k)) W) (map (log_value (nx, ny, nz) m) W)) (IZR (start3 nx i - i) + ra, IZR (start3 ny j - j) + rb, IZR (start3 nz k - k) + rd)
       = qeval Q (IZR (start3 nx i - i) + ra, IZR (start3 ny j - j) + rb, IZR (start3 nz k - k) + rd)).
    { intros a b d Ha Hb Hd ra rb rd -> -> ->. rewrite <- (K a b d Ha Hb Hd). apply Ag. apply start3_win; try assumption. apply (proj1 Hp). }
    assert (Z2 : forall r, (r = 0 \/ r = 1 \/ r = 2) -> exists a, (0 <= a <= 2)%Z /\ r = IZR a).
    { intros r [->|[->| ->]]; [exists 0%Z|exists 1%Z|exists 2%Z]; split; try lia; reflexivity. }
    intros ra rb rd _ _ _ Ha Hb Hd. destruct (Z2 ra Ha) as (a & Ba & Ea). destruct (Z2 rb Hb) as (b & Bb & Eb). destruct (Z2 rd Hd) as (d & Bd & Ed).
    exact (G a b d Ba Bb Bd ra rb rd Ea Eb Ed). }
  rewrite FQ. unfold Q. rewrite quad_of_location by exact HS. cbn [bind].
  assert (V : vmap2 (fun x i => x + IZR i) (vsub c (of_node p)) p = c).
  { destruct p as ((i, j), k), c as ((x, y), z). unfold vsub, of_node. cbn [vmap2]. f_equal; [f_equal|]; ring. }
  rewrite V. reflexivity.
Qed.
End Fit.

(** The stationary point of a positive definite quadratic is its least value. *)
Lemma stationary_least P v w : posdef (mk_sym (2 * q0 P) (2 * q1 P) (2 * q2 P) (q3 P) (q4 P) (q5 P)) -> stationary P v -> qeval P v <= qeval P w.
Proof.
  intros D H. destruct v as ((x, y), z), w as ((a, b), c). destruct H as (H1 & H2 & H3).
  assert (E : qeval P (a, b, c) = qeval P (x, y, z) + 1 / 2 * form (mk_sym (2 * q0 P) (2 * q1 P) (2 * q2 P) (q3 P) (q4 P) (q5 P)) (a - x, b - y, c - z)
     + (a - x) * (2 * q0 P * x + q3 P * y + q4 P * z + q6 P) + (b - y) * (q3 P * x + 2 * q1 P * y + q5 P * z + q7 P) + (c - z) * (q4 P * x + q5 P * y + 2 * q2 P * z + q8 P)).
  { unfold qeval, form. cbn [sxx syy szz sxy sxz syz]. field. }
  rewrite E, H1, H2, H3. assert (0 <= form (mk_sym (2 * q0 P) (2 * q1 P) (2 * q2 P) (q3 P) (q4 P) (q5 P)) (a - x, b - y, c - z)); [|lra].
  destruct (Req_dec (a - x) 0) as [E1|N1]; [destruct (Req_dec (b - y) 0) as [E2|N2]; [destruct (Req_dec (c - z) 0) as [E3|N3]|]|].
  - rewrite E1, E2, E3. unfold form. right. ring.
  - left. apply D. intros K. injection K as _ _ K. exact (N3 K).
  - left. apply D. intros K. injection K as _ K _. exact (N2 K).
  - left. apply D. intros K. injection K as K _ _. exact (N1 K).
Qed.

(** * The uncertainties *)

Definition sig (v : R) : R := sqrt (1 / 2 / Rmax (Rabs v) (powerRZ 10 (-10))) / 2.
Lemma fit_sigma_eq eig A S d : fit_sigma eig (quad_of A S d) =
  let '(a, b, c) := eig ((sxx S / 2, sxy S / 2, sxz S / 2), (sxy S / 2, syy S / 2, syz S / 2), (sxz S / 2, syz S / 2, szz S / 2)) in (sig a, sig b, sig c).
Proof. destruct d as ((x, y), z). unfold fit_sigma, quad_of. cbn [q0 q1 q2 q3 q4 q5]. reflexivity. Qed.
Lemma floor_small : powerRZ 10 (-10) = / 10 ^ 10.
Proof. reflexivity. Qed.
Lemma sig_half s : 0 < s -> s ^ 2 <= 10 ^ 9 -> sig (/ s ^ 2 / 2) = s / 2.
Proof.
  intros H B. unfold sig. assert (P : 0 < s ^ 2) by (apply pow_lt; exact H). assert (Q : 0 < / s ^ 2 / 2) by (apply Rdiv_lt_0_compat; [apply Rinv_0_lt_compat; exact P|lra]).
  rewrite Rabs_right by lra. rewrite Rmax_left.
  - replace (1 / 2 / (/ s ^ 2 / 2)) with (s ^ 2) by (field; lra). rewrite sqrt_pow2 by lra. reflexivity.
  - rewrite floor_small. assert (/ 10 ^ 9 <= / s ^ 2) by (apply Rinv_le_contravar; [exact P|exact B]).
    assert (/ 10 ^ 10 <= / 10 ^ 9 / 2) by (simpl; lra). lra.
Qed.
Lemma sig_distinct a b : / 10 ^ 10 <= a -> / 10 ^ 10 <= b -> a <> b -> sig a <> sig b.
Proof.
  intros A B N E. assert (Z0 : 0 < / 10 ^ 10) by (simpl; lra). apply N. unfold sig in E. rewrite floor_small, !Rabs_right, !Rmax_left in E by lra.
  assert (F : sqrt (1 / 2 / a) = sqrt (1 / 2 / b)) by lra. apply sqrt_inj in F; [|left; apply Rdiv_lt_0_compat; lra|left; apply Rdiv_lt_0_compat; lra].
  assert (G : / a = / b) by lra. rewrite <- (Rinv_inv a), <- (Rinv_inv b), G. reflexivity.
Qed.
(** The zeros of a polynomial of degree three, as a multiset. *)
Lemma roots3 a b c x y z : (forall t, (a - t) * ((b - t) * (c - t)) = (x - t) * (y - t) * (z - t)) -> Permutation [x; y; z] [a; b; c].
Proof.
  intros H. assert (A : (x - a) * (y - a) * (z - a) = 0) by (rewrite <- (H a); ring).
  assert (E3 : a * b * c = x * y * z). { pose proof (H 0) as K. lra. }
  assert (E1 : a + b + c = x + y + z). { pose proof (H 1) as K1. pose proof (H (-1)) as K2. lra. }
  assert (E2 : a * b + a * c + b * c = x * y + x * z + y * z). { pose proof (H 1) as K1. pose proof (H (-1)) as K2. lra. }
  assert (Two : forall u v, u + v = b + c -> u * v = b * c -> (u = b /\ v = c) \/ (u = c /\ v = b)).
  { intros u v S M. assert (K : (u - b) * (u - c) = 0). { replace ((u - b) * (u - c)) with (u * u - u * (b + c) + b * c) by ring. rewrite <- S, <- M. ring. }
    apply Rmult_integral in K. destruct K; [left|right]; lra. }
  apply Rmult_integral in A. destruct A as [A|A]; [apply Rmult_integral in A; destruct A as [A|A]|].
  - assert (x = a) by lra. subst x. destruct (Two y z) as [(-> & ->)|(-> & ->)]; [lra| | |].
    + assert (a * (y + z) = a * (b + c)) by (f_equal; lra). lra.
    + apply Permutation_refl.
    + apply perm_skip, perm_swap.
  - assert (y = a) by lra. subst y. apply Permutation_trans with [a; x; z]; [apply perm_swap|]. destruct (Two x z) as [(-> & ->)|(-> & ->)]; [lra| | |].
    + assert (a * (x + z) = a * (b + c)) by (f_equal; lra). lra.
    + apply Permutation_refl.
    + apply perm_skip, perm_swap.
  - assert (z = a) by lra. subst z. apply Permutation_trans with [a; x; y].
    { apply Permutation_sym. apply (Permutation_cons_append [x; y] a). }
    destruct (Two x y) as [(-> & ->)|(-> & ->)]; [lra| | |].
    + assert (a * (x + y) = a * (b + c)) by (f_equal; lra). lra.
    + apply Permutation_refl.
    + apply perm_skip, perm_swap.
Qed.
Lemma eig_perm eig a b c d x y z : eigenvalues eig -> eig ((a, d, 0), (d, b, 0), (0, 0, c)) = (x, y, z) ->
  forall u v w, (forall t, ((a - t) * (b - t) - d * d) * (c - t) = (u - t) * ((v - t) * (w - t))) -> Permutation [x; y; z] [u; v; w].
Proof.
  intros H E u v w K. apply roots3. intros t. specialize (H a b c d t). rewrite E in H. rewrite <- H, <- K. reflexivity.
Qed.
(** A function that gives them. *)
Definition block_eig (m : matrix) : vec :=
  let '((a, d, _), (_, b, _), (_, _, c)) := m in
  ((a + b) / 2 + sqrt (((a - b) / 2) ^ 2 + d ^ 2), (a + b) / 2 - sqrt (((a - b) / 2) ^ 2 + d ^ 2), c).
Lemma block_eig_ok : eigenvalues block_eig.
Proof.
  intros a b c d t. unfold block_eig. set (r := sqrt (((a - b) / 2) ^ 2 + d ^ 2)).
  assert (E : r * r = ((a - b) / 2) ^ 2 + d ^ 2). { apply sqrt_sqrt. pose proof (pow2_ge_0 ((a - b) / 2)). pose proof (pow2_ge_0 d). lra. }
  replace (((a + b) / 2 + r - t) * ((a + b) / 2 - r - t) * (c - t)) with ((((a + b) / 2 - t) ^ 2 - r * r) * (c - t)) by ring. rewrite E. field.
Qed.

(** * A least squares solution exists *)

Section Project.
Variable A : Type.
Variable data : list A.
Definition ip (f g : A -> R) : R := sum (fun d => f d * g d) data.
Fixpoint lin (cs : list R) (bs : list (A -> R)) (d : A) : R :=
  match cs, bs with c :: cs', b :: bs' => c * b d + lin cs' bs' d | _, _ => 0 end.
Fixpoint axpy (a : list R) (k : R) (c : list R) : list R :=
  match a, c with x :: a', y :: c' => (x - k * y) :: axpy a' k c' | _, _ => [] end.
Fixpoint project (bs : list (A -> R)) (y : A -> R) : list R :=
  match bs with
  | [] => []
  | b :: bs' =>
    let a := project bs' y in let c := project bs' b in
    let w := fun d => b d - lin c bs' d in let r := fun d => y d - lin a bs' d in
    if Req_EM_T (ip w w) 0 then 0 :: a else let k := ip r w / ip w w in k :: axpy a k c
  end.
Lemma axpy_length k : forall a c, length a = length c -> length (axpy a k c) = length c.
Proof. intros a. induction a as [|x a IH]; intros [|y c] E; try discriminate; [reflexivity|]. cbn [axpy length]. rewrite IH by (cbn in E; lia). reflexivity. Qed.
Lemma project_length bs : forall y, length (project bs y) = length bs.
Proof.
  induction bs as [|b bs IH]; intros y; [reflexivity|]. cbn [project]. destruct (Req_EM_T _ 0); cbn [length]; [rewrite IH; reflexivity|]. rewrite axpy_length by (rewrite !IH; reflexivity). rewrite IH. reflexivity.
Qed.
Lemma lin_axpy k bs d : forall a c, length a = length bs -> length c = length bs -> lin (axpy a k c) bs d = lin a bs d - k * lin c bs d.
Proof.
  induction bs as [|b bs IH]; intros [|x a] [|y c] Ea Ec; try discriminate; [cbn; ring|]. cbn [axpy lin]. rewrite IH by (cbn in *; lia). ring.
Qed.
Lemma ip_ext f g h : (forall d, In d data -> f d = g d) -> ip f h = ip g h.
Proof. intros H. unfold ip. apply sum_ext. intros d I. rewrite (H d I). reflexivity. Qed.
Lemma ip_comm f g : ip f g = ip g f.
Proof. unfold ip. apply sum_ext. intros. ring. Qed.
Lemma ip_comb f g h k : ip (fun d => f d - k * g d) h = ip f h - k * ip g h.
Proof. unfold ip. induction data as [|d l IH]; [rewrite !sum_nil; ring|]. rewrite !sum_cons, IH. ring. Qed.
Lemma ip_lin f bs : (forall b, In b bs -> ip f b = 0) -> forall cs, ip f (lin cs bs) = 0.
Proof.
  induction bs as [|b bs IH]; intros H [|c cs]; try (unfold ip; rewrite (sum_ext _ (fun _ => 0)) by (intros; cbn; ring); induction data; [apply sum_nil|rewrite sum_cons; lra]).
  assert (E : ip f (lin (c :: cs) (b :: bs)) = c * ip f b + ip f (lin cs bs)). { unfold ip. cbn [lin]. induction data as [|d l IHl]; [rewrite !sum_nil; ring|]. rewrite !sum_cons, IHl. ring. }
  rewrite E, (H b (or_introl eq_refl)), IH by (intros b' I; apply H; right; exact I). ring.
Qed.
Lemma ip_zero w : ip w w = 0 -> forall d, In d data -> w d = 0.
Proof.
  unfold ip. induction data as [|x l IH]; intros H d I; [destruct I|]. rewrite sum_cons in H.
  assert (N : 0 <= sum (fun d => w d * w d) l) by (apply sum_nonneg; intros; apply Rle_0_sqr). pose proof (Rle_0_sqr (w x)) as N2. unfold Rsqr in N2.
  destruct I as [->|I]; [|apply IH; [lra|exact I]]. apply Rsqr_0_uniq. unfold Rsqr. lra.
Qed.
Lemma project_orth bs : forall y b, In b bs -> ip (fun d => y d - lin (project bs y) bs d) b = 0.
Proof.
  induction bs as [|b0 bs IH]; intros y b I; [destruct I|]. cbn [project].
  set (a := project bs y). set (c := project bs b0). set (w := fun d => b0 d - lin c bs d). set (r := fun d => y d - lin a bs d).
  assert (Wo : forall b', In b' bs -> ip w b' = 0) by (intros b' I'; apply IH; exact I'). assert (Ro : forall b', In b' bs -> ip r b' = 0) by (intros b' I'; apply IH; exact I').
  assert (Bw : forall f, (forall b', In b' bs -> ip f b' = 0) -> ip f b0 = ip f w).
  { intros f Hf. pose proof (ip_comb b0 (lin c bs) f 1) as K. rewrite (ip_comm (lin c bs)), (ip_lin f bs Hf c) in K. rewrite (ip_comm f b0), (ip_comm f w). rewrite (ip_ext w (fun d => b0 d - 1 * lin c bs d)) by (intros; unfold w; ring). rewrite K. ring. }
  destruct (Req_EM_T (ip w w) 0) as [Zw|Nw].
  - rewrite (ip_ext _ r) by (intros; unfold r; cbn [lin]; ring). destruct I as [<-|I]; [|apply Ro, I]. rewrite (Bw r Ro).
    unfold ip. rewrite (sum_ext _ (fun _ => 0)); [induction data; [apply sum_nil|rewrite sum_cons; lra]|]. intros d Id. rewrite (ip_zero w Zw d Id). ring.
  - set (k := ip r w / ip w w). rewrite (ip_ext _ (fun d => r d - k * w d)).
    + rewrite ip_comb. destruct I as [<-|I]; [rewrite (Bw r Ro), (Bw w Wo); unfold k; field; exact Nw|rewrite (Ro b I), (Wo b I); ring].
    + intros d _. cbn [lin]. rewrite lin_axpy by apply project_length. unfold r, w. ring.
Qed.
Lemma project_least bs y cs : length cs = length bs -> sum (fun d => (y d - lin (project bs y) bs d) ^ 2) data <= sum (fun d => (y d - lin cs bs d) ^ 2) data.
Proof.
  intros Lc. set (a := project bs y). set (r := fun d => y d - lin a bs d). set (e := fun d => lin (axpy a 1 cs) bs d).
  assert (O : ip r e = 0) by (apply ip_lin; intros b I; apply project_orth; exact I).
  assert (E : sum (fun d => (y d - lin cs bs d) ^ 2) data = sum (fun d => (y d - lin a bs d) ^ 2) data + (2 * ip r e + ip e e)).
  { unfold ip. rewrite <- sum_scal, <- !sum_plus. apply sum_ext. intros d _. unfold r, e. rewrite lin_axpy; [ring|apply project_length|exact Lc]. }
  rewrite E, O. assert (0 <= ip e e) by (apply sum_nonneg; intros; apply Rle_0_sqr). lra.
Qed.
End Project.
Definition monomials : list (vec * R -> R) :=
  map (fun (f : R -> R -> R -> R) (d : vec * R) => let '((x, y, z), _) := d in f x y z)
    [(fun x y z => x * x); (fun x y z => y * y); (fun x y z => z * z); (fun x y z => x * y); (fun x y z => x * z); (fun x y z => y * z); (fun x y z => x); (fun x y z => y); (fun x y z => z); (fun x y z => 1)].
Definition ls_fit (pts : list vec) (ys : list R) : quadratic :=
  let cs := project _ (combine pts ys) monomials snd in let c i := nth i cs 0 in
  mk_quadratic (c 0%nat) (c 1%nat) (c 2%nat) (c 3%nat) (c 4%nat) (c 5%nat) (c 6%nat) (c 7%nat) (c 8%nat) (c 9%nat).
Lemma ls_fit_ok : least_squares ls_fit.
Proof.
  intros pts ys P _. set (data := combine pts ys). pose proof (project_least _ data monomials snd [q0 P; q1 P; q2 P; q3 P; q4 P; q5 P; q6 P; q7 P; q8 P; q9 P] eq_refl) as H.
  pose proof (project_length _ data monomials snd) as Lp. unfold misfit, ls_fit. fold data. set (cs := project _ data monomials snd) in *. clearbody cs.
  do 10 (destruct cs as [|? cs]; [discriminate|]). destruct cs; [|discriminate]. cbn [nth].
  rewrite (sum_ext _ (fun d => (snd d - lin _ [r; r0; r1; r2; r3; r4; r5; r6; r7; r8] monomials d) ^ 2) data), (sum_ext (fun d => (qeval P (fst d) - snd d) ^ 2)
    (fun d => (snd d - lin _ [q0 P; q1 P; q2 P; q3 P; q4 P; q5 P; q6 P; q7 P; q8 P; q9 P] monomials d) ^ 2) data); [exact H| |].
  - intros (((x, y), z), v) _. unfold qeval, monomials. cbn [fst snd lin map]. ring.
  - intros (((x, y), z), v) _. unfold qeval, monomials. cbn [fst snd lin map q0 q1 q2 q3 q4 q5 q6 q7 q8 q9]. ring.
Qed.

(** * Maps that are a Gaussian around their peak *)

Lemma at_map_nodes n (f : ijk -> R) q : is_node n q -> at_node n (map f (all_nodes n)) q = f q.
Proof. intros H. unfold at_node, value. rewrite rd_map, all_nodes_rd by exact H. reflexivity. Qed.
Lemma exp_pow_nat x k : exp x ^ k = exp (INR k * x).
Proof. induction k as [|k IH]; [cbn; rewrite Rmult_0_l, exp_0; reflexivity|]. rewrite S_INR, <- tech_pow_Rmult, IH, <- exp_plus. f_equal. ring. Qed.
Lemma pow2_gt_0 x : x <> 0 -> 0 < x ^ 2.
Proof. intros H. pose proof (Rsqr_pos_lt x H) as K. unfold Rsqr in K. simpl. lra. Qed.
Section Witness.
Variable n p : ijk.
Variable S : sym.
Variable c : vec.
Definition bell (q : ijk) : R := gauss 1 S c (of_node q).
Definition bell_sum : R := sum (fun q => if mask3d n p 7 q then bell q else 0) (all_nodes n).
Definition rest : R := sum (fun q => if mask3d n p 7 q then 0 else 1) (all_nodes n).
Definition low : R := - bell_sum / rest.
Definition bell_map : list R := map (fun q => 1 - low + if mask3d n p 7 q then bell q else low) (all_nodes n).
Hypothesis Hn : pos3 n.
Hypothesis Hp : is_node n p.
Hypothesis Hrest : exists q, is_node n q /\ mask3d n p 7 q = false.
Hypothesis Hmax : forall q, in_win n p 3 q -> q <> p -> form S (vsub (of_node p) c) < form S (vsub (of_node q) c).
Hypothesis Hlow : forall q, in_win n p 3 q -> form S (vsub (of_node q) c) <= 100.
Lemma bell_pos q : 0 < bell q.
Proof. unfold bell, gauss. pose proof (exp_pos (- (1 / 2) * form S (vsub (of_node q) c))). lra. Qed.
Lemma rest_pos : 0 < rest.
Proof.
  destruct Hrest as (q & Hq & M). unfold rest. apply in_all_nodes in Hq. induction (all_nodes n) as [|x l IH]; [destruct Hq|]. rewrite sum_cons.
  assert (0 <= sum (fun q => if mask3d n p 7 q then 0 else 1) l) by (apply sum_nonneg; intros y _; destruct (mask3d n p 7 y); lra).
  destruct Hq as [->|Hq]; [rewrite M; lra|]. specialize (IH Hq). destruct (mask3d n p 7 x); lra.
Qed.
Lemma low_nonpos : low <= 0.
Proof.
  unfold low. assert (0 <= bell_sum). { apply sum_nonneg. intros q _. pose proof (bell_pos q). destruct (mask3d n p 7 q); lra. }
  pose proof rest_pos as R0. assert (0 <= bell_sum / rest) by (apply Rmult_le_pos; [assumption|left; apply Rinv_0_lt_compat; exact R0]). unfold Rdiv in *. lra.
Qed.
Lemma bell_map_length : Z.of_nat (length bell_map) = n_nodes n.
Proof. unfold bell_map. rewrite map_length. apply all_nodes_length, Hn. Qed.
Lemma bell_map_at q : is_node n q -> at_node n bell_map q = 1 - low + if mask3d n p 7 q then bell q else low.
Proof. intros H. unfold bell_map. rewrite at_map_nodes by exact H. reflexivity. Qed.
Lemma sum_const {A} (k : R) (l : list A) : sum (fun _ => k) l = k * IZR (Z.of_nat (length l)).
Proof. induction l as [|x l IH]; [cbv; ring|]. rewrite sum_cons, IH. change (length (x :: l)) with (Datatypes.S (length l)). rewrite Nat2Z.inj_succ, succ_IZR. ring. Qed.
Lemma bell_map_mean : map_mean n bell_map = 1 - low.
Proof.
  unfold map_mean. assert (E : sum (at_node n bell_map) (all_nodes n) = (1 - low) * IZR (n_nodes n) + (bell_sum + low * rest)).
  { rewrite (sum_ext _ (fun q => (1 - low) + ((if mask3d n p 7 q then bell q else 0) + low * (if mask3d n p 7 q then 0 else 1)))).
    - rewrite sum_plus, sum_const, all_nodes_length by exact Hn. rewrite sum_plus, sum_scal. reflexivity.
    - intros q H. apply in_all_nodes in H. rewrite bell_map_at by exact H. destruct (mask3d n p 7 q); ring. }
  rewrite E. pose proof rest_pos. assert (Z0 : bell_sum + low * rest = 0) by (unfold low; field; lra). rewrite Z0.
  assert (0 < n_nodes n)%Z. { destruct n as ((x, y), z). destruct Hn as (? & ? & ?). unfold n_nodes. repeat apply Z.mul_pos_pos; lia. }
  apply IZR_lt in H0. field. lra.
Qed.
Lemma bell_map_pos q : is_node n q -> 0 < at_node n bell_map q.
Proof. intros H. rewrite bell_map_at by exact H. pose proof low_nonpos. pose proof (bell_pos q). destruct (mask3d n p 7 q); lra. Qed.
Lemma bell_map_peak q : is_node n q -> q <> p -> at_node n bell_map q < at_node n bell_map p.
Proof.
  intros H N. rewrite !bell_map_at by assumption. assert (M : mask3d n p 7 p = true).
  { apply mask3d_win; [exact Hp|exact Hp|]. destruct n as ((nx, ny), nz), p as ((i, j), k). apply in_win_iff. destruct Hp as (? & ? & ?). lia. }
  rewrite M. destruct (mask3d n p 7 q) eqn:E; [|pose proof low_nonpos; pose proof (bell_pos p); lra]. apply mask3d_win in E; [|exact Hp|exact H]. pose proof (Hmax q E N) as L.
  apply Rplus_lt_compat_l. unfold bell, gauss. apply Rmult_lt_compat_l; [lra|]. apply exp_increasing. lra.
Qed.
Lemma peak_is_p q : peak_node n bell_map q -> q = p.
Proof.
  intros (H & L & _). assert (q = p \/ q <> p) as [E|E] by (destruct q as ((a, b), d), p as ((i, j), k); destruct (Z.eq_dec a i), (Z.eq_dec b j), (Z.eq_dec d k); subst; try (left; reflexivity); right; congruence); [exact E|]. pose proof (bell_map_peak q H E). specialize (L p Hp). lra.
Qed.
Lemma bell_map_gaussian : gaussian_peak n bell_map 1 S c.
Proof.
  intros q Hq r Hr. apply peak_is_p in Hq. subst q. assert (Nr : is_node n r) by (exact (in_win_node n p 3 r ltac:(lia) Hp Hr)). split; [apply bell_map_pos, Nr|].
  rewrite bell_map_mean, bell_map_at by exact Nr. rewrite (proj2 (mask3d_win n p r Hp Nr) Hr). split; [unfold bell; ring|]. specialize (Hlow r Hr). unfold gauss. rewrite Rmult_1_l.
  apply Rle_trans with (exp (-50)).
  - change (powerRZ 10 (-300)) with (/ 10 ^ 300). replace (-50) with (- (50)) by ring. rewrite exp_Ropp. apply Rinv_le_contravar; [apply exp_pos|].
    replace 50 with (INR 50 * 1) by (rewrite INR_IZR_INZ; cbn; ring). rewrite <- exp_pow_nat. apply Rle_trans with (3 ^ 50); [apply pow_incr; split; [left; apply exp_pos|apply exp_le_3]|].
    apply Rle_trans with (10 ^ 50); [apply pow_incr; lra|]. apply Rle_pow; [lra|lia].
  - destruct (Req_dec (-50) (- (1 / 2) * form S (vsub (of_node r) c))) as [->|N]; [right; reflexivity|]. left. apply exp_increasing. lra.
Qed.
End Witness.

(** Properties of the Gaussian location: C87 to C89. *)
From Coq Require Import List ZArith Reals Bool Permutation Lia Lra.
From Verif Require Import Lib LibFacts ScanMseed_Model Lut_Model Lut_Spec Lut_Proofs Locate_Model Locate_Spec Locate_Proofs GauFit_Model GauFit_Spec GauFit_Proofs GauSmooth_Proofs.
Import ListNotations.
Open Scope R_scope.

(** * C87: the location is the peak of the Gaussian of the map *)

(** A map that is its mean plus a Gaussian within three nodes of its largest node is located at the
    centre of the Gaussian, wherever that lies between the nodes. *)
Theorem C87_gaussian_recovered_partial : forall fit eig transform g m A S c,
  least_squares fit -> (let '(nx, ny, nz) := g_count g in (3 <= nx)%Z /\ (3 <= ny)%Z /\ (3 <= nz)%Z) -> Z.of_nat (length m) = n_nodes (g_count g) ->
  0 < A -> posdef S -> gaussian_peak (g_count g) m A S c ->
  exists u, gaufit3d fit eig transform g m 0 7 = Ret (frac2coord transform g c, u).
Proof.
  intros fit eig transform g m A S c L H3 Hl HA HS HG. apply posdef_det in HS. assert (D : det_sym S <> 0) by lra.
  destruct (gaufit_exact fit eig transform g m A S c L H3 Hl HA D HG) as (p & E). eexists. exact E.
Qed.
Print Assumptions C87_gaussian_recovered_partial.
(** For every map: the location is the stationary point of the quadratic that fits the negative logarithms
    of the map minus its mean best, over the nodes above 0 within three nodes of the largest. It is the peak
    of the fitted function if the quadratic is positive definite. *)
Theorem C87_stationary_partial : forall fit eig transform g m l u,
  least_squares fit -> pos3 (g_count g) -> Z.of_nat (length m) = n_nodes (g_count g) -> gaufit3d fit eig transform g m 0 7 = Ret (l, u) ->
  exists p W P v, peak_node (g_count g) m p
  /\ (NoDup W /\ forall q, In q W <-> in_win (g_count g) p 3 q /\ 0 < at_node (g_count g) m q)
  /\ (let data := map (fun q => (vsub (of_node q) (of_node p), - ln (Rmax (at_node (g_count g) m q - map_mean (g_count g) m) (powerRZ 10 (-300))))) W in
      forall Q, misfit P data <= misfit Q data)
  /\ stationary P v
  /\ (posdef (mk_sym (2 * q0 P) (2 * q1 P) (2 * q2 P) (q3 P) (q4 P) (q5 P)) -> forall w, exp (- qeval P w) <= exp (- qeval P v))
  /\ l = frac2coord transform g (vmap2 (fun x i => x + IZR i) v p).
Proof.
  intros fit eig transform g m l u L Hn Hl E. destruct (gaufit_eq fit eig transform g m 0 Hn Hl) as (p & Hp & F). rewrite F in E. cbv zeta in E. clear F.
  set (W := window_nodes (g_count g) m 0 p) in *. set (P := fit (map (from_peak p) W) (map (log_value (g_count g) m) W)) in *.
  destruct (fit_location P) as [v|e|] eqn:EL; cbn [bind] in E; try discriminate. injection E as E _. apply fit_location_stationary in EL. exists p, W, P, v.
  split; [exact Hp|]. split; [split; [apply NoDup_filter; rewrite indices_all_nodes; destruct (g_count g) as ((?, ?), ?); apply nodup_nodes|intros q; apply in_window_nodes, (proj1 Hp)]|].
  split; [|split; [exact EL|split; [|symmetry; exact E]]].
  - assert (D : forall X : list ijk, combine (map (from_peak p) X) (map (log_value (g_count g) m) X) =
       map (fun q => (vsub (of_node q) (of_node p), - ln (Rmax (at_node (g_count g) m q - map_mean (g_count g) m) (powerRZ 10 (-300))))) X).
    { intros X. induction X as [|q X IH]; [reflexivity|]. cbn [map combine]. rewrite IH. f_equal. f_equal. destruct p as ((i, j), k), q as ((a, b), c). unfold from_peak, vsub, of_node. cbn [vmap2]. rewrite !minus_IZR. reflexivity. }
    cbv zeta. intros Q. rewrite <- D. apply L. rewrite !map_length. reflexivity.
  - intros PD w. pose proof (stationary_least P v w PD EL) as K. apply exp_le. lra.
Qed.
Print Assumptions C87_stationary_partial.

(** A Gaussian between the nodes of a grid of 8 by 3 by 3 nodes. *)
Definition ex_sym : sym := mk_sym 1 1 1 0 0 0.
Definition ex_n : ijk := (8, 3, 3)%Z.
Definition ex_map : list R := bell_map ex_n (3, 1, 1)%Z ex_sym (13 / 4, 1, 1).
Lemma axis_min x : 1 / 16 <= (IZR x - 13 / 4) ^ 2 /\ (x <> 3%Z -> 1 / 16 < (IZR x - 13 / 4) ^ 2).
Proof.
  assert (x <= 2 \/ x = 3 \/ 4 <= x)%Z as [H|[->|H]] by lia.
  - apply IZR_le in H. assert (1 / 16 < (IZR x - 13 / 4) ^ 2); [|split; [lra|intros; lra]]. replace ((IZR x - 13 / 4) ^ 2) with ((13 / 4 - IZR x) * (13 / 4 - IZR x)) by ring.
    apply Rlt_le_trans with (1 * 1); [lra|]. apply Rmult_le_compat; lra.
  - split; [lra|congruence].
  - apply IZR_le in H. assert (1 / 16 < (IZR x - 13 / 4) ^ 2); [|split; [lra|intros; lra]]. replace ((IZR x - 13 / 4) ^ 2) with ((IZR x - 13 / 4) * (IZR x - 13 / 4)) by ring.
    apply Rlt_le_trans with (3 / 4 * (3 / 4)); [lra|]. apply Rmult_le_compat; lra.
Qed.
Lemma sq_pos_int x : x <> 1%Z -> 1 <= (IZR x - 1) ^ 2.
Proof.
  intros H. assert (x <= 0 \/ 2 <= x)%Z as [K|K] by lia; apply IZR_le in K.
  - replace ((IZR x - 1) ^ 2) with ((1 - IZR x) * (1 - IZR x)) by ring. rewrite <- (Rmult_1_l 1) at 1. apply Rmult_le_compat; lra.
  - replace ((IZR x - 1) ^ 2) with ((IZR x - 1) * (IZR x - 1)) by ring. rewrite <- (Rmult_1_l 1) at 1. apply Rmult_le_compat; lra.
Qed.
Lemma sq_le a b : - b <= a <= b -> a ^ 2 <= b ^ 2.
Proof. intros H. destruct (Rle_dec 0 a); [apply pow_incr; lra|]. replace (a ^ 2) with ((- a) ^ 2) by ring. apply pow_incr. lra. Qed.
Lemma ex_win q : in_win ex_n (3, 1, 1)%Z 3 q -> let '(x, y, z) := q in (0 <= x <= 6 /\ 0 <= y <= 2 /\ 0 <= z <= 2)%Z.
Proof. destruct q as ((x, y), z). unfold ex_n. intros H. apply in_win_iff in H. lia. Qed.
Lemma ex_outside : exists q, is_node ex_n q /\ mask3d ex_n (3, 1, 1)%Z 7 q = false.
Proof. exists (7, 1, 1)%Z. split; [unfold is_node, ex_n; lia|reflexivity]. Qed.
Lemma ex_gaussian : Z.of_nat (length ex_map) = n_nodes ex_n /\ gaussian_peak ex_n ex_map 1 ex_sym (13 / 4, 1, 1).
Proof.
  assert (Hn : pos3 ex_n) by (unfold pos3, ex_n; lia). assert (Hp : is_node ex_n (3, 1, 1)%Z) by (unfold is_node, ex_n; lia). split; [apply bell_map_length, Hn|].
  apply bell_map_gaussian; [exact Hn|exact Hp|exact ex_outside| |].
  - intros ((x, y), z) _ N. unfold ex_sym, form, vsub, of_node. cbn [sxx syy szz sxy sxz syz]. destruct (axis_min x) as (M1 & M2).
    pose proof (pow2_ge_0 (IZR y - 1)). pose proof (pow2_ge_0 (IZR z - 1)).
    destruct (Z.eq_dec x 3) as [->|Nx]; [destruct (Z.eq_dec y 1) as [->|Ny]; [destruct (Z.eq_dec z 1) as [->|Nz]; [congruence|]|]|].
    + pose proof (sq_pos_int z Nz). lra.
    + pose proof (sq_pos_int y Ny). lra.
    + specialize (M2 Nx). lra.
  - intros ((x, y), z) W. apply ex_win in W. destruct W as ((X1 & X2) & (Y1 & Y2) & (Z1 & Z2)). apply IZR_le in X1, X2, Y1, Y2, Z1, Z2.
    unfold ex_sym, form, vsub, of_node. cbn [sxx syy szz sxy sxz syz]. pose proof (sq_le (IZR x - 13 / 4) 4 ltac:(lra)). pose proof (sq_le (IZR y - 1) 4 ltac:(lra)). pose proof (sq_le (IZR z - 1) 4 ltac:(lra)). lra.
Qed.
Lemma ex_posdef : posdef ex_sym.
Proof.
  intros ((x, y), z) N. unfold ex_sym, form. cbn [sxx syy szz sxy sxz syz]. pose proof (pow2_ge_0 x). pose proof (pow2_ge_0 y). pose proof (pow2_ge_0 z).
  destruct (Req_dec x 0) as [->|Nx]; [destruct (Req_dec y 0) as [->|Ny]; [destruct (Req_dec z 0) as [->|Nz]; [congruence|]|]|].
  - pose proof (pow2_gt_0 z Nz). lra.
  - pose proof (pow2_gt_0 y Ny). lra.
  - pose proof (pow2_gt_0 x Nx). lra.
Qed.
Example C87_ex : Z.of_nat (length ex_map) = n_nodes ex_n /\ posdef ex_sym /\ gaussian_peak ex_n ex_map 1 ex_sym (13 / 4, 1, 1) /\ least_squares ls_fit.
Proof. split; [apply ex_gaussian|]. split; [apply ex_posdef|]. split; [apply ex_gaussian|apply ls_fit_ok]. Qed.

(** When the map grows towards the edge of the grid faster than exponentially the fitted function has a
    least value where it is stationary: the location is the node of the window with the lowest value on
    the line through the largest node. *)
Definition edge_map : list R := bell_map ex_n (7, 1, 1)%Z (mk_sym (-1) 1 1 0 0 0) (4, 1, 1).
Theorem C87_maximum_refuted : forall fit eig transform g, least_squares fit -> g_count g = ex_n ->
  Z.of_nat (length edge_map) = n_nodes ex_n
  /\ (forall q, is_node ex_n q -> 0 < at_node ex_n edge_map q)
  /\ (exists u, gaufit3d fit eig transform g edge_map 0 7 = Ret (frac2coord transform g (of_node (4, 1, 1)%Z), u))
  /\ at_node ex_n edge_map (4, 1, 1)%Z < at_node ex_n edge_map (5, 1, 1)%Z < at_node ex_n edge_map (6, 1, 1)%Z
  /\ peak_node ex_n edge_map (7, 1, 1)%Z.
Proof.
  intros fit eig transform g L Eg. assert (Hn : pos3 ex_n) by (unfold pos3, ex_n; lia). assert (Hp : is_node ex_n (7, 1, 1)%Z) by (unfold is_node, ex_n; lia).
  assert (Ho : exists q, is_node ex_n q /\ mask3d ex_n (7, 1, 1)%Z 7 q = false) by (exists (0, 1, 1)%Z; split; [unfold is_node, ex_n; lia|reflexivity]).
  assert (Wn : forall q, in_win ex_n (7, 1, 1)%Z 3 q -> let '(x, y, z) := q in (4 <= x <= 7 /\ 0 <= y <= 2 /\ 0 <= z <= 2)%Z) by (intros ((x, y), z) W; unfold ex_n in W; apply in_win_iff in W; lia).
  assert (Hmax : forall q, in_win ex_n (7, 1, 1)%Z 3 q -> q <> (7, 1, 1)%Z -> form (mk_sym (-1) 1 1 0 0 0) (vsub (of_node (7, 1, 1)%Z) (4, 1, 1)) < form (mk_sym (-1) 1 1 0 0 0) (vsub (of_node q) (4, 1, 1))).
  { intros ((x, y), z) W N. apply Wn in W. destruct W as ((X1 & X2) & (Y1 & Y2) & (Z1 & Z2)). unfold form, vsub, of_node. cbn [sxx syy szz sxy sxz syz].
    pose proof (pow2_ge_0 (IZR y - 1)). pose proof (pow2_ge_0 (IZR z - 1)).
    destruct (Z.eq_dec x 7) as [->|Nx]; [destruct (Z.eq_dec y 1) as [->|Ny]; [destruct (Z.eq_dec z 1) as [->|Nz]; [congruence|]|]|].
    - pose proof (sq_pos_int z Nz). lra.
    - pose proof (sq_pos_int y Ny). lra.
    - assert (IZR x <= 6) by (apply IZR_le; lia). apply IZR_le in X1. pose proof (sq_le (IZR x - 4) 2 ltac:(lra)). lra. }
  assert (Hlow : forall q, in_win ex_n (7, 1, 1)%Z 3 q -> form (mk_sym (-1) 1 1 0 0 0) (vsub (of_node q) (4, 1, 1)) <= 100).
  { intros ((x, y), z) W. apply Wn in W. destruct W as ((X1 & X2) & (Y1 & Y2) & (Z1 & Z2)). apply IZR_le in X1, X2, Y1, Y2, Z1, Z2. unfold form, vsub, of_node. cbn [sxx syy szz sxy sxz syz].
    pose proof (pow2_ge_0 (IZR x - 4)). pose proof (sq_le (IZR y - 1) 4 ltac:(lra)). pose proof (sq_le (IZR z - 1) 4 ltac:(lra)). lra. }
  assert (Le : Z.of_nat (length edge_map) = n_nodes ex_n) by (apply bell_map_length, Hn). split; [exact Le|].
  split; [intros q Hq; apply bell_map_pos; assumption|]. split; [|split].
  - destruct (gaufit_exact fit eig transform g edge_map 1 (mk_sym (-1) 1 1 0 0 0) (4, 1, 1) L) as (p & E).
    + rewrite Eg. unfold ex_n. lia.
    + rewrite Eg. exact Le.
    + lra.
    + unfold det_sym. cbn [sxx syy szz sxy sxz syz]. lra.
    + rewrite Eg. apply bell_map_gaussian; assumption.
    + eexists. exact E.
  - assert (V : forall x, (4 <= x <= 7)%Z -> at_node ex_n edge_map (x, 1, 1)%Z = 1 - low ex_n (7, 1, 1)%Z (mk_sym (-1) 1 1 0 0 0) (4, 1, 1) + exp (1 / 2 * (IZR x - 4) ^ 2)).
    { intros x Hx. unfold edge_map. rewrite bell_map_at by (unfold is_node, ex_n; lia). rewrite (proj2 (mask3d_win ex_n (7, 1, 1)%Z (x, 1, 1)%Z Hp ltac:(unfold is_node, ex_n; lia))).
      - f_equal. unfold bell, gauss, form, vsub, of_node. cbn [sxx syy szz sxy sxz syz]. rewrite Rmult_1_l. f_equal. field.
      - unfold ex_n. apply in_win_iff. lia. }
    rewrite !V by lia. split; apply Rplus_lt_compat_l, exp_increasing; lra.
  - split; [exact Hp|]. assert (B : forall q, is_node ex_n q -> q <> (7, 1, 1)%Z -> at_node ex_n edge_map q < at_node ex_n edge_map (7, 1, 1)%Z) by (intros q Hq N; apply bell_map_peak; assumption).
    split.
    + intros ((x, y), z) Hq. destruct (Z.eq_dec x 7) as [->|Nx]; [destruct (Z.eq_dec y 1) as [->|Ny]; [destruct (Z.eq_dec z 1) as [->|Nz]; [right; reflexivity|]|]|]; left; apply B; (exact Hq || congruence).
    + intros q Hq F. apply B; [exact Hq|]. intros ->. lia.
Qed.
Print Assumptions C87_maximum_refuted.
Example C87_edge_ex : least_squares ls_fit.
Proof. exact ls_fit_ok. Qed.

(** * C88: the uncertainties are the standard deviations *)

(** Half of the standard deviations of a Gaussian along the axes, in some order, in grid spacings. *)
Theorem C88_uncertainty_partial : forall fit eig transform g m A sx sy sz c,
  least_squares fit -> eigenvalues eig -> (let '(nx, ny, nz) := g_count g in (3 <= nx)%Z /\ (3 <= ny)%Z /\ (3 <= nz)%Z) -> Z.of_nat (length m) = n_nodes (g_count g) ->
  0 < A -> 0 < sx -> sx ^ 2 <= 10 ^ 9 -> 0 < sy -> sy ^ 2 <= 10 ^ 9 -> 0 < sz -> sz ^ 2 <= 10 ^ 9 -> gaussian_peak (g_count g) m A (independent sx sy sz) c ->
  exists l a b d, Permutation [a; b; d] [sx; sy; sz] /\ gaufit3d fit eig transform g m 0 7 = Ret (l, vmap2 Rmult (a / 2, b / 2, d / 2) (g_spacing g)).
Proof.
  intros fit eig transform g m A sx sy sz c L EV H3 Hl HA X1 X2 Y1 Y2 Z1 Z2 HG.
  assert (D : det_sym (independent sx sy sz) <> 0).
  { unfold det_sym, independent. cbn [sxx syy szz sxy sxz syz]. assert (0 < / sx ^ 2) by (apply Rinv_0_lt_compat, pow_lt; assumption). assert (0 < / sy ^ 2) by (apply Rinv_0_lt_compat, pow_lt; assumption). assert (0 < / sz ^ 2) by (apply Rinv_0_lt_compat, pow_lt; assumption).
    assert (0 < / sx ^ 2 * (/ sy ^ 2 * / sz ^ 2)) by (apply Rmult_lt_0_compat; [|apply Rmult_lt_0_compat]; assumption). lra. }
  destruct (gaufit_exact fit eig transform g m A _ c L H3 Hl HA D HG) as (p & E). rewrite E, fit_sigma_eq. clear E. unfold independent. cbn [sxx syy szz sxy sxz syz].
  destruct (eig _) as ((x, y), z) eqn:Ee. replace (0 / 2) with 0 in Ee by field. apply (eig_perm eig _ _ _ _ x y z EV) with (u := / sx ^ 2 / 2) (v := / sy ^ 2 / 2) (w := / sz ^ 2 / 2) in Ee; [|intros t; field; lra].
  apply (Permutation_map (fun v => 2 * sig v)) in Ee. cbn [map] in Ee. rewrite !sig_half in Ee by assumption.
  replace (2 * (sx / 2)) with sx in Ee by field. replace (2 * (sy / 2)) with sy in Ee by field. replace (2 * (sz / 2)) with sz in Ee by field.
  exists (frac2coord transform g c), (2 * sig x), (2 * sig y), (2 * sig z). split; [exact Ee|].
  replace (2 * sig x / 2) with (sig x) by field. replace (2 * sig y / 2) with (sig y) by field. replace (2 * sig z / 2) with (sig z) by field. reflexivity.
Qed.
Print Assumptions C88_uncertainty_partial.
Example C88_ex : eigenvalues block_eig /\ independent 1 1 1 = ex_sym /\ gaussian_peak ex_n ex_map 1 (independent 1 1 1) (13 / 4, 1, 1) /\ (1 ^ 2 <= 10 ^ 9).
Proof.
  assert (E : independent 1 1 1 = ex_sym) by (unfold independent, ex_sym; f_equal; field). split; [apply block_eig_ok|]. split; [exact E|]. split; [rewrite E; apply ex_gaussian|simpl; lra].
Qed.

(** For equal deviations along the axes the order is no matter: the documented one sigma is halved. *)
Theorem C88_one_sigma_refuted : forall fit eig transform g, least_squares fit -> eigenvalues eig -> g_count g = ex_n -> comp 0 (g_spacing g) <> 0 ->
  gaussian_peak ex_n ex_map 1 (independent 1 1 1) (13 / 4, 1, 1)
  /\ exists l u, gaufit3d fit eig transform g ex_map 0 7 = Ret (l, u) /\ comp 0 u = 1 / 2 * comp 0 (g_spacing g) /\ comp 0 u <> 1 * comp 0 (g_spacing g).
Proof.
  intros fit eig transform g L EV Eg Sp. split; [apply C88_ex|].
  destruct (C88_uncertainty_partial fit eig transform g ex_map 1 1 1 1 (13 / 4, 1, 1) L EV) as (l & a & b & d & Pm & E); try (simpl; lra).
  - rewrite Eg. unfold ex_n. lia.
  - rewrite Eg. apply ex_gaussian.
  - rewrite Eg. apply C88_ex.
  - exists l, (vmap2 Rmult (a / 2, b / 2, d / 2) (g_spacing g)). split; [exact E|].
    assert (a = 1). { assert (I : In a [1; 1; 1]) by (apply (Permutation_in a Pm); left; reflexivity). cbn in I. destruct I as [I|[I|[I|I]]]; [| | |destruct I]; symmetry; exact I. }
    subst a. destruct (g_spacing g) as ((x, y), z). unfold comp in *. cbn [vmap2] in *. cbn in Sp |- *. split; lra.
Qed.
Print Assumptions C88_one_sigma_refuted.

(** A map that is symmetric in the first two axes gets different uncertainties along them (in grid
    spacings), as the values are those along the principal axes of the Gaussian. *)
Definition tilted : sym := mk_sym 2 2 4 1 0 0.
Definition tilted_map : list R := bell_map (9, 9, 3)%Z (4, 4, 1)%Z tilted (4, 4, 1).
Theorem C88_axes_refuted : forall fit eig transform g, least_squares fit -> eigenvalues eig -> g_count g = (9, 9, 3)%Z -> g_spacing g = (1, 1, 1) ->
  Z.of_nat (length tilted_map) = n_nodes (9, 9, 3)%Z
  /\ gaussian_peak (9, 9, 3)%Z tilted_map 1 tilted (4, 4, 1)
  /\ (forall x y z, form tilted (x, y, z) = form tilted (y, x, z))
  /\ exists l u, gaufit3d fit eig transform g tilted_map 0 7 = Ret (l, u) /\ comp 0 u <> comp 1 u.
Proof.
  intros fit eig transform g L EV Eg Sp. assert (Hn : pos3 (9, 9, 3)%Z) by (unfold pos3; lia). assert (Hp : is_node (9, 9, 3)%Z (4, 4, 1)%Z) by (unfold is_node; lia).
  assert (Le : Z.of_nat (length tilted_map) = n_nodes (9, 9, 3)%Z) by (apply bell_map_length, Hn). split; [exact Le|].
  assert (Fm : forall x y z, form tilted (x, y, z) = x ^ 2 + y ^ 2 + (x + y) ^ 2 + 4 * z ^ 2) by (intros x y z; unfold form, tilted; cbn [sxx syy szz sxy sxz syz]; ring).
  assert (G : gaussian_peak (9, 9, 3)%Z tilted_map 1 tilted (4, 4, 1)).
  { apply bell_map_gaussian; [exact Hn|exact Hp|exists (0, 1, 1)%Z; split; [unfold is_node; lia|reflexivity]| |].
    - intros ((x, y), z) _ N. unfold vsub, of_node. rewrite !Fm. replace (4 - 4) with 0 by ring. replace (1 - 1) with 0 by ring.
      pose proof (pow2_ge_0 (IZR x - 4)). pose proof (pow2_ge_0 (IZR y - 4)). pose proof (pow2_ge_0 (IZR z - 1)). pose proof (pow2_ge_0 (IZR x - 4 + (IZR y - 4))).
      assert (K : forall a, a <> 4%Z -> 0 < (IZR a - 4) ^ 2). { intros a Na. apply pow2_gt_0. intros E0. apply Na, eq_IZR. lra. }
      destruct (Z.eq_dec x 4) as [->|Nx]; [destruct (Z.eq_dec y 4) as [->|Ny]; [destruct (Z.eq_dec z 1) as [->|Nz]; [congruence|]|]|].
      + pose proof (sq_pos_int z Nz). lra.
      + pose proof (K y Ny). lra.
      + pose proof (K x Nx). lra.
    - intros ((x, y), z) W. apply in_win_iff in W. destruct W as (X & Y & Z0). unfold vsub, of_node. rewrite Fm.
      assert (X' : (1 <= x <= 7)%Z) by lia. assert (Y' : (1 <= y <= 7)%Z) by lia. assert (Z' : (0 <= z <= 2)%Z) by lia. destruct X' as (X1 & X2), Y' as (Y1 & Y2), Z' as (Z1 & Z2). apply IZR_le in X1, X2, Y1, Y2, Z1, Z2.
      pose proof (sq_le (IZR x - 4) 3 ltac:(lra)). pose proof (sq_le (IZR y - 4) 3 ltac:(lra)). pose proof (sq_le (IZR z - 1) 1 ltac:(lra)). pose proof (sq_le (IZR x - 4 + (IZR y - 4)) 6 ltac:(lra)). lra. }
  split; [exact G|]. split; [intros x y z; rewrite !Fm; ring|].
  destruct (gaufit_exact fit eig transform g tilted_map 1 tilted (4, 4, 1) L) as (p & E).
  - rewrite Eg. lia.
  - rewrite Eg. exact Le.
  - lra.
  - unfold det_sym, tilted. cbn [sxx syy szz sxy sxz syz]. lra.
  - rewrite Eg. exact G.
  - rewrite E, fit_sigma_eq, Sp. unfold tilted. cbn [sxx syy szz sxy sxz syz]. destruct (eig _) as ((x, y), z) eqn:Ee.
    replace (0 / 2) with 0 in Ee by field. apply (eig_perm eig _ _ _ _ x y z EV) with (u := 3 / 2) (v := 1 / 2) (w := 2) in Ee; [|intros t; field]. eexists. eexists. split; [reflexivity|].
    cbn [vmap2]. unfold comp. cbn. rewrite !Rmult_1_r. assert (N : x <> y).
    { intros ->. assert (ND : NoDup [3 / 2; 1 / 2; 2]). { constructor; [|constructor; [|constructor; [intros []|constructor]]]; cbn; [intros [F|[F|[]]]; lra|intros [F|[]]; lra]. }
      apply (Permutation_NoDup (Permutation_sym Ee)) in ND. inversion ND as [|? ? N1 _]; subst. apply N1. left. reflexivity. }
    assert (B : forall v, In v [3 / 2; 1 / 2; 2] -> / 10 ^ 10 <= v) by (intros v I; cbn in I; destruct I as [<-|[<-|[<-|[]]]]; simpl; lra).
    apply sig_distinct; [apply B, (Permutation_in x Ee); left; reflexivity|apply B, (Permutation_in y Ee); right; left; reflexivity|exact N].
Qed.
Print Assumptions C88_axes_refuted.

(** * C89: the smoothing leaves an isolated node the largest *)

(** Every node, but for the last one along an axis with an even number of nodes. *)
Theorem C89_smoothing_keeps_the_peak_partial : forall nx ny nz i j k m, let n := (nx, ny, nz) in
  is_node n (i, j, k) -> (Z.Even nx -> i <> nx - 1)%Z -> (Z.Even ny -> j <> ny - 1)%Z -> (Z.Even nz -> k <> nz - 1)%Z -> spike n (i, j, k) m ->
  exists l, gaufilt3d n (4 / 5) m = Ret l /\ Z.of_nat (length l) = n_nodes n /\ peak_node n l (i, j, k).
Proof.
  intros nx ny nz i j k m n Hp Ex Ey Ez Hs. assert (O : forall c p, (0 <= p < c)%Z -> (Z.Even c -> p <> c - 1)%Z -> off_edge c p).
  { intros c p H E. split; [exact H|]. intros K. apply Z.even_spec in K. specialize (E K). lia. }
  destruct (spike_stays nx ny nz i j k m) as (l & E & L & A); [apply O; [apply Hp|exact Ex]|apply O; [apply Hp|exact Ey]|apply O; [apply Hp|exact Ez]|exact Hs|]. fold n in E, L, A. exists l. split; [exact E|]. split; [exact L|].
  split; [exact Hp|]. split.
  - intros q Hq. assert (q = (i, j, k) \/ q <> (i, j, k)) as [->|N] by (destruct q as ((a, b), d); destruct (Z.eq_dec a i), (Z.eq_dec b j), (Z.eq_dec d k); subst; try (left; reflexivity); right; congruence); [right; reflexivity|].
    left. apply A; assumption.
  - intros q Hq F. apply A; [exact Hq|]. intros ->. lia.
Qed.
Print Assumptions C89_smoothing_keeps_the_peak_partial.
Example C89_ex : spike (3, 3, 1)%Z (2, 0, 0)%Z [0; 0; 0; 0; 0; 0; 5; 0; 0] /\ is_node (3, 3, 1)%Z (2, 0, 0)%Z /\ ~ Z.Even 3 /\ ~ Z.Even 1.
Proof.
  split; [|split; [unfold is_node; lia|split; intros (w & E); lia]]. split; [reflexivity|]. split; [unfold at_node, value; change (0 < 5); lra|]. intros ((i, j), k) (Hi & Hj & Hk) N.
  assert (i = 0 \/ i = 1 \/ i = 2)%Z as Ei by lia. assert (j = 0 \/ j = 1 \/ j = 2)%Z as Ej by lia. assert (k = 0)%Z by lia. subst k.
  destruct Ei as [->|[->| ->]], Ej as [->|[->| ->]]; try (exfalso; apply N; reflexivity); reflexivity.
Qed.

(** With an even number of nodes along an axis the last node loses to the one before it. *)
Theorem C89_even_edge_refuted : exists m l, spike (4, 1, 1)%Z (3, 0, 0)%Z m /\ gaufilt3d (4, 1, 1)%Z (4 / 5) m = Ret l /\ at_node (4, 1, 1)%Z l (3, 0, 0)%Z < at_node (4, 1, 1)%Z l (2, 0, 0)%Z.
Proof.
  assert (S : spike (4, 1, 1)%Z (3, 0, 0)%Z [0; 0; 0; 1]).
  { split; [reflexivity|]. split; [unfold at_node, value; change (0 < 1); lra|]. intros ((i, j), k) (Hi & Hj & Hk) N.
    assert (i = 0 \/ i = 1 \/ i = 2 \/ i = 3)%Z as Ei by lia. assert (j = 0)%Z by lia. assert (k = 0)%Z by lia. subst j k. destruct Ei as [->|[->|[->| ->]]]; try (exfalso; apply N; reflexivity); reflexivity. }
  destruct (spike_moves _ S) as (l & E & A). exists [0; 0; 0; 1], l. split; [exact S|]. split; [exact E|exact A].
Qed.
Print Assumptions C89_even_edge_refuted.

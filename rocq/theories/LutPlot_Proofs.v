(** Lemmas about the map of a lookup table. *)
From Coq Require Import String Ascii.
From Coq Require Import List ZArith QArith Reals Bool Lia Lra.
From Verif Require Import Lib LibFacts Lut_Model Lut_Spec Extent_Model Extent_Spec Extent_Proofs PickPlot_Model Picker_Model EventPlot_Model LutPlot_Model LutPlot_Spec.
Import ListNotations.
Open Scope Z_scope.

Lemma in_mesh x0 x1 y0 y1 s c : In c (mesh x0 x1 y0 y1 s) <-> exists a b, 0 <= a < s_rows s /\ 0 <= b < s_cols s
  /\ c = mk_cell (cell_edge x0 x1 (s_rows s) a) (cell_edge x0 x1 (s_rows s) (a + 1)) (cell_edge y0 y1 (s_cols s) b) (cell_edge y0 y1 (s_cols s) (b + 1)) (s_value s a b).
Proof.
  unfold mesh. rewrite in_flat_map. setoid_rewrite in_map_iff. setoid_rewrite in_zrange. split.
  - intros (a & A & b & E & B). exists a, b. auto.
  - intros (a & b & A & B & ->). exists a. split; [exact A|]. exists b. auto.
Qed.
Lemma edge_mono lo hi n a b : (lo < hi)%R -> 0 < n -> a <= b -> (cell_edge lo hi n a <= cell_edge lo hi n b)%R.
Proof.
  intros L N H. unfold cell_edge. assert (0 < IZR n)%R by (apply IZR_lt; lia). assert (0 < (hi - lo) / IZR n)%R by (apply Rdiv_lt_0_compat; lra).
  apply IZR_le in H. apply Rplus_le_compat_l, Rmult_le_compat_r; lra.
Qed.
Lemma edge_at lo hi n u : (lo < hi)%R -> 0 < n -> (lo <= u < hi)%R -> exists a, 0 <= a < n /\ (cell_edge lo hi n a <= u < cell_edge lo hi n (a + 1))%R.
Proof.
  intros L N U. assert (0 < IZR n)%R by (apply IZR_lt; lia). set (w := ((hi - lo) / IZR n)%R). assert (W : (0 < w)%R) by (apply Rdiv_lt_0_compat; lra).
  set (a := Int_part ((u - lo) / w)). destruct (base_Int_part ((u - lo) / w)) as (B1 & B2). fold a in B1, B2. set (q := ((u - lo) / w)%R) in *.
  assert (Eq : (q * w = u - lo)%R) by (unfold q; field; lra). assert (Ew : (IZR n * w = hi - lo)%R) by (unfold w; field; lra).
  assert (B3 : (q < IZR a + 1)%R) by lra.
  exists a. unfold cell_edge. fold w. rewrite plus_IZR.
  assert (U1 : (IZR a * w <= q * w)%R) by (apply Rmult_le_compat_r; lra). assert (U2 : (q * w < (IZR a + 1) * w)%R) by (apply Rmult_lt_compat_r; lra).
  split; [|split; lra]. split.
  - apply Z.lt_succ_r, lt_IZR. rewrite succ_IZR. apply (Rmult_lt_reg_r w); [exact W|]. lra.
  - apply lt_IZR. apply (Rmult_lt_reg_r w); [exact W|]. lra.
Qed.
Lemma edge_unique lo hi n u a b : (lo < hi)%R -> 0 < n -> (cell_edge lo hi n a <= u < cell_edge lo hi n (a + 1))%R -> (cell_edge lo hi n b <= u < cell_edge lo hi n (b + 1))%R -> a = b.
Proof.
  intros L N A B. destruct (Z.lt_trichotomy a b) as [H|[H|H]]; [|exact H|].
  - pose proof (edge_mono lo hi n (a + 1) b L N ltac:(lia)). lra.
  - pose proof (edge_mono lo hi n (b + 1) a L N ltac:(lia)). lra.
Qed.
(** The cells of a panel cover every point once. *)
Lemma mesh_tiles x0 x1 y0 y1 s u v : (x0 < x1)%R -> (y0 < y1)%R -> 0 < s_rows s -> 0 < s_cols s -> (x0 <= u < x1)%R -> (y0 <= v < y1)%R ->
  exists c, In c (mesh x0 x1 y0 y1 s) /\ covers c u v /\ forall c', In c' (mesh x0 x1 y0 y1 s) -> covers c' u v -> c' = c.
Proof.
  intros X Y R C U V. destruct (edge_at x0 x1 _ u X R U) as (a & A & Ea). destruct (edge_at y0 y1 _ v Y C V) as (b & B & Eb).
  eexists. split; [apply in_mesh; exists a, b; split; [exact A|]; split; [exact B|reflexivity]|]. split; [split; assumption|].
  intros c' I (H1 & H2). apply in_mesh in I. destruct I as (a' & b' & _ & _ & ->). cbn [c_left c_right c_low c_high] in H1, H2.
  rewrite (edge_unique _ _ _ _ _ _ X R H1 Ea), (edge_unique _ _ _ _ _ _ Y C H2 Eb). reflexivity.
Qed.

Definition cells_of (o : option slice) (x0 x1 y0 y1 : R) : list cell := match o with Some s => mesh x0 x1 y0 y1 s | None => [] end.
(** What the plot is. *)
Lemma plot_is transform g stations slices hyp names lo hi : grid_extent transform g true = Ret (lo, hi) -> (forall l, slices = Some l -> (3 <= length l)%nat) ->
  exists mp, lut_plot transform g stations slices hyp names = Ret mp /\ mp_names mp = map (fun s => (st_name s, (st_lon s, st_lat s))) (listed names stations)
  /\ forall k cx cy plane, panel_of k cx cy plane -> exists P o, rd (mp_panels mp) k = Some P /\ o = match slices with Some l => rd l k | None => None end
     /\ p_xlim P = (cx lo, cx hi) /\ p_ylim P = (cy lo, cy hi) /\ p_cross P = option_map (fun h => (cx h, cy h)) hyp /\ p_cells P = cells_of o (cx lo) (cx hi) (cy lo) (cy hi)
     /\ p_points P = map (fun s => let v := (st_lon s, st_lat s, st_elev s) in (cx v, cy v)) (listed names stations).
Proof.
  intros E S. unfold lut_plot. rewrite E. cbn [bind].
  destruct lo as ((lx & ly) & lz), hi as ((hx & hy) & hz). cbn [outcome_map draw_panel axis Z.eqb]. change (0 + 1 - 1) with 0. change (0 + 2 - 1) with 1. change (2 + 1 - 1) with 2.
  destruct slices as [l|].
  - specialize (S l eq_refl). destruct l as [|s0 [|s1 [|s2 rest]]]; cbn [length] in S; try lia. cbn [rd Z.ltb Z.compare Z.to_nat nth_error Pos.to_nat Pos.iter_op Nat.add bind].
    destruct (g_count g) as ((nx & ny) & nz). eexists. split; [reflexivity|]. cbn [mp_names mp_panels]. split; [reflexivity|].
    intros k cx cy plane [(-> & -> & -> & _)|[(-> & -> & -> & _)|(-> & -> & -> & _)]]; eexists; eexists; (split; [reflexivity|]); (split; [reflexivity|]); cbn [p_xlim p_ylim p_cross p_cells p_points longitude latitude depth];
      repeat (split; [reflexivity|]); reflexivity.
  - cbn [bind]. destruct (g_count g) as ((nx & ny) & nz). eexists. split; [reflexivity|]. cbn [mp_names mp_panels]. split; [reflexivity|].
    intros k cx cy plane [(-> & -> & -> & _)|[(-> & -> & -> & _)|(-> & -> & -> & _)]]; eexists; eexists; (split; [reflexivity|]); (split; [reflexivity|]); cbn [p_xlim p_ylim p_cross p_cells p_points longitude latitude depth];
      repeat (split; [reflexivity|]); reflexivity.
Qed.

Lemma edge_width lo hi n i x : ((cell_edge lo hi n i + cell_edge lo hi n (i + 1)) / 2 = x)%R ->
  (cell_edge lo hi n i = x - (hi - lo) / IZR n / 2 /\ cell_edge lo hi n (i + 1) = x + (hi - lo) / IZR n / 2)%R.
Proof.
  intros H. assert (E : (cell_edge lo hi n (i + 1) = cell_edge lo hi n i + (hi - lo) / IZR n)%R) by (unfold cell_edge; rewrite plus_IZR; ring). lra.
Qed.
Lemma axis_grows a b l s n : (0 < a)%R -> (0 < s)%R -> 0 < n -> (a * (l - s / 2) + b < a * (l + (IZR n - / 2) * s) + b)%R.
Proof.
  intros A S N. apply Rplus_lt_compat_r, Rmult_lt_compat_l; [exact A|]. assert (1 <= IZR n)%R by (apply IZR_le; lia).
  assert (1 * s <= IZR n * s)%R by (apply Rmult_le_compat_r; lra). lra.
Qed.
Lemma extent_grows transform g lo hi : grid_ok g -> axes_linear (transform (g_gproj g) (g_cproj g)) -> grid_extent transform g true = Ret (lo, hi) ->
  (longitude lo < longitude hi /\ latitude lo < latitude hi /\ depth lo < depth hi)%R.
Proof.
  rewrite extent_cells. intros Hg (ax & bx & ay & bY & az & bz & (P1 & P2 & P3) & Hf) E.
  assert (E1 : transform (g_gproj g) (g_cproj g) (cell_lo g) = lo) by congruence.
  assert (E2 : transform (g_gproj g) (g_cproj g) (cell_hi g) = hi) by congruence. clear E. subst lo hi. unfold cell_lo, cell_hi, grid_ok in *.
  destruct (g_ll g) as ((l1, l2), l3). destruct (g_spacing g) as ((s1, s2), s3). destruct (g_count g) as ((nx, ny), nz). rewrite !Hf. cbn [longitude latitude depth].
  destruct Hg as ((S1 & S2 & S3) & N1 & N2 & N3). split; [|split]; apply axis_grows; try assumption; lia.
Qed.

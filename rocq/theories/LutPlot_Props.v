(** C115: the map and the cross sections show the map of an event where it is. *)
From Coq Require Import String Ascii.
From Coq Require Import List ZArith QArith Reals Bool Lia Lra.
From Verif Require Import Lib LibFacts Lut_Model Lut_Spec Extent_Model Extent_Spec Extent_Proofs PickPlot_Model Picker_Model EventPlot_Model EventPlot_Props LutPlot_Model LutPlot_Spec LutPlot_Proofs.
Import ListNotations.
Open Scope Z_scope.

(** The hypocentre and the stations: every panel spans the cells of the grid and has the cross of the hypocentre and the points of the listed stations at their coordinates. *)
Theorem C115_points :
  forall transform g stations slices hyp names lo hi, grid_extent transform g true = Ret (lo, hi) -> (forall l, slices = Some l -> (3 <= length l)%nat) ->
  exists mp, lut_plot transform g stations slices hyp names = Ret mp
  /\ (forall k cx cy plane, panel_of k cx cy plane -> exists P, rd (mp_panels mp) k = Some P /\ p_xlim P = (cx lo, cx hi) /\ p_ylim P = (cy lo, cy hi)
      /\ (forall h, hyp = Some h -> p_cross P = Some (cx h, cy h)) /\ (hyp = None -> p_cross P = None)
      /\ forall x y, In (x, y) (p_points P) <-> exists s, In s stations /\ (forall l, names = Some l -> In (st_name s) l) /\ x = cx (st_lon s, st_lat s, st_elev s) /\ y = cy (st_lon s, st_lat s, st_elev s))
  /\ forall n x y, In (n, (x, y)) (mp_names mp) <-> exists s, In s stations /\ (forall l, names = Some l -> In (st_name s) l) /\ n = st_name s /\ x = st_lon s /\ y = st_lat s.
Proof.
  intros transform g stations slices hyp names lo hi E S. destruct (plot_is transform g stations slices hyp names lo hi E S) as (mp & Em & Nm & H). exists mp. split; [exact Em|].
  assert (Li : forall s, In s (listed names stations) <-> In s stations /\ (forall l, names = Some l -> In (st_name s) l)).
  { intros s. unfold listed. destruct names as [l|].
    - rewrite filter_In, existsb_exists. split.
      + intros (I & n & In' & En). apply String.eqb_eq in En. split; [exact I|]. intros l' El. assert (l' = l) by congruence. subst. exact In'.
      + intros (I & F). split; [exact I|]. exists (st_name s). split; [apply F; reflexivity|apply String.eqb_refl].
    - split; [intros I; split; [exact I|discriminate]|tauto]. }
  split.
  - intros k cx cy plane Pk. destruct (H k cx cy plane Pk) as (P & o & Rk & _ & X & Y & Cr & _ & Pt). exists P. split; [exact Rk|]. split; [exact X|]. split; [exact Y|].
    split; [intros h ->; exact Cr|]. split; [intros ->; exact Cr|]. intros x y. rewrite Pt, in_map_iff. split.
    + intros (s & Es & I). apply Li in I. exists s. cbv zeta in Es. split; [apply I|]. split; [apply I|]. split; congruence.
    + intros (s & I & F & -> & ->). exists s. split; [reflexivity|]. apply Li. auto.
  - intros n x y. rewrite Nm, in_map_iff. split.
    + intros (s & Es & I). apply Li in I. exists s. split; [apply I|]. split; [apply I|]. split; [congruence|]. split; congruence.
    + intros (s & I & F & -> & -> & ->). exists s. split; [reflexivity|]. apply Li. auto.
Qed.
Print Assumptions C115_points.

(** Partial: for projections that are linear along each axis. Every panel shows exactly the nodes of its plane through [x], each as the cell about its coordinates with the value of the map; the cells
    cover the panel once. *)
Theorem C115_cells_partial :
  forall transform g stations f x hyp names lo hi, grid_ok g -> axes_linear (transform (g_gproj g) (g_cproj g)) -> is_node (g_count g) x -> grid_extent transform g true = Ret (lo, hi) ->
  exists mp, lut_plot transform g stations (Some (event_slices (g_count g) f x)) hyp names = Ret mp
  /\ forall k cx cy plane, panel_of k cx cy plane -> exists P wx wy, rd (mp_panels mp) k = Some P /\ (0 < wx /\ 0 < wy)%R
     /\ (forall p, is_node (g_count g) p -> plane x p -> exists c, In c (p_cells P) /\ centred c (cx (index2coord transform g p)) (cy (index2coord transform g p)) wx wy /\ c_value c = f p)
     /\ (forall c, In c (p_cells P) -> exists p, is_node (g_count g) p /\ plane x p /\ centred c (cx (index2coord transform g p)) (cy (index2coord transform g p)) wx wy /\ c_value c = f p)
     /\ (forall u v, (cx lo <= u < cx hi)%R -> (cy lo <= v < cy hi)%R -> exists c, In c (p_cells P) /\ covers c u v /\ forall c', In c' (p_cells P) -> covers c' u v -> c' = c).
Proof.
  intros transform g stations f x hyp names lo hi Hg Ht Nx E.
  destruct (plot_is transform g stations (Some (event_slices (g_count g) f x)) hyp names lo hi E) as (mp & Em & _ & H).
  { intros l El. assert (l = event_slices (g_count g) f x) as -> by congruence. destruct (g_count g) as ((nx & ny) & nz), x as ((i & j) & k). cbn. lia. }
  exists mp. split; [exact Em|]. pose proof (extent_grows transform g lo hi Hg Ht E) as (G1 & G2 & G3).
  pose proof (fun p => cells_drawn transform g lo hi p Hg Ht E) as D. unfold grid_ok in Hg. destruct (g_spacing g) as ((s1 & s2) & s3).
  destruct (g_count g) as ((nx & ny) & nz) eqn:Ec. destruct Hg as (_ & N1 & N2 & N3). destruct x as ((i0 & j0) & k0). destruct Nx as (X1 & X2 & X3).
  assert (W : forall a b n, (a < b)%R -> 0 < n -> (0 < (b - a) / IZR n)%R) by (intros a b n L N; apply IZR_lt in N; apply Rdiv_lt_0_compat; lra).
  intros k cx cy plane Pk. destruct (H k cx cy plane Pk) as (P & o & Rk & Eo & X & Y & Cr & Cl & Pt). clear H X Y Cr Pt. exists P.
  destruct Pk as [(-> & -> & -> & ->)|[(-> & -> & -> & ->)|(-> & -> & -> & ->)]]; cbn in Eo; subst o; cbn [cells_of] in Cl; rewrite Cl; [set (s := mk_slice _ _ _)..].
  - exists ((longitude hi - longitude lo) / IZR nx)%R, ((latitude hi - latitude lo) / IZR ny)%R. split; [exact Rk|]. split; [split; apply W; assumption || lia|].
    assert (Cc : forall a b, centred (mk_cell (cell_edge (longitude lo) (longitude hi) nx a) (cell_edge (longitude lo) (longitude hi) nx (a + 1)) (cell_edge (latitude lo) (latitude hi) ny b) (cell_edge (latitude lo) (latitude hi) ny (b + 1)) (f (a, b, k0)))
        (longitude (index2coord transform g (a, b, k0))) (latitude (index2coord transform g (a, b, k0))) ((longitude hi - longitude lo) / IZR nx) ((latitude hi - latitude lo) / IZR ny)).
    { intros a b. destruct (D (a, b, k0)) as (D1 & D2 & _). apply edge_width in D1, D2. split; [apply D1|]. split; [apply D1|]. split; [apply D2|apply D2]. }
    split; [|split].
    + intros ((i & j) & kk) (I1 & I2 & I3) Pl. cbn in Pl. subst kk. eexists. split; [apply in_mesh; exists i, j; split; [exact I1|]; split; [exact I2|reflexivity]|]. split; [apply Cc|reflexivity].
    + intros c I. apply in_mesh in I. destruct I as (a & b & A & B & ->). exists (a, b, k0). split; [split; [exact A|]; split; [exact B|exact X3]|]. split; [reflexivity|]. split; [apply Cc|reflexivity].
    + intros u v U V. apply mesh_tiles; try assumption; cbn; lia.
  - exists ((longitude hi - longitude lo) / IZR nx)%R, ((depth hi - depth lo) / IZR nz)%R. split; [exact Rk|]. split; [split; apply W; assumption || lia|].
    assert (Cc : forall a b, centred (mk_cell (cell_edge (longitude lo) (longitude hi) nx a) (cell_edge (longitude lo) (longitude hi) nx (a + 1)) (cell_edge (depth lo) (depth hi) nz b) (cell_edge (depth lo) (depth hi) nz (b + 1)) (f (a, j0, b)))
        (longitude (index2coord transform g (a, j0, b))) (depth (index2coord transform g (a, j0, b))) ((longitude hi - longitude lo) / IZR nx) ((depth hi - depth lo) / IZR nz)).
    { intros a b. destruct (D (a, j0, b)) as (D1 & _ & D2). apply edge_width in D1, D2. split; [apply D1|]. split; [apply D1|]. split; [apply D2|apply D2]. }
    split; [|split].
    + intros ((i & j) & kk) (I1 & I2 & I3) Pl. cbn in Pl. subst j. eexists. split; [apply in_mesh; exists i, kk; split; [exact I1|]; split; [exact I3|reflexivity]|]. split; [apply Cc|reflexivity].
    + intros c I. apply in_mesh in I. destruct I as (a & b & A & B & ->). exists (a, j0, b). split; [split; [exact A|]; split; [exact X2|exact B]|]. split; [reflexivity|]. split; [apply Cc|reflexivity].
    + intros u v U V. apply mesh_tiles; try assumption; cbn; lia.
  - exists ((depth hi - depth lo) / IZR nz)%R, ((latitude hi - latitude lo) / IZR ny)%R. split; [exact Rk|]. split; [split; apply W; assumption || lia|].
    assert (Cc : forall a b, centred (mk_cell (cell_edge (depth lo) (depth hi) nz a) (cell_edge (depth lo) (depth hi) nz (a + 1)) (cell_edge (latitude lo) (latitude hi) ny b) (cell_edge (latitude lo) (latitude hi) ny (b + 1)) (f (i0, b, a)))
        (depth (index2coord transform g (i0, b, a))) (latitude (index2coord transform g (i0, b, a))) ((depth hi - depth lo) / IZR nz) ((latitude hi - latitude lo) / IZR ny)).
    { intros a b. destruct (D (i0, b, a)) as (_ & D2 & D1). apply edge_width in D1, D2. split; [apply D1|]. split; [apply D1|]. split; [apply D2|apply D2]. }
    split; [|split].
    + intros ((i & j) & kk) (I1 & I2 & I3) Pl. cbn in Pl. subst i. eexists. split; [apply in_mesh; exists kk, j; split; [exact I3|]; split; [exact I2|reflexivity]|]. split; [apply Cc|reflexivity].
    + intros c I. apply in_mesh in I. destruct I as (a & b & A & B & ->). exists (i0, b, a). split; [split; [exact X1|]; split; [exact B|exact A]|]. split; [reflexivity|]. split; [apply Cc|reflexivity].
    + intros u v U V. apply mesh_tiles; try assumption; cbn; lia.
Qed.
Print Assumptions C115_cells_partial.

(** Partial: so in the summary of an event the brightest cell of every panel is about the node with the largest value of the map. *)
Theorem C115_event_partial :
  forall transform g stations f x hyp names, grid_ok g -> axes_linear (transform (g_gproj g) (g_cproj g)) -> idx_max (g_count g) f = Ret x ->
  exists mp m, lut_plot transform g stations (Some (event_slices (g_count g) f x)) (Some hyp) names = Ret mp /\ f x = Some m /\ (forall y v, is_node (g_count g) y -> f y = Some v -> (v <= m)%Q)
  /\ forall k cx cy plane, panel_of k cx cy plane -> exists P c, rd (mp_panels mp) k = Some P /\ p_cross P = Some (cx hyp, cy hyp) /\ In c (p_cells P)
     /\ covers c (cx (index2coord transform g x)) (cy (index2coord transform g x)) /\ c_value c = Some m /\ (forall c' v, In c' (p_cells P) -> c_value c' = Some v -> (v <= m)%Q).
Proof.
  intros transform g stations f x hyp names Hg Ht Ex. destruct (C114_slices (g_count g) f) as (S & _). destruct (S x Ex) as (m & Nx & Fx & Mx & _).
  pose proof (extent_cells transform g) as E. destruct (C115_cells_partial transform g stations f x (Some hyp) names _ _ Hg Ht Nx E) as (mp & Em & H).
  destruct (C115_points transform g stations (Some (event_slices (g_count g) f x)) (Some hyp) names _ _ E) as (mp' & Em' & H' & _).
  { intros l El. assert (l = event_slices (g_count g) f x) as -> by congruence. destruct (g_count g) as ((nx & ny) & nz), x as ((i & j) & k). cbn. lia. }
  assert (mp' = mp) by congruence. subst mp'. exists mp, m. split; [exact Em|]. split; [exact Fx|]. split; [intros y v Y Fy; apply (Mx y v Y Fy)|].
  intros k cx cy plane Pk. destruct (H k cx cy plane Pk) as (P & wx & wy & Rk & (W1 & W2) & C1 & C2 & _). destruct (H' k cx cy plane Pk) as (P' & Rk' & _ & _ & Cr & _).
  assert (P' = P) by congruence. subst P'. assert (Px : plane x x) by (destruct Pk as [(_ & _ & _ & ->)|[(_ & _ & _ & ->)|(_ & _ & _ & ->)]]; reflexivity).
  destruct (C1 x Nx Px) as (c & I & (Q1 & Q2 & Q3 & Q4) & V). exists P, c. split; [exact Rk|]. split; [apply Cr; reflexivity|]. split; [exact I|]. split; [unfold covers; lra|]. split; [congruence|].
  intros c' v I' V'. destruct (C2 c' I') as (p & Np & _ & _ & Vp). apply (Mx p v Np). congruence.
Qed.
Print Assumptions C115_event_partial.

(** Partial: for projections linear along each axis the scale bar has the length written next to it, and a square of the grid is a square on the map (a unit of y is [aspect] times as long as one of x). *)
Theorem C115_scale_partial :
  forall transform g stations slices hyp names mp, grid_ok g -> axes_linear (transform (g_gproj g) (g_cproj g)) -> lut_plot transform g stations slices hyp names = Ret mp ->
  let T := transform (g_gproj g) (g_cproj g) in let '(nx, ny, nz) := g_count g in let '(sx, sy, sz) := g_spacing g in
  (exists k, 0 < k /\ nx <= 10 * k < nx + 10 /\ fst (mp_bar mp) = (IZR k * sx)%R)
  /\ (forall x y z, longitude (T (x + fst (mp_bar mp), y, z)) - longitude (T (x, y, z)) = snd (mp_bar mp))%R
  /\ (forall x y z d, longitude (T (x + d, y, z)) - longitude (T (x, y, z)) = mp_aspect mp * (latitude (T (x, y + d, z)) - latitude (T (x, y, z))))%R.
Proof.
  intros transform g stations slices hyp names mp Hg (ax & bx & ay & bY & az & bz & (P1 & P2 & P3) & Hf) E T. fold T in Hf. unfold lut_plot in E. rewrite extent_cells in E. fold T in E. cbn [bind] in E.
  set (lo := T (cell_lo g)) in E. set (hi := T (cell_hi g)) in E.
  assert (Elo : lo = T (cell_lo g)) by reflexivity. assert (Ehi : hi = T (cell_hi g)) by reflexivity. clearbody lo hi. unfold grid_ok, cell_lo, cell_hi in *.
  destruct (outcome_map _ _) as [panels|e|]; cbn [bind] in E; [|discriminate|discriminate].
  destruct (g_ll g) as ((l1, l2), l3). destruct (g_spacing g) as ((s1, s2), s3). destruct (g_count g) as ((nx, ny), nz). rewrite Hf in Elo, Ehi. destruct Hg as ((S1 & S2 & S3) & N1 & N2 & N3).
  assert (N1' : (1 <= IZR nx)%R) by (apply IZR_le; lia). assert (N2' : (1 <= IZR ny)%R) by (apply IZR_le; lia).
  assert (X0 : (Rabs (ax * (l1 + (IZR nx - / 2) * s1) + bx - (ax * (l1 - s1 / 2) + bx)) = ax * (IZR nx * s1))%R).
  { replace (ax * (l1 + (IZR nx - / 2) * s1) + bx - (ax * (l1 - s1 / 2) + bx))%R with (ax * (IZR nx * s1))%R by lra. apply Rabs_pos_eq. apply Rmult_le_pos; [lra|apply Rmult_le_pos; lra]. }
  assert (X1 : (Rabs (ay * (l2 + (IZR ny - / 2) * s2) + bY - (ay * (l2 - s2 / 2) + bY)) = ay * (IZR ny * s2))%R).
  { replace (ay * (l2 + (IZR ny - / 2) * s2) + bY - (ay * (l2 - s2 / 2) + bY))%R with (ay * (IZR ny * s2))%R by lra. apply Rabs_pos_eq. apply Rmult_le_pos; [lra|apply Rmult_le_pos; lra]. }
  subst lo hi. cbn [vmap2 axis Z.eqb] in E. rewrite X0, X1 in E. set (k := - (- nx / 10)) in E.
  assert (Em : fst (mp_bar mp) = (IZR k * s1)%R /\ snd (mp_bar mp) = (ax * (IZR nx * s1) * (IZR k * s1) / (s1 * IZR nx))%R
     /\ mp_aspect mp = (ax * (IZR nx * s1) * (s2 * IZR ny) / (ay * (IZR ny * s2) * (s1 * IZR nx)))%R).
  { injection E as <-. auto. }
  destruct Em as (-> & -> & ->). pose proof (Z.div_mod (- nx) 10 ltac:(lia)). pose proof (Z.mod_pos_bound (- nx) 10 ltac:(lia)). split; [|split].
  - exists k. split; [unfold k; lia|]. split; [unfold k; lia|reflexivity].
  - intros x y z. rewrite !Hf. cbn [longitude]. field. split; lra.
  - intros x y z d. rewrite !Hf. cbn [longitude latitude]. field. repeat split; lra.
Qed.
Print Assumptions C115_scale_partial.

(** Degrees and kilometres: 20 by 10 by 5 nodes, 2 km apart. *)
Definition deg (a b : Z) (v : vec) : vec := let '(x, y, z) := v in if a =? 0 then (/ 65 * x + -17, / 111 * y + 65, 1 * z + 0)%R else ((x - -17) * 65, (y - 65) * 111, z)%R.
Definition g20 : grid := mk_grid (0, 0, -1)%R (2, 2, 2)%R (20, 10, 5) 0 1.
Example C115_example : grid_ok g20 /\ axes_linear (deg (g_gproj g20) (g_cproj g20)) /\ is_node (g_count g20) (7, 3, 2)
  /\ exists mp, lut_plot deg g20 [mk_station "A" (-17) 65 0; mk_station "B" (-16) 65 0]%R (Some (event_slices (g_count g20) (fun p => let '(i, j, k) := p in Some (inject_Z (i * j + k))) (7, 3, 2))) None (Some ["B"%string]) = Ret mp
     /\ map fst (mp_names mp) = ["B"%string] /\ map (fun P => length (p_cells P)) (mp_panels mp) = [200; 100; 50]%nat.
Proof.
  split; [cbn; split; [lra|lia]|]. split; [exists (/ 65)%R, (-17)%R, (/ 111)%R, 65%R, 1%R, 0%R; split; [lra|intros; reflexivity]|]. split; [cbn; lia|].
  pose proof (extent_cells deg g20) as E. destruct (plot_is deg g20 [mk_station "A" (-17) 65 0; mk_station "B" (-16) 65 0]%R (Some (event_slices (g_count g20) (fun p => let '(i, j, k) := p in Some (inject_Z (i * j + k))) (7, 3, 2))) None (Some ["B"%string]) _ _ E) as (mp & Em & Nm & H).
  { intros l El. injection El as <-. cbn. lia. }
  exists mp. split; [exact Em|]. split; [rewrite Nm; reflexivity|]. unfold lut_plot in Em. rewrite E in Em. cbn [bind] in Em. injection Em as <-. vm_compute. reflexivity.
Qed.

(** Refuted: where a line of the grid is not a line of equal longitude (here longitude = x + y) the value of a node may be drawn where the node is not. *)
Theorem C115_cells_refuted :
  exists transform g f x p mp, grid_ok g /\ (forall v w, transform (g_gproj g) (g_cproj g) v = transform (g_gproj g) (g_cproj g) w -> v = w)
  /\ is_node (g_count g) x /\ is_node (g_count g) p /\ snd p = snd x /\ lut_plot transform g [] (Some (event_slices (g_count g) f x)) None None = Ret mp
  /\ exists P, rd (mp_panels mp) 0 = Some P /\ p_cells P <> [] /\ forall c, In c (p_cells P) -> c_value c = f p -> ~ covers c (longitude (index2coord transform g p)) (latitude (index2coord transform g p)).
Proof.
  set (t := fun (_ _ : Z) (v : vec) => let '(x, y, z) := v in (x + y, y, z)%R).
  exists t, (mk_grid (0, 0, 0)%R (1, 1, 1)%R (2, 2, 1) 0 1), (fun p => let '(i, j, k) := p in Some (inject_Z (2 * i + j))), (0, 0, 0), (0, 1, 0).
  set (g := mk_grid _ _ _ _ _). pose proof (extent_cells t g) as E.
  destruct (plot_is t g [] (Some (event_slices (g_count g) (fun p => let '(i, j, k) := p in Some (inject_Z (2 * i + j))) (0, 0, 0))) None None _ _ E) as (mp & Em & _ & H).
  { intros l El. injection El as <-. cbn. lia. }
  exists mp. split; [cbn; split; [lra|lia]|]. split.
  { intros ((x & y) & z) ((x' & y') & z') Et. unfold t in Et. injection Et as E1 E2 E3. subst y' z'. f_equal. f_equal. lra. }
  split; [cbn; lia|]. split; [cbn; lia|]. split; [reflexivity|]. split; [exact Em|].
  destruct (H 0 longitude latitude (fun x p => snd p = snd x)) as (P & o & Rk & Eo & _ & _ & _ & Cl & _); [left; auto|]. exists P. split; [exact Rk|]. cbn in Eo. subst o. cbn [cells_of] in Cl. rewrite Cl.
  split.
  - intros N. apply (f_equal (@length _)) in N. vm_compute in N. discriminate N.
  - intros c I V (Cx & _). apply in_mesh in I. destruct I as (a & b & A & B & ->). cbn [s_rows s_cols] in A, B. cbn [c_value s_value] in V.
    assert (a = 0 /\ b = 1) as (-> & ->). { assert (a = 0 \/ a = 1) as [->| ->] by lia; assert (b = 0 \/ b = 1) as [->| ->] by lia; try discriminate V. auto. }
    cbn [c_left c_right s_rows] in Cx. unfold cell_edge, index2coord, coord2grid, node2grid, cell_lo, cell_hi, t, g in Cx. cbn in Cx. lra.
Qed.
Print Assumptions C115_cells_refuted.

(** C100: extents contain the grid and the network. *)
From Coq Require Import String Ascii.
From Coq Require Import List ZArith Reals Bool Lia Lra.
From Verif Require Import Lib Lut_Model Lut_Spec Extent_Model Extent_Spec Extent_Proofs.
Import ListNotations.
Open Scope Z_scope.

(** PARTIAL. The extent of the grid contains every node and is spanned by two nodes, for
    projections that act on each axis separately. Missing: other projections, see
    [C100_extent_refuted]. *)
Theorem C100_nodes_in_extent_partial :
  forall transform g, grid_ok g -> axes_increase (transform (g_gproj g) (g_cproj g)) ->
    exists lo hi, grid_extent transform g false = Ret (lo, hi)
      /\ (forall p, is_node (g_count g) p -> within lo hi (index2coord transform g p))
      /\ (exists p, is_node (g_count g) p /\ index2coord transform g p = lo)
      /\ (exists p, is_node (g_count g) p /\ index2coord transform g p = hi).
Proof.
  intros transform g Hg Ht. rewrite extent_nodes. do 2 eexists. split; [reflexivity|].
  split; [intros p; apply nodes_in_extent; [exact Hg|exact Ht|apply extent_nodes]|].
  unfold grid_ok in Hg. split; eexists; (split; [|reflexivity]); unfold far, is_node;
    destruct (g_spacing g) as ((s1, s2), s3); destruct (g_count g) as ((nx, ny), nz); lia.
Qed.
Print Assumptions C100_nodes_in_extent_partial.

(** PARTIAL. The extent of the cells contains the cell around every node. *)
Theorem C100_cells_in_extent_partial :
  forall transform g, grid_ok g -> axes_increase (transform (g_gproj g) (g_cproj g)) ->
    exists lo hi, grid_extent transform g true = Ret (lo, hi)
      /\ (forall p v, is_node (g_count g) p -> in_cell g p v ->
            within lo hi (transform (g_gproj g) (g_cproj g) v))
      /\ (exists p v, is_node (g_count g) p /\ in_cell g p v /\ transform (g_gproj g) (g_cproj g) v = lo)
      /\ (exists p v, is_node (g_count g) p /\ in_cell g p v /\ transform (g_gproj g) (g_cproj g) v = hi).
Proof.
  intros transform g Hg Ht. rewrite extent_cells. do 2 eexists. split; [reflexivity|].
  split; [intros p v; apply cells_in_extent; [exact Hg|exact Ht|apply extent_cells]|].
  unfold grid_ok in Hg. split.
  - exists (0, 0, 0), (cell_lo g). split; [|split; [|reflexivity]]; unfold is_node, in_cell, cell_lo;
      destruct (g_ll g) as ((l1, l2), l3), (g_spacing g) as ((s1, s2), s3), (g_count g) as ((nx, ny), nz); [lia|].
    cbn [each3]. repeat split; lra.
  - exists (far (g_count g)), (cell_hi g). split; [|split; [|reflexivity]]; unfold is_node, in_cell, cell_hi, far;
      destruct (g_ll g) as ((l1, l2), l3), (g_spacing g) as ((s1, s2), s3), (g_count g) as ((nx, ny), nz); [lia|].
    cbn [each3]. rewrite !minus_IZR. repeat split; lra.
Qed.
Print Assumptions C100_cells_in_extent_partial.

(** The extent of the network is the smallest box that contains every station. *)
Theorem C100_station_extent :
  forall stations lo hi, station_extent stations = Ret (lo, hi) ->
    (forall s, In s stations -> within lo hi s)
    /\ (forall c, c = longitude \/ c = latitude \/ c = depth ->
          (exists s, In s stations /\ c s = c lo) /\ (exists s, In s stations /\ c s = c hi)).
Proof. exact station_extent_ok. Qed.
Print Assumptions C100_station_extent.

(** PARTIAL. The maximum extent, without its margin of 5% of that box (1/22 of the whole) on each side,
    contains every station and the cell of every node. *)
Theorem C100_max_extent_partial :
  forall transform g stations lo hi, grid_ok g -> axes_increase (transform (g_gproj g) (g_cproj g)) ->
    max_extent transform g stations = Ret (lo, hi) ->
    let '(lo', hi') := shrunk lo hi in
    (forall s, In s stations -> within lo' hi' s)
    /\ (forall p v, is_node (g_count g) p -> in_cell g p v -> within lo' hi' (transform (g_gproj g) (g_cproj g) v)).
Proof.
  intros transform g stations lo hi Hg Ht E.
  destruct (max_extent_ok _ _ _ _ _ E) as (slo & shi & glo & ghi & Es & Eg & ->). split.
  - intros s Hs. apply within_wider. left. exact (proj1 (station_extent_ok _ _ _ Es) s Hs).
  - intros p v Hp Hv. apply within_wider. right. exact (cells_in_extent _ _ _ _ _ _ Hg Ht Eg Hp Hv).
Qed.
Print Assumptions C100_max_extent_partial.

(** PARTIAL. Each node of a slice is drawn as a cell centred on the coordinates of the node, for
    projections that are linear along each axis. *)
Theorem C100_cells_drawn_partial :
  forall transform g lo hi p, grid_ok g -> axes_linear (transform (g_gproj g) (g_cproj g)) ->
    grid_extent transform g true = Ret (lo, hi) ->
    let v := index2coord transform g p in
    let '(nx, ny, nz) := g_count g in let '(i, j, k) := p in
    ((cell_edge (longitude lo) (longitude hi) nx i + cell_edge (longitude lo) (longitude hi) nx (i + 1)) / 2 = longitude v
    /\ (cell_edge (latitude lo) (latitude hi) ny j + cell_edge (latitude lo) (latitude hi) ny (j + 1)) / 2 = latitude v
    /\ (cell_edge (depth lo) (depth hi) nz k + cell_edge (depth lo) (depth hi) nz (k + 1)) / 2 = depth v)%R.
Proof. exact cells_drawn. Qed.
Print Assumptions C100_cells_drawn_partial.

(** PARTIAL. The summary prints the coordinates of the first and the last node with their depths.
    Missing: latitude and longitude, see [C100_summary_refuted]. *)
Theorem C100_summary_partial :
  forall transform g, grid_ok g -> exists a b p q, summary transform g = Ret (a, b)
    /\ is_node (g_count g) p /\ is_node (g_count g) q
    /\ p_dep a = depth (index2coord transform g p) /\ p_dep b = depth (index2coord transform g q)
    /\ (forall r, is_node (g_count g) r ->
          let '(i, j, k) := r in let '(i1, j1, k1) := p in let '(i2, j2, k2) := q in
          i1 <= i <= i2 /\ j1 <= j <= j2 /\ k1 <= k <= k2).
Proof.
  intros transform g Hg. rewrite summary_corners. cbn zeta. do 2 eexists. exists (0, 0, 0), (far (g_count g)).
  split; [reflexivity|]. cbn [p_dep]. unfold grid_ok in Hg. unfold is_node, far.
  destruct (g_spacing g) as ((s1, s2), s3); destruct (g_count g) as ((nx, ny), nz).
  split; [lia|]. split; [lia|]. split; [reflexivity|]. split; [reflexivity|]. intros ((i, j), k). lia.
Qed.
Print Assumptions C100_summary_partial.

(** REFUTED: the summary prints the latitudes of the corners as degrees north and the longitudes as
    degrees east. They are exchanged, for every grid. *)
Theorem C100_summary_refuted :
  (forall transform g a b, summary transform g = Ret (a, b) ->
     p_lat a = longitude (index2coord transform g (0, 0, 0)) /\ p_lon a = latitude (index2coord transform g (0, 0, 0)))
  /\ exists transform g a b, grid_ok g /\ axes_linear (transform (g_gproj g) (g_cproj g))
       /\ summary transform g = Ret (a, b) /\ p_lat a <> latitude (index2coord transform g (0, 0, 0)).
Proof.
  split.
  - intros transform g a b. rewrite summary_corners. cbn zeta. intros E.
    assert (a = mk_line (longitude (index2coord transform g (0, 0, 0))) (latitude (index2coord transform g (0, 0, 0)))
      (depth (index2coord transform g (0, 0, 0)))) as -> by congruence. split; reflexivity.
  - exists (fun _ _ v => v), (mk_grid (-17, 64, 0)%R (1, 1, 1)%R (2, 2, 2) 0 1).
    do 2 eexists. split; [cbn; split; [lra|lia]|]. split.
    { exists 1%R, 0%R, 1%R, 0%R, 1%R, 0%R. split; [lra|]. intros. repeat f_equal; lra. }
    split; [reflexivity|]. cbn. lra.
Qed.
Print Assumptions C100_summary_refuted.

(** REFUTED: the extent contains every node. It is that of two opposite corners only; where the axes of
    the grid do not run along the axes of the coordinates (here: turned by 45 degrees), nodes lie
    outside. *)
Definition turn : vec -> vec := fun v => let '(x, y, z) := v in (x + y, y - x, z)%R.
Theorem C100_extent_refuted :
  exists transform g lo hi p, grid_ok g
    /\ (forall v w, transform (g_gproj g) (g_cproj g) v = transform (g_gproj g) (g_cproj g) w -> v = w)
    /\ grid_extent transform g false = Ret (lo, hi) /\ is_node (g_count g) p
    /\ ~ within lo hi (index2coord transform g p).
Proof.
  exists (fun _ _ => turn), (mk_grid (0, 0, 0)%R (1, 1, 1)%R (2, 2, 1) 0 1).
  do 2 eexists. exists (0, 1, 0). split; [cbn; split; [lra|lia]|]. split.
  { intros ((x, y), z) ((x', y'), z') E. unfold turn in E. injection E as E1 E2 E3.
    replace x' with x by lra. replace y' with y by lra. replace z' with z by lra. reflexivity. }
  split; [reflexivity|]. split; [cbn; lia|]. unfold within. cbn. lra.
Qed.
Print Assumptions C100_extent_refuted.

Example C100_applies : exists g lo hi, grid_ok g /\ axes_linear ((fun _ _ v => v) (g_gproj g) (g_cproj g))
  /\ axes_increase ((fun _ _ v => v) (g_gproj g) (g_cproj g))
  /\ max_extent (fun _ _ v => v) g [(1, 1, 0)%R; (12, 4, - 1)%R] = Ret (lo, hi).
Proof.
  exists (mk_grid (0, 0, 0)%R (1, 1, 1)%R (3, 3, 3) 0 1). do 2 eexists.
  split; [cbn; split; [lra|lia]|]. split.
  { exists 1%R, 0%R, 1%R, 0%R, 1%R, 0%R. split; [lra|]. intros. repeat f_equal; lra. }
  split. { exists (fun x => x), (fun x => x), (fun x => x). repeat split; intros; assumption. }
  reflexivity.
Qed.

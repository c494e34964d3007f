(** Proofs about extents. *)
From Coq Require Import String Ascii.
From Coq Require Import List ZArith Reals Bool Lia Lra.
From Verif Require Import Lib LibFacts Lut_Model Lut_Spec Extent_Model Extent_Spec.
Import ListNotations.
Open Scope Z_scope.

Definition far (n : ijk) : ijk := let '(nx, ny, nz) := n in (nx - 1, ny - 1, nz - 1).

Lemma corners_ends g : first_vec (grid_corners g) = Ret (node2grid g (0, 0, 0))
  /\ last_vec (grid_corners g) = Ret (node2grid g (far (g_count g))).
Proof. unfold grid_corners. destruct (g_count g) as ((nx, ny), nz). split; reflexivity. Qed.

Lemma extent_nodes transform g : grid_extent transform g false =
  Ret (index2coord transform g (0, 0, 0), index2coord transform g (far (g_count g))).
Proof. unfold grid_extent. destruct (corners_ends g) as (-> & ->). reflexivity. Qed.

Lemma summary_corners transform g : summary transform g =
  let line n := let v := index2coord transform g n in mk_line (longitude v) (latitude v) (depth v) in
  Ret (line (0, 0, 0), line (far (g_count g))).
Proof.
  unfold summary, grid_corners. destruct (g_count g) as ((nx, ny), nz).
  cbn [flat_map map app first_vec last_vec rev bind far]. unfold last_vec. cbn [rev app first_vec bind].
  unfold index2coord.
  destruct (coord2grid transform (g_gproj g) (g_cproj g) true (node2grid g (0, 0, 0))) as ((a, b), c).
  destruct (coord2grid transform (g_gproj g) (g_cproj g) true (node2grid g (nx - 1, ny - 1, nz - 1))) as ((a', b'), c').
  reflexivity.
Qed.

(** Cell extents in grid coordinates, one axis. *)
Definition cell_lo (g : grid) : vec :=
  let '(l1, l2, l3) := g_ll g in let '(s1, s2, s3) := g_spacing g in (l1 - s1 / 2, l2 - s2 / 2, l3 - s3 / 2)%R.
Definition cell_hi (g : grid) : vec :=
  let '(l1, l2, l3) := g_ll g in let '(s1, s2, s3) := g_spacing g in let '(nx, ny, nz) := g_count g in
  (l1 + (IZR nx - / 2) * s1, l2 + (IZR ny - / 2) * s2, l3 + (IZR nz - / 2) * s3)%R.

Lemma extent_cells transform g : grid_extent transform g true =
  Ret (transform (g_gproj g) (g_cproj g) (cell_lo g), transform (g_gproj g) (g_cproj g) (cell_hi g)).
Proof.
  unfold grid_extent. destruct (corners_ends g) as (-> & ->). cbn [bind]. unfold coord2grid, cell_lo, cell_hi, node2grid, far.
  destruct (g_ll g) as ((l1, l2), l3). destruct (g_spacing g) as ((s1, s2), s3). destruct (g_count g) as ((nx, ny), nz).
  cbn [vmap2]. rewrite !minus_IZR.
  replace (l1 + 0 * s1 - s1 / 2)%R with (l1 - s1 / 2)%R by lra.
  replace (l2 + 0 * s2 - s2 / 2)%R with (l2 - s2 / 2)%R by lra.
  replace (l3 + 0 * s3 - s3 / 2)%R with (l3 - s3 / 2)%R by lra.
  replace (l1 + (IZR nx - 1) * s1 + s1 / 2)%R with (l1 + (IZR nx - / 2) * s1)%R by lra.
  replace (l2 + (IZR ny - 1) * s2 + s2 / 2)%R with (l2 + (IZR ny - / 2) * s2)%R by lra.
  replace (l3 + (IZR nz - 1) * s3 + s3 / 2)%R with (l3 + (IZR nz - / 2) * s3)%R by lra.
  reflexivity.
Qed.

Lemma axis_in (l s : R) (i n : Z) : (0 < s)%R -> 0 <= i < n -> (l + 0 * s <= l + IZR i * s <= l + IZR (n - 1) * s)%R.
Proof.
  intros Hs (H1 & H2). assert (A : (0 <= IZR i)%R) by (apply IZR_le; lia).
  assert (B : (IZR i <= IZR (n - 1))%R) by (apply IZR_le; lia).
  pose proof (Rmult_le_compat_r s _ _ (Rlt_le _ _ Hs) A). pose proof (Rmult_le_compat_r s _ _ (Rlt_le _ _ Hs) B). lra.
Qed.

Lemma nodes_in_extent transform g lo hi p : grid_ok g -> axes_increase (transform (g_gproj g) (g_cproj g)) ->
  grid_extent transform g false = Ret (lo, hi) -> is_node (g_count g) p -> within lo hi (index2coord transform g p).
Proof.
  rewrite extent_nodes. intros Hg (fx & fy & fz & Hf & Mx & My & Mz) E Hp.
  assert (E1 : index2coord transform g (0, 0, 0) = lo) by congruence.
  assert (E2 : index2coord transform g (far (g_count g)) = hi) by congruence. clear E. subst lo hi.
  unfold index2coord, coord2grid, node2grid, grid_ok, far, is_node in *.
  destruct (g_ll g) as ((l1, l2), l3). destruct (g_spacing g) as ((s1, s2), s3). destruct (g_count g) as ((nx, ny), nz).
  destruct p as ((i, j), k). cbn [vmap2]. rewrite !Hf. unfold within. cbn [longitude latitude depth].
  destruct Hg as ((S1 & S2 & S3) & _). destruct Hp as (P1 & P2 & P3).
  destruct (axis_in l1 s1 i nx S1 P1). destruct (axis_in l2 s2 j ny S2 P2). destruct (axis_in l3 s3 k nz S3 P3).
  repeat split; first [apply Mx | apply My | apply Mz]; assumption.
Qed.

Lemma axis_cell (l s x : R) (i n : Z) : (0 < s)%R -> 0 <= i < n ->
  (l + (IZR i - / 2) * s <= x <= l + (IZR i + / 2) * s)%R -> (l - s / 2 <= x <= l + (IZR n - / 2) * s)%R.
Proof.
  intros Hs (H1 & H2) Hx. assert (A : (0 <= IZR i)%R) by (apply IZR_le; lia).
  assert (B : (IZR i + 1 <= IZR n)%R) by (rewrite <- plus_IZR; apply IZR_le; lia).
  pose proof (Rmult_le_compat_r s _ _ (Rlt_le _ _ Hs) A). pose proof (Rmult_le_compat_r s _ _ (Rlt_le _ _ Hs) B). lra.
Qed.

Lemma cells_in_extent transform g lo hi p v : grid_ok g -> axes_increase (transform (g_gproj g) (g_cproj g)) ->
  grid_extent transform g true = Ret (lo, hi) -> is_node (g_count g) p -> in_cell g p v ->
  within lo hi (transform (g_gproj g) (g_cproj g) v).
Proof.
  rewrite extent_cells. intros Hg (fx & fy & fz & Hf & Mx & My & Mz) E Hp Hv.
  assert (E1 : transform (g_gproj g) (g_cproj g) (cell_lo g) = lo) by congruence.
  assert (E2 : transform (g_gproj g) (g_cproj g) (cell_hi g) = hi) by congruence. clear E. subst lo hi.
  unfold cell_lo, cell_hi, grid_ok, in_cell, is_node in *.
  destruct (g_ll g) as ((l1, l2), l3). destruct (g_spacing g) as ((s1, s2), s3). destruct (g_count g) as ((nx, ny), nz).
  destruct p as ((i, j), k). destruct v as ((x, y), z). rewrite !Hf. unfold within. cbn [longitude latitude depth].
  destruct Hg as ((S1 & S2 & S3) & _). destruct Hp as (P1 & P2 & P3). destruct Hv as (V1 & V2 & V3).
  destruct (axis_cell l1 s1 x i nx S1 P1 V1). destruct (axis_cell l2 s2 y j ny S2 P2 V2). destruct (axis_cell l3 s3 z k nz S3 P3 V3).
  repeat split; first [apply Mx | apply My | apply Mz]; assumption.
Qed.

(** * Stations *)
Lemma fold_min r : forall x, (forall v, In v (x :: r) ->
    (fold_left (fun m v => if Rlt_dec v m then v else m) r x <= v)%R)
  /\ In (fold_left (fun m v => if Rlt_dec v m then v else m) r x) (x :: r).
Proof.
  induction r as [|a r IH]; intros x; cbn [fold_left].
  - split; [|left; reflexivity]. intros v [<-|[]]. lra.
  - destruct (Rlt_dec a x) as [H|H].
    + destruct (IH a) as (L & I). split; [|right; exact I].
      intros v [<-|[<-|Hv]]; [pose proof (L a (or_introl eq_refl)); lra|exact (L a (or_introl eq_refl))|exact (L v (or_intror Hv))].
    + destruct (IH x) as (L & I). split.
      * intros v [<-|[<-|Hv]]; [exact (L x (or_introl eq_refl))|pose proof (L x (or_introl eq_refl)); lra|exact (L v (or_intror Hv))].
      * destruct I as [I|I]; [left; exact I|right; right; exact I].
Qed.

Lemma fold_max r : forall x, (forall v, In v (x :: r) ->
    (v <= fold_left (fun m v => if Rlt_dec m v then v else m) r x)%R)
  /\ In (fold_left (fun m v => if Rlt_dec m v then v else m) r x) (x :: r).
Proof.
  induction r as [|a r IH]; intros x; cbn [fold_left].
  - split; [|left; reflexivity]. intros v [<-|[]]. lra.
  - destruct (Rlt_dec x a) as [H|H].
    + destruct (IH a) as (L & I). split; [|right; exact I].
      intros v [<-|[<-|Hv]]; [pose proof (L a (or_introl eq_refl)); lra|exact (L a (or_introl eq_refl))|exact (L v (or_intror Hv))].
    + destruct (IH x) as (L & I). split.
      * intros v [<-|[<-|Hv]]; [exact (L x (or_introl eq_refl))|pose proof (L x (or_introl eq_refl)); lra|exact (L v (or_intror Hv))].
      * destruct I as [I|I]; [left; exact I|right; right; exact I].
Qed.

Lemma py_min_ok l m : py_min l = Ret m -> (forall v, In v l -> (m <= v)%R) /\ In m l.
Proof.
  destruct l as [|x r]; [discriminate|]. intros E. assert (fold_left (fun m v => if Rlt_dec v m then v else m) r x = m)
    by (unfold py_min in E; congruence). subst m. exact (fold_min r x).
Qed.
Lemma py_max_ok l m : py_max l = Ret m -> (forall v, In v l -> (v <= m)%R) /\ In m l.
Proof.
  destruct l as [|x r]; [discriminate|]. intros E. assert (fold_left (fun m v => if Rlt_dec m v then v else m) r x = m)
    by (unfold py_max in E; congruence). subst m. exact (fold_max r x).
Qed.

Lemma c1_lon v : c1 v = longitude v. Proof. destruct v as ((x, y), z). reflexivity. Qed.
Lemma c2_lat v : c2 v = latitude v. Proof. destruct v as ((x, y), z). reflexivity. Qed.
Lemma c3_dep v : c3 v = depth v. Proof. destruct v as ((x, y), z). reflexivity. Qed.

Lemma per_axis_ok f l v : per_axis f l = Ret v ->
  f (map longitude l) = Ret (longitude v) /\ f (map latitude l) = Ret (latitude v) /\ f (map depth l) = Ret (depth v).
Proof.
  unfold per_axis. rewrite (map_ext c1 longitude c1_lon), (map_ext c2 latitude c2_lat), (map_ext c3 depth c3_dep).
  destruct (f (map longitude l)) as [a|?|]; cbn [bind]; try discriminate.
  destruct (f (map latitude l)) as [b|?|]; cbn [bind]; try discriminate.
  destruct (f (map depth l)) as [c|?|]; cbn [bind]; try discriminate.
  intros E. assert (v = (a, b, c)) as -> by congruence. repeat split; reflexivity.
Qed.

Lemma station_extent_ok stations lo hi : station_extent stations = Ret (lo, hi) ->
  (forall s, In s stations -> within lo hi s)
  /\ (forall c, c = longitude \/ c = latitude \/ c = depth ->
        (exists s, In s stations /\ c s = c lo) /\ (exists s, In s stations /\ c s = c hi)).
Proof.
  unfold station_extent. destruct (per_axis py_min stations) as [a|?|] eqn:E1; cbn [bind]; try discriminate.
  destruct (per_axis py_max stations) as [b|?|] eqn:E2; cbn [bind]; try discriminate.
  intros E. assert (a = lo) as -> by congruence. assert (b = hi) as -> by congruence. clear E.
  apply per_axis_ok in E1, E2. destruct E1 as (A1 & A2 & A3), E2 as (B1 & B2 & B3).
  apply py_min_ok in A1, A2, A3. apply py_max_ok in B1, B2, B3.
  split.
  - intros s Hs. unfold within. repeat split;
      first [apply A1|apply A2|apply A3|apply B1|apply B2|apply B3]; apply in_map; exact Hs.
  - intros c Hc. destruct A1 as (_ & A1), A2 as (_ & A2), A3 as (_ & A3), B1 as (_ & B1), B2 as (_ & B2), B3 as (_ & B3).
    apply in_map_iff in A1, A2, A3, B1, B2, B3.
    destruct A1 as (a1 & ? & ?), A2 as (a2 & ? & ?), A3 as (a3 & ? & ?), B1 as (b1 & ? & ?), B2 as (b2 & ? & ?), B3 as (b3 & ? & ?).
    destruct Hc as [->|[->| ->]]; split;
      [exists a1|exists b1|exists a2|exists b2|exists a3|exists b3]; tauto.
Qed.

Lemma widen lo hi : (lo <= hi)%R -> let d := Rabs (hi - lo) in
  let lo' := (lo - 5 / 100 * d)%R in let hi' := (hi + 5 / 100 * d)%R in
  (lo = lo' + (hi' - lo') / 22 /\ hi = hi' - (hi' - lo') / 22)%R.
Proof. intros H. cbn zeta. rewrite Rabs_pos_eq by lra. split; lra. Qed.

Lemma min2_le a b : (min2 a b <= a /\ min2 a b <= b)%R.
Proof. unfold min2. destruct (Rlt_dec b a); lra. Qed.
Lemma max2_ge a b : (a <= max2 a b /\ b <= max2 a b)%R.
Proof. unfold max2. destruct (Rlt_dec a b); lra. Qed.

Lemma max_extent_ok transform g stations lo hi : max_extent transform g stations = Ret (lo, hi) ->
  exists slo shi glo ghi, station_extent stations = Ret (slo, shi) /\ grid_extent transform g true = Ret (glo, ghi)
    /\ shrunk lo hi = (vmap2 min2 slo glo, vmap2 max2 shi ghi).
Proof.
  unfold max_extent. destruct (station_extent stations) as [(slo, shi)|?|] eqn:Es; cbn [bind]; try discriminate.
  destruct (grid_extent transform g true) as [(glo, ghi)|?|] eqn:Eg; cbn [bind fst snd]; try discriminate.
  intros E. exists slo, shi, glo, ghi. split; [reflexivity|]. split; [reflexivity|].
  destruct (station_extent_ok _ _ _ Es) as (Hs & Hw).
  assert (Ho : within slo shi slo).
  { destruct (Hw longitude (or_introl eq_refl)) as ((s1 & I1 & L1) & _).
    destruct (Hw latitude (or_intror (or_introl eq_refl))) as ((s2 & I2 & L2) & _).
    destruct (Hw depth (or_intror (or_intror eq_refl))) as ((s3 & I3 & L3) & _).
    pose proof (Hs s1 I1) as (A1 & _). pose proof (Hs s2 I2) as (_ & A2 & _). pose proof (Hs s3 I3) as (_ & _ & A3).
    unfold within. rewrite L1 in A1. rewrite L2 in A2. rewrite L3 in A3. tauto. }
  destruct slo as ((a1, a2), a3), shi as ((b1, b2), b3), glo as ((p1, p2), p3), ghi as ((q1, q2), q3).
  unfold within in Ho. cbn [longitude latitude depth] in Ho. destruct Ho as ((_ & O1) & (_ & O2) & (_ & O3)).
  cbn [vmap2] in E. 
  assert (W1 : (min2 a1 p1 <= max2 b1 q1)%R) by (pose proof (min2_le a1 p1); pose proof (max2_ge b1 q1); lra).
  assert (W2 : (min2 a2 p2 <= max2 b2 q2)%R) by (pose proof (min2_le a2 p2); pose proof (max2_ge b2 q2); lra).
  assert (W3 : (min2 a3 p3 <= max2 b3 q3)%R) by (pose proof (min2_le a3 p3); pose proof (max2_ge b3 q3); lra).
  apply widen in W1, W2, W3. cbn zeta in W1, W2, W3.
  assert (El : lo = (min2 a1 p1 - 5 / 100 * Rabs (max2 b1 q1 - min2 a1 p1), min2 a2 p2 - 5 / 100 * Rabs (max2 b2 q2 - min2 a2 p2),
    min2 a3 p3 - 5 / 100 * Rabs (max2 b3 q3 - min2 a3 p3))%R) by congruence.
  assert (Eh : hi = (max2 b1 q1 + 5 / 100 * Rabs (max2 b1 q1 - min2 a1 p1), max2 b2 q2 + 5 / 100 * Rabs (max2 b2 q2 - min2 a2 p2),
    max2 b3 q3 + 5 / 100 * Rabs (max2 b3 q3 - min2 a3 p3))%R) by congruence.
  subst lo hi. unfold shrunk. cbn [vmap2].
  destruct W1 as (<- & <-), W2 as (<- & <-), W3 as (<- & <-). reflexivity.
Qed.

Lemma within_wider slo shi glo ghi v : within slo shi v \/ within glo ghi v ->
  within (vmap2 min2 slo glo) (vmap2 max2 shi ghi) v.
Proof.
  destruct slo as ((a1, a2), a3), shi as ((b1, b2), b3), glo as ((p1, p2), p3), ghi as ((q1, q2), q3), v as ((x, y), z).
  unfold within. cbn [vmap2 longitude latitude depth].
  pose proof (min2_le a1 p1); pose proof (max2_ge b1 q1); pose proof (min2_le a2 p2); pose proof (max2_ge b2 q2);
    pose proof (min2_le a3 p3); pose proof (max2_ge b3 q3). intros [?|?]; lra.
Qed.

(** * Cells drawn *)
Lemma edge_mid a b l s n i : (0 < IZR n)%R ->
  ((cell_edge (a * (l - s / 2) + b) (a * (l + (IZR n - / 2) * s) + b) n i
   + cell_edge (a * (l - s / 2) + b) (a * (l + (IZR n - / 2) * s) + b) n (i + 1)) / 2
  = a * (l + IZR i * s) + b)%R.
Proof. intros H. unfold cell_edge. rewrite plus_IZR. field. lra. Qed.

Lemma cells_drawn transform g lo hi p : grid_ok g -> axes_linear (transform (g_gproj g) (g_cproj g)) ->
  grid_extent transform g true = Ret (lo, hi) ->
  let v := index2coord transform g p in
  let '(nx, ny, nz) := g_count g in let '(i, j, k) := p in
  ((cell_edge (longitude lo) (longitude hi) nx i + cell_edge (longitude lo) (longitude hi) nx (i + 1)) / 2 = longitude v
  /\ (cell_edge (latitude lo) (latitude hi) ny j + cell_edge (latitude lo) (latitude hi) ny (j + 1)) / 2 = latitude v
  /\ (cell_edge (depth lo) (depth hi) nz k + cell_edge (depth lo) (depth hi) nz (k + 1)) / 2 = depth v)%R.
Proof.
  rewrite extent_cells. intros Hg (ax & bx & ay & bY & az & bz & _ & Hf) E. cbn zeta.
  assert (E1 : transform (g_gproj g) (g_cproj g) (cell_lo g) = lo) by congruence.
  assert (E2 : transform (g_gproj g) (g_cproj g) (cell_hi g) = hi) by congruence. clear E. subst lo hi.
  unfold index2coord, coord2grid, node2grid, cell_lo, cell_hi, grid_ok in *.
  destruct (g_ll g) as ((l1, l2), l3). destruct (g_spacing g) as ((s1, s2), s3). destruct (g_count g) as ((nx, ny), nz).
  destruct p as ((i, j), k). cbn [vmap2]. rewrite !Hf. cbn [longitude latitude depth].
  destruct Hg as (_ & N1 & N2 & N3).
  assert ((0 < IZR nx)%R) by (apply IZR_lt; lia). assert ((0 < IZR ny)%R) by (apply IZR_lt; lia).
  assert ((0 < IZR nz)%R) by (apply IZR_lt; lia).
  repeat split; apply edge_mid; assumption.
Qed.

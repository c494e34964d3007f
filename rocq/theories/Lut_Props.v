(** Properties C06 (decoding of the maximum), C43-C46 and C57 of the lookup tables. *)
From Coq Require Import String Ascii.
From Coq Require Import List ZArith Reals Lra Lia Bool.
From Verif Require Import Lib LibFacts PyDict Migrate_Model Migrate_Spec Migrate_Proofs ScanMseed_Proofs
  Lut_Model Lut_Spec Lut_Proofs.
Import ListNotations.
Open Scope Z_scope.

(** A grid used in the examples: 3 x 2 x 4 nodes. *)
Definition grid1 : grid := mk_grid (10, 20, -1)%R (1, 2, 1/2)%R (3, 2, 4) 1 2.
Lemma grid1_ok : grid_ok grid1.
Proof. unfold grid_ok. cbn. repeat split; try lra; lia. Qed.

(** C06, decoding: on a map of the shape of the grid, the index reported for a sample decodes to
    a node of the grid where the map is largest, and the reported coordinates are those of that
    node. *)
Theorem C06_maximum_decoded :
  forall r0 transform g m ns, let n := g_count g in
  grid_ok g -> 0 <= ns -> Z.of_nat (length m) = n_nodes n * ns ->
  exists o, lib_find_max_coa r0 m (n_nodes n) ns = Ret o
    /\ forall s, 0 <= s < ns -> exists k q,
         rd (o_idx o) s = Some k /\ unravel_index k n = Ret q /\ is_node n q
         /\ rd (o_max o) s = rd m (flat n q * ns + s)
         /\ (forall q' a b, is_node n q' -> rd m (flat n q' * ns + s) = Some a -> rd m (flat n q * ns + s) = Some b -> (a <= b)%R)
         /\ flat2coord transform g k = Ret (transform (g_gproj g) (g_cproj g)
              (let '(lx, ly, lz) := g_ll g in let '(sx, sy, sz) := g_spacing g in let '(i, j, l) := q in
               (lx + IZR i * sx, ly + IZR j * sy, lz + IZR l * sz)%R)).
Proof.
  intros r0 tr g m ns n Hg Hns Hlen. pose proof (grid_ok_pos g Hg) as Hn. fold n in Hn.
  pose proof (pos3_nodes n Hn) as Hpos.
  set (f := fun node s => value m (node * ns + s)).
  assert (Hrd : forall node s, 0 <= node < n_nodes n -> 0 <= s < ns -> rd m (node * ns + s) = Some (f node s)).
  { intros node s Hnode Hs. subst f. unfold value. destruct (rd_in_range _ m (node * ns + s)) as (v & ->); [|reflexivity].
    rewrite Hlen. split; [apply Z.add_nonneg_nonneg; [apply Z.mul_nonneg_nonneg|]; lia|].
    assert (node * ns <= (n_nodes n - 1) * ns) by (apply Z.mul_le_mono_nonneg_r; lia). lia. }
  assert (Em : m = array2 (n_nodes n) ns f) by (apply list_eq_array2; try lia; exact Hrd).
  destruct (find_max_ok r0 f (n_nodes n) ns ltac:(lia) Hns) as (o & E & _ & _ & _ & H).
  exists o. split; [rewrite Em; exact E|]. intros s Hs. destruct (H s Hs) as (k & (Hk & Hmax & _) & H1 & H2 & _).
  destruct (unravel_inv k n Hn Hk) as (q & Hu & Hq & Hf). exists k, q.
  split; [exact H2|]. split; [exact Hu|]. split; [exact Hq|]. rewrite Hf.
  split; [rewrite H1; symmetry; apply Hrd; assumption|]. split.
  - intros q' a b Hq' Ha Hb. rewrite Hrd in Ha by (try assumption; apply flat_range; exact Hq').
    rewrite Hrd in Hb by assumption. injection Ha as <-. injection Hb as <-.
    apply Hmax. apply flat_range. exact Hq'.
  - unfold flat2coord, flat2grid. fold n. rewrite Hu. cbn [bind]. rewrite node2grid_eq. reflexivity.
Qed.
Print Assumptions C06_maximum_decoded.

Example C06_decode_applies : exists o k q,
  lib_find_max_coa {| fcur := 0; fmax := 0; fsum := 0; fidx := 0 |} (map IZR (zrange 24)) 24 1 = Ret o
  /\ rd (o_idx o) 0 = Some k /\ unravel_index k (3, 2, 4) = Ret q.
Proof.
  destruct (C06_maximum_decoded {| fcur := 0; fmax := 0; fsum := 0; fidx := 0 |} (fun _ _ v => v) grid1
    (map IZR (zrange 24)) 1 grid1_ok ltac:(lia) ltac:(reflexivity)) as (o & E & H).
  destruct (H 0 ltac:(lia)) as (k & q & H1 & H2 & _). exists o, k, q. tauto.
Qed.

(** C43. Indices to grid coordinates and back, for all integer triples (inside the grid or not). *)
Theorem C43_index_roundtrip :
  forall g p, grid_ok g -> grid2node g (node2grid g p) = p.
Proof.
  intros g p Hg. apply roundtrip_each; [exact Hg|]. rewrite node2grid_eq. unfold grid_ok in Hg.
  destruct (g_ll g) as ((l1, l2), l3), (g_spacing g) as ((s1, s2), s3), (g_count g) as ((n1, n2), n3), p as ((i, j), k).
  destruct Hg as ((S1 & S2 & S3) & _). cbn. unfold Rminus. rewrite !Rplus_opp_r, !Rabs_R0. lra.
Qed.
Print Assumptions C43_index_roundtrip.

(** C43. Indices to input coordinates and back, if projecting there and back moves a node by less
    than half a spacing. *)
Theorem C43_coordinates_roundtrip :
  forall transform g p, grid_ok g ->
  each3 (fun w l s i => (Rabs (w - (l + IZR i * s)) < s / 2)%R)
    (transform (g_cproj g) (g_gproj g) (index2coord transform g p)) (g_ll g) (g_spacing g) p ->
  coord2index transform g (index2coord transform g p) = p.
Proof. intros tr g p Hg H. unfold coord2index, coord2grid. apply roundtrip_each; [exact Hg|]. exact H. Qed.
Print Assumptions C43_coordinates_roundtrip.

(** C43. A point is converted to the nearest node, which belongs to the grid if the point lies in
    the volume of the grid. *)
Theorem C43_nearest_node :
  forall g v, grid_ok g ->
  (forall q, (dist2 v (node2grid g (grid2node g v)) <= dist2 v (node2grid g q))%R)
  /\ (inside g v -> is_node (g_count g) (grid2node g v)).
Proof. intros g v Hg. split; [intros q; exact (nearest_node g v q Hg)|exact (inside_is_node g v Hg)]. Qed.
Print Assumptions C43_nearest_node.

(** C43. Flat indices and index triples correspond one to one. *)
Theorem C43_flat_indices :
  forall g, grid_ok g -> let n := g_count g in
  (forall p, is_node n p -> 0 <= flat n p < n_nodes n /\ unravel_index (flat n p) n = Ret p)
  /\ (forall f, 0 <= f < n_nodes n -> exists p, unravel_index f n = Ret p /\ is_node n p /\ flat n p = f)
  /\ (forall f, ~ 0 <= f < n_nodes n -> unravel_index f n = Raise ValueError).
Proof.
  intros g Hg n. pose proof (grid_ok_pos g Hg) as Hn. fold n in Hn. split; [|split].
  - intros p Hp. split; [exact (flat_range n p Hp)|exact (unravel_flat n p Hp)].
  - intros f Hf. exact (unravel_inv f n Hn Hf).
  - intros f Hf. destruct n as ((nx, ny), nz). unfold unravel_index. cbn [n_nodes] in Hf.
    destruct ((0 <=? f) && (f <? nx * ny * nz))%bool eqn:E; [|reflexivity].
    apply andb_true_iff in E. destruct E as (E1 & E2). apply Z.leb_le in E1. apply Z.ltb_lt in E2. lia.
Qed.
Print Assumptions C43_flat_indices.

(** C43. A grid is created, and covers the requested volume overshooting by less than one spacing
    on every axis. *)
Theorem C43_grid_covers_volume :
  forall transform ll ur s1 s2 s3 gproj cproj l1 l2 l3 u1 u2 u3,
  transform cproj gproj ll = (l1, l2, l3) -> transform cproj gproj ur = (u1, u2, u3) ->
  (0 < s1 /\ 0 < s2 /\ 0 < s3 /\ l1 <= u1 /\ l2 <= u2 /\ l3 <= u3)%R ->
  ((u1 - l1) / s1 <= 2147483646 /\ (u2 - l2) / s2 <= 2147483646 /\ (u3 - l3) / s3 <= 2147483646)%R ->
  exists g n1 n2 n3, grid_init transform ll ur [s1; s2; s3] gproj cproj = Ret g /\ grid_ok g
    /\ g_ll g = (l1, l2, l3) /\ g_spacing g = (s1, s2, s3) /\ g_count g = (n1, n2, n3)
    /\ node2grid g (0, 0, 0) = (l1, l2, l3)
    /\ exists e1 e2 e3, node2grid g (n1 - 1, n2 - 1, n3 - 1) = (e1, e2, e3)
       /\ (u1 <= e1 < u1 + s1 /\ u2 <= e2 < u2 + s2 /\ u3 <= e3 < u3 + s3)%R.
Proof.
  intros tr ll ur s1 s2 s3 gp cp l1 l2 l3 u1 u2 u3 El Eu (S1 & S2 & S3 & L1 & L2 & L3) (M1 & M2 & M3).
  destruct (axis_count_covers l1 u1 s1 S1 L1) as (P1 & C1), (axis_count_covers l2 u2 s2 S2 L2) as (P2 & C2),
    (axis_count_covers l3 u3 s3 S3 L3) as (P3 & C3).
  assert (B : forall l u s, ((u - l) / s <= 2147483646)%R -> axis_count l u s <= 2147483647).
  { intros l u s H. unfold axis_count. pose proof (np_ceil_spec ((u - l) / s)) as (_ & A).
    assert (D : (IZR (np_ceil ((u - l) / s)) < IZR 2147483647)%R) by lra. apply lt_IZR in D. lia. }
  exists (mk_grid (l1, l2, l3) (s1, s2, s3) (axis_count l1 u1 s1, axis_count l2 u2 s2, axis_count l3 u3 s3) gp cp).
  exists (axis_count l1 u1 s1), (axis_count l2 u2 s2), (axis_count l3 u3 s3). split.
  { unfold grid_init, coord2grid. rewrite (set_spacing3 s1 s2 s3 S1 S2 S3). cbn [bind]. rewrite El, Eu.
    rewrite set_count_ok by (split; [assumption|apply B; assumption]). reflexivity. }
  split; [unfold grid_ok; cbn [g_spacing g_count]; repeat split; try assumption; apply B; assumption|].
  split; [reflexivity|]. split; [reflexivity|]. split; [reflexivity|]. rewrite !node2grid_eq. cbn [g_ll g_spacing]. split.
  - unfold axis_coord. f_equal; [f_equal|]; lra.
  - eexists _, _, _. split; [reflexivity|]. tauto.
Qed.
Print Assumptions C43_grid_covers_volume.

(** C43. A grid without a positive spacing for every axis, or with an upper corner a spacing or more below the
    lower one, is refused; one value gives the same grid as that value three times. *)
Theorem C43_bad_grid_refused :
  forall transform ll ur gproj cproj l1 l2 l3 u1 u2 u3,
  transform cproj gproj ll = (l1, l2, l3) -> transform cproj gproj ur = (u1, u2, u3) ->
  (forall sp, ~ (exists s, sp = [s]) -> length sp <> 3%nat -> grid_init transform ll ur sp gproj cproj = Raise AssertionError)
  /\ (forall sp s, In s sp -> (s <= 0)%R -> grid_init transform ll ur sp gproj cproj = Raise AssertionError)
  /\ (forall s, (0 < s)%R -> grid_init transform ll ur [s] gproj cproj = grid_init transform ll ur [s; s; s] gproj cproj)
  /\ (forall s1 s2 s3, (0 < s1 /\ 0 < s2 /\ 0 < s3)%R ->
       (Rabs ((u1 - l1) / s1) <= 2147483646 /\ Rabs ((u2 - l2) / s2) <= 2147483646 /\ Rabs ((u3 - l3) / s3) <= 2147483646)%R ->
       (u1 <= l1 - s1 \/ u2 <= l2 - s2 \/ u3 <= l3 - s3)%R ->
       grid_init transform ll ur [s1; s2; s3] gproj cproj = Raise AssertionError).
Proof.
  intros tr ll ur gp cp l1 l2 l3 u1 u2 u3 El Eu.
  assert (G : forall sp, set_spacing sp = Raise AssertionError -> grid_init tr ll ur sp gp cp = Raise AssertionError).
  { intros sp H. unfold grid_init, coord2grid. rewrite H. reflexivity. }
  split; [|split; [|split]].
  - intros sp H1 H3. apply G. destruct sp as [|a [|b [|c [|d r]]]]; try reflexivity.
    + contradict H1. now exists a.
    + now contradict H3.
  - intros sp s Hs Hn. apply G. destruct sp as [|a [|b [|c [|d r]]]]; unfold set_spacing; try reflexivity.
    + destruct (Rlt_dec 0 a); [|reflexivity]. destruct Hs as [->|[]]. lra.
    + destruct (Rlt_dec 0 a); [|reflexivity]. destruct (Rlt_dec 0 b); [|reflexivity]. destruct (Rlt_dec 0 c); [|reflexivity].
      destruct Hs as [->|[->|[->|[]]]]; lra.
  - intros s Hs. unfold grid_init. rewrite set_spacing3 by exact Hs. unfold set_spacing. destruct (Rlt_dec 0 s); [reflexivity|contradiction].
  - intros s1 s2 s3 (S1 & S2 & S3) (B1 & B2 & B3) H. unfold grid_init, coord2grid. rewrite (set_spacing3 s1 s2 s3 S1 S2 S3).
    cbn [bind]. rewrite El, Eu.
    assert (R : forall l u s, (Rabs ((u - l) / s) <= 2147483646)%R -> int32 (axis_count l u s) = Some (axis_count l u s)).
    { intros l u s B. unfold axis_count. pose proof (np_ceil_spec ((u - l) / s)) as (A1 & A2).
      pose proof (Rle_abs ((u - l) / s)). pose proof (Rle_abs (- ((u - l) / s))) as N. rewrite Rabs_Ropp in N.
      apply int32_some. split.
      - assert (D : (IZR (-2147483648) < IZR (np_ceil ((u - l) / s) + 1))%R) by (rewrite plus_IZR; lra). apply lt_IZR in D. lia.
      - assert (D : (IZR (np_ceil ((u - l) / s)) < IZR 2147483647)%R) by lra. apply lt_IZR in D. lia. }
    assert (N : forall l u s, (0 < s)%R -> (u <= l - s)%R -> (0 <? axis_count l u s) = false).
    { intros l u s Ps L. apply Z.ltb_ge. unfold axis_count. pose proof (np_ceil_spec ((u - l) / s)) as (A1 & A2).
      assert (Q : ((u - l) / s <= -1)%R).
      { apply Rmult_le_reg_r with s; [exact Ps|]. unfold Rdiv. rewrite Rmult_assoc, Rinv_l by lra. lra. }
      assert (D : (IZR (np_ceil ((u - l) / s)) < IZR 0)%R) by lra. apply lt_IZR in D. lia. }
    unfold set_count. rewrite !R by assumption.
    assert (F : (0 <? axis_count l1 u1 s1) && (0 <? axis_count l2 u2 s2) && (0 <? axis_count l3 u3 s3) = false).
    { destruct H as [H|[H|H]]; [rewrite (N _ _ _ S1 H)|rewrite (N _ _ _ S2 H)|rewrite (N _ _ _ S3 H)]; rewrite ?andb_false_r; reflexivity. }
    rewrite F. reflexivity.
Qed.
Print Assumptions C43_bad_grid_refused.
Example C43_bad_grid_example :
  grid_init (fun _ _ v => v) (0, 0, 0)%R (1, -1, 1)%R [1; 1; 1]%R 1 2 = Raise AssertionError
  /\ grid_init (fun _ _ v => v) (0, 0, 0)%R (1, 1, 1)%R [0]%R 1 2 = Raise AssertionError.
Proof.
  split.
  - refine (proj2 (proj2 (proj2 (C43_bad_grid_refused _ _ _ 1 2 0 0 0 1 (-1) 1 eq_refl eq_refl)))%R 1 1 1 _ _ _)%R; [lra| |lra].
    repeat split; apply Rabs_le; lra.
  - refine (proj1 (proj2 (C43_bad_grid_refused _ _ _ 1 2 0 0 0 1 1 1 eq_refl eq_refl))%R _ 0%R _ _); [left; reflexivity|lra].
Qed.

(** A grid from (0, 0, 0) to (2.5, 4, 1) with unit spacing gets 4 x 5 x 2 nodes; the node (1, 4, 0)
    survives the round trip even if the projection shifts it by 0.1. *)
Example C43_applies : exists g n1 n2 n3,
  grid_init (fun _ _ v => v) (0, 0, 0)%R (5/2, 4, 1)%R [1; 1; 1]%R 1 2 = Ret g /\ g_count g = (n1, n2, n3)
  /\ coord2index (fun a _ v => if a =? 1 then v else let '(x, y, z) := v in (x + 1/10, y, z)%R) grid1
       (index2coord (fun a _ v => if a =? 1 then v else let '(x, y, z) := v in (x + 1/10, y, z)%R) grid1 (1, 4, 0)) = (1, 4, 0).
Proof.
  destruct (C43_grid_covers_volume (fun _ _ v => v) (0, 0, 0)%R (5/2, 4, 1)%R 1 1 1 1 2 0 0 0 (5/2) 4 1)%R
    as (g & n1 & n2 & n3 & H & _ & _ & _ & E & _); try reflexivity; try lra.
  exists g, n1, n2, n3. split; [exact H|]. split; [exact E|].
  apply C43_coordinates_roundtrip; [exact grid1_ok|]. cbn.
  repeat split; apply Rabs_def1; lra.
Qed.

(** C44. decimate() always succeeds; the new arrays have the new shape, and entry (a, b, c) is the
    old entry at c1 + (a, b, c) * df. Missing from the claim: that this old node has the same
    coordinates (see below). *)
Theorem C44_decimated_tables_partial :
  forall l d1 d2 d3 n1 n2 n3, lut_ok l -> g_count (l_grid l) = (n1, n2, n3) -> 0 < d1 -> 0 < d2 -> 0 < d3 ->
  exists l' c1 c2 c3, decimate l (d1, d2, d3) = Ret l' /\ lut_ok l'
    /\ g_count (l_grid l') = (1 + (n1 - 1) / d1, 1 + (n2 - 1) / d2, 1 + (n3 - 1) / d3)
    /\ (c1 = ((n1 - 1) mod d1) / 2 /\ c2 = ((n2 - 1) mod d2) / 2 /\ c3 = ((n3 - 1) mod d3) / 2)
    /\ (forall s p, (exists t, table_of l s p t) <-> exists t', table_of l' s p t')
    /\ forall s p t t', table_of l s p t -> table_of l' s p t' ->
         has_shape t' (g_count (l_grid l'))
         /\ forall a b c, is_node (g_count (l_grid l')) (a, b, c) ->
              is_node (n1, n2, n3) (c1 + a * d1, c2 + b * d2, c3 + c * d3)
              /\ entry t' (a, b, c) = entry t (c1 + a * d1, c2 + b * d2, c3 + c * d3)
              /\ (let '(x', y', z') := node2grid (l_grid l') (a, b, c) in
                  let '(x, y, z) := node2grid (l_grid l) (c1 + a * d1, c2 + b * d2, c3 + c * d3) in
                  let '(sx, sy, sz) := g_spacing (l_grid l) in
                  x' = (x - IZR c1 * sx)%R /\ y' = (y - IZR c2 * sy)%R /\ z' = (z - IZR c3 * sz)%R).
Proof.
  intros l d1 d2 d3 n1 n2 n3 Hl Hn D1 D2 D3.
  destruct (decimate_ok l (d1, d2, d3) (proj1 Hl) ltac:(tauto)) as (l' & E & Hg' & Ell & Esp & Ec & Eg & Ep & _ & _ & Ht).
  rewrite Hn in Ec, Ht. cbn [vmap2] in Ec, Ht.
  assert (Hpos : 0 < n1 /\ 0 < n2 /\ 0 < n3).
  { pose proof (grid_ok_pos _ (proj1 Hl)) as H. rewrite Hn in H. exact H. }
  destruct (dec_axis n1 d1 ltac:(tauto) D1) as (X1 & X2 & X3 & X4), (dec_axis n2 d2 ltac:(tauto) D2) as (Y1 & Y2 & Y3 & Y4),
    (dec_axis n3 d3 ltac:(tauto) D3) as (Z1 & Z2 & Z3 & Z4).
  assert (Hshape : forall s p t', table_of l' s p t' -> has_shape t' (g_count (l_grid l'))).
  { intros s p t' Ht'. apply Ht in Ht'. destruct Ht' as (t & Ht' & ->). rewrite Ec.
    apply (dec_table_shape (n1, n2, n3) (d1, d2, d3)); [tauto|tauto|]. rewrite <- Hn. exact (table_shape l s p t Hl Ht'). }
  exists l', (dec_first n1 d1), (dec_first n2 d2), (dec_first n3 d3). split; [exact E|].
  split.
  { split; [exact Hg'|]. intros s m p t' Hm Hp. apply (Hshape s p t'). exists m. tauto. }
  split; [rewrite Ec; reflexivity|]. split; [tauto|]. split.
  { intros s p. split.
    - intros (t & H). eexists. apply Ht. exists t. split; [exact H|reflexivity].
    - intros (t' & H). apply Ht in H. destruct H as (t & H & _). exists t. exact H. }
  intros s p t t' H1 H2. split; [exact (Hshape s p t' H2)|]. intros a b c Hq.
  rewrite Ec in Hq. cbn in Hq. destruct Hq as (Qa & Qb & Qc).
  assert (M : forall d x, 0 < d -> 0 <= x -> 0 <= x * d) by (intros; apply Z.mul_nonneg_nonneg; lia).
  assert (Hin : is_node (n1, n2, n3) (dec_first n1 d1 + a * d1, dec_first n2 d2 + b * d2, dec_first n3 d3 + c * d3)).
  { assert (B : forall n d x, 0 < d -> 0 <= x < dec_count n d -> dec_first n d + (dec_count n d - 1) * d < n -> dec_first n d + x * d < n).
    { intros n d x Hd Hx Hlt. assert (x * d <= (dec_count n d - 1) * d) by (apply Z.mul_le_mono_nonneg_r; lia). lia. }
    cbn. pose proof (M d1 a D1 (proj1 Qa)). pose proof (M d2 b D2 (proj1 Qb)). pose proof (M d3 c D3 (proj1 Qc)).
    pose proof (B n1 d1 a D1 Qa (proj1 X4)). pose proof (B n2 d2 b D2 Qb (proj1 Y4)). pose proof (B n3 d3 c D3 Qc (proj1 Z4)). lia. }
  split; [exact Hin|]. split.
  - apply Ht in H2. destruct H2 as (t2 & H2 & ->).
    assert (t2 = t) by (apply lookup_table_of in H1; apply lookup_table_of in H2; congruence). subst t2.
    rewrite dec_table_entry by lia. reflexivity.
  - rewrite !node2grid_eq, Ell, Esp. destruct (g_ll (l_grid l)) as ((lx, ly), lz), (g_spacing (l_grid l)) as ((sx, sy), sz).
    cbn [vmap2]. unfold axis_coord. rewrite !plus_IZR, !mult_IZR. repeat split; ring.
Qed.
Print Assumptions C44_decimated_tables_partial.

(** C44 when the last node of every axis, or the one before it, is kept: the traveltime of every
    node of the decimated grid is the old one at the same coordinates. *)
Theorem C44_decimate_keeps_coordinates_partial :
  forall l d1 d2 d3 n1 n2 n3, lut_ok l -> g_count (l_grid l) = (n1, n2, n3) -> 0 < d1 -> 0 < d2 -> 0 < d3 ->
  (n1 - 1) mod d1 <= 1 -> (n2 - 1) mod d2 <= 1 -> (n3 - 1) mod d3 <= 1 ->
  exists l', decimate l (d1, d2, d3) = Ret l'
    /\ forall s p t t' q', table_of l s p t -> table_of l' s p t' -> is_node (g_count (l_grid l')) q' ->
         exists q, is_node (g_count (l_grid l)) q /\ node2grid (l_grid l) q = node2grid (l_grid l') q'
           /\ entry t' q' = entry t q.
Proof.
  intros l d1 d2 d3 n1 n2 n3 Hl Hn D1 D2 D3 M1 M2 M3.
  destruct (C44_decimated_tables_partial l d1 d2 d3 n1 n2 n3 Hl Hn D1 D2 D3) as (l' & c1 & c2 & c3 & E & _ & _ & (E1 & E2 & E3) & _ & H).
  exists l'. split; [exact E|]. intros s p t t' ((a, b), c) Ht Ht' Hq.
  destruct (H s p t t' Ht Ht') as (_ & H'). destruct (H' a b c Hq) as (Hin & He & Hc).
  assert (Z0 : forall n d, 0 < d -> (n - 1) mod d <= 1 -> ((n - 1) mod d) / 2 = 0).
  { intros n d Hd Hm. pose proof (Z.mod_pos_bound (n - 1) d Hd). apply Z.div_small. lia. }
  rewrite (Z0 n1 d1 D1 M1) in E1. rewrite (Z0 n2 d2 D2 M2) in E2. rewrite (Z0 n3 d3 D3 M3) in E3. subst c1 c2 c3.
  eexists. split; [rewrite Hn; exact Hin|]. split; [|exact He].
  destruct (node2grid (l_grid l') (a, b, c)) as ((x', y'), z'), (node2grid (l_grid l) _) as ((x, y), z), (g_spacing (l_grid l)) as ((sx, sy), sz).
  destruct Hc as (-> & -> & ->). f_equal; [f_equal|]; ring.
Qed.
Print Assumptions C44_decimate_keeps_coordinates_partial.

(** One station on a line of [n] nodes; the traveltime of node i is i. *)
Definition line (n : Z) : lut :=
  mk_lut (mk_grid (0, 0, 0)%R (1, 1, 1)%R (n, 1, 1) 1 2)
    [("ST1"%string, [("P"%string, map (fun i => [[IZR i]]) (zrange n))])] ["ST1"%string] ["P"%string].
Lemma line_ok n : 0 < n <= 2147483647 -> lut_ok (line n).
Proof.
  intros Hn. split; [unfold grid_ok; cbn; repeat split; try lra; lia|]. intros s m p t. cbn [line one l_tt dget l_grid g_count].
  destruct (String.eqb "ST1" s); [|discriminate]. intros H. injection H as <-. cbn [dget].
  destruct (String.eqb "P" p); [|discriminate]. intros H. injection H as <-. unfold has_shape. cbn.
  rewrite map_length, zrange_length. split; [lia|]. apply Forall_forall. intros x H. apply in_map_iff in H.
  destruct H as (i & <- & _). cbn. split; [reflexivity|]. constructor; [reflexivity|constructor].
Qed.

Example C44_applies :
  lut_ok (line 7) /\ (7 - 1) mod 3 <= 1 /\ (1 - 1) mod 1 <= 1
  /\ exists l', decimate (line 7) (3, 1, 1) = Ret l' /\ g_count (l_grid l') = (3, 1, 1).
Proof.
  split; [apply line_ok; lia|]. split; [cbn; lia|]. split; [cbn; lia|].
  destruct (C44_decimated_tables_partial (line 7) 3 1 1 7 1 1 (line_ok 7 ltac:(lia)) eq_refl ltac:(lia) ltac:(lia) ltac:(lia))
    as (l' & c1 & c2 & c3 & E & _ & H & _).
  exists l'. split; [exact E|exact H].
Qed.

(** C44: decimating six nodes by three keeps nodes 1 and 4 but labels them with the coordinates of
    nodes 0 and 3: the corner of the grid is not moved. *)
Theorem C44_coordinates_shifted_refuted :
  exists l df l' s p t t' q', lut_ok l /\ decimate l df = Ret l' /\ table_of l s p t /\ table_of l' s p t'
    /\ is_node (g_count (l_grid l')) q'
    /\ ~ exists q, is_node (g_count (l_grid l)) q /\ node2grid (l_grid l) q = node2grid (l_grid l') q'
           /\ entry t' q' = entry t q.
Proof.
  destruct (decimate_ok (line 6) (3, 1, 1) (proj1 (line_ok 6 ltac:(lia))) ltac:(cbn; lia)) as (l' & E & _ & Ell & Esp & Ec & _ & _ & _ & _ & Ht).
  exists (line 6), (3, 1, 1), l', "ST1"%string, "P"%string, (map (fun i => [[IZR i]]) (zrange 6)),
    (dec_table (vmap2 dec_first (6, 1, 1) (3, 1, 1)) (3, 1, 1) (map (fun i => [[IZR i]]) (zrange 6))), (0, 0, 0).
  split; [apply line_ok; lia|]. split; [exact E|].
  assert (T : table_of (line 6) "ST1" "P" (map (fun i => [[IZR i]]) (zrange 6))).
  { eexists. split; [reflexivity|]. left. reflexivity. }
  split; [exact T|]. split; [apply Ht; eexists; split; [exact T|reflexivity]|].
  rewrite Ec. split; [cbn; lia|]. intros (((i, j), k) & Hq & Hc & He).
  rewrite !node2grid_eq, Ell, Esp in Hc. cbn in Hc. unfold axis_coord in Hc. injection Hc as H1 _ _.
  assert (i = 0) by (apply eq_IZR; lra). subst i. cbn in Hq.
  assert (j = 0) by lia. assert (k = 0) by lia. subst j k. cbn in He. injection He as He. lra.
Qed.
Print Assumptions C44_coordinates_shifted_refuted.

(** C45. The rows of the onset array and the traveltime tables belong to the same (station, phase)
    pairs, in the same order, and the number of available data is the number of rows. *)
Theorem C45_tables_follow_onsets_partial :
  forall check onset tab l phases stations, let U := used check phases stations in
  NoDup phases -> NoDup stations -> Forall plain_name phases -> Forall plain_name stations -> U <> [] ->
  (forall s p, In (s, p) U -> table_of l s p (tab s p)) ->
  exists availability,
    calculate_onsets check onset phases stations = Ret (map (fun sp => onset (fst sp) (snd sp)) U, availability)
    /\ serve_loop l availability = Ret (map (fun sp => tab (fst sp) (snd sp)) U)
    /\ fold_left Z.add (values availability) 0 = Z.of_nat (length U).
Proof.
  intros check onset tab l phases stations U Np Ns Pp Ps HU Ht.
  exists (map (entry_of check) (pairs phases stations)).
  split; [apply calculate_onsets_some; assumption|]. split.
  - apply serve_loop_ok.
    + intros s p H. apply in_pairs in H. rewrite Forall_forall in Pp, Ps. split; [apply Ps|apply Pp]; tauto.
    + intros s p H E. apply Ht. apply filter_In. cbn [fst snd]. tauto.
  - rewrite sum_entries. reflexivity.
Qed.
Print Assumptions C45_tables_follow_onsets_partial.

(** Tables of unequal shapes are never migrated together: the call does not return. *)
Theorem C45_unequal_tables_rejected :
  forall l rate availability s1 p1 s2 p2 t1 t2 n1 n2 r,
  plain_name s1 -> plain_name p1 -> plain_name s2 -> plain_name p2 ->
  In ((s1 ++ "_" ++ p1)%string, 1) availability -> In ((s2 ++ "_" ++ p2)%string, 1) availability ->
  table_of l s1 p1 t1 -> table_of l s2 p2 t2 -> pos3 n1 -> pos3 n2 -> has_shape t1 n1 -> has_shape t2 n2 -> n1 <> n2 ->
  serve_traveltimes l rate availability <> Ret r.
Proof.
  intros l rate av s1 p1 s2 p2 t1 t2 n1 n2 r P1 Q1 P2 Q2 I1 I2 T1 T2 O1 O2 S1 S2 N H. unfold serve_traveltimes in H.
  assert (L : forall s p t, table_of l s p t -> lookup l s p = Ret t).
  { intros s p t (m & Em & Et). unfold lookup, getitem. rewrite Em. destruct Et as [-> | [-> ->]]; reflexivity. }
  assert (Sv : forall av ts s p t, plain_name s -> plain_name p -> In ((s ++ "_" ++ p)%string, 1) av -> table_of l s p t -> serve_loop l av = Ret ts -> In t ts).
  { clear - L. induction av as [|[key a] av IH]; intros ts s p t Ps Pp I T H; [destruct I|]. cbn [serve_loop] in H.
    destruct I as [I|I].
    - assert (key = (s ++ "_" ++ p)%string) by congruence. assert (a = 1) by congruence. subst key a.
      rewrite split_key in H by assumption. cbn [Z.eqb Pos.eqb] in H. rewrite (L _ _ _ T) in H. cbn [bind] in H.
      destruct (serve_loop l av) as [ts'| |]; cbn [bind] in H; try discriminate. assert (ts = t :: ts') by congruence. subst ts. left. reflexivity.
    - destruct (split_on underscore key) as [|st [|ph [|]]]; try discriminate. destruct (a =? 1).
      + destruct (lookup l st ph) as [t0| |]; cbn [bind] in H; try discriminate.
        destruct (serve_loop l av) as [ts'| |] eqn:E; cbn [bind] in H; try discriminate. assert (ts = t0 :: ts') by congruence. subst ts.
        right. exact (IH _ _ _ _ Ps Pp I T eq_refl).
      + exact (IH _ _ _ _ Ps Pp I T H). }
  destruct (serve_loop l av) as [ts| |] eqn:E; cbn [bind] in H; try discriminate.
  pose proof (Sv _ _ _ _ _ P1 Q1 I1 T1 E) as J1. pose proof (Sv _ _ _ _ _ P2 Q2 I2 T2 E) as J2. clear E.
  destruct ts as [|t0 ts]; [destruct J1|]. unfold stack_last in H.
  destruct (forallb (fun t => shape_eqb (shape t) (shape t0)) (t0 :: ts)) eqn:F; [|discriminate].
  rewrite forallb_forall in F. pose proof (F _ J1) as F1. pose proof (F _ J2) as F2.
  assert (Se : forall u v, shape_eqb u v = true -> u = v).
  { clear. intros ((?, ?), ?) ((?, ?), ?) H. unfold shape_eqb in H. apply andb_prop in H. destruct H as (H & H3). apply andb_prop in H. destruct H as (H1 & H2).
    apply Nat.eqb_eq in H1, H2, H3. congruence. }
  apply Se in F1, F2. assert (X : shape t1 = shape t2) by congruence. rewrite (shape_of t1 n1 O1 S1), (shape_of t2 n2 O2 S2) in X.
  destruct n1 as ((a1, b1), c1), n2 as ((a2, b2), c2). apply N. unfold pos3 in O1, O2. cbn in X, O1, O2.
  assert (Z.to_nat a1 = Z.to_nat a2 /\ Z.to_nat b1 = Z.to_nat b2 /\ Z.to_nat c1 = Z.to_nat c2) by (repeat split; congruence).
  assert (a1 = a2) by lia. assert (b1 = b2) by lia. assert (c1 = c2) by lia. congruence.
Qed.
Print Assumptions C45_unequal_tables_rejected.

Example C45_unequal_applies : forall r,
  serve_traveltimes (mk_lut (mk_grid (0, 0, 0)%R (1, 1, 1)%R (2, 1, 1) 1 2)
    [("ST2"%string, [("P"%string, [[[0%R]]; [[1%R]]])]); ("ST1"%string, [("P"%string, [[[1%R]]])])] ["ST1"; "ST2"]%string ["P"]%string)
    1 [("ST1_P"%string, 1); ("ST2_P"%string, 1)] <> Ret r.
Proof.
  intros r. apply (C45_unequal_tables_rejected _ _ _ "ST1" "P" "ST2" "P" [[[1%R]]] [[[0%R]]; [[1%R]]] (1, 1, 1) (2, 1, 1)).
  1-4: unfold plain_name; cbn; intuition discriminate.
  - left. reflexivity.
  - right. left. reflexivity.
  - eexists. split; [reflexivity|]. left. reflexivity.
  - eexists. split; [reflexivity|]. left. reflexivity.
  - unfold pos3. cbn. lia.
  - unfold pos3. cbn. lia.
  - unfold has_shape. cbn. repeat constructor.
  - unfold has_shape. cbn. repeat constructor.
  - discriminate.
Qed.

(** C45, end to end through the migration kernel: the coalescence at node q and sample smp is the
    geometric mean over the available (station, phase) pairs of that pair's onset, delayed by that
    pair's own traveltime to q (in samples, to the nearest). Missing from the claim: names that
    contain an underscore, stations without a table, and tables that are not covered by the pad. *)
Theorem C45_migration_pairs_stations_partial :
  forall r0 l check onset tab phases stations rate first last t,
  let U := used check phases stations in let n := g_count (l_grid l) in
  grid_ok (l_grid l) -> NoDup phases -> NoDup stations -> Forall plain_name phases -> Forall plain_name stations ->
  U <> [] ->
  (forall s p, In (s, p) U -> Z.of_nat (length (onset s p)) = t) ->
  (forall s p, In (s, p) U -> table_of l s p (tab s p) /\ has_shape (tab s p) n) ->
  (forall s p q, In (s, p) U -> is_node n q -> (-2147483648 <= entry0 (tab s p) q * rate <= IZR last)%R) ->
  0 <= first -> 0 <= last -> first + last <= t -> Z.of_nat (length U) * t < 2147483648 ->
  exists (tt : string -> string -> ijk -> Z) m,
    (forall s p q, (Rabs (IZR (tt s p q) - entry0 (tab s p) q * rate) <= 1 / 2)%R)
    /\ compute_map r0 l check onset phases stations rate first last = Ret m
    /\ Z.of_nat (length m) = n_nodes n * (t - first - last)
    /\ forall q smp, is_node n q -> 0 <= smp < t - first - last ->
       rd m (flat n q * (t - first - last) + smp) =
       Some (geometric_mean (map (fun sp =>
               Rmax (value (onset (fst sp) (snd sp)) (first + smp + Z.max 0 (tt (fst sp) (snd sp) q))) (1 / 100)) U)).
Proof.
  intros r0 l check onset tab phases stations rate first last t U n Hg Np Ns Pp Ps HU Hon Ht Hv Hf Hl Hfl Hsz.
  destruct (compute_map_ok r0 l check onset tab phases stations rate first last t Hg Np Ns Pp Ps HU Hon Ht Hv Hf Hl Hfl Hsz)
    as (m & E & Hlen & H).
  exists (fun s p q => ScanMseed_Model.np_round (entry0 (tab s p) q * rate)), m.
  split; [intros s p q; apply np_round_near|]. split; [exact E|]. split; [exact Hlen|]. exact H.
Qed.
Print Assumptions C45_migration_pairs_stations_partial.

(** Two stations, two phases; the S onset of ST1 is missing. Both theorems apply. *)
Definition two : lut :=
  mk_lut (mk_grid (0, 0, 0)%R (1, 1, 1)%R (2, 1, 1) 1 2)
    [("ST2"%string, [("TIME_P"%string, [[[0%R]]; [[1%R]]]); ("S"%string, [[[2%R]]; [[1%R]]])]);
     ("ST1"%string, [("P"%string, [[[1%R]]; [[0%R]]])])] ["ST1"; "ST2"]%string ["P"; "S"]%string.
Definition two_check (s p : string) : bool := negb (String.eqb s "ST1" && String.eqb p "S").
Definition two_tab (s p : string) : table :=
  if String.eqb s "ST1" then [[[1%R]]; [[0%R]]] else if String.eqb p "P" then [[[0%R]]; [[1%R]]] else [[[2%R]]; [[1%R]]].
Lemma plain_ST1 : plain_name "ST1". Proof. unfold plain_name. cbn. intros [H|[H|[H|[]]]]; discriminate. Qed.
Lemma plain_ST2 : plain_name "ST2". Proof. unfold plain_name. cbn. intros [H|[H|[H|[]]]]; discriminate. Qed.
Lemma plain_P : plain_name "P". Proof. unfold plain_name. cbn. intros [H|[]]; discriminate. Qed.
Lemma plain_S : plain_name "S". Proof. unfold plain_name. cbn. intros [H|[]]; discriminate. Qed.
Example C45_applies :
  used two_check ["P"; "S"]%string ["ST1"; "ST2"]%string = [("ST1", "P"); ("ST2", "P"); ("ST2", "S")]%string
  /\ exists m, compute_map {| traveltime := 0; acc := 0 |} two two_check (fun _ _ => [1; 2; 3; 4; 5]%R)
       ["P"; "S"]%string ["ST1"; "ST2"]%string 1 1 2 = Ret m /\ Z.of_nat (length m) = 4.
Proof.
  split; [reflexivity|].
  destruct (C45_migration_pairs_stations_partial {| traveltime := 0; acc := 0 |} two two_check (fun _ _ => [1; 2; 3; 4; 5]%R) two_tab
     ["P"; "S"]%string ["ST1"; "ST2"]%string 1 1 2 5) as (tt & m & _ & E & H & _).
  - unfold grid_ok. cbn. repeat split; try lra; lia.
  - constructor; [intros [H|[]]; discriminate|]. constructor; [intros []|constructor].
  - constructor; [intros [H|[]]; discriminate|]. constructor; [intros []|constructor].
  - constructor; [exact plain_P|]. constructor; [exact plain_S|constructor].
  - constructor; [exact plain_ST1|]. constructor; [exact plain_ST2|constructor].
  - discriminate.
  - reflexivity.
  - intros s p Hin. cbn in Hin. destruct Hin as [H|[H|[H|[]]]]; injection H as <- <-; (split;
      [eexists; split; [reflexivity|]; first [left; reflexivity|right; split; reflexivity]
      |cbn; split; [reflexivity|]; repeat (constructor; [cbn; split; [reflexivity|repeat constructor]|]); constructor]).
  - intros s p ((i, j), k) Hin Hq. cbn in Hq. assert (j = 0) by lia. assert (k = 0) by lia. subst j k.
    assert (Hi : i = 0 \/ i = 1) by lia.
    cbn in Hin. destruct Hin as [H|[H|[H|[]]]]; injection H as <- <-; destruct Hi as [->| ->];
      match goal with |- context [entry0 ?t ?q] => let v := eval cbv -[IZR] in (entry0 t q) in change (entry0 t q) with v end; lra.
  - lia.
  - lia.
  - lia.
  - cbn. lia.
  - exists m. split; [exact E|]. rewrite H. reflexivity.
Qed.

(** C45: a station name with an underscore (allowed everywhere else) stops the migration, whether
    or not data of that station are available. *)
Theorem C45_underscore_refuted :
  exists l check onset availability, lut_ok l /\ (exists t, table_of l "AB_1" "P" t) /\
    calculate_onsets check onset ["P"]%string ["AB_1"; "ST1"]%string = Ret ([onset "ST1" "P"]%string, availability)
    /\ serve_loop l availability = Raise ValueError.
Proof.
  exists (mk_lut (mk_grid (0, 0, 0)%R (1, 1, 1)%R (1, 1, 1) 1 2)
    [("AB_1"%string, [("P"%string, [[[1%R]]])]); ("ST1"%string, [("P"%string, [[[1%R]]])])] ["AB_1"; "ST1"]%string ["P"]%string),
    (fun s _ => String.eqb s "ST1"), (fun _ _ => [1%R]), [("AB_1_P", 0); ("ST1_P", 1)]%string.
  split.
  { split; [unfold grid_ok; cbn; repeat split; try lra; lia|]. intros s m p t. cbn [line one l_tt dget l_grid g_count].
    assert (G : forall m, m = [("P"%string, [[[1%R]]])] -> dget m p = Some t -> has_shape t (1, 1, 1)).
    { intros m0 ->. cbn [dget]. destruct (String.eqb "P" p); [|discriminate]. intros H. injection H as <-. cbn. repeat constructor. }
    destruct (String.eqb "AB_1" s); [intros H; injection H as <-; apply G; reflexivity|].
    destruct (String.eqb "ST1" s); [intros H; injection H as <-; apply G; reflexivity|discriminate]. }
  split; [eexists; eexists; split; [reflexivity|left; reflexivity]|]. split; reflexivity.
Qed.
Print Assumptions C45_underscore_refuted.

(** C45: data of a station without tables in the lookup table end in a TypeError (the lookup
    prints a message and returns None), not in the LUTPhasesException raised for a missing phase. *)
Theorem C45_missing_station_type_error :
  forall r0 l check onset rate first last s p t,
  check s p = true -> plain_name s -> plain_name p -> Z.of_nat (length (onset s p)) = t ->
  dget (l_tt l) s = None ->
  compute_map r0 l check onset [p] [s] rate first last = Raise TypeError.
Proof.
  intros r0 l check onset rate first last s p t Hc Ps Pp Hlen Hs.
  unfold compute_map, calculate_onsets. cbn [fold_left]. unfold onset_step. cbn [fst snd dset]. rewrite Hc.
  cbn [fst snd app values map fold_left]. change (0 + 1 =? 0) with false. cbn [bind stack_first fst snd].
  cbn [forallb]. rewrite Nat.eqb_refl. cbn [andb bind].
  unfold serve_traveltimes. cbn [serve_loop].
  change (s ++ String "_" p)%string with (s ++ "_" ++ p)%string. rewrite (split_key s p Ps Pp). cbn [Z.eqb].
  unfold lookup, getitem. rewrite Hs. reflexivity.
Qed.
Print Assumptions C45_missing_station_type_error.

Example C45_missing_applies :
  compute_map {| traveltime := 0; acc := 0 |} two (fun _ _ => true) (fun _ _ => [1; 2; 3; 4; 5]%R) ["P"]%string ["ST"]%string 1 1 2
  = Raise TypeError.
Proof.
  apply (C45_missing_station_type_error _ _ _ _ _ _ _ _ _ 5); try reflexivity; [|exact plain_P].
  unfold plain_name. cbn. intros [H|[H|[]]]; discriminate.
Qed.

(** C46. Equality is an equivalence relation: equal corners, spacing, node count and projections. *)
Theorem C46_equality :
  (forall a, lut_eqb a a = true) /\ (forall a b, lut_eqb a b = lut_eqb b a)
  /\ (forall a b c, lut_eqb a b = true -> lut_eqb b c = true -> lut_eqb a c = true)
  /\ (forall a b, grid_ok (l_grid a) -> grid_ok (l_grid b) ->
        (lut_eqb a b = true <->
         g_ll (l_grid a) = g_ll (l_grid b) /\ g_spacing (l_grid a) = g_spacing (l_grid b)
         /\ g_count (l_grid a) = g_count (l_grid b) /\ g_gproj (l_grid a) = g_gproj (l_grid b)
         /\ g_cproj (l_grid a) = g_cproj (l_grid b))).
Proof.
  split; [exact lut_eqb_refl|]. split; [exact lut_eqb_sym|]. split; [exact lut_eqb_trans|].
  intros a b Ha Hb. rewrite (lut_eqb_iff a b Ha Hb). destruct (l_grid a), (l_grid b). cbn.
  split; [intros E; injection E as -> -> -> -> ->; tauto|]. intros (-> & -> & -> & -> & ->). reflexivity.
Qed.
Print Assumptions C46_equality.

(** C46. The sum exists exactly for equal grids and contains every station of both; stations in
    only one of the tables keep their arrays. Missing from the claim: stations present in both. *)
Theorem C46_sum_partial :
  forall a b, NoDup (keys (l_tt b)) ->
  (lut_add a b = None <-> lut_eqb a b = false)
  /\ forall c, lut_add a b = Some c ->
     l_grid c = l_grid a
     /\ (forall s, dget (l_tt c) s <> None <-> dget (l_tt a) s <> None \/ dget (l_tt b) s <> None)
     /\ (forall s, dget (l_tt b) s = None -> dget (l_tt c) s = dget (l_tt a) s)
     /\ (forall s, dget (l_tt a) s = None -> dget (l_tt c) s = dget (l_tt b) s).
Proof.
  intros a b Hnd. pose proof (lut_add_ok a b Hnd) as H. destruct (lut_add a b) as [c|].
  - destruct H as (He & Hg & _ & _ & H). split; [split; [discriminate|congruence]|].
    intros c' E. injection E as <-. split; [exact Hg|]. split; [|split].
    + intros s. rewrite H. destruct (dget (l_tt b) s); [|tauto]. split; [intros _; right; discriminate|intros _; discriminate].
    + intros s E. rewrite H, E. reflexivity.
    + intros s E. rewrite H. destruct (dget (l_tt b) s); [reflexivity|exact E].
  - split; [tauto|]. intros c E. discriminate.
Qed.
Print Assumptions C46_sum_partial.

Definition one (name : string) (v : R) : lut :=
  mk_lut (mk_grid (0, 0, 0)%R (1, 1, 1)%R (1, 1, 1) 1 2) [(name, [("P"%string, [[[v]]])])] [name] ["P"%string].
Lemma one_ok name v : lut_ok (one name v).
Proof.
  split; [unfold grid_ok; cbn; repeat split; try lra; lia|]. intros s m p t. cbn [line one l_tt dget l_grid g_count].
  destruct (String.eqb name s); [|discriminate]. intros H. injection H as <-. cbn [dget].
  destruct (String.eqb "P" p); [|discriminate]. intros H. injection H as <-. cbn. repeat constructor.
Qed.
Lemma one_eq n1 v1 n2 v2 : lut_eqb (one n1 v1) (one n2 v2) = true.
Proof. apply (lut_eqb_iff _ _ (proj1 (one_ok _ _)) (proj1 (one_ok _ _))). reflexivity. Qed.
Example C46_applies : exists c, lut_add (one "ST1" 1) (one "ST2" 2) = Some c /\ NoDup (keys (l_tt (one "ST2" 2))).
Proof.
  unfold lut_add. rewrite one_eq. eexists. split; [reflexivity|]. constructor; [intros []|constructor].
Qed.

(** C46: for a station in both tables the documentation keeps the arrays of the first; the code
    takes those of the second. *)
Theorem C46_shared_station_overwritten_refuted :
  exists a b c s p t1 t2, lut_ok a /\ lut_ok b /\ lut_add a b = Some c
    /\ table_of a s p t1 /\ table_of b s p t2 /\ table_of c s p t2 /\ ~ table_of c s p t1.
Proof.
  exists (one "ST1" 1), (one "ST1" 2), (one "ST1" 2), "ST1"%string, "P"%string, [[[1%R]]], [[[2%R]]].
  split; [apply one_ok|]. split; [apply one_ok|].
  split; [unfold lut_add; rewrite one_eq; reflexivity|].
  split; [eexists; split; [reflexivity|left; reflexivity]|].
  split; [eexists; split; [reflexivity|left; reflexivity]|].
  split; [eexists; split; [reflexivity|left; reflexivity]|].
  intros (m & Hm & H). cbn in Hm. injection Hm as <-. cbn in H. destruct H as [H|(H & _)]; [|discriminate].
  injection H as H. lra.
Qed.
Print Assumptions C46_shared_station_overwritten_refuted.

(** C57. The maximum traveltime is the largest entry of the tables of the stations listed in
    station_data and the phases of the lookup table: it bounds every one of them and is attained. *)
Theorem C57_max_traveltime_partial :
  forall l M, lut_ok l -> max_traveltime l = Ret M ->
  (forall s p t q v, In s (l_names l) -> In p (l_phases l) -> table_of l s p t -> entry t q = Some v ->
     is_node (g_count (l_grid l)) q -> (v <= M)%R)
  /\ exists s p t q, In s (l_names l) /\ In p (l_phases l) /\ table_of l s p t
       /\ is_node (g_count (l_grid l)) q /\ entry t q = Some M.
Proof. exact max_traveltime_ok. Qed.
Print Assumptions C57_max_traveltime_partial.

Example C57_applies : lut_ok (one "ST1" 3) /\ max_traveltime (one "ST1" 3) = Ret 3%R.
Proof. split; [apply one_ok|reflexivity]. Qed.

(** C57: tables combined with "+" serve traveltimes larger than their maximum traveltime, because
    the station list of the first table is kept. The scan's trailing pad is computed from the
    maximum traveltime, so the migration of such a table reads outside the onset functions. *)
Theorem C57_combined_tables_exceed_maximum_refuted :
  exists a b c M, lut_ok a /\ lut_ok b /\ lut_add a b = Some c /\ lut_ok c /\ max_traveltime c = Ret M
    /\ exists av tts, av = [("ST1_P", 1); ("ST2_P", 1)]%string
       /\ serve_loop c av = Ret tts /\ exists t v, In t tts /\ entry t (0, 0, 0) = Some v /\ (M < v)%R.
Proof.
  set (c := mk_lut (mk_grid (0, 0, 0)%R (1, 1, 1)%R (1, 1, 1) 1 2)
    [("ST1"%string, [("P"%string, [[[1%R]]])]); ("ST2"%string, [("P"%string, [[[9%R]]])])] ["ST1"%string] ["P"%string]).
  exists (one "ST1" 1), (one "ST2" 9), c, 1%R.
  split; [apply one_ok|]. split; [apply one_ok|].
  split; [unfold lut_add; rewrite one_eq; reflexivity|]. split.
  { split; [unfold grid_ok; cbn; repeat split; try lra; lia|]. intros s m p t. unfold c. cbn [line one l_tt dget l_grid g_count].
    assert (G : forall x m, m = [("P"%string, [[[x : R]]])] -> dget m p = Some t -> has_shape t (1, 1, 1)).
    { intros x m0 ->. cbn [dget]. destruct (String.eqb "P" p); [|discriminate]. intros H. injection H as <-. cbn. repeat constructor. }
    destruct (String.eqb "ST1" s); [intros H; injection H as <-; exact (G 1%R _ eq_refl)|].
    destruct (String.eqb "ST2" s); [intros H; injection H as <-; exact (G 9%R _ eq_refl)|discriminate]. }
  split; [reflexivity|]. eexists _, _. split; [reflexivity|]. split; [reflexivity|].
  exists [[[9%R]]], 9%R. split; [right; left; reflexivity|]. split; [reflexivity|lra].
Qed.
Print Assumptions C57_combined_tables_exceed_maximum_refuted.

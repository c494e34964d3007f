(** Creation of lookup tables: C52 and C71-C77. *)
From Coq Require Import String Ascii.
From Coq Require Import List ZArith Reals Bool Lia Lra.
From Verif Require Import Lib LibFacts PyDict ScanMseed_Model ScanMseed_Proofs Timeline_Proofs Lut_Model Lut_Spec Lut_Proofs Locate_Spec Locate_Proofs
  CreateLut_Model CreateLut_Spec CreateLut_Proofs.
Import ListNotations.
Open Scope R_scope.

(** ** C52: interpolation of the two-dimensional table *)

(** Whatever the origin, the interpolated time lies between the smallest and the largest of the times
    at the four nodes around the point. *)
Theorem C52_range :
  forall ox oz sx sz tt nx nz x z, 0 < sx -> 0 < sz -> has_shape2 tt nx nz -> covered ox sx nx x -> covered oz sz nz z ->
  exists v i k a b c d, bilinear (ox, oz) (sx, sz) tt (x, z) = Ret v
  /\ in_cell ox sx i x /\ in_cell oz sz k z
  /\ entry2 tt i k = Some a /\ entry2 tt (i + 1) k = Some b /\ entry2 tt i (k + 1) = Some c /\ entry2 tt (i + 1) (k + 1) = Some d
  /\ within4 a b c d v.
Proof.
  intros ox oz sx sz tt nx nz x z Hsx Hsz Hs Hx Hz.
  destruct (bilinear_in ox oz sx sz tt nx nz x z Hsx Hsz Hs Hx Hz) as (i & k & a & b & c & d & Ci & Ck & A & B & C & D & E). cbv zeta in E.
  eexists. exists i, k, a, b, c, d. split; [exact E|]. do 6 (split; [assumption|]). apply mix4; [pose proof (remainder_range x sx Hsx)|pose proof (remainder_range z sz Hsz)]; lra.
Qed.
Print Assumptions C52_range.

(** A point beyond the last nodes is refused: no time is made up for it. *)
Theorem C52_beyond_refused :
  forall ox oz sx sz tt nx nz x z, 0 < sx -> 0 < sz -> has_shape2 tt nx nz -> ox <= x -> oz <= z ->
  (ox + IZR (nx - 1) * sx <= x \/ oz + IZR (nz - 1) * sz <= z) -> bilinear (ox, oz) (sx, sz) tt (x, z) = Raise IndexError.
Proof.
  intros ox oz sx sz tt nx nz x z Hsx Hsz (Lt & Hrow) Hx Hz Hb. unfold bilinear.
  assert (F : forall o s n v, 0 < s -> o <= v -> (0 <= floor_div (v - o) s)%Z /\ (o + IZR (n - 1) * s <= v -> (n - 1 <= floor_div (v - o) s)%Z)).
  { intros o s n v Hs Hv. assert (G : forall q, o + IZR q * s <= v -> (q <= floor_div (v - o) s)%Z).
    { intros q Hq. unfold floor_div. destruct (base_Int_part ((v - o) / s)) as (B1 & B2). assert (IZR q <= (v - o) / s) by (apply Rmult_le_reg_r with s; [exact Hs|]; unfold Rdiv; rewrite Rmult_assoc, Rinv_l, Rmult_1_r by lra; lra).
      apply Z.lt_succ_r. apply lt_IZR. rewrite succ_IZR. lra. }
    split; [apply G; lra|apply G]. }
  destruct (F ox sx nx x Hsx Hx) as (I0 & I1). destruct (F oz sz nz z Hsz Hz) as (K0 & K1). set (i := floor_div (x - ox) sx) in *. set (k := floor_div (z - oz) sz) in *. clearbody i k. clear F.
  assert (N : forall i k, bind (np_index tt i) (fun row => np_index row k) = Raise IndexError \/ exists v, bind (np_index tt i) (fun row => np_index row k) = Ret v).
  { assert (N1 : forall A (u : list A) j, np_index u j = Raise IndexError \/ exists v, np_index u j = Ret v) by (intros A u j; unfold np_index; destruct (rd u _) as [v|]; [right; exists v; reflexivity|left; reflexivity]).
    intros a b. destruct (N1 _ tt a) as [-> |(row & ->)]; cbn [bind]; [left; reflexivity|apply N1]. }
  assert (O : forall {A} (u : list A) j, (0 <= j)%Z -> (Z.of_nat (length u) <= j)%Z -> np_index u j = Raise IndexError).
  { intros A u j Hj Hl. unfold np_index. destruct (Z.ltb_spec j 0); [lia|]. rewrite rd_none by (right; exact Hl). reflexivity. }
  assert (Hout : bind (np_index tt (i + 1)) (fun row => np_index row (k + 1)%Z) = Raise IndexError).
  { destruct Hb as [Hb|Hb]; [rewrite (O _ tt (i + 1)%Z) by (try lia; specialize (I1 Hb); lia); reflexivity|]. destruct (np_index tt (i + 1)) as [row|e|] eqn:Er; unfold np_index in Er; destruct (rd tt _) as [row'|] eqn:Er'; try discriminate; cbn [bind]; [|congruence]. assert (row' = row) by congruence. subst row'. apply O; [lia|].
    rewrite Forall_forall in Hrow. rewrite (Hrow row (rd_in _ _ _ _ Er')). specialize (K1 Hb). lia. }
  destruct (N i k) as [-> |(v & ->)]; cbn [bind]; [reflexivity|]. destruct (N (i + 1)%Z k) as [-> |(v' & ->)]; cbn [bind]; [reflexivity|]. rewrite Hout. reflexivity.
Qed.
Print Assumptions C52_beyond_refused.
Example C52_beyond_example : has_shape2 [[1; 2]; [3; 4]] 2 2 /\ bilinear (0, 0) (1, 1) [[1; 2]; [3; 4]] (1, 0) = Raise IndexError.
Proof.
  assert (S : has_shape2 [[1; 2]; [3; 4]] 2 2) by (split; [reflexivity|repeat constructor]). split; [exact S|]. apply (C52_beyond_refused 0 0 1 1 _ 2 2 1 0); try lra; [exact S|]. left. cbn. lra.
Qed.

(** If the origin of the table is a multiple of its spacing, the time is the bilinear interpolation:
    that of the table at its nodes, and exact for times linear in distance and depth. *)
Theorem C52_interpolates_partial :
  forall ox oz sx sz tt nx nz, 0 < sx -> 0 < sz -> has_shape2 tt nx nz -> aligned ox sx -> aligned oz sz ->
  (forall i k v, (0 <= i < nx - 1)%Z -> (0 <= k < nz - 1)%Z -> entry2 tt i k = Some v ->
     bilinear (ox, oz) (sx, sz) tt (ox + IZR i * sx, oz + IZR k * sz) = Ret v)
  /\ (forall p q r, (forall i k, (0 <= i < nx)%Z -> (0 <= k < nz)%Z -> entry2 tt i k = Some (p + q * (ox + IZR i * sx) + r * (oz + IZR k * sz))) ->
      forall x z, covered ox sx nx x -> covered oz sz nz z -> bilinear (ox, oz) (sx, sz) tt (x, z) = Ret (p + q * x + r * z))
  /\ (forall x z, covered ox sx nx x -> covered oz sz nz z ->
      exists i k a b c d, in_cell ox sx i x /\ in_cell oz sz k z
      /\ entry2 tt i k = Some a /\ entry2 tt (i + 1) k = Some b /\ entry2 tt i (k + 1) = Some c /\ entry2 tt (i + 1) (k + 1) = Some d
      /\ bilinear (ox, oz) (sx, sz) tt (x, z)
         = Ret (bilinear_value (ox + IZR i * sx) (ox + IZR (i + 1) * sx) (oz + IZR k * sz) (oz + IZR (k + 1) * sz) a b c d x z)).
Proof.
  intros ox oz sx sz tt nx nz Hsx Hsz Hs Ax Az.
  assert (K : forall x z, covered ox sx nx x -> covered oz sz nz z ->
      exists i k a b c d, in_cell ox sx i x /\ in_cell oz sz k z /\ (0 <= i < nx - 1)%Z /\ (0 <= k < nz - 1)%Z
      /\ entry2 tt i k = Some a /\ entry2 tt (i + 1) k = Some b /\ entry2 tt i (k + 1) = Some c /\ entry2 tt (i + 1) (k + 1) = Some d
      /\ bilinear (ox, oz) (sx, sz) tt (x, z)
         = Ret (bilinear_value (ox + IZR i * sx) (ox + IZR (i + 1) * sx) (oz + IZR k * sz) (oz + IZR (k + 1) * sz) a b c d x z)).
  { intros x z Hx Hz.
    destruct (bilinear_in ox oz sx sz tt nx nz x z Hsx Hsz Hs Hx Hz) as (i & k & a & b & c & d & Ci & Ck & A & B & C & D & E). cbv zeta in E.
    exists i, k, a, b, c, d. split; [exact Ci|]. split; [exact Ck|].
    split; [rewrite <- (cell_floor _ _ _ _ Hsx Ci); apply cell_in; assumption|]. split; [rewrite <- (cell_floor _ _ _ _ Hsz Ck); apply cell_in; assumption|].
    do 4 (split; [assumption|]). rewrite E. f_equal. apply bilinear_aligned; assumption. }
  assert (N : forall o s i, 0 < s -> in_cell o s i (o + IZR i * s)).
  { intros o s i H. unfold in_cell. rewrite plus_IZR. split; lra. }
  split; [|split].
  - intros i k v Hi Hk Hv. destruct (K (ox + IZR i * sx) (oz + IZR k * sz)) as (i' & k' & a & b & c & d & Ci & Ck & _ & _ & A & B & C & D & E).
    + split; [pose proof (IZR_le 0 i ltac:(lia)); pose proof (Rmult_le_pos (IZR i) sx); lra|].
      apply Rplus_lt_compat_l, Rmult_lt_compat_r; [exact Hsx|apply IZR_lt; lia].
    + split; [pose proof (IZR_le 0 k ltac:(lia)); pose proof (Rmult_le_pos (IZR k) sz); lra|].
      apply Rplus_lt_compat_l, Rmult_lt_compat_r; [exact Hsz|apply IZR_lt; lia].
    + assert (i' = i) by (rewrite <- (cell_floor _ _ _ _ Hsx Ci); apply cell_floor; [exact Hsx|apply N; exact Hsx]). subst i'.
      assert (k' = k) by (rewrite <- (cell_floor _ _ _ _ Hsz Ck); apply cell_floor; [exact Hsz|apply N; exact Hsz]). subst k'.
      rewrite E. f_equal. rewrite bilinear_corner; [congruence| |]; rewrite plus_IZR; lra.
  - intros p q r Hlin x z Hx Hz. destruct (K x z Hx Hz) as (i & k & a & b & c & d & Ci & Ck & Bi & Bk & A & B & C & D & E). rewrite E. f_equal.
    assert (a = p + q * (ox + IZR i * sx) + r * (oz + IZR k * sz)) by (rewrite Hlin in A by lia; congruence).
    assert (b = p + q * (ox + IZR (i + 1) * sx) + r * (oz + IZR k * sz)) by (rewrite Hlin in B by lia; congruence).
    assert (c = p + q * (ox + IZR i * sx) + r * (oz + IZR (k + 1) * sz)) by (rewrite Hlin in C by lia; congruence).
    assert (d = p + q * (ox + IZR (i + 1) * sx) + r * (oz + IZR (k + 1) * sz)) by (rewrite Hlin in D by lia; congruence).
    subst a b c d. apply bilinear_linear; rewrite plus_IZR; lra.
  - intros x z Hx Hz. destruct (K x z Hx Hz) as (i & k & a & b & c & d & Ci & Ck & _ & _ & A & B & C & D & E). exists i, k, a, b, c, d. tauto.
Qed.
Print Assumptions C52_interpolates_partial.

Example C52_ex : let tt := [[0; 2; 4]; [1; 3; 5]; [2; 4; 6]] in
  has_shape2 tt 3 3 /\ aligned 0 (1 / 10) /\ aligned (- (6 / 10)) (1 / 10)
  /\ bilinear (0, - (6 / 10)) (1 / 10, 1 / 10) tt (0 + IZR 1 * (1 / 10), - (6 / 10) + IZR 1 * (1 / 10)) = Ret 3.
Proof.
  cbv zeta. assert (S : has_shape2 [[0; 2; 4]; [1; 3; 5]; [2; 4; 6]] 3 3) by (split; [reflexivity|repeat constructor]).
  assert (A : aligned 0 (1 / 10)) by (exists 0%Z; lra). assert (B : aligned (- (6 / 10)) (1 / 10)) by (exists (-6)%Z; lra).
  split; [exact S|]. split; [exact A|]. split; [exact B|].
  destruct (C52_interpolates_partial 0 (- (6 / 10)) (1 / 10) (1 / 10) _ 3 3 ltac:(lra) ltac:(lra) S A B) as (K & _).
  apply K; [lia|lia|reflexivity].
Qed.

(** The fraction of the cell is that of the coordinate, not of its distance from the origin. Whenever
    the depth of the origin is not a multiple of the spacing, interpolation of times linear in depth
    does not even give the time at the origin itself. *)
Theorem C52_origin_off_spacing_refuted :
  forall oz sx sz, 0 < sx -> 0 < sz -> ~ aligned oz sz ->
  exists tt v, has_shape2 tt 3 3 /\ entry2 tt 0 0 = Some 0
  /\ (forall i k, (0 <= i < 3)%Z -> (0 <= k < 3)%Z -> entry2 tt i k = Some (IZR k))
  /\ bilinear (0, oz) (sx, sz) tt (0, oz) = Ret v /\ 0 < v.
Proof.
  intros oz sx sz Hsx Hsz Hn. exists [[0; 1; 2]; [0; 1; 2]; [0; 1; 2]]. eexists. split; [split; [reflexivity|repeat constructor]|]. split; [reflexivity|]. split.
  { intros i k Hi Hk. assert (Ei : (i = 0 \/ i = 1 \/ i = 2)%Z) by lia. assert (Ek : (k = 0 \/ k = 1 \/ k = 2)%Z) by lia.
    destruct Ei as [-> |[-> | ->]], Ek as [-> |[-> | ->]]; reflexivity. }
  cbn [bilinear]. assert (F0 : forall s, 0 < s -> floor_div (0 - 0) s = 0%Z).
  { intros s H. unfold floor_div. replace ((0 - 0) / s) with (IZR 0) by (field; lra). apply Int_part_IZR. }
  assert (F1 : floor_div (oz - oz) sz = 0%Z).
  { unfold floor_div. replace ((oz - oz) / sz) with (IZR 0) by (field; lra). apply Int_part_IZR. }
  rewrite (F0 sx Hsx), F1. cbv zeta. cbn [bind np_index rd Z.ltb Z.compare Z.add Pos.add Z.to_nat Pos.to_nat Pos.iter_op Nat.add nth_error].
  split; [reflexivity|]. set (f := remainder oz sz / sz).
  assert (Hf : 0 < f).
  { destruct (remainder_range oz sz Hsz) as (A & B). fold f in A, B. destruct A as [A|A]; [exact A|]. exfalso. apply Hn. exists (floor_div oz sz).
    assert (E : remainder oz sz = 0). { replace (remainder oz sz) with (f * sz) by (unfold f; field; lra). rewrite <- A. ring. }
    unfold remainder in E. lra. }
  set (g := remainder 0 sx / sx). replace (_ + _) with f by ring. exact Hf.
Qed.
Print Assumptions C52_origin_off_spacing_refuted.

(** A station 550 m above sea level with the default spacing of 100 m. *)
Example C52_off_spacing_ex : ~ aligned (- (55 / 100)) (1 / 10).
Proof. intros (m & E). assert (E' : IZR (2 * m) = IZR (-11)) by (rewrite mult_IZR; lra). apply eq_IZR in E'. lia. Qed.

(** ** C71: the table of NonLinLoc covers the grid *)

(** NonLinLoc is run on a table that covers the depths of the grid and of the station and all
    distances. So every node gets a time, which lies between the smallest and the largest time at the
    nodes of the table around it, and is their bilinear interpolation if the top of the table is a
    multiple of its spacing. Depths must not have more than six decimals (millimetres). *)
Theorem C71_covers_partial :
  forall nlloc g km_cf m dx block phase name st layers,
  obeys nlloc -> grid_ok g -> 0 < km_cf -> 0 < dx -> six_decimals dx ->
  vmodel_string (mk_vmodel (vm_index m) (map (fun kc => (fst kc, map (fun v => v / km_cf) (snd kc))) (vm_cols m))) block phase = Ret layers ->
  let depth n := snd (node2grid g n) / km_cf in
  let xyz := scale km_cf st in
  let top := Rmin (depth first_node) (snd xyz) in
  six_decimals top ->
  exists c t2 t, nlloc c = Ret (c_grid c, t2) /\ c_phase c = phase /\ c_station c = name /\ c_layers c = layers
  /\ nlloc_table nlloc g km_cf m dx block phase (name, st) = Ret t /\ has_shape t (g_count g)
  /\ forall n, is_node (g_count g) n ->
     let x := horizontal xyz (scale km_cf (node2grid g n)) in let z := depth n in
     exists i k v00 v10 v01 v11 v, in_cell 0 dx i x /\ in_cell top dx k z
     /\ entry2 t2 i k = Some v00 /\ entry2 t2 (i + 1) k = Some v10 /\ entry2 t2 i (k + 1) = Some v01 /\ entry2 t2 (i + 1) (k + 1) = Some v11
     /\ entry t n = Some v /\ within4 v00 v10 v01 v11 v
     /\ (aligned top dx ->
         v = bilinear_value (IZR i * dx) (IZR (i + 1) * dx) (top + IZR k * dx) (top + IZR (k + 1) * dx) v00 v10 v01 v11 x z).
Proof. exact nlloc_table_ok. Qed.
Print Assumptions C71_covers_partial.

(** A table of the shape asked for, with the numbers of the depths as times. *)
Definition depth_numbers (c : control) : outcome (nll_grid * list (list R)) :=
  let '(_, ny, nz) := n_count (c_grid c) in Ret (c_grid c, map (fun _ => map IZR (zrange nz)) (zrange ny)).
Definition one_layer : vmodel := mk_vmodel [0%Z] [("Depth", [0]); ("Vp", [5])]%string.
Definition one_node (z : R) : grid := mk_grid (0, 0, z) (1, 1, 1) (1, 1, 1)%Z 1 2.

Lemma scaled_layers block : exists layers, vmodel_string (mk_vmodel (vm_index one_layer) (map (fun kc => (fst kc, map (fun v => v / 1) (snd kc))) (vm_cols one_layer))) block "P" = Ret layers.
Proof. destruct block; eexists; reflexivity. Qed.

Lemma one_node_ok z : grid_ok (one_node z).
Proof. unfold grid_ok. cbn. repeat split; try lra; lia. Qed.

Lemma ceil_zero : np_ceil 0 = 0%Z.
Proof. unfold np_ceil. rewrite Ropp_0. change 0 with (IZR 0) at 1. rewrite Int_part_IZR. reflexivity. Qed.

(** The control of the run for the grid with one node below the station. *)
Lemma one_node_control z block layers : vmodel_string (mk_vmodel (vm_index one_layer) (map (fun kc => (fst kc, map (fun v => v / 1) (snd kc))) (vm_cols one_layer))) block "P" = Ret layers ->
  nlloc_table depth_numbers (one_node z) 1 one_layer (1 / 10) block "P" ("A", (0, 0, z))%string
  = bind (bilinear (0, fmt6 z) (1 / 10, 1 / 10) (map (fun _ => map IZR (zrange 5)) (zrange 5)) (0, z)) (fun v => Ret [[[v]]]).
Proof.
  intros Hl. unfold nlloc_table. cbv zeta. unfold control_file. rewrite Hl.
  assert (Eg : grid_xyz (one_node z) = [(0, 0, z)]).
  { unfold grid_xyz. change (mesh (g_count (one_node z))) with [(0, 0, 0)%Z]. cbn [map]. rewrite node2grid_eq. cbn. unfold axis_coord. do 2 f_equal; [f_equal|]; ring. }
  assert (Ez : forall n, is_node (1, 1, 1)%Z n -> snd (node2grid (one_node z) n) = z).
  { intros ((i, j), k) Hn. cbn in Hn. assert (k = 0%Z) by lia. subst k. rewrite node2grid_eq. cbn. unfold axis_coord. ring. }
  rewrite Eg. cbn [map scale snd fst]. rewrite !Ez by (cbn; lia). replace (z / 1) with z by field. replace (0 / 1) with 0 by field.
  assert (Eh : horizontal (0, 0, z) (0, 0, z) = 0) by (unfold horizontal; cbn; replace (_ + _) with 0 by ring; apply sqrt_0).
  rewrite Eh. cbn [max_distance fold_left bind]. rewrite (Rmin_left z z), (Rmax_left z z) by lra.
  unfold grid_string. replace (0 / (1 / 10)) with 0 by field. replace ((z - z) / (1 / 10)) with 0 by field. rewrite ceil_zero.
  cbn [Z.add]. unfold depth_numbers at 1. cbn [c_grid n_count bind fst snd n_origin n_spacing combine map].
  assert (E1 : fmt6 (1 / 10) = 1 / 10) by (apply fmt6_id; exists 100000%Z; lra). rewrite E1.
  cbn [outcomes]. destruct (bilinear _ _ _ _) as [v| |]; reflexivity.
Qed.

Example C71_ex : obeys depth_numbers /\ grid_ok (one_node 0) /\ six_decimals (1 / 10)
  /\ (exists layers, vmodel_string (mk_vmodel (vm_index one_layer) (map (fun kc => (fst kc, map (fun v => v / 1) (snd kc))) (vm_cols one_layer))) false "P" = Ret layers)
  /\ six_decimals (Rmin (snd (node2grid (one_node 0) first_node) / 1) (snd (scale 1 (0, 0, 0)))).
Proof.
  split; [|split; [apply one_node_ok|split; [exists 100000%Z; lra|split; [apply scaled_layers|]]]].
  - intros c nx ny nz E Hy Hz. unfold depth_numbers. rewrite E. eexists. split; [reflexivity|].
    split; [rewrite map_length, zrange_length; lia|]. apply Forall_forall. intros row Hr. apply in_map_iff in Hr. destruct Hr as (x & <- & _). rewrite map_length, zrange_length. lia.
  - unfold first_node. rewrite node2grid_eq. cbn. unfold axis_coord. exists 0%Z. rewrite Rmin_left; lra.
Qed.

(** The depth of the top is written with six decimals. Rounded up, the table starts below the first
    nodes of the grid; their index is -1, and the times come from the bottom of the table. *)
Theorem C71_rounded_top_refuted :
  exists nlloc g st t v, obeys nlloc /\ grid_ok g /\ st = node2grid g first_node
  /\ nlloc_table nlloc g 1 one_layer (1 / 10) false "P" ("A"%string, st) = Ret t /\ entry t first_node = Some v
  /\ (forall c g2 t2, nlloc c = Ret (g2, t2) -> forall i k w, (k <= 1)%Z -> entry2 t2 i k = Some w -> w <= 1)
  /\ 2 < v.
Proof.
  set (z := 5499996 / 10000000).
  assert (Ef : fmt6 z = 55 / 100).
  { unfold fmt6. assert (E : np_round (z * 1000000) = 550000%Z).
    { unfold np_round. rewrite (Int_part_unique _ 549999) by (unfold z; lra).
      destruct Rlt_dec as [L|]; [unfold z in L; lra|]. destruct Rlt_dec as [_|L]; [reflexivity|unfold z in L; lra]. }
    rewrite E. lra. }
  destruct (scaled_layers false) as (layers & Hl).
  assert (Ei : floor_div (0 - 0) (1 / 10) = 0%Z) by (unfold floor_div; apply Int_part_unique; lra).
  assert (Ek : floor_div (z - 55 / 100) (1 / 10) = (-1)%Z) by (unfold floor_div; apply Int_part_unique; unfold z; lra).
  assert (E5 : floor_div z (1 / 10) = 5%Z) by (unfold floor_div; apply Int_part_unique; unfold z; lra).
  assert (E0 : floor_div 0 (1 / 10) = 0%Z) by (unfold floor_div; apply Int_part_unique; lra).
  exists depth_numbers, (one_node z), (0, 0, z). eexists. eexists.
  split; [apply C71_ex|]. split; [apply one_node_ok|]. split.
  { unfold first_node. rewrite node2grid_eq. cbn. unfold axis_coord. f_equal; [f_equal|]; ring. }
  split.
  { etransitivity; [exact (one_node_control z false layers Hl)|]. rewrite Ef. unfold bilinear, remainder. rewrite Ei, Ek, E5, E0. cbv zeta.
    cbn [zrange Z.to_nat Pos.to_nat Pos.iter_op Nat.add zseq map Z.add Pos.add Z.pos_sub]. cbn. reflexivity. }
  split; [reflexivity|]. split.
  - intros c g2 t2 H i k w Hk Hw. unfold depth_numbers in H. destruct (n_count (c_grid c)) as ((nx, ny), nz). injection H as _ <-.
    unfold entry2 in Hw. destruct (rd (map _ _) i) as [row|] eqn:Er; [|discriminate]. apply rd_in in Er. apply in_map_iff in Er. destruct Er as (x & <- & _).
    rewrite rd_map in Hw. destruct (rd (zrange nz) k) as [k'|] eqn:Ek'; [|discriminate]. cbn in Hw. injection Hw as <-.
    pose proof (rd_bounds _ _ _ _ Ek') as B. rewrite zrange_length in B. rewrite rd_zrange in Ek' by lia. injection Ek' as <-. apply (IZR_le k 1). exact Hk.
  - unfold z. change (IZR (0 + 1 + 1 + 1 + 1)) with 4. match goal with |- _ < ?e => replace e with (2000016 / 1000000) by field end. lra.
Qed.
Print Assumptions C71_rounded_top_refuted.

(** ** C72: velocity models *)

(** A model with increasing depths and rows numbered from 0 has one velocity at each depth: linear
    between its depths and constant above and below. *)
Theorem C72_one_velocity :
  forall depths vs z v v', increasing depths -> length vs = length depths ->
  gradient_velocity depths vs z v -> gradient_velocity depths vs z v' -> v = v'.
Proof. exact gradient_unique. Qed.
Print Assumptions C72_one_velocity.

(** Fast marching uses this velocity at every depth, and NonLinLoc's layers have it below the first
    depth, up to the rounding of the gradients to six decimals. Layers of a block model have the
    velocity of the deepest depth not below. *)
Theorem C72_same_model :
  forall m phase depths vs fmin fmax, standard m phase depths vs ->
  (forall d, In d depths -> fmin < d < fmax) -> (forall d, In d depths -> six_decimals d) -> (forall w, In w vs -> six_decimals w) ->
  exists nodes layers blocks, fmm_nodes fmin fmax m phase = Ret nodes
  /\ vmodel_string m false phase = Ret layers /\ vmodel_string m true phase = Ret blocks
  /\ (forall z, fmin <= z <= fmax -> exists v, interp1d nodes z = Ret v /\ gradient_velocity depths vs z v)
  /\ (forall z v i d, gradient_velocity depths vs z v -> rd depths i = Some d -> d <= z -> (forall d', rd depths (i + 1) = Some d' -> z < d') ->
      (exists w, layer_velocity layers z = Some w /\ Rabs (w - v) <= 5 / 10000000 * (z - d))
      /\ (exists w, rd vs i = Some w /\ layer_velocity blocks z = Some w)).
Proof.
  intros m phase depths vs fmin fmax Hm Hd Hd6 Hv6. pose proof Hm as (Hi & Hcd & Hcv & Hl & Hinc & Hne).
  assert (Hdeep : forall z i d, rd depths i = Some d -> d <= z -> (forall d', rd depths (i + 1) = Some d' -> z < d') -> deepest depths z i).
  { intros z i d H1 H2 H3. split; [exists d; auto|]. intros j e Hj He. pose proof (rd_bounds _ _ _ _ He). pose proof (rd_bounds _ _ _ _ H1).
    destruct (Z.eq_dec j (i + 1)) as [->|]; [exact (H3 e He)|]. destruct (rd_in_range _ depths (i + 1)) as [d' Hd']; [lia|].
    pose proof (H3 d' Hd'). pose proof (increasing_lt _ Hinc (i + 1)%Z j d' e ltac:(lia) Hd' He). lra. }
  assert (En : exists nodes, extended fmin fmax depths vs = Ret nodes).
  { destruct vs as [|v vr]; [destruct depths; [contradiction|discriminate]|]. eexists. reflexivity. }
  destruct En as (nodes & En). destruct (vmodel_string_ok m phase depths vs false Hm) as (layers & El & _). destruct (layers_block m phase depths vs Hm Hd6 Hv6) as (blocks & Eb & Hb).
  exists nodes, layers, blocks. split; [unfold fmm_nodes, column; rewrite Hcd, Hcv; exact En|]. split; [exact El|]. split; [exact Eb|]. split.
  - intros z Hz. destruct (fmm_velocity fmin fmax depths vs z Hinc Hne Hl Hd Hz) as (nodes' & v & E & F & G). assert (nodes' = nodes) by congruence. subst nodes'.
    exists v. tauto.
  - intros z v i d Hg H1 H2 H3. pose proof (Hdeep z i d H1 H2 H3) as Hdp. split; [|exact (Hb z i Hdp)].
    destruct (layers_gradient m phase depths vs z v Hm Hd6 Hv6 Hg) as (layers' & El' & K). assert (layers' = layers) by congruence. subst layers'.
    destruct (K i Hdp) as (d' & w & A & B & C). assert (d' = d) by congruence. subst d'. exists w. tauto.
Qed.
Print Assumptions C72_same_model.

Definition two_layers : vmodel := mk_vmodel [0; 1]%Z [("Depth", [0; 10]); ("Vp", [4; 6]); ("Vs", [2; 3])]%string.
Example C72_ex : standard two_layers "P" [0; 10] [4; 6] /\ gradient_velocity [0; 10] [4; 6] 5 5
  /\ (forall d, In d [0; 10] -> six_decimals d) /\ (forall w, In w [4; 6] -> six_decimals w).
Proof.
  split; [|split; [|split]].
  - unfold standard. cbn. repeat split; try reflexivity; try lra. discriminate.
  - right. right. exists 0%Z, 0, 10, 4, 6. repeat split; try reflexivity; lra.
  - intros d [<-|[<-|[]]]; [exists 0%Z|exists 10000000%Z]; lra.
  - intros d [<-|[<-|[]]]; [exists 4000000%Z|exists 6000000%Z]; lra.
Qed.

(** The layers for NonLinLoc are taken by row label, not by position. A model sorted by depth whose
    rows keep their old labels gives layers in the old order, and a wrong velocity. *)
Theorem C72_row_labels_refuted :
  exists m layers, dget (vm_cols m) "Depth"%string = Some [0; 10] /\ dget (vm_cols m) "Vp"%string = Some [4; 6]
  /\ vmodel_string m false "P" = Ret layers
  /\ ~ increasing (map (fun l => fst (fst l)) layers)
  /\ gradient_velocity [0; 10] [4; 6] 20 6 /\ exists w, layer_velocity layers 20 = Some w /\ w < 5.
Proof.
  exists (mk_vmodel [1; 0]%Z [("Depth", [0; 10]); ("Vp", [4; 6])]%string). eexists. split; [reflexivity|]. split; [reflexivity|]. split; [reflexivity|].
  assert (F : forall n, fmt6 (IZR n) = IZR n) by (intros n; apply fmt6_id; exists (n * 1000000)%Z; rewrite mult_IZR; field).
  cbn [map fst]. rewrite !F. split; [cbn; lra|]. split.
  - right. left. exists 10, 6. repeat split; try reflexivity; lra.
  - cbn [layer_velocity]. destruct (Rle_dec 0 20); [|lra]. eexists. split; [reflexivity|]. lra.
Qed.
Print Assumptions C72_row_labels_refuted.

(** ** C73: fast marching *)

(** Each station is moved to the node closest to it, at most half a spacing away along each axis, and
    the traveltimes of the fast marching method from there, with the velocities of the model at the
    depths of the nodes, are what the lookup table returns for it. *)
Theorem C73_station_nodes :
  forall transform skfmm nlloc fmin fmax llc urc spacing gp cp km_cf stations phases kw l m,
  compute_traveltimes transform skfmm nlloc fmin fmax llc urc spacing gp cp km_cf stations "1dfmm" phases kw = Ret l ->
  NoDup (map fst stations) -> kw_vmod kw = Some m ->
  forall name xyz p, In (name, xyz) stations -> In p phases ->
  let st := transform cp gp xyz in
  exists n v, lookup l name p = Ret (skfmm (g_count (l_grid l)) n v (g_spacing (l_grid l)))
  /\ closest (l_grid l) st n /\ inside (l_grid l) st
  /\ (let '(x, y, z) := st in let '(a, b, c) := node2grid (l_grid l) n in let '(s1, s2, s3) := g_spacing (l_grid l) in
      Rabs (x - a) <= s1 / 2 /\ Rabs (y - b) <= s2 / 2 /\ Rabs (z - c) <= s3 / 2)
  /\ forall depths vs q, standard m p depths vs -> (forall d, In d depths -> fmin < d < fmax) -> is_node (g_count (l_grid l)) q ->
     gradient_velocity depths vs (snd (node2grid (l_grid l) q)) (v q).
Proof.
  intros transform skfmm nlloc fmin fmax llc urc spacing gp cp km_cf stations phases kw l m H Hnd Hm name xyz p Hs Hp st.
  destruct (compute_parts transform skfmm nlloc fmin fmax llc urc spacing gp cp km_cf stations "1dfmm" phases kw l H Hnd) as (Hg & _ & _ & _ & A & _). cbv zeta in A.
  pose proof (grid_init_ok _ _ _ _ _ _ _ Hg) as (Hok & _).
  destruct (A (name, st) p) as (t & Ht & Hst); [apply in_map_iff; exists (name, xyz); auto|exact Hp|]. cbn [fst] in Hst.
  unfold method_table in Ht. cbn [String.eqb Ascii.eqb Bool.eqb] in Ht. rewrite Hm in Ht.
  destruct (fmm_nodes fmin fmax m p) as [nodes| |] eqn:En; cbn [bind] in Ht; try discriminate.
  destruct (existsb _ _) eqn:Eo; [discriminate|]. destruct (velocities nodes (l_grid l)) as [v| |] eqn:Ev; cbn [bind] in Ht; try discriminate.
  unfold fmm_table in Ht. cbn [snd] in Ht. destruct (station_node (l_grid l) st) as [n| |] eqn:Esn; cbn [bind] in Ht; try discriminate.
  assert (t = skfmm (g_count (l_grid l)) n v (g_spacing (l_grid l))) by congruence. subst t.
  exists n, v. split; [apply stored_lookup; exact Hst|]. split; [apply station_node_closest; assumption|].
  assert (Hin : inside (l_grid l) st).
  { apply (outside_inside transform llc urc spacing gp cp); [exact Hg|]. destruct (outside (g_ll (l_grid l)) (transform cp gp urc) st) eqn:E; [|reflexivity].
    exfalso. apply not_true_iff_false in Eo. apply Eo. apply existsb_exists. exists (name, st). split; [apply in_map_iff; exists (name, xyz); auto|exact E]. }
  split; [exact Hin|]. split; [apply station_node_half; assumption|].
  intros depths vs q (Hi & Hcd & Hcv & Hl & Hinc & Hne) Hd Hq. pose proof (velocities_at _ _ _ Ev q Hq) as Hv.
  unfold fmm_nodes, column in En. rewrite Hcd, Hcv in En.
  assert (Hr : fmin <= snd (node2grid (l_grid l) q) <= fmax).
  { destruct vs as [|v0 vr]; [destruct depths; [contradiction|discriminate]|]. cbn [extended] in En.
    assert (nodes = combine (fmin :: depths ++ [fmax]) (v0 :: (v0 :: vr) ++ [last (v0 :: vr) v0])) by congruence. subst nodes.
    cbn [combine] in Hv. unfold interp1d in Hv. destruct (Rlt_dec _ fmin) as [|N1]; [discriminate|]. destruct (Rlt_dec _ _) as [|N2]; [discriminate|].
    split; [lra|]. apply Rnot_lt_le in N2. eapply Rle_trans; [exact N2|]. clear -Hl.
    assert (Ln : length (depths ++ [fmax]) = length ((v0 :: vr) ++ [last (v0 :: vr) v0])) by (rewrite !app_length; cbn [length] in *; lia).
    set (r := combine (depths ++ [fmax]) ((v0 :: vr) ++ [last (v0 :: vr) v0])).
    assert (En : map fst r = depths ++ [fmax]) by (apply map_fst_combine_; exact Ln).
    assert (Hnn : r <> []) by (intros E; rewrite E in En; destruct depths; discriminate).
    destruct (exists_last Hnn) as (r' & (a & b) & E). rewrite E in *. rewrite last_app. rewrite map_app in En. cbn [map fst] in En. apply app_inj_tail in En. cbn. lra. }
  destruct (fmm_velocity fmin fmax depths vs _ Hinc Hne Hl Hd Hr) as (nodes' & w & E & F & G). assert (nodes' = nodes) by congruence. subst nodes'.
  assert (w = v q) by congruence. subst w. exact G.
Qed.
Print Assumptions C73_station_nodes.

(** ** C74: homogeneous models *)

(** In a homogeneous model the traveltime is distance over velocity: not negative, zero just for a
    node at the station, and between two nodes it differs by at most the time between them. *)
Theorem C74_straight_rays :
  forall transform skfmm nlloc fmin fmax llc urc spacing gp cp km_cf stations phases kw l,
  compute_traveltimes transform skfmm nlloc fmin fmax llc urc spacing gp cp km_cf stations "homogeneous" phases kw = Ret l ->
  NoDup (map fst stations) ->
  forall name xyz p, In (name, xyz) stations -> In p phases ->
  exists vel t, kw_velocity kw ("v" ++ lower p)%string = Some vel /\ lookup l name p = Ret t
  /\ (0 < vel -> forall n, is_node (g_count (l_grid l)) n ->
      exists x, entry t n = Some x /\ x * vel = distance (transform cp gp xyz) (node2grid (l_grid l) n)
      /\ 0 <= x /\ (x = 0 <-> transform cp gp xyz = node2grid (l_grid l) n)
      /\ forall n' x', is_node (g_count (l_grid l)) n' -> entry t n' = Some x' ->
         Rabs (x - x') * vel <= distance (node2grid (l_grid l) n) (node2grid (l_grid l) n')).
Proof.
  intros transform skfmm nlloc fmin fmax llc urc spacing gp cp km_cf stations phases kw l H Hnd name xyz p Hs Hp. set (st := transform cp gp xyz).
  destruct (compute_parts transform skfmm nlloc fmin fmax llc urc spacing gp cp km_cf stations "homogeneous" phases kw l H Hnd) as (Hg & _ & _ & _ & A & _). cbv zeta in A.
  destruct (A (name, st) p) as (t & Ht & Hst); [apply in_map_iff; exists (name, xyz); auto|exact Hp|]. cbn [fst] in Hst.
  unfold method_table in Ht. cbn [String.eqb Ascii.eqb Bool.eqb] in Ht. destruct (kw_velocity kw ("v" ++ lower p)) as [vel|] eqn:Ev; [|discriminate].
  cbn [snd] in Ht. assert (t = homogeneous_table (l_grid l) vel st) by congruence. subst t. exists vel. eexists. split; [reflexivity|].
  split; [apply stored_lookup; exact Hst|]. intros Hv.
  assert (E : forall n, is_node (g_count (l_grid l)) n -> entry (homogeneous_table (l_grid l) vel st) n = Some (straight_time vel st (node2grid (l_grid l) n))).
  { intros n Hn. unfold homogeneous_table. rewrite (tabulate_entry (g_count (l_grid l)) (fun n => straight_time vel st (node2grid (l_grid l) n))) by exact Hn. reflexivity. }
  intros n Hn. exists (straight_time vel st (node2grid (l_grid l) n)). split; [apply E; exact Hn|]. split; [apply straight_distance; exact Hv|].
  split; [apply straight_nonneg; exact Hv|]. split.
  - rewrite <- distance_zero, <- (straight_distance vel) by exact Hv. split; [intros ->; ring|]. intros F. apply Rmult_integral in F. destruct F; [assumption|lra].
  - intros n' x' Hn' Hx'. rewrite (E n' Hn') in Hx'. assert (x' = straight_time vel st (node2grid (l_grid l) n')) by congruence. subst x'.
    rewrite <- (Rabs_right vel) at 3 by lra. rewrite <- Rabs_mult. rewrite Rmult_minus_distr_r, !straight_distance by exact Hv.
    pose proof (triangle st (node2grid (l_grid l) n) (node2grid (l_grid l) n')). pose proof (triangle st (node2grid (l_grid l) n') (node2grid (l_grid l) n)).
    rewrite (distance_sym (node2grid (l_grid l) n') (node2grid (l_grid l) n)) in *. apply Rabs_le. lra.
Qed.
Print Assumptions C74_straight_rays.

(** ** C75: the lookup table as a whole *)

(** A lookup table that is returned has the grid of the specification, the stations and phases asked
    for, a table of the shape of the grid for each of them and none besides. *)
Theorem C75_complete :
  forall transform skfmm nlloc fmin fmax llc urc spacing gp cp km_cf stations method phases kw l,
  makes_tables skfmm ->
  compute_traveltimes transform skfmm nlloc fmin fmax llc urc spacing gp cp km_cf stations method phases kw = Ret l ->
  NoDup (map fst stations) ->
  lut_ok l /\ grid_init transform llc urc spacing gp cp = Ret (l_grid l) /\ l_names l = map fst stations /\ l_phases l = phases
  /\ (forall name p, In name (map fst stations) -> In p phases -> exists t, lookup l name p = Ret t)
  /\ (forall name m p t, dget (l_tt l) name = Some m -> dget m p = Some t -> In name (map fst stations) /\ In p phases).
Proof.
  intros transform skfmm nlloc fmin fmax llc urc spacing gp cp km_cf stations method phases kw l Hsk H Hnd.
  destruct (compute_parts transform skfmm nlloc fmin fmax llc urc spacing gp cp km_cf stations method phases kw l H Hnd) as (Hg & Hn & Hph & _ & A & B). cbv zeta in A, B.
  pose proof (grid_init_ok _ _ _ _ _ _ _ Hg) as (Hok & _).
  assert (Bs : forall s m p t, dget (l_tt l) s = Some m -> dget m p = Some t -> stored (l_tt l) s p = Some t).
  { intros s m p t E F. unfold stored. rewrite E. exact F. }
  split; [|split; [exact Hg|split; [exact Hn|split; [exact Hph|split]]]].
  - split; [exact Hok|]. intros s m p t E F. destruct (B s p t (Bs s m p t E F)) as (_ & s' & _ & _ & G). eapply method_shape; eauto.
  - intros name p Hin Hp. apply in_map_iff in Hin. destruct Hin as (s & <- & Hs).
    destruct (A (fst s, transform cp gp (snd s)) p) as (t & _ & F); [apply in_map_iff; exists s; auto|exact Hp|]. exists t. apply stored_lookup. exact F.
  - intros s m p t E F. destruct (B s p t (Bs s m p t E F)) as (G & s' & I & J & _). split; [|exact G]. apply in_map_iff in I. destruct I as (s0 & <- & I). cbn [fst] in J. subst s. apply in_map. exact I.
Qed.
Print Assumptions C75_complete.

(** "1dsweep" is another name of "1dnlloc"; any other method than the documented ones is rejected, as
    are a missing velocity or velocity model. With a velocity for each phase the homogeneous method
    succeeds whenever the grid is valid. *)
Theorem C75_methods :
  forall transform skfmm nlloc fmin fmax llc urc spacing gp cp km_cf stations phases kw g,
  let run method := compute_traveltimes transform skfmm nlloc fmin fmax llc urc spacing gp cp km_cf stations method phases kw in
  grid_init transform llc urc spacing gp cp = Ret g ->
  run "1dsweep"%string = run "1dnlloc"%string
  /\ run "3dfmm"%string = Raise NotImplementedErr
  /\ (forall method, ~ In method ["homogeneous"; "1dfmm"; "3dfmm"; "1dnlloc"; "1dsweep"]%string -> run method = Raise ValueError)
  /\ (kw_vmod kw = None -> run "1dfmm"%string = Raise TypeError /\ run "1dnlloc"%string = Raise TypeError)
  /\ ((forall p, In p phases -> kw_velocity kw ("v" ++ lower p)%string <> None) <-> exists l, run "homogeneous"%string = Ret l).
Proof.
  intros transform skfmm nlloc fmin fmax llc urc spacing gp cp km_cf stations phases kw g run Hg.
  split; [reflexivity|]. split; [unfold run, compute_traveltimes; rewrite Hg; reflexivity|]. split; [|split].
  - intros method Hn. unfold run, compute_traveltimes. rewrite Hg. cbn [bind].
    destruct (String.eqb_spec method "1dsweep") as [->|]; [exfalso; apply Hn; cbn; tauto|].
    destruct (String.eqb_spec method "homogeneous") as [->|]; [exfalso; apply Hn; cbn; tauto|].
    destruct (String.eqb_spec method "1dfmm") as [->|]; [exfalso; apply Hn; cbn; tauto|].
    destruct (String.eqb_spec method "3dfmm") as [->|]; [exfalso; apply Hn; cbn; tauto|].
    destruct (String.eqb_spec method "1dnlloc") as [->|]; [exfalso; apply Hn; cbn; tauto|]. reflexivity.
  - intros Hm. unfold run, compute_traveltimes. rewrite Hg, Hm. split; reflexivity.
  - unfold run, compute_traveltimes. rewrite Hg. cbn [bind String.eqb Ascii.eqb Bool.eqb]. set (sts := map _ stations).
    assert (K : forall phases tt, (forall p, In p phases -> kw_velocity kw ("v" ++ lower p)%string <> None)
      <-> exists tts, put_phases (fun p s => match kw_velocity kw ("v" ++ lower p)%string with Some v => Ret (homogeneous_table g v (snd s)) | None => Raise TypeError end)
           (fun p => match kw_velocity kw ("v" ++ lower p)%string with Some _ => Ret Datatypes.tt | None => Raise TypeError end) sts phases tt = Ret tts).
    { induction phases0 as [|p r IH]; intros tt; cbn [put_phases].
      - split; [eauto|]. intros _ p [].
      - destruct (kw_velocity kw ("v" ++ lower p)) as [v|] eqn:Ev; cbn [bind].
        + destruct (put_stations_total (fun s => Ret (homogeneous_table g v (snd s))) p sts tt) as (tt' & Et); [intros s _; eauto|].
          rewrite Et. cbn [bind]. rewrite <- IH. split.
          * intros H q Hq. apply H. right. exact Hq.
          * intros H q [<-|Hq]; [congruence|apply H; exact Hq].
        + split; [intros H; exfalso; exact (H p (or_introl eq_refl) Ev)|]. intros (tts & E). discriminate. }
    rewrite (K phases []). split.
    + intros (tts & ->). cbn [bind]. eexists. reflexivity.
    + intros (l & E). destruct (put_phases _ _ sts phases []) as [tts| |]; try discriminate. eexists. reflexivity.
Qed.
Print Assumptions C75_methods.

(** A grid of 2 x 2 x 3 nodes with two stations, in a model of velocity 5 or of two layers. *)
Definition cube_stations : list (string * vec) := [("A", (0, 0, 0)); ("B", (1, 1 / 4, 1 / 2))]%string.
Definition cube_kw : kwargs := mk_kwargs (fun p => if String.eqb p "vp" then Some 5 else None) (Some two_layers) (1 / 10) false.
Definition no_fmm (n q : ijk) (v : ijk -> R) (s : vec) : table := tabulate n (fun _ => 0).
Lemma cube_grid : exists g, grid_init (fun _ _ v => v) (0, 0, 0) (0 + IZR (2 - 1) * 1, 0 + IZR (2 - 1) * 1, 0 + IZR (3 - 1) * 1) [1] 1 2 = Ret g
  /\ g_ll g = (0, 0, 0) /\ g_spacing g = (1, 1, 1) /\ g_count g = (2, 2, 3)%Z.
Proof.
  unfold grid_init, coord2grid. cbn [set_spacing]. destruct (Rlt_dec 0 1) as [_|]; [|lra]. cbn [bind].
  rewrite !axis_count_exact by lra. rewrite set_count_ok by lia. cbn [bind]. eexists. split; [reflexivity|]. repeat split; reflexivity.
Qed.

Example C75_ex : exists l, compute_traveltimes (fun _ _ v => v) no_fmm depth_numbers (-1000) 1000 (0, 0, 0)
    (0 + IZR (2 - 1) * 1, 0 + IZR (2 - 1) * 1, 0 + IZR (3 - 1) * 1) [1] 1 2 1 cube_stations "homogeneous" ["P"%string] cube_kw = Ret l
  /\ NoDup (map fst cube_stations) /\ makes_tables no_fmm.
Proof.
  destruct cube_grid as (g & Hg & _).
  destruct (C75_methods (fun _ _ v => v) no_fmm depth_numbers (-1000) 1000 _ _ _ _ _ 1 cube_stations ["P"%string] cube_kw g Hg) as (_ & _ & _ & _ & K).
  destruct (proj1 K) as (l & E); [intros p [<-|[]]; discriminate|]. exists l. split; [exact E|]. split.
  - cbn. repeat constructor; cbn; intuition discriminate.
  - intros nx ny nz q v sp Hx Hy Hz. apply tabulate_shape. cbn. auto.
Qed.

Example C73_ex : exists l, compute_traveltimes (fun _ _ v => v) no_fmm depth_numbers (-1000) 1000 (0, 0, 0)
    (0 + IZR (2 - 1) * 1, 0 + IZR (2 - 1) * 1, 0 + IZR (3 - 1) * 1) [1] 1 2 1 cube_stations "1dfmm" ["P"%string] cube_kw = Ret l
  /\ standard two_layers "P" [0; 10] [4; 6] /\ (forall d, In d [0; 10] -> -1000 < d < 1000).
Proof.
  destruct cube_grid as (g & Hg & Hll & Hsp & Hc).
  assert (Hd : forall d, In d [0; 10] -> -1000 < d < 1000) by (intros d [<-|[<-|[]]]; lra).
  assert (Hok : grid_ok g) by (unfold grid_ok; rewrite Hsp, Hc; repeat split; try lra; lia).
  destruct (proj1 C72_ex) as (S1 & S2 & S3 & S4 & S5 & S6).
  unfold compute_traveltimes. rewrite Hg. cbn [bind String.eqb Ascii.eqb Bool.eqb kw_vmod cube_kw fold_left]. unfold compute_1d_fmm, fmm_nodes, column. rewrite S2, S3.
  cbn [extended bind cube_stations map fst snd]. unfold coord2grid. rewrite Hll.
  assert (Eo : forall x y z, 0 <= x <= 1 -> 0 <= y <= 1 -> 0 <= z <= 2 ->
    outside (0, 0, 0) (0 + IZR (2 - 1) * 1, 0 + IZR (2 - 1) * 1, 0 + IZR (3 - 1) * 1) (x, y, z) = false).
  { intros x y z Hx Hy Hz. unfold outside. cbn [Z.sub Z.opp Z.add Z.pos_sub Pos.pred_double].
    repeat (match goal with |- context [Rlt_dec ?a ?b] => destruct (Rlt_dec a b); [lra|] end). reflexivity. }
  cbn [existsb snd]. rewrite !Eo by lra. cbn [orb].
  unfold velocities. destruct (outcomes_map (node_velocity (combine ((-1000) :: [0; 10] ++ [1000]) (4 :: [4; 6] ++ [last [4; 6] 4])) g) (mesh (g_count g))) as (vs & Evs & _).
  { intros n Hn. rewrite mesh_nodes in Hn. apply in_all_nodes in Hn. unfold node_velocity.
    assert (Hz : -1000 <= snd (node2grid g n) <= 1000).
    { rewrite node2grid_eq. rewrite Hll, Hsp. destruct n as ((i, j), k). rewrite Hc in Hn. cbn in Hn. cbn [snd]. unfold axis_coord.
      assert (0 <= IZR k <= 2) by (split; [apply (IZR_le 0)|apply (IZR_le k 2)]; lia). lra. }
    destruct (fmm_velocity (-1000) 1000 [0; 10] [4; 6] _ S5 S6 S4 Hd Hz) as (nodes & w & E & F & _). exists w. cbn [extended] in E.
    assert (nodes = combine ((-1000) :: [0; 10] ++ [1000]) (4 :: [4; 6] ++ [last [4; 6] 4])) by congruence. subst nodes. exact F. }
  rewrite Evs. cbn [bind put_stations]. unfold fmm_table. cbn [fst snd].
  destruct (station_node_min g (0, 0, 0) Hok) as (n1 & -> & _). cbn [bind]. destruct (station_node_min g (1, 1 / 4, 1 / 2) Hok) as (n2 & -> & _). cbn [bind].
  eexists. split; [reflexivity|]. split; [exact (proj1 C72_ex)|exact Hd].
Qed.

Example C74_ex : distance (0, 0, 0) (3, 4, 0) = 5 /\ straight_time 5 (0, 0, 0) (3, 4, 0) = 1.
Proof.
  assert (E : distance (0, 0, 0) (3, 4, 0) = 5). { unfold distance, dist2. replace (_ + _ + _) with (5 * 5) by ring. apply sqrt_square. lra. }
  split; [exact E|]. pose proof (straight_distance 5 (0, 0, 0) (3, 4, 0) ltac:(lra)). lra.
Qed.

(** ** C76: projections of NonLinLoc files *)

Ltac tokens :=
  unfold read_transform, read_grid, float_at, int_at, token, rd;
  cbn [h_trans h_grid simple_line lambert_line tmerc_line Z.ltb Z.compare Z.to_nat];
  repeat match goal with |- context [Pos.to_nat ?p] => let n := eval compute in (Pos.to_nat p) in change (Pos.to_nat p) with n end;
  unfold simple_line, lambert_line, tmerc_line; cbn [nth_error bind String.eqb Ascii.eqb Bool.eqb].

(** Latitude and longitude of the origin given in the header are the centre of the projection, for
    the SIMPLE and LAMBERT transforms; the standard parallels of the latter are kept. *)
Theorem C76_projection_partial :
  forall to_float hg lat lon rot vlat vlon, to_float lat = Ret vlat -> to_float lon = Ret vlon ->
  (exists p, read_transform to_float (mk_header hg (simple_line lat lon rot)) = Ret (Some p, "SIMPLE"%string)
   /\ centre p = (vlat, vlon) /\ dget p "proj"%string = Some (PStr "eqc") /\ dget p "units"%string = Some (PStr "km"))
  /\ (forall ell p1 p2 v1 v2, to_float p1 = Ret v1 -> to_float p2 = Ret v2 ->
      exists p, read_transform to_float (mk_header hg (lambert_line ell lat lon p1 p2 rot)) = Ret (Some p, "LAMBERT"%string)
      /\ centre p = (vlat, vlon) /\ dget p "proj"%string = Some (PStr "lcc") /\ dget p "units"%string = Some (PStr "km")
      /\ dget p "lat_1"%string = Some (PNum v1) /\ dget p "lat_2"%string = Some (PNum v2)
      /\ forall proj_name, In (ell, proj_name) proj_ellipsoids -> dget p "ellps"%string = Some (PStr proj_name)).
Proof.
  intros to_float hg lat lon rot vlat vlon Hlat Hlon. split.
  - eexists. split; [|split; [|split]].
    { tokens. rewrite Hlat. cbn [bind]. rewrite Hlon. reflexivity. }
    all: reflexivity.
  - intros ell p1 p2 v1 v2 H1 H2. eexists. split; [|repeat split].
    { tokens. rewrite Hlat. cbn [bind]. rewrite Hlon. cbn [bind]. rewrite H1. cbn [bind]. rewrite H2. reflexivity. }
    all: try reflexivity.
    intros pn I. cbn [In proj_ellipsoids] in I. repeat (destruct I as [I|I]; [injection I as <- <-; reflexivity|]). destruct I.
Qed.
Print Assumptions C76_projection_partial.

(** For the TRANS_MERC transform the numbers are passed as "lat" and "lon", which are not parameters
    of a projection: whatever the header says, the centre is at latitude and longitude 0. *)
Theorem C76_transverse_mercator_refuted :
  forall to_float hg ell lat lon rot vlat vlon, to_float lat = Ret vlat -> to_float lon = Ret vlon ->
  exists p, read_transform to_float (mk_header hg (tmerc_line ell lat lon rot)) = Ret (Some p, "TRANS_MERC"%string) /\ centre p = (0, 0).
Proof.
  intros to_float hg ell lat lon rot vlat vlon Hlat Hlon. eexists. split.
  { tokens. rewrite Hlat. cbn [bind]. rewrite Hlon. reflexivity. }
  reflexivity.
Qed.
Print Assumptions C76_transverse_mercator_refuted.

(** The rotation of the grid is ignored: grids rotated by different angles get the same projection. *)
Theorem C76_rotation_refuted :
  forall to_float hg ell lat lon p1 p2 rot rot',
  read_transform to_float (mk_header hg (simple_line lat lon rot)) = read_transform to_float (mk_header hg (simple_line lat lon rot'))
  /\ read_transform to_float (mk_header hg (lambert_line ell lat lon p1 p2 rot)) = read_transform to_float (mk_header hg (lambert_line ell lat lon p1 p2 rot'))
  /\ read_transform to_float (mk_header hg (tmerc_line ell lat lon rot)) = read_transform to_float (mk_header hg (tmerc_line ell lat lon rot')).
Proof. intros. split; [|split]; reflexivity. Qed.
Print Assumptions C76_rotation_refuted.

(** Numbers of the examples. *)
Definition ex_float (s : string) : outcome R :=
  match dget [("0", 0); ("1", 1); ("2", 2); ("35.5", 71 / 2); ("-120", -120); ("30", 30); ("40", 40)]%string s with Some v => Ret v | None => Raise ValueError end.
Definition ex_int (s : string) : outcome Z :=
  match dget [("1", 1); ("2", 2); ("3", 3)]%string%Z s with Some v => Ret v | None => Raise ValueError end.
Example C76_ex : ex_float "35.5" = Ret (71 / 2) /\ ex_float "-120" = Ret (-120)
  /\ exists p, read_transform ex_float (mk_header [] (lambert_line "WGS-84" "35.5" "-120" "30" "40" "0")) = Ret (Some p, "LAMBERT"%string) /\ centre p = (71 / 2, -120).
Proof. split; [reflexivity|]. split; [reflexivity|]. eexists. split; reflexivity. Qed.

(** ** C77: reading NonLinLoc files *)

(** If the projection is inverted exactly, the grid read is that of the header of the first file, and
    each table with the same numbers of nodes holds the numbers of its file, in C order. If all files
    have the same numbers of nodes, the lookup table is consistent. *)
Theorem C77_read_nlloc_partial :
  forall to_int to_float transform pid cproj files stations phases l,
  (forall p v, transform cproj (pid p) (transform (pid p) cproj v) = v) ->
  read_nlloc to_int to_float transform pid cproj files stations phases = Ret l ->
  l_names l = stations /\ l_phases l = phases
  /\ (exists s0 p0 h0 b0 gs p, rd stations 0 = Some s0 /\ rd phases 0 = Some p0 /\ dget files (nll_name p0 s0) = Some (h0, b0)
      /\ header_says to_int to_float h0 gs /\ (exists name, read_transform to_float h0 = Ret (Some p, name))
      /\ grid_ok (l_grid l) /\ g_count (l_grid l) = n_count gs /\ g_ll (l_grid l) = n_origin gs /\ g_spacing (l_grid l) = n_spacing gs
      /\ g_gproj (l_grid l) = pid p /\ g_cproj (l_grid l) = cproj)
  /\ (forall s p, In s stations -> In p phases ->
      exists h buf gs t, dget files (nll_name p s) = Some (h, buf) /\ header_says to_int to_float h gs /\ lookup l s p = Ret t
      /\ (n_count gs = g_count (l_grid l) ->
          has_shape t (g_count (l_grid l)) /\ forall n, is_node (g_count (l_grid l)) n -> entry t n = rd buf (flat (g_count (l_grid l)) n)))
  /\ ((forall s p h buf gs, In s stations -> In p phases -> dget files (nll_name p s) = Some (h, buf) -> header_says to_int to_float h gs ->
        n_count gs = g_count (l_grid l)) -> lut_ok l).
Proof.
  intros to_int to_float transform pid cproj files stations phases l Hinv H.
  destruct (read_nlloc_parts _ _ _ _ _ _ _ _ _ H) as (Hn & Hp & (s0 & p0 & gs & tr & t & I1 & I2 & R1 & R2 & F0 & G0) & A & B).
  destruct (grid_of_file_exact transform pid cproj gs tr (l_grid l) Hinv G0) as (Hok & E1 & E2 & E3 & E4 & p & E5 & E6).
  assert (K : forall s p, In s stations -> In p phases ->
      exists h buf gs t, dget files (nll_name p s) = Some (h, buf) /\ header_says to_int to_float h gs /\ stored (l_tt l) s p = Some t
      /\ (n_count gs = g_count (l_grid l) ->
          has_shape t (g_count (l_grid l)) /\ forall n, is_node (g_count (l_grid l)) n -> entry t n = rd buf (flat (g_count (l_grid l)) n))).
  { intros s q Hs Hq. destruct (A s q Hs Hq) as (gs1 & tr1 & t1 & Ft & St). destruct (file_table_parts _ _ _ _ _ _ _ _ Ft) as (h & buf & D & Rg & _ & Rb).
    exists h, buf, gs1, t1. split; [exact D|]. split; [apply read_grid_says; exact Rg|]. split; [exact St|]. intros E. rewrite E in Rb. apply read_buffer_ok; [apply grid_ok_pos; exact Hok|exact Rb]. }
  split; [exact Hn|]. split; [exact Hp|]. split; [|split].
  - destruct (file_table_parts _ _ _ _ _ _ _ _ F0) as (h & buf & D & Rg & Rt & _). apply read_grid_says in Rg. exists s0, p0, h, buf, gs, p.
    destruct tr as (tp, name). cbn [fst] in E5. subst tp. do 4 (split; [assumption|]). split; [exists name; exact Rt|]. tauto.
  - intros s q Hs Hq. destruct (K s q Hs Hq) as (h & buf & gs1 & t1 & D1 & D2 & D3 & D4). exists h, buf, gs1, t1. split; [exact D1|]. split; [exact D2|]. split; [apply stored_lookup; exact D3|exact D4].
  - intros Hsame. split; [exact Hok|]. intros s m q t1 Em Et. assert (St : stored (l_tt l) s q = Some t1) by (unfold stored; rewrite Em; exact Et).
    destruct (B s q t1 St) as (Hs & Hq). destruct (K s q Hs Hq) as (h & buf & gs1 & t2 & D1 & D2 & D3 & D4). assert (t2 = t1) by congruence. subst t2.
    apply D4. exact (Hsame s q h buf gs1 Hs Hq D1 D2).
Qed.
Print Assumptions C77_read_nlloc_partial.

(** Two files of a grid of 3 x 1 x 1 nodes with spacing 1, starting at [x]. *)
Definition ex_header (x : string) : header := mk_header ["3"; "1"; "1"; x; "0"; "0"; "1"; "1"; "1"]%string (simple_line "35.5" "-120" "0").
Definition ex_files (x x' : string) : dict (header * list R) :=
  [("layer.P.A.time", (ex_header x, [0; 1; 2])); ("layer.P.B.time", (ex_header x', [3; 4; 5]))]%string.
Lemma ex_read tr x x' vx vx' g : ex_float x = Ret vx -> ex_float x' = Ret vx' ->
  grid_init tr (tr 1%Z 2%Z (vx, 0, 0)) (tr 1%Z 2%Z (vx + IZR (3 - 1) * 1, 0 + IZR (1 - 1) * 1, 0 + IZR (1 - 1) * 1)) [1; 1; 1] 1 2 = Ret g ->
  read_nlloc ex_int ex_float tr (fun _ => 1%Z) 2 (ex_files x x') ["A"; "B"]%string ["P"]%string
  = Ret (mk_lut g [("A", [("P", [[[0]]; [[1]]; [[2]]])]); ("B", [("P", [[[3]]; [[4]]; [[5]]])])]%string ["A"; "B"]%string ["P"]%string).
Proof.
  intros Hx Hx' Hg. unfold read_nlloc. cbn [flat_map map app fold_left bind]. unfold read_step at 1. cbn [fst snd].
  assert (F1 : read_nlloc_file ex_int ex_float (ex_header x, [0; 1; 2]) = Ret (mk_nll (3, 1, 1)%Z (vx, 0, 0) (1, 1, 1),
      (Some [("proj", PStr "eqc"); ("lat_0", PNum (71 / 2)); ("lon_0", PNum (-120)); ("units", PStr "km")]%string, "SIMPLE"%string), [[[0]]; [[1]]; [[2]]])).
  { unfold read_nlloc_file, read_grid, int_at, float_at, token. cbn [fst snd]. tokens. unfold ex_header. cbn [h_grid h_trans]. change (ex_int "3") with (Ret 3%Z). change (ex_int "1") with (Ret 1%Z). cbn [bind]. rewrite Hx. reflexivity. }
  assert (F2 : read_nlloc_file ex_int ex_float (ex_header x', [3; 4; 5]) = Ret (mk_nll (3, 1, 1)%Z (vx', 0, 0) (1, 1, 1),
      (Some [("proj", PStr "eqc"); ("lat_0", PNum (71 / 2)); ("lon_0", PNum (-120)); ("units", PStr "km")]%string, "SIMPLE"%string), [[[3]]; [[4]]; [[5]]])).
  { unfold read_nlloc_file, read_grid, int_at, float_at, token. cbn [fst snd]. tokens. unfold ex_header. cbn [h_grid h_trans]. change (ex_int "3") with (Ret 3%Z). change (ex_int "1") with (Ret 1%Z). cbn [bind]. rewrite Hx'. reflexivity. }
  change (open_file (ex_files x x') "P" "A") with (Ret (ex_header x, [0; 1; 2])). cbn [bind]. rewrite F1. cbn [bind grid_of_file fst snd n_spacing n_origin n_count vmap2].
  rewrite Hg. cbn [bind]. unfold read_step. cbn [fst snd]. change (open_file (ex_files x x') "P" "B") with (Ret (ex_header x', [3; 4; 5])). cbn [bind]. rewrite F2. reflexivity.
Qed.

Lemma ex_grid vx : exists g, grid_init (fun _ _ v => v) (vx, 0, 0) (vx + IZR (3 - 1) * 1, 0 + IZR (1 - 1) * 1, 0 + IZR (1 - 1) * 1) [1; 1; 1] 1 2 = Ret g
  /\ g_ll g = (vx, 0, 0) /\ g_count g = (3, 1, 1)%Z.
Proof.
  unfold grid_init, coord2grid. rewrite set_spacing3 by lra. cbn [bind]. rewrite !axis_count_exact by lra. rewrite set_count_ok by lia. cbn [bind].
  eexists. split; [reflexivity|]. split; reflexivity.
Qed.

Example C77_ex : exists l, read_nlloc ex_int ex_float (fun _ _ v => v) (fun _ => 1%Z) 2 (ex_files "1" "1") ["A"; "B"]%string ["P"]%string = Ret l.
Proof. destruct (ex_grid 1) as (g & Hg & _). eexists. exact (ex_read (fun _ _ v => v) "1" "1" 1 1 g eq_refl eq_refl Hg). Qed.

(** Only the first file is asked for the grid. A file with another origin is read as if its nodes were
    those of the first file. *)
Theorem C77_later_headers_refuted :
  exists to_int to_float pid files l h buf gs,
  read_nlloc to_int to_float (fun _ _ v => v) pid 2 files ["A"; "B"]%string ["P"]%string = Ret l
  /\ dget files (file_name "P" "B") = Some (h, buf) /\ read_grid to_int to_float h = Ret gs /\ n_origin gs = (1, 0, 0)
  /\ node2grid (l_grid l) first_node = (0, 0, 0) /\ exists t, lookup l "B" "P" = Ret t /\ entry t first_node = rd buf 0.
Proof.
  destruct (ex_grid 0) as (g & Hg & Hll & _). exists ex_int, ex_float, (fun _ => 1%Z), (ex_files "0" "1"). eexists. exists (ex_header "1"), [3; 4; 5]. eexists.
  split; [exact (ex_read (fun _ _ v => v) "0" "1" 0 1 g eq_refl eq_refl Hg)|]. split; [reflexivity|]. split; [reflexivity|]. split; [reflexivity|]. cbn [l_grid].
  split; [unfold first_node; rewrite node2grid_eq, Hll; destruct (g_spacing g) as ((s1, s2), s3); unfold axis_coord; f_equal; [f_equal|]; ring|].
  eexists. split; reflexivity.
Qed.
Print Assumptions C77_later_headers_refuted.

(** The corners are transformed to geographical coordinates and back, and the number of nodes is
    rounded up. However small the error of the projection, it can add a node that the tables lack. *)
Theorem C77_inexact_projection_refuted :
  forall eps, 0 < eps < 1 / 4 ->
  exists to_int to_float transform pid files l,
  (forall p v, let '(x, y, z) := v in let '(x', y', z') := transform 2%Z (pid p) (transform (pid p) 2%Z v) in
     Rabs (x' - x) <= eps * Rabs x /\ y' = y /\ z' = z)
  /\ read_nlloc to_int to_float transform pid 2 files ["A"; "B"]%string ["P"]%string = Ret l
  /\ (forall name h buf, dget files name = Some (h, buf) -> exists gs, read_grid to_int to_float h = Ret gs /\ n_count gs = (3, 1, 1)%Z)
  /\ g_count (l_grid l) = (4, 1, 1)%Z /\ ~ lut_ok l.
Proof.
  intros eps Heps. set (tr := fun (a b : Z) (v : vec) => let '(x, y, z) := v in if (a =? 2)%Z then ((1 + eps) * x, y, z) else (x, y, z)).
  assert (Hg : exists g, grid_init tr (tr 1%Z 2%Z (0, 0, 0)) (tr 1%Z 2%Z (0 + IZR (3 - 1) * 1, 0 + IZR (1 - 1) * 1, 0 + IZR (1 - 1) * 1)) [1; 1; 1] 1 2 = Ret g
    /\ g_count g = (4, 1, 1)%Z).
  { unfold grid_init, coord2grid, tr. cbn [Z.eqb Pos.eqb]. rewrite set_spacing3 by lra. cbn [bind]. rewrite (axis_count_exact 0 1 1) by lra.
    assert (E : axis_count ((1 + eps) * 0) ((1 + eps) * (0 + IZR (3 - 1) * 1)) 1 = 4%Z).
    { unfold axis_count. cbn [Z.sub Z.opp Z.add Z.pos_sub Pos.pred_double]. unfold np_ceil. rewrite (Int_part_unique _ (-3)) by lra. reflexivity. }
    rewrite E, set_count_ok by lia. cbn [bind]. eexists. split; reflexivity. }
  destruct Hg as (g & Hg & Hc). exists ex_int, ex_float, tr, (fun _ => 1%Z), (ex_files "0" "0"). eexists. split; [|split; [exact (ex_read tr "0" "0" 0 0 g eq_refl eq_refl Hg)|split; [|split]]].
  - intros p ((x, y), z). unfold tr. cbn [Z.eqb Pos.eqb]. split; [|split; reflexivity]. replace ((1 + eps) * x - x) with (eps * x) by ring. rewrite Rabs_mult, (Rabs_right eps) by lra. lra.
  - intros name h buf Hd. unfold ex_files in Hd. cbn [dget] in Hd. destruct (String.eqb _ name); [|destruct (String.eqb _ name); [|discriminate]].
    + assert (h = ex_header "0") by congruence. subst h. eexists. split; reflexivity.
    + assert (h = ex_header "0") by congruence. subst h. eexists. split; reflexivity.
  - exact Hc.
  - intros (_ & Hs). cbn [l_grid l_tt] in Hs. specialize (Hs "A"%string _ "P"%string _ eq_refl eq_refl). rewrite Hc in Hs. destruct Hs as (Hs & _). discriminate.
Qed.
Print Assumptions C77_inexact_projection_refuted.

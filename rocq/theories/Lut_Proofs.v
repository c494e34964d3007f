(** Proofs about lookup tables. *)
From Coq Require Import String Ascii.
From Coq Require Import List ZArith Reals Lra Lia Bool.
From Verif Require Import Lib LibFacts PyDict Migrate_Model Migrate_Spec Migrate_Proofs ScanMseed_Model ScanMseed_Proofs
  Lut_Model Lut_Spec.
Import ListNotations.
Open Scope Z_scope.

(** * Flat indices *)
Lemma flat_range n p : is_node n p -> 0 <= flat n p < n_nodes n.
Proof.
  destruct n as ((nx, ny), nz), p as ((i, j), k). cbn. intros (Hi & Hj & Hk).
  assert (A : 0 <= i * ny + j < nx * ny).
  { split; [apply Z.add_nonneg_nonneg; [apply Z.mul_nonneg_nonneg|]; lia|].
    assert (i * ny <= (nx - 1) * ny) by (apply Z.mul_le_mono_nonneg_r; lia). lia. }
  split; [apply Z.add_nonneg_nonneg; [apply Z.mul_nonneg_nonneg|]; lia|].
  assert ((i * ny + j) * nz <= (nx * ny - 1) * nz) by (apply Z.mul_le_mono_nonneg_r; lia). lia.
Qed.

Lemma unravel_flat n p : is_node n p -> unravel_index (flat n p) n = Ret p.
Proof.
  intros H. pose proof (flat_range n p H) as F. destruct n as ((nx, ny), nz), p as ((i, j), k).
  unfold unravel_index. cbn [n_nodes] in F.
  rewrite (proj2 (Z.leb_le _ _)) by lia. rewrite (proj2 (Z.ltb_lt _ _)) by lia. cbn [andb].
  cbn in H. destruct H as (Hi & Hj & Hk). cbn [flat].
  assert (E1 : ((i * ny + j) * nz + k) / nz = i * ny + j).
  { symmetry. apply (Z.div_unique _ _ _ k); lia. }
  assert (E2 : ((i * ny + j) * nz + k) mod nz = k).
  { symmetry. apply (Z.mod_unique _ _ (i * ny + j)); lia. }
  assert (E3 : (i * ny + j) mod ny = j) by (symmetry; apply (Z.mod_unique _ _ i); lia).
  assert (E4 : ((i * ny + j) * nz + k) / (ny * nz) = i).
  { rewrite (Z.mul_comm ny nz), <- Z.div_div by lia.
    rewrite E1. symmetry. apply (Z.div_unique _ _ _ j); lia. }
  rewrite E1, E2, E3, E4. reflexivity.
Qed.

Lemma unravel_inv f n : (let '(nx, ny, nz) := n in 0 < nx /\ 0 < ny /\ 0 < nz) -> 0 <= f < n_nodes n ->
  exists p, unravel_index f n = Ret p /\ is_node n p /\ flat n p = f.
Proof.
  destruct n as ((nx, ny), nz). intros (Hx & Hy & Hz) Hf. cbn [n_nodes] in Hf.
  set (p := (f / nz / ny, (f / nz) mod ny, f mod nz)).
  assert (Hp : is_node (nx, ny, nz) p /\ flat (nx, ny, nz) p = f).
  { subst p. cbn. pose proof (Z.div_mod f nz ltac:(lia)). pose proof (Z.mod_pos_bound f nz Hz).
    pose proof (Z.div_mod (f / nz) ny ltac:(lia)). pose proof (Z.mod_pos_bound (f / nz) ny Hy).
    assert (0 <= f / nz < nx * ny).
    { split; [apply Z.div_pos; lia|]. apply Z.div_lt_upper_bound; [lia|]. lia. }
    split; [|lia]. repeat split; try lia.
    - apply Z.div_pos; lia.
    - apply Z.div_lt_upper_bound; lia. }
  destruct Hp as (H1 & H2). exists p. split; [|tauto]. rewrite <- H2. apply unravel_flat. exact H1.
Qed.

(** * Node coordinates *)
Open Scope R_scope.
Lemma node2grid_eq g p :
  node2grid g p = (let '(lx, ly, lz) := g_ll g in let '(sx, sy, sz) := g_spacing g in let '(i, j, k) := p in
    (axis_coord lx sx i, axis_coord ly sy j, axis_coord lz sz k)).
Proof.
  unfold node2grid, vmap2, axis_coord. destruct (g_ll g) as ((?, ?), ?), (g_spacing g) as ((?, ?), ?), p as ((?, ?), ?).
  reflexivity.
Qed.

Lemma axis_near ll s v : 0 < s -> Rabs (v - axis_coord ll s (np_round ((v - ll) / s))) <= s / 2.
Proof.
  intros Hs. pose proof (np_round_near ((v - ll) / s)) as H. apply Rabs_le_inv in H.
  set (i := IZR (np_round ((v - ll) / s))) in *. unfold axis_coord. fold i.
  set (q := (v - ll) / s) in *.
  assert (E : v - (ll + i * s) = (q - i) * s) by (subst q; field; lra).
  rewrite E. apply Rabs_le.
  assert (A : (-1/2) * s <= (q - i) * s) by (apply Rmult_le_compat_r; lra).
  assert (B : (q - i) * s <= (1/2) * s) by (apply Rmult_le_compat_r; lra). lra.
Qed.

Lemma axis_unique ll s v i : 0 < s -> Rabs (v - axis_coord ll s i) < s / 2 -> np_round ((v - ll) / s) = i.
Proof.
  intros Hs H. pose proof (axis_near ll s v Hs) as N. apply Rabs_le_inv in N.
  apply Rabs_def2 in H. set (j := np_round ((v - ll) / s)) in *. unfold axis_coord in *.
  assert (D : - 1 < IZR j - IZR i < 1).
  { split; apply (Rmult_lt_reg_r s); lra. }
  rewrite <- minus_IZR in D. destruct D as (D1 & D2).
  apply (lt_IZR (-1)) in D1. apply (lt_IZR _ 1) in D2. lia.
Qed.

Lemma axis_nearest ll s v i : 0 < s ->
  Rabs (v - axis_coord ll s (np_round ((v - ll) / s))) <= Rabs (v - axis_coord ll s i).
Proof.
  intros Hs. destruct (Rlt_le_dec (Rabs (v - axis_coord ll s i)) (s / 2)) as [H|H].
  - rewrite (axis_unique ll s v i Hs H). lra.
  - pose proof (axis_near ll s v Hs). lra.
Qed.

Lemma axis_in_range ll s v n : 0 < s -> (0 < n)%Z -> ll <= v <= axis_coord ll s (n - 1) ->
  (0 <= np_round ((v - ll) / s) < n)%Z.
Proof.
  intros Hs Hn (H1 & H2). unfold axis_coord in H2.
  assert (A : (np_round (IZR 0) <= np_round ((v - ll) / s))%Z).
  { apply np_round_mono. apply Rmult_le_reg_r with s; [exact Hs|]. unfold Rdiv.
    rewrite Rmult_assoc, Rinv_l by lra. lra. }
  assert (B : (np_round ((v - ll) / s) <= np_round (IZR (n - 1)))%Z).
  { apply np_round_mono. apply Rmult_le_reg_r with s; [exact Hs|]. unfold Rdiv.
    rewrite Rmult_assoc, Rinv_l by lra. lra. }
  rewrite !np_round_IZR in *. lia.
Qed.

Lemma np_ceil_spec x : x <= IZR (np_ceil x) < x + 1.
Proof. unfold np_ceil. rewrite opp_IZR. pose proof (base_Int_part (- x)). lra. Qed.

Lemma axis_count_covers ll ur s : 0 < s -> ll <= ur ->
  (0 < axis_count ll ur s)%Z /\ ur <= axis_coord ll s (axis_count ll ur s - 1) < ur + s.
Proof.
  intros Hs Hl. unfold axis_count, axis_coord. set (q := (ur - ll) / s).
  pose proof (np_ceil_spec q) as (A & B).
  assert (Hq : q * s = ur - ll) by (subst q; field; lra).
  assert (0 <= q) by (apply Rmult_le_reg_r with s; lra).
  replace (np_ceil q + 1 - 1)%Z with (np_ceil q) by lia. split.
  - assert (C : IZR (-1) < IZR (np_ceil q)) by lra. apply lt_IZR in C. lia.
  - split.
    + assert (q * s <= IZR (np_ceil q) * s) by (apply Rmult_le_compat_r; lra). lra.
    + assert (IZR (np_ceil q) * s < (q + 1) * s) by (apply Rmult_lt_compat_r; lra). lra.
Qed.

Lemma set_count_inv v n : set_count v = Ret n -> n = v /\
  (let '(a, b, c) := n in 0 < a <= 2147483647 /\ 0 < b <= 2147483647 /\ 0 < c <= 2147483647)%Z.
Proof.
  destruct v as ((a, b), c). unfold set_count.
  destruct (int32 a) eqn:Ea; [|discriminate]. destruct (int32 b) eqn:Eb; [|discriminate].
  destruct (int32 c) eqn:Ec; [|discriminate].
  apply int32_inv in Ea. apply int32_inv in Eb. apply int32_inv in Ec.
  destruct ((0 <? z) && (0 <? z0) && (0 <? z1))%Z eqn:E; [|discriminate].
  apply andb_true_iff in E. destruct E as (E & E3). apply andb_true_iff in E. destruct E as (E1 & E2).
  apply Z.ltb_lt in E1, E2, E3. intros H. injection H as <-.
  destruct Ea as (-> & ?), Eb as (-> & ?), Ec as (-> & ?). split; [reflexivity|]. repeat split; lia.
Qed.

Lemma set_count_ok a b c : (0 < a <= 2147483647 -> 0 < b <= 2147483647 -> 0 < c <= 2147483647 ->
  set_count (a, b, c) = Ret (a, b, c))%Z.
Proof.
  intros. unfold set_count. rewrite !int32_some by lia.
  rewrite !(proj2 (Z.ltb_lt _ _)) by lia. reflexivity.
Qed.

Lemma set_spacing3 a b c : 0 < a -> 0 < b -> 0 < c -> set_spacing [a; b; c] = Ret (a, b, c).
Proof. intros. unfold set_spacing. repeat (destruct Rlt_dec; [|contradiction]). reflexivity. Qed.

Lemma set_spacing_inv l sp : set_spacing l = Ret sp ->
  (let '(a, b, c) := sp in 0 < a /\ 0 < b /\ 0 < c /\ (l = [a; b; c] \/ (l = [a] /\ b = a /\ c = a))).
Proof.
  destruct l as [|a [|b [|c [|d r]]]]; unfold set_spacing; try discriminate.
  - destruct (Rlt_dec 0 a); [|discriminate]. intros H. injection H as <-. tauto.
  - do 3 (destruct Rlt_dec; [|discriminate]). intros H. injection H as <-. tauto.
Qed.

Lemma grid_init_ok tr ll ur sp gp cp g : grid_init tr ll ur sp gp cp = Ret g ->
  grid_ok g /\ g_ll g = tr cp gp ll /\ g_gproj g = gp /\ g_cproj g = cp
  /\ set_spacing sp = Ret (g_spacing g)
  /\ g_count g = (let '(l1, l2, l3) := tr cp gp ll in let '(u1, u2, u3) := tr cp gp ur in
                  let '(s1, s2, s3) := g_spacing g in (axis_count l1 u1 s1, axis_count l2 u2 s2, axis_count l3 u3 s3)).
Proof.
  unfold grid_init, coord2grid. destruct (set_spacing sp) as [v| |] eqn:Es; try discriminate. cbn [bind].
  destruct (tr cp gp ll) as ((l1, l2), l3) eqn:El, (tr cp gp ur) as ((u1, u2), u3) eqn:Eu, v as ((s1, s2), s3).
  destruct (set_count _) as [n| |] eqn:En; try discriminate. cbn [bind]. intros H. injection H as <-.
  apply set_count_inv in En. destruct En as (-> & Hn). apply set_spacing_inv in Es as Hs.
  cbn. split; [|tauto]. unfold grid_ok. cbn. tauto.
Qed.

Lemma roundtrip_each g p v : grid_ok g ->
  each3 (fun w l s i => Rabs (w - axis_coord l s i) < s / 2) v (g_ll g) (g_spacing g) p ->
  grid2node g v = p.
Proof.
  unfold grid_ok, grid2node, vmap2. destruct (g_ll g) as ((l1, l2), l3), (g_spacing g) as ((s1, s2), s3), (g_count g) as ((n1, n2), n3).
  destruct v as ((v1, v2), v3), p as ((i, j), k). cbn. intros ((S1 & S2 & S3) & _) (H1 & H2 & H3).
  rewrite (axis_unique _ _ _ _ S1 H1), (axis_unique _ _ _ _ S2 H2), (axis_unique _ _ _ _ S3 H3). reflexivity.
Qed.

(** * Decimation *)
Close Scope R_scope.
Lemma stride_rd A d : (0 < d)%nat -> forall (l : list A) c j, 0 <= j ->
  rd (stride d c l) j = rd l (Z.of_nat c + j * Z.of_nat d).
Proof.
  intros Hd. induction l as [|x r IH]; intros c j Hj.
  - cbn [stride]. rewrite !rd_nil. reflexivity.
  - cbn [stride]. destruct c as [|c].
    + rewrite rd_cons. destruct (Z.eqb_spec j 0) as [->|Hne].
      * cbn [Z.of_nat]. rewrite Z.mul_0_l, Z.add_0_l, rd_0. reflexivity.
      * rewrite IH by lia.
        assert (1 * Z.of_nat d <= j * Z.of_nat d) by (apply Z.mul_le_mono_nonneg_r; lia).
        rewrite (rd_cons _ x r). rewrite (proj2 (Z.eqb_neq _ _)) by lia.
        f_equal. rewrite Nat2Z.inj_sub by lia. lia.
    + rewrite IH by exact Hj. rewrite (rd_cons _ x r).
      assert (0 <= j * Z.of_nat d) by (apply Z.mul_nonneg_nonneg; lia).
      rewrite (proj2 (Z.eqb_neq _ _)) by lia. f_equal. lia.
Qed.

Lemma stride_length A d (l : list A) c m : (0 < d)%nat -> 0 <= m ->
  Z.of_nat c + (m - 1) * Z.of_nat d < Z.of_nat (length l) <= Z.of_nat c + m * Z.of_nat d ->
  Z.of_nat (length (stride d c l)) = m.
Proof.
  intros Hd Hm H. set (n := Z.of_nat (length (stride d c l))).
  destruct (Z.lt_trichotomy n m) as [L|[E|G]]; [exfalso|exact E|exfalso].
  - assert (R : rd (stride d c l) n = None) by (apply rd_none; right; subst n; lia).
    rewrite stride_rd in R by (subst n; lia).
    destruct (rd_in_range _ l (Z.of_nat c + n * Z.of_nat d)) as (x & E); [|congruence].
    assert (n * Z.of_nat d <= (m - 1) * Z.of_nat d) by (apply Z.mul_le_mono_nonneg_r; lia).
    split; [apply Z.add_nonneg_nonneg; [lia|]; apply Z.mul_nonneg_nonneg; lia|lia].
  - destruct (rd_in_range _ (stride d c l) m) as (x & E); [subst n; lia|].
    rewrite stride_rd in E by lia. apply rd_bounds in E. lia.
Qed.

Lemma stride_in A d : forall (l : list A) c x, In x (stride d c l) -> In x l.
Proof.
  induction l as [|y r IH]; intros c x H; [exact H|]. cbn in H. destruct c as [|c].
  - destruct H as [->|H]; [left; reflexivity|]. right. exact (IH _ _ H).
  - right. exact (IH _ _ H).
Qed.

Lemma dec_axis n d : 0 < n -> 0 < d ->
  0 < dec_count n d <= n /\ dec_first n d = ((n - 1) mod d) / 2
  /\ 0 <= dec_first n d
  /\ dec_first n d + (dec_count n d - 1) * d < n <= dec_first n d + dec_count n d * d.
Proof.
  intros Hn Hd. unfold dec_first, dec_count. set (q := (n - 1) / d).
  pose proof (Z.div_mod (n - 1) d ltac:(lia)) as E. fold q in E. pose proof (Z.mod_pos_bound (n - 1) d Hd) as B.
  set (r := (n - 1) mod d) in *.
  assert (Hq : 0 <= q) by (apply Z.div_pos; lia).
  assert (Hq2 : q * 1 <= q * d) by (apply Z.mul_le_mono_nonneg_l; lia).
  replace (n - d * (1 + q - 1) - 1) with r by lia.
  pose proof (Z.div_mod r 2 ltac:(lia)). pose proof (Z.mod_pos_bound r 2 ltac:(lia)).
  repeat split; try lia.
Qed.

Lemma dec_first_zero n d : 0 < n -> 0 < d -> (dec_first n d = 0 <-> (n - 1) mod d <= 1).
Proof.
  intros Hn Hd. destruct (dec_axis n d Hn Hd) as (_ & -> & _). pose proof (Z.mod_pos_bound (n - 1) d Hd) as B.
  set (r := (n - 1) mod d) in *.
  pose proof (Z.div_mod r 2 ltac:(lia)). pose proof (Z.mod_pos_bound r 2 ltac:(lia)). lia.
Qed.

Lemma dec_table_entry c1 df t p :
  (let '(c, c', c'') := c1 in 0 <= c /\ 0 <= c' /\ 0 <= c'') ->
  (let '(d, d', d'') := df in 0 < d /\ 0 < d' /\ 0 < d'') ->
  (let '(i, j, k) := p in 0 <= i /\ 0 <= j /\ 0 <= k) ->
  entry (dec_table c1 df t) p = entry t (vmap2 Z.add c1 (vmap2 Z.mul p df)).
Proof.
  destruct c1 as ((cx, cy), cz), df as ((dx, dy), dz), p as ((i, j), k).
  intros (? & ? & ?) (? & ? & ?) (? & ? & ?). cbn [vmap2 dec_table entry].
  rewrite rd_map, stride_rd by lia. rewrite !Z2Nat.id by lia.
  destruct (rd t (cx + i * dx)) as [plane|]; cbn [option_map]; [|reflexivity].
  rewrite rd_map, stride_rd by lia. rewrite !Z2Nat.id by lia.
  destruct (rd plane (cy + j * dy)) as [row|]; cbn [option_map]; [|reflexivity].
  rewrite stride_rd by lia. rewrite !Z2Nat.id by lia. reflexivity.
Qed.

Lemma dec_table_shape n df t :
  (let '(nx, ny, nz) := n in 0 < nx /\ 0 < ny /\ 0 < nz) ->
  (let '(d, d', d'') := df in 0 < d /\ 0 < d' /\ 0 < d'') ->
  has_shape t n -> has_shape (dec_table (vmap2 dec_first n df) df t) (vmap2 dec_count n df).
Proof.
  destruct n as ((nx, ny), nz), df as ((dx, dy), dz). intros (Nx & Ny & Nz) (Dx & Dy & Dz) (Hx & Hyz).
  destruct (dec_axis nx dx Nx Dx) as (X1 & _ & X2 & X3), (dec_axis ny dy Ny Dy) as (Y1 & _ & Y2 & Y3),
    (dec_axis nz dz Nz Dz) as (Z1 & _ & Z2 & Z3).
  cbn [vmap2 dec_table has_shape]. rewrite map_length. split.
  - apply stride_length; rewrite ?Z2Nat.id by lia; try lia.
  - apply Forall_forall. intros plane Hp. apply in_map_iff in Hp. destruct Hp as (pl & <- & Hp).
    apply stride_in in Hp. rewrite Forall_forall in Hyz. destruct (Hyz _ Hp) as (Hy & Hz).
    rewrite map_length. split.
    + apply stride_length; rewrite ?Z2Nat.id by lia; try lia.
    + apply Forall_forall. intros row Hr. apply in_map_iff in Hr. destruct Hr as (rw & <- & Hr).
      apply stride_in in Hr. rewrite Forall_forall in Hz. specialize (Hz _ Hr).
      apply stride_length; rewrite ?Z2Nat.id by lia; try lia.
Qed.

Lemma dget_map A B (f : A -> B) (d : dict A) k :
  dget (map (fun kv => (fst kv, f (snd kv))) d) k = option_map f (dget d k).
Proof.
  induction d as [|(a, x) r IH]; [reflexivity|]. cbn. destruct (String.eqb a k); [reflexivity|exact IH].
Qed.

Lemma decimate_ok l df : grid_ok (l_grid l) ->
  (let '(d, d', d'') := df in 0 < d /\ 0 < d' /\ 0 < d'') ->
  exists l', decimate l df = Ret l' /\ grid_ok (l_grid l')
    /\ g_ll (l_grid l') = g_ll (l_grid l)
    /\ g_spacing (l_grid l') = vmap2 (fun s d => (s * IZR d)%R) (g_spacing (l_grid l)) df
    /\ g_count (l_grid l') = vmap2 dec_count (g_count (l_grid l)) df
    /\ g_gproj (l_grid l') = g_gproj (l_grid l) /\ g_cproj (l_grid l') = g_cproj (l_grid l)
    /\ l_names l' = l_names l /\ l_phases l' = l_phases l
    /\ forall s p t', table_of l' s p t' <->
         exists t, table_of l s p t /\ t' = dec_table (vmap2 dec_first (g_count (l_grid l)) df) df t.
Proof.
  destruct l as (g, tt, names, phases), g as (ll, sp, cnt, gp, cp). destruct df as ((dx, dy), dz), sp as ((sx, sy), sz), cnt as ((nx, ny), nz).
  unfold grid_ok. cbn [l_grid g_spacing g_count]. intros ((Sx & Sy & Sz) & Nx & Ny & Nz) (Dx & Dy & Dz).
  destruct (dec_axis nx dx ltac:(lia) Dx) as (X1 & _), (dec_axis ny dy ltac:(lia) Dy) as (Y1 & _),
    (dec_axis nz dz ltac:(lia) Dz) as (Z1 & _).
  assert (Px : (0 < sx * IZR dx)%R) by (apply Rmult_lt_0_compat; [exact Sx|apply (IZR_lt 0); exact Dx]).
  assert (Py : (0 < sy * IZR dy)%R) by (apply Rmult_lt_0_compat; [exact Sy|apply (IZR_lt 0); exact Dy]).
  assert (Pz : (0 < sz * IZR dz)%R) by (apply Rmult_lt_0_compat; [exact Sz|apply (IZR_lt 0); exact Dz]).
  eexists. split.
  { unfold decimate. cbn [l_grid g_spacing g_count vmap2]. rewrite set_count_ok by lia. cbn [bind].
    rewrite set_spacing3 by assumption. cbn [bind]. reflexivity. }
  cbn [l_grid g_ll g_spacing g_count g_gproj g_cproj l_names l_phases vmap2].
  split; [split; [tauto|]; repeat split; lia|].
  do 7 (split; [reflexivity|]).
  intros s p t'. unfold table_of. cbn [l_tt].
  set (F := dec_table (dec_first nx dx, dec_first ny dy, dec_first nz dz) (dx, dy, dz)).
  set (G := fun m : dict table => map (fun pt : string * table => (fst pt, F (snd pt))) m).
  match goal with |- context [dget (map ?f tt) s] =>
    change (dget (map f tt) s) with (dget (map (fun kv : string * dict table => (fst kv, G (snd kv))) tt) s) end.
  rewrite (dget_map _ _ G tt s). split.
  - intros (m & Hm & Hp). destruct (dget tt s) as [m0|]; [|discriminate]. cbn in Hm. injection Hm as <-.
    unfold G in Hp. rewrite !dget_map in Hp. destruct Hp as [Hp|(Hn & Hp)].
    + destruct (dget m0 p) as [t|] eqn:E; [|discriminate]. injection Hp as <-. exists t. split; [|reflexivity].
      exists m0. tauto.
    + destruct (dget m0 p) as [t|] eqn:E; [discriminate|].
      destruct (dget m0 ("TIME_" ++ p)%string) as [t|] eqn:E2; [|discriminate]. injection Hp as <-.
      exists t. split; [|reflexivity]. exists m0. tauto.
  - intros (t & (m0 & Hm & Hp) & ->). rewrite Hm. cbn [option_map]. eexists. split; [reflexivity|]. unfold G. rewrite !dget_map.
    destruct Hp as [->|(-> & ->)]; cbn; tauto.
Qed.

(** * Serving tables *)
Lemma split_plain s : plain_name s -> split_on underscore s = [s].
Proof.
  unfold plain_name. induction s as [|a r IH]; intros H; [reflexivity|]. cbn [split_on list_ascii_of_string] in *.
  destruct (Ascii.eqb_spec a underscore) as [->|Hne]; [exfalso; apply H; left; reflexivity|].
  rewrite IH by (intros Hr; apply H; right; exact Hr). reflexivity.
Qed.

Lemma split_key s p : plain_name s -> plain_name p -> split_on underscore (s ++ "_" ++ p)%string = [s; p].
Proof.
  intros Hs Hp. induction s as [|a r IH].
  - change ("" ++ "_" ++ p)%string with (String underscore p).
    change (split_on underscore (String underscore p)) with (""%string :: split_on underscore p).
    rewrite (split_plain p Hp). reflexivity.
  - change (String a r ++ "_" ++ p)%string with (String a (r ++ "_" ++ p)). cbn [split_on].
    unfold plain_name in Hs. cbn [list_ascii_of_string] in Hs.
    destruct (Ascii.eqb_spec a underscore) as [->|Hne]; [exfalso; apply Hs; left; reflexivity|].
    rewrite IH by (intros Hr; apply Hs; right; exact Hr). reflexivity.
Qed.

Lemma key_inj s p s' p' : plain_name s -> plain_name p -> plain_name s' -> plain_name p' ->
  (s ++ "_" ++ p = s' ++ "_" ++ p')%string -> s = s' /\ p = p'.
Proof.
  intros Hs Hp Hs' Hp' E. pose proof (split_key s p Hs Hp) as A. rewrite E, (split_key s' p' Hs' Hp') in A.
  injection A as -> ->. tauto.
Qed.

Definition key_of (sp : string * string) : string := (fst sp ++ "_" ++ snd sp)%string.
Definition entry_of (check : string -> string -> bool) (sp : string * string) : string * Z :=
  (key_of sp, if check (fst sp) (snd sp) then 1 else 0).

Lemma fold_flat {A S} (f : S -> A -> S) {B} (g : B -> list A) : forall (l : list B) s,
  fold_left (fun s b => fold_left f (g b) s) l s = fold_left f (flat_map g l) s.
Proof. induction l as [|b l IH]; intros s; [reflexivity|]. cbn. rewrite fold_left_app. apply IH. Qed.

Definition pair_step (check : string -> string -> bool) (onset : string -> string -> list R)
    (st : list (list R) * dict Z) (sp : string * string) := onset_step check onset (snd sp) st (fst sp).

Lemma onsets_fold check onset phases stations st :
  fold_left (fun st phase => fold_left (onset_step check onset phase) stations st) phases st
  = fold_left (pair_step check onset) (pairs phases stations) st.
Proof.
  unfold pairs. revert st. induction phases as [|p l IH]; intros st; [reflexivity|].
  cbn [fold_left flat_map]. rewrite fold_left_app, IH. f_equal.
  generalize st. clear. induction stations as [|s r IH]; intros st; [reflexivity|]. cbn. apply IH.
Qed.

Lemma nodup_app A (l m : list A) : NoDup l -> NoDup m -> (forall x, In x l -> ~ In x m) -> NoDup (l ++ m).
Proof.
  intros Hl Hm. induction Hl as [|x l Hx Hl IH]; intros H; [exact Hm|]. cbn. constructor.
  - rewrite in_app_iff. intros [?|?]; [contradiction|]. apply (H x); [left; reflexivity|assumption].
  - apply IH. intros y Hy. apply H. right. exact Hy.
Qed.

Lemma nodup_map_inj A B (f : A -> B) l : (forall x y, In x l -> In y l -> f x = f y -> x = y) -> NoDup l -> NoDup (map f l).
Proof.
  intros Hf H. induction H as [|x l Hx Hl IH]; [constructor|]. cbn. constructor.
  - intros H. apply in_map_iff in H. destruct H as (y & E & Hy).
    assert (y = x) by (apply Hf; [right; exact Hy|left; reflexivity|exact E]). subst. contradiction.
  - apply IH. intros a b Ha Hb. apply Hf; right; assumption.
Qed.

Lemma in_pairs phases stations s p : In (s, p) (pairs phases stations) <-> In s stations /\ In p phases.
Proof.
  unfold pairs. rewrite in_flat_map. split.
  - intros (q & Hq & H). apply in_map_iff in H. destruct H as (x & E & Hx). injection E as -> ->. tauto.
  - intros (Hs & Hp). exists p. split; [exact Hp|]. apply in_map_iff. exists s. tauto.
Qed.

Lemma pairs_nodup phases stations : NoDup phases -> NoDup stations -> NoDup (pairs phases stations).
Proof.
  intros Hp Hs. induction Hp as [|p l Hn Hl IH]; [constructor|].
  change (pairs (p :: l) stations) with (map (fun s => (s, p)) stations ++ pairs l stations).
  apply nodup_app; [|exact IH|].
  - apply nodup_map_inj; [|exact Hs]. intros x y _ _ E. injection E as ->. reflexivity.
  - intros (s, q) H1 H2. apply in_map_iff in H1. destruct H1 as (x & E & _). injection E as -> ->.
    apply in_pairs in H2. tauto.
Qed.


Lemma pair_steps check onset : forall l rows av,
  NoDup (map key_of l) -> (forall sp, In sp l -> ~ In (key_of sp) (keys av)) ->
  fold_left (pair_step check onset) l (rows, av)
  = (rows ++ map (fun sp => onset (fst sp) (snd sp)) (filter (fun sp => check (fst sp) (snd sp)) l),
     av ++ map (entry_of check) l).
Proof.
  induction l as [|(s, p) l IH]; intros rows av Hnd Hav.
  - cbn. rewrite !app_nil_r. reflexivity.
  - cbn [map] in Hnd. inversion Hnd as [|? ? Hn Hl]; subst. cbn [fold_left].
    unfold pair_step at 2. unfold onset_step. cbv zeta. cbn [fst snd].
    assert (E : dset av (s ++ "_" ++ p)%string (if check s p then 1 else 0) = av ++ [entry_of check (s, p)]).
    { rewrite dset_new; [reflexivity|]. apply dget_none. apply (Hav (s, p)). left. reflexivity. }
    rewrite E.
    assert (Hav' : forall sp, In sp l -> ~ In (key_of sp) (keys (av ++ [entry_of check (s, p)]))).
    { intros sp Hsp. unfold keys. rewrite map_app, in_app_iff. cbn. intros [H|[H|[]]].
      - apply (Hav sp); [right; exact Hsp|exact H].
      - apply Hn. apply in_map_iff. exists sp. split; [|exact Hsp]. symmetry. exact H. }
    cbn [filter fst snd]. destruct (check s p); rewrite IH by assumption; cbn [map fst snd];
      rewrite <- !app_assoc; reflexivity.
Qed.

Lemma key_nodup phases stations : NoDup phases -> NoDup stations -> Forall plain_name phases -> Forall plain_name stations ->
  NoDup (map key_of (pairs phases stations)).
Proof.
  intros Hp Hs Pp Ps. rewrite Forall_forall in *. apply nodup_map_inj; [|apply pairs_nodup; assumption].
  intros (s, p) (s', p') H H' E. apply in_pairs in H. apply in_pairs in H'. unfold key_of in E. cbn [fst snd] in E.
  apply key_inj in E; try (apply Ps; tauto); try (apply Pp; tauto). destruct E as (-> & ->). reflexivity.
Qed.

Lemma sum_entries check : forall l a, fold_left Z.add (values (map (entry_of check) l)) a
  = a + Z.of_nat (length (filter (fun sp => check (fst sp) (snd sp)) l)).
Proof.
  unfold values. induction l as [|sp l IH]; intros a; [cbn; lia|].
  cbn [map fold_left entry_of snd filter]. rewrite IH. destruct (check (fst sp) (snd sp)); cbn [length]; lia.
Qed.

Lemma calculate_onsets_ok check onset phases stations :
  NoDup phases -> NoDup stations -> Forall plain_name phases -> Forall plain_name stations ->
  calculate_onsets check onset phases stations =
  match used check phases stations with
  | [] => Raise DataAvailabilityException
  | _ => Ret (map (fun sp => onset (fst sp) (snd sp)) (used check phases stations),
              map (entry_of check) (pairs phases stations))
  end.
Proof.
  intros Hp Hs Pp Ps. unfold calculate_onsets. rewrite onsets_fold.
  rewrite pair_steps; [|apply key_nodup; assumption|intros sp _ []]. cbn [app snd].
  rewrite sum_entries. fold (used check phases stations).
  destruct (used check phases stations) as [|u r]; [reflexivity|].
  rewrite (proj2 (Z.eqb_neq _ _)) by (cbn [length]; lia). reflexivity.
Qed.

Lemma calculate_onsets_some check onset phases stations :
  NoDup phases -> NoDup stations -> Forall plain_name phases -> Forall plain_name stations ->
  used check phases stations <> [] ->
  calculate_onsets check onset phases stations =
  Ret (map (fun sp => onset (fst sp) (snd sp)) (used check phases stations),
       map (entry_of check) (pairs phases stations)).
Proof.
  intros Hp Hs Pp Ps HU. rewrite calculate_onsets_ok by assumption.
  destruct (used check phases stations); [contradiction|reflexivity].
Qed.

Lemma lookup_table_of l s p t : lookup l s p = Ret t <-> table_of l s p t.
Proof.
  unfold lookup, table_of, getitem. destruct (dget (l_tt l) s) as [m|].
  - destruct (dget m p) as [t0|] eqn:E.
    + split; [intros H; injection H as ->; exists m; tauto|].
      intros (m' & Em & H). injection Em as <-. rewrite E in H. destruct H as [H|(H & _)]; [|discriminate].
      injection H as ->. reflexivity.
    + destruct (dget m ("TIME_" ++ p)%string) as [t0|] eqn:E2.
      * split; [intros H; injection H as ->; exists m; tauto|].
        intros (m' & Em & H). injection Em as <-. rewrite E, E2 in H. destruct H as [H|(_ & H)]; [discriminate|].
        injection H as ->. reflexivity.
      * split; [discriminate|]. intros (m' & Em & H). injection Em as <-. rewrite E, E2 in H. destruct H as [H|(_ & H)]; discriminate.
  - split; [discriminate|]. intros (m' & Em & _). discriminate.
Qed.

Lemma serve_loop_ok check (tab : string -> string -> table) l : forall ps,
  (forall s p, In (s, p) ps -> plain_name s /\ plain_name p) ->
  (forall s p, In (s, p) ps -> check s p = true -> table_of l s p (tab s p)) ->
  serve_loop l (map (entry_of check) ps) =
  Ret (map (fun sp => tab (fst sp) (snd sp)) (filter (fun sp => check (fst sp) (snd sp)) ps)).
Proof.
  induction ps as [|(s, p) ps IH]; intros Hn Ht; [reflexivity|].
  change (map (entry_of check) ((s, p) :: ps)) with ((key_of (s, p), if check s p then 1 else 0) :: map (entry_of check) ps).
  cbn [serve_loop filter fst snd].
  destruct (Hn s p (or_introl eq_refl)) as (Ns & Np). unfold key_of at 1. cbn [fst snd]. rewrite (split_key s p Ns Np).
  assert (IH' := IH (fun s p H => Hn s p (or_intror H)) (fun s p H => Ht s p (or_intror H))).
  destruct (check s p) eqn:E.
  - rewrite Z.eqb_refl. rewrite (proj2 (lookup_table_of l s p (tab s p)) (Ht s p (or_introl eq_refl) E)).
    cbn [bind]. rewrite IH'. reflexivity.
  - cbn [Z.eqb]. exact IH'.
Qed.

(** * Stacking *)
Definition pos3 (n : ijk) : Prop := let '(nx, ny, nz) := n in 0 < nx /\ 0 < ny /\ 0 < nz.

Lemma ravel_length t n : pos3 n -> has_shape t n -> Z.of_nat (length (ravel t)) = n_nodes n.
Proof.
  destruct n as ((nx, ny), nz). intros (Px & Py & Pz) (Hx & Hyz). unfold ravel. cbn [n_nodes].
  rewrite <- flat_map_concat_map.
  rewrite (flat_map_len _ _ (@concat R) (Z.to_nat (ny * nz))).
  - rewrite Nat2Z.inj_mul, Z2Nat.id by (apply Z.mul_nonneg_nonneg; lia). rewrite Hx. ring.
  - intros plane Hp. rewrite Forall_forall in Hyz. destruct (Hyz _ Hp) as (Hy & Hz).
    rewrite <- (map_id plane), <- flat_map_concat_map.
    rewrite (flat_map_len _ _ (fun x => x) (Z.to_nat nz)).
    + rewrite Z2Nat.inj_mul by lia. f_equal. lia.
    + intros row Hr. rewrite Forall_forall in Hz. specialize (Hz _ Hr). lia.
Qed.

Lemma ravel_entry t n p : has_shape t n -> is_node n p -> rd (ravel t) (flat n p) = entry t p.
Proof.
  destruct n as ((nx, ny), nz), p as ((i, j), k). intros (Hx & Hyz) (Hi & Hj & Hk). unfold ravel. cbn [flat entry].
  rewrite <- flat_map_concat_map.
  destruct (rd_in_range _ t i ltac:(lia)) as (plane & Ep). rewrite Ep.
  rewrite Forall_forall in Hyz. destruct (Hyz plane (rd_in _ _ _ _ Ep)) as (Hy & Hz).
  replace ((i * ny + j) * nz + k) with (i * (ny * nz) + (j * nz + k)) by ring.
  assert (Hin : 0 <= j * nz + k < ny * nz).
  { split; [apply Z.add_nonneg_nonneg; [apply Z.mul_nonneg_nonneg|]; lia|].
    assert (j * nz <= (ny - 1) * nz) by (apply Z.mul_le_mono_nonneg_r; lia). lia. }
  rewrite (rd_flat_map _ _ _ (ny * nz) t) with (x := plane); [| | |exact Hin|exact Ep].
  - rewrite <- (map_id plane), <- flat_map_concat_map, map_id.
    destruct (rd_in_range _ plane j ltac:(lia)) as (row & Er). rewrite Er.
    rewrite Forall_forall in Hz.
    rewrite (rd_flat_map _ _ (fun x => x) nz plane) with (x := row); [reflexivity|lia| |lia|exact Er].
    intros x Hxx. apply Hz. exact Hxx.
  - lia.
  - intros pl Hpl. destruct (Hyz _ Hpl) as (Hy' & Hz').
    rewrite <- (map_id pl), <- flat_map_concat_map.
    rewrite (flat_map_len _ _ (fun x => x) (Z.to_nat nz)).
    + rewrite Nat2Z.inj_mul. lia.
    + intros row Hr. rewrite Forall_forall in Hz'. specialize (Hz' _ Hr). lia.
Qed.

Lemma shape_of t n : pos3 n -> has_shape t n ->
  shape t = (let '(nx, ny, nz) := n in (Z.to_nat nx, Z.to_nat ny, Z.to_nat nz)).
Proof.
  destruct n as ((nx, ny), nz). intros (Px & Py & Pz) (Hx & Hyz). unfold shape.
  destruct t as [|pl t]; [cbn in Hx; lia|]. apply Forall_inv in Hyz. destruct Hyz as (Hy & Hz).
  cbn [hd]. destruct pl as [|row pl]; [cbn in Hy; lia|]. apply Forall_inv in Hz.
  cbn [hd]. rewrite <- Hx, <- Hy, <- Hz, !Nat2Z.id. reflexivity.
Qed.

Lemma shape_eqb_refl a : shape_eqb a a = true.
Proof. destruct a as ((?, ?), ?). unfold shape_eqb. rewrite !Nat.eqb_refl. reflexivity. Qed.


Lemma flat_map_some A (f : A -> option R) (g : A -> R) l : (forall x, In x l -> f x = Some (g x)) ->
  flat_map (fun x => match f x with Some v => [v] | None => [] end) l = map g l.
Proof.
  induction l as [|x l IH]; intros H; [reflexivity|]. cbn. rewrite (H x (or_introl eq_refl)). cbn.
  rewrite IH; [reflexivity|]. intros y Hy. apply H. right. exact Hy.
Qed.

Lemma stack_last_ok ts n : pos3 n -> ts <> [] ->
  Forall (fun t => has_shape t n) ts ->
  stack_last ts = Ret (flat_map (fun node => map (fun t => value (ravel t) node) ts) (zrange (n_nodes n))).
Proof.
  intros Hn Hne Hs. unfold stack_last. destruct ts as [|t0 ts]; [contradiction|].
  rewrite Forall_forall in Hs.
  assert (E : forallb (fun t => shape_eqb (shape t) (shape t0)) (t0 :: ts) = true).
  { apply forallb_forall. intros t Ht. rewrite (shape_of t n Hn (Hs t Ht)), (shape_of t0 n Hn (Hs t0 (or_introl eq_refl))).
    apply shape_eqb_refl. }
  rewrite E. f_equal. rewrite (ravel_length t0 n Hn (Hs t0 (or_introl eq_refl))).
  rewrite !flat_map_concat_map. f_equal. apply map_ext_in. intros node Hnode. apply in_zrange in Hnode.
  apply flat_map_some. intros t Ht. unfold value.
  destruct (rd_in_range _ (ravel t) node) as (v & Ev).
  { rewrite (ravel_length t n Hn (Hs t Ht)). exact Hnode. }
  rewrite Ev. reflexivity.
Qed.

Lemma to_samples_ok rate l : Forall (fun v => -2147483648 <= np_round (v * rate) <= 2147483647) l ->
  to_samples rate l = Ret (map (fun v => np_round (v * rate)) l).
Proof.
  induction l as [|v l IH]; intros H; [reflexivity|]. inversion H; subst. cbn [to_samples map].
  rewrite int32_some by assumption. rewrite IH by assumption. reflexivity.
Qed.

Lemma flat_map_rows_array2 A B (f : Z -> B -> A) (l : list B) (d : B) n :
  flat_map (fun node => map (f node) l) (zrange n)
  = array2 n (Z.of_nat (length l)) (fun node k => f node (match rd l k with Some x => x | None => d end)).
Proof.
  unfold array2. rewrite !flat_map_concat_map. f_equal. apply map_ext. intros node.
  apply rd_ext_opt. intros i. rewrite !rd_map.
  destruct (Z.lt_ge_cases i 0) as [H|H]; [rewrite !rd_none by lia; reflexivity|].
  destruct (Z.lt_ge_cases i (Z.of_nat (length l))) as [H2|H2].
  - rewrite rd_zrange by lia. cbn [option_map]. destruct (rd_in_range _ l i ltac:(lia)) as (x & ->). reflexivity.
  - rewrite !rd_none by (rewrite ?zrange_length; lia). reflexivity.
Qed.

Lemma concat_array2 (rows : list (list R)) t : 0 <= t -> Forall (fun r => Z.of_nat (length r) = t) rows ->
  concat rows = array2 (Z.of_nat (length rows)) t (fun k j => match rd rows k with Some r => value r j | None => 0%R end).
Proof.
  intros Ht H. rewrite Forall_forall in H. rewrite <- (map_id rows) at 1. rewrite <- flat_map_concat_map.
  apply list_eq_array2; [lia|exact Ht| |].
  - rewrite (flat_map_len _ _ (fun x => x) (Z.to_nat t)).
    + rewrite Nat2Z.inj_mul. lia.
    + intros r Hr. specialize (H _ Hr). lia.
  - intros i j Hi Hj. destruct (rd_in_range _ rows i Hi) as (r & Er). rewrite Er.
    rewrite (rd_flat_map _ _ (fun x => x) t rows) with (x := r); [|lia|exact H|exact Hj|exact Er].
    unfold value. destruct (rd_in_range _ r j) as (v & ->); [|reflexivity]. rewrite (H r (rd_in _ _ _ _ Er)). exact Hj.
Qed.

Lemma map_zrange_rd A B (F : A -> B) (l : list A) (d : A) :
  map (fun k => F (match rd l k with Some x => x | None => d end)) (zrange (Z.of_nat (length l))) = map F l.
Proof.
  apply rd_ext_opt. intros i. rewrite !rd_map.
  destruct (Z.lt_ge_cases i 0) as [H|H]; [rewrite !rd_none by lia; reflexivity|].
  destruct (Z.lt_ge_cases i (Z.of_nat (length l))) as [H2|H2].
  - rewrite rd_zrange by lia. cbn [option_map]. destruct (rd_in_range _ l i ltac:(lia)) as (x & ->). reflexivity.
  - rewrite !rd_none by (rewrite ?zrange_length; lia). reflexivity.
Qed.

Lemma stack_first_ok rows t : rows <> [] -> Forall (fun r => Z.of_nat (length r) = t) rows ->
  stack_first rows = Ret (concat rows, Z.of_nat (length rows), t).
Proof.
  intros Hne H. unfold stack_first. destruct rows as [|r0 rows]; [contradiction|]. rewrite Forall_forall in H.
  assert (E : forallb (fun r => Nat.eqb (length r) (length r0)) (r0 :: rows) = true).
  { apply forallb_forall. intros r Hr. apply Nat.eqb_eq. pose proof (H r Hr). pose proof (H r0 (or_introl eq_refl)). lia. }
  rewrite E, (H r0 (or_introl eq_refl)). reflexivity.
Qed.

Lemma serve_ok check tab l rate phases stations :
  let U := used check phases stations in let n := g_count (l_grid l) in
  grid_ok (l_grid l) -> U <> [] ->
  Forall plain_name phases -> Forall plain_name stations ->
  (forall s p, In (s, p) U -> table_of l s p (tab s p) /\ has_shape (tab s p) n) ->
  (forall s p q, In (s, p) U -> is_node n q ->
     (-2147483648 <= entry0 (tab s p) q * rate <= 2147483647)%R) ->
  serve_traveltimes l rate (map (entry_of check) (pairs phases stations))
  = Ret (array2 (n_nodes n) (Z.of_nat (length U)) (fun node k =>
           match rd U k with
           | Some sp => np_round (value (ravel (tab (fst sp) (snd sp))) node * rate)
           | None => 0 end),
         n_nodes n, Z.of_nat (length U)).
Proof.
  intros U n Hg HU Pp Ps Ht Hv. unfold serve_traveltimes.
  assert (Hn : pos3 n).
  { unfold grid_ok in Hg. fold n in Hg. unfold pos3. destruct (g_spacing (l_grid l)) as ((?, ?), ?), n as ((?, ?), ?). lia. }
  rewrite Forall_forall in Pp, Ps.
  rewrite (serve_loop_ok check tab).
  2:{ intros s p H. apply in_pairs in H. split; [apply Ps|apply Pp]; tauto. }
  2:{ intros s p H E. apply Ht. subst U. unfold used. apply filter_In. cbn [fst snd]. tauto. }
  fold (used check phases stations). fold U. cbn [bind].
  assert (Hsh : Forall (fun t => has_shape t n) (map (fun sp => tab (fst sp) (snd sp)) U)).
  { apply Forall_forall. intros t H. apply in_map_iff in H. destruct H as ((s, p) & <- & H). apply (Ht s p H). }
  rewrite (stack_last_ok _ n Hn); [| |exact Hsh].
  2:{ destruct U; [contradiction|discriminate]. }
  cbn [bind].
  assert (E : flat_map (fun node => map (fun t => value (ravel t) node) (map (fun sp => tab (fst sp) (snd sp)) U)) (zrange (n_nodes n))
    = array2 (n_nodes n) (Z.of_nat (length U)) (fun node k =>
           value (ravel (let sp := match rd U k with Some sp => sp | None => ("", "")%string end in tab (fst sp) (snd sp))) node)).
  { rewrite <- (flat_map_rows_array2 _ _ (fun node (sp : string * string) => value (ravel (tab (fst sp) (snd sp))) node) U ("", "")%string).
    rewrite !flat_map_concat_map. f_equal. apply map_ext. intros node. rewrite map_map. reflexivity. }
  rewrite E.
  assert (Hpos : 0 <= n_nodes n) by (destruct n as ((a, b), c); cbn in *; apply Z.mul_nonneg_nonneg; [apply Z.mul_nonneg_nonneg|]; lia).
  rewrite to_samples_ok.
  2:{ apply Forall_forall. intros v H. apply in_rd in H. destruct H as (i & Hi).
      pose proof (rd_bounds _ _ _ _ Hi) as B. rewrite array2_length in B by lia.
      assert (0 < Z.of_nat (length U)) by (destruct U; [contradiction|cbn [length]; lia]).
      destruct (array2_decomp (Z.of_nat (length U)) i (n_nodes n)) as (node & k & Hnode & Hk & ->); [lia|lia|].
      rewrite rd_array2 in Hi by assumption. injection Hi as <-.
      destruct (rd_in_range _ U k Hk) as ((s, p) & Ek). rewrite Ek. cbn [fst snd].
      destruct (unravel_inv node n Hn Hnode) as (q & _ & Hq & <-).
      pose proof (rd_in _ _ _ _ Ek) as Hin. destruct (Ht s p Hin) as (_ & Hs).
      unfold value. rewrite (ravel_entry _ n q Hs Hq). fold (entry0 (tab s p) q).
      destruct (Hv s p q Hin Hq) as (A & C). rewrite <- (np_round_IZR (-2147483648)), <- (np_round_IZR 2147483647).
      split; apply np_round_mono; assumption. }
  cbn [bind]. f_equal. f_equal; [f_equal|].
  - apply (list_eq_array2 Z (n_nodes n) (Z.of_nat (length U))); [lia|lia| |].
    + rewrite map_length, array2_length by lia. reflexivity.
    + intros node k Hnode Hk. rewrite rd_map, rd_array2 by assumption. cbn [option_map].
      destruct (rd_in_range _ U k Hk) as (sp & Ek). rewrite Ek. reflexivity.
  - destruct U as [|sp U']; [contradiction|]. cbn [map hd].
    apply (ravel_length _ n Hn). inversion Hsh; subst; assumption.
  - rewrite map_length. reflexivity.
Qed.

Lemma compute_map_ok r0 l check onset tab phases stations rate first last t :
  let U := used check phases stations in let n := g_count (l_grid l) in
  grid_ok (l_grid l) -> NoDup phases -> NoDup stations -> Forall plain_name phases -> Forall plain_name stations ->
  U <> [] ->
  (forall s p, In (s, p) U -> Z.of_nat (length (onset s p)) = t) ->
  (forall s p, In (s, p) U -> table_of l s p (tab s p) /\ has_shape (tab s p) n) ->
  (forall s p q, In (s, p) U -> is_node n q -> (-2147483648 <= entry0 (tab s p) q * rate <= IZR last)%R) ->
  0 <= first -> 0 <= last -> first + last <= t -> Z.of_nat (length U) * t < 2147483648 ->
  exists m, compute_map r0 l check onset phases stations rate first last = Ret m
    /\ Z.of_nat (length m) = n_nodes n * (t - first - last)
    /\ forall q smp, is_node n q -> 0 <= smp < t - first - last ->
       rd m (flat n q * (t - first - last) + smp) =
       Some (geometric_mean (map (fun sp => clip01 (value (onset (fst sp) (snd sp))
               (first + smp + Z.max 0 (np_round (entry0 (tab (fst sp) (snd sp)) q * rate))))) U)).
Proof.
  intros U n Hg Np Ns Pp Ps HU Hon Ht Hv Hf Hl Hfl Hsz.
  assert (Hlast : last <= 2147483647).
  { assert (1 * t <= Z.of_nat (length U) * t); [|lia]. apply Z.mul_le_mono_nonneg_r; [lia|].
    destruct U; [contradiction|cbn [length]; lia]. }
  assert (Hn : pos3 n).
  { unfold grid_ok in Hg. fold n in Hg. unfold pos3. destruct (g_spacing (l_grid l)) as ((?, ?), ?), n as ((?, ?), ?). lia. }
  assert (Hpos : 0 <= n_nodes n) by (destruct n as ((a, b), c); cbn in *; apply Z.mul_nonneg_nonneg; [apply Z.mul_nonneg_nonneg|]; lia).
  unfold compute_map. rewrite calculate_onsets_some by assumption. fold U.
  cbn [bind fst snd].
  assert (Hrows : Forall (fun r => Z.of_nat (length r) = t) (map (fun sp => onset (fst sp) (snd sp)) U)).
  { apply Forall_forall. intros r H. apply in_map_iff in H. destruct H as ((s, p) & <- & H). exact (Hon s p H). }
  rewrite (stack_first_ok _ t); [|destruct U; [contradiction|discriminate]|exact Hrows].
  cbn [bind]. rewrite map_length.
  rewrite (serve_ok check tab l rate phases stations); fold U; fold n; try assumption.
  2:{ intros s p q H Hq. destruct (Hv s p q H Hq) as (A & B). split; [exact A|].
      apply Rle_trans with (1 := B). apply IZR_le. exact Hlast. }
  cbn [bind]. rewrite sum_entries. fold (used check phases stations). fold U. rewrite Z.add_0_l.
  rewrite (concat_array2 _ t); [|lia|exact Hrows]. rewrite map_length.
  rewrite lib_migrate_ok; try assumption.
  - eexists. split; [reflexivity|]. split; [apply array2_length; lia|].
    intros q smp Hq Hs. rewrite rd_array2; [|apply flat_range; exact Hq|exact Hs].
    f_equal. unfold coalescence. f_equal.
    rewrite <- (map_zrange_rd _ _ (fun sp => clip01 (value (onset (fst sp) (snd sp))
               (first + smp + Z.max 0 (np_round (entry0 (tab (fst sp) (snd sp)) q * rate))))) U ("", "")%string).
    apply map_ext_in. intros k Hk. apply in_zrange in Hk. destruct (rd_in_range _ U k Hk) as ((s, p) & Ek).
    rewrite rd_map, Ek. cbn [option_map fst snd].
    destruct (Ht s p (rd_in _ _ _ _ Ek)) as (_ & Hsh).
    unfold value at 2. rewrite (ravel_entry _ n q Hsh Hq). reflexivity.
  - destruct U; [contradiction|cbn [length]; lia].
  - intros node k Hnode Hk. destruct (rd_in_range _ U k Hk) as ((s, p) & Ek). rewrite Ek. cbn [fst snd].
    pose proof (rd_in _ _ _ _ Ek) as Hin. destruct (Ht s p Hin) as (_ & Hsh).
    destruct (unravel_inv node n Hn Hnode) as (q & _ & Hq & <-).
    unfold value. rewrite (ravel_entry _ n q Hsh Hq). fold (entry0 (tab s p) q).
    destruct (Hv s p q Hin Hq) as (_ & B). rewrite <- (np_round_IZR last). apply np_round_mono. exact B.
Qed.

(** * Maximum traveltime *)
Lemma outcomes_ok A (l : list (outcome A)) ts : outcomes l = Ret ts <-> l = map Ret ts.
Proof.
  revert ts. induction l as [|o l IH]; intros ts; cbn.
  - split; [intros H; injection H as <-; reflexivity|]. destruct ts; [reflexivity|discriminate].
  - destruct o as [a|e|]; cbn.
    + destruct (outcomes l) as [s|e|] eqn:E; cbn.
      * assert (El : l = map Ret s) by (apply IH; reflexivity). split.
        -- intros H. injection H as <-. cbn. rewrite El. reflexivity.
        -- destruct ts as [|b ts]; [discriminate|]. cbn. intros H. injection H as -> H.
           f_equal. f_equal. assert (G : Ret s = Ret ts) by (apply IH; exact H). congruence.
      * split; [discriminate|]. destruct ts as [|b ts]; [discriminate|]. cbn. intros H. injection H as _ H.
        apply IH in H. discriminate.
      * split; [discriminate|]. destruct ts as [|b ts]; [discriminate|]. cbn. intros H. injection H as _ H.
        apply IH in H. discriminate.
    + split; [discriminate|]. destruct ts; discriminate.
    + split; [discriminate|]. destruct ts; discriminate.
Qed.

Lemma all_tables_in l ts s p : all_tables l = Ret ts -> In s (l_names l) -> In p (l_phases l) ->
  exists t, In t ts /\ table_of l s p t.
Proof.
  unfold all_tables. intros H Hs Hp. apply outcomes_ok in H.
  assert (Hin : In (lookup l s p) (map Ret ts)).
  { rewrite <- H. apply in_flat_map. exists p. split; [exact Hp|]. apply in_map_iff. exists s. tauto. }
  apply in_map_iff in Hin. destruct Hin as (t & E & Ht). exists t. split; [exact Ht|].
  apply lookup_table_of. symmetry. exact E.
Qed.

Lemma fold_Rmax_ge l : forall a, (a <= fold_left Rmax l a)%R /\ forall v, In v l -> (v <= fold_left Rmax l a)%R.
Proof.
  induction l as [|x l IH]; intros a; cbn; [split; [lra|intros v []]|].
  destruct (IH (Rmax a x)) as (H1 & H2). split; [apply Rle_trans with (2 := H1); apply Rmax_l|].
  intros v [->|Hv]; [apply Rle_trans with (2 := H1); apply Rmax_r|apply H2; exact Hv].
Qed.
Lemma fold_Rmax_in l : forall a, fold_left Rmax l a = a \/ In (fold_left Rmax l a) l.
Proof.
  induction l as [|x l IH]; intros a; cbn; [tauto|]. destruct (IH (Rmax a x)) as [E|H]; [|tauto].
  rewrite E. unfold Rmax. destruct (Rle_dec a x); tauto.
Qed.


Lemma grid_ok_pos g : grid_ok g -> pos3 (g_count g).
Proof. unfold grid_ok, pos3. destruct (g_spacing g) as ((?, ?), ?), (g_count g) as ((?, ?), ?). lia. Qed.

Lemma pos3_nodes n : pos3 n -> 0 < n_nodes n.
Proof. destruct n as ((a, b), c). intros (? & ? & ?). cbn. apply Z.mul_pos_pos; [apply Z.mul_pos_pos|]; assumption. Qed.

Lemma table_shape l s p t : lut_ok l -> table_of l s p t -> has_shape t (g_count (l_grid l)).
Proof. intros (_ & H) (m & Hm & [Hp|(_ & Hp)]); exact (H _ _ _ _ Hm Hp). Qed.

Lemma entry_some t n q : has_shape t n -> is_node n q -> exists v, entry t q = Some v.
Proof.
  intros Hs Hq. assert (Hn : pos3 n) by (destruct n as ((?, ?), ?), q as ((?, ?), ?); cbn in *; lia).
  rewrite <- (ravel_entry t n q Hs Hq). apply rd_in_range. rewrite (ravel_length t n Hn Hs). apply flat_range. exact Hq.
Qed.

Lemma all_tables_table l ts t : all_tables l = Ret ts -> In t ts -> exists s p, In s (l_names l) /\ In p (l_phases l) /\ table_of l s p t.
Proof.
  unfold all_tables. intros H Ht. apply outcomes_ok in H.
  assert (Hin : In (Ret t) (map Ret ts)) by (apply in_map; exact Ht).
  rewrite <- H in Hin. apply in_flat_map in Hin. destruct Hin as (p & Hp & Hin). apply in_map_iff in Hin.
  destruct Hin as (s & E & Hs). exists s, p. split; [exact Hs|]. split; [exact Hp|]. apply lookup_table_of. exact E.
Qed.

Lemma max_traveltime_ok l M : lut_ok l -> max_traveltime l = Ret M ->
  (forall s p t q v, In s (l_names l) -> In p (l_phases l) -> table_of l s p t -> entry t q = Some v ->
     is_node (g_count (l_grid l)) q -> (v <= M)%R)
  /\ exists s p t q, In s (l_names l) /\ In p (l_phases l) /\ table_of l s p t
       /\ is_node (g_count (l_grid l)) q /\ entry t q = Some M.
Proof.
  intros Hl. unfold max_traveltime. destruct (all_tables l) as [ts|?|] eqn:Et; try discriminate. cbn [bind].
  destruct ts as [|t0 ts]; [discriminate|].
  pose proof (grid_ok_pos _ (proj1 Hl)) as Hn.
  assert (Hsh : Forall (fun t => has_shape t (g_count (l_grid l))) (t0 :: ts)).
  { apply Forall_forall. intros t Ht. destruct (all_tables_table l _ t Et Ht) as (s & p & _ & _ & H). exact (table_shape l s p t Hl H). }
  rewrite (stack_last_ok _ _ Hn) by (try discriminate; assumption). cbn [bind].
  set (flt := flat_map _ _).
  assert (Hin : forall v, In v flt <-> exists t q, In t (t0 :: ts) /\ is_node (g_count (l_grid l)) q /\ entry t q = Some v).
  { intros v. subst flt. rewrite in_flat_map. rewrite Forall_forall in Hsh. split.
    - intros (node & Hnode & H). apply in_zrange in Hnode. apply in_map_iff in H. destruct H as (t & E & Ht).
      destruct (unravel_inv node _ Hn Hnode) as (q & _ & Hq & <-). exists t, q. split; [exact Ht|]. split; [exact Hq|].
      unfold value in E. rewrite (ravel_entry _ _ _ (Hsh t Ht) Hq) in E.
      destruct (entry_some t _ q (Hsh t Ht) Hq) as (w & Ew). rewrite Ew in *. congruence.
    - intros (t & q & Ht & Hq & E). exists (flat (g_count (l_grid l)) q). split; [apply in_zrange, flat_range, Hq|].
      apply in_map_iff. exists t. split; [|exact Ht]. unfold value. rewrite (ravel_entry _ _ _ (Hsh t Ht) Hq), E. reflexivity. }
  destruct flt as [|v0 flt']; [discriminate|]. intros H. injection H as <-.
  destruct (fold_Rmax_ge flt' v0) as (G1 & G2). split.
  - intros s p t q v Hs Hp Ht Hv Hq. destruct (all_tables_in l _ s p Et Hs Hp) as (t' & Ht' & Htab).
    assert (t' = t) by (apply lookup_table_of in Ht; apply lookup_table_of in Htab; congruence). subst t'.
    assert (Hv' : In v (v0 :: flt')) by (apply Hin; exists t, q; tauto).
    destruct Hv' as [->|Hv']; [exact G1|exact (G2 v Hv')].
  - assert (HM : In (fold_left Rmax flt' v0) (v0 :: flt')).
    { destruct (fold_Rmax_in flt' v0) as [E|H]; [left; symmetry; exact E|right; exact H]. }
    apply Hin in HM. destruct HM as (t & q & Ht & Hq & E). destruct (all_tables_table l _ t Et Ht) as (s & p & Hs & Hp & Htab).
    exists s, p, t, q. tauto.
Qed.

(** * Equality and addition *)
Lemma Req_b_true x y : Req_b x y = true <-> x = y.
Proof. unfold Req_b. destruct (Req_EM_T x y); split; congruence. Qed.
Lemma vec_eqb_true x y : vec_eqb x y = true <-> x = y.
Proof.
  destruct x as ((a, b), c), y as ((p, q), r). unfold vec_eqb, vmap2. rewrite !andb_true_iff, !Req_b_true.
  split; [intros ((-> & ->) & ->); reflexivity|]. intros E. injection E as -> -> ->. tauto.
Qed.
Lemma vecs_eqb_true l : forall m, vecs_eqb l m = true <-> l = m.
Proof.
  induction l as [|x l IH]; intros [|y m]; cbn; try (split; [discriminate|discriminate]); [tauto|].
  rewrite andb_true_iff, vec_eqb_true, IH. split; [intros (-> & ->); reflexivity|]. intros E. injection E as -> ->. tauto.
Qed.

Lemma axis_coord_inj ll s i j : (0 < s)%R -> axis_coord ll s i = axis_coord ll s j -> i = j.
Proof.
  unfold axis_coord. intros Hs E. apply eq_IZR. apply (Rmult_eq_reg_r s); lra.
Qed.

Lemma lut_eqb_iff a b : grid_ok (l_grid a) -> grid_ok (l_grid b) -> (lut_eqb a b = true <-> l_grid a = l_grid b).
Proof.
  intros Ha Hb. unfold lut_eqb. rewrite !andb_true_iff, vecs_eqb_true, vec_eqb_true, !Z.eqb_eq.
  split; [|intros ->; tauto]. intros ((Hc & Hs) & Hg & Hp).
  destruct (l_grid a) as (ll, sp, n, gp, cp), (l_grid b) as (ll', sp', n', gp', cp'). cbn in *. subst sp' gp' cp'.
  destruct ll as ((l1, l2), l3), ll' as ((m1, m2), m3), sp as ((s1, s2), s3), n as ((n1, n2), n3), n' as ((k1, k2), k3).
  unfold grid_ok in Ha. cbn in Ha. destruct Ha as ((S1 & S2 & S3) & _).
  unfold grid_corners in Hc. cbn [g_count flat_map map app] in Hc. rewrite !node2grid_eq in Hc. cbn [g_ll g_spacing] in Hc.
  pose proof (f_equal (fun l => nth 0 l (0, 0, 0)%R) Hc) as C0. pose proof (f_equal (fun l => nth 7 l (0, 0, 0)%R) Hc) as C7.
  cbn [nth] in C0, C7. clear Hc. injection C0 as A1 A2 A3. injection C7 as B1 B2 B3.
  assert (F1 : l1 = m1) by (unfold axis_coord in A1; lra). assert (F2 : l2 = m2) by (unfold axis_coord in A2; lra).
  assert (F3 : l3 = m3) by (unfold axis_coord in A3; lra). subst m1 m2 m3.
  apply axis_coord_inj in B1; [|exact S1]. apply axis_coord_inj in B2; [|exact S2]. apply axis_coord_inj in B3; [|exact S3].
  replace k1 with n1 by lia. replace k2 with n2 by lia. replace k3 with n3 by lia. reflexivity.
Qed.

Lemma lut_eqb_refl a : lut_eqb a a = true.
Proof. unfold lut_eqb. rewrite !andb_true_iff, vecs_eqb_true, vec_eqb_true, !Z.eqb_eq. tauto. Qed.
Lemma lut_eqb_sym a b : lut_eqb a b = lut_eqb b a.
Proof.
  apply eq_true_iff_eq. unfold lut_eqb. rewrite !andb_true_iff, !vecs_eqb_true, !vec_eqb_true, !Z.eqb_eq.
  split; intros ((? & ?) & ? & ?); repeat split; congruence.
Qed.
Lemma lut_eqb_trans a b c : lut_eqb a b = true -> lut_eqb b c = true -> lut_eqb a c = true.
Proof.
  unfold lut_eqb. rewrite !andb_true_iff, !vecs_eqb_true, !vec_eqb_true, !Z.eqb_eq.
  intros ((? & ?) & ? & ?) ((? & ?) & ? & ?). repeat split; congruence.
Qed.

Lemma lut_add_ok a b : NoDup (keys (l_tt b)) ->
  match lut_add a b with
  | Some c => lut_eqb a b = true /\ l_grid c = l_grid a /\ l_names c = l_names a /\ l_phases c = l_phases a
      /\ forall s, dget (l_tt c) s = match dget (l_tt b) s with Some m => Some m | None => dget (l_tt a) s end
  | None => lut_eqb a b = false
  end.
Proof.
  intros Hnd. unfold lut_add. destruct (lut_eqb a b); [|reflexivity]. cbn.
  do 4 (split; [reflexivity|]). intros s. apply dget_dupdate. exact Hnd.
Qed.

(** * Statements used in the property file *)
Lemma nearest_node g v q : grid_ok g -> (dist2 v (node2grid g (grid2node g v)) <= dist2 v (node2grid g q))%R.
Proof.
  unfold grid_ok. rewrite !node2grid_eq. unfold grid2node, vmap2.
  destruct (g_ll g) as ((l1, l2), l3), (g_spacing g) as ((s1, s2), s3), (g_count g) as ((n1, n2), n3), v as ((v1, v2), v3), q as ((i, j), k).
  intros ((S1 & S2 & S3) & _). unfold dist2.
  assert (H : forall x y, (Rabs x <= Rabs y -> x * x <= y * y)%R).
  { intros x y Hxy. assert (A := Rsqr_le_abs_1 x y Hxy). unfold Rsqr in A. exact A. }
  apply Rplus_le_compat; [apply Rplus_le_compat|]; apply H, axis_nearest; assumption.
Qed.

Lemma inside_is_node g v : grid_ok g -> inside g v -> is_node (g_count g) (grid2node g v).
Proof.
  unfold grid_ok, inside, grid2node, vmap2.
  destruct (g_ll g) as ((l1, l2), l3), (g_spacing g) as ((s1, s2), s3), (g_count g) as ((n1, n2), n3), v as ((v1, v2), v3).
  intros ((S1 & S2 & S3) & N1 & N2 & N3) (H1 & H2 & H3). cbn.
  split; [apply axis_in_range; [exact S1|lia|exact H1]|]. split; [apply axis_in_range; [exact S2|lia|exact H2]|].
  apply axis_in_range; [exact S3|lia|exact H3].
Qed.

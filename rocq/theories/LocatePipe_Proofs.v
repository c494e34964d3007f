(** Proofs about the way from the onsets to a location. *)
From Coq Require Import List ZArith Reals Bool Lia Lra.
From Verif Require Import Lib LibFacts Timeline_Model Timeline_Spec Migrate_Model Migrate_Spec Migrate_Proofs ScanMseed_Model Lut_Model Lut_Spec Lut_Proofs
  Locate_Model Locate_Spec Locate_Proofs Locate_Props Source_Spec Pipeline_Spec Pipeline_Proofs LocatePipe_Model LocatePipe_Spec.
Import ListNotations.
Open Scope Z_scope.

Lemma map_opt_id_some {A} (l : list (option A)) : (forall i x, rd l i = Some x -> x <> None) ->
  exists m, map_opt (fun x => x) l = Some m /\ length m = length l /\ forall i x, rd l i = Some (Some x) -> rd m i = Some x.
Proof.
  intros H. destruct (map_opt_some (fun x : option A => x) l) as [m Em].
  { intros x Hx. apply in_rd in Hx as [i Hi]. exact (H _ _ Hi). }
  exists m. split; [exact Em|]. split; [exact (map_opt_len _ _ _ Em)|].
  intros i x Hi. destruct (map_opt_rd _ _ _ Em i _ Hi) as (y & E & Hy). congruence.
Qed.

Lemma time_slices_array nn ns F : 0 <= nn -> 0 <= ns ->
  time_slices nn ns (array2 nn ns F) = map (fun s => map (fun node => F node s) (zrange nn)) (zrange ns).
Proof.
  intros Hn Hs. unfold time_slices. apply map_ext_in. intros s Hin. apply in_zrange in Hin. apply map_ext_in. intros node Hnode. apply in_zrange in Hnode.
  pose proof (rd_array2 _ nn ns F node s Hnode Hin) as E. unfold node_value.
  unfold rd in E. destruct (_ <? 0) in E; [discriminate|]. apply nth_error_nth with (d := 0%R) in E. exact E.
Qed.

(** * The computed event *)
Section Compute.
Context (r0 : mreg) (r1 : freg) (coord : Z -> vec) (c : clock) (n first last k nn : Z) (tt : Z -> Z -> Z) (on : Z -> Z -> R) (trig : Z).
Context (Hd : 0 < delta c) (Hk : 0 < k) (Hn : 1 <= n) (Hnn : 1 <= nn) (Hf : 0 <= first) (Hl : 0 <= last).
Context (Htt : forall node s, 0 <= node < nn -> 0 <= s < n -> tt node s <= last).
Let mw := k * delta c.
Let ns := 4 * k + 1.
Let T := first + ns + last.
Context (Hsz : n * T < 2147483648).
Let F node s := stack n first tt on node s.

Lemma mw_len : 4 * mw / delta c + 1 = ns.
Proof. clear Hn Hnn Hf Hl Htt Hsz T F last first r0 r1 coord. unfold mw, ns. replace (4 * (k * delta c)) with (4 * k * delta c) by ring. rewrite Z.div_mul by lia. lia. Qed.

Lemma compute_ok : exists ev s0 node0 nv,
  compute_event r0 r1 coord c n T (array2 nn n tt) nn first last mw (array2 n T on) trig = Ret ev /\
  largest_stack n first tt on nn ns node0 s0 /\ computed ev s0 /\ e_trig ev = trig /\ e_mw ev = mw /\
  e_otime ev = trig - 2 * mw + s0 * delta c /\ map r_dt (e_rows ev) = mw_times c trig mw /\
  max_coalescence ev = Ret (e_otime ev, F node0 s0, nv) /\
  nv = (F node0 s0 / arithmetic_mean (map (fun i => F i s0) (zrange nn)))%R /\
  e_map ev = map (fun s => map (fun node => F node s) (zrange nn)) (zrange ns).
Proof.
  unfold compute_event.
  assert (Em : lib_migrate r0 (array2 n T on) n T (array2 nn n tt) nn n first last n = Ret (array2 nn (T - first - last) F))
    by (apply lib_migrate_ok; unfold T, ns; try assumption; lia).
  rewrite Em. cbn [bind]. cbv zeta. replace (T - first - last) with ns by (unfold T; ring).
  destruct (find_max_ok r1 F nn ns) as (o & Eo & L1 & L2 & L3 & H); [lia|unfold ns; lia|].
  rewrite Eo. cbn [bind].
  assert (Hnorm : forall s, 0 <= s < ns -> exists v M, rd (o_norm o) s = Some (Some v) /\ rd (o_max o) s = Some M
    /\ v = (M / arithmetic_mean (map (fun i => F i s) (zrange nn)))%R).
  { intros s Hs. destruct (find_max_norm r1 F nn ns o s) as (v & M & N1 & N2 & N3 & _); [lia|lia|exact Eo|exact Hs|intros; apply stack_pos|].
    exists v, M. auto. }
  destruct (map_opt_id_some (o_norm o)) as (norms & En & Ln & Hnorms).
  { intros i x Hi. destruct (Hnorm i) as (v & M & N1 & _); [pose proof (rd_bounds _ _ _ _ Hi); lia|]. congruence. }
  rewrite En. rewrite time_slices_array by (unfold ns; lia).
  assert (Lt : Z.of_nat (length (mw_times c trig mw)) = ns).
  { unfold mw_times. rewrite map_length, zrange_length, mw_len. unfold ns. lia. }
  assert (Hmw : 0 <= mw) by (unfold mw; nia).
  destruct (C38_origin_is_peak (list R) c trig mw (o_max o) norms (map coord (o_idx o)) (map (fun s => map (fun node => F node s) (zrange nn)) (zrange ns)) Hd Hmw)
    as (ev & s0 & E & Hfl & Ho & Hmc & D1 & D2 & D3 & D4 & D5 & D6 & D7 & Hcomp); [lia|lia|rewrite map_length; lia|].
  assert (B : 0 <= s0 < ns) by (destruct Hfl as (v & Hv & _); pose proof (rd_bounds _ _ _ _ Hv); lia).
  destruct (H s0 B) as (node0 & (Hnode & Hbest & _) & H1 & H2 & _).
  destruct (Hnorm s0 B) as (nv & M & N1 & N2 & N3). assert (M = F node0 s0) by congruence. subst M.
  exists ev, s0, node0, nv. split; [exact E|]. split.
  { split; [exact Hnode|]. split; [exact B|]. intros node s Hn' Hs. fold (F node s). fold (F node0 s0).
    destruct (H s Hs) as (m & (Hm & Hb & _) & Hm1 & _). pose proof (Hb node Hn') as Hle. cbn beta in Hle.
    destruct Hfl as (v & Hv & Hmax & Hfirst). assert (v = F node0 s0) by congruence. subst v. split.
    - pose proof (Hmax s _ Hm1). lra.
    - intros Hlt. pose proof (Hfirst s _ Hlt Hm1). lra. }
  split.
  { apply Hcomp. rewrite map_length, zrange_length. unfold ns in *. lia. }
  repeat split; try assumption.
  rewrite Hmc. unfold value. rewrite H1, (Hnorms _ _ N1). reflexivity.
Qed.

(** The window of the trimmed map. *)
Lemma trimmed_map ev s0 : computed ev s0 -> e_trig ev = trig -> e_mw ev = mw ->
  e_otime ev = trig - 2 * mw + s0 * delta c -> map r_dt (e_rows ev) = mw_times c trig mw ->
  e_map ev = map (fun s => map (fun node => F node s) (zrange nn)) (zrange ns) ->
  0 <= s0 < ns -> Z.abs (e_otime ev - trig) < mw ->
  exists ev', trim2window ev = Ret ev' /\ e_otime ev' = e_otime ev /\ max_coalescence ev' = max_coalescence ev /\
    e_map ev' = map (fun i => map (fun node => F node (s0 - k + i)) (zrange nn)) (zrange (2 * k)).
Proof. clear Hn Hnn Hf Hl Htt Hsz T last r0 r1 coord.
  intros Hc Ht Hm Ho Hdt Hmap B Hin.
  assert (Hmw : 0 < mw) by (unfold mw; nia).
  assert (Him : in_marginal_window ev = true).
  { unfold in_marginal_window. rewrite Ht, Hm, andb_true_iff, !Z.ltb_lt. lia. }
  destruct (C38_window_complete _ c trig mw ev s0 Hd Hmw ltac:(exists k; reflexivity) Hc Ht Hm Hdt Him) as (ev' & E & Hdt' & Hlen).
  assert (Hmw0 : 0 <= e_mw ev) by lia.
  destruct (C38_trim_keeps_origin_partial _ ev s0 Hc Hmw0) as (ev2 & a & E2 & T1 & T2 & T3 & _ & (r & Hr & Hmc & Hr') & Hrows & Hmaps & Hl1).
  assert (ev2 = ev') by congruence. subst ev2.
  exists ev'. split; [exact E|]. split; [exact T1|]. split.
  { rewrite Hmc. unfold max_coalescence, peak. destruct Hc as (_ & _ & Hfl & Hot).
    destruct (argmax_total (map r_coa (e_rows ev))) as [q Eq].
    { destruct Hfl as (v & Hv & _). intros N. rewrite N in Hv. unfold rd in Hv. destruct (s0 <? 0); [discriminate|]. destruct (Z.to_nat s0); discriminate. }
    rewrite Eq. cbn [bind]. apply argmax_ok in Eq. rewrite (first_largest_unique _ _ _ Eq Hfl), Hr. cbn [bind]. f_equal. f_equal. f_equal.
    rewrite rd_map, Hr in Hot. cbn in Hot. congruence. }
  assert (E2k : 2 * mw / delta c = 2 * k).
  { unfold mw. replace (2 * (k * delta c)) with (2 * k * delta c) by ring. apply Z.div_mul. lia. }
  rewrite E2k in Hlen.
  assert (Ha : a = s0 - k).
  { assert (Hl' : Z.of_nat (length (e_rows ev')) = 2 * k + 1) by lia.
    destruct (rd_in_range _ (e_rows ev') 0) as [r1' Hr1]; [lia|].
    pose proof (Hrows 0 ltac:(lia)) as Hz. rewrite Z.add_0_r, Hr1 in Hz.
    pose proof (f_equal (fun l => rd l 0) Hdt') as Q. cbn beta in Q. rewrite rd_map, Hr1 in Q. unfold times_from in Q.
    rewrite rd_map, rd_zrange in Q by lia. cbn [option_map] in Q.
    pose proof (f_equal (fun l => rd l a) Hdt) as P. cbn beta in P. rewrite rd_map, <- Hz in P. unfold mw_times in P. rewrite mw_len in P.
    assert (0 <= a < ns).
    { pose proof (rd_bounds _ _ _ _ (eq_sym Hz)) as Bz. pose proof (f_equal (@length _) Hdt) as LL. unfold mw_times in LL.
      rewrite !map_length, zrange_length, mw_len in LL. lia. }
    rewrite rd_map, rd_zrange in P by lia. cbn [option_map] in P.
    assert (Hx : r_dt r1' = e_otime ev - mw + 0 * delta c) by congruence.
    assert (Hy : r_dt r1' = trig - 2 * mw + a * delta c) by congruence.
    assert (Hz2 : (s0 - k - a) * delta c = 0) by (unfold mw in *; lia). apply Z.mul_eq_0 in Hz2. lia. }
  apply (rd_ext_opt _). intros i. destruct (Z.le_gt_cases 0 i) as [Hi0|Hi0]; [|rewrite !rd_none by lia; reflexivity].
  destruct (Z.lt_ge_cases i (2 * k)) as [Hi|Hi].
  - destruct (Hmaps i ltac:(lia)) as [-> _]. rewrite Ha, Hmap.
    assert (Hr2 : 0 <= s0 - k + i < ns).
    { unfold ns, mw in *. rewrite Ho in Hin. assert (Z.abs ((s0 - 2 * k) * delta c) < k * delta c) by (replace ((s0 - 2 * k) * delta c) with (trig - 2 * (k * delta c) + s0 * delta c - trig) by ring; exact Hin).
      rewrite Z.abs_mul, (Z.abs_eq (delta c)) in H by lia. apply Z.mul_lt_mono_pos_r in H; lia. }
    rewrite !rd_map, !rd_zrange by lia. reflexivity.
  - rewrite !rd_none; [reflexivity| |]; right; [rewrite map_length, zrange_length|]; lia.
Qed.
End Compute.

Lemma stacked_marginal cnt n first tt on lo len q : pos3 cnt -> is_node cnt q ->
  stacked cnt (map (fun i => map (fun node => stack n first tt on node (lo + i)) (zrange (n_nodes cnt))) (zrange len)) q
  = marginal n first tt on (flat cnt q) lo len.
Proof.
  intros Hp Hq. unfold stacked, marginal, sum. rewrite map_map. f_equal. apply map_ext. intros i. unfold at_node, value.
  pose proof (flat_range cnt q Hq). rewrite rd_map, rd_zrange by lia. reflexivity.
Qed.

(** The stack of a window of onsets given at absolute sample numbers. *)
Lemma stack_window n first tt X j0 node s : stack n first tt (window_of X first j0) node s = stack_at n tt X node (j0 + s).
Proof.
  unfold stack, stack_at, window_of, arrival. f_equal. apply map_ext. intros k. f_equal. f_equal. lia.
Qed.

Lemma flat_dec (cnt q p : ijk) : is_node cnt q -> is_node cnt p -> q = p \/ q <> p.
Proof.
  intros _ _. destruct q as [[a b] d], p as [[x y] z]. destruct (Z.eq_dec a x), (Z.eq_dec b y), (Z.eq_dec d z); subst; try (left; reflexivity); right; congruence.
Qed.
Lemma marginal_window n first tt X j0 node lo len : marginal n first tt (window_of X first j0) node lo len = marginal_at n tt X node (j0 + lo) len.
Proof.
  unfold marginal, marginal_at, sum. f_equal. apply map_ext. intros i. rewrite stack_window. f_equal. lia.
Qed.

Lemma consecutive_aligned {A} c : forall (l : list (seg A)) t g, (delta c | t) -> ScanMseed_Spec.consecutive c t l -> In g l -> (delta c | t0 g).
Proof.
  induction l as [|h l IH]; intros t g Ht Hc Hin; [contradiction|]. cbn [ScanMseed_Spec.consecutive] in Hc. destruct Hc as (E & _ & _ & Hc).
  destruct Hin as [->|Hin]; [rewrite E; exact Ht|]. apply (IH _ _ ltac:(apply Z.divide_add_r; [exact Ht|apply Z.divide_factor_r]) Hc Hin).
Qed.

(** C106: from the onsets around a triggered event to its location. *)
From Coq Require Import List ZArith Reals QArith Qreals Bool Lia Lra.
From Verif Require Import Lib LibFacts Timeline_Model Timeline_Spec Migrate_Model Migrate_Spec Migrate_Proofs ScanMseed_Model ScanMseed_Spec Lut_Model Lut_Spec Lut_Proofs
  Locate_Model Locate_Spec Locate_Proofs Locate_Props Trigger_Model Trigger_Spec Trigger_Proofs Source_Spec Pipeline_Model Pipeline_Spec Pipeline_Proofs Pipeline_Props
  LocatePipe_Model LocatePipe_Spec LocatePipe_Proofs.
Import ListNotations.
Open Scope Z_scope.

(** C106, what locate does with one triggered event, whatever the onsets: the origin time is the first time
    with the largest stack of all nodes and times of the window; the event is kept when that time is nearer
    than the marginal window to the trigger time, and dropped otherwise; a kept event is located
    within two nodes of the node with the largest sum of stacks over the marginal window. *)
Theorem C106_locate_outcome :
  forall rbf g coord r0 r1 c n first last tt mw trig sp sq mags pre post read on,
  let cnt := g_count g in let k := mw / delta c in let t := first + (4 * k + 1) + last in
  interpolating rbf -> grid_ok g -> 0 < delta c -> 0 < mw -> (delta c | mw) ->
  1 <= n -> 0 <= first -> 0 <= last -> n * t < 2147483648 ->
  (forall node s, 0 <= node < n_nodes cnt -> 0 <= s < n -> tt node s <= last) ->
  (let '(b, e, x, y) := event_window trig mw sp sq mags pre post in read b e x y = Ret (array2 n t on)) ->
  let result := locate_one read (compute_event r0 r1 coord c n t (array2 (n_nodes cnt) n tt) (n_nodes cnt) first last mw)
                  (finish_event rbf g) mw sp sq mags pre post trig in
  exists node0 s0, largest_stack n first tt on (n_nodes cnt) (4 * k + 1) node0 s0 /\
  let otime := trig - 2 * mw + s0 * delta c in
  if Z.abs (otime - trig) <? mw then
    exists ev loc cloc cov unc p, result = Ret (Some (ev, (loc, Some (cloc, cov, unc)))) /\
      e_otime ev = otime /\
      max_coalescence ev = Ret (otime, stack n first tt on node0 s0,
        (stack n first tt on node0 s0 / arithmetic_mean (map (fun i => stack n first tt on i s0) (zrange (n_nodes cnt))))%R) /\
      largest_marginal n first tt on cnt (s0 - k) (2 * k) p /\ within_two p loc /\
      inside g (frac2grid g loc) /\ inside g cloc
  else result = Ret None.
Proof.
  intros rbf g coord r0 r1 c n first last tt mw trig sp sq mags pre post read on cnt k t Hrbf Hg Hd Hmw [k' Hk'] Hn Hf Hl Hsz Htt Hread result.
  assert (Ek : k = k') by (unfold k; rewrite Hk', Z.div_mul by lia; reflexivity). rewrite <- Ek in Hk'.
  assert (Hk : 0 < k) by (rewrite Hk' in Hmw; nia). clear k' Ek.
  pose proof (grid_ok_pos g Hg) as Hp. fold cnt in Hp. pose proof (pos3_nodes cnt Hp) as Hnn.
  destruct (compute_ok r0 r1 coord c n first last k (n_nodes cnt) tt on trig Hd Hk Hn ltac:(lia) Hf Hl Htt Hsz)
    as (ev & s0 & node0 & nv & E & Hls & Hc & Ht & Hm & Ho & Hdt & Hmc & Hnv & Hmap).
  rewrite <- Hk' in *. fold t in E. exists node0, s0. split; [exact Hls|]. cbv zeta.
  assert (Er : result = if in_marginal_window ev then bind (trim2window ev) (fun ev' => bind (finish_event rbf g ev') (fun w => Ret (Some w))) else Ret None).
  { unfold result, locate_one. destruct (event_window trig mw sp sq mags pre post) as (((b, e), x), y). rewrite Hread. cbn [bind]. rewrite E. reflexivity. }
  rewrite <- Ho. destruct (Z.ltb_spec (Z.abs (e_otime ev - trig)) mw) as [Hlt|Hge].
  - assert (Him : in_marginal_window ev = true) by (unfold in_marginal_window; rewrite Ht, Hm, andb_true_iff, !Z.ltb_lt; lia).
    rewrite Him in Er. destruct Hls as (Hn0 & Hs0 & _).
    destruct (trimmed_map c n first k (n_nodes cnt) tt on trig Hd Hk ev s0) as (ev' & E' & O' & M' & Map'); try assumption; try (rewrite <- Hk'; assumption).
    rewrite E' in Er. cbn [bind] in Er. unfold finish_event in Er. rewrite Map' in Er.
    set (map4d := map (fun i => map (fun node => stack n first tt on node (s0 - k + i)) (zrange (n_nodes cnt))) (zrange (2 * k))) in *.
    destruct (C40_locations_inside rbf g map4d Hrbf Hg) as (loc & cloc & cov & unc & p & El & Hnode & Hbest & H2 & Hi & Hci & _).
    { unfold map4d. intros N. apply map_eq_nil in N. exact (zrange_nonempty (2 * k) ltac:(lia) N). }
    { apply Forall_forall. intros m Hin. unfold map4d in Hin. apply in_map_iff in Hin as (i & <- & _). split.
      - rewrite map_length, zrange_length. fold cnt. lia.
      - apply Forall_forall. intros v Hv. apply in_map_iff in Hv as (node & <- & _). apply stack_pos. }
    rewrite El in Er. cbn [bind] in Er. exists ev', loc, cloc, cov, unc, p. split; [exact Er|]. split; [exact O'|].
    split; [rewrite M', Hmc, Hnv; reflexivity|]. split.
    { split; [exact Hnode|]. intros q Hq. pose proof (Hbest q Hq) as B. fold cnt in B, Hq, Hnode. unfold map4d in B.
      rewrite !stacked_marginal in B by assumption. exact B. }
    repeat split; assumption.
  - assert (Him : in_marginal_window ev = false) by (unfold in_marginal_window; rewrite Ht, Hm, andb_false_iff, !Z.ltb_ge; lia).
    rewrite Him in Er. exact Er.
Qed.
Print Assumptions C106_locate_outcome.

(** C106, a source: if the stack at one node and time exceeds those at all other nodes and times of the window,
    that time is less than the marginal window from the trigger time, and the sum of the stacks over the
    marginal window is largest at that node only, the event gets that time and a location within two nodes. *)
Theorem C106_source_located_partial :
  forall rbf g coord r0 r1 c n first last tt mw trig sp sq mags pre post read on p s0,
  let cnt := g_count g in let k := mw / delta c in let t := first + (4 * k + 1) + last in let node := flat cnt p in
  interpolating rbf -> grid_ok g -> 0 < delta c -> 0 < mw -> (delta c | mw) ->
  1 <= n -> 0 <= first -> 0 <= last -> n * t < 2147483648 ->
  (forall node s, 0 <= node < n_nodes cnt -> 0 <= s < n -> tt node s <= last) ->
  (let '(b, e, x, y) := event_window trig mw sp sq mags pre post in read b e x y = Ret (array2 n t on)) ->
  let result := locate_one read (compute_event r0 r1 coord c n t (array2 (n_nodes cnt) n tt) (n_nodes cnt) first last mw)
                  (finish_event rbf g) mw sp sq mags pre post trig in
  is_node cnt p -> 0 <= s0 < 4 * k + 1 ->
  (forall node' s', 0 <= node' < n_nodes cnt -> 0 <= s' < 4 * k + 1 -> (node', s') <> (node, s0) ->
     (stack n first tt on node' s' < stack n first tt on node s0)%R) ->
  let otime := trig - 2 * mw + s0 * delta c in
  Z.abs (otime - trig) < mw ->
  (forall q, is_node cnt q -> q <> p -> (marginal n first tt on (flat cnt q) (s0 - k) (2 * k) < marginal n first tt on node (s0 - k) (2 * k))%R) ->
  exists ev loc cloc cov unc nv, result = Ret (Some (ev, (loc, Some (cloc, cov, unc)))) /\
    e_otime ev = otime /\ max_coalescence ev = Ret (otime, stack n first tt on node s0, nv) /\ within_two p loc.
Proof.
  intros rbf g coord r0 r1 c n first last tt mw trig sp sq mags pre post read on p s0 cnt k t node Hrbf Hg Hd Hmw Hdiv Hn Hf Hl Hsz Htt Hread result Hp Hs0 Hbig otime Hot Hmar.
  pose proof (flat_range cnt p Hp) as Hfl. fold node in Hfl.
  destruct (C106_locate_outcome rbf g coord r0 r1 c n first last tt mw trig sp sq mags pre post read on Hrbf Hg Hd Hmw Hdiv Hn Hf Hl Hsz Htt Hread)
    as (node1 & s1 & (Hn1 & Hs1 & Hbest) & H). fold cnt k t result in H, Hbest, Hn1, Hs1.
  assert (E : (node1, s1) = (node, s0)).
  { destruct (Z.eq_dec node1 node) as [->|N]; [destruct (Z.eq_dec s1 s0) as [->|N]; [reflexivity|]|]; exfalso.
    - pose proof (Hbig node s1 Hn1 Hs1 ltac:(congruence)). destruct (Hbest node s0 Hfl Hs0). lra.
    - pose proof (Hbig node1 s1 Hn1 Hs1 ltac:(congruence)). destruct (Hbest node s0 Hfl Hs0). lra. }
  assert (node1 = node) by congruence. assert (s1 = s0) by congruence. subst node1 s1. cbv zeta in H. fold otime in H.
  destruct (Z.ltb_spec (Z.abs (otime - trig)) mw) as [_|Hge]; [|lia].
  destruct H as (ev & loc & cloc & cov & unc & q & Hr & Ho & Hmc & (Hq & Hqb) & Hw & _).
  assert (q = p).
  { destruct (flat_dec cnt q p Hq Hp) as [|N]; [assumption|exfalso]. pose proof (Hmar q Hq N). pose proof (Hqb p Hp). fold node in H0. lra. }
  subst q. do 6 eexists. split; [exact Hr|]. split; [exact Ho|]. split; [exact Hmc|exact Hw].
Qed.
Print Assumptions C106_source_located_partial.

(** C106, from the scan to the location: onsets given at absolute sample numbers, scanned in consecutive steps, stored,
    triggered, and migrated again around the triggered event. A source that stands out in the padded batch
    and in the locate window, and whose marginal sum is largest at its node only, is triggered and located:
    the event has the time of the source and a location within two nodes of it. *)
Theorem C106_source_scanned_triggered_located_partial :
  forall rbf g coord c n first last tt X ucf fs fs' start l p s e w w' es g0 s0 src first' last' mw,
  let cnt := g_count g in let k := mw / delta c in let node := flat cnt src in
  let j := t0 g0 / delta c + s0 in let t := j * delta c in
  grid_ok g -> is_node cnt src -> interpolating rbf ->
  (* the scan *)
  1 <= n -> 0 <= first -> 0 <= last -> (forall node k, 0 <= node < n_nodes cnt -> 0 <= k < n -> tt node k <= last) ->
  Forall2 (migrated coord n (n_nodes cnt) first last tt) l (map (fun b => window_of X first (t0 b / delta c)) l) ->
  scanned c ucf fs fs' start l (pad p) s e -> In g0 l -> 0 <= s0 < Z.of_nat (length (rows g0)) ->
  (* the trigger *)
  threshold_method p = Static -> normalise_coalescence p = false -> 0 <= pad p ->
  trigger_batch c p (trigger_read c ucf fs' (pad p)) None w s e = Ret (w', es) ->
  accepts c (s, e) t ->
  (Q2R (static_threshold p) + 5 / 1000000 <= kept (stack_at n tt X node j))%R ->
  (forall node' j', 0 <= node' < n_nodes cnt -> (node', j') <> (node, j) ->
     s - pad p <= j' * delta c <= e + pad p \/ Z.abs (j' - j) <= 2 * k ->
     (stack_at n tt X node' j' + 1 / 100000 < kept (stack_at n tt X node j))%R) ->
  (* the location *)
  0 < mw -> (delta c | mw) -> 0 <= first' -> 0 <= last' ->
  (forall node k, 0 <= node < n_nodes cnt -> 0 <= k < n -> tt node k <= last') ->
  let t' := first' + (4 * k + 1) + last' in n * t' < 2147483648 ->
  (forall q, is_node cnt q -> q <> src ->
     (marginal_at n tt X (flat cnt q) (j - k) (2 * k) < marginal_at n tt X node (j - k) (2 * k))%R) ->
  exists tev, In tev es /\ let trig := CoaTime (cand tev) in trig = t /\
  forall r0 r1 read sp sq mags pre post,
  (let '(b, e, x, y) := event_window trig mw sp sq mags pre post in
   read b e x y = Ret (array2 n t' (window_of X first' (trig / delta c - 2 * k)))) ->
  exists ev loc cloc cov unc nv,
    locate_one read (compute_event r0 r1 coord c n t' (array2 (n_nodes cnt) n tt) (n_nodes cnt) first' last' mw)
      (finish_event rbf g) mw sp sq mags pre post trig = Ret (Some (ev, (loc, Some (cloc, cov, unc)))) /\
    e_otime ev = t /\ max_coalescence ev = Ret (t, stack_at n tt X node j, nv) /\ within_two src loc.
Proof.
  intros rbf g coord c n first last tt X ucf fs fs' start l p s e w w' es g0 s0 src first' last' mw cnt k node j t
    Hg Hsrc Hrbf Hn Hf Hl Htt FM S Hg0 Hs0 Hm Hnc Hp Ht Ha Hth Hbig Hmw Hdiv Hf' Hl' Htt' t' Hsz Hmar.
  pose proof (sc_delta _ _ _ _ _ _ _ _ _ S) as Hd.
  pose proof (flat_range cnt src Hsrc) as Hnode. fold node in Hnode.
  assert (Al : forall b, In b l -> t0 b = t0 b / delta c * delta c).
  { intros b Hb. destruct (consecutive_aligned c l start b (sc_start _ _ _ _ _ _ _ _ _ S) (sc_steps _ _ _ _ _ _ _ _ _ S) Hb) as [m ->].
    rewrite Z.div_mul by lia. reflexivity. }
  assert (Et : t0 g0 + s0 * delta c = t) by (unfold t, j; rewrite (Al g0 Hg0) at 1; ring).
  assert (Hcomb : forall b on, In (b, on) (combine l (map (fun b => window_of X first (t0 b / delta c)) l)) -> In b l /\ on = window_of X first (t0 b / delta c)).
  { clear. intros b on. induction l as [|x r IH]; [contradiction|]. cbn. intros [E|E]; [split; [left|]; congruence|]. destruct (IH E). auto. }
  assert (Hc0 : In (g0, window_of X first (t0 g0 / delta c)) (combine l (map (fun b => window_of X first (t0 b / delta c)) l))).
  { clear - Hg0. induction l as [|x r IH]; [contradiction|]. cbn. destruct Hg0 as [->|H]; [left; reflexivity|right; auto]. }
  destruct (C105_source_becomes_event_partial coord n (n_nodes cnt) first last tt c ucf fs fs' start l _ p s e w w' es g0 _ node s0
     Hn Hf Hl Htt FM S Hm Hnc Hp Ht Hc0 Hnode Hs0) as (tev & nv & Hev & (E1 & _) & _).
  - rewrite Et. exact Ha.
  - rewrite stack_window. exact Hth.
  - rewrite Et, stack_window. intros b on node' s' Hb Hn' Hs'. cbv zeta. intros Hr Hne. destruct (Hcomb _ _ Hb) as [Hbl ->]. rewrite stack_window.
    apply Hbig; [exact Hn'| |left].
    + intros Q. apply Hne. rewrite (Al b Hbl) at 1. replace node' with node by congruence. unfold t.
      replace j with (t0 b / delta c + s') by congruence. f_equal. ring.
    + pose proof (Al b Hbl) as Ab. replace ((t0 b / delta c + s') * delta c) with (t0 b / delta c * delta c + s' * delta c) by ring. rewrite <- Ab. exact Hr.
  - rewrite Et in E1. exists tev. split; [exact Hev|]. cbv zeta. split; [exact E1|]. rewrite E1. intros r0 r1 read sp sq mags pre post Hread.
    replace (t / delta c) with j in Hread by (unfold t; rewrite Z.div_mul by lia; reflexivity).
    assert (Ek : mw = k * delta c) by (unfold k; destruct Hdiv as [m ->]; rewrite Z.div_mul by lia; reflexivity).
    assert (Hk : 0 < k) by (rewrite Ek in Hmw; nia).
    assert (Ko : t - 2 * mw + 2 * k * delta c = t) by (rewrite Ek; ring).
    destruct (C106_source_located_partial rbf g coord r0 r1 c n first' last' tt mw t sp sq mags pre post read (window_of X first' (j - 2 * k)) src (2 * k))
      as (ev & loc & cloc & cov & unc & nv' & R1 & R2 & R3 & R4); try assumption; fold cnt; fold k; try lia.
    + intros node' s' Hn' Hs' Hne. rewrite !stack_window. replace (j - 2 * k + 2 * k) with j by ring. fold node.
      assert (B : (stack_at n tt X node' (j - 2 * k + s') + 1 / 100000 < kept (stack_at n tt X node j))%R).
      { apply Hbig; [exact Hn'| |right; lia]. intros Q. apply Hne. fold node. f_equal; [congruence|].
        assert (j - 2 * k + s' = j) by congruence. lia. }
      unfold kept in B. pose proof (Rmin_l (stack_at n tt X node j) 21474). lra.
    + intros q Hq Hne. rewrite !marginal_window. replace (j - 2 * k + (2 * k - k)) with (j - k) by ring. apply Hmar; assumption.
    + rewrite Ko in R2, R3. rewrite stack_window in R3. replace (j - 2 * k + 2 * k) with j in R3 by ring.
      exists ev, loc, cloc, cov, unc, nv'. split; [exact R1|]. split; [exact R2|]. split; [exact R3|exact R4].
Qed.
Print Assumptions C106_source_scanned_triggered_located_partial.

(** A grid of [nx] nodes along one axis. *)
Definition line_grid (nx : Z) : grid := mk_grid (0, 0, 0)%R (1, 1, 1)%R (nx, 1, 1) 0 0.
Lemma line_grid_ok nx : 0 < nx <= 2147483647 -> grid_ok (line_grid nx).
Proof. intros H. unfold grid_ok. cbn. repeat split; try lra; lia. Qed.
Lemma line_node nx q : is_node (nx, 1, 1) q -> exists i, q = (i, 0, 0) /\ 0 <= i < nx.
Proof. destruct q as [[i j] k]. cbn. intros (H1 & H2 & H3). exists i. split; [f_equal; [f_equal|]; lia|lia]. Qed.
Definition reg0 : mreg := {| traveltime := 0; acc := 0%R |}.
Definition reg1 : freg := {| fcur := 0%R; fmax := 0%R; fsum := 0%R; fidx := 0 |}.

(** The two stations and the source of the example for C105: scanned, triggered and located. *)
Example C106_applies : exists l fs' w' es tev,
  Forall2 (migrated c105_coord 2 2 0 2 c105_tt) l (map (fun b => window_of c105_on 0 (t0 b / delta c105_clock)) l) /\
  scanned c105_clock 1%Q (fun _ => None) fs' 0 l (pad c105_params) 1000000 3000000 /\
  trigger_batch c105_clock c105_params (trigger_read c105_clock 1%Q fs' (pad c105_params)) None
    {| tfiles := fun _ => None; output_cols := [] |} 1000000 3000000 = Ret (w', es) /\
  In tev es /\ CoaTime (cand tev) = 2000000 /\
  exists ev loc cloc cov unc nv,
  locate_one (fun _ _ _ _ => Ret (array2 2 7 (window_of c105_on 0 0)))
    (compute_event reg0 reg1 c105_coord c105_clock 2 7 (array2 2 2 c105_tt) 2 0 2 1000000)
    (finish_event lookup_rbf (line_grid 2)) 1000000 0 0 None None None 2000000 = Ret (Some (ev, (loc, Some (cloc, cov, unc)))) /\
  e_otime ev = 2000000 /\ max_coalescence ev = Ret (2000000, 9%R, nv) /\ within_two (1, 0, 0) loc.
Proof.
  assert (Htt : forall node k, 0 <= node < 2 -> 0 <= k < 2 -> c105_tt node k <= 2) by (intros; unfold c105_tt; destruct (_ =? _); lia).
  assert (Hq1 : Q2R 1%Q = 1%R) by (unfold Q2R; cbn; lra).
  assert (K : forall node j, 0 <= node < 2 -> 0 <= j < 5 -> stack_at 2 c105_tt c105_on node j
    = if (node =? 1) && (j =? 2) then 9%R else if (node =? 0) && ((j =? 1) || (j =? 3)) then 3%R else 1%R).
  { intros node j Hn Hj. rewrite <- c105_stack by assumption. unfold stack_at, stack, arrival. f_equal. }
  destruct (C105_scan_succeeds c105_coord 2 2 0 2 c105_tt c105_clock 1%Q false (fun _ => None) 0 [(5, window_of c105_on 0 0)]) as (l & fs' & E1 & E2 & E3 & E4);
    try lia; try exact Htt; try (cbn; lia).
  { exists 86400. reflexivity. }
  { exists 0. reflexivity. }
  { discriminate. }
  { constructor; [cbn; lia|constructor]. }
  { intros node Hn. unfold c105_coord. rewrite Hq1, Rabs_R0, Rmult_0_l, Rabs_R0. split; [|lra].
    assert (node = 0 \/ node = 1) as [-> | ->] by lia; rewrite Rabs_right; lra. }
  cbn [map fst snd] in E1, E3. destruct l as [|g [|g' l]]; [discriminate| |discriminate].
  assert (L : Z.of_nat (length (rows g)) = 5) by (cbn [map] in E1; congruence).
  assert (T0 : t0 g = 0) by (cbn [consecutive] in E2; tauto).
  assert (S : scanned c105_clock 1%Q (fun _ => None) fs' 0 [g] (pad c105_params) 1000000 3000000).
  { constructor; try (cbn; lia); try assumption.
    - exists 86400. reflexivity.
    - exists 0. reflexivity.
    - reflexivity.
    - discriminate.
    - exists false. exact E4.
    - exists 0. reflexivity.
    - exists 4. reflexivity.
    - reflexivity. }
  assert (In2 : exists r, In (2000000, r) (run_samples c105_clock [g])).
  { destruct (rd_in_range _ (rows g) 2) as [r Hr]; [lia|]. exists r. cbn [run_samples flat_map]. rewrite app_nil_r.
    unfold samples. rewrite T0. exact (samples_from_in 1000000 _ 0 2 r Hr). }
  destruct In2 as [r Hr].
  destruct (C105_batch_triggered c105_clock 1%Q _ fs' 0 [g] c105_params None {| tfiles := fun _ => None; output_cols := [] |} 1000000 3000000 _ _ S Hr)
    as (w' & es & Et); [cbn; lia|].
  assert (V9 : kept 9 = 9%R) by (unfold kept; apply Rmin_left; lra).
  assert (FM : Forall2 (migrated c105_coord 2 2 0 2 c105_tt) [g] (map (fun b => window_of c105_on 0 (t0 b / delta c105_clock)) [g])).
  { cbn [map]. rewrite T0. exact E3. }
  destruct (C106_source_scanned_triggered_located_partial lookup_rbf (line_grid 2) c105_coord c105_clock 2 0 2 c105_tt c105_on 1%Q (fun _ => None) fs' 0 [g] c105_params
    1000000 3000000 {| tfiles := fun _ => None; output_cols := [] |} w' es g 2 (1, 0, 0) 0 2 1000000) as (tev & Hev & Ht & H); rewrite ?T0;
    change (g_count (line_grid 2)) with (2, 1, 1); change (1000000 / delta c105_clock) with 1; change (0 / delta c105_clock + 2) with 2;
    change (flat (2, 1, 1) (1, 0, 0)) with 1; change (n_nodes (2, 1, 1)) with 2.
  all: try exact Htt; try assumption; try reflexivity; try (cbn; lia).
  - apply line_grid_ok. lia.
  - exact lookup_rbf_ok.
  - now left.
  - vm_compute. split; discriminate.
  - rewrite K by lia. cbn [Z.eqb Pos.eqb andb]. rewrite V9. unfold c105_params, static_threshold. replace (Q2R 4%Q) with 4%R by (unfold Q2R; cbn; lra). lra.
  - intros node' j' Hn' Hne Hr'. assert (Hj : 0 <= j' < 5) by (cbn [pad c105_params delta c105_clock] in Hr'; lia).
    rewrite !K by lia. cbn [Z.eqb Pos.eqb andb]. rewrite V9.
    destruct (Z.eqb_spec node' 1) as [->|], (Z.eqb_spec j' 2) as [->|]; cbn [andb]; [exfalso; apply Hne; reflexivity|..];
      repeat match goal with |- context [if ?b then _ else _] => destruct b end; lra.
  - intros q Hq Hne. apply line_node in Hq as (i & -> & Hi). assert (i = 0) by (destruct (Z.eq_dec i 1) as [->|]; [congruence|lia]). subst i.
    change (flat (2, 1, 1) (0, 0, 0)) with 0. unfold marginal_at, sum. change (zrange (2 * 1)) with [0; 1]. cbn [map fold_right].
    rewrite !K by lia. change (2 - 1 + 0) with 1. change (2 - 1 + 1) with 2. cbn [Z.eqb Pos.eqb andb orb]. lra.
  - exists [g], fs', w', es, tev. split; [exact FM|]. split; [exact S|]. split; [exact Et|]. split; [exact Hev|].
    rewrite T0 in Ht. change ((0 / delta c105_clock + 2) * delta c105_clock) with 2000000 in Ht. split; [exact Ht|].
    cbv zeta in H. rewrite Ht in H.
    destruct (H reg0 reg1 (fun _ _ _ _ => Ret (array2 2 7 (window_of c105_on 0 0))) 0 0 None None None) as (ev & loc & cloc & cov & unc & nv & R1 & R2 & R3 & R4).
    { destruct (event_window _ _ _ _ _ _ _) as (((b, e), x), y). reflexivity. }
    exists ev, loc, cloc, cov, unc, nv. split; [exact R1|]. rewrite T0 in R2, R3. change ((0 / delta c105_clock + 2) * delta c105_clock) with 2000000 in R2, R3.
    change (0 / delta c105_clock + 2) with 2 in R3. change (flat (g_count (line_grid 2)) (1, 0, 0)) with 1 in R3. rewrite K in R3 by lia. auto.
Qed.

(** C106 without the condition on the marginal sums is false: the location follows the sum over the marginal window, so a
    node that has the largest stack at the origin time need not be within two nodes of the location.
    Six nodes on a line, two stations. *)
Definition c106_tt (node k : Z) : Z := if node =? 0 then 0 else if node =? 5 then (if k =? 0 then 5 else 0) else 8.
Definition c106_on (k j : Z) : R :=
  if k =? 0 then (if j =? 2 then 9 else if j =? 6 then 8 else if j =? 7 then 64 / 9 else 1)%R
  else (if j =? 1 then 8 else if j =? 2 then 9 else 1)%R.
Lemma c106_stack node s : 0 <= node < 6 -> 0 <= s < 5 ->
  (if (node =? 0) && (s =? 2) then stack 2 0 c106_tt c106_on node s = 9
   else if (node =? 5) && ((s =? 1) || (s =? 2)) then stack 2 0 c106_tt c106_on node s = 8
   else stack 2 0 c106_tt c106_on node s <= 3)%R.
Proof.
  intros Hn Hs. unfold stack. change (zrange 2) with [0; 1]. cbn [map]. unfold arrival, c106_on, c106_tt.
  assert (S9 : sqrt (9 * 9) = 9%R) by (apply sqrt_square; lra).
  assert (S8 : sqrt (8 * 8) = 8%R) by (apply sqrt_square; lra).
  assert (S8' : sqrt (64 / 9 * 9) = 8%R) by (replace (64 / 9 * 9)%R with (8 * 8)%R by lra; apply sqrt_square; lra).
  assert (S1 : sqrt (1 * 1) = 1%R) by (apply sqrt_square; lra).
  assert (S3 : (sqrt (1 * 8) <= 3)%R) by (rewrite <- (sqrt_square 3) by lra; apply sqrt_le_1; lra).
  assert (M9 : Rmax 9 (1 / 100) = 9%R) by (apply Rmax_left; lra).
  assert (M8 : Rmax 8 (1 / 100) = 8%R) by (apply Rmax_left; lra).
  assert (M7 : Rmax (64 / 9) (1 / 100) = (64 / 9)%R) by (apply Rmax_left; lra).
  assert (M1 : Rmax 1 (1 / 100) = 1%R) by (apply Rmax_left; lra).
  assert (node = 0 \/ node = 1 \/ node = 2 \/ node = 3 \/ node = 4 \/ node = 5) as [->|[->|[->|[->|[->| ->]]]]] by lia;
  assert (s = 0 \/ s = 1 \/ s = 2 \/ s = 3 \/ s = 4) as [->|[->|[->|[->| ->]]]] by lia;
  cbv beta iota delta [Z.eqb Z.max Z.add Z.sub Z.compare Pos.eqb Pos.add Pos.compare Pos.compare_cont Z.opp Z.pos_sub Pos.pred_double Z.pred_double Pos.succ Pos.add_carry andb orb];
  rewrite ?M9, ?M8, ?M7, ?M1, geometric_mean_two by lra; rewrite ?S9, ?S8, ?S8', ?S1; try reflexivity; try exact S3; lra.
Qed.
Theorem C106_largest_stack_elsewhere_refuted :
  exists (g : grid) c n first last tt on mw trig p s0, let cnt := g_count g in let k := mw / delta c in
  let node := flat cnt p in let t := first + (4 * k + 1) + last in
  grid_ok g /\ 0 < delta c /\ 0 < mw /\ (delta c | mw) /\ 1 <= n /\ 0 <= first /\ 0 <= last /\ n * t < 2147483648 /\
  (forall node s, 0 <= node < n_nodes cnt -> 0 <= s < n -> tt node s <= last) /\
  is_node cnt p /\ 0 <= s0 < 4 * k + 1 /\ trig - 2 * mw + s0 * delta c = trig /\
  (forall node' s', 0 <= node' < n_nodes cnt -> 0 <= s' < 4 * k + 1 -> (node', s') <> (node, s0) ->
     (stack n first tt on node' s' < stack n first tt on node s0)%R) /\
  forall rbf coord r0 r1 sp sq mags pre post, interpolating rbf ->
  exists ev loc cov, locate_one (fun _ _ _ _ => Ret (array2 n t on)) (compute_event r0 r1 coord c n t (array2 (n_nodes cnt) n tt) (n_nodes cnt) first last mw)
      (finish_event rbf g) mw sp sq mags pre post trig = Ret (Some (ev, (loc, cov))) /\
    e_otime ev = trig /\ ~ within_two p loc.
Proof.
  exists (line_grid 6), c105_clock, 2, 0, 8, c106_tt, c106_on, 1000000, 2000000, (0, 0, 0), 2. cbv zeta.
  change (g_count (line_grid 6)) with (6, 1, 1). change (1000000 / delta c105_clock) with 1. change (flat (6, 1, 1) (0, 0, 0)) with 0. change (n_nodes (6, 1, 1)) with 6.
  assert (Hg : grid_ok (line_grid 6)) by (apply line_grid_ok; lia).
  assert (Htt : forall node s, 0 <= node < 6 -> 0 <= s < 2 -> c106_tt node s <= 8) by (intros; unfold c106_tt; repeat destruct (_ =? _); lia).
  split; [exact Hg|]. split; [reflexivity|]. split; [reflexivity|]. split; [exists 1; reflexivity|].
  repeat (split; [lia|]). split; [exact Htt|]. split; [cbn; lia|]. split; [lia|]. split; [reflexivity|]. split.
  - intros node' s' Hn Hs Hne. pose proof (c106_stack 0 2 ltac:(lia) ltac:(lia)) as K0. cbn [Z.eqb Pos.eqb andb] in K0. rewrite K0.
    pose proof (c106_stack node' s' Hn ltac:(lia)) as K.
    destruct (Z.eqb_spec node' 0) as [->|], (Z.eqb_spec s' 2) as [->|]; cbn [andb] in K; [congruence|..];
      destruct (_ && _) in K; lra.
  - intros rbf coord r0 r1 sp sq mags pre post Hrbf.
    destruct (C106_locate_outcome rbf (line_grid 6) coord r0 r1 c105_clock 2 0 8 c106_tt 1000000 2000000 sp sq mags pre post
      (fun _ _ _ _ => Ret (array2 2 (0 + (4 * 1 + 1) + 8) c106_on)) c106_on Hrbf Hg ltac:(reflexivity) ltac:(reflexivity)
      ltac:(exists 1; reflexivity) ltac:(lia) ltac:(lia) ltac:(lia) ltac:(reflexivity) Htt) as (node0 & s0 & (Hn0 & Hs0 & Hb) & H).
    { destruct (event_window _ _ _ _ _ _ _) as (((b, e), x), y). reflexivity. }
    change (n_nodes (g_count (line_grid 6))) with 6 in *. change (1000000 / delta c105_clock) with 1 in *.
    assert (E : node0 = 0 /\ s0 = 2).
    { pose proof (c106_stack 0 2 ltac:(lia) ltac:(lia)) as K0. cbn [Z.eqb Pos.eqb andb] in K0.
      destruct (Hb 0 2 ltac:(lia) ltac:(lia)) as [B _]. rewrite K0 in B. pose proof (c106_stack node0 s0 Hn0 ltac:(lia)) as K.
      destruct (Z.eqb_spec node0 0) as [->|], (Z.eqb_spec s0 2) as [->|]; cbn [andb] in K; [split; reflexivity|..]; destruct (_ && _) in K; lra. }
    destruct E as [-> ->]. cbn [delta c105_clock] in H. change (2000000 - 2 * 1000000 + 2 * 1000000) with 2000000 in H.
    change (Z.abs (2000000 - 2000000) <? 1000000) with true in H. cbv iota zeta in H.
    destruct H as (ev & loc & cloc & cov & unc & p & Hr & Ho & _ & (Hp & Hq) & Hw & _).
    exists ev, loc, (Some (cloc, cov, unc)). split; [exact Hr|]. split; [exact Ho|]. intros Hw0.
    change (g_count (line_grid 6)) with (6, 1, 1) in *. apply line_node in Hp as (i & -> & Hi).
    assert (i = 5).
    { destruct (Z.eq_dec i 5) as [|N]; [assumption|exfalso].
      assert (B5 : is_node (6, 1, 1) (5, 0, 0)) by (cbn; lia). pose proof (Hq (5, 0, 0) B5) as B.
      unfold marginal, sum in B. change (zrange (2 * 1)) with [0; 1] in B. cbn [map fold_right] in B.
      change (flat (6, 1, 1) (5, 0, 0)) with 5 in B. replace (flat (6, 1, 1) (i, 0, 0)) with i in B by (cbn [flat]; lia).
      change (2 - 1 + 0) with 1 in B. change (2 - 1 + 1) with 2 in B.
      pose proof (c106_stack 5 1 ltac:(lia) ltac:(lia)) as K1. pose proof (c106_stack 5 2 ltac:(lia) ltac:(lia)) as K2. cbn [Z.eqb Pos.eqb andb orb] in K1, K2.
      pose proof (c106_stack i 1 ltac:(lia) ltac:(lia)) as K3. pose proof (c106_stack i 2 ltac:(lia) ltac:(lia)) as K4.
      destruct (Z.eqb_spec i 5); [lia|]. cbn [Z.eqb Pos.eqb andb orb] in K3, K4. rewrite andb_false_r in K3. rewrite andb_true_r in K4.
      destruct (i =? 0); lra. }
    subst i. specialize (Hw0 0 ltac:(lia)). specialize (Hw 0 ltac:(lia)). destruct loc as [[lx ly] lz]. cbn in Hw0, Hw.
    revert Hw0 Hw. unfold Rabs. destruct (Rcase_abs _), (Rcase_abs _); lra.
Qed.
Print Assumptions C106_largest_stack_elsewhere_refuted.

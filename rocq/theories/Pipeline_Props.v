(** C105: from the scan to triggered events. *)
From Coq Require Import List ZArith Reals QArith Qreals Bool Lia Lra.
From Verif Require Import Lib LibFacts Timeline_Model Migrate_Model Migrate_Spec Migrate_Proofs ScanMseed_Model ScanMseed_Spec
  Lut_Model Trigger_Model Trigger_Spec Trigger_Proofs Source_Spec Pipeline_Model Pipeline_Spec Pipeline_Proofs.
Import ListNotations.
Open Scope Z_scope.

(** C105, the scan does not fail: whatever the onsets, if the coordinates of the nodes can be stored, every
    timestep gives its samples and the run is stored. *)
Theorem C105_scan_succeeds :
  forall coord n n_nodes first last tt c ucf cw fs start (steps : list (Z * (Z -> Z -> R))),
  1 <= n -> 1 <= n_nodes -> 0 <= first -> 0 <= last ->
  (forall node k, 0 <= node < n_nodes -> 0 <= k < n -> tt node k <= last) ->
  0 < sec c -> 0 < delta c -> (delta c | 86400 * sec c) -> (delta c | start) -> steps <> [] ->
  Forall (fun st => 1 <= fst st /\ fst st * delta c <= 86400 * sec c /\ n * (first + fst st + last) < 2147483648) steps ->
  (forall node, 0 <= node < n_nodes -> let '(x, y, z) := coord node in
     (Rabs x <= 2147 /\ Rabs y <= 2147 /\ Rabs (z * (1000 * Q2R ucf)) <= 2147483647)%R) ->
  exists l fs', map (fun g => Z.of_nat (length (rows g))) l = map fst steps /\ consecutive c start l /\
    Forall2 (migrated coord n n_nodes first last tt) l (map snd steps) /\ store_run c (Q2R ucf) cw fs l = Ret fs'.
Proof.
  intros coord n n_nodes first last tt c ucf cw fs start steps Hn Hnn Hf Hl Htt Hs Hd Hg Hst Hne Hsteps Hco.
  assert (exists l, map (fun g => Z.of_nat (length (rows g))) l = map fst steps /\ consecutive c start l /\
    Forall2 (migrated coord n n_nodes first last tt) l (map snd steps) /\
    Forall (fun g => exists zs, map_opt (encode_row (Q2R ucf)) (rows g) = Some zs) l) as (l & E1 & E2 & E3 & E4).
  { clear Hne Hst. revert start. induction Hsteps as [|[len on] steps (H1 & H2 & H3) _ IH]; intros start.
    - exists []. repeat split; constructor.
    - cbn [fst snd] in *.
      destruct (migrated_exists coord n n_nodes first last tt on start len (Q2R ucf) Hn Hnn Hf Hl Htt ltac:(lia) H3 Hco) as (rs & L & M & Z).
      destruct (IH (start + len * delta c)) as (l & E1 & E2 & E3 & E4). exists (mk_seg start rs :: l).
      cbn [map rows fst snd consecutive t0]. rewrite L, E1. split; [reflexivity|]. split; [|split; constructor; assumption].
      repeat split; try assumption. intros ->. cbn in L. lia. }
  destruct (store_run_ok c (Q2R ucf) cw fs start l Hs Hd Hg Hst) as [fs' E]; try assumption.
  { intros ->. destruct steps; [congruence|discriminate]. }
  exists l, fs'. auto.
Qed.
Print Assumptions C105_scan_succeeds.

(** C105, triggering a scanned period does not fail. *)
Theorem C105_batch_triggered :
  forall c ucf fs fs' start l p reg w s e t r,
  scanned c ucf fs fs' start l (pad p) s e -> In (t, r) (run_samples c l) -> s - pad p <= t <= e + pad p ->
  exists w' es, trigger_batch c p (trigger_read c ucf fs' (pad p)) reg w s e = Ret (w', es).
Proof.
  intros c ucf fs fs' start l p reg w s e t r S Hr Ht.
  destruct (batch_read _ _ _ _ _ _ _ _ _ S t r Hr Ht) as (data & Ed).
  unfold trigger_batch. rewrite Ed. cbn [bind]. fold (batch_threshold c p data).
  destruct (identify_ok p data _ (batch_threshold_length c p data)) as (cands & Ec & _). rewrite Ec. cbn [bind].
  destruct cands as [|x cands]; [eauto|]. destruct (refine_ok c p (x :: cands)) as (refined & Er & _). rewrite Er. cbn [bind]. eauto.
Qed.
Print Assumptions C105_batch_triggered.

(** C105, a sample of the scan inside the batch that reaches the static threshold and stands out in the
    padded batch becomes an event at its time, with its value and location; every other event is smaller. *)
Theorem C105_peak_becomes_event_partial :
  forall c ucf fs fs' start l p s e w w' es t r,
  scanned c ucf fs fs' start l (pad p) s e ->
  threshold_method p = Static -> normalise_coalescence p = false ->
  trigger_batch c p (trigger_read c ucf fs' (pad p)) None w s e = Ret (w', es) ->
  In (t, r) (run_samples c l) -> accepts c (s, e) t -> 0 <= pad p ->
  (Q2R (static_threshold p) + 5 / 1000000 <= kept (coa r))%R ->
  (forall t' r', In (t', r') (run_samples c l) -> s - pad p <= t' <= e + pad p -> t' <> t ->
     (kept (coa r') + 1 / 100000 < kept (coa r))%R) ->
  exists ev, In ev es /\ event_at ucf t (kept (coa r)) r ev /\
    forall ev', In ev' es -> CoaTime (cand ev') = t \/ (TRIG_COA (cand ev') < TRIG_COA (cand ev))%Q.
Proof.
  intros c ucf fs fs' start l p s e w w' es t r S Hm Hn Ht Hr Ha Hp Hth Hbig.
  destruct (trigger_batch_inv _ _ _ _ _ _ _ _ _ Ht) as (data & cands & refined & Ed & Ec & Er & -> & _).
  destruct (batch_data _ _ _ _ _ _ _ _ _ S data Ed) as (t1 & Hs & Hrows & Hall).
  pose proof (sc_delta _ _ _ _ _ _ _ _ _ S) as Hd.
  assert (Hin : s <= t <= e).
  { unfold accepts in Ha. cbn [fst snd] in Ha. destruct (e mod (86400 * sec c) =? 0); lia. }
  destruct (Hall t r Hr ltac:(lia)) as (i & x & Hx & _ & _ & Dx & N1 & N2 & N3 & N4 & N5).
  assert (Hh : hit p data (batch_threshold c p data) i).
  { apply static_hit with (r := x); [exact Hm|exact Hx|]. rewrite Hn. apply Rle_Qle.
    revert N1. unfold Rabs. destruct (Rcase_abs _); lra. }
  destruct (largest_row_event c p data _ cands refined i x (batch_threshold_length c p data) Ec Er Hn Hx Hh) as (ev & Hev & E1 & E2 & E3 & E4 & E5 & Eo).
  { intros j y Hy Hne. destruct (Hrows j y Hy) as (t' & r' & M1 & M2 & M3 & M4 & _).
    assert (t' <> t).
    { pose proof (Hs _ _ Hx). pose proof (Hs _ _ Hy). intros ->.
      assert (Ej : (j - i) * delta c = 0) by lia. apply Z.mul_eq_0 in Ej. lia. }
    pose proof (Hbig t' r' M1 M2 H) as B. apply Rlt_Qlt. revert N1 M4 B. unfold Rabs. destruct (Rcase_abs _), (Rcase_abs _); lra. }
  exists ev. split; [|split].
  - apply filter_events_in. split; [exact Hev|]. split; [|exact I]. rewrite E1, Dx. exact Ha.
  - unfold event_at. rewrite E1, E2, E3, E4, E5. repeat split; assumption.
  - intros ev' Hev'. apply filter_events_in in Hev' as (Hev' & _). rewrite <- Dx. apply Eo. exact Hev'.
Qed.
Print Assumptions C105_peak_becomes_event_partial.

(** C105, every sample above the threshold is covered: it lies in the window of an event that is at
    least as large, provided that nothing outside the batch reaches the threshold. *)
Theorem C105_above_threshold_covered_partial :
  forall c ucf fs fs' start l p s e w w' es t r,
  scanned c ucf fs fs' start l (pad p) s e ->
  threshold_method p = Static -> normalise_coalescence p = false ->
  trigger_batch c p (trigger_read c ucf fs' (pad p)) None w s e = Ret (w', es) ->
  0 <= marginal_window p <= min_event_interval p -> 0 <= pad p ->
  (forall t' r', In (t', r') (run_samples c l) -> s - pad p <= t' <= e + pad p -> ~ accepts c (s, e) t' ->
     (kept (coa r') + 5 / 1000000 < Q2R (static_threshold p))%R) ->
  In (t, r) (run_samples c l) -> accepts c (s, e) t -> (Q2R (static_threshold p) + 5 / 1000000 <= kept (coa r))%R ->
  exists ev, In ev es /\ MinTime (cand ev) <= t <= MaxTime (cand ev) /\
    (kept (coa r) - 5 / 1000000 <= Q2R (TRIG_COA (cand ev)))%R.
Proof.
  intros c ucf fs fs' start l p s e w w' es t r S Hm Hn Ht Hw Hp Hquiet Hr Ha Hth.
  destruct (trigger_batch_inv _ _ _ _ _ _ _ _ _ Ht) as (data & cands & refined & Ed & Ec & Er & -> & _).
  destruct (batch_data _ _ _ _ _ _ _ _ _ S data Ed) as (t1 & Hs & Hrows & Hall).
  pose proof (sc_delta _ _ _ _ _ _ _ _ _ S) as Hd.
  assert (Hin : s <= t <= e).
  { unfold accepts in Ha. cbn [fst snd] in Ha. destruct (e mod (86400 * sec c) =? 0); lia. }
  destruct (Hall t r Hr ltac:(lia)) as (i & x & Hx & _ & _ & Dx & N1 & _).
  assert (Hh : hit p data (batch_threshold c p data) i).
  { apply static_hit with (r := x); [exact Hm|exact Hx|]. rewrite Hn. apply Rle_Qle.
    revert N1. unfold Rabs. destruct (Rcase_abs _); lra. }
  destruct (hit_covered c p data _ cands refined i x t1 Hd Hw Hs (batch_threshold_length c p data) Ec Er Hn Hx Hh)
    as (ev & Hev & W & V & j & y & Hy & Hhy & Ey).
  exists ev. split; [|split].
  - apply filter_events_in. split; [exact Hev|]. split; [|exact I].
    destruct (static_hit_inv _ _ _ _ Hm Hhy) as (y' & Hy' & Hty). replace y' with y in * by congruence. rewrite Hn in Hty.
    destruct (Hrows j y Hy) as (t' & r' & M1 & M2 & M3 & M4 & _). rewrite Ey, M3.
    change (accepts c (s, e) t').
    assert (D : accepts c (s, e) t' \/ ~ accepts c (s, e) t') by (unfold accepts; cbn [fst snd]; destruct (e mod (86400 * sec c) =? 0); lia).
    destruct D as [D|D]; [exact D|exfalso]. pose proof (Hquiet t' r' M1 M2 D) as Q. apply Qle_Rle in Hty.
    revert M4. unfold Rabs. destruct (Rcase_abs _); lra.
  - rewrite <- Dx. exact W.
  - apply Qle_Rle in V. revert N1. unfold Rabs. destruct (Rcase_abs _); lra.
Qed.
Print Assumptions C105_above_threshold_covered_partial.

(** C105, every event is a sample of the scan that reached the threshold (either kind of coalescence). *)
Theorem C105_events_are_samples_partial :
  forall c ucf fs fs' start l p s e w w' es ev,
  scanned c ucf fs fs' start l (pad p) s e -> threshold_method p = Static ->
  trigger_batch c p (trigger_read c ucf fs' (pad p)) None w s e = Ret (w', es) -> In ev es ->
  exists t r, let v := kept (if normalise_coalescence p then coa_n r else coa r) in
    In (t, r) (run_samples c l) /\ accepts c (s, e) t /\ event_at ucf t v r ev /\
    (Q2R (static_threshold p) - 5 / 1000000 <= v)%R.
Proof.
  intros c ucf fs fs' start l p s e w w' es ev S Hm Ht Hev.
  destruct (trigger_batch_inv _ _ _ _ _ _ _ _ _ Ht) as (data & cands & refined & Ed & Ec & Er & -> & _).
  destruct (batch_data _ _ _ _ _ _ _ _ _ S data Ed) as (t1 & Hs & Hrows & Hall).
  apply filter_events_in in Hev as (Hev & Ha & _).
  destruct (event_is_a_hit c p data _ cands refined ev (batch_threshold_length c p data) Ec Er Hev) as (i & x & Hx & Hh & E1 & E2 & E3 & E4 & E5).
  destruct (static_hit_inv _ _ _ _ Hm Hh) as (x' & Hx' & Hth). replace x' with x in * by congruence.
  destruct (Hrows i x Hx) as (t & r & M1 & M2 & M3 & M4 & M4' & M5 & M6 & M7).
  apply Qle_Rle in Hth.
  exists t, r. cbv zeta. split; [exact M1|]. split; [unfold accepts; cbn [fst snd]; rewrite <- M3, <- E1; exact Ha|].
  unfold event_at. rewrite E1, E2, E3, E4, E5. destruct (normalise_coalescence p).
  - split; [repeat split; assumption|]. revert M4'. unfold Rabs. destruct (Rcase_abs _); lra.
  - split; [repeat split; assumption|]. revert M4. unfold Rabs. destruct (Rcase_abs _); lra.
Qed.
Print Assumptions C105_events_are_samples_partial.

(** C105, from the onsets to the event: a source at [node] at output sample [s0] of one timestep whose stack
    exceeds the stacks at every other node and time of the padded batch becomes an event at that time and
    at the coordinates of that node. *)
Theorem C105_source_becomes_event_partial :
  forall coord n n_nodes first last tt c ucf fs fs' start l ons p s e w w' es g0 on0 node s0,
  1 <= n -> 0 <= first -> 0 <= last -> (forall node k, 0 <= node < n_nodes -> 0 <= k < n -> tt node k <= last) ->
  Forall2 (migrated coord n n_nodes first last tt) l ons ->
  scanned c ucf fs fs' start l (pad p) s e ->
  threshold_method p = Static -> normalise_coalescence p = false -> 0 <= pad p ->
  trigger_batch c p (trigger_read c ucf fs' (pad p)) None w s e = Ret (w', es) ->
  In (g0, on0) (combine l ons) -> 0 <= node < n_nodes -> 0 <= s0 < Z.of_nat (length (rows g0)) ->
  let t := t0 g0 + s0 * delta c in
  let v := kept (stack n first tt on0 node s0) in
  accepts c (s, e) t -> (Q2R (static_threshold p) + 5 / 1000000 <= v)%R ->
  (forall g on node' s', In (g, on) (combine l ons) -> 0 <= node' < n_nodes -> 0 <= s' < Z.of_nat (length (rows g)) ->
     let t' := t0 g + s' * delta c in s - pad p <= t' <= e + pad p -> (t', node') <> (t, node) ->
     (stack n first tt on node' s' + 1 / 100000 < v)%R) ->
  exists ev nv, In ev es /\ event_at ucf t v (let '(x, y, z) := coord node in mk_row v nv x y z) ev /\
    forall ev', In ev' es -> CoaTime (cand ev') = t \/ (TRIG_COA (cand ev') < TRIG_COA (cand ev))%Q.
Proof.
  intros coord n n_nodes first last tt c ucf fs fs' start l ons p s e w w' es g0 on0 node s0 Hn Hf Hl Htt FM S Hm Hnc Hp Ht Hg0 Hnode Hs0 t v Ha Hth Hbig.
  assert (Hnn : 1 <= n_nodes) by lia.
  assert (Hin : s <= t <= e).
  { unfold accepts in Ha. cbn [fst snd] in Ha. pose proof (sc_delta _ _ _ _ _ _ _ _ _ S). destruct (e mod (86400 * sec c) =? 0); lia. }
  assert (FMc : forall g on, In (g, on) (combine l ons) -> In g l /\ migrated coord n n_nodes first last tt g on).
  { clear - FM. intros g on. induction FM as [|a b l m H F IH]; [contradiction|]. cbn. intros [E|E].
    - assert (a = g /\ b = on) as [-> ->] by (split; congruence). auto.
    - destruct (IH E). auto. }
  destruct (FMc _ _ Hg0) as [Hl0 M0].
  destruct (migrated_rows _ _ _ _ _ _ _ _ Hn Hnn Hf Hl Htt M0 s0 Hs0) as (r & k & Hr & Hk & Hc & Hxyz & Hmax).
  assert (k = node) as ->.
  { destruct (Z.eq_dec k node) as [|Hne]; [assumption|exfalso].
    pose proof (Hbig g0 on0 k s0 Hg0 Hk Hs0 ltac:(cbv zeta; fold t; lia) ltac:(congruence)) as B. specialize (Hmax node Hnode).
    unfold v, kept in B. pose proof (Rmin_l (stack n first tt on0 node s0) 21474). lra. }
  assert (Hrun : In (t, r) (run_samples c l)).
  { unfold run_samples. apply in_flat_map. exists g0. split; [exact Hl0|]. unfold samples. apply samples_from_in. exact Hr. }
  assert (Hv : v = kept (coa r)) by (unfold v; rewrite Hc; reflexivity).
  destruct (C105_peak_becomes_event_partial c ucf fs fs' start l p s e w w' es t r S Hm Hnc Ht Hrun Ha Hp) as (ev & Hev & He & Ho).
  - rewrite <- Hv. exact Hth.
  - intros t' r' Hr' Ht' Hne. unfold run_samples in Hr'. apply in_flat_map in Hr' as (g & Hg & Hs).
    unfold samples in Hs. apply in_samples_from in Hs as (s' & Hs' & Et). cbn [fst snd] in Hs', Et.
    assert (exists on, In (g, on) (combine l ons)) as [on Hgo].
    { clear - FM Hg. induction FM as [|a b l m H F IH]; [contradiction|]. destruct Hg as [->|Hg]; [exists b; now left|].
      destruct (IH Hg) as [on Ho]. exists on. now right. }
    destruct (FMc _ _ Hgo) as [_ Mg].
    assert (Hlen : 0 <= s' < Z.of_nat (length (rows g))).
    { unfold rd in Hs'. destruct (Z.ltb_spec s' 0); [discriminate|].
      assert (Z.to_nat s' < length (rows g))%nat by (apply nth_error_Some; congruence). lia. }
    destruct (migrated_rows _ _ _ _ _ _ _ _ Hn Hnn Hf Hl Htt Mg s' Hlen) as (r2 & k' & Hr2 & Hk' & Hc' & _).
    replace r2 with r' in * by congruence. rewrite <- Hv, Hc'.
    pose proof (Hbig g on k' s' Hgo Hk' Hlen ltac:(cbv zeta; lia) ltac:(cbv zeta; congruence)) as B.
    unfold kept at 1. pose proof (Rmin_l (stack n first tt on k' s') 21474). lra.
  - exists ev, (coa_n r). split; [exact Hev|]. split; [|exact Ho].
    rewrite Hv. destruct (coord node) as [[cx cy] cz]. unfold event_at in *. cbn [px py pz].
    replace cx with (px r) by congruence. replace cy with (py r) by congruence. replace cz with (pz r) by congruence. exact He.
Qed.
Print Assumptions C105_source_becomes_event_partial.

(** Two stations, two nodes, one timestep of five samples, a source at node 1 at sample 2 (node 0 is one sample from
    station 0 and two from station 1, node 1 the other way round). *)
Definition c105_tt (node k : Z) : Z := if node =? k then 1 else 2.
Definition c105_on (k j : Z) : R := if j =? 4 - k then 9%R else 1%R.
Definition c105_coord (node : Z) : vec := (IZR node, 0%R, 0%R).
Definition c105_clock : clock := {| sec := 1000000; delta := 1000000 |}.
Definition c105_params : params :=
  {| threshold_method := Static; static_threshold := 4; mad_window_length := 0; mad_multiplier := 0;
     median_window_length := 0; median_multiplier := 0; marginal_window := 1000000; min_event_interval := 2000000;
     normalise_coalescence := false; pad := 1000000; write_event_time_windows := false |}.
Lemma geometric_mean_two a b : (0 < a)%R -> (0 < b)%R -> geometric_mean [a; b] = sqrt (a * b).
Proof.
  intros Ha Hb. assert (Hp : forall x, In x [a; b] -> (0 < x)%R) by (intros x [<-|[<-|[]]]; assumption).
  rewrite geometric_mean_exp by exact Hp. cbn [map Rsum fold_right length INR].
  rewrite <- Rpower_sqrt by (apply Rmult_lt_0_compat; assumption). unfold Rpower. rewrite ln_mult by assumption. f_equal. lra.
Qed.
Lemma c105_stack node s : 0 <= node < 2 -> 0 <= s < 5 ->
  stack 2 0 c105_tt c105_on node s = if (node =? 1) && (s =? 2) then 9%R else if (node =? 0) && ((s =? 1) || (s =? 3)) then 3%R else 1%R.
Proof.
  intros Hn Hs. unfold stack. change (zrange 2) with [0; 1]. cbn [map]. unfold arrival, c105_on, c105_tt.
  assert (S9 : sqrt (9 * 9) = 9%R) by (apply sqrt_square; lra).
  assert (S3 : sqrt (9 * 1) = 3%R) by (replace (9 * 1)%R with (3 * 3)%R by lra; apply sqrt_square; lra).
  assert (S3' : sqrt (1 * 9) = 3%R) by (replace (1 * 9)%R with (3 * 3)%R by lra; apply sqrt_square; lra).
  assert (S1 : sqrt (1 * 1) = 1%R) by (apply sqrt_square; lra).
  assert (M9 : Rmax 9 (1 / 100) = 9%R) by (apply Rmax_left; lra).
  assert (M1 : Rmax 1 (1 / 100) = 1%R) by (apply Rmax_left; lra).
  assert (node = 0 \/ node = 1) as [-> | ->] by lia;
  assert (s = 0 \/ s = 1 \/ s = 2 \/ s = 3 \/ s = 4) as [-> | [-> | [-> | [-> | ->]]]] by lia;
  cbn [Z.eqb Z.max Z.add Z.sub Z.compare Pos.eqb Pos.add Pos.compare Pos.compare_cont Z.opp Z.pos_sub Pos.pred_double Z.pred_double Pos.succ Pos.add_carry andb orb];
  rewrite ?M9, ?M1, geometric_mean_two by lra; assumption.
Qed.
Example C105_applies : exists l fs' w' es,
  Forall2 (migrated c105_coord 2 2 0 2 c105_tt) l [c105_on] /\
  scanned c105_clock 1%Q (fun _ => None) fs' 0 l (pad c105_params) 1000000 3000000 /\
  trigger_batch c105_clock c105_params (trigger_read c105_clock 1%Q fs' (pad c105_params)) None
    {| tfiles := fun _ => None; output_cols := [] |} 1000000 3000000 = Ret (w', es) /\
  exists ev, In ev es /\ CoaTime (cand ev) = 2000000 /\ (Rabs (Q2R (COA_X (cand ev)) - 1) <= 5 / 10000000)%R.
Proof.
  assert (Htt : forall node k, 0 <= node < 2 -> 0 <= k < 2 -> c105_tt node k <= 2) by (intros; unfold c105_tt; destruct (_ =? _); lia).
  assert (Hq1 : Q2R 1%Q = 1%R) by (unfold Q2R; cbn; lra).
  destruct (C105_scan_succeeds c105_coord 2 2 0 2 c105_tt c105_clock 1%Q false (fun _ => None) 0 [(5, c105_on)]) as (l & fs' & E1 & E2 & E3 & E4);
    try lia; try exact Htt; try (cbn; lia).
  { exists 86400. reflexivity. }
  { exists 0. reflexivity. }
  { discriminate. }
  { constructor; [cbn; lia|constructor]. }
  { intros node Hn. unfold c105_coord. rewrite Hq1, Rabs_R0, Rmult_0_l, Rabs_R0. split; [|lra].
    assert (node = 0 \/ node = 1) as [-> | ->] by lia; rewrite Rabs_right; lra. }
  cbn [map fst snd] in E1, E3. destruct l as [|g [|g' l]]; [discriminate| |discriminate].
  assert (L : Z.of_nat (length (rows g)) = 5) by (cbn [map] in E1; congruence).
  assert (T0 : t0 g = 0) by (cbn [consecutive] in E2; tauto).
  assert (S : scanned c105_clock 1%Q (fun _ => None) fs' 0 [g] (pad c105_params) 1000000 3000000).
  { constructor; try (cbn; lia); try assumption.
    - exists 86400. reflexivity.
    - exists 0. reflexivity.
    - reflexivity.
    - discriminate.
    - exists false. exact E4.
    - exists 0. reflexivity.
    - exists 4. reflexivity.
    - reflexivity. }
  assert (In2 : exists r, In (2000000, r) (run_samples c105_clock [g])).
  { destruct (rd_in_range _ (rows g) 2) as [r Hr]; [lia|]. exists r. cbn [run_samples flat_map]. rewrite app_nil_r.
    unfold samples. rewrite T0. exact (samples_from_in 1000000 _ 0 2 r Hr). }
  destruct In2 as [r Hr].
  destruct (C105_batch_triggered c105_clock 1%Q _ fs' 0 [g] c105_params None {| tfiles := fun _ => None; output_cols := [] |} 1000000 3000000 _ _ S Hr)
    as (w' & es & Et); [cbn; lia|].
  exists [g], fs', w', es. split; [exact E3|]. split; [exact S|]. split; [exact Et|].
  assert (K9 : stack 2 0 c105_tt c105_on 1 2 = 9%R) by (apply c105_stack; lia).
  assert (V9 : kept 9 = 9%R) by (unfold kept; apply Rmin_left; lra).
  destruct (C105_source_becomes_event_partial c105_coord 2 2 0 2 c105_tt c105_clock 1%Q (fun _ => None) fs' 0 [g] [c105_on] c105_params
    1000000 3000000 {| tfiles := fun _ => None; output_cols := [] |} w' es g c105_on 1 2) as (ev & nv & Hev & He & _); try lia; try exact Htt; try assumption; try reflexivity; try (cbn; lia).
  - now left.
  - rewrite T0. vm_compute. split; discriminate.
  - rewrite K9, V9. unfold c105_params, static_threshold. replace (Q2R 4%Q) with 4%R by (unfold Q2R; cbn; lra). lra.
  - intros g' on' node' s' Hg Hn' Hs'. cbv zeta. rewrite T0, K9, V9. destruct Hg as [Hg|[]].
    replace g' with g in * by congruence. replace on' with c105_on by congruence. rewrite T0. intros _ Hne.
    rewrite c105_stack by lia. destruct (Z.eqb_spec node' 1) as [->|], (Z.eqb_spec s' 2) as [->|]; cbn [andb]; [exfalso; apply Hne; reflexivity|..];
      repeat match goal with |- context [if ?b then _ else _] => destruct b end; lra.
  - exists ev. split; [exact Hev|]. unfold event_at in He. cbn [c105_coord px] in He. rewrite T0 in He. cbn [delta c105_clock] in He.
    split; [exact (proj1 He)|exact (proj1 (proj2 (proj2 He)))].
Qed.

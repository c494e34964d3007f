(** C136: thresholds that follow the level of the scan. *)
From Coq Require Import String Ascii.
From Coq Require Import List ZArith Reals QArith Qreals Bool Lia Lra.
From Verif Require Import Lib LibFacts Timeline_Model Migrate_Model Migrate_Spec Migrate_Proofs ScanMseed_Model ScanMseed_Spec ScanMseed_Proofs
  Lut_Model Trigger_Model Trigger_Spec Trigger_Proofs Source_Spec Pipeline_Model Pipeline_Spec Pipeline_Proofs Pipeline_Props 
  PyDict Timeline_Spec Lut_Spec Locate_Model Locate_Spec Resample_Spec Onset_Model Onset_Spec PickRun_Model DetectRun_Model DetectRun_Spec LocatePipe_Spec LocateRun_Model LocateRun_Spec Agree_Spec Window_Spec Formula_Spec Formula_Proofs Formula_Props
  Robust_Spec Robust_Proofs.
From Verif Require DetectRun_Proofs LocateRun_Proofs Picker_Model Locate_Props.
Import ListNotations.
Open Scope Z_scope.

(** C136, the threshold: if more than half of the values in the window of a sample are between [a] and [b], then the threshold at the
    sample is between the thresholds of a window of [a] and a window of values between [a] and [b], whatever the other values are. *)
Theorem C136_threshold :
  forall p values rate w (a b : R) i x,
  rd (get_threshold p values rate) i = Some x -> window_samples (level_window p) rate w -> multiplier_ok p ->
  mostly (fun v => a <= Q2R v <= b)%R (chunk_of w values i) ->
  (threshold_floor p a <= Q2R x <= threshold_ceiling p a b)%R.
Proof. exact threshold_between. Qed.
Print Assumptions C136_threshold.

(** Exactly half is not enough: the threshold then depends on the other half. *)
Definition c136_ratio : params :=
  {| threshold_method := MedianRatio; static_threshold := 0; mad_window_length := 0; mad_multiplier := 0;
     median_window_length := 4; median_multiplier := 2; marginal_window := 1000000; min_event_interval := 2000000;
     normalise_coalescence := false; pad := 1000000; write_event_time_windows := false |}.
Example C136_half_is_not_enough :
  window_samples (level_window c136_ratio) 1 4 /\ multiplier_ok c136_ratio /\
  exists x, rd (get_threshold c136_ratio [1; 1; 99; 99]%Q 1) 2 = Some x /\ (x == 100)%Q /\ threshold_ceiling c136_ratio 1 1 = 2%R.
Proof.
  split; [|split].
  - unfold window_samples. cbn. repeat split; discriminate || reflexivity.
  - discriminate.
  - eexists. split; [vm_compute; reflexivity|]. split; [reflexivity|]. unfold threshold_ceiling. cbn. unfold Q2R. cbn. lra.
Qed.
(** Three quiet samples out of five are enough, and the loud ones are far above the threshold. *)
Example C136_threshold_example :
  let p := {| threshold_method := Mad; static_threshold := 0; mad_window_length := 5; mad_multiplier := 8;
     median_window_length := 0; median_multiplier := 0; marginal_window := 1000000; min_event_interval := 2000000;
     normalise_coalescence := false; pad := 1000000; write_event_time_windows := false |} in
  window_samples (level_window p) 1 5 /\ multiplier_ok p /\ mostly (fun v => 1 <= Q2R v <= 11 / 10)%R (chunk_of 5 [1; 50; 99; 11 # 10; 1]%Q 1) /\
  (threshold_ceiling p 1 (11 / 10) < 3)%R.
Proof.
  cbv zeta. split; [|split; [|split]].
  - unfold window_samples. cbn. repeat split; discriminate || reflexivity.
  - discriminate.
  - exists [true; false; false; true; true]. split; [|cbn; lia]. change (chunk_of 5 [1; 50; 99; 11 # 10; 1]%Q 1) with [1; 50; 99; 11 # 10; 1]%Q. repeat (apply Forall2_cons; [intros H; try discriminate H; unfold Q2R; cbn; lra|]). apply Forall2_nil.
  - unfold threshold_ceiling. cbn. unfold Q2R. cbn. lra.
Qed.

(** C136, a sample that stands out becomes an event with every kind of threshold, if the level of the scan around it is steady. *)
Theorem C136_peak_becomes_event_partial :
  forall c ucf fs fs' start l p s e wd wd' es w a b i t r,
  scanned c ucf fs fs' start l (pad p) s e -> normalise_coalescence p = false ->
  window_samples (level_window p) (Qmake (sec c) (Z.to_pos (delta c))) w -> multiplier_ok p ->
  trigger_batch c p (trigger_read c ucf fs' (pad p)) None wd s e = Ret (wd', es) ->
  rd (batch_samples c p l s e) i = Some (t, r) -> accepts c (s, e) t ->
  level_steady p w a b (batch_samples c p l s e) i ->
  (threshold_ceiling p (a - 5 / 1000000) (b + 5 / 1000000) + 5 / 1000000 <= kept (coa r))%R ->
  (forall t' r', In (t', r') (batch_samples c p l s e) -> t' <> t -> (kept (coa r') + 1 / 100000 < kept (coa r))%R) ->
  exists ev, In ev es /\ event_at ucf t (kept (coa r)) r ev /\
    forall ev', In ev' es -> CoaTime (cand ev') = t \/ (TRIG_COA (cand ev') < TRIG_COA (cand ev))%Q.
Proof.
  intros c ucf fs fs' start l p s e wd wd' es w a b i t r S Hn Hw Hm Ht Hi Ha St Hth Hbig.
  destruct (trigger_batch_inv _ _ _ _ _ _ _ _ _ Ht) as (data & cands & refined & Ed & Ec & Er & -> & _).
  destruct (batch_data _ _ _ _ _ _ _ _ _ S data Ed) as (t1 & Hs & _ & _). pose proof (batch_list _ _ _ _ _ _ _ _ _ _ S Ed) as FL. fold (batch_samples c p l s e) in FL.
  pose proof (sc_delta _ _ _ _ _ _ _ _ _ S) as Hd.
  destruct (Forall2_rd _ _ _ FL _ _ Hi) as (x & Hx & Rx). cbn [fst snd] in Rx. pose proof (near_value p _ _ _ _ _ _ _ _ _ Rx) as Nv. destruct Rx as (_ & _ & Dx & N1 & N2 & N3 & N4 & N5).
  assert (exists y, rd (batch_threshold c p data) i = Some y) as (y & Hy). { apply rd_in_range. rewrite <- (batch_threshold_length c p data). apply (rd_bounds _ _ _ _ Hx). }
  assert (Hh : hit p data (batch_threshold c p data) i).
  { exists x, y. split; [exact Hx|]. split; [exact Hy|]. rewrite Hn. apply Rle_Qle. pose proof (batch_threshold_between _ _ _ _ _ _ _ _ _ _ _ _ _ _ S Ed Hw Hm St y Hy) as (_ & U). revert N1. unfold Rabs. destruct (Rcase_abs _); lra. }
  destruct (largest_row_event c p data _ cands refined i x (batch_threshold_length c p data) Ec Er Hn Hx Hh) as (ev & Hev & E1 & E2 & E3 & E4 & E5 & Eo).
  { intros j z Hz Hne. destruct (Forall2_rd_r _ _ _ FL _ _ Hz) as ([t' r'] & Hl & M). cbn [fst snd] in M. destruct M as (_ & _ & M3 & M4 & _).
    assert (t' <> t). { pose proof (Hs _ _ Hx). pose proof (Hs _ _ Hz). intros ->. assert (Ej : (j - i) * delta c = 0) by lia. apply Z.mul_eq_0 in Ej. lia. }
    pose proof (Hbig t' r' (rd_in _ _ _ _ Hl) H) as B. apply Rlt_Qlt. revert N1 M4 B. unfold Rabs. destruct (Rcase_abs _), (Rcase_abs _); lra. }
  exists ev. split; [|split].
  - apply filter_events_in. split; [exact Hev|]. split; [|exact I]. rewrite E1, Dx. exact Ha.
  - unfold event_at. rewrite E1, E2, E3, E4, E5. repeat split; assumption.
  - intros ev' Hev'. apply filter_events_in in Hev' as (Hev' & _). rewrite <- Dx. apply Eo. exact Hev'.
Qed.
Print Assumptions C136_peak_becomes_event_partial.

(** C136, a sample above the largest threshold its window can lead to lies in the window of an event that is at least as large, if nothing
    outside the batch reaches the smallest threshold of its own window: a large event does not hide a smaller one. *)
Theorem C136_above_threshold_covered_partial :
  forall c ucf fs fs' start l p s e wd wd' es w a b i t r,
  scanned c ucf fs fs' start l (pad p) s e -> normalise_coalescence p = false ->
  window_samples (level_window p) (Qmake (sec c) (Z.to_pos (delta c))) w -> multiplier_ok p ->
  trigger_batch c p (trigger_read c ucf fs' (pad p)) None wd s e = Ret (wd', es) ->
  0 <= marginal_window p <= min_event_interval p ->
  (forall j t' r', rd (batch_samples c p l s e) j = Some (t', r') -> ~ accepts c (s, e) t' ->
     exists a' b', level_steady p w a' b' (batch_samples c p l s e) j /\ (kept (coa r') + 5 / 1000000 < threshold_floor p (a' - 5 / 1000000))%R) ->
  rd (batch_samples c p l s e) i = Some (t, r) -> level_steady p w a b (batch_samples c p l s e) i ->
  (threshold_ceiling p (a - 5 / 1000000) (b + 5 / 1000000) + 5 / 1000000 <= kept (coa r))%R ->
  exists ev, In ev es /\ MinTime (cand ev) <= t <= MaxTime (cand ev) /\ (kept (coa r) - 5 / 1000000 <= Q2R (TRIG_COA (cand ev)))%R.
Proof.
  intros c ucf fs fs' start l p s e wd wd' es w a b i t r S Hn Hw Hm Ht Hmw Hquiet Hi St Hth.
  destruct (trigger_batch_inv _ _ _ _ _ _ _ _ _ Ht) as (data & cands & refined & Ed & Ec & Er & -> & _).
  destruct (batch_data _ _ _ _ _ _ _ _ _ S data Ed) as (t1 & Hs & _ & _). pose proof (batch_list _ _ _ _ _ _ _ _ _ _ S Ed) as FL. fold (batch_samples c p l s e) in FL.
  pose proof (sc_delta _ _ _ _ _ _ _ _ _ S) as Hd.
  destruct (Forall2_rd _ _ _ FL _ _ Hi) as (x & Hx & Rx). cbn [fst snd] in Rx. destruct Rx as (_ & _ & Dx & N1 & _).
  assert (exists y, rd (batch_threshold c p data) i = Some y) as (y & Hy). { apply rd_in_range. rewrite <- (batch_threshold_length c p data). apply (rd_bounds _ _ _ _ Hx). }
  assert (Hh : hit p data (batch_threshold c p data) i).
  { exists x, y. split; [exact Hx|]. split; [exact Hy|]. rewrite Hn. apply Rle_Qle. pose proof (batch_threshold_between _ _ _ _ _ _ _ _ _ _ _ _ _ _ S Ed Hw Hm St y Hy) as (_ & U). revert N1. unfold Rabs. destruct (Rcase_abs _); lra. }
  destruct (hit_covered c p data _ cands refined i x t1 Hd Hmw Hs (batch_threshold_length c p data) Ec Er Hn Hx Hh) as (ev & Hev & W & V & j & z & Hz & Hhz & Ez).
  exists ev. split; [|split].
  - apply filter_events_in. split; [exact Hev|]. split; [|exact I]. destruct Hhz as (z' & q & Hz' & Hq & Hle). assert (z' = z) by congruence. subst z'. rewrite Hn in Hle.
    destruct (Forall2_rd_r _ _ _ FL _ _ Hz) as ([t' r'] & Hl & M). cbn [fst snd] in M. destruct M as (_ & _ & M3 & M4 & _). rewrite Ez, M3. change (accepts c (s, e) t').
    assert (D : accepts c (s, e) t' \/ ~ accepts c (s, e) t') by (unfold accepts; cbn [fst snd]; destruct (e mod (86400 * sec c) =? 0); lia).
    destruct D as [D|D]; [exact D|exfalso]. destruct (Hquiet j t' r' Hl D) as (a' & b' & St' & Q). pose proof (batch_threshold_between _ _ _ _ _ _ _ _ _ _ _ _ _ _ S Ed Hw Hm St' q Hq) as (U & _). apply Qle_Rle in Hle.
    revert M4. unfold Rabs. destruct (Rcase_abs _); lra.
  - rewrite <- Dx. exact W.
  - apply Qle_Rle in V. revert N1. unfold Rabs. destruct (Rcase_abs _); lra.
Qed.
Print Assumptions C136_above_threshold_covered_partial.

(** C136, no false alarms: every event is a sample of the scan that reaches the smallest threshold that its window can lead to (either kind of coalescence). *)
Theorem C136_events_are_samples_partial :
  forall c ucf fs fs' start l p s e wd wd' es w ev,
  scanned c ucf fs fs' start l (pad p) s e ->
  window_samples (level_window p) (Qmake (sec c) (Z.to_pos (delta c))) w -> multiplier_ok p ->
  trigger_batch c p (trigger_read c ucf fs' (pad p)) None wd s e = Ret (wd', es) -> In ev es ->
  exists i t r, rd (batch_samples c p l s e) i = Some (t, r) /\ accepts c (s, e) t /\ event_at ucf t (value p r) r ev /\
    forall a b, level_steady p w a b (batch_samples c p l s e) i -> (threshold_floor p (a - 5 / 1000000) - 5 / 1000000 <= value p r)%R.
Proof.
  intros c ucf fs fs' start l p s e wd wd' es w ev S Hw Hm Ht Hev.
  destruct (trigger_batch_inv _ _ _ _ _ _ _ _ _ Ht) as (data & cands & refined & Ed & Ec & Er & -> & _).
  pose proof (batch_list _ _ _ _ _ _ _ _ _ _ S Ed) as FL. fold (batch_samples c p l s e) in FL.
  apply filter_events_in in Hev as (Hev & Ha & _).
  destruct (event_is_a_hit c p data _ cands refined ev (batch_threshold_length c p data) Ec Er Hev) as (i & x & Hx & Hh & E1 & E2 & E3 & E4 & E5).
  destruct Hh as (x' & y & Hx' & Hy & Hle). assert (x' = x) by congruence. subst x'.
  destruct (Forall2_rd_r _ _ _ FL _ _ Hx) as ([t r] & Hl & M). cbn [fst snd] in M. pose proof (near_value p _ _ _ _ _ _ _ _ _ M) as Nv. destruct M as (_ & _ & M3 & M4 & M4' & M5 & M6 & M7).
  exists i, t, r. split; [exact Hl|]. split; [unfold accepts; cbn [fst snd]; rewrite <- M3, <- E1; exact Ha|]. split.
  - unfold event_at. rewrite E1, E2, E3, E4, E5. fold (trigger_on p x). repeat split; assumption.
  - intros a b St. pose proof (batch_threshold_between _ _ _ _ _ _ _ _ _ _ _ _ _ _ S Ed Hw Hm St y Hy) as (U & _). apply Qle_Rle in Hle. fold (trigger_on p x) in Hle. revert Nv. unfold Rabs. destruct (Rcase_abs _); lra.
Qed.
Print Assumptions C136_events_are_samples_partial.

(** Five samples of which one stands out; the level is the median of the five and the threshold is twice the level. *)
Definition c136_row (v : R) : row R := mk_row v v 1%R 0%R 0%R.
Definition c136_run : list (seg (row R)) := [mk_seg 0 [c136_row 1%R; c136_row 1%R; c136_row 9%R; c136_row 1%R; c136_row 1%R]].
Definition c136_params : params :=
  {| threshold_method := MedianRatio; static_threshold := 0; mad_window_length := 0; mad_multiplier := 0;
     median_window_length := 5; median_multiplier := 2; marginal_window := 1000000; min_event_interval := 2000000;
     normalise_coalescence := false; pad := 1000000; write_event_time_windows := false |}.
Example C136_applies : exists fs' wd' es,
  scanned c105_clock 1%Q (fun _ => None) fs' 0 c136_run (pad c136_params) 1000000 3000000 /\
  trigger_batch c105_clock c136_params (trigger_read c105_clock 1%Q fs' (pad c136_params)) None {| tfiles := fun _ => None; output_cols := [] |} 1000000 3000000 = Ret (wd', es) /\
  level_steady c136_params 5 1 1 (batch_samples c105_clock c136_params c136_run 1000000 3000000) 2 /\
  exists ev, In ev es /\ CoaTime (cand ev) = 2000000 /\ (Rabs (Q2R (TRIG_COA (cand ev)) - 9) <= 5 / 1000000)%R.
Proof.
  assert (Hq1 : Q2R 1%Q = 1%R) by (unfold Q2R; cbn; lra). assert (Hq2 : Q2R 2%Q = 2%R) by (unfold Q2R; cbn; lra).
  assert (K : forall v, (v <= 21474)%R -> kept v = v) by (intros v H; unfold kept; apply Rmin_left; exact H).
  assert (B : batch_samples c105_clock c136_params c136_run 1000000 3000000 = [(0, c136_row 1%R); (1000000, c136_row 1%R); (2000000, c136_row 9%R); (3000000, c136_row 1%R); (4000000, c136_row 1%R)]) by reflexivity.
  destruct (store_run_ok c105_clock (Q2R 1) false (fun _ => None) 0 c136_run) as (fs' & Es); try reflexivity; try discriminate.
  { exists 86400. reflexivity. }
  { exists 0. reflexivity. }
  { split; [reflexivity|]. split; [discriminate|]. split; [cbn; lia|exact I]. }
  { constructor; [|constructor]. cbn [rows c136_run]. apply map_opt_some. intros r Hr. assert (exists v, r = c136_row v /\ (0 < v <= 9)%R) as (v & -> & Hv). { destruct Hr as [<-|[<-|[<-|[<-|[<-|[]]]]]]; eexists; (split; [reflexivity|lra]). }
    unfold encode_row, c136_row. cbn [coa coa_n px py pz]. rewrite !clip_coa_min. fold (kept v). rewrite (K v) by lra. rewrite Hq1. rewrite !data2int_ok; [discriminate|..]; lra. }
  assert (S : scanned c105_clock 1%Q (fun _ => None) fs' 0 c136_run (pad c136_params) 1000000 3000000).
  { constructor; try (cbn; lia).
    - exists 86400. reflexivity.
    - exists 0. reflexivity.
    - reflexivity.
    - discriminate.
    - split; [reflexivity|]. split; [discriminate|]. split; [cbn; lia|exact I].
    - exists false. exact Es.
    - exists 0. reflexivity.
    - exists 4. reflexivity.
    - reflexivity. }
  destruct (C105_batch_triggered c105_clock 1%Q _ fs' 0 c136_run c136_params None {| tfiles := fun _ => None; output_cols := [] |} 1000000 3000000 2000000 (c136_row 9%R) S) as (wd' & es & Et); [cbn; auto|cbn; lia|].
  assert (St : level_steady c136_params 5 1 1 (batch_samples c105_clock c136_params c136_run 1000000 3000000) 2).
  { unfold level_steady. rewrite B. exists [true; true; false; true; true]. split; [|cbn; lia]. cbn [chunk_of]. unfold chunk_of. change (firstn _ (skipn _ ?l)) with l. unfold value. cbn [normalise_coalescence c136_params].
    repeat (apply Forall2_cons; [intros H; try discriminate H; cbn [snd c136_row coa]; rewrite K by lra; lra|]). apply Forall2_nil. }
  exists fs', wd', es. split; [exact S|]. split; [exact Et|]. split; [exact St|].
  destruct (C136_peak_becomes_event_partial c105_clock 1%Q (fun _ => None) fs' 0 c136_run c136_params 1000000 3000000 {| tfiles := fun _ => None; output_cols := [] |} wd' es 5 1 1 2 2000000 (c136_row 9%R) S) as (ev & Hev & He & _); try reflexivity; try exact Et; try exact St.
  - unfold window_samples. cbn. repeat split; discriminate || reflexivity.
  - discriminate.
  - vm_compute. split; discriminate.
  - unfold threshold_ceiling. cbn [threshold_method c136_params median_multiplier c136_row coa]. rewrite Hq2, K by lra. lra.
  - intros t' r' H Hne. rewrite B in H. cbn [c136_row coa]. rewrite (K 9%R) by lra. destruct H as [H|[H|[H|[H|[H|[]]]]]]; injection H as <- <-; cbn [c136_row coa]; rewrite ?K by lra; try lra; contradiction.
  - exists ev. split; [exact Hev|]. destruct He as (E1 & E2 & _). split; [exact E1|]. cbn [c136_row coa] in E2. rewrite K in E2 by lra. exact E2.
Qed.

(** C136, detect, trigger and locate: a source in the records whose coalescence stands out becomes an event, with its time as the origin time, also with a threshold that follows the level of the scan. Most of the samples in the window of the source are
    between [a] and [b] (the largest value over the grid), and the source reaches the largest threshold such a window leads to.
    Partial: the records and settings of C129; the location is that of C132 and C135. *)
Theorem C136_pipeline_partial :
  forall lowpass taper tiny secs k transform (ucf : Q) l r0 r1 rbf rat curve_fit pm ticks fraction tab stations x y ids m reach starttime timestep pre post n mw pre' post' read read' mags pre_cut post_cut cw fs afs p s e v0 t0 q0 w a b,
  let c := o_clock secs k in let D := secs / o_rate k in let N := Lut_Model.g_count (Lut_Model.l_grid l) in let F := coalescence_of secs k tab ids stations y in
  scan_ready lowpass taper tiny secs k transform (Q2R ucf) l tab stations starttime timestep pre post -> locate_ready lowpass taper tiny secs k l tab stations mw pre' post' -> interpolating rbf -> (0 < ucf)%Q ->
  steady secs k l tab ids stations m reach -> processed secs k m x ids y ->
  clear_of_ends secs k (m ((timestep + pre + post) / D)) (time2sample c pre) (time2sample c post) reach -> clear_of_ends secs k (m ((4 * mw + pre' + post') / D + 1)) (time2sample c pre') (time2sample c post') reach ->
  0 < n -> (forall i, 0 <= i < n -> let w := step_window c starttime timestep pre post i in reads tiny secs k x ids stations read (fst w) (snd w)) -> contributing k ids stations <> [] ->
  source secs k tab ids stations y N (fun t => starttime <= t * D < starttime + timestep * n) t0 q0 -> starttime <= t0 * D - 2 * mw -> t0 * D + 2 * mw < starttime + timestep * n ->
  (D | s - pad p) -> (D | e + pad p) -> (forall d, (s - pad p) / (86400 * secs) <= d <= (e + pad p) / (86400 * secs) -> fs d = None) ->
  normalise_coalescence p = false -> 0 <= pad p -> accepts c (s, e) (t0 * D) -> window_samples (level_window p) (Qmake (sec c) (Z.to_pos (delta c))) w -> multiplier_ok p ->
  let times := batch_times c p starttime (starttime + timestep * n) s e in
  (a <= 21474)%R -> mostly (fun t => background F (is_node N) a b (t / D)) (chunk_of w times (t0 - Z.max (s - pad p) starttime / D)) ->
  (threshold_ceiling p (a - 5 / 1000000) (b + 5 / 1000000) + 5 / 1000000 <= Rmin (F t0 q0) 21474)%R ->
  (forall t q, is_node N q -> starttime <= t * D < starttime + timestep * n -> t <> t0 -> (F t q + 1 / 100000 < Rmin (F t0 q0) 21474)%R) ->
  (let '(a, b, u, v) := event_window (t0 * D) mw pre' post' mags pre_cut post_cut in reads tiny secs k x ids stations (fun a b => read' a b u v) a b) ->
  let run := locate_event lowpass taper tiny secs k transform l r0 r1 rbf rat curve_fit pm ticks fraction read' mw pre' post' mags pre_cut post_cut (t0 * D) in
  exists f av v1 es ev d evt loc cov vn,
    continuous_compute lowpass taper tiny secs k transform (Q2R ucf) l r0 r1 cw read stations fs afs starttime timestep n = Ret (f, av)
    /\ trigger_batch c p (trigger_read c ucf f (pad p)) None v0 s e = Ret (v1, es) /\ In ev es
    /\ (exists row, (px row, py row, pz row) = node_coord transform (Lut_Model.l_grid l) q0 /\ event_at ucf (t0 * D) (Rmin (F t0 q0) 21474) row ev)
    /\ (forall ev', In ev' es -> CoaTime (cand ev') = t0 * D \/ (TRIG_COA (cand ev') < TRIG_COA (cand ev))%Q)
    /\ run = bind (pick_run lowpass taper tiny secs k rat curve_fit pm (arrivals transform l ticks fraction loc) d (t0 * D) mw) (fun picks => Ret (Some (mk_located evt loc (Some cov) picks)))
    /\ e_otime evt = t0 * D /\ max_coalescence evt = Ret (t0 * D, F t0 q0, vn).
Proof.
  intros lp tp tiny secs k tr ucf l r0 r1 rbf rat cf pm ticks fr tab stations x y ids m reach starttime timestep pre post n mw pre' post' read read' mags c1 c2 cw fs afs p s e v0 t0 q0 w a b c D N F S S' Hrbf Hu St Py Cl Cl' Hn Rd Ne So Hlo Hhi Gs Ge Hold Nn Hp Ha Hw Hm times A21 Ms Hth Hbig Hr' run.
  destruct (LocateRun_Proofs.lr_delta lp tp tiny secs k l tab stations mw pre' post' S') as (Dp & Sp). fold D in Dp. destruct (DetectRun_Proofs.sr_clock lp tp tiny secs k tr (Q2R ucf) l tab stations starttime timestep pre post S) as (_ & Ir). pose proof (lr_mw _ _ _ _ _ _ _ _ _ _ _ S') as Mp.
  assert (Ht0 : starttime <= t0 * D < starttime + timestep * n) by lia.
  set (p0 := {| threshold_method := Static; static_threshold := inject_Z (up (Rmin (F t0 q0) 21474) - 3); mad_window_length := 0; mad_multiplier := 0; median_window_length := 0; median_multiplier := 0; marginal_window := 0; min_event_interval := 0; normalise_coalescence := false; pad := pad p; write_event_time_windows := false |}).
  destruct (C132_pipeline_partial lp tp tiny secs k tr ucf l r0 r1 rbf rat cf pm ticks fr tab stations x y ids m reach starttime timestep pre post n mw pre' post' read read' mags c1 c2 cw fs afs p0 s e v0 t0 q0 S S' Hrbf Hu St Py Cl Cl' Hn Rd Ne So Hlo Hhi Gs Ge Hold eq_refl eq_refl Hp Ha) as (f & av & _ & _ & _ & d & evt & loc & cov & vn & Ef & _ & _ & _ & _ & Er & Eo & Em); [|exact Hbig|exact Hr'|].
  { cbn [static_threshold p0]. replace (Q2R (inject_Z (up (Rmin (F t0 q0) 21474) - 3))) with (IZR (up (Rmin (F t0 q0) 21474)) - 3)%R by (unfold Q2R, inject_Z; cbn [Qnum Qden]; rewrite minus_IZR; lra). fold F. pose proof (archimed (Rmin (F t0 q0) 21474)). lra. }
  fold c D N F run in Ef, Er, Eo, Em.
  destruct (scan_blocks lp tp tiny secs k tr (Q2R ucf) l r0 r1 tab stations x ids _ starttime timestep pre post n read S (st_dots _ _ _ _ _ _ _ _ St) Rd Hn (fun i d _ _ _ _ Es Rc Lv Wr Nt => compute_steady lp tp tiny secs k tr l r0 r1 tab x y ids stations m reach pre post d Wr St Py Rc Lv Es _ Nt Cl) cw fs afs f av Ef Ne) as (blocks & Nb & Cs & Es & Pk & Ex). fold c D in Cs, Es, Pk, Ex.
  assert (Sc : scanned c ucf fs f starttime blocks (pad p) s e).
  { constructor; try assumption.
    - destruct Ir as [z Hz]. exists (86400 * z). unfold c. rewrite Hz. cbn [o_clock delta]. ring.
    - exact (sr_start _ _ _ _ _ _ _ _ _ _ _ _ _ _ S).
    - exists cw. exact Es.
    - intros dd Hd _. apply Hold, Hd. }
  assert (Gst : (D | starttime)) by exact (sr_start _ _ _ _ _ _ _ _ _ _ _ _ _ _ S). assert (Gstop : (D | starttime + timestep * n)).
  { apply Z.divide_add_r; [exact Gst|]. apply Z.divide_mul_l. exact (sr_whole _ _ _ _ _ _ _ _ _ _ _ _ _ _ S). }
  assert (Et : map fst (batch_samples c p blocks s e) = times). { apply times_of_batch; try assumption. intros t r I. destruct (Pk _ _ I) as (I1 & I2 & _). split; assumption. }
  assert (Bt : s - pad p <= t0 * D <= e + pad p) by (clear - Ha Hp Dp; unfold accepts in Ha; cbn [fst snd] in Ha; change (delta c) with D in Ha; destruct (e mod (86400 * sec c) =? 0); lia).
  set (i := t0 - Z.max (s - pad p) starttime / D) in *.
  assert (Ti : rd times i = Some (t0 * D)).
  { unfold times, batch_times. change (delta c) with D. destruct Gs as (u & Eu). destruct Gst as (g & Eg). destruct Gstop as (h & Eh). destruct Ge as (v & Ev).
    assert (El : Z.max (s - pad p) starttime = Z.max u g * D) by (rewrite Eu, Eg; symmetry; rewrite Z.mul_max_distr_nonneg_r by lia; reflexivity).
    assert (Eu' : Z.min (e + pad p) (starttime + timestep * n - D) = Z.min v (h - 1) * D) by (rewrite Ev, Eh; replace (h * D - D) with ((h - 1) * D) by ring; rewrite Z.mul_min_distr_nonneg_r by lia; reflexivity).
    assert (Ei : i = t0 - Z.max u g) by (unfold i; rewrite El, Z.div_mul by lia; reflexivity).
    rewrite Eu', El, <- Z.mul_sub_distr_r, Z.div_mul by lia. rewrite rd_map, rd_zrange.
    - cbn [option_map]. f_equal. rewrite Ei. ring.
    - rewrite Ei. assert (u <= t0) by (apply (Zmult_le_reg_r _ _ D); lia). assert (g <= t0) by (apply (Zmult_le_reg_r _ _ D); lia). assert (t0 <= v) by (apply (Zmult_le_reg_r _ _ D); lia). assert (t0 < h) by (apply (Zmult_lt_reg_r _ _ D); lia). lia. }
  assert (exists row, rd (batch_samples c p blocks s e) i = Some (t0 * D, row)) as (row & Hi).
  { rewrite <- Et, rd_map in Ti. destruct (rd (batch_samples c p blocks s e) i) as [(t & r)|]; [|discriminate]. cbn [option_map fst] in Ti. exists r. congruence. }
  assert (Ir0 : In (t0 * D, row) (run_samples c blocks)). { pose proof (rd_in _ _ _ _ Hi) as I. unfold batch_samples, between in I. apply filter_In in I. tauto. }
  destruct (Pk _ _ Ir0) as (_ & _ & P0). rewrite Z.div_mul in P0 by lia. destruct (at_source _ _ _ _ _ _ _ _ _ _ _ _ So Ht0 P0) as (C1 & C2).
  destruct (C105_batch_triggered c ucf fs f starttime blocks p None v0 s e _ _ Sc Ir0 Bt) as (v1 & es & Etr).
  destruct (C136_peak_becomes_event_partial c ucf fs f starttime blocks p s e v0 v1 es w a b i (t0 * D) row Sc Nn Hw Hm Etr Hi Ha) as (ev & Ie & Ea & Eo').
  { unfold level_steady. rewrite <- Et in Ms. eapply (mostly_map _ _ (fun t tr => t = fst tr /\ In tr (run_samples c blocks))); [|  |exact Ms].
    - apply Forall2_chunk. assert (G : forall L : list (Z * ScanMseed_Model.row R), (forall z, In z L -> In z (run_samples c blocks)) -> Forall2 (fun t tr => t = fst tr /\ In tr (run_samples c blocks)) (map fst L) L).
      { induction L as [|z L IH]; intros H; cbn [map]; constructor; [split; [reflexivity|apply H; left; reflexivity]|apply IH; intros z' I; apply H; right; exact I]. }
      apply G. intros z I. unfold batch_samples, between in I. apply filter_In in I. tauto.
    - intros t (t' & r') (-> & I) ((q1 & Hq1 & L1) & U). cbn [fst snd] in *. destruct (Pk _ _ I) as (_ & _ & q & Hq & Mx & _ & Cq & _). unfold value, kept. rewrite Nn, Cq. split.
      + apply Rmin_glb; [|exact A21]. eapply Rle_trans; [exact L1|]. apply Mx, Hq1.
      + eapply Rle_trans; [apply Rmin_l|]. apply U, Hq. }
  { unfold kept. rewrite C1. exact Hth. }
  { intros t' r' I' Nt. unfold batch_samples, between in I'. apply filter_In in I' as (I' & _). destruct (Pk _ _ I') as ((u & ->) & Bu & (q & Hq & _ & _ & Cq & _)). rewrite Z.div_mul in Cq by lia. unfold kept. rewrite C1, Cq. pose proof (Hbig u q Hq Bu ltac:(congruence)) as B. fold F. pose proof (Rmin_l (F u q) 21474). lra. }
  exists f, av, v1, es, ev, d, evt, loc, cov, vn. split; [exact Ef|]. split; [exact Etr|]. split; [exact Ie|]. split; [exists row; split; [exact C2|]; unfold F; rewrite <- C1; exact Ea|]. split; [exact Eo'|]. split; [exact Er|]. split; [exact Eo|exact Em].
Qed.
Print Assumptions C136_pipeline_partial.

(** The source of the example of C132, with a threshold that is twice the median over windows of a second. *)
Definition c136_source_params : params := Build_params MedianRatio 0 0 0 1 2 100000 200000 false 200000 false.
Lemma marked {A} (P : A -> Prop) (f : A -> bool) l : (forall x, f x = true -> P x) -> (length (filter negb (map f l)) < length (filter (fun k => k) (map f l)))%nat -> mostly P l.
Proof. intros H C. exists (map f l). split; [|exact C]. clear C. induction l as [|x l IH]; cbn [map]; constructor; [apply H|exact IH]. Qed.
Example C136_source_found r0 r1 cw :
  let k := src_set in let c := o_clock 100000 k in
  exists f a v1 es ev,
  continuous_compute (fun _ x => x) (fun x => x) (1 / 2) 100000 k (fun _ _ x => x) (Q2R 1) src_lut r0 r1 cw src_reads src_stations (fun _ => None) (fun _ => None) 360000000 100000 20 = Ret (f, a)
  /\ trigger_batch c c136_source_params (trigger_read c 1 f (pad c136_source_params)) None {| tfiles := fun _ => None; output_cols := [] |} 360400000 361600000 = Ret (v1, es) /\ In ev es
  /\ CoaTime (cand ev) = 361000000.
Proof.
  intros k c. destruct C132_example as (S & S' & St & Py & Cl & Cl' & Rd & Ne & So & H1 & H2 & G1 & G2 & Ac & Th & Bg & Re).
  destruct (C136_pipeline_partial (fun _ x => x) (fun x => x) (1 / 2) 100000 src_set (fun _ _ x => x) 1%Q src_lut r0 r1 Locate_Props.lookup_rbf (fun _ => 0%Q) (fun _ _ => Undef) (Picker_Model.Percentile 1) (fun _ => 0) 0%R src_tab src_stations src_x src_y src_ids
    (fun n => Z.max 0 (n / 20)) 50 360000000 100000 102000 200000 20 100000 102000 200000 src_reads (fun a b _ _ => src_reads a b) None None None cw (fun _ => None) (fun _ => None) c136_source_params 360400000 361600000
    {| tfiles := fun _ => None; output_cols := [] |} 180500 (1, 0, 0) 50 0%R 13%R S S' Locate_Props.lookup_rbf_ok eq_refl St Py Cl Cl' ltac:(lia) Rd Ne So H1 H2 G1 G2 ltac:(intros; reflexivity) eq_refl ltac:(cbn; lia) Ac)
    as (f & a & v1 & es & ev & _ & _ & _ & _ & _ & E1 & E2 & Ie & (row & _ & Ev & _) & _).
  - unfold window_samples. vm_compute. repeat split; discriminate || reflexivity.
  - discriminate.
  - lra.
  - apply (marked _ (fun t => negb (t / (100000 / o_rate src_set) =? 180500))); [|vm_compute; lia]. intros t Ht. apply negb_true_iff in Ht. apply Z.eqb_neq in Ht. split.
    + exists (0, 0, 0). split; [cbn; lia|]. unfold coalescence_of, geometric_mean, Rpower. left. apply exp_pos.
    + intros q Hq. apply (src_coalescence _ q Hq). congruence.
  - destruct (src_coalescence 180500 (1, 0, 0)) as (E & _); [cbn; lia|]. specialize (E eq_refl). rewrite E, Rmin_left by lra. unfold threshold_ceiling. cbn [threshold_method c136_source_params median_multiplier]. unfold Q2R. cbn [Qnum Qden]. lra.
  - exact Bg.
  - exact Re.
  - exists f, a, v1, es, ev. split; [exact E1|]. split; [exact E2|]. split; [exact Ie|]. exact Ev.
Qed.

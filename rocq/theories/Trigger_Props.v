(** Properties C27 to C37 and C56 of triggering (signal/trigger.py, io/triggered_events.py). *)
From Coq Require Import List ZArith QArith Qabs Bool Permutation Sorted Lia Lqa Ascii String.
From Verif Require Import Lib LibFacts PySlice Timeline_Model Timeline_Spec Timeline_Props Calendar_Model Calendar_Spec
  Calendar_Proofs Trigger_Model Trigger_Spec Trigger_Proofs.
Import ListNotations.
Open Scope Z_scope.

(** Data for the examples: one sample per second, all columns given by the coalescence. *)
Definition hz1 : clock := {| sec := 1; delta := 1 |}.
Definition row_at (t : Z) (v : Q) : scanrow := {| DT := t; COA := v; COA_N := v; PX := v; PY := v; PZ := v |}.
Fixpoint series (t : Z) (l : list Q) : list scanrow :=
  match l with [] => [] | v :: r => row_at t v :: series (t + 1) r end.
Definition settings (m : method) (threshold multiplier window : Q) (windows : bool) : params :=
  {| threshold_method := m; static_threshold := threshold; mad_window_length := window; mad_multiplier := multiplier;
     median_window_length := window; median_multiplier := multiplier; marginal_window := 1; min_event_interval := 2;
     normalise_coalescence := false; pad := 10; write_event_time_windows := windows |}.
Lemma series_sampled l : forall t, sampled hz1 t (series t l).
Proof.
  induction l as [|v l IH]; intros t i r H; cbn [series] in H; pose proof (rd_bounds _ _ _ _ H) as B; [cbn in B; lia|].
  destruct (Z.eq_dec i 0) as [->|N]; [injection H as <-; cbn [row_at DT]; lia|].
  rewrite rd_cons_pos in H by lia. rewrite (IH _ _ _ H). cbn [delta hz1]. lia.
Qed.

(** C27. One threshold per sample; it is computed from the samples of the chunk that holds the
    sample: chunks of the window length, the last one possibly shorter. *)
Theorem C27_threshold_from_own_chunk :
  forall (p : params) (values : list Q) (rate : Q),
  List.length (get_threshold p values rate) = List.length values /\
  forall i x, rd (get_threshold p values rate) i = Some x ->
  match threshold_method p with
  | Static => (x == static_threshold p)%Q
  | Mad => forall w, window_samples (mad_window_length p) rate w ->
      exists m d, is_median (chunk_of w values i) m /\ is_mad (chunk_of w values i) d /\
        (x == m + mad_multiplier p * d)%Q
  | MedianRatio => forall w, window_samples (median_window_length p) rate w ->
      exists m, is_median (chunk_of w values i) m /\ (x == m * median_multiplier p)%Q
  end.
Proof.
  intros p values rate. split; [apply threshold_length|]. intros i x H.
  pose proof (rd_bounds _ _ _ _ H) as B. rewrite threshold_length in B.
  rewrite threshold_at in H by exact B. injection H as <-. destruct (threshold_method p).
  - ring.
  - intros w Hw. rewrite (int_of_window _ _ _ Hw). cbv zeta. do 2 eexists. split; [apply median_ok|]. split; [apply mad_ok|]. ring.
  - intros w Hw. rewrite (int_of_window _ _ _ Hw). eexists. split; [apply median_ok|]. reflexivity.
Qed.
Print Assumptions C27_threshold_from_own_chunk.

Example C27_applies :
  window_samples 3 1 3 /\
  map Qred (get_threshold (settings Mad 0 2 3 false) [1; 5; 3; 10; 20]%Q 1)
  = [Qred (3 + 2 * (14826 # 10000) * 2); Qred (3 + 2 * (14826 # 10000) * 2); Qred (3 + 2 * (14826 # 10000) * 2);
     Qred (15 + 2 * (14826 # 10000) * 5); Qred (15 + 2 * (14826 # 10000) * 5)]%Q.
Proof. split; [unfold window_samples, Qle, Qlt; cbn; lia|vm_compute; reflexivity]. Qed.

(** C28. The candidates are the maximal runs of samples at or above threshold, in order; every
    such sample lies in one of them. *)
Theorem C28_candidates_are_the_maximal_runs :
  forall (p : params) (data : list scanrow) (th : list Q),
  List.length data = List.length th ->
  exists runs cands, identify_candidates p data th = Ret cands /\
    Forall2 (candidate_of_run p data) runs cands /\
    (forall lo hi, In (lo, hi) runs <-> maximal_run p data th lo hi) /\
    pairwise_ (fun a b => snd a + 1 < fst b) runs /\
    (forall i, hit p data th i -> exists lo hi, In (lo, hi) runs /\ lo <= i <= hi).
Proof.
  intros p data th L. destruct (identify_ok p data th L) as (cands & E & F).
  exists (runs_of p data th), cands. split; [exact E|]. split; [exact F|]. split; [intros; apply runs_maximal|].
  split; [apply runs_ordered|]. intros i. apply in_runs.
Qed.
Print Assumptions C28_candidates_are_the_maximal_runs.

Example C28_applies :
  let data := series 100 [1; 5; 7; 7; 2; 6; 1]%Q in
  let p := settings Static 5 0 1 false in
  identify_candidates p data (get_threshold p (map COA data) 1)
  = Ret [ {| EventNum := 0; CoaTime := 102; TRIG_COA := 7; COA_X := 7; COA_Y := 7; COA_Z := 7;
             MinTime := 100; MaxTime := 104; CCOA := 7; COA_NORM := 7 |};
          {| EventNum := 1; CoaTime := 105; TRIG_COA := 6; COA_X := 6; COA_Y := 6; COA_Z := 6;
             MinTime := 103; MaxTime := 107; CCOA := 6; COA_NORM := 6 |} ]
  /\ maximal_run p data (get_threshold p (map COA data) 1) 1 3.
Proof.
  split; [vm_compute; reflexivity|]. split; [lia|]. split; [|split].
  - intros i Hi. assert (E : i = 1 \/ i = 2 \/ i = 3) by lia.
    destruct E as [->|[->| ->]]; (do 2 eexists; split; [reflexivity|split; [reflexivity|cbn; discriminate]]).
  - intros (r & x & H1 & H2 & H3). injection H1 as <-. injection H2 as <-. apply H3. reflexivity.
  - intros (r & x & H1 & H2 & H3). injection H1 as <-. injection H2 as <-. apply H3. reflexivity.
Qed.

(** C29. Refinement partitions the candidates into groups of consecutive candidates, linked
    inside and not linked across, and makes one event of each. *)
Theorem C29_refinement_merges_linked_candidates :
  forall (c : clock) (p : params) (cands : list candidate),
  exists es gs, refine_candidates c p cands = Ret es /\ grouping p cands gs /\
    Forall2 (fun g e => event_of_group g (cand e)) gs es.
Proof.
  intros c p cands. destruct (refine_ok c p cands) as (es & E & F). exists es, (chop (nsep p) cands).
  split; [exact E|]. split; [apply chop_grouping|]. eapply Forall2_impl; [|exact F]. cbv beta. intros g e [H _]. exact H.
Qed.
Print Assumptions C29_refinement_merges_linked_candidates.

Example C29_applies :
  let data := series 100 [1; 5; 1; 8; 1; 1; 1; 1; 6; 1]%Q in
  let p := settings Static 5 0 1 false in
  match identify_candidates p data (get_threshold p (map COA data) 1) with
  | Ret cands => List.length cands = 3%nat /\
      match refine_candidates hz1 p cands with
      | Ret es => map (fun e => (CoaTime (cand e), TRIG_COA (cand e), MinTime (cand e), MaxTime (cand e))) es
                  = [(103, 8%Q, 99, 105); (108, 6%Q, 106, 110)]
      | _ => False end
  | _ => False end.
Proof. vm_compute. auto. Qed.

(** C30. Events of one stretch of scan data are more than min_event_interval + marginal_window
    apart: those refined from the candidates, and those a batch reports. *)
Theorem C30_events_respect_the_interval :
  forall (c : clock) (p : params) (t0 : Z) (data : list scanrow), 0 < delta c -> sampled c t0 data ->
  (forall th cands es, List.length data = List.length th ->
     identify_candidates p data th = Ret cands -> refine_candidates c p cands = Ret es ->
     pairwise_ (later_by (min_event_interval p + marginal_window p)) es) /\
  (forall read reg w s e w' es, read s e = Ret data ->
     trigger_batch c p read reg w s e = Ret (w', es) ->
     pairwise_ (later_by (min_event_interval p + marginal_window p)) es).
Proof.
  intros c p t0 data Hd Hs. split.
  - intros th cands es L E1 E2. eapply pairwise_impl; [|eapply (events_apart c p t0 data (runs_of p data th)); try eassumption].
    + unfold later_by. tauto.
    + apply runs_ordered.
    + apply cands_of_runs; assumption.
  - intros read reg w s e w' es Er E. eapply pairwise_impl; [|eapply batch_events_apart; eassumption].
    unfold later_by. tauto.
Qed.
Print Assumptions C30_events_respect_the_interval.

(** The setter rejects intervals below twice the marginal window. *)
Theorem C30_interval_setter :
  forall marginal value, 
  set_min_event_interval marginal value = if Z_lt_dec value (2 * marginal) then Raise ValueError else Ret value.
Proof.
  intros m v. unfold set_min_event_interval. destruct (Z.ltb_spec v (2 * m)), (Z_lt_dec v (2 * m)); try reflexivity; lia.
Qed.
Print Assumptions C30_interval_setter.

Example C30_applies :
  let data := series 100 [1; 5; 1; 1; 1; 8; 1]%Q in
  let p := settings Static 5 0 1 false in
  sampled hz1 100 data /\
  match trigger_batch hz1 p (fun _ _ => Ret data) None {| tfiles := fun _ => None; output_cols := OUTPUT_COLS |} 0 200 with
  | Ret (_, es) => map (fun e => CoaTime (cand e)) es = [101; 105]
  | _ => False end.
Proof. split; [apply series_sampled|vm_compute; reflexivity]. Qed.

(** C31. The identifier spells the CoaTime to the millisecond. [civil] is the calendar:
    day 0 is 1970-01-01 and every day is followed by the next date. *)
Theorem C31_id_spells_the_time :
  (civil 0 = (1970, 1, 1) /\ forall d, civil (d + 1) = next_date (civil d) /\ valid_date (civil d)) /\
  forall (c : clock) (p : params) (cands : list candidate) (es : list event) (e : event),
  refine_candidates c p cands = Ret es -> In e es ->
  (let us := CoaTime (cand e) * 1000000 / sec c in
   let '(y, _, _) := civil (us / 86400000000) in 0 <= y <= 9999 ->
   spells_time civil us (EventID e)).
Proof.
  split; [split; [vm_compute; reflexivity|]; intros d; split; [apply civil_next|apply civil_valid]|].
  intros c p cands es e E He. cbv zeta. fold (to_us c (CoaTime (cand e))). rewrite civil_split. intros Hy.
  destruct (refine_ok c p cands) as (es' & E' & G). rewrite E in E'. injection E' as <-.
  destruct (Forall2_in_r _ _ _ _ G He) as (g & _ & _ & Hid). rewrite Hid, event_uid_ok. apply id_of_spells, Hy.
Qed.
Print Assumptions C31_id_spells_the_time.

(** C31. No two events of a run (all its daily batches) share an identifier, if events of a day
    are at least a millisecond apart: at most 2000 samples per second, or an interval of 1 ms. *)
Theorem C31_ids_unique :
  forall (c : clock) (p : params) read reg fuel s e l w w' ess, 0 < sec c -> 0 < delta c ->
  sec c <= 1000 * Z.max (2 * delta c) (min_event_interval p + marginal_window p) ->
  batches fuel c s e = Some l -> run_batches c p read reg w l = Ret (w', ess) ->
  (forall b data, In b l -> read (fst b) (snd b) = Ret data -> exists t0, sampled c t0 data) ->
  (forall x, In x (List.concat ess) -> 0 <= year (CoaTime (cand x) * 1000000 / sec c / 86400000000) <= 9999) ->
  pairwise_ (fun a b => EventID a <> EventID b) (List.concat ess).
Proof.
  intros c p read reg fuel s e l w w' ess Hs Hd Hms Hb E Hsam Hy. apply batches_batched in Hb.
  assert (Hday : 0 < day c) by (unfold day; lia).
  pose proof (run_times_apart c p read reg Hday s e l Hd Hb w w' ess E Hsam) as P.
  apply pairwise_split. intros l1 a l2 b l3 El. rewrite El in P. apply pairwise_in in P. destruct P as (Ia & Ib & H).
  rewrite Ia, Ib. apply id_differ; [exact Hs| | |].
  - apply Hy. rewrite El. apply in_or_app. right. left. reflexivity.
  - apply Hy. rewrite El. apply in_or_app. right. right. apply in_or_app. right. left. reflexivity.
  - destruct H as [H|H]; [left; lia|right; exact H].
Qed.
Print Assumptions C31_ids_unique.

Example C31_applies :
  let data := series 951782390 [1; 5; 1; 1; 1; 8; 1]%Q in
  let p := settings Static 5 0 1 false in
  match trigger_batch hz1 p (fun _ _ => Ret data) None {| tfiles := fun _ => None; output_cols := OUTPUT_COLS |} 951782000 951782400 with
  | Ret (_, es) => map (fun e => string_of_list_ascii (EventID e)) es
                   = ["20000228235951000"; "20000228235955000"]%string
  | _ => False end.
Proof. vm_compute. reflexivity. Qed.

(** C32. The loop over days ends; its batches follow on from each other, lie within one calendar
    day each and cover the period; a sample time on the grid belongs to exactly one of them (a
    period that ends at midnight does not include that midnight). *)
Theorem C32_batches_partition_the_period :
  forall (c : clock) (s e : Z), 0 < sec c ->
  exists l, (exists n, forall fuel, (n < fuel)%nat -> batches fuel c s e = Some l) /\
  chained (fun a b => snd a = fst b) l /\
  Forall (fun b => s <= fst b < snd b /\ snd b <= e /\
                   forall t, fst b <= t < snd b -> t / (86400 * sec c) = fst b / (86400 * sec c)) l /\
  (s < e -> (exists b l', l = b :: l' /\ fst b = s) /\ exists l' b, l = l' ++ [b] /\ snd b = e) /\
  (0 < delta c -> (delta c | 86400 * sec c) -> forall t, (delta c | t) ->
   ((s <= t < e \/ (t = e /\ s < e /\ e mod (86400 * sec c) <> 0)) ->
    exists l1 b l2, l = l1 ++ b :: l2 /\ accepts c b t /\ Forall (fun b => ~ accepts c b t) (l1 ++ l2)) /\
   ((exists b, In b l /\ accepts c b t) -> s <= t <= e /\ (e mod (86400 * sec c) = 0 -> t < e))).
Proof.
  intros c s e Hs. assert (Hday : 0 < day c) by (unfold day; lia).
  pose proof (Z.mul_div_le s (day c) Hday) as Hq.
  destruct (batches_fuel c e Hday (Z.to_nat (Z.max 0 (e - s / day c * day c))) s) as (l & Hl).
  { rewrite Z2Nat.id by lia. destruct (Z_le_gt_dec (e - s / day c * day c) 0) as [L|L]; [lia|].
    rewrite Z.max_r by lia. apply Z.le_mul_diag_r; lia. }
  pose proof (batches_batched c e _ s l (Hl _ (Nat.lt_succ_diag_r _))) as Hb.
  exists l. split; [eauto|]. split; [eapply batched_chain; eassumption|].
  split; [eapply batched_inside; eassumption|].
  split; [intros L; split; [eapply batched_first; eassumption|eapply batched_last; eassumption]|].
  intros Hd Hg t Ht. split.
  - intros H. eapply batched_accepts; try eassumption; fold (day c) in *; intuition lia.
  - intros (b & H1 & H2). eapply batched_only; eassumption.
Qed.
Print Assumptions C32_batches_partition_the_period.

(** Off the grid this fails: a time within the last sampling interval before midnight is in the
    period but in none of the batches. *)
Theorem C32_off_grid_times_in_no_batch_refuted :
  exists (c : clock) s e l t, clock_ok c /\ integer_rate c /\ whole_ms c /\
  batches 5 c s e = Some l /\ s <= t < e /\ Forall (fun b => ~ accepts c b t) l.
Proof.
  exists hz50, 0, 17280000000. eexists. exists (8640000000 - 1). destruct hz50_ok as (H1 & H2 & H3).
  split; [assumption|]. split; [assumption|]. split; [assumption|]. split; [vm_compute; reflexivity|]. split; [lia|].
  repeat constructor; unfold accepts; vm_compute; intros [A B]; (apply A; reflexivity) || (apply B; reflexivity).
Qed.
Print Assumptions C32_off_grid_times_in_no_batch_refuted.

Example C32_applies :
  batches 5 hz1 80000 200000 = Some [(80000, 86400); (86400, 172800); (172800, 200000)]
  /\ accepts hz1 (80000, 86400) 86399 /\ ~ accepts hz1 (80000, 86400) 86400 /\ accepts hz1 (86400, 172800) 86400
  /\ accepts hz1 (172800, 200000) 200000.
Proof. split; [vm_compute; reflexivity|]. unfold accepts. cbn. lia. Qed.

(** C33. The filter keeps exactly the events within the times and the region, in order. *)
Theorem C33_event_filter_is_exact :
  forall (l : list event) (s e : Z) (reg : option region),
  (exists keep, filter_events l s e reg = filter keep l) /\
  forall x, In x (filter_events l s e reg) <->
    In x l /\ s <= CoaTime (cand x) <= e /\ match reg with Some g => in_region g (cand x) | None => True end.
Proof. intros l s e reg. split; [apply filter_events_filter|]. intros x. apply filter_events_in. Qed.
Print Assumptions C33_event_filter_is_exact.

Example C33_applies :
  let mk t x := {| EventID := []; cand := {| EventNum := 0; CoaTime := t; TRIG_COA := 1; COA_X := x; COA_Y := 0; COA_Z := 0;
                   MinTime := 0; MaxTime := 0; CCOA := 1; COA_NORM := 1 |} |} in
  let g := {| xmin := 1; ymin := 0; zmin := 0; xmax := 2; ymax := 0; zmax_ := 0 |} in
  filter_events [mk 5 2%Q; mk 10 1%Q; mk 12 3%Q; mk 20 2%Q; mk 21 1%Q] 10 20 (Some g) = [mk 10 1%Q; mk 20 2%Q].
Proof. vm_compute. reflexivity. Qed.

(** C34, what holds: a sample without data (0) does not reach a positive static threshold, nor a
    dynamic one when the median of its chunk is positive; and a sample reaching a MAD threshold
    is above the median of its chunk unless the MAD is 0. *)
Theorem C34_missing_data_do_not_trigger_partial :
  forall (p : params) (data : list scanrow) (rate : Q) (i : Z) (r : scanrow),
  let value := fun r => if normalise_coalescence p then COA_N r else COA r in
  let th := get_threshold p (map value data) rate in
  rd data i = Some r ->
  ((value r == 0)%Q -> threshold_method p = Static -> (0 < static_threshold p)%Q -> ~ hit p data th i) /\
  (forall w, (value r == 0)%Q -> threshold_method p = Mad -> window_samples (mad_window_length p) rate w ->
     (forall m, is_median (chunk_of w (map value data) i) m -> (0 < m)%Q) -> (0 <= mad_multiplier p)%Q -> ~ hit p data th i) /\
  (forall w, (value r == 0)%Q -> threshold_method p = MedianRatio -> window_samples (median_window_length p) rate w ->
     (forall m, is_median (chunk_of w (map value data) i) m -> (0 < m)%Q) -> (0 < median_multiplier p)%Q -> ~ hit p data th i) /\
  (forall w, threshold_method p = Mad -> window_samples (mad_window_length p) rate w -> (0 < mad_multiplier p)%Q ->
     hit p data th i -> exists m d, is_median (chunk_of w (map value data) i) m /\ is_mad (chunk_of w (map value data) i) d /\
       ((0 < d)%Q -> (m < value r)%Q)).
Proof.
  intros p data rate i r value th Hr.
  pose proof (rd_bounds _ _ _ _ Hr) as B.
  destruct (C27_threshold_from_own_chunk p (map value data) rate) as [L T]. fold th in L, T. rewrite map_length in L.
  assert (Hx : exists x, rd th i = Some x).
  { destruct (rd th i) as [x|] eqn:E; [eauto|]. unfold rd in E. destruct (Z.ltb_spec i 0); [lia|]. apply nth_error_None in E. lia. }
  destruct Hx as (x & Hx). specialize (T i x Hx).
  assert (Hv : hit p data th i -> (x <= value r)%Q).
  { intros (r' & x' & H1 & H2 & H3). rewrite Hr in H1. rewrite Hx in H2. injection H1 as <-. injection H2 as <-. exact H3. }
  assert (NE : forall w, 1 <= w -> chunk_of w (map value data) i <> []) by (intros w Hw; apply chunk_nonempty; [exact Hw|rewrite map_length; exact B]).
  split; [|split; [|split]].
  - intros H0 Hm Hp H. specialize (Hv H). rewrite Hm in T. lra.
  - intros w H0 Hm Hw Hpos Hmul H. specialize (Hv H). rewrite Hm in T. destruct (T w Hw) as (m' & d & A1 & A2 & A3).
    specialize (Hpos m' A1). pose proof (mad_nonneg _ _ (NE w (proj1 Hw)) A2). 
    pose proof (Qmult_le_0_compat _ _ Hmul H1). lra.
  - intros w H0 Hm Hw Hpos Hmul H. specialize (Hv H). rewrite Hm in T. destruct (T w Hw) as (m' & A1 & A3).
    specialize (Hpos m' A1). pose proof (Qmult_lt_0_compat m' (median_multiplier p) ltac:(lra) Hmul). lra.
  - intros w Hm Hw Hmul H. specialize (Hv H). rewrite Hm in T. destruct (T w Hw) as (m & d & A1 & A2 & A3).
    exists m, d. split; [exact A1|]. split; [exact A2|]. intros Hd. pose proof (Qmult_lt_0_compat _ _ Hmul Hd). lra.
Qed.
Print Assumptions C34_missing_data_do_not_trigger_partial.

(** C34 fails for a chunk without data: its median and MAD are 0, every sample reaches the
    threshold 0 and an event is triggered. *)
Theorem C34_chunk_without_data_triggers_refuted :
  exists (c : clock) (p : params) (data : list scanrow) w' es e,
  threshold_method p = Mad /\ (0 < mad_multiplier p)%Q /\ (0 < mad_window_length p)%Q /\
  sampled c 0 data /\ Forall (fun r => COA r = 0%Q /\ COA_N r = 0%Q) data /\
  trigger_batch c p (fun _ _ => Ret data) None {| tfiles := fun _ => None; output_cols := OUTPUT_COLS |} 0 86400 = Ret (w', es) /\
  In e es.
Proof.
  exists hz1, (settings Mad 0 8 3 false), (series 0 [0; 0; 0; 0; 0]%Q). do 3 eexists.
  split; [reflexivity|]. split; [reflexivity|]. split; [reflexivity|]. split; [apply series_sampled|].
  split; [repeat constructor|]. split; [vm_compute; reflexivity|]. left. reflexivity.
Qed.
Print Assumptions C34_chunk_without_data_triggers_refuted.

Example C34_applies :
  let p := settings Mad 0 2 5 false in
  let data := series 0 [1; 0; 2; 9; 2]%Q in
  hit p data (get_threshold p (map COA data) 1) 3 /\ ~ hit p data (get_threshold p (map COA data) 1) 1.
Proof.
  split.
  - do 2 eexists. split; [reflexivity|]. split; [vm_compute; reflexivity|]. vm_compute. discriminate.
  - intros (r & x & H1 & H2 & H3). injection H1 as <-. vm_compute in H2. injection H2 as <-. apply H3. reflexivity.
Qed.

(** C35, what holds: after a run, the file of every day with a sample at or above threshold is
    the table of exactly the events this run reports for that day, other days are untouched, and
    the columns are the same as before unless time windows were requested. *)
Theorem C35_files_hold_the_run_partial :
  forall (c : clock) (p : params) read reg fuel s e l w w' ess, 0 < sec c ->
  batches fuel c s e = Some l -> run_batches c p read reg w l = Ret (w', ess) ->
  Forall2 (fun b es => exists data, read (fst b) (snd b) = Ret data /\
    ((exists i, hit p data (batch_threshold c p data) i) ->
     exists cols, tfiles w' (fst b / (86400 * sec c)) = Some (cols, es) /\
       (write_event_time_windows p = false -> cols = output_cols w)) /\
    ((forall i, ~ hit p data (batch_threshold c p data) i) ->
     es = [] /\ tfiles w' (fst b / (86400 * sec c)) = tfiles w (fst b / (86400 * sec c)))) l ess /\
  (forall d, d < s / (86400 * sec c) \/ (e - 1) / (86400 * sec c) < d -> tfiles w' d = tfiles w d) /\
  (write_event_time_windows p = false -> output_cols w' = output_cols w).
Proof.
  intros c p read reg fuel s e l w w' ess Hs Hb E. apply batches_batched in Hb.
  destruct (run_files c p read reg ltac:(unfold day; lia) s e l Hb w w' ess E) as (F & U & C & _).
  split; [|split; [exact U|exact C]]. eapply Forall2_impl; [|exact F].
  intros b es (data & R & H). exists data. split; [exact R|]. split.
  - intros (i & Hi). destruct H as [(_ & H)|(N & _)]; [exact H|]. exfalso. exact (N i Hi).
  - intros N. destruct H as [((i & Hi) & _)|(_ & H)]; [exfalso; exact (N i Hi)|exact H].
Qed.
Print Assumptions C35_files_hold_the_run_partial.

(** C35 fails: with write_event_time_windows the module-level list of columns grows by two names
    per file, so the second day's file has the columns MinTime and MaxTime twice. *)
Theorem C35_columns_duplicated_refuted :
  exists (c : clock) (p : params) read s e l w' ess cols rows,
  batches 5 c s e = Some l /\
  run_batches c p read None {| tfiles := fun _ => None; output_cols := OUTPUT_COLS |} l = Ret (w', ess) /\
  tfiles w' 1 = Some (cols, rows) /\ ~ NoDup cols.
Proof.
  exists hz1, (settings Static 5 0 1 true), (fun s e => Ret (series s [1; 5; 1]%Q)), 0, 172800.
  do 5 eexists. split; [vm_compute; reflexivity|]. split; [vm_compute; reflexivity|].
  split; [reflexivity|]. cbn. intros H.
  repeat match goal with H : NoDup (_ :: _) |- _ => inversion H; clear H; subst end.
  cbn in *. tauto.
Qed.
Print Assumptions C35_columns_duplicated_refuted.

(** C35 fails: when no sample reaches the threshold nothing is written, and the events of an
    earlier run with a lower threshold stay in the file of the day. *)
Theorem C35_stale_file_refuted :
  exists (c : clock) (p1 p2 : params) data w1 w2 es1 cols rows,
  threshold_method p1 = Static /\ threshold_method p2 = Static /\
  trigger_batch c p1 (fun _ _ => Ret data) None {| tfiles := fun _ => None; output_cols := OUTPUT_COLS |} 0 86400 = Ret (w1, es1) /\
  trigger_batch c p2 (fun _ _ => Ret data) None w1 0 86400 = Ret (w2, []) /\
  tfiles w2 0 = Some (cols, rows) /\ rows <> [].
Proof.
  exists hz1, (settings Static 5 0 1 false), (settings Static 9 0 1 false), (series 10 [1; 5; 1]%Q). do 5 eexists.
  split; [reflexivity|]. split; [reflexivity|]. split; [vm_compute; reflexivity|]. split; [vm_compute; reflexivity|].
  split; [reflexivity|]. discriminate.
Qed.
Print Assumptions C35_stale_file_refuted.

Example C35_applies :
  let p := settings Static 5 0 1 false in
  match batches 5 hz1 0 172800 with
  | Some l =>
      match run_batches hz1 p (fun s e => Ret (series s [1; 5; 1]%Q)) None {| tfiles := fun _ => None; output_cols := OUTPUT_COLS |} l with
      | Ret (w', ess) => map (map (fun e => CoaTime (cand e))) ess = [[1]; [86401]] /\ tfiles w' 1 <> None
      | _ => False end
  | None => False end.
Proof. vm_compute. split; [reflexivity|discriminate]. Qed.

(** C36. Batches that meet at midnight: if both cover min_event_interval + marginal_window around
    midnight and a sample has the same threshold in both, the events they report are more than
    min_event_interval + marginal_window apart. *)
Theorem C36_no_event_reported_twice :
  forall (c : clock) (p : params) read reg w1 w2 s mid e w1' w2' es1 es2 d1 d2 t1 o,
  0 < delta c -> mid mod (86400 * sec c) = 0 ->
  read s mid = Ret d1 -> read mid e = Ret d2 ->
  overlapping c mid (min_event_interval p + marginal_window p) t1 o d1 d2 (batch_threshold c p d1) (batch_threshold c p d2) ->
  trigger_batch c p read reg w1 s mid = Ret (w1', es1) ->
  trigger_batch c p read reg w2 mid e = Ret (w2', es2) ->
  forall e1 e2, In e1 es1 -> In e2 es2 -> later_by (min_event_interval p + marginal_window p) e1 e2.
Proof.
  intros c p read reg w1 w2 s mid e w1' w2' es1 es2 d1 d2 t1 o Hd Hm R1 R2 OV B1 B2 e1 e2 H1 H2.
  destruct (batch_events_accepted _ _ _ _ _ _ _ _ _ e1 B1 H1) as [[_ A1] _].
  destruct (batch_events_accepted _ _ _ _ _ _ _ _ _ e2 B2 H2) as [[A2 _] _]. cbn [fst snd] in *.
  rewrite Hm in A1. cbn [Z.eqb] in A1.
  destruct (trigger_batch_inv _ _ _ _ _ _ _ _ _ B1) as (x1 & cs1 & r1 & E1 & I1 & F1 & -> & _).
  destruct (trigger_batch_inv _ _ _ _ _ _ _ _ _ B2) as (x2 & cs2 & r2 & E2 & I2 & F2 & -> & _).
  rewrite R1 in E1. rewrite R2 in E2. injection E1 as <-. injection E2 as <-.
  apply filter_events_in in H1 as (H1 & _). apply filter_events_in in H2 as (H2 & _).
  unfold later_by.
  apply (batches_apart c p mid t1 o d1 d2 (batch_threshold c p d1) (batch_threshold c p d2) cs1 cs2 r1 r2); try assumption;
    [apply batch_threshold_length..|lia].
Qed.
Print Assumptions C36_no_event_reported_twice.

(** C36 for a static threshold: it is enough that both batches read parts of one series. *)
Theorem C36_static_threshold_one_series :
  forall (c : clock) (p : params) read reg w1 w2 s mid e w1' w2' es1 es2 D t1 (n1 o : nat),
  0 < delta c -> mid mod (86400 * sec c) = 0 -> threshold_method p = Static -> sampled c t1 D ->
  (o <= n1 <= List.length D)%nat ->
  read s mid = Ret (firstn n1 D) -> read mid e = Ret (skipn o D) ->
  (let gap := min_event_interval p + marginal_window p in
   (forall i, 0 <= i < Z.of_nat n1 -> mid - gap <= t1 + i * delta c -> Z.of_nat o <= i) /\
   (forall i, 0 <= i < Z.of_nat (List.length D) -> t1 + i * delta c <= mid + gap -> i < Z.of_nat n1)) ->
  trigger_batch c p read reg w1 s mid = Ret (w1', es1) ->
  trigger_batch c p read reg w2 mid e = Ret (w2', es2) ->
  forall e1 e2, In e1 es1 -> In e2 es2 -> later_by (min_event_interval p + marginal_window p) e1 e2.
Proof.
  intros c p read reg w1 w2 s mid e w1' w2' es1 es2 D t1 n1 o Hd Hm Hst Hs Hn R1 R2 [G1 G2] B1 B2.
  assert (L1 : List.length (firstn n1 D) = n1) by (rewrite firstn_length; lia).
  assert (L2 : List.length (skipn o D) = (List.length D - o)%nat) by apply skipn_length.
  assert (Q1 : forall i, 0 <= i < Z.of_nat n1 -> rd (firstn n1 D) i = rd D i).
  { intros i Hi. unfold rd. destruct (Z.ltb_spec i 0); [reflexivity|]. apply nth_error_firstn_lt. lia. }
  assert (Q2 : forall j, 0 <= j -> rd (skipn o D) j = rd D (j + Z.of_nat o)).
  { intros j Hj. unfold rd. destruct (Z.ltb_spec j 0); [lia|]. destruct (Z.ltb_spec (j + Z.of_nat o) 0); [lia|].
    rewrite nth_error_skipn_. f_equal. lia. }
  eapply (C36_no_event_reported_twice c p read reg w1 w2 s mid e w1' w2' es1 es2 (firstn n1 D) (skipn o D) t1 (Z.of_nat o)); try eassumption.
  constructor.
  - lia.
  - rewrite L1, L2. lia.
  - intros i r H. pose proof (rd_bounds _ _ _ _ H) as B. rewrite L1 in B. rewrite Q1 in H by lia. apply Hs, H.
  - intros j r H. pose proof (rd_bounds _ _ _ _ H) as B. rewrite Q2 in H by lia. rewrite (Hs _ _ H). lia.
  - intros j H0 H1. rewrite L1 in H1. rewrite Q2, Q1 by lia. reflexivity.
  - intros j H0 H1. rewrite L1 in H1. unfold batch_threshold. rewrite !threshold_at by (rewrite map_length; lia).
    rewrite Hst. reflexivity.
  - rewrite L1. intros i Hi. apply G1, Hi.
  - rewrite L2, L1. intros j Hj Ht. apply G2; lia.
Qed.
Print Assumptions C36_static_threshold_one_series.

(** Dynamic thresholds are computed in chunks counted from the start of each batch's padded
    data, so they differ between batches; then two events closer than the interval can be
    reported, although both batches read the same series. *)
Theorem C36_dynamic_thresholds_differ_refuted :
  exists (c : clock) (p : params) D (n1 o : nat) s mid e w1' w2' es1 es2 e1 e2,
  threshold_method p = MedianRatio /\ sampled c (mid - 4) D /\ mid mod (86400 * sec c) = 0 /\
  let w := {| tfiles := fun _ => None; output_cols := OUTPUT_COLS |} in
  trigger_batch c p (fun _ _ => Ret (firstn n1 D)) None w s mid = Ret (w1', es1) /\
  trigger_batch c p (fun _ _ => Ret (skipn o D)) None w mid e = Ret (w2', es2) /\
  In e1 es1 /\ In e2 es2 /\
  ~ later_by (min_event_interval p + marginal_window p) e1 e2.
Proof.
  exists hz1, (settings MedianRatio 0 (12 # 10) 2 false), (series 86396 [10; 10; 10; 20; 25; 24; 10; 10; 10; 10]%Q),
    10%nat, 1%nat, 0, 86400, 172800. do 6 eexists.
  split; [reflexivity|]. split; [apply series_sampled|]. split; [reflexivity|]. cbv zeta.
  split; [vm_compute; reflexivity|]. split; [vm_compute; reflexivity|].
  split; [left; reflexivity|]. split; [left; reflexivity|]. vm_compute. intros H. discriminate H.
Qed.
Print Assumptions C36_dynamic_thresholds_differ_refuted.

Example C36_applies :
  let p := settings Static 5 0 1 false in
  let D := series 86390 [1; 1; 1; 1; 1; 6; 1; 1; 8; 1; 7; 1; 1; 1; 6; 1; 1; 1; 1; 1]%Q in
  let read s e := if s =? 0 then Ret (firstn 16 D) else Ret (skipn 4 D) in
  let w := {| tfiles := fun _ => None; output_cols := OUTPUT_COLS |} in
  match trigger_batch hz1 p read None w 0 86400, trigger_batch hz1 p read None w 86400 172800 with
  | Ret (_, es1), Ret (_, es2) => map (fun e => CoaTime (cand e)) es1 = [86398] /\ map (fun e => CoaTime (cand e)) es2 = [86404]
  | _, _ => False end.
Proof. vm_compute. auto. Qed.

(** C37. read_triggered_events returns the rows of the daily files from the date of the start to
    that of the end, each file once and in order, that lie in the period (without its end when
    that is midnight); it raises an exception exactly when none of these files exists. *)
Theorem C37_reads_exactly_the_stored_events :
  forall (c : clock) (w : world) (s e : Z), 0 < sec c ->
  let D := 86400 * sec c in
  let days := zseq (s / D) (Z.to_nat (e / D - s / D + 1)) in
  let within t := s <= t <= e /\ (e mod D = 0 -> t < e) in
  match read_triggered_events c w s e with
  | Ret es => (exists keep, es = filter keep (flat_map (fun d => match tfiles w d with Some f => snd f | None => [] end) days)) /\
      (forall x, In x es <-> within (CoaTime (cand x)) /\
         exists d cols rows, s / D <= d <= e / D /\ tfiles w d = Some (cols, rows) /\ In x rows) /\
      exists d, s / D <= d <= e / D /\ tfiles w d <> None
  | Raise x => x = NoTriggerFilesFound /\ forall d, s / D <= d <= e / D -> tfiles w d = None
  | Undef => False
  end.
Proof.
  intros c w s e Hs D days within. unfold read_triggered_events. change (day c) with D. cbv zeta. fold days.
  set (get := fun d => match tfiles w d with Some f => [snd f] | None => [] end).
  set (rows := fun d => match tfiles w d with Some f => snd f | None => [] end).
  assert (Eq : List.concat (flat_map get days) = flat_map rows days).
  { clearbody days. induction days as [|d l IH]; [reflexivity|]. cbn [flat_map]. rewrite concat_app, IH. f_equal.
    unfold get, rows. destruct (tfiles w d) as [f|]; [cbn; apply app_nil_r|reflexivity]. }
  assert (Days : forall d, In d days <-> s / D <= d <= e / D) by (intros d; unfold days; rewrite in_zseq; lia).
  assert (Mem : forall x, In x (flat_map rows days) <->
     exists d cols rs, s / D <= d <= e / D /\ tfiles w d = Some (cols, rs) /\ In x rs).
  { intros x. rewrite in_flat_map. split.
    - intros (d & Hd & Hx). unfold rows in Hx. destruct (tfiles w d) as [[cols rs]|] eqn:E; [|contradiction].
      exists d, cols, rs. rewrite <- Days. auto.
    - intros (d & cols & rs & Hd & E & Hx). exists d. rewrite Days. split; [exact Hd|]. unfold rows. rewrite E. exact Hx. }
  destruct (flat_map get days) as [|f fs] eqn:Ef.
  - split; [reflexivity|]. intros d Hd. apply Days in Hd. destruct (tfiles w d) as [f|] eqn:E; [|reflexivity]. exfalso.
    assert (In (snd f) (flat_map get days)) by (apply in_flat_map; exists d; split; [exact Hd|unfold get; rewrite E; left; reflexivity]).
    rewrite Ef in H. contradiction.
  - rewrite Eq. split; [|split].
    + destruct (e mod D =? 0); eexists; reflexivity.
    + intros x. rewrite <- Mem. unfold within. destruct (Z.eqb_spec (e mod D) 0) as [M|M];
        rewrite filter_In, andb_true_iff, ?Z.leb_le, ?Z.ltb_lt; intuition lia.
    + assert (In f (flat_map get days)) by (rewrite Ef; left; reflexivity).
      apply in_flat_map in H as (d & Hd & Hf). exists d. rewrite <- Days. split; [exact Hd|].
      unfold get in Hf. destruct (tfiles w d); [discriminate|contradiction].
Qed.
Print Assumptions C37_reads_exactly_the_stored_events.

Example C37_applies :
  let mk t := {| EventID := []; cand := {| EventNum := 0; CoaTime := t; TRIG_COA := 1; COA_X := 0; COA_Y := 0; COA_Z := 0;
                 MinTime := 0; MaxTime := 0; CCOA := 1; COA_NORM := 1 |} |} in
  let w := {| tfiles := fun d => if d =? 0 then Some (OUTPUT_COLS, [mk 100; mk 50000]) else
                                 if d =? 1 then Some (OUTPUT_COLS, [mk 90000]) else
                                 if d =? 2 then Some (OUTPUT_COLS, [mk 172800]) else None; output_cols := OUTPUT_COLS |} in
  read_triggered_events hz1 w 1000 172800 = Ret [mk 50000; mk 90000].
Proof. vm_compute. reflexivity. Qed.

(** C56. After a run over days without trigger files, reading the triggered events of the
    period gives exactly the events of the run, in order. *)
Theorem C56_locate_reads_the_triggered_events_partial :
  forall (c : clock) (p : params) read reg fuel s e l w w' ess, 0 < sec c -> 0 < delta c ->
  batches fuel c s e = Some l -> run_batches c p read reg w l = Ret (w', ess) ->
  (forall d, s / (86400 * sec c) <= d <= e / (86400 * sec c) -> tfiles w d = None) ->
  match read_triggered_events c w' s e with
  | Ret es => es = List.concat ess
  | Raise x => x = NoTriggerFilesFound /\ List.concat ess = []
  | Undef => False
  end.
Proof.
  intros c p read reg fuel s e l w w' ess Hs Hd Hb E Hn. apply batches_batched in Hb.
  eapply read_back_run; try eassumption. unfold day; lia.
Qed.
Print Assumptions C56_locate_reads_the_triggered_events_partial.

(** C56 fails when two runs cover parts of the same day: the file is named after the date only,
    and the second run replaces the events of the first. *)
Theorem C56_same_day_overwritten_refuted :
  exists (c : clock) (p : params) read w1 w2 es1 es2 es x,
  trigger_batch c p read None {| tfiles := fun _ => None; output_cols := OUTPUT_COLS |} 0 1000 = Ret (w1, es1) /\
  trigger_batch c p read None w1 1000 2000 = Ret (w2, es2) /\
  read_triggered_events c w2 0 2000 = Ret es /\
  In x es1 /\ ~ In (CoaTime (cand x)) (map (fun e => CoaTime (cand e)) es).
Proof.
  exists hz1, (settings Static 5 0 1 false), (fun s e => Ret (series (s + 100) [1; 5; 1]%Q)). do 6 eexists.
  split; [vm_compute; reflexivity|]. split; [vm_compute; reflexivity|]. split; [vm_compute; reflexivity|].
  split; [left; reflexivity|]. cbn. lia.
Qed.
Print Assumptions C56_same_day_overwritten_refuted.

Example C56_applies :
  let p := settings Static 5 0 1 false in
  match batches 5 hz1 0 200000 with
  | Some l =>
      match run_batches hz1 p (fun s e => if s =? 86400 then Ret (series s [1; 2; 1]%Q) else Ret (series s [1; 5; 1; 1; 1; 1; 6]%Q)) None
              {| tfiles := fun _ => None; output_cols := OUTPUT_COLS |} l with
      | Ret (w', ess) =>
          match read_triggered_events hz1 w' 0 200000 with
          | Ret es => map (fun e => CoaTime (cand e)) es = [1; 6; 172801; 172806]
          | _ => False end
      | _ => False end
  | None => False end.
Proof. vm_compute. reflexivity. Qed.

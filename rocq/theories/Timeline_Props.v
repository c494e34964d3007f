(** Properties C16-C21 of the time axis, and the parts of C03 and C12 that follow from the
    pads of a scan.  Proofs in Timeline_Proofs.v, vocabulary in Timeline_Spec.v. *)
From Coq Require Import List ZArith Reals Lra Lia Bool.
From Verif Require Import Lib LibFacts PySlice Migrate_Spec StaLta_Proofs Timeline_Model Timeline_Spec Timeline_Proofs Float_Model.
Import ListNotations.
Open Scope Z_scope.

(** Ticks of 10 microseconds; 50 Hz. *)
Definition hz50 : clock := {| sec := 100000; delta := 2000 |}.
Example hz50_ok : clock_ok hz50 /\ integer_rate hz50 /\ whole_ms hz50.
Proof. repeat split; cbn; try lia; [exists 1|exists 50|exists 20]; reflexivity. Qed.

(** C16. Whatever data each timestep finds, the samples appended by all timesteps of a
    detect() run are consecutive samples from the start time: no gap, no overlap, no
    duplicate, in order. [pre0] and [post0] are the onset's pads. *)
Theorem C16_scan_is_contiguous_partial :
  forall c starttime endtime timestep pre0 post0 pre post data,
  clock_ok c -> integer_rate c -> whole_ms c -> 0 < timestep -> (delta c | timestep) ->
  0 <= pre0 -> 0 <= post0 -> onset_pad c timestep pre0 post0 = (pre, post) ->
  detect_times c starttime endtime timestep pre post data
  = times_from c starttime (timestep / delta c * Z.max 0 (n_steps c starttime endtime timestep)).
Proof.
  intros c starttime endtime timestep pre0 post0 pre post data Hc Hr Hm Hts Hd Hp Hq E.
  apply (detect_times_ok c Hc timestep pre0 post0); try assumption. lia.
Qed.
Print Assumptions C16_scan_is_contiguous_partial.

(** C16, coverage: every sample of [starttime, endtime) is scanned exactly once and nothing a
    timestep or more after the end is. Missing: the case excluded by the last hypothesis. *)
Theorem C16_covers_period_partial :
  forall c starttime endtime timestep pre0 post0 pre post data,
  clock_ok c -> integer_rate c -> whole_ms c -> 0 < timestep -> (delta c | timestep) ->
  0 <= pre0 -> 0 <= post0 -> onset_pad c timestep pre0 post0 = (pre, post) ->
  ~ (endtime mod (86400 * sec c) = 0 /\ exists j, endtime - delta c <= starttime + j * timestep < endtime) ->
  (forall k, 0 <= k -> starttime + k * delta c < endtime ->
     count_occ Z.eq_dec (detect_times c starttime endtime timestep pre post data) (starttime + k * delta c) = 1%nat)
  /\ (forall t, In t (detect_times c starttime endtime timestep pre post data) ->
       starttime <= t < endtime + timestep).
Proof.
  intros c starttime endtime timestep pre0 post0 pre post data Hc Hr Hm Hts Hd Hp Hq E Hedge.
  rewrite (C16_scan_is_contiguous_partial c starttime endtime timestep pre0 post0) by assumption.
  pose proof (delta_pos c Hc) as HD. destruct Hd as [m Em].
  assert (Hmq : timestep / delta c = m) by (rewrite Em; apply Z.div_mul; lia). rewrite Hmq.
  assert (HN : n_steps c starttime endtime timestep = cdiv (detect_endtime c endtime - starttime) timestep) by reflexivity.
  pose proof (cdiv_spec (detect_endtime c endtime - starttime) timestep Hts) as Hcd. rewrite <- HN in Hcd.
  set (N := n_steps c starttime endtime timestep) in *.
  assert (Hend : (detect_endtime c endtime = endtime) \/
                 (detect_endtime c endtime = endtime - delta c /\ ~ exists j, endtime - delta c <= starttime + j * timestep < endtime)).
  { unfold detect_endtime, day in *. destruct (Z.eqb_spec (endtime mod (86400 * sec c)) 0) as [H0|H0]; [right|left; reflexivity].
    split; [reflexivity|]. intros H. apply Hedge. split; assumption. }
  split.
  - intros k Hk Hlt. apply NoDup_count_occ'; [apply times_from_nodup, Hc|].
    apply in_times_from. exists k. split; [|reflexivity]. split; [exact Hk|].
    assert (Hlt' : k * delta c < N * timestep).
    { destruct Hend as [He|[He Hn]]; rewrite He in Hcd; [lia|].
      destruct (Z.lt_ge_cases (N * timestep) (endtime - starttime)) as [Hx|Hx]; [|lia].
      exfalso. apply Hn. exists N. lia. }
    rewrite Em in Hlt'. assert (k < m * N) by nia. nia.
  - intros t Ht. apply in_times_from in Ht. destruct Ht as (k & Hk & ->). split; [nia|].
    assert (Hbound : (m * Z.max 0 N) * delta c < endtime - starttime + timestep \/ Z.max 0 N = 0).
    { destruct (Z.le_gt_cases N 0) as [|HNp]; [right; lia|left]. rewrite Z.max_r by lia.
      destruct Hend as [He|[He _]]; rewrite He in Hcd; rewrite Em in *; nia. }
    destruct Hbound as [Hb|Hb]; [|rewrite Hb in Hk; lia]. nia.
Qed.
Print Assumptions C16_covers_period_partial.

(** A run of 1000 s from 00:10 in timesteps of 120 s at 50 Hz. *)
Example C16_applies : let c := hz50 in
  onset_pad c 12000000 160000 1200000 = (1060000, 2100000) /\
  ~ (160000000 mod (86400 * sec c) = 0 /\ exists j, 160000000 - delta c <= 60000000 + j * 12000000 < 160000000) /\
  n_steps c 60000000 160000000 12000000 = 9.
Proof.
  cbn zeta. split; [vm_compute; reflexivity|]. split; [|vm_compute; reflexivity].
  intros [H _]. vm_compute in H. discriminate.
Qed.

(** C16 fails when the end is midnight and the run is one sample longer than a whole number of
    timesteps: start 23:57:59.98, end 24:00:00, timestep 120 s at 50 Hz. The last sample of the
    day is not scanned although its day was requested. *)
Theorem C16_last_sample_before_midnight_refuted :
  exists c starttime endtime timestep pre post k,
  clock_ok c /\ integer_rate c /\ whole_ms c /\ 0 < timestep /\ (delta c | timestep) /\
  onset_pad c timestep 160000 1200000 = (pre, post) /\
  0 <= k /\ starttime + k * delta c < endtime /\
  forall data, ~ In (starttime + k * delta c) (detect_times c starttime endtime timestep pre post data).
Proof.
  exists hz50, (8640000000 - 12002000), 8640000000, 12000000, 1060000, 2100000, 6000.
  destruct hz50_ok as (H1 & H2 & H3).
  split; [assumption|]. split; [assumption|]. split; [assumption|]. split; [lia|].
  split; [exists 6000; reflexivity|]. split; [vm_compute; reflexivity|]. split; [lia|]. split; [cbn [hz50 delta]; lia|].
  intros data. rewrite (C16_scan_is_contiguous_partial hz50 _ _ 12000000 160000 1200000);
    [|assumption|assumption|assumption|lia|exists 6000; reflexivity|lia|lia|vm_compute; reflexivity].
  rewrite in_times_from. intros (k & Hk & E).
  assert (Ek : 12000000 / delta hz50 * Z.max 0 (n_steps hz50 (8640000000 - 12002000) 8640000000 12000000) = 6000)
    by (vm_compute; reflexivity). rewrite Ek in Hk. cbn [hz50 delta] in E. lia.
Qed.
Print Assumptions C16_last_sample_before_midnight_refuted.

(** C17. For every rate dividing 1000 Hz and every timestep of whole samples, every timestep
    appends exactly timestep*rate samples starting at its nominal time, whatever data it finds
    (complete, late, early, gappy or none) and whatever the start time. *)
Theorem C17_step_appends_timestep_samples_partial :
  forall c starttime timestep pre0 post0 pre post i t,
  clock_ok c -> integer_rate c -> whole_ms c -> 0 < timestep -> (delta c | timestep) ->
  0 <= pre0 -> 0 <= post0 -> onset_pad c timestep pre0 post0 = (pre, post) ->
  block_times c (detect_step c starttime timestep pre post i t)
  = times_from c (starttime + timestep * i) (timestep / delta c).
Proof.
  intros c starttime timestep pre0 post0 pre post i t Hc Hr Hm Hts Hd Hp Hq E.
  rewrite (detect_step_ok c Hc timestep pre0 post0) by (assumption || lia). reflexivity.
Qed.
Print Assumptions C17_step_appends_timestep_samples_partial.

(** C17: with complete on-sample data and an on-sample start, every timestep does migrate
    data. *)
Theorem C17_complete_data_is_used_partial :
  forall c starttime timestep pre0 post0 pre post i t,
  clock_ok c -> integer_rate c -> whole_ms c -> 0 < timestep -> (delta c | timestep) ->
  0 <= pre0 -> 0 <= post0 -> onset_pad c timestep pre0 post0 = (pre, post) ->
  on_sample c starttime ->
  complete c t (starttime + timestep * i - pre) (starttime + timestep * (i + 1) - delta c + post) ->
  detect_step_has_data c starttime timestep pre post i t = true.
Proof.
  intros c starttime timestep pre0 post0 pre post i t Hc Hr Hm Hts Hd Hp Hq E Hon Hcomp.
  destruct (onset_pad_whole c Hc _ _ _ _ _ Hm (Z.lt_le_incl _ _ Hts) Hp Hq E) as (Da & Db & Ha & Hb).
  pose proof (delta_pos c Hc) as HD.
  unfold detect_step_has_data. cbv zeta. rewrite (window_samples_complete c Hc); try assumption.
  - reflexivity.
  - rewrite detect_step_window_len. repeat apply Z.divide_add_r; try assumption. apply Z.divide_opp_r, Z.divide_refl.
  - cbn [step_window fst]. apply Z.divide_sub_r; [|assumption]. apply Z.divide_add_r; [assumption|].
    apply Z.divide_mul_l. assumption.
  - cbn [step_window fst snd]. pose proof (Z.divide_pos_le _ _ Hts Hd). lia.
Qed.
Print Assumptions C17_complete_data_is_used_partial.

Example C17_applies : let c := hz50 in
  complete c {| phase := 0; k0 := -1000; k1 := 100000 |} (60000000 - 1060000) (60000000 + 12000000 - 2000 + 2100000)
  /\ detect_step_has_data c 60000000 12000000 1060000 2100000 0 {| phase := 0; k0 := -1000; k1 := 100000 |} = true
  /\ detect_step c 60000000 12000000 1060000 2100000 0 {| phase := 0; k0 := -1000; k1 := 100000 |} = (60000000, 6000).
Proof.
  repeat split; try (cbn; lia); try (vm_compute; reflexivity). exists 0. reflexivity.
Qed.

(** C17, finding: if the start time is off-sample by more than 10 microseconds, no timestep
    uses any data, however complete the (on-sample) archive is: the whole scan is zeros. *)
Theorem C17_off_sample_start_scans_nothing_refuted :
  forall c starttime timestep pre0 post0 pre post i t,
  clock_ok c -> integer_rate c -> whole_ms c -> 0 < timestep -> (delta c | timestep) ->
  0 <= pre0 -> 0 <= post0 -> onset_pad c timestep pre0 post0 = (pre, post) ->
  on_sample c (phase t) -> sec c / 100000 < starttime mod delta c < delta c - sec c / 100000 ->
  detect_step_has_data c starttime timestep pre post i t = false.
Proof.
  intros c starttime timestep pre0 post0 pre post i t Hc Hr Hm Hts Hd Hp Hq E Hon Hoff.
  destruct (onset_pad_whole c Hc _ _ _ _ _ Hm (Z.lt_le_incl _ _ Hts) Hp Hq E) as (Da & Db & Ha & Hb).
  pose proof (delta_pos c Hc) as HD.
  unfold detect_step_has_data. cbv zeta. rewrite (window_samples_off_sample c Hc); try assumption.
  - reflexivity.
  - rewrite detect_step_window_len. repeat apply Z.divide_add_r; try assumption. apply Z.divide_opp_r, Z.divide_refl.
  - cbn [step_window fst]. destruct Hd as [k ->], Da as [a ->].
    replace (starttime + k * delta c * i - a * delta c) with (starttime + (k * i - a) * delta c) by ring.
    rewrite Z.mod_add by lia. exact Hoff.
Qed.
Print Assumptions C17_off_sample_start_scans_nothing_refuted.

(** 10:00:00.01 at 50 Hz. *)
Example C17_off_sample_applies : let c := hz50 in
  sec c / 100000 < 3600001000 mod delta c < delta c - sec c / 100000.
Proof. vm_compute. split; reflexivity. Qed.

(** C17, finding: at 64 Hz (not a divisor of 1000) the pad 1.6 s is truncated to whole
    milliseconds, 1.609 s instead of 103/64 s, so the window start is off-sample and complete
    data are rejected in every timestep. *)
Definition hz64 : clock := {| sec := 6400000; delta := 100000 |}.
Theorem C17_rate_not_dividing_1000_refuted :
  exists c timestep pre post t, clock_ok c /\ integer_rate c /\ (delta c | timestep) /\
  onset_pad c timestep (sec c * 16 / 10) (12 * sec c) = (pre, post) /\
  complete c t (0 - pre) (timestep - delta c + post) /\
  detect_step_has_data c 0 timestep pre post 0 t = false.
Proof.
  exists hz64, (120 * 6400000), 67897600, 134400000, {| phase := 0; k0 := -1000; k1 := 100000 |}.
  split; [repeat split; cbn; try lia; exists 64; reflexivity|].
  split; [exists 64; reflexivity|]. split; [exists 7680; reflexivity|].
  split; [vm_compute; reflexivity|]. split; [|vm_compute; reflexivity].
  split; [exists 0; reflexivity|]. split; cbn; lia.
Qed.
Print Assumptions C17_rate_not_dividing_1000_refuted.

(** C17, locate: the coalescence computed around a triggered event has one sample for each of
    the times assigned to it, namely 4*marginal_window*rate + 1. *)
Theorem C17_locate_times_match_samples_partial :
  forall c trigger mw pre0 post0 pre post t n,
  clock_ok c -> integer_rate c -> whole_ms c -> 0 <= mw -> (delta c | 4 * mw) ->
  0 <= pre0 -> 0 <= post0 -> onset_pad c (4 * mw) pre0 post0 = (pre, post) ->
  locate_samples c trigger mw pre post t = Some n ->
  mw_times c trigger mw = times_from c (trigger - 2 * mw) n /\ n * delta c = 4 * mw + delta c.
Proof.
  intros c trigger mw pre0 post0 pre post t n Hc Hr Hm Hmw Hd Hp Hq E W.
  destruct (onset_pad_whole c Hc (4 * mw) pre0 post0 pre post Hm ltac:(lia) Hp Hq E) as (Da & Db & Ha & Hb).
  pose proof (delta_pos c Hc) as HD. unfold locate_samples in W. cbv zeta in W. cbn [locate_window fst snd] in W.
  assert (Ew : trigger + 2 * mw + post - (trigger - 2 * mw - pre) = 4 * mw + pre + post) by ring.
  apply (window_samples_len c Hc) in W; try assumption.
  - rewrite Ew in W. destruct Hd as [k Ek], Da as [a ->], Db as [b ->]. rewrite Ek in W.
    replace (k * delta c + a * delta c + b * delta c) with ((k + a + b) * delta c) in W by ring.
    rewrite !Z.div_mul in W by lia. unfold mw_times, times_from. rewrite Ek, Z.div_mul by lia.
    subst n. replace (k + a + b + 1 - a - b) with (k + 1) by ring. split; [reflexivity|ring].
  - rewrite Ew. repeat apply Z.divide_add_r; assumption.
Qed.
Print Assumptions C17_locate_times_match_samples_partial.

(** Locate also uses complete data when the trigger time and the marginal window are whole
    samples. *)
Theorem C17_locate_uses_complete_data_partial :
  forall c trigger mw pre0 post0 pre post t,
  clock_ok c -> integer_rate c -> whole_ms c -> 0 <= mw -> (delta c | 2 * mw) -> on_sample c trigger ->
  0 <= pre0 -> 0 <= post0 -> onset_pad c (4 * mw) pre0 post0 = (pre, post) ->
  complete c t (trigger - 2 * mw - pre) (trigger + 2 * mw + post) ->
  exists n, locate_samples c trigger mw pre post t = Some n.
Proof.
  intros c trigger mw pre0 post0 pre post t Hc Hr Hm Hmw Hd Hon Hp Hq E Hcomp.
  destruct (onset_pad_whole c Hc (4 * mw) pre0 post0 pre post Hm ltac:(lia) Hp Hq E) as (Da & Db & Ha & Hb).
  pose proof (delta_pos c Hc) as HD. unfold locate_samples. cbv zeta. cbn [locate_window fst snd].
  rewrite (window_samples_complete c Hc); try assumption; [eexists; reflexivity| | |lia].
  - replace (trigger + 2 * mw + post - (trigger - 2 * mw - pre)) with (2 * mw + 2 * mw + pre + post) by ring.
    repeat apply Z.divide_add_r; assumption.
  - apply Z.divide_sub_r; [|assumption]. apply Z.divide_sub_r; assumption.
Qed.
Print Assumptions C17_locate_uses_complete_data_partial.

Example C17_locate_applies : let c := hz50 in
  onset_pad c (4 * 100000) 160000 1200000 = (360000, 1400000) /\
  locate_samples c 360000000 100000 360000 1400000 {| phase := 0; k0 := 0; k1 := 400000 |} = Some 201.
Proof. split; vm_compute; reflexivity. Qed.

(** C18, onsets. Every waveform sample inside the short- or long-term window of an onset value
    that is read by the migration of a window is beyond the 5% taper at both ends. [m] is the
    number of coalescence samples of the window (detect: m*delta = timespan = timestep; locate:
    m*delta = 4*marginal_window + delta, timespan = 4*marginal_window), [s] one of them, [tt] a
    traveltime, [t'] the trace as trimmed to the window. *)
Theorem C18_taper_clear_of_onsets :
  forall c windows sta lta ttmax timespan m pre post w_beg w_end t t' s tt i,
  clock_ok c -> integer_rate c -> 3 * delta c <= sec c ->
  In (sta, lta) windows -> Forall (fun w => 0 <= fst w /\ 0 <= snd w) windows ->
  Forall (fun w => (sec c / 1000 | fst w) /\ (sec c / 1000 | snd w)) windows (* whole ms *) ->
  0 < sta -> 3 * delta c < 2 * (2 * lta - sta) -> 0 <= ttmax -> 0 < timespan -> 0 < m -> m * delta c <= timespan + delta c ->
  onset_pad c timespan (stalta_pre_pad windows) (stalta_post_pad c windows ttmax) = (pre, post) ->
  w_end - w_beg = m * delta c - delta c + pre + post ->
  trim_window c w_beg w_end t = Some t' -> full_timespan_ok c w_beg w_end (npts t') = true ->
  0 <= s < m -> 0 <= tt <= ttmax ->
  let j := time2sample c pre + s + tt_samples c tt in
  j - ltw_samples c lta + 1 <= i <= j + stw_samples c sta ->
  taper_samples (npts t') <= i < npts t' - taper_samples (npts t').
Proof.
  intros c windows sta lta ttmax timespan m pre post w_beg w_end t t' s tt i Hc.
  exact (taper_clear c Hc windows sta lta ttmax timespan m pre post w_beg w_end t t' s tt i).
Qed.
Print Assumptions C18_taper_clear_of_onsets.

(** C18, amplitudes: every sample from the earliest noise window to the end of the latest
    signal window (relative to the origin time) is beyond the taper. *)
Theorem C18_taper_clear_of_amplitudes :
  forall c noise signal mw ttx pre post otime d f n k,
  clock_ok c -> 0 < d -> 3 * d <= sec c -> 0 < noise + mw + (signal + ttx + mw) ->
  amp_pad c noise signal mw ttx = (pre, post) ->
  2 * Z.abs (f - (otime - pre)) <= d -> 2 * Z.abs (f + (n - 1) * d - (otime + post)) <= d -> 0 <= n ->
  otime - (noise + mw) <= f + k * d <= otime + (signal + ttx + mw) ->
  taper_samples n <= k < n - taper_samples n.
Proof. intros c noise signal mw ttx pre post otime d f n k Hc. exact (amp_taper_clear c Hc noise signal mw ttx pre post otime d f n k). Qed.
Print Assumptions C18_taper_clear_of_amplitudes.

Example C18_applies : let c := hz50 in
  onset_pad c 12000000 (stalta_pre_pad [(20000, 100000); (20000, 100000)])
    (stalta_post_pad c [(20000, 100000); (20000, 100000)] 950000) = (1060000, 2100000)
  /\ (exists t', trim_window c (60000000 - 1060000) (60000000 + 12000000 - 2000 + 2100000)
        {| phase := 0; k0 := -1000; k1 := 100000 |} = Some t'
      /\ full_timespan_ok c (60000000 - 1060000) (60000000 + 12000000 - 2000 + 2100000) (npts t') = true
      /\ npts t' = 7580 /\ taper_samples (npts t') = 379 /\ time2sample c 1060000 = 530)
  /\ amp_pad c 500000 500000 100000 1045000 = (800000, 1845000).
Proof.
  cbv zeta. split; [vm_compute; reflexivity|]. split; [|vm_compute; reflexivity].
  eexists. split; [vm_compute; reflexivity|]. repeat split; vm_compute; reflexivity.
Qed.

(** C03, the part about scans: with the pads that a scan computes from its lookup table, every
    traveltime (rounded to samples) is between 0 and the number of trailing pad samples - the
    hypothesis under which C03_reads_stay_in_station_row holds. *)
Theorem C03_scan_pads_cover_traveltimes :
  forall c windows timestep ttmax pre post tt,
  clock_ok c -> integer_rate c \/ 20 * delta c <= sec c -> Forall (fun w => 0 <= fst w /\ 0 <= snd w) windows ->
  0 < timestep -> 0 <= tt <= ttmax ->
  onset_pad c timestep (stalta_pre_pad windows) (stalta_post_pad c windows ttmax) = (pre, post) ->
  0 <= tt_samples c tt <= time2sample c post.
Proof. intros c windows timestep ttmax pre post tt Hc. exact (pad_covers_traveltime c Hc windows timestep ttmax pre post tt). Qed.
Print Assumptions C03_scan_pads_cover_traveltimes.

(** C12, the part about scans: the data of a scan window are at least as long as the long- and
    short-term windows together, as C12_centred_safe_iff and C12_overlapping_safe_iff require. *)
Theorem C12_scan_data_long_enough :
  forall c windows sta lta timestep ttmax pre post w_beg w_end t t',
  clock_ok c -> 3 * delta c <= sec c ->
  In (sta, lta) windows -> Forall (fun w => 0 <= fst w /\ 0 <= snd w) windows ->
  0 < timestep -> 0 <= ttmax ->
  onset_pad c timestep (stalta_pre_pad windows) (stalta_post_pad c windows ttmax) = (pre, post) ->
  w_end - w_beg = timestep - delta c + pre + post ->
  trim_window c w_beg w_end t = Some t' -> full_timespan_ok c w_beg w_end (npts t') = true ->
  ltw_samples c lta + stw_samples c sta <= npts t'.
Proof.
  intros c windows sta lta timestep ttmax pre post w_beg w_end t t' Hc.
  exact (pad_covers_windows c Hc windows sta lta timestep ttmax pre post w_beg w_end t t').
Qed.
Print Assumptions C12_scan_data_long_enough.

Example C03_C12_scan_applies : let c := hz50 in let w := [(20000, 100000); (20000, 100000)] in
  (integer_rate c \/ 20 * delta c <= sec c) /\ Forall (fun w => 0 <= fst w /\ 0 <= snd w) w
  /\ onset_pad c 12000000 (stalta_pre_pad w) (stalta_post_pad c w 950000) = (1060000, 2100000)
  /\ tt_samples c 950000 = 475 /\ time2sample c 2100000 = 1050
  /\ ltw_samples c 100000 + stw_samples c 20000 = 62.
Proof.
  cbv zeta. split; [right; vm_compute; discriminate|].
  split; [repeat constructor; discriminate|]. repeat split; vm_compute; reflexivity.
Qed.

(** C19. For rates dividing 1000 Hz, trim2sample gives the smallest whole number of samples not
    shorter than the time, and time2sample then recovers that number exactly. *)
Theorem C19_trim2sample_whole_samples_partial :
  forall c t, clock_ok c -> integer_rate c -> whole_ms c -> 0 <= t ->
  exists n, trim2sample c t = n * delta c /\ t <= n * delta c < t + delta c
    /\ time2sample c (trim2sample c t) = n.
Proof.
  intros c t Hc Hr Hm Ht. pose proof (delta_pos c Hc) as Hd. exists (cdiv t (delta c)).
  rewrite (trim2sample_whole c Hc t Hm Ht). split; [reflexivity|]. split; [apply cdiv_spec; exact Hd|].
  rewrite (time2sample_on c Hc _ Hr); [apply Z.div_mul; lia|apply Z.divide_factor_r].
Qed.
Print Assumptions C19_trim2sample_whole_samples_partial.

Example C19_applies : trim2sample hz50 155500 = 156000 /\ time2sample hz50 156000 = 78.
Proof. split; vm_compute; reflexivity. Qed.

(** C19 fails at rates that do not divide 1000: 0.0155 s at 64 Hz becomes 0.015 s, which is not
    a whole number of samples and shorter than the time given. *)
Theorem C19_rate_not_dividing_1000_refuted :
  exists c t, clock_ok c /\ integer_rate c /\ 0 <= t /\ ~ (delta c | trim2sample c t) /\ trim2sample c t < t.
Proof.
  exists hz64, 99200. split; [repeat split; cbn; try lia; exists 64; reflexivity|].
  split; [exists 64; reflexivity|]. split; [lia|].
  assert (E : trim2sample hz64 99200 = 96000) by (vm_compute; reflexivity). rewrite E.
  split; [|lia]. intros [k Hk]. cbn [hz64 delta] in Hk. lia.
Qed.
Print Assumptions C19_rate_not_dividing_1000_refuted.

(** C19 also fails at 50 Hz once the rounding of binary64 is taken into account:
    trim2sample(4.02, 50) is 4.019 s, i.e. 200.95 samples. *)
Theorem C19_binary64_refuted :
  f_trim2sample_ms (f_dec 402 100) (f_of_Z 50) = Some 4019
  /\ ~ exists n, 4019 * 50 = n * 1000.
Proof. split; [vm_compute; reflexivity|]. intros [n Hn]. lia. Qed.
Print Assumptions C19_binary64_refuted.

(** C20. For whole-number rates and time stamps of whole microseconds. *)
Theorem C20_shift_to_sample_partial :
  forall c start, clock_ok c -> integer_rate c -> (1000000 | sec c) -> (sec c / 1000000 | start) ->
  on_sample c (shift_to_sample c start) /\ 2 * Z.abs (shift_to_sample c start - start) <= delta c
  /\ (on_sample c start -> shift_to_sample c start = start).
Proof. intros c start Hc. exact (shift_to_sample_ok c Hc start). Qed.
Print Assumptions C20_shift_to_sample_partial.

(** C20, interpolate=True: same start time, and no sample is gained or lost. *)
Theorem C20_interpolation_keeps_length_partial :
  forall c start n, clock_ok c -> integer_rate c -> (1000000 | sec c) -> (sec c / 1000000 | start) ->
  shift_interpolate c start n = (shift_to_sample c start, n).
Proof. intros c start n Hc. exact (shift_interpolate_ok c Hc start n). Qed.
Print Assumptions C20_interpolation_keeps_length_partial.

Definition hz100us : clock := {| sec := 1000000; delta := 10000 |}.
Example C20_applies : clock_ok hz100us /\ shift_to_sample hz100us 36000006400 = 36000010000
  /\ shift_interpolate hz100us 36000006400 1000 = (36000010000, 1000)
  /\ shift_interpolate hz100us 36000004400 1000 = (36000000000, 1000).
Proof. split; [repeat split; cbn; try lia; exists 10; reflexivity|]. repeat split; vm_compute; reflexivity. Qed.

(** C20 fails at 62.5 Hz: one second after midnight is 62.5 samples, but the trace is left
    where it is. *)
Theorem C20_fractional_rate_refuted :
  exists c start, clock_ok c /\ (1000000 | sec c) /\ (sec c / 1000000 | start) /\
  ~ on_sample c (shift_to_sample c start).
Proof.
  exists {| sec := 1000000; delta := 16000 |}, 1000000.
  split; [repeat split; cbn; try lia; exists 10; reflexivity|].
  split; [exists 1; reflexivity|]. split; [exists 1000000; reflexivity|].
  assert (E : shift_to_sample {| sec := 1000000; delta := 16000 |} 1000000 = 1000000) by (vm_compute; reflexivity).
  rewrite E. intros [k Hk]. cbn [delta] in Hk. lia.
Qed.
Print Assumptions C20_fractional_rate_refuted.

(** C21. The upsampled array: between neighbours [f k], [f (k+1)] the straight line. *)
Theorem C21_upsample_is_linear :
  forall (f : Z -> R) n u, 1 <= n -> 1 <= u ->
  exists d, upsample_data (array1 n f) u = Some (array1 ((n - 1) * u + 1) d)
  /\ (forall k, d (k * u) = f k)
  /\ (forall k i, 0 <= i < u -> d (k * u + i) = line (f k) (f (k + 1)) i u).
Proof.
  intros f n u Hn Hu. exists (fun p => line (f (p / u)) (f (p / u + 1)) (p mod u) u).
  split; [apply upsample_data_ok; assumption|].
  assert (G : forall k i, 0 <= i < u ->
    line (f ((k * u + i) / u)) (f ((k * u + i) / u + 1)) ((k * u + i) mod u) u = line (f k) (f (k + 1)) i u).
  { intros k i Hi. assert (Hq : (k * u + i) / u = k) by (rewrite Z.div_add_l by lia; rewrite Z.div_small by lia; lia).
    assert (Hm : (k * u + i) mod u = i) by (rewrite Z.add_comm, Z.mod_add by lia; apply Z.mod_small; lia).
    rewrite Hq, Hm. reflexivity. }
  split; [|exact G]. intros k. replace (k * u) with (k * u + 0) by ring. rewrite G by lia.
  unfold line, Rdiv. ring.
Qed.
Print Assumptions C21_upsample_is_linear.

(** C21: values stay within the range of the data. *)
Theorem C21_upsample_stays_in_range :
  forall (f : Z -> R) n u lo hi, 1 <= n -> 1 <= u ->
  (forall k, 0 <= k < n -> (lo <= f k <= hi)%R) ->
  exists l, upsample_data (array1 n f) u = Some l /\ Forall (fun x => (lo <= x <= hi)%R) l.
Proof.
  intros f n u lo hi Hn Hu Hf. eexists. split; [apply upsample_data_ok; assumption|].
  apply Forall_forall. intros x Hx. unfold array1 in Hx. apply in_map_iff in Hx. destruct Hx as (p & <- & Hp).
  apply in_zrange in Hp. pose proof (Z.mod_pos_bound p u ltac:(lia)) as Hb. pose proof (Z.div_mod p u ltac:(lia)) as Hdm.
  assert (Hq : 0 <= p / u) by (apply Z.div_pos; lia).
  destruct (Z.eq_dec (p mod u) 0) as [H0|H0].
  - rewrite H0. unfold line. assert (Hl : (lo <= f (p / u)%Z <= hi)%R) by (apply Hf; nia).
    unfold Rdiv. rewrite !Rmult_0_l, Rplus_0_r. exact Hl.
  - apply line_bounds; [lia|lia| |]; apply Hf; nia.
Qed.
Print Assumptions C21_upsample_stays_in_range.

(** C21, extension to the window edges, for integer-valued data (raw counts): the end values
    are repeated, original samples keep their times (the new start is earlier by the number of
    added samples), and the extension reaches the window edge to half a new sample. *)
Theorem C21_edges_repeat_end_values_partial :
  forall c start (z : Z -> Z) n u starttime endtime, 0 < delta c -> 1 <= n -> 1 <= u -> (u | delta c) ->
  exists a b, 0 <= a /\ 0 <= b /\
  upsample c start (array1 n (fun k => IZR (z k))) u starttime endtime
  = Some (start - a * (delta c / u),
          repeat (IZR (z 0)) (Z.to_nat a)
          ++ array1 ((n - 1) * u + 1) (fun p => line (IZR (z (p / u))) (IZR (z (p / u + 1))) (p mod u) u)
          ++ repeat (IZR (z (n - 1))) (Z.to_nat b))
  /\ (0 < start - starttime < delta c -> 2 * Z.abs (start - a * (delta c / u) - starttime) <= delta c / u)
  /\ (0 < endtime - (start + (n - 1) * delta c) < delta c ->
       2 * Z.abs (start + (n - 1) * delta c + b * (delta c / u) - endtime) <= delta c / u).
Proof.
  intros c start z n u starttime endtime Hd Hn Hu Hdiv.
  eexists _, _. split; [|split; [|split; [apply upsample_ok; assumption|split]]].
  - destruct (_ && _) eqn:B; [|lia]. apply andb_prop in B. destruct B as [B1 B2].
    apply Z.ltb_lt in B1, B2. pose proof (rnd_he_mono 0 ((start - starttime) * u) (delta c) Hd ltac:(nia)) as H.
    rewrite <- (Z.mul_0_l (delta c)) in H at 1. rewrite rnd_he_mul in H by lia. exact H.
  - destruct (_ && _) eqn:B; [|lia]. apply andb_prop in B. destruct B as [B1 B2].
    apply Z.ltb_lt in B1, B2. set (x := endtime - _) in *. pose proof (rnd_he_mono 0 (x * u) (delta c) Hd ltac:(nia)) as H.
    rewrite <- (Z.mul_0_l (delta c)) in H at 1. rewrite rnd_he_mul in H by lia. exact H.
  - intros [B1 B2]. apply Z.ltb_lt in B1, B2. rewrite B1, B2. cbn [andb].
    pose proof (rnd_he_nearest ((start - starttime) * u) (delta c) Hd) as N. unfold nearest in N.
    destruct Hdiv as [m Em]. set (x := rnd_he _ _) in *. rewrite Em, Z.div_mul by lia. rewrite Em in N. nia.
  - intros [B1 B2]. apply Z.ltb_lt in B1, B2. rewrite B1, B2. cbn [andb].
    set (te := start + (n - 1) * delta c) in *.
    pose proof (rnd_he_nearest ((endtime - te) * u) (delta c) Hd) as N. unfold nearest in N.
    destruct Hdiv as [m Em]. set (x := rnd_he _ _) in *. clearbody te x. rewrite Em, Z.div_mul by lia. rewrite Em in N. nia.
Qed.
Print Assumptions C21_edges_repeat_end_values_partial.

Example C21_applies : exists l,
  upsample {| sec := 100000; delta := 2500 |} 100500 (array1 3 (fun k => IZR (k * k))) 5 100000 106000 = Some (100000, l)
  /\ length l = 13%nat.
Proof.
  eexists. split.
  - rewrite upsample_ok; [|cbn; lia|lia|lia|exists 500; reflexivity]. cbv zeta. cbn [delta].
    match goal with |- Some (?a, _) = _ => let v := eval vm_compute in a in change a with v end. reflexivity.
  - reflexivity.
Qed.

(** C21 fails for data that are not integers: a trace of constant 0.5 is extended with 0
    because the pad is created with an integer dtype. *)
Theorem C21_edge_values_truncated_refuted :
  exists c start data u starttime endtime s l,
  upsample c start data u starttime endtime = Some (s, l) /\
  (forall x, In x data -> x = / 2)%R /\ In 0%R l.
Proof.
  exists {| sec := 100000; delta := 2500 |}, 100500, (array1 3 (fun _ => / 2)%R), 5, 100000, 105500.
  eexists _, _. split; [|split].
  - unfold upsample. rewrite upsample_data_ok by lia. cbv zeta. rewrite array1_length. cbn [delta Z.max].
    rewrite rd_array1 by lia. rewrite pyget_last by lia. rewrite trunc_half. reflexivity.
  - intros x Hx. apply in_map_iff in Hx. destruct Hx as (k & <- & _). reflexivity.
  - cbn. left. reflexivity.
Qed.
Print Assumptions C21_edge_values_truncated_refuted.

(** C55. A gap-free trace that covers the requested window is accepted by the full-timespan
    check. In exact arithmetic this is C17_complete_data_is_used_partial; in binary64 it fails: at
    50 Hz, with 120 s timesteps, STA 0.2 s, LTA 1 s and traveltimes up to 10 s, the window of
    every timestep is 151.58 s long, and 7580 samples - all there are - are fewer than
    151.58*50 + 1 evaluated in floating point. *)
Theorem C55_complete_window_rejected_refuted :
  let c := hz50 in
  onset_pad c (120 * sec c) (stalta_pre_pad [(20000, 100000)]) (stalta_post_pad c [(20000, 100000)] (10 * sec c))
    = (1060000, 2100000)
  /\ (forall starttime i,
       let w := step_window c starttime (120 * sec c) 1060000 2100000 i in
       (snd w - fst w) * 10000 = 151580000000 (* ns *) /\ (snd w - fst w) / delta c + 1 = 7580)
  /\ f_full_timespan_ok 151580000000 (f_of_Z 50) 7580 = false.
Proof.
  cbv zeta. split; [vm_compute; reflexivity|]. split; [|vm_compute; reflexivity].
  intros starttime i. cbv zeta. rewrite detect_step_window_len. split; vm_compute; reflexivity.
Qed.
Print Assumptions C55_complete_window_rejected_refuted.

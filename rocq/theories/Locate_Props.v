(** Properties C38-C40, C54 and C58-C60: the locate stage. *)
From Coq Require Import String Ascii.
From Coq Require Import List ZArith Reals Lra Lia Bool.
From Verif Require Import Lib LibFacts PySlice PySliceFacts PyDict Migrate_Model Timeline_Model Timeline_Spec Timeline_Props
  Lut_Model Lut_Spec Lut_Proofs Lut_Props Locate_Model Locate_Spec Locate_Proofs.
Import ListNotations.
Open Scope Z_scope.

(** C38. The origin time is the time of the (first) largest coalescence value; the data frame
    holds the values it was given. *)
Theorem C38_origin_is_peak :
  forall M c trig mw coa norm coord (map4d : list M), 0 < delta c -> 0 <= mw ->
  length coa = length (mw_times c trig mw) -> length norm = length (mw_times c trig mw) ->
  length coord = length (mw_times c trig mw) ->
  exists e p, add_compute_output trig mw (mw_times c trig mw) coa norm coord map4d = Ret e
  /\ first_largest coa p /\ e_otime e = trig - 2 * mw + p * delta c
  /\ max_coalescence e = Ret (e_otime e, value coa p, value norm p)
  /\ map r_dt (e_rows e) = mw_times c trig mw /\ map r_coa (e_rows e) = coa
  /\ map r_norm (e_rows e) = norm /\ map r_xyz (e_rows e) = coord
  /\ e_map e = map4d /\ e_trig e = trig /\ e_mw e = mw
  /\ (length map4d = length (mw_times c trig mw) -> computed e p).
Proof.
  intros M c trig mw coa norm coord map4d HD Hmw L1 L2 L3. set (ts := mw_times c trig mw) in *.
  destruct (dataframe_total ts coa norm coord L1 L2 L3) as [rows Er].
  destruct (dataframe_ok _ _ _ _ _ Er) as (D1 & D2 & D3 & D4).
  assert (Hts : Z.of_nat (length ts) = 4 * mw / delta c + 1).
  { unfold ts, mw_times. rewrite map_length, zrange_length. pose proof (Z.div_pos (4 * mw) (delta c)). lia. }
  assert (Hpos : 0 <= 4 * mw / delta c) by (apply Z.div_pos; lia).
  destruct (argmax_total coa) as [p Ep]; [intros E; rewrite E in L1; cbn in L1; lia|].
  pose proof (argmax_ok _ _ Ep) as Hp. pose proof Hp as (v & Hv & _).
  pose proof (rd_bounds _ _ _ _ Hv) as Bp.
  assert (Hlen : length rows = length ts) by (rewrite <- D1, map_length; reflexivity).
  destruct (rd_in_range _ rows p) as [r Hr]; [lia|].
  assert (Hpk : peak rows = Ret r) by (apply (peak_ok rows p r); [rewrite D2; exact Hp|exact Hr]).
  assert (Hdt : r_dt r = trig - 2 * mw + p * delta c).
  { assert (E : rd ts p = Some (r_dt r)) by (rewrite <- D1, rd_map, Hr; reflexivity).
    unfold ts, mw_times in E. rewrite rd_map, rd_zrange in E by lia. cbn [option_map] in E. congruence. }
  exists (mk_event trig mw rows map4d (r_dt r)), p. unfold add_compute_output. rewrite Er. cbn [bind]. rewrite Hpk. cbn [bind].
  split; [reflexivity|]. split; [exact Hp|]. cbn [e_otime e_rows e_map e_trig e_mw]. split; [exact Hdt|]. split.
  { unfold max_coalescence. cbn [e_rows]. rewrite Hpk. cbn [bind]. unfold value. rewrite <- D2, <- D3, !rd_map, Hr. reflexivity. }
  repeat (split; [first [exact D1|exact D2|exact D3|exact D4|reflexivity]|]).
  intros Hm. unfold computed. cbn [e_rows e_map e_otime]. rewrite D1, D2.
  split; [apply mw_times_increasing, HD|]. split; [congruence|]. split; [exact Hp|].
  rewrite <- D1, rd_map, Hr. reflexivity.
Qed.
Print Assumptions C38_origin_is_peak.

(** Non-vacuity: marginal window of two samples at 50 Hz; nine values, the largest one sample
    after the trigger time. *)
Definition coa9 : list R := [1; 1; 2; 3; 4; 5; 1; 1; 1]%R.
Lemma coa9_peak p : first_largest coa9 p -> p = 5.
Proof.
  intros H. apply (first_largest_unique _ _ _ H). exists 5%R. split; [reflexivity|]. split.
  - intros q w Hq. pose proof (rd_bounds _ _ _ _ Hq) as B. cbn [length coa9] in B.
    assert (C : q = 0 \/ q = 1 \/ q = 2 \/ q = 3 \/ q = 4 \/ q = 5 \/ q = 6 \/ q = 7 \/ q = 8) by lia.
    repeat (destruct C as [->|C]; [cbn in Hq; injection Hq as <-; lra|]). subst q. cbn in Hq. injection Hq as <-. lra.
  - intros q w Hlt Hq. pose proof (rd_bounds _ _ _ _ Hq) as B.
    assert (C : q = 0 \/ q = 1 \/ q = 2 \/ q = 3 \/ q = 4) by lia.
    repeat (destruct C as [->|C]; [cbn in Hq; injection Hq as <-; lra|]). subst q. cbn in Hq. injection Hq as <-. lra.
Qed.
Example C38_applies : exists e, add_compute_output 20000 4000 (mw_times hz50 20000 4000) coa9 coa9
    (repeat (0, 0, 0)%R 9) (repeat tt 9) = Ret e /\ e_otime e = 22000 /\ computed e 5.
Proof.
  destruct (C38_origin_is_peak unit hz50 20000 4000 coa9 coa9 (repeat (0, 0, 0)%R 9) (repeat tt 9)
    ltac:(reflexivity) ltac:(lia) ltac:(reflexivity) ltac:(reflexivity) ltac:(reflexivity)) as (e & p & E & Hp & Ho & _ & _ & _ & _ & _ & _ & _ & _ & Hc).
  pose proof (coa9_peak p Hp) as ->. exists e. split; [exact E|]. split; [rewrite Ho; reflexivity|apply Hc; reflexivity].
Qed.

(** C38. Trimming to the marginal window keeps exactly the samples within the window around the
    origin time, the origin time and the maximum, and the map slices stay aligned with the rows.
    Missing from the claim: the last row of the window has no map slice. *)
Theorem C38_trim_keeps_origin_partial :
  forall M (e : event M) p, computed e p -> 0 <= e_mw e ->
  exists e' a, trim2window e = Ret e' /\ e_otime e' = e_otime e /\ e_trig e' = e_trig e /\ e_mw e' = e_mw e
  /\ (forall r, In r (e_rows e') <-> In r (e_rows e) /\ near (e_otime e) (e_mw e) (r_dt r))
  /\ (exists r, rd (e_rows e) p = Some r /\ max_coalescence e' = Ret (e_otime e, r_coa r, r_norm r)
        /\ rd (e_rows e') (p - a) = Some r)
  /\ (forall i, 0 <= i < Z.of_nat (length (e_rows e')) -> rd (e_rows e') i = rd (e_rows e) (a + i))
  /\ (forall i, 0 <= i < Z.of_nat (length (e_map e')) -> rd (e_map e') i = rd (e_map e) (a + i) /\ rd (e_map e') i <> None)
  /\ Z.of_nat (length (e_map e')) = Z.of_nat (length (e_rows e')) - 1.
Proof.
  intros M e p Hc Hmw. destruct (trim_ok e p Hc Hmw) as (e' & a & E & T1 & T2 & T3 & T4 & T5 & T6 & T7 & T8 & T9 & T10).
  exists e', a. split; [exact E|]. split; [exact T3|]. split; [exact T1|]. split; [exact T2|]. split; [|split; [|split; [|split]]].
  - intros r. rewrite T4, filter_In, andb_true_iff, !Z.leb_le. unfold near. reflexivity.
  - destruct Hc as (_ & _ & (v & Hv & _) & Ho). rewrite rd_map in Hv, Ho. destruct (rd (e_rows e) p) as [r|]; [|discriminate].
    exists r. split; [reflexivity|]. cbn in Ho. injection Ho as Ho. split; [|exact T6].
    unfold max_coalescence. rewrite (peak_ok _ (p - a) r T5) by exact T6. cbn [bind]. rewrite Ho. reflexivity.
  - exact T9.
  - intros i Hi. split; [apply T10, Hi|]. intros N. destruct (rd_in_range _ (e_map e') i Hi) as [x Hx]. congruence.
  - exact T8.
Qed.
Print Assumptions C38_trim_keeps_origin_partial.

(** C38. For a kept event the trimmed time series covers the marginal window completely. *)
Theorem C38_window_complete :
  forall M c trig mw (e : event M) p, 0 < delta c -> 0 < mw -> (delta c | mw) ->
  computed e p -> e_trig e = trig -> e_mw e = mw -> map r_dt (e_rows e) = mw_times c trig mw ->
  in_marginal_window e = true ->
  exists e', trim2window e = Ret e'
  /\ map r_dt (e_rows e') = times_from c (e_otime e - mw) (2 * mw / delta c + 1)
  /\ Z.of_nat (length (e_map e')) = 2 * mw / delta c.
Proof.
  intros M c trig mw e p HD Hmw [k Hk] Hc Ht Hm Hdt Hin.
  destruct (trim_ok e p Hc ltac:(lia)) as (e' & a & E & T1 & T2 & T3 & T4 & T5 & T6 & T7 & T8 & T9 & T10).
  unfold in_marginal_window in Hin. rewrite andb_true_iff, !Z.ltb_lt in Hin.
  destruct Hc as (_ & _ & _ & Ho). rewrite Hdt in Ho. unfold mw_times in Ho. rewrite rd_map in Ho.
  destruct (rd (zrange (4 * mw / delta c + 1)) p) as [x|] eqn:Ep; [|discriminate]. cbn [option_map] in Ho.
  assert (Ho' : trig - 2 * mw + x * delta c = e_otime e) by congruence. clear Ho. rename Ho' into Ho.
  assert (Hdiv2 : 2 * mw / delta c = 2 * k) by (rewrite Hk, Z.mul_assoc; apply Z.div_mul; lia).
  assert (Hdiv4 : 4 * mw / delta c = 4 * k) by (rewrite Hk, Z.mul_assoc; apply Z.div_mul; lia).
  assert (Hkpos : 0 < k) by (apply Z.mul_pos_cancel_r with (delta c); lia).
  assert (Hxk : k < x < 3 * k).
  { split; apply (proj2 (Z.mul_lt_mono_pos_r (delta c) _ _ HD)); lia. }
  assert (Htimes : map r_dt (e_rows e') = times_from c (e_otime e - mw) (2 * mw / delta c + 1)).
  { rewrite T4. rewrite <- (filter_map_comm r_dt (fun t => (e_otime e - e_mw e <=? t) && (t <=? e_otime e + e_mw e))).
    rewrite Hdt. unfold mw_times. rewrite filter_map_comm. rewrite Hdiv4, Hdiv2.
    rewrite (filter_ext _ (fun i => (x - k <=? i) && (i <=? x + k))).
    - unfold zrange. rewrite (filter_zseq_window (x - k) (x + k)) by lia. unfold times_from, zrange.
      replace (x + k - (x - k) + 1) with (2 * k + 1) by lia.
      apply rd_ext_opt. intros i. rewrite !rd_map.
      destruct (Z_lt_dec i 0) as [Hi|Hi]; [rewrite !rd_none by lia; reflexivity|].
      destruct (Z_lt_dec i (2 * k + 1)) as [Hi'|Hi'].
      + rewrite !rd_zseq by lia. cbn [option_map]. f_equal. rewrite <- Ho, Hk. ring.
      + rewrite !rd_none by (rewrite zseq_length; lia). reflexivity.
    - intros i. rewrite Hm. f_equal.
      + destruct (Z.leb_spec (x - k) i), (Z.leb_spec (e_otime e - mw) (trig - 2 * mw + i * delta c)); try reflexivity; exfalso.
        * assert ((x - k) * delta c <= i * delta c) by (apply Z.mul_le_mono_nonneg_r; lia). lia.
        * assert (i * delta c < (x - k) * delta c) by (apply Z.mul_lt_mono_pos_r; lia). lia.
      + destruct (Z.leb_spec i (x + k)), (Z.leb_spec (trig - 2 * mw + i * delta c) (e_otime e + mw)); try reflexivity; exfalso.
        * assert (i * delta c <= (x + k) * delta c) by (apply Z.mul_le_mono_nonneg_r; lia). lia.
        * assert ((x + k) * delta c < i * delta c) by (apply Z.mul_lt_mono_pos_r; lia). lia. }
  exists e'. split; [exact E|]. split; [exact Htimes|]. rewrite T8.
  rewrite <- (map_length r_dt), Htimes. unfold times_from. rewrite map_length, zrange_length. lia.
Qed.
Print Assumptions C38_window_complete.

(** C38 is false for the last sample: its map slice is dropped, always; and if the marginal window
    is shorter than a sample, no slice is left and the location fails with ValueError. *)
Theorem C38_last_sample_dropped_refuted :
  (forall M (e : event M) p, computed e p -> 0 <= e_mw e ->
   exists e' r, let last := Z.of_nat (length (e_rows e')) - 1 in
     trim2window e = Ret e' /\ rd (e_rows e') last = Some r /\ rd (e_map e') last = None)
  /\ (exists (e : event (list R)) p e', computed e p /\ trim2window e = Ret e' /\ in_marginal_window e = true
      /\ forall rbf g, calculate_location rbf g (e_map e') = Raise ValueError).
Proof.
  split.
  - intros M e p Hc Hmw. destruct (trim_ok e p Hc Hmw) as (e' & a & E & T1 & T2 & T3 & T4 & T5 & T6 & T7 & T8 & T9 & T10).
    destruct T5 as (v & Hv & _). pose proof (rd_bounds _ _ _ _ Hv) as B. rewrite map_length in B.
    destruct (rd_in_range _ (e_rows e') (Z.of_nat (length (e_rows e')) - 1)) as [r Hr]; [lia|].
    exists e', r. split; [exact E|]. split; [exact Hr|]. apply rd_none. lia.
  - set (row := mk_coarow 0 1 1 (0, 0, 0)%R).
    exists (mk_event 0 1 [row] [[1%R]] 0), 0, (mk_event 0 1 [row] [] 0).
    assert (Hf : first_largest [1%R] 0).
    { exists 1%R. split; [reflexivity|]. split.
      - intros q w Hq. pose proof (rd_bounds _ _ _ _ Hq) as B. cbn in B. assert (q = 0) by lia. subst q. cbn in Hq. injection Hq as <-. lra.
      - intros q w Hlt Hq. pose proof (rd_bounds _ _ _ _ Hq). lia. }
    split; [|split; [|split]].
    + unfold computed. cbn [e_rows e_map e_otime map r_dt r_coa row]. split; [|split; [reflexivity|split; [exact Hf|reflexivity]]].
      intros i j x y Hij Hi Hj. pose proof (rd_bounds _ _ _ _ Hi). pose proof (rd_bounds _ _ _ _ Hj). cbn in *. lia.
    + reflexivity.
    + reflexivity.
    + intros rbf g. unfold calculate_location. destruct (g_count g) as ((nx, ny), nz). cbn [e_map].
      assert (En : normalise (marginalise (nx * ny * nz) []) = Raise ValueError); [|rewrite En; reflexivity].
      unfold marginalise. cbn [map fold_left]. unfold zrange. generalize (Z.to_nat (nx * ny * nz)) as m. intros m.
      destruct m as [|m]; [reflexivity|]. cbn [zseq map normalise].
      assert (Ez : forall lo k, fold_left Rmax (map (fun _ => 0%R) (zseq lo k)) 0%R = 0%R).
      { intros lo k. revert lo. induction k as [|k IH]; intros lo; [reflexivity|]. cbn [zseq map fold_left].
        rewrite (Rmax_left 0 0) by lra. apply IH. }
      rewrite Ez. destruct (Req_EM_T 0 0) as [_|N]; [reflexivity|congruence].
Qed.
Print Assumptions C38_last_sample_dropped_refuted.

(** C39. An event is kept exactly if its origin time lies strictly within the marginal window
    around the trigger time. *)
Theorem C39_kept_iff_near_trigger :
  forall D M W read (compute : D -> Z -> outcome (event M)) (finish : event M -> outcome W)
         mw sp sq mags pre post trig d ev p,
  0 < mw ->
  (let '(b, e, x, y) := event_window trig mw sp sq mags pre post in read b e x y = Ret d) ->
  compute d trig = Ret ev -> computed ev p -> e_trig ev = trig -> e_mw ev = mw ->
  (forall ev', exists w, finish ev' = Ret w) ->
  if Z.abs (e_otime ev - trig) <? mw
  then exists ev' w, trim2window ev = Ret ev' /\ finish ev' = Ret w
       /\ locate_one read compute finish mw sp sq mags pre post trig = Ret (Some w)
  else locate_one read compute finish mw sp sq mags pre post trig = Ret None.
Proof.
  intros D M W read compute finish mw sp sq mags pre post trig d ev p Hmw Hr Hcm Hc Ht Hm Hf.
  unfold locate_one. destruct (event_window trig mw sp sq mags pre post) as (((b, e), x), y). rewrite Hr. cbn [bind]. rewrite Hcm.
  unfold in_marginal_window. rewrite Ht, Hm.
  assert (E : (e_otime ev - mw <? trig) && (trig <? e_otime ev + mw) = (Z.abs (e_otime ev - trig) <? mw)).
  { destruct (Z.ltb_spec (Z.abs (e_otime ev - trig)) mw).
    - apply andb_true_iff. rewrite !Z.ltb_lt. lia.
    - apply andb_false_iff. rewrite !Z.ltb_ge. lia. }
  rewrite E. destruct (Z.abs (e_otime ev - trig) <? mw); [|reflexivity].
  destruct (trim_ok ev p Hc ltac:(lia)) as (ev' & a & Et & _). destruct (Hf ev') as [w Ew].
  exists ev', w. split; [exact Et|]. split; [exact Ew|]. rewrite Et. cbn [bind]. rewrite Ew. reflexivity.
Qed.
Print Assumptions C39_kept_iff_near_trigger.

Definition compute9 (coa : list R) (_ : unit) (trig : Z) : outcome (event unit) :=
  add_compute_output trig 4000 (mw_times hz50 trig 4000) coa coa (repeat (0, 0, 0)%R 9) (repeat tt 9).
Example C39_kept : exists ev' : event unit,
  locate_one (fun _ _ _ _ => Ret tt) (compute9 coa9) (fun e => Ret e) 4000 0 0 None None None 20000 = Ret (Some ev')
  /\ e_otime ev' = 22000.
Proof.
  destruct C38_applies as (e & E & Ho & Hc).
  assert (Hf : e_trig e = 20000 /\ e_mw e = 4000).
  { unfold add_compute_output in E. destruct (dataframe _ _ _ _) as [rows| |]; [|discriminate|discriminate]. cbn [bind] in E.
    destruct (peak rows) as [r| |]; [|discriminate|discriminate]. cbn [bind] in E. injection E as <-. split; reflexivity. }
  destruct Hf as [Ht Hm].
  pose proof (C39_kept_iff_near_trigger unit unit (event unit) (fun _ _ _ _ => Ret tt) (compute9 coa9) (fun e => Ret e) 4000 0 0
    None None None 20000 tt e 5 ltac:(lia) eq_refl E Hc Ht Hm ltac:(intros ev'; exists ev'; reflexivity)) as H.
  rewrite Ho in H. replace (Z.abs (22000 - 20000) <? 4000) with true in H by reflexivity.
  destruct H as (ev' & w & T & W1 & W2). injection W1 as <-. exists ev'. split; [exact W2|].
  destruct (C38_trim_keeps_origin_partial unit e 5 Hc ltac:(lia)) as (e'' & a & E'' & Ho'' & _).
  rewrite T in E''. injection E'' as <-. congruence.
Qed.

(** C39. The waveform data read for a kept event contain every stored sample of the cut window
    around the origin time and of the window of the amplitude measurement, and the cut contains
    exactly these (to half a sample at either end). *)
Theorem C39_data_cover_cut :
  forall c fuel glob all stations prepare trig mw sp sq mags pre post otime raw st,
  0 < delta c -> 0 < sec c -> 0 <= sp -> 0 <= sq -> 0 < pre -> 0 < post -> Z.abs (otime - trig) < mw ->
  (let '(b, e, x, y) := event_window trig mw sp sq mags (Some pre) (Some post) in
   read_waveform_data fuel c glob all stations prepare b e x y = Some (Ret (raw, st))) ->
  (forall x, stored c glob all stations x -> otime - pre <= s_time x <= otime + post ->
     In x (cut_raw c otime (Some pre) (Some post) raw))
  /\ (forall x, In x (cut_raw c otime (Some pre) (Some post) raw) ->
     in_archive glob x /\ 2 * (otime - pre - s_time x) < delta c /\ 2 * (s_time x - (otime + post)) <= delta c)
  /\ (forall m n x, mags = Some (m, n) -> stored c glob all stations x -> otime - m <= s_time x <= otime + n -> In x raw)
  /\ (forall x, stored c glob all stations x -> otime - mw - sp <= s_time x <= otime + mw + sq -> In x raw).
Proof.
  intros c fuel glob all stations prepare trig mw sp sq mags pre post otime raw st HD HS Hsp Hsq Hpre Hpost Ho Hr.
  pose proof (pads_cover trig mw sp sq mags (Some pre) (Some post) otime Hsp Hsq Ho) as P.
  assert (W : let '(b, e, _, _) := event_window trig mw sp sq mags (Some pre) (Some post) in
              b = trig - 2 * mw - sp /\ e = trig + 2 * mw + sq) by (cbn; split; reflexivity).
  destruct (event_window trig mw sp sq mags (Some pre) (Some post)) as (((b, e), x), y). destruct P as (P1 & P2 & P3 & P4).
  destruct (read_ok fuel c glob all stations prepare b e x y raw st HD ltac:(unfold day; lia) Hr) as (R1 & R2).
  split; [|split; [|split]].
  - intros z Hz Ht. apply cut_raw_in; [exact Hpre|exact Hpost|]. split; [|lia].
    apply R1; [exact Hz|]. specialize (P1 pre eq_refl Hpre). specialize (P2 post eq_refl Hpost). lia.
  - intros z Hz. apply cut_raw_in in Hz; [|exact Hpre|exact Hpost]. destruct Hz as (Hz & H1 & H2).
    split; [apply R2, Hz|]. split; assumption.
  - intros m n z Hm Hz Ht. apply R1; [exact Hz|]. destruct (P3 m n Hm). lia.
  - intros z Hz Ht. apply R1; [exact Hz|]. lia.
Qed.
Print Assumptions C39_data_cover_cut.

(** C39. The loop over the days of the archive ends; each day is read exactly once. *)
Theorem C39_days_read_once :
  forall c starttime endtime, 0 < sec c ->
  exists n ds, (forall fuel, (n <= fuel)%nat -> load_days fuel c (starttime - starttime mod day c) endtime = Some ds)
  /\ NoDup ds /\ forall d, In d ds <-> starttime / day c <= d <= endtime / day c.
Proof.
  intros c s e HS. assert (Hd : 0 < day c) by (unfold day; lia). rewrite (midnight c s Hd).
  set (n := S (Z.to_nat (e / day c - s / day c))).
  destruct (load_days_total c e Hd n (s / day c)) as [ds Eds]; [unfold n; lia|].
  exists n, ds. split; [|split].
  - intros fuel Hf.
    assert (Hmono : forall f1 d l, load_days f1 c d e = Some l -> forall f2, (f1 <= f2)%nat -> load_days f2 c d e = Some l).
    { induction f1 as [|f1 IH]; intros d l E f2 Hf2; destruct f2 as [|f2]; cbn [load_days] in *; try lia; try exact E.
      - destruct (d <=? e); [discriminate|exact E].
      - destruct (d <=? e); [|exact E]. destruct (load_days f1 c (d + day c) e) eqn:E1; [|discriminate].
        rewrite (IH _ _ E1 f2) by lia. exact E. }
    apply (Hmono n); assumption.
  - exact (load_days_nodup c e Hd n _ _ Eds).
  - exact (load_days_ok c e Hd n _ _ Eds).
Qed.
Print Assumptions C39_days_read_once.

(** Non-vacuity: an archive with one sample in each of the days 0 and 1; trigger near midnight. *)
Definition glob2 (d : Z) (s : option Z) : list file :=
  if d =? 0 then [Some [mk_sample 7 (8640000000 - 2000)]] else if d =? 1 then [Some [mk_sample 7 8640000000]] else [].
Example C39_midnight : exists raw st,
  (let '(b, e, x, y) := event_window 8640000000 4000 0 0 None (Some 6000) (Some 6000) in
   read_waveform_data 3 hz50 glob2 true [] (fun l => l) b e x y) = Some (Ret (raw, st))
  /\ cut_raw hz50 8640001000 (Some 6000) (Some 6000) raw = [mk_sample 7 (8640000000 - 2000); mk_sample 7 8640000000].
Proof.
  exists [mk_sample 7 (8640000000 - 2000); mk_sample 7 8640000000], [mk_sample 7 (8640000000 - 2000); mk_sample 7 8640000000].
  split; vm_compute; reflexivity.
Qed.

(** C40. For maps with positive values: both estimates exist; the spline location lies within two
    nodes of the largest stacked value and inside the grid; the covariance location lies inside
    the grid; the matrix is symmetric and positive semi-definite; the uncertainties are the square
    roots of the variances. *)
Theorem C40_locations_inside :
  forall rbf g map4d, let n := g_count g in
  interpolating rbf -> grid_ok g -> map4d <> [] ->
  Forall (fun m => Z.of_nat (length m) = n_nodes n /\ Forall (fun v => (0 < v)%R) m) map4d ->
  exists loc cloc cov unc p, calculate_location rbf g map4d = Ret (loc, Some (cloc, cov, unc))
  /\ is_node n p /\ (forall q, is_node n q -> (stacked n map4d q <= stacked n map4d p)%R)
  /\ (forall a, 0 <= a < 3 -> (Rabs (comp a loc - IZR (idx a p)) <= 2)%R)
  /\ inside g (frac2grid g loc)
  /\ inside g cloc
  /\ (forall a b, 0 <= a < 3 -> 0 <= b < 3 -> mcell a b cov = mcell b a cov)
  /\ (forall u, (0 <= comp 0 u * comp 0 u * mcell 0 0 cov + comp 1 u * comp 1 u * mcell 1 1 cov + comp 2 u * comp 2 u * mcell 2 2 cov
                 + 2 * comp 0 u * comp 1 u * mcell 0 1 cov + 2 * comp 0 u * comp 2 u * mcell 0 2 cov + 2 * comp 1 u * comp 2 u * mcell 1 2 cov)%R)
  /\ (forall a, 0 <= a < 3 -> (0 <= mcell a a cov)%R /\ (0 <= comp a unc)%R /\ (comp a unc * comp a unc = mcell a a cov)%R).
Proof.
  intros rbf g map4d n Hrbf Hg Hne Hall. pose proof (grid_ok_pos g Hg) as Hn. fold n in Hn.
  destruct (normalised_map n map4d Hn Hne Hall) as (w & p & Ew & Hwl & Hpk & Hp1 & Hq).
  destruct (splineloc_ok rbf n w 5 10 Hrbf Hn Hwl ltac:(lia) ltac:(lia)) as (loc & p' & Es & Hpk' & Hins & _).
  assert (Ab : above n (9/10) w <> []).
  { intros E. assert (In p (above n (9/10) w)); [|rewrite E in H; exact H].
    apply filter_In. split; [apply in_all_nodes, Hpk|]. rewrite Hp1. destruct (Rlt_dec (9/10) 1); [reflexivity|lra]. }
  assert (Hpos : forall q, In q (above n (9/10) w) -> is_node n q /\ (9/10 < at_node n w q)%R).
  { intros q Hin. apply filter_In in Hin. destruct Hin as [H1 H2]. apply in_all_nodes in H1. split; [exact H1|].
    destruct (Rlt_dec (9/10) (at_node n w q)); [assumption|discriminate]. }
  assert (Hsum : sum (at_node n w) (above n (9/10) w) <> 0%R).
  { apply Rgt_not_eq. destruct (above n (9/10) w) as [|q r] eqn:Ea; [congruence|]. apply (sum_pos _ _ q).
    - intros y Hy. destruct (Hpos y Hy). lra.
    - left. reflexivity.
    - destruct (Hpos q); [left; reflexivity|]. lra. }
  destruct (covfit_ok g (9/10) w Hn Hwl Hsum) as (cloc & cov & unc & Ec & C1 & C2 & C3). fold n in C1, C2.
  set (mu := fun a => wmean n (9/10) w (offset g a)) in *.
  assert (Hvar : forall u0 u1 u2, (0 <= u0 * u0 * mcell 0 0 cov + u1 * u1 * mcell 1 1 cov + u2 * u2 * mcell 2 2 cov
                 + 2 * u0 * u1 * mcell 0 1 cov + 2 * u0 * u2 * mcell 0 2 cov + 2 * u1 * u2 * mcell 1 2 cov)%R).
  { intros u0 u1 u2. rewrite !C2 by lia.
    set (D0 := fun q : ijk => (offset g 0 q - wmean n (9/10) w (offset g 0))%R).
    set (D1 := fun q : ijk => (offset g 1 q - wmean n (9/10) w (offset g 1))%R).
    set (D2 := fun q : ijk => (offset g 2 q - wmean n (9/10) w (offset g 2))%R).
    assert (B : (0 <= wmean n (9/10) w (fun q => (u0 * D0 q + u1 * D1 q + u2 * D2 q) * (u0 * D0 q + u1 * D1 q + u2 * D2 q)))%R).
    { assert (Hs : forall q, (0 <= (u0 * D0 q + u1 * D1 q + u2 * D2 q) * (u0 * D0 q + u1 * D1 q + u2 * D2 q))%R)
        by (intros q; apply Rle_0_sqr).
      unfold wmean. apply Rmult_le_pos.
      - apply sum_nonneg. intros q Hin. apply Rmult_le_pos; [destruct (Hpos q Hin); lra|apply Hs].
      - apply Rlt_le, Rinv_0_lt_compat. destruct (above n (9/10) w) as [|q r] eqn:Ea; [congruence|]. apply (sum_pos _ _ q).
        + intros y Hy. destruct (Hpos y Hy). lra.
        + left. reflexivity.
        + destruct (Hpos q); [left; reflexivity|]. lra. }
    rewrite (wmean_ext _ _ _ _ (fun q => (u0 * u0) * (D0 q * D0 q) + 1 * ((u1 * u1) * (D1 q * D1 q)
      + 1 * ((u2 * u2) * (D2 q * D2 q) + 1 * ((2 * u0 * u1) * (D0 q * D1 q) + 1 * ((2 * u0 * u2) * (D0 q * D2 q)
      + (2 * u1 * u2) * (D1 q * D2 q))))))%R) in B by (intros q; ring).
    repeat rewrite (wmean_lin n (9/10) w) in B. eapply Rle_trans; [exact B|]. right. unfold D0, D1, D2. ring. }
  assert (Hdiag : forall a, 0 <= a < 3 -> (0 <= mcell a a cov)%R).
  { intros a Ha. assert (Hc : a = 0 \/ a = 1 \/ a = 2) by lia.
    pose proof (Hvar 1 0 0)%R. pose proof (Hvar 0 1 0)%R. pose proof (Hvar 0 0 1)%R.
    destruct Hc as [->|[->| ->]]; lra. }
  exists loc, cloc, cov, unc, p. repeat split.
  - unfold calculate_location. fold n. destruct n as ((nx, ny), nz) eqn:En. unfold n_nodes in Ew. rewrite Ew. cbn [bind].
    rewrite Es. cbn [bind]. rewrite Ec. reflexivity.
  - apply Hpk.
  - intros q Hnq. destruct Hpk as (Hp & Hbest & _). specialize (Hbest q Hnq). destruct (Hq q Hnq) as [E1 _]. destruct (Hq p Hp) as [E2 P2].
    rewrite E1, E2 in Hbest. rewrite E2 in P2.
    assert (Hst : (0 < stacked n map4d p)%R).
    { destruct (Rtotal_order 0 (stacked n map4d p)) as [A|[A|A]]; [exact A| |].
      - rewrite <- A in P2. unfold Rdiv in P2. rewrite Rmult_0_l in P2. lra.
      - destruct map4d as [|m0 r]; [congruence|]. unfold stacked in A.
        assert (0 <= sum (fun m => at_node n m p) (m0 :: r))%R; [|lra]. apply sum_nonneg. intros m Hm.
        rewrite Forall_forall in Hall. destruct (Hall m Hm) as [Hl Hv]. pose proof (flat_range n p Hp).
        destruct (rd_in_range _ m (flat n p)) as [v E]; [lia|]. unfold at_node, value. rewrite E.
        rewrite Forall_forall in Hv. apply Rlt_le, Hv, (rd_in _ _ _ _ E). }
    unfold Rdiv in Hbest. apply Rmult_le_reg_r in Hbest; [exact Hbest|apply Rinv_0_lt_compat, Hst].
  - intros a Ha. assert (p' = p).
    { destruct Hpk as (Hp & Hb & Hf), Hpk' as (Hp' & Hb' & Hf').
      destruct (Z.lt_trichotomy (flat n p') (flat n p)) as [L|[L|L]].
      - specialize (Hf _ Hp' L). specialize (Hb' _ Hp). lra.
      - pose proof (unravel_flat n p Hp) as U. rewrite <- L, (unravel_flat n p' Hp') in U. congruence.
      - specialize (Hf' _ Hp L). specialize (Hb _ Hp'). lra. }
    subst p'. specialize (Hins a Ha). unfold win_lo, win_hi in Hins.
    change ((5 - 1) / 2) with 2 in Hins.
    assert (H1 : (IZR (idx a p) - 2 <= IZR (Z.max 0 (idx a p - 2)))%R) by (rewrite <- minus_IZR; apply IZR_le; lia).
    assert (H2 : (IZR (Z.min (idx a n - 1) (idx a p + 2)) <= IZR (idx a p) + 2)%R) by (rewrite <- plus_IZR; apply IZR_le; lia).
    apply Rabs_le. lra.
  - unfold inside, frac2grid, axis_coord. unfold grid_ok in Hg. unfold inside_win in Hins.
    fold n. fold n in Hg. unfold vmap2. destruct (g_ll g) as ((l1, l2), l3), (g_spacing g) as ((s1, s2), s3), n as ((n1, n2), n3), loc as ((x, y), z), p' as ((pi, pj), pk).
    destruct Hg as ((S1 & S2 & S3) & _).
    pose proof (Hins 0 ltac:(lia)) as X. pose proof (Hins 1 ltac:(lia)) as Y. pose proof (Hins 2 ltac:(lia)) as W.
    unfold win_lo, win_hi in X, Y, W. cbn [comp idx Z.eqb Pos.eqb] in X, Y, W.
    assert (Hax : forall l s m i u k, (0 < s)%R -> (IZR (Z.max 0 (i - k)) <= u <= IZR (Z.min (m - 1) (i + k)))%R ->
              (l <= l + u * s <= l + IZR (m - 1) * s)%R).
    { intros l s m i u k Hs Hu. assert (0 <= u)%R by (apply Rle_trans with (2 := proj1 Hu); apply IZR_le; lia).
      assert (u <= IZR (m - 1))%R by (apply Rle_trans with (1 := proj2 Hu); apply IZR_le; lia).
      assert (0 * s <= u * s)%R by (apply Rmult_le_compat_r; lra).
      assert (u * s <= IZR (m - 1) * s)%R by (apply Rmult_le_compat_r; lra). lra. }
    split; [exact (Hax l1 s1 n1 pi x _ S1 X)|]. split; [exact (Hax l2 s2 n2 pj y _ S2 Y)|exact (Hax l3 s3 n3 pk z _ S3 W)].
  - unfold inside, axis_coord. fold n.
    pose proof (C1 0 ltac:(lia)) as X. pose proof (C1 1 ltac:(lia)) as Y. pose proof (C1 2 ltac:(lia)) as W.
    assert (Hb : forall a, 0 <= a < 3 -> (0 <= mu a <= IZR (idx a n - 1) * comp a (g_spacing g))%R).
    { intros a Ha. unfold mu. apply wmean_bounds; [lra|exact Ab|]. intros q Hin. destruct (Hpos q Hin) as [Hnq _].
      unfold offset. unfold grid_ok in Hg. fold n in Hg.
      destruct (g_spacing g) as ((s1, s2), s3), n as ((n1, n2), n3), q as ((i, j), k). destruct Hg as ((S1 & S2 & S3) & _).
      destruct Hnq as (Hi & Hj & Hk).
      assert (Hax : forall s m u, (0 < s)%R -> 0 <= u < m -> (0 <= IZR u * s <= IZR (m - 1) * s)%R).
      { intros s m u Hs Hu. split; [apply Rmult_le_pos; [apply IZR_le; lia|lra]|apply Rmult_le_compat_r; [lra|apply IZR_le; lia]]. }
      assert (Hc : a = 0 \/ a = 1 \/ a = 2) by lia.
      destruct Hc as [->|[->| ->]]; cbn [idx comp Z.eqb Pos.eqb]; apply Hax; assumption. }
    pose proof (Hb 0 ltac:(lia)) as B0. pose proof (Hb 1 ltac:(lia)) as B1. pose proof (Hb 2 ltac:(lia)) as B2.
    change (wmean n (9/10) w (offset g 0)) with (mu 0) in X. change (wmean n (9/10) w (offset g 1)) with (mu 1) in Y.
    change (wmean n (9/10) w (offset g 2)) with (mu 2) in W.
    clearbody mu. clear - X Y W B0 B1 B2.
    destruct (g_ll g) as ((l1, l2), l3), (g_spacing g) as ((s1, s2), s3), n as ((n1, n2), n3), cloc as ((x, y), z).
    cbn [comp idx Z.eqb Pos.eqb] in *. lra.
  - intros a b Ha Hb. rewrite !C2 by assumption. apply wmean_ext. intros q. ring.
  - intros u. apply Hvar.
  - apply Hdiag. assumption.
  - rewrite C3 by assumption. apply sqrt_pos.
  - rewrite C3 by assumption. rewrite Rabs_pos_eq by (apply Hdiag; assumption). apply sqrt_sqrt, Hdiag. assumption.
Qed.
Print Assumptions C40_locations_inside.

(** C40. The covariance location and matrix are the weighted mean and covariance of the positions
    of the nodes above the threshold, with the map values as weights. *)
Theorem C40_covariance_formula :
  forall g thresh m, grid_ok g -> Z.of_nat (length m) = n_nodes (g_count g) -> (0 <= thresh)%R ->
  (exists p, is_node (g_count g) p /\ (thresh < at_node (g_count g) m p)%R) ->
  exists loc cov unc, covfit3d g thresh m = Some (loc, cov, unc)
  /\ (forall a, 0 <= a < 3 -> comp a loc = (comp a (g_ll g) + wmean (g_count g) thresh m (offset g a))%R)
  /\ (forall a b, 0 <= a < 3 -> 0 <= b < 3 -> mcell a b cov
       = wmean (g_count g) thresh m (fun p => (comp a (g_ll g) + offset g a p - comp a loc) * (comp b (g_ll g) + offset g b p - comp b loc))%R).
Proof.
  intros g t m Hg Hl Ht (p & Hp & Hv). pose proof (grid_ok_pos g Hg) as Hn.
  destruct (covfit_ok g t m Hn Hl) as (loc & cov & unc & E & C1 & C2 & _).
  - apply Rgt_not_eq, (sum_pos _ _ p).
    + intros q Hq. apply filter_In in Hq. destruct (Rlt_dec t (at_node (g_count g) m q)); [lra|destruct Hq; discriminate].
    + apply filter_In. split; [apply in_all_nodes, Hp|]. destruct (Rlt_dec t (at_node (g_count g) m p)); [reflexivity|contradiction].
    + lra.
  - exists loc, cov, unc. split; [exact E|]. split; [exact C1|]. intros a b Ha Hb. rewrite (C2 a b Ha Hb). apply wmean_ext.
    intros q. rewrite (C1 a Ha), (C1 b Hb). ring.
Qed.
Print Assumptions C40_covariance_formula.

(** C40. The spline location: either the largest node itself (when the window around it is cut by
    an edge of the grid unequally), or the point of the refined grid, inside the window, where the
    interpolant is largest; the interpolant agrees with the map at the nodes of the window. In
    both cases the interpolant there is no smaller than the map at its largest node. *)
Theorem C40_spline_location :
  forall rbf n m win up, interpolating rbf -> pos3 n -> Z.of_nat (length m) = n_nodes n -> 1 <= win -> 1 <= up ->
  let w2 := (win - 1) / 2 in
  exists loc p, splineloc rbf n m win up = Ret loc /\ peak_node n m p /\ inside_win n p w2 loc
  /\ ((~ eq_sizes n p w2 /\ loc = of_node p)
      \/ (eq_sizes n p w2 /\ exists F : vec -> R,
            (forall q, in_win n p w2 q -> F (of_node q) = at_node n m q)
            /\ (exists f, loc = fine_point n p w2 up f)
            /\ (forall f, inside_win n p w2 (fine_point n p w2 up f) -> (F (fine_point n p w2 up f) <= F loc)%R)
            /\ (at_node n m p <= F loc)%R)).
Proof.
  intros rbf n m win up Hr Hn Hl Hw Hu w2. destruct (splineloc_ok rbf n m win up Hr Hn Hl Hw Hu) as (loc & p & E & Hpk & Hin & H).
  fold w2 in Hin, H. exists loc, p. split; [exact E|]. split; [exact Hpk|]. split; [exact Hin|].
  destruct H as [H|(Hs & pts & vals & H1 & H2 & H3)]; [left; exact H|]. right. split; [exact Hs|].
  exists (fun q => rbf pts vals (rel n p w2 q)). split; [exact H1|]. split; [exact H2|]. split; [exact H3|].
  assert (Hw2 : 0 <= w2) by (apply Z.div_pos; lia).
  pose proof Hpk as (Hp & _).
  assert (Hpin : in_win n p w2 p).
  { intros a Ha. unfold win_lo, win_hi. unfold pos3 in Hn. destruct n as ((n1, n2), n3), p as ((i, j), k).
    destruct Hp as (Hi & Hj & Hk). assert (Hc : a = 0 \/ a = 1 \/ a = 2) by lia.
    destruct Hc as [->|[->| ->]]; cbn [idx Z.eqb Pos.eqb]; lia. }
  rewrite <- (H1 p Hpin).
  set (f := (((idx 0 p - win_lo n p w2 0) * up, (idx 1 p - win_lo n p w2 1) * up, (idx 2 p - win_lo n p w2 2) * up) : ijk)).
  assert (Hup : (IZR up <> 0)%R) by (apply Rgt_not_eq, IZR_lt; lia).
  assert (Ef : fine_point n p w2 up f = of_node p).
  { unfold fine_point, f, of_node. destruct p as ((i, j), k). cbn [idx Z.eqb Pos.eqb].
    assert (Hax : forall x lo, (IZR ((x - lo) * up) / IZR up + IZR lo = IZR x)%R).
    { intros x lo. rewrite mult_IZR, minus_IZR. field. exact Hup. }
    rewrite !Hax. reflexivity. }
  rewrite <- Ef. apply (H3 f). rewrite Ef. intros a Ha. specialize (Hpin a Ha).
  assert (Hc : comp a (of_node p) = IZR (idx a p)).
  { destruct p as ((i, j), k). assert (Hc : a = 0 \/ a = 1 \/ a = 2) by lia. destruct Hc as [->|[->| ->]]; reflexivity. }
  rewrite Hc. split; apply IZR_le; lia.
Qed.
Print Assumptions C40_spline_location.

(** Non-vacuity: an interpolating method (the value of the first data point equal to the query),
    and a map over the 3 x 2 x 4 grid of Lut_Props. *)
Definition vec_eq_dec (p q : vec) : {p = q} + {p <> q}.
Proof.
  destruct p as ((a, b), c), q as ((d, e), f).
  destruct (Req_EM_T a d), (Req_EM_T b e), (Req_EM_T c f); subst; ((left; reflexivity) || (right; congruence)).
Defined.
Fixpoint lookup_rbf (pts : list vec) (vals : list R) (q : vec) : R :=
  match pts, vals with
  | p :: pts', v :: vals' => if vec_eq_dec p q then v else lookup_rbf pts' vals' q
  | _, _ => 0%R
  end.
Lemma lookup_rbf_ok : interpolating lookup_rbf.
Proof.
  intros pts. induction pts as [|p pts IH]; intros vals i q v Hnd Hl Hp Hv; [rewrite rd_nil in Hp; discriminate|].
  destruct vals as [|v0 vals]; [discriminate|]. cbn [lookup_rbf]. pose proof (rd_bounds _ _ _ _ Hp) as B.
  destruct (Z.eq_dec i 0) as [->|Hi].
  - cbn in Hp, Hv. injection Hp as <-. injection Hv as <-. destruct (vec_eq_dec p p); [reflexivity|congruence].
  - replace i with ((i - 1) + 1) in Hp, Hv by lia. rewrite rd_S in Hp, Hv by lia. inversion Hnd; subst.
    destruct (vec_eq_dec p q) as [->|_]; [exfalso; apply H1, (rd_in _ _ _ _ Hp)|].
    apply (IH vals (i - 1)); [assumption|cbn in Hl; lia|exact Hp|exact Hv].
Qed.
Example C40_applies : exists loc cloc cov unc,
  calculate_location lookup_rbf grid1 [map (fun i => IZR (i + 1)) (zrange 24); repeat 1%R 24] = Ret (loc, Some (cloc, cov, unc)).
Proof.
  destruct (C40_locations_inside lookup_rbf grid1 [map (fun i => IZR (i + 1)) (zrange 24); repeat 1%R 24]
    lookup_rbf_ok grid1_ok ltac:(discriminate)) as (loc & cloc & cov & unc & p & E & _).
  - constructor; [|constructor; [|constructor]].
    + split; [reflexivity|]. apply Forall_forall. intros v Hv. apply in_map_iff in Hv. destruct Hv as (i & <- & Hi).
      apply in_zrange in Hi. apply IZR_lt. lia.
    + split; [reflexivity|]. apply Forall_forall. intros v Hv. apply repeat_spec in Hv. subst v. lra.
  - exists loc, cloc, cov, unc. exact E.
Qed.

(** C54, the part that holds: without times a trigger file is needed, and a time span that ends
    before it starts is rejected. Missing from the claim: exactly one of the times given. *)
Theorem C54_locate_arguments_partial :
  forall S (utc : option S -> outcome Z),
  locate_args utc None None false = Raise RuntimeError
  /\ locate_args utc None None true = Ret None
  /\ (forall s e x y f, utc (Some s) = Ret x -> utc (Some e) = Ret y ->
      locate_args utc (Some s) (Some e) f = if x <=? y then Ret (Some (x, y)) else Raise TimeSpan).
Proof.
  intros S utc. repeat split. intros s e x y f Es Ee. unfold locate_args. rewrite Es, Ee. cbn [bind].
  destruct (Z.ltb_spec y x), (Z.leb_spec x y); try reflexivity; lia.
Qed.
Print Assumptions C54_locate_arguments_partial.
Example C54_applies : locate_args (fun x => match x with Some v => Ret v | None => Raise TypeError end) (Some 5) (Some 7) false
  = Ret (Some (5, 7)).
Proof. reflexivity. Qed.

(** C54 is false: with exactly one of the times the documented RuntimeError is never raised,
    whatever UTCDateTime(None) does short of raising it itself. *)
Theorem C54_single_time_refuted :
  forall S (utc : option S -> outcome Z) t f, (forall x, utc x <> Raise RuntimeError) ->
  locate_args utc (Some t) None f <> Raise RuntimeError /\ locate_args utc None (Some t) f <> Raise RuntimeError.
Proof.
  intros S utc t f H. split; unfold locate_args.
  - destruct (utc (Some t)) as [x|x|] eqn:E; cbn [bind]; [|intros N; apply (H (Some t)); congruence|discriminate].
    destruct (utc None) as [y|y|] eqn:E2; cbn [bind]; [|intros N; apply (H None); congruence|discriminate].
    destruct (y <? x); discriminate.
  - destruct (utc None) as [x|x|] eqn:E; cbn [bind]; [|intros N; apply (H None); congruence|discriminate].
    destruct (utc (Some t)) as [y|y|] eqn:E2; cbn [bind]; [|intros N; apply (H (Some t)); congruence|discriminate].
    destruct (y <? x); discriminate.
Qed.
Print Assumptions C54_single_time_refuted.

(** C58. In a run that ends normally every event is located as if it were the only one: the files
    written are those of the events for which the body of the loop produces one. *)
Theorem C58_events_independent_partial :
  forall W (one : Z -> outcome (option W)) events fs,
  NoDup (map fst events) -> (forall u t, In (u, t) events -> one t <> Undef) ->
  locate_loop one events [] = (fs, None) ->
  (forall uid t, In (uid, t) events -> dget fs uid = dget (fst (locate_loop one [(uid, t)] [])) uid)
  /\ (forall uid t w, In (uid, t) events -> (dget fs uid = Some w <-> one t = Ret (Some w)))
  /\ (forall uid, ~ In uid (map fst events) -> dget fs uid = None).
Proof.
  intros W one events fs Hnd Hu E. pose proof (locate_loop_files one events [] fs Hnd E Hu) as H.
  assert (Hfind : forall uid t, In (uid, t) events -> find (fun ut => String.eqb (fst ut) uid) events = Some (uid, t)).
  { clear E H Hu fs. induction events as [|(u0, t0) r IH]; intros uid t Hin; [destruct Hin|]. cbn [find fst]. cbn [map fst] in Hnd. inversion Hnd; subst.
    destruct Hin as [Hin|Hin].
    - injection Hin as -> ->. rewrite String.eqb_refl. reflexivity.
    - destruct (String.eqb_spec u0 uid) as [->|_]; [exfalso; apply H1, in_map_iff; exists (uid, t); split; [reflexivity|exact Hin]|].
      apply IH; assumption. }
  assert (Hnot : forall uid, ~ In uid (map fst events) -> find (fun ut => String.eqb (fst ut) uid) events = None).
  { intros uid Hin. clear - Hin. induction events as [|(u0, t0) r IH]; [reflexivity|]. cbn [find fst]. cbn [map fst] in Hin.
    destruct (String.eqb_spec u0 uid) as [->|_]; [exfalso; apply Hin; left; reflexivity|]. apply IH. intros N. apply Hin. right. exact N. }
  split; [|split].
  - intros uid t Hin. rewrite (H uid), (Hfind uid t Hin). cbn [snd locate_loop].
    destruct (one t) as [[w|]| |]; cbn [fst]; try reflexivity. rewrite dget_dset, String.eqb_refl. reflexivity.
  - intros uid t w Hin. rewrite (H uid), (Hfind uid t Hin). cbn [snd].
    destruct (one t) as [[w'|]| |]; split; intros X; try congruence; cbn in X; discriminate.
  - intros uid Hin. rewrite (H uid), (Hnot uid Hin). reflexivity.
Qed.
Print Assumptions C58_events_independent_partial.

(** C58. An event without usable data writes nothing and does not stop the run; other exceptions
    do. *)
Theorem C58_missing_data_skipped :
  forall D M W read (compute : D -> Z -> outcome (event M)) (finish : event M -> outcome W) mw sp sq mags pre post trig x,
  (let '(b, e, p, q) := event_window trig mw sp sq mags pre post in bind (read b e p q) (fun d => compute d trig)) = Raise x ->
  locate_one read compute finish mw sp sq mags pre post trig
  = match x with ArchiveEmpty | DataGapException | DataAvailabilityException => Ret None | _ => Raise x end.
Proof.
  intros D M W read compute finish mw sp sq mags pre post trig x. unfold locate_one.
  destruct (event_window trig mw sp sq mags pre post) as (((b, e), p), q). intros E. rewrite E. destruct x; reflexivity.
Qed.
Print Assumptions C58_missing_data_skipped.

Definition one3 (t : Z) : outcome (option Z) :=
  if t =? 1 then Ret (Some 10) else if t =? 2 then Ret None else if t =? 3 then Ret (Some 30) else Raise NyquistException.
Example C58_applies : locate_loop one3 [("a"%string, 1); ("b"%string, 2); ("c"%string, 3)] [] = ([("a"%string, 10); ("c"%string, 30)], None).
Proof. reflexivity. Qed.

(** C58 is false for exceptions other than missing data: one such event ends the run and the
    later events are not located although each of them could be. *)
Theorem C58_exception_ends_run_refuted :
  exists (one : Z -> outcome (option Z)) events fs uid t w, NoDup (map fst events) /\ In (uid, t) events
  /\ one t = Ret (Some w) /\ locate_loop one events [] = (fs, Some NyquistException) /\ dget fs uid = None.
Proof.
  exists one3, [("a"%string, 1); ("b"%string, 4); ("c"%string, 3)], [("a"%string, 10)], "c"%string, 3, 30. repeat split.
  - repeat constructor; cbn; intros N; repeat destruct N as [N|N]; congruence || exact N.
  - right. right. left. reflexivity.
Qed.
Print Assumptions C58_exception_ends_run_refuted.

(** C59. traveltime_to is the trilinear interpolant of the table: the entry itself at a node,
    exact for tables that are affine in the indices, and between nodes within the range of the
    surrounding entries. *)
Theorem C59_interpolation :
  forall n t, (let '(nx, ny, nz) := n in 2 <= nx /\ 2 <= ny /\ 2 <= nz) ->
  (forall p, is_node n p -> traveltime_to n t (of_node p) = at_node n t p)
  /\ (forall a b c d v, (forall p, is_node n p -> at_node n t p = a + b * comp 0 (of_node p) + c * comp 1 (of_node p) + d * comp 2 (of_node p))%R ->
      traveltime_to n t v = (a + b * comp 0 v + c * comp 1 v + d * comp 2 v)%R)
  /\ (forall v lo hi, (forall a, 0 <= a < 3 -> (0 <= comp a v <= IZR (idx a n - 1))%R) ->
      (forall q, is_node n q -> (forall a, 0 <= a < 3 -> (Rabs (comp a v - IZR (idx a q)) <= 1)%R) -> (lo <= at_node n t q <= hi)%R) ->
      (lo <= traveltime_to n t v <= hi)%R).
Proof.
  intros n t Hn. split; [|split].
  - intros p Hp. exact (traveltime_at_node n t p Hn Hp).
  - intros a b c d v H. destruct n as ((nx, ny), nz), v as ((x, y), z). destruct Hn as (Nx & Ny & Nz).
    assert (Hnv : forall q, is_node (nx, ny, nz) q -> node_value t (c_index (nx, ny, nz) q)
              = (a + b * comp 0 (of_node q) + c * comp 1 (of_node q) + d * comp 2 (of_node q))%R).
    { intros q Hq. rewrite c_index_flat, node_value_value by (apply flat_range, Hq). apply H, Hq. }
    assert (Hc : forall m u, 2 <= m -> 0 <= cell m u /\ cell m u + 1 < m) by (intros m u Hm; unfold cell; lia).
    destruct (Hc nx x Nx). destruct (Hc ny y Ny). destruct (Hc nz z Nz).
    unfold traveltime_to. cbv zeta. rewrite !Hnv by (cbn; lia). cbn [of_node comp Z.eqb Pos.eqb]. rewrite !plus_IZR. ring.
  - intros v lo hi Hv Hq. exact (traveltime_bounds n t v lo hi Hn Hv Hq).
Qed.
Print Assumptions C59_interpolation.

(** C59. The traveltime used for the arrivals of an event is the table entry of the node nearest
    to the hypocentre (hence exact for a hypocentre at a node). Missing from the claim: the
    traveltime of the hypocentre itself when it lies between nodes. *)
Theorem C59_nearest_entry_partial :
  forall transform g t hypocentre, let n := g_count g in
  let v := transform (g_cproj g) (g_gproj g) hypocentre in
  grid_ok g -> (let '(nx, ny, nz) := n in 2 <= nx /\ 2 <= ny /\ 2 <= nz) -> inside g v ->
  exists q, is_node n q /\ (forall q', (dist2 v (node2grid g q) <= dist2 v (node2grid g q'))%R)
  /\ arrival_traveltime transform g t hypocentre = at_node n t q
  /\ (forall q', v = node2grid g q' -> q = q').
Proof.
  intros transform g t hyp n v Hg Hn Hin. exists (grid2node g v).
  assert (Hq : is_node n (grid2node g v)) by (apply inside_is_node; assumption).
  split; [exact Hq|]. split; [intros q'; apply nearest_node, Hg|]. split.
  - unfold arrival_traveltime, coord2index, coord2grid. fold v.
    rewrite <- (traveltime_at_node n t _ Hn Hq). destruct (grid2node g v) as ((i, j), k). reflexivity.
  - intros q' E. rewrite E. apply C43_index_roundtrip, Hg.
Qed.
Print Assumptions C59_nearest_entry_partial.

Definition grid222 : grid := mk_grid (0, 0, 0)%R (1, 1, 1)%R (2, 2, 2) 1 1.
Lemma grid222_ok : grid_ok grid222.
Proof. unfold grid_ok. cbn. repeat split; try lra; lia. Qed.
Example C59_applies : inside grid222 (1/4, 0, 0)%R.
Proof. unfold inside, axis_coord. cbn. repeat split; lra. Qed.

(** C59 is false between nodes: the interpolation is never effective. Table: traveltime equal to
    the first index; hypocentre a quarter of the way to the next node. *)
Theorem C59_off_node_refuted :
  exists g t hypocentre, grid_ok g /\ inside g hypocentre /\ frac2grid g hypocentre = hypocentre
  /\ traveltime_to (g_count g) t hypocentre = (1/4)%R
  /\ arrival_traveltime (fun _ _ v => v) g t hypocentre = 0%R.
Proof.
  exists grid222, [0; 0; 0; 0; 1; 1; 1; 1]%R, (1/4, 0, 0)%R. split; [exact grid222_ok|]. split; [exact C59_applies|]. split.
  { unfold frac2grid, vmap2. cbn. f_equal; [f_equal|]; field. }
  split.
  - destruct (C59_interpolation (2, 2, 2) [0; 0; 0; 0; 1; 1; 1; 1]%R ltac:(cbn; lia)) as (_ & H & _).
    cbn [g_count grid222]. rewrite (H 0 1 0 0)%R; [cbn [comp Z.eqb Pos.eqb]; lra|].
    intros ((i, j), k) (Hi & Hj & Hk). cbn [of_node comp Z.eqb Pos.eqb]. unfold at_node, value, flat.
    assert (Ci : i = 0 \/ i = 1) by lia. assert (Cj : j = 0 \/ j = 1) by lia. assert (Ck : k = 0 \/ k = 1) by lia.
    destruct Ci as [->| ->], Cj as [->| ->], Ck as [->| ->]; lazy -[Rplus Rmult IZR]; lra.
  - destruct (C59_nearest_entry_partial (fun _ _ v => v) grid222 [0; 0; 0; 0; 1; 1; 1; 1]%R (1/4, 0, 0)%R grid222_ok ltac:(cbn; lia) C59_applies)
      as (((i, j), k) & (Hi & Hj & Hk) & Hd & E & _).
    rewrite E. unfold at_node, value, flat. specialize (Hd (0, 0, 0)). rewrite !node2grid_eq in Hd. cbn [g_ll g_spacing grid222] in Hd. unfold dist2 in Hd.
    assert (Ci : i = 0 \/ i = 1) by lia. assert (Cj : j = 0 \/ j = 1) by lia. assert (Ck : k = 0 \/ k = 1) by lia.
    destruct Ci as [->| ->], Cj as [->| ->], Ck as [->| ->]; try reflexivity; exfalso;
      lazy -[Rplus Rmult Rminus Rdiv Rle IZR Rinv] in Hd; lra.
Qed.
Print Assumptions C59_off_node_refuted.

(** C60. The processed waveforms written are those of the channels with a response, of the kind
    and in the units asked for, if a cut was requested or no processed waveforms are cached.
    Missing from the claim: cached waveforms. *)
Theorem C60_processed_waveforms_partial :
  forall responds what u cut chans k, what <> Raw ->
  (cut = true \/ (what = Real /\ real_waveforms k = None) \/ (what = WoodAnderson /\ wa_waveforms k = None)) ->
  fst (write_processed responds what u cut chans k)
  = Ret (map (fun ch => mk_product ch what u) (filter responds chans)).
Proof.
  intros responds what u cut chans k Hw H. unfold write_processed. destruct what; [congruence| |].
  - assert (E : forall k0, fst (get_waveforms (fun ch => get_real responds ch u) chans k0)
                = Ret (map (fun ch => mk_product ch Real u) (filter responds chans))).
    { intros k0. apply get_waveforms_ok. intros ch k1. apply get_real_ok. }
    destruct (real_waveforms k) as [st|]; [|apply E]. destruct H as [->|[[_ H]|[H _]]]; [apply E|discriminate|discriminate].
  - assert (E : forall k0, fst (get_waveforms (fun ch => get_wa responds ch u) chans k0)
                = Ret (map (fun ch => mk_product ch WoodAnderson u) (filter responds chans))).
    { intros k0. apply get_waveforms_ok. intros ch k1. apply get_wa_ok. }
    destruct (wa_waveforms k) as [st|]; [|apply E]. destruct H as [->|[[H _]|[_ H]]]; [apply E|discriminate|discriminate].
Qed.
Print Assumptions C60_processed_waveforms_partial.
Example C60_applies : fst (write_processed (fun ch => negb (ch =? 2)) WoodAnderson Velocity true [1; 2; 3] (mk_caches None None))
  = Ret [mk_product 1 WoodAnderson Velocity; mk_product 3 WoodAnderson Velocity].
Proof. reflexivity. Qed.

(** C60 is false after a magnitude calculation without cuts: the cached waveforms are written, in
    displacement units although velocity was asked for, and only for the channels measured. *)
Theorem C60_cached_units_refuted :
  exists responds measured chans, let k := measure_amplitudes responds measured (mk_caches None None) in
  exists st, fst (write_processed responds Real Velocity false chans k) = Ret st
  /\ (exists p, In p st /\ p_units p = Displacement)
  /\ (exists ch, In ch chans /\ responds ch = true /\ ~ In ch (map p_chan st)).
Proof.
  exists (fun _ => true), [1], [1; 2]. exists [mk_product 1 Real Displacement]. split; [reflexivity|]. split.
  - exists (mk_product 1 Real Displacement). split; [left; reflexivity|reflexivity].
  - exists 2. split; [right; left; reflexivity|]. split; [reflexivity|]. intros [N|[]]. discriminate.
Qed.
Print Assumptions C60_cached_units_refuted.

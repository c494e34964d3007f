(** Properties C22 to C26 of the scan store (io/scanmseed.py). *)
From Coq Require Import List ZArith Reals Bool Lia Lra.
From Verif Require Import Lib LibFacts Timeline_Model Timeline_Spec Timeline_Proofs Timeline_Props
  ScanMseed_Model ScanMseed_Spec ScanMseed_Proofs.
Import ListNotations.
Open Scope Z_scope.

(** C22. Every row in the supported range is stored without overflow and read back to within
    half of the last stored digit; coalescence above 21474 is read back as 21474. *)
Theorem C22_read_back_to_half_a_digit :
  forall (ucf : R) (r : row R), (0 < ucf ->
  0 <= coa r -> 0 <= coa_n r -> Rabs (px r) <= 2147 -> Rabs (py r) <= 2147 ->
  Rabs (pz r * (1000 * ucf)) <= 2147483647 ->
  exists z, encode_row ucf r = Some z /\
    let r' := decode_row ucf z in
    Rabs (coa r' - Rmin (coa r) 21474) <= 5 / 1000000 /\
    Rabs (coa_n r' - Rmin (coa_n r) 21474) <= 5 / 1000000 /\
    Rabs (px r' - px r) <= 5 / 10000000 /\
    Rabs (py r' - py r) <= 5 / 10000000 /\
    Rabs (pz r' - pz r) <= 1 / (2 * (1000 * ucf)))%R.
Proof.
  intros ucf r Hu Ha Hb Hx Hy Hz.
  assert (Hc : forall x, (0 <= x -> clip_coa x = Rmin x 21474)%R).
  { intros x H. unfold clip_coa, Rmin. destruct (Rlt_dec 21474 x), (Rle_dec x 21474); lra. }
  apply Rabs_le_inv in Hx, Hy, Hz.
  pose proof (clip_coa_range (coa r) Ha) as Ca. pose proof (clip_coa_range (coa_n r) Hb) as Cb.
  unfold encode_row. rewrite !data2int_ok by lra. eexists. split; [reflexivity|].
  cbv zeta. cbn [decode_row coa coa_n px py pz].
  rewrite <- !Hc by assumption.
  pose proof (decode_near (clip_coa (coa r)) 100000 ltac:(lra)).
  pose proof (decode_near (clip_coa (coa_n r)) 100000 ltac:(lra)).
  pose proof (decode_near (px r) 1000000 ltac:(lra)).
  pose proof (decode_near (py r) 1000000 ltac:(lra)).
  pose proof (decode_near (pz r) (1000 * ucf) ltac:(lra)).
  repeat split; lra || assumption.
Qed.
Print Assumptions C22_read_back_to_half_a_digit.

(** C22. Storing never swaps two values: if one row is at most another in some channel, so are
    the stored integers. *)
Theorem C22_order_preserved :
  forall (ucf : R) (r1 r2 : row R) z1 z2, (0 < ucf)%R ->
  encode_row ucf r1 = Some z1 -> encode_row ucf r2 = Some z2 ->
  ((coa r1 <= coa r2)%R -> coa z1 <= coa z2) /\ ((coa_n r1 <= coa_n r2)%R -> coa_n z1 <= coa_n z2)
  /\ ((px r1 <= px r2)%R -> px z1 <= px z2) /\ ((py r1 <= py r2)%R -> py z1 <= py z2)
  /\ ((pz r1 <= pz r2)%R -> pz z1 <= pz z2).
Proof.
  intros ucf r1 r2 z1 z2 Hu E1 E2.
  assert (M : forall x y f a b, (0 < f)%R -> data2int x f = Some a -> data2int y f = Some b -> (x <= y)%R -> a <= b).
  { intros x y f a b Hf Ex Ey Hxy. unfold data2int, int32 in Ex, Ey.
    destruct (_ && _) in Ex; [|discriminate]. destruct (_ && _) in Ey; [|discriminate].
    injection Ex as <-. injection Ey as <-. apply np_round_mono. apply Rmult_le_compat_r; lra. }
  unfold encode_row in E1, E2.
  destruct (data2int (clip_coa (coa r1)) 100000) eqn:A1; [|discriminate].
  destruct (data2int (clip_coa (coa_n r1)) 100000) eqn:B1; [|discriminate].
  destruct (data2int (px r1) 1000000) eqn:X1; [|discriminate].
  destruct (data2int (py r1) 1000000) eqn:Y1; [|discriminate].
  destruct (data2int (pz r1) (1000 * ucf)) eqn:Z1; [|discriminate]. injection E1 as <-.
  destruct (data2int (clip_coa (coa r2)) 100000) eqn:A2; [|discriminate].
  destruct (data2int (clip_coa (coa_n r2)) 100000) eqn:B2; [|discriminate].
  destruct (data2int (px r2) 1000000) eqn:X2; [|discriminate].
  destruct (data2int (py r2) 1000000) eqn:Y2; [|discriminate].
  destruct (data2int (pz r2) (1000 * ucf)) eqn:Z2; [|discriminate]. injection E2 as <-.
  cbn [coa coa_n px py pz].
  repeat split; intros H.
  - eapply M; [| exact A1 | exact A2 |]; [lra|apply clip_coa_mono; assumption].
  - eapply M; [| exact B1 | exact B2 |]; [lra|apply clip_coa_mono; assumption].
  - eapply M; [| exact X1 | exact X2 | assumption]; lra.
  - eapply M; [| exact Y1 | exact Y2 | assumption]; lra.
  - eapply M; [| exact Z1 | exact Z2 | assumption]; lra.
Qed.
Print Assumptions C22_order_preserved.

Example C22_applies : exists z, encode_row 1000 (mk_row (12345 / 10000) (-0) (-16) 64 (5 / 2))%R = Some z
  /\ coa z = 123450 /\ pz z = 2500000.
Proof.
  unfold encode_row. cbn [coa coa_n px py pz].
  assert (C1 : clip_coa (12345 / 10000) = (12345 / 10000)%R) by (unfold clip_coa; destruct (Rlt_dec _ _); lra).
  assert (C2 : clip_coa (-0) = 0%R) by (unfold clip_coa; destruct (Rlt_dec _ _); lra).
  rewrite C1, C2, !data2int_ok by lra. eexists. split; [reflexivity|]. cbn [coa pz]. split.
  - replace (12345 / 10000 * 100000)%R with (IZR 123450) by lra. apply np_round_IZR.
  - replace (5 / 2 * (1000 * 1000))%R with (IZR 2500000) by lra. apply np_round_IZR.
Qed.

Section OnGrid.
(** The sample grid used in C23 to C26: whole samples per day, start of the run on a sample. *)
Lemma grid_ok c start : 0 < sec c -> 0 < delta c -> (delta c | 86400 * sec c) -> (delta c | start) ->
  exists D p, 0 < D /\ day c = D * delta c /\ start = p * delta c.
Proof.
  intros Hs Hd [D HD] [p Hp]. exists D, p. unfold day. repeat split; try assumption. nia.
Qed.
End OnGrid.

(** C23. After a run over any sequence of timesteps, the file of every date on which the run has
    samples holds exactly those samples, in order, and no other file has changed. The result
    does not depend on continuous_scanmseed_write. *)
Theorem C23_each_sample_in_the_file_of_its_date :
  forall {A} c (fs : @files A) start l,
  0 < sec c -> 0 < delta c -> (delta c | 86400 * sec c) -> (delta c | start) ->
  l <> [] -> consecutive c start l ->
  exists fs1 fs2, detect_run c false fs l = Ret fs1 /\ detect_run c true fs l = Ret fs2 /\
  forall d, fs1 d = fs2 d
    /\ (on_date c d (run_samples c l) <> [] -> file_samples c (fs1 d) = on_date c d (run_samples c l))
    /\ (on_date c d (run_samples c l) = [] -> fs1 d = fs d).
Proof.
  intros A c fs start l Hs Hd Hg Hst Hl Hc.
  destruct (grid_ok c start Hs Hd Hg Hst) as (D & p & HD & Hday & ->).
  destruct (detect_run_ok c D Hd HD Hday false fs p l Hl Hc) as (fs1 & E1 & H1).
  destruct (detect_run_ok c D Hd HD Hday true fs p l Hl Hc) as (fs2 & E2 & H2).
  exists fs1, fs2. split; [assumption|]. split; [assumption|]. intros d.
  destruct (after_spec c D Hd HD Hday fs p l d Hc) as [S1 S2].
  rewrite H1, H2. repeat split; assumption.
Qed.
Print Assumptions C23_each_sample_in_the_file_of_its_date.

(** C23: the blocks that a detect() run appends are consecutive, so the theorem above applies
    to it (rates dividing 1000 Hz, as for C16). *)
Theorem C23_applies_to_detect_partial :
  forall {A} c starttime timestep pre0 post0 pre post n (data : Z -> trace) (vals : Z -> list A),
  clock_ok c -> integer_rate c -> whole_ms c -> 0 < timestep <= 86400 * sec c -> (delta c | timestep) ->
  0 <= pre0 -> 0 <= post0 -> onset_pad c timestep pre0 post0 = (pre, post) ->
  (forall i, Z.of_nat (length (vals i)) = snd (detect_step c starttime timestep pre post i (data i))) ->
  consecutive c starttime
    (map (fun i => mk_seg (fst (detect_step c starttime timestep pre post i (data i))) (vals i)) (zrange n)).
Proof.
  intros A c starttime timestep pre0 post0 pre post n data vals Hc Hr Hm Hts Hd Hp Hq E Hv.
  pose proof (delta_pos c Hc) as Hdp.
  assert (Hn : 0 < timestep / delta c) by (apply Z.div_str_pos; pose proof (Z.divide_pos_le _ _ (proj1 Hts) Hd); lia).
  assert (Em : timestep / delta c * delta c = timestep).
  { destruct Hd as [k Hk]. rewrite Hk. rewrite Z.div_mul by lia. reflexivity. }
  assert (Es : forall i, detect_step c starttime timestep pre post i (data i) = (starttime + timestep * i, timestep / delta c)).
  { intros i. apply (detect_step_ok c Hc timestep pre0 post0); (assumption || lia). }
  unfold zrange. replace starttime with (starttime + timestep * 0) at 1 by ring. generalize 0.
  induction (Z.to_nat n) as [|k IH]; intros i; cbn [zseq map consecutive]; [exact I|].
  rewrite Es. cbn [fst t0 rows]. specialize (Hv i). rewrite Es in Hv. cbn [snd] in Hv. rewrite Hv.
  split; [reflexivity|]. split; [intros E0; rewrite E0 in Hv; cbn in Hv; lia|].
  rewrite Em. split; [lia|]. replace (starttime + timestep * i + timestep) with (starttime + timestep * (i + 1)) by ring.
  apply IH.
Qed.
Print Assumptions C23_applies_to_detect_partial.

(** C23 fails when the run has no timestep: nothing was appended and the final write() raises
    IndexError (e.g. start and end the same, or one sample before midnight and midnight). *)
Theorem C23_empty_run_raises_refuted : forall {A} c cw (fs : @files A), detect_run c cw fs [] = Raise IndexError.
Proof. reflexivity. Qed.
Print Assumptions C23_empty_run_raises_refuted.
Example C23_empty_run_reachable :
  n_steps hz50 (60 * 100000) (60 * 100000) 12000000 = 0
  /\ n_steps hz50 (86400 * 100000 - 2000) (86400 * 100000) 12000000 = 0.
Proof. split; vm_compute; reflexivity. Qed.

(** C23 fails when the start time is off the sample grid by more than half a sample: the sample
    before midnight is kept back, and the next timestep raises ValueError. (50 Hz, start 15 ms
    after a sample.) *)
Theorem C23_off_sample_start_raises_refuted :
  exists c start (l : list (seg Z)), clock_ok c /\ integer_rate c /\ whole_ms c /\ l <> [] /\
    consecutive c start l /\ detect_run c false (fun _ => None) l = Raise ValueError.
Proof.
  exists hz50, (8640000000 - 4000 + 1500),
    [mk_seg (8640000000 - 4000 + 1500) [1; 2]; mk_seg (8640000000 + 1500) [3; 4]; mk_seg (8640000000 + 5500) [5; 6]].
  destruct hz50_ok as (H1 & H2 & H3). split; [assumption|]. split; [assumption|]. split; [assumption|].
  split; [discriminate|]. split; [cbn; repeat split; (discriminate || lia)|]. vm_compute. reflexivity.
Qed.
Print Assumptions C23_off_sample_start_raises_refuted.

(** C24. Stop a run after any number of timesteps: the file of every date that ended by then -
    with continuous_scanmseed_write, of every date - holds exactly the run's samples of that
    date; no other file has changed. *)
Theorem C24_crash_between_timesteps :
  forall {A} c cw (fs : @files A) start l,
  0 < sec c -> 0 < delta c -> (delta c | 86400 * sec c) -> (delta c | start) ->
  consecutive c start l ->
  exists fs' o, appends c cw fs new_scanmseed l = Ret (fs', o) /\
  forall d,
    (on_date c d (run_samples c l) <> [] -> cw = true \/ (d + 1) * (86400 * sec c) <= run_end c start l ->
       file_samples c (fs' d) = on_date c d (run_samples c l))
    /\ (on_date c d (run_samples c l) = [] -> fs' d = fs d).
Proof.
  intros A c cw fs start l Hs Hd Hg Hst Hc.
  destruct (grid_ok c start Hs Hd Hg Hst) as (D & p & HD & Hday & ->).
  destruct (appends_ok c D Hd HD Hday cw fs p l [] (fs, new_scanmseed) (inv_new c D HD cw fs p)) as ([fs' o] & E & _ & Hf & _).
  { cbn [length]. rewrite Z.add_0_r. exact Hc. }
  cbn [fst snd app] in *. exists fs', o. split; [exact E|]. intros d.
  rewrite (run_samples_eq c _ _ Hc), (on_date_eq c D Hd HD Hday). rewrite Hf. unfold after.
  destruct (day_file c D p (flat_map rows l) d) eqn:Ef.
  - split.
    + intros _ H. replace (cw || ((d + 1) * D <=? p + Z.of_nat (length (flat_map rows l)))) with true; [reflexivity|].
      symmetry. apply orb_true_iff. destruct H as [H|H]; [left; assumption|right]. apply Z.leb_le.
      unfold run_end in H. unfold day in Hday. rewrite Hday in H.
      apply (Z.mul_le_mono_pos_r _ _ (delta c) Hd). lia.
    + intros H. exfalso. eapply file_samples_day_file_nonempty; eassumption.
  - split; [intros H; contradiction|]. intros _. destruct (_ || _); reflexivity.
Qed.
Print Assumptions C24_crash_between_timesteps.

Example C23_C24_apply :
  let c := hz50 in let M := 8640000000 in
  let l := [mk_seg (M - 4000) [1; 2; 3]; mk_seg (M + 2000) [4; 5; 6]] in
  consecutive c (M - 4000) l
  /\ on_date c 0 (run_samples c l) = [(M - 4000, 1); (M - 2000, 2)]
  /\ on_date c 1 (run_samples c l) = [(M, 3); (M + 2000, 4); (M + 4000, 5); (M + 6000, 6)]
  /\ 1 * (86400 * sec c) <= run_end c (M - 4000) l.
Proof.
  cbv zeta. split; [cbn; repeat split; (discriminate || lia)|].
  split; [vm_compute; reflexivity|]. split; [vm_compute; reflexivity|]. vm_compute. discriminate.
Qed.

(** C25, what holds: two runs that share no date leave both outputs on disk. *)
Theorem C25_runs_on_different_dates_partial :
  forall {A} c cw1 cw2 (fs : @files A) s1 l1 s2 l2,
  0 < sec c -> 0 < delta c -> (delta c | 86400 * sec c) -> (delta c | s1) -> (delta c | s2) ->
  l1 <> [] -> l2 <> [] -> consecutive c s1 l1 -> consecutive c s2 l2 ->
  (forall d, on_date c d (run_samples c l1) = [] \/ on_date c d (run_samples c l2) = []) ->
  exists fs1 fs2, detect_run c cw1 fs l1 = Ret fs1 /\ detect_run c cw2 fs1 l2 = Ret fs2 /\
  forall d,
    (on_date c d (run_samples c l1) <> [] -> file_samples c (fs2 d) = on_date c d (run_samples c l1))
    /\ (on_date c d (run_samples c l2) <> [] -> file_samples c (fs2 d) = on_date c d (run_samples c l2)).
Proof.
  intros A c cw1 cw2 fs s1 l1 s2 l2 Hs Hd Hg Hs1 Hs2 Hl1 Hl2 Hc1 Hc2 Hdis.
  destruct (grid_ok c s1 Hs Hd Hg Hs1) as (D & p1 & HD & Hday & ->).
  destruct Hs2 as [p2 ->].
  destruct (detect_run_ok c D Hd HD Hday cw1 fs p1 l1 Hl1 Hc1) as (fs1 & E1 & H1).
  destruct (detect_run_ok c D Hd HD Hday cw2 fs1 p2 l2 Hl2 Hc2) as (fs2 & E2 & H2).
  exists fs1, fs2. split; [assumption|]. split; [assumption|]. intros d.
  destruct (after_spec c D Hd HD Hday fs p1 l1 d Hc1) as [A1 A2].
  destruct (after_spec c D Hd HD Hday fs1 p2 l2 d Hc2) as [B1 B2].
  rewrite H2. split; [|exact B1]. intros Hne. destruct (Hdis d) as [H|H]; [contradiction|].
  rewrite B2 by exact H. rewrite H1. apply A1. exact Hne.
Qed.
Print Assumptions C25_runs_on_different_dates_partial.

(** C25 fails for two periods on the same date: the second run replaces the file. *)
Theorem C25_same_date_overwritten_refuted :
  exists c (l1 l2 : list (seg Z)) fs1 fs2, clock_ok c /\ integer_rate c /\ whole_ms c /\
    consecutive c 0 l1 /\ consecutive c 360000000 l2 /\
    detect_run c false (fun _ => None) l1 = Ret fs1 /\ detect_run c false fs1 l2 = Ret fs2 /\
    run_samples c l1 = [(0, 1); (2000, 2)] /\ forall d p, In p (run_samples c l1) -> ~ In p (file_samples c (fs2 d)).
Proof.
  destruct hz50_ok as (H1 & H2 & H3).
  assert (K1 : consecutive hz50 0 [mk_seg 0 [1; 2]]) by (cbn; repeat split; (discriminate || lia)).
  assert (K2 : consecutive hz50 360000000 [mk_seg 360000000 [3; 4]]) by (cbn; repeat split; (discriminate || lia)).
  assert (G : (delta hz50 | 86400 * sec hz50)) by (exists 4320000; reflexivity).
  destruct (C23_each_sample_in_the_file_of_its_date hz50 (fun _ => None) 0 [mk_seg 0 [1; 2]])
    as (fs1 & fs1' & E1 & _ & S1); [reflexivity|reflexivity|exact G|exists 0; reflexivity|discriminate|exact K1|].
  destruct (C23_each_sample_in_the_file_of_its_date hz50 fs1 360000000 [mk_seg 360000000 [3; 4]])
    as (fs2 & fs2' & E2 & _ & S2); [reflexivity|reflexivity|exact G|exists 180000; reflexivity|discriminate|exact K2|].
  exists hz50, [mk_seg 0 [1; 2]], [mk_seg 360000000 [3; 4]], fs1, fs2.
  do 7 (split; [assumption|]). split; [reflexivity|].
  intros d p Hp Hi. destruct (S1 d) as (_ & _ & U1). destruct (S2 d) as (_ & V2 & U2).
  destruct (Z.eq_dec d 0) as [->|Hd].
  - rewrite V2 in Hi by (vm_compute; discriminate). vm_compute in Hp, Hi. intuition (subst; congruence).
  - assert (N1 : forall (t1 t2 v1 v2 : Z), t1 / (86400 * sec hz50) = 0 -> t2 / (86400 * sec hz50) = 0 ->
              on_date hz50 d [(t1, v1); (t2, v2)] = []).
    { intros t1 t2 v1 v2 Q1 Q2. unfold on_date. cbn [filter fst]. rewrite Q1, Q2.
      rewrite (proj2 (Z.eqb_neq 0 d)) by congruence. reflexivity. }
    rewrite U2 in Hi by (apply N1; reflexivity). rewrite U1 in Hi by (apply N1; reflexivity). exact Hi.
Qed.
Print Assumptions C25_same_date_overwritten_refuted.

Example C25_applies : let c := hz50 in let M := 8640000000 in
  forall d, on_date c d (run_samples c [mk_seg 0 [1; 2]]) = [] \/ on_date c d (run_samples c [mk_seg M [3; 4]]) = [].
Proof.
  cbv zeta. intros d. unfold on_date, run_samples, samples. cbn [flat_map samples_from t0 rows app filter fst hz50 sec delta].
  change (0 / (86400 * 100000)) with 0. change ((0 + 2000) / (86400 * 100000)) with 0.
  change (8640000000 / (86400 * 100000)) with 1. change ((8640000000 + 2000) / (86400 * 100000)) with 1.
  destruct (Z.eqb_spec 0 d); [right; subst; reflexivity|left; reflexivity].
Qed.

(** C26, what holds: after a run, read_scanmseed returns exactly the run's samples between
    starttime - pad and endtime + pad, in order, or reports that there are none. Requested times
    on the sample grid; no older file on the dates read other than those the run replaced (so no gap between files). *)
Theorem C26_reads_back_the_run_partial :
  forall {A} c cw (fs fs' : @files A) start l starttime endtime pad,
  0 < sec c -> 0 < delta c -> (delta c | 86400 * sec c) -> (delta c | start) ->
  l <> [] -> consecutive c start l -> detect_run c cw fs l = Ret fs' ->
  (delta c | starttime - pad) -> (delta c | endtime + pad) ->
  (forall d, (starttime - pad) / (86400 * sec c) <= d <= (endtime + pad) / (86400 * sec c) ->
     on_date c d (run_samples c l) = [] -> fs d = None) ->
  let wanted := between (starttime - pad) (endtime + pad) (run_samples c l) in
  match read_scanmseed c fs' starttime endtime pad with
  | Ret g => samples c g = wanted /\ wanted <> []
  | Raise e => e = NoScanMseedData /\ wanted = []
  | Undef => False
  end.
Proof.
  intros A c cw fs fs' start l starttime endtime pad Hs Hd Hg Hst Hl Hc E [b Hb] [e He] Hnone wanted.
  destruct (grid_ok c start Hs Hd Hg Hst) as (D & p & HD & Hday & ->).
  destruct (detect_run_ok c D Hd HD Hday cw fs p l Hl Hc) as (fs1 & E1 & H1). rewrite E in E1. injection E1 as <-.
  subst wanted. rewrite (run_samples_eq c _ _ Hc).
  apply (read_back c D Hd HD Hday fs p (flat_map rows l) fs' b (e + 1)); [assumption|assumption|rewrite He; ring|].
  intros d Hr Hdf. apply Hnone; [exact Hr|]. rewrite (run_samples_eq c _ _ Hc), (on_date_eq c D Hd HD Hday), Hdf. reflexivity.
Qed.
Print Assumptions C26_reads_back_the_run_partial.

(** C26 fails when a file in between is missing (or a file has a gap): only the data before the
    gap are returned. *)
Theorem C26_data_after_a_gap_dropped_refuted :
  exists c (fs : @files Z) starttime endtime pad g,
  clock_ok c /\ integer_rate c /\ whole_ms c /\
  read_scanmseed c fs starttime endtime pad = Ret g /\
  exists d t, In (t, 9) (file_samples c (fs d)) /\ t / (86400 * sec c) = d /\
    starttime <= t <= endtime /\ ~ In (t, 9) (samples c g).
Proof.
  exists hz50, (fun d => if d =? 0 then Some [mk_seg 1000000 [1; 2]] else if d =? 1 then Some [mk_seg 8640000000 [9; 9]] else None),
    0, 17280000000, 0. eexists.
  destruct hz50_ok as (H1 & H2 & H3). split; [assumption|]. split; [assumption|]. split; [assumption|].
  split; [vm_compute; reflexivity|]. exists 1, 8640000000. split; [cbn; left; reflexivity|].
  split; [vm_compute; reflexivity|]. split; [lia|]. cbn. intuition congruence.
Qed.
Print Assumptions C26_data_after_a_gap_dropped_refuted.

Example C26_applies : let c := hz50 in let M := 8640000000 in
  match detect_run c false (fun _ => None) [mk_seg (M - 4000) [1; 2; 3]; mk_seg (M + 2000) [4; 5; 6]] with
  | Ret fs' =>
      match read_scanmseed c fs' (M - 2000) (M + 2000) 0 with
      | Ret g => samples c g = [(M - 2000, 2); (M, 3); (M + 2000, 4)]
      | _ => False
      end
  | _ => False
  end.
Proof. vm_compute. reflexivity. Qed.

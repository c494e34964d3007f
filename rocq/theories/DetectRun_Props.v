(** C124: the scan of an archive, from the waveforms to the stored coalescence and the triggered events. *)
From Coq Require Import String Ascii.
From Coq Require Import List ZArith Reals QArith Qreals Bool Lia Lra.
From Verif Require Import Lib LibFacts PyDict Timeline_Model Timeline_Spec ScanMseed_Model ScanMseed_Spec Migrate_Spec Lut_Spec Locate_Spec Resample_Spec Onset_Model Onset_Spec Compute_Spec DetectRun_Model DetectRun_Spec DetectRun_Proofs.
From Verif Require Avail_Model Migrate_Model Lut_Model ScanMseed_Proofs ScanMseed_Props Pipeline_Model Pipeline_Spec Pipeline_Proofs Pipeline_Props Trigger_Model Trigger_Spec Lut_Props Onset_Props Compute_Props Gain_Spec Gain_Props Shift_Spec Shift_Props.
Import ListNotations.
Open Scope Z_scope.

Lemma forall2_rd {A B} (P : A -> B -> Prop) : forall a b, Forall2 P a b -> forall i x, rd a i = Some x -> exists y, rd b i = Some y /\ P x y.
Proof.
  induction 1 as [|x y a b Hp _ IH]; intros i u Hi; [rewrite rd_nil in Hi; discriminate|]. pose proof (rd_bounds _ _ _ _ Hi) as Bi. rewrite rd_cons in Hi |- *. destruct (Z.eqb_spec i 0) as [->|N].
  - injection Hi as <-. exists y. auto.
  - apply IH. exact Hi.
Qed.
Lemma rd_combine {A B} : forall (a : list A) (b : list B) i x y, rd a i = Some x -> rd b i = Some y -> rd (combine a b) i = Some (x, y).
Proof.
  induction a as [|u a IH]; intros [|v b] i x y Ha Hb; rewrite ?rd_nil in *; try discriminate. pose proof (rd_bounds _ _ _ _ Ha) as Bi. cbn [combine]. rewrite rd_cons in Ha, Hb |- *. destruct (i =? 0); [congruence|]. apply IH; assumption.
Qed.

(** Partial: the Python backend, names without underscores, pads that cover the traveltimes, whole milliseconds per sample, start time and timestep on samples (all in [scan_ready]); traces on their sampling times ([answers]).
    The scan completes. It stores one block per timestep, each beginning at the end of the one before; the samples are the peaks over the grid of the stack of the onset functions of that timestep; a timestep without data is zeros; the rows
    of the availability table go with it. *)
Theorem C124_scan_partial :
  forall lowpass taper tiny secs k transform ucf l r0 r1 tab stations starttime timestep pre post cw read fs afs n,
  scan_ready lowpass taper tiny secs k transform ucf l tab stations starttime timestep pre post -> 0 < n ->
  let c := o_clock secs k in let w i := step_window c starttime timestep pre post i in
  (forall i, 0 <= i < n -> answers secs k stations (fst (w i)) (snd (w i)) (read (fst (w i)) (snd (w i)))) ->
  exists blocks table fs',
    continuous_compute lowpass taper tiny secs k transform ucf l r0 r1 cw read stations fs afs starttime timestep n
      = Ret (fs', Avail_Model.write_availability c afs (Avail_Model.mk_atable (columns k stations) table))
    /\ Pipeline_Model.store_run c ucf cw fs blocks = Ret fs' /\ consecutive c starttime blocks
    /\ Z.of_nat (length blocks) = n /\ Z.of_nat (length table) = n
    /\ forall i, 0 <= i < n -> exists rs a,
         rd blocks i = Some (mk_seg (starttime + timestep * i) rs) /\ rd table i = Some (starttime + timestep * i, a)
         /\ Z.of_nat (length rs) * delta c = timestep
         /\ step_result lowpass taper tiny secs k transform l tab stations pre (read (fst (w i)) (snd (w i))) rs a.
Proof.
  intros lp tp tiny secs k tr ucf l r0 r1 tab stations starttime timestep pre post cw read fs afs n S Hn c w Ha.
  destruct (steps_ok lp tp tiny secs k tr ucf l r0 r1 tab stations starttime timestep pre post S read (zrange n)) as (bl & F). { intros i Hi. apply in_zrange in Hi. apply Ha, Hi. }
  assert (Lb : Z.of_nat (length bl) = n). { clear - F Hn. assert (length bl = length (zrange n)) by (induction F; cbn [length]; congruence). rewrite H, zrange_length. lia. }
  assert (Ez : zrange n = zseq 0 (length bl)) by (unfold zrange; f_equal; lia). rewrite Ez in F.
  destruct (run_ok lp tp tiny secs k tr ucf l r0 r1 tab stations starttime timestep pre post S read cw fs afs 0 bl) as (Cs & fs' & E1 & E2).
  { intros ->. cbn in Lb. lia. }
  { clear - F. induction F as [|? ? ? ? H _ IH]; constructor; tauto. }
  eexists _, _, fs'. split.
  { unfold continuous_compute. unfold d_clock. rewrite (sr_pads _ _ _ _ _ _ _ _ _ _ _ _ _ _ S). cbn [fst snd]. rewrite Ez. exact E2. }
  split; [exact E1|]. rewrite Z.mul_0_r, Z.add_0_r in Cs. split; [exact Cs|]. rewrite !map_length, combine_length, <- Ez, zrange_length. split; [lia|]. split; [lia|].
  intros i Hi. rewrite Ez. assert (Ri : rd (zseq 0 (length bl)) i = Some i) by (rewrite rd_zseq by lia; reflexivity). destruct (forall2_rd _ _ _ F i i Ri) as ([rs a] & Rb & (R1 & R2 & _)). cbn [fst snd] in R1, R2.
  exists rs, a. rewrite !rd_map, (rd_combine _ _ i i (rs, a) Ri Rb). cbn [option_map fst snd block_of]. split; [reflexivity|]. split; [reflexivity|]. split; [|exact R1].
  destruct (sr_delta lp tp tiny secs k tr ucf l tab stations starttime timestep pre post S) as (Dp & _). rewrite R2. unfold c. cbn [o_clock delta]. destruct (sr_whole _ _ _ _ _ _ _ _ _ _ _ _ _ _ S) as [m Em]. rewrite Em, Z.div_mul by lia. reflexivity.
Qed.
Print Assumptions C124_scan_partial.

(** Partial: as above, a static threshold above the rounding, coalescence not normalised, no older files. Every event triggered from the stored scan is at a sample of the scan, at the node where the stack of the onset functions of that
    timestep is largest, and that stack reaches the threshold, to the rounding of the store. *)
Theorem C124_events_partial :
  forall lowpass taper tiny secs k transform (ucf : Q) l r0 r1 tab stations starttime timestep pre post cw read fs afs n fs' afs' p s e v0 v1 es ev,
  scan_ready lowpass taper tiny secs k transform (Q2R ucf) l tab stations starttime timestep pre post -> (0 < ucf)%Q -> 0 < n ->
  let c := o_clock secs k in let w i := step_window c starttime timestep pre post i in
  (forall i, 0 <= i < n -> answers secs k stations (fst (w i)) (snd (w i)) (read (fst (w i)) (snd (w i)))) ->
  continuous_compute lowpass taper tiny secs k transform (Q2R ucf) l r0 r1 cw read stations fs afs starttime timestep n = Ret (fs', afs') ->
  (delta c | s - Trigger_Model.pad p) -> (delta c | e + Trigger_Model.pad p) ->
  (forall d, (s - Trigger_Model.pad p) / (86400 * secs) <= d <= (e + Trigger_Model.pad p) / (86400 * secs) -> fs d = None) ->
  Trigger_Model.threshold_method p = Trigger_Model.Static -> Trigger_Model.normalise_coalescence p = false -> (5 / 1000000 < Q2R (Trigger_Model.static_threshold p))%R ->
  Trigger_Model.trigger_batch c p (Pipeline_Model.trigger_read c ucf fs' (Trigger_Model.pad p)) None v0 s e = Ret (v1, es) -> In ev es ->
  let t := Trigger_Model.CoaTime (Trigger_Model.cand ev) in
  exists i d r (tt : string -> string -> Lut_Model.ijk -> Z) q,
    0 <= i < n /\ starttime + timestep * i <= t < starttime + timestep * (i + 1) /\ (delta c | t - starttime) /\ Trigger_Spec.accepts c (s, e) t
    /\ read (fst (w i)) (snd (w i)) = Ret d /\ calculate_onsets lowpass taper tiny secs k d None = Ret r
    /\ (forall s p q, (Rabs (IZR (tt s p q) - entry0 (tab s p) q * IZR (o_rate k)) <= 1 / 2)%R)
    /\ is_node (Lut_Model.g_count (Lut_Model.l_grid l)) q
    /\ let f := stacked (l_dict r) (with_onset (l_dict r) (o_phases k) stations) tt ((pre + t - starttime - timestep * i) / delta c) in
       (forall q', is_node (Lut_Model.g_count (Lut_Model.l_grid l)) q' -> (f q' <= f q)%R)
       /\ (Q2R (Trigger_Model.static_threshold p) - 5 / 1000000 <= f q)%R
       /\ (Rabs (Q2R (Trigger_Model.TRIG_COA (Trigger_Model.cand ev)) - Rmin (f q) 21474) <= 5 / 1000000)%R
       /\ let '(x, y, z) := node_coord transform (Lut_Model.l_grid l) q in
          (Rabs (Q2R (Trigger_Model.COA_X (Trigger_Model.cand ev)) - x) <= 5 / 10000000 /\ Rabs (Q2R (Trigger_Model.COA_Y (Trigger_Model.cand ev)) - y) <= 5 / 10000000
           /\ Rabs (Q2R (Trigger_Model.COA_Z (Trigger_Model.cand ev)) - z) <= 1 / (2 * (1000 * Q2R ucf)))%R.
Proof.
  intros lp tp tiny secs k tr ucf l r0 r1 tab stations starttime timestep pre post cw read fs afs n fs' afs' p s e v0 v1 es ev S Hu Hn c w Ha Hcc Hlo Hhi Hold Hm Hnc Hth Htr Hev t.
  destruct (C124_scan_partial lp tp tiny secs k tr (Q2R ucf) l r0 r1 tab stations starttime timestep pre post cw read fs afs n S Hn Ha) as (blocks & table & fs2 & E1 & E2 & Cs & Lb & _ & Hi). fold c in E1, E2, Cs, Hi.
  assert (fs2 = fs') by congruence. subst fs2. clear E1.
  destruct (sr_delta lp tp tiny secs k tr (Q2R ucf) l tab stations starttime timestep pre post S) as (Dp & Sp). destruct (sr_clock lp tp tiny secs k tr (Q2R ucf) l tab stations starttime timestep pre post S) as (Ck & Ir).
  assert (Sc : Pipeline_Spec.scanned c ucf fs fs' starttime blocks (Trigger_Model.pad p) s e).
  { constructor; try assumption.
    - destruct Ir as [x Hx]. exists (86400 * x). unfold c. rewrite Hx. cbn [o_clock delta]. ring.
    - exact (sr_start _ _ _ _ _ _ _ _ _ _ _ _ _ _ S).
    - intros ->. cbn in Lb. lia.
    - exists cw. exact E2.
    - intros d Hd _. apply Hold, Hd. }
  destruct (Pipeline_Props.C105_events_are_samples_partial c ucf fs fs' starttime blocks p s e v0 v1 es ev Sc Hm Htr Hev) as (t' & row & R1 & R2 & (R3 & R4 & R5 & R6 & R7) & R8). rewrite Hnc in R4, R8. fold t in R3. subst t'.
  unfold run_samples in R1. apply in_flat_map in R1. destruct R1 as (g & Ig & Is). apply in_rd in Ig. destruct Ig as (i & Ri). pose proof (rd_bounds _ _ _ _ Ri) as Bi. rewrite Lb in Bi.
  destruct (Hi i Bi) as (rs & a & Rb & _ & Lr & Res). assert (g = mk_seg (starttime + timestep * i) rs) by congruence. subst g. unfold samples in Is. apply Pipeline_Proofs.in_samples_from in Is. destruct Is as (j & Rj & Et). cbn [fst snd t0 rows] in Rj, Et.
  pose proof (rd_bounds _ _ _ _ Rj) as Bj. destruct (sr_whole _ _ _ _ _ _ _ _ _ _ _ _ _ _ S) as [m Em].
  destruct Res as [(_ & Z0 & _)|(d & r & tt & A1 & A2 & A3 & _ & A5)].
  { exfalso. rewrite Forall_forall in Z0. apply rd_in in Rj. specialize (Z0 _ Rj). subst row. cbn [coa] in R8. unfold Pipeline_Spec.kept in R8. pose proof (Rmin_l 0 21474). lra. }
  destruct (A5 j row Rj) as (q & Q1 & Q2 & _ & Q4 & _ & Q6). exists i, d, r, tt, q. split; [exact Bi|].
  assert (Dj : j * delta c < timestep) by (rewrite <- Lr; apply Z.mul_lt_mono_pos_r; [exact Dp|lia]). assert (0 <= j * delta c) by (apply Z.mul_nonneg_nonneg; [lia|exact (Z.lt_le_incl _ _ Dp)]).
  split; [rewrite Et; lia|]. split. { rewrite Et. exists (m * i + j). rewrite Em. unfold c. cbn [o_clock delta]. ring. }
  split; [exact R2|]. split; [exact A1|]. split; [exact A2|]. split; [exact A3|]. split; [exact Q1|].
  destruct (sr_multiples lp tp tiny secs k tr (Q2R ucf) l tab stations starttime timestep pre post S) as (pa & _ & _ & Ea & _).
  assert (Ej : (pre + t - starttime - timestep * i) / delta c = pre / (secs / o_rate k) + j).
  { rewrite Et. replace (pre + (starttime + timestep * i + j * delta c) - starttime - timestep * i) with (pre + j * delta c) by ring. change (delta c) with (secs / o_rate k). apply Z.div_add. lia. }
  rewrite Ej. cbv zeta. rewrite Q4 in R4, R8. split; [exact Q2|]. split; [|split; [exact R4|]].
  - unfold Pipeline_Spec.kept in R8. pose proof (Rmin_l (stacked (l_dict r) (with_onset (l_dict r) (o_phases k) stations) tt (pre / (secs / o_rate k) + j) q) 21474). lra.
  - rewrite <- Q6. auto.
Qed.
Print Assumptions C124_events_partial.

Lemma on_date_app {A} c d (a b : list (Z * A)) : on_date c d (a ++ b) = on_date c d a ++ on_date c d b.
Proof. apply filter_app. Qed.
Lemma run_samples_app {A} c (a b : list (seg A)) : run_samples c (a ++ b) = run_samples c a ++ run_samples c b.
Proof. apply flat_map_app. Qed.
Lemma filter_nil {A} (f : A -> bool) l : (forall x, In x l -> f x = false) -> filter f l = [].
Proof. induction l as [|x l IH]; intros H; [reflexivity|]. cbn [filter]. rewrite H by (left; reflexivity). apply IH. intros y Iy. apply H. right. exact Iy. Qed.
Lemma zseq_len lo n : length (zseq lo n) = n.
Proof. revert lo. induction n as [|n IH]; intros lo; [reflexivity|]. cbn [zseq length]. rewrite IH. reflexivity. Qed.
Lemma forall2_split {A B} (P : A -> B -> Prop) a1 a2 b : Forall2 P (a1 ++ a2) b -> exists b1 b2, b = b1 ++ b2 /\ Forall2 P a1 b1 /\ Forall2 P a2 b2.
Proof. intros H. apply Forall2_app_inv_l in H. destruct H as (b1 & b2 & H1 & H2 & E). exists b1, b2. auto. Qed.
Lemma combine_app_ {A B} : forall (a1 a2 : list A) (b1 b2 : list B), length a1 = length b1 -> combine (a1 ++ a2) (b1 ++ b2) = combine a1 b1 ++ combine a2 b2.
Proof. induction a1 as [|x a1 IH]; intros a2 [|y b1] b2 L; try discriminate; [reflexivity|]. cbn [app combine]. f_equal. apply IH. cbn in L. lia. Qed.
Lemma combine_seq {B C} (f : Z * B -> C) : forall (b : list B) lo m, map f (combine (zseq (m + lo) (length b)) b) = map (fun ib => f (m + fst ib, snd ib)) (combine (zseq lo (length b)) b).
Proof. induction b as [|x b IH]; intros lo m; [reflexivity|]. cbn [length zseq combine map fst snd]. f_equal. replace (m + lo + 1) with (m + (lo + 1)) by ring. apply IH. Qed.

(** Partial: as above. The scan of a time span refuses an end before the start; otherwise it stores a value for every sample before the end time (up to one sample earlier if that is midnight), in the file of its date. *)
Theorem C124_span_partial :
  forall lowpass taper tiny secs k transform ucf l r0 r1 tab stations starttime endtime timestep pre post cw read fs afs,
  scan_ready lowpass taper tiny secs k transform ucf l tab stations starttime timestep pre post ->
  let c := o_clock secs k in let w i := step_window c starttime timestep pre post i in
  (forall i, 0 <= i -> answers secs k stations (fst (w i)) (snd (w i)) (read (fst (w i)) (snd (w i)))) ->
  let run := detect lowpass taper tiny secs k transform ucf l r0 r1 cw read stations fs afs starttime endtime timestep in
  (endtime < starttime -> run = Raise TimeSpan)
  /\ (starttime + delta c < endtime -> exists fs' afs', run = Ret (fs', afs')
      /\ forall t, starttime <= t < endtime -> (delta c | t) -> ((86400 * secs | endtime) -> t < endtime - delta c) -> exists z, In (t, z) (file_samples c (fs' (t / (86400 * secs))))).
Proof.
  intros lp tp tiny secs k tr ucf l r0 r1 tab stations starttime endtime timestep pre post cw read fs afs S c w Ha run. split.
  - intros H. unfold run, detect. destruct (Z.ltb_spec endtime starttime); [reflexivity|lia].
  - intros H. destruct (sr_delta lp tp tiny secs k tr ucf l tab stations starttime timestep pre post S) as (Dp & Sp). pose proof (sr_step _ _ _ _ _ _ _ _ _ _ _ _ _ _ S) as Hts. destruct (sr_whole _ _ _ _ _ _ _ _ _ _ _ _ _ _ S) as [q Eq].
    destruct (sr_clock lp tp tiny secs k tr ucf l tab stations starttime timestep pre post S) as (Ck & Ir). change (secs / o_rate k) with (delta c) in *.
    set (n := n_steps c starttime endtime timestep). assert (De : detect_endtime c endtime = endtime \/ ((86400 * secs | endtime) /\ detect_endtime c endtime = endtime - delta c)).
    { unfold detect_endtime. destruct (Z.eqb_spec (endtime mod day c) 0) as [E|E]; [right|left; reflexivity]. split; [|reflexivity]. apply Z.mod_divide in E; [exact E|]. change (86400 * secs <> 0). lia. }
    assert (Hn : detect_endtime c endtime - starttime <= timestep * n /\ 0 < n). { unfold n, n_steps, cdiv. set (x := detect_endtime c endtime - starttime). assert (0 < x) by (unfold x; lia). pose proof (Z.div_mod (- x) timestep ltac:(lia)) as E. pose proof (Z.mod_pos_bound (- x) timestep ltac:(lia)). split; nia. }
    destruct (C124_scan_partial lp tp tiny secs k tr ucf l r0 r1 tab stations starttime timestep pre post cw read fs afs n S ltac:(lia)) as (blocks & table & fs' & E1 & E2 & Cs & Lb & Lt & St). { intros i Hi. apply Ha. lia. }
    fold c in E1, E2, Cs, St. eexists fs', _. split. { unfold run, detect. destruct (Z.ltb_spec endtime starttime); [lia|]. unfold d_clock. fold c. fold n. exact E1. }
    intros t Ht Gt Mt. assert (Gs : (delta c | starttime)) by exact (sr_start _ _ _ _ _ _ _ _ _ _ _ _ _ _ S).
    assert (Te : t < starttime + timestep * n) by (destruct De as [De|(M & De)]; [lia|]; specialize (Mt M); lia).
    pose proof (Z.div_mod (t - starttime) timestep ltac:(lia)) as Di. pose proof (Z.mod_pos_bound (t - starttime) timestep ltac:(lia)) as Dm. set (i := (t - starttime) / timestep) in *.
    assert (Hi : 0 <= i < n) by (split; [apply Z.div_pos; lia|apply Z.div_lt_upper_bound; lia]).
    destruct (St i Hi) as (rs & a & Rb & _ & Lr & _). assert (Gj : (delta c | (t - starttime) mod timestep)). { replace ((t - starttime) mod timestep) with (t - starttime - q * i * delta c) by (rewrite Eq in Di at 1; lia). apply Z.divide_sub_r; [apply Z.divide_sub_r; assumption|exists (q * i); reflexivity]. }
    destruct Gj as [j Ej]. assert (Hj : 0 <= j < Z.of_nat (length rs)) by (rewrite Ej in Dm; split; [apply Z.mul_nonneg_cancel_r with (delta c)|apply Z.mul_lt_mono_pos_r with (delta c)]; lia).
    destruct (rd_in_range _ rs j Hj) as (r & Er).
    assert (It : In (t, r) (run_samples c blocks)).
    { unfold run_samples. apply in_flat_map. exists (mk_seg (starttime + timestep * i) rs). split; [exact (rd_in _ _ _ _ Rb)|]. unfold samples. cbn [t0 rows]. replace t with (starttime + timestep * i + j * delta c) by lia. apply Pipeline_Proofs.samples_from_in. exact Er. }
    destruct (Pipeline_Proofs.store_run_encoded _ _ _ _ _ _ E2) as (k0 & K0 & R0). pose proof (Pipeline_Proofs.run_samples_encoded c ucf _ _ K0) as RE.
    assert (Iz : exists z, In (t, z) (run_samples c k0)).
    { clear - It RE. induction RE as [|x y X Y Hxy _ IH]; [destruct It|]. destruct It as [->|It]; [|destruct (IH It) as (z & Iz); exists z; right; exact Iz]. exists (snd y). left. destruct y as [yt yz]. destruct Hxy as (Hx & _). cbn in *. congruence. }
    destruct Iz as (z & Iz). exists z.
    assert (N0 : k0 <> []) by (intros ->; destruct Iz). pose proof (Pipeline_Proofs.consecutive_encoded c ucf _ _ _ K0 Cs) as D0.
    assert (Grid : (delta c | 86400 * sec c)) by (apply Z.divide_mul_r; exact Ir).
    destruct (ScanMseed_Props.C23_each_sample_in_the_file_of_its_date c fs starttime k0 Sp Dp Grid Gs N0 D0) as (f0 & f0' & P1 & P2 & P3).
    assert (W : fs' (t / (86400 * secs)) = f0 (t / (86400 * secs))) by (destruct cw; [destruct (P3 (t / (86400 * secs))) as (-> & _)|]; congruence).
    assert (Io : In (t, z) (on_date c (t / (86400 * secs)) (run_samples c k0))). { unfold on_date. apply filter_In. split; [exact Iz|]. apply Z.eqb_eq. reflexivity. }
    rewrite W. destruct (P3 (t / (86400 * secs))) as (_ & -> & _); [exact Io|]. intros N. rewrite N in Io. destruct Io.
Qed.
Print Assumptions C124_span_partial.

(** Partial: as above. A run may be cut in two at a midnight: the second run, made after the first, leaves the same samples and availability in the files as one run over the whole time. *)
Theorem C124_cut_at_midnight_partial :
  forall lowpass taper tiny secs k transform ucf l r0 r1 tab stations starttime timestep pre post cw cw1 cw2 read fs afs m m',
  scan_ready lowpass taper tiny secs k transform ucf l tab stations starttime timestep pre post -> 0 < m -> 0 < m' -> (86400 * secs | starttime + timestep * m) ->
  let c := o_clock secs k in let w i := step_window c starttime timestep pre post i in
  (forall i, 0 <= i < m + m' -> answers secs k stations (fst (w i)) (snd (w i)) (read (fst (w i)) (snd (w i)))) ->
  exists fs0 afs0 fs1 afs1 fs2 afs2,
    continuous_compute lowpass taper tiny secs k transform ucf l r0 r1 cw read stations fs afs starttime timestep (m + m') = Ret (fs0, afs0)
    /\ continuous_compute lowpass taper tiny secs k transform ucf l r0 r1 cw1 read stations fs afs starttime timestep m = Ret (fs1, afs1)
    /\ continuous_compute lowpass taper tiny secs k transform ucf l r0 r1 cw2 read stations fs1 afs1 (starttime + timestep * m) timestep m' = Ret (fs2, afs2)
    /\ forall d, file_samples c (fs2 d) = file_samples c (fs0 d) /\ afs2 d = afs0 d.
Proof.
  intros lp tp tiny secs k tr ucf l r0 r1 tab stations starttime timestep pre post cw cw1 cw2 read fs afs m m' S Hm Hm' Hmid c w Ha.
  destruct (steps_ok lp tp tiny secs k tr ucf l r0 r1 tab stations starttime timestep pre post S read (zrange (m + m'))) as (bl & F). { intros i Hi. apply in_zrange in Hi. apply Ha, Hi. }
  assert (Lb : Z.of_nat (length bl) = m + m'). { clear - F Hm Hm'. assert (length bl = length (zrange (m + m'))) by (induction F; cbn [length]; congruence). rewrite H, zrange_length. lia. }
  assert (F' : Forall2 (fun i b => Z.of_nat (length (fst b)) = timestep / (secs / o_rate k) /\ (exists zs, map_opt (encode_row ucf) (fst b) = Some zs) /\ step_gives lp tp tiny secs k tr ucf l r0 r1 stations starttime timestep pre post read i (fst b) (snd b)) (zrange (m + m')) bl).
  { clear - F. induction F as [|? ? ? ? H _ IH]; constructor; tauto. } clear F.
  assert (Ez : zrange (m + m') = zseq 0 (Z.to_nat m) ++ zseq m (Z.to_nat m')). { unfold zrange. replace (Z.to_nat (m + m')) with (Z.to_nat m + Z.to_nat m')%nat by lia. rewrite zseq_app. f_equal. f_equal. lia. }
  pose proof F' as F2. rewrite Ez in F2. apply forall2_split in F2. destruct F2 as (b1 & b2 & Eb & F1 & F2).
  assert (L1 : length b1 = Z.to_nat m) by (clear - F1; rewrite <- (zseq_len 0 (Z.to_nat m)); induction F1; cbn [length]; congruence).
  assert (L2 : length b2 = Z.to_nat m') by (clear - F2; rewrite <- (zseq_len m (Z.to_nat m')); induction F2; cbn [length]; congruence).
  assert (Ez0 : zrange (m + m') = zseq 0 (length bl)) by (unfold zrange; f_equal; lia). assert (Ez1 : zrange m = zseq 0 (length b1)) by (unfold zrange; f_equal; lia). assert (Ez2 : zrange m' = zseq 0 (length b2)) by (unfold zrange; f_equal; lia).
  rewrite Ez0 in F'. rewrite <- L1 in F1. rewrite <- L2 in F2.
  destruct (run_ok lp tp tiny secs k tr ucf l r0 r1 tab stations starttime timestep pre post S read cw fs afs 0 bl) as (C0 & fs0 & S0 & E0); [intros ->; cbn in Lb; lia|exact F'|].
  destruct (run_ok lp tp tiny secs k tr ucf l r0 r1 tab stations starttime timestep pre post S read cw1 fs afs 0 b1) as (C1 & fs1 & S1 & E1); [intros ->; cbn in L1; lia|exact F1|].
  destruct (run_ok lp tp tiny secs k tr ucf l r0 r1 tab stations starttime timestep pre post S read cw2 fs1 (Avail_Model.write_availability c afs (Avail_Model.mk_atable (columns k stations) (map (fun ib => (starttime + timestep * fst ib, snd (snd ib))) (combine (zseq 0 (length b1)) b1)))) m b2) as (C2 & fs2 & S2 & E2); [intros ->; cbn in L2; lia|exact F2|].
  fold c in C0, C1, C2, S0, S1, S2, E0, E1, E2.
  eexists fs0, _, fs1, _, fs2, _. split; [|split; [|split]].
  - unfold continuous_compute, d_clock. fold c. unfold c at 1 2. rewrite (sr_pads _ _ _ _ _ _ _ _ _ _ _ _ _ _ S). cbn [fst snd]. rewrite Ez0. exact E0.
  - unfold continuous_compute, d_clock. fold c. unfold c at 1 2. rewrite (sr_pads _ _ _ _ _ _ _ _ _ _ _ _ _ _ S). cbn [fst snd]. rewrite Ez1. exact E1.
  - unfold continuous_compute, d_clock. fold c. unfold c at 1 2. rewrite (sr_pads _ _ _ _ _ _ _ _ _ _ _ _ _ _ S). cbn [fst snd]. rewrite Ez2. rewrite <- E2. f_equal.
    assert (G : forall cols x y u (st : dstate), fold_out (timestep_body lp tp tiny secs k tr ucf l r0 r1 cw2 read cols (starttime + timestep * m) timestep pre post) (zseq x y) st = fold_out (timestep_body lp tp tiny secs k tr ucf l r0 r1 cw2 read cols starttime timestep pre post) (zseq (m + x) y) st /\ u = u :> nat).
    { intros cols x y u. revert x. induction y as [|y IH]; intros x st; [split; reflexivity|]. split; [|reflexivity]. cbn [zseq fold_out]. rewrite body_from. destruct (timestep_body _ _ _ _ _ _ _ _ _ _ _ _ _ starttime _ _ _ st (m + x)) as [st'| |]; cbn [bind]; [|reflexivity|reflexivity]. replace (m + x + 1) with (m + (x + 1)) by ring. apply IH. }
    replace m with (m + 0) at 2 by ring. apply (G (columns k stations) 0 (length b2) 0%nat).
  - clear E0 E1 E2. destruct (sr_delta lp tp tiny secs k tr ucf l tab stations starttime timestep pre post S) as (Dp & Sp). destruct (sr_clock lp tp tiny secs k tr ucf l tab stations starttime timestep pre post S) as (Ck & Ir). destruct (sr_whole _ _ _ _ _ _ _ _ _ _ _ _ _ _ S) as [q Eq]. pose proof (sr_step _ _ _ _ _ _ _ _ _ _ _ _ _ _ S) as Hts.
    rewrite Eb, app_length, zseq_app, L1, L2, Z.add_0_l, Z2Nat.id, combine_app_, !map_app in S0, C0 by (rewrite ?zseq_len; lia). rewrite Eb, app_length, zseq_app, L1, L2, Z.add_0_l, Z2Nat.id, combine_app_, !map_app by (rewrite ?zseq_len; lia). rewrite L1 in S1, C1. rewrite L2 in S2, C2.
    set (l1 := map (fun ib => block_of starttime timestep (fst ib) (fst (snd ib))) (combine (zseq 0 (Z.to_nat m)) b1)) in *. set (l2 := map (fun ib => block_of starttime timestep (fst ib) (fst (snd ib))) (combine (zseq m (Z.to_nat m')) b2)) in *.
    set (t1 := map (fun ib => (starttime + timestep * fst ib, snd (snd ib))) (combine (zseq 0 (Z.to_nat m)) b1)). set (t2 := map (fun ib => (starttime + timestep * fst ib, snd (snd ib))) (combine (zseq m (Z.to_nat m')) b2)).
    set (mid := starttime + timestep * m) in *. assert (Hmc : c = o_clock secs k) by reflexivity. clearbody c.
    assert (Grid : (delta c | 86400 * sec c)) by (subst c; destruct Ir as [x Hx]; exists (86400 * x); rewrite Hx; cbn [o_clock delta]; ring).
    assert (Gs : (delta c | starttime)) by (subst c; exact (sr_start _ _ _ _ _ _ _ _ _ _ _ _ _ _ S)). assert (Gm : (delta c | mid)) by (destruct Hmid as [x Hx]; rewrite Hx; subst c; apply Z.divide_mul_r; exact Grid).
    assert (Sc : 0 < sec c) by (subst c; exact Sp). assert (Dc : 0 < delta c) by (subst c; exact Dp). rewrite Z.mul_0_r, Z.add_0_r in C0, C1.
    destruct (Pipeline_Proofs.store_run_encoded _ _ _ _ _ _ S0) as (k0 & K0 & R0). destruct (Pipeline_Proofs.store_run_encoded _ _ _ _ _ _ S1) as (k1 & K1 & R1). destruct (Pipeline_Proofs.store_run_encoded _ _ _ _ _ _ S2) as (k2 & K2 & R2).
    assert (K : k0 = k1 ++ k2).
    { apply forall2_split in K0. destruct K0 as (x1 & x2 & -> & X1 & X2). assert (Un : forall a b b', Forall2 (fun g g' => Pipeline_Proofs.encode_seg ucf g = Some g') a b -> Forall2 (fun g g' => Pipeline_Proofs.encode_seg ucf g = Some g') a b' -> b = b').
      { clear. induction a as [|x a IH]; intros b b' Hb Hb'; inversion Hb; inversion Hb'; subst; [reflexivity|]. f_equal; [congruence|]. apply IH; assumption. }
      f_equal; eapply Un; eassumption. }
    subst k0. pose proof (Pipeline_Proofs.consecutive_encoded c ucf _ _ _ K0 C0) as D0. pose proof (Pipeline_Proofs.consecutive_encoded c ucf _ _ _ K1 C1) as D1. pose proof (Pipeline_Proofs.consecutive_encoded c ucf _ _ _ K2 C2) as D2.
    assert (N1 : k1 <> []) by (intros ->; inversion K1 as [N|]; unfold l1 in N; destruct b1; [cbn in L1; lia|]; rewrite <- L1 in N; discriminate). assert (N2 : k2 <> []) by (intros ->; inversion K2 as [N|]; unfold l2 in N; destruct b2; [cbn in L2; lia|]; rewrite <- L2 in N; discriminate).
    assert (N0 : k1 ++ k2 <> []) by (intros N; apply N1; destruct k1; [reflexivity|discriminate]).
    assert (Day : forall x, mid / (86400 * sec c) <= x / (86400 * sec c) <-> mid <= x). { intros x. assert (0 < 86400 * sec c) by lia. destruct Hmid as [y Hy]. assert (Es : sec c = secs) by (subst c; reflexivity). rewrite Es in *. rewrite Hy, Z.div_mul by lia. rewrite <- Hy. split; intros Hx; [|apply Z.div_le_lower_bound; lia]. pose proof (Z.mul_div_le x (86400 * secs) ltac:(lia)). nia. }
    assert (T1 : forall x, In x (run_samples c k1) -> fst x < mid).
    { intros x Ix. rewrite (ScanMseed_Proofs.run_samples_eq c k1 starttime D1) in Ix. apply ScanMseed_Proofs.samples_from_range in Ix. destruct Ix as (u & Hu & ->). 
      assert (Lk : Z.of_nat (length (flat_map rows k1)) * delta c = timestep * m).
      { assert (Ll : Z.of_nat (length (flat_map rows l1)) * delta c = timestep * m).
        { subst c. unfold l1. cbn [o_clock delta]. clear - F1 L1 Eq Dp Hm. assert (G : forall is, Forall2 (fun i (b : list (row R) * list Z) => Z.of_nat (length (fst b)) = timestep / (secs / o_rate k) /\ (exists zs, map_opt (encode_row ucf) (fst b) = Some zs) /\ step_gives lp tp tiny secs k tr ucf l r0 r1 stations starttime timestep pre post read i (fst b) (snd b)) is b1 ->
              Z.of_nat (length (flat_map rows (map (fun ib => block_of starttime timestep (fst ib) (fst (snd ib))) (combine is b1)))) * (secs / o_rate k) = timestep * Z.of_nat (length b1)).
          { clear F1 L1. induction b1 as [|b bs IH]; intros is H; inversion H as [|i0 b0 is0 bs0 Hb Hr Q1 Q2]; subst; [cbn; lia|]. cbn [combine map flat_map rows block_of fst snd length]. rewrite app_length, Nat2Z.inj_add, Z.mul_add_distr_r, (IH is0) by assumption. destruct Hb as (Hb & _). rewrite Hb. rewrite Z.div_mul by lia. cbn [length]. rewrite Nat2Z.inj_succ. ring. }
          rewrite L1 in F1. rewrite (G _ F1), L1, Z2Nat.id by lia. reflexivity. }
        rewrite <- Ll. f_equal. f_equal. clear - K1. induction K1 as [|g g' a b H _ IH]; [reflexivity|]. cbn [flat_map]. rewrite !app_length, IH. f_equal. destruct (Pipeline_Proofs.encode_seg_facts _ _ _ H) as (_ & E). clear - E. induction E; cbn [length]; congruence. }
      unfold mid. rewrite <- Lk. assert (u * delta c < Z.of_nat (length (flat_map rows k1)) * delta c) by (apply Z.mul_lt_mono_pos_r; lia). lia. }
    assert (T2 : forall x, In x (run_samples c k2) -> mid <= fst x).
    { intros x Ix. rewrite (ScanMseed_Proofs.run_samples_eq c k2 mid D2) in Ix. apply ScanMseed_Proofs.samples_from_range in Ix. destruct Ix as (u & Hu & ->). assert (0 <= u * delta c) by (apply Z.mul_nonneg_nonneg; lia). lia. }
    destruct (ScanMseed_Props.C23_each_sample_in_the_file_of_its_date c fs starttime (k1 ++ k2) Sc Dc Grid Gs N0 D0) as (f0 & f0' & P1 & P2 & P3).
    destruct (ScanMseed_Props.C23_each_sample_in_the_file_of_its_date c fs starttime k1 Sc Dc Grid Gs N1 D1) as (f1 & f1' & P4 & P5 & P6).
    destruct (ScanMseed_Props.C23_each_sample_in_the_file_of_its_date c fs1 mid k2 Sc Dc Grid Gm N2 D2) as (f2 & f2' & P7 & P8 & P9).
    intros d. assert (W0 : fs0 d = f0 d) by (destruct cw; [destruct (P3 d) as (-> & _)|]; congruence). assert (W1 : fs1 d = f1 d) by (destruct cw1; [destruct (P6 d) as (-> & _)|]; congruence). assert (W2 : fs2 d = f2 d) by (destruct cw2; [destruct (P9 d) as (-> & _)|]; congruence).
    destruct (P3 d) as (_ & A1 & A2). destruct (P6 d) as (_ & B1 & B2). destruct (P9 d) as (_ & G1 & G2). rewrite run_samples_app, on_date_app in A1, A2. rewrite W0, W2. split.
    + destruct (Z_lt_dec d (mid / (86400 * sec c))) as [Cd|Cd].
      * assert (O2 : on_date c d (run_samples c k2) = []). { apply filter_nil. intros x Ix. apply Z.eqb_neq. specialize (T2 x Ix). apply Day in T2. lia. }
        rewrite O2, app_nil_r in A1, A2. rewrite (G2 O2), W1. destruct (list_eq_dec (fun x y => Z.eq_dec x y) (map fst (on_date c d (run_samples c k1))) []) as [En|En].
        -- apply map_eq_nil in En. rewrite (A2 En), (B2 En). reflexivity.
        -- assert (Nn : on_date c d (run_samples c k1) <> []) by (intros N; apply En; rewrite N; reflexivity). rewrite (A1 Nn), (B1 Nn). reflexivity.
      * assert (O1 : on_date c d (run_samples c k1) = []). { apply filter_nil. intros x Ix. apply Z.eqb_neq. specialize (T1 x Ix). pose proof (Day (fst x)). lia. }
        rewrite O1 in A1, A2. cbn [app] in A1, A2. destruct (list_eq_dec (fun x y => Z.eq_dec x y) (map fst (on_date c d (run_samples c k2))) []) as [En|En].
        -- apply map_eq_nil in En. rewrite (A2 En), (G2 En), W1, (B2 O1). reflexivity.
        -- assert (Nn : on_date c d (run_samples c k2) <> []) by (intros N; apply En; rewrite N; reflexivity). rewrite (A1 Nn), (G1 Nn). reflexivity.
    + unfold Avail_Model.write_availability. cbn [Avail_Model.at_rows Avail_Model.at_cols]. rewrite existsb_app, filter_app. unfold day.
      assert (V1 : forall x, In x t1 -> fst x < mid). { intros x Ix. unfold t1 in Ix. apply in_map_iff in Ix. destruct Ix as ([i b] & <- & Ii). cbn [fst snd]. apply in_combine_l in Ii. apply (in_zrange m i) in Ii. unfold mid. assert (timestep * i < timestep * m) by (apply Z.mul_lt_mono_pos_l; lia). lia. }
      assert (V2 : forall x, In x t2 -> mid <= fst x). { intros x Ix. unfold t2 in Ix. apply in_map_iff in Ix. destruct Ix as ([i b] & <- & Ii). cbn [fst snd]. apply in_combine_l in Ii. assert (m <= i). { clear - Ii. revert Ii. generalize (Z.to_nat m') as u. intros u. assert (G : forall lo, In i (zseq lo u) -> lo <= i) by (induction u as [|u IH]; intros lo H; [destruct H|]; destruct H as [<-|H]; [lia|]; specialize (IH _ H); lia). apply G. }
        unfold mid. assert (timestep * m <= timestep * i) by (apply Z.mul_le_mono_nonneg_l; lia). lia. }
      destruct (Z_lt_dec d (mid / (86400 * sec c))) as [Cd|Cd].
      * assert (X2 : existsb (fun r => fst r / (86400 * sec c) =? d) t2 = false). { apply not_true_iff_false. intros N. apply existsb_exists in N. destruct N as (x & Ix & Ex). apply Z.eqb_eq in Ex. specialize (V2 x Ix). apply Day in V2. lia. }
        assert (Y2 : filter (fun r => fst r / (86400 * sec c) =? d) t2 = []). { apply filter_nil. intros x Ix. apply Z.eqb_neq. specialize (V2 x Ix). apply Day in V2. lia. }
        rewrite X2, Y2, orb_false_r, app_nil_r. reflexivity.
      * assert (X1 : existsb (fun r => fst r / (86400 * sec c) =? d) t1 = false). { apply not_true_iff_false. intros N. apply existsb_exists in N. destruct N as (x & Ix & Ex). apply Z.eqb_eq in Ex. specialize (V1 x Ix). pose proof (Day (fst x)). lia. }
        assert (Y1 : filter (fun r => fst r / (86400 * sec c) =? d) t1 = []). { apply filter_nil. intros x Ix. apply Z.eqb_neq. specialize (V1 x Ix). pose proof (Day (fst x)). lia. }
        rewrite X1, Y1. reflexivity.
Qed.
Print Assumptions C124_cut_at_midnight_partial.

(** The same ground motion at another time of day gives the same samples and availability, from another time on. *)
Theorem C124_shift :
  forall t lowpass taper tiny secs k transform l r0 r1 pre post d,
  compute lowpass taper tiny secs k transform l r0 r1 pre post (Shift_Spec.later_data t d)
  = Gain_Spec.out_map (fun o => (fst (fst o) + t, snd (fst o), snd o)) (compute lowpass taper tiny secs k transform l r0 r1 pre post d).
Proof.
  intros t lp tp tiny secs k tr l r0 r1 pre post d. unfold compute. rewrite Shift_Props.C123_onsets, Shift_Props.C123_coalescence. destruct (calculate_onsets lp tp tiny secs k d None) as [st| |]; cbn [Gain_Spec.out_map bind]; try reflexivity.
  destruct (compute_coalescence _ _ _ _ _ _ _ _ _ _ _) as [m| |]; cbn [Gain_Spec.out_map bind]; try reflexivity. destruct (Migrate_Model.lib_find_max_coa _ _ _ _) as [o| |]; cbn [Gain_Spec.out_map bind]; try reflexivity.
  destruct (scan_rows _ _ _ _ _) as [rs| |]; cbn [Gain_Spec.out_map bind fst snd l_avail]; try reflexivity. unfold Shift_Spec.later_data. cbn [d_start]. f_equal. f_equal. f_equal. ring.
Qed.
Print Assumptions C124_shift.

(** Partial: see [gain_ok]. Data in other units, channel by channel, give the same samples and availability. *)
Theorem C124_gain_partial :
  forall gain lowpass taper tiny secs k transform l r0 r1 pre post d, (forall i, gain i <> 0%R) -> (0 < tiny <= 1)%R -> Gain_Props.gain_ok gain lowpass tiny secs k d ->
  compute lowpass taper tiny secs k transform l r0 r1 pre post (Gain_Spec.gained_data gain d) = compute lowpass taper tiny secs k transform l r0 r1 pre post d.
Proof.
  intros gain lp tp tiny secs k tr l r0 r1 pre post d Hg Ht H. unfold compute. rewrite (Gain_Props.C122_onsets_partial gain lp tp tiny secs k d None Hg Ht H), (Gain_Props.C122_coalescence_partial gain lp tp tiny secs k d r0 l _ _ _ Hg Ht H).
  destruct (calculate_onsets lp tp tiny secs k d None) as [st| |]; reflexivity.
Qed.
Print Assumptions C124_gain_partial.

(** A scan that can be made: one station of the two has data, in one-second timesteps from an hour after midnight. *)
Definition ex_set : onset_cfg := mk_onset ["P"%string] [("P"%string, Onset_Props.ex_phase)] true false true 50 false true (map (fun x => x * x)%R) (1 / 100)%R 100000.
Definition ex_read (a b : Z) : outcome wdata := Ret (mk_wdata [Avail_Model.mk_seg "A.BHZ"%string a 2000 (map IZR (zrange ((b - a) / 2000 + 1)))] ["A"%string; "B"%string] false None a b).
Example C124_example :
  scan_ready (fun _ x => x) (fun x => x) (1 / 2) 100000 ex_set (fun _ _ x => x) 1 Compute_Props.ex_lut Compute_Props.ex_tab ["A"%string; "B"%string] 360000000 100000 102000 200000
  /\ forall i, 0 <= i -> let w := step_window (o_clock 100000 ex_set) 360000000 100000 102000 200000 i in answers 100000 ex_set ["A"%string; "B"%string] (fst w) (snd w) (ex_read (fst w) (snd w)).
Proof.
  split.
  - constructor; cbn [ex_set o_rate o_python o_transform o_cfg o_phases o_post o_all Compute_Props.ex_lut Lut_Model.l_grid].
    + repeat split; try lia; [exists 1|exists 2000]; reflexivity.
    + lra.
    + reflexivity.
    + reflexivity.
    + reflexivity.
    + intros x. apply map_length.
    + exists 20. reflexivity.
    + lia.
    + exists 50. reflexivity.
    + exists 180000. reflexivity.
    + discriminate.
    + discriminate.
    + reflexivity.
    + intros ph [<-|[]]. exists Onset_Props.ex_phase. split; [reflexivity|]. split; [vm_compute; repeat split; discriminate|]. split; [reflexivity|]. split; [reflexivity|]. reflexivity.
    + unfold grid_ok. cbn. repeat split; try lra; lia.
    + constructor; [intros []|constructor].
    + constructor; [intros [H|[]]; discriminate|]. constructor; [intros []|constructor].
    + constructor; [exact Lut_Props.plain_P|constructor].
    + constructor; [intros [H|[]]; discriminate|]. constructor; [intros [H|[]]; discriminate|constructor].
    + intros s p Is [<-|[]]. split; [|split].
      * destruct Is as [<-|[<-|[]]]; (eexists; split; [reflexivity|left; reflexivity]).
      * cbn. split; [reflexivity|]. repeat (constructor; [cbn; split; [reflexivity|repeat constructor]|]); constructor.
      * intros ((i, j), h) Hq. cbn in Hq. assert (j = 0) by lia. assert (h = 0) by lia. subst j h. assert (Hi : i = 0 \/ i = 1) by lia. change (200000 / (100000 / 50)) with 100.
        destruct Hi as [->| ->]; match goal with |- context [entry0 ?t ?q] => let v := eval cbv -[IZR] in (entry0 t q) in change (entry0 t q) with v end; lra.
    + vm_compute. reflexivity.
    + lra.
    + intros ((i, j), h) Hq. cbn in Hq. assert (j = 0) by lia. assert (h = 0) by lia. subst j h. assert (Hi : i = 0 \/ i = 1) by lia. cbn.
      destruct Hi as [->| ->]; repeat split; apply Rabs_le; lra.
  - intros i Hi w. right. unfold ex_read. eexists. split; [reflexivity|]. cbn [d_start d_end d_stations d_waveforms]. repeat split; try reflexivity. constructor; [|constructor]. unfold w, step_window. cbn [fst snd ex_set o_rate o_clock delta].
    unfold usable, on_own_grid. cbn [Avail_Model.sg_delta Avail_Model.sg_start Avail_Model.sg_data]. repeat split; try lia.
    + exists (180000 + 50 * i - 51). ring.
    + intros N. apply map_eq_nil in N. apply (f_equal (@length Z)) in N. rewrite zrange_length in N. change (100000 / 50) with 2000 in N. replace (360000000 + 100000 * (i + 1) - 2000 + 200000 - (360000000 + 100000 * i - 102000)) with (200 * 2000) in N by ring. discriminate N.
    + left. reflexivity.
Qed.

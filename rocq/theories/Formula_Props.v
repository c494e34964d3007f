(** C131: the scan and the location as a formula of the records. C132: a source is found. *)
From Coq Require Import String Ascii.
From Coq Require Import List ZArith Reals QArith Qreals Bool Lia Lra.
From Verif Require Import Lib LibFacts PyDict Timeline_Model Timeline_Spec ScanMseed_Model ScanMseed_Spec Migrate_Spec Lut_Spec Locate_Model Locate_Spec Resample_Spec Onset_Model Onset_Spec PickRun_Model DetectRun_Model DetectRun_Spec
  LocatePipe_Spec LocateRun_Model LocateRun_Spec Agree_Spec Window_Spec Formula_Spec Formula_Proofs.
From Verif Require Avail_Model Migrate_Model Lut_Model Lut_Props Trigger_Model Trigger_Spec Pipeline_Model Pipeline_Spec Pipeline_Proofs Pipeline_Props ScanMseed_Proofs DetectRun_Proofs LocateRun_Proofs LocateRun_Props StationSet_Spec StaLta_Spec StaLta_Model Window_Props Agree_Proofs Agree_Props Locate_Proofs Locate_Props Picker_Model.
From Verif Require Import StaLta_Proofs.
Import ListNotations.
Open Scope Z_scope.

(** A scan stores, at each sampling time, the peak over the grid of the coalescence at that time, a formula of the records: the geometric mean, over the stations and phases with data, of the onset functions at the arrivals, each the root mean
    square of the STA/LTA ratios of the channels. Timesteps and pads are not in it. If no station has data for any phase, it stores zeros. *)
Theorem C131_scan_partial :
  forall lowpass taper tiny secs k transform ucf l r0 r1 tab stations x y ids m reach starttime timestep pre post n read cw fs afs,
  let c := o_clock secs k in let D := secs / o_rate k in
  scan_ready lowpass taper tiny secs k transform ucf l tab stations starttime timestep pre post -> steady secs k l tab ids stations m reach -> processed secs k m x ids y ->
  clear_of_ends secs k (m ((timestep + pre + post) / D)) (time2sample c pre) (time2sample c post) reach ->
  0 < n -> (forall i, 0 <= i < n -> let w := step_window c starttime timestep pre post i in reads tiny secs k x ids stations read (fst w) (snd w)) ->
  exists f a, continuous_compute lowpass taper tiny secs k transform ucf l r0 r1 cw read stations fs afs starttime timestep n = Ret (f, a)
  /\ forall t, (D | t) -> starttime <= t < starttime + timestep * n ->
     (contributing k ids stations = [] /\ stored c f t (mk_row 0 0 0 0 0))
     \/ (contributing k ids stations <> [] /\ exists row z, is_peak (Lut_Model.g_count (Lut_Model.l_grid l)) (node_coord transform (Lut_Model.l_grid l)) (coalescence_of secs k tab ids stations y (t / D)) row
         /\ encode_row ucf row = Some z /\ stored c f t z).
Proof.
  intros lp tp tiny secs k tr ucf l r0 r1 tab stations x y ids m reach starttime timestep pre post n read cw fs afs c D S St Py Cl Hn Rd.
  exact (scan_formula lp tp tiny secs k tr ucf l r0 r1 tab stations x ids _ starttime timestep pre post n read S (st_dots _ _ _ _ _ _ _ _ St) Rd Hn (fun i d _ _ _ _ Es Rc Lv Wr Nt => compute_steady lp tp tiny secs k tr l r0 r1 tab x y ids stations m reach pre post d Wr St Py Rc Lv Es _ Nt Cl) cw fs afs).
Qed.
Print Assumptions C131_scan_partial.

(** The location of an event: the same formula at the times of the window of the event, and the origin time is the first time at which its peak is largest. *)
Theorem C131_event_partial :
  forall lowpass taper tiny secs k transform l r0 r1 tab stations x y ids m reach mw pre post trig d,
  let c := o_clock secs k in let D := secs / o_rate k in
  locate_ready lowpass taper tiny secs k l tab stations mw pre post -> steady secs k l tab ids stations m reach -> processed secs k m x ids y ->
  clear_of_ends secs k (m ((4 * mw + pre + post) / D + 1)) (time2sample c pre) (time2sample c post) reach -> (D | trig) ->
  d_start d = trig - 2 * mw - pre -> d_end d = trig + 2 * mw + post -> d_stations d = stations -> recorded secs k x ids d -> lively tiny secs k x ids d ->
  let run := event_compute lowpass taper tiny secs k transform l r0 r1 pre post mw d trig in
  (contributing k ids stations = [] /\ run = Raise DataAvailabilityException)
  \/ (contributing k ids stations <> [] /\ exists ev row, run = Ret ev
      /\ (forall t, (D | t) -> trig - 2 * mw <= t <= trig + 2 * mw -> is_peak (Lut_Model.g_count (Lut_Model.l_grid l)) (node_coord transform (Lut_Model.l_grid l)) (coalescence_of secs k tab ids stations y (t / D)) (row t))
      /\ Forall2 (fun t e => same_sample t (row t) e) (mw_times c trig mw) (e_rows ev)
      /\ first_best D (trig - 2 * mw) (trig + 2 * mw) (fun t => coa (row t)) (e_otime ev)
      /\ max_coalescence ev = Ret (e_otime ev, coa (row (e_otime ev)), coa_n (row (e_otime ev)))).
Proof.
  intros lp tp tiny secs k tr l r0 r1 tab stations x y ids m reach mw pre post trig d c D S St Py Cl Gt Ds De Dst Rc Lv run.
  exact (event_formula lp tp tiny secs k tr l r0 r1 tab stations x ids _ mw pre post trig d S (st_dots _ _ _ _ _ _ _ _ St) Gt Ds De Dst Rc (fun Wr Nt => compute_steady lp tp tiny secs k tr l r0 r1 tab x y ids stations m reach pre post d Wr St Py Rc Lv Dst _ Nt Cl)).
Qed.
Print Assumptions C131_event_partial.

(** The peak at the time of a source is the source; at other times it is smaller. *)
Lemma at_source secs k tab ids stations y n coord T t0 q0 row : source secs k tab ids stations y n T t0 q0 -> T t0 -> is_peak n coord (coalescence_of secs k tab ids stations y t0) row ->
  coa row = coalescence_of secs k tab ids stations y t0 q0 /\ (px row, py row, pz row) = coord q0.
Proof.
  intros So Ht (q & Hq & Mx & _ & C1 & _ & C3). assert (q = q0); [|subst q; auto].
  destruct q as ((a, b), h), q0 as ((a', b'), h'). destruct (Z.eq_dec a a') as [->|N]; [destruct (Z.eq_dec b b') as [->|N]; [destruct (Z.eq_dec h h') as [->|N]; [reflexivity|]|]|]; exfalso;
    (pose proof (source_peak _ _ _ _ _ _ _ _ _ _ _ _ So Ht Hq ltac:(congruence)) as L; pose proof (Mx _ (so_node _ _ _ _ _ _ _ _ _ _ So)); lra).
Qed.
Lemma off_source secs k tab ids stations y n coord T t0 q0 t row : source secs k tab ids stations y n T t0 q0 -> T t -> t <> t0 -> is_peak n coord (coalescence_of secs k tab ids stations y t) row ->
  (coa row < coalescence_of secs k tab ids stations y t0 q0)%R.
Proof. intros So Ht Ne (q & Hq & _ & _ & C1 & _). rewrite C1. apply (source_peak _ _ _ _ _ _ _ _ _ _ _ _ So Ht Hq). congruence. Qed.

(** What a scan stores at the time of a source is its coalescence and the coordinates of its node; the coalescence at every other time of the scan is smaller (before it was rounded; after that, not larger). *)
Theorem C132_scan_partial :
  forall lowpass taper tiny secs k transform ucf l r0 r1 tab stations x y ids m reach starttime timestep pre post n read cw fs afs t0 q0,
  let c := o_clock secs k in let D := secs / o_rate k in
  scan_ready lowpass taper tiny secs k transform ucf l tab stations starttime timestep pre post -> steady secs k l tab ids stations m reach -> processed secs k m x ids y ->
  clear_of_ends secs k (m ((timestep + pre + post) / D)) (time2sample c pre) (time2sample c post) reach ->
  0 < n -> (forall i, 0 <= i < n -> let w := step_window c starttime timestep pre post i in reads tiny secs k x ids stations read (fst w) (snd w)) -> contributing k ids stations <> [] ->
  source secs k tab ids stations y (Lut_Model.g_count (Lut_Model.l_grid l)) (fun t => starttime <= t * D < starttime + timestep * n) t0 q0 -> starttime <= t0 * D < starttime + timestep * n ->
  exists f a row z, continuous_compute lowpass taper tiny secs k transform ucf l r0 r1 cw read stations fs afs starttime timestep n = Ret (f, a)
  /\ encode_row ucf row = Some z /\ stored c f (t0 * D) z /\ coa row = coalescence_of secs k tab ids stations y t0 q0 /\ (px row, py row, pz row) = node_coord transform (Lut_Model.l_grid l) q0
  /\ forall t, (D | t) -> starttime <= t < starttime + timestep * n -> t <> t0 * D -> exists row' z', encode_row ucf row' = Some z' /\ stored c f t z' /\ (coa row' < coa row)%R /\ coa z' <= coa z.
Proof.
  intros lp tp tiny secs k tr ucf l r0 r1 tab stations x y ids m reach starttime timestep pre post n read cw fs afs t0 q0 c D S St Py Cl Hn Rd Ne So Ht0.
  destruct (C131_scan_partial lp tp tiny secs k tr ucf l r0 r1 tab stations x y ids m reach starttime timestep pre post n read cw fs afs S St Py Cl Hn Rd) as (f & a & Ef & H). fold c D in Ef, H.
  destruct (DetectRun_Proofs.sr_delta lp tp tiny secs k tr ucf l tab stations starttime timestep pre post S) as (Dp & _). fold D in Dp.
  destruct (H (t0 * D) (Z.divide_factor_r _ _) Ht0) as [(C & _)|(_ & row & z & Pk & Ez & Sz)]; [contradiction|]. rewrite Z.div_mul in Pk by lia. destruct (at_source _ _ _ _ _ _ _ _ _ _ _ _ So Ht0 Pk) as (C1 & C2).
  exists f, a, row, z. split; [exact Ef|]. split; [exact Ez|]. split; [exact Sz|]. split; [exact C1|]. split; [exact C2|].
  intros t (u & ->) Ht Nt. destruct (H (u * D) (Z.divide_factor_r _ _) Ht) as [(C & _)|(_ & row' & z' & Pk' & Ez' & Sz')]; [contradiction|]. rewrite Z.div_mul in Pk' by lia.
  assert (L : (coa row' < coa row)%R) by (rewrite C1; apply (off_source _ _ _ _ _ _ _ _ _ _ _ _ _ So Ht ltac:(congruence) Pk')). exists row', z'. split; [exact Ez'|]. split; [exact Sz'|]. split; [exact L|]. apply (Agree_Props.encoded_mono _ _ _ _ _ Ez' Ez). lra.
Qed.
Print Assumptions C132_scan_partial.

(** The location of an event in whose window there is a source: the origin time is that of the source, and the coalescence of the event at it has the coordinates of its node. *)
Theorem C132_event_partial :
  forall lowpass taper tiny secs k transform l r0 r1 tab stations x y ids m reach mw pre post trig d t0 q0,
  let c := o_clock secs k in let D := secs / o_rate k in
  locate_ready lowpass taper tiny secs k l tab stations mw pre post -> steady secs k l tab ids stations m reach -> processed secs k m x ids y ->
  clear_of_ends secs k (m ((4 * mw + pre + post) / D + 1)) (time2sample c pre) (time2sample c post) reach -> (D | trig) ->
  d_start d = trig - 2 * mw - pre -> d_end d = trig + 2 * mw + post -> d_stations d = stations -> recorded secs k x ids d -> lively tiny secs k x ids d -> contributing k ids stations <> [] ->
  source secs k tab ids stations y (Lut_Model.g_count (Lut_Model.l_grid l)) (fun t => trig - 2 * mw <= t * D <= trig + 2 * mw) t0 q0 -> trig - 2 * mw <= t0 * D <= trig + 2 * mw ->
  exists ev vn, event_compute lowpass taper tiny secs k transform l r0 r1 pre post mw d trig = Ret ev /\ e_otime ev = t0 * D
  /\ max_coalescence ev = Ret (t0 * D, coalescence_of secs k tab ids stations y t0 q0, vn)
  /\ In (mk_coarow (t0 * D) (coalescence_of secs k tab ids stations y t0 q0) vn (node_coord transform (Lut_Model.l_grid l) q0)) (e_rows ev).
Proof.
  intros lp tp tiny secs k tr l r0 r1 tab stations x y ids m reach mw pre post trig d t0 q0 c D S St Py Cl Gt Ds De Dst Rc Lv Ne So Ht0.
  destruct (C131_event_partial lp tp tiny secs k tr l r0 r1 tab stations x y ids m reach mw pre post trig d S St Py Cl Gt Ds De Dst Rc Lv) as [(C & _)|(_ & ev & row & E & Hp & Hrows & (Bo & Go & Hb) & Hm)]; [contradiction|]. fold c D in Hp, Hrows, Go, Hb.
  destruct (LocateRun_Proofs.lr_delta lp tp tiny secs k l tab stations mw pre post S) as (Dp & _). fold D in Dp.
  pose proof (Hp _ (Z.divide_factor_r D t0) Ht0) as Pk. rewrite Z.div_mul in Pk by lia. destruct (at_source _ _ _ _ _ _ _ _ _ _ _ _ So Ht0 Pk) as (C1 & C2).
  assert (O : e_otime ev = t0 * D).
  { destruct Go as (u & Eu). rewrite Eu in *. destruct (Z.eq_dec u t0) as [->|N]; [reflexivity|exfalso]. pose proof (Hp _ (Z.divide_factor_r D u) Bo) as Pk'. rewrite Z.div_mul in Pk' by lia. pose proof (off_source _ _ _ _ _ _ _ _ _ _ _ _ _ So Bo N Pk') as L. pose proof (proj1 (Hb _ Ht0 (Z.divide_factor_r D t0))). lra. }
  exists ev, (coa_n (row (t0 * D))). split; [exact E|]. split; [exact O|]. rewrite O, C1 in Hm. split; [exact Hm|].
  assert (It : In (t0 * D) (mw_times c trig mw)).
  { destruct Gt as (g & Hg). destruct (LocateRun_Proofs.lr_multiples lp tp tiny secs k l tab stations mw pre post S) as (_ & _ & q' & _ & _ & Em & _). fold D in Em. unfold mw_times. apply in_map_iff. exists (t0 - g + 2 * q'). cbn [c o_clock delta]. fold D. rewrite Em, Hg in Ht0 |- *. split; [ring|]. apply in_zrange.
    replace (4 * (q' * D)) with (4 * q' * D) by ring. rewrite Z.div_mul by lia. assert (g - 2 * q' <= t0) by (apply (Zmult_le_reg_r _ _ D); lia). assert (t0 <= g + 2 * q') by (apply (Zmult_le_reg_r _ _ D); lia). lia. }
  clear - Hrows It C1 C2. induction Hrows as [|t e ts es Q _ IH]; [destruct It|]. destruct It as [->|It]; [|right; apply IH, It]. left. unfold same_sample in Q. rewrite C1, C2 in Q. exact Q.
Qed.
Print Assumptions C132_event_partial.

(** Scan, trigger and locate: a source in the scanned time whose coalescence reaches the static threshold, and is more than a digit of the files above all others, becomes an event. It is triggered at its time with the coordinates of its node,
    every other event of the batch is smaller, and locate gives its time as the origin time.
    Partial: the records and settings of C129; the location that is written comes from the coalescence summed over the marginal window, not from its peak. *)
Theorem C132_pipeline_partial :
  forall lowpass taper tiny secs k transform (ucf : Q) l r0 r1 rbf rat curve_fit pm ticks fraction tab stations x y ids m reach starttime timestep pre post n mw pre' post' read read' mags pre_cut post_cut cw fs afs p s e v0 t0 q0,
  let c := o_clock secs k in let D := secs / o_rate k in let N := Lut_Model.g_count (Lut_Model.l_grid l) in let F := coalescence_of secs k tab ids stations y in
  scan_ready lowpass taper tiny secs k transform (Q2R ucf) l tab stations starttime timestep pre post -> locate_ready lowpass taper tiny secs k l tab stations mw pre' post' -> interpolating rbf -> (0 < ucf)%Q ->
  steady secs k l tab ids stations m reach -> processed secs k m x ids y ->
  clear_of_ends secs k (m ((timestep + pre + post) / D)) (time2sample c pre) (time2sample c post) reach -> clear_of_ends secs k (m ((4 * mw + pre' + post') / D + 1)) (time2sample c pre') (time2sample c post') reach ->
  0 < n -> (forall i, 0 <= i < n -> let w := step_window c starttime timestep pre post i in reads tiny secs k x ids stations read (fst w) (snd w)) -> contributing k ids stations <> [] ->
  source secs k tab ids stations y N (fun t => starttime <= t * D < starttime + timestep * n) t0 q0 -> starttime <= t0 * D - 2 * mw -> t0 * D + 2 * mw < starttime + timestep * n ->
  (D | s - Trigger_Model.pad p) -> (D | e + Trigger_Model.pad p) -> (forall d, (s - Trigger_Model.pad p) / (86400 * secs) <= d <= (e + Trigger_Model.pad p) / (86400 * secs) -> fs d = None) ->
  Trigger_Model.threshold_method p = Trigger_Model.Static -> Trigger_Model.normalise_coalescence p = false -> 0 <= Trigger_Model.pad p -> Trigger_Spec.accepts c (s, e) (t0 * D) ->
  (Q2R (Trigger_Model.static_threshold p) + 5 / 1000000 <= Rmin (F t0 q0) 21474)%R ->
  (forall t q, is_node N q -> starttime <= t * D < starttime + timestep * n -> t <> t0 -> (F t q + 1 / 100000 < Rmin (F t0 q0) 21474)%R) ->
  (let '(a, b, u, v) := event_window (t0 * D) mw pre' post' mags pre_cut post_cut in reads tiny secs k x ids stations (fun a b => read' a b u v) a b) ->
  let run := locate_event lowpass taper tiny secs k transform l r0 r1 rbf rat curve_fit pm ticks fraction read' mw pre' post' mags pre_cut post_cut (t0 * D) in
  exists f a v1 es ev d evt loc cov vn,
    continuous_compute lowpass taper tiny secs k transform (Q2R ucf) l r0 r1 cw read stations fs afs starttime timestep n = Ret (f, a)
    /\ Trigger_Model.trigger_batch c p (Pipeline_Model.trigger_read c ucf f (Trigger_Model.pad p)) None v0 s e = Ret (v1, es) /\ In ev es
    /\ (exists row, (px row, py row, pz row) = node_coord transform (Lut_Model.l_grid l) q0 /\ Pipeline_Spec.event_at ucf (t0 * D) (Rmin (F t0 q0) 21474) row ev)
    /\ (forall ev', In ev' es -> Trigger_Model.CoaTime (Trigger_Model.cand ev') = t0 * D \/ (Trigger_Model.TRIG_COA (Trigger_Model.cand ev') < Trigger_Model.TRIG_COA (Trigger_Model.cand ev))%Q)
    /\ run = bind (pick_run lowpass taper tiny secs k rat curve_fit pm (arrivals transform l ticks fraction loc) d (t0 * D) mw) (fun picks => Ret (Some (mk_located evt loc (Some cov) picks)))
    /\ e_otime evt = t0 * D /\ max_coalescence evt = Ret (t0 * D, F t0 q0, vn).
Proof.
  intros lp tp tiny secs k tr ucf l r0 r1 rbf rat cf pm ticks fr tab stations x y ids m reach starttime timestep pre post n mw pre' post' read read' mags c1 c2 cw fs afs p s e v0 t0 q0 c D N F S S' Hrbf Hu St Py Cl Cl' Hn Rd Ne So Hlo Hhi Gs Ge Hold Hm Nn Hp Ha Hth Hbig Hr' run.
  destruct (LocateRun_Proofs.lr_delta lp tp tiny secs k l tab stations mw pre' post' S') as (Dp & Sp). fold D in Dp. destruct (DetectRun_Proofs.sr_clock lp tp tiny secs k tr (Q2R ucf) l tab stations starttime timestep pre post S) as (_ & Ir). pose proof (lr_mw _ _ _ _ _ _ _ _ _ _ _ S') as Mp.
  destruct (C131_scan_partial lp tp tiny secs k tr (Q2R ucf) l r0 r1 tab stations x y ids m reach starttime timestep pre post n read cw fs afs S St Py Cl Hn Rd) as (f & a & Ef & _). fold c D in Ef.
  destruct (scan_blocks lp tp tiny secs k tr (Q2R ucf) l r0 r1 tab stations x ids _ starttime timestep pre post n read S (st_dots _ _ _ _ _ _ _ _ St) Rd Hn (fun i d _ _ _ _ Es Rc Lv Wr Nt => compute_steady lp tp tiny secs k tr l r0 r1 tab x y ids stations m reach pre post d Wr St Py Rc Lv Es _ Nt Cl) cw fs afs f a Ef Ne) as (blocks & Nb & Cs & Es & Pk & Ex). fold c D in Cs, Es, Pk, Ex.
  assert (Sc : Pipeline_Spec.scanned c ucf fs f starttime blocks (Trigger_Model.pad p) s e).
  { constructor; try assumption.
    - destruct Ir as [z Hz]. exists (86400 * z). unfold c. rewrite Hz. cbn [o_clock delta]. ring.
    - exact (sr_start _ _ _ _ _ _ _ _ _ _ _ _ _ _ S).
    - exists cw. exact Es.
    - intros d Hd _. apply Hold, Hd. }
  assert (Ht0 : starttime <= t0 * D < starttime + timestep * n) by lia. destruct (Ex _ (Z.divide_factor_r D t0) Ht0) as (row & Ir0). destruct (Pk _ _ Ir0) as (_ & _ & P0). rewrite Z.div_mul in P0 by lia. destruct (at_source _ _ _ _ _ _ _ _ _ _ _ _ So Ht0 P0) as (C1 & C2).
  assert (Bt : s - Trigger_Model.pad p <= t0 * D <= e + Trigger_Model.pad p) by (clear - Ha Hp Dp; unfold Trigger_Spec.accepts in Ha; cbn [fst snd] in Ha; change (delta c) with D in Ha; destruct (e mod (86400 * sec c) =? 0); lia).
  destruct (Pipeline_Props.C105_batch_triggered c ucf fs f starttime blocks p None v0 s e _ _ Sc Ir0 Bt) as (v1 & es & Et).
  destruct (Pipeline_Props.C105_peak_becomes_event_partial c ucf fs f starttime blocks p s e v0 v1 es (t0 * D) row Sc Hm Nn Et Ir0 Ha Hp) as (ev & Ie & Ea & Eo).
  { unfold Pipeline_Spec.kept. rewrite C1. exact Hth. }
  { intros t' r' I' _ Nt. destruct (Pk _ _ I') as ((u & ->) & Bu & (q & Hq & _ & _ & Cq & _)). rewrite Z.div_mul in Cq by lia. unfold Pipeline_Spec.kept. rewrite C1, Cq. pose proof (Hbig u q Hq Bu ltac:(congruence)) as B. fold F. pose proof (Rmin_l (F u q) 21474). lra. }
  pose proof (Z.divide_factor_r D t0) as Gt. pose proof (LocateRun_Props.located_full lp tp tiny secs k tr l r0 r1 rbf rat cf pm ticks fr tab stations read' mw pre' post' mags c1 c2 (t0 * D) S' Hrbf Gt) as LF. cbv zeta in LF. fold run in LF.
  unfold event_window, locate_window in *. cbn [fst snd] in *. set (P := event_pads _ _ _ _ _ _) in *. destruct Hr' as (d & Er & Ds & De & Est & Rc & Lv).
  assert (So' : source secs k tab ids stations y N (fun t => t0 * D - 2 * mw <= t * D <= t0 * D + 2 * mw) t0 q0) by (destruct So as [A1 A2 A3 A4]; constructor; [exact A1|exact A2|intros; apply A3; [assumption|lia|assumption|assumption]|intros; apply A4; [lia|assumption|assumption]]).
  destruct (C132_event_partial lp tp tiny secs k tr l r0 r1 tab stations x y ids m reach mw pre' post' (t0 * D) d t0 q0 S' St Py Cl' Gt Ds De Est Rc Lv Ne So' ltac:(lia)) as (ev0 & vn & E0 & O0 & M0 & _). fold D F in E0, O0, M0.
  destruct LF as [(_ & [(ex & Exn & _)|(d0 & Ed & Eo')])|H].
  - right. exists d. split; [exact Er|]. split; [exact Ds|]. split; [exact De|]. split; [exact Est|].
    destruct (Agree_Proofs.event_window_ready lp tp tiny secs k l tab x ids stations mw pre' post' (t0 * D) d S' (st_dots _ _ _ _ _ _ _ _ St) Gt Ds De Est Rc) as (Wr & _). pose proof (StationSet_Spec.wr_data _ _ _ _ _ _ _ _ _ _ _ Wr) as U. rewrite Ds, De in U. exact U.
  - congruence.
  - exfalso. assert (d0 = d) by congruence. subst d0. unfold event_compute, compute_coalescence in E0. rewrite Eo' in E0. cbn in E0. discriminate.
  - destruct H as (d0 & r & tt & s0 & qq & ev1 & H). cbv zeta in H. destruct H as (E1 & O1 & M1 & Ed & _ & _ & _ & H). assert (d0 = d) by congruence. subst d0. assert (ev1 = ev0) by congruence. subst ev1. rewrite <- O1, O0 in H. rewrite <- O1, O0 in M1.
    destruct H as [(G1 & _)|(_ & ev' & loc & cloc & cov & unc & best & Er' & O' & M' & _)]; [rewrite Z.sub_diag in G1; cbn in G1; lia|].
    exists f, a, v1, es, ev, d, ev', loc, (cloc, cov, unc), vn. split; [exact Ef|]. split; [exact Et|]. split; [exact Ie|]. split; [exists row; split; [exact C2|]; unfold F; rewrite <- C1; exact Ea|]. split; [exact Eo|]. split; [exact Er'|]. split; [exact O'|]. congruence.
Qed.
Print Assumptions C132_pipeline_partial.

(** ** An example: two stations, two nodes. The first station is at the second node, the second a second away from it; and the other way round for the first node. *)
Definition src_set : onset_cfg := mk_onset ["P"%string] [("P"%string, Window_Props.ex_phase)] true false true 50 true true (map (fun x => x * x)%R) (1 / 100)%R 100000.
Definition src_tab (s _ : string) : Lut_Model.table := if String.eqb s "A" then [[[1%R]]; [[0%R]]] else [[[0%R]]; [[1%R]]].
Definition src_lut : Lut_Model.lut := Lut_Model.mk_lut (Lut_Model.mk_grid (0, 0, 0)%R (1, 1, 1)%R (2, 1, 1) 1 2)
  [("A"%string, [("P"%string, src_tab "A" "P")]); ("B"%string, [("P"%string, src_tab "B" "P")])] ["A"; "B"]%string ["P"%string].
(** The records are 1 and 2 in turn, but for one sample: at the first station just after the time 180500 of the source, at the second one second later. *)
Definition src_x (i : string) (j : Z) : R := if j =? (if String.eqb i "A.BHZ" then 180501 else 180551) then 10%R else if Z.even j then 1%R else 2%R.
Definition src_y (_ i : string) (t : Z) : R := (src_x i t * src_x i t)%R.
Definition src_ids : list string := ["A.BHZ"; "B.BHZ"]%string.
Definition src_stations : list string := ["A"; "B"]%string.
Definition src_reads (a b : Z) : outcome wdata := Ret (mk_wdata (map (fun i => Avail_Model.mk_seg i a 2000 (cut (src_x i) (a / 2000) ((b - a) / 2000 + 1))) src_ids) src_stations false None a b).
Definition src_params : Trigger_Model.params := Trigger_Model.Build_params Trigger_Model.Static 20 0 0 0 0 100000 200000 false 200000 false.
Lemma src_x_cases i j : (src_x i j = 1 \/ src_x i j = 2 \/ src_x i j = 10)%R.
Proof. unfold src_x. destruct (_ =? _); [auto|]. destruct (Z.even j); auto. Qed.
Lemma src_x_next i j : (src_x i j = 1 /\ src_x i (j + 1) = 2 \/ src_x i j = 2 /\ src_x i (j + 1) = 1 \/ src_x i j = 10 /\ src_x i (j + 1) <= 2 \/ src_x i j <= 2 /\ src_x i (j + 1) = 10)%R.
Proof.
  unfold src_x. set (s := if String.eqb i "A.BHZ" then _ else _). change (j + 1) with (Z.succ j). rewrite Z.even_succ, <- Z.negb_even. destruct (Z.eqb_spec j s), (Z.eqb_spec (Z.succ j) s); try lia; destruct (Z.even j); cbn [negb]; lra.
Qed.
Lemma src_lively d : 2 <= n_window 100000 50 (d_start d) (d_end d) -> lively (1 / 2) 100000 src_set src_x src_ids d.
Proof.
  intros Hn ph pc i [<-|[]] Ec _ y. assert (pc = Window_Props.ex_phase) by (cbn in Ec; congruence). subst pc.
  set (n := n_window 100000 50 (d_start d) (d_end d)) in *. set (a := d_start d / (100000 / 50)).
  set (z := window_of 100000 src_set src_x d i). assert (Lz : Z.of_nat (length z) = n) by (unfold z, window_of, cut, array1; rewrite map_length, zrange_length; change (o_rate src_set) with 50; fold n; lia).
  assert (Rz : forall j, 0 <= j < n -> Onset_Spec.sample z j = src_x i (a + j)) by (intros j Hj; unfold z, window_of, cut, Onset_Spec.sample; rewrite rd_array1 by exact Hj; reflexivity).
  assert (Ey : y = array1 n (fun i => if (i <? n / 20) || (n - n / 20 <=? i) then (9 / 10 * Onset_Spec.sample z i)%R else Onset_Spec.sample z i)) by (rewrite <- Lz; reflexivity). clearbody y.
  assert (Ly : Z.of_nat (length y) = n) by (rewrite Ey; unfold array1; rewrite map_length, zrange_length; lia).
  assert (Ry : forall j, 0 <= j < n -> exists f, rd y j = Some (f * src_x i (a + j))%R /\ (9 / 10 <= f <= 1)%R). { intros j Hj. rewrite Ey, rd_array1 by exact Hj. rewrite (Rz j Hj). destruct (_ || _); [exists (9 / 10)%R|exists 1%R]; (split; [f_equal; lra|lra]). }
  assert (W : forall t, (1 <= src_x i t)%R) by (intros t; destruct (src_x_cases i t) as [->|[->| ->]]; lra). split.
  - intros (v & Hv). rewrite Forall_forall in Hv. destruct (Ry 0 ltac:(lia)) as (f & F1 & F2). destruct (Ry 1 ltac:(lia)) as (g & G1 & G2). pose proof (Hv _ (rd_in _ _ _ _ F1)) as V0. pose proof (Hv _ (rd_in _ _ _ _ G1)) as V1. rewrite <- V1 in V0. rewrite Z.add_0_r in V0.
    assert (M : forall h u, (9 / 10 <= h <= 1 -> 1 <= u <= 2 -> h * u <= 2)%R) by (intros h u Hh Hu; apply Rle_trans with (1 * u)%R; [apply Rmult_le_compat_r; lra|lra]).
    destruct (src_x_next i a) as [(X1 & X2)|[(X1 & X2)|[(X1 & X2)|(X1 & X2)]]]; rewrite ?X1, ?X2 in V0; try lra.
    + pose proof (M g _ G2 (conj (W (a + 1)) X2)). lra.
    + pose proof (M f _ F2 (conj (W a) X1)). lra.
  - intros j Hj. change (ltw_samples _ _) with 2 in *. cbn [o_transform src_set] in *. rewrite map_length, Ly in Hj. unfold StaLta_Spec.window_mean. change (Z.to_nat 2) with 2%nat. cbn [zseq map Rsum fold_right]. replace (j - 2 + 1) with (j - 1) by lia. replace (j - 1 + 1) with j by lia.
    unfold Onset_Spec.sample. rewrite !rd_map. destruct (Ry j ltac:(lia)) as (f & -> & F2). destruct (Ry (j - 1) ltac:(lia)) as (g & -> & G2). cbn [option_map].
    assert (P : forall h w, (9 / 10 <= h -> 1 <= w -> 1 / 2 <= h * w * (h * w))%R). { intros h w Hh Hw. assert (9 / 10 <= h * w)%R by (apply Rle_trans with (h * 1)%R; [lra|apply Rmult_le_compat_l; lra]). apply Rle_trans with (9 / 10 * (9 / 10))%R; [lra|apply Rmult_le_compat; lra]. }
    pose proof (P f _ (proj1 F2) (W (a + j))). pose proof (P g _ (proj1 G2) (W (a + (j - 1)))). unfold Rsum. cbn [fold_right]. lra.
Qed.
Lemma src_reads_ok a b : a + 2000 <= b -> reads (1 / 2) 100000 src_set src_x src_ids src_stations src_reads a b.
Proof.
  intros Hab. eexists. split; [reflexivity|]. cbn [d_start d_end d_stations d_waveforms]. split; [reflexivity|]. split; [reflexivity|]. split; [reflexivity|]. split; [reflexivity|]. apply src_lively. unfold n_window. cbn [d_start d_end]. change (100000 / 50) with 2000. assert (1 <= (b - a) / 2000) by (apply Z.div_le_lower_bound; lia). lia.
Qed.
Lemma src_node q : is_node (2, 1, 1) q -> q = (0, 0, 0) \/ q = (1, 0, 0).
Proof. destruct q as ((i, j), h). intros Hq. cbn in Hq. assert (j = 0) by lia. assert (h = 0) by lia. subst j h. assert (Hi : i = 0 \/ i = 1) by lia. destruct Hi as [->| ->]; auto. Qed.
Lemma src_entries s p q : In s src_stations -> is_node (2, 1, 1) q -> entry0 (src_tab s p) q = (if Bool.eqb (String.eqb s "A") (Lut_Spec.flat (2, 1, 1) q =? 0) then 1%R else 0%R).
Proof. intros [<-|[<-|[]]] Hq; destruct (src_node q Hq) as [-> | ->]; reflexivity. Qed.
Lemma src_arrive s q t : In s src_stations -> is_node (2, 1, 1) q -> arrive src_set src_tab s "P" q t = t + (if Bool.eqb (String.eqb s "A") (Lut_Spec.flat (2, 1, 1) q =? 0) then 50 else 0).
Proof.
  intros Is Hq. unfold arrive. rewrite (src_entries s "P" q Is Hq). change (o_rate src_set) with 50. destruct (Bool.eqb _ _).
  - rewrite Rmult_1_l. rewrite ScanMseed_Proofs.np_round_IZR. reflexivity.
  - rewrite Rmult_0_l. change 0%R with (IZR 0). rewrite ScanMseed_Proofs.np_round_IZR. reflexivity.
Qed.
Lemma src_contributing : contributing src_set src_ids src_stations = [("A", "P"); ("B", "P")]%string.
Proof. reflexivity. Qed.
(** The onset functions: 40 at the arrivals of the source, at most 4 at other times. *)
Lemma src_onset s t : In s src_stations -> let a := if String.eqb s "A" then 180500 else 180550 in
  (t = a -> onset_of 100000 src_set src_ids src_y s "P" t = 40%R) /\ (t <> a -> (onset_of 100000 src_set src_ids src_y s "P" t <= 4)%R).
Proof.
  intros Is a. set (i := if String.eqb s "A" then "A.BHZ"%string else "B.BHZ"%string).
  assert (E : onset_of 100000 src_set src_ids src_y s "P" t = Rmax (StaLta_Spec.rms [ratio true 1 2 (src_y "P" i) t]) (1 / 100)) by (unfold i; destruct Is as [<-|[<-|[]]]; reflexivity).
  rewrite E. assert (Rt : ratio true 1 2 (src_y "P" i) t = (src_y "P" i (t + 1) / ((src_y "P" i (t - 1) + src_y "P" i t) / 2))%R).
  { unfold ratio, StaLta_Spec.window_mean. change (Z.to_nat 2) with 2%nat. change (Z.to_nat 1) with 1%nat. cbn [zseq map]. unfold Rsum. cbn [fold_right]. replace (t - 2 + 1) with (t - 1) by lia. replace (t - 1 + 1) with t by lia. unfold Rdiv. rewrite !Rplus_0_r, Rinv_1, Rmult_1_r. reflexivity. }
  set (rt := ratio _ _ _ _ _) in *. assert (P : forall j, (1 <= src_y "P" i j)%R) by (intros j; unfold src_y; destruct (src_x_cases i j) as [->|[->| ->]]; lra).
  assert (Pr : (0 < rt)%R). { rewrite Rt. pose proof (P (t + 1)). pose proof (P (t - 1)). pose proof (P t). apply Rmult_lt_0_compat; [lra|]. apply Rinv_0_lt_compat. lra. }
  assert (Rm : StaLta_Spec.rms [rt] = rt). { unfold StaLta_Spec.rms. cbn [map length]. unfold Rsum. cbn [fold_right length INR]. replace ((rt * rt + 0) / 1)%R with (rt * rt)%R by field. apply sqrt_square. lra. }
  rewrite Rm. assert (X : forall j, src_y "P" i j = if j =? a + 1 then 100%R else if Z.even j then 1%R else 4%R).
  { intros j. unfold src_y, src_x, i, a. destruct Is as [<-|[<-|[]]]; cbn [String.eqb Ascii.eqb Bool.eqb]; destruct (j =? _); try lra; destruct (Z.even j); lra. }
  split.
  - intros ->. rewrite Rt. rewrite !X. rewrite Z.eqb_refl. destruct (Z.eqb_spec (a - 1) (a + 1)); [lia|]. destruct (Z.eqb_spec a (a + 1)); [lia|]. replace (a - 1) with (Z.pred a) by lia. rewrite Z.even_pred, <- Z.negb_even. rewrite Rmax_left; destruct (Z.even a); cbn [negb]; lra.
  - intros Na. apply Rmax_lub; [|lra]. rewrite Rt. rewrite (X (t + 1)). destruct (Z.eqb_spec (t + 1) (a + 1)); [lia|]. pose proof (P (t - 1)). pose proof (P t). assert (Y : ((if Z.even (t + 1) then 1 else 4) <= 4)%R) by (destruct (Z.even (t + 1)); lra).
    apply (Rmult_le_reg_r ((src_y "P" i (t - 1) + src_y "P" i t) / 2)); [lra|]. unfold Rdiv at 1. rewrite Rmult_assoc, Rinv_l by lra. lra.
Qed.
Lemma src_value s q t : In s src_stations -> is_node (2, 1, 1) q -> (onset_of 100000 src_set src_ids src_y s "P" (arrive src_set src_tab s "P" q t) <= 40)%R.
Proof. intros Is Hq. destruct (src_onset s (arrive src_set src_tab s "P" q t) Is) as (A & B). destruct (Z.eq_dec (arrive src_set src_tab s "P" q t) (if String.eqb s "A" then 180500 else 180550)) as [E|N]; [rewrite (A E); lra|pose proof (B N); lra]. Qed.
Lemma src_coalescence t q : is_node (2, 1, 1) q -> let F := coalescence_of 100000 src_set src_tab src_ids src_stations src_y t q in
  ((t, q) = (180500, (1, 0, 0)) -> F = 40%R) /\ ((t, q) <> (180500, (1, 0, 0)) -> (F <= 13)%R).
Proof.
  intros Hq F. unfold F, coalescence_of. rewrite src_contributing. cbn [map fst snd]. assert (IA : In "A"%string src_stations) by (left; reflexivity). assert (IB : In "B"%string src_stations) by (right; left; reflexivity).
  pose proof (src_arrive "A" q t IA Hq) as EA. pose proof (src_arrive "B" q t IB Hq) as EB. pose proof (src_onset "A" (arrive src_set src_tab "A" "P" q t) IA) as (A1 & A2). pose proof (src_onset "B" (arrive src_set src_tab "B" "P" q t) IB) as (B1 & B2).
  pose proof (src_value "A" q t IA Hq) as VA. pose proof (src_value "B" q t IB Hq) as VB. cbn [String.eqb Ascii.eqb Bool.eqb] in *. set (u := onset_of _ _ _ _ "A" _ _) in *. set (v := onset_of _ _ _ _ "B" _ _) in *.
  assert (G : forall a b, (0 < a -> 0 < b -> geometric_mean [a; b] = sqrt (a * b))%R). { intros a b Ha Hb. unfold geometric_mean. cbn [length INR Rprod fold_right]. rewrite Rmult_1_r. replace (/ (1 + 1))%R with (/ 2)%R by lra. apply Rpower_sqrt, Rmult_lt_0_compat; assumption. }
  pose proof (Rmax_r u (1 / 100)) as U0. pose proof (Rmax_r v (1 / 100)) as V0. rewrite G by lra. split.
  - intros E. assert (t = 180500) by congruence. assert (q = (1, 0, 0)) by congruence. subst t q. rewrite A1, B1 by (rewrite ?EA, ?EB; reflexivity). rewrite Rmax_left by lra. apply sqrt_square. lra.
  - intros N. replace 13%R with (sqrt (13 * 13)) by (apply sqrt_square; lra). apply sqrt_le_1; [apply Rmult_le_pos; lra|lra|]. set (a := arrive _ _ "A" _ _ _) in *. set (b := arrive _ _ "B" _ _ _) in *.
    assert (D : a <> 180500 \/ b <> 180550). { rewrite EA, EB. clear - N Hq. destruct (src_node q Hq) as [-> | ->]; cbn [Lut_Spec.flat Z.mul Z.add Z.eqb Bool.eqb]; [lia|]. destruct (Z.eq_dec t 180500) as [->|]; [exfalso; apply N; reflexivity|left; change (t + 0 <> 180500); lia]. }
    assert (MA : (Rmax u (1 / 100) <= 40)%R) by (apply Rmax_lub; lra). assert (MB : (Rmax v (1 / 100) <= 40)%R) by (apply Rmax_lub; lra).
    destruct D as [D|D]; [pose proof (A2 D); assert (Rmax u (1 / 100) <= 4)%R by (apply Rmax_lub; lra); apply Rle_trans with (4 * 40)%R; [apply Rmult_le_compat; lra|lra]|pose proof (B2 D); assert (Rmax v (1 / 100) <= 4)%R by (apply Rmax_lub; lra); apply Rle_trans with (40 * 4)%R; [apply Rmult_le_compat; lra|lra]].
Qed.
Lemma src_source T : source 100000 src_set src_tab src_ids src_stations src_y (2, 1, 1) T 180500 (1, 0, 0).
Proof.
  assert (N0 : is_node (2, 1, 1) (1, 0, 0)) by (cbn; lia). constructor; [exact N0| | |]; rewrite ?src_contributing.
  - intros s ph I. assert (Is : In s src_stations /\ ph = "P"%string) by (destruct I as [I|[I|[]]]; inversion I; subst; cbn; auto). destruct Is as (Is & ->). rewrite (src_arrive s _ _ Is N0). destruct (src_onset s (if String.eqb s "A" then 180500 else 180550) Is) as (A & _). specialize (A eq_refl).
    replace (180500 + _) with (if String.eqb s "A" then 180500 else 180550) by (destruct Is as [<-|[<-|[]]]; reflexivity). rewrite A. lra.
  - intros s ph t q I _ Hq Na. assert (Is : In s src_stations /\ ph = "P"%string) by (destruct I as [I|[I|[]]]; inversion I; subst; cbn; auto). destruct Is as (Is & ->).
    assert (E : arrive src_set src_tab s "P" (1, 0, 0) 180500 = if String.eqb s "A" then 180500 else 180550) by (rewrite (src_arrive s _ _ Is N0); destruct Is as [<-|[<-|[]]]; reflexivity). rewrite E in Na |- *.
    destruct (src_onset s (arrive src_set src_tab s "P" q t) Is) as (_ & B). specialize (B Na). destruct (src_onset s (if String.eqb s "A" then 180500 else 180550) Is) as (A & _). rewrite (A eq_refl). lra.
  - intros t q _ Hq N. assert (IA : In "A"%string src_stations) by (left; reflexivity). assert (IB : In "B"%string src_stations) by (right; left; reflexivity).
    destruct (Z.eq_dec (arrive src_set src_tab "A" "P" q t) (arrive src_set src_tab "A" "P" (1, 0, 0) 180500)) as [EA|NA]; [|exists "A"%string, "P"%string; split; [left; reflexivity|exact NA]].
    exists "B"%string, "P"%string. split; [right; left; reflexivity|]. intros EB. rewrite !src_arrive in EA by assumption. rewrite !src_arrive in EB by assumption. destruct (src_node q Hq) as [-> | ->]; cbn [Lut_Spec.flat Z.mul Z.add Z.eqb Bool.eqb String.eqb Ascii.eqb] in EA, EB; [lia|]. apply N. f_equal. lia.
Qed.
Lemma src_square t x b u : b + Z.max 0 (u / 20) <= t < b + u - Z.max 0 (u / 20) -> Onset_Spec.sample (map (fun x => x * x)%R (Window_Props.ex_taper 2000 (cut x b u))) (t - b) = (x t * x t)%R.
Proof.
  intros Hu. assert (Lu : Z.of_nat (length (cut x b u)) = Z.max 0 u) by apply array1_length. assert (0 <= u) by lia. rewrite Z.max_r in Lu by lia.
  assert (0 <= u / 20) by (apply Z.div_pos; lia). unfold Window_Props.ex_taper. cbv zeta. rewrite Lu. unfold Onset_Spec.sample at 1. rewrite rd_map, rd_array1 by lia. destruct (Z.ltb_spec (t - b) (u / 20)); [lia|]. destruct (Z.leb_spec (u - u / 20) (t - b)); [lia|]. cbn [orb option_map]. unfold Onset_Spec.sample, cut. rewrite rd_array1 by lia. replace (b + (t - b)) with t by lia. reflexivity.
Qed.
(** The hypotheses of C131 and C132. A scan of twenty seconds, one second at a time; a batch of twelve seconds around the source; a marginal window of one second. *)
Example C132_example :
  let k := src_set in let c := o_clock 100000 k in let m n := Z.max 0 (n / 20) in let F := coalescence_of 100000 k src_tab src_ids src_stations src_y in let N := Lut_Model.g_count (Lut_Model.l_grid src_lut) in let D := 100000 / o_rate k in
  scan_ready (fun _ x => x) (fun x => x) (1 / 2) 100000 k (fun _ _ x => x) (Q2R 1) src_lut src_tab src_stations 360000000 100000 102000 200000
  /\ locate_ready (fun _ x => x) (fun x => x) (1 / 2) 100000 k src_lut src_tab src_stations 100000 102000 200000
  /\ steady 100000 k src_lut src_tab src_ids src_stations m 50 /\ processed 100000 k m src_x src_ids src_y
  /\ clear_of_ends 100000 k (m ((100000 + 102000 + 200000) / D)) (time2sample c 102000) (time2sample c 200000) 50 /\ clear_of_ends 100000 k (m ((4 * 100000 + 102000 + 200000) / D + 1)) (time2sample c 102000) (time2sample c 200000) 50
  /\ (forall i, 0 <= i < 20 -> let w := step_window c 360000000 100000 102000 200000 i in reads (1 / 2) 100000 k src_x src_ids src_stations src_reads (fst w) (snd w))
  /\ contributing k src_ids src_stations <> [] /\ source 100000 k src_tab src_ids src_stations src_y N (fun t => 360000000 <= t * D < 360000000 + 100000 * 20) 180500 (1, 0, 0)
  /\ 360000000 <= 180500 * D - 2 * 100000 /\ 180500 * D + 2 * 100000 < 360000000 + 100000 * 20
  /\ (D | 360400000 - Trigger_Model.pad src_params) /\ (D | 361600000 + Trigger_Model.pad src_params) /\ Trigger_Spec.accepts c (360400000, 361600000) (180500 * D)
  /\ (Q2R (Trigger_Model.static_threshold src_params) + 5 / 1000000 <= Rmin (F 180500%Z (1, 0, 0)%Z) 21474)%R
  /\ (forall t q, is_node N q -> 360000000 <= t * D < 360000000 + 100000 * 20 -> t <> 180500 -> (F t q + 1 / 100000 < Rmin (F 180500%Z (1, 0, 0)%Z) 21474)%R)
  /\ (let '(a, b, u, v) := event_window (180500 * D) 100000 102000 200000 None None None in reads (1 / 2) 100000 k src_x src_ids src_stations (fun a b => src_reads a b) a b).
Proof.
  intros k c m F N D. assert (Q1 : Q2R 1 = 1%R) by (unfold Q2R; cbn; lra).
  assert (Tab : forall s p, In s src_stations -> In p (o_phases k) -> table_of src_lut s p (src_tab s p) /\ has_shape (src_tab s p) N /\ forall q, is_node N q -> (-2147483648 <= entry0 (src_tab s p) q * IZR (o_rate k) <= IZR (200000 / (100000 / o_rate k)))%R).
  { intros s p Is [<-|[]]. split; [|split].
    - destruct Is as [<-|[<-|[]]]; (eexists; split; [reflexivity|left; reflexivity]).
    - destruct Is as [<-|[<-|[]]]; (cbn; split; [reflexivity|]; repeat (constructor; [cbn; split; [reflexivity|repeat constructor]|]); constructor).
    - intros q Hq. rewrite (src_entries s "P" q Is Hq). change (IZR (o_rate k)) with 50%R. change (200000 / (100000 / o_rate k)) with 100. destruct (Bool.eqb _ _); lra. }
  assert (F0 : F 180500 (1, 0, 0) = 40%R) by (apply src_coalescence; [cbn; lia|reflexivity]).
  split; [|split; [|split; [|split; [|split; [|split; [|split; [|split; [|split; [|split; [|split; [|split; [|split; [|split; [|split; [|split]]]]]]]]]]]]]]].
  - rewrite Q1. unfold k. constructor; cbn [src_set o_rate o_python o_transform o_cfg o_phases o_post o_all src_lut Lut_Model.l_grid].
    + repeat split; try lia; [exists 1|exists 2000]; reflexivity.
    + lra.
    + reflexivity.
    + reflexivity.
    + reflexivity.
    + intros x. apply map_length.
    + exists 20. reflexivity.
    + lia.
    + exists 50. reflexivity.
    + exists 180000. reflexivity.
    + discriminate.
    + discriminate.
    + reflexivity.
    + intros ph [<-|[]]. exists Window_Props.ex_phase. split; [reflexivity|]. split; [vm_compute; repeat split; discriminate|]. split; [reflexivity|]. split; [|reflexivity]. intros dd x. cbn [Window_Props.ex_phase ph_band]. unfold Window_Props.ex_taper, array1. rewrite map_length, zrange_length. lia.
    + unfold grid_ok. cbn. repeat split; try lra; lia.
    + constructor; [intros []|constructor].
    + constructor; [intros [H|[]]; discriminate|]. constructor; [intros []|constructor].
    + constructor; [exact Lut_Props.plain_P|constructor].
    + constructor; [intros [H|[]]; discriminate|]. constructor; [intros [H|[]]; discriminate|constructor].
    + exact Tab.
    + vm_compute. reflexivity.
    + lra.
    + intros q Hq. destruct (src_node q Hq) as [-> | ->]; cbn; repeat split; apply Rabs_le; lra.
  - unfold k. constructor; cbn [src_set o_rate o_python o_transform o_cfg o_phases o_post o_all src_lut Lut_Model.l_grid].
    + repeat split; try lia; [exists 1|exists 2000]; reflexivity.
    + lra.
    + reflexivity.
    + reflexivity.
    + reflexivity.
    + intros x. apply map_length.
    + exists 20. reflexivity.
    + lia.
    + exists 50. reflexivity.
    + discriminate.
    + discriminate.
    + reflexivity.
    + intros ph [<-|[]]. exists Window_Props.ex_phase. split; [reflexivity|]. split; [vm_compute; repeat split; discriminate|]. split; [reflexivity|]. split; [|reflexivity]. intros dd x. cbn [Window_Props.ex_phase ph_band]. unfold Window_Props.ex_taper, array1. rewrite map_length, zrange_length. lia.
    + unfold grid_ok. cbn. repeat split; try lra; lia.
    + constructor; [intros []|constructor].
    + constructor; [intros [H|[]]; discriminate|]. constructor; [intros []|constructor].
    + constructor; [exact Lut_Props.plain_P|constructor].
    + constructor; [intros [H|[]]; discriminate|]. constructor; [intros [H|[]]; discriminate|constructor].
    + exact Tab.
    + vm_compute. reflexivity.
  - constructor; try reflexivity; try lia.
    + constructor; [intros [H|[]]; discriminate|]. constructor; [intros []|constructor].
    + constructor; [intros [H|[]]; discriminate|]. constructor; [intros [H|[]]; discriminate|constructor].
    + unfold m. lia.
    + intros ph pc [<-|[]] Ec. assert (pc = Window_Props.ex_phase) by (cbn in Ec; congruence). subst pc. intros x a n a' n' t Ht Ht'. exact (eq_trans (src_square t x a n Ht) (eq_sym (src_square t x a' n' Ht'))).
    + intros s p q Is [<-|[]] Hq. rewrite (src_entries s "P" q Is Hq). change (IZR (o_rate k)) with 50%R. destruct (Bool.eqb _ _); lra.
  - intros ph pc i a n t [<-|[]] Ec Ii Ht. assert (pc = Window_Props.ex_phase) by (cbn in Ec; congruence). subst pc. exact (src_square t (src_x i) a n Ht).
  - intros ph pc [<-|[]] Ec. assert (pc = Window_Props.ex_phase) by (cbn in Ec; congruence). subst pc. vm_compute. split; discriminate.
  - intros ph pc [<-|[]] Ec. assert (pc = Window_Props.ex_phase) by (cbn in Ec; congruence). subst pc. vm_compute. split; discriminate.
  - intros i Hi w. apply src_reads_ok. unfold w, step_window. cbn [fst snd]. change (delta c) with 2000. lia.
  - unfold k. rewrite src_contributing. discriminate.
  - apply src_source.
  - vm_compute. discriminate.
  - reflexivity.
  - exists 180100. reflexivity.
  - exists 180900. reflexivity.
  - vm_compute. split; discriminate.
  - rewrite F0. rewrite Rmin_left by lra. unfold Q2R. cbn. lra.
  - intros t q Hq _ Nt. rewrite F0, Rmin_left by lra. destruct (src_coalescence t q Hq) as (_ & B). assert (Ne : (t, q) <> (180500, (1, 0, 0))) by congruence. specialize (B Ne). unfold F. fold k in B. lra.
  - cbn [event_window locate_window fst snd]. apply src_reads_ok. vm_compute. discriminate.
Qed.

(** The event of the source is triggered. *)
Lemma src_found r0 r1 cw :
  let k := src_set in let c := o_clock 100000 k in
  exists f a v1 es ev,
  continuous_compute (fun _ x => x) (fun x => x) (1 / 2) 100000 k (fun _ _ x => x) (Q2R 1) src_lut r0 r1 cw src_reads src_stations (fun _ => None) (fun _ => None) 360000000 100000 20 = Ret (f, a)
  /\ Trigger_Model.trigger_batch c src_params (Pipeline_Model.trigger_read c 1 f (Trigger_Model.pad src_params)) None {| Trigger_Model.tfiles := fun _ => None; Trigger_Model.output_cols := [] |} 360400000 361600000 = Ret (v1, es) /\ In ev es
  /\ Trigger_Model.CoaTime (Trigger_Model.cand ev) = 361000000.
Proof.
  intros k c. destruct C132_example as (S & S' & St & Py & Cl & Cl' & Rd & Ne & So & H1 & H2 & G1 & G2 & Ac & Th & Bg & Re).
  destruct (C132_pipeline_partial (fun _ x => x) (fun x => x) (1 / 2) 100000 src_set (fun _ _ x => x) 1%Q src_lut r0 r1 Locate_Props.lookup_rbf (fun _ => 0%Q) (fun _ _ => Undef) (Picker_Model.Percentile 1) (fun _ => 0) 0%R src_tab src_stations src_x src_y src_ids
    (fun n => Z.max 0 (n / 20)) 50 360000000 100000 102000 200000 20 100000 102000 200000 src_reads (fun a b _ _ => src_reads a b) None None None cw (fun _ => None) (fun _ => None) src_params 360400000 361600000
    {| Trigger_Model.tfiles := fun _ => None; Trigger_Model.output_cols := [] |} 180500 (1, 0, 0) S S' Locate_Props.lookup_rbf_ok eq_refl St Py Cl Cl' ltac:(lia) Rd Ne So H1 H2 G1 G2 ltac:(intros; reflexivity) eq_refl eq_refl ltac:(cbn; lia) Ac Th Bg Re)
    as (f & a & v1 & es & ev & _ & _ & _ & _ & _ & E1 & E2 & Ie & (row & _ & Ev & _) & _).
  exists f, a, v1, es, ev. split; [exact E1|]. split; [exact E2|]. split; [exact Ie|]. exact Ev.
Qed.

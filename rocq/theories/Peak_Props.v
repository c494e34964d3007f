(** C130: a triggered event is the peak of the coalescence around it, and the locate stage keeps it. *)
From Coq Require Import String Ascii.
From Coq Require Import List ZArith Reals QArith Qreals Bool Lia Lra.
From Verif Require Import Lib LibFacts PyDict Timeline_Model Timeline_Spec ScanMseed_Model ScanMseed_Spec Migrate_Spec Lut_Spec Locate_Model Locate_Spec Onset_Model Onset_Spec PickRun_Model DetectRun_Model DetectRun_Spec
  Window_Spec LocatePipe_Spec LocateRun_Model LocateRun_Spec Agree_Spec Trigger_Model Trigger_Spec Peak_Proofs.
From Verif Require StationSet_Spec Lut_Model Pipeline_Model Pipeline_Spec Pipeline_Proofs Pipeline_Props Trigger_Proofs Trigger_Props ScanMseed_Proofs DetectRun_Proofs DetectRun_Props LocateRun_Proofs Window_Proofs Agree_Props Formula_Props.
From Verif Require Import Trigger_Props.
Import ListNotations.
Open Scope Z_scope.

(** Whatever the threshold: no sample that reaches it within the minimum event interval of a triggered event has a larger coalescence than the event, and those before the event have a smaller one. *)
Theorem C130_event_is_the_peak :
  forall c p read reg w s e w' es ev t0 data i r,
  0 < delta c -> read s e = Ret data -> sampled c t0 data -> normalise_coalescence p = false ->
  trigger_batch c p read reg w s e = Ret (w', es) -> In ev es ->
  hit p data (batch_threshold c p data) i -> rd data i = Some r -> Z.abs (DT r - CoaTime (cand ev)) <= min_event_interval p ->
  (COA r <= TRIG_COA (cand ev))%Q /\ (DT r < CoaTime (cand ev) -> (COA r < TRIG_COA (cand ev))%Q).
Proof.
  intros c p read reg w s e w' es ev t0 data i r Dp Rd Sm Nn Tb Ie Hh Hr Hd. exact (batch_peak c p read reg w s e w' es ev t0 data i r Dp Rd Sm Tb Nn Ie Hh Hr Hd).
Qed.
Print Assumptions C130_event_is_the_peak.

(** With a static threshold this is true of every sample that was read. *)
Theorem C130_static_peak :
  forall c p read reg w s e w' es ev t0 data i r,
  0 < delta c -> read s e = Ret data -> sampled c t0 data -> normalise_coalescence p = false -> threshold_method p = Static ->
  trigger_batch c p read reg w s e = Ret (w', es) -> In ev es ->
  rd data i = Some r -> Z.abs (DT r - CoaTime (cand ev)) <= min_event_interval p ->
  (COA r <= TRIG_COA (cand ev))%Q /\ (DT r < CoaTime (cand ev) -> (COA r < TRIG_COA (cand ev))%Q).
Proof.
  intros c p read reg w s e w' es ev t0 data i r Dp Rd Sm Nn Hm Tb Ie Hr Hd. destruct (Qlt_le_dec (COA r) (static_threshold p)) as [Hlt|Hge].
  - destruct (batch_sample c p read reg w s e w' es ev data Rd Tb Ie) as (j & rj & Hj & Rj & _ & T & _). rewrite Nn in T. destruct (Pipeline_Proofs.static_hit_inv c p data j Hm Hj) as (rj' & Rj' & Hs). rewrite Nn in Hs. assert (rj' = rj) by congruence. subst rj'.
    rewrite T. pose proof (Qlt_le_trans _ _ _ Hlt Hs) as Q. split; [apply Qlt_le_weak, Q|intros _; exact Q].
  - apply (batch_peak c p read reg w s e w' es ev t0 data i r Dp Rd Sm Tb Nn Ie); [|exact Hr|exact Hd]. apply (Pipeline_Proofs.static_hit c p data i r Hm Hr). rewrite Nn. exact Hge.
Qed.
Print Assumptions C130_static_peak.

Example C130_applies :
  let data := series 100 [1; 5; 7; 6; 1; 1; 1; 8; 1]%Q in
  let p := settings Static 5 0 1 false in
  0 < delta hz1 /\ sampled hz1 100 data /\ normalise_coalescence p = false /\ threshold_method p = Static /\
  match trigger_batch hz1 p (fun _ _ => Ret data) None {| tfiles := fun _ => None; output_cols := OUTPUT_COLS |} 0 200 with
  | Ret (_, es) => map (fun e => (CoaTime (cand e), TRIG_COA (cand e))) es = [(102, 7%Q); (107, 8%Q)]
  | _ => False end.
Proof. split; [reflexivity|]. split; [apply series_sampled|]. split; [reflexivity|]. split; [reflexivity|]. vm_compute. reflexivity. Qed.

(** Without the condition on the normalisation it is false: an event is at the peak of the coalescence, also where the trigger is on the normalised coalescence; a sample next to it can have a larger value of what was triggered on. *)
Theorem C130_normalised_refuted :
  exists c p read reg w s e w' es ev t0 data i r,
  0 < delta c /\ read s e = Ret data /\ sampled c t0 data /\ normalise_coalescence p = true /\ threshold_method p = Static /\
  trigger_batch c p read reg w s e = Ret (w', es) /\ In ev es /\
  rd data i = Some r /\ Z.abs (DT r - CoaTime (cand ev)) <= min_event_interval p /\ (TRIG_COA (cand ev) < trigger_on p r)%Q.
Proof.
  set (row t v n := {| DT := t; COA := v; COA_N := n; PX := 0; PY := 0; PZ := 0 |}).
  set (data := [row 100 1%Q 1%Q; row 101 5%Q 6%Q; row 102 4%Q 9%Q; row 103 1%Q 1%Q]).
  set (p := {| threshold_method := Static; static_threshold := 5; mad_window_length := 1; mad_multiplier := 0; median_window_length := 1; median_multiplier := 0; marginal_window := 1; min_event_interval := 2;
     normalise_coalescence := true; pad := 10; write_event_time_windows := false |}).
  set (w := {| tfiles := fun _ => None; output_cols := OUTPUT_COLS |}).
  destruct (trigger_batch hz1 p (fun _ _ => Ret data) None w 0 200) as [(w' & es)|?|] eqn:E; [|vm_compute in E; discriminate|vm_compute in E; discriminate].
  assert (Ev : exists ev, In ev es /\ CoaTime (cand ev) = 101 /\ TRIG_COA (cand ev) = 6%Q).
  { assert (X : es = match trigger_batch hz1 p (fun _ _ => Ret data) None w 0 200 with Ret (_, es) => es | _ => [] end) by (rewrite E; reflexivity). rewrite X. vm_compute. eexists. split; [left; reflexivity|split; reflexivity]. }
  destruct Ev as (ev & Ie & Ct & Tc). exists hz1, p, (fun _ _ => Ret data), None, w, 0, 200, w', es, ev, 100, data, 2, (row 102 4%Q 9%Q).
  split; [reflexivity|]. split; [reflexivity|]. split; [|split; [reflexivity|split; [reflexivity|split; [exact E|split; [exact Ie|split; [reflexivity|]]]]]].
  - intros i r H. pose proof (rd_bounds _ _ _ _ H) as B. change (Z.of_nat (length data)) with 4 in B. assert (C : i = 0 \/ i = 1 \/ i = 2 \/ i = 3) by lia. destruct C as [->|[->|[->| ->]]]; injection H as <-; reflexivity.
  - rewrite Ct, Tc. split; [cbn; lia|reflexivity].
Qed.
Print Assumptions C130_normalised_refuted.

Lemma same_row ucf t z z' : Pipeline_Model.scanrow_of ucf t z = Pipeline_Model.scanrow_of ucf t z' -> coa z = coa z'.
Proof. intros E. apply (f_equal COA) in E. cbn [Pipeline_Model.scanrow_of COA] in E. congruence. Qed.
Lemma frac_le a b : (a # 100000 <= b # 100000)%Q -> a <= b.
Proof. unfold Qle. cbn [Qnum Qden]. lia. Qed.
Lemma frac_lt a b : (a # 100000 < b # 100000)%Q -> a < b.
Proof. unfold Qlt. cbn [Qnum Qden]. lia. Qed.

(** The same of what a scan stored in its files: around a triggered event no stored coalescence is larger, and earlier ones are smaller. *)
Theorem C130_peak_of_the_scan_partial :
  forall c ucf fs fs' start l p s e reg v0 v1 es ev,
  Pipeline_Spec.scanned c ucf fs fs' start l (pad p) s e -> threshold_method p = Static -> normalise_coalescence p = false ->
  trigger_batch c p (Pipeline_Model.trigger_read c ucf fs' (pad p)) reg v0 s e = Ret (v1, es) -> In ev es ->
  let trig := CoaTime (cand ev) in
  exists z, stored c fs' trig z /\ TRIG_COA (cand ev) = coa z # 100000 /\ (static_threshold p <= coa z # 100000)%Q /\ (delta c | trig) /\ s <= trig <= e
  /\ forall t z', stored c fs' t z' -> s - pad p <= t <= e + pad p -> Z.abs (t - trig) <= min_event_interval p -> coa z' <= coa z /\ (t < trig -> coa z' < coa z).
Proof.
  intros c ucf fs fs' start l p s e reg v0 v1 es ev Sc Hm Nn Tb Ie trig. destruct (Trigger_Proofs.trigger_batch_inv _ _ _ _ _ _ _ _ _ Tb) as (data & _ & _ & Rd & _).
  pose proof (Pipeline_Spec.sc_delta _ _ _ _ _ _ _ _ _ Sc) as Dp. destruct (batch_stored c ucf fs fs' start l (pad p) s e Sc data Rd) as (t1 & Sm & Fr & To).
  destruct (batch_sample c p _ reg v0 s e v1 es ev data Rd Tb Ie) as (j & rj & Hj & Rj & C & T & Bt). rewrite Nn in T. destruct (Pipeline_Proofs.static_hit_inv c p data j Hm Hj) as (rj' & Rj' & Hs). rewrite Nn in Hs. assert (rj' = rj) by congruence. subst rj'.
  destruct (Fr _ _ Rj) as (t & z & Er & St & Gt). subst rj. cbn [Pipeline_Model.scanrow_of DT COA] in C, T, Hs. assert (t = trig) by (unfold trig; congruence). subst t.
  exists z. split; [exact St|]. split; [exact T|]. split; [exact Hs|]. split; [exact Gt|]. split. { fold trig in Bt. destruct (e mod day c =? 0); lia. }
  intros t z' St' Ht Hd. destruct (To t z' St' Ht) as (i & Ri).
  destruct (C130_static_peak c p _ reg v0 s e v1 es ev t1 data i _ Dp Rd Sm Nn Hm Tb Ie Ri Hd) as (L1 & L2). rewrite T in L1, L2. cbn [Pipeline_Model.scanrow_of DT COA] in L1, L2. split; [apply frac_le, L1|intros Hlt; apply frac_lt, L2, Hlt].
Qed.
Print Assumptions C130_peak_of_the_scan_partial.

Example C130_peak_of_the_scan_applies : exists l fs' w' es ev,
  Pipeline_Spec.scanned Pipeline_Props.c105_clock 1%Q (fun _ => None) fs' 0 l (pad Pipeline_Props.c105_params) 1000000 3000000 /\ threshold_method Pipeline_Props.c105_params = Static /\ normalise_coalescence Pipeline_Props.c105_params = false /\
  trigger_batch Pipeline_Props.c105_clock Pipeline_Props.c105_params (Pipeline_Model.trigger_read Pipeline_Props.c105_clock 1%Q fs' (pad Pipeline_Props.c105_params)) None {| tfiles := fun _ => None; output_cols := [] |} 1000000 3000000 = Ret (w', es) /\ In ev es.
Proof.
  destruct Pipeline_Props.C105_applies as (l & fs' & w' & es & _ & Sc & Tb & ev & Ie & _). exists l, fs', w', es, ev. split; [exact Sc|]. split; [reflexivity|]. split; [reflexivity|]. split; [exact Tb|exact Ie].
Qed.

(** Scan, trigger (static threshold, not normalised), locate with the marginal window of the trigger stage, on the same archive. The origin time of the event is the first sample in two marginal windows around the triggered time with the
    largest coalescence before rounding; it is the triggered time itself, or a later sample of which the scan stored the same coalescence. Without such a tie the event is not skipped: it is located at the triggered time, with the
    triggered coalescence to within half of its last digit.
    Partial: the records and settings of C129 (no gaps, a processing that settles); both stages use the same samples. *)
Theorem C130_located_partial :
  forall lowpass taper tiny secs k transform (ucf : Q) l r0 r1 rbf rat curve_fit pm ticks fraction tab stations x ids m reach starttime timestep pre post n mw pre' post' read read' mags pre_cut post_cut cw fs afs fs' afs' p s e reg v0 v1 es ev,
  let c := o_clock secs k in let D := secs / o_rate k in let trig := CoaTime (cand ev) in
  scan_ready lowpass taper tiny secs k transform (Q2R ucf) l tab stations starttime timestep pre post -> locate_ready lowpass taper tiny secs k l tab stations mw pre' post' -> interpolating rbf -> (0 < ucf)%Q ->
  steady secs k l tab ids stations m reach ->
  clear_of_ends secs k (m ((timestep + pre + post) / D)) (time2sample c pre) (time2sample c post) reach -> clear_of_ends secs k (m ((4 * mw + pre' + post') / D + 1)) (time2sample c pre') (time2sample c post') reach ->
  0 < n -> (forall i, 0 <= i < n -> let w := step_window c starttime timestep pre post i in reads tiny secs k x ids stations read (fst w) (snd w)) ->
  continuous_compute lowpass taper tiny secs k transform (Q2R ucf) l r0 r1 cw read stations fs afs starttime timestep n = Ret (fs', afs') ->
  (D | s - pad p) -> (D | e + pad p) -> (forall d, (s - pad p) / (86400 * secs) <= d <= (e + pad p) / (86400 * secs) -> fs d = None) ->
  threshold_method p = Static -> normalise_coalescence p = false -> (0 < static_threshold p)%Q -> marginal_window p = mw -> 2 * marginal_window p <= min_event_interval p -> 2 * mw <= pad p ->
  trigger_batch c p (Pipeline_Model.trigger_read c ucf fs' (pad p)) reg v0 s e = Ret (v1, es) -> In ev es ->
  starttime <= trig - 2 * mw -> trig + 2 * mw < starttime + timestep * n ->
  (let '(a, b, p, q) := event_window trig mw pre' post' mags pre_cut post_cut in reads tiny secs k x ids stations (fun a b => read' a b p q) a b) ->
  let run := locate_event lowpass taper tiny secs k transform l r0 r1 rbf rat curve_fit pm ticks fraction read' mw pre' post' mags pre_cut post_cut trig in
  exists o z zo, trig <= o <= trig + 2 * mw /\ stored c fs' trig z /\ TRIG_COA (cand ev) = coa z # 100000 /\ stored c fs' o zo /\ coa zo = coa z
  /\ ((mw <= o - trig /\ run = Ret None)
      \/ (o - trig < mw /\ exists d evt loc cov v vn,
          run = bind (pick_run lowpass taper tiny secs k rat curve_fit pm (arrivals transform l ticks fraction loc) d o mw) (fun picks => Ret (Some (mk_located evt loc (Some cov) picks)))
          /\ e_otime evt = o /\ max_coalescence evt = Ret (o, v, vn) /\ (Rabs (Q2R (TRIG_COA (cand ev)) - Rmin v 21474) <= 5 / 1000000)%R)).
Proof.
  intros lp tp tiny secs k tr ucf l r0 r1 rbf rat cf pm ticks fr tab stations x ids m reach starttime timestep pre post n mw pre' post' read read' mags c1 c2 cw fs afs fs' afs' p s e reg v0 v1 es ev c D trig S S' Hrbf Hu St Cl Cl' Hn Hr Hcc Hlo Hhi Hold Hm Nn Hth Emw Hmi Hpad Tb Ie Hw1 Hw2 Hr' run.
  destruct (LocateRun_Proofs.lr_delta lp tp tiny secs k l tab stations mw pre' post' S') as (Dp & Sp). fold D in Dp. destruct (DetectRun_Proofs.sr_clock lp tp tiny secs k tr (Q2R ucf) l tab stations starttime timestep pre post S) as (Ck & Ir).
  pose proof (lr_mw _ _ _ _ _ _ _ _ _ _ _ S') as Mp.
  assert (Sc : exists blocks, Pipeline_Spec.scanned c ucf fs fs' starttime blocks (pad p) s e).
  { destruct (DetectRun_Props.C124_scan_partial lp tp tiny secs k tr (Q2R ucf) l r0 r1 tab stations starttime timestep pre post cw read fs afs n S Hn) as (blocks & table & fs2 & E1 & E2 & Cs & Lb & _ & _).
    { intros i Bi. specialize (Hr i Bi). cbv zeta in Hr. fold c. destruct Hr as (d & Er & Es & Ee & Est & Rc & _). right. exists d. split; [exact Er|]. split; [exact Es|]. split; [exact Ee|]. split; [exact Est|]. rewrite <- Es, <- Ee.
      unfold step_window in Es, Ee. cbn [fst snd] in Es, Ee. destruct (Window_Proofs.scan_window lp tp tiny secs k tr (Q2R ucf) l tab x ids stations starttime timestep pre post i d S (st_dots _ _ _ _ _ _ _ _ St) Es Ee Est Rc) as (Wr & _). exact (StationSet_Spec.wr_data _ _ _ _ _ _ _ _ _ _ _ Wr). }
    fold c in E1, E2, Cs. assert (fs2 = fs') by congruence. subst fs2. exists blocks. constructor; try assumption.
    - destruct Ir as [y Hy]. exists (86400 * y). unfold c. rewrite Hy. cbn [o_clock delta]. ring.
    - exact (sr_start _ _ _ _ _ _ _ _ _ _ _ _ _ _ S).
    - intros ->. cbn in Lb. lia.
    - exists cw. exact E2.
    - intros d Hd _. apply Hold, Hd. }
  destruct Sc as (blocks & Sc).
  destruct (C130_peak_of_the_scan_partial c ucf fs fs' starttime blocks p s e reg v0 v1 es ev Sc Hm Nn Tb Ie) as (z & Sz & Ez & Tz & Gt & Bt & Pk). fold trig in Sz, Gt, Bt, Pk. change (delta c) with D in Gt.
  destruct (Agree_Props.C129_located_partial lp tp tiny secs k tr (Q2R ucf) l r0 r1 rbf rat cf pm ticks fr tab stations x ids m reach starttime timestep pre post n mw pre' post' trig read read' mags c1 c2 cw fs afs S S' Hrbf St Cl Cl' Gt Hn Hw1 Hw2 Hr Hr') as (f & a & d & Ef & _ & H).
  fold c D in Ef, H. assert (f = fs') by congruence. subst f. clear Ef. fold run in H.
  assert (Un : forall z', stored c fs' trig z' -> coa z' = coa z).
  { intros z' Sz'. destruct (Pk trig z' Sz') as (L & _); [lia|rewrite Z.sub_diag; cbn; lia|].
    destruct (Trigger_Proofs.trigger_batch_inv _ _ _ _ _ _ _ _ _ Tb) as (data & _ & _ & Rd & _). destruct (batch_stored c ucf fs fs' starttime blocks (pad p) s e Sc data Rd) as (t1 & Sm & _ & To).
    destruct (To trig z' Sz' ltac:(lia)) as (i & Ri). destruct (To trig z Sz ltac:(lia)) as (j & Rj). pose proof (Sm _ _ Ri) as Ei. pose proof (Sm _ _ Rj) as Ej. cbn [Pipeline_Model.scanrow_of DT] in Ei, Ej. assert (i = j) by (apply (Z.mul_reg_r _ _ (delta c)); [change (delta c) with D; lia|lia]). subst j.
    apply (same_row ucf trig). congruence. }
  destruct H as [(_ & Hz)|(ev0 & row & _ & Hst & _ & Hfb & H)].
  { exfalso. pose proof (Un _ (Hz trig Gt ltac:(lia))) as Z0. cbn [coa] in Z0. rewrite <- Z0 in Tz. pose proof (Qlt_le_trans _ _ _ Hth Tz) as Q. unfold Qlt in Q. cbn in Q. lia. }
  destruct (Hst trig Gt ltac:(lia)) as (z0 & Ez0 & Sz0). pose proof (Un _ Sz0) as U0. pose proof Hfb as (Bo & Go & Hb). destruct (Hst _ Go Bo) as (zo & Ezo & Szo). set (o := e_otime ev0) in *.
  pose proof (Agree_Props.encoded_mono _ _ _ _ _ Ez0 Ezo (proj1 (Hb trig ltac:(lia) Gt))) as Ge. destruct (Pk o zo Szo) as (Le & Lt); [lia|lia|].
  assert (To : trig <= o) by (destruct (Z_lt_le_dec o trig) as [Q|Q]; [specialize (Lt Q); lia|exact Q]).
  exists o, z, zo. split; [lia|]. split; [exact Sz|]. split; [exact Ez|]. split; [exact Szo|]. split; [lia|].
  destruct H as [(G & E)|(G & evt & loc & cov & Er & Oe & Hmx)]; [left; split; [lia|exact E]|right]. split; [lia|].
  exists d, evt, loc, cov, (coa (row o)), (coa_n (row o)). rewrite Oe in Er. split; [exact Er|]. split; [exact Oe|]. split; [exact Hmx|].
  rewrite Ez. replace (coa z) with (coa zo) by lia. replace (Q2R (coa zo # 100000)) with (IZR (coa zo) / 100000)%R by (unfold Q2R; cbn [Qnum Qden]; field). exact (Agree_Props.encoded_near _ _ _ Ezo).
Qed.
Print Assumptions C130_located_partial.

(** The two stations and two nodes of C132. The event of the source is triggered, and the hypotheses about it hold. *)
Example C130_located_applies :
  let k := Formula_Props.src_set in let c := o_clock 100000 k in let D := 100000 / o_rate k in let p := Formula_Props.src_params in
  forall r0 r1 cw, exists f a v1 es ev,
  continuous_compute (fun _ x => x) (fun x => x) (1 / 2) 100000 k (fun _ _ x => x) (Q2R 1) Formula_Props.src_lut r0 r1 cw Formula_Props.src_reads Formula_Props.src_stations (fun _ => None) (fun _ => None) 360000000 100000 20 = Ret (f, a)
  /\ threshold_method p = Static /\ normalise_coalescence p = false /\ (0 < static_threshold p)%Q /\ marginal_window p = 100000 /\ 2 * marginal_window p <= min_event_interval p /\ 2 * 100000 <= pad p
  /\ trigger_batch c p (Pipeline_Model.trigger_read c 1 f (pad p)) None {| tfiles := fun _ => None; output_cols := [] |} 360400000 361600000 = Ret (v1, es) /\ In ev es
  /\ 360000000 <= CoaTime (cand ev) - 2 * 100000 /\ CoaTime (cand ev) + 2 * 100000 < 360000000 + 100000 * 20
  /\ (let '(a, b, u, v) := event_window (CoaTime (cand ev)) 100000 102000 200000 None None None in reads (1 / 2) 100000 k Formula_Props.src_x Formula_Props.src_ids Formula_Props.src_stations (fun a b => Formula_Props.src_reads a b) a b).
Proof.
  intros k c D p r0 r1 cw. pose proof (Formula_Props.src_found r0 r1 cw) as H. cbv zeta in H. destruct H as (f & a & v1 & es & ev & E1 & E2 & Ie & Ct). exists f, a, v1, es, ev. split; [exact E1|]. do 6 (split; [first [reflexivity|vm_compute; discriminate]|]).
  split; [exact E2|]. split; [exact Ie|]. rewrite Ct. split; [vm_compute; discriminate|]. split; [reflexivity|]. apply Formula_Props.src_reads_ok. vm_compute. discriminate.
Qed.

(** C134: a processing that depends a little on the window. *)
From Coq Require Import String Ascii.
From Coq Require Import List ZArith Reals QArith Qreals Bool Lia Lra.
From Verif Require Import Lib LibFacts PyDict Timeline_Model Timeline_Spec ScanMseed_Model ScanMseed_Spec Migrate_Spec Lut_Spec Locate_Model Locate_Spec Resample_Spec Onset_Model Onset_Spec PickRun_Model DetectRun_Model DetectRun_Spec
  LocatePipe_Spec LocateRun_Model LocateRun_Spec Agree_Spec Window_Spec Formula_Spec Formula_Proofs Near_Spec Near_Proofs.
From Verif Require Avail_Model Migrate_Model Lut_Model Lut_Props Trigger_Model Trigger_Spec Pipeline_Model Pipeline_Spec Pipeline_Proofs Pipeline_Props ScanMseed_Proofs DetectRun_Proofs LocateRun_Proofs LocateRun_Props StationSet_Spec StaLta_Spec StaLta_Model Window_Props Agree_Proofs Agree_Props Locate_Proofs Locate_Props Picker_Model Formula_Props Archive_Model.
From Verif Require Import StaLta_Proofs.
Import ListNotations.
Open Scope Z_scope.

(** A filter need not settle: with a detrended or demeaned window, what it gives for a sample depends, a little, on the rest of the window. If it is within [e] of a signal [y] that does not, and no long-term average of [y] is below [L], then
    what a scan stores at a time is the peak over the grid of a coalescence within the fraction [101 e / (L - e)] of the formula of C131. *)
Theorem C134_scan_partial :
  forall lowpass taper tiny secs k transform ucf l r0 r1 tab stations x y ids m e L reach starttime timestep pre post n read cw fs afs,
  let c := o_clock secs k in let D := secs / o_rate k in
  scan_ready lowpass taper tiny secs k transform ucf l tab stations starttime timestep pre post -> regular secs k l tab ids stations reach -> (forall n, 0 <= m n) -> nearly secs k m e x ids y -> loud secs k ids y L -> (0 <= e < L)%R ->
  clear_of_ends secs k (m ((timestep + pre + post) / D)) (time2sample c pre) (time2sample c post) reach ->
  0 < n -> (forall i, 0 <= i < n -> let w := step_window c starttime timestep pre post i in reads tiny secs k x ids stations read (fst w) (snd w)) ->
  exists f a, continuous_compute lowpass taper tiny secs k transform ucf l r0 r1 cw read stations fs afs starttime timestep n = Ret (f, a)
  /\ forall t, (D | t) -> starttime <= t < starttime + timestep * n ->
     (contributing k ids stations = [] /\ stored c f t (mk_row 0 0 0 0 0))
     \/ (contributing k ids stations <> [] /\ exists row z, near_peak (Lut_Model.g_count (Lut_Model.l_grid l)) (node_coord transform (Lut_Model.l_grid l)) (slack e L) (coalescence_of secs k tab ids stations y (t / D)) row
         /\ encode_row ucf row = Some z /\ stored c f t z).
Proof.
  intros lp tp tiny secs k tr ucf l r0 r1 tab stations x y ids m e L reach starttime timestep pre post n read cw fs afs c D S Rg Mp Ny Ld He Cl Hn Rd.
  exact (scan_formula lp tp tiny secs k tr ucf l r0 r1 tab stations x ids _ starttime timestep pre post n read S (rg_dots _ _ _ _ _ _ _ Rg) Rd Hn (fun i d _ _ _ _ Es Rc Lv Wr Nt => compute_near lp tp tiny secs k tr l r0 r1 tab x y ids stations m e L reach pre post d Wr Rg Mp Ny Ld He Rc Lv Es _ Nt Cl) cw fs afs).
Qed.
Print Assumptions C134_scan_partial.

(** The same for the location of an event. *)
Theorem C134_event_partial :
  forall lowpass taper tiny secs k transform l r0 r1 tab stations x y ids m e L reach mw pre post trig d,
  let c := o_clock secs k in let D := secs / o_rate k in
  locate_ready lowpass taper tiny secs k l tab stations mw pre post -> regular secs k l tab ids stations reach -> (forall n, 0 <= m n) -> nearly secs k m e x ids y -> loud secs k ids y L -> (0 <= e < L)%R ->
  clear_of_ends secs k (m ((4 * mw + pre + post) / D + 1)) (time2sample c pre) (time2sample c post) reach -> (D | trig) ->
  d_start d = trig - 2 * mw - pre -> d_end d = trig + 2 * mw + post -> d_stations d = stations -> recorded secs k x ids d -> lively tiny secs k x ids d ->
  let run := event_compute lowpass taper tiny secs k transform l r0 r1 pre post mw d trig in
  (contributing k ids stations = [] /\ run = Raise DataAvailabilityException)
  \/ (contributing k ids stations <> [] /\ exists ev row, run = Ret ev
      /\ (forall t, (D | t) -> trig - 2 * mw <= t <= trig + 2 * mw -> near_peak (Lut_Model.g_count (Lut_Model.l_grid l)) (node_coord transform (Lut_Model.l_grid l)) (slack e L) (coalescence_of secs k tab ids stations y (t / D)) (row t))
      /\ Forall2 (fun t e => same_sample t (row t) e) (mw_times c trig mw) (e_rows ev)
      /\ first_best D (trig - 2 * mw) (trig + 2 * mw) (fun t => coa (row t)) (e_otime ev)
      /\ max_coalescence ev = Ret (e_otime ev, coa (row (e_otime ev)), coa_n (row (e_otime ev)))).
Proof.
  intros lp tp tiny secs k tr l r0 r1 tab stations x y ids m e L reach mw pre post trig d c D S Rg Mp Ny Ld He Cl Gt Ds De Dst Rc Lv run.
  exact (event_formula lp tp tiny secs k tr l r0 r1 tab stations x ids _ mw pre post trig d S (rg_dots _ _ _ _ _ _ _ Rg) Gt Ds De Dst Rc (fun Wr Nt => compute_near lp tp tiny secs k tr l r0 r1 tab x y ids stations m e L reach pre post d Wr Rg Mp Ny Ld He Rc Lv Dst _ Nt Cl)).
Qed.
Print Assumptions C134_event_partial.

(** The coalescences of two peaks of the same function. *)
Lemma near_peaks n coord g f r r' : (0 <= g < 1)%R -> near_peak n coord g f r -> near_peak n coord g f r' -> ((1 - g) * coa r <= (1 + g) * coa r')%R.
Proof.
  intros Hg (f1 & W1 & q1 & N1 & _ & _ & C1 & _) (f2 & W2 & q2 & N2 & M2 & _ & C2 & _). rewrite C1, C2. pose proof (W1 _ N1) as A. pose proof (W2 _ N1) as B. pose proof (M2 _ N1) as M.
  apply Rle_trans with ((1 - g) * ((1 + g) * f q1))%R; [apply Rmult_le_compat_l; lra|]. replace ((1 - g) * ((1 + g) * f q1))%R with ((1 + g) * ((1 - g) * f q1))%R by ring. apply Rmult_le_compat_l; lra.
Qed.
(** Two scans of the same records, with different timesteps, pads and starts: at the times that both scan, the coalescences differ by no more than the factor [(1 + g) / (1 - g)]. *)
Theorem C134_timestep_partial :
  forall lowpass taper tiny secs k transform ucf l r0 r1 tab stations x y ids m e L reach starttime timestep pre post n read cw fs afs starttime' timestep' pre' post' n' read' cw' fs' afs',
  let c := o_clock secs k in let D := secs / o_rate k in let g := slack e L in
  scan_ready lowpass taper tiny secs k transform ucf l tab stations starttime timestep pre post -> scan_ready lowpass taper tiny secs k transform ucf l tab stations starttime' timestep' pre' post' -> regular secs k l tab ids stations reach -> (forall n, 0 <= m n) -> nearly secs k m e x ids y -> loud secs k ids y L -> (0 <= e < L)%R -> (g < 1)%R ->
  clear_of_ends secs k (m ((timestep + pre + post) / D)) (time2sample c pre) (time2sample c post) reach -> clear_of_ends secs k (m ((timestep' + pre' + post') / D)) (time2sample c pre') (time2sample c post') reach ->
  0 < n -> (forall i, 0 <= i < n -> let w := step_window c starttime timestep pre post i in reads tiny secs k x ids stations read (fst w) (snd w)) ->
  0 < n' -> (forall i, 0 <= i < n' -> let w := step_window c starttime' timestep' pre' post' i in reads tiny secs k x ids stations read' (fst w) (snd w)) -> contributing k ids stations <> [] ->
  exists f a f' a', continuous_compute lowpass taper tiny secs k transform ucf l r0 r1 cw read stations fs afs starttime timestep n = Ret (f, a) /\ continuous_compute lowpass taper tiny secs k transform ucf l r0 r1 cw' read' stations fs' afs' starttime' timestep' n' = Ret (f', a')
  /\ forall t, (D | t) -> starttime <= t < starttime + timestep * n -> starttime' <= t < starttime' + timestep' * n' ->
     exists row z row' z', encode_row ucf row = Some z /\ stored c f t z /\ encode_row ucf row' = Some z' /\ stored c f' t z' /\ ((1 - g) * coa row <= (1 + g) * coa row')%R /\ ((1 - g) * coa row' <= (1 + g) * coa row)%R.
Proof.
  intros lp tp tiny secs k tr ucf l r0 r1 tab stations x y ids m e L reach starttime timestep pre post n read cw fs afs starttime' timestep' pre' post' n' read' cw' fs' afs' c D g S S' Rg Mp Ny Ld He Hg Cl Cl' Hn Rd Hn' Rd' Ne.
  destruct (C134_scan_partial lp tp tiny secs k tr ucf l r0 r1 tab stations x y ids m e L reach starttime timestep pre post n read cw fs afs S Rg Mp Ny Ld He Cl Hn Rd) as (f & a & Ef & H).
  destruct (C134_scan_partial lp tp tiny secs k tr ucf l r0 r1 tab stations x y ids m e L reach starttime' timestep' pre' post' n' read' cw' fs' afs' S' Rg Mp Ny Ld He Cl' Hn' Rd') as (f' & a' & Ef' & H'). fold c D in H, H'.
  assert (G0 : (0 <= g)%R) by (unfold g, slack; apply Rmult_le_pos; [lra|]; apply Rmult_le_pos; [lra|left; apply Rinv_0_lt_compat; lra]).
  exists f, a, f', a'. split; [exact Ef|]. split; [exact Ef'|]. intros t Gt B B'. destruct (H t Gt B) as [(C & _)|(_ & row & z & Pk & Ez & Sz)]; [contradiction|]. destruct (H' t Gt B') as [(C & _)|(_ & row' & z' & Pk' & Ez' & Sz')]; [contradiction|].
  exists row, z, row', z'. split; [exact Ez|]. split; [exact Sz|]. split; [exact Ez'|]. split; [exact Sz'|]. fold g in Pk, Pk'. split; [exact (near_peaks _ _ _ _ _ _ (conj G0 Hg) Pk Pk')|exact (near_peaks _ _ _ _ _ _ (conj G0 Hg) Pk' Pk)].
Qed.
Print Assumptions C134_timestep_partial.

(** The peak at the time of a source that stands out is at its node; at other times it is smaller. *)
Lemma at_standing n coord g F T t0 q0 row : stands_out n g F T t0 q0 -> near_peak n coord g (F t0) row -> ((1 - g) * F t0 q0 <= coa row <= (1 + g) * F t0 q0)%R /\ (px row, py row, pz row) = coord q0.
Proof.
  intros (Hq0 & Ht & So) (f & W & q & Hq & Mx & _ & C1 & _ & C3). assert (q = q0); [|subst q; rewrite C1; split; [apply W, Hq|exact C3]].
  destruct q as ((a, b), h), q0 as ((a', b'), h'). destruct (Z.eq_dec a a') as [->|N]; [destruct (Z.eq_dec b b') as [->|N]; [destruct (Z.eq_dec h h') as [->|N]; [reflexivity|]|]|]; exfalso;
    (pose proof (So t0 _ Ht Hq ltac:(congruence)) as L; pose proof (Mx _ Hq0); pose proof (W _ Hq); pose proof (W _ Hq0); lra).
Qed.
Lemma off_standing n coord g F T t0 q0 t row : stands_out n g F T t0 q0 -> T t -> t <> t0 -> near_peak n coord g (F t) row -> (coa row < (1 - g) * F t0 q0)%R.
Proof. intros (_ & _ & So) Ht Ne (f & W & q & Hq & _ & _ & C1 & _). rewrite C1. pose proof (So t q Ht Hq ltac:(congruence)). pose proof (W q Hq). lra. Qed.

(** A source that stands out is found by the scan: what is stored at its time has the coordinates of its node, and the coalescence at every other time of the scan is smaller. *)
Theorem C134_source_partial :
  forall lowpass taper tiny secs k transform ucf l r0 r1 tab stations x y ids m e L reach starttime timestep pre post n read cw fs afs t0 q0,
  let c := o_clock secs k in let D := secs / o_rate k in let g := slack e L in let F := coalescence_of secs k tab ids stations y in
  scan_ready lowpass taper tiny secs k transform ucf l tab stations starttime timestep pre post -> regular secs k l tab ids stations reach -> (forall n, 0 <= m n) -> nearly secs k m e x ids y -> loud secs k ids y L -> (0 <= e < L)%R ->
  clear_of_ends secs k (m ((timestep + pre + post) / D)) (time2sample c pre) (time2sample c post) reach ->
  0 < n -> (forall i, 0 <= i < n -> let w := step_window c starttime timestep pre post i in reads tiny secs k x ids stations read (fst w) (snd w)) -> contributing k ids stations <> [] ->
  stands_out (Lut_Model.g_count (Lut_Model.l_grid l)) g F (fun t => starttime <= t * D < starttime + timestep * n) t0 q0 ->
  exists f a row z, continuous_compute lowpass taper tiny secs k transform ucf l r0 r1 cw read stations fs afs starttime timestep n = Ret (f, a)
  /\ encode_row ucf row = Some z /\ stored c f (t0 * D) z /\ ((1 - g) * F t0 q0 <= coa row <= (1 + g) * F t0 q0)%R /\ (px row, py row, pz row) = node_coord transform (Lut_Model.l_grid l) q0
  /\ forall t, (D | t) -> starttime <= t < starttime + timestep * n -> t <> t0 * D -> exists row' z', encode_row ucf row' = Some z' /\ stored c f t z' /\ (coa row' < coa row)%R /\ coa z' <= coa z.
Proof.
  intros lp tp tiny secs k tr ucf l r0 r1 tab stations x y ids m e L reach starttime timestep pre post n read cw fs afs t0 q0 c D g F S Rg Mp Ny Ld He Cl Hn Rd Ne So.
  destruct (C134_scan_partial lp tp tiny secs k tr ucf l r0 r1 tab stations x y ids m e L reach starttime timestep pre post n read cw fs afs S Rg Mp Ny Ld He Cl Hn Rd) as (f & a & Ef & H). fold c D F g in Ef, H. pose proof So as (_ & Ht0 & _).
  destruct (DetectRun_Proofs.sr_delta lp tp tiny secs k tr ucf l tab stations starttime timestep pre post S) as (Dp & _). fold D in Dp.
  destruct (H (t0 * D) (Z.divide_factor_r _ _) Ht0) as [(C & _)|(_ & row & z & Pk & Ez & Sz)]; [contradiction|]. rewrite Z.div_mul in Pk by lia. destruct (at_standing _ _ _ _ _ _ _ _ So Pk) as (C1 & C2).
  exists f, a, row, z. split; [exact Ef|]. split; [exact Ez|]. split; [exact Sz|]. split; [exact C1|]. split; [exact C2|].
  intros t (u & ->) Ht Nt. destruct (H (u * D) (Z.divide_factor_r _ _) Ht) as [(C & _)|(_ & row' & z' & Pk' & Ez' & Sz')]; [contradiction|]. rewrite Z.div_mul in Pk' by lia.
  assert (Lt : (coa row' < coa row)%R) by (pose proof (off_standing _ _ _ _ _ _ _ _ _ So Ht ltac:(congruence) Pk'); lra). exists row', z'. split; [exact Ez'|]. split; [exact Sz'|]. split; [exact Lt|]. apply (Agree_Props.encoded_mono _ _ _ _ _ Ez' Ez). lra.
Qed.
Print Assumptions C134_source_partial.

(** And by the location of an event: the origin time is that of the source, and the coalescence of the event at it has the coordinates of its node. *)
Theorem C134_located_partial :
  forall lowpass taper tiny secs k transform l r0 r1 tab stations x y ids m e L reach mw pre post trig d t0 q0,
  let c := o_clock secs k in let D := secs / o_rate k in let g := slack e L in let F := coalescence_of secs k tab ids stations y in
  locate_ready lowpass taper tiny secs k l tab stations mw pre post -> regular secs k l tab ids stations reach -> (forall n, 0 <= m n) -> nearly secs k m e x ids y -> loud secs k ids y L -> (0 <= e < L)%R ->
  clear_of_ends secs k (m ((4 * mw + pre + post) / D + 1)) (time2sample c pre) (time2sample c post) reach -> (D | trig) ->
  d_start d = trig - 2 * mw - pre -> d_end d = trig + 2 * mw + post -> d_stations d = stations -> recorded secs k x ids d -> lively tiny secs k x ids d -> contributing k ids stations <> [] ->
  stands_out (Lut_Model.g_count (Lut_Model.l_grid l)) g F (fun t => trig - 2 * mw <= t * D <= trig + 2 * mw) t0 q0 ->
  exists ev v vn, event_compute lowpass taper tiny secs k transform l r0 r1 pre post mw d trig = Ret ev /\ e_otime ev = t0 * D
  /\ max_coalescence ev = Ret (t0 * D, v, vn) /\ ((1 - g) * F t0 q0 <= v <= (1 + g) * F t0 q0)%R
  /\ In (mk_coarow (t0 * D) v vn (node_coord transform (Lut_Model.l_grid l) q0)) (e_rows ev).
Proof.
  intros lp tp tiny secs k tr l r0 r1 tab stations x y ids m e L reach mw pre post trig d t0 q0 c D g F S Rg Mp Ny Ld He Cl Gt Ds De Dst Rc Lv Ne So.
  destruct (C134_event_partial lp tp tiny secs k tr l r0 r1 tab stations x y ids m e L reach mw pre post trig d S Rg Mp Ny Ld He Cl Gt Ds De Dst Rc Lv) as [(C & _)|(_ & ev & row & E & Hp & Hrows & (Bo & Go & Hb) & Hm)]; [contradiction|]. fold c D F g in Hp, Hrows, Go, Hb. pose proof So as (_ & Ht0 & _).
  destruct (LocateRun_Proofs.lr_delta lp tp tiny secs k l tab stations mw pre post S) as (Dp & _). fold D in Dp.
  pose proof (Hp _ (Z.divide_factor_r D t0) Ht0) as Pk. rewrite Z.div_mul in Pk by lia. destruct (at_standing _ _ _ _ _ _ _ _ So Pk) as (C1 & C2).
  assert (O : e_otime ev = t0 * D).
  { destruct Go as (u & Eu). rewrite Eu in *. destruct (Z.eq_dec u t0) as [->|N]; [reflexivity|exfalso]. pose proof (Hp _ (Z.divide_factor_r D u) Bo) as Pk'. rewrite Z.div_mul in Pk' by lia. pose proof (off_standing _ _ _ _ _ _ _ _ _ So Bo N Pk') as Lt. pose proof (proj1 (Hb _ Ht0 (Z.divide_factor_r D t0))). lra. }
  exists ev, (coa (row (t0 * D))), (coa_n (row (t0 * D))). split; [exact E|]. split; [exact O|]. rewrite O in Hm. split; [exact Hm|]. split; [exact C1|].
  assert (It : In (t0 * D) (mw_times c trig mw)).
  { destruct Gt as (g' & Hg). destruct (LocateRun_Proofs.lr_multiples lp tp tiny secs k l tab stations mw pre post S) as (_ & _ & q' & _ & _ & Em & _). fold D in Em. unfold mw_times. apply in_map_iff. exists (t0 - g' + 2 * q'). cbn [c o_clock delta]. fold D. rewrite Em, Hg in Ht0 |- *. split; [ring|]. apply in_zrange.
    replace (4 * (q' * D)) with (4 * q' * D) by ring. rewrite Z.div_mul by lia. assert (g' - 2 * q' <= t0) by (apply (Zmult_le_reg_r _ _ D); lia). assert (t0 <= g' + 2 * q') by (apply (Zmult_le_reg_r _ _ D); lia). lia. }
  clear - Hrows It C2. induction Hrows as [|t e' ts es Q _ IH]; [destruct It|]. destruct It as [->|It]; [|right; apply IH, It]. left. unfold same_sample in Q. rewrite C2 in Q. exact Q.
Qed.
Print Assumptions C134_located_partial.

(** Scan, trigger and locate, as in C132, for a processing that depends a little on the window: a source that stands out, and is above the static threshold by more than it can be off, becomes an event, and locate gives its time as the origin time.
    Partial: as for C132. *)
Theorem C134_pipeline_partial :
  forall lowpass taper tiny secs k transform (ucf : Q) l r0 r1 rbf rat curve_fit pm ticks fraction tab stations x y ids m e L reach starttime timestep pre post n mw pre' post' read read' mags pre_cut post_cut cw fs afs p s b v0 t0 q0,
  let c := o_clock secs k in let D := secs / o_rate k in let N := Lut_Model.g_count (Lut_Model.l_grid l) in let F := coalescence_of secs k tab ids stations y in let g := slack e L in
  scan_ready lowpass taper tiny secs k transform (Q2R ucf) l tab stations starttime timestep pre post -> locate_ready lowpass taper tiny secs k l tab stations mw pre' post' -> interpolating rbf -> (0 < ucf)%Q ->
  regular secs k l tab ids stations reach -> (forall n, 0 <= m n) -> nearly secs k m e x ids y -> loud secs k ids y L -> (0 <= e < L)%R ->
  clear_of_ends secs k (m ((timestep + pre + post) / D)) (time2sample c pre) (time2sample c post) reach -> clear_of_ends secs k (m ((4 * mw + pre' + post') / D + 1)) (time2sample c pre') (time2sample c post') reach ->
  0 < n -> (forall i, 0 <= i < n -> let w := step_window c starttime timestep pre post i in reads tiny secs k x ids stations read (fst w) (snd w)) -> contributing k ids stations <> [] ->
  stands_out N g F (fun t => starttime <= t * D < starttime + timestep * n) t0 q0 -> starttime <= t0 * D - 2 * mw -> t0 * D + 2 * mw < starttime + timestep * n ->
  (D | s - Trigger_Model.pad p) -> (D | b + Trigger_Model.pad p) -> (forall d, (s - Trigger_Model.pad p) / (86400 * secs) <= d <= (b + Trigger_Model.pad p) / (86400 * secs) -> fs d = None) ->
  Trigger_Model.threshold_method p = Trigger_Model.Static -> Trigger_Model.normalise_coalescence p = false -> 0 <= Trigger_Model.pad p -> Trigger_Spec.accepts c (s, b) (t0 * D) ->
  (Q2R (Trigger_Model.static_threshold p) + 5 / 1000000 <= Rmin ((1 - g) * F t0 q0) 21474)%R ->
  (forall t q, is_node N q -> starttime <= t * D < starttime + timestep * n -> t <> t0 -> ((1 + g) * F t q + 1 / 100000 < Rmin ((1 - g) * F t0 q0) 21474)%R) ->
  (let '(w0, w1, u, v) := event_window (t0 * D) mw pre' post' mags pre_cut post_cut in reads tiny secs k x ids stations (fun w0 w1 => read' w0 w1 u v) w0 w1) ->
  let run := locate_event lowpass taper tiny secs k transform l r0 r1 rbf rat curve_fit pm ticks fraction read' mw pre' post' mags pre_cut post_cut (t0 * D) in
  exists f a v1 es ev d evt loc cov v vn,
    continuous_compute lowpass taper tiny secs k transform (Q2R ucf) l r0 r1 cw read stations fs afs starttime timestep n = Ret (f, a)
    /\ Trigger_Model.trigger_batch c p (Pipeline_Model.trigger_read c ucf f (Trigger_Model.pad p)) None v0 s b = Ret (v1, es) /\ In ev es
    /\ (exists row, (px row, py row, pz row) = node_coord transform (Lut_Model.l_grid l) q0 /\ ((1 - g) * F t0 q0 <= coa row <= (1 + g) * F t0 q0)%R /\ Pipeline_Spec.event_at ucf (t0 * D) (Rmin (coa row) 21474) row ev)
    /\ (forall ev', In ev' es -> Trigger_Model.CoaTime (Trigger_Model.cand ev') = t0 * D \/ (Trigger_Model.TRIG_COA (Trigger_Model.cand ev') < Trigger_Model.TRIG_COA (Trigger_Model.cand ev))%Q)
    /\ run = bind (pick_run lowpass taper tiny secs k rat curve_fit pm (arrivals transform l ticks fraction loc) d (t0 * D) mw) (fun picks => Ret (Some (mk_located evt loc (Some cov) picks)))
    /\ e_otime evt = t0 * D /\ max_coalescence evt = Ret (t0 * D, v, vn) /\ ((1 - g) * F t0 q0 <= v <= (1 + g) * F t0 q0)%R.
Proof.
  intros lp tp tiny secs k tr ucf l r0 r1 rbf rat cf pm ticks fr tab stations x y ids m e L reach starttime timestep pre post n mw pre' post' read read' mags c1 c2 cw fs afs p s b v0 t0 q0 c D N F g S S' Hrbf Hu Rg Mp Ny Ld He Cl Cl' Hn Rd Ne So Hlo Hhi Gs Ge Hold Hm Nn Hp Ha Hth Hbig Hr' run.
  destruct (LocateRun_Proofs.lr_delta lp tp tiny secs k l tab stations mw pre' post' S') as (Dp & Sp). fold D in Dp. destruct (DetectRun_Proofs.sr_clock lp tp tiny secs k tr (Q2R ucf) l tab stations starttime timestep pre post S) as (_ & Ir). pose proof (lr_mw _ _ _ _ _ _ _ _ _ _ _ S') as Mw.
  destruct (C134_scan_partial lp tp tiny secs k tr (Q2R ucf) l r0 r1 tab stations x y ids m e L reach starttime timestep pre post n read cw fs afs S Rg Mp Ny Ld He Cl Hn Rd) as (f & a & Ef & _). fold c D in Ef.
  destruct (scan_blocks lp tp tiny secs k tr (Q2R ucf) l r0 r1 tab stations x ids _ starttime timestep pre post n read S (rg_dots _ _ _ _ _ _ _ Rg) Rd Hn (fun i d _ _ _ _ Es Rc Lv Wr Nt => compute_near lp tp tiny secs k tr l r0 r1 tab x y ids stations m e L reach pre post d Wr Rg Mp Ny Ld He Rc Lv Es _ Nt Cl) cw fs afs f a Ef Ne) as (blocks & Nb & Cs & Es & Pk & Ex). fold c D g in Cs, Es, Pk, Ex.
  assert (Sc : Pipeline_Spec.scanned c ucf fs f starttime blocks (Trigger_Model.pad p) s b).
  { constructor; try assumption.
    - destruct Ir as [z Hz]. exists (86400 * z). unfold c. rewrite Hz. cbn [o_clock delta]. ring.
    - exact (sr_start _ _ _ _ _ _ _ _ _ _ _ _ _ _ S).
    - exists cw. exact Es.
    - intros d Hd _. apply Hold, Hd. }
  assert (Ht0 : starttime <= t0 * D < starttime + timestep * n) by lia. destruct (Ex _ (Z.divide_factor_r D t0) Ht0) as (row & Ir0). destruct (Pk _ _ Ir0) as (_ & _ & P0). rewrite Z.div_mul in P0 by lia. fold F in P0. destruct (at_standing _ _ _ _ _ _ _ _ So P0) as (C1 & C2).
  assert (Bt : s - Trigger_Model.pad p <= t0 * D <= b + Trigger_Model.pad p) by (clear - Ha Hp Dp; unfold Trigger_Spec.accepts in Ha; cbn [fst snd] in Ha; change (delta c) with D in Ha; destruct (b mod (86400 * sec c) =? 0); lia).
  destruct (Pipeline_Props.C105_batch_triggered c ucf fs f starttime blocks p None v0 s b _ _ Sc Ir0 Bt) as (v1 & es & Et).
  destruct (Pipeline_Props.C105_peak_becomes_event_partial c ucf fs f starttime blocks p s b v0 v1 es (t0 * D) row Sc Hm Nn Et Ir0 Ha Hp) as (ev & Ie & Ea & Eo).
  { unfold Pipeline_Spec.kept. eapply Rle_trans; [exact Hth|]. apply Rle_min_compat_r, C1. }
  { intros t' r' I' _ Nt. destruct (Pk _ _ I') as ((u & ->) & Bu & (f' & W & q & Hq & _ & _ & Cq & _)). rewrite Z.div_mul in W by lia. fold F in W. unfold Pipeline_Spec.kept. pose proof (Hbig u q Hq Bu ltac:(congruence)) as B. pose proof (Rmin_l (coa r') 21474). pose proof (W q Hq). pose proof (Rle_min_compat_r _ _ 21474 (proj1 C1)). lra. }
  pose proof (Z.divide_factor_r D t0) as Gt. pose proof (LocateRun_Props.located_full lp tp tiny secs k tr l r0 r1 rbf rat cf pm ticks fr tab stations read' mw pre' post' mags c1 c2 (t0 * D) S' Hrbf Gt) as LF. cbv zeta in LF. fold run in LF.
  unfold event_window, locate_window in *. cbn [fst snd] in *. set (P := event_pads _ _ _ _ _ _) in *. destruct Hr' as (d & Er & Ds & De & Est & Rc & Lv).
  assert (So' : stands_out N g F (fun t => t0 * D - 2 * mw <= t * D <= t0 * D + 2 * mw) t0 q0) by (destruct So as (A1 & A2 & A3); split; [exact A1|]; split; [lia|]; intros t q Ht; apply A3; lia).
  destruct (C134_located_partial lp tp tiny secs k tr l r0 r1 tab stations x y ids m e L reach mw pre' post' (t0 * D) d t0 q0 S' Rg Mp Ny Ld He Cl' Gt Ds De Est Rc Lv Ne So') as (ev0 & v & vn & E0 & O0 & M0 & V0 & _). fold D F g in E0, O0, M0, V0.
  destruct LF as [(_ & [(ex & Exn & _)|(d0 & Ed & Eo')])|H].
  - right. exists d. split; [exact Er|]. split; [exact Ds|]. split; [exact De|]. split; [exact Est|].
    destruct (Agree_Proofs.event_window_ready lp tp tiny secs k l tab x ids stations mw pre' post' (t0 * D) d S' (rg_dots _ _ _ _ _ _ _ Rg) Gt Ds De Est Rc) as (Wr & _). pose proof (StationSet_Spec.wr_data _ _ _ _ _ _ _ _ _ _ _ Wr) as U. rewrite Ds, De in U. exact U.
  - congruence.
  - exfalso. assert (d0 = d) by congruence. subst d0. unfold event_compute, compute_coalescence in E0. rewrite Eo' in E0. cbn in E0. discriminate.
  - destruct H as (d0 & r & tt & s0 & qq & ev1 & H). cbv zeta in H. destruct H as (E1 & O1 & M1 & Ed & _ & _ & _ & H). assert (d0 = d) by congruence. subst d0. assert (ev1 = ev0) by congruence. subst ev1. rewrite <- O1, O0 in H. rewrite <- O1, O0 in M1.
    destruct H as [(G1 & _)|(_ & ev' & loc & cloc & cov & unc & best & Er' & O' & M' & _)]; [rewrite Z.sub_diag in G1; cbn in G1; lia|].
    exists f, a, v1, es, ev, d, ev', loc, (cloc, cov, unc), v, vn. split; [exact Ef|]. split; [exact Et|]. split; [exact Ie|]. split; [exists row; split; [exact C2|]; split; [exact C1|exact Ea]|]. split; [exact Eo|]. split; [exact Er'|]. split; [exact O'|]. split; [congruence|exact V0].
Qed.
Print Assumptions C134_pipeline_partial.

(** ** An example: the sources and stations of C132, and a filter that adds a small value to the samples of a window with an odd number of them. *)
Definition near_band (_ : Z) (l : list R) : list R := map (fun v => v + (if Nat.even (length l) then 0 else 1 / 100000))%R l.
Definition near_phase : phase_cfg := mk_phase [Archive_Model.GStar; Archive_Model.GChar "Z"%char] 1 0 2000 (2 # 1) near_band.
Definition near_set : onset_cfg := mk_onset ["P"%string] [("P"%string, near_phase)] true false true 50 true true (map (fun x => x * x)%R) (1 / 100)%R 100000.
Import Formula_Props.
Lemma near_coalescence : coalescence_of 100000 near_set src_tab src_ids src_stations src_y = coalescence_of 100000 src_set src_tab src_ids src_stations src_y.
Proof. reflexivity. Qed.
Lemma near_shift l : exists h, near_band 2000 l = map (fun v => v + h)%R l /\ (0 <= h <= 1 / 100000)%R.
Proof. unfold near_band. destruct (Nat.even (length l)); [exists 0%R|exists (1 / 100000)%R]; (split; [reflexivity|lra]). Qed.
Lemma near_square (x : string -> Z -> R) i a n t : a <= t < a + n -> (forall j, x i j = 1 \/ x i j = 2 \/ x i j = 10)%R -> (Rabs (Onset_Spec.sample (map (fun x => x * x)%R (near_band 2000 (cut (x i) a n))) (t - a) - x i t * x i t) <= 21 / 100000)%R.
Proof.
  intros Ht Hx. destruct (near_shift (cut (x i) a n)) as (h & -> & Hh). unfold Onset_Spec.sample, cut. rewrite !rd_map, rd_array1 by lia. cbn [option_map]. replace (a + (t - a)) with t by lia.
  assert (P : (0 <= x i t <= 10)%R) by (destruct (Hx t) as [->|[->| ->]]; lra). replace ((x i t + h) * (x i t + h) - x i t * x i t)%R with (h * (2 * x i t + h))%R by ring.
  assert (0 <= h * (2 * x i t + h))%R by (apply Rmult_le_pos; lra). rewrite Rabs_pos_eq by assumption. apply Rle_trans with (1 / 100000 * 21)%R; [apply Rmult_le_compat; lra|lra].
Qed.
Lemma near_loud i t : (0 <= src_y "P" i t)%R /\ (5 / 2 <= StaLta_Spec.window_mean (src_y "P" i) t 2)%R.
Proof.
  split; [apply Rle_0_sqr|]. unfold StaLta_Spec.window_mean. change (Z.to_nat 2) with 2%nat. cbn [zseq map]. unfold Rsum. cbn [fold_right]. unfold src_y.
  destruct (src_x_cases i t) as [X|[X|X]], (src_x_cases i (t + 1)) as [Y|[Y|Y]]; destruct (src_x_next i t) as [(A & B)|[(A & B)|[(A & B)|(A & B)]]]; rewrite X, Y in *; lra.
Qed.
Lemma near_lively d : 2 <= n_window 100000 50 (d_start d) (d_end d) -> lively (1 / 2) 100000 near_set src_x src_ids d.
Proof.
  intros Hn ph pc i [<-|[]] Ec _ y. assert (pc = near_phase) by (cbn in Ec; congruence). subst pc. set (n := n_window 100000 50 (d_start d) (d_end d)) in *. set (a := d_start d / (100000 / 50)).
  destruct (near_shift (cut (src_x i) a n)) as (h & Eh & Hh). assert (Ey : y = map (fun v => v + h)%R (cut (src_x i) a n)) by exact Eh. clearbody y.
  assert (Ly : Z.of_nat (length y) = n) by (rewrite Ey, map_length; unfold cut, array1; rewrite map_length, zrange_length; lia).
  assert (Ry : forall j, 0 <= j < n -> rd y j = Some (src_x i (a + j) + h)%R) by (intros j Hj; rewrite Ey; unfold cut; rewrite rd_map, rd_array1 by exact Hj; reflexivity).
  assert (W : forall t, (1 <= src_x i t)%R) by (intros t; destruct (src_x_cases i t) as [->|[->| ->]]; lra). split.
  - intros (v & Hv). rewrite Forall_forall in Hv. pose proof (Hv _ (rd_in _ _ _ _ (Ry 0 ltac:(lia)))) as V0. pose proof (Hv _ (rd_in _ _ _ _ (Ry 1 ltac:(lia)))) as V1. rewrite <- V1 in V0. rewrite Z.add_0_r in V0.
    destruct (src_x_next i a) as [(X1 & X2)|[(X1 & X2)|[(X1 & X2)|(X1 & X2)]]]; lra.
  - intros j Hj. change (ltw_samples _ _) with 2 in *. cbn [o_transform near_set] in *. rewrite map_length, Ly in Hj. unfold StaLta_Spec.window_mean. change (Z.to_nat 2) with 2%nat. cbn [zseq map Rsum fold_right]. replace (j - 2 + 1) with (j - 1) by lia. replace (j - 1 + 1) with j by lia.
    unfold Onset_Spec.sample. rewrite !rd_map. rewrite (Ry j ltac:(lia)), (Ry (j - 1) ltac:(lia)). cbn [option_map]. assert (P : forall w, (1 <= w -> 1 <= (w + h) * (w + h))%R) by (intros w Hw; apply Rle_trans with (1 * 1)%R; [lra|apply Rmult_le_compat; lra]).
    pose proof (P _ (W (a + j))). pose proof (P _ (W (a + (j - 1)))). unfold Rsum. cbn [fold_right]. lra.
Qed.
Lemma near_reads_ok a b : a + 2000 <= b -> reads (1 / 2) 100000 near_set src_x src_ids src_stations src_reads a b.
Proof.
  intros Hab. eexists. split; [reflexivity|]. cbn [d_start d_end d_stations d_waveforms]. split; [reflexivity|]. split; [reflexivity|]. split; [reflexivity|]. split; [reflexivity|]. apply near_lively. unfold n_window. cbn [d_start d_end]. change (100000 / 50) with 2000. assert (1 <= (b - a) / 2000) by (apply Z.div_le_lower_bound; lia). lia.
Qed.
(** The hypotheses of C134. The value depends on the window, as the length of a window of a scan and that of an event are even and odd. *)
Example C134_example :
  let k := near_set in let c := o_clock 100000 k in let m (_ : Z) := 0 in let e := (21 / 100000)%R in let L := (5 / 2)%R in let g := slack e L in let F := coalescence_of 100000 k src_tab src_ids src_stations src_y in let N := Lut_Model.g_count (Lut_Model.l_grid src_lut) in let D := 100000 / o_rate k in
  scan_ready (fun _ x => x) (fun x => x) (1 / 2) 100000 k (fun _ _ x => x) (Q2R 1) src_lut src_tab src_stations 360000000 100000 102000 200000
  /\ locate_ready (fun _ x => x) (fun x => x) (1 / 2) 100000 k src_lut src_tab src_stations 100000 102000 200000
  /\ regular 100000 k src_lut src_tab src_ids src_stations 50 /\ (forall n, 0 <= m n) /\ nearly 100000 k m e src_x src_ids src_y /\ loud 100000 k src_ids src_y L /\ (0 <= e < L)%R /\ (g < 1)%R
  /\ clear_of_ends 100000 k (m ((100000 + 102000 + 200000) / D)) (time2sample c 102000) (time2sample c 200000) 50 /\ clear_of_ends 100000 k (m ((4 * 100000 + 102000 + 200000) / D + 1)) (time2sample c 102000) (time2sample c 200000) 50
  /\ (forall i, 0 <= i < 20 -> let w := step_window c 360000000 100000 102000 200000 i in reads (1 / 2) 100000 k src_x src_ids src_stations src_reads (fst w) (snd w))
  /\ contributing k src_ids src_stations <> [] /\ stands_out N g F (fun t => 360000000 <= t * D < 360000000 + 100000 * 20) 180500 (1, 0, 0)
  /\ 360000000 <= 180500 * D - 2 * 100000 /\ 180500 * D + 2 * 100000 < 360000000 + 100000 * 20
  /\ (D | 360400000 - Trigger_Model.pad src_params) /\ (D | 361600000 + Trigger_Model.pad src_params) /\ Trigger_Spec.accepts c (360400000, 361600000) (180500 * D)
  /\ (Q2R (Trigger_Model.static_threshold src_params) + 5 / 1000000 <= Rmin ((1 - g) * F 180500%Z (1, 0, 0)%Z) 21474)%R
  /\ (forall t q, is_node N q -> 360000000 <= t * D < 360000000 + 100000 * 20 -> t <> 180500 -> ((1 + g) * F t q + 1 / 100000 < Rmin ((1 - g) * F 180500%Z (1, 0, 0)%Z) 21474)%R)
  /\ (let '(a, b, u, v) := event_window (180500 * D) 100000 102000 200000 None None None in reads (1 / 2) 100000 k src_x src_ids src_stations (fun a b => src_reads a b) a b).
Proof.
  intros k c m e L g F N D. assert (Gs : (0 <= g <= 1 / 100)%R) by (unfold g, slack, e, L; lra). assert (Q1 : Q2R 1 = 1%R) by (unfold Q2R; cbn; lra).
  assert (Tab : forall s p, In s src_stations -> In p (o_phases k) -> table_of src_lut s p (src_tab s p) /\ has_shape (src_tab s p) N /\ forall q, is_node N q -> (-2147483648 <= entry0 (src_tab s p) q * IZR (o_rate k) <= IZR (200000 / (100000 / o_rate k)))%R).
  { intros s p Is [<-|[]]. split; [|split].
    - destruct Is as [<-|[<-|[]]]; (eexists; split; [reflexivity|left; reflexivity]).
    - destruct Is as [<-|[<-|[]]]; (cbn; split; [reflexivity|]; repeat (constructor; [cbn; split; [reflexivity|repeat constructor]|]); constructor).
    - intros q Hq. rewrite (src_entries s "P" q Is Hq). change (IZR (o_rate k)) with 50%R. change (200000 / (100000 / o_rate k)) with 100. destruct (Bool.eqb _ _); lra. }
  assert (F0 : F 180500 (1, 0, 0) = 40%R) by (unfold F, k; rewrite near_coalescence; apply src_coalescence; [cbn; lia|reflexivity]).
  split; [|split; [|split; [|split; [|split; [|split; [|split; [|split; [|split; [|split; [|split; [|split; [|split; [|split; [|split; [|split; [|split; [|split; [|split; [|split]]]]]]]]]]]]]]]]]]].
  - rewrite Q1. unfold k. constructor; cbn [near_set o_rate o_python o_transform o_cfg o_phases o_post o_all src_lut Lut_Model.l_grid].
    + repeat split; try lia; [exists 1|exists 2000]; reflexivity.
    + lra.
    + reflexivity.
    + reflexivity.
    + reflexivity.
    + intros x. apply map_length.
    + exists 20. reflexivity.
    + lia.
    + exists 50. reflexivity.
    + exists 180000. reflexivity.
    + discriminate.
    + discriminate.
    + reflexivity.
    + intros ph [<-|[]]. exists near_phase. split; [reflexivity|]. split; [vm_compute; repeat split; discriminate|]. split; [reflexivity|]. split; [|reflexivity]. intros dd x. cbn [near_phase ph_band]. unfold near_band. rewrite map_length. reflexivity.
    + unfold grid_ok. cbn. repeat split; try lra; lia.
    + constructor; [intros []|constructor].
    + constructor; [intros [H|[]]; discriminate|]. constructor; [intros []|constructor].
    + constructor; [exact Lut_Props.plain_P|constructor].
    + constructor; [intros [H|[]]; discriminate|]. constructor; [intros [H|[]]; discriminate|constructor].
    + exact Tab.
    + vm_compute. reflexivity.
    + lra.
    + intros q Hq. destruct (src_node q Hq) as [-> | ->]; cbn; repeat split; apply Rabs_le; lra.
  - unfold k. constructor; cbn [near_set o_rate o_python o_transform o_cfg o_phases o_post o_all src_lut Lut_Model.l_grid].
    + repeat split; try lia; [exists 1|exists 2000]; reflexivity.
    + lra.
    + reflexivity.
    + reflexivity.
    + reflexivity.
    + intros x. apply map_length.
    + exists 20. reflexivity.
    + lia.
    + exists 50. reflexivity.
    + discriminate.
    + discriminate.
    + reflexivity.
    + intros ph [<-|[]]. exists near_phase. split; [reflexivity|]. split; [vm_compute; repeat split; discriminate|]. split; [reflexivity|]. split; [|reflexivity]. intros dd x. cbn [near_phase ph_band]. unfold near_band. rewrite map_length. reflexivity.
    + unfold grid_ok. cbn. repeat split; try lra; lia.
    + constructor; [intros []|constructor].
    + constructor; [intros [H|[]]; discriminate|]. constructor; [intros []|constructor].
    + constructor; [exact Lut_Props.plain_P|constructor].
    + constructor; [intros [H|[]]; discriminate|]. constructor; [intros [H|[]]; discriminate|constructor].
    + exact Tab.
    + vm_compute. reflexivity.
  - constructor; try reflexivity; try lia.
    + constructor; [intros [H|[]]; discriminate|]. constructor; [intros []|constructor].
    + constructor; [intros [H|[]]; discriminate|]. constructor; [intros [H|[]]; discriminate|constructor].
    + intros s p q Is [<-|[]] Hq. rewrite (src_entries s "P" q Is Hq). change (IZR (o_rate k)) with 50%R. destruct (Bool.eqb _ _); lra.
  - intros n. apply Z.le_refl.
  - intros ph pc i a n t [<-|[]] Ec Ii Ht. assert (pc = near_phase) by (cbn in Ec; congruence). subst pc. apply (near_square src_x i a n t); [unfold m in Ht; lia|apply src_x_cases].
  - intros ph pc i t [<-|[]] Ec _. assert (pc = near_phase) by (cbn in Ec; congruence). subst pc. change (ltw_samples _ _) with 2. apply near_loud.
  - unfold e, L. lra.
  - lra.
  - intros ph pc [<-|[]] Ec. assert (pc = near_phase) by (cbn in Ec; congruence). subst pc. vm_compute. split; discriminate.
  - intros ph pc [<-|[]] Ec. assert (pc = near_phase) by (cbn in Ec; congruence). subst pc. vm_compute. split; discriminate.
  - intros i Hi w. apply near_reads_ok. unfold w, step_window. cbn [fst snd]. change (delta c) with 2000. lia.
  - vm_compute. discriminate.
  - split; [cbn; lia|]. split; [vm_compute; split; [discriminate|reflexivity]|]. intros t q _ Hq Ne. rewrite F0. unfold F, k. rewrite near_coalescence. destruct (src_coalescence t q Hq) as (_ & B). specialize (B Ne). set (v := coalescence_of _ _ _ _ _ _ _ _) in *.
    apply Rle_lt_trans with ((1 + g) * 13)%R; [apply Rmult_le_compat_l; lra|lra].
  - vm_compute. discriminate.
  - reflexivity.
  - exists 180100. reflexivity.
  - exists 180900. reflexivity.
  - vm_compute. split; discriminate.
  - rewrite F0. rewrite Rmin_left by lra. unfold Q2R. cbn. lra.
  - intros t q Hq _ Nt. rewrite F0, Rmin_left by lra. destruct (src_coalescence t q Hq) as (_ & B). assert (Ne : (t, q) <> (180500, (1, 0, 0))) by congruence. specialize (B Ne). unfold F, k. rewrite near_coalescence. set (v := coalescence_of _ _ _ _ _ _ _ _) in *. assert ((1 + g) * v <= (1 + g) * 13)%R by (apply Rmult_le_compat_l; lra). lra.
  - cbn [event_window locate_window fst snd]. apply near_reads_ok. vm_compute. discriminate.
Qed.


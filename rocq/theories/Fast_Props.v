(** C143: scans and locations of data recorded at a multiple of the output rate. *)
From Coq Require Import String Ascii.
From Coq Require Import List ZArith Reals QArith Qreals Bool Lia Lra.
From Verif Require Import Lib LibFacts PyDict Migrate_Spec Timeline_Model Timeline_Spec ScanMseed_Model ScanMseed_Spec Lut_Spec Locate_Model Locate_Spec Resample_Spec Onset_Model Onset_Spec DetectRun_Model DetectRun_Spec
  PickRun_Model LocatePipe_Spec LocateRun_Model LocateRun_Spec Agree_Spec StaLta_Spec Window_Spec Formula_Spec Formula_Proofs Near_Spec Near_Proofs Near_Props Chain_Model Chain_Spec Chain_Proofs Chain_Props Decim_Model Decim_Spec Decim_Proofs Decim_Props Room_Spec Room_Proofs Room_Props Fast_Spec Fast_Proofs.
From Verif Require Avail_Model Avail_Spec Lut_Model Lut_Props DetectRun_Proofs LocateRun_Proofs Window_Props Window_Proofs Compute_Props Archive_Model Formula_Props Migrate_Model Trigger_Model Trigger_Spec Pipeline_Model Pipeline_Spec Pipeline_Proofs Pipeline_Props ScanMseed_Proofs LocateRun_Props StationSet_Spec Agree_Proofs Agree_Props Locate_Proofs Locate_Props Picker_Model.
From Verif Require Import StaLta_Proofs.
Import ListNotations.
Open Scope Z_scope.

(** The onset functions of data at [f] times the output rate are those of every [f]-th sample of the low-passed data. *)
Theorem C143_as_if_recorded_slowly :
  forall lowpass taper tiny secs k f x ids d d' timespan, let D := secs / o_rate k in
  (forall dd z, length (lowpass dd z) = length z) -> 2 <= f -> 0 < D -> (f | D) -> d_start d <= d_end d -> recorded_fast secs k f x ids d ->
  d_stations d' = d_stations d -> d_resample d' = d_resample d -> d_upfactor d' = d_upfactor d -> d_start d' = d_start d -> d_end d' = d_end d -> recorded secs k (slowed lowpass secs k f x d) ids d' ->
  calculate_onsets lowpass taper tiny secs k d timespan = calculate_onsets lowpass taper tiny secs k d' timespan.
Proof.
  intros lp tp tiny secs k f x ids d d' ts D Hlp Hf HD Fd Ho Rc E1 E2 E3 E4 E5 Rc'. rewrite (onsets_slow lp tp tiny secs k f x ids Hlp Hf HD Fd d Rc Ho). f_equal. destruct d' as [w st rs uf a b]. unfold recorded, window_of in Rc'. cbn [d_stations d_resample d_upfactor d_start d_end d_waveforms] in *. subst. reflexivity.
Qed.
Print Assumptions C143_as_if_recorded_slowly.

Theorem C143_scan_partial :
  forall lowpass taper tiny secs k transform ucf l r0 r1 tab stations f x y ids m e L reach starttime timestep pre post n read cw fs afs,
  let c := o_clock secs k in let D := secs / o_rate k in
  scan_ready lowpass taper tiny secs k transform ucf l tab stations starttime timestep pre post -> regular secs k l tab ids stations reach -> (forall n, 0 <= m n) -> 2 <= f -> (f | D) -> nearly_fast lowpass secs k f m e x ids y -> loud secs k ids y L -> (0 <= e < L)%R ->
  clear_of_ends secs k (m ((timestep + pre + post) / D)) (time2sample c pre) (time2sample c post) reach ->
  0 < n -> (forall i, 0 <= i < n -> let w := step_window c starttime timestep pre post i in reads_fast lowpass tiny secs k f x ids stations read (fst w) (snd w)) ->
  exists g a, continuous_compute lowpass taper tiny secs k transform ucf l r0 r1 cw read stations fs afs starttime timestep n = Ret (g, a)
  /\ forall t, (D | t) -> starttime <= t < starttime + timestep * n ->
     (contributing k ids stations = [] /\ stored c g t (mk_row 0 0 0 0 0))
     \/ (contributing k ids stations <> [] /\ exists row z, near_peak (Lut_Model.g_count (Lut_Model.l_grid l)) (node_coord transform (Lut_Model.l_grid l)) (slack e L) (coalescence_of secs k tab ids stations y (t / D)) row
         /\ encode_row ucf row = Some z /\ stored c g t z).
Proof.
  intros lp tp tiny secs k tr ucf l r0 r1 tab stations f x y ids m e L reach starttime timestep pre post n read cw fs afs c D S Rg Mp Hf Fd Ny Ld He Cl Hn Rd.
  destruct (DetectRun_Proofs.sr_delta lp tp tiny secs k tr ucf l tab stations starttime timestep pre post S) as (Dp & _). pose proof (sr_lowpass _ _ _ _ _ _ _ _ _ _ _ _ _ _ S) as Hlp.
  destruct (DetectRun_Proofs.sr_multiples lp tp tiny secs k tr ucf l tab stations starttime timestep pre post S) as (pa & pb & q & Ea & Eb & Em & Ha & Hb & Hq & _).
  assert (Hw : forall i, fst (step_window c starttime timestep pre post i) <= snd (step_window c starttime timestep pre post i)).
  { intros i. unfold step_window. cbn [fst snd c o_clock delta]. rewrite Ea, Eb, Em. assert (0 <= pa * D /\ 0 <= pb * D /\ 0 <= (q - 1) * D) by (unfold D; repeat split; apply Z.mul_nonneg_nonneg; lia). fold D. lia. }
  rewrite (scan_slow lp tp tiny secs k f x ids stations Hlp Hf Dp Fd).
  2: { intros i Hi. unfold d_clock. rewrite (sr_pads _ _ _ _ _ _ _ _ _ _ _ _ _ _ S). cbn [fst snd]. split; [apply Hw|apply Rd; exact Hi]. }
  apply (scan_formula_at lp tp tiny secs k tr ucf l r0 r1 tab stations (fun i => match read (fst (step_window c starttime timestep pre post i)) (snd (step_window c starttime timestep pre post i)) with Ret d => slowed lp secs k f x d | _ => x end)
    ids (fun t => near_peak (Lut_Model.g_count (Lut_Model.l_grid l)) (node_coord tr (Lut_Model.l_grid l)) (slack e L) (coalescence_of secs k tab ids stations y t)) starttime timestep pre post n (slow_read lp secs k f x ids read) S (rg_dots _ _ _ _ _ _ _ Rg)).
  - intros i Hi. apply reads_slow. apply Rd. exact Hi.
  - exact Hn.
  - intros i d' Hi Er Es Ee Est _ _ Wr Nt. destruct (Rd i Hi) as (d & E & Ds & De & Dst & Rc & Lv). fold c in Er, Es, Ee. unfold slow_read in Er. rewrite E in Er. cbn [bind] in Er. assert (d' = slow lp secs k f x ids d) by congruence. subst d'.
    apply (compute_fast lp tp tiny secs k tr l r0 r1 tab f x y ids stations m e L reach pre post d Wr Hlp Hf Dp) with (nt := (timestep + pre + post) / D); try assumption. rewrite Ds, De. apply Hw.
Qed.
Print Assumptions C143_scan_partial.

Theorem C143_event_partial :
  forall lowpass taper tiny secs k transform l r0 r1 tab stations f x y ids m e L reach mw pre post trig d,
  let c := o_clock secs k in let D := secs / o_rate k in
  locate_ready lowpass taper tiny secs k l tab stations mw pre post -> regular secs k l tab ids stations reach -> (forall n, 0 <= m n) -> 2 <= f -> (f | D) -> nearly_fast lowpass secs k f m e x ids y -> loud secs k ids y L -> (0 <= e < L)%R ->
  clear_of_ends secs k (m ((4 * mw + pre + post) / D + 1)) (time2sample c pre) (time2sample c post) reach -> (D | trig) ->
  d_start d = trig - 2 * mw - pre -> d_end d = trig + 2 * mw + post -> d_stations d = stations -> recorded_fast secs k f x ids d -> lively tiny secs k (slowed lowpass secs k f x d) ids d ->
  let run := event_compute lowpass taper tiny secs k transform l r0 r1 pre post mw d trig in
  (contributing k ids stations = [] /\ run = Raise DataAvailabilityException)
  \/ (contributing k ids stations <> [] /\ exists ev row, run = Ret ev
      /\ (forall t, (D | t) -> trig - 2 * mw <= t <= trig + 2 * mw -> near_peak (Lut_Model.g_count (Lut_Model.l_grid l)) (node_coord transform (Lut_Model.l_grid l)) (slack e L) (coalescence_of secs k tab ids stations y (t / D)) (row t))
      /\ Forall2 (fun t e => same_sample t (row t) e) (mw_times c trig mw) (e_rows ev)
      /\ first_best D (trig - 2 * mw) (trig + 2 * mw) (fun t => coa (row t)) (e_otime ev)
      /\ max_coalescence ev = Ret (e_otime ev, coa (row (e_otime ev)), coa_n (row (e_otime ev)))).
Proof.
  intros lp tp tiny secs k tr l r0 r1 tab stations f x y ids m e L reach mw pre post trig d c D S Rg Mp Hf Fd Ny Ld He Cl Gt Ds De Dst Rc Lv run.
  destruct (LocateRun_Proofs.lr_delta lp tp tiny secs k l tab stations mw pre post S) as (Dp & _). pose proof (lr_lowpass _ _ _ _ _ _ _ _ _ _ _ S) as Hlp.
  destruct (LocateRun_Proofs.lr_multiples lp tp tiny secs k l tab stations mw pre post S) as (pa & pb & q & Ea & Eb & Em & Ha & Hb & Hq & _).
  assert (Ho : d_start d <= d_end d). { rewrite Ds, De, Ea, Eb, Em. assert (0 <= pa * D /\ 0 <= pb * D /\ 0 <= q * D) by (unfold D; repeat split; apply Z.mul_nonneg_nonneg; lia). fold D. lia. }
  unfold run. rewrite (event_slow lp tp tiny secs k f x ids tr l r0 r1 pre post mw trig d Hlp Hf Dp Fd Rc Ho).
  apply (event_formula lp tp tiny secs k tr l r0 r1 tab stations (slowed lp secs k f x d) ids (fun t => near_peak (Lut_Model.g_count (Lut_Model.l_grid l)) (node_coord tr (Lut_Model.l_grid l)) (slack e L) (coalescence_of secs k tab ids stations y t)) mw pre post trig (slow lp secs k f x ids d) S (rg_dots _ _ _ _ _ _ _ Rg) Gt Ds De Dst (slow_recorded lp secs k f x ids d)).
  intros Wr Nt. apply (compute_fast lp tp tiny secs k tr l r0 r1 tab f x y ids stations m e L reach pre post d Wr Hlp Hf Dp Ho) with (nt := (4 * mw + pre + post) / D + 1); assumption.
Qed.
Print Assumptions C143_event_partial.

(** Two scans, of records at [f] and at [f'] times the output rate, with different timesteps, pads and starts. *)
Theorem C143_timestep_partial :
  forall lowpass taper tiny secs k transform ucf l r0 r1 tab stations f x f' x' y ids m e L reach starttime timestep pre post n read cw fs afs starttime' timestep' pre' post' n' read' cw' fs' afs',
  let c := o_clock secs k in let D := secs / o_rate k in let g := slack e L in
  scan_ready lowpass taper tiny secs k transform ucf l tab stations starttime timestep pre post -> scan_ready lowpass taper tiny secs k transform ucf l tab stations starttime' timestep' pre' post' -> regular secs k l tab ids stations reach -> (forall n, 0 <= m n) ->
  2 <= f -> (f | D) -> nearly_fast lowpass secs k f m e x ids y -> 2 <= f' -> (f' | D) -> nearly_fast lowpass secs k f' m e x' ids y -> loud secs k ids y L -> (0 <= e < L)%R -> (g < 1)%R ->
  clear_of_ends secs k (m ((timestep + pre + post) / D)) (time2sample c pre) (time2sample c post) reach -> clear_of_ends secs k (m ((timestep' + pre' + post') / D)) (time2sample c pre') (time2sample c post') reach ->
  0 < n -> (forall i, 0 <= i < n -> let w := step_window c starttime timestep pre post i in reads_fast lowpass tiny secs k f x ids stations read (fst w) (snd w)) ->
  0 < n' -> (forall i, 0 <= i < n' -> let w := step_window c starttime' timestep' pre' post' i in reads_fast lowpass tiny secs k f' x' ids stations read' (fst w) (snd w)) -> contributing k ids stations <> [] ->
  exists h a h' a', continuous_compute lowpass taper tiny secs k transform ucf l r0 r1 cw read stations fs afs starttime timestep n = Ret (h, a) /\ continuous_compute lowpass taper tiny secs k transform ucf l r0 r1 cw' read' stations fs' afs' starttime' timestep' n' = Ret (h', a')
  /\ forall t, (D | t) -> starttime <= t < starttime + timestep * n -> starttime' <= t < starttime' + timestep' * n' ->
     exists row z row' z', encode_row ucf row = Some z /\ stored c h t z /\ encode_row ucf row' = Some z' /\ stored c h' t z' /\ ((1 - g) * coa row <= (1 + g) * coa row')%R /\ ((1 - g) * coa row' <= (1 + g) * coa row)%R.
Proof.
  intros lp tp tiny secs k tr ucf l r0 r1 tab stations f x f' x' y ids m e L reach starttime timestep pre post n read cw fs afs starttime' timestep' pre' post' n' read' cw' fs' afs' c D g S S' Rg Mp Hf Fd Ny Hf' Fd' Ny' Ld He Hg Cl Cl' Hn Rd Hn' Rd' Ne.
  destruct (C143_scan_partial lp tp tiny secs k tr ucf l r0 r1 tab stations f x y ids m e L reach starttime timestep pre post n read cw fs afs S Rg Mp Hf Fd Ny Ld He Cl Hn Rd) as (h & a & Ef & H).
  destruct (C143_scan_partial lp tp tiny secs k tr ucf l r0 r1 tab stations f' x' y ids m e L reach starttime' timestep' pre' post' n' read' cw' fs' afs' S' Rg Mp Hf' Fd' Ny' Ld He Cl' Hn' Rd') as (h' & a' & Ef' & H'). fold c D in H, H'.
  assert (G0 : (0 <= g)%R) by (unfold g, slack; apply Rmult_le_pos; [lra|]; apply Rmult_le_pos; [lra|left; apply Rinv_0_lt_compat; lra]).
  exists h, a, h', a'. split; [exact Ef|]. split; [exact Ef'|]. intros t Gt B B'. destruct (H t Gt B) as [(C & _)|(_ & row & z & Pk & Ez & Sz)]; [contradiction|]. destruct (H' t Gt B') as [(C & _)|(_ & row' & z' & Pk' & Ez' & Sz')]; [contradiction|].
  exists row, z, row', z'. split; [exact Ez|]. split; [exact Sz|]. split; [exact Ez'|]. split; [exact Sz'|]. fold g in Pk, Pk'. split; [exact (near_peaks _ _ _ _ _ _ (conj G0 Hg) Pk Pk')|exact (near_peaks _ _ _ _ _ _ (conj G0 Hg) Pk' Pk)].
Qed.
Print Assumptions C143_timestep_partial.

(** A source that stands out is found by the scan, and by locate, as in C134. *)
Theorem C143_source_partial :
  forall lowpass taper tiny secs k transform ucf l r0 r1 tab stations fac x y ids m e L reach starttime timestep pre post n read cw fs afs t0 q0,
  let c := o_clock secs k in let D := secs / o_rate k in let g := slack e L in let F := coalescence_of secs k tab ids stations y in
  scan_ready lowpass taper tiny secs k transform ucf l tab stations starttime timestep pre post -> regular secs k l tab ids stations reach -> (forall n, 0 <= m n) -> 2 <= fac -> (fac | D) -> nearly_fast lowpass secs k fac m e x ids y -> loud secs k ids y L -> (0 <= e < L)%R ->
  clear_of_ends secs k (m ((timestep + pre + post) / D)) (time2sample c pre) (time2sample c post) reach ->
  0 < n -> (forall i, 0 <= i < n -> let w := step_window c starttime timestep pre post i in reads_fast lowpass tiny secs k fac x ids stations read (fst w) (snd w)) -> contributing k ids stations <> [] ->
  stands_out (Lut_Model.g_count (Lut_Model.l_grid l)) g F (fun t => starttime <= t * D < starttime + timestep * n) t0 q0 ->
  exists f a row z, continuous_compute lowpass taper tiny secs k transform ucf l r0 r1 cw read stations fs afs starttime timestep n = Ret (f, a)
  /\ encode_row ucf row = Some z /\ stored c f (t0 * D) z /\ ((1 - g) * F t0 q0 <= coa row <= (1 + g) * F t0 q0)%R /\ (px row, py row, pz row) = node_coord transform (Lut_Model.l_grid l) q0
  /\ forall t, (D | t) -> starttime <= t < starttime + timestep * n -> t <> t0 * D -> exists row' z', encode_row ucf row' = Some z' /\ stored c f t z' /\ (coa row' < coa row)%R /\ coa z' <= coa z.
Proof.
  intros lp tp tiny secs k tr ucf l r0 r1 tab stations fac x y ids m e L reach starttime timestep pre post n read cw fs afs t0 q0 c D g F S Rg Mp Hfac Fd Ny Ld He Cl Hn Rd Ne So.
  destruct (C143_scan_partial lp tp tiny secs k tr ucf l r0 r1 tab stations fac x y ids m e L reach starttime timestep pre post n read cw fs afs S Rg Mp Hfac Fd Ny Ld He Cl Hn Rd) as (f & a & Ef & H). fold c D F g in Ef, H. pose proof So as (_ & Ht0 & _).
  destruct (DetectRun_Proofs.sr_delta lp tp tiny secs k tr ucf l tab stations starttime timestep pre post S) as (Dp & _). fold D in Dp.
  destruct (H (t0 * D) (Z.divide_factor_r _ _) Ht0) as [(C & _)|(_ & row & z & Pk & Ez & Sz)]; [contradiction|]. rewrite Z.div_mul in Pk by lia. destruct (at_standing _ _ _ _ _ _ _ _ So Pk) as (C1 & C2).
  exists f, a, row, z. split; [exact Ef|]. split; [exact Ez|]. split; [exact Sz|]. split; [exact C1|]. split; [exact C2|].
  intros t (u & ->) Ht Nt. destruct (H (u * D) (Z.divide_factor_r _ _) Ht) as [(C & _)|(_ & row' & z' & Pk' & Ez' & Sz')]; [contradiction|]. rewrite Z.div_mul in Pk' by lia.
  assert (Lt : (coa row' < coa row)%R) by (pose proof (off_standing _ _ _ _ _ _ _ _ _ So Ht ltac:(congruence) Pk'); lra). exists row', z'. split; [exact Ez'|]. split; [exact Sz'|]. split; [exact Lt|]. apply (Agree_Props.encoded_mono _ _ _ _ _ Ez' Ez). lra.
Qed.
Print Assumptions C143_source_partial.
Theorem C143_located_partial :
  forall lowpass taper tiny secs k transform l r0 r1 tab stations fac x y ids m e L reach mw pre post trig d t0 q0,
  let c := o_clock secs k in let D := secs / o_rate k in let g := slack e L in let F := coalescence_of secs k tab ids stations y in
  locate_ready lowpass taper tiny secs k l tab stations mw pre post -> regular secs k l tab ids stations reach -> (forall n, 0 <= m n) -> 2 <= fac -> (fac | D) -> nearly_fast lowpass secs k fac m e x ids y -> loud secs k ids y L -> (0 <= e < L)%R ->
  clear_of_ends secs k (m ((4 * mw + pre + post) / D + 1)) (time2sample c pre) (time2sample c post) reach -> (D | trig) ->
  d_start d = trig - 2 * mw - pre -> d_end d = trig + 2 * mw + post -> d_stations d = stations -> recorded_fast secs k fac x ids d -> lively tiny secs k (slowed lowpass secs k fac x d) ids d -> contributing k ids stations <> [] ->
  stands_out (Lut_Model.g_count (Lut_Model.l_grid l)) g F (fun t => trig - 2 * mw <= t * D <= trig + 2 * mw) t0 q0 ->
  exists ev v vn, event_compute lowpass taper tiny secs k transform l r0 r1 pre post mw d trig = Ret ev /\ e_otime ev = t0 * D
  /\ max_coalescence ev = Ret (t0 * D, v, vn) /\ ((1 - g) * F t0 q0 <= v <= (1 + g) * F t0 q0)%R
  /\ In (mk_coarow (t0 * D) v vn (node_coord transform (Lut_Model.l_grid l) q0)) (e_rows ev).
Proof.
  intros lp tp tiny secs k tr l r0 r1 tab stations fac x y ids m e L reach mw pre post trig d t0 q0 c D g F S Rg Mp Hfac Fd Ny Ld He Cl Gt Ds De Dst Rc Lv Ne So.
  destruct (C143_event_partial lp tp tiny secs k tr l r0 r1 tab stations fac x y ids m e L reach mw pre post trig d S Rg Mp Hfac Fd Ny Ld He Cl Gt Ds De Dst Rc Lv) as [(C & _)|(_ & ev & row & E & Hp & Hrows & (Bo & Go & Hb) & Hm)]; [contradiction|]. fold c D F g in Hp, Hrows, Go, Hb. pose proof So as (_ & Ht0 & _).
  destruct (LocateRun_Proofs.lr_delta lp tp tiny secs k l tab stations mw pre post S) as (Dp & _). fold D in Dp.
  pose proof (Hp _ (Z.divide_factor_r D t0) Ht0) as Pk. rewrite Z.div_mul in Pk by lia. destruct (at_standing _ _ _ _ _ _ _ _ So Pk) as (C1 & C2).
  assert (O : e_otime ev = t0 * D).
  { destruct Go as (u & Eu). rewrite Eu in *. destruct (Z.eq_dec u t0) as [->|N]; [reflexivity|exfalso]. pose proof (Hp _ (Z.divide_factor_r D u) Bo) as Pk'. rewrite Z.div_mul in Pk' by lia. pose proof (off_standing _ _ _ _ _ _ _ _ _ So Bo N Pk') as Lt. pose proof (proj1 (Hb _ Ht0 (Z.divide_factor_r D t0))). lra. }
  exists ev, (coa (row (t0 * D))), (coa_n (row (t0 * D))). split; [exact E|]. split; [exact O|]. rewrite O in Hm. split; [exact Hm|]. split; [exact C1|].
  assert (It : In (t0 * D) (mw_times c trig mw)).
  { destruct Gt as (g' & Hg). destruct (LocateRun_Proofs.lr_multiples lp tp tiny secs k l tab stations mw pre post S) as (_ & _ & q' & _ & _ & Em & _). fold D in Em. unfold mw_times. apply in_map_iff. exists (t0 - g' + 2 * q'). cbn [c o_clock delta]. fold D. rewrite Em, Hg in Ht0 |- *. split; [ring|]. apply in_zrange.
    replace (4 * (q' * D)) with (4 * q' * D) by ring. rewrite Z.div_mul by lia. assert (g' - 2 * q' <= t0) by (apply (Zmult_le_reg_r _ _ D); lia). assert (t0 <= g' + 2 * q') by (apply (Zmult_le_reg_r _ _ D); lia). lia. }
  clear - Hrows It C2. induction Hrows as [|t e' ts es Q _ IH]; [destruct It|]. destruct It as [->|It]; [|right; apply IH, It]. left. unfold same_sample in Q. rewrite C2 in Q. exact Q.
Qed.
Print Assumptions C143_located_partial.

Lemma fast_usable secs k fac x ids d : 2 <= fac -> 0 < secs / o_rate k -> (fac | secs / o_rate k) -> secs <= 500000 * (secs / o_rate k / fac) -> (secs / o_rate k | d_start d) -> (secs / o_rate k | d_end d) -> d_start d <= d_end d -> recorded_fast secs k fac x ids d ->
  Forall (usable secs (o_rate k) (d_resample d) (d_upfactor d) (d_start d) (d_end d)) (d_waveforms d).
Proof.
  intros Hf HD (g & Eg) Hz (a & Ea) (b & Eb) Ho Rc. rewrite Rc. apply Forall_forall. intros s Is. apply in_map_iff in Is as (i & <- & _). set (D := secs / o_rate k) in *. assert (Ed : D / fac = g) by (rewrite Eg, Z.div_mul; lia). rewrite Ed in *.
  assert (G0 : 0 < g) by (apply (Zmult_lt_reg_r _ _ fac); lia). assert (Hab : a <= b) by (apply (Zmult_le_reg_r _ _ D); lia).
  assert (Nw : n_window secs (o_rate k) (d_start d) (d_end d) = b - a + 1) by (unfold n_window; fold D; rewrite Ea, Eb; replace (b * D - a * D) with ((b - a) * D) by ring; rewrite Z.div_mul; lia).
  assert (Lw : Z.of_nat (length (fast_window secs k fac x d i)) = fac * (b - a) + 1). { unfold fast_window. assert (0 <= fac * (b - a)) by (apply Z.mul_nonneg_nonneg; lia). rewrite cut_length; rewrite Nw; unfold fast_length; replace (b - a + 1 - 1) with (b - a) by ring; lia. }
  assert (Ne : fast_window secs k fac x d i <> []). { intros C. rewrite C in Lw. cbn in Lw. assert (0 <= fac * (b - a)) by (apply Z.mul_nonneg_nonneg; lia). lia. }
  unfold usable, on_own_grid. cbn [Avail_Model.sg_delta Avail_Model.sg_start Avail_Model.sg_data]. split; [split; [exact G0|]|split; [exact Ne|split; [lia|]]].
  - exists (a * fac). rewrite Ea, Eg. ring.
  - right. left. split; [left; exists fac; cbn; fold D; rewrite Eg; ring|]. split; [exact Ne|]. cbn [Avail_Model.sg_delta Avail_Model.sg_start]. split; [rewrite Z.sub_diag; cbn; exact G0|]. unfold Avail_Model.sg_end, Avail_Model.npts. cbn [Avail_Model.sg_delta Avail_Model.sg_start Avail_Model.sg_data].
    rewrite Lw. replace (d_start d + (fac * (b - a) + 1 - 1) * g - d_end d) with 0 by (rewrite Ea, Eb, Eg; ring). cbn. exact G0.
Qed.
(** Scan, trigger and locate, as in C134. *)
Theorem C143_pipeline_partial :
  forall lowpass taper tiny secs k transform (ucf : Q) l r0 r1 rbf rat curve_fit pm ticks fraction tab stations fac x y ids m e L reach starttime timestep pre post n mw pre' post' read read' mags pre_cut post_cut cw fs afs p s b v0 t0 q0,
  let c := o_clock secs k in let D := secs / o_rate k in let N := Lut_Model.g_count (Lut_Model.l_grid l) in let F := coalescence_of secs k tab ids stations y in let g := slack e L in
  scan_ready lowpass taper tiny secs k transform (Q2R ucf) l tab stations starttime timestep pre post -> locate_ready lowpass taper tiny secs k l tab stations mw pre' post' -> interpolating rbf -> (0 < ucf)%Q ->
  regular secs k l tab ids stations reach -> (forall n, 0 <= m n) -> 2 <= fac -> (fac | D) -> secs <= 500000 * (D / fac) -> nearly_fast lowpass secs k fac m e x ids y -> loud secs k ids y L -> (0 <= e < L)%R ->
  clear_of_ends secs k (m ((timestep + pre + post) / D)) (time2sample c pre) (time2sample c post) reach -> clear_of_ends secs k (m ((4 * mw + pre' + post') / D + 1)) (time2sample c pre') (time2sample c post') reach ->
  0 < n -> (forall i, 0 <= i < n -> let w := step_window c starttime timestep pre post i in reads_fast lowpass tiny secs k fac x ids stations read (fst w) (snd w)) -> contributing k ids stations <> [] ->
  stands_out N g F (fun t => starttime <= t * D < starttime + timestep * n) t0 q0 -> starttime <= t0 * D - 2 * mw -> t0 * D + 2 * mw < starttime + timestep * n ->
  (D | s - Trigger_Model.pad p) -> (D | b + Trigger_Model.pad p) -> (forall d, (s - Trigger_Model.pad p) / (86400 * secs) <= d <= (b + Trigger_Model.pad p) / (86400 * secs) -> fs d = None) ->
  Trigger_Model.threshold_method p = Trigger_Model.Static -> Trigger_Model.normalise_coalescence p = false -> 0 <= Trigger_Model.pad p -> Trigger_Spec.accepts c (s, b) (t0 * D) ->
  (Q2R (Trigger_Model.static_threshold p) + 5 / 1000000 <= Rmin ((1 - g) * F t0 q0) 21474)%R ->
  (forall t q, is_node N q -> starttime <= t * D < starttime + timestep * n -> t <> t0 -> ((1 + g) * F t q + 1 / 100000 < Rmin ((1 - g) * F t0 q0) 21474)%R) ->
  (let '(w0, w1, u, v) := event_window (t0 * D) mw pre' post' mags pre_cut post_cut in reads_fast lowpass tiny secs k fac x ids stations (fun w0 w1 => read' w0 w1 u v) w0 w1) ->
  let run := locate_event lowpass taper tiny secs k transform l r0 r1 rbf rat curve_fit pm ticks fraction read' mw pre' post' mags pre_cut post_cut (t0 * D) in
  exists f a v1 es ev d evt loc cov v vn,
    continuous_compute lowpass taper tiny secs k transform (Q2R ucf) l r0 r1 cw read stations fs afs starttime timestep n = Ret (f, a)
    /\ Trigger_Model.trigger_batch c p (Pipeline_Model.trigger_read c ucf f (Trigger_Model.pad p)) None v0 s b = Ret (v1, es) /\ In ev es
    /\ (exists row, (px row, py row, pz row) = node_coord transform (Lut_Model.l_grid l) q0 /\ ((1 - g) * F t0 q0 <= coa row <= (1 + g) * F t0 q0)%R /\ Pipeline_Spec.event_at ucf (t0 * D) (Rmin (coa row) 21474) row ev)
    /\ (forall ev', In ev' es -> Trigger_Model.CoaTime (Trigger_Model.cand ev') = t0 * D \/ (Trigger_Model.TRIG_COA (Trigger_Model.cand ev') < Trigger_Model.TRIG_COA (Trigger_Model.cand ev))%Q)
    /\ run = bind (pick_run lowpass taper tiny secs k rat curve_fit pm (arrivals transform l ticks fraction loc) d (t0 * D) mw) (fun picks => Ret (Some (mk_located evt loc (Some cov) picks)))
    /\ e_otime evt = t0 * D /\ max_coalescence evt = Ret (t0 * D, v, vn) /\ ((1 - g) * F t0 q0 <= v <= (1 + g) * F t0 q0)%R.
Proof.
  intros lp tp tiny secs k tr ucf l r0 r1 rbf rat cf pm ticks fr tab stations fac x y ids m e L reach starttime timestep pre post n mw pre' post' read read' mags c1 c2 cw fs afs p s b v0 t0 q0 c D N F g S S' Hrbf Hu Rg Mp Hfac Fd Hrt Ny Ld He Cl Cl' Hn Rd Ne So Hlo Hhi Gs Ge Hold Hm Nn Hp Ha Hth Hbig Hr' run.
  destruct (LocateRun_Proofs.lr_delta lp tp tiny secs k l tab stations mw pre' post' S') as (Dp & Sp). fold D in Dp. destruct (DetectRun_Proofs.sr_clock lp tp tiny secs k tr (Q2R ucf) l tab stations starttime timestep pre post S) as (_ & Ir). pose proof (lr_mw _ _ _ _ _ _ _ _ _ _ _ S') as Mw.
  destruct (C143_scan_partial lp tp tiny secs k tr (Q2R ucf) l r0 r1 tab stations fac x y ids m e L reach starttime timestep pre post n read cw fs afs S Rg Mp Hfac Fd Ny Ld He Cl Hn Rd) as (f & a & Ef & _). fold c D in Ef.
  destruct (DetectRun_Proofs.sr_delta lp tp tiny secs k tr (Q2R ucf) l tab stations starttime timestep pre post S) as (Dp0 & _). pose proof (sr_lowpass _ _ _ _ _ _ _ _ _ _ _ _ _ _ S) as Hlp.
  destruct (DetectRun_Proofs.sr_multiples lp tp tiny secs k tr (Q2R ucf) l tab stations starttime timestep pre post S) as (pa & pb & qm & Ema & Emb & Emm & Hma & Hmb & Hmq & _).
  assert (Hw : forall i, fst (step_window c starttime timestep pre post i) <= snd (step_window c starttime timestep pre post i)).
  { intros i. unfold step_window. cbn [fst snd c o_clock delta]. rewrite Ema, Emb, Emm. assert (0 <= pa * D /\ 0 <= pb * D /\ 0 <= (qm - 1) * D) by (unfold D; repeat split; apply Z.mul_nonneg_nonneg; lia). fold D. lia. }
  pose proof Ef as Ef1. rewrite (scan_slow lp tp tiny secs k fac x ids stations Hlp Hfac Dp0 Fd) in Ef1.
  2: { intros i Hi. unfold d_clock. rewrite (sr_pads _ _ _ _ _ _ _ _ _ _ _ _ _ _ S). cbn [fst snd]. split; [apply Hw|apply Rd; exact Hi]. }
  destruct (scan_blocks_at lp tp tiny secs k tr (Q2R ucf) l r0 r1 tab stations (fun i => match read (fst (step_window c starttime timestep pre post i)) (snd (step_window c starttime timestep pre post i)) with Ret d => slowed lp secs k fac x d | _ => x end)
    ids (fun t => near_peak (Lut_Model.g_count (Lut_Model.l_grid l)) (node_coord tr (Lut_Model.l_grid l)) (slack e L) (coalescence_of secs k tab ids stations y t)) starttime timestep pre post n (slow_read lp secs k fac x ids read) S (rg_dots _ _ _ _ _ _ _ Rg)) with (cw := cw) (fs := fs) (afs := afs) (f := f) (a := a) as (blocks & Nb & Cs & Es & Pk & Ex); try assumption.
  { intros i Hi. apply reads_slow. apply Rd. exact Hi. }
  { intros i d' Hi Er Es Ee Est _ _ Wr Nt. destruct (Rd i Hi) as (d & E & Ds & De & Dst & Rc & Lv). fold c in Er, Es, Ee. unfold slow_read in Er. rewrite E in Er. cbn [bind] in Er. assert (d' = slow lp secs k fac x ids d) by congruence. subst d'.
    apply (compute_fast lp tp tiny secs k tr l r0 r1 tab fac x y ids stations m e L reach pre post d Wr Hlp Hfac Dp0) with (nt := (timestep + pre + post) / D); try assumption. rewrite Ds, De. apply Hw. }
  fold c D g in Cs, Es, Pk, Ex.
  assert (Sc : Pipeline_Spec.scanned c ucf fs f starttime blocks (Trigger_Model.pad p) s b).
  { constructor; try assumption.
    - destruct Ir as [z Hz]. exists (86400 * z). unfold c. rewrite Hz. cbn [o_clock delta]. ring.
    - exact (sr_start _ _ _ _ _ _ _ _ _ _ _ _ _ _ S).
    - exists cw. exact Es.
    - intros d Hd _. apply Hold, Hd. }
  assert (Ht0 : starttime <= t0 * D < starttime + timestep * n) by lia. destruct (Ex _ (Z.divide_factor_r D t0) Ht0) as (row & Ir0). destruct (Pk _ _ Ir0) as (_ & _ & P0). rewrite Z.div_mul in P0 by lia. fold F in P0. destruct (at_standing _ _ _ _ _ _ _ _ So P0) as (C1 & C2).
  assert (Bt : s - Trigger_Model.pad p <= t0 * D <= b + Trigger_Model.pad p) by (clear - Ha Hp Dp; unfold Trigger_Spec.accepts in Ha; cbn [fst snd] in Ha; change (delta c) with D in Ha; destruct (b mod (86400 * sec c) =? 0); lia).
  destruct (Pipeline_Props.C105_batch_triggered c ucf fs f starttime blocks p None v0 s b _ _ Sc Ir0 Bt) as (v1 & es & Et).
  destruct (Pipeline_Props.C105_peak_becomes_event_partial c ucf fs f starttime blocks p s b v0 v1 es (t0 * D) row Sc Hm Nn Et Ir0 Ha Hp) as (ev & Ie & Ea & Eo).
  { unfold Pipeline_Spec.kept. eapply Rle_trans; [exact Hth|]. apply Rle_min_compat_r, C1. }
  { intros t' r' I' _ Nt. destruct (Pk _ _ I') as ((u & ->) & Bu & (f' & W & q & Hq & _ & _ & Cq & _)). rewrite Z.div_mul in W by lia. fold F in W. unfold Pipeline_Spec.kept. pose proof (Hbig u q Hq Bu ltac:(congruence)) as B. pose proof (Rmin_l (coa r') 21474). pose proof (W q Hq). pose proof (Rle_min_compat_r _ _ 21474 (proj1 C1)). lra. }
  pose proof (Z.divide_factor_r D t0) as Gt. pose proof (LocateRun_Props.located_full lp tp tiny secs k tr l r0 r1 rbf rat cf pm ticks fr tab stations read' mw pre' post' mags c1 c2 (t0 * D) S' Hrbf Gt) as LF. cbv zeta in LF. fold run in LF.
  unfold event_window, locate_window in *. cbn [fst snd] in *. set (P := event_pads _ _ _ _ _ _) in *. destruct Hr' as (d & Er & Ds & De & Est & Rc & Lv).
  assert (So' : stands_out N g F (fun t => t0 * D - 2 * mw <= t * D <= t0 * D + 2 * mw) t0 q0) by (destruct So as (A1 & A2 & A3); split; [exact A1|]; split; [lia|]; intros t q Ht; apply A3; lia).
  destruct (C143_located_partial lp tp tiny secs k tr l r0 r1 tab stations fac x y ids m e L reach mw pre' post' (t0 * D) d t0 q0 S' Rg Mp Hfac Fd Ny Ld He Cl' Gt Ds De Est Rc Lv Ne So') as (ev0 & v & vn & E0 & O0 & M0 & V0 & _). fold D F g in E0, O0, M0, V0.
  destruct LF as [(_ & [(ex & Exn & _)|(d0 & Ed & Eo')])|H].
  - right. exists d. split; [exact Er|]. split; [exact Ds|]. split; [exact De|]. split; [exact Est|].
    destruct (LocateRun_Proofs.lr_multiples lp tp tiny secs k l tab stations mw pre' post' S') as (ua & ub & um & Eua & Eub & Eum & Hua & Hub & Hum & _). fold D in Eua, Eub, Eum.
    assert (U : Forall (usable secs (o_rate k) (d_resample d) (d_upfactor d) (d_start d) (d_end d)) (d_waveforms d)).
    { apply (fast_usable secs k fac x ids d Hfac Dp0 Fd Hrt); [| | |exact Rc]; rewrite ?Ds, ?De, ?Eua, ?Eub, ?Eum.
      - exists (t0 - 2 * um - ua). fold D. ring.
      - exists (t0 + 2 * um + ub). fold D. ring.
      - assert (0 <= ua * D /\ 0 <= ub * D /\ 0 <= um * D) by (repeat split; apply Z.mul_nonneg_nonneg; lia). lia. }
    rewrite Ds, De in U. exact U.
  - congruence.
  - exfalso. assert (d0 = d) by congruence. subst d0. unfold event_compute, compute_coalescence in E0. rewrite Eo' in E0. cbn in E0. discriminate.
  - destruct H as (d0 & r & tt & s0 & qq & ev1 & H). cbv zeta in H. destruct H as (E1 & O1 & M1 & Ed & _ & _ & _ & H). assert (d0 = d) by congruence. subst d0. assert (ev1 = ev0) by congruence. subst ev1. rewrite <- O1, O0 in H. rewrite <- O1, O0 in M1.
    destruct H as [(G1 & _)|(_ & ev' & loc & cloc & cov & unc & best & Er' & O' & M' & _)]; [rewrite Z.sub_diag in G1; cbn in G1; lia|].
    exists f, a, v1, es, ev, d, ev', loc, (cloc, cov, unc), v, vn. split; [exact Ef|]. split; [exact Et|]. split; [exact Ie|]. split; [exists row; split; [exact C2|]; split; [exact C1|exact Ea]|]. split; [exact Eo|]. split; [exact Er'|]. split; [exact O'|]. split; [congruence|exact V0].
Qed.
Print Assumptions C143_pipeline_partial.

(** A scan of records at [f] times the output rate, and one of records at the output rate. *)
Theorem C143_either_rate_partial :
  forall lowpass taper tiny secs k transform ucf l r0 r1 tab stations f x x' y ids m e L reach starttime timestep pre post n read cw fs afs starttime' timestep' pre' post' n' read' cw' fs' afs',
  let c := o_clock secs k in let D := secs / o_rate k in let g := slack e L in
  scan_ready lowpass taper tiny secs k transform ucf l tab stations starttime timestep pre post -> scan_ready lowpass taper tiny secs k transform ucf l tab stations starttime' timestep' pre' post' -> regular secs k l tab ids stations reach -> (forall n, 0 <= m n) ->
  2 <= f -> (f | D) -> nearly_fast lowpass secs k f m e x ids y -> nearly secs k m e x' ids y -> loud secs k ids y L -> (0 <= e < L)%R -> (g < 1)%R ->
  clear_of_ends secs k (m ((timestep + pre + post) / D)) (time2sample c pre) (time2sample c post) reach -> clear_of_ends secs k (m ((timestep' + pre' + post') / D)) (time2sample c pre') (time2sample c post') reach ->
  0 < n -> (forall i, 0 <= i < n -> let w := step_window c starttime timestep pre post i in reads_fast lowpass tiny secs k f x ids stations read (fst w) (snd w)) ->
  0 < n' -> (forall i, 0 <= i < n' -> let w := step_window c starttime' timestep' pre' post' i in reads tiny secs k x' ids stations read' (fst w) (snd w)) -> contributing k ids stations <> [] ->
  exists h a h' a', continuous_compute lowpass taper tiny secs k transform ucf l r0 r1 cw read stations fs afs starttime timestep n = Ret (h, a) /\ continuous_compute lowpass taper tiny secs k transform ucf l r0 r1 cw' read' stations fs' afs' starttime' timestep' n' = Ret (h', a')
  /\ forall t, (D | t) -> starttime <= t < starttime + timestep * n -> starttime' <= t < starttime' + timestep' * n' ->
     exists row z row' z', encode_row ucf row = Some z /\ stored c h t z /\ encode_row ucf row' = Some z' /\ stored c h' t z' /\ ((1 - g) * coa row <= (1 + g) * coa row')%R /\ ((1 - g) * coa row' <= (1 + g) * coa row)%R.
Proof.
  intros lp tp tiny secs k tr ucf l r0 r1 tab stations f x x' y ids m e L reach starttime timestep pre post n read cw fs afs starttime' timestep' pre' post' n' read' cw' fs' afs' c D g S S' Rg Mp Hf Fd Ny Ny' Ld He Hg Cl Cl' Hn Rd Hn' Rd' Ne.
  destruct (C143_scan_partial lp tp tiny secs k tr ucf l r0 r1 tab stations f x y ids m e L reach starttime timestep pre post n read cw fs afs S Rg Mp Hf Fd Ny Ld He Cl Hn Rd) as (h & a & Ef & H).
  destruct (C134_scan_partial lp tp tiny secs k tr ucf l r0 r1 tab stations x' y ids m e L reach starttime' timestep' pre' post' n' read' cw' fs' afs' S' Rg Mp Ny' Ld He Cl' Hn' Rd') as (h' & a' & Ef' & H'). fold c D in H, H'.
  assert (G0 : (0 <= g)%R) by (unfold g, slack; apply Rmult_le_pos; [lra|]; apply Rmult_le_pos; [lra|left; apply Rinv_0_lt_compat; lra]).
  exists h, a, h', a'. split; [exact Ef|]. split; [exact Ef'|]. intros t Gt B B'. destruct (H t Gt B) as [(C & _)|(_ & row & z & Pk & Ez & Sz)]; [contradiction|]. destruct (H' t Gt B') as [(C & _)|(_ & row' & z' & Pk' & Ez' & Sz')]; [contradiction|].
  exists row, z, row', z'. split; [exact Ez|]. split; [exact Sz|]. split; [exact Ez'|]. split; [exact Sz'|]. fold g in Pk, Pk'. split; [exact (near_peaks _ _ _ _ _ _ (conj G0 Hg) Pk Pk')|exact (near_peaks _ _ _ _ _ _ (conj G0 Hg) Pk' Pk)].
Qed.
Print Assumptions C143_either_rate_partial.

(** What is asked of the processing, for that of the code. *)
Lemma thinned_decimate w lp f n z : 0 < f -> 1 <= n -> Z.of_nat (length z) = fast_length f n -> thinned f n (pre_filter w lp z) = decimate w lp (Z.to_nat f) z.
Proof.
  intros Hf Hn Lz. assert (Ez : (length z = Z.to_nat f * (Z.to_nat n - 1) + 1)%nat). { apply Nat2Z.inj. rewrite Lz, Nat2Z.inj_add, Nat2Z.inj_mul, Nat2Z.inj_sub, !Z2Nat.id by lia. unfold fast_length. lia. }
  assert (Ed : length (decimate w lp (Z.to_nat f) z) = Z.to_nat n).
  { unfold decimate. rewrite every_length, chain_length, Ez. replace (Z.to_nat f * (Z.to_nat n - 1) + 1 + Z.to_nat f - 1)%nat with (Z.to_nat n * Z.to_nat f + 0)%nat.
    - rewrite Nat.div_add_l by lia. rewrite Nat.div_0_l by lia. lia.
    - destruct (Z.to_nat n) as [|a] eqn:En; [lia|]. rewrite Nat.sub_succ, Nat.sub_0_r. lia. }
  assert (Et : length (thinned f n (pre_filter w lp z)) = Z.to_nat n) by (unfold thinned, array1; rewrite map_length, zrange_length; lia).
  apply (nth_ext _ _ 0%R 0%R); [congruence|]. intros j Hj. rewrite Et in Hj. rewrite (proj2 (proj2 (C141_every_kth_sample w lp (Z.to_nat f) z ltac:(lia)) j ltac:(lia))).
  assert (Q : Onset_Spec.sample (thinned f n (pre_filter w lp z)) (Z.of_nat j) = Onset_Spec.sample (pre_filter w lp z) (f * Z.of_nat j)) by (unfold Onset_Spec.sample at 1, thinned; rewrite rd_array1 by lia; reflexivity).
  rewrite sample_at in Q. unfold at_ in Q. rewrite Q. replace (f * Z.of_nat j) with (Z.of_nat (Z.to_nat f * j)) by (rewrite Nat2Z.inj_mul, Z2Nat.id by lia; reflexivity). rewrite sample_at. reflexivity.
Qed.
Lemma room_clear J J' f n s : 0 < f -> both_settle J J' f n <= s < n - both_settle J J' f n -> clear_of_both J J' (Z.to_nat f) (fast_length f n) s.
Proof.
  intros Hf Hs. unfold both_settle in Hs. set (st := settling J (fast_length f n)) in *. assert (En : n_out (Z.to_nat f) (fast_length f n) = n). { unfold n_out, fast_length. rewrite Z2Nat.id by lia. replace (f * (n - 1) + 1 + f - 1) with (n * f) by ring. apply Z.div_mul. lia. }
  unfold clear_of_both. rewrite En, Z2Nat.id by lia. split; [lia|]. fold st. pose proof (Z.mul_div_le st f Hf) as D1. pose proof (Z.mul_succ_div_gt st f Hf) as D2. set (q := st / f) in *.
  assert (A1 : f * Z.succ q <= f * (s - Z.of_nat J')) by (apply Z.mul_le_mono_nonneg_l; lia). assert (A2 : f * (s + Z.of_nat J') <= f * (n - 1 - Z.succ q)) by (apply Z.mul_le_mono_nonneg_l; lia). split; [lia|].
  unfold fast_length. replace (f * (n - 1 - Z.succ q)) with (f * (n - 1) - f * Z.succ q) in A2 by ring. lia.
Qed.
Theorem C143_energy_partial :
  forall lowpass secs k w lp bp f x ids M A E A' E' J J',
  taper_weights w -> chained w bp k -> (forall z, lowpass (secs / o_rate k / f) z = pre_filter w lp z) -> (forall z, o_transform k z = transform_energy z) -> fading (response (sosfilt lp)) A E J -> (forall ph, In ph (o_phases k) -> calm (response (sosfilt (bp ph))) A' E' J') ->
  (0 < J)%nat -> (0 < J')%nat -> 0 < f -> (0 <= M)%R -> (forall i j, In i ids -> (Rabs (x i j) <= M)%R) ->
  nearly_fast lowpass secs k f (both_settle J J' f) (fast_energy_error M A E A' E') x ids (fast_energy lp bp J J' f x).
Proof.
  intros lowpass secs k w lp bp f x ids M A E A' E' J J' Hw Hk Hl Ho Fa Ca HJ HJ' Hf HM Bx ph pc i b n t Ip Ec Ii Ht. rewrite Ho, (Hk ph pc _ _ Ip Ec), Hl. unfold transform_energy. rewrite (sample_map (fun v => v * v)%R) by ring.
  assert (M0 : 0 <= both_settle J J' f n) by (apply Z.le_max_l). assert (Ln : Z.of_nat (length (cut (x i) (f * b) (fast_length f n))) = fast_length f n).
  { unfold cut. rewrite array1_length. apply Z.max_r. unfold fast_length. assert (0 <= f * (n - 1)) by (apply Z.mul_nonneg_nonneg; lia). lia. }
  rewrite thinned_decimate by (assumption || lia). change (pre_filter w (bp ph) (decimate w lp (Z.to_nat f) (cut (x i) (f * b) (fast_length f n)))) with (decimated_filter w lp (bp ph) (Z.to_nat f) (cut (x i) (f * b) (fast_length f n))).
  pose proof (room_clear J J' f n (t - b) Hf ltac:(lia)) as Cl.
  pose proof (C141_decimated_partial w lp (bp ph) (Z.to_nat f) (x i) M A E A' E' J J' b (fast_length f n) t Hw Fa (Ca ph Ip) ltac:(lia) HJ HJ' (fun j _ => Bx i j Ii) Cl) as H1. rewrite Z2Nat.id in H1 by lia.
  assert (PA : (0 <= A)%R) by exact (proj1 Fa O). assert (PM : (0 <= A * (A * M))%R) by (repeat apply Rmult_le_pos; assumption).
  pose proof (two_sided_bound (response (sosfilt (bp ph))) J' (fun s => two_sided (response (sosfilt lp)) J (x i) (Z.of_nat (Z.to_nat f) * s)) (A * (A * M)) A' t (proj1 (Ca ph Ip)) PM
    (fun s => two_sided_bound (response (sosfilt lp)) J (x i) M A _ (proj1 Fa) HM (fun j => Bx i j Ii))) as H2.
  unfold fast_energy, fast_energy_error, fast_error. cbv zeta. fold (both_filters (response (sosfilt lp)) (response (sosfilt (bp ph))) J J' (Z.to_nat f) (x i) t) in H2.
  set (u := Onset_Spec.sample _ _) in *. set (y := both_filters _ _ _ _ _ _ _) in *. set (e := (80 * M * A * A * A' * E' + 10 * M * A * E * A' * A' + 4 * M * A * A * E' * E')%R) in *. replace (u * u - y * y)%R with ((u - y) * (2 * y + (u - y)))%R by ring. rewrite Rabs_mult. apply Rmult_le_compat; try apply Rabs_pos; [exact H1|].
  eapply Rle_trans; [apply Rabs_triang|]. rewrite Rabs_mult, (Rabs_pos_eq 2) by lra. lra.
Qed.
Print Assumptions C143_energy_partial.

(** With the pads of the code: a filter that needs [J] samples at the rate of the records before the decimation, and one that needs [J'] samples after it. *)
Lemma both_settle_le J J' f n : 0 < f -> 0 <= n -> both_settle J J' f n <= settling (J + J' + 1) n.
Proof.
  intros Hf Hn. unfold both_settle, settling, fast_length. rewrite !Nat2Z.inj_add. change (Z.of_nat 1) with 1. pose proof (Z.div_pos n 20 Hn ltac:(lia)) as P. set (a := Z.of_nat J). assert (A0 : 0 <= a) by (unfold a; lia).
  enough (H : ((f * (n - 1) + 1) / 20 + a) / f <= n / 20 + a) by (unfold a in *; lia).
  pose proof (Z.mul_succ_div_gt n 20 ltac:(lia)) as N1. assert (N2 : f * n <= f * (20 * (n / 20) + 19)) by (apply Z.mul_le_mono_nonneg_l; lia).
  assert (B : (f * (n - 1) + 1) / 20 < f * (n / 20 + 1)) by (apply Z.div_lt_upper_bound; lia).
  assert (Fa : a <= f * a) by (rewrite <- (Z.mul_1_l a) at 1; apply Z.mul_le_mono_nonneg_r; lia).
  apply Zlt_succ_le. apply Z.div_lt_upper_bound; lia.
Qed.
Lemma clear_less secs k m m' first last reach : m' <= m -> clear_of_ends secs k m first last reach -> clear_of_ends secs k m' first last reach.
Proof. intros H C ph pc Ip Ec. specialize (C ph pc Ip Ec). lia. Qed.
Lemma span_samples D ts pre post a b m : 0 < D -> pre = a * D -> post = b * D -> ts = m * D -> 0 <= a -> 0 <= b -> 0 <= m -> 0 <= (ts + pre + post) / D.
Proof. intros. apply Z.div_pos; [|assumption]. assert (0 <= a * D /\ 0 <= b * D /\ 0 <= m * D) by (repeat split; apply Z.mul_nonneg_nonneg; lia). lia. Qed.
Theorem C143_pads_leave_room :
  forall lowpass taper tiny secs k transform ucf l tab stations starttime timestep pre post ttmax reach J J' f,
  scan_ready lowpass taper tiny secs k transform ucf l tab stations starttime timestep pre post -> room secs k timestep ttmax reach (J + J' + 1) -> 0 < f ->
  clear_of_ends secs k (both_settle J J' f ((timestep + pre + post) / (secs / o_rate k))) (time2sample (o_clock secs k) pre) (time2sample (o_clock secs k) post) reach.
Proof.
  intros lp tp tiny secs k tr ucf l tab stations starttime timestep pre post ttmax reach J J' f S Ro Hf.
  destruct (DetectRun_Proofs.sr_delta lp tp tiny secs k tr ucf l tab stations starttime timestep pre post S) as (Dp & _). destruct (DetectRun_Proofs.sr_multiples lp tp tiny secs k tr ucf l tab stations starttime timestep pre post S) as (a & b & m & Ea & Eb & Em & Ha & Hb & Hm & _).
  eapply clear_less; [apply both_settle_le; [exact Hf|eapply span_samples; eauto; lia]|]. exact (C142_pads_leave_room lp tp tiny secs k tr ucf l tab stations starttime timestep pre post ttmax reach (J + J' + 1) S Ro).
Qed.
Print Assumptions C143_pads_leave_room.
Theorem C143_pads_leave_room_for_events :
  forall lowpass taper tiny secs k l tab stations mw pre post ttmax reach J J' f,
  locate_ready lowpass taper tiny secs k l tab stations mw pre post -> room secs k (4 * mw) ttmax reach (J + J' + 1) -> 0 < f ->
  clear_of_ends secs k (both_settle J J' f ((4 * mw + pre + post) / (secs / o_rate k) + 1)) (time2sample (o_clock secs k) pre) (time2sample (o_clock secs k) post) reach.
Proof.
  intros lp tp tiny secs k l tab stations mw pre post ttmax reach J J' f S Ro Hf.
  destruct (LocateRun_Proofs.lr_delta lp tp tiny secs k l tab stations mw pre post S) as (Dp & _). destruct (LocateRun_Proofs.lr_multiples lp tp tiny secs k l tab stations mw pre post S) as (a & b & m & Ea & Eb & Em & Ha & Hb & Hm & _).
  assert (0 <= (4 * mw + pre + post) / (secs / o_rate k)) by (apply (span_samples _ _ _ _ a b (4 * m)); try assumption; try lia; rewrite Em; ring).
  eapply clear_less; [apply both_settle_le; [exact Hf|lia]|]. exact (C142_pads_leave_room_for_events lp tp tiny secs k l tab stations mw pre post ttmax reach (J + J' + 1) S Ro).
Qed.
Print Assumptions C143_pads_leave_room_for_events.

(** Two scans of the same records at [f] times the output rate, with the low-pass, decimation, detrending, tapers, filter and energy of the code, and any two timesteps. *)
Theorem C143_code_partial :
  forall w lp bp M A E A' E' J J' lowpass taper tiny secs k transform ucf l r0 r1 tab stations f x ids L ttmax reach starttime timestep pre post n read cw fs afs starttime' timestep' pre' post' n' read' cw' fs' afs',
  let c := o_clock secs k in let D := secs / o_rate k in let e := fast_energy_error M A E A' E' in let g := slack e L in
  taper_weights w -> chained w bp k -> (forall z, lowpass (secs / o_rate k / f) z = pre_filter w lp z) -> (forall z, o_transform k z = transform_energy z) -> fading (response (sosfilt lp)) A E J -> (forall ph, In ph (o_phases k) -> calm (response (sosfilt (bp ph))) A' E' J') ->
  (0 < J)%nat -> (0 < J')%nat -> 2 <= f -> (f | D) -> (0 <= M)%R -> (forall i j, In i ids -> (Rabs (x i j) <= M)%R) -> loud secs k ids (fast_energy lp bp J J' f x) L -> (0 <= e < L)%R -> (g < 1)%R ->
  scan_ready lowpass taper tiny secs k transform ucf l tab stations starttime timestep pre post -> scan_ready lowpass taper tiny secs k transform ucf l tab stations starttime' timestep' pre' post' -> regular secs k l tab ids stations reach ->
  room secs k timestep ttmax reach (J + J' + 1) -> room secs k timestep' ttmax reach (J + J' + 1) ->
  0 < n -> (forall i, 0 <= i < n -> let w := step_window c starttime timestep pre post i in reads_fast lowpass tiny secs k f x ids stations read (fst w) (snd w)) ->
  0 < n' -> (forall i, 0 <= i < n' -> let w := step_window c starttime' timestep' pre' post' i in reads_fast lowpass tiny secs k f x ids stations read' (fst w) (snd w)) -> contributing k ids stations <> [] ->
  exists h a h' a', continuous_compute lowpass taper tiny secs k transform ucf l r0 r1 cw read stations fs afs starttime timestep n = Ret (h, a) /\ continuous_compute lowpass taper tiny secs k transform ucf l r0 r1 cw' read' stations fs' afs' starttime' timestep' n' = Ret (h', a')
  /\ forall t, (D | t) -> starttime <= t < starttime + timestep * n -> starttime' <= t < starttime' + timestep' * n' ->
     exists row z row' z', encode_row ucf row = Some z /\ stored c h t z /\ encode_row ucf row' = Some z' /\ stored c h' t z' /\ ((1 - g) * coa row <= (1 + g) * coa row')%R /\ ((1 - g) * coa row' <= (1 + g) * coa row)%R.
Proof.
  intros w lp bp M A E A' E' J J' lowpass tp tiny secs k tr ucf l r0 r1 tab stations f x ids L ttmax reach starttime timestep pre post n read cw fs afs starttime' timestep' pre' post' n' read' cw' fs' afs' c D e g Hw Hk Hl Ho Fa Ca HJ HJ' Hf Fd HM Bx Ld He Hg S S' Rg Ro Ro' Hn Rd Hn' Rd' Ne.
  pose proof (C143_energy_partial lowpass secs k w lp bp f x ids M A E A' E' J J' Hw Hk Hl Ho Fa Ca HJ HJ' ltac:(lia) HM Bx) as Ny.
  apply (C143_timestep_partial lowpass tp tiny secs k tr ucf l r0 r1 tab stations f x f x (fast_energy lp bp J J' f x) ids (both_settle J J' f) e L reach starttime timestep pre post n read cw fs afs starttime' timestep' pre' post' n' read' cw' fs' afs' S S' Rg); try assumption.
  - intros; apply Z.le_max_l.
  - apply (C143_pads_leave_room lowpass tp tiny secs k tr ucf l tab stations starttime timestep pre post ttmax reach J J' f S Ro). lia.
  - apply (C143_pads_leave_room lowpass tp tiny secs k tr ucf l tab stations starttime' timestep' pre' post' ttmax reach J J' f S' Ro'). lia.
Qed.
Print Assumptions C143_code_partial.

(** As [C142_lively]. *)
Theorem C143_lively :
  forall lowpass w lp bp M A E A' E' J J' tiny secs k f x ids d, let n := n_window secs (o_rate k) (d_start d) (d_end d) in let m := both_settle J J' f n in let e := fast_error M A E A' E' in
  taper_weights w -> chained w bp k -> (forall z, lowpass (secs / o_rate k / f) z = pre_filter w lp z) -> (forall z, o_transform k z = transform_energy z) -> fading (response (sosfilt lp)) A E J -> (forall ph, In ph (o_phases k) -> calm (response (sosfilt (bp ph))) A' E' J') ->
  (0 < J)%nat -> (0 < J')%nat -> 0 < f -> (forall i j, In i ids -> (Rabs (x i j) <= M)%R) ->
  2 * m + 1 < n -> (forall ph pc, In ph (o_phases k) -> dget (o_cfg k) ph = Some pc -> m < ltw_samples (o_clock secs k) (ph_lta pc)) ->
  (forall ph pc i t, In ph (o_phases k) -> dget (o_cfg k) ph = Some pc -> In i ids -> let y := both_filters (response (sosfilt lp)) (response (sosfilt (bp ph))) J J' (Z.to_nat f) (x i) in
    (e < Rabs (y t) /\ tiny * IZR (ltw_samples (o_clock secs k) (ph_lta pc)) <= (Rabs (y t) - e) * (Rabs (y t) - e) /\ 2 * e < Rabs (y (t + 1)%Z - y t))%R) ->
  lively tiny secs k (slowed lowpass secs k f x d) ids d.
Proof.
  intros lowpass w lp bp M A E A' E' J J' tiny secs k f x ids d n m e Hw Hk Hl Ho Fa Ca HJ HJ' Hf Bx Hn Hm Hy ph pc i Ip Ec Ii v. assert (Sp : 0 <= m) by apply Z.le_max_l.
  unfold v. rewrite (Hk ph pc _ _ Ip Ec). set (a := d_start d / (secs / o_rate k)). assert (Ew : window_of secs k (slowed lowpass secs k f x d) d i = decimate w lp (Z.to_nat f) (cut (x i) (f * a) (fast_length f n))).
  { assert (Fl : 0 <= fast_length f n) by (unfold fast_length; assert (0 <= f * (n - 1)) by (apply Z.mul_nonneg_nonneg; lia); lia). assert (Lc : Z.of_nat (length (cut (x i) (f * a) (fast_length f n))) = fast_length f n) by (rewrite cut_length by exact Fl; lia).
    rewrite window_slow. fold n. rewrite Hl. exact (thinned_decimate w lp f n (cut (x i) (f * a) (fast_length f n)) Hf ltac:(lia) Lc). }
  rewrite Ew. set (y := pre_filter w (bp ph) (decimate w lp (Z.to_nat f) (cut (x i) (f * a) (fast_length f n)))). set (h := both_filters (response (sosfilt lp)) (response (sosfilt (bp ph))) J J' (Z.to_nat f) (x i)).
  assert (Ly : Z.of_nat (length y) = n) by (unfold y; rewrite chain_length, <- Ew; unfold window_of; rewrite cut_length; fold n; lia).
  assert (Ny : forall t, m <= t < n - m -> (Rabs (Onset_Spec.sample y t - h (a + t)%Z) <= e)%R).
  { intros t Ht. replace t with (a + t - a) at 1 by lia. pose proof (C141_decimated_partial w lp (bp ph) (Z.to_nat f) (x i) M A E A' E' J J' a (fast_length f n) (a + t) Hw Fa (Ca ph Ip) ltac:(lia) HJ HJ' (fun j _ => Bx i j Ii)) as Q. rewrite Z2Nat.id in Q by lia. apply Q. apply room_clear; [exact Hf|]. fold m. lia. }
  specialize (Hm ph pc Ip Ec). set (N := ltw_samples _ _) in *. split.
  - intros (v0 & Hv). rewrite Forall_forall in Hv. assert (G : forall j, 0 <= j < n -> Onset_Spec.sample y j = v0) by (intros j Hj; unfold Onset_Spec.sample; destruct (rd_in_range _ y j) as (u & Eu); [lia|]; rewrite Eu; exact (Hv _ (rd_in _ _ _ _ Eu))).
    pose proof (Ny m ltac:(lia)) as N1. pose proof (Ny (m + 1) ltac:(lia)) as N2. rewrite G in N1, N2 by lia. destruct (Hy ph pc i (a + m) Ip Ec Ii) as (_ & _ & Q). fold h in Q. rewrite Z.add_assoc in N2.
    pose proof (Rabs_triang (h (a + m + 1)%Z - v0) (v0 - h (a + m)%Z)) as T. replace (h (a + m + 1)%Z - v0 + (v0 - h (a + m)%Z))%R with (h (a + m + 1)%Z - h (a + m)%Z)%R in T by ring. rewrite (Rabs_minus_sym (h (a + m + 1)%Z) v0) in T. lra.
  - intros j Hj. rewrite Ho in *. unfold transform_energy in *. rewrite map_length, Ly in Hj. set (s := j - N + 1). set (t := Z.max s m).
    assert (Ht : m <= t < n - m) by (unfold t, s; lia).
    apply Rle_trans with (Onset_Spec.sample (map (fun u => u * u)%R y) t / IZR N)%R; [|apply window_mean_ge; [lia|unfold t, s; lia|intros q _; rewrite (sample_map (fun u => u * u)%R) by ring; apply Rle_0_sqr]].
    rewrite (sample_map (fun u => u * u)%R) by ring. pose proof (Ny t Ht) as Q. destruct (Hy ph pc i (a + t) Ip Ec Ii) as (Q1 & Q2 & _). fold h in Q1, Q2. assert (NP : (0 < IZR N)%R) by (apply IZR_lt; lia).
    apply (Rmult_le_reg_r (IZR N)); [exact NP|]. unfold Rdiv. rewrite Rmult_assoc, Rinv_l, Rmult_1_r by lra. eapply Rle_trans; [exact Q2|].
    assert (B : (Rabs (h (a + t)%Z) - e <= Rabs (Onset_Spec.sample y t))%R). { pose proof (Rabs_triang (h (a + t)%Z - Onset_Spec.sample y t) (Onset_Spec.sample y t)) as T. replace (h (a + t)%Z - Onset_Spec.sample y t + Onset_Spec.sample y t)%R with (h (a + t)%Z) in T by ring. rewrite (Rabs_minus_sym (h (a + t)%Z)) in T. lra. }
    replace (Onset_Spec.sample y t * Onset_Spec.sample y t)%R with (Rabs (Onset_Spec.sample y t) * Rabs (Onset_Spec.sample y t))%R by (rewrite <- Rabs_mult; apply Rabs_pos_eq, Rle_0_sqr). apply Rmult_le_compat; lra.
Qed.
Print Assumptions C143_lively.

(** The records of C134 at twice the rate, each sample twice, and a low-pass that changes nothing. *)
Import Formula_Props.
Definition quick_x (i : string) (j : Z) : R := src_x i (j / 2).
Definition quick_reads (a b : Z) : outcome wdata := Ret (mk_wdata (map (fun i => Avail_Model.mk_seg i a 1000 (cut (quick_x i) (2 * (a / 2000)) (2 * ((b - a) / 2000) + 1))) src_ids) src_stations false None a b).
Lemma quick_sample i b n j : 0 <= j < n -> Onset_Spec.sample (cut (quick_x i) (2 * b) (fast_length 2 n)) (2 * j) = src_x i (b + j).
Proof. intros Hj. unfold Onset_Spec.sample, cut, fast_length. rewrite rd_array1 by lia. unfold quick_x. f_equal. replace (2 * b + 2 * j) with ((b + j) * 2) by ring. apply Z.div_mul. lia. Qed.
Lemma quick_thinned i b n : thinned 2 n (cut (quick_x i) (2 * b) (fast_length 2 n)) = cut (src_x i) b n.
Proof. unfold thinned. unfold cut at 2. apply array1_ext. intros j Hj. apply quick_sample. exact Hj. Qed.
Lemma quick_lively d : 2 <= n_window 100000 50 (d_start d) (d_end d) -> lively (1 / 2) 100000 near_set (slowed (fun _ x => x) 100000 near_set 2 quick_x d) src_ids d.
Proof.
  intros Hn ph pc i Ip Ec Ii. assert (E : window_of 100000 near_set (slowed (fun _ x => x) 100000 near_set 2 quick_x d) d i = window_of 100000 near_set src_x d i).
  { unfold window_of, cut. apply array1_ext. intros j Hj. unfold slowed, fast_window. rewrite <- (quick_sample i (d_start d / (100000 / o_rate near_set)) (n_window 100000 (o_rate near_set) (d_start d) (d_end d)) j Hj). f_equal. lia. }
  rewrite E. exact (near_lively d Hn ph pc i Ip Ec Ii).
Qed.
Lemma quick_reads_ok a b : a + 2000 <= b -> reads_fast (fun _ x => x) (1 / 2) 100000 near_set 2 quick_x src_ids src_stations quick_reads a b.
Proof.
  intros Hab. eexists. split; [reflexivity|]. cbn [d_start d_end d_stations d_waveforms]. split; [reflexivity|]. split; [reflexivity|]. split; [reflexivity|]. split.
  - unfold recorded_fast, fast_window, n_window, fast_length. cbn [d_start d_end d_waveforms]. apply map_ext. intros i. f_equal. f_equal. change (100000 / o_rate near_set) with 2000. lia.
  - apply quick_lively. unfold n_window. cbn [d_start d_end]. change (100000 / 50) with 2000. assert (1 <= (b - a) / 2000) by (apply Z.div_le_lower_bound; lia). lia.
Qed.
(** The hypotheses of C143 that are not among those of C134, which [C134_example] meets. *)
Example C143_example :
  let k := near_set in let c := o_clock 100000 k in let D := 100000 / o_rate k in
  2 <= 2 /\ (2 | D) /\ 100000 <= 500000 * (D / 2) /\ nearly_fast (fun _ x => x) 100000 k 2 (fun _ => 0) (21 / 100000)%R quick_x src_ids src_y
  /\ (forall i, 0 <= i < 20 -> let w := step_window c 360000000 100000 102000 200000 i in reads_fast (fun _ x => x) (1 / 2) 100000 k 2 quick_x src_ids src_stations quick_reads (fst w) (snd w))
  /\ (let '(a, b, u, v) := event_window (180500 * D) 100000 102000 200000 None None None in reads_fast (fun _ x => x) (1 / 2) 100000 k 2 quick_x src_ids src_stations quick_reads a b).
Proof.
  intros k c D. split; [lia|]. split; [exists 1000; reflexivity|]. split; [vm_compute; discriminate|]. split.
  - intros ph pc i b n t [<-|[]] Ec Ii Ht. assert (pc = near_phase) by (cbn in Ec; congruence). subst pc. rewrite quick_thinned. apply (near_square src_x i b n t); [lia|apply src_x_cases].
  - split; [|apply quick_reads_ok; vm_compute; discriminate]. intros i Hi w. apply quick_reads_ok. unfold w, step_window. cbn [fst snd]. change (delta c) with 2000. lia.
Qed.
(** The hypotheses of [C143_code_partial]: the band-pass, settings and timesteps of [C142_example]; records at twice the output rate, 2, 2, -2, -2 in turn; the low-pass is the mean of two samples. *)
Definition pair_mean : list section_ := [mk_section (1 / 2) (1 / 2) 0 0 0].
Definition fast_x (i : string) (j : Z) : R := (2 * room_x i (j / 2))%R.
Definition fast_lp (_ : Z) (z : list R) : list R := pre_filter cosine_weights pair_mean z.
Definition fast_reads (a b : Z) : outcome wdata := Ret (mk_wdata [Avail_Model.mk_seg "A.BHZ"%string a 1000 (cut (fast_x "A.BHZ") (2 * (a / 2000)) (2 * ((b - a) / 2000) + 1))] ["A"%string; "B"%string] false None a b).
Lemma pair_zero : forall m j, nth j (section_run (mk_section (1 / 2) (1 / 2) 0 0 0) 0 0 (repeat 0%R m)) 0%R = 0%R.
Proof.
  induction m as [|m IH]; intros j; [destruct j; reflexivity|]. cbn [repeat section_run b0 b1 b2 a1 a2]. destruct j as [|j]; [cbn; ring|]. cbn [nth].
  match goal with |- nth j (section_run _ ?p ?q _) _ = _ => replace p with 0%R by ring; replace q with 0%R by ring end. apply IH.
Qed.
Lemma pair_response : (response (sosfilt pair_mean) 0 = 1 / 2 /\ response (sosfilt pair_mean) 1 = 1 / 2 /\ forall j, response (sosfilt pair_mean) (S (S j)) = 0)%R.
Proof.
  unfold response, pair_mean, sosfilt. cbn [fold_left]. split; [cbn; field|]. split; [cbn; field|]. intros j. change (repeat 0%R (S (S j))) with (0%R :: repeat 0%R (S j)). cbn [section_run b0 b1 b2 a1 a2 nth].
  match goal with |- nth j (section_run _ ?p ?q _) _ = _ => replace p with 0%R by ring; replace q with 0%R by ring end. apply pair_zero.
Qed.
Lemma pair_fading : fading (response (sosfilt pair_mean)) 1 0 2.
Proof.
  destruct pair_response as (R0 & R1 & R2). set (h := response (sosfilt pair_mean)) in *. split.
  - assert (Q : forall N, total (S (S N)) (fun j => Rabs (h j)) = 1%R).
    { induction N as [|N IH]; [cbn [total]; rewrite R0, R1, Rabs_pos_eq; lra|]. change (total (S (S (S N))) (fun j => Rabs (h j))) with (total (S (S N)) (fun j => Rabs (h j)) + Rabs (h (S (S N))))%R. rewrite IH, R2, Rabs_R0. ring. }
    intros [|[|N]]; [cbn; lra|cbn [total]; rewrite R0, Rabs_pos_eq; lra|rewrite Q; lra].
  - intros N. rewrite (total_ext N _ (fun _ => (0 * 0)%R)); [|intros j _; cbn [Nat.add]; rewrite R2, Rabs_R0; ring]. rewrite total_scal. lra.
Qed.
Lemma fast_pair s t : two_sided (response (sosfilt pair_mean)) 2 (fast_x s) (Z.of_nat 2 * t) = room_x s t.
Proof.
  destruct pair_response as (R0 & R1 & _). unfold two_sided. cbn [total]. rewrite R0, R1. unfold fast_x. change (Z.of_nat 0) with 0. change (Z.of_nat 1) with 1. change (Z.of_nat 2) with 2.
  replace ((2 * t + 0 - 0) / 2) with t by (rewrite Z.add_0_r, Z.sub_0_r, Z.mul_comm, Z.div_mul; lia). replace ((2 * t + 1 - 1) / 2) with t by (rewrite Z.add_simpl_r, Z.mul_comm, Z.div_mul; lia).
  replace ((2 * t + 1 - 0) / 2) with t by (apply (Z.div_unique _ _ _ 1); lia). replace ((2 * t + 0 - 1) / 2) with (t - 1) by (apply (Z.div_unique _ _ _ 1); lia).
  assert (P : room_x s (t - 1) = (- room_x s t)%R) by (unfold room_x; rewrite Z.even_sub; destruct (Z.even t); cbn; ring). rewrite P. field.
Qed.
Lemma fast_both s t : both_filters (response (sosfilt pair_mean)) (response (sosfilt ex_sos)) 2 60 (Z.to_nat 2) (fast_x s) t = two_sided (response (sosfilt ex_sos)) 60 (room_x s) t.
Proof. unfold both_filters. unfold two_sided at 1. unfold two_sided at 2. apply total_ext. intros i _. f_equal. apply total_ext. intros j _. f_equal. change (Z.to_nat 2) with 2%nat. apply fast_pair. Qed.
Lemma fast_bound i j : (Rabs (fast_x i j) <= 2)%R.
Proof. unfold fast_x. rewrite Rabs_mult, (Rabs_pos_eq 2) by lra. pose proof (room_bound i (j / 2)). lra. Qed.
Lemma fast_leftover : let e := fast_error 2 1 0 6 (leftover 3 (1 / 2) 60) in (0 <= e <= 1 / 10 ^ 10)%R.
Proof.
  pose proof room_leftover as L. unfold fast_error. set (E := leftover 3 (1 / 2) 60) in *. assert (0 <= E * E <= 1 / 10 ^ 14 * 1)%R by (split; [apply Rmult_le_pos; lra|apply Rmult_le_compat; lra]). cbv zeta. replace (4 * 2 * 1 * 1 * E * E)%R with (8 * (E * E))%R by ring. lra.
Qed.
Lemma fast_lively d : 300 <= n_window 100000 50 (d_start d) (d_end d) <= 700 -> lively (1 / 4) 100000 room_set (slowed fast_lp 100000 room_set 2 fast_x d) ["A.BHZ"%string] d.
Proof.
  intros Hn. pose proof fast_leftover as E0. cbv zeta in E0. pose proof (both_settle_le 2 60 2 (n_window 100000 50 (d_start d) (d_end d)) ltac:(lia) ltac:(lia)) as Bs. unfold settling in Bs. change (Z.of_nat (2 + 60 + 1)) with 63 in Bs.
  assert (n_window 100000 50 (d_start d) (d_end d) / 20 <= 35) by (apply Z.div_le_upper_bound; lia).
  apply (C143_lively fast_lp cosine_weights pair_mean (fun _ => ex_sos) 2 1 0 6 (leftover 3 (1 / 2) 60) 2 60 (1 / 4)).
  - exact C138_cosine.
  - exact room_chained.
  - reflexivity.
  - reflexivity.
  - exact pair_fading.
  - intros ph _. apply C138_applies.
  - lia.
  - lia.
  - lia.
  - intros i j _. apply fast_bound.
  - change (o_rate room_set) with 50. lia.
  - intros ph pc [<-|[]] Ec. assert (pc = room_phase) by (cbn in Ec; congruence). subst pc. change (ltw_samples _ _) with 101. change (o_rate room_set) with 50. lia.
  - intros ph pc i t [<-|[]] Ec _ y. assert (pc = room_phase) by (cbn in Ec; congruence). subst pc. change (ltw_samples _ _) with 101. unfold y. rewrite !fast_both, !room_two_sided. pose proof (room_gain_bounds 58) as G. set (g := room_gain 60) in *.
    assert (G2 : (25 / 4 <= g * g <= 9)%R) by (split; [replace (25 / 4)%R with (5 / 2 * (5 / 2))%R by field|replace 9%R with (3 * 3)%R by ring]; apply Rmult_le_compat; lra).
    assert (Nx : room_x i (t + 1) = (- room_x i t)%R) by (unfold room_x; change (t + 1) with (Z.succ t); rewrite Z.even_succ, <- Z.negb_even; destruct (Z.even t); cbn [negb]; lra). rewrite Nx. set (e := fast_error 2 1 0 6 (leftover 3 (1 / 2) 60)) in *. assert (He : (0 <= e <= 1 / 100)%R) by lra.
    assert (Ax : Rabs (room_x i t) = 1%R) by (unfold room_x; destruct (Z.even t); [apply Rabs_R1|rewrite Rabs_left; lra]).
    replace (- room_x i t * (g * g) - room_x i t * (g * g))%R with (room_x i t * (- (2 * (g * g))))%R by ring. rewrite !Rabs_mult, Ax, Rabs_Ropp, !Rmult_1_l. rewrite Rabs_mult, <- Rabs_mult, (Rabs_pos_eq (g * g)) by lra. rewrite (Rabs_pos_eq 2) by lra. split; [lra|]. split; [|lra].
    apply Rle_trans with (6 * 6)%R; [lra|]. apply Rmult_le_compat; lra.
Qed.
Lemma fast_reads_ok a b : 299 * 2000 <= b - a < 699 * 2000 -> reads_fast fast_lp (1 / 4) 100000 room_set 2 fast_x ["A.BHZ"%string] ["A"%string; "B"%string] fast_reads a b.
Proof.
  intros H. eexists. split; [reflexivity|]. cbn [d_start d_end d_stations d_waveforms]. split; [reflexivity|]. split; [reflexivity|]. split; [reflexivity|]. split.
  - unfold recorded_fast, fast_window, n_window, fast_length. cbn [d_start d_end d_waveforms map]. change (100000 / o_rate room_set) with 2000. do 3 f_equal. lia.
  - apply fast_lively. unfold n_window. cbn [d_start d_end]. change (100000 / 50) with 2000. assert (299 <= (b - a) / 2000) by (apply Z.div_le_lower_bound; lia). assert ((b - a) / 2000 < 699) by (apply Z.div_lt_upper_bound; lia). lia.
Qed.
Lemma fast_ready ts pre post : scan_ready (fun _ x => x) (fun x => x) (1 / 4) 100000 room_set (fun _ _ x => x) 1 Compute_Props.ex_lut Compute_Props.ex_tab ["A"%string; "B"%string] 360000000 ts pre post ->
  scan_ready fast_lp (fun x => x) (1 / 4) 100000 room_set (fun _ _ x => x) 1 Compute_Props.ex_lut Compute_Props.ex_tab ["A"%string; "B"%string] 360000000 ts pre post.
Proof. intros S. destruct S. constructor; try assumption. intros dd z. apply chain_length. Qed.
Example C143_code_example :
  let c := o_clock 100000 room_set in let st := ["A"%string; "B"%string] in let ids := ["A.BHZ"%string] in let E := leftover 3 (1 / 2) 60 in let e := fast_energy_error 2 1 0 6 E in
  taper_weights cosine_weights /\ chained cosine_weights (fun _ => ex_sos) room_set /\ (forall z, fast_lp (100000 / o_rate room_set / 2) z = pre_filter cosine_weights pair_mean z) /\ (forall z, o_transform room_set z = transform_energy z)
  /\ fading (response (sosfilt pair_mean)) 1 0 2 /\ (forall ph, In ph (o_phases room_set) -> calm (response (sosfilt ex_sos)) 6 E 60) /\ (2 | 100000 / o_rate room_set) /\ (forall i j, In i ids -> (Rabs (fast_x i j) <= 2)%R)
  /\ loud 100000 room_set ids (fast_energy pair_mean (fun _ => ex_sos) 2 60 2 fast_x) 39 /\ (0 <= e < 39)%R /\ (slack e 39 < 1 / 1000000)%R
  /\ scan_ready fast_lp (fun x => x) (1 / 4) 100000 room_set (fun _ _ x => x) 1 Compute_Props.ex_lut Compute_Props.ex_tab st 360000000 100000 450000 600000
  /\ scan_ready fast_lp (fun x => x) (1 / 4) 100000 room_set (fun _ _ x => x) 1 Compute_Props.ex_lut Compute_Props.ex_tab st 360000000 200000 450000 600000
  /\ regular 100000 room_set Compute_Props.ex_lut Compute_Props.ex_tab ids st 50 /\ room 100000 room_set 100000 100000 50 (2 + 60 + 1) /\ room 100000 room_set 200000 100000 50 (2 + 60 + 1)
  /\ (forall i, 0 <= i < 20 -> let w := step_window c 360000000 100000 450000 600000 i in reads_fast fast_lp (1 / 4) 100000 room_set 2 fast_x ids st fast_reads (fst w) (snd w))
  /\ (forall i, 0 <= i < 10 -> let w := step_window c 360000000 200000 450000 600000 i in reads_fast fast_lp (1 / 4) 100000 room_set 2 fast_x ids st fast_reads (fst w) (snd w))
  /\ contributing room_set ids st <> [].
Proof.
  intros c st ids E e. pose proof fast_leftover as E0. cbv zeta in E0. fold E in E0. assert (He : (0 <= e <= 145 / 10 ^ 10)%R).
  { unfold e, fast_energy_error. split; [apply Rmult_le_pos; lra|]. apply Rle_trans with (1 / 10 ^ 10 * 145)%R; [apply Rmult_le_compat; lra|lra]. }
  destruct C142_example as (X1 & X2 & X3 & _ & X5 & _ & _ & X8 & X9 & X10 & _ & _ & _ & _ & X15).
  split; [exact X1|]. split; [exact X2|]. split; [reflexivity|]. split; [reflexivity|]. split; [exact pair_fading|]. split; [exact X3|]. split; [exists 1000; reflexivity|]. split; [intros; apply fast_bound|]. split.
  { intros ph pc i t Ip Ec Ii. destruct (X5 ph pc i t Ip Ec Ii) as (Y1 & Y2). assert (Q : forall u, fast_energy pair_mean (fun _ => ex_sos) 2 60 2 fast_x ph i u = clean_energy (fun _ => ex_sos) 60 room_x ph i u) by (intros u; unfold fast_energy, clean_energy; cbv zeta; rewrite fast_both; reflexivity).
    rewrite Q. split; [exact Y1|]. unfold window_mean in *. rewrite (map_ext _ _ Q). exact Y2. }
  split; [lra|]. split.
  { unfold slack. assert (e / (39 - e) <= 1 / 10 ^ 9)%R; [|lra]. apply (Rmult_le_reg_r (39 - e)); [lra|]. unfold Rdiv at 1. rewrite Rmult_assoc, Rinv_l, Rmult_1_r by lra. apply Rle_trans with (1 / 10 ^ 9 * 38)%R; [lra|apply Rmult_le_compat_l; lra]. }
  split; [apply fast_ready, X8|]. split; [apply fast_ready, X9|]. split; [exact X10|]. split; [|split; [|split; [|split]]].
  - constructor; try (vm_compute; discriminate); try reflexivity; [constructor; [cbn; lia|constructor]| |]; (exists (50000, 200000); split; [left; reflexivity|vm_compute; discriminate]).
  - constructor; try (vm_compute; discriminate); try reflexivity; [constructor; [cbn; lia|constructor]| |]; (exists (50000, 200000); split; [left; reflexivity|vm_compute; discriminate]).
  - intros i Hi w. apply fast_reads_ok. unfold w, step_window. cbn [fst snd]. change (delta c) with 2000. lia.
  - intros i Hi w. apply fast_reads_ok. unfold w, step_window. cbn [fst snd]. change (delta c) with 2000. lia.
  - exact X15.
Qed.
(** The hypotheses of the theorems about the pads of an event, here and in C142. *)
Example C143_event_room :
  locate_ready fast_lp (fun x => x) (1 / 4) 100000 room_set Compute_Props.ex_lut Compute_Props.ex_tab ["A"%string; "B"%string] 100000 450000 600000 /\ room 100000 room_set (4 * 100000) 100000 50 (2 + 60 + 1) /\ both_settle 2 60 2 ((4 * 100000 + 450000 + 600000) / 2000 + 1) = 98.
Proof.
  split; [|split].
  - assert (S : scan_ready fast_lp (fun x => x) (1 / 4) 100000 room_set (fun _ _ x => x) 1 Compute_Props.ex_lut Compute_Props.ex_tab ["A"%string; "B"%string] 360000000 (4 * 100000) 450000 600000) by (apply fast_ready, room_ready; try (vm_compute; congruence); [lia|exists 200; reflexivity]).
    destruct S. constructor; [exact sr_ticks|exact sr_tiny|exact sr_python|exact sr_lowpass|exact sr_taper|exact sr_transform|exact sr_ms|lia|exists 50; reflexivity|exact sr_pre0|exact sr_post0|exact sr_pads| |exact sr_grid|exact sr_nd_phases|exact sr_nd_stations|exact sr_pl_phases|exact sr_pl_stations|exact sr_tables|vm_compute; reflexivity].
    intros ph Ip. destruct (sr_phases ph Ip) as (pc & E1 & (E2 & E3) & E4). exists pc. split; [exact E1|]. split; [|exact E4]. split; [exact E2|lia].
  - constructor; try (vm_compute; discriminate); try reflexivity; [constructor; [cbn; lia|constructor]| |]; (exists (50000, 200000); split; [left; reflexivity|vm_compute; discriminate]).
  - vm_compute. reflexivity.
Qed.

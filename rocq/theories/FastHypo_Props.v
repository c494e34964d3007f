(** C144: the hypocentre and the picks of data recorded at a multiple of the output rate. *)
From Coq Require Import String Ascii.
From Coq Require Import List ZArith Reals QArith Qreals Bool Lia Lra.
From Verif Require Import Lib LibFacts PyDict Timeline_Model Timeline_Spec StaLta_Model ScanMseed_Model ScanMseed_Spec Migrate_Spec Lut_Spec Locate_Model Locate_Spec Resample_Spec Onset_Model Onset_Spec PickRun_Model DetectRun_Model DetectRun_Spec
  LocatePipe_Spec LocateRun_Model LocateRun_Spec Agree_Spec StationSet_Spec Window_Spec Formula_Spec Formula_Proofs Near_Spec Near_Proofs Near_Props Hypo_Spec Hypo_Proofs Hypo_Props Chain_Model Chain_Spec Chain_Proofs Chain_Props Decim_Model Decim_Spec Room_Spec Room_Props Fast_Spec Fast_Proofs Fast_Props.
From Verif Require Lut_Model ScanMseed_Proofs Trigger_Model Trigger_Spec Pipeline_Model Pipeline_Spec LocateRun_Proofs Locate_Props Formula_Props Agree_Proofs Picker_Model.
Import ListNotations.
Open Scope Z_scope.

(** The picks and their SEED ids are those of every [fac]-th sample of the low-passed data: the picks for [d] are those for any data [d'] that are one trace of these samples for each channel, over the same window. *)
Theorem C144_picks :
  forall lowpass taper tiny secs k rat curve_fit pm arr fac x ids d d' otime mw, let D := secs / o_rate k in
  (forall dd z, length (lowpass dd z) = length z) -> 2 <= fac -> 0 < D -> (fac | D) -> d_start d <= d_end d -> recorded_fast secs k fac x ids d ->
  d_stations d' = d_stations d -> d_resample d' = d_resample d -> d_upfactor d' = d_upfactor d -> d_start d' = d_start d -> d_end d' = d_end d -> recorded secs k (slowed lowpass secs k fac x d) ids d' ->
  pick_run lowpass taper tiny secs k rat curve_fit pm arr d otime mw = pick_run lowpass taper tiny secs k rat curve_fit pm arr d' otime mw.
Proof.
  intros lp tp tiny secs k rat cf pm arr fac x ids d d' otime mw D Hlp Hf HD Fd Ho Rc E1 E2 E3 E4 E5 Rc'. unfold pick_run. rewrite (C143_as_if_recorded_slowly lp tp tiny secs k fac x ids d d' (Some (4 * mw)) Hlp Hf HD Fd Ho Rc E1 E2 E3 E4 E5 Rc'). rewrite E4. reflexivity.
Qed.
Print Assumptions C144_picks.

(** The location, as in C135: that of a coalescence within the fraction [slack e L] of the formula, for what the filters make of the record without ends; picking starts from it, on the data that were read. Partial: whole records at one multiple of the output rate, and the settings of C131. *)
Theorem C144_near_partial :
  forall lowpass taper tiny secs k transform l r0 r1 rbf rat curve_fit pm ticks fraction tab stations fac x y ids m e L reach mw pre post read mags pre_cut post_cut trig,
  let c := o_clock secs k in let D := secs / o_rate k in let N := Lut_Model.g_count (Lut_Model.l_grid l) in let F := coalescence_of secs k tab ids stations y in let g := slack e L in
  locate_ready lowpass taper tiny secs k l tab stations mw pre post -> interpolating rbf -> regular secs k l tab ids stations reach -> (forall n, 0 <= m n) -> 2 <= fac -> (fac | D) -> nearly_fast lowpass secs k fac m e x ids y -> loud secs k ids y L -> (0 <= e < L)%R ->
  clear_of_ends secs k (m ((4 * mw + pre + post) / D + 1)) (time2sample c pre) (time2sample c post) reach -> (D | trig) ->
  (let '(a, b, u, v) := event_window trig mw pre post mags pre_cut post_cut in reads_fast lowpass tiny secs k fac x ids stations (fun a b => read a b u v) a b) ->
  let run := locate_event lowpass taper tiny secs k transform l r0 r1 rbf rat curve_fit pm ticks fraction read mw pre post mags pre_cut post_cut trig in
  (contributing k ids stations = [] /\ run = Ret None)
  \/ (contributing k ids stations <> [] /\ exists F' t0 q0, (forall t, trig / D - 2 * (mw / D) <= t <= trig / D + 2 * (mw / D) -> within N g (F t) (F' t))
      /\ first_peak_in N (trig / D - 2 * (mw / D)) (trig / D + 2 * (mw / D)) F' t0 q0
      /\ ((mw <= Z.abs (t0 * D - trig) /\ run = Ret None)
          \/ (Z.abs (t0 * D - trig) < mw /\ exists d ev loc cloc cov unc best,
              run = bind (pick_run lowpass taper tiny secs k rat curve_fit pm (arrivals transform l ticks fraction loc) d (t0 * D) mw) (fun picks => Ret (Some (mk_located ev loc (Some (cloc, cov, unc)) picks)))
              /\ e_otime ev = t0 * D /\ max_coalescence ev = Ret (t0 * D, F' t0 q0, (F' t0 q0 / arithmetic_mean (map (F' t0) (all_nodes N)))%R)
              /\ largest_around N F' t0 (mw / D) best /\ within_two best loc /\ inside (Lut_Model.l_grid l) (frac2grid (Lut_Model.l_grid l) loc) /\ inside (Lut_Model.l_grid l) cloc))).
Proof.
  intros lp tp tiny secs k tr l r0 r1 rbf rat cf pm ticks fr tab stations fac x y ids m e L reach mw pre post read mags c1 c2 trig c D N F g S Hrbf Rg Mp Hfac Fd Ny Ld He Cl Gt Rd run.
  destruct (LocateRun_Proofs.lr_delta _ _ _ _ _ _ _ _ _ _ _ S) as (Dp & _). fold D in Dp. pose proof (lr_lowpass _ _ _ _ _ _ _ _ _ _ _ S) as Hlp.
  destruct (LocateRun_Proofs.lr_multiples lp tp tiny secs k l tab stations mw pre post S) as (pa & pb & qm & Ema & Emb & Emm & Hma & Hmb & Hmq & _).
  destruct (event_window trig mw pre post mags c1 c2) as (((wa, wb), wu), wv) eqn:EW. destruct Rd as (d & Er & Ds & De & Dst & Rc & Lv). cbn beta in Er.
  assert (EW' : wa = trig - 2 * mw - pre /\ wb = trig + 2 * mw + post) by (unfold event_window, locate_window in EW; cbn [fst snd] in EW; split; congruence). destruct EW' as (-> & ->).
  assert (Ho : d_start d <= d_end d). { rewrite Ds, De, Ema, Emb, Emm. assert (0 <= pa * D /\ 0 <= pb * D /\ 0 <= qm * D) by (unfold D; repeat split; apply Z.mul_nonneg_nonneg; lia). fold D. lia. }
  set (d' := slow lp secs k fac x ids d). set (x' := slowed lp secs k fac x d). set (read' := fun _ _ _ _ : Z => Ret d' : outcome wdata).
  assert (PK : forall arr o, pick_run lp tp tiny secs k rat cf pm arr d' o mw = pick_run lp tp tiny secs k rat cf pm arr d o mw) by (intros arr o; symmetry; apply (C144_picks lp tp tiny secs k rat cf pm arr fac x ids d d' o mw Hlp Hfac Dp Fd Ho Rc); reflexivity).
  assert (RUN : run = locate_event lp tp tiny secs k tr l r0 r1 rbf rat cf pm ticks fr read' mw pre post mags c1 c2 trig).
  { unfold run, locate_event. rewrite EW. unfold read'. rewrite Er. cbn [bind]. rewrite (event_slow lp tp tiny secs k fac x ids tr l r0 r1 pre post mw trig d Hlp Hfac Dp Fd Rc Ho). fold d'. destruct (event_compute _ _ _ _ _ _ _ _ _ _ _ _ d' trig) as [ev|ex|]; cbn [bind]; [|reflexivity|reflexivity].
    destruct (in_marginal_window ev); [|reflexivity]. destruct (trim2window ev) as [ev'| |]; cbn [bind]; [|reflexivity|reflexivity]. destruct (calculate_location _ _ _) as [loc| |]; cbn [bind]; [|reflexivity|reflexivity]. rewrite PK. reflexivity. }
  set (nt := (4 * mw + pre + post) / D + 1) in *.
  assert (Nt : n_window secs (o_rate k) (d_start d) (d_end d) = nt) by (unfold n_window, nt; fold D; rewrite Ds, De; do 2 f_equal; lia).
  set (a0 := d_start d / D). set (y' := fun (ph i : string) t => match dget (o_cfg k) ph with Some pc => Onset_Spec.sample (o_transform k (ph_band pc D (window_of secs k x' d i))) (t - a0) | None => 0%R end).
  set (first := time2sample c pre) in *. set (last := time2sample c post) in *.
  assert (Cl0 : clear_of_ends secs k 0 first last reach) by (intros ph pc Ip Ec; destruct (Cl ph pc Ip Ec); pose proof (Mp nt); unfold c in *; lia).
  rewrite RUN.
  destruct (located_one lp tp tiny secs k tr l r0 r1 rbf rat cf pm ticks fr tab stations x' y' ids 0 reach mw pre post read' mags c1 c2 trig d' S Hrbf Gt Rg (Z.le_refl 0)) as [(Z0 & E)|(NZ & t0 & q0 & Pk & R)]; try assumption.
  - intros ph pc i t Ip Ec Ii Ht. unfold y'. rewrite Ec. change (window_of secs k x' d' i) with (window_of secs k x' d i). change (d_start d') with (d_start d). f_equal. unfold a0, D. lia.
  - rewrite EW. reflexivity.
  - reflexivity.
  - left. split; assumption.
  - right. split; [exact NZ|]. exists (coalescence_of secs k tab ids stations y'), t0, q0. split; [|split; [exact Pk|]].
    + intros t Ht q Hq.
      destruct (Agree_Proofs.event_window_ready lp tp tiny secs k l tab x' ids stations mw pre post trig d' S (rg_dots _ _ _ _ _ _ _ Rg) Gt Ds De Dst eq_refl) as (Wr & _ & _). destruct (event_times lp tp tiny secs k l tab stations mw pre post trig d' S Gt Ds De) as (gg & kk & a1 & Hg & Em & Ea & _ & Hk & Ew & Ep & Ta & Es & Ens). change (d_start d') with (d_start d) in Es, Ens. change (d_end d') with (d_end d) in Ens. fold c D in Es, Ens, Ta, Ew, Ep. fold first last in Ens, Ta. rewrite Nt in Ens. assert (Tg : trig / D = gg) by (rewrite Hg; apply Z.div_mul; lia). rewrite Tg, Ew in Ht. fold a0 in Es.
      assert (Hw : forall ph pc, In ph (o_phases k) -> dget (o_cfg k) ph = Some pc -> 0 < stw_samples c (ph_sta pc) <= ltw_samples c (ph_lta pc)).
      { intros ph pc Ip E. destruct (wr_phases _ _ _ _ _ _ _ _ _ _ _ Wr ph Ip) as (pc' & E' & (Hw & _) & _). assert (pc' = pc) by congruence. subst pc'. fold c in Hw. lia. }
      apply (coalescence_close secs k tab ids stations y y' e L He Ld Hw _ q (a0 + m nt) (a0 + nt - m nt) NZ).
      * intros ph pc i u Ip E Ii Hu. unfold y'. rewrite E. unfold x'. rewrite window_slow by assumption. rewrite Nt. unfold fast_window. rewrite Nt. apply (Ny ph pc i a0 nt u Ip E Ii Hu).
      * intros s ph pc I E. pose proof Rg as [T1 T2 T3 T4 T6 T8]. unfold contributing in I. apply filter_In in I. destruct I as (I & En). unfold pairs in I. apply in_flat_map in I. destruct I as (p' & Ip & I). apply in_map_iff in I. destruct I as (s' & X & Is). injection X as -> ->.
        pose proof (T8 s ph q Is Ip Hq) as Rq. unfold arrive. set (a := np_round (entry0 (tab s ph) q * IZR (o_rate k))) in *. assert (A : a <= reach) by (unfold a; rewrite <- (ScanMseed_Proofs.np_round_IZR reach); apply ScanMseed_Proofs.np_round_mono, Rq).
        destruct (Cl ph pc Ip E) as (C1 & C2). fold c. fold c in C1, C2. unfold a0. fold D in Es. lia.
    + destruct R as [R|(Hlt & ev & loc & cloc & cov & unc & best & R1 & R2)]; [left; exact R|right]. split; [exact Hlt|]. exists d, ev, loc, cloc, cov, unc, best. rewrite PK in R1. split; [exact R1|exact R2].
Qed.
Print Assumptions C144_near_partial.

(** A source that stands out in the window, less than a marginal window from the trigger time: if the sum over the marginal windows on both sides of it is larger at its node than at any other, by more than the two can be off, then the origin time is
    that of the source and the location is within two nodes of its node on each axis. *)
Theorem C144_source_partial :
  forall lowpass taper tiny secs k transform l r0 r1 rbf rat curve_fit pm ticks fraction tab stations fac x y ids m e L reach mw pre post read mags pre_cut post_cut trig t0 q0,
  let c := o_clock secs k in let D := secs / o_rate k in let N := Lut_Model.g_count (Lut_Model.l_grid l) in let F := coalescence_of secs k tab ids stations y in let g := slack e L in
  locate_ready lowpass taper tiny secs k l tab stations mw pre post -> interpolating rbf -> regular secs k l tab ids stations reach -> (forall n, 0 <= m n) -> 2 <= fac -> (fac | D) -> nearly_fast lowpass secs k fac m e x ids y -> loud secs k ids y L -> (0 <= e < L)%R ->
  clear_of_ends secs k (m ((4 * mw + pre + post) / D + 1)) (time2sample c pre) (time2sample c post) reach -> (D | trig) ->
  (let '(a, b, u, v) := event_window trig mw pre post mags pre_cut post_cut in reads_fast lowpass tiny secs k fac x ids stations (fun a b => read a b u v) a b) -> contributing k ids stations <> [] ->
  stands_out N g F (fun t => trig - 2 * mw <= t * D <= trig + 2 * mw) t0 q0 -> Z.abs (t0 * D - trig) < mw ->
  (forall q, is_node N q -> q <> q0 -> ((1 + g) * around F t0 (mw / D) q < (1 - g) * around F t0 (mw / D) q0)%R) ->
  let run := locate_event lowpass taper tiny secs k transform l r0 r1 rbf rat curve_fit pm ticks fraction read mw pre post mags pre_cut post_cut trig in
  exists d ev loc cov v vn, run = bind (pick_run lowpass taper tiny secs k rat curve_fit pm (arrivals transform l ticks fraction loc) d (t0 * D) mw) (fun picks => Ret (Some (mk_located ev loc (Some cov) picks)))
  /\ e_otime ev = t0 * D /\ max_coalescence ev = Ret (t0 * D, v, vn) /\ ((1 - g) * F t0 q0 <= v <= (1 + g) * F t0 q0)%R /\ within_two q0 loc /\ inside (Lut_Model.l_grid l) (frac2grid (Lut_Model.l_grid l) loc).
Proof.
  intros lp tp tiny secs k tr l r0 r1 rbf rat cf pm ticks fr tab stations fac x y ids m e L reach mw pre post read mags c1 c2 trig t0 q0 c D N F g S Hrbf Rg Mp Hfac Fd Ny Ld He Cl Gt Rd NZ So Hlt Hs run.
  destruct (C144_near_partial lp tp tiny secs k tr l r0 r1 rbf rat cf pm ticks fr tab stations fac x y ids m e L reach mw pre post read mags c1 c2 trig S Hrbf Rg Mp Hfac Fd Ny Ld He Cl Gt Rd) as [(Z0 & _)|(_ & F' & t' & q' & W & (Bt & Nq' & Hp) & R)]; [contradiction|]. fold D N F g run in W, Hp, Bt, Nq', R.
  destruct (LocateRun_Proofs.lr_multiples _ _ _ _ _ _ _ _ _ _ _ S) as (a & b & kk & _ & _ & Em & _ & _ & Hk & _). destruct (LocateRun_Proofs.lr_delta _ _ _ _ _ _ _ _ _ _ _ S) as (Dp & _). fold D in Em, Dp. destruct Gt as (gg & Hg).
  assert (Ew : mw / D = kk) by (rewrite Em; apply Z.div_mul; lia). assert (Tg : trig / D = gg) by (rewrite Hg; apply Z.div_mul; lia). fold D in Hg. rewrite Ew, Tg in *.
  assert (Hlt' : Z.abs (t0 - gg) < kk). { rewrite Hg, Em in Hlt. replace (t0 * D - gg * D) with ((t0 - gg) * D) in Hlt by ring. rewrite Z.abs_mul, (Z.abs_eq D) in Hlt by lia. apply Z.mul_lt_mono_pos_r in Hlt; lia. }
  assert (Win : forall t, gg - 2 * kk <= t <= gg + 2 * kk -> trig - 2 * mw <= t * D <= trig + 2 * mw).
  { intros t Ht. rewrite Hg, Em. split; [replace (gg * D - 2 * (kk * D)) with ((gg - 2 * kk) * D) by ring|replace (gg * D + 2 * (kk * D)) with ((gg + 2 * kk) * D) by ring]; apply Z.mul_le_mono_nonneg_r; lia. }
  destruct So as (N0 & _ & So). assert (B0 : gg - 2 * kk <= t0 <= gg + 2 * kk) by lia. pose proof (W t0 B0 q0 N0) as W0.
  assert (EQ : (t', q') = (t0, q0)).
  { assert (DQ : t' = t0 /\ q' = q0 \/ (t', q') <> (t0, q0)). { destruct (Z.eq_dec t' t0) as [->|]; [|right; congruence]. assert (DI : {q' = q0} + {q' <> q0}) by (repeat decide equality). destruct DI as [->|]; [left; auto|right; congruence]. }
    destruct DQ as [(-> & ->)|NE]; [reflexivity|exfalso]. pose proof (So t' q' (Win t' Bt) Nq' NE). pose proof (W t' Bt q' Nq'). pose proof (proj1 (Hp t0 q0 B0 N0)). lra. }
  assert (t' = t0) by congruence. assert (q' = q0) by congruence. subst t' q'. destruct R as [(G & _)|(_ & d & ev & loc & cloc & cov & unc & best & Er & O & M & (Nb & Hb) & W2 & I1 & _)]; [lia|].
  assert (Ar : forall q, is_node N q -> ((1 - g) * around F t0 kk q <= around F' t0 kk q <= (1 + g) * around F t0 kk q)%R) by (intros q Hq; apply (around_within N); [exact Hq|]; intros i Hi; apply W; lia).
  assert (best = q0). { assert (DI : {best = q0} + {best <> q0}) by (repeat decide equality). destruct DI as [E|NE]; [exact E|exfalso]. pose proof (Hs best Nb NE). pose proof (Ar best Nb). pose proof (Ar q0 N0). pose proof (Hb q0 N0). lra. }
  subst best. exists d, ev, loc, (cloc, cov, unc), (F' t0 q0), (F' t0 q0 / arithmetic_mean (map (F' t0) (all_nodes N)))%R. split; [exact Er|]. split; [exact O|]. split; [exact M|]. split; [exact W0|]. split; [exact W2|exact I1].
Qed.
Print Assumptions C144_source_partial.

(** With the low-pass, decimation, detrending, tapers, filter and energy of the code, and the pads it computes: the coalescence is that of the energy of the record without ends after both filters. *)
Theorem C144_code_partial :
  forall w lp bp M A E A' E' J J' lowpass taper tiny secs k transform l r0 r1 rbf rat curve_fit pm ticks fraction tab stations fac x ids L ttmax reach mw pre post read mags pre_cut post_cut trig,
  let c := o_clock secs k in let D := secs / o_rate k in let N := Lut_Model.g_count (Lut_Model.l_grid l) in let F := coalescence_of secs k tab ids stations (fast_energy lp bp J J' fac x) in let e := fast_energy_error M A E A' E' in let g := slack e L in
  locate_ready lowpass taper tiny secs k l tab stations mw pre post -> interpolating rbf -> regular secs k l tab ids stations reach -> 2 <= fac -> (fac | D) ->
  taper_weights w -> chained w bp k -> (forall z, lowpass (secs / o_rate k / fac) z = pre_filter w lp z) -> (forall z, o_transform k z = transform_energy z) -> fading (response (sosfilt lp)) A E J -> (forall ph, In ph (o_phases k) -> calm (response (sosfilt (bp ph))) A' E' J') ->
  (0 < J)%nat -> (0 < J')%nat -> (0 <= M)%R -> (forall i j, In i ids -> (Rabs (x i j) <= M)%R) -> loud secs k ids (fast_energy lp bp J J' fac x) L -> (0 <= e < L)%R -> room secs k (4 * mw) ttmax reach (J + J' + 1) -> (D | trig) ->
  (let '(a, b, u, v) := event_window trig mw pre post mags pre_cut post_cut in reads_fast lowpass tiny secs k fac x ids stations (fun a b => read a b u v) a b) ->
  let run := locate_event lowpass taper tiny secs k transform l r0 r1 rbf rat curve_fit pm ticks fraction read mw pre post mags pre_cut post_cut trig in
  (contributing k ids stations = [] /\ run = Ret None)
  \/ (contributing k ids stations <> [] /\ exists F' t0 q0, (forall t, trig / D - 2 * (mw / D) <= t <= trig / D + 2 * (mw / D) -> within N g (F t) (F' t))
      /\ first_peak_in N (trig / D - 2 * (mw / D)) (trig / D + 2 * (mw / D)) F' t0 q0
      /\ ((mw <= Z.abs (t0 * D - trig) /\ run = Ret None)
          \/ (Z.abs (t0 * D - trig) < mw /\ exists d ev loc cloc cov unc best,
              run = bind (pick_run lowpass taper tiny secs k rat curve_fit pm (arrivals transform l ticks fraction loc) d (t0 * D) mw) (fun picks => Ret (Some (mk_located ev loc (Some (cloc, cov, unc)) picks)))
              /\ e_otime ev = t0 * D /\ max_coalescence ev = Ret (t0 * D, F' t0 q0, (F' t0 q0 / arithmetic_mean (map (F' t0) (all_nodes N)))%R)
              /\ largest_around N F' t0 (mw / D) best /\ within_two best loc /\ inside (Lut_Model.l_grid l) (frac2grid (Lut_Model.l_grid l) loc) /\ inside (Lut_Model.l_grid l) cloc))).
Proof.
  intros w lp bp M A E A' E' J J' lowpass tp tiny secs k tr l r0 r1 rbf rat cf pm ticks fr tab stations fac x ids L ttmax reach mw pre post read mags c1 c2 trig c D N F e g S Hrbf Rg Hfac Fd Hw Hk Hl Ho Fa Ca HJ HJ' HM Bx Ld He Ro Gt Rd run.
  pose proof (C143_energy_partial lowpass secs k w lp bp fac x ids M A E A' E' J J' Hw Hk Hl Ho Fa Ca HJ HJ' ltac:(lia) HM Bx) as Ny.
  apply (C144_near_partial lowpass tp tiny secs k tr l r0 r1 rbf rat cf pm ticks fr tab stations fac x (fast_energy lp bp J J' fac x) ids (both_settle J J' fac) e L reach mw pre post read mags c1 c2 trig S Hrbf Rg); try assumption.
  - intros; apply Z.le_max_l.
  - apply (C143_pads_leave_room_for_events lowpass tp tiny secs k l tab stations mw pre post ttmax reach J J' fac S Ro). lia.
Qed.
Print Assumptions C144_code_partial.

(** Scan, trigger and locate: under the conditions of C143 on the scanned time, and that of C144_source_partial on the sums, the source becomes an event at its node and time, and locate gives its time and a place within two nodes of its node. *)
Theorem C144_pipeline_partial :
  forall lowpass taper tiny secs k transform (ucf : Q) l r0 r1 rbf rat curve_fit pm ticks fraction tab stations fac x y ids m e L reach starttime timestep pre post n mw pre' post' read read' mags pre_cut post_cut cw fs afs p s b v0 t0 q0,
  let c := o_clock secs k in let D := secs / o_rate k in let N := Lut_Model.g_count (Lut_Model.l_grid l) in let F := coalescence_of secs k tab ids stations y in let g := slack e L in
  scan_ready lowpass taper tiny secs k transform (Q2R ucf) l tab stations starttime timestep pre post -> locate_ready lowpass taper tiny secs k l tab stations mw pre' post' -> interpolating rbf -> (0 < ucf)%Q ->
  regular secs k l tab ids stations reach -> (forall n, 0 <= m n) -> 2 <= fac -> (fac | D) -> secs <= 500000 * (D / fac) -> nearly_fast lowpass secs k fac m e x ids y -> loud secs k ids y L -> (0 <= e < L)%R ->
  clear_of_ends secs k (m ((timestep + pre + post) / D)) (time2sample c pre) (time2sample c post) reach -> clear_of_ends secs k (m ((4 * mw + pre' + post') / D + 1)) (time2sample c pre') (time2sample c post') reach ->
  0 < n -> (forall i, 0 <= i < n -> let w := step_window c starttime timestep pre post i in reads_fast lowpass tiny secs k fac x ids stations read (fst w) (snd w)) -> contributing k ids stations <> [] ->
  stands_out N g F (fun t => starttime <= t * D < starttime + timestep * n) t0 q0 -> starttime <= t0 * D - 2 * mw -> t0 * D + 2 * mw < starttime + timestep * n ->
  (forall q, is_node N q -> q <> q0 -> ((1 + g) * around F t0 (mw / D) q < (1 - g) * around F t0 (mw / D) q0)%R) ->
  (D | s - Trigger_Model.pad p) -> (D | b + Trigger_Model.pad p) -> (forall d, (s - Trigger_Model.pad p) / (86400 * secs) <= d <= (b + Trigger_Model.pad p) / (86400 * secs) -> fs d = None) ->
  Trigger_Model.threshold_method p = Trigger_Model.Static -> Trigger_Model.normalise_coalescence p = false -> 0 <= Trigger_Model.pad p -> Trigger_Spec.accepts c (s, b) (t0 * D) ->
  (Q2R (Trigger_Model.static_threshold p) + 5 / 1000000 <= Rmin ((1 - g) * F t0 q0) 21474)%R ->
  (forall t q, is_node N q -> starttime <= t * D < starttime + timestep * n -> t <> t0 -> ((1 + g) * F t q + 1 / 100000 < Rmin ((1 - g) * F t0 q0) 21474)%R) ->
  (let '(w0, w1, u, v) := event_window (t0 * D) mw pre' post' mags pre_cut post_cut in reads_fast lowpass tiny secs k fac x ids stations (fun w0 w1 => read' w0 w1 u v) w0 w1) ->
  let run := locate_event lowpass taper tiny secs k transform l r0 r1 rbf rat curve_fit pm ticks fraction read' mw pre' post' mags pre_cut post_cut (t0 * D) in
  exists f a v1 es ev d evt loc cov,
    continuous_compute lowpass taper tiny secs k transform (Q2R ucf) l r0 r1 cw read stations fs afs starttime timestep n = Ret (f, a)
    /\ Trigger_Model.trigger_batch c p (Pipeline_Model.trigger_read c ucf f (Trigger_Model.pad p)) None v0 s b = Ret (v1, es) /\ In ev es
    /\ (exists row, (px row, py row, pz row) = node_coord transform (Lut_Model.l_grid l) q0 /\ Pipeline_Spec.event_at ucf (t0 * D) (Rmin (coa row) 21474) row ev)
    /\ run = bind (pick_run lowpass taper tiny secs k rat curve_fit pm (arrivals transform l ticks fraction loc) d (t0 * D) mw) (fun picks => Ret (Some (mk_located evt loc (Some cov) picks)))
    /\ e_otime evt = t0 * D /\ within_two q0 loc /\ inside (Lut_Model.l_grid l) (frac2grid (Lut_Model.l_grid l) loc).
Proof.
  intros lp tp tiny secs k tr ucf l r0 r1 rbf rat cf pm ticks fr tab stations fac x y ids m e L reach starttime timestep pre post n mw pre' post' read read' mags c1 c2 cw fs afs p s b v0 t0 q0 c D N F g S S' Hrbf Hu Rg Mp Hfac Fd Hrt Ny Ld He Cl Cl' Hn Rd Ne So Hlo Hhi Hs Gs Ge Hold Hm Nn Hp Ha Hth Hbig Hr' run.
  destruct (C143_pipeline_partial lp tp tiny secs k tr ucf l r0 r1 rbf rat cf pm ticks fr tab stations fac x y ids m e L reach starttime timestep pre post n mw pre' post' read read' mags c1 c2 cw fs afs p s b v0 t0 q0 S S' Hrbf Hu Rg Mp Hfac Fd Hrt Ny Ld He Cl Cl' Hn Rd Ne So Hlo Hhi Gs Ge Hold Hm Nn Hp Ha Hth Hbig Hr')
    as (f & a & v1 & es & ev & _ & _ & _ & _ & _ & _ & Ef & Et & Ie & (row & Cr & _ & Ea) & _).
  pose proof (lr_mw _ _ _ _ _ _ _ _ _ _ _ S') as Mw.
  assert (So' : stands_out N g F (fun t => t0 * D - 2 * mw <= t * D <= t0 * D + 2 * mw) t0 q0) by (destruct So as (A1 & A2 & A3); split; [exact A1|]; split; [lia|]; intros t q Ht; apply A3; lia).
  destruct (C144_source_partial lp tp tiny secs k tr l r0 r1 rbf rat cf pm ticks fr tab stations fac x y ids m e L reach mw pre' post' read' mags c1 c2 (t0 * D) t0 q0 S' Hrbf Rg Mp Hfac Fd Ny Ld He Cl' (Z.divide_factor_r D t0) Hr' Ne So' ltac:(rewrite Z.sub_diag; exact Mw) Hs) as (d & evt & loc & cov & v & vn & Er & O & _ & _ & W2 & I1).
  exists f, a, v1, es, ev, d, evt, loc, cov. split; [exact Ef|]. split; [exact Et|]. split; [exact Ie|]. split; [exists row; split; [exact Cr|exact Ea]|]. split; [exact Er|]. split; [exact O|]. split; [exact W2|exact I1].
Qed.
Print Assumptions C144_pipeline_partial.

(** ** An example: the records of C143 at twice the output rate, the source and the marginal window of C135; the low-pass leaves the data as they are. *)
Example C144_example :
  let k := near_set in let c := o_clock 100000 k in let e := (21 / 100000)%R in let L := (5 / 2)%R in let g := slack e L in let F := coalescence_of 100000 k Formula_Props.src_tab Formula_Props.src_ids Formula_Props.src_stations Formula_Props.src_y in let N := Lut_Model.g_count (Lut_Model.l_grid Formula_Props.src_lut) in let D := 100000 / o_rate k in
  (2 | D) /\ 100000 <= 500000 * (D / 2) /\ nearly_fast (fun _ x => x) 100000 k 2 (fun _ => 0) e quick_x Formula_Props.src_ids Formula_Props.src_y /\ (0 <= e < L)%R
  /\ locate_ready (fun _ x => x) (fun x => x) (1 / 2) 100000 k Formula_Props.src_lut Formula_Props.src_tab Formula_Props.src_stations 2000 102000 200000 /\ interpolating Locate_Props.lookup_rbf
  /\ clear_of_ends 100000 k 0 (time2sample c 102000) (time2sample c 200000) 50
  /\ stands_out N g F (fun t => 180500 * D - 2 * 2000 <= t * D <= 180500 * D + 2 * 2000) 180500 (1, 0, 0)
  /\ (forall q, is_node N q -> q <> (1, 0, 0) -> ((1 + g) * around F 180500%Z (2000 / D) q < (1 - g) * around F 180500%Z (2000 / D) (1, 0, 0)%Z)%R)
  /\ (let '(a, b, u, v) := event_window (180500 * D) 2000 102000 200000 None None None in reads_fast (fun _ x => x) (1 / 2) 100000 k 2 quick_x Formula_Props.src_ids Formula_Props.src_stations (fun a b => quick_reads a b) a b).
Proof.
  intros k c e L g F N D. destruct C143_example as (_ & X2 & X3 & X4 & _ & _). destruct C135_example as (Y1 & Y2 & Y3 & Y4 & Y5 & _).
  split; [exact X2|]. split; [exact X3|]. split; [exact X4|]. split; [unfold e, L; lra|]. split; [exact Y1|]. split; [exact Y2|]. split; [exact Y3|]. split; [exact Y4|]. split; [exact Y5|].
  cbn [event_window locate_window fst snd]. apply quick_reads_ok. vm_compute. discriminate.
Qed.
(** The hypotheses of [C144_code_partial]: those of [C143_code_example], and an event with a marginal window of 25 samples. *)
Example C144_code_example :
  let st := ["A"%string; "B"%string] in let ids := ["A.BHZ"%string] in let E := leftover 3 (1 / 2) 60 in let e := fast_energy_error 2 1 0 6 E in
  locate_ready fast_lp (fun x => x) (1 / 4) 100000 room_set Compute_Props.ex_lut Compute_Props.ex_tab st 50000 450000 600000 /\ interpolating Locate_Props.lookup_rbf /\ regular 100000 room_set Compute_Props.ex_lut Compute_Props.ex_tab ids st 50
  /\ taper_weights cosine_weights /\ chained cosine_weights (fun _ => ex_sos) room_set /\ (forall z, fast_lp (100000 / o_rate room_set / 2) z = pre_filter cosine_weights pair_mean z) /\ (forall z, o_transform room_set z = transform_energy z)
  /\ fading (response (sosfilt pair_mean)) 1 0 2 /\ (forall ph, In ph (o_phases room_set) -> calm (response (sosfilt ex_sos)) 6 E 60) /\ (2 | 100000 / o_rate room_set) /\ (forall i j, In i ids -> (Rabs (fast_x i j) <= 2)%R)
  /\ loud 100000 room_set ids (fast_energy pair_mean (fun _ => ex_sos) 2 60 2 fast_x) 39 /\ (0 <= e < 39)%R /\ room 100000 room_set (4 * 50000) 100000 50 (2 + 60 + 1) /\ (100000 / o_rate room_set | 362000000)
  /\ (let '(a, b, u, v) := event_window 362000000 50000 450000 600000 None None None in reads_fast fast_lp (1 / 4) 100000 room_set 2 fast_x ids st (fun a b => fast_reads a b) a b) /\ contributing room_set ids st <> [].
Proof.
  intros st ids E e. destruct C143_code_example as (X1 & X2 & X3 & X4 & X5 & X6 & X7 & X8 & X9 & X10 & _ & _ & S & X14 & _ & X16 & _ & _ & X19).
  split.
  { destruct S. constructor; [exact sr_ticks|exact sr_tiny|exact sr_python|exact sr_lowpass|exact sr_taper|exact sr_transform|exact sr_ms|lia|exists 25; reflexivity|exact sr_pre0|exact sr_post0|exact sr_pads| |exact sr_grid|exact sr_nd_phases|exact sr_nd_stations|exact sr_pl_phases|exact sr_pl_stations|exact sr_tables|vm_compute; reflexivity].
    intros ph Ip. destruct (sr_phases ph Ip) as (pc & E1 & (E2 & E3) & E4). exists pc. split; [exact E1|]. split; [|exact E4]. split; [exact E2|]. destruct Ip as [<-|[]]. assert (pc = room_phase) by (cbn in E1; congruence). subst pc. vm_compute. discriminate. }
  split; [exact Locate_Props.lookup_rbf_ok|]. split; [exact X14|]. split; [exact X1|]. split; [exact X2|]. split; [exact X3|]. split; [exact X4|]. split; [exact X5|]. split; [exact X6|]. split; [exact X7|]. split; [exact X8|]. split; [exact X9|]. split; [exact X10|]. split; [exact X16|]. split; [exists 181000; reflexivity|]. split; [|exact X19].
  cbn [event_window locate_window fst snd]. apply fast_reads_ok. split; vm_compute; congruence.
Qed.

(** C135: the location of an event as a function of the records. *)
From Coq Require Import String Ascii.
From Coq Require Import List ZArith Reals QArith Qreals Bool Lia Lra.
From Verif Require Import Lib LibFacts PyDict Timeline_Model Timeline_Spec StaLta_Model ScanMseed_Model ScanMseed_Spec Migrate_Spec Lut_Spec Locate_Model Locate_Spec Resample_Spec Onset_Model Onset_Spec PickRun_Model DetectRun_Model DetectRun_Spec
  LocatePipe_Spec LocateRun_Model LocateRun_Spec Agree_Spec StationSet_Spec Window_Spec Formula_Spec Formula_Proofs Near_Spec Near_Proofs Near_Props Hypo_Spec Hypo_Proofs.
From Verif Require Lut_Model ScanMseed_Proofs Trigger_Model Trigger_Spec Pipeline_Model Pipeline_Spec LocateRun_Proofs Locate_Props Formula_Props Agree_Proofs.
Import ListNotations.
Open Scope Z_scope.

(** The location of an event, from the coalescence of C131 over the window of four marginal windows: the origin time is the first sample with the largest value, the event is dropped if that is a marginal window or more from the trigger time,
    and the location is within two nodes, on each axis, of the node for which the sum over the marginal windows on both sides of the origin time is largest; the origin time and this location are what the picking starts from.
    Partial: the records and settings of C131. *)
Theorem C135_located_partial :
  forall lowpass taper tiny secs k transform l r0 r1 rbf rat curve_fit pm ticks fraction tab stations x y ids m reach mw pre post read mags pre_cut post_cut trig,
  let c := o_clock secs k in let D := secs / o_rate k in let N := Lut_Model.g_count (Lut_Model.l_grid l) in let F := coalescence_of secs k tab ids stations y in
  locate_ready lowpass taper tiny secs k l tab stations mw pre post -> interpolating rbf -> steady secs k l tab ids stations m reach -> processed secs k m x ids y ->
  clear_of_ends secs k (m ((4 * mw + pre + post) / D + 1)) (time2sample c pre) (time2sample c post) reach -> (D | trig) ->
  (let '(a, b, u, v) := event_window trig mw pre post mags pre_cut post_cut in reads tiny secs k x ids stations (fun a b => read a b u v) a b) ->
  let run := locate_event lowpass taper tiny secs k transform l r0 r1 rbf rat curve_fit pm ticks fraction read mw pre post mags pre_cut post_cut trig in
  (contributing k ids stations = [] /\ run = Ret None)
  \/ (contributing k ids stations <> [] /\ exists t0 q0, first_peak_in N (trig / D - 2 * (mw / D)) (trig / D + 2 * (mw / D)) F t0 q0
      /\ ((mw <= Z.abs (t0 * D - trig) /\ run = Ret None)
          \/ (Z.abs (t0 * D - trig) < mw /\ exists d ev loc cloc cov unc best,
              run = bind (pick_run lowpass taper tiny secs k rat curve_fit pm (arrivals transform l ticks fraction loc) d (t0 * D) mw) (fun picks => Ret (Some (mk_located ev loc (Some (cloc, cov, unc)) picks)))
              /\ e_otime ev = t0 * D /\ max_coalescence ev = Ret (t0 * D, F t0 q0, (F t0 q0 / arithmetic_mean (map (F t0) (all_nodes N)))%R)
              /\ largest_around N F t0 (mw / D) best /\ within_two best loc /\ inside (Lut_Model.l_grid l) (frac2grid (Lut_Model.l_grid l) loc) /\ inside (Lut_Model.l_grid l) cloc))).
Proof.
  intros lp tp tiny secs k tr l r0 r1 rbf rat cf pm ticks fr tab stations x y ids m reach mw pre post read mags c1 c2 trig c D N F S Hrbf St Py Cl Gt Rd run.
  destruct (LocateRun_Proofs.lr_multiples _ _ _ _ _ _ _ _ _ _ _ S) as (a & b & kk & Ea & Eb & Em & _). destruct (LocateRun_Proofs.lr_delta _ _ _ _ _ _ _ _ _ _ _ S) as (Dp & _). fold D in Ea, Eb, Em, Dp.
  unfold event_window, locate_window in Rd. cbn [fst snd] in Rd. set (P := event_pads _ _ _ _ _ _) in Rd. destruct Rd as (d & Er & Ds & De & Dst & Rc & Lv). cbn beta in Er.
  set (nt := (4 * mw + pre + post) / D + 1) in *.
  assert (Nt : n_window secs (o_rate k) (d_start d) (d_end d) = nt) by (unfold n_window, nt; fold D; rewrite Ds, De; do 2 f_equal; lia).
  destruct (located_one lp tp tiny secs k tr l r0 r1 rbf rat cf pm ticks fr tab stations x y ids (m nt) reach mw pre post read mags c1 c2 trig d S Hrbf Gt (steady_regular _ _ _ _ _ _ _ _ St) (ltac:(destruct St as [_ _ _ _ T5 _ _ _]; apply T5))) as [(Z0 & E)|(NZ & t0 & q0 & Pk & R)]; try assumption.
  - intros ph pc i t Ip Ec Ii Ht. rewrite Nt in Ht. unfold window_of. rewrite Nt. fold D. pose proof (Py ph pc i (d_start d / D) nt (d_start d / D + t) Ip Ec Ii ltac:(lia)) as X. fold D in X. replace (d_start d / D + t - d_start d / D) with t in X by lia. exact X.
  - left. split; assumption.
  - right. split; [exact NZ|]. exists t0, q0. split; [exact Pk|]. destruct R as [R|(Hlt & ev & loc & cloc & cov & unc & best & R)]; [left; exact R|right]. split; [exact Hlt|]. exists d, ev, loc, cloc, cov, unc, best. exact R.
Qed.
Print Assumptions C135_located_partial.

(** The same for a processing that depends a little on the window, as in C134: the location is that of a coalescence within the fraction [slack e L] of the formula. *)
Theorem C135_near_partial :
  forall lowpass taper tiny secs k transform l r0 r1 rbf rat curve_fit pm ticks fraction tab stations x y ids m e L reach mw pre post read mags pre_cut post_cut trig,
  let c := o_clock secs k in let D := secs / o_rate k in let N := Lut_Model.g_count (Lut_Model.l_grid l) in let F := coalescence_of secs k tab ids stations y in let g := slack e L in
  locate_ready lowpass taper tiny secs k l tab stations mw pre post -> interpolating rbf -> regular secs k l tab ids stations reach -> (forall n, 0 <= m n) -> nearly secs k m e x ids y -> loud secs k ids y L -> (0 <= e < L)%R ->
  clear_of_ends secs k (m ((4 * mw + pre + post) / D + 1)) (time2sample c pre) (time2sample c post) reach -> (D | trig) ->
  (let '(a, b, u, v) := event_window trig mw pre post mags pre_cut post_cut in reads tiny secs k x ids stations (fun a b => read a b u v) a b) ->
  let run := locate_event lowpass taper tiny secs k transform l r0 r1 rbf rat curve_fit pm ticks fraction read mw pre post mags pre_cut post_cut trig in
  (contributing k ids stations = [] /\ run = Ret None)
  \/ (contributing k ids stations <> [] /\ exists F' t0 q0, (forall t, trig / D - 2 * (mw / D) <= t <= trig / D + 2 * (mw / D) -> within N g (F t) (F' t))
      /\ first_peak_in N (trig / D - 2 * (mw / D)) (trig / D + 2 * (mw / D)) F' t0 q0
      /\ ((mw <= Z.abs (t0 * D - trig) /\ run = Ret None)
          \/ (Z.abs (t0 * D - trig) < mw /\ exists d ev loc cloc cov unc best,
              run = bind (pick_run lowpass taper tiny secs k rat curve_fit pm (arrivals transform l ticks fraction loc) d (t0 * D) mw) (fun picks => Ret (Some (mk_located ev loc (Some (cloc, cov, unc)) picks)))
              /\ e_otime ev = t0 * D /\ max_coalescence ev = Ret (t0 * D, F' t0 q0, (F' t0 q0 / arithmetic_mean (map (F' t0) (all_nodes N)))%R)
              /\ largest_around N F' t0 (mw / D) best /\ within_two best loc /\ inside (Lut_Model.l_grid l) (frac2grid (Lut_Model.l_grid l) loc) /\ inside (Lut_Model.l_grid l) cloc))).
Proof.
  intros lp tp tiny secs k tr l r0 r1 rbf rat cf pm ticks fr tab stations x y ids m e L reach mw pre post read mags c1 c2 trig c D N F g S Hrbf Rg Mp Ny Ld He Cl Gt Rd run.
  destruct (LocateRun_Proofs.lr_delta _ _ _ _ _ _ _ _ _ _ _ S) as (Dp & _). fold D in Dp.
  unfold event_window, locate_window in Rd. cbn [fst snd] in Rd. set (P := event_pads _ _ _ _ _ _) in Rd. destruct Rd as (d & Er & Ds & De & Dst & Rc & Lv). cbn beta in Er.
  set (nt := (4 * mw + pre + post) / D + 1) in *.
  assert (Nt : n_window secs (o_rate k) (d_start d) (d_end d) = nt) by (unfold n_window, nt; fold D; rewrite Ds, De; do 2 f_equal; lia).
  set (a0 := d_start d / D). set (y' := fun (ph i : string) t => match dget (o_cfg k) ph with Some pc => Onset_Spec.sample (o_transform k (ph_band pc D (window_of secs k x d i))) (t - a0) | None => 0%R end).
  set (first := time2sample c pre) in *. set (last := time2sample c post) in *.
  assert (Cl0 : clear_of_ends secs k 0 first last reach) by (intros ph pc Ip Ec; destruct (Cl ph pc Ip Ec); pose proof (Mp nt); unfold c in *; lia).
  destruct (located_one lp tp tiny secs k tr l r0 r1 rbf rat cf pm ticks fr tab stations x y' ids 0 reach mw pre post read mags c1 c2 trig d S Hrbf Gt Rg (Z.le_refl 0)) as [(Z0 & E)|(NZ & t0 & q0 & Pk & R)]; try assumption.
  - intros ph pc i t Ip Ec Ii Ht. unfold y'. rewrite Ec. f_equal. unfold a0, D. lia.
  - left. split; assumption.
  - right. split; [exact NZ|]. exists (coalescence_of secs k tab ids stations y'), t0, q0. split; [|split; [exact Pk|]].
    + intros t Ht q Hq.
      destruct (Agree_Proofs.event_window_ready lp tp tiny secs k l tab x ids stations mw pre post trig d S (rg_dots _ _ _ _ _ _ _ Rg) Gt Ds De Dst Rc) as (Wr & _ & _). destruct (event_times lp tp tiny secs k l tab stations mw pre post trig d S Gt Ds De) as (gg & kk & a1 & Hg & Em & Ea & _ & Hk & Ew & Ep & Ta & Es & Ens). fold c D in Es, Ens, Ta, Ew, Ep. fold first last in Ens, Ta. rewrite Nt in Ens. assert (Tg : trig / D = gg) by (rewrite Hg; apply Z.div_mul; lia). rewrite Tg, Ew in Ht. fold a0 in Es.
      assert (Hw : forall ph pc, In ph (o_phases k) -> dget (o_cfg k) ph = Some pc -> 0 < stw_samples c (ph_sta pc) <= ltw_samples c (ph_lta pc)).
      { intros ph pc Ip E. destruct (wr_phases _ _ _ _ _ _ _ _ _ _ _ Wr ph Ip) as (pc' & E' & (Hw & _) & _). assert (pc' = pc) by congruence. subst pc'. fold c in Hw. lia. }
      apply (coalescence_close secs k tab ids stations y y' e L He Ld Hw _ q (a0 + m nt) (a0 + nt - m nt) NZ).
      * intros ph pc i u Ip E Ii Hu. unfold y'. rewrite E. unfold window_of. rewrite Nt. apply (Ny ph pc i a0 nt u Ip E Ii Hu).
      * intros s ph pc I E. pose proof Rg as [T1 T2 T3 T4 T6 T8]. unfold contributing in I. apply filter_In in I. destruct I as (I & En). unfold pairs in I. apply in_flat_map in I. destruct I as (p' & Ip & I). apply in_map_iff in I. destruct I as (s' & X & Is). injection X as -> ->.
        pose proof (T8 s ph q Is Ip Hq) as Rq. unfold arrive. set (a := np_round (entry0 (tab s ph) q * IZR (o_rate k))) in *. assert (A : a <= reach) by (unfold a; rewrite <- (ScanMseed_Proofs.np_round_IZR reach); apply ScanMseed_Proofs.np_round_mono, Rq).
        destruct (Cl ph pc Ip E) as (C1 & C2). fold c. fold c in C1, C2. unfold a0. fold D in Es. lia.
    + destruct R as [R|(Hlt & ev & loc & cloc & cov & unc & best & R)]; [left; exact R|right]. split; [exact Hlt|]. exists d, ev, loc, cloc, cov, unc, best. exact R.
Qed.
Print Assumptions C135_near_partial.

Lemma around_within n g F F' t0 w q : is_node n q -> (forall i, 0 <= i < 2 * w -> within n g (F (t0 - w + i)) (F' (t0 - w + i))) -> ((1 - g) * around F t0 w q <= around F' t0 w q <= (1 + g) * around F t0 w q)%R.
Proof.
  intros Hq H. unfold around, sum. assert (H' : forall i, In i (zrange (2 * w)) -> ((1 - g) * F (t0 - w + i)%Z q <= F' (t0 - w + i)%Z q <= (1 + g) * F (t0 - w + i)%Z q)%R) by (intros i I; apply in_zrange in I; apply (H i I q Hq)). clear H.
  induction (zrange (2 * w)) as [|i r IH]; cbn [map fold_right]; [lra|]. pose proof (H' i (or_introl eq_refl)). specialize (IH (fun j I => H' j (or_intror I))). rewrite !Rmult_plus_distr_l. lra.
Qed.
(** A source that stands out in the window, less than a marginal window from the trigger time: if the sum over the marginal windows on both sides of it is larger at its node than at any other, by more than the two can be off, then the origin time is
    that of the source and the location is within two nodes of its node on each axis. *)
Theorem C135_source_partial :
  forall lowpass taper tiny secs k transform l r0 r1 rbf rat curve_fit pm ticks fraction tab stations x y ids m e L reach mw pre post read mags pre_cut post_cut trig t0 q0,
  let c := o_clock secs k in let D := secs / o_rate k in let N := Lut_Model.g_count (Lut_Model.l_grid l) in let F := coalescence_of secs k tab ids stations y in let g := slack e L in
  locate_ready lowpass taper tiny secs k l tab stations mw pre post -> interpolating rbf -> regular secs k l tab ids stations reach -> (forall n, 0 <= m n) -> nearly secs k m e x ids y -> loud secs k ids y L -> (0 <= e < L)%R ->
  clear_of_ends secs k (m ((4 * mw + pre + post) / D + 1)) (time2sample c pre) (time2sample c post) reach -> (D | trig) ->
  (let '(a, b, u, v) := event_window trig mw pre post mags pre_cut post_cut in reads tiny secs k x ids stations (fun a b => read a b u v) a b) -> contributing k ids stations <> [] ->
  stands_out N g F (fun t => trig - 2 * mw <= t * D <= trig + 2 * mw) t0 q0 -> Z.abs (t0 * D - trig) < mw ->
  (forall q, is_node N q -> q <> q0 -> ((1 + g) * around F t0 (mw / D) q < (1 - g) * around F t0 (mw / D) q0)%R) ->
  let run := locate_event lowpass taper tiny secs k transform l r0 r1 rbf rat curve_fit pm ticks fraction read mw pre post mags pre_cut post_cut trig in
  exists d ev loc cov v vn, run = bind (pick_run lowpass taper tiny secs k rat curve_fit pm (arrivals transform l ticks fraction loc) d (t0 * D) mw) (fun picks => Ret (Some (mk_located ev loc (Some cov) picks)))
  /\ e_otime ev = t0 * D /\ max_coalescence ev = Ret (t0 * D, v, vn) /\ ((1 - g) * F t0 q0 <= v <= (1 + g) * F t0 q0)%R /\ within_two q0 loc /\ inside (Lut_Model.l_grid l) (frac2grid (Lut_Model.l_grid l) loc).
Proof.
  intros lp tp tiny secs k tr l r0 r1 rbf rat cf pm ticks fr tab stations x y ids m e L reach mw pre post read mags c1 c2 trig t0 q0 c D N F g S Hrbf Rg Mp Ny Ld He Cl Gt Rd NZ So Hlt Hs run.
  destruct (C135_near_partial lp tp tiny secs k tr l r0 r1 rbf rat cf pm ticks fr tab stations x y ids m e L reach mw pre post read mags c1 c2 trig S Hrbf Rg Mp Ny Ld He Cl Gt Rd) as [(Z0 & _)|(_ & F' & t' & q' & W & (Bt & Nq' & Hp) & R)]; [contradiction|]. fold D N F g run in W, Hp, Bt, Nq', R.
  destruct (LocateRun_Proofs.lr_multiples _ _ _ _ _ _ _ _ _ _ _ S) as (a & b & kk & _ & _ & Em & _ & _ & Hk & _). destruct (LocateRun_Proofs.lr_delta _ _ _ _ _ _ _ _ _ _ _ S) as (Dp & _). fold D in Em, Dp. destruct Gt as (gg & Hg).
  assert (Ew : mw / D = kk) by (rewrite Em; apply Z.div_mul; lia). assert (Tg : trig / D = gg) by (rewrite Hg; apply Z.div_mul; lia). fold D in Hg. rewrite Ew, Tg in *.
  assert (Hlt' : Z.abs (t0 - gg) < kk). { rewrite Hg, Em in Hlt. replace (t0 * D - gg * D) with ((t0 - gg) * D) in Hlt by ring. rewrite Z.abs_mul, (Z.abs_eq D) in Hlt by lia. apply Z.mul_lt_mono_pos_r in Hlt; lia. }
  assert (Win : forall t, gg - 2 * kk <= t <= gg + 2 * kk -> trig - 2 * mw <= t * D <= trig + 2 * mw).
  { intros t Ht. rewrite Hg, Em. split; [replace (gg * D - 2 * (kk * D)) with ((gg - 2 * kk) * D) by ring|replace (gg * D + 2 * (kk * D)) with ((gg + 2 * kk) * D) by ring]; apply Z.mul_le_mono_nonneg_r; lia. }
  destruct So as (N0 & _ & So). assert (B0 : gg - 2 * kk <= t0 <= gg + 2 * kk) by lia. pose proof (W t0 B0 q0 N0) as W0.
  assert (EQ : (t', q') = (t0, q0)).
  { assert (DQ : t' = t0 /\ q' = q0 \/ (t', q') <> (t0, q0)). { destruct (Z.eq_dec t' t0) as [->|]; [|right; congruence]. assert (DI : {q' = q0} + {q' <> q0}) by (repeat decide equality). destruct DI as [->|]; [left; auto|right; congruence]. }
    destruct DQ as [(-> & ->)|NE]; [reflexivity|exfalso]. pose proof (So t' q' (Win t' Bt) Nq' NE). pose proof (W t' Bt q' Nq'). pose proof (proj1 (Hp t0 q0 B0 N0)). lra. }
  assert (t' = t0) by congruence. assert (q' = q0) by congruence. subst t' q'. destruct R as [(G & _)|(_ & d & ev & loc & cloc & cov & unc & best & Er & O & M & (Nb & Hb) & W2 & I1 & _)]; [lia|].
  assert (Ar : forall q, is_node N q -> ((1 - g) * around F t0 kk q <= around F' t0 kk q <= (1 + g) * around F t0 kk q)%R) by (intros q Hq; apply (around_within N); [exact Hq|]; intros i Hi; apply W; lia).
  assert (best = q0). { assert (DI : {best = q0} + {best <> q0}) by (repeat decide equality). destruct DI as [E|NE]; [exact E|exfalso]. pose proof (Hs best Nb NE). pose proof (Ar best Nb). pose proof (Ar q0 N0). pose proof (Hb q0 N0). lra. }
  subst best. exists d, ev, loc, (cloc, cov, unc), (F' t0 q0), (F' t0 q0 / arithmetic_mean (map (F' t0) (all_nodes N)))%R. split; [exact Er|]. split; [exact O|]. split; [exact M|]. split; [exact W0|]. split; [exact W2|exact I1].
Qed.
Print Assumptions C135_source_partial.

(** Scan, trigger and locate: under the conditions of C134 on the scanned time, and that of C135 on the sums, the source becomes an event at its node and time, and locate gives its time and a place within two nodes of its node. *)
Theorem C135_pipeline_partial :
  forall lowpass taper tiny secs k transform (ucf : Q) l r0 r1 rbf rat curve_fit pm ticks fraction tab stations x y ids m e L reach starttime timestep pre post n mw pre' post' read read' mags pre_cut post_cut cw fs afs p s b v0 t0 q0,
  let c := o_clock secs k in let D := secs / o_rate k in let N := Lut_Model.g_count (Lut_Model.l_grid l) in let F := coalescence_of secs k tab ids stations y in let g := slack e L in
  scan_ready lowpass taper tiny secs k transform (Q2R ucf) l tab stations starttime timestep pre post -> locate_ready lowpass taper tiny secs k l tab stations mw pre' post' -> interpolating rbf -> (0 < ucf)%Q ->
  regular secs k l tab ids stations reach -> (forall n, 0 <= m n) -> nearly secs k m e x ids y -> loud secs k ids y L -> (0 <= e < L)%R ->
  clear_of_ends secs k (m ((timestep + pre + post) / D)) (time2sample c pre) (time2sample c post) reach -> clear_of_ends secs k (m ((4 * mw + pre' + post') / D + 1)) (time2sample c pre') (time2sample c post') reach ->
  0 < n -> (forall i, 0 <= i < n -> let w := step_window c starttime timestep pre post i in reads tiny secs k x ids stations read (fst w) (snd w)) -> contributing k ids stations <> [] ->
  stands_out N g F (fun t => starttime <= t * D < starttime + timestep * n) t0 q0 -> starttime <= t0 * D - 2 * mw -> t0 * D + 2 * mw < starttime + timestep * n ->
  (forall q, is_node N q -> q <> q0 -> ((1 + g) * around F t0 (mw / D) q < (1 - g) * around F t0 (mw / D) q0)%R) ->
  (D | s - Trigger_Model.pad p) -> (D | b + Trigger_Model.pad p) -> (forall d, (s - Trigger_Model.pad p) / (86400 * secs) <= d <= (b + Trigger_Model.pad p) / (86400 * secs) -> fs d = None) ->
  Trigger_Model.threshold_method p = Trigger_Model.Static -> Trigger_Model.normalise_coalescence p = false -> 0 <= Trigger_Model.pad p -> Trigger_Spec.accepts c (s, b) (t0 * D) ->
  (Q2R (Trigger_Model.static_threshold p) + 5 / 1000000 <= Rmin ((1 - g) * F t0 q0) 21474)%R ->
  (forall t q, is_node N q -> starttime <= t * D < starttime + timestep * n -> t <> t0 -> ((1 + g) * F t q + 1 / 100000 < Rmin ((1 - g) * F t0 q0) 21474)%R) ->
  (let '(w0, w1, u, v) := event_window (t0 * D) mw pre' post' mags pre_cut post_cut in reads tiny secs k x ids stations (fun w0 w1 => read' w0 w1 u v) w0 w1) ->
  let run := locate_event lowpass taper tiny secs k transform l r0 r1 rbf rat curve_fit pm ticks fraction read' mw pre' post' mags pre_cut post_cut (t0 * D) in
  exists f a v1 es ev d evt loc cov,
    continuous_compute lowpass taper tiny secs k transform (Q2R ucf) l r0 r1 cw read stations fs afs starttime timestep n = Ret (f, a)
    /\ Trigger_Model.trigger_batch c p (Pipeline_Model.trigger_read c ucf f (Trigger_Model.pad p)) None v0 s b = Ret (v1, es) /\ In ev es
    /\ (exists row, (px row, py row, pz row) = node_coord transform (Lut_Model.l_grid l) q0 /\ Pipeline_Spec.event_at ucf (t0 * D) (Rmin (coa row) 21474) row ev)
    /\ run = bind (pick_run lowpass taper tiny secs k rat curve_fit pm (arrivals transform l ticks fraction loc) d (t0 * D) mw) (fun picks => Ret (Some (mk_located evt loc (Some cov) picks)))
    /\ e_otime evt = t0 * D /\ within_two q0 loc /\ inside (Lut_Model.l_grid l) (frac2grid (Lut_Model.l_grid l) loc).
Proof.
  intros lp tp tiny secs k tr ucf l r0 r1 rbf rat cf pm ticks fr tab stations x y ids m e L reach starttime timestep pre post n mw pre' post' read read' mags c1 c2 cw fs afs p s b v0 t0 q0 c D N F g S S' Hrbf Hu Rg Mp Ny Ld He Cl Cl' Hn Rd Ne So Hlo Hhi Hs Gs Ge Hold Hm Nn Hp Ha Hth Hbig Hr' run.
  destruct (C134_pipeline_partial lp tp tiny secs k tr ucf l r0 r1 rbf rat cf pm ticks fr tab stations x y ids m e L reach starttime timestep pre post n mw pre' post' read read' mags c1 c2 cw fs afs p s b v0 t0 q0 S S' Hrbf Hu Rg Mp Ny Ld He Cl Cl' Hn Rd Ne So Hlo Hhi Gs Ge Hold Hm Nn Hp Ha Hth Hbig Hr')
    as (f & a & v1 & es & ev & _ & _ & _ & _ & _ & _ & Ef & Et & Ie & (row & Cr & _ & Ea) & _).
  pose proof (lr_mw _ _ _ _ _ _ _ _ _ _ _ S') as Mw.
  assert (So' : stands_out N g F (fun t => t0 * D - 2 * mw <= t * D <= t0 * D + 2 * mw) t0 q0) by (destruct So as (A1 & A2 & A3); split; [exact A1|]; split; [lia|]; intros t q Ht; apply A3; lia).
  destruct (C135_source_partial lp tp tiny secs k tr l r0 r1 rbf rat cf pm ticks fr tab stations x y ids m e L reach mw pre' post' read' mags c1 c2 (t0 * D) t0 q0 S' Hrbf Rg Mp Ny Ld He Cl' (Z.divide_factor_r D t0) Hr' Ne So' ltac:(rewrite Z.sub_diag; exact Mw) Hs) as (d & evt & loc & cov & v & vn & Er & O & _ & _ & W2 & I1).
  exists f, a, v1, es, ev, d, evt, loc, cov. split; [exact Ef|]. split; [exact Et|]. split; [exact Ie|]. split; [exists row; split; [exact Cr|exact Ea]|]. split; [exact Er|]. split; [exact O|]. split; [exact W2|exact I1].
Qed.
Print Assumptions C135_pipeline_partial.

(** ** An example: the source and the stations of C134, where the other hypotheses are shown, and a marginal window of one sample. *)
Example C135_example :
  let k := near_set in let c := o_clock 100000 k in let m (_ : Z) := 0 in let e := (21 / 100000)%R in let L := (5 / 2)%R in let g := slack e L in let F := coalescence_of 100000 k Formula_Props.src_tab Formula_Props.src_ids Formula_Props.src_stations Formula_Props.src_y in let N := Lut_Model.g_count (Lut_Model.l_grid Formula_Props.src_lut) in let D := 100000 / o_rate k in
  locate_ready (fun _ x => x) (fun x => x) (1 / 2) 100000 k Formula_Props.src_lut Formula_Props.src_tab Formula_Props.src_stations 2000 102000 200000 /\ interpolating Locate_Props.lookup_rbf
  /\ clear_of_ends 100000 k (m ((4 * 2000 + 102000 + 200000) / D + 1)) (time2sample c 102000) (time2sample c 200000) 50
  /\ stands_out N g F (fun t => 180500 * D - 2 * 2000 <= t * D <= 180500 * D + 2 * 2000) 180500 (1, 0, 0)
  /\ (forall q, is_node N q -> q <> (1, 0, 0) -> ((1 + g) * around F 180500%Z (2000 / D) q < (1 - g) * around F 180500%Z (2000 / D) (1, 0, 0)%Z)%R)
  /\ (let '(a, b, u, v) := event_window (180500 * D) 2000 102000 200000 None None None in reads (1 / 2) 100000 k Formula_Props.src_x Formula_Props.src_ids Formula_Props.src_stations (fun a b => Formula_Props.src_reads a b) a b).
Proof.
  intros k c m e L g F N D. destruct C134_example as (_ & LR & _ & _ & _ & _ & _ & _ & _ & Cl & _ & _ & _). assert (Gs : (0 <= g <= 1 / 100)%R) by (unfold g, slack, e, L; lra).
  assert (F0 : F 180500 (1, 0, 0) = 40%R) by (unfold F, k; rewrite near_coalescence; apply Formula_Props.src_coalescence; [cbn; lia|reflexivity]).
  assert (F1 : forall t q, is_node N q -> (t, q) <> (180500, (1, 0, 0)) -> (0 <= F t q <= 13)%R).
  { intros t q Hq Ne. unfold F, k. rewrite near_coalescence. destruct (Formula_Props.src_coalescence t q Hq) as (_ & B). split; [|exact (B Ne)]. unfold coalescence_of. left. apply exp_pos. }
  split; [|split; [exact Locate_Props.lookup_rbf_ok|split; [|split; [|split]]]].
  - destruct LR. constructor; try assumption; try lia; try (exists 1; reflexivity); try match goal with |- onset_pad _ _ _ _ = _ => reflexivity | |- _ < 2147483648 => reflexivity end.
    intros ph Ip. destruct (lr_phases ph Ip) as (pc & E & _ & R). exists pc. split; [exact E|]. split; [|exact R]. destruct Ip as [<-|[]]. assert (pc = near_phase) by (cbn in E; congruence). subst pc. vm_compute. repeat split; discriminate.
  - exact Cl.
  - split; [cbn; lia|]. split; [lia|]. intros t q _ Hq Ne. rewrite F0. pose proof (F1 t q Hq Ne). apply Rle_lt_trans with ((1 + g) * 13)%R; [apply Rmult_le_compat_l; lra|lra].
  - intros q Hq Ne. change (2000 / D) with 1. unfold around, sum. cbn [zrange Z.to_nat Pos.to_nat Pos.iter_op]. change (zrange (2 * 1)) with [0; 1]. cbn [map fold_right]. change (180500 - 1 + 0) with 180499. change (180500 - 1 + 1) with 180500. rewrite F0.
    pose proof (F1 180499 q Hq ltac:(congruence)). pose proof (F1 180500 q Hq ltac:(congruence)). pose proof (F1 180499 (1, 0, 0) ltac:(cbn; lia) ltac:(congruence)).
    apply Rle_lt_trans with ((1 + g) * 26)%R; [apply Rmult_le_compat_l; lra|]. apply Rlt_le_trans with ((1 - g) * 40)%R; [lra|apply Rmult_le_compat_l; lra].
  - cbn [event_window locate_window fst snd]. apply near_reads_ok. vm_compute. discriminate.
Qed.

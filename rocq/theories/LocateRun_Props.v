(** C125: locating the events of an archive, from the waveforms to the location and the picks. *)
From Coq Require Import String Ascii.
From Coq Require Import List ZArith Reals QArith Bool Lia Lra.
From Verif Require Import Lib LibFacts PyDict Timeline_Model Timeline_Spec ScanMseed_Model ScanMseed_Spec Migrate_Spec Lut_Model Lut_Spec Locate_Model Locate_Spec Resample_Spec Onset_Model Onset_Spec Compute_Spec
  PickRun_Model DetectRun_Model DetectRun_Spec LocatePipe_Model LocatePipe_Spec Gain_Spec Shift_Spec LocateRun_Model LocateRun_Spec LocateRun_Proofs.
From Verif Require Avail_Model Migrate_Model Picker_Model Lut_Proofs Lut_Props Locate_Proofs Locate_Props Onset_Props Compute_Props PickRun_Props DetectRun_Props Gain_Proofs Gain_Props Shift_Props.
Import ListNotations.
Open Scope Z_scope.

(** The proof of C125_located_partial, with the event before it is trimmed. *)
Lemma located_map :
  forall lowpass taper tiny secs k transform l r0 r1 rbf rat curve_fit m ticks fraction tab stations read mw pre post mags pre_cut post_cut trig,
  locate_ready lowpass taper tiny secs k l tab stations mw pre post -> interpolating rbf -> (secs / o_rate k | trig) ->
  (let '(a, b, p, q) := event_window trig mw pre post mags pre_cut post_cut in answers secs k stations a b (read a b p q)) ->
  let n := g_count (l_grid l) in let w := mw / (secs / o_rate k) in
  let run := locate_event lowpass taper tiny secs k transform l r0 r1 rbf rat curve_fit m ticks fraction read mw pre post mags pre_cut post_cut trig in
  let '(a, b, p, q) := event_window trig mw pre post mags pre_cut post_cut in
  (run = Ret None /\ ((exists e, read a b p q = Raise e /\ no_data e) \/ exists d, read a b p q = Ret d /\ calculate_onsets lowpass taper tiny secs k d None = Raise DataAvailabilityException))
  \/ exists d r (tt : string -> string -> ijk -> Z) s0 q0 ev0, let f s nd := DetectRun_Spec.stacked (l_dict r) (with_onset (l_dict r) (o_phases k) stations) tt (pre / (secs / o_rate k) + s) nd in
     let otime := trig - 2 * mw + s0 * (secs / o_rate k) in
     event_compute lowpass taper tiny secs k transform l r0 r1 pre post mw d trig = Ret ev0 /\ e_otime ev0 = otime /\ max_coalescence ev0 = Ret (otime, f s0 q0, (f s0 q0 / arithmetic_mean (map (f s0) (all_nodes n)))%R) /\
     (exists g, (forall q s, is_node n q -> 0 <= s < 4 * w + 1 -> g (flat n q) s = f s q) /\ e_map ev0 = map (fun s => map (fun node => g node s) (zrange (n_nodes n))) (zrange (4 * w + 1))) /\
     read a b p q = Ret d /\ calculate_onsets lowpass taper tiny secs k d None = Ret r
     /\ (forall s ph nd, (Rabs (IZR (tt s ph nd) - entry0 (tab s ph) nd * IZR (o_rate k)) <= 1 / 2)%R)
     /\ first_peak n (4 * w + 1) f s0 q0
     /\ ((mw <= Z.abs (otime - trig) /\ run = Ret None)
         \/ (Z.abs (otime - trig) < mw /\ exists ev loc cloc cov unc best,
             run = bind (pick_run lowpass taper tiny secs k rat curve_fit m (arrivals transform l ticks fraction loc) d otime mw) (fun picks => Ret (Some (mk_located ev loc (Some (cloc, cov, unc)) picks)))
             /\ e_otime ev = otime /\ max_coalescence ev = Ret (otime, f s0 q0, (f s0 q0 / arithmetic_mean (map (f s0) (all_nodes n)))%R)
             /\ best_sum n f (s0 - w) (2 * w) best /\ within_two best loc /\ inside (l_grid l) (frac2grid (l_grid l) loc) /\ inside (l_grid l) cloc)).
Proof.
  intros lp tp tiny secs k tr l r0 r1 rbf rat cf m ticks fr tab stations read mw pre post mags c1 c2 trig S Hrbf Gt An n w run. unfold run, locate_event. unfold event_window, locate_window in *. cbn [fst snd] in *.
  set (P := event_pads _ _ _ _ _ _) in *. destruct An as [(e & Er & Hn)|(d & Er & Es & Ee & Est & Fu)].
  - left. rewrite Er. cbn [bind]. split; [|left; exists e; auto]. destruct Hn as [-> | [-> | ->]]; reflexivity.
  - rewrite Er. cbn [bind]. rewrite <- Es, <- Ee in Fu.
    destruct (event_ok lp tp tiny secs k tr l r0 r1 tab stations mw pre post S trig d Gt Es Ee Est Fu) as [(E1 & E2)|(r & tt & ev & s0 & q0 & H)].
    + left. rewrite E2. cbn [bind]. split; [reflexivity|]. right. exists d. auto.
    + cbv zeta in H. destruct H as (E1 & Htt & E2 & Pk & Hc & Ht & Hm & Ho & Hdt & Hmc & Fp & f & Hf & Hmap).
      right. exists d, r, tt, s0, q0, ev. cbv zeta. split; [exact E2|]. split; [exact Ho|]. split; [rewrite <- Ho; exact Hmc|]. split; [exists f; split; [exact Hf|exact Hmap]|]. split; [reflexivity|]. split; [exact E1|]. split; [exact Htt|]. split; [exact Pk|]. rewrite E2. cbn [bind]. rewrite <- Ho.
      destruct (Z_lt_dec (Z.abs (e_otime ev - trig)) mw) as [Hlt|Hge].
      * right. split; [exact Hlt|]. assert (Him : in_marginal_window ev = true) by (unfold in_marginal_window; rewrite Ht, Hm, andb_true_iff, !Z.ltb_lt; lia). rewrite Him.
        destruct (lr_multiples _ _ _ _ _ _ _ _ _ _ _ S) as (ka & kb & kk & _ & _ & Em & _ & _ & Hk & _). destruct (lr_delta _ _ _ _ _ _ _ _ _ _ _ S) as (Dp & _).
        assert (Ew : w = kk) by (unfold w; rewrite Em; apply Z.div_mul; lia). pose proof Ew as Ew0. unfold w in Ew. rewrite Ew in Hf, Hmap, Pk. rewrite Em in *. set (D := secs / o_rate k) in *. unfold n. clear n. set (n := g_count (l_grid l)) in *.
        destruct (trimmed (o_clock secs k) f kk (n_nodes n) trig Dp Hk ev s0 Hc Ht Hm Ho Hdt Hmap (proj1 Pk) Hlt) as (ev' & E' & O' & M' & Map').
        rewrite E'. cbn [bind]. rewrite Map', O'. rewrite Ew0.
        pose proof (Lut_Proofs.grid_ok_pos _ (lr_grid _ _ _ _ _ _ _ _ _ _ _ S)) as Hp. fold n in Hp. pose proof (Lut_Proofs.pos3_nodes n Hp) as Np.
        assert (Bs : forall i, 0 <= i < 2 * kk -> 0 <= s0 - kk + i < 4 * kk + 1).
        { intros i Hi. rewrite Ho in Hlt. replace (trig - 2 * (kk * D) + s0 * D - trig) with ((s0 - 2 * kk) * D) in Hlt by ring. rewrite Z.abs_mul, (Z.abs_eq D) in Hlt by lia. apply Z.mul_lt_mono_pos_r in Hlt; lia. }
        set (map4d := map (fun i => map (fun node => f node (s0 - kk + i)) (zrange (n_nodes n))) (zrange (2 * kk))) in *.
        destruct (Locate_Props.C40_locations_inside rbf (l_grid l) map4d Hrbf (lr_grid _ _ _ _ _ _ _ _ _ _ _ S)) as (loc & cloc & cov & unc & p & El & Hnode & Hbest & H2 & Hi & Hci & _).
        { unfold map4d. intros N. apply map_eq_nil in N. apply (f_equal (@length Z)) in N. rewrite zrange_length in N. cbn [length] in N. lia. }
        { apply Forall_forall. intros mm Hin. unfold map4d in Hin. apply in_map_iff in Hin as (i & <- & Ii). apply in_zrange in Ii. split.
          - rewrite map_length, zrange_length. fold n. lia.
          - apply Forall_forall. intros v Hv. apply in_map_iff in Hv as (node & <- & In2). apply in_zrange in In2. destruct (Lut_Proofs.unravel_inv node n Hp In2) as (q & _ & Hq & <-). rewrite (Hf q _ Hq (Bs i Ii)). apply Fp. }
        rewrite El. cbn [bind fst snd]. exists ev', loc, cloc, cov, unc, p. split; [reflexivity|]. split; [exact O'|]. split; [rewrite M'; exact Hmc|]. split; [|split; [exact H2|split; [exact Hi|exact Hci]]].
        split; [exact Hnode|]. intros q Hq. pose proof (Hbest q Hq) as B. fold n in B, Hnode.
        assert (Q : forall q, is_node n q -> Locate_Spec.stacked n map4d q = sum (fun i => DetectRun_Spec.stacked (l_dict r) (with_onset (l_dict r) (o_phases k) stations) tt (pre / D + (s0 - kk + i)%Z) q) (zrange (2 * kk))).
        { intros q' Hq'. unfold Locate_Spec.stacked, map4d, sum. rewrite map_map. f_equal. apply map_ext_in. intros i Ii. apply in_zrange in Ii. unfold at_node, value. pose proof (Lut_Proofs.flat_range n q' Hq'). rewrite rd_map, rd_zrange by lia. cbn [option_map]. apply Hf; [exact Hq'|apply Bs, Ii]. }
        rewrite !Q in B by assumption. exact B.
      * left. split; [lia|]. assert (Him : in_marginal_window ev = false) by (unfold in_marginal_window; rewrite Ht, Hm, andb_false_iff, !Z.ltb_ge; lia). rewrite Him. reflexivity.
Qed.
Lemma located_full :
  forall lowpass taper tiny secs k transform l r0 r1 rbf rat curve_fit m ticks fraction tab stations read mw pre post mags pre_cut post_cut trig,
  locate_ready lowpass taper tiny secs k l tab stations mw pre post -> interpolating rbf -> (secs / o_rate k | trig) ->
  (let '(a, b, p, q) := event_window trig mw pre post mags pre_cut post_cut in answers secs k stations a b (read a b p q)) ->
  let n := g_count (l_grid l) in let w := mw / (secs / o_rate k) in
  let run := locate_event lowpass taper tiny secs k transform l r0 r1 rbf rat curve_fit m ticks fraction read mw pre post mags pre_cut post_cut trig in
  let '(a, b, p, q) := event_window trig mw pre post mags pre_cut post_cut in
  (run = Ret None /\ ((exists e, read a b p q = Raise e /\ no_data e) \/ exists d, read a b p q = Ret d /\ calculate_onsets lowpass taper tiny secs k d None = Raise DataAvailabilityException))
  \/ exists d r (tt : string -> string -> ijk -> Z) s0 q0 ev0, let f s nd := DetectRun_Spec.stacked (l_dict r) (with_onset (l_dict r) (o_phases k) stations) tt (pre / (secs / o_rate k) + s) nd in
     let otime := trig - 2 * mw + s0 * (secs / o_rate k) in
     event_compute lowpass taper tiny secs k transform l r0 r1 pre post mw d trig = Ret ev0 /\ e_otime ev0 = otime /\ max_coalescence ev0 = Ret (otime, f s0 q0, (f s0 q0 / arithmetic_mean (map (f s0) (all_nodes n)))%R) /\
     read a b p q = Ret d /\ calculate_onsets lowpass taper tiny secs k d None = Ret r
     /\ (forall s ph nd, (Rabs (IZR (tt s ph nd) - entry0 (tab s ph) nd * IZR (o_rate k)) <= 1 / 2)%R)
     /\ first_peak n (4 * w + 1) f s0 q0
     /\ ((mw <= Z.abs (otime - trig) /\ run = Ret None)
         \/ (Z.abs (otime - trig) < mw /\ exists ev loc cloc cov unc best,
             run = bind (pick_run lowpass taper tiny secs k rat curve_fit m (arrivals transform l ticks fraction loc) d otime mw) (fun picks => Ret (Some (mk_located ev loc (Some (cloc, cov, unc)) picks)))
             /\ e_otime ev = otime /\ max_coalescence ev = Ret (otime, f s0 q0, (f s0 q0 / arithmetic_mean (map (f s0) (all_nodes n)))%R)
             /\ best_sum n f (s0 - w) (2 * w) best /\ within_two best loc /\ inside (l_grid l) (frac2grid (l_grid l) loc) /\ inside (l_grid l) cloc)).
Proof.
  intros lp tp tiny secs k tr l r0 r1 rbf rat cf m ticks fr tab stations read mw pre post mags c1 c2 trig S Hrbf Gt An n w run. pose proof (located_map lp tp tiny secs k tr l r0 r1 rbf rat cf m ticks fr tab stations read mw pre post mags c1 c2 trig S Hrbf Gt An) as H. cbv zeta in H.
  destruct (event_window trig mw pre post mags c1 c2) as (((a, b), p), q). destruct H as [H|(d & r & tt & s0 & q0 & ev0 & H1 & H2 & H3 & _ & H)]; [left; exact H|right]. exists d, r, tt, s0, q0, ev0. cbv zeta. split; [exact H1|]. split; [exact H2|]. split; [exact H3|]. exact H.
Qed.
(** Partial: real arithmetic in place of floats; see [locate_ready]. A triggered event is skipped if the archive has no data for its window, if no station has usable data, or if the largest coalescence is a
    marginal window or more from the trigger time. Otherwise the origin time is the first time with the largest stack, in the window and at all nodes, of the onset functions moved by the traveltimes of the
    lookup table; the location is within two nodes of the node with the largest sum of the stack over the marginal window; and the picks are made at the arrivals from that location. *)
Theorem C125_located_partial :
  forall lowpass taper tiny secs k transform l r0 r1 rbf rat curve_fit m ticks fraction tab stations read mw pre post mags pre_cut post_cut trig,
  locate_ready lowpass taper tiny secs k l tab stations mw pre post -> interpolating rbf -> (secs / o_rate k | trig) ->
  (let '(a, b, p, q) := event_window trig mw pre post mags pre_cut post_cut in answers secs k stations a b (read a b p q)) ->
  let n := g_count (l_grid l) in let w := mw / (secs / o_rate k) in
  let run := locate_event lowpass taper tiny secs k transform l r0 r1 rbf rat curve_fit m ticks fraction read mw pre post mags pre_cut post_cut trig in
  let '(a, b, p, q) := event_window trig mw pre post mags pre_cut post_cut in
  (run = Ret None /\ ((exists e, read a b p q = Raise e /\ no_data e) \/ exists d, read a b p q = Ret d /\ calculate_onsets lowpass taper tiny secs k d None = Raise DataAvailabilityException))
  \/ exists d r (tt : string -> string -> ijk -> Z) s0 q0, let f s nd := DetectRun_Spec.stacked (l_dict r) (with_onset (l_dict r) (o_phases k) stations) tt (pre / (secs / o_rate k) + s) nd in
     let otime := trig - 2 * mw + s0 * (secs / o_rate k) in
     read a b p q = Ret d /\ calculate_onsets lowpass taper tiny secs k d None = Ret r
     /\ (forall s ph nd, (Rabs (IZR (tt s ph nd) - entry0 (tab s ph) nd * IZR (o_rate k)) <= 1 / 2)%R)
     /\ first_peak n (4 * w + 1) f s0 q0
     /\ ((mw <= Z.abs (otime - trig) /\ run = Ret None)
         \/ (Z.abs (otime - trig) < mw /\ exists ev loc cloc cov unc best,
             run = bind (pick_run lowpass taper tiny secs k rat curve_fit m (arrivals transform l ticks fraction loc) d otime mw) (fun picks => Ret (Some (mk_located ev loc (Some (cloc, cov, unc)) picks)))
             /\ e_otime ev = otime /\ max_coalescence ev = Ret (otime, f s0 q0, (f s0 q0 / arithmetic_mean (map (f s0) (all_nodes n)))%R)
             /\ best_sum n f (s0 - w) (2 * w) best /\ within_two best loc /\ inside (l_grid l) (frac2grid (l_grid l) loc) /\ inside (l_grid l) cloc)).
Proof.
  intros lp tp tiny secs k tr l r0 r1 rbf rat cf m ticks fr tab stations read mw pre post mags c1 c2 trig S Hrbf Gt An n w run. pose proof (located_full lp tp tiny secs k tr l r0 r1 rbf rat cf m ticks fr tab stations read mw pre post mags c1 c2 trig S Hrbf Gt An) as H. cbv zeta in H.
  destruct (event_window trig mw pre post mags c1 c2) as (((a, b), p), q). destruct H as [H|(d & r & tt & s0 & q0 & ev0 & _ & _ & _ & H)]; [left; exact H|right]. exists d, r, tt, s0, q0. exact H.
Qed.
Print Assumptions C125_located_partial.

(** A run that ends normally leaves, for each triggered event, what [C125_located_partial] says of it with the pads for four marginal windows, and nothing else. *)
Theorem C125_files_partial :
  forall lowpass taper tiny secs k transform l r0 r1 rbf rat curve_fit m ticks fraction tab stations read mw pre post mags pre_cut post_cut events fs,
  locate_ready lowpass taper tiny secs k l tab stations mw pre post -> NoDup (map fst events) ->
  let one := locate_event lowpass taper tiny secs k transform l r0 r1 rbf rat curve_fit m ticks fraction read mw pre post mags pre_cut post_cut in
  (forall u t, In (u, t) events -> one t <> Undef) ->
  locate_events lowpass taper tiny secs k transform l r0 r1 rbf rat curve_fit m ticks fraction read mw mags pre_cut post_cut events [] = (fs, None) ->
  (forall uid t w, In (uid, t) events -> (dget fs uid = Some w <-> one t = Ret (Some w))) /\ (forall uid, ~ In uid (map fst events) -> dget fs uid = None).
Proof.
  intros lp tp tiny secs k tr l r0 r1 rbf rat cf m ticks fr tab stations read mw pre post mags c1 c2 events fs S Nd one Nu E. unfold locate_events in E. rewrite (lr_pads _ _ _ _ _ _ _ _ _ _ _ S) in E. cbn [fst snd] in E.
  destruct (Locate_Props.C58_events_independent_partial _ _ _ _ Nd Nu E) as (_ & H). exact H.
Qed.
Print Assumptions C125_files_partial.

(** One pick for each station and phase with an onset function, modelled at the traveltime from the location after the origin time. *)
Theorem C125_pick_rows :
  forall lowpass taper tiny secs k transform l r0 r1 rbf rat curve_fit m ticks fraction read mw pre post mags pre_cut post_cut trig w,
  locate_event lowpass taper tiny secs k transform l r0 r1 rbf rat curve_fit m ticks fraction read mw pre post mags pre_cut post_cut trig = Ret (Some w) ->
  let '(a, b, p, q) := event_window trig mw pre post mags pre_cut post_cut in
  exists d, read a b p q = Ret d /\ NoDup (map (fun x => (Picker_Model.p_station (fst x), Picker_Model.p_phase (fst x))) (lo_picks w))
  /\ (forall st, calculate_onsets lowpass taper tiny secs k d (Some (4 * mw)) = Ret st ->
      forall s ph, In (s, ph) (map (fun x => (Picker_Model.p_station (fst x), Picker_Model.p_phase (fst x))) (lo_picks w)) <-> onset_for (l_dict st) s ph <> None)
  /\ forall x t, In x (lo_picks w) -> lookup l (Picker_Model.p_station (fst x)) (Picker_Model.p_phase (fst x)) = Ret t ->
     Picker_Model.p_model (fst x) = e_otime (lo_event w) + ticks (arrival_traveltime transform (l_grid l) (ravel t) (frac2coord transform (l_grid l) (lo_spline w))).
Proof.
  intros lp tp tiny secs k tr l r0 r1 rbf rat cf m ticks fr read mw pre post mags c1 c2 trig w H. unfold locate_event in H. destruct (event_window trig mw pre post mags c1 c2) as (((a, b), p), q).
  destruct (read a b p q) as [d|e|]; cbn [bind] in H; [|destruct e; discriminate|discriminate]. exists d. split; [reflexivity|].
  destruct (event_compute lp tp tiny secs k tr l r0 r1 pre post mw d trig) as [ev|e|]; cbn [bind] in H; [|destruct e; discriminate|discriminate].
  destruct (in_marginal_window ev); [|discriminate]. destruct (trim2window ev) as [ev'|e|]; cbn [bind] in H; try discriminate. destruct (calculate_location rbf (l_grid l) (e_map ev')) as [loc|e|]; cbn [bind] in H; try discriminate.
  destruct (pick_run lp tp tiny secs k rat cf m _ d (e_otime ev') mw) as [picks|e|] eqn:Ep; cbn [bind] in H; try discriminate. assert (Ew : w = mk_located ev' (fst loc) (snd loc) picks) by congruence. subst w. cbn [lo_picks lo_event lo_spline].
  destruct (PickRun_Props.run_parts _ _ _ _ _ _ _ _ _ _ _ _ _ Ep) as (st & Est & _).
  destruct (PickRun_Props.C121_rows lp tp tiny secs k rat cf m _ d (e_otime ev') mw picks st Ep Est) as (A & B & C).
  split; [exact A|]. split; [intros st' Est'; assert (st' = st) by congruence; subst st'; exact B|].
  intros x t Ix El. rewrite (C x Ix). unfold arrivals. rewrite El. reflexivity.
Qed.
Print Assumptions C125_pick_rows.

Lemma dset_later {V} (P : V -> V -> Prop) u w w' : P w w' -> forall fs fs', Forall2 (fun x y => fst y = fst x /\ P (snd x) (snd y)) fs fs' ->
  Forall2 (fun x y => fst y = fst x /\ P (snd x) (snd y)) (dset fs u w) (dset fs' u w').
Proof.
  intros Hw fs fs' H. induction H as [|[a x] [b y] fs fs' (E & Hx) Hr IH]; cbn [dset].
  - constructor; [split; [reflexivity|exact Hw]|constructor].
  - cbn [fst snd] in E, Hx. subst b. destruct (String.eqb a u); constructor; cbn [fst snd]; auto.
Qed.
(** The same ground motion at another time gives the same locations and picks, at the other time. *)
Theorem C125_shift :
  forall t lowpass taper tiny secs k transform l r0 r1 rbf rat curve_fit m ticks fraction read read' mw mags pre_cut post_cut events,
  (forall x y p q, read' (x + t) (y + t) p q = out_map (later_data t) (read x y p q)) ->
  let run rd evs := locate_events lowpass taper tiny secs k transform l r0 r1 rbf rat curve_fit m ticks fraction rd mw mags pre_cut post_cut evs [] in
  let '(files, err) := run read events in let '(files', err') := run read' (map (fun e => (fst e, snd e + t)) events) in
  err' = err /\ Forall2 (fun x y => fst y = fst x /\ located_later t (snd x) (snd y)) files files'.
Proof.
  intros t lp tp tiny secs k tr l r0 r1 rbf rat cf m ticks fr read read' mw mags c1 c2 events Hr run. unfold run, locate_events. set (pads := onset_pad _ _ _ _).
  assert (G : forall evs fs fs', Forall2 (fun x y => fst y = fst x /\ located_later t (snd x) (snd y)) fs fs' ->
    let '(files, err) := locate_loop (locate_event lp tp tiny secs k tr l r0 r1 rbf rat cf m ticks fr read mw (fst pads) (snd pads) mags c1 c2) evs fs in
    let '(files', err') := locate_loop (locate_event lp tp tiny secs k tr l r0 r1 rbf rat cf m ticks fr read' mw (fst pads) (snd pads) mags c1 c2) (map (fun e => (fst e, snd e + t)) evs) fs' in
    err' = err /\ Forall2 (fun x y => fst y = fst x /\ located_later t (snd x) (snd y)) files files').
  { induction evs as [|(u, tr0) evs IH]; intros fs fs' Hf; cbn [locate_loop map fst snd]; [split; [reflexivity|exact Hf]|].
    pose proof (event_moved lp tp tiny secs k tr l r0 r1 rbf rat cf m ticks fr t read read' mw (fst pads) (snd pads) mags c1 c2 tr0 Hr) as E.
    destruct (locate_event lp tp tiny secs k tr l r0 r1 rbf rat cf m ticks fr read mw (fst pads) (snd pads) mags c1 c2 tr0) as [[w|]|e|],
      (locate_event lp tp tiny secs k tr l r0 r1 rbf rat cf m ticks fr read' mw (fst pads) (snd pads) mags c1 c2 (tr0 + t)) as [[w'|]|e'|]; cbn [out_rel skipped_or] in E; try contradiction.
    - apply IH, dset_later; assumption.
    - apply IH, Hf.
    - subst e'. auto.
    - auto. }
  apply G. constructor.
Qed.
Print Assumptions C125_shift.

(** Partial: see [gain_ok]. Data in other units, channel by channel, give the same events. *)
Theorem C125_gain_partial :
  forall gain lowpass taper tiny secs k transform l r0 r1 rbf rat curve_fit m ticks fraction read read' mw mags pre_cut post_cut events,
  (forall i, gain i <> 0%R) -> (0 < tiny <= 1)%R ->
  (forall x y p q d, read x y p q = Ret d -> Gain_Props.gain_ok gain lowpass tiny secs k d) -> (forall x y p q, read' x y p q = out_map (gained_data gain) (read x y p q)) ->
  locate_events lowpass taper tiny secs k transform l r0 r1 rbf rat curve_fit m ticks fraction read' mw mags pre_cut post_cut events []
  = locate_events lowpass taper tiny secs k transform l r0 r1 rbf rat curve_fit m ticks fraction read mw mags pre_cut post_cut events [].
Proof.
  intros gain lp tp tiny secs k tr l r0 r1 rbf rat cf m ticks fr read read' mw mags c1 c2 events Hg Ht Hok Hr. unfold locate_events. set (pads := onset_pad _ _ _ _).
  assert (E : forall trig, locate_event lp tp tiny secs k tr l r0 r1 rbf rat cf m ticks fr read' mw (fst pads) (snd pads) mags c1 c2 trig = locate_event lp tp tiny secs k tr l r0 r1 rbf rat cf m ticks fr read mw (fst pads) (snd pads) mags c1 c2 trig).
  { intros trig. unfold locate_event. destruct (event_window trig mw (fst pads) (snd pads) mags c1 c2) as (((a, b), p), q). rewrite Hr. destruct (read a b p q) as [d|e|] eqn:Er; cbn [out_map bind]; try reflexivity.
    specialize (Hok a b p q d Er). unfold event_compute. rewrite (Gain_Props.C122_coalescence_partial gain lp tp tiny secs k d r0 l _ _ _ Hg Ht Hok).
    destruct (bind (compute_coalescence lp tp tiny secs k r0 l d _ _ _) _) as [ev|e|]; cbn [bind]; try reflexivity.
    destruct (in_marginal_window ev); [|reflexivity]. destruct (trim2window ev) as [ev'|e|]; cbn [bind]; try reflexivity. destruct (calculate_location rbf (l_grid l) (e_map ev')) as [loc|e|]; cbn [bind]; try reflexivity.
    rewrite (Gain_Props.C122_picks_partial gain lp tp tiny secs k rat cf m _ d _ _ Hg Ht Hok). reflexivity. }
  generalize (@nil (string * located)) as fs. induction events as [|(u, tr0) evs IH]; intros fs; cbn [locate_loop]; [reflexivity|]. rewrite E. destruct (locate_event _ _ _ _ _ _ _ _ _ _ _ _ _ _ _ _ _ _ _ _ _ _ _) as [[w|]|e|]; auto.
Qed.
Print Assumptions C125_gain_partial.

(** An event that can be located: the station of C124_example, an hour after midnight, with a marginal window of a second. *)
Example C125_example :
  locate_ready (fun _ x => x) (fun x => x) (1 / 2) 100000 DetectRun_Props.ex_set Compute_Props.ex_lut Compute_Props.ex_tab ["A"%string; "B"%string] 100000 102000 200000
  /\ (100000 / o_rate DetectRun_Props.ex_set | 360000000)
  /\ let '(a, b, p, q) := event_window 360000000 100000 102000 200000 None None None in answers 100000 DetectRun_Props.ex_set ["A"%string; "B"%string] a b (DetectRun_Props.ex_read a b).
Proof.
  split; [|split].
  - constructor; cbn [DetectRun_Props.ex_set o_rate o_python o_transform o_cfg o_phases o_post o_all Compute_Props.ex_lut Lut_Model.l_grid].
    + repeat split; try lia; [exists 1|exists 2000]; reflexivity.
    + lra.
    + reflexivity.
    + reflexivity.
    + reflexivity.
    + intros x. apply map_length.
    + exists 20. reflexivity.
    + lia.
    + exists 50. reflexivity.
    + discriminate.
    + discriminate.
    + reflexivity.
    + intros ph [<-|[]]. exists Onset_Props.ex_phase. split; [reflexivity|]. split; [vm_compute; repeat split; discriminate|]. split; [reflexivity|]. split; [reflexivity|]. reflexivity.
    + unfold grid_ok. cbn. repeat split; try lra; lia.
    + constructor; [intros []|constructor].
    + constructor; [intros [H|[]]; discriminate|]. constructor; [intros []|constructor].
    + constructor; [exact Lut_Props.plain_P|constructor].
    + constructor; [intros [H|[]]; discriminate|]. constructor; [intros [H|[]]; discriminate|constructor].
    + intros s p Is [<-|[]]. split; [|split].
      * destruct Is as [<-|[<-|[]]]; (eexists; split; [reflexivity|left; reflexivity]).
      * cbn. split; [reflexivity|]. repeat (constructor; [cbn; split; [reflexivity|repeat constructor]|]); constructor.
      * intros ((i, j), h) Hq. cbn in Hq. assert (j = 0) by lia. assert (h = 0) by lia. subst j h. assert (Hi : i = 0 \/ i = 1) by lia. change (200000 / (100000 / 50)) with 100.
        destruct Hi as [->| ->]; match goal with |- context [entry0 ?t ?q] => let v := eval cbv -[IZR] in (entry0 t q) in change (entry0 t q) with v end; lra.
    + vm_compute. reflexivity.
  - exists 180000. reflexivity.
  - cbn [event_window locate_window fst snd]. right. unfold DetectRun_Props.ex_read. eexists. split; [reflexivity|]. cbn [d_start d_end d_stations d_waveforms]. repeat split; try reflexivity. constructor; [|constructor].
    unfold usable, on_own_grid. cbn [Avail_Model.sg_delta Avail_Model.sg_start Avail_Model.sg_data DetectRun_Props.ex_set o_rate]. repeat split; try lia.
    + exists 179849. reflexivity.
    + intros N. apply map_eq_nil in N. apply (f_equal (@length Z)) in N. vm_compute in N. discriminate N.
    + left. reflexivity.
Qed.
(** Those of [C125_files_partial], for an archive without data. *)
Example C125_files_example r0 r1 rbf rat cf m ticks fr :
  let read (_ _ _ _ : Z) : outcome wdata := Raise ArchiveEmpty in
  locate_event (fun _ x => x) (fun x => x) (1 / 2) 100000 DetectRun_Props.ex_set (fun _ _ x => x) Compute_Props.ex_lut r0 r1 rbf rat cf m ticks fr read 100000 102000 200000 None None None 360000000 <> Undef
  /\ locate_events (fun _ x => x) (fun x => x) (1 / 2) 100000 DetectRun_Props.ex_set (fun _ _ x => x) Compute_Props.ex_lut r0 r1 rbf rat cf m ticks fr read 100000 None None None [("a"%string, 360000000)] [] = ([], None).
Proof. split; [discriminate|reflexivity]. Qed.

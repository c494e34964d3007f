(** C129: the scan and the location of the same time see the same coalescence. *)
From Coq Require Import String Ascii.
From Coq Require Import List ZArith Reals QArith Bool Lia Lra.
From Verif Require Import Lib LibFacts PyDict Timeline_Model Timeline_Spec ScanMseed_Model ScanMseed_Spec Migrate_Spec Lut_Spec Locate_Model Locate_Spec Resample_Spec Onset_Model Onset_Spec StationSet_Spec PickRun_Model DetectRun_Model DetectRun_Spec
  Window_Spec Window_Proofs LocatePipe_Spec LocateRun_Model LocateRun_Spec Agree_Spec Agree_Proofs.
From Verif Require Avail_Model Migrate_Model Lut_Model ScanMseed_Proofs Picker_Model DetectRun_Props LocateRun_Props LocateRun_Proofs Window_Props Compute_Props Locate_Props Lut_Props.
Import ListNotations.
Open Scope Z_scope.

(** Locate a triggered event in the archive that was scanned. The scan stores the coalescence of every sample in the window of the event; the event has the very same values at the same times, before they were rounded; its origin time is
    the first of the largest. Without enough data both stages have none: the scan stores zeros, the event is skipped. *)
Theorem C129_located_partial :
  forall lowpass taper tiny secs k transform ucf l r0 r1 rbf rat curve_fit pm ticks fraction tab stations x ids m reach starttime timestep pre post n mw pre' post' trig read read' mags pre_cut post_cut cw fs afs,
  let c := o_clock secs k in let D := secs / o_rate k in
  scan_ready lowpass taper tiny secs k transform ucf l tab stations starttime timestep pre post -> locate_ready lowpass taper tiny secs k l tab stations mw pre' post' -> interpolating rbf ->
  steady secs k l tab ids stations m reach ->
  clear_of_ends secs k (m ((timestep + pre + post) / D)) (time2sample c pre) (time2sample c post) reach -> clear_of_ends secs k (m ((4 * mw + pre' + post') / D + 1)) (time2sample c pre') (time2sample c post') reach ->
  (D | trig) -> 0 < n -> starttime <= trig - 2 * mw -> trig + 2 * mw < starttime + timestep * n ->
  (forall i, 0 <= i < n -> let w := step_window c starttime timestep pre post i in reads tiny secs k x ids stations read (fst w) (snd w)) ->
  (let '(a, b, p, q) := event_window trig mw pre' post' mags pre_cut post_cut in reads tiny secs k x ids stations (fun a b => read' a b p q) a b) ->
  let run := locate_event lowpass taper tiny secs k transform l r0 r1 rbf rat curve_fit pm ticks fraction read' mw pre' post' mags pre_cut post_cut trig in
  exists f a d, continuous_compute lowpass taper tiny secs k transform ucf l r0 r1 cw read stations fs afs starttime timestep n = Ret (f, a)
  /\ (let '(a, b, p, q) := event_window trig mw pre' post' mags pre_cut post_cut in read' a b p q = Ret d)
  /\ ((run = Ret None /\ forall t, (D | t) -> trig - 2 * mw <= t <= trig + 2 * mw -> stored c f t (mk_row 0 0 0 0 0))
     \/ exists ev0 row, event_compute lowpass taper tiny secs k transform l r0 r1 pre' post' mw d trig = Ret ev0
        /\ (forall t, (D | t) -> trig - 2 * mw <= t <= trig + 2 * mw -> exists z, encode_row ucf (row t) = Some z /\ stored c f t z)
        /\ Forall2 (fun t e => same_sample t (row t) e) (mw_times c trig mw) (e_rows ev0)
        /\ first_best D (trig - 2 * mw) (trig + 2 * mw) (fun t => coa (row t)) (e_otime ev0)
        /\ ((mw <= Z.abs (e_otime ev0 - trig) /\ run = Ret None)
            \/ (Z.abs (e_otime ev0 - trig) < mw /\ exists ev loc cov,
                run = bind (pick_run lowpass taper tiny secs k rat curve_fit pm (arrivals transform l ticks fraction loc) d (e_otime ev) mw) (fun picks => Ret (Some (mk_located ev loc (Some cov) picks)))
                /\ e_otime ev = e_otime ev0 /\ max_coalescence ev = Ret (e_otime ev0, coa (row (e_otime ev0)), coa_n (row (e_otime ev0)))))).
Proof.
  intros lp tp tiny secs k tr ucf l r0 r1 rbf rat cf pm ticks fr tab stations x ids m reach starttime timestep pre post n mw pre' post' trig read read' mags c1 c2 cw fs afs c D S S' Hrbf St Cl Cl' Gt Hn Hlo Hhi Hr Hr' run.
  pose proof (LocateRun_Props.located_full lp tp tiny secs k tr l r0 r1 rbf rat cf pm ticks fr tab stations read' mw pre' post' mags c1 c2 trig S' Hrbf Gt) as LF. cbv zeta in LF. fold run in LF.
  unfold event_window, locate_window in *. cbn [fst snd] in *. set (P := event_pads _ _ _ _ _ _) in *. destruct Hr' as (d & Er & Es & Ee & Est & Rc & Lv).
  destruct (both_stages lp tp tiny secs k tr ucf l r0 r1 tab stations x ids m reach starttime timestep pre post n mw pre' post' trig read d S S' St Cl Cl' Gt Es Ee Est Rc Lv Hr Hn Hlo Hhi cw fs afs) as (f & a & Ef & H).
  exists f, a, d. split; [exact Ef|]. split; [exact Er|]. destruct H as [(E0 & Hz)|(ev & row & E0 & Hst & Hrows & Hfb & Hmc)].
  - left. split; [|exact Hz]. unfold run, locate_event. unfold event_window, locate_window. cbn [fst snd]. fold P. rewrite Er. cbn [bind]. rewrite E0. reflexivity.
  - right. exists ev, row. split; [exact E0|]. split; [exact Hst|]. split; [exact Hrows|]. split; [exact Hfb|].
    destruct LF as [(_ & [(e & Ex & _)|(d0 & Ed & Eo)])|H].
    + right. exists d. split; [exact Er|]. split; [exact Es|]. split; [exact Ee|]. split; [exact Est|].
      destruct (event_window_ready lp tp tiny secs k l tab x ids stations mw pre' post' trig d S' (st_dots _ _ _ _ _ _ _ _ St) Gt Es Ee Est Rc) as (Wr & _). pose proof (wr_data _ _ _ _ _ _ _ _ _ _ _ Wr) as U. rewrite Es, Ee in U. exact U.
    + congruence.
    + exfalso. assert (d0 = d) by congruence. subst d0. unfold event_compute, Lut_Model.l_grid in E0. unfold compute_coalescence in E0. rewrite Eo in E0. cbn in E0. discriminate.
    + destruct H as (d0 & r & tt & s0 & q0 & ev0 & H). cbv zeta in H. destruct H as (E1 & O1 & M1 & Ed & _ & _ & _ & H). assert (d0 = d) by congruence. subst d0. assert (ev0 = ev) by congruence. subst ev0. rewrite <- O1 in *. rewrite Hmc in M1.
      destruct H as [(G1 & G2)|(G1 & ev' & loc & cloc & cov & unc & best & Er' & O' & M' & _)]; [left; split; assumption|right]. split; [exact G1|]. exists ev', loc, (cloc, cov, unc). rewrite O'. split; [exact Er'|]. split; [reflexivity|]. rewrite M'. symmetry. exact M1.
Qed.
Print Assumptions C129_located_partial.

Lemma clip_mono a b : (a <= b -> clip_coa a <= clip_coa b)%R.
Proof. unfold clip_coa. intros H. destruct (Rlt_dec 21474 a), (Rlt_dec 21474 b); lra. Qed.
Lemma clip_min a : clip_coa a = Rmin a 21474.
Proof. unfold clip_coa. destruct (Rlt_dec 21474 a); [rewrite Rmin_right|rewrite Rmin_left]; lra. Qed.
Lemma encoded_coa ucf r z : encode_row ucf r = Some z -> coa z = np_round (clip_coa (coa r) * 100000).
Proof.
  unfold encode_row, data2int, int32. destruct (_ && _); [|discriminate]. destruct (_ && _); [|discriminate]. destruct (_ && _); [|discriminate]. destruct (_ && _); [|discriminate]. destruct (_ && _); [|discriminate].
  intros H. inversion H. reflexivity.
Qed.
Lemma encoded_mono ucf r z r' z' : encode_row ucf r = Some z -> encode_row ucf r' = Some z' -> (coa r <= coa r')%R -> coa z <= coa z'.
Proof. intros E E' H. rewrite (encoded_coa _ _ _ E), (encoded_coa _ _ _ E'). apply ScanMseed_Proofs.np_round_mono. apply clip_mono in H. lra. Qed.
Lemma encoded_near ucf r z : encode_row ucf r = Some z -> (Rabs (IZR (coa z) / 100000 - Rmin (coa r) 21474) <= 5 / 1000000)%R.
Proof. intros E. rewrite (encoded_coa _ _ _ E), <- clip_min. eapply Rle_trans; [apply ScanMseed_Proofs.decode_near; lra|lra]. Qed.

(** A triggered time whose stored coalescence is larger than that of every other sample in two marginal windows around it is the origin time of the located event. The event is not skipped, and its coalescence is the stored one, to half of
    its last digit. *)
Theorem C129_origin_partial :
  forall lowpass taper tiny secs k transform ucf l r0 r1 rbf rat curve_fit pm ticks fraction tab stations x ids m reach starttime timestep pre post n mw pre' post' trig read read' mags pre_cut post_cut cw fs afs,
  let c := o_clock secs k in let D := secs / o_rate k in
  scan_ready lowpass taper tiny secs k transform ucf l tab stations starttime timestep pre post -> locate_ready lowpass taper tiny secs k l tab stations mw pre' post' -> interpolating rbf ->
  steady secs k l tab ids stations m reach ->
  clear_of_ends secs k (m ((timestep + pre + post) / D)) (time2sample c pre) (time2sample c post) reach -> clear_of_ends secs k (m ((4 * mw + pre' + post') / D + 1)) (time2sample c pre') (time2sample c post') reach ->
  (D | trig) -> 0 < n -> starttime <= trig - 2 * mw -> trig + 2 * mw < starttime + timestep * n ->
  (forall i, 0 <= i < n -> let w := step_window c starttime timestep pre post i in reads tiny secs k x ids stations read (fst w) (snd w)) ->
  (let '(a, b, p, q) := event_window trig mw pre' post' mags pre_cut post_cut in reads tiny secs k x ids stations (fun a b => read' a b p q) a b) ->
  let run := locate_event lowpass taper tiny secs k transform l r0 r1 rbf rat curve_fit pm ticks fraction read' mw pre' post' mags pre_cut post_cut trig in
  exists f a, continuous_compute lowpass taper tiny secs k transform ucf l r0 r1 cw read stations fs afs starttime timestep n = Ret (f, a)
  /\ ((forall t z z', (D | t) -> trig - 2 * mw <= t <= trig + 2 * mw -> t <> trig -> stored c f trig z -> stored c f t z' -> coa z' < coa z) ->
      exists d ev loc cov v vn z, stored c f trig z
      /\ run = bind (pick_run lowpass taper tiny secs k rat curve_fit pm (arrivals transform l ticks fraction loc) d trig mw) (fun picks => Ret (Some (mk_located ev loc (Some cov) picks)))
      /\ e_otime ev = trig /\ max_coalescence ev = Ret (trig, v, vn) /\ (Rabs (IZR (coa z) / 100000 - Rmin v 21474) <= 5 / 1000000)%R).
Proof.
  intros lp tp tiny secs k tr ucf l r0 r1 rbf rat cf pm ticks fr tab stations x ids m reach starttime timestep pre post n mw pre' post' trig read read' mags c1 c2 cw fs afs c D S S' Hrbf St Cl Cl' Gt Hn Hlo Hhi Hr Hr' run.
  destruct (C129_located_partial lp tp tiny secs k tr ucf l r0 r1 rbf rat cf pm ticks fr tab stations x ids m reach starttime timestep pre post n mw pre' post' trig read read' mags c1 c2 cw fs afs S S' Hrbf St Cl Cl' Gt Hn Hlo Hhi Hr Hr') as (f & a & d & Ef & _ & H).
  exists f, a. split; [exact Ef|]. intros Hp. destruct (LocateRun_Proofs.lr_delta lp tp tiny secs k l tab stations mw pre' post' S') as (Dp & _). fold D in Dp. pose proof (lr_mw _ _ _ _ _ _ _ _ _ _ _ S') as Mp. pose proof (lr_whole _ _ _ _ _ _ _ _ _ _ _ S') as (y & Hy). fold D in Hy.
  assert (Dm : D <= mw). { rewrite Hy in Mp |- *. assert (0 < y) by (apply Z.mul_pos_cancel_r in Mp; lia). rewrite <- (Z.mul_1_l D) at 1. apply Z.mul_le_mono_nonneg_r; lia. }
  destruct H as [(_ & Hz)|(ev0 & row & _ & Hst & _ & Hfb & H)].
  - exfalso. assert (coa (mk_row 0 0 0 0 0) < coa (mk_row 0 0 0 0 0)); [|lia]. apply (Hp (trig + D)); [apply Z.divide_add_r; [exact Gt|apply Z.divide_refl]|lia|lia|apply Hz; [exact Gt|lia]|apply Hz; [apply Z.divide_add_r; [exact Gt|apply Z.divide_refl]|lia]].
  - destruct (Hst trig Gt ltac:(lia)) as (z & Ez & Sz). assert (O : e_otime ev0 = trig).
    { destruct (Z.eq_dec (e_otime ev0) trig) as [|N]; [assumption|exfalso]. destruct Hfb as (Bo & Go & Hb). destruct (Hst _ Go Bo) as (z' & Ez' & Sz'). pose proof (Hp _ _ _ Go Bo N Sz Sz') as Hlt. pose proof (encoded_mono _ _ _ _ _ Ez Ez' (proj1 (Hb trig ltac:(lia) Gt))). lia. }
    rewrite O in H. destruct H as [(G & _)|(_ & ev & loc & cov & Er & Oe & Hm)]; [lia|]. exists d, ev, loc, cov, (coa (row trig)), (coa_n (row trig)), z. split; [exact Sz|]. split; [rewrite Oe in Er; exact Er|]. split; [exact Oe|]. split; [exact Hm|]. exact (encoded_near _ _ _ Ez).
Qed.
Print Assumptions C129_origin_partial.

(** The coalescence of a located event is never below what the scan stored at the triggered time, or at any sample in two marginal windows around it, but for half of its last digit. *)
Theorem C129_not_smaller_partial :
  forall lowpass taper tiny secs k transform ucf l r0 r1 rbf rat curve_fit pm ticks fraction tab stations x ids m reach starttime timestep pre post n mw pre' post' trig read read' mags pre_cut post_cut cw fs afs,
  let c := o_clock secs k in let D := secs / o_rate k in
  scan_ready lowpass taper tiny secs k transform ucf l tab stations starttime timestep pre post -> locate_ready lowpass taper tiny secs k l tab stations mw pre' post' -> interpolating rbf ->
  steady secs k l tab ids stations m reach ->
  clear_of_ends secs k (m ((timestep + pre + post) / D)) (time2sample c pre) (time2sample c post) reach -> clear_of_ends secs k (m ((4 * mw + pre' + post') / D + 1)) (time2sample c pre') (time2sample c post') reach ->
  (D | trig) -> 0 < n -> starttime <= trig - 2 * mw -> trig + 2 * mw < starttime + timestep * n ->
  (forall i, 0 <= i < n -> let w := step_window c starttime timestep pre post i in reads tiny secs k x ids stations read (fst w) (snd w)) ->
  (let '(a, b, p, q) := event_window trig mw pre' post' mags pre_cut post_cut in reads tiny secs k x ids stations (fun a b => read' a b p q) a b) ->
  let run := locate_event lowpass taper tiny secs k transform l r0 r1 rbf rat curve_fit pm ticks fraction read' mw pre' post' mags pre_cut post_cut trig in
  exists f a, continuous_compute lowpass taper tiny secs k transform ucf l r0 r1 cw read stations fs afs starttime timestep n = Ret (f, a)
  /\ forall e, run = Ret (Some e) -> exists v vn, max_coalescence (lo_event e) = Ret (e_otime (lo_event e), v, vn)
     /\ forall t, (D | t) -> trig - 2 * mw <= t <= trig + 2 * mw -> exists z, stored c f t z /\ (IZR (coa z) / 100000 - 5 / 1000000 <= v)%R.
Proof.
  intros lp tp tiny secs k tr ucf l r0 r1 rbf rat cf pm ticks fr tab stations x ids m reach starttime timestep pre post n mw pre' post' trig read read' mags c1 c2 cw fs afs c D S S' Hrbf St Cl Cl' Gt Hn Hlo Hhi Hr Hr' run.
  destruct (C129_located_partial lp tp tiny secs k tr ucf l r0 r1 rbf rat cf pm ticks fr tab stations x ids m reach starttime timestep pre post n mw pre' post' trig read read' mags c1 c2 cw fs afs S S' Hrbf St Cl Cl' Gt Hn Hlo Hhi Hr Hr') as (f & a & d & Ef & _ & H).
  exists f, a. split; [exact Ef|]. intros e He. unfold run in He. destruct H as [(E0 & _)|(ev0 & row & _ & Hst & _ & Hfb & [(_ & E0)|(_ & ev & loc & cov & Er & Oe & Hm)])]; try congruence.
  rewrite Er in He. destruct (pick_run _ _ _ _ _ _ _ _ _ _ _ _) as [picks| |]; cbn [bind] in He; try discriminate. assert (Ee : e = mk_located ev loc (Some cov) picks) by congruence. subst e. cbn [lo_event].
  rewrite Oe. exists (coa (row (e_otime ev0))), (coa_n (row (e_otime ev0))). split; [exact Hm|]. intros t Ht Bt. destruct (Hst t Ht Bt) as (z & Ez & Sz). exists z. split; [exact Sz|].
  pose proof (encoded_near _ _ _ Ez) as N. apply ScanMseed_Proofs.Rabs_le_inv in N. pose proof (Rmin_l (coa (row t)) 21474). destruct (proj2 (proj2 Hfb) t Bt Ht) as (Hle & _). cbn beta in Hle. lra.
Qed.
Print Assumptions C129_not_smaller_partial.

(** With triggering on the normalised coalescence (trigger.py:353) there is no such promise: the origin time is the peak of the coalescence itself (event.py:236-242). The normalised coalescence below is largest at the triggered time 2,
    in the samples 0 to 4, and the event is skipped. *)
Theorem C129_normalised_peak_refuted :
  exists (trig mw : Z) (cs ns : list R) (xs : list (R * R * R)) (mp : list unit) ev,
    add_compute_output trig mw [0; 1; 2; 3; 4] cs ns xs mp = Ret ev
    /\ (forall e, In e (e_rows ev) -> r_dt e <> trig -> exists b, In b (e_rows ev) /\ r_dt b = trig /\ (r_norm e < r_norm b)%R)
    /\ in_marginal_window ev = false.
Proof.
  exists 2, 1, [5; 1; 2; 1; 1]%R, [1; 1; 3; 1; 1]%R, (repeat (0, 0, 0)%R 5), [].
  assert (E : exists ev, add_compute_output (M := unit) 2 1 [0; 1; 2; 3; 4] [5; 1; 2; 1; 1]%R [1; 1; 3; 1; 1]%R (repeat (0, 0, 0)%R 5) [] = Ret ev /\ e_trig ev = 2 /\ e_mw ev = 1 /\ e_otime ev = 0
    /\ e_rows ev = [mk_coarow 0 5 1 (0, 0, 0)%R; mk_coarow 1 1 1 (0, 0, 0)%R; mk_coarow 2 2 3 (0, 0, 0)%R; mk_coarow 3 1 1 (0, 0, 0)%R; mk_coarow 4 1 1 (0, 0, 0)%R]).
  { unfold add_compute_output. cbn. repeat (destruct (Rlt_dec _ _); try lra). eexists. repeat split. }
  destruct E as (ev & E & Et & Em & Eo & Ero). exists ev. split; [exact E|]. split.
  - intros e He Hn. rewrite Ero in *. exists (mk_coarow 2 2 3 (0, 0, 0)%R). split; [right; right; left; reflexivity|]. split; [reflexivity|]. cbn in He. destruct He as [<-|[<-|[<-|[<-|[<-|[]]]]]]; cbn in *; try lra. congruence.
  - unfold in_marginal_window. rewrite Et, Em, Eo. reflexivity.
Qed.
Print Assumptions C129_normalised_peak_refuted.

(** A scan of twenty seconds, one second at a time, and an event ten seconds after its start, with a marginal window of one second; the records of C128_example. *)
Example C129_example :
  let k := Window_Props.ex_set in let c := o_clock 100000 k in let st := ["A"%string; "B"%string] in let m n := Z.max 0 (n / 20) in
  scan_ready (fun _ x => x) (fun x => x) (1 / 2) 100000 k (fun _ _ x => x) 1 Compute_Props.ex_lut Compute_Props.ex_tab st 360000000 100000 102000 200000
  /\ locate_ready (fun _ x => x) (fun x => x) (1 / 2) 100000 k Compute_Props.ex_lut Compute_Props.ex_tab st 100000 102000 200000
  /\ steady 100000 k Compute_Props.ex_lut Compute_Props.ex_tab ["A.BHZ"%string] st m 50
  /\ clear_of_ends 100000 k (m ((100000 + 102000 + 200000) / 2000)) (time2sample c 102000) (time2sample c 200000) 50 /\ clear_of_ends 100000 k (m ((4 * 100000 + 102000 + 200000) / 2000 + 1)) (time2sample c 102000) (time2sample c 200000) 50
  /\ (100000 / o_rate k | 361000000) /\ 360000000 <= 361000000 - 2 * 100000 /\ 361000000 + 2 * 100000 < 360000000 + 100000 * 20
  /\ (forall i, 0 <= i < 20 -> let w := step_window c 360000000 100000 102000 200000 i in reads (1 / 2) 100000 k Window_Props.ex_x ["A.BHZ"%string] st Window_Props.ex_reads (fst w) (snd w))
  /\ (let '(a, b, p, q) := event_window 361000000 100000 102000 200000 None None None in reads (1 / 2) 100000 k Window_Props.ex_x ["A.BHZ"%string] st Window_Props.ex_reads a b).
Proof.
  intros k c st m. pose proof Window_Props.C128_example as X. cbv zeta in X. destruct X as (X1 & _ & X3 & X4 & _ & X6 & _).
  split; [exact X1|]. split.
  { unfold k. constructor; cbn [Window_Props.ex_set o_rate o_python o_transform o_cfg o_phases o_post o_all Compute_Props.ex_lut Lut_Model.l_grid].
    + repeat split; try lia; [exists 1|exists 2000]; reflexivity.
    + lra.
    + reflexivity.
    + reflexivity.
    + reflexivity.
    + intros x. apply map_length.
    + exists 20. reflexivity.
    + lia.
    + exists 50. reflexivity.
    + discriminate.
    + discriminate.
    + reflexivity.
    + intros ph [<-|[]]. exists Window_Props.ex_phase. split; [reflexivity|]. split; [vm_compute; repeat split; discriminate|]. split; [reflexivity|]. split; [|reflexivity]. intros dd x. cbn [Window_Props.ex_phase ph_band]. unfold Window_Props.ex_taper, array1. rewrite map_length, zrange_length. lia.
    + unfold grid_ok. cbn. repeat split; try lra; lia.
    + constructor; [intros []|constructor].
    + constructor; [intros [H|[]]; discriminate|]. constructor; [intros []|constructor].
    + constructor; [exact Lut_Props.plain_P|constructor].
    + constructor; [intros [H|[]]; discriminate|]. constructor; [intros [H|[]]; discriminate|constructor].
    + intros s p Is [<-|[]]. split; [|split].
      * destruct Is as [<-|[<-|[]]]; (eexists; split; [reflexivity|left; reflexivity]).
      * cbn. split; [reflexivity|]. repeat (constructor; [cbn; split; [reflexivity|repeat constructor]|]); constructor.
      * intros ((i, j), h) Hq. cbn in Hq. assert (j = 0) by lia. assert (h = 0) by lia. subst j h. assert (Hi : i = 0 \/ i = 1) by lia. change (200000 / (100000 / 50)) with 100.
        destruct Hi as [->| ->]; match goal with |- context [entry0 ?t ?q] => let v := eval cbv -[IZR] in (entry0 t q) in change (entry0 t q) with v end; lra.
    + vm_compute. reflexivity. }
  split; [exact X3|]. split; [exact X4|]. split; [intros ph pc [<-|[]] Ec; assert (pc = Window_Props.ex_phase) by (cbn in Ec; congruence); subst pc; vm_compute; split; discriminate|].
  split; [exists 180500; reflexivity|]. split; [lia|]. split; [lia|]. split; [exact X6|].
  cbn [event_window locate_window fst snd]. unfold reads. eexists. split; [reflexivity|]. cbn [d_start d_end d_stations d_waveforms]. split; [reflexivity|]. split; [reflexivity|]. split; [reflexivity|]. split; [reflexivity|]. apply Window_Props.ex_lively. vm_compute. discriminate.
Qed.

(** C133: the compiled and the Python STA/LTA give the same scans, locations and picks. *)
From Coq Require Import String Ascii.
From Coq Require Import List ZArith Reals QArith Bool Lia Lra.
From Verif Require Import Lib LibFacts PyDict Timeline_Model ScanMseed_Model Avail_Model StaLta_Model Resample_Spec Onset_Model PickRun_Model DetectRun_Model DetectRun_Spec LocateRun_Model LocateRun_Spec Locate_Model StationSet_Spec Window_Spec Agree_Spec Backend_Spec Backend_Proofs.
From Verif Require StaLta_Spec StaLta_Props Avail_Spec Migrate_Spec StaLta_Proofs Onset_Spec Window_Proofs Agree_Proofs DetectRun_Proofs Formula_Props Migrate_Model Lut_Model.
Import ListNotations.
Open Scope Z_scope.

(** The onset functions, their dictionary, the waveforms and the availability of a window, or the exception. *)
Theorem C133_onsets :
  forall lowpass taper tiny secs k d ts, (0 < tiny <= 1)%R -> heard lowpass taper tiny secs k d ->
  calculate_onsets lowpass taper tiny secs (with_backend false k) d ts = calculate_onsets lowpass taper tiny secs (with_backend true k) d ts.
Proof. intros lp tp tiny secs k d ts Ht H. exact (onsets_two lp tp tiny secs k Ht d H ts). Qed.
Print Assumptions C133_onsets.

(** The files of a scan: if in no window that could be read an onset function is made of silence. *)
Theorem C133_scan :
  forall lowpass taper tiny secs k transform ucf l r0 r1 cw read stations fs afs starttime timestep n, (0 < tiny <= 1)%R ->
  let pads := onset_pad (o_clock secs k) timestep (stalta_pre_pad (map (fun kv => (ph_sta (snd kv), ph_lta (snd kv))) (o_cfg k))) (o_post k) in
  (forall i d, 0 <= i < n -> let w := step_window (o_clock secs k) starttime timestep (fst pads) (snd pads) i in read (fst w) (snd w) = Ret d -> heard lowpass taper tiny secs k d) ->
  continuous_compute lowpass taper tiny secs (with_backend false k) transform ucf l r0 r1 cw read stations fs afs starttime timestep n
  = continuous_compute lowpass taper tiny secs (with_backend true k) transform ucf l r0 r1 cw read stations fs afs starttime timestep n.
Proof. intros lp tp tiny secs k tr ucf l r0 r1 cw read stations fs afs st ts n Ht pads H. exact (scan_both lp tp tiny secs k Ht tr ucf l r0 r1 cw read stations fs afs st ts n H). Qed.
Print Assumptions C133_scan.

(** An event: origin time, location and picks. *)
Theorem C133_event :
  forall lowpass taper tiny secs k transform l r0 r1 rbf rat curve_fit pm ticks fraction read mw pre post mags pre_cut post_cut trig, (0 < tiny <= 1)%R ->
  (let '(b, e, p, q) := event_window trig mw pre post mags pre_cut post_cut in forall d, read b e p q = Ret d -> heard lowpass taper tiny secs k d) ->
  locate_event lowpass taper tiny secs (with_backend false k) transform l r0 r1 rbf rat curve_fit pm ticks fraction read mw pre post mags pre_cut post_cut trig
  = locate_event lowpass taper tiny secs (with_backend true k) transform l r0 r1 rbf rat curve_fit pm ticks fraction read mw pre post mags pre_cut post_cut trig.
Proof. intros lp tp tiny secs k tr l r0 r1 rbf rat cf pm ticks fr read mw pre post mags c1 c2 trig Ht H. exact (locate_both lp tp tiny secs k Ht tr l r0 r1 rbf rat cf pm ticks fr read mw pre post mags c1 c2 trig H). Qed.
Print Assumptions C133_event.

(** So what C124 to C132 say of the Python functions is true of the compiled ones, for the continuous records of C128: the scan and the location are the same ones. *)
Theorem C133_records_partial :
  forall lowpass taper tiny secs k transform ucf l r0 r1 rbf rat curve_fit pm ticks fraction tab stations x ids starttime timestep pre post n mw pre' post' trig read read' mags pre_cut post_cut cw fs afs,
  let c := o_clock secs k in let C := with_backend false k in
  scan_ready lowpass taper tiny secs k transform ucf l tab stations starttime timestep pre post -> locate_ready lowpass taper tiny secs k l tab stations mw pre' post' ->
  o_gaps k = false -> o_full k = true -> Forall Onset_Spec.plain_station stations -> (secs / o_rate k | trig) ->
  (forall i, 0 <= i < n -> let w := step_window c starttime timestep pre post i in reads tiny secs k x ids stations read (fst w) (snd w)) ->
  (let '(a, b, p, q) := event_window trig mw pre' post' mags pre_cut post_cut in reads tiny secs k x ids stations (fun a b => read' a b p q) a b) ->
  continuous_compute lowpass taper tiny secs C transform ucf l r0 r1 cw read stations fs afs starttime timestep n = continuous_compute lowpass taper tiny secs k transform ucf l r0 r1 cw read stations fs afs starttime timestep n
  /\ locate_event lowpass taper tiny secs C transform l r0 r1 rbf rat curve_fit pm ticks fraction read' mw pre' post' mags pre_cut post_cut trig
     = locate_event lowpass taper tiny secs k transform l r0 r1 rbf rat curve_fit pm ticks fraction read' mw pre' post' mags pre_cut post_cut trig.
Proof.
  intros lp tp tiny secs k tr ucf l r0 r1 rbf rat cf pm ticks fr tab stations x ids starttime timestep pre post n mw pre' post' trig read read' mags c1 c2 cw fs afs c C S S' Gp Fl Pd Gt Hr Hr'.
  pose proof (sr_tiny _ _ _ _ _ _ _ _ _ _ _ _ _ _ S) as Ht. pose proof (sr_pads _ _ _ _ _ _ _ _ _ _ _ _ _ _ S) as Ep. split.
  - transitivity (continuous_compute lp tp tiny secs (with_backend true k) tr ucf l r0 r1 cw read stations fs afs starttime timestep n); [|rewrite (with_python k (sr_python _ _ _ _ _ _ _ _ _ _ _ _ _ _ S)); reflexivity]. apply C133_scan; [exact Ht|]. fold c in Ep |- *. rewrite Ep. cbn [fst snd]. intros i d Bi Er. specialize (Hr i Bi). cbv zeta in Hr.
    destruct Hr as (d0 & Er0 & Es & Ee & Est & Rc & Lv). assert (d0 = d) by congruence. subst d0. unfold step_window in Es, Ee. cbn [fst snd] in Es, Ee.
    destruct (Window_Proofs.scan_window lp tp tiny secs k tr ucf l tab x ids stations starttime timestep pre post i d S Pd Es Ee Est Rc) as (Wr & _). exact (recorded_heard _ _ _ _ _ _ _ _ _ _ _ _ _ Wr Gp Fl Rc Lv).
  - transitivity (locate_event lp tp tiny secs (with_backend true k) tr l r0 r1 rbf rat cf pm ticks fr read' mw pre' post' mags c1 c2 trig); [|rewrite (with_python k (sr_python _ _ _ _ _ _ _ _ _ _ _ _ _ _ S)); reflexivity]. apply C133_event; [exact Ht|]. destruct (event_window trig mw pre' post' mags c1 c2) as (((b, e), p), q) eqn:Ew. intros d Er.
    destruct Hr' as (d0 & Er0 & Es & Ee & Est & Rc & Lv). assert (d0 = d) by congruence. subst d0.
    assert (B : b = fst (locate_window trig mw pre' post') /\ e = snd (locate_window trig mw pre' post')) by (unfold event_window in Ew; destruct (locate_window trig mw pre' post'); inversion Ew; auto). destruct B as (-> & ->).
    destruct (Agree_Proofs.event_window_ready lp tp tiny secs k l tab x ids stations mw pre' post' trig d S' Pd Gt Es Ee Est Rc) as (Wr & _). exact (recorded_heard _ _ _ _ _ _ _ _ _ _ _ _ _ Wr Gp Fl Rc Lv).
Qed.
Print Assumptions C133_records_partial.

(** The two stations and two nodes of C132 meet the hypotheses. *)
Example C133_example : Forall Onset_Spec.plain_station Formula_Props.src_stations /\ o_gaps Formula_Props.src_set = false /\ o_full Formula_Props.src_set = true /\ o_python Formula_Props.src_set = true.
Proof. split; [|repeat split]. constructor; [intros [H|[]]; discriminate|]. constructor; [intros [H|[]]; discriminate|constructor]. Qed.

(** Without the condition they differ: where the data before a sample are zeros, the Python functions give 1 and the compiled ones divide zero by zero. *)
Theorem C133_silence_refuted :
  exists tiny secs k nsta nlta st, (0 < tiny <= 1)%R /\ 1 <= nsta < nlta /\ (forall g, In g st -> nlta + nsta <= Z.of_nat (length (o_transform k (sg_data g))) /\ ~ Avail_Spec.flat (sg_data g)) /\
  onset tiny secs (with_backend false k) nsta nlta None st <> onset tiny secs (with_backend true k) nsta nlta None st.
Proof.
  set (x := fun i : Z => if i <? 3 then 0%R else 1%R). set (k := mk_onset [] [] true false true 50 false true (fun y => y) (1 / 100)%R 0). set (g := mk_seg "A.BHZ" 0 2000 (Migrate_Spec.array1 5 x)).
  exists (1 / 2)%R, 100000, k, 1, 2, [g]. split; [lra|]. split; [lia|]. split.
  - intros g' [<-|[]]. split; [vm_compute; discriminate|]. intros (v & Hv). rewrite Forall_forall in Hv. assert (A : 0%R = v) by (apply Hv; vm_compute; left; reflexivity). assert (B : 1%R = v) by (apply Hv; vm_compute; right; right; right; left; reflexivity). lra.
  - assert (W : StaLta_Spec.window_mean x (2 - 2 + 1) 2 = 0%R). { unfold StaLta_Spec.window_mean. change (Z.to_nat 2) with 2%nat. cbn [zseq map]. change (x (2 - 2 + 1)) with 0%R. change (x (2 - 2 + 1 + 1)) with 0%R. unfold Migrate_Spec.Rsum. cbn [fold_right]. lra. }
    unfold onset. cbn [map_out]. unfold onset_fn. cbn [with_backend o_centred o_python o_transform k g sg_data o_floor]. rewrite StaLta_Props.C09_overlapping_c by lia. rewrite StaLta_Props.C09_overlapping_python by (lia || lra). cbn [bind forallb]. intros E.
    assert (E2 : forall a b : list (option R), @Ret (list (option R)) a = Ret b -> rd a 2 = rd b 2) by (intros a b Q; congruence). apply E2 in E. clear E2.
    unfold combined_onset, combine_components, clip_min in E. cbn [fold_left] in E. rewrite !rd_map, !StaLta_Proofs.rd_array1 in E by lia. change (2 <? 2 - 1) with false in E. cbv iota in E. rewrite W in E. unfold StaLta_Spec.ratio in E. destruct (Req_EM_T 0 0) as [_|N]; [|congruence]. destruct (Rlt_dec 0 (1 / 2)) as [_|N]; [|lra]. discriminate E.
Qed.
Print Assumptions C133_silence_refuted.

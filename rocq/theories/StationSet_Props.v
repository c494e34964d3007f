(** C126: the order of the stations and of the traces, and stations without data. *)
From Coq Require Import String Ascii.
From Coq Require Import List ZArith Reals QArith Bool Lia Lra.
From Verif Require Import Lib LibFacts PyDict Timeline_Model Timeline_Spec Avail_Model Migrate_Spec Lut_Spec Locate_Model Locate_Spec Resample_Spec Onset_Model Onset_Spec Onset_Proofs PickRun_Model Gain_Spec Shift_Spec DetectRun_Model LocateRun_Model StationSet_Spec StationSet_Proofs.
From Verif Require Picker_Model Migrate_Model Lut_Model Lut_Props Onset_Props Compute_Props PickRun_Props DetectRun_Props.
Import ListNotations.
Open Scope Z_scope.

(** Partial: real arithmetic in place of floats; see [window_ready]. The coalescence is the same. *)
Theorem C126_coalescence_partial :
  forall lowpass taper tiny secs k r0 l tab rate first last d d',
  window_ready lowpass taper tiny secs k l tab rate first last d -> window_ready lowpass taper tiny secs k l tab rate first last d' -> same_stations d d' ->
  compute_coalescence lowpass taper tiny secs k r0 l d rate first last = compute_coalescence lowpass taper tiny secs k r0 l d' rate first last.
Proof. intros lp tp tiny secs k r0 l tab rate a b d d' H H' Ss. apply (coalescence_same lp tp tiny secs k l tab rate a b d d' r0 H H' Ss). Qed.
Print Assumptions C126_coalescence_partial.

(** Partial: as above. A timestep of a scan has the same samples, and the same availability of each station in both lists. *)
Theorem C126_scan_partial :
  forall lowpass taper tiny secs k transform l r0 r1 tab pre post d d', let ready := window_ready lowpass taper tiny secs k l tab (IZR (o_rate k)) (time2sample (o_clock secs k) pre) (time2sample (o_clock secs k) post) in
  ready d -> ready d' -> same_stations d d' ->
  out_rel (fun a b => fst a = fst b /\ forall s ph, In ph (o_phases k) -> In s (d_stations d) -> In s (d_stations d') -> dget (snd a) (onset_key s ph) = dget (snd b) (onset_key s ph))
    (compute lowpass taper tiny secs k transform l r0 r1 pre post d) (compute lowpass taper tiny secs k transform l r0 r1 pre post d').
Proof.
  intros lp tp tiny secs k tr l r0 r1 tab pre post d d' ready H H' Ss. unfold compute. change (d_clock secs k) with (o_clock secs k). rewrite <- (C126_coalescence_partial lp tp tiny secs k r0 l tab _ _ _ d d' H H' Ss).
  pose proof (C126_coalescence_partial lp tp tiny secs k r0 l tab _ _ _ d d' H H' Ss) as Eq.
  destruct (wr_lengths lp tp tiny secs k l tab _ _ _ d H) as [E|(r & E & _)], (wr_lengths lp tp tiny secs k l tab _ _ _ d' H') as [E'|(r' & E' & _)]; rewrite E, E'; cbn [bind].
  - reflexivity.
  - assert (X : compute_coalescence lp tp tiny secs k r0 l d (IZR (o_rate k)) (time2sample (o_clock secs k) pre) (time2sample (o_clock secs k) post) = Raise DataAvailabilityException) by (unfold compute_coalescence; rewrite E; reflexivity). rewrite X. reflexivity.
  - assert (X : compute_coalescence lp tp tiny secs k r0 l d (IZR (o_rate k)) (time2sample (o_clock secs k) pre) (time2sample (o_clock secs k) post) = Raise DataAvailabilityException) by (rewrite Eq; unfold compute_coalescence; rewrite E'; reflexivity). rewrite X. reflexivity.
  - destruct (compute_coalescence _ _ _ _ _ _ _ _ _ _ _) as [m| |]; cbn [bind out_rel]; [|reflexivity|exact I]. destruct (Migrate_Model.lib_find_max_coa _ _ _ _) as [o| |]; cbn [bind out_rel]; [|reflexivity|exact I].
    destruct (scan_rows _ _ _ _ _) as [rs| |]; cbn [bind out_rel fst snd]; [|reflexivity|exact I]. rewrite (ss_start _ _ Ss). split; [reflexivity|]. intros s ph Ip Is Is'.
    apply (Onset_Props.C119_own_data lp tp tiny secs k d d' None r r' s ph); try assumption.
    + destruct Ss as [S1 S2 S3 S4 _ _ _]. repeat split; assumption.
    + exact (wr_pl_phases _ _ _ _ _ _ _ _ _ _ _ H).
    + exact (wr_pl_stations _ _ _ _ _ _ _ _ _ _ _ H).
    + exact (wr_pl_stations _ _ _ _ _ _ _ _ _ _ _ H').
    + exact (proj1 (Forall_forall _ _) (wr_dots _ _ _ _ _ _ _ _ _ _ _ H) s Is).
    + apply (ss_both _ _ Ss); assumption.
Qed.
Print Assumptions C126_scan_partial.

(** Partial: as above. An event has the same location and the same picks of every station, or is skipped both times. *)
Theorem C126_located_partial :
  forall lowpass taper tiny secs k transform l r0 r1 rbf rat curve_fit m ticks fraction tab read read' mw pre post mags pre_cut post_cut trig,
  let ready := window_ready lowpass taper tiny secs k l tab (IZR (o_rate k)) (time2sample (o_clock secs k) pre) (time2sample (o_clock secs k) post) in
  (let '(a, b, p, q) := event_window trig mw pre post mags pre_cut post_cut in out_rel (fun d d' => ready d /\ ready d' /\ same_stations d d') (read a b p q) (read' a b p q)) ->
  let run rd := locate_event lowpass taper tiny secs k transform l r0 r1 rbf rat curve_fit m ticks fraction rd mw pre post mags pre_cut post_cut trig in
  (run read = Ret None <-> run read' = Ret None)
  /\ forall w w', run read = Ret (Some w) -> run read' = Ret (Some w') ->
     lo_event w = lo_event w' /\ lo_spline w = lo_spline w' /\ lo_cov w = lo_cov w'
     /\ forall s, filter (fun r => String.eqb (Picker_Model.p_station r) s) (map fst (lo_picks w)) = filter (fun r => String.eqb (Picker_Model.p_station r) s) (map fst (lo_picks w')).
Proof.
  intros lp tp tiny secs k tr l r0 r1 rbf rat cf m ticks fr tab read read' mw pre post mags c1 c2 trig ready Hr run. unfold run, locate_event. destruct (event_window trig mw pre post mags c1 c2) as (((a, b), p), q).
  destruct (read a b p q) as [d|e|], (read' a b p q) as [d'|e'|]; cbn [out_rel] in Hr; try contradiction; cbn [bind].
  2: { subst e'. split; [tauto|]. intros w w' C. destruct e; discriminate. }
  2: { split; [tauto|]. intros w w' C. discriminate. }
  destruct Hr as (H & H' & Ss). assert (Ev : event_compute lp tp tiny secs k tr l r0 r1 pre post mw d trig = event_compute lp tp tiny secs k tr l r0 r1 pre post mw d' trig).
  { unfold event_compute. rewrite (C126_coalescence_partial lp tp tiny secs k r0 l tab _ _ _ d d' H H' Ss). reflexivity. }
  rewrite Ev. destruct (event_compute lp tp tiny secs k tr l r0 r1 pre post mw d' trig) as [ev|e|]; cbn [bind].
  2: { split; [tauto|]. intros w w' C. destruct e; discriminate. }
  2: { split; [tauto|]. intros w w' C. discriminate. }
  destruct (in_marginal_window ev); [|split; [tauto|intros w w' C; discriminate]]. destruct (trim2window ev) as [ev'|e|]; cbn [bind]; try (split; [tauto|intros w w' C; discriminate]).
  destruct (calculate_location rbf (Lut_Model.l_grid l) (e_map ev')) as [loc|e|]; cbn [bind]; try (split; [tauto|intros w w' C; discriminate]).
  set (tts := arrivals tr l ticks fr (fst loc)).
  destruct (pick_run lp tp tiny secs k rat cf m tts d (e_otime ev') mw) as [out|x|] eqn:E, (pick_run lp tp tiny secs k rat cf m tts d' (e_otime ev') mw) as [out'|x'|] eqn:E'; cbn [bind]; (split; [split; intros C; discriminate|]); intros w w' X X'; try discriminate.
  assert (Ew : w = mk_located ev' (fst loc) (snd loc) out) by congruence. assert (Ew' : w' = mk_located ev' (fst loc) (snd loc) out') by congruence. subst w w'. cbn [lo_event lo_spline lo_cov lo_picks]. do 3 (split; [reflexivity|]). intros s.
  assert (W : same_window d d') by (destruct Ss as [S1 S2 S3 S4 _ _ _]; repeat split; assumption).
  assert (None_of : forall dd oo, ready dd -> pick_run lp tp tiny secs k rat cf m tts dd (e_otime ev') mw = Ret oo -> (In s (d_stations dd) -> silent s dd) -> filter (fun r => String.eqb (Picker_Model.p_station r) s) (map fst oo) = []).
  { intros dd oo Hd Eo Sl. destruct (PickRun_Props.run_parts _ _ _ _ _ _ _ _ _ _ _ _ _ Eo) as (st & Es & _). destruct (PickRun_Props.C121_rows _ _ _ _ _ _ _ _ _ _ _ _ _ _ Eo Es) as (_ & Rw & _).
    destruct (phases_loop lp tp tiny secs k dd _ _ _ _ (calculate_loops _ _ _ _ _ _ _ _ Es)) as (A1 & _ & A3 & _). cbn [l_dict] in A3.
    destruct (filter (fun r => String.eqb (Picker_Model.p_station r) s) (map fst oo)) as [|row rest] eqn:Ef; [reflexivity|exfalso]. assert (Ir : In row (filter (fun r => String.eqb (Picker_Model.p_station r) s) (map fst oo))) by (rewrite Ef; left; reflexivity).
    apply filter_In in Ir. destruct Ir as (Ir & Es2). apply String.eqb_eq in Es2. apply in_map_iff in Ir. destruct Ir as (x & <- & Ix).
    assert (Pr : In (s, Picker_Model.p_phase (fst x)) (map (fun x => (Picker_Model.p_station (fst x), Picker_Model.p_phase (fst x))) oo)) by (apply in_map_iff; exists x; split; [rewrite Es2; reflexivity|exact Ix]).
    apply Rw in Pr. apply Pr. rewrite A3. destruct (in_dec string_dec (Picker_Model.p_phase (fst x)) (o_phases k)) as [Ip|]; [|reflexivity]. destruct (in_dec string_dec s (d_stations dd)) as [Is|]; [|reflexivity].
    rewrite (silent_pair lp tp tiny secs k dd _ _ s _ (proj1 (Forall_forall _ _) (wr_dots _ _ _ _ _ _ _ _ _ _ _ Hd) s Is) (Sl Is) (A1 _ s Ip Is)). reflexivity. }
  destruct (in_dec string_dec s (d_stations d)) as [Is|Ns], (in_dec string_dec s (d_stations d')) as [Is'|Ns'].
  - apply (PickRun_Props.C121_own_data lp tp tiny secs k rat cf m tts d d' (e_otime ev') mw out out' s W E E' Is Is'); [exact (proj1 (Forall_forall _ _) (wr_dots _ _ _ _ _ _ _ _ _ _ _ H) s Is)|apply (ss_both _ _ Ss); assumption].
  - rewrite (None_of d out H E), (None_of d' out' H' E'); [reflexivity|contradiction|]. intros _. apply (ss_left _ _ Ss); assumption.
  - rewrite (None_of d out H E), (None_of d' out' H' E'); [reflexivity| |contradiction]. intros _. apply (ss_right _ _ Ss); assumption.
  - rewrite (None_of d out H E), (None_of d' out' H' E'); [reflexivity|contradiction|contradiction].
Qed.
Print Assumptions C126_located_partial.

(** A window of C124_example with the stations in the other order, and without the one that has no data. *)
Definition ex_window (sts : list string) : wdata := mk_wdata [mk_seg "A.BHZ"%string 0 2000 (map IZR (zrange 302))] sts false None 0 602000.
Example C126_example :
  (forall sts, In sts [["A"; "B"]; ["B"; "A"]; ["A"]]%string ->
     window_ready (fun _ x => x) (fun x => x) (1 / 2) 100000 DetectRun_Props.ex_set Compute_Props.ex_lut Compute_Props.ex_tab 50 51 100 (ex_window sts))
  /\ same_stations (ex_window ["A"; "B"]%string) (ex_window ["B"; "A"]%string) /\ same_stations (ex_window ["A"; "B"]%string) (ex_window ["A"]%string).
Proof.
  assert (Nb : forall s, s = "B"%string -> forall sts, silent s (ex_window sts)).
  { intros s -> sts g [<-|[]] [C|(ch & C)]; [discriminate C|]. cbn in C. discriminate C. }
  split; [|split].
  - intros sts I.
    assert (Ns : NoDup sts) by (destruct I as [<-|[<-|[<-|[]]]]; repeat (constructor; [intros C; repeat destruct C as [C|C]; try discriminate C; exact C|]); constructor).
    assert (Sub : forall s, In s sts -> s = "A"%string \/ s = "B"%string) by (destruct I as [<-|[<-|[<-|[]]]]; intros s C; repeat destruct C as [C|C]; auto; destruct C).
    assert (Ln : (length sts <= 2)%nat) by (destruct I as [<-|[<-|[<-|[]]]]; cbn; lia).
    constructor; cbn [DetectRun_Props.ex_set o_rate o_python o_transform o_cfg o_phases o_post o_all Compute_Props.ex_lut Lut_Model.l_grid ex_window d_start d_end d_stations d_waveforms d_resample d_upfactor].
    + repeat split; try lia; [exists 1|exists 2000]; reflexivity.
    + lra.
    + reflexivity.
    + reflexivity.
    + reflexivity.
    + intros x. apply map_length.
    + exists 0. reflexivity.
    + exists 301. reflexivity.
    + lia.
    + intros ph [<-|[]]. exists Onset_Props.ex_phase. split; [reflexivity|]. split; [vm_compute; repeat split; discriminate|]. split; [reflexivity|]. split; [reflexivity|]. reflexivity.
    + constructor; [|constructor]. unfold usable, on_own_grid. cbn [sg_delta sg_start sg_data]. repeat split; try lia; [exists 0; reflexivity|discriminate|left; reflexivity].
    + unfold grid_ok. cbn. repeat split; try lra; lia.
    + constructor; [intros []|constructor].
    + exact Ns.
    + constructor; [exact Lut_Props.plain_P|constructor].
    + apply Forall_forall. intros s Is. destruct (Sub s Is) as [->| ->]; intros [H|[]]; discriminate.
    + apply Forall_forall. intros s Is. destruct (Sub s Is) as [->| ->]; intros [H|[]]; discriminate.
    + intros s p Is [<-|[]]. split; [|split].
      * destruct (Sub s Is) as [->| ->]; (eexists; split; [reflexivity|left; reflexivity]).
      * cbn. split; [reflexivity|]. repeat (constructor; [cbn; split; [reflexivity|repeat constructor]|]); constructor.
      * intros ((i, j), h) Hq. cbn in Hq. assert (j = 0) by lia. assert (h = 0) by lia. subst j h. assert (Hi : i = 0 \/ i = 1) by lia.
        destruct Hi as [->| ->]; match goal with |- context [entry0 ?t ?q] => let v := eval cbv -[IZR] in (entry0 t q) in change (entry0 t q) with v end; lra.
    + lia.
    + lia.
    + vm_compute. discriminate.
    + change (n_window 100000 50 0 602000) with 302. cbn [length]. lia.
  - constructor; try reflexivity.
    + intros s _ _ i Hi. reflexivity.
    + intros s Is N. exfalso. apply N. cbn in *. tauto.
    + intros s Is N. exfalso. apply N. cbn in *. tauto.
  - constructor; try reflexivity.
    + intros s _ _ i Hi. reflexivity.
    + intros s [<-|[<-|[]]] N; [exfalso; apply N; left; reflexivity|]. apply Nb. reflexivity.
    + intros s [<-|[]] N. exfalso. apply N. left. reflexivity.
Qed.

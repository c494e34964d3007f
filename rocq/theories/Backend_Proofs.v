(** Proofs about the two implementations of the STA/LTA. *)
From Coq Require Import String Ascii.
From Coq Require Import List ZArith Reals Bool Lia Lra.
From Verif Require Import Lib LibFacts PyDict Timeline_Model Avail_Model StaLta_Model Onset_Model Onset_Spec Onset_Proofs Onset_Props PickRun_Model DetectRun_Model LocateRun_Model StationSet_Spec Window_Spec Window_Proofs Backend_Spec.
From Verif Require Locate_Model Resample_Model Gain_Proofs.
Import ListNotations.
Open Scope Z_scope.

Lemma fold_out_ext {A S} (f g : S -> A -> outcome S) : forall l s, (forall x s, In x l -> f s x = g s x) -> fold_out f l s = fold_out g l s.
Proof. induction l as [|x l IH]; intros s H; [reflexivity|]. cbn [fold_out]. rewrite (H x s (or_introl eq_refl)). destruct (g s x) as [s'| |]; cbn [bind]; [|reflexivity|reflexivity]. apply IH. intros y s0 I. apply H. right. exact I. Qed.
Lemma bind_ext {A B} (o : outcome A) (f g : A -> outcome B) : (forall a, o = Ret a -> f a = g a) -> bind o f = bind o g.
Proof. intros H. destruct o; cbn [bind]; [apply H; reflexivity|reflexivity|reflexivity]. Qed.

Section Any.
Variables (lowpass : Z -> list R -> list R) (taper : list R -> list R) (tiny : R) (secs : Z) (k : onset_cfg).
Hypothesis Ht : (0 < tiny <= 1)%R.
Notation C := (with_backend false k).
Notation P := (with_backend true k).

Lemma onset_two nsta nlta ts st : 1 <= nsta < nlta ->
  (forall g, In g st -> let x := o_transform k (sg_data g) in nlta + nsta <= Z.of_nat (length x) /\ never_silent tiny (Z.of_nat (length x)) nlta (sample x)) ->
  onset tiny secs C nsta nlta ts st = onset tiny secs P nsta nlta ts st.
Proof.
  intros Hs H. unfold onset. change (o_transform C) with (o_transform k). change (o_transform P) with (o_transform k).
  rewrite (map_out_ext _ (fun s => onset_fn tiny P (o_transform k (sg_data s)) nsta nlta) st); [reflexivity|]. intros g Ig. destruct (H g Ig) as (L & N).
  rewrite (onset_fn_ok tiny C _ _ _ Ht Hs L N), (onset_fn_ok tiny P _ _ _ Ht Hs L N). reflexivity.
Qed.

Section Window.
Variable d : wdata.
Hypothesis Hd : heard lowpass taper tiny secs k d.
Lemma onsets_two ts : calculate_onsets lowpass taper tiny secs C d ts = calculate_onsets lowpass taper tiny secs P d ts.
Proof.
  unfold calculate_onsets. change (o_phases C) with (o_phases k). change (o_phases P) with (o_phases k).
  rewrite (fold_out_ext _ (phase_body lowpass taper tiny secs P d ts) (o_phases k)); [reflexivity|]. intros ph s0 Ip. unfold phase_body. change (o_cfg C) with (o_cfg k). change (o_cfg P) with (o_cfg k). destruct (dget (o_cfg k) ph) as [pc|] eqn:Ec; [|reflexivity].
  change (phase_waveforms lowpass secs C d pc) with (phase_waveforms lowpass secs k d pc). change (phase_waveforms lowpass secs P d pc) with (phase_waveforms lowpass secs k d pc). apply bind_ext. intros fl Ef.
  apply fold_out_ext. intros s st Is. unfold station_body.
  assert (E : station_onset taper tiny secs C d ts pc fl s = station_onset taper tiny secs P d ts pc fl s); [|rewrite E; reflexivity].
  unfold station_onset. cbv zeta. apply bind_ext. intros (v & av) Ev. destruct (v =? 0); [reflexivity|]. apply bind_ext. intros w Ew.
  change (o_clock secs C) with (o_clock secs k) in *. change (o_clock secs P) with (o_clock secs k) in *.
  destruct w as [|g0 w0]; [reflexivity|]. rewrite onset_two; [reflexivity| |].
  - exact (proj1 (Hd ph pc fl s v av _ g0 Ip Ec Ef Is Ev Ew (or_introl eq_refl))).
  - intros g Ig. exact (proj2 (Hd ph pc fl s v av _ g Ip Ec Ef Is Ev Ew Ig)).
Qed.
Lemma coalescence_both r0 l rate a b : compute_coalescence lowpass taper tiny secs C r0 l d rate a b = compute_coalescence lowpass taper tiny secs P r0 l d rate a b.
Proof. unfold compute_coalescence. rewrite onsets_two. reflexivity. Qed.
Lemma compute_both transform l r0 r1 pre post : compute lowpass taper tiny secs C transform l r0 r1 pre post d = compute lowpass taper tiny secs P transform l r0 r1 pre post d.
Proof. unfold compute. rewrite onsets_two. change (o_rate C) with (o_rate P). change (d_clock secs C) with (d_clock secs P). rewrite coalescence_both. reflexivity. Qed.
Lemma event_both transform l r0 r1 pre post mw trig : event_compute lowpass taper tiny secs C transform l r0 r1 pre post mw d trig = event_compute lowpass taper tiny secs P transform l r0 r1 pre post mw d trig.
Proof. unfold event_compute. change (o_rate C) with (o_rate P). change (o_clock secs C) with (o_clock secs P). rewrite coalescence_both. reflexivity. Qed.
Lemma picks_both rat cf m tts otime mw : pick_run lowpass taper tiny secs C rat cf m tts d otime mw = pick_run lowpass taper tiny secs P rat cf m tts d otime mw.
Proof. unfold pick_run. rewrite onsets_two. reflexivity. Qed.
End Window.

Lemma scan_both transform ucf l r0 r1 cw read stations fs afs starttime timestep n : let pads := Timeline_Model.onset_pad (o_clock secs k) timestep (stalta_pre_pad (map (fun kv => (ph_sta (snd kv), ph_lta (snd kv))) (o_cfg k))) (o_post k) in
  (forall i d, 0 <= i < n -> let w := step_window (o_clock secs k) starttime timestep (fst pads) (snd pads) i in read (fst w) (snd w) = Ret d -> heard lowpass taper tiny secs k d) ->
  continuous_compute lowpass taper tiny secs C transform ucf l r0 r1 cw read stations fs afs starttime timestep n = continuous_compute lowpass taper tiny secs P transform ucf l r0 r1 cw read stations fs afs starttime timestep n.
Proof.
  intros pads H. unfold continuous_compute. cbv zeta. change (d_clock secs C) with (o_clock secs k). change (d_clock secs P) with (o_clock secs k). change (o_cfg C) with (o_cfg k). change (o_cfg P) with (o_cfg k). change (o_post C) with (o_post k). change (o_post P) with (o_post k).
  fold pads. change (columns C stations) with (columns P stations).
  rewrite (fold_out_ext _ (timestep_body lowpass taper tiny secs P transform ucf l r0 r1 cw read (columns P stations) starttime timestep (fst pads) (snd pads)) (zrange n)); [reflexivity|]. intros i s Ii. apply in_zrange in Ii. specialize (fun d => H i d Ii). cbv zeta in H.
  unfold timestep_body. cbv zeta. change (d_clock secs C) with (o_clock secs k). change (d_clock secs P) with (o_clock secs k). destruct (read _ _) as [d| |] eqn:Er; cbn [bind]; [|reflexivity|reflexivity]. rewrite (compute_both d (H d eq_refl)). reflexivity.
Qed.
Lemma locate_both transform l r0 r1 rbf rat cf m ticks fr read mw pre post mags c1 c2 trig :
  (let '(b, e, p, q) := Locate_Model.event_window trig mw pre post mags c1 c2 in forall d, read b e p q = Ret d -> heard lowpass taper tiny secs k d) ->
  locate_event lowpass taper tiny secs C transform l r0 r1 rbf rat cf m ticks fr read mw pre post mags c1 c2 trig = locate_event lowpass taper tiny secs P transform l r0 r1 rbf rat cf m ticks fr read mw pre post mags c1 c2 trig.
Proof.
  unfold locate_event. destruct (Locate_Model.event_window trig mw pre post mags c1 c2) as (((b, e), p), q). intros H. destruct (read b e p q) as [d| |] eqn:Er; cbn [bind]; [|reflexivity|reflexivity]. rewrite (event_both d (H d eq_refl)).
  destruct (event_compute _ _ _ _ P _ _ _ _ _ _ _ d trig) as [ev| |]; cbn [bind]; [|reflexivity|reflexivity]. destruct (Locate_Model.in_marginal_window ev); [|reflexivity]. apply bind_ext. intros ev' _. apply bind_ext. intros loc _. rewrite (picks_both d (H d eq_refl)). reflexivity.
Qed.
End Any.

Lemma with_python k : o_python k = true -> with_backend true k = k.
Proof. intros E. destruct k. cbn in *. subst. reflexivity. Qed.
(** Continuous records that are never silent. *)
Lemma recorded_heard lowpass taper tiny secs k l tab rate first last x ids d : window_ready lowpass taper tiny secs k l tab rate first last d -> o_gaps k = false -> o_full k = true ->
  recorded secs k x ids d -> lively tiny secs k x ids d -> heard lowpass taper tiny secs k d.
Proof.
  intros W Gp Fl Rc Lv ph pc fl s v av w g Ip Ec Ef Is Ev Ew Ig. rewrite (phase_fl lowpass taper tiny secs k l tab rate x ids first last d W Rc ph pc Ip Ec) in Ef. assert (E : fl = map (fseg secs k x d pc) (filter (in_phase pc) ids)) by congruence. subst fl.
  unfold fill_gaps in Ew. rewrite Gp, Fl in Ew. cbn [orb negb] in Ew. assert (E : w = remove_unavailable av (select_station (map (fseg secs k x d pc) (filter (in_phase pc) ids)) s)) by congruence. subst w. apply Gain_Proofs.remove_in in Ig. rewrite select_st in Ig. apply in_map_iff in Ig. destruct Ig as (i & <- & Ii).
  apply chans_in in Ii. destruct (Lv ph pc i Ip Ec Ii) as (_ & Ns). destruct (wr_phases _ _ _ _ _ _ _ _ _ _ _ W ph Ip) as (pc' & Ec' & (Hw1 & Hw2) & _ & Hlen & _). assert (pc' = pc) by congruence. subst pc'.
  cbn [fseg sg_data]. split; [exact Hw1|]. split; [|exact Ns]. rewrite (wr_transform _ _ _ _ _ _ _ _ _ _ _ W), Hlen. erewrite cut_len by exact W. exact Hw2.
Qed.

(** C122: the units and the polarity of the waveforms. *)
From Coq Require Import String Ascii.
From Coq Require Import List ZArith Reals QArith Bool Lia Lra.
From Verif Require Import Lib LibFacts PyDict Timeline_Model Avail_Model Avail_Spec Avail_Proofs Archive_Model Read_Model Migrate_Spec StaLta_Model StaLta_Spec StaLta_Proofs Onset_Model Onset_Spec Onset_Proofs Onset_Props PickRun_Model Gain_Spec Gain_Proofs.
From Verif Require Resample_Model Timeline_Proofs Lut_Model Lut_Proofs Migrate_Model Picker_Model.
Import ListNotations.
Open Scope Z_scope.

(** The conditions on the settings: linear filters, a transform that turns factors into positive ones, no filling of gaps, a short window shorter than the long one; for the Python backend, data that are
    loud enough, with and without the factors. *)
Definition gain_ok (gain : string -> R) (lowpass : Z -> list R -> list R) (tiny : R) (secs : Z) (k : onset_cfg) (d : wdata) : Prop :=
  (forall dd, homogeneous (lowpass dd)) /\ positively (o_transform k) /\ o_gaps k = false /\ o_full k = true
  /\ Forall (fun s => 0 < sg_delta s /\ scalable secs (o_rate k) (d_resample d) (d_upfactor d) (d_start d) (d_end d) s) (d_waveforms d)
  /\ forall ph pc, In ph (o_phases k) -> dget (o_cfg k) ph = Some pc ->
     (forall dd, homogeneous (ph_band pc dd)) /\ 1 <= stw_samples (o_clock secs k) (ph_sta pc) < ltw_samples (o_clock secs k) (ph_lta pc)
     /\ forall fl, phase_waveforms lowpass secs k d pc = Ret fl ->
        Forall (fun s => loud tiny k (ltw_samples (o_clock secs k) (ph_lta pc)) s /\ loud tiny k (ltw_samples (o_clock secs k) (ph_lta pc)) (gained gain s)) fl.

(** Partial: see [gain_ok]. Multiplying the data of each channel by a factor of its own, positive or negative, leaves the onset functions and the availability as they are; the exceptions also. *)
Theorem C122_onsets_partial :
  forall gain lowpass taper tiny secs k d ts, (forall i, gain i <> 0%R) -> (0 < tiny <= 1)%R -> gain_ok gain lowpass tiny secs k d ->
  calculate_onsets lowpass taper tiny secs k (gained_data gain d) ts
  = out_map (fun r => mk_state (l_onsets r) (l_dict r) (map (gained gain) (l_filtered r)) (l_avail r)) (calculate_onsets lowpass taper tiny secs k d ts).
Proof. intros gain lp tp tiny secs k d ts Hg Ht (H1 & H2 & H3 & H4 & H5 & H6). apply calculate_g; assumption. Qed.
Print Assumptions C122_onsets_partial.

(** Partial: see [gain_ok]. The coalescence is the same. *)
Theorem C122_coalescence_partial :
  forall gain lowpass taper tiny secs k d r0 l rate fsmp lsmp, (forall i, gain i <> 0%R) -> (0 < tiny <= 1)%R -> gain_ok gain lowpass tiny secs k d ->
  compute_coalescence lowpass taper tiny secs k r0 l (gained_data gain d) rate fsmp lsmp = compute_coalescence lowpass taper tiny secs k r0 l d rate fsmp lsmp.
Proof.
  intros gain lp tp tiny secs k d r0 l rate fsmp lsmp Hg Ht H. unfold compute_coalescence. rewrite (C122_onsets_partial gain lp tp tiny secs k d None Hg Ht H). rewrite bind_out. reflexivity.
Qed.
Print Assumptions C122_coalescence_partial.

(** Partial: see [gain_ok]. The picks are the same, with the same SEED ids. *)
Theorem C122_picks_partial :
  forall gain lowpass taper tiny secs k rat cf m tts d otime mw, (forall i, gain i <> 0%R) -> (0 < tiny <= 1)%R -> gain_ok gain lowpass tiny secs k d ->
  pick_run lowpass taper tiny secs k rat cf m tts (gained_data gain d) otime mw = pick_run lowpass taper tiny secs k rat cf m tts d otime mw.
Proof.
  intros gain lp tp tiny secs k rat cf m tts d otime mw Hg Ht H. unfold pick_run. rewrite (C122_onsets_partial gain lp tp tiny secs k d _ Hg Ht H). rewrite bind_out. apply bind_ext_. intros st _. cbn [l_dict l_filtered].
  change (d_start (gained_data gain d)) with (d_start d). apply bind_ext_. intros rows _. clear - gain st k rows. induction rows as [|row rows IH]; [reflexivity|]. cbn [map_out].
  assert (E : forall pc, seed_ids pc (map (gained gain) (l_filtered st)) (Picker_Model.p_station row) = seed_ids pc (l_filtered st) (Picker_Model.p_station row)) by (intros pc; unfold seed_ids; rewrite select_station_g, select_channel_g; apply sorted_ids_g).
  destruct (dget (o_cfg k) (Picker_Model.p_phase row)) as [pc|]; [|reflexivity]. rewrite E. cbn [bind]. rewrite IH. reflexivity.
Qed.
Print Assumptions C122_picks_partial.

Lemma energy_positively : positively energy.
Proof.
  intros c x Hc. exists (c * c)%R. split; [destruct (Rtotal_order c 0) as [|[|]]; [|contradiction|]; nra|]. unfold energy. rewrite !map_map. apply map_ext. intros v. ring.
Qed.
(** The onset function of one channel of five samples, with windows of one and two samples. *)
Definition five (x0 x1 x2 x3 x4 : R) : seg := mk_seg "A.BHZ" 2000 2000 [x0; x1; x2; x3; x4].
Definition sqr_set : onset_cfg := mk_onset ["P"%string] [("P"%string, ex_phase)] true false true 50 false true energy (1 / 100)%R 0.
Lemma wm2 f lo : window_mean f lo 2 = ((f lo + f (lo + 1)%Z) / 2)%R.
Proof. unfold window_mean, Rsum. change (Z.to_nat 2) with 2%nat. cbn [zseq map fold_right]. rewrite Rplus_0_r. reflexivity. Qed.
Lemma five_loud x0 x1 x2 x3 x4 : (1 / 50 <= x1 * x1 -> 1 / 50 <= x2 * x2 -> 1 / 50 <= x3 * x3 -> 1 / 50 <= x4 * x4 ->
  let x := energy (sg_data (five x0 x1 x2 x3 x4)) in never_silent (1 / 100) (Z.of_nat (length x)) 2 (sample x))%R.
Proof.
  intros H1 H2 H3 H4 x i Hi. assert (Hi' : i = 1 \/ i = 2 \/ i = 3 \/ i = 4) by (change (Z.of_nat (length x)) with 5 in Hi; lia). rewrite wm2.
  assert (forall a b, a * a + b * b >= b * b)%R by (intros; nra).
  destruct Hi' as [->|[->|[->| ->]]]; [pose proof (H x0 x1) as P; change (1 / 100 <= (x0 * x0 + x1 * x1) / 2)%R|pose proof (H x1 x2) as P; change (1 / 100 <= (x1 * x1 + x2 * x2) / 2)%R
    |pose proof (H x2 x3) as P; change (1 / 100 <= (x2 * x2 + x3 * x3) / 2)%R|pose proof (H x3 x4) as P; change (1 / 100 <= (x3 * x3 + x4 * x4) / 2)%R]; lra.
Qed.
Lemma five_run d x0 x1 x2 x3 x4 : d_stations d = ["A"%string] -> d_start d = 2000 -> d_end d = 10000 -> (x1 <> x2)%R ->
  phase_waveforms (fun _ l => l) 100000 sqr_set d ex_phase = Ret [five x0 x1 x2 x3 x4] ->
  (1 / 50 <= x1 * x1)%R -> (1 / 50 <= x2 * x2)%R -> (1 / 50 <= x3 * x3)%R -> (1 / 50 <= x4 * x4)%R ->
  exists r o, calculate_onsets (fun _ l => l) (fun l => l) (1 / 100) 100000 sqr_set d None = Ret r /\ l_onsets r = [o] /\ l_filtered r = [five x0 x1 x2 x3 x4]
  /\ rd o 1 = Some (Some (Rmax (rms [(x1 * x1) / ((x0 * x0 + x1 * x1) / 2)]%R) (1 / 100))).
Proof.
  intros Es E0 E1 Nf Ew H1 H2 H3 H4. set (g := five x0 x1 x2 x3 x4) in *.
  assert (Fl : any_flat [g] = Ret false).
  { destruct (any_flat_ok [g]) as (b & Eb & Hb); [repeat constructor; discriminate|]. rewrite Eb. f_equal. apply Hb. constructor; [|constructor]. intros (v & F). rewrite Forall_forall in F. apply Nf.
    rewrite (F x1), (F x2) by (cbn; auto). reflexivity. }
  assert (Ck : check_availability (o_clock 100000 sqr_set) 2000 10000 (mk_criteria true (Some 1) false true true (Some 2000) false) [g] = Ret (1, [("A.BHZ"%string, 1)])).
  { unfold check_availability. change (sorted_ids [g]) with ["A.BHZ"%string]. cbn [check_channels]. change (select_id [g] "A.BHZ") with [g]. unfold check_channel. rewrite Fl. reflexivity. }
  destruct (onset_len (1 / 100) 100000 sqr_set 1 2 None 5 [g]) as (o & Eo & Lo); [lra|intros l; apply map_length|lia|lia|discriminate|repeat constructor|].
  assert (So : station_onset (fun l => l) (1 / 100) 100000 sqr_set d None ex_phase [g] "A"%string = Ret (1, Some (o, [g]))).
  { unfold station_onset. cbv zeta. rewrite E0, E1. change (select_station [g] "A") with [g]. cbn [ph_count ex_phase o_all o_gaps o_full o_rate sqr_set]. change (100000 / 50) with 2000.
    rewrite Ck. cbn [bind Z.eqb]. change (remove_unavailable [("A.BHZ"%string, 1)] [g]) with [g]. unfold fill_gaps. cbn [o_gaps o_full sqr_set orb negb bind].
    change (stw_samples (o_clock 100000 sqr_set) (ph_sta ex_phase)) with 1. change (ltw_samples (o_clock 100000 sqr_set) (ph_lta ex_phase)) with 2. rewrite Eo. reflexivity. }
  destruct (C119_value_partial (fun l => l) (1 / 100) 100000 sqr_set d None ex_phase [g] "A" o [g]) as (n & Hn & Ho); [lra|discriminate|change (1 <= 1 < 2); lia|exact So| |].
  { intros g' [<-|[]]. split; [change (2 + 1 <= 5); lia|]. apply five_loud; assumption. }
  assert (n = 5) by (symmetry; apply (Hn g); left; reflexivity). subst n.
  exists (mk_state [o] [("A"%string, [("P"%string, o)])] [g] [("A_P"%string, 1)]), o. split; [|split; [reflexivity|split; [reflexivity|]]].
  - unfold calculate_onsets. cbn [o_phases sqr_set fold_out]. unfold phase_body. cbn [o_cfg sqr_set dget String.eqb Ascii.eqb Bool.eqb bind]. fold sqr_set. rewrite Ew. cbn [bind]. rewrite Es. cbn [fold_out].
    unfold station_body at 1. rewrite So. cbn [bind]. reflexivity.
  - rewrite Ho, rd_array1 by lia. do 2 f_equal. f_equal. cbn [map]. do 2 f_equal. change (stw_samples (o_clock 100000 sqr_set) (ph_sta ex_phase)) with 1. change (ltw_samples (o_clock 100000 sqr_set) (ph_lta ex_phase)) with 2.
    unfold sta_lta. cbn [Z.ltb Z.compare Z.sub Z.add Z.opp Z.pos_sub]. cbn [o_centred sqr_set]. rewrite wm2. unfold window_mean, Rsum. change (Z.to_nat 1) with 1%nat. cbn [zseq map fold_right]. rewrite Rplus_0_r.
    change (sample (o_transform sqr_set (sg_data g)) (1 - 1 + 1)) with (x1 * x1)%R. change (sample (o_transform sqr_set (sg_data g)) (1 - 2 + 1)) with (x0 * x0)%R. change (sample (o_transform sqr_set (sg_data g)) (1 - 2 + 1 + 1)) with (x1 * x1)%R.
    unfold Rdiv at 2. rewrite Rinv_1, Rmult_1_r. reflexivity.
Qed.

(** Data at 25 Hz, brought to 50 Hz, that begin one sample into the window: the sample before them is filled with the integer part of the first sample. *)
Definition slow_data : wdata := mk_wdata [mk_seg "A.BHZ" 4000 4000 [/ 2; 5 * / 2; 9 * / 2]%R] ["A"%string] true (Some 2) 2000 10000.
Lemma slow_waveforms a b c : phase_waveforms (fun _ l => l) 100000 sqr_set (mk_wdata [mk_seg "A.BHZ" 4000 4000 [a; b; c]] ["A"%string] true (Some 2) 2000 10000) ex_phase
  = Ret [five (trunc a) a (1 / 2 * b + 1 / 2 * a) b (1 / 2 * c + 1 / 2 * b)].
Proof. reflexivity. Qed.

(** Finding: when the data are upsampled, and begin or end within a sample of the window, the onset functions depend on the units: values in counts and values in m/s give different results. *)
Theorem C122_padding_refuted :
  exists gain lowpass taper tiny secs k d r r', (forall i, gain i <> 0%R) /\ (0 < tiny <= 1)%R /\ (forall dd, homogeneous (lowpass dd)) /\ positively (o_transform k) /\ o_gaps k = false /\ o_full k = true
  /\ (forall ph pc, dget (o_cfg k) ph = Some pc -> (forall dd, homogeneous (ph_band pc dd)) /\ 1 <= stw_samples (o_clock secs k) (ph_sta pc) < ltw_samples (o_clock secs k) (ph_lta pc))
  /\ calculate_onsets lowpass taper tiny secs k d None = Ret r /\ calculate_onsets lowpass taper tiny secs k (gained_data gain d) None = Ret r' /\ l_onsets r <> l_onsets r'.
Proof.
  exists (fun _ => 2%R), (fun _ l => l), (fun l => l), (1 / 100)%R, 100000, sqr_set, slow_data.
  destruct (five_run slow_data 0 (/ 2) (3 / 2) (5 / 2) (7 / 2)) as (r & o & Er & Eo & _ & Ro); try reflexivity; try lra.
  { unfold slow_data. rewrite slow_waveforms. rewrite Timeline_Proofs.trunc_half. unfold five. repeat (f_equal; try lra). }
  destruct (five_run (gained_data (fun _ => 2%R) slow_data) 1 1 3 5 7) as (r' & o' & Er' & Eo' & _ & Ro'); try reflexivity; try lra.
  { unfold slow_data, gained_data, gained. cbn [d_waveforms d_stations d_resample d_upfactor d_start d_end map sg_id sg_start sg_delta sg_data]. rewrite slow_waveforms.
    replace (2 * / 2)%R with (IZR 1) by lra. rewrite Timeline_Proofs.trunc_IZR. unfold five. repeat (f_equal; try lra). }
  exists r, r'. split; [intros i; lra|]. split; [lra|]. split; [intros dd c x; reflexivity|]. split; [apply energy_positively|]. split; [reflexivity|]. split; [reflexivity|].
  split; [|split; [exact Er|split; [exact Er'|]]].
  - intros ph pc E. cbn [o_cfg sqr_set dget] in E. destruct (String.eqb _ _); [|discriminate]. assert (pc = ex_phase) by congruence. subst pc. split; [intros dd c x; reflexivity|]. change (1 <= 1 < 2). lia.
  - rewrite Eo, Eo'. intros E. assert (o = o') by congruence. subst o'. rewrite Ro in Ro'.
    assert (E2 : Rmax (rms [/ 2 * / 2 / ((0 * 0 + / 2 * / 2) / 2)]%R) (1 / 100) = Rmax (rms [1 * 1 / ((1 * 1 + 1 * 1) / 2)]%R) (1 / 100)) by congruence.
    replace (/ 2 * / 2 / ((0 * 0 + / 2 * / 2) / 2))%R with 2%R in E2 by field. replace (1 * 1 / ((1 * 1 + 1 * 1) / 2))%R with 1%R in E2 by field.
    assert (Rm : forall v, (0 <= v)%R -> rms [v] = v). { intros v Hv. unfold rms, Rsum. cbn [map fold_right length]. replace ((v * v + 0) / INR 1)%R with (v * v)%R by (cbn; field). apply sqrt_square, Hv. }
    rewrite !Rm in E2 by lra. rewrite !Rmax_left in E2 by lra. lra.
Qed.
Print Assumptions C122_padding_refuted.

(** Two channels, one of them not used, and the polarity of one reversed. *)
Definition two_data : wdata := mk_wdata [mk_seg "A.BHN" 2000 2000 [1; 2; 3; 4; 6]%R; five 1 2 3 4 5] ["A"%string] false None 2000 10000.
Definition ex_gain (i : string) : R := if String.eqb i "A.BHZ" then (-3)%R else 1%R.
Example C122_example : (forall i, ex_gain i <> 0%R) /\ gain_ok ex_gain (fun _ l => l) (1 / 100) 100000 sqr_set two_data
  /\ sg_data (gained ex_gain (five 1 2 3 4 5)) <> sg_data (five 1 2 3 4 5)
  /\ exists r o, calculate_onsets (fun _ l => l) (fun l => l) (1 / 100) 100000 sqr_set (gained_data ex_gain two_data) None = Ret r /\ l_onsets r = [o].
Proof.
  assert (Hg : forall i, ex_gain i <> 0%R) by (intros i; unfold ex_gain; destruct (String.eqb _ _); lra).
  assert (Ew : phase_waveforms (fun _ l => l) 100000 sqr_set two_data ex_phase = Ret [five 1 2 3 4 5]) by reflexivity.
  assert (Ok : gain_ok ex_gain (fun _ l => l) (1 / 100) 100000 sqr_set two_data).
  { split; [intros dd c x; reflexivity|]. split; [apply energy_positively|]. split; [reflexivity|]. split; [reflexivity|]. split.
    - repeat constructor; left; reflexivity.
    - intros ph pc _ E. cbn [o_cfg sqr_set dget] in E. destruct (String.eqb _ _); [|discriminate]. assert (pc = ex_phase) by congruence. subst pc. split; [intros dd c x; reflexivity|]. split; [change (1 <= 1 < 2); lia|].
      intros fl Ef. rewrite Ew in Ef. assert (fl = [five 1 2 3 4 5]) by congruence. subst fl. constructor; [|constructor]. split; intros _.
      + apply five_loud; lra.
      + change (gained ex_gain (five 1 2 3 4 5)) with (five (-3 * 1) (-3 * 2) (-3 * 3) (-3 * 4) (-3 * 5)). apply five_loud; lra. }
  split; [exact Hg|]. split; [exact Ok|]. split.
  - cbn. intros E. assert (-3 * 1 = 1)%R by congruence. lra.
  - rewrite (C122_onsets_partial ex_gain) by (first [exact Hg|lra|exact Ok]).
    destruct (five_run two_data 1 2 3 4 5) as (r & o & Er & Eo & _); try reflexivity; try lra. rewrite Er. cbn [out_map]. eexists. exists o. split; [reflexivity|exact Eo].
Qed.

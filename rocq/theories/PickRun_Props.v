(** C121: picks from the waveforms of an event. *)
From Coq Require Import String Ascii.
From Coq Require Import List ZArith Reals QArith Bool Lia Lra.
From Verif Require Import Lib LibFacts PyDict Timeline_Model Avail_Model Archive_Model Read_Model Resample_Spec Onset_Model Onset_Spec Onset_Proofs Compute_Spec PickRun_Model PickRun_Spec.
From Verif Require Import Picker_Model PickRun_Proofs.
From Verif Require Avail_Proofs Picker_Proofs Lut_Proofs Onset_Props.
Import ListNotations.
Open Scope Z_scope.

Lemma run_parts lowpass taper tiny secs k rat cf m tts d otime mw out : pick_run lowpass taper tiny secs k rat cf m tts d otime mw = Ret out ->
  exists st, calculate_onsets lowpass taper tiny secs k d (Some (4 * mw)) = Ret st
  /\ pick_phases cf m (o_clock secs k) otime (d_start d) mw (map (fun so => (fst so, station_phases rat tts (fst so) (snd so))) (l_dict st)) = Ret (map fst out)
  /\ forall row ids, In (row, ids) out -> exists pc, dget (o_cfg k) (p_phase row) = Some pc /\ ids = seed_ids pc (l_filtered st) (p_station row).
Proof.
  unfold pick_run. destruct (calculate_onsets _ _ _ _ _ _ _) as [st| |]; cbn [bind]; try discriminate. destruct (pick_phases _ _ _ _ _ _ _) as [rows| |] eqn:E; cbn [bind]; try discriminate. intros H. exists st. split; [reflexivity|]. split.
  - rewrite (map_out_fst _) with (2 := H); [exact E|]. intros x y Hx. destruct (dget (o_cfg k) (p_phase x)); [|discriminate]. assert (Ey : y = (x, seed_ids p (l_filtered st) (p_station x))) by congruence. rewrite Ey. reflexivity.
  - intros row ids I. destruct (map_out_in _ _ _ _ H I) as (x & _ & Ex). destruct (dget (o_cfg k) (p_phase x)) as [pc|] eqn:Ec; [|discriminate]. assert (x = row) by congruence. subst x. exists pc. split; [exact Ec|congruence].
Qed.
Lemma dget_map {A B} (f : string -> A -> B) s : forall l : dict A, dget (map (fun so => (fst so, f (fst so) (snd so))) l) s = option_map (f s) (dget l s).
Proof. induction l as [|(a, x) l IH]; [reflexivity|]. cbn [map dget fst snd]. destruct (String.eqb_spec a s) as [->|]; [reflexivity|exact IH]. Qed.
Lemma rows_of_station lowpass taper tiny secs k rat cf m tts d otime mw out s : pick_run lowpass taper tiny secs k rat cf m tts d otime mw = Ret out -> In s (d_stations d) ->
  match fold_left (fun e ph => put e ph (got lowpass taper tiny secs k d (Some (4 * mw)) ph s)) (o_phases k) None with
  | Some e => pick_station cf m (o_clock secs k) otime (d_start d) mw s (station_phases rat tts s e) = Ret (filter (fun r => String.eqb (p_station r) s) (map fst out))
  | None => filter (fun r => String.eqb (p_station r) s) (map fst out) = []
  end.
Proof.
  intros H Is. destruct (run_parts _ _ _ _ _ _ _ _ _ _ _ _ _ H) as (st & E & Er & _). destruct (phases_entry lowpass taper tiny secs k d _ _ _ _ (calculate_loops _ _ _ _ _ _ _ _ E)) as (I1 & _ & I3 & _). cbn [l_dict dget keys map] in I1, I3.
  assert (N : NoDup (map fst (map (fun so => (fst so, station_phases rat tts (fst so) (snd so))) (l_dict st)))) by (rewrite map_map; cbn [fst]; apply I3; constructor).
  pose proof (station_rows _ _ _ _ _ _ s _ _ N Er) as X. rewrite dget_map, (I1 s Is) in X. destruct (fold_left _ _ None) as [e|]; exact X.
Qed.

(** The picks at a station depend on the data of that station only (given the hypocentre and origin time). *)
Theorem C121_own_data :
  forall lowpass taper tiny secs k rat cf m tts d d' otime mw out out' s, same_window d d' ->
  pick_run lowpass taper tiny secs k rat cf m tts d otime mw = Ret out -> pick_run lowpass taper tiny secs k rat cf m tts d' otime mw = Ret out' ->
  In s (d_stations d) -> In s (d_stations d') -> plain_station s -> same_data s (d_waveforms d) (d_waveforms d') ->
  filter (fun r => String.eqb (p_station r) s) (map fst out) = filter (fun r => String.eqb (p_station r) s) (map fst out').
Proof.
  intros lp tp tiny secs k rat cf m tts d d' otime mw out out' s W H H' Is Is' Pl Sd.
  destruct (run_parts _ _ _ _ _ _ _ _ _ _ _ _ _ H) as (st & E & _). destruct (run_parts _ _ _ _ _ _ _ _ _ _ _ _ _ H') as (st' & E' & _).
  destruct (phases_loop lp tp tiny secs k d _ _ _ _ (calculate_loops _ _ _ _ _ _ _ _ E)) as (A1 & _). destruct (phases_loop lp tp tiny secs k d' _ _ _ _ (calculate_loops _ _ _ _ _ _ _ _ E')) as (B1 & _).
  pose proof (rows_of_station _ _ _ _ _ _ _ _ _ _ _ _ _ s H Is) as X. pose proof (rows_of_station _ _ _ _ _ _ _ _ _ _ _ _ _ s H' Is') as X'.
  assert (Eq : forall phs e, (forall ph, In ph phs -> In ph (o_phases k)) -> fold_left (fun e ph => put e ph (got lp tp tiny secs k d (Some (4 * mw)) ph s)) phs e = fold_left (fun e ph => put e ph (got lp tp tiny secs k d' (Some (4 * mw)) ph s)) phs e).
  { induction phs as [|ph phs IH]; intros e Hp; [reflexivity|]. cbn [fold_left]. rewrite IH by (intros p Ip; apply Hp; right; exact Ip). f_equal. unfold put.
    destruct (pair_same lp tp tiny secs k d d' _ ph s _ _ W Pl Sd (A1 ph s (Hp ph (or_introl eq_refl)) Is) (B1 ph s (Hp ph (or_introl eq_refl)) Is')) as (_ & -> & _). reflexivity. }
  rewrite (Eq _ _ (fun _ I => I)) in X. rewrite <- (proj1 W) in X'. destruct (fold_left _ _ None) as [e|]; [|rewrite X, X'; reflexivity]. rewrite X in X'. congruence.
Qed.
Print Assumptions C121_own_data.

(** One row for each station and phase with an onset function, and no others; the modelled time is the origin time plus the traveltime of that station and phase. *)
Theorem C121_rows :
  forall lowpass taper tiny secs k rat cf m tts d otime mw out st, pick_run lowpass taper tiny secs k rat cf m tts d otime mw = Ret out ->
  calculate_onsets lowpass taper tiny secs k d (Some (4 * mw)) = Ret st ->
  NoDup (map (fun x => (p_station (fst x), p_phase (fst x))) out)
  /\ (forall s ph, In (s, ph) (map (fun x => (p_station (fst x), p_phase (fst x))) out) <-> onset_for (l_dict st) s ph <> None)
  /\ forall x, In x out -> p_model (fst x) = otime + fst (tts (p_station (fst x)) (p_phase (fst x))).
Proof.
  intros lp tp tiny secs k rat cf m tts d otime mw out st H E. destruct (run_parts _ _ _ _ _ _ _ _ _ _ _ _ _ H) as (st' & E' & Er & _). assert (st' = st) by congruence. subst st'.
  destruct (phases_entry lp tp tiny secs k d _ _ _ _ (calculate_loops _ _ _ _ _ _ _ _ E)) as (I1 & I2 & I3 & _). cbn [l_dict dget keys map] in I1, I2, I3. specialize (I3 (NoDup_nil _)).
  assert (Ke : forall s e, dget (l_dict st) s = Some e -> NoDup (keys e)).
  { intros s e Ee. destruct (in_dec string_dec s (d_stations d)) as [Is|Ns]; [|rewrite (I2 s Ns) in Ee; discriminate]. rewrite (I1 s Is) in Ee.
    assert (G : forall phs e0, (forall x, e0 = Some x -> NoDup (keys x)) -> forall x, fold_left (fun e ph => put e ph (got lp tp tiny secs k d (Some (4 * mw)) ph s)) phs e0 = Some x -> NoDup (keys x)).
    { induction phs as [|ph phs IH]; intros e0 H0 x; cbn [fold_left]; [apply H0|]. apply IH. intros y. unfold put. destruct (res_onset _) as [o|]; [|apply H0]. intros Ey. assert (Ey' : y = dset (match e0 with Some x => x | None => [] end) ph o) by congruence. rewrite Ey'. apply dset_keys. destruct e0 as [z|]; [apply H0; reflexivity|constructor]. }
    apply (G (o_phases k) None); [discriminate|exact Ee]. }
  apply Picker_Proofs.pick_phases_rows in Er. rewrite map_map in Er. set (onsets := l_dict st) in *. clearbody onsets. clear E E' H I1 I2.
  assert (Ep : map (fun x => (p_station (fst x), p_phase (fst x))) out = concat (map (fun so => map (fun po => (fst so, fst po)) (snd so)) onsets)).
  { transitivity (map (fun t : string * string * Z => fst t) (map (fun x => (p_station (fst x), p_phase (fst x), p_model (fst x))) out)); [rewrite map_map; reflexivity|]. rewrite Er, concat_map, !map_map. f_equal. apply map_ext. intros so. cbn [fst snd]. unfold station_phases. rewrite !map_map. reflexivity. }
  split; [|split].
  - rewrite Ep. clear Ep Er. induction onsets as [|(s, e) l IH]; [constructor|]. cbn [map concat fst snd]. cbn [keys map fst] in I3. inversion I3 as [|? ? N1 N2]; subst.
    assert (Ne : NoDup (keys e)) by (apply (Ke s); cbn [dget]; rewrite String.eqb_refl; reflexivity).
    assert (Nr : NoDup (concat (map (fun so : string * dict (list (option R)) => map (fun po => (fst so, fst po)) (snd so)) l))).
    { apply IH; [exact N2|]. intros s' e' D. apply (Ke s'). cbn [dget]. destruct (String.eqb_spec s s') as [->|]; [|exact D]. exfalso. apply N1. apply (dget_in _ l s'). congruence. }
    assert (Np : NoDup (map (fun po : string * list (option R) => (s, fst po)) e)).
    { clear - Ne. unfold keys in Ne. induction e as [|(p, o) e IH]; [constructor|]. cbn [map fst] in *. inversion Ne as [|? ? M1 M2]; subst. constructor; [|apply IH, M2]. intros I. apply M1. apply in_map_iff in I. destruct I as (q & X & Iq). apply in_map_iff. exists q. split; [congruence|exact Iq]. }
    apply Lut_Proofs.nodup_app; [exact Np|exact Nr|]. intros x Ix C. apply in_map_iff in Ix. destruct Ix as (po & <- & _). apply in_concat in C. destruct C as (r & Ir & C). apply in_map_iff in Ir. destruct Ir as (so & <- & Iso). apply in_map_iff in C. destruct C as (po' & X & _).
    apply N1. unfold keys. apply in_map_iff. exists so. split; [|exact Iso]. apply (f_equal fst) in X. cbn [fst] in X. exact X.
  - intros s ph. rewrite Ep. unfold onset_for. split.
    + intros I. apply in_concat in I. destruct I as (r & Ir & I). apply in_map_iff in Ir. destruct Ir as (so & <- & Iso). apply in_map_iff in I. destruct I as (po & X & Ipo). assert (fst so = s) by congruence. assert (fst po = ph) by congruence. subst s ph.
      assert (D : dget onsets (fst so) = Some (snd so)). { clear - I3 Iso. induction onsets as [|(a, x) l IH]; [destruct Iso|]. cbn [keys map fst] in I3. inversion I3 as [|? ? N1 N2]; subst. cbn [dget]. destruct Iso as [<-|Iso]; [cbn [fst snd]; rewrite String.eqb_refl; reflexivity|]. destruct (String.eqb_spec a (fst so)) as [Ea|]; [|apply IH; assumption]. exfalso. apply N1. rewrite Ea. apply in_map_iff. exists so. auto. }
      rewrite D. apply dget_in. apply in_map_iff. exists po. auto.
    + destruct (dget onsets s) as [e|] eqn:D; [|congruence]. intros I. apply dget_in in I. apply in_map_iff in I. destruct I as (po & <- & Ipo). apply in_concat. exists (map (fun po => (s, fst po)) e). split; [|apply in_map_iff; exists po; auto].
      apply in_map_iff. exists (s, e). split; [reflexivity|]. clear - D. induction onsets as [|(a, x) l IH]; [discriminate|]. cbn [dget] in D. destruct (String.eqb_spec a s) as [->|]; [left; congruence|right; apply IH, D].
  - intros x Ix. apply (in_map (fun x => (p_station (fst x), p_phase (fst x), p_model (fst x)))) in Ix. rewrite Er in Ix. apply in_concat in Ix. destruct Ix as (r & Ir & I). apply in_map_iff in Ir. destruct Ir as (so' & <- & Iso). apply in_map_iff in Iso. destruct Iso as (so & <- & Iso). cbn [fst snd] in I. unfold station_phases in I. rewrite map_map in I. apply in_map_iff in I. destruct I as (po & X & _).
    cbn [ph_name ph_tt] in X. assert (X1 : fst so = p_station (fst x)) by congruence. assert (X2 : fst po = p_phase (fst x)) by congruence. assert (X3 : otime + fst (tts (fst so) (fst po)) = p_model (fst x)) by congruence. rewrite <- X3, X1, X2. reflexivity.
Qed.
Print Assumptions C121_rows.

(** Partial: no channel belongs to two phases. The SEED ids given with a pick are those of the channels whose data make up the onset function of the pick. *)
Theorem C121_seed_ids_partial :
  forall lowpass taper tiny secs k rat cf m tts d otime mw out row ids pc fl o w, pick_run lowpass taper tiny secs k rat cf m tts d otime mw = Ret out -> In (row, ids) out ->
  In (p_phase row) (o_phases k) -> In (p_station row) (d_stations d) ->
  dget (o_cfg k) (p_phase row) = Some pc -> phase_waveforms lowpass secs k d pc = Ret fl -> station_onset taper tiny secs k d (Some (4 * mw)) pc fl (p_station row) = Ret (1, Some (o, w)) ->
  (forall ph' pc' ch, In ph' (o_phases k) -> dget (o_cfg k) ph' = Some pc' -> fnmatch (ph_map pc) ch = true -> fnmatch (ph_map pc') ch = true -> ph' = p_phase row) ->
  NoDup ids /\ forall i, In i ids <-> ids_of w i.
Proof.
  intros lp tp tiny secs k rat cf m tts d otime mw out row ids pc fl o w H I Ip Is Ec Ef Eo Dj. destruct (run_parts _ _ _ _ _ _ _ _ _ _ _ _ _ H) as (st & E & _ & Hi). destruct (Hi _ _ I) as (pc0 & Ec0 & ->). assert (pc0 = pc) by congruence. subst pc0.
  split; [apply Avail_Proofs.sorted_ids_nodup|]. intros i. unfold seed_ids. rewrite Avail_Proofs.sorted_ids_in.
  destruct (phases_entry lp tp tiny secs k d _ _ _ _ (calculate_loops _ _ _ _ _ _ _ _ E)) as (_ & _ & _ & I4). cbn [l_filtered] in I4.
  destruct (phases_loop lp tp tiny secs k d _ _ _ _ (calculate_loops _ _ _ _ _ _ _ _ E)) as (A1 & _).
  assert (Eg : got lp tp tiny secs k d (Some (4 * mw)) (p_phase row) (p_station row) = (1, Some (o, w))) by (unfold got, pair_result; rewrite Ec, Ef; cbn [bind]; rewrite Eo; reflexivity).
  assert (Us : forall ph s o' w' x, In ph (o_phases k) -> In s (d_stations d) -> snd (got lp tp tiny secs k d (Some (4 * mw)) ph s) = Some (o', w') -> In x w' -> station_of x = s /\ exists pc', dget (o_cfg k) ph = Some pc' /\ fnmatch (ph_map pc') (channel_of x) = true).
  { intros ph s o' w' x Jp Js Es Ix. pose proof (A1 ph s Jp Js) as P. destruct (got lp tp tiny secs k d (Some (4 * mw)) ph s) as [av z]. cbn [snd] in Es. subst z. unfold pair_result in P. destruct (dget (o_cfg k) ph) as [pc'|] eqn:Ec'; [|discriminate].
    destruct (phase_waveforms lp secs k d pc') as [fl'| |] eqn:Ef'; cbn [bind] in P; try discriminate. destruct (station_used tp tiny secs k d _ _ _ _ _ _ _ x P Ix) as (y & Iy & Ey & Sy). split; [rewrite <- Sy; apply station_of_id; congruence|]. exists pc'. split; [reflexivity|].
    rewrite (channel_of_id x y) by congruence. apply (phase_ids lp secs k d pc' fl' y Ef' Iy). }
  split.
  - intros (x & Ix & <-). apply filter_In in Ix. destruct Ix as (Ix & Fm). apply filter_In in Ix. destruct Ix as (Ix & Sx). apply String.eqb_eq in Sx. apply I4 in Ix. destruct Ix as [[]|(ph & s & o' & w' & Jp & Js & Es & Iw)].
    destruct (Us ph s o' w' x Jp Js Es Iw) as (S1 & pc' & Ec' & Fm'). assert (Ph : ph = p_phase row) by (apply (Dj ph pc' (channel_of x)); assumption). rewrite Ph, <- S1, Sx, Eg in Es. cbn [snd] in Es. assert (w' = w) by congruence. subst w'. exists x. auto.
  - intros (x & Ix & <-). exists x. split; [|reflexivity]. assert (Es : snd (got lp tp tiny secs k d (Some (4 * mw)) (p_phase row) (p_station row)) = Some (o, w)) by (rewrite Eg; reflexivity).
    destruct (Us _ _ o w x Ip Is Es Ix) as (S1 & pc' & Ec' & Fm). assert (pc' = pc) by congruence. subst pc'. apply filter_In. split; [|exact Fm]. apply filter_In. split; [|apply String.eqb_eq, S1]. apply I4. right. exists (p_phase row), (p_station row), o, w. auto.
Qed.
Print Assumptions C121_seed_ids_partial.

(** Partial: the traveltime times its uncertainty is at most about two long windows (less a short one) plus what the traveltime is below the largest. The pick windows hold no sample of the onset function that was set to 1 because its
    windows reach into the taper. *)
Theorem C121_windows_partial :
  forall secs k d trig mw otime ttmax, let c := o_clock secs k in let wins := map (fun kv : string * phase_cfg => (ph_sta (snd kv), ph_lta (snd kv))) (o_cfg k) in
  ticks_ok secs (o_rate k) -> o_post k = stalta_post_pad c wins ttmax -> 0 <= mw -> Forall (fun w => 0 <= fst w /\ 0 <= snd w) wins ->
  let pads := onset_pad c (4 * mw) (stalta_pre_pad wins) (o_post k) in
  d_start d = trig - 2 * mw - fst pads -> d_end d = trig + 2 * mw + snd pads -> Z.abs (otime - trig) <= mw ->
  forall phases ws p w, station_windows c otime (d_start d) mw phases = Ret ws -> In (p, w) (combine phases ws) ->
  forall pc, In (ph_name p, pc) (o_cfg k) -> delta c <= ph_sta pc -> 0 <= ph_tt p <= ttmax -> 0 <= ph_ttf p <= ph_tt p ->
  ph_ttf p + ph_sta pc + 4 * delta c <= 2 * ph_lta pc + (ttmax - ph_tt p) ->
  forall i, w_lo w <= i < w_hi w ->
  untapered (n_window secs (o_rate k) (d_start d) (d_end d)) (Onset_Model.taper_samples secs k (4 * mw)) (stw_samples c (ph_sta pc)) (ltw_samples c (ph_lta pc)) i.
Proof.
  intros secs k d trig mw otime ttmax c wins T Hp Hm Hw pads Hs He Ho phases ws p w Ew Ipw pc Ic H1 H2 H3 H4 i Hi.
  apply distinguish_inside in Ew. destruct (forall2_combine _ _ _ _ Ew p w Ipw) as (_ & In1 & In2).
  apply (window_untapered secs k d trig mw otime ttmax T Hp Hm Hw Hs He Ho (ph_name p) pc (ph_tt p) (ph_ttf p) i Ic H1 H2 H3); [fold c; lia|]. cbv zeta. fold c. lia.
Qed.
Print Assumptions C121_windows_partial.

(** Otherwise they may: windows of 0.2 s and 1 s, 50 Hz, a largest traveltime of 30 s, an uncertainty of 10 per cent, an event at its trigger time, and a station at the largest traveltime. *)
Definition far_phase : phase_cfg := Onset_Model.mk_phase [GStar] 1 20000 100000 (10 # 1) (fun _ l => l).
Definition far_set : onset_cfg := mk_onset ["P"%string] [("P"%string, far_phase)] true false true 50 false true (fun l => l) (1 / 100)%R 3200000.
Definition far_data : wdata := mk_wdata [] [] false None (- 660000) 3700000.
Theorem C121_windows_refuted :
  exists secs k d trig mw otime ttmax, let c := o_clock secs k in let wins := map (fun kv : string * phase_cfg => (ph_sta (snd kv), ph_lta (snd kv))) (o_cfg k) in
  ticks_ok secs (o_rate k) /\ o_post k = stalta_post_pad c wins ttmax /\ 0 <= mw /\ Forall (fun w => 0 <= fst w /\ 0 <= snd w) wins /\
  let pads := onset_pad c (4 * mw) (stalta_pre_pad wins) (o_post k) in
  d_start d = trig - 2 * mw - fst pads /\ d_end d = trig + 2 * mw + snd pads /\ Z.abs (otime - trig) <= mw /\
  exists phases ws p w pc i, station_windows c otime (d_start d) mw phases = Ret ws /\ In (p, w) (combine phases ws) /\ In (ph_name p, pc) (o_cfg k) /\ delta c <= ph_sta pc
  /\ 0 <= ph_tt p <= ttmax /\ 10 * ph_ttf p = ph_tt p /\ w_lo w <= i < w_hi w
  /\ ~ untapered (n_window secs (o_rate k) (d_start d) (d_end d)) (Onset_Model.taper_samples secs k (4 * mw)) (stw_samples c (ph_sta pc)) (ltw_samples c (ph_lta pc)) i.
Proof.
  exists 100000, far_set, far_data, 0, 100000, 0, 3000000. cbv zeta.
  split; [repeat split; try lia; [exists 1|exists 2000]; reflexivity|]. split; [reflexivity|]. split; [lia|]. split; [repeat constructor; cbn; lia|]. split; [reflexivity|]. split; [reflexivity|]. split; [cbn; lia|].
  exists [Picker_Model.mk_phase "P" (repeat 0%Q 2181) 3000000 300000], [mk_window 1630 1830 2030], (Picker_Model.mk_phase "P" (repeat 0%Q 2181) 3000000 300000), (mk_window 1630 1830 2030), far_phase, 2025.
  split; [vm_compute; reflexivity|]. split; [left; reflexivity|]. split; [left; reflexivity|]. split; [cbn; lia|]. split; [cbn; lia|]. split; [reflexivity|]. split; [cbn; lia|].
  vm_compute. intros (_ & C). discriminate.
Qed.
Print Assumptions C121_windows_refuted.

(** The window of the example of C119: one row, with the channel that was used. *)
Example C121_example : exists out row, pick_run (fun _ l => l) (fun l => l) (1 / 2) 100000 Onset_Props.ex_set (fun _ => 1%Q) (fun _ _ => Raise RuntimeError) (MadMultiple 8) (fun _ _ => (4000, 400)) Onset_Props.ex_data 2000 0 = Ret out
  /\ out = [(row, ["A.BHZ"%string])] /\ p_station row = "A"%string /\ p_phase row = "P"%string /\ p_model row = 6000.
Proof.
  destruct (Onset_Props.ex_station (Some (4 * 0))) as (o & Lo & Eo). assert (Ew : phase_waveforms (fun _ l => l) 100000 Onset_Props.ex_set Onset_Props.ex_data Onset_Props.ex_phase = Ret [Onset_Props.ex_trace]) by reflexivity.
  assert (E : calculate_onsets (fun _ l => l) (fun l => l) (1 / 2) 100000 Onset_Props.ex_set Onset_Props.ex_data (Some (4 * 0)) = Ret (mk_state [o] [("A"%string, [("P"%string, o)])] [Onset_Props.ex_trace] [("A_P"%string, 1); ("B_P"%string, 0)])).
  { unfold calculate_onsets. cbn [o_phases Onset_Props.ex_set fold_out]. unfold phase_body. cbn [o_cfg Onset_Props.ex_set dget String.eqb Ascii.eqb Bool.eqb bind]. fold Onset_Props.ex_set. rewrite Ew. cbn [bind d_stations Onset_Props.ex_data fold_out]. fold Onset_Props.ex_data.
    unfold station_body at 1. rewrite Eo. cbn [bind]. reflexivity. }
  destruct o as [|a [|b [|c0 [|e [|f [|]]]]]]; try discriminate Lo. unfold pick_run. rewrite E. cbn [bind]. eexists. eexists. split; [reflexivity|]. split; [reflexivity|]. repeat split.
Qed.

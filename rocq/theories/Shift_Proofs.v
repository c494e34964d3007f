(** Proofs about moving the waveforms in time. *)
From Coq Require Import String Ascii.
From Coq Require Import List ZArith Reals QArith Bool Lia Lra.
From Verif Require Import Lib LibFacts PyDict PySlice Timeline_Model Avail_Model Archive_Model Read_Model StaLta_Model Onset_Model Gain_Spec Gain_Proofs Shift_Spec.
From Verif Require Resample_Model Picker_Model.
Import ListNotations.
Open Scope Z_scope.

Section Shift.
Variable t : Z.
Let L := later t.

Lemma l_npts s : npts (L s) = npts s.
Proof. reflexivity. Qed.
Lemma l_end s : sg_end (L s) = sg_end s + t.
Proof. unfold sg_end. rewrite l_npts. unfold L, later. cbn [sg_start sg_delta]. lia. Qed.
Lemma trim_l a b s : Resample_Model.trim (a + t) (b + t) (L s) = L (Resample_Model.trim a b s).
Proof.
  unfold Resample_Model.trim. rewrite l_npts. unfold L, later. cbn [sg_id sg_start sg_delta sg_data]. replace (a + t - (sg_start s + t)) with (a - sg_start s) by lia. replace (b + t - (sg_start s + t)) with (b - sg_start s) by lia.
  f_equal. lia.
Qed.
Lemma trim_stream_l a b st : Resample_Model.trim_stream (a + t) (b + t) (map L st) = map L (Resample_Model.trim_stream a b st).
Proof.
  unfold Resample_Model.trim_stream. rewrite map_map. rewrite (map_ext (fun s => Resample_Model.trim (a + t) (b + t) (L s)) (fun s => L (Resample_Model.trim a b s))) by (intros s; apply trim_l).
  rewrite <- (map_map (Resample_Model.trim a b) L). apply filter_same. intros s. rewrite l_npts. reflexivity.
Qed.
Variable lowpass : Z -> list R -> list R.
Lemma decimate_l dd s : Resample_Model.decimate lowpass dd (L s) = out_map L (Resample_Model.decimate lowpass dd s).
Proof. unfold Resample_Model.decimate. change (sg_delta (L s)) with (sg_delta s). destruct (_ <=? 0); reflexivity. Qed.
Lemma upsample_l c start data u a b : upsample c (start + t) data u (a + t) (b + t) = option_map (fun sd => (fst sd + t, snd sd)) (upsample c start data u a b).
Proof.
  unfold upsample. destruct (upsample_data data u) as [dn|]; [|reflexivity]. replace (start + t - (a + t)) with (start - a) by lia.
  replace (b + t - (start + t + (Z.of_nat (length data) - 1) * delta c)) with (b - (start + (Z.of_nat (length data) - 1) * delta c)) by lia.
  set (e := (0 <? b - (start + (Z.of_nat (length data) - 1) * delta c)) && _).
  destruct ((0 <? start - a) && (start - a <? delta c)).
  - destruct (rd data 0) as [v|]; [|reflexivity]. destruct e; [destruct (pyget data (-1))|]; cbn [option_map fst snd]; try reflexivity; do 2 f_equal; lia.
  - destruct e; [destruct (pyget data (-1))|]; reflexivity.
Qed.
Lemma upsample_trace_l secs u a b s : Resample_Model.upsample_trace secs u (a + t) (b + t) (L s) = out_map L (Resample_Model.upsample_trace secs u a b s).
Proof.
  unfold Resample_Model.upsample_trace. change (sg_delta (L s)) with (sg_delta s). change (sg_data (L s)) with (sg_data s). change (sg_start (L s)) with (sg_start s + t). change (sg_id (L s)) with (sg_id s).
  destruct (_ || _ || _); [reflexivity|]. rewrite upsample_l. destruct (upsample _ _ _ _ _ _) as [[st da]|]; cbn [option_map fst snd]; [|reflexivity]. cbn [out_map]. rewrite <- trim_l. f_equal. f_equal; lia.
Qed.
Variables (secs rate : Z) (rs : bool) (uf : option Z).
Let one a b := Resample_Model.resample_trace lowpass secs rate rs uf a b.
Lemma resample_trace_l a b s : one (a + t) (b + t) (L s) = out_map L (one a b s).
Proof.
  unfold one, Resample_Model.resample_trace, Resample_Model.at_rate, Resample_Model.decimable. change (sg_delta (L s)) with (sg_delta s).
  destruct (_ =? _); [reflexivity|]. destruct (_ =? _); [apply decimate_l|]. destruct rs; [|reflexivity]. destruct uf as [u|]; [|reflexivity]. destruct (negb _); [reflexivity|].
  rewrite upsample_trace_l, bind_out, out_bind. apply bind_ext_. intros x _. apply decimate_l.
Qed.
Lemma resample_loop_l a b mv st : (forall s, mv (L s) = mv s) ->
  Resample_Model.resample_loop (one (a + t) (b + t)) mv (map L st) = out_map (fun kn => (map L (fst kn), map L (snd kn))) (Resample_Model.resample_loop (one a b) mv st).
Proof.
  intros Hm. induction st as [|s st IH]; [reflexivity|]. cbn [map Resample_Model.resample_loop]. rewrite resample_trace_l. rewrite bind_out, out_bind. apply bind_ext_. intros x _.
  rewrite IH, bind_out, out_bind. apply bind_ext_. intros [kn nw] _. cbn [fst snd]. rewrite Hm. destruct (mv s); reflexivity.
Qed.
Lemma pre_process_l band hc a b st :
  Resample_Model.pre_process lowpass band secs rate rs uf hc (a + t) (b + t) (map L st) = out_map (map L) (Resample_Model.pre_process lowpass band secs rate rs uf hc a b st).
Proof.
  unfold Resample_Model.pre_process, Resample_Model.resample. fold (one (a + t) (b + t)) (one a b). rewrite resample_loop_l by reflexivity.
  rewrite bind_out. destruct (Resample_Model.resample_loop (one a b) _ st) as [[kn nw]| |]; cbn [bind out_map fst snd]; try reflexivity. rewrite <- map_app.
  replace (a + t - secs / 100000) with (a - secs / 100000 + t) by lia. replace (b + t + secs / 100000) with (b + secs / 100000 + t) by lia. rewrite trim_stream_l.
  destruct (Qle_bool _ _); [reflexivity|]. cbn [out_map]. rewrite !map_map. reflexivity.
Qed.

(** * The checks of the data *)
Lemma any_flat_l l : any_flat (map L l) = any_flat l.
Proof. induction l as [|s l IH]; [reflexivity|]. cbn [map any_flat]. change (flatline (L s)) with (flatline s). apply bind_ext_. intros f _. destruct f; [reflexivity|exact IH]. Qed.
Lemma seg_le_l a b : seg_le (L a) (L b) = seg_le a b.
Proof.
  unfold seg_le. rewrite !l_end. unfold L, later. cbn [sg_start].
  lia.
Qed.
Lemma insert_seg_l a l : insert_seg (L a) (map L l) = map L (insert_seg a l).
Proof. induction l as [|b l IH]; [reflexivity|]. cbn [map insert_seg]. rewrite seg_le_l, IH. destruct (seg_le a b); reflexivity. Qed.
Lemma sort_segs_l l : sort_segs (map L l) = map L (sort_segs l).
Proof. unfold sort_segs. induction l as [|a l IH]; [reflexivity|]. cbn [map fold_right]. rewrite IH. apply insert_seg_l. Qed.
Lemma gap_length_l a b : gap_length (L a) (L b) = gap_length a b.
Proof.
  unfold gap_length. rewrite !l_end. unfold L, later. cbn [sg_start sg_delta].
  replace (sg_start b + t - (sg_end a + t + sg_delta a)) with (sg_start b - (sg_end a + sg_delta a)) by lia. replace (sg_end b + t - (sg_start b + t)) with (sg_end b - sg_start b) by lia. reflexivity.
Qed.
Lemma listed_l c o a b : listed c o (L a) (L b) = listed c o a b.
Proof. unfold listed. rewrite gap_length_l. reflexivity. Qed.
Lemma has_gap_l c o l : has_gap c o (map L l) = has_gap c o l.
Proof. induction l as [|a l IH]; [reflexivity|]. cbn [map has_gap]. destruct l as [|b l]; [reflexivity|]. cbn [map] in *. rewrite listed_l, IH. reflexivity. Qed.
Lemma get_gaps_l c o l : get_gaps c o (map L l) = get_gaps c o l.
Proof. unfold get_gaps. rewrite sort_segs_l. apply has_gap_l. Qed.
Lemma existsb_l (p q : seg -> bool) l : (forall s, p (L s) = q s) -> existsb p (map L l) = existsb q l.
Proof. intros H. induction l as [|s l IH]; [reflexivity|]. cbn [map existsb]. rewrite H, IH. reflexivity. Qed.
Lemma eqb_shift a b : (a + t =? b + t) = (a =? b).
Proof. destruct (Z.eqb_spec (a + t) (b + t)), (Z.eqb_spec a b); lia || reflexivity. Qed.
Lemma check_channel_l c a b k l : check_channel c (a + t) (b + t) k (map L l) = check_channel c a b k l.
Proof.
  unfold check_channel. rewrite any_flat_l, !get_gaps_l. apply bind_ext_. intros f _. destruct f; [reflexivity|]. destruct (get_gaps c true l); [reflexivity|]. destruct (_ && _); [reflexivity|].
  assert (E : (if check_rate k then match Avail_Model.rate k with None => Raise TypeError | Some d => Ret (existsb (fun s => negb (sg_delta s =? d)) (map L l)) end else Ret false)
    = (if check_rate k then match Avail_Model.rate k with None => Raise TypeError | Some d => Ret (existsb (fun s => negb (sg_delta s =? d)) l) end else Ret false)).
  { destruct (check_rate k); [|reflexivity]. destruct (Avail_Model.rate k) as [d|]; [|reflexivity]. f_equal. apply existsb_l. reflexivity. }
  rewrite E. apply bind_ext_. intros bad _. destruct bad; [reflexivity|]. destruct l as [|s0 l]; [reflexivity|]. cbn [map]. rewrite l_npts, l_end. change (sg_start (L s0)) with (sg_start s0 + t). change (sg_delta (L s0)) with (sg_delta s0).
  rewrite !eqb_shift. replace (b + t - (a + t)) with (b - a) by lia. destruct l; reflexivity.
Qed.
Lemma select_id_l l i : select_id (map L l) i = map L (select_id l i).
Proof. unfold select_id. apply filter_same. reflexivity. Qed.
Lemma sorted_ids_l l : sorted_ids (map L l) = sorted_ids l.
Proof. unfold sorted_ids. rewrite map_map. reflexivity. Qed.
Lemma check_channels_l c a b k l ids : check_channels c (a + t) (b + t) k (map L l) ids = check_channels c a b k l ids.
Proof. induction ids as [|i r IH]; [reflexivity|]. cbn [check_channels]. rewrite select_id_l, check_channel_l, IH. reflexivity. Qed.
Lemma check_availability_l c a b k l : check_availability c (a + t) (b + t) k (map L l) = check_availability c a b k l.
Proof. unfold check_availability. destruct l as [|s l]; [reflexivity|]. rewrite <- (check_channels_l c a b k (s :: l)), <- (sorted_ids_l (s :: l)). reflexivity. Qed.
Lemma remove_unavailable_l av l : remove_unavailable av (map L l) = map L (remove_unavailable av l).
Proof.
  unfold remove_unavailable. revert l. induction av as [|[i v] av IH]; intros l; [reflexivity|]. cbn [fold_left fst snd]. destruct (v =? 0); [|apply IH].
  rewrite <- IH. f_equal. apply filter_same. reflexivity.
Qed.
Lemma select_station_l l s : select_station (map L l) s = map L (select_station l s).
Proof. unfold select_station. apply filter_same. reflexivity. Qed.
Lemma select_channel_l p l : select_channel p (map L l) = map L (select_channel p l).
Proof. unfold select_channel. apply filter_same. reflexivity. Qed.

(** * Filling of gaps *)
Lemma join_l fill a b : Resample_Model.join fill (L a) (L b) = out_map L (Resample_Model.join fill a b).
Proof. unfold Resample_Model.join. rewrite l_end. change (sg_start (L b)) with (sg_start b + t). replace (sg_start b + t - (sg_end a + t)) with (sg_start b - sg_end a) by lia. change (sg_delta (L a)) with (sg_delta a). change (sg_delta (L b)) with (sg_delta b). destruct (_ || _); reflexivity. Qed.
Lemma join_all_l fill l : forall a, Resample_Model.join_all fill (L a) (map L l) = out_map L (Resample_Model.join_all fill a l).
Proof. induction l as [|b l IH]; intros a; [reflexivity|]. cbn [map Resample_Model.join_all]. rewrite join_l, bind_out, out_bind. apply bind_ext_. intros x _. apply IH. Qed.
Lemma merge_fill_l fill l : Resample_Model.merge_fill fill (map L l) = out_map L (Resample_Model.merge_fill fill l).
Proof. unfold Resample_Model.merge_fill. rewrite sort_segs_l. destruct (sort_segs l); [reflexivity|]. apply join_all_l. Qed.
Lemma pad_trim_l fill a b s : Resample_Model.pad_trim fill (a + t) (b + t) (L s) = L (Resample_Model.pad_trim fill a b s).
Proof.
  unfold Resample_Model.pad_trim. rewrite l_end. change (sg_start (L s)) with (sg_start s + t). change (sg_delta (L s)) with (sg_delta s). change (sg_data (L s)) with (sg_data s). change (sg_id (L s)) with (sg_id s).
  replace (sg_start s + t - (a + t)) with (sg_start s - a) by lia. replace (b + t - (sg_end s + t)) with (b - sg_end s) by lia. unfold L, later. cbn [sg_id sg_start sg_delta sg_data]. f_equal. lia.
Qed.
Lemma fill_channel_l taper fill a b l : Resample_Model.fill_channel taper fill secs (a + t) (b + t) (map L l) = out_map L (Resample_Model.fill_channel taper fill secs a b l).
Proof.
  unfold Resample_Model.fill_channel. rewrite map_map.
  rewrite <- (map_map (fun s => mk_seg (sg_id s) (sg_start s) (sg_delta s) (taper (sg_data s))) L). rewrite merge_fill_l, bind_out, out_bind. apply bind_ext_. intros s _. cbn [out_map]. rewrite <- pad_trim_l. f_equal. f_equal; lia.
Qed.
End Shift.

(** * The onset functions *)
Section Run.
Variables (t : Z) (lowpass : Z -> list R -> list R) (taper : list R -> list R) (tiny : R) (secs : Z) (k : onset_cfg) (d : wdata) (ts : option Z).
Let L := later t.
Let d' := later_data t d.
Lemma onset_l nsta nlta st : onset tiny secs k nsta nlta ts (map L st) = onset tiny secs k nsta nlta ts st.
Proof. unfold onset. rewrite (map_out_map L _ (fun s => onset_fn tiny k (o_transform k (sg_data s)) nsta nlta)); reflexivity. Qed.
Lemma fill_gaps_l a b l : fill_gaps taper tiny secs k (a + t) (b + t) (map L l) = out_map (map L) (fill_gaps taper tiny secs k a b l).
Proof.
  unfold fill_gaps. destruct (_ || _); [|reflexivity]. unfold L. rewrite sorted_ids_l. induction (sorted_ids l) as [|i r IH]; [reflexivity|]. cbn [map_out]. rewrite select_id_l, fill_channel_l, bind_out, out_bind. apply bind_ext_. intros s _.
  rewrite IH, bind_out, out_bind. apply bind_ext_. reflexivity.
Qed.
Lemma station_l pc fl s :
  station_onset taper tiny secs k d' ts pc (map L fl) s = out_map (fun r => (fst r, option_map (fun ow => (fst ow, map L (snd ow))) (snd r))) (station_onset taper tiny secs k d ts pc fl s).
Proof.
  unfold station_onset. cbv zeta. cbn [d' later_data d_start d_end]. unfold L. rewrite select_station_l, check_availability_l. rewrite out_bind. apply bind_ext_. intros [av dct] _. destruct (av =? 0); [reflexivity|].
  rewrite remove_unavailable_l, fill_gaps_l, bind_out, out_bind. apply bind_ext_. intros w _. rewrite onset_l, out_bind. apply bind_ext_. reflexivity.
Qed.
Let upd_state (r : loop_state) := mk_state (l_onsets r) (l_dict r) (map L (l_filtered r)) (l_avail r).
Lemma stations_l ph pc fl : forall sts a,
  fold_out (station_body taper tiny secs k d' ts ph pc (map L fl)) sts (upd_state a) = out_map upd_state (fold_out (station_body taper tiny secs k d ts ph pc fl) sts a).
Proof.
  induction sts as [|s sts IH]; intros a; [reflexivity|]. cbn [fold_out]. unfold station_body at 1 3. rewrite station_l.
  destruct (station_onset taper tiny secs k d ts pc fl s) as [[av [[o w]|]]| |]; cbn [out_map bind fst snd option_map]; try reflexivity.
  - rewrite <- IH. f_equal. unfold upd_state. cbn [l_onsets l_dict l_filtered l_avail]. rewrite map_app. reflexivity.
  - rewrite <- IH. reflexivity.
Qed.
Lemma phase_waveforms_l pc : phase_waveforms lowpass secs k d' pc = out_map (map L) (phase_waveforms lowpass secs k d pc).
Proof. unfold phase_waveforms. cbn [d' later_data d_waveforms d_resample d_upfactor d_start d_end]. rewrite select_channel_l. apply pre_process_l. Qed.
Lemma phases_l phs : forall a,
  fold_out (phase_body lowpass taper tiny secs k d' ts) phs (upd_state a) = out_map upd_state (fold_out (phase_body lowpass taper tiny secs k d ts) phs a).
Proof.
  induction phs as [|ph phs IH]; intros a; [reflexivity|]. cbn [fold_out]. unfold phase_body at 1 3. destruct (dget (o_cfg k) ph) as [pc|] eqn:Ec; [|reflexivity].
  rewrite phase_waveforms_l. destruct (phase_waveforms lowpass secs k d pc) as [fl| |]; cbn [out_map bind]; try reflexivity.
  change (d_stations d') with (d_stations d). rewrite stations_l. destruct (fold_out (station_body taper tiny secs k d ts ph pc fl) (d_stations d) a) as [b| |]; cbn [out_map bind]; try reflexivity.
  apply IH.
Qed.
Lemma calculate_l : calculate_onsets lowpass taper tiny secs k d' ts = out_map upd_state (calculate_onsets lowpass taper tiny secs k d ts).
Proof.
  unfold calculate_onsets. change (mk_state [] [] [] []) with (upd_state (mk_state [] [] [] [])) at 1. rewrite phases_l. destruct (fold_out _ _ _) as [r| |]; cbn [out_map bind]; try reflexivity.
  cbn [upd_state l_avail l_onsets]. destruct (_ =? 0); [reflexivity|]. destruct (l_onsets r) as [|o rows] eqn:Eo; [reflexivity|]. destruct (forallb _ rows); [|reflexivity]. cbn [out_map]. unfold upd_state. rewrite Eo. reflexivity.
Qed.
End Run.

(** * The picks *)
Section Picks.
Variables (t : Z) (curve_fit : list Z -> list Q -> outcome (Q * Q * Q)) (m : Picker_Model.pick_method) (c : clock) (mw : Z).
Lemma windows_l otime st phases : Picker_Model.station_windows c (otime + t) (st + t) mw phases = Picker_Model.station_windows c otime st mw phases.
Proof.
  unfold Picker_Model.station_windows. f_equal. apply map_ext. intros p. unfold Picker_Model.determine_window. replace (otime + t + Picker_Model.ph_tt p - (st + t)) with (otime + Picker_Model.ph_tt p - st) by lia. reflexivity.
Qed.
Lemma row_l otime st s p f : later_pick t (Picker_Model.pick_row_of c otime st s p f) (Picker_Model.pick_row_of c (otime + t) (st + t) s p f).
Proof.
  unfold later_pick, Picker_Model.pick_row_of. destruct f as [[[h mu] sg]|]; cbn [Picker_Model.p_station Picker_Model.p_phase Picker_Model.p_model Picker_Model.p_time Picker_Model.p_error Picker_Model.p_snr Picker_Model.p_residual apart].
  - repeat split; try lia; rewrite !inject_Z_plus; ring.
  - repeat split; lia.
Qed.
Lemma rows_l {A} (f f' : A -> outcome Picker_Model.pick_row) l : (forall x, out_rel (later_pick t) (f x) (f' x)) -> out_rel (Forall2 (later_pick t)) (Picker_Model.outcome_map f l) (Picker_Model.outcome_map f' l).
Proof.
  intros H. induction l as [|x l IH]; [constructor|]. cbn [Picker_Model.outcome_map]. specialize (H x). destruct (f x), (f' x); cbn [out_rel bind] in *; try contradiction; try assumption.
  destruct (Picker_Model.outcome_map f l), (Picker_Model.outcome_map f' l); cbn [out_rel bind] in *; try contradiction; try assumption. constructor; assumption.
Qed.
Lemma pick_station_l otime st s phases : out_rel (Forall2 (later_pick t)) (Picker_Model.pick_station curve_fit m c otime st mw s phases) (Picker_Model.pick_station curve_fit m c (otime + t) (st + t) mw s phases).
Proof.
  unfold Picker_Model.pick_station. rewrite windows_l. destruct (Picker_Model.station_windows c otime st mw phases) as [ws| |]; cbn [bind out_rel]; try reflexivity.
  apply rows_l. intros [p w]. cbn [fst snd]. destruct (Picker_Model.fit_gaussian _ _ _ _) as [f| |]; cbn [bind out_rel]; try reflexivity. apply row_l.
Qed.
Lemma pick_phases_l otime st onsets : out_rel (Forall2 (later_pick t)) (Picker_Model.pick_phases curve_fit m c otime st mw onsets) (Picker_Model.pick_phases curve_fit m c (otime + t) (st + t) mw onsets).
Proof.
  unfold Picker_Model.pick_phases.
  assert (H : out_rel (Forall2 (Forall2 (later_pick t))) (Picker_Model.outcome_map (fun so : string * list Picker_Model.phase_data => Picker_Model.pick_station curve_fit m c otime st mw (fst so) (snd so)) onsets)
    (Picker_Model.outcome_map (fun so : string * list Picker_Model.phase_data => Picker_Model.pick_station curve_fit m c (otime + t) (st + t) mw (fst so) (snd so)) onsets)).
  { induction onsets as [|[s ph] l IH]; [constructor|]. cbn [Picker_Model.outcome_map fst snd]. pose proof (pick_station_l otime st s ph) as P.
    destruct (Picker_Model.pick_station curve_fit m c otime st mw s ph), (Picker_Model.pick_station curve_fit m c (otime + t) (st + t) mw s ph); cbn [out_rel bind] in *; try contradiction; try assumption.
    destruct (Picker_Model.outcome_map _ l), (Picker_Model.outcome_map _ l); cbn [out_rel bind] in *; try contradiction; try assumption. constructor; assumption. }
  destruct (Picker_Model.outcome_map _ onsets), (Picker_Model.outcome_map _ onsets); cbn [out_rel bind] in *; try contradiction; try assumption.
  induction H as [|x y l l' Hxy _ IH]; cbn [concat]; [constructor|]. apply Forall2_app; assumption.
Qed.
End Picks.

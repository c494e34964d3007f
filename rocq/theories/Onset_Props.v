(** C119: the onset functions of a time window. *)
From Coq Require Import String Ascii.
From Coq Require Import List ZArith Reals QArith Bool Lia Lra Permutation.
From Verif Require Import Lib LibFacts PyDict Timeline_Model Avail_Model Avail_Spec Avail_Proofs Archive_Model Read_Model Migrate_Spec StaLta_Model StaLta_Spec Resample_Spec Onset_Model Onset_Spec Onset_Proofs.
From Verif Require Timeline_Spec Timeline_Proofs Resample_Model Lut_Model Lut_Spec Lut_Proofs Lut_Props Migrate_Proofs StaLta_Props Avail_Props.
Import ListNotations.
Open Scope Z_scope.

Definition plain_names (l : list string) : Prop := Forall Lut_Spec.plain_name l.

(** The verdict and the onset function of a station and phase depend on the data of that station only: other stations may be added, left out, or have other data. *)
Theorem C119_own_data :
  forall lowpass taper tiny secs k d d' ts r r' s ph, same_window d d' ->
  calculate_onsets lowpass taper tiny secs k d ts = Ret r -> calculate_onsets lowpass taper tiny secs k d' ts = Ret r' ->
  plain_names (o_phases k) -> plain_names (d_stations d) -> plain_names (d_stations d') ->
  In s (d_stations d) -> In s (d_stations d') -> In ph (o_phases k) -> plain_station s -> same_data s (d_waveforms d) (d_waveforms d') ->
  dget (l_avail r) (onset_key s ph) = dget (l_avail r') (onset_key s ph) /\ onset_for (l_dict r) s ph = onset_for (l_dict r') s ph.
Proof.
  intros lp tp tiny secs k d d' ts r r' s ph W H H' Pp Ps Ps' Is Is' Ip Pl Sd.
  assert (Inj : forall l, plain_names l -> forall a a' p p', In a l -> In a' l -> In p (o_phases k) -> In p' (o_phases k) -> onset_key a p = onset_key a' p' -> p = p').
  { intros l Pn a a' p p' Ia Ia' Jp Jp' E. unfold plain_names in *. rewrite Forall_forall in Pn, Pp. apply (key_inj a a' p p'); auto. }
  destruct (phases_loop lp tp tiny secs k d ts _ _ _ (calculate_loops _ _ _ _ _ _ _ _ H)) as (A1 & _ & A3 & A4 & _). destruct (phases_loop lp tp tiny secs k d' ts _ _ _ (calculate_loops _ _ _ _ _ _ _ _ H')) as (B1 & _ & B3 & B4 & _).
  destruct (pair_same lp tp tiny secs k d d' ts ph s _ _ W Pl Sd (A1 ph s Ip Is) (B1 ph s Ip Is')) as (E1 & E2 & _).
  rewrite (A4 (Inj _ Ps) s ph Ip Is), (B4 (Inj _ Ps') s ph Ip Is'), E1. split; [reflexivity|].
  rewrite A3, B3. destruct (in_dec string_dec ph (o_phases k)) as [_|C]; [|contradiction]. destruct (in_dec string_dec s (d_stations d)) as [_|C]; [|contradiction]. destruct (in_dec string_dec s (d_stations d')) as [_|C]; [|contradiction].
  rewrite E2. reflexivity.
Qed.
Print Assumptions C119_own_data.

(** The order of the traces, and in particular the way in which the traces of different stations and channels are mixed, makes no difference. *)
Theorem C119_same_waveforms :
  forall lowpass taper tiny secs k d d' ts r, same_window d d' -> d_stations d = d_stations d' ->
  (forall i, filter (fun g => String.eqb (sg_id g) i) (d_waveforms d) = filter (fun g => String.eqb (sg_id g) i) (d_waveforms d')) ->
  calculate_onsets lowpass taper tiny secs k d ts = Ret r ->
  exists r', calculate_onsets lowpass taper tiny secs k d' ts = Ret r' /\ l_onsets r = l_onsets r' /\ l_dict r = l_dict r' /\ l_avail r = l_avail r'.
Proof. intros lp tp tiny secs k d d' ts r W Hs Hw H. exact (calculate_sim lp tp tiny secs k d d' ts W Hs Hw r H). Qed.
Print Assumptions C119_same_waveforms.

Lemma array1_ext_ {A} n (f g : Z -> A) : (forall i, 0 <= i < n -> f i = g i) -> array1 n f = array1 n g.
Proof. intros H. unfold array1. apply map_ext_in. intros i Hi. apply in_zrange in Hi. apply H, Hi. Qed.
Lemma onset_fn_ok tiny k x nsta nlta : (0 < tiny <= 1)%R -> 1 <= nsta < nlta -> let n := Z.of_nat (length x) in nlta + nsta <= n -> never_silent tiny n nlta (sample x) ->
  onset_fn tiny k x nsta nlta = Ret (array1 n (fun i => Some (sta_lta (o_centred k) n nsta nlta (sample x) i))).
Proof.
  intros Ht Hs n Hn Ns. rewrite <- (array1_sample x) at 1. fold n. unfold onset_fn.
  assert (Py : (if o_centred k then centred_py tiny (array1 n (sample x)) nsta nlta else overlapping_py tiny (array1 n (sample x)) nsta nlta) = Ret (array1 n (fun i => Some (sta_lta (o_centred k) n nsta nlta (sample x) i)))).
  { destruct (o_centred k).
    - rewrite StaLta_Props.C10_centred_python by lia || lra. f_equal. apply array1_ext_. intros i Hi. unfold sta_lta. destruct (Z.ltb_spec i (nlta - 1)); [reflexivity|]. destruct (Z.leb_spec (n - nsta) i); [reflexivity|].
      destruct (Rlt_dec _ tiny) as [C|]; [|reflexivity]. specialize (Ns i ltac:(lia)). lra.
    - rewrite StaLta_Props.C09_overlapping_python by lia || lra. f_equal. apply array1_ext_. intros i Hi. unfold sta_lta. destruct (Z.ltb_spec i (nlta - 1)); [reflexivity|].
      destruct (Rlt_dec _ tiny) as [C|]; [|reflexivity]. specialize (Ns i ltac:(lia)). lra. }
  destruct (o_centred k), (o_python k); try exact Py.
  - rewrite (StaLta_Props.C10_backends_agree tiny) by (try lia; try lra; intros i Hi; apply Ns; lia). exact Py.
  - rewrite (StaLta_Props.C09_backends_agree tiny) by (try lia; try lra; intros i Hi; apply Ns; lia). exact Py.
Qed.

(** The windows of [C119_value_partial] span the lengths that were set, to the nearest sample: from the first to the last sample, so they have one sample more than intervals. *)
Theorem C119_windows_partial :
  forall secs k t, 0 < o_rate k -> (o_rate k | secs) -> 0 < secs ->
  let spacing := secs / o_rate k in
  2 * Z.abs ((stw_samples (o_clock secs k) t - 1) * spacing - t) <= spacing /\ 2 * Z.abs ((ltw_samples (o_clock secs k) t - 1) * spacing - t) <= spacing.
Proof.
  intros secs k t Hr (q & Eq) Hs spacing. assert (Q : spacing = q) by (unfold spacing; rewrite Eq; apply Z.div_mul; lia).
  assert (0 < q) by (apply Z.mul_pos_cancel_r with (o_rate k); lia).
  assert (E : time2sample (o_clock secs k) t = rnd_he t spacing).
  { unfold time2sample, o_clock. cbn [sec delta]. fold spacing. rewrite Q, Eq. rewrite (Z.mul_comm q), Z.div_mul by lia.
    rewrite (Z.mul_comm (o_rate k) q). apply Timeline_Proofs.rnd_he_scale; lia. }
  unfold stw_samples, ltw_samples. rewrite E. pose proof (Timeline_Proofs.rnd_he_nearest t spacing ltac:(lia)) as N. unfold Timeline_Spec.nearest in N.
  replace (rnd_he t spacing + 1 - 1) with (rnd_he t spacing) by lia. split; exact N.
Qed.
Print Assumptions C119_windows_partial.
Example C119_windows_example : stw_samples (o_clock 100000 {| o_rate := 50; o_phases := []; o_cfg := []; o_transform := fun l => l; o_centred := false; o_python := true; o_all := true; o_gaps := false; o_full := true; o_floor := 1%R; o_post := 0 |}) 20000 = 11.
Proof. reflexivity. Qed.

(** What is asked of a channel. *)
Definition onset_criteria (secs : Z) (k : onset_cfg) (pc : phase_cfg) : criteria := mk_criteria (o_all k) (Some (ph_count pc)) (o_gaps k) (o_full k) true (Some (secs / o_rate k)) false.

(** Partial: the windows fit in the data, the long-term average never vanishes, and the taper is not negative. The onset function is the root mean square of the STA/LTA functions of the channels, or the floor if that is larger; where the windows reach into the taper of a given timespan, 1. The same with both backends. *)
Theorem C119_value_partial :
  forall taper tiny secs k d ts pc fl s o w, (0 < tiny <= 1)%R -> (forall t, ts = Some t -> 0 <= taper_samples secs k t) ->
  let nsta := stw_samples (o_clock secs k) (ph_sta pc) in let nlta := ltw_samples (o_clock secs k) (ph_lta pc) in
  let edge n i := match ts with None | Some 0 => false | Some t => (i <? taper_samples secs k t + nlta - 1) || (n - (nsta + taper_samples secs k t) <=? i) end in
  1 <= nsta < nlta ->
  station_onset taper tiny secs k d ts pc fl s = Ret (1, Some (o, w)) ->
  (forall g, In g w -> let x := o_transform k (sg_data g) in nlta + nsta <= Z.of_nat (length x) /\ never_silent tiny (Z.of_nat (length x)) nlta (sample x)) ->
  exists n, (forall g, In g w -> Z.of_nat (length (o_transform k (sg_data g))) = n)
  /\ o = array1 n (fun i => Some (Rmax (rms (map (fun g => if edge n i then 1%R else sta_lta (o_centred k) n nsta nlta (sample (o_transform k (sg_data g))) i) w)) (o_floor k))).
Proof.
  intros tp tiny secs k d ts pc fl s o w Ht Hts nsta nlta edge Hs H Hg. unfold station_onset in H. cbv zeta in H.
  destruct (check_availability _ _ _ _ _) as [[v dct]| |]; cbn [bind] in H; try discriminate. destruct (v =? 0); [discriminate|].
  destruct (fill_gaps _ _ _ _ _ _ _) as [w0| |]; cbn [bind] in H; try discriminate. destruct (onset _ _ _ _ _ _ _) as [o0| |] eqn:E; cbn [bind] in H; try discriminate.
  assert (o0 = o) by congruence. assert (w0 = w) by congruence. subst o0 w0. clear H. fold nsta nlta in E. unfold onset in E.
  rewrite (map_out_ret _ w (map (fun g => array1 (Z.of_nat (length (o_transform k (sg_data g)))) (fun i => Some (sta_lta (o_centred k) (Z.of_nat (length (o_transform k (sg_data g)))) nsta nlta (sample (o_transform k (sg_data g))) i))) w)) in E.
  2: { clear E. induction w as [|g w IH]; cbn [map]; constructor; [|apply IH; intros g' I'; apply Hg; right; exact I'].
    destruct (Hg g (or_introl eq_refl)) as (L1 & L2). apply onset_fn_ok; assumption. }
  cbn [bind] in E. destruct w as [|g0 w]; [discriminate|]. cbn [map] in E. destruct (forallb _ _) eqn:Fb; [|discriminate].
  exists (Z.of_nat (length (o_transform k (sg_data g0)))). set (n := Z.of_nat (length (o_transform k (sg_data g0)))) in *.
  assert (Ln : forall g, In g (g0 :: w) -> Z.of_nat (length (o_transform k (sg_data g))) = n).
  { intros g [<-|Ig]; [reflexivity|]. rewrite forallb_forall in Fb. specialize (Fb _ (in_map _ _ _ Ig)). apply Nat.eqb_eq in Fb. unfold array1 in Fb. rewrite !map_length, !zrange_length in Fb. lia. }
  split; [exact Ln|].
  assert (Em : map (fun g => array1 (Z.of_nat (length (o_transform k (sg_data g)))) (fun i => Some (sta_lta (o_centred k) (Z.of_nat (length (o_transform k (sg_data g)))) nsta nlta (sample (o_transform k (sg_data g))) i))) (g0 :: w)
    = map (fun f : Z -> R => array1 n (fun i => Some (f i))) (map (fun g => sta_lta (o_centred k) n nsta nlta (sample (o_transform k (sg_data g)))) (g0 :: w))).
  { rewrite map_map. apply map_ext_in. intros g Ig. rewrite (Ln g Ig). reflexivity. }
  
  set (fs := map (fun g => sta_lta (o_centred k) n nsta nlta (sample (o_transform k (sg_data g)))) (g0 :: w)) in *.
  assert (Ed : forall v, (forall t, ts = Some t -> t <> 0 -> v = Some (taper_samples secs k t)) -> ((ts = None \/ ts = Some 0) -> v = None) -> o = combined_onset (o_floor k) nsta nlta v (map (fun f : Z -> R => array1 n (fun i => Some (f i))) fs)).
  { intros v0 V1 V2. rewrite <- Em. cbn [map]. fold n. fold n in E. destruct ts as [[|q|q]|].
    - rewrite V2 by auto. congruence.
    - rewrite (V1 (Z.pos q) eq_refl ltac:(discriminate)). congruence.
    - rewrite (V1 (Z.neg q) eq_refl ltac:(discriminate)). congruence.
    - rewrite V2 by auto. congruence. }
  assert (Fn : fs <> []) by discriminate.
  assert (Pos : forall q, ts = Some q -> q <> 0 -> o = array1 n (fun i => Some (Rmax (rms (map (fun f : Z -> R => if (i <? taper_samples secs k q + nlta - 1) || (n - (nsta + taper_samples secs k q) <=? i) then 1%R else f i) fs)) (o_floor k)))).
  { intros q Eq Nq. rewrite (Ed (Some (taper_samples secs k q))) by (intros; first [congruence|exfalso; intuition congruence]).
    apply (StaLta_Props.C14_combined_onset_value (o_floor k) n nsta nlta (taper_samples secs k q) fs Fn); try lia. apply Hts, Eq. }
  assert (Nop : ts = None \/ ts = Some 0 -> o = array1 n (fun i => Some (Rmax (rms (map (fun f : Z -> R => f i) fs)) (o_floor k)))).
  { intros Eq. rewrite (Ed None) by (intros; first [reflexivity|exfalso; intuition congruence]). apply (StaLta_Props.C14_combined_onset_value (o_floor k) n nsta nlta 0 fs Fn); lia. }
  destruct ts as [[|q|q]|]; [rewrite Nop by auto|rewrite (Pos _ eq_refl) by discriminate|rewrite (Pos _ eq_refl) by discriminate|rewrite Nop by auto]; unfold fs; apply array1_ext_; intros i _; rewrite map_map; reflexivity.
Qed.
Print Assumptions C119_value_partial.

(** Without filling of gaps, the channels are those of the station that meet the criteria. *)
Theorem C119_components_partial :
  forall taper tiny secs k d ts pc fl s o w, 0 < secs -> plain_station s -> Forall (sampled (o_clock secs k)) fl -> (o_all k = true -> 0 < ph_count pc) ->
  o_gaps k = false -> o_full k = true -> station_onset taper tiny secs k d ts pc fl s = Ret (1, Some (o, w)) ->
  forall g, In g w <-> In g fl /\ of_station s (sg_id g) /\ channel_ok (d_start d) (d_end d) (onset_criteria secs k pc) (filter (fun x => String.eqb (sg_id x) (sg_id g)) fl).
Proof.
  intros tp tiny secs k d ts pc fl s o w Hs Pl Sm Pc Og Of H g. unfold station_onset in H. cbv zeta in H. fold (onset_criteria secs k pc) in H.
  destruct (check_availability _ _ _ _ _) as [[v dct]| |] eqn:E; cbn [bind] in H; try discriminate. destruct (v =? 0); [discriminate|].
  unfold fill_gaps in H. rewrite Og, Of in H. cbn [orb negb bind] in H. destruct (onset _ _ _ _ _ _ _) as [o0| |]; cbn [bind] in H; try discriminate.
  assert (Ew : w = remove_unavailable dct (select_station fl s)) by congruence. rewrite Ew. clear H Ew.
  assert (Sm' : Forall (sampled (o_clock secs k)) (select_station fl s)) by (apply Forall_forall; intros x Ix; apply filter_In in Ix; apply (proj1 (Forall_forall _ _) Sm), Ix).
  rewrite (Avail_Props.C47_failed_channels_removed (o_clock secs k) (d_start d) (d_end d) (onset_criteria secs k pc) (select_station fl s) v dct Hs Sm'); [| |left; reflexivity|exact E].
  2: { split; [discriminate|]. intros Ha. exists (ph_count pc). split; [reflexivity|apply Pc, Ha]. }
  assert (Ms : In g (select_station fl s) <-> In g fl /\ of_station s (sg_id g)).
  { unfold select_station. rewrite filter_In, String.eqb_eq, <- (st_name_iff s (sg_id g) Pl). reflexivity. }
  assert (Fs : of_station s (sg_id g) -> filter (fun x => String.eqb (sg_id x) (sg_id g)) (select_station fl s) = filter (fun x => String.eqb (sg_id x) (sg_id g)) fl).
  { intros Ho. apply (st_name_iff s (sg_id g) Pl) in Ho. pose proof (select_by (fun i => String.eqb (st_name i) s) fl (sg_id g)) as X. cbv beta in X. rewrite Ho, String.eqb_refl in X. exact X. }
  rewrite Ms. split; intros (A & B); [destruct A as (A & A')|destruct B as (A' & B)]; rewrite (Fs A') in *; tauto.
Qed.
Print Assumptions C119_components_partial.

(** Partial: the traces are on their sampling times. All onset functions have as many samples as the window, so that they can be stacked: the call returns them, or reports that no data are available. With the Python backend all
    values are numbers, and at least the floor. *)
Theorem C119_lengths_partial :
  forall lowpass taper tiny secs k d ts, ticks_ok secs (o_rate k) -> (0 < tiny <= 1)%R ->
  (forall dd l, length (lowpass dd l) = length l) -> (forall l, length (taper l) = length l) -> (forall l, length (o_transform k l) = length l) ->
  (secs / o_rate k | d_start d) -> (secs / o_rate k | d_end d) -> d_start d <= d_end d ->
  (forall ph, In ph (o_phases k) -> exists pc, dget (o_cfg k) ph = Some pc /\ phase_ok secs k d pc) ->
  Forall (usable secs (o_rate k) (d_resample d) (d_upfactor d) (d_start d) (d_end d)) (d_waveforms d) ->
  calculate_onsets lowpass taper tiny secs k d ts = Raise DataAvailabilityException
  \/ exists r, calculate_onsets lowpass taper tiny secs k d ts = Ret r /\ l_onsets r <> []
     /\ Forall (fun o => Z.of_nat (length o) = n_window secs (o_rate k) (d_start d) (d_end d)) (l_onsets r)
     /\ (o_python k = true -> Forall (Forall (fun v => exists x, v = Some x /\ (o_floor k <= x)%R)) (l_onsets r)).
Proof.
  intros lp tp tiny secs k d ts T Ht HL HT HTr G0 G1 Hle Hc Fu. set (n := n_window secs (o_rate k) (d_start d) (d_end d)).
  assert (Ph : forall ph, In ph (o_phases k) -> exists pc fl, dget (o_cfg k) ph = Some pc /\ phase_ok secs k d pc /\ phase_waveforms lp secs k d pc = Ret fl /\ Forall (prepared secs (o_rate k) (d_start d) (d_end d)) fl).
  { intros ph Ip. destruct (Hc ph Ip) as (pc & Ec & P). pose proof P as (_ & _ & _ & P4 & P5).
    destruct (pre_process_prepared lp (ph_band pc) secs (o_rate k) (d_resample d) (d_upfactor d) (ph_highcut pc) (d_start d) (d_end d) (select_channel (ph_map pc) (d_waveforms d)) T HL P4 P5 G0 G1 Hle) as (fl & Ef & Ff).
    - apply Forall_forall. intros g Ig. apply filter_In in Ig. apply (proj1 (Forall_forall _ _) Fu), Ig.
    - exists pc, fl. auto. }
  assert (St : forall ph pc fl, phase_ok secs k d pc -> Forall (prepared secs (o_rate k) (d_start d) (d_end d)) fl -> forall sts a, exists b, fold_out (station_body tp tiny secs k d ts ph pc fl) sts a = Ret b).
  { intros ph pc fl P F. induction sts as [|s sts IH]; intros a; [exists a; reflexivity|]. cbn [fold_out]. unfold station_body at 1. destruct (station_len lp tp tiny secs k d ts T Ht HT HTr G0 G1 pc fl s P F) as (av & x & E & _). rewrite E. cbn [bind]. destruct x as [[o w]|]; apply IH. }
  assert (Lp : forall phs a, (forall ph, In ph phs -> In ph (o_phases k)) -> exists b, fold_out (phase_body lp tp tiny secs k d ts) phs a = Ret b).
  { induction phs as [|ph phs IH]; intros a Hi; [exists a; reflexivity|]. cbn [fold_out]. unfold phase_body at 1. destruct (Ph ph (Hi ph (or_introl eq_refl))) as (pc & fl & Ec & P & Ef & Ff). rewrite Ec, Ef. cbn [bind].
    destruct (St ph pc fl P Ff (d_stations d) a) as (b & Eb). rewrite Eb. cbn [bind]. apply IH. intros p Ip. apply Hi. right. exact Ip. }
  destruct (Lp (o_phases k) (mk_state [] [] [] []) (fun _ H => H)) as (r & Er).
  destruct (phases_loop lp tp tiny secs k d ts _ _ _ Er) as (A1 & A2 & _). cbn [l_onsets app] in A2.
  assert (Rw : forall row, In row (l_onsets r) -> Z.of_nat (length row) = n /\ (o_python k = true -> Forall (fun v => exists x, v = Some x /\ (o_floor k <= x)%R) row)).
  { intros row Ir. rewrite A2 in Ir. apply in_flat_map in Ir. destruct Ir as (ph & Ip & I2). apply in_flat_map in I2. destruct I2 as (s & Is & I3). pose proof (A1 ph s Ip Is) as Eg. destruct (got lp tp tiny secs k d ts ph s) as [av x]. unfold res_row in I3. cbn [snd] in I3.
    destruct x as [[o w]|]; [|destruct I3]. destruct I3 as [<-|[]]. unfold pair_result in Eg. destruct (Ph ph Ip) as (pc & fl & Ec & P & Ef & Ff). rewrite Ec, Ef in Eg. cbn [bind] in Eg.
    destruct (station_len lp tp tiny secs k d ts T Ht HT HTr G0 G1 pc fl s P Ff) as (av' & x' & E & Hx). rewrite Eg in E. assert (x' = Some (o, w)) by congruence. subst x'. split; [apply Hx|].
    intros Py. apply (station_numbers tp tiny secs k d ts pc fl s av o w (proj1 Ht) Py Eg). }
  unfold calculate_onsets. rewrite Er. cbn [bind]. destruct (Z.eqb_spec (fold_left Z.add (values (l_avail r)) 0) 0) as [_|Nz]; [left; reflexivity|]. right.
  pose proof (phases_refine lp tp tiny secs k d ts _ _ _ Er) as Rf. cbn [l_onsets l_avail map] in Rf.
  destruct (l_onsets r) as [|o0 rows] eqn:Eo.
  { exfalso. apply Nz. apply zeros_sum. set (F := fold_left _ (o_phases k) _) in Rf. assert (F1 : fst F = []) by (rewrite <- Rf; reflexivity). assert (F2 : snd F = l_avail r) by (rewrite <- Rf; reflexivity). rewrite <- F2.
    apply (no_rows (check lp tp tiny secs k d ts) (rows_of lp tp tiny secs k d ts) (d_stations d) (o_phases k) ([], []) F1). constructor. }
  exists r. assert (Fb : forallb (fun x : list (option R) => Nat.eqb (length x) (length o0)) rows = true).
  { apply forallb_forall. intros x Ix. apply Nat.eqb_eq. pose proof (proj1 (Rw o0 (or_introl eq_refl))). pose proof (proj1 (Rw x (or_intror Ix))). lia. }
  rewrite Fb. split; [reflexivity|]. rewrite Eo. split; [discriminate|]. split; [apply Forall_forall; intros x Ix; apply Rw, Ix|]. intros Py. apply Forall_forall. intros x Ix. apply Rw; assumption.
Qed.
Print Assumptions C119_lengths_partial.

(** Two stations, one of them without data; five samples at 50 Hz; windows of one and two samples. *)
Definition ex_phase : phase_cfg := mk_phase [GStar; GChar "Z"%char] 1 0 2000 (2 # 1) (fun _ l => l).
Definition ex_set : onset_cfg := mk_onset ["P"%string] [("P"%string, ex_phase)] true false true 50 false true (map (fun x => x * x)%R) (1 / 100)%R 0.
Definition ex_trace : seg := mk_seg "A.BHZ" 2000 2000 [1; 2; 3; 4; 5]%R.
Definition ex_data : wdata := mk_wdata [mk_seg "A.BHN" 2000 2000 [1; 2; 3; 4; 6]%R; ex_trace] ["A"%string; "B"%string] false None 2000 10000.
Lemma ex_station ts : exists o, length o = 5%nat /\ station_onset (fun l => l) (1 / 2) 100000 ex_set ex_data ts ex_phase [ex_trace] "A"%string = Ret (1, Some (o, [ex_trace])).
Proof.
  assert (Fl : any_flat [ex_trace] = Ret false).
  { cbn [any_flat flatline ex_trace sg_data fold_left bind]. destruct (Req_EM_T _ _) as [C|]; [|reflexivity]. exfalso.
    assert (Rmax (Rmax (Rmax (Rmax 1 2) 3) 4) 5 >= 5)%R by (apply Rle_ge, Rmax_r).
    assert (Rmin (Rmin (Rmin (Rmin 1 2) 3) 4) 5 <= 4)%R by (eapply Rle_trans; [apply Rmin_l|apply Rmin_r]). lra. }
  assert (Ck : check_availability (o_clock 100000 ex_set) 2000 10000 (mk_criteria true (Some 1) false true true (Some 2000) false) [ex_trace] = Ret (1, [("A.BHZ"%string, 1)])).
  { unfold check_availability. change (sorted_ids [ex_trace]) with ["A.BHZ"%string]. cbn [check_channels]. change (select_id [ex_trace] "A.BHZ") with [ex_trace]. unfold check_channel. rewrite Fl. reflexivity. }
  destruct (onset_len (1 / 2) 100000 ex_set 1 2 ts 5 [ex_trace]) as (o & Eo & Lo); [lra|intros l; apply map_length|lia|lia|discriminate|repeat constructor|].
  exists o. split; [lia|]. unfold station_onset. cbv zeta. change (select_station [ex_trace] "A") with [ex_trace]. cbn [ph_count ex_phase o_all o_gaps o_full o_rate ex_set d_start d_end ex_data]. change (100000 / 50) with 2000.
  rewrite Ck. cbn [bind Z.eqb]. change (remove_unavailable [("A.BHZ"%string, 1)] [ex_trace]) with [ex_trace]. unfold fill_gaps. cbn [o_gaps o_full ex_set orb negb bind].
  change (stw_samples (o_clock 100000 ex_set) (ph_sta ex_phase)) with 1. change (ltw_samples (o_clock 100000 ex_set) (ph_lta ex_phase)) with 2. cbn [bind]. rewrite Eo. reflexivity.
Qed.
Example C119_example : ticks_ok 100000 (o_rate ex_set) /\ phase_ok 100000 ex_set ex_data ex_phase
  /\ Forall (usable 100000 (o_rate ex_set) (d_resample ex_data) (d_upfactor ex_data) (d_start ex_data) (d_end ex_data)) (d_waveforms ex_data)
  /\ exists r o, calculate_onsets (fun _ l => l) (fun l => l) (1 / 2) 100000 ex_set ex_data None = Ret r /\ onset_for (l_dict r) "A" "P" = Some o /\ onset_for (l_dict r) "B" "P" = None /\ l_avail r = [("A_P"%string, 1); ("B_P"%string, 0)].
Proof.
  split; [|split; [|split]].
  - repeat split; try lia; [exists 1|exists 2000]; reflexivity.
  - repeat split; try reflexivity; discriminate.
  - assert (U : forall i l, l <> [] -> usable 100000 50 false None 2000 10000 (mk_seg i 2000 2000 l)). { intros i l N. split; [split; [reflexivity|exists 1; reflexivity]|]. split; [exact N|]. split; [cbn; lia|]. left. reflexivity. }
    constructor; [apply U; discriminate|constructor; [apply U; discriminate|constructor]].
  - destruct (ex_station None) as (o & _ & Eo). assert (Ew : phase_waveforms (fun _ l => l) 100000 ex_set ex_data ex_phase = Ret [ex_trace]) by reflexivity.
    exists (mk_state [o] [("A"%string, [("P"%string, o)])] [ex_trace] [("A_P"%string, 1); ("B_P"%string, 0)]), o. split; [|repeat split; reflexivity].
    unfold calculate_onsets. cbn [o_phases ex_set fold_out]. unfold phase_body. cbn [o_cfg ex_set dget String.eqb Ascii.eqb Bool.eqb bind]. fold ex_set. rewrite Ew. cbn [bind d_stations ex_data fold_out]. fold ex_data.
    unfold station_body at 1. rewrite Eo. cbn [bind]. reflexivity.
Qed.

(** A phase for which the object has no settings: no onset functions are given, whatever the other phases; if those before it pass, the error is KeyError. *)
Theorem C119_phase_without_settings :
  forall lowpass taper tiny secs k d ts ph, dget (o_cfg k) ph = None ->
  (In ph (o_phases k) -> forall r, calculate_onsets lowpass taper tiny secs k d ts <> Ret r)
  /\ (forall before after st, o_phases k = before ++ ph :: after -> fold_out (phase_body lowpass taper tiny secs k d ts) before (mk_state [] [] [] []) = Ret st -> calculate_onsets lowpass taper tiny secs k d ts = Raise KeyError).
Proof.
  intros lp tp tiny secs k d ts ph Hn. set (f := phase_body lp tp tiny secs k d ts). assert (Hf : forall st, f st ph = Raise KeyError) by (intros st; unfold f, phase_body; rewrite Hn; reflexivity).
  assert (App : forall l l' s, fold_out f (l ++ l') s = bind (fold_out f l s) (fold_out f l')) by (induction l as [|x l IH]; intros l' s; cbn [app fold_out bind]; [reflexivity|]; destruct (f s x); cbn [bind]; [apply IH|reflexivity|reflexivity]).
  split.
  - intros Ip r. apply in_split in Ip as (l1 & l2 & E). unfold calculate_onsets. rewrite E. fold f. rewrite App. destruct (fold_out f l1 _) as [st| |]; cbn [bind fold_out]; [rewrite Hf; cbn|..]; discriminate.
  - intros before after st E Hb. unfold calculate_onsets. rewrite E. fold f. rewrite App. fold f in Hb. rewrite Hb. cbn [bind fold_out]. rewrite Hf. reflexivity.
Qed.
Print Assumptions C119_phase_without_settings.
Definition ex_unset : onset_cfg := mk_onset ["S"%string; "P"%string] [("P"%string, ex_phase)] true false true 50 false true (map (fun x => x * x)%R) (1 / 100)%R 0.
Example C119_phase_without_settings_applies : dget (o_cfg ex_unset) "S" = None /\ In "S"%string (o_phases ex_unset) /\ forall lowpass taper tiny ts,
  fold_out (phase_body lowpass taper tiny 100000 ex_unset ex_data ts) [] (mk_state [] [] [] []) = Ret (mk_state [] [] [] []) /\ calculate_onsets lowpass taper tiny 100000 ex_unset ex_data ts = Raise KeyError.
Proof. split; [reflexivity|]. split; [left; reflexivity|]. intros. split; reflexivity. Qed.

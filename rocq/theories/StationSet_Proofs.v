(** Proofs about the order of the stations and stations without data. *)
From Coq Require Import String Ascii.
From Coq Require Import List ZArith Reals QArith Bool Lia Lra Permutation.
From Verif Require Import Lib LibFacts PyDict Timeline_Model Timeline_Spec Avail_Model Migrate_Spec Lut_Spec Locate_Spec Resample_Spec Onset_Model Onset_Spec Onset_Proofs Compute_Spec StationSet_Spec.
From Verif Require ScanMseed_Model Lut_Model Lut_Proofs StaLta_Spec Resample_Model Onset_Props Compute_Props.
Import ListNotations.
Open Scope Z_scope.

Lemma rprod_perm a b : Permutation a b -> Rprod a = Rprod b.
Proof. unfold Rprod. induction 1; cbn [fold_right]; [reflexivity|congruence|ring|congruence]. Qed.
Lemma geometric_perm a b : Permutation a b -> geometric_mean a = geometric_mean b.
Proof. intros P. unfold geometric_mean. rewrite (rprod_perm a b P), (Permutation_length P). reflexivity. Qed.

(** A station without traces has no onset function. *)
Lemma silent_pair lowpass taper tiny secs k d ts ph s r : plain_station s -> silent s d -> pair_result lowpass taper tiny secs k d ts ph s = Ret r -> r = (0, None).
Proof.
  intros Ps Sl Ep.
  unfold pair_result in Ep. destruct (dget (o_cfg k) ph) as [pc|] eqn:Ec; [|discriminate]. destruct (phase_waveforms lowpass secs k d pc) as [fl| |] eqn:Ef; cbn [bind] in Ep; try discriminate.
  assert (N : select_station fl s = []).
  { destruct (select_station fl s) as [|g r0] eqn:Es; [reflexivity|exfalso]. assert (Ig : In g (select_station fl s)) by (rewrite Es; left; reflexivity). unfold select_station in Ig. apply filter_In in Ig. destruct Ig as (Ig & Eg). apply String.eqb_eq in Eg.
    assert (In g (select_id fl (sg_id g))) by (apply select_in; auto). unfold phase_waveforms in Ef. pose proof (pp_select _ _ _ _ _ _ _ _ _ _ _ (sg_id g) Ef) as Q. rewrite channel_select in Q.
    assert (Z : select_id (d_waveforms d) (sg_id g) = []).
    { destruct (select_id (d_waveforms d) (sg_id g)) as [|h t] eqn:Eh; [reflexivity|exfalso]. assert (Ih : In h (select_id (d_waveforms d) (sg_id g))) by (rewrite Eh; left; reflexivity). apply select_in in Ih. destruct Ih as (Ih & Eid). apply (Sl h Ih). rewrite Eid. apply st_name_iff; assumption. }
    rewrite Z in Q. assert (Q' : Resample_Model.pre_process lowpass (ph_band pc) secs (o_rate k) (d_resample d) (d_upfactor d) (ph_highcut pc) (d_start d) (d_end d) [] = Ret (select_id fl (sg_id g))) by (match type of Q with context [if ?c then _ else _] => destruct c end; exact Q).
    revert Q' H. clear. intros Q I. unfold Resample_Model.pre_process, Resample_Model.resample, Resample_Model.trim_stream in Q. cbn [Resample_Model.resample_loop bind fst snd map filter app] in Q. destruct (Qle_bool _ _); [discriminate|]. assert (E : select_id fl (sg_id g) = []) by congruence. rewrite E in I. destruct I. }
  unfold station_onset in Ep. rewrite N in Ep. cbn [check_availability bind Z.eqb] in Ep. congruence.
Qed.

Section Window.
Variables (lowpass : Z -> list R -> list R) (taper : list R -> list R) (tiny : R) (secs : Z) (k : onset_cfg) (l : Lut_Model.lut) (tab : string -> string -> Lut_Model.table) (rate : R) (first last : Z).
Notation ready := (window_ready lowpass taper tiny secs k l tab rate first last).
Notation ck d := (check lowpass taper tiny secs k d None).
Notation on d := (rows_of lowpass taper tiny secs k d None).
Notation gt d := (got lowpass taper tiny secs k d None).

Lemma loops_total d : ready d -> exists r, fold_out (phase_body lowpass taper tiny secs k d None) (o_phases k) (mk_state [] [] [] []) = Ret r.
Proof.
  intros [T Ht Py HL HT HTr G0 G1 Hle Hc Fu _ _ _ _ _ _ _ _ _ _ _].
  assert (Ph : forall ph, In ph (o_phases k) -> exists pc fl, dget (o_cfg k) ph = Some pc /\ phase_ok secs k d pc /\ phase_waveforms lowpass secs k d pc = Ret fl /\ Forall (prepared secs (o_rate k) (d_start d) (d_end d)) fl).
  { intros ph Ip. destruct (Hc ph Ip) as (pc & Ec & (P1 & P2) & P3 & P4 & P5).
    destruct (pre_process_prepared lowpass (ph_band pc) secs (o_rate k) (d_resample d) (d_upfactor d) (ph_highcut pc) (d_start d) (d_end d) (select_channel (ph_map pc) (d_waveforms d)) T HL P4 P5 G0 G1 Hle) as (fl & Ef & Ff).
    - apply Forall_forall. intros g Ig. apply filter_In in Ig. apply (proj1 (Forall_forall _ _) Fu), Ig.
    - exists pc, fl. unfold phase_ok. auto 10. }
  assert (St : forall ph pc fl, phase_ok secs k d pc -> Forall (prepared secs (o_rate k) (d_start d) (d_end d)) fl -> forall sts a, exists b, fold_out (station_body taper tiny secs k d None ph pc fl) sts a = Ret b).
  { intros ph pc fl P F. induction sts as [|s sts IH]; intros a; [exists a; reflexivity|]. cbn [fold_out]. unfold station_body at 1. destruct (station_len lowpass taper tiny secs k d None T Ht HT HTr G0 G1 pc fl s P F) as (av & x & E & _). rewrite E. cbn [bind]. destruct x as [[o w]|]; apply IH. }
  assert (Lp : forall phs a, (forall ph, In ph phs -> In ph (o_phases k)) -> exists b, fold_out (phase_body lowpass taper tiny secs k d None) phs a = Ret b).
  { induction phs as [|ph phs IH]; intros a Hi; [exists a; reflexivity|]. cbn [fold_out]. unfold phase_body at 1. destruct (Ph ph (Hi ph (or_introl eq_refl))) as (pc & fl & Ec & P & Ef & Ff). rewrite Ec, Ef. cbn [bind].
    destruct (St ph pc fl P Ff (d_stations d) a) as (b & Eb). rewrite Eb. cbn [bind]. apply IH. intros p Ip. apply Hi. right. exact Ip. }
  apply Lp. auto.
Qed.
Lemma pairs_ok d : ready d -> forall ph s, In ph (o_phases k) -> In s (d_stations d) -> pair_result lowpass taper tiny secs k d None ph s = Ret (gt d ph s).
Proof. intros H. destruct (loops_total d H) as (r & E). destruct (phases_loop lowpass taper tiny secs k d None _ _ _ E) as (A1 & _). exact A1. Qed.
Lemma wr_lengths d : ready d -> calculate_onsets lowpass taper tiny secs k d None = Raise DataAvailabilityException
  \/ exists r, calculate_onsets lowpass taper tiny secs k d None = Ret r /\ Forall (fun o => Z.of_nat (length o) = n_window secs (o_rate k) (d_start d) (d_end d)) (l_onsets r) /\ Forall (Forall StaLta_Spec.is_number) (l_onsets r).
Proof.
  intros [T Ht Py HL HT HTr G0 G1 Hle Hc Fu _ _ _ _ _ _ _ _ _ _ _].
  destruct (Onset_Props.C119_lengths_partial lowpass taper tiny secs k d None T Ht HL HT HTr G0 G1 Hle) as [E|(r & E & _ & Ln & Nm)]; [|exact Fu|left; exact E|right].
  - intros ph Ip. destruct (Hc ph Ip) as (pc & Ec & (P1 & P2) & P3 & P4 & P5). exists pc. unfold phase_ok. auto 10.
  - exists r. split; [exact E|]. split; [exact Ln|]. apply Forall_forall. intros o Io. apply Forall_forall. intros v Iv. specialize (Nm Py). rewrite Forall_forall in Nm. specialize (Nm o Io). rewrite Forall_forall in Nm. destruct (Nm v Iv) as (x & -> & _). discriminate.
Qed.
(** The call is that of Lut_Model, whether or not there are data. *)
Lemma compute_is d r0 : ready d -> compute_coalescence lowpass taper tiny secs k r0 l d rate first last = Lut_Model.compute_map r0 l (ck d) (on d) (o_phases k) (d_stations d) rate first last.
Proof.
  intros H. destruct (wr_lengths d H) as [E|(r & E & Ln & Nm)].
  - unfold compute_coalescence. rewrite E. cbn [bind]. destruct (loops_total d H) as (r & Er). unfold calculate_onsets in E. rewrite Er in E. cbn [bind] in E.
    destruct (Z.eqb_spec (fold_left Z.add (values (l_avail r)) 0) 0) as [Z0|]; [|destruct (l_onsets r); [discriminate|]; destruct (forallb _ _); discriminate].
    pose proof (phases_refine lowpass taper tiny secs k d None _ _ _ Er) as Rf. cbn [l_onsets l_avail map] in Rf. unfold Lut_Model.compute_map, Lut_Model.calculate_onsets. cbv zeta. set (F := fold_left _ (o_phases k) _) in *.
    assert (F2 : snd F = l_avail r) by (rewrite <- Rf; reflexivity). rewrite F2, Z0. reflexivity.
  - destruct (all_numbers_some _ Nm) as (rows & En). exact (compute_refine lowpass taper tiny secs k r0 l d rate first last r rows E En).
Qed.
Lemma rows_length d : ready d -> forall s p, In (s, p) (used (ck d) (o_phases k) (d_stations d)) -> Z.of_nat (length (on d s p)) = n_window secs (o_rate k) (d_start d) (d_end d).
Proof.
  intros H s p I. unfold used in I. apply filter_In in I. cbn [fst snd] in I. destruct I as (I & C). unfold pairs in I. apply in_flat_map in I. destruct I as (p' & Ip & I). apply in_map_iff in I. destruct I as (s' & X & Is). injection X as -> ->.
  pose proof (pairs_ok d H p s Ip Is) as Ep. destruct (wr_lengths d H) as [E|(r & E & Ln & Nm)].
  - exfalso. pose proof H as [T Ht Py HL HT HTr G0 G1 Hle Hc Fu Hg Np Ns Pp Ps _ _ _ _ _ _].
    assert (E2 : Lut_Model.calculate_onsets (ck d) (on d) (o_phases k) (d_stations d) = Raise DataAvailabilityException).
    { unfold calculate_onsets in E. destruct (fold_out (phase_body lowpass taper tiny secs k d None) (o_phases k) (mk_state [] [] [] [])) as [r| |] eqn:Er; cbn [bind] in E.
      - destruct (Z.eqb_spec (fold_left Z.add (values (l_avail r)) 0) 0) as [Z0|]; [|destruct (l_onsets r); [discriminate|]; destruct (forallb _ _); discriminate].
        pose proof (phases_refine lowpass taper tiny secs k d None _ _ _ Er) as Rf. cbn [l_onsets l_avail map] in Rf. unfold Lut_Model.calculate_onsets. cbv zeta. set (F := fold_left _ (o_phases k) _) in *.
        assert (F2 : snd F = l_avail r) by (rewrite <- Rf; reflexivity). rewrite F2, Z0. reflexivity.
      - exfalso. destruct (loops_total d H) as (r & E3). congruence.
      - discriminate. }
    rewrite (Lut_Proofs.calculate_onsets_ok (ck d) (on d) (o_phases k) (d_stations d) Np Ns Pp Ps) in E2. destruct (used (ck d) (o_phases k) (d_stations d)) as [|x0 u0] eqn:Eu; [|discriminate].
    assert (In (s, p) []) as []. rewrite <- Eu. unfold used. apply filter_In. split; [|exact C]. unfold pairs. apply in_flat_map. exists p. split; [exact Ip|]. apply in_map_iff. exists s. auto.
  - pose proof (onset_rows lowpass taper tiny secs k d None r E) as Rw. unfold rows_of, res_numbers. unfold check, is_available in C. unfold pair_result in Ep. destruct (dget (o_cfg k) p) as [pc|] eqn:Ec; [|discriminate].
    destruct (phase_waveforms lowpass secs k d pc) as [fl| |] eqn:Ef; cbn [bind] in Ep; try discriminate. destruct (gt d p s) as [av x] eqn:Eg. pose proof (verdict_none lowpass taper tiny secs k d None pc fl s av x Ep) as V. cbn [fst snd] in *.
    destruct x as [[o w]|]; [|rewrite (proj2 V eq_refl) in C; discriminate].
    assert (Io : In o (l_onsets r)). { apply Rw. exists p, s, w, av. split; [exact Ip|]. split; [exact Is|]. unfold pair_result. rewrite Ec, Ef. exact Ep. }
    rewrite Forall_forall in Ln, Nm. destruct (numbers_some o (Nm o Io)) as (y & Ey & Ly & _). unfold row_of. rewrite Ey, Ly. apply Ln, Io.
Qed.

Lemma silent_check d s ph : ready d -> In ph (o_phases k) -> In s (d_stations d) -> silent s d -> ck d s ph = false.
Proof.
  intros H Ip Is Sl. unfold check, is_available. assert (Ps : plain_station s) by exact (proj1 (Forall_forall _ _) (wr_dots _ _ _ _ _ _ _ _ _ _ _ H) s Is).
  rewrite (silent_pair lowpass taper tiny secs k d None ph s _ Ps Sl (pairs_ok d H ph s Ip Is)). reflexivity.
Qed.
Lemma same_used d d' : ready d -> ready d' -> same_stations d d' -> Permutation (used (ck d) (o_phases k) (d_stations d)) (used (ck d') (o_phases k) (d_stations d'))
  /\ forall s p, In (s, p) (used (ck d) (o_phases k) (d_stations d)) -> on d s p = on d' s p.
Proof.
  intros H H' Ss.
  assert (Com : forall s p, In p (o_phases k) -> In s (d_stations d) -> In s (d_stations d') -> ck d s p = ck d' s p /\ on d s p = on d' s p).
  { intros s p Ip Is Is'. destruct (pair_same lowpass taper tiny secs k d d' None p s (gt d p s) (gt d' p s)) as (E1 & E2 & _); [| | |exact (pairs_ok d H p s Ip Is)|exact (pairs_ok d' H' p s Ip Is')|].
    - destruct Ss as [S1 S2 S3 S4 _ _ _]. repeat split; assumption.
    - exact (proj1 (Forall_forall _ _) (wr_dots _ _ _ _ _ _ _ _ _ _ _ H) s Is).
    - apply (ss_both _ _ Ss); assumption.
    - unfold check, rows_of, is_available, res_numbers. rewrite E1. split; [reflexivity|]. unfold res_onset in E2. destruct (snd (gt d p s)) as [[o w]|], (snd (gt d' p s)) as [[o' w']|]; cbn [option_map fst] in E2; try discriminate; congruence. }
  assert (Mem : forall dd s p, In (s, p) (used (ck dd) (o_phases k) (d_stations dd)) <-> In p (o_phases k) /\ In s (d_stations dd) /\ ck dd s p = true).
  { intros dd s p. unfold used. rewrite filter_In. cbn [fst snd]. unfold pairs. rewrite in_flat_map. split.
    - intros ((p' & Ip & I) & C). apply in_map_iff in I. destruct I as (s' & X & Is). injection X as -> ->. auto.
    - intros (Ip & Is & C). split; [|exact C]. exists p. split; [exact Ip|]. apply in_map_iff. exists s. auto. }
  assert (L : forall s p, In (s, p) (used (ck d) (o_phases k) (d_stations d)) -> In p (o_phases k) /\ In s (d_stations d) /\ In s (d_stations d')).
  { intros s p I. apply Mem in I. destruct I as (Ip & Is & C). split; [exact Ip|]. split; [exact Is|]. destruct (in_dec string_dec s (d_stations d')) as [Y|N]; [exact Y|]. rewrite (silent_check d s p H Ip Is (ss_left _ _ Ss s Is N)) in C. discriminate. }
  assert (Rr : forall s p, In (s, p) (used (ck d') (o_phases k) (d_stations d')) -> In p (o_phases k) /\ In s (d_stations d) /\ In s (d_stations d')).
  { intros s p I. apply Mem in I. destruct I as (Ip & Is & C). split; [exact Ip|]. split; [|exact Is]. destruct (in_dec string_dec s (d_stations d)) as [Y|N]; [exact Y|]. rewrite (silent_check d' s p H' Ip Is (ss_right _ _ Ss s Is N)) in C. discriminate. }
  split.
  - apply NoDup_Permutation.
    + apply NoDup_filter, Lut_Proofs.pairs_nodup; [exact (wr_nd_phases _ _ _ _ _ _ _ _ _ _ _ H)|exact (wr_nd_stations _ _ _ _ _ _ _ _ _ _ _ H)].
    + apply NoDup_filter, Lut_Proofs.pairs_nodup; [exact (wr_nd_phases _ _ _ _ _ _ _ _ _ _ _ H')|exact (wr_nd_stations _ _ _ _ _ _ _ _ _ _ _ H')].
    + intros [s p]. split; intros I; [destruct (L s p I) as (Ip & Is & Is')|destruct (Rr s p I) as (Ip & Is & Is')]; destruct (Com s p Ip Is Is') as (E & _); apply Mem in I; destruct I as (_ & _ & C); apply Mem; rewrite E in *; auto.
  - intros s p I. destruct (L s p I) as (Ip & Is & Is'). apply Com; assumption.
Qed.

Lemma used_le d : (length (used (ck d) (o_phases k) (d_stations d)) <= length (o_phases k) * length (d_stations d))%nat.
Proof.
  unfold used. eapply Nat.le_trans; [apply Compute_Props.filter_le|]. unfold pairs. clear. induction (o_phases k) as [|p ps IH]; [apply Nat.le_0_l|]. cbn [flat_map]. rewrite app_length, map_length. cbn [length Nat.mul]. lia.
Qed.
Lemma map_of d r0 : ready d -> let U := used (ck d) (o_phases k) (d_stations d) in let n := Lut_Model.g_count (Lut_Model.l_grid l) in let t := n_window secs (o_rate k) (d_start d) (d_end d) in
  U <> [] -> exists m, compute_coalescence lowpass taper tiny secs k r0 l d rate first last = Ret m /\ Z.of_nat (length m) = n_nodes n * (t - first - last)
  /\ forall q smp, is_node n q -> 0 <= smp < t - first - last -> rd m (flat n q * (t - first - last) + smp) = Some (geometric_mean (map (fun sp => clip01 (value (on d (fst sp) (snd sp)) (first + smp + Z.max 0 (ScanMseed_Model.np_round (entry0 (tab (fst sp) (snd sp)) q * rate))))) U)).
Proof.
  intros H U n t NU. rewrite (compute_is d r0 H). pose proof (rows_length d H) as Ln. pose proof (used_le d) as Le. destruct H as [T Ht Py HL HT HTr G0 G1 Hle Hc Fu Hg Np Ns Pp Ps Pd Hb Hf Hl Hfl Hsz].
  assert (InU : forall s p, In (s, p) U -> In s (d_stations d) /\ In p (o_phases k)).
  { intros s p I. unfold U, used in I. apply filter_In in I. destruct I as (I & _). unfold pairs in I. apply in_flat_map in I. destruct I as (p' & Ip & I). apply in_map_iff in I. destruct I as (s' & X & Is). injection X as -> ->. auto. }
  apply (Lut_Proofs.compute_map_ok r0 l (ck d) (on d) tab (o_phases k) (d_stations d) rate first last t Hg Np Ns Pp Ps NU Ln); try assumption.
  - intros s p I. destruct (InU s p I) as (Is & Ip). destruct (Hb s p Is Ip) as (B1 & B2 & _). auto.
  - intros s p q I Hq. destruct (InU s p I) as (Is & Ip). destruct (Hb s p Is Ip) as (_ & _ & B3). exact (B3 q Hq).
  - eapply Z.le_lt_trans; [|exact Hsz]. fold t. apply Z.mul_le_mono_nonneg_r; [unfold t; lia|]. apply inj_le. exact Le.
Qed.
Lemma coalescence_same d d' r0 : ready d -> ready d' -> same_stations d d' ->
  compute_coalescence lowpass taper tiny secs k r0 l d rate first last = compute_coalescence lowpass taper tiny secs k r0 l d' rate first last.
Proof.
  intros H H' Ss. destruct (same_used d d' H H' Ss) as (P & Eon). set (U := used (ck d) (o_phases k) (d_stations d)) in *. set (U' := used (ck d') (o_phases k) (d_stations d')) in *.
  destruct U as [|u0 u] eqn:EU.
  - rewrite (compute_is d r0 H), (compute_is d' r0 H'). unfold Lut_Model.compute_map. pose proof H as [_ _ _ _ _ _ _ _ _ _ _ _ Np Ns Pp Ps _ _ _ _ _ _]. pose proof H' as [_ _ _ _ _ _ _ _ _ _ _ _ _ Ns' _ Ps' _ _ _ _ _ _].
    rewrite (Lut_Proofs.calculate_onsets_ok (ck d) (on d) (o_phases k) (d_stations d) Np Ns Pp Ps), (Lut_Proofs.calculate_onsets_ok (ck d') (on d') (o_phases k) (d_stations d') Np Ns' Pp Ps').
    fold U'. change (used (ck d) (o_phases k) (d_stations d)) with (used (ck d) (o_phases k) (d_stations d)). unfold U in EU. rewrite EU. apply Permutation_nil in P. rewrite P. reflexivity.
  - assert (NU : used (ck d) (o_phases k) (d_stations d) <> []) by (fold U; rewrite EU; discriminate). assert (NU' : U' <> []) by (intros C; rewrite C in P; apply Permutation_sym, Permutation_nil in P; discriminate).
    destruct (map_of d r0 H NU) as (m & E & Lm & Hm). destruct (map_of d' r0 H' NU') as (m' & E' & Lm' & Hm'). rewrite E, E'. f_equal.
    rewrite <- (ss_start _ _ Ss), <- (ss_end _ _ Ss) in Lm', Hm'. set (n := Lut_Model.g_count (Lut_Model.l_grid l)) in *. set (w := n_window secs (o_rate k) (d_start d) (d_end d) - first - last) in *.
    pose proof (Lut_Proofs.grid_ok_pos _ (wr_grid _ _ _ _ _ _ _ _ _ _ _ H)) as Hn. fold n in Hn. assert (Hw : 0 <= w) by (pose proof (wr_samples _ _ _ _ _ _ _ _ _ _ _ H); unfold w; lia).
    assert (Fs : forall f g : string * string -> R, (forall x, In x (u0 :: u) -> f x = g x) -> geometric_mean (map f (u0 :: u)) = geometric_mean (map g U')).
    { intros f g Hfg. rewrite (map_ext_in f g (u0 :: u) Hfg). apply geometric_perm, Permutation_map, P. }
    apply rd_ext_opt. intros i. destruct (Z_lt_dec i 0) as [C|C]; [rewrite !rd_none by (left; exact C); reflexivity|]. destruct (Z_lt_dec i (n_nodes n * w)) as [C'|C']; [|rewrite !rd_none by (right; lia); reflexivity].
    assert (Wp : 0 < w) by (destruct (Z.eq_dec w 0) as [W0|]; [rewrite W0, Z.mul_0_r in C'; lia|lia]). pose proof (Z.div_mod i w ltac:(lia)) as Dv. pose proof (Z.mod_pos_bound i w Wp) as Bm. assert (Bd : 0 <= i / w < n_nodes n) by (split; [apply Z.div_pos; lia|apply Z.div_lt_upper_bound; lia]).
    destruct (Lut_Proofs.unravel_inv (i / w) n Hn Bd) as (q & _ & Hq & Eq). rewrite Dv. rewrite <- Eq. rewrite (Z.mul_comm w). rewrite (Hm q (i mod w) Hq Bm), (Hm' q (i mod w) Hq Bm). f_equal. fold U. rewrite EU. apply Fs.
    intros [s p] I. cbn [fst snd]. rewrite (Eon s p I). reflexivity.
Qed.
End Window.

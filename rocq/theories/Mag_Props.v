(** Local magnitudes: C51 and C67-C70. *)
From Coq Require Import String Ascii.
From Coq Require Import List ZArith Reals Bool Lia Lra.
From Verif Require Import Lib LibFacts Mag_Model Mag_Spec Mag_Proofs.
Import ListNotations.
Open Scope R_scope.

(** ** C51: network magnitude *)

Lemma vals_ml k att fl us ts : Forall2 (vals_of k att fl) us ts -> Forall2 (station_ml k att fl) us (map (ml_of k) ts).
Proof. intros H. apply Forall2_map_r. eapply Forall2_imp; [|exact H]. intros o t (M & _ & Hc). exists (va t), (vn t), (vd t), (vl t). split; [exact M|]. unfold ml_of. rewrite Hc. reflexivity. Qed.
Lemma vals_err k att fl us ts : Forall2 (vals_of k att fl) us ts -> Forall2 (station_err k att fl) us (map err_of ts).
Proof. intros H. apply Forall2_map_r. eapply Forall2_imp; [|exact H]. intros o t (M & Hn & _). exists (va t), (vn t), (vd t), (vl t). split; [exact M|]. split; [exact Hn|reflexivity]. Qed.
Lemma vals_la k att fl us ts : Forall2 (vals_of k att fl) us ts -> Forall2 (log_amp k att fl) us (map (la_of k) ts).
Proof. intros H. apply Forall2_map_r. eapply Forall2_imp; [|exact H]. intros o t (M & _ & Hc). exists (va t), (vn t), (vd t), (vl t). split; [exact M|]. unfold la_of. rewrite Hc. reflexivity. Qed.

(** With a noise filter of at least 1, distances above 0 and (for a weighted mean) some noise on
    each trace, the event has a finite magnitude as soon as one observation passes the filters: the
    mean of the station magnitudes of just those observations, weighted by 1 or by 1 / error^2. It
    lies between the smallest and the largest of them. *)
Theorem C51_network_magnitude :
  forall k att filtered rows plot,
  get_attenuation k = Ret att -> 0 < amp_multiplier k -> 1 <= noise_filter k -> (filtered = true <-> some_gain rows) ->
  (forall o, In o rows -> missing o \/ exists a n d l, measured k att filtered o a n d l) ->
  (exists o, In o rows /\ passes k att filtered o) ->
  (weighted_mean k = true -> forall o a n d l, In o rows -> measured k att filtered o a n d l -> 0 < n) ->
  exists us mls errs m e r2, selection (passes k att filtered) rows us
  /\ Forall2 (station_ml k att filtered) us mls /\ Forall2 (station_err k att filtered) us errs
  /\ calc_magnitude k plot rows = Ret ((Fin m, Fin e, r2), plot)
  /\ let ws := map (fun x => if weighted_mean k then (1 / x) ^ 2 else 1) errs in
     balance mls ws m /\ between mls m
     /\ match errs with
        | [x] => e = x
        | _ => 0 <= e /\ e ^ 2 * rsum ws = rsum (map2 (fun x w => ((x - m) * w) ^ 2) mls ws)
        end.
Proof.
  intros k att fl rows plot H1 H2 H3 H4 H5 H6 H7. destruct (network k att fl rows plot H1 H2 H3 H4 H5 H6 H7) as (us & ts & m & e & r2 & S1 & S2 & Hne & E & Hw & Em & Ee & _).
  exists us, (map (ml_of k) ts), (map err_of ts), m, e, r2. split; [exact S1|]. split; [apply vals_ml; exact S2|]. split; [apply vals_err; exact S2|]. split; [exact E|].
  rewrite map_map. change (fun x => if weighted_mean k then (1 / err_of x) ^ 2 else 1) with (fun x => weight k (err_of x)). cbv zeta in *.
  assert (Hl : length (map (ml_of k) ts) = length (map (fun t => weight k (err_of t)) ts)) by (rewrite !map_length; reflexivity).
  assert (Hs : 0 < rsum (map (fun t => weight k (err_of t)) ts)) by (apply rsum_pos; [destruct ts; [congruence|discriminate]|exact Hw]).
  assert (Hb : balance (map (ml_of k) ts) (map (fun t => weight k (err_of t)) ts) m) by (rewrite Em; apply mean_balance; assumption).
  split; [exact Hb|]. split; [eapply balance_between; [exact Hl|destruct ts; [congruence|discriminate]|exact Hw|exact Hb]|].
  destruct ts as [|t [|t' ts]]; exact Ee.
Qed.
Print Assumptions C51_network_magnitude.

(** Without weights this is the arithmetic mean, and the error is the standard deviation (of the
    population, not of the sample). *)
Theorem C51_standard_deviation :
  forall k att filtered rows plot m e r2 us mls,
  get_attenuation k = Ret att -> 0 < amp_multiplier k -> 1 <= noise_filter k -> weighted_mean k = false -> (filtered = true <-> some_gain rows) ->
  (forall o, In o rows -> missing o \/ exists a n d l, measured k att filtered o a n d l) ->
  selection (passes k att filtered) rows us -> Forall2 (station_ml k att filtered) us mls -> us <> [] ->
  calc_magnitude k plot rows = Ret ((Fin m, Fin e, r2), plot) ->
  m = amean mls /\ ((2 <= length us)%nat -> 0 <= e /\ e ^ 2 = squares mls m / INR (length mls)).
Proof.
  intros k att fl rows plot m e r2 us mls H1 H2 H3 Hw H4 H5 Hs Hml Hne Hr.
  assert (H6 : exists o, In o rows /\ passes k att fl o) by (destruct us as [|o us]; [congruence|]; exists o; apply (selection_in _ _ _ Hs); left; reflexivity).
  destruct (C51_network_magnitude k att fl rows plot H1 H2 H3 H4 H5 H6) as (us' & mls' & errs & m' & e' & r2' & S & M & Er & E & Hb & _ & He); [rewrite Hw; discriminate|].
  rewrite Hr in E. assert (m' = m) by congruence. assert (e' = e) by congruence. subst m' e'. clear E.
  assert (us' = us) by (eapply selection_unique; eassumption). subst us'.
  assert (mls' = mls).
  { clear -M Hml. revert mls Hml. induction M as [|o x us mls' (a & n & d & l & P & ->) _ IH]; intros mls Hml; inversion Hml as [|? y ? mls2 (a' & n' & d' & l' & P' & ->) Hml2]; subst; [reflexivity|].
    destruct (measured_unique _ _ _ _ _ _ _ _ _ _ _ _ P P') as (-> & -> & -> & ->). f_equal. apply IH. exact Hml2. }
  subst mls'. rewrite Hw in *. cbv zeta in *.
  assert (L1 : length us = length mls) by (eapply Forall2_len; eassumption). assert (L2 : length us = length errs) by (eapply Forall2_len; eassumption).
  set (ws := map (fun _ : R => 1) errs) in *.
  assert (Hd : forall l, length l = length errs -> dot l ws = rsum l).
  { unfold ws. clear. induction errs as [|x errs IH]; intros [|y l] H; cbn in *; try discriminate; [reflexivity|]. rewrite IH by lia. unfold rsum. lra. }
  assert (Hn : rsum ws = INR (length mls)).
  { rewrite <- L1, L2. unfold ws. clear. induction errs as [|x errs IH]; [reflexivity|]. cbn [map length]. rewrite S_INR, <- IH. unfold rsum. cbn [fold_right]. lra. }
  assert (Hq : rsum (map2 (fun x w => ((x - m) * w) ^ 2) mls ws) = squares mls m).
  { assert (L : length mls = length errs) by lia. unfold ws, squares. clear -L. revert errs L. induction mls as [|x mls IH]; intros [|y errs] L; cbn in *; try discriminate; [reflexivity|].
    unfold rsum in *. rewrite (IH errs) by lia. lra. }
  assert (Hp : 0 < INR (length mls)) by (apply lt_0_INR; rewrite <- L1; destruct us; [congruence|cbn; lia]).
  split.
  - unfold balance in Hb. rewrite dot_minus in Hb by (unfold ws; rewrite map_length; lia). rewrite Hd, Hn in Hb by lia. unfold amean.
    apply (Rmult_eq_reg_r (INR (length mls))); [|lra]. unfold Rdiv. rewrite Rmult_assoc, Rinv_l by lra. lra.
  - intros L. destruct errs as [|x [|y errs]]; cbn in L2; [lia|lia|]. destruct He as [He1 He2]. split; [exact He1|]. rewrite Hn, Hq in He2. rewrite <- He2. field. lra.
Qed.
Print Assumptions C51_standard_deviation.

Definition plain_params (att : ext -> ext) (weighted : bool) : mag_params :=
  mk_mag_params (Callable att) false [] 1 weighted None 1 None None false true.
Definition flat : ext -> ext := fun _ => Fin 3.
Definition quiet (id : string) (epi amp noise : R) : obs := mk_obs id (Fin epi) (Fin 5) (Fin amp) NaN (Fin noise) true.
Example C51_network_magnitude_ex :
  let rows := [quiet "N.A..HHE" 10 10 1; quiet "N.B..HHE" 20 100 1; mk_obs ".C..[N,1]" (Fin 30) (Fin 5) NaN NaN NaN false] in
  let k := plain_params flat true in
  (forall o, In o rows -> missing o \/ exists a n d l, measured k flat false o a n d l)
  /\ (false = true <-> some_gain rows)
  /\ (forall o a n d l, In o rows -> measured k flat false o a n d l -> 0 < n)
  /\ (exists us, selection (passes k flat false) rows us /\ length us = 2%nat)
  /\ (exists o, In o rows /\ passes k flat false o).
Proof.
  intros rows k.
  assert (M1 : measured k flat false (quiet "N.A..HHE" 10 10 1) 10 1 10 3) by (unfold measured; cbn; repeat split; lra).
  assert (M2 : measured k flat false (quiet "N.B..HHE" 20 100 1) 100 1 20 3) by (unfold measured; cbn; repeat split; lra).
  assert (P1 : passes k flat false (quiet "N.A..HHE" 10 10 1)) by (exists 10, 1, 10, 3; split; [exact M1|]; cbn; repeat split; intros; try discriminate; lra).
  assert (P2 : passes k flat false (quiet "N.B..HHE" 20 100 1)) by (exists 100, 1, 20, 3; split; [exact M2|]; cbn; repeat split; intros; try discriminate; lra).
  split; [|split; [|split; [|split]]].
  - intros o [<-|[<-|[<-|[]]]]; [right; do 4 eexists; exact M1|right; do 4 eexists; exact M2|left; left; reflexivity].
  - split; [discriminate|]. intros (o & [<-|[<-|[<-|[]]]] & C); exfalso; apply C; reflexivity.
  - intros o a n d l [<-|[<-|[<-|[]]]] (_ & _ & Hn & _); cbn in Hn; try discriminate; injection Hn as <-; lra.
  - exists [quiet "N.A..HHE" 10 10 1; quiet "N.B..HHE" 20 100 1]. split; [|reflexivity]. apply sel_keep; [exact P1|]. apply sel_keep; [exact P2|].
    apply sel_drop; [|constructor]. intros (a & n & d & l & (C & _) & _). discriminate C.
  - eexists. split; [left; reflexivity|exact P1].
Qed.

(** The weighted mean does not change if all weights are multiplied by the same number. *)
Theorem C51_weights_scale_partial :
  forall series mags ws c, length mags = length ws -> 0 < rsum ws -> 0 < c ->
  network_mean series (map Fin mags) (map (fun w => Fin (c * w)) ws) = network_mean series (map Fin mags) (map Fin ws).
Proof.
  intros s mags ws c Hl Hw Hc.
  assert (E1 : forall l, rsum (map (Rmult c) l) = c * rsum l) by (induction l as [|x l IH]; cbn; [ring|unfold rsum in IH; rewrite IH; unfold rsum; ring]).
  assert (E2 : forall l w, dot l (map (Rmult c) w) = c * dot l w) by (induction l as [|x l IH]; intros [|y w]; cbn; try ring; rewrite IH; ring).
  rewrite <- (map_map (Rmult c) Fin). rewrite !network_mean_fin; try assumption; [|rewrite map_length; exact Hl|rewrite E1; apply Rmult_lt_0_compat; assumption].
  f_equal. rewrite E1, E2. field. lra.
Qed.
Print Assumptions C51_weights_scale_partial.

(** The error does: it has the square of the weights over their sum, so that it is not a weighted
    standard deviation. *)
Theorem C51_weighted_error_refuted :
  exists mags ws c e e', length mags = length ws /\ (forall w, In w ws -> 0 < w) /\ 0 < c
  /\ network_error true (map Fin mags) (map Fin ws) = Fin e
  /\ network_error true (map Fin mags) (map (fun w => Fin (c * w)) ws) = Fin e' /\ e <> e'.
Proof.
  exists [0; 2], [1; 1], 4. assert (S1 : 0 < rsum [1; 1]) by (cbn; lra). assert (S2 : 0 < rsum [4; 4]) by (cbn; lra).
  destruct (network_error_fin true [0; 2] [1; 1] eq_refl S1) as (e & E & P & Q). destruct (network_error_fin true [0; 2] [4; 4] eq_refl S2) as (e' & E' & P' & Q').
  exists e, e'. split; [reflexivity|]. split; [intros w [<-|[<-|[]]]; lra|]. split; [lra|]. split; [exact E|]. split.
  - rewrite <- E'. f_equal. cbn [map]. replace (4 * 1) with 4 by ring. reflexivity.
  - intros <-. cbn in Q, Q'. assert (X : e * e = 1) by nra. assert (Y : e * e = 4) by nra. lra.
Qed.
Print Assumptions C51_weighted_error_refuted.

(** The magnitude is not always defined. An observation at distance 0 passes the filters although
    its station magnitude is NaN; so is the network magnitude then, and the coefficient of
    determination is 1, a perfect fit. *)
Theorem C51_zero_distance_refuted :
  exists k rows o e, A0 k = Named "Hutton-Boore" /\ noise_filter k = 1 /\ weighted_mean k = false /\ amp_multiplier k = 1
  /\ In o rows /\ (exists att, get_attenuation k = Ret att /\ passes k att false o)
  /\ calc_magnitude k true rows = Ret ((NaN, e, Fin 1), true).
Proof.
  set (k := mk_mag_params (Named "Hutton-Boore") false [] 1 false None 1 None None false true).
  set (o := quiet "N.A..HHE" 10 10 1). set (z := quiet "N.B..HHE" 0 1 (1 / 10)).
  exists k, [o; z], o, NaN. do 4 (split; [reflexivity|]). split; [left; reflexivity|]. split.
  - eexists. split; [reflexivity|]. exists 10, 1, 10. eexists. split.
    + unfold measured. cbn [k o quiet o_amp o_noise o_epi use_hyp_dist]. do 6 (split; [try reflexivity; lra|]). apply log_linear_fin; lra.
    + cbn. repeat split; intros; try discriminate; lra.
  - unfold calc_magnitude. cbn [forallb o z quiet o_amp is_nan andb]. unfold calculate_magnitudes. cbn [get_attenuation A0 k logA0 String.eqb Ascii.eqb Bool.eqb bind].
    set (att := log_linear _ _ _ _). cbn [map no_filter forallb o z quiet o_gain is_nan andb].
    set (r1 := magnitude_row k att true _). set (r2 := magnitude_row k att true _).
    assert (R1 : exists ml err, r1 = mk_mobs o ml err).
    { unfold r1, magnitude_row. destruct (calc_mag _ _ _ _ _ _) as [ml err]. exists ml, err. f_equal. unfold blank_zero_distance, zero_to_nan. cbn. rcases. reflexivity. }
    assert (R2 : exists err, r2 = mk_mobs (mk_obs "N.B..HHE" NaN (Fin 5) (Fin 1) NaN (Fin (1 / 10)) true) NaN err).
    { assert (Hz : zero_to_nan (Fin 0) = NaN) by (unfold zero_to_nan; cbn [eeqb]; rcases; reflexivity).
      assert (Hb : blank_zero_distance k z = mk_obs "N.B..HHE" NaN (Fin 5) (Fin 1) NaN (Fin (1 / 10)) true).
      { unfold blank_zero_distance. cbn [use_hyp_dist k]. change (o_epi z) with (Fin 0). rewrite Hz. reflexivity. }
      unfold r2, magnitude_row. rewrite Hb. change (distance k z) with (Fin 0). rewrite Hz. unfold calc_mag. change (att NaN) with NaN.
      eexists. f_equal. match goal with |- context[elog10 ?a] => destruct (elog10 a) end; reflexivity. }
    clearbody r1 r2. destruct R1 as (ml & err & ->), R2 as (err' & ->).
    set (z' := mk_obs _ _ _ _ _ _ _). unfold mean_magnitude.
    change (no_filter (map (fun m => o_gain (m_obs m)) [mk_mobs o ml err; mk_mobs z' NaN err'])) with true.
    unfold filter_mags. change (filter complete (map (gain_corrected true) [mk_mobs o ml err; mk_mobs z' NaN err'])) with [mk_mobs o ml err; mk_mobs z' NaN err'].
    cbn [map]. set (f1 := filter_row k (mk_mobs o ml err)). set (f2 := filter_row k (mk_mobs z' NaN err')).
    assert (F1 : f_used f1 = true) by (unfold f1, filter_row; cbn; unfold real_eqb; cbn; rcases; cbn; rcases; reflexivity).
    assert (F2 : f_used f2 = true) by (unfold f2, filter_row; cbn; unfold real_eqb; cbn; rcases; cbn; rcases; reflexivity).
    cbn [filter]. rewrite F1, F2. cbn [weighted_mean k mag_weights map]. 
    assert (Em : network_mean false [m_ml (f_mobs f1); m_ml (f_mobs f2)] [Fin 1; Fin 1] = NaN) by (apply (network_mean_nan [m_ml (f_mobs f1); m_ml (f_mobs f2)]); right; left; reflexivity).
    assert (Ee : network_error false [m_ml (f_mobs f1); m_ml (f_mobs f2)] [Fin 1; Fin 1] = NaN) by (apply network_error_nan; [discriminate|discriminate|exact Em]).
    rewrite Ee, Em. unfold mag_r_squared, r2_rows. cbn [r2_only_used k filter]. rewrite F1, F2. cbn [bind get_attenuation A0 k logA0 String.eqb Ascii.eqb Bool.eqb map]. fold att.
    assert (A1 : corrected_amp k f1 = Fin 10).
    { unfold corrected_amp, f1, filter_row. cbn [f_mobs m_obs f_corr]. unfold blank_zero_distance. cbn. rewrite Rpower_O by lra. f_equal. ring. }
    assert (A2 : corrected_amp k f2 = Fin 1).
    { unfold corrected_amp, f2, filter_row. cbn [f_mobs m_obs f_corr]. unfold blank_zero_distance. cbn. rewrite Rpower_O by lra. f_equal. ring. }
    rewrite A1, A2. change [Fin 10; Fin 1] with (map Fin [10; 1]). rewrite r_squared_nan.
    + cbn [bind fst]. reflexivity.
    + intros x [<-|[<-|[]]]; lra.
    + exists 10, 1. split; [left; reflexivity|]. split; [right; left; reflexivity|lra].
Qed.
Print Assumptions C51_zero_distance_refuted.

(** Nor is it without a noise filter (0): an amplitude below the noise has no station magnitude,
    but is used; nor is a weighted mean if a trace has no noise at all: the weight is infinite. *)
Theorem C51_noise_refuted :
  (exists k o e r2, noise_filter k = 0 /\ weighted_mean k = false /\ (exists a n d l, measured k flat false o a n d l)
     /\ calc_magnitude k true [o] = Ret ((NaN, e, r2), true))
  /\ (exists k o e r2, noise_filter k = 1 /\ weighted_mean k = true /\ passes k flat false o
     /\ calc_magnitude k true [o] = Ret ((NaN, e, r2), true)).
Proof.
  split.
  - exists (mk_mag_params (Callable flat) false [] 1 false None 0 None None false true), (quiet "N.A..HHE" 10 1 2), NaN, NaN. do 2 (split; [reflexivity|]).
    split; [exists 1, 2, 10, 3; unfold measured; cbn; repeat split; lra|].
    set (k := mk_mag_params _ _ _ _ _ _ _ _ _ _ _). set (o := quiet _ _ _ _). unfold calc_magnitude. cbn [forallb o quiet o_amp is_nan andb].
    unfold calculate_magnitudes. cbn [get_attenuation A0 k bind map]. change (no_filter [o_gain o]) with true.
    assert (E : magnitude_row k flat true o = mk_mobs o NaN NaN).
    { unfold magnitude_row. assert (Hb : blank_zero_distance k o = o) by (unfold blank_zero_distance, zero_to_nan; cbn; rcases; reflexivity). rewrite Hb.
      cbn [o quiet o_noise o_amp o_id emul k amp_multiplier eltb]. rcases. cbn [eeqb]. reflexivity. }
    change (quiet "N.A..HHE" 10 1 2) with o. rewrite E. unfold mean_magnitude. change (no_filter (map (fun m => o_gain (m_obs m)) [mk_mobs o NaN NaN])) with true.
    unfold filter_mags. change (filter complete (map (gain_corrected true) [mk_mobs o NaN NaN])) with [mk_mobs o NaN NaN]. cbn [map].
    set (f := filter_row k (mk_mobs o NaN NaN)). assert (F : f_used f = true) by (unfold f, filter_row; cbn; unfold real_eqb; rcases; reflexivity).
    cbn [filter]. rewrite F. unfold mag_r_squared, r2_rows. cbn [r2_only_used k filter]. rewrite F. reflexivity.
  - exists (plain_params flat true), (quiet "N.A..HHE" 10 1 0), (Fin 0), NaN. do 2 (split; [reflexivity|]).
    set (k := plain_params flat true). set (o := quiet _ _ _ _).
    assert (M : measured k flat false o 1 0 10 3) by (unfold measured; cbn; repeat split; lra).
    split; [exists 1, 0, 10, 3; split; [exact M|]; cbn; repeat split; intros; try discriminate; lra|].
    unfold calc_magnitude. cbn [forallb o quiet o_amp is_nan andb].
    unfold calculate_magnitudes. cbn [get_attenuation A0 k plain_params bind map]. change (no_filter [o_gain o]) with true.
    change (quiet "N.A..HHE" 10 1 0) with o. fold k. change true with (negb false) at 1. rewrite (measured_row k flat false o 1 0 10 3 M); [|cbn; lra|lra].
    replace (log10 (1 * amp_multiplier k) + 3 + correction (station_corrections k) (o_id o)) with 3 by (cbn; rewrite Rmult_1_r, log10_1; lra).
    replace (log10 ((1 + 0) / (1 - 0))) with 0 by (replace ((1 + 0) / (1 - 0)) with 1 by field; rewrite log10_1; reflexivity).
    unfold mean_magnitude. change (no_filter (map (fun m => o_gain (m_obs m)) [mk_mobs o (Fin 3) (Fin 0)])) with true.
    unfold filter_mags. change (filter complete (map (gain_corrected true) [mk_mobs o (Fin 3) (Fin 0)])) with [mk_mobs o (Fin 3) (Fin 0)]. cbn [map].
    set (f := filter_row k (mk_mobs o (Fin 3) (Fin 0))). assert (F : f_used f = true) by (unfold f, filter_row; cbn; unfold real_eqb; rcases; cbn; rcases; reflexivity).
    cbn [filter]. rewrite F. cbn [weighted_mean k plain_params mag_weights map].
    change (m_err (f_mobs f)) with (Fin 0). change (m_ml (f_mobs f)) with (Fin 3).
    assert (Ew : esq (ediv (Fin 1) (Fin 0)) = PInf) by (cbn [ediv]; unfold inf_times; rcases; reflexivity). rewrite Ew.
    assert (Em : network_mean true [Fin 3] [PInf] = NaN) by (unfold network_mean; cbn [map2 emul]; unfold inf_times; rcases; reflexivity). rewrite Em.
    unfold mag_r_squared, r2_rows. cbn [r2_only_used k plain_params filter]. rewrite F. reflexivity.
Qed.
Print Assumptions C51_noise_refuted.

(** ** C67: the coefficient of determination *)

(** It is 1 minus the ratio of the squared deviations of the station magnitudes from the network
    magnitude to those of the logarithms of the (corrected) amplitudes from their mean; NaN if the
    amplitudes are all the same. So it is at most 1, and 1 only if all station magnitudes agree. *)
Theorem C67_coefficient_of_determination :
  forall k att filtered rows plot,
  get_attenuation k = Ret att -> 0 < amp_multiplier k -> 1 <= noise_filter k -> r2_only_used k = true -> (filtered = true <-> some_gain rows) ->
  (forall o, In o rows -> missing o \/ exists a n d l, measured k att filtered o a n d l) ->
  (exists o, In o rows /\ passes k att filtered o) ->
  (weighted_mean k = true -> forall o a n d l, In o rows -> measured k att filtered o a n d l -> 0 < n) ->
  exists us mls las m e r2, selection (passes k att filtered) rows us
  /\ Forall2 (station_ml k att filtered) us mls /\ Forall2 (log_amp k att filtered) us las
  /\ calc_magnitude k plot rows = Ret ((Fin m, Fin e, r2), plot)
  /\ ((forall x y, In x las -> In y las -> x = y) -> r2 = NaN)
  /\ ((exists x y, In x las /\ In y las /\ x <> y) ->
      exists r, r2 = Fin r /\ r = 1 - squares mls m / squares las (amean las) /\ r <= 1 /\ (r = 1 <-> forall x, In x mls -> x = m)).
Proof.
  intros k att fl rows plot H1 H2 H3 Hu H4 H5 H6 H7. destruct (network k att fl rows plot H1 H2 H3 H4 H5 H6 H7) as (us & ts & m & e & r2 & S1 & S2 & Hne & E & _ & _ & _ & Hr).
  exists us, (map (ml_of k) ts), (map (la_of k) ts), m, e, r2. split; [exact S1|]. split; [apply vals_ml; exact S2|]. split; [apply vals_la; exact S2|]. split; [exact E|].
  destruct (r_squared_real k att fl us ts m H2 S2 Hne) as [R1 R2]. cbv zeta in *. rewrite <- (Hr Hu) in R1, R2. split; [exact R1|]. intros Hd. destruct (R2 Hd) as [Hv ->].
  eexists. split; [reflexivity|]. split; [reflexivity|]. set (V := squares (map (la_of k) ts) _) in *. set (M := squares (map (ml_of k) ts) m). pose proof (squares_nonneg (map (ml_of k) ts) m) as HM. fold M in HM.
  assert (Q : 0 <= M / V) by (apply Rmult_le_pos; [exact HM|left; apply Rinv_0_lt_compat, Hv]). split; [lra|]. split.
  - intros X. assert (M / V = 0) by lra. assert (M0 : M = 0) by (replace M with (M / V * V) by (field; lra); rewrite H; ring). exact (squares_zero _ _ M0).
  - intros X. assert (M0 : M = 0).
    { unfold M, squares. clear -X. induction (map (ml_of k) ts) as [|x l IH]; [reflexivity|]. cbn [map]. unfold rsum in *. cbn [fold_right]. rewrite IH by (intros y Hy; apply X; right; exact Hy).
      rewrite (X x) by (left; reflexivity). ring. }
    rewrite M0. field. lra.
Qed.
Print Assumptions C67_coefficient_of_determination.
Example C67_ex : exists o o', passes (plain_params flat false) flat false o /\ passes (plain_params flat false) flat false o'
  /\ log_amp (plain_params flat false) flat false o (log10 (10 * 1) + 0) /\ log_amp (plain_params flat false) flat false o' (log10 (100 * 1) + 0)
  /\ log10 (10 * 1) + 0 <> log10 (100 * 1) + 0.
Proof.
  exists (quiet "N.A..HHE" 10 10 1), (quiet "N.B..HHE" 20 100 1).
  assert (M1 : measured (plain_params flat false) flat false (quiet "N.A..HHE" 10 10 1) 10 1 10 3) by (unfold measured; cbn; repeat split; lra).
  assert (M2 : measured (plain_params flat false) flat false (quiet "N.B..HHE" 20 100 1) 100 1 20 3) by (unfold measured; cbn; repeat split; lra).
  split; [exists 10, 1, 10, 3; split; [exact M1|]; cbn; repeat split; intros; try discriminate; lra|].
  split; [exists 100, 1, 20, 3; split; [exact M2|]; cbn; repeat split; intros; try discriminate; lra|].
  split; [exists 10, 1, 10, 3; split; [exact M1|reflexivity]|]. split; [exists 100, 1, 20, 3; split; [exact M2|reflexivity]|].
  intros C. assert (log10 (10 * 1) < log10 (100 * 1)) by (apply log10_lt; lra). lra.
Qed.

(** A magnitude of NaN has a coefficient of 1 whenever the amplitudes differ. *)
Theorem C67_nan_magnitude_refuted :
  forall att amps dists, (forall x, In x amps -> 0 < x) -> (exists x y, In x amps /\ In y amps /\ x <> y) ->
  r_squared_of att NaN (map Fin amps) dists = Fin 1.
Proof. exact r_squared_nan. Qed.
Print Assumptions C67_nan_magnitude_refuted.
Example C67_nan_magnitude_ex : (forall x, In x [10; 1] -> 0 < x) /\ exists x y, In x [10; 1] /\ In y [10; 1] /\ x <> y.
Proof. split; [intros x [<-|[<-|[]]]; lra|]. exists 10, 1. split; [left; reflexivity|]. split; [right; left; reflexivity|lra]. Qed.

(** With r2_only_used = False observations whose predicted amplitude is less than five times the
    noise are meant to be left out; they are not. *)
Theorem C67_predicted_below_noise_refuted :
  exists k rows f mean r r', r2_only_used k = false /\ noise_filter k = 1 /\ In f rows /\ f_noise_ok f = false
  /\ (exists noise att, o_noise (m_obs (f_mobs f)) = Fin noise /\ get_attenuation k = Ret att /\ att (f_dist f) = Fin 0 /\ Rpower 10 (mean - 0) < 5 * noise)
  /\ mag_r_squared k rows (Fin mean) = Ret (Fin r)
  /\ mag_r_squared k (filter f_noise_ok rows) (Fin mean) = Ret (Fin r') /\ r <> r'.
Proof.
  set (k := mk_mag_params (Callable (fun _ => Fin 0)) false [] 1 false None 1 None None false false).
  set (row := fun amp noise ok => mk_fobs (mk_mobs (quiet "N.A..HHE" 10 amp noise) (Fin 0) (Fin 1)) 0 ok true true true (Fin 10) ok).
  exists k, [row 10 1 true; row 1000 1 true; row 1 100 false], (row 1 100 false), 2, (- (2 / 7)), 0.
  split; [reflexivity|]. split; [reflexivity|]. split; [right; right; left; reflexivity|]. split; [reflexivity|]. split.
  { exists 100, (fun _ => Fin 0). do 3 (split; [reflexivity|]). replace (2 - 0) with (INR 2) by (cbn; lra). rewrite Rpower_pow by lra. cbn. lra. }
  assert (A : forall a n ok, corrected_amp k (row a n ok) = Fin a) by (intros; unfold corrected_amp; cbn; rewrite Rpower_O by lra; f_equal; ring).
  assert (L1 : log10 10 = 1) by apply log10_10. assert (L0 : log10 1 = 0) by apply log10_1.
  assert (L3 : log10 1000 = 3) by (replace 1000 with (10 * (10 * 10)) by ring; rewrite !log10_mult by lra; rewrite L1; ring).
  unfold mag_r_squared, r2_rows. cbn [r2_only_used k trace_filter station_filter dist_filter_on dist_filter noise_filter]. destruct (Rle_dec 1 0); [lra|].
  cbn [bind get_attenuation A0 k map filter row f_noise_ok]. split; [|split; [|lra]].
  - fold (row 10 1 true) (row 1000 1 true) (row 1 100 false). rewrite !A. change [Fin 10; Fin 1000; Fin 1] with (map Fin [10; 1000; 1]).
    rewrite r_squared_flat; [|reflexivity|intros x [<-|[<-|[<-|[]]]]; lra|exists 10, 1; split; [left; reflexivity|]; split; [right; right; left; reflexivity|lra]].
    cbn [map]. rewrite L0, L1, L3. unfold squares, amean, rsum. cbn. f_equal. f_equal. field.
  - fold (row 10 1 true) (row 1000 1 true). rewrite !A. change [Fin 10; Fin 1000] with (map Fin [10; 1000]).
    rewrite r_squared_flat; [|reflexivity|intros x [<-|[<-|[]]]; lra|exists 10, 1000; split; [left; reflexivity|]; split; [right; left; reflexivity|lra]].
    cbn [map]. rewrite L1, L3. unfold squares, amean, rsum. cbn. f_equal. f_equal. field.
Qed.
Print Assumptions C67_predicted_below_noise_refuted.

(** ** C68: excluded stations *)

Lemma name_in_id :
  forall net sta loc cha stn, (forall s, In s [net; sta; loc; cha; stn] -> no_dot s) ->
  (contains ("." ++ stn ++ ".") (net ++ "." ++ sta ++ "." ++ loc ++ "." ++ cha) = true <-> stn = sta \/ stn = loc).
Proof.
  intros net sta loc cha stn H. rewrite contains_dots. unfold within_dots.
  assert (Hn : no_dot net) by (apply H; cbn; tauto). assert (Hs : no_dot sta) by (apply H; cbn; tauto). assert (Hl : no_dot loc) by (apply H; cbn; tauto).
  assert (Hc : no_dot cha) by (apply H; cbn; tauto). assert (Hq : no_dot stn) by (apply H; cbn; tauto). split.
  - intros (a & b & E). destruct (first_dot net a (sta ++ "." ++ loc ++ "." ++ cha)%string (stn ++ "." ++ b)%string Hn E) as [[-> E1]|(a1 & -> & E1)].
    + left. destruct (no_dot_split sta stn (loc ++ "." ++ cha)%string b Hs Hq E1) as [-> _]. reflexivity.
    + destruct (first_dot sta a1 (loc ++ "." ++ cha)%string (stn ++ "." ++ b)%string Hs E1) as [[-> E2]|(a2 & -> & E2)].
      * right. destruct (no_dot_split loc stn cha b Hl Hq E2) as [-> _]. reflexivity.
      * destruct (first_dot loc a2 cha (stn ++ "." ++ b)%string Hl E2) as [[-> E3]|(a3 & -> & E3)].
        -- exfalso. apply (Hc stn b). exact E3.
        -- exfalso. apply (Hc a3 (stn ++ "." ++ b)%string). exact E3.
  - intros [-> | ->]; [exists net, (loc ++ "." ++ cha)%string; reflexivity|exists (net ++ "." ++ sta)%string, cha; rewrite !app_assoc_s; cbn; rewrite ?app_assoc_s; reflexivity].
Qed.

(** A trace net.station.location.channel fails the station filter exactly if a listed name is the
    station's name or its location code, and is then not used for the network magnitude. *)
Theorem C68_station_filter :
  forall k m net sta loc cha names, o_id (m_obs m) = (net ++ "." ++ sta ++ "." ++ loc ++ "." ++ cha)%string -> station_filter k = Some names ->
  (forall s, In s (net :: sta :: loc :: cha :: names) -> no_dot s) ->
  (f_station_ok (filter_row k m) = false <-> In sta names \/ In loc names)
  /\ (f_station_ok (filter_row k m) = false -> f_used (filter_row k m) = false).
Proof.
  intros k m net sta loc cha names Hid Hf Hd. cbn [filter_row f_station_ok f_used]. rewrite Hf, Hid. split.
  - rewrite negb_false_iff, existsb_exists.
    assert (K : forall stn, In stn names -> (contains ("." ++ stn ++ ".") (net ++ "." ++ sta ++ "." ++ loc ++ "." ++ cha) = true <-> stn = sta \/ stn = loc)).
    { intros stn Hs. apply name_in_id. intros s Hin. apply Hd. cbn [In] in *. destruct Hin as [<-|[<-|[<-|[<-|[<-|[]]]]]]; tauto. }
    split.
    + intros (stn & Hs & Hc). apply (K stn Hs) in Hc. destruct Hc as [-> | ->]; tauto.
    + intros [Hs|Hs]; [exists sta|exists loc]; (split; [exact Hs|apply K; [exact Hs|tauto]]).
  - intros ->. rewrite andb_false_r, !andb_false_l. reflexivity.
Qed.
Print Assumptions C68_station_filter.
Example C68_ex : (forall s, In s ["NW"; "KVE"; "00"; "HHZ"; "KVE"]%string -> no_dot s) /\ (forall s, In s ["NW"; "LIND"; "00"; "HHZ"; "KVE"]%string -> no_dot s).
Proof.
  assert (G : forall s, (forall a b, s = (a ++ "." ++ b)%string -> contains "." s = true) ).
  { intros s a b ->. apply contains_spec; [discriminate|]. exists a, b. reflexivity. }
  split; intros s Hs a b E; (assert (C : contains "." s = true) by (eapply G; exact E)); cbn in Hs;
    (destruct Hs as [<-|[<-|[<-|[<-|[<-|[]]]]]]; discriminate C).
Qed.

(** So a name that is also a location code excludes traces of other stations. *)
Theorem C68_location_code_refuted :
  exists net sta loc cha stn, stn <> sta
  /\ forall k m, o_id (m_obs m) = (net ++ "." ++ sta ++ "." ++ loc ++ "." ++ cha)%string -> station_filter k = Some [stn] -> f_used (filter_row k m) = false.
Proof.
  exists "NW"%string, "KVE"%string, "A1"%string, "HHZ"%string, "A1"%string. split; [discriminate|]. intros k m Hid Hf.
  destruct (C68_station_filter k m _ _ _ _ _ Hid Hf) as (A & B).
  - intros s Hs a b E. assert (C : contains "." s = true) by (rewrite E; apply contains_spec; [discriminate|exists a, b; reflexivity]). cbn in Hs.
    destruct Hs as [<-|[<-|[<-|[<-|[<-|[]]]]]]; discriminate C.
  - apply B, A. right. left. reflexivity.
Qed.
Print Assumptions C68_location_code_refuted.

(** ** C69: attenuation functions *)

Definition built_in : list string :=
  ["keir2006"; "Danakil2017"; "Greenfield2018_askja"; "Greenfield2018_bardarbunga"; "Greenfield2018_comb"; "Hutton-Boore"; "Langston1998"; "UK"]%string.

(** A station magnitude at 17 km (100 km for Hutton and Boore) is the logarithm of the amplitude
    plus 2 (plus 3): an amplitude of 1 mm at 100 km means magnitude 3, one of 10 mm at 17 km. The
    correction is finite and grows with distance (one of the functions: up to 1000 km). *)
Theorem C69_attenuation :
  forall eqn, In eqn built_in -> exists att, logA0 eqn = Ret att
  /\ (eqn = "Hutton-Boore"%string -> att (Fin 100) = Fin 3)
  /\ (eqn <> "Hutton-Boore"%string -> eqn <> "UK"%string -> att (Fin 17) = Fin 2)
  /\ (forall d, 0 < d -> exists l, att (Fin d) = Fin l)
  /\ (forall d d' l l', 0 < d -> d <= d' -> (eqn = "Danakil2017"%string -> d' <= 1000) -> att (Fin d) = Fin l -> att (Fin d') = Fin l' -> l <= l').
Proof.
  assert (Q1 : forall c1 d0 c2 c3, 0 < d0 -> log_linear c1 d0 c2 c3 (Fin d0) = Fin c3).
  { intros c1 d0 c2 c3 H. rewrite log_linear_fin by assumption. f_equal. replace (d0 / d0) with 1 by (field; lra). rewrite log10_1. ring. }
  assert (Q2 : forall c1 d0 c2 c3, 0 < d0 -> forall d, 0 < d -> exists l, log_linear c1 d0 c2 c3 (Fin d) = Fin l) by (intros; eexists; apply log_linear_fin; assumption).
  assert (Q3 : forall c1 d0 c2 c3, 0 < d0 -> 0 <= c1 -> 0 <= c2 -> forall d d' l l', 0 < d -> d <= d' ->
    log_linear c1 d0 c2 c3 (Fin d) = Fin l -> log_linear c1 d0 c2 c3 (Fin d') = Fin l' -> l <= l').
  { intros c1 d0 c2 c3 H0 H1 H2 d d' l l' Hd Hdd. rewrite !log_linear_fin by lra. intros E E'. assert (El : l = c1 * log10 (d / d0) + c2 * (d - d0) + c3) by congruence.
    assert (El' : l' = c1 * log10 (d' / d0) + c2 * (d' - d0) + c3) by congruence. rewrite El, El'.
    assert (log10 (d / d0) <= log10 (d' / d0)) by (rewrite !log10_div by lra; pose proof (log10_le d d' Hd Hdd); lra).
    assert (c1 * log10 (d / d0) <= c1 * log10 (d' / d0)) by (apply Rmult_le_compat_l; assumption).
    assert (c2 * (d - d0) <= c2 * (d' - d0)) by (apply Rmult_le_compat_l; lra). lra. }
  intros eqn H. cbn in H. destruct H as [<-|[<-|[<-|[<-|[<-|[<-|[<-|[<-|[]]]]]]]]].
  1, 3, 4, 5, 7: eexists; (split; [reflexivity|]); (split; [discriminate|]); (split; [intros _ _; apply Q1; lra|]); (split; [apply Q2; lra|]); intros d d' l l' Hd Hdd _; apply Q3; lra.
  - eexists. split; [reflexivity|]. split; [discriminate|]. split; [intros _ _; apply Q1; lra|]. split; [apply Q2; lra|]. intros d d' l l' Hd Hdd Hmax.
    specialize (Hmax eq_refl). rewrite !log_linear_fin by lra. intros E E'.
    assert (El : l = 1274336 / 1000000 * log10 (d / 17) + - (273 / 1000000) * (d - 17) + 2) by congruence.
    assert (El' : l' = 1274336 / 1000000 * log10 (d' / 17) + - (273 / 1000000) * (d' - 17) + 2) by congruence. rewrite El, El'. rewrite !log10_div by lra.
    assert (L : (d' - d) / 4000 <= log10 d' - log10 d).
    { destruct (Req_dec d d') as [->|Hne]; [unfold Rdiv; rewrite !Rminus_diag_eq by reflexivity; lra|].
      assert (Hln : ln 10 < 4). { rewrite <- (ln_exp 4). apply ln_increasing; [lra|]. apply (Rlt_trans _ 16); [lra|]. replace 4 with (1 + 1 + (1 + 1)) by ring. rewrite !exp_plus.
        pose proof (exp_ineq1 1 ltac:(lra)) as He. assert (2 * 2 < exp 1 * exp 1) by (apply Rmult_le_0_lt_compat; lra). assert (4 * 4 < exp 1 * exp 1 * (exp 1 * exp 1)) by (apply Rmult_le_0_lt_compat; lra). lra. }
      assert (Hq : 1 - d / d' <= ln d' - ln d).
      { assert (Hdd' : 0 < d / d') by (apply Rdiv_lt_0_compat; lra). pose proof (exp_ineq1 (d / d' - 1)) as He. assert (X : d / d' <> 1) by (intros X; apply Hne; replace d with (d / d' * d') by (field; lra); rewrite X; ring).
        specialize (He ltac:(lra)). replace (1 + (d / d' - 1)) with (d / d') in He by ring.
        apply ln_increasing in He; [|exact Hdd']. rewrite ln_exp in He. replace (d / d') with (d * / d') in He by reflexivity. rewrite ln_mult in He by (try apply Rinv_0_lt_compat; lra). rewrite ln_Rinv in He by lra. unfold Rdiv. lra. }
      pose proof ln10_pos as Hp. unfold log10. replace (ln d' / ln 10 - ln d / ln 10) with ((ln d' - ln d) / ln 10) by (field; lra).
      assert (Hr : (d' - d) / 1000 <= 1 - d / d').
      { replace (1 - d / d') with ((d' - d) / d') by (field; lra). apply Rmult_le_compat_l; [lra|]. apply Rinv_le_contravar; lra. }
      assert (Hs : (d' - d) / 1000 / 4 <= (ln d' - ln d) / ln 10).
      { assert (0 <= (d' - d) / 1000) by lra. apply (Rle_trans _ ((ln d' - ln d) / 4)); [lra|]. apply Rmult_le_compat_l; [lra|]. apply Rinv_le_contravar; lra. }
      lra. }
    lra.
  - eexists. split; [reflexivity|]. split; [intros _; apply Q1; lra|]. split; [congruence|]. split; [apply Q2; lra|]. intros d d' l l' Hd Hdd _. apply Q3; lra.
  - eexists. split; [reflexivity|]. split; [discriminate|]. split; [congruence|].
    assert (U : forall d, 0 < d -> esub (esub (eadd (emul (Fin (111 / 100)) (elog10 (Fin d))) (emul (Fin (189 / 100000)) (Fin d))) (emul (Fin (116 / 100)) (eexp (emul (Fin (- (2 / 10))) (Fin d))))) (Fin (209 / 100))
        = Fin (111 / 100 * log10 d + 189 / 100000 * d - 116 / 100 * exp (- (2 / 10) * d) - 209 / 100)).
    { intros d Hd. cbn [elog10]. destruct (Rlt_dec 0 d); [|lra]. reflexivity. }
    split; [intros d Hd; eexists; apply U; exact Hd|]. intros d d' l l' Hd Hdd _. rewrite !U by lra. intros E E'.
    assert (El : l = 111 / 100 * log10 d + 189 / 100000 * d - 116 / 100 * exp (- (2 / 10) * d) - 209 / 100) by congruence.
    assert (El' : l' = 111 / 100 * log10 d' + 189 / 100000 * d' - 116 / 100 * exp (- (2 / 10) * d') - 209 / 100) by congruence. rewrite El, El'.
    pose proof (log10_le d d' Hd Hdd). assert (exp (- (2 / 10) * d') <= exp (- (2 / 10) * d)); [|lra].
    destruct Hdd as [Hdd| ->]; [left; apply exp_increasing; lra|lra].
Qed.
Print Assumptions C69_attenuation.
Example C69_ex : In "Hutton-Boore"%string built_in /\ length built_in = 8%nat. Proof. cbn. split; [tauto|reflexivity]. Qed.

(** Names given in the documentation of the function are not accepted. *)
Theorem C69_documented_names_refuted :
  forall eqn, In eqn ["Greenfield2018"; "langston1998"]%string -> logA0 eqn = Raise ValueError.
Proof. intros eqn [<-|[<-|[]]]; reflexivity. Qed.
Print Assumptions C69_documented_names_refuted.

(** The function "UK" is one for amplitudes in nanometres: magnitudes of the same amplitudes are
    smaller than those after Hutton and Boore by log10 of 2080 nm per mm (2.68), and more close to
    the source. *)
Theorem C69_UK_units_refuted :
  exists hb uk, logA0 "Hutton-Boore" = Ret hb /\ logA0 "UK" = Ret uk
  /\ forall d, 0 < d -> exists l l', hb (Fin d) = Fin l /\ uk (Fin d) = Fin l' /\ l - l' = 2681 / 1000 + 116 / 100 * exp (- (2 / 10) * d) /\ l - l' > 2681 / 1000.
Proof.
  do 2 eexists. split; [reflexivity|]. split; [reflexivity|]. intros d Hd.
  exists (111 / 100 * log10 (d / 100) + 189 / 100000 * (d - 100) + 3), (111 / 100 * log10 d + 189 / 100000 * d - 116 / 100 * exp (- (2 / 10) * d) - 209 / 100).
  split; [apply log_linear_fin; lra|].
  split; [cbn [elog10]; destruct (Rlt_dec 0 d); [|lra]; reflexivity|].
  assert (L : log10 100 = 2) by (replace 100 with (10 * 10) by ring; rewrite log10_mult by lra; rewrite log10_10; ring).
  rewrite log10_div by lra. rewrite L. pose proof (exp_pos (- (2 / 10) * d)). split; lra.
Qed.
Print Assumptions C69_UK_units_refuted.

(** ** C70: units *)

Definition rescaled (k : mag_params) (c : R) : mag_params :=
  mk_mag_params (A0 k) (use_hyp_dist k) (station_corrections k) (c * amp_multiplier k) (weighted_mean k) (trace_filter k) (noise_filter k)
    (station_filter k) (dist_filter k) (pick_filter k) (r2_only_used k).

(** Amplitudes in other units: a factor c in amp_multiplier adds log10 c to the magnitude, and
    changes neither its error nor the coefficient of determination. *)
Theorem C70_multiplier_shifts :
  forall k att filtered rows plot c,
  get_attenuation k = Ret att -> 0 < amp_multiplier k -> 1 <= noise_filter k -> r2_only_used k = true -> (filtered = true <-> some_gain rows) ->
  (forall o, In o rows -> missing o \/ exists a n d l, measured k att filtered o a n d l) ->
  (exists o, In o rows /\ passes k att filtered o) ->
  (weighted_mean k = true -> forall o a n d l, In o rows -> measured k att filtered o a n d l -> 0 < n) ->
  0 < c ->
  exists m e r2, calc_magnitude k plot rows = Ret ((Fin m, Fin e, r2), plot)
  /\ calc_magnitude (rescaled k c) plot rows = Ret ((Fin (m + log10 c), Fin e, r2), plot).
Proof.
  intros k att fl rows plot c H1 H2 H3 Hu H4 H5 H6 H7 Hc.
  destruct (network k att fl rows plot H1 H2 H3 H4 H5 H6 H7) as (us & ts & m & e & r2 & S1 & S2 & Hne & E & Hw & Em & Ee & Er).
  assert (H2' : 0 < amp_multiplier (rescaled k c)) by (cbn; apply Rmult_lt_0_compat; assumption).
  destruct (network (rescaled k c) att fl rows plot H1 H2' H3 H4 H5 H6 H7) as (us' & ts' & m' & e' & r2' & S1' & S2' & Hne' & E' & Hw' & Em' & Ee' & Er').
  assert (us' = us) by (eapply selection_unique; [exact S1'|exact S1]). subst us'.
  assert (ts' = ts).
  { clear -S2 S2'. revert ts' S2'. induction S2 as [|o t us ts (M & _ & Hc) _ IH]; intros ts' S2'; inversion S2' as [|? t' ? ts2 (M' & _ & Hc') S2]; subst; [reflexivity|].
    f_equal; [|apply IH; exact S2]. destruct (measured_unique k att fl _ _ _ _ _ _ _ _ _ M M') as (X1 & X2 & X3 & X4). destruct t, t'. cbn in *. congruence. }
  subst ts'. exists m, e, r2. split; [exact E|]. rewrite E'. cbv zeta in *.
  assert (Hml : map (ml_of (rescaled k c)) ts = map (fun x => x - - log10 c) (map (ml_of k) ts)).
  { rewrite map_map. clear -S2 H2 Hc. induction S2 as [|o t us ts (M & _) _ IH]; [reflexivity|]. cbn [map]. f_equal; [|exact IH]. unfold ml_of. cbn [rescaled amp_multiplier].
    assert (0 < va t) by apply M. replace (va t * (c * amp_multiplier k)) with (c * (va t * amp_multiplier k)) by ring. rewrite (log10_mult c) by (try apply Rmult_lt_0_compat; assumption). ring. }
  assert (Hla : map (la_of (rescaled k c)) ts = map (fun x => x + log10 c) (map (la_of k) ts)).
  { rewrite map_map. clear -S2 H2 Hc. induction S2 as [|o t us ts (M & _) _ IH]; [reflexivity|]. cbn [map]. f_equal; [|exact IH]. unfold la_of. cbn [rescaled amp_multiplier].
    assert (0 < va t) by apply M. replace (va t * (c * amp_multiplier k)) with (c * (va t * amp_multiplier k)) by ring. rewrite (log10_mult c) by (try apply Rmult_lt_0_compat; assumption). ring. }
  set (ws := map (fun t => weight k (err_of t)) ts) in *. change (map (fun t => weight (rescaled k c) (err_of t)) ts) with ws in *.
  assert (Hs : 0 < rsum ws) by (apply rsum_pos; [unfold ws; destruct ts; [congruence|discriminate]|exact Hw]).
  assert (Hm' : m' = m + log10 c).
  { rewrite Em', Em, Hml. rewrite dot_minus by (unfold ws; rewrite !map_length; reflexivity). field. lra. }
  assert (He' : e' = e).
  { destruct ts as [|t [|t2 ts]]; [congruence|congruence|]. destruct Ee as [P1 P2], Ee' as [P1' P2'].
    assert (X : e' ^ 2 = e ^ 2).
    { apply (Rmult_eq_reg_r (rsum ws)); [|lra]. rewrite P2, P2', Hml, Hm'. f_equal. generalize (map (ml_of k) (t :: t2 :: ts)). intros l. generalize ws. clear.
      induction l as [|x l IH]; intros [|w ws]; cbn; try reflexivity. f_equal; [ring|apply IH]. }
    rewrite <- (sqrt_pow2 e P1), <- (sqrt_pow2 e' P1'), X. reflexivity. }
  assert (Hr' : r2' = r2).
  { destruct (r_squared_real k att fl us ts m H2 S2 Hne) as [R1 R2]. destruct (r_squared_real (rescaled k c) att fl us ts m' H2' S2' Hne) as [R1' R2']. cbv zeta in *.
    rewrite <- (Er Hu) in R1, R2. rewrite <- (Er' Hu) in R1', R2'. rewrite Hla in R1', R2'. rewrite Hml in R2'.
    assert (D : (forall x y, In x (map (la_of k) ts) -> In y (map (la_of k) ts) -> x = y) \/ exists x y, In x (map (la_of k) ts) /\ In y (map (la_of k) ts) /\ x <> y).
    { destruct ts as [|t ts]; [congruence|]. destruct (Forall_dec (fun x => x = la_of k t) (fun x => Req_EM_T x (la_of k t)) (map (la_of k) (t :: ts))) as [F|F].
      - left. rewrite Forall_forall in F. intros x y Hx Hy. rewrite (F x Hx), (F y Hy). reflexivity.
      - right. apply neg_Forall_Exists_neg in F; [|intros x; apply Req_EM_T]. apply Exists_exists in F. destruct F as (x & Hx & Hn). exists x, (la_of k t). split; [exact Hx|]. split; [left; reflexivity|exact Hn]. }
    destruct D as [D|D].
    - rewrite (R1 D). apply R1'. intros x y Hx Hy. apply in_map_iff in Hx, Hy. destruct Hx as (x0 & <- & Hx), Hy as (y0 & <- & Hy). rewrite (D x0 y0 Hx Hy). reflexivity.
    - destruct (R2 D) as [V ->]. destruct D as (x & y & Hx & Hy & Hn).
      destruct R2' as [V' ->]; [exists (x + log10 c), (y + log10 c); split; [apply in_map with (f := fun x => x + log10 c), Hx|]; split; [apply in_map with (f := fun x => x + log10 c), Hy|lra]|].
      assert (A : forall l, l <> [] -> amean (map (fun x => x + log10 c) l) = amean l + log10 c).
      { intros l Hl. unfold amean. rewrite map_length. assert (Z : rsum (map (fun x => x + log10 c) l) = rsum l + INR (length l) * log10 c).
        { clear. induction l as [|x l IH]; [cbn; ring|]. cbn [map length]. rewrite S_INR. unfold rsum in *. cbn [fold_right]. rewrite IH. ring. }
        rewrite Z. field. apply not_0_INR. destruct l; [congruence|discriminate]. }
      rewrite A by (destruct ts; [congruence|discriminate]).
      assert (B : forall l z, squares (map (fun x => x + log10 c) l) (z + log10 c) = squares l z).
      { intros l z. unfold squares. f_equal. rewrite map_map. apply map_ext. intros s. f_equal. ring. }
      assert (B' : forall l z, squares (map (fun x => x - - log10 c) l) (z + log10 c) = squares l z).
      { intros l z. unfold squares. f_equal. rewrite map_map. apply map_ext. intros s. f_equal. ring. }
      rewrite B, Hm', B'. reflexivity. }
  rewrite Hm', He', Hr'. reflexivity.
Qed.
Print Assumptions C70_multiplier_shifts.
Example C70_ex : exists m e r2 rows, calc_magnitude (plain_params flat true) true rows = Ret ((Fin m, Fin e, r2), true)
  /\ calc_magnitude (rescaled (plain_params flat true) 1000) true rows = Ret ((Fin (m + log10 1000), Fin e, r2), true).
Proof.
  destruct C51_network_magnitude_ex as (H1 & H2 & H3 & _ & H5).
  destruct (C70_multiplier_shifts (plain_params flat true) flat false _ true 1000 eq_refl ltac:(cbn; lra) ltac:(cbn; lra) eq_refl H2 H1 H5 ltac:(intros _; exact H3) ltac:(lra)) as (m & e & r2 & E & E').
  eauto 6.
Qed.

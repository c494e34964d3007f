(** Proofs about the filter options of the amplitude measurement. *)
From Coq Require Import List ZArith Reals Bool Lia Lra.
From Verif Require Import Lib PyDict AmpFilter_Model AmpFilter_Spec.
Import ListNotations.
Open Scope R_scope.

Lemma half sr : / 2 * sr = sr / 2.
Proof. unfold Rdiv. ring. Qed.

Lemma butter_band_ok lo up n : 0 < lo -> lo < up -> up < 1 -> butter_band lo up n = Ret (Band lo up n).
Proof.
  intros. unfold butter_band. destruct (Rlt_dec 0 lo); [|lra]. destruct (Rlt_dec lo up); [|lra].
  destruct (Rlt_dec up 1); [reflexivity|lra].
Qed.
Lemma butter_high_ok f n : 0 < f -> f < 1 -> butter_high f n = Ret (High f n).
Proof. intros. unfold butter_high. destruct (Rlt_dec 0 f); [|lra]. destruct (Rlt_dec f 1); [reflexivity|lra]. Qed.
Lemma obspy_highpass_spec f df n d : obspy_highpass f df n = Ret d -> butter_high (f / (df / 2)) n = Ret d.
Proof. unfold obspy_highpass. cbv zeta. destruct (Rlt_dec 1 (f / (df / 2))); [discriminate|tauto]. Qed.

Lemma highpass_same a sr ap sos : highpass_filter a sr = Ret (ap, sos) -> ap = sos.
Proof.
  unfold highpass_filter. cbv zeta.
  destruct (if a_band a then _ else _) as [f| |]; cbn [bind]; try discriminate.
  rewrite half. destruct (obspy_highpass f sr (a_corners a)) as [d| |] eqn:E; cbn [bind]; try discriminate.
  apply obspy_highpass_spec in E. rewrite E. cbn [bind]. congruence.
Qed.
Lemma bandpass_same a sr ap sos : bandpass_filter a sr = Ret (ap, sos) -> ap = sos.
Proof.
  unfold bandpass_filter. cbv zeta. destruct (number (a_low a)) as [lo| |]; cbn [bind]; try discriminate.
  destruct (number (a_up a)) as [up| |]; cbn [bind]; try discriminate. rewrite half.
  destruct (Rlt_dec _ _) as [|N]; [discriminate|].
  unfold obspy_bandpass. cbv zeta. destruct (Rlt_dec (- / 1000000) (up / (sr / 2) - 1)); [tauto|].
  destruct (Rlt_dec 1 (lo / (sr / 2))); cbn [bind]; [discriminate|].
  destruct (butter_band _ _ _); cbn [bind]; congruence.
Qed.
Lemma filter_same a sr ap sos : filter_trace a sr = Ret (ap, sos) -> ap = sos.
Proof.
  unfold filter_trace. destruct (a_band a); [|apply highpass_same].
  destruct (bandpass_filter a sr) as [(x, y)|[]|] eqn:E; try discriminate; try apply highpass_same.
  intros H. rewrite <- E in H. exact (bandpass_same _ _ _ _ H).
Qed.

Lemma ratio_lt f sr : 0 < sr -> f < sr / 2 -> f / (sr / 2) < 1.
Proof.
  intros S H. apply Rmult_lt_reg_r with (sr / 2); [lra|].
  replace (f / (sr / 2) * (sr / 2)) with f by (field; lra). lra.
Qed.
Lemma ratio_pos f sr : 0 < sr -> 0 < f -> 0 < f / (sr / 2).
Proof. intros. apply Rdiv_lt_0_compat; lra. Qed.
Lemma nyquist_test up sr : 0 < sr -> (- / 1000000 < up / (sr / 2) - 1 <-> sr / 2 * (1 - / 1000000) < up).
Proof.
  intros S. split; intros H.
  - assert (1 - / 1000000 < up / (sr / 2)) by lra.
    apply Rmult_lt_compat_r with (r := sr / 2) in H0; [|lra].
    replace (up / (sr / 2) * (sr / 2)) with up in H0 by (field; lra). lra.
  - assert (1 - / 1000000 < up / (sr / 2)); [|lra].
    apply Rmult_lt_reg_r with (sr / 2); [lra|]. replace (up / (sr / 2) * (sr / 2)) with up by (field; lra). lra.
Qed.

Lemma highpass_ok a sr f : 0 < sr -> 0 < f < sr / 2 ->
  (if a_band a then number (a_low a) else match a_freq a with Some f => Ret f | None => Raise AttributeError end) = Ret f ->
  highpass_filter a sr = Ret (wanted_high f (a_corners a) sr, wanted_high f (a_corners a) sr).
Proof.
  intros S F E. unfold highpass_filter. cbv zeta. rewrite E. cbn [bind]. rewrite half.
  pose proof (ratio_lt f sr S (proj2 F)). pose proof (ratio_pos f sr S (proj1 F)).
  unfold obspy_highpass. cbv zeta. destruct (Rlt_dec 1 (f / (sr / 2))); [lra|].
  rewrite butter_high_ok by assumption. reflexivity.
Qed.
Lemma band_ok a sr lo up : 0 < sr -> 0 < lo < up -> lo < sr / 2 ->
  a_band a = true -> a_low a = Some (Some lo) -> a_up a = Some (Some up) ->
  filter_trace a sr = Ret (wanted_band lo up (a_corners a) sr, wanted_band lo up (a_corners a) sr).
Proof.
  intros S L N B El Eu. unfold filter_trace. rewrite B.
  unfold bandpass_filter. cbv zeta. rewrite El, Eu. cbn [number bind]. rewrite half.
  unfold wanted_band.
  destruct (Rlt_dec (- / 1000000) (up / (sr / 2) - 1)) as [A|A].
  - rewrite (highpass_ok a sr lo S (conj (proj1 L) N)) by (rewrite B, El; reflexivity).
    destruct (Rlt_dec _ up) as [C|C]; [reflexivity|]. apply (nyquist_test up sr S) in A. contradiction.
  - unfold obspy_bandpass. cbv zeta.
    destruct (Rlt_dec (- / 1000000) (up / (sr / 2) - 1)) as [?|_]; [contradiction|].
    pose proof (ratio_lt lo sr S N). destruct (Rlt_dec 1 (lo / (sr / 2))); [lra|].
    rewrite butter_band_ok.
    + cbn [bind]. destruct (Rlt_dec _ up) as [C|C]; [|reflexivity]. apply (nyquist_test up sr S) in C. contradiction.
    + apply ratio_pos; tauto.
    + unfold Rdiv. apply Rmult_lt_compat_r; [|tauto]. apply Rinv_0_lt_compat. lra.
    + assert (up / (sr / 2) - 1 <= - / 1000000) by lra. lra.
Qed.

Lemma traces_ok {W} a (measure : option (design * design) -> W) g : forall rates,
  (forall sr, In sr rates -> filtered a sr = Ret (g sr)) ->
  measure_traces a measure rates = Ret (map (fun sr => measure (g sr)) rates).
Proof.
  induction rates as [|sr r IH]; intros H; cbn [measure_traces map]; [reflexivity|].
  rewrite (H sr (or_introl eq_refl)). cbn [bind]. rewrite IH by (intros; apply H; right; assumption). reflexivity.
Qed.

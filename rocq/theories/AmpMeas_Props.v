(** Properties C93 to C95: measurements of amplitudes on one trace. *)
From Coq Require Import String Ascii.
From Coq Require Import List ZArith QArith Qabs Qminmax Bool Reals Qreals Lra Lia Lqa.
From Verif Require Import Lib LibFacts Amp_Model Amp_Spec Amp_Proofs Amp_Props AmpMeas_Model AmpMeas_Spec AmpMeas_Proofs.
Import ListNotations.
Open Scope Z_scope.

(** ** C93: offset, drift, unit and polarity *)

(** For a trace multiplied by [c], plus an offset and a linear drift, the same measurements are
    made: amplitudes are [c] times as large; frequency, time and filter gain are the same. *)
Theorem C93_scale : forall envelope m mult gain c a b st dl x y ws, homogeneous envelope -> (0 < c)%Q -> transformed c a b x y ->
  same_outcome (fun r r' => both (meas_scaled c) (fst r) (fst r') /\ both (meas_scaled c) (snd r) (snd r'))
    (measure_signal_amps envelope m mult gain (mk_qtrace st dl x) ws) (measure_signal_amps envelope m mult gain (mk_qtrace st dl y) ws).
Proof.
  intros envelope m mult gain c a b st dl x y ws He Hc Ht.
  assert (G : forall w, same_outcome (both (meas_scaled c)) (measure_phase envelope m mult gain (mk_qtrace st dl x) w) (measure_phase envelope m mult gain (mk_qtrace st dl y) w)).
  { intros w. unfold measure_phase. pose proof (slice_transformed c a b st dl x y (fst w) (snd w) Ht) as S.
    destruct (slice (mk_qtrace st dl x) _ _) as [[s1 d1 x1]| |], (slice (mk_qtrace st dl y) _ _) as [[s2 d2 x2]| |]; cbn [same_outcome] in S; try contradiction; cbn [bind same_outcome]; try exact S; try exact I.
    cbn [q_start q_delta q_data] in S. destruct S as (-> & -> & a' & S). apply (measure_window_scaled envelope m mult gain c a' b); assumption. }
  unfold measure_signal_amps. pose proof (G (fst ws)) as G1. pose proof (G (snd ws)) as G2.
  destruct (measure_phase envelope m mult gain (mk_qtrace st dl x) (fst ws)) as [p| |], (measure_phase envelope m mult gain (mk_qtrace st dl y) (fst ws)) as [p'| |]; cbn [same_outcome] in G1; try contradiction; cbn [bind same_outcome]; try exact G1; try exact I.
  destruct (measure_phase envelope m mult gain (mk_qtrace st dl x) (snd ws)) as [s| |], (measure_phase envelope m mult gain (mk_qtrace st dl y) (snd ws)) as [s'| |]; cbn [same_outcome] in G2; try contradiction; cbn [bind same_outcome]; try exact G2; try exact I.
  cbn [fst snd]. split; assumption.
Qed.
Print Assumptions C93_scale.

(** The noise amplitude is the same multiple, unless the noise is constant in one of the traces. *)
Theorem C93_noise : forall envelope m k c a b st dl x y ws r r', homogeneous envelope -> transformed c a b x y ->
  measure_noise_amp envelope m k (mk_qtrace st dl x) ws = Ret (Some r) -> measure_noise_amp envelope m k (mk_qtrace st dl y) ws = Ret (Some r') ->
  r' = (Rabs (Q2R c) * r)%R.
Proof.
  intros envelope m k c a b st dl x y ws r r' He Ht. unfold measure_noise_amp. cbv zeta. set (w := noise_window_of k ws). pose proof (slice_transformed c a b st dl x y (fst w) (snd w) Ht) as S.
  destruct (slice (mk_qtrace st dl x) _ _) as [[s1 d1 x1]| |]; cbn [bind]; try discriminate. destruct (slice (mk_qtrace st dl y) _ _) as [[s2 d2 x2]| |]; cbn [bind]; try discriminate.
  cbn [same_outcome q_start q_delta q_data] in *. destruct S as (_ & _ & a' & S). destruct (flat x1); [discriminate|]. destruct (flat x2); [discriminate|].
  apply detrend_transformed in S. pose proof (average_scaled envelope m c _ _ He S) as A.
  destruct (average_amplitude envelope m (detrend x1)) as [u| |]; cbn [bind]; try discriminate. destruct (average_amplitude envelope m (detrend x2)) as [v| |]; cbn [bind]; try discriminate.
  cbn [same_outcome] in A. intros E E'. injection E as <-. injection E' as <-. exact A.
Qed.
Print Assumptions C93_noise.

(** Reversed polarity, without filter and prominence: the amplitudes are the same multiples; so are
    frequency and time if only one pair of neighbouring extrema has the largest difference. *)
Theorem C93_polarity_partial : forall envelope m mult c a b st dl x y w, homogeneous envelope -> (c < 0)%Q -> (mult <= 0)%Q -> (0 < dl)%Q -> transformed c a b x y ->
  same_outcome (both (fun r r' => (s_half r' == - c * s_half r)%Q /\ s_avg r' = (- Q2R c * s_avg r)%R
      /\ ((forall z, slice (mk_qtrace st dl x) (fst w) (snd w) = Ret z -> unique_swing (detrend (q_data z))) -> (s_freq r' == s_freq r)%Q /\ (s_time r' == s_time r)%Q)))
    (measure_phase envelope m mult None (mk_qtrace st dl x) w) (measure_phase envelope m mult None (mk_qtrace st dl y) w).
Proof.
  intros envelope m mult c a b st dl x y w He Hc Hm Hd Ht. unfold measure_phase. pose proof (slice_transformed c a b st dl x y (fst w) (snd w) Ht) as S.
  assert (Ed : forall z, slice (mk_qtrace st dl x) (fst w) (snd w) = Ret z -> q_delta z = dl).
  { intros z E. rewrite slice_cuts in E. destruct (cuts _ _ _ _ _) as [[k n]| |]; cbn [bind] in E; try discriminate. injection E as <-. reflexivity. }
  destruct (slice (mk_qtrace st dl x) _ _) as [[s1 d1 x1]| |], (slice (mk_qtrace st dl y) _ _) as [[s2 d2 x2]| |]; cbn [same_outcome] in S; try contradiction; cbn [bind same_outcome]; try exact S; try exact I.
  cbn [q_start q_delta q_data] in S. destruct S as (-> & -> & a' & S). apply detrend_transformed in S. specialize (Ed _ eq_refl). cbn [q_delta] in Ed. subst d1.
  unfold measure_window. cbn [q_data q_start q_delta]. cbv zeta. rewrite (flat_flipped c _ _ Hc S). destruct (flat (detrend x1)); [exact I|].
  pose proof (p2t_flipped c mult (detrend x1) (detrend x2) s1 dl Hc Hm Hd S) as P. pose proof (average_scaled envelope m c _ _ He S) as A.
  rewrite Rabs_left in A by (apply Qlt_Rlt in Hc; rewrite RMicromega.Q2R_0 in Hc; exact Hc).
  destruct (peak_to_trough_amplitude mult (detrend x1) s1 dl) as [[[h f] t]|e|], (peak_to_trough_amplitude mult (detrend x2) s1 dl) as [[[h' f'] t']|e'|]; cbn [same_outcome] in P; try contradiction; try exact I.
  2:{ subst e'. destruct e; cbn [same_outcome both]; auto. }
  cbn [fst snd] in P. destruct P as (Ph & P).
  destruct (average_amplitude envelope m (detrend x1)) as [v| |], (average_amplitude envelope m (detrend x2)) as [v'| |]; cbn [same_outcome] in A; try contradiction; cbn [bind same_outcome]; try exact A; try exact I.
  cbn [both]. cbn [s_half s_avg s_freq s_time]. split; [exact Ph|]. split; [exact A|]. intros U. apply P. apply (U _ eq_refl).
Qed.
Print Assumptions C93_polarity_partial.

Definition zeros (x : list Q) : list R := repeat 0%R (length x).
Lemma zeros_homogeneous : homogeneous zeros.
Proof. intros c x y H. unfold zeros. rewrite <- (scaled_length _ _ _ H). generalize (length x). intros n. induction n as [|n IH]; cbn; [reflexivity|]. rewrite <- IH. f_equal. ring. Qed.
(** A trace of ten samples, and three times this trace on a ramp. *)
Example C93_ex : homogeneous zeros
  /\ transformed 3 5 2 [0; 1; 0; 0; 4; 0; 3; 0; 0; 0]%Q [5; 10; 9; 11; 25; 15; 26; 19; 21; 23]%Q
  /\ (exists p s, measure_signal_amps zeros Other 0 None (mk_qtrace 0 1 [0; 1; 0; 0; 4; 0; 3; 0; 0; 0]%Q) ((0, 0), (0, 0))%Q = Ret (p, s))
  /\ exists r, measure_phase zeros ENV 0 None (mk_qtrace 0 1 [0; 1; 0; 0; 4; 0; 3; 0; 0; 0]%Q) (0, 9)%Q = Ret (Some r).
Proof.
  split; [exact zeros_homogeneous|]. split; [split; [reflexivity|]; intros i u v Hu Hv|split; [do 2 eexists; reflexivity|]].
  - pose proof (rd_bounds _ _ _ _ Hu) as B. cbn [length Z.of_nat Pos.of_succ_nat Pos.succ] in B.
    assert (i = 0 \/ i = 1 \/ i = 2 \/ i = 3 \/ i = 4 \/ i = 5 \/ i = 6 \/ i = 7 \/ i = 8 \/ i = 9) as C by lia.
    repeat (destruct C as [->|C]); [..|subst i]; cbn in Hu, Hv; injection Hu as <-; injection Hv as <-; reflexivity.
  - unfold measure_phase. destruct (slice _ _ _) as [w| |] eqn:E; [|discriminate E|discriminate E]. vm_compute in E. injection E as <-. cbn [bind]. unfold measure_window. cbn [q_data q_start q_delta].
    destruct (flat _) eqn:F; [vm_compute in F; discriminate|]. destruct (peak_to_trough_amplitude _ _ _ _) as [[[h f] t]|e|] eqn:P; [|vm_compute in P; discriminate P..]. cbn [average_amplitude bind]. eexists. reflexivity.
Qed.

(** With two pairs of the same difference, reversed polarity changes frequency and time. *)
Theorem C93_polarity_refuted : exists x y st dl w, (0 < dl)%Q /\ transformed (-1) 0 0 x y
  /\ exists r r', measure_phase zeros ENV 0 None (mk_qtrace st dl x) w = Ret (Some r) /\ measure_phase zeros ENV 0 None (mk_qtrace st dl y) w = Ret (Some r')
  /\ ~ (s_freq r' == s_freq r)%Q /\ ~ (s_time r' == s_time r)%Q.
Proof.
  exists [-3; 1; 2; 1; 0; 2; -3]%Q, [3; -1; -2; -1; 0; -2; 3]%Q, 0%Q, 1%Q, (0, 6)%Q. split; [reflexivity|]. split.
  - split; [reflexivity|]. intros i u v Hu Hv. pose proof (rd_bounds _ _ _ _ Hu) as B. cbn [length Z.of_nat Pos.of_succ_nat Pos.succ] in B.
    assert (i = 0 \/ i = 1 \/ i = 2 \/ i = 3 \/ i = 4 \/ i = 5 \/ i = 6) as C by lia.
    repeat (destruct C as [->|C]); [..|subst i]; cbn in Hu, Hv; injection Hu as <-; injection Hv as <-; reflexivity.
  - assert (G : forall x h f t z, slice (mk_qtrace 0 1 x) 0 6 = Ret z -> flat (detrend (q_data z)) = false -> peak_to_trough_amplitude 0 (detrend (q_data z)) (q_start z) (q_delta z) = Ret (h, f, t) ->
      exists r, measure_phase zeros ENV 0 None (mk_qtrace 0 1 x) (0, 6)%Q = Ret (Some r) /\ s_freq r = f /\ s_time r = t).
    { intros x h f t z E F P. unfold measure_phase. cbn [fst snd]. rewrite E. cbn [bind]. unfold measure_window. cbv zeta. rewrite F, P. cbn [average_amplitude bind]. eexists. split; [reflexivity|split; reflexivity]. }
    edestruct (G [-3; 1; 2; 1; 0; 2; -3]%Q) as (r & Er & Fr & Tr); [reflexivity|vm_compute; reflexivity|vm_compute; reflexivity|].
    edestruct (G [3; -1; -2; -1; 0; -2; 3]%Q) as (r' & Er' & Fr' & Tr'); [reflexivity|vm_compute; reflexivity|vm_compute; reflexivity|].
    exists r, r'. split; [exact Er|]. split; [exact Er'|]. rewrite Fr, Tr, Fr', Tr'. split; intros C; vm_compute in C; discriminate.
Qed.
Print Assumptions C93_polarity_refuted.

(** ** C94: the samples of a window *)

(** A window with its end not before its beginning is cut from the trace: all samples in the window
    are used, and no sample more than half a sample outside. *)
Theorem C94_samples_used : forall tr w, (0 < q_delta tr)%Q ->
  ((fst w <= snd w)%Q -> exists out, slice tr (fst w) (snd w) = Ret out)
  /\ forall out, slice tr (fst w) (snd w) = Ret out ->
     q_delta out = q_delta tr
     /\ (forall t v, has_sample out t v -> has_sample tr t v /\ (fst w - (1 # 2) * q_delta tr <= t <= snd w + (1 # 2) * q_delta tr)%Q)
     /\ (forall t v, has_sample tr t v -> (fst w <= t <= snd w)%Q -> has_sample out t v).
Proof.
  intros [st dl x] w Hd. cbn [q_delta] in Hd. split.
  - intros H. rewrite slice_cuts. unfold cuts. replace (Qlt_b (snd w) (fst w)) with false by (symmetry; apply Qlt_b_false; exact H). cbv zeta. destruct (_ || _); [eexists; reflexivity|]. destruct (0 <=? _); eexists; reflexivity.
  - intros out E. rewrite slice_cuts in E. destruct (cuts _ _ _ _ _) as [[k n]| |] eqn:Ec; cbn [bind] in E; try discriminate. injection E as <-. cbn [fst snd].
    destruct (cuts_ok _ _ _ _ _ _ _ Hd Ec) as (_ & Hk & Hn & Hm & R1 & R2). split; [reflexivity|]. unfold has_sample, time_of. cbn [q_data q_start q_delta]. split.
    + intros t v (i & Hi & Ht). rewrite rd_cut in Hi by exact Hk. destruct (_ && _) eqn:B; [|discriminate]. apply andb_true_iff in B.
      assert (Et : (t == st + inject_Z (k + i) * dl)%Q) by (rewrite Ht, inject_Z_plus; ring). split; [exists (k + i); split; [exact Hi|exact Et]|]. rewrite Et. apply R1. lia.
    + intros t v (i & Hi & Ht) W. rewrite Ht in W. pose proof (rd_bounds _ _ _ _ Hi) as B. specialize (R2 i B W). exists (i - k). rewrite rd_cut by exact Hk. replace ((0 <=? i - k) && (i - k <? n)) with true by lia.
      replace (k + (i - k)) with i by lia. split; [exact Hi|]. rewrite Ht. replace (inject_Z i) with (inject_Z (k + (i - k))) by (f_equal; lia). rewrite inject_Z_plus. ring.
Qed.
Print Assumptions C94_samples_used.

(** The time of a measurement lies in its window. *)
Theorem C94_time_in_window : forall envelope m mult gain tr w r, (0 < q_delta tr)%Q ->
  measure_phase envelope m mult gain tr w = Ret (Some r) -> (fst w < s_time r < snd w)%Q.
Proof.
  intros envelope m mult gain [st dl x] w r Hd E. cbn [q_delta] in Hd. unfold measure_phase in E. rewrite slice_cuts in E. destruct (cuts _ _ _ _ _) as [[k n]| |] eqn:Ec; cbn [bind fst snd] in E; try discriminate.
  destruct (cuts_ok _ _ _ _ _ _ _ Hd Ec) as (_ & Hk & Hn & Hm & R1 & _). set (y := firstn (Z.to_nat n) (skipn (Z.to_nat k) x)) in E.
  assert (Ly : Z.of_nat (length y) <= n) by (unfold y; rewrite firstn_length; lia).
  unfold measure_window in E. cbn [q_data q_start q_delta] in E. cbv zeta in E. destruct (flat _); [discriminate|].
  destruct (peak_to_trough_amplitude mult (detrend y) (st + inject_Z k * dl) dl) as [[[h f] t]|e|] eqn:P; [|destruct e; discriminate|discriminate].
  destruct (average_amplitude _ _ _) as [v| |]; cbn [bind] in E; try discriminate. assert (Et : s_time r = t) by (destruct gain as [g|]; [destruct (Qeq_bool (g f) 0); [discriminate|]|]; injection E as <-; reflexivity).
  apply p2t_pair in P. rewrite detrend_len in P. destruct P as (i & j & Hi & Hj & P). rewrite Et, P.
  assert (G : forall i, 1 <= i < Z.of_nat (length y) - 1 -> (fst w < st + inject_Z k * dl + inject_Z i * dl < snd w)%Q).
  { clear - R1 Ly Hd. intros i Hi. pose proof (R1 (k + i - 1) ltac:(lia)) as [A _]. pose proof (R1 (k + i + 1) ltac:(lia)) as [_ B]. unfold Z.sub in A. rewrite !inject_Z_plus in A, B. change (inject_Z (-(1))) with (-1)%Q in A. change (inject_Z 1) with 1%Q in B. split; lra. }
  pose proof (G i Hi). pose proof (G j Hj). setoid_replace (st + inject_Z k * dl + (inject_Z i * dl + inject_Z j * dl) / 2)%Q with ((1 # 2) * (st + inject_Z k * dl + inject_Z i * dl) + (1 # 2) * (st + inject_Z k * dl + inject_Z j * dl))%Q by field. split; lra.
Qed.
Print Assumptions C94_time_in_window.

(** The P amplitude of a station is measured before the S amplitude. *)
Theorem C94_p_before_s : forall envelope m mult gain tr k table station otime mw ptt stt f ws picked p s, (0 < q_delta tr)%Q ->
  get_amplitude_windows k table station otime mw ptt stt f = Ret (ws, picked) ->
  measure_signal_amps envelope m mult gain tr ws = Ret (Some p, Some s) -> (s_time p < s_time s)%Q.
Proof.
  intros envelope m mult gain tr k table station otime mw ptt stt f [[p0 p1] [s0 s1]] picked p s Hd Hw E. apply C49_windows_ordered in Hw. destruct Hw as [Hw _]. unfold measure_signal_amps in E. cbn [fst snd] in E.
  destruct (measure_phase envelope m mult gain tr (p0, p1)) as [rp| |] eqn:E1; cbn [bind] in E; try discriminate. destruct (measure_phase envelope m mult gain tr (s0, s1)) as [rs| |] eqn:E2; cbn [bind] in E; try discriminate.
  injection E as -> ->. pose proof (C94_time_in_window _ _ _ _ _ _ _ Hd E1). pose proof (C94_time_in_window _ _ _ _ _ _ _ Hd E2). cbn [fst snd] in *. lra.
Qed.
Print Assumptions C94_p_before_s.
(** A trace with a measurement in both windows. *)
Example C94_ex : exists ws picked p s, get_amplitude_windows (mk_amp_params 1 1) [] "A" 0 (1 # 2) 4 12 0 = Ret (ws, picked)
  /\ measure_signal_amps zeros ENV 0 None (mk_qtrace 0 (1 # 2) (map inject_Z [0; 0; 0; 0; 0; 0; 0; 1; 5; -3; 2; 0; 0; 0; 0; 0; 0; 0; 0; 0; 0; 0; 0; 1; 9; -7; 3; 0; 0; 0; 0; 0; 0; 0; 0; 0; 0])) ws = Ret (Some p, Some s).
Proof.
  do 2 eexists. unfold measure_signal_amps, measure_phase. 
  assert (G : forall w h f t, flat (detrend (q_data w)) = false -> peak_to_trough_amplitude 0 (detrend (q_data w)) (q_start w) (q_delta w) = Ret (h, f, t) -> measure_window zeros ENV 0 None w = Ret (Some (mk_sig h f t (rmean (zeros (detrend (q_data w))) * 1000)%R None))).
  { intros w h f t F P. unfold measure_window. cbv zeta. rewrite F, P. reflexivity. }
  do 2 eexists. split; [reflexivity|]. cbn [fst snd].
  destruct (slice _ _ _) as [w| |] eqn:E1; [|vm_compute in E1; discriminate..]. vm_compute in E1. injection E1 as <-. cbn [bind]. erewrite G; [|vm_compute; reflexivity|vm_compute; reflexivity]. cbn [bind].
  destruct (slice _ _ _) as [w| |] eqn:E2; [|vm_compute in E2; discriminate..]. vm_compute in E2. injection E2 as <-. cbn [bind]. erewrite G; [|vm_compute; reflexivity|vm_compute; reflexivity]. cbn [bind]. reflexivity.
Qed.

(** ** C95: detrending, averages, gain *)

(** The detrended data are the data minus a line, with mean zero and no linear trend left; no other
    line does this. *)
Theorem C95_detrended : forall x, length (detrend x) = length x
  /\ (exists a b, forall i u v, rd x i = Some u -> rd (detrend x) i = Some v -> (v == u - (a + b * inject_Z i))%Q)
  /\ (qsum (detrend x) == 0)%Q /\ (first_moment (detrend x) == 0)%Q
  /\ forall y a b, length y = length x -> (forall i u v, rd x i = Some u -> rd y i = Some v -> (v == u - (a + b * inject_Z i))%Q) ->
     (qsum y == 0)%Q -> (first_moment y == 0)%Q -> Forall2 Qeq y (detrend x).
Proof.
  assert (FM : forall y, (first_moment y == QS (fun i => inject_Z i * at_ y i) (length y))%Q).
  { intros y. unfold first_moment. rewrite qsum_at, map_length, combine_length, zrange_length, Nat2Z.id, Nat.min_id. apply QS_ext. intros i Hi. unfold at_ at 1. rewrite rd_map.
    rewrite (rd_combine_2 _ _ i i (at_ y i)); [reflexivity|apply rd_zrange; lia|apply at_rd; exact Hi]. }
  intros x. split; [apply detrend_len|]. destruct (detrend_sums x) as [S1 S2]. split; [|split; [|split]].
  - exists (qmean x - slope x * ((inject_Z (Z.of_nat (length x)) - 1) / 2))%Q, (slope x). intros i u v Hu Hv. pose proof (rd_bounds _ _ _ _ Hu) as B. apply at_of in Hu, Hv. rewrite <- Hu, <- Hv, (detrend_at x i B). unfold tc. ring.
  - rewrite qsum_at, detrend_len. exact S1.
  - rewrite FM, detrend_len. exact S2.
  - intros y a b L H T1 T2. assert (T : transformed 1 (- a) (- b) x y) by (split; [symmetry; exact L|]; intros i u v Hu Hv; rewrite (H i u v Hu Hv); ring). apply detrend_transformed in T.
    assert (G : forall i, 0 <= i < Z.of_nat (length y) -> (at_ (detrend y) i == at_ y i)%Q).
    { intros i Hi. rewrite detrend_at by exact Hi. assert (M : (qmean y == 0)%Q) by (unfold qmean; rewrite T1; unfold Qdiv; ring). rewrite M.
      assert (Sl : (slope y * tc (length y) i == 0)%Q); [|rewrite Sl; ring]. assert (N : (qdot (centred (length y)) y == 0)%Q); [|unfold slope; rewrite N; unfold Qdiv; ring].
      rewrite dot_tc. transitivity (QS (fun i => 1 * (inject_Z i * at_ y i) + (- ((inject_Z (Z.of_nat (length y)) - 1) / 2)) * at_ y i) (length y))%Q; [apply QS_ext; intros; unfold tc; ring|].
      rewrite (QS_lin 1 _ (fun i => inject_Z i * at_ y i)%Q (at_ y)), <- FM, <- qsum_at, T1, T2. ring. }
    assert (G' : scaled 1 (detrend x) y).
    { apply scaled_of_at; [rewrite detrend_len; symmetry; exact L|]. rewrite detrend_len. intros i Hi. rewrite <- G by lia. apply (scaled_at _ _ _ T). }
    clear - G'. induction G' as [|u v l l' E G' IH]; constructor; [rewrite E; ring|exact IH].
Qed.
Print Assumptions C95_detrended.

(** RMS and standard deviation of detrended data are the same; they are at most the largest
    amplitude. *)
Theorem C95_rms : forall envelope x, x <> [] ->
  average_amplitude envelope RMS (detrend x) = average_amplitude envelope STD (detrend x)
  /\ exists a, average_amplitude envelope RMS (detrend x) = Ret a /\ (0 <= a <= 1000 * Q2R (max_abs (detrend x)))%R.
Proof.
  intros envelope x N. cbn [average_amplitude]. cbv zeta. rewrite detrend_mean. split.
  - do 4 f_equal. apply map_ext. intros v. ring.
  - eexists. split; [reflexivity|]. apply rms_bounds. intros C. apply (f_equal (@length Q)) in C. rewrite detrend_len in C. destruct x; [congruence|discriminate].
Qed.
Print Assumptions C95_rms.

(** With a filter, amplitude and average are those measured, divided by the gain of the filter at
    the measured frequency; there is no measurement only if there is none without a filter or the
    gain is zero. *)
Theorem C95_gain : forall envelope m mult g w o, measure_window envelope m mult None w = Ret o ->
  match o with
  | None => measure_window envelope m mult (Some g) w = Ret None
  | Some r => if Qeq_bool (g (s_freq r)) 0 then measure_window envelope m mult (Some g) w = Ret None
              else exists r', measure_window envelope m mult (Some g) w = Ret (Some r') /\ (s_half r' * g (s_freq r) == s_half r)%Q /\ (s_avg r' * Q2R (g (s_freq r)) = s_avg r)%R
                   /\ s_freq r' = s_freq r /\ s_time r' = s_time r /\ s_gain r' = Some (g (s_freq r))
  end.
Proof.
  intros envelope m mult g w o E. unfold measure_window in *. cbv zeta in *. destruct (flat _); [injection E as <-; reflexivity|].
  destruct (peak_to_trough_amplitude _ _ _ _) as [[[h f] t]|e|]; [|destruct e; try discriminate; injection E as <-; reflexivity|discriminate].
  destruct (average_amplitude _ _ _) as [v| |]; cbn [bind] in *; try discriminate. injection E as <-. cbn [s_freq s_half s_avg s_time]. destruct (Qeq_bool (g f) 0) eqn:Z; [reflexivity|].
  assert (N : ~ (g f == 0)%Q) by (intros C; apply Qeq_bool_iff in C; congruence). eexists. split; [reflexivity|]. cbn [s_freq s_half s_avg s_time s_gain]. split; [field; exact N|]. split; [|repeat split; reflexivity].
  field. intros C. apply N. apply eqR_Qeq. rewrite C, RMicromega.Q2R_0. reflexivity.
Qed.
Print Assumptions C95_gain.

(** Data on a straight line give no measurement. *)
Theorem C95_straight_line : forall envelope m mult gain w a b,
  (forall i v, rd (q_data w) i = Some v -> (v == a + b * inject_Z i)%Q) -> measure_window envelope m mult gain w = Ret None.
Proof.
  intros envelope m mult gain w a b H. unfold measure_window. cbv zeta. replace (flat (detrend (q_data w))) with true; [reflexivity|]. symmetry.
  assert (T : transformed 0 a b (q_data w) (q_data w)) by (split; [reflexivity|]; intros i u v _ Hv; rewrite (H i v Hv); ring). apply detrend_transformed in T.
  assert (F : Forall (fun v => (v == 0)%Q) (detrend (q_data w))) by (revert T; generalize (detrend (q_data w)) at 1; induction (detrend (q_data w)) as [|v l IH]; intros l' T; [constructor|]; inversion T; subst; constructor; [lra|eapply IH; eassumption]).
  destruct (detrend (q_data w)) as [|v l]; [reflexivity|]. cbn [flat]. apply forallb_forall. intros u Hu. inversion F as [|? ? Fv Fl]; subst. rewrite Forall_forall in Fl. apply Qeq_bool_iff. rewrite Fv, (Fl u Hu). reflexivity.
Qed.
Print Assumptions C95_straight_line.

(** The noise amplitude is missing exactly for an empty or constant noise window. *)
Theorem C95_noise : forall envelope m k tr ws z, m <> Other -> slice tr (fst (noise_window_of k ws)) (snd (noise_window_of k ws)) = Ret z ->
  exists o, measure_noise_amp envelope m k tr ws = Ret o
  /\ (o = None <-> forall u v, In u (q_data z) -> In v (q_data z) -> (u == v)%Q).
Proof.
  intros envelope m k tr ws z Hm E. unfold measure_noise_amp. cbv zeta. rewrite E. cbn [bind].
  assert (F : flat (q_data z) = true <-> forall u v, In u (q_data z) -> In v (q_data z) -> (u == v)%Q).
  { destruct (q_data z) as [|a l]; [split; [intros _ u v []|reflexivity]|]. cbn [flat]. rewrite forallb_forall. split.
    - intros H. assert (G : forall u, In u (a :: l) -> (a == u)%Q) by (intros u [->|Hu]; [reflexivity|apply Qeq_bool_iff, H, Hu]). intros u v Hu Hv. rewrite <- (G u Hu). apply G, Hv.
    - intros H u Hu. apply Qeq_bool_iff. apply H; [left; reflexivity|right; exact Hu]. }
  destruct (flat (q_data z)); [exists None; split; [reflexivity|]; split; [intros _; apply F; reflexivity|reflexivity]|].
  destruct m; [| | |congruence]; cbn [average_amplitude bind]; (eexists; split; [reflexivity|]; split; [discriminate|intros H; apply F in H; discriminate]).
Qed.
Print Assumptions C95_noise.

(** "A noise amplitude is positive" is false: a straight line gives zero, not NaN. *)
Theorem C95_zero_noise_refuted : exists k tr ws, measure_noise_amp zeros RMS k tr ws = Ret (Some 0%R).
Proof.
  exists (mk_amp_params 1 4), (mk_qtrace 0 1 (map inject_Z [0; 1; 2; 3; 4])), ((4, 4), (4, 4))%Q. unfold measure_noise_amp. cbv zeta.
  destruct (slice _ _ _) as [w| |] eqn:E; [|vm_compute in E; discriminate..]. vm_compute in E. injection E as <-. cbn [bind q_data]. destruct (flat _) eqn:F; [vm_compute in F; discriminate|].
  cbn [average_amplitude bind]. do 2 f_equal. match goal with |- context [detrend ?d] => assert (Z : Forall (fun v => (v == 0)%Q) (detrend d)) by (vm_compute; repeat constructor); set (l := detrend d) in * end.
  assert (S : rmean (map (fun v => Q2R v * Q2R v)%R l) = 0%R).
  { unfold rmean. replace (fold_right Rplus 0 (map (fun v => Q2R v * Q2R v) l))%R with 0%R; [unfold Rdiv; ring|]. clearbody l. induction Z as [|v l Hv Z IH]; [reflexivity|]. cbn [map fold_right]. rewrite <- IH, (Qeq_eqR _ _ Hv), RMicromega.Q2R_0. ring. }
  rewrite S, sqrt_0. ring.
Qed.
Print Assumptions C95_zero_noise_refuted.

(** A window with a measurement; a noise window that is not constant. *)
Example C95_ex : (exists r, measure_window zeros ENV 0 None (mk_qtrace 0 1 (map inject_Z [0; 1; 0; 0; 4; 0; 3; 0; 0; 0])) = Ret (Some r))
  /\ (exists z, slice (mk_qtrace 0 1 (map inject_Z [0; 1; 0; 2; 4])) (fst (noise_window_of (mk_amp_params 1 4) ((4, 4), (4, 4))%Q)) (snd (noise_window_of (mk_amp_params 1 4) ((4, 4), (4, 4))%Q)) = Ret z /\ length (q_data z) = 5%nat).
Proof.
  split; [|eexists; split; reflexivity]. unfold measure_window. cbv zeta. cbn [q_data q_start q_delta]. destruct (flat _) eqn:F; [vm_compute in F; discriminate|].
  destruct (peak_to_trough_amplitude _ _ _ _) as [[[h f] t]|e|] eqn:P; [|vm_compute in P; discriminate P..]. cbn [average_amplitude bind]. eexists. reflexivity.
Qed.

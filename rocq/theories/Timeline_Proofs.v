(** Proofs about the time axis. *)
From Coq Require Import List ZArith Reals Lra Lia Bool.
From Verif Require Import Lib LibFacts PySlice PySliceFacts Migrate_Spec StaLta_Proofs Timeline_Model Timeline_Spec.
Import ListNotations.
Open Scope Z_scope.

Lemma cdiv_spec a b : 0 < b -> a <= cdiv a b * b < a + b.
Proof. intros H. unfold cdiv. pose proof (Z.div_mod (- a) b). pose proof (Z.mod_pos_bound (- a) b H). nia. Qed.
Lemma cdiv_le a b x : 0 < b -> (cdiv a b <= x <-> a <= x * b).
Proof. intros H. pose proof (cdiv_spec a b H). split; intros; nia. Qed.
Lemma cdiv_mul x b : 0 < b -> cdiv (x * b) b = x.
Proof. intros H. unfold cdiv. rewrite <- Z.mul_opp_l, Z.div_mul by lia. lia. Qed.
Lemma cdiv_unique a b x : 0 < b -> a <= x * b < a + b -> cdiv a b = x.
Proof. intros H E. pose proof (cdiv_spec a b H). nia. Qed.
Lemma cdiv_pos a b : 0 < b -> 0 < a -> 0 < cdiv a b.
Proof. intros H E. pose proof (cdiv_spec a b H). nia. Qed.
Lemma cdiv_nonneg a b : 0 < b -> 0 <= a -> 0 <= cdiv a b.
Proof. intros H E. pose proof (cdiv_spec a b H). nia. Qed.
Lemma le_div a b x : 0 < b -> (x <= a / b <-> x * b <= a).
Proof. intros H. pose proof (Z.div_mod a b). pose proof (Z.mod_pos_bound a b H). split; intros; nia. Qed.

Lemma rnd_he_nearest a b : 0 < b -> nearest (rnd_he a b) a b.
Proof.
  intros H. unfold nearest, rnd_he. pose proof (Z.div_mod a b). pose proof (Z.mod_pos_bound a b H).
  destruct (Z.ltb_spec (2 * (a mod b)) b); [nia|]. destruct (Z.ltb_spec b (2 * (a mod b))); [nia|].
  destruct (Z.even (a / b)); nia.
Qed.
Lemma rnd_he_mul x b : 0 < b -> rnd_he (x * b) b = x.
Proof.
  intros H. unfold rnd_he. rewrite Z.div_mul, Z.mod_mul by lia. cbv zeta.
  destruct (Z.ltb_spec (2 * 0) b); lia.
Qed.
Lemma rnd_he_scale a b k : 0 < b -> 0 < k -> rnd_he (a * k) (b * k) = rnd_he a b.
Proof.
  intros Hb Hk. unfold rnd_he. rewrite Z.div_mul_cancel_r by lia. rewrite Z.mul_mod_distr_r by lia. cbv zeta.
  destruct (Z.ltb_spec (2 * (a mod b * k)) (b * k)), (Z.ltb_spec (2 * (a mod b)) b); try nia; try reflexivity.
  destruct (Z.ltb_spec (b * k) (2 * (a mod b * k))), (Z.ltb_spec b (2 * (a mod b))); try nia; try reflexivity.
Qed.
Lemma rnd_he_mono a a' b : 0 < b -> a <= a' -> rnd_he a b <= rnd_he a' b.
Proof.
  intros H E. destruct (Z.eq_dec a a') as [->|Hne]; [lia|].
  unfold rnd_he. cbv zeta.
  pose proof (Z.div_mod a b). pose proof (Z.mod_pos_bound a b H).
  pose proof (Z.div_mod a' b). pose proof (Z.mod_pos_bound a' b H).
  assert (a / b <= a' / b) by (apply Z.div_le_mono; lia).
  destruct (Z.eq_dec (a / b) (a' / b)) as [Hq|Hq].
  - rewrite Hq in *.
    destruct (Z.ltb_spec (2 * (a mod b)) b), (Z.ltb_spec (2 * (a' mod b)) b); try lia;
    destruct (Z.ltb_spec b (2 * (a mod b))), (Z.ltb_spec b (2 * (a' mod b))); try lia;
    destruct (Z.even (a' / b)); lia.
  - destruct (Z.ltb_spec (2 * (a mod b)) b), (Z.ltb_spec (2 * (a' mod b)) b); try lia;
    destruct (Z.ltb_spec b (2 * (a mod b))), (Z.ltb_spec b (2 * (a' mod b))); try lia;
    destruct (Z.even (a / b)), (Z.even (a' / b)); lia.
Qed.

Lemma zmax_ge l x : In x l -> x <= zmax l.
Proof.
  unfold zmax. generalize (hd 0 l). induction l as [|a l IH]; intros d H; [destruct H|].
  cbn. destruct H as [->|H]; [lia|]. specialize (IH d H). lia.
Qed.
Lemma zmax_nonneg l : Forall (fun x => 0 <= x) l -> 0 <= zmax l.
Proof.
  intros H. destruct l as [|a l]; [reflexivity|]. inversion H; subst.
  apply Z.le_trans with a; [assumption|]. apply zmax_ge. left. reflexivity.
Qed.

Section Clock.
Variable c : clock.
Hypothesis Hc : clock_ok c.

Lemma sec_pos : 0 < sec c. Proof. destruct Hc as (H & _). exact H. Qed.
Lemma sec_decomp : exists e, sec c = 100000 * e /\ 0 < e /\ eps c = e /\ ms c = 100 * e /\ 2 * e < delta c.
Proof.
  destruct Hc as (H & [e E] & D). exists e. unfold eps, ms. rewrite E in *.
  rewrite Z.div_mul in D by lia. repeat split; try lia.
  - apply Z.div_mul. lia.
  - replace (e * 100000) with (100 * e * 1000) by ring. apply Z.div_mul. lia.
Qed.
Lemma delta_pos : 0 < delta c.
Proof. destruct sec_decomp as (e & _ & He & _ & _ & D). lia. Qed.

(** With a whole-number rate, time2sample is the nearest number of samples. *)
Lemma time2sample_rate t : integer_rate c -> time2sample c t = rnd_he t (delta c).
Proof.
  intros [r E]. pose proof sec_pos. pose proof delta_pos. unfold time2sample. rewrite E.
  rewrite Z.div_mul by lia. rewrite (Z.mul_comm r). apply rnd_he_scale; nia.
Qed.
Lemma time2sample_on t : integer_rate c -> (delta c | t) -> time2sample c t = t / delta c.
Proof.
  intros Hr [k ->]. pose proof delta_pos. rewrite time2sample_rate by assumption.
  rewrite rnd_he_mul, Z.div_mul by lia. reflexivity.
Qed.

Lemma trim2sample_eq t : 0 <= t ->
  trim2sample c t = (cdiv t (delta c) * delta c / ms c) * ms c.
Proof.
  intros Ht. destruct sec_decomp as (e & Es & He & _ & Em & D). pose proof delta_pos. unfold trim2sample.
  pose proof (cdiv_nonneg t (delta c) H Ht). rewrite Em, Es.
  rewrite Z.quot_div_nonneg by nia. f_equal.
  replace (100000 * e) with (100 * e * 1000) by ring. rewrite Z.div_mul_cancel_r by lia. reflexivity.
Qed.
Lemma trim2sample_whole t : whole_ms c -> 0 <= t -> trim2sample c t = cdiv t (delta c) * delta c.
Proof.
  intros [k E] Ht. destruct sec_decomp as (e & Es & He & _ & Em & D). rewrite trim2sample_eq by assumption.
  fold (ms c) in E. rewrite Em in *.
  assert (Hd : cdiv t (delta c) * delta c = cdiv t (delta c) * k * (100 * e)) by (rewrite E; ring).
  rewrite Hd. rewrite Z.div_mul by lia. reflexivity.
Qed.
(** In general the truncation to milliseconds loses less than one millisecond. *)
Lemma trim2sample_bounds t : 0 <= t -> t - ms c < trim2sample c t < t + delta c.
Proof.
  intros Ht. destruct sec_decomp as (e & Es & He & _ & Em & D). pose proof delta_pos.
  rewrite trim2sample_eq by assumption. pose proof (cdiv_spec t (delta c) H).
  rewrite Em in *. set (a := cdiv t (delta c) * delta c) in *.
  pose proof (Z.div_mod a (100 * e)). pose proof (Z.mod_pos_bound a (100 * e)). nia.
Qed.
Lemma trim2sample_ge_ms t : 0 <= t -> (ms c | t) -> t <= trim2sample c t.
Proof.
  intros Ht [k E]. destruct sec_decomp as (e & Es & He & _ & Em & D). pose proof delta_pos.
  rewrite trim2sample_eq by assumption. pose proof (cdiv_spec t (delta c) H).
  rewrite Em in *. rewrite E at 1. apply Z.mul_le_mono_nonneg_r; [lia|]. apply le_div; lia.
Qed.

Lemma divide_cdiv_add t x : (delta c | x) -> cdiv (t + x) (delta c) = cdiv t (delta c) + x / delta c.
Proof.
  intros [k ->]. pose proof delta_pos. rewrite Z.div_mul by lia. apply cdiv_unique; [lia|].
  pose proof (cdiv_spec t (delta c) H). nia.
Qed.

(** Any trace that survives the trim and passes the full-timespan check, when the window is a
    whole number of samples long. *)
Lemma window_npts w_beg w_end t t' :
  (delta c | w_end - w_beg) -> trim_window c w_beg w_end t = Some t' ->
  full_timespan_ok c w_beg w_end (npts t') = true -> npts t' = (w_end - w_beg) / delta c + 1.
Proof.
  intros [k Hw] Et Ef. destruct sec_decomp as (e & Es & He & Ee & Em & D). pose proof delta_pos.
  rewrite Hw, Z.div_mul by lia.
  unfold trim_window in Et. cbv zeta in Et.
  set (A := Z.max _ _) in *. set (B := Z.min _ _) in *. destruct (Z.leb_spec A B); [|discriminate].
  injection Et as <-. unfold npts in *. cbn [k0 k1] in *.
  unfold full_timespan_ok in Ef. apply negb_true_iff, Z.ltb_ge in Ef.
  assert (HA : cdiv (w_beg - eps c - phase t) (delta c) <= A) by (subst A; lia).
  assert (HB : B <= (w_end + eps c - phase t) / delta c) by (subst B; lia).
  apply cdiv_le in HA; [|lia]. apply le_div in HB; [|lia].
  assert (B - A < k + 1) by nia. nia.
Qed.

Lemma window_samples_len pre post w_beg w_end t n :
  integer_rate c -> (delta c | pre) -> (delta c | post) -> (delta c | w_end - w_beg) ->
  window_samples c pre post w_beg w_end t = Some n ->
  n = (w_end - w_beg) / delta c + 1 - pre / delta c - post / delta c.
Proof.
  intros Hr Hpre Hpost Hw E.
  unfold window_samples in E. destruct (trim_window c w_beg w_end t) as [t'|] eqn:Et; [|discriminate].
  destruct (full_timespan_ok c w_beg w_end (npts t')) eqn:Ef; [|discriminate]. injection E as <-.
  rewrite !time2sample_on by assumption. rewrite (window_npts _ _ _ _ Hw Et Ef). reflexivity.
Qed.

(** Complete data and a window whose start is on-sample. *)
Lemma window_samples_complete pre post w_beg w_end t :
  integer_rate c -> (delta c | pre) -> (delta c | post) -> (delta c | w_end - w_beg) ->
  (delta c | w_beg) -> complete c t w_beg w_end -> w_beg <= w_end ->
  window_samples c pre post w_beg w_end t
  = Some ((w_end - w_beg) / delta c + 1 - pre / delta c - post / delta c).
Proof.
  intros Hr Hpre Hpost Hw Hb (Hp & H0 & H1) Hle.
  destruct sec_decomp as (e & Es & He & Ee & Em & D). pose proof delta_pos.
  destruct (window_samples c pre post w_beg w_end t) as [n|] eqn:E.
  - f_equal. eapply window_samples_len; eassumption.
  - exfalso. unfold window_samples, trim_window in E. cbv zeta in E.
    destruct Hb as [b Hb], Hw as [k Hw]. destruct Hp as [p Hp]. unfold sample_time in *.
    assert (HA : cdiv (w_beg - eps c - phase t) (delta c) = b - p).
    { apply cdiv_unique; [lia|]. nia. }
    assert (HB : (w_end + eps c - phase t) / delta c = b + k - p).
    { symmetry. apply Z.div_unique with (r := eps c); [lia|]. nia. }
    rewrite HA, HB in E.
    assert (M0 : Z.max (k0 t) (b - p) = b - p) by nia.
    assert (M1 : Z.min (k1 t) (b + k - p) = b + k - p) by nia.
    rewrite M0, M1 in E. destruct (Z.leb_spec (b - p) (b + k - p)); [|nia].
    unfold npts in E. cbn [k0 k1] in E.
    destruct (full_timespan_ok c w_beg w_end (b + k - p - (b - p) + 1)) eqn:Ef; [discriminate|].
    unfold full_timespan_ok in Ef. apply negb_false_iff, Z.ltb_lt in Ef. nia.
Qed.

(** On-sample data and a window of whole samples whose start is off-sample by more than 1e-5 s
    on either side: never available. *)
Lemma window_samples_off_sample pre post w_beg w_end t :
  (delta c | w_end - w_beg) -> on_sample c (phase t) ->
  eps c < w_beg mod delta c < delta c - eps c ->
  window_samples c pre post w_beg w_end t = None.
Proof.
  intros [k Hw] [p Hp] Hoff. destruct sec_decomp as (e & Es & He & Ee & Em & D). pose proof delta_pos.
  unfold window_samples. destruct (trim_window c w_beg w_end t) as [t'|] eqn:Et; [|reflexivity].
  unfold trim_window in Et. cbv zeta in Et.
  set (A := Z.max _ _) in *. set (B := Z.min _ _) in *. destruct (Z.leb_spec A B); [|discriminate].
  injection Et as <-. unfold npts. cbn [k0 k1].
  assert (HA : cdiv (w_beg - eps c - phase t) (delta c) <= A) by (subst A; lia).
  assert (HB : B <= (w_end + eps c - phase t) / delta c) by (subst B; lia).
  apply cdiv_le in HA; [|lia]. apply le_div in HB; [|lia].
  destruct (full_timespan_ok c w_beg w_end (B - A + 1)) eqn:Ef; [|reflexivity].
  unfold full_timespan_ok in Ef. apply negb_true_iff, Z.ltb_ge in Ef.
  exfalso. pose proof (Z.div_mod w_beg (delta c)) as Hdm. rewrite Hp in *.
  set (q := w_beg / delta c) in *. set (r := w_beg mod delta c) in *.
  assert (q + 1 - p <= A) by nia. assert (B <= q + k - p) by nia. nia.
Qed.

Lemma onset_pad_taper timespan pre post :
  0 <= timespan + (pre + post) ->
  timespan + (pre + post) <= 0 \/ 0 < cdiv ((timespan + (pre + post)) * 6) (100 * sec c) * sec c.
Proof.
  intros H. pose proof sec_pos. destruct (Z.eq_dec (timespan + (pre + post)) 0); [left; lia|right].
  apply Z.mul_pos_pos; [|lia]. apply cdiv_pos; lia.
Qed.

Lemma onset_pad_whole timespan pre post a b :
  whole_ms c -> 0 <= timespan -> 0 <= pre -> 0 <= post -> onset_pad c timespan pre post = (a, b) ->
  (delta c | a) /\ (delta c | b) /\ pre <= a /\ post <= b.
Proof.
  intros Hm Ht Hp Hq E. unfold onset_pad in E. cbv zeta in E.
  pose proof sec_pos as Hs. pose proof delta_pos as Hd.
  assert (Htp : 0 <= cdiv ((timespan + (pre + post)) * 6) (100 * sec c) * sec c).
  { apply Z.mul_nonneg_nonneg; [|lia]. apply cdiv_nonneg; lia. }
  set (tp := cdiv _ _ * sec c) in *. injection E as <- <-.
  rewrite !trim2sample_whole by (assumption || lia).
  pose proof (cdiv_spec (pre + tp) (delta c) Hd). pose proof (cdiv_spec (post + tp) (delta c) Hd).
  repeat split; try lia; apply Z.divide_factor_r.
Qed.

Lemma detect_step_window_len starttime timestep pre post i :
  snd (step_window c starttime timestep pre post i) - fst (step_window c starttime timestep pre post i)
  = timestep - delta c + pre + post.
Proof. cbn [step_window fst snd]. ring. Qed.

Lemma detect_step_ok timespan pre0 post0 pre post starttime timestep i t :
  integer_rate c -> whole_ms c -> 0 <= timespan -> 0 <= pre0 -> 0 <= post0 ->
  onset_pad c timespan pre0 post0 = (pre, post) -> (delta c | timestep) ->
  detect_step c starttime timestep pre post i t = (starttime + timestep * i, timestep / delta c).
Proof.
  intros Hr Hm Ht Hp Hq E Hts. destruct (onset_pad_whole _ _ _ _ _ Hm Ht Hp Hq E) as (Da & Db & _).
  pose proof delta_pos as Hd. unfold detect_step. cbv zeta.
  destruct (window_samples _ _ _ _ _ _) as [n|] eqn:W.
  - apply window_samples_len in W; try assumption.
    + rewrite detect_step_window_len in W. f_equal; [cbn [step_window fst]; ring|].
      destruct Da as [a ->], Db as [b ->], Hts as [k ->]. rewrite W.
      replace (k * delta c - delta c + a * delta c + b * delta c) with ((k - 1 + a + b) * delta c) by ring.
      rewrite !Z.div_mul by lia. lia.
    + rewrite detect_step_window_len. repeat apply Z.divide_add_r; try assumption.
      apply Z.divide_opp_r, Z.divide_refl.
  - f_equal. apply time2sample_on; assumption.
Qed.

Lemma flat_map_ext_in A B (f g : A -> list B) l : (forall x, In x l -> f x = g x) -> flat_map f l = flat_map g l.
Proof.
  induction l as [|a l IH]; intros H; [reflexivity|]. cbn. rewrite H by (left; reflexivity).
  rewrite IH; [reflexivity|]. intros x Hx. apply H. right. exact Hx.
Qed.

(** Concatenating consecutive blocks of [m] samples gives one run of samples. *)
Lemma blocks_concat start m n : 0 <= m ->
  flat_map (fun i => block_times c (start + m * delta c * i, m)) (zseq 0 n)
  = times_from c start (m * Z.of_nat n).
Proof.
  intros Hm. unfold times_from, zrange.
  assert (G : forall n lo, 0 <= lo ->
    flat_map (fun i => block_times c (start + m * delta c * i, m)) (zseq lo n)
    = map (fun k => start + k * delta c) (zseq (m * lo) (Z.to_nat (m * Z.of_nat n)))).
  { clear n. induction n as [|n IH]; intros lo Hlo.
    - rewrite Z.mul_0_r. reflexivity.
    - cbn [zseq flat_map]. rewrite IH by lia.
      replace (Z.to_nat (m * Z.of_nat (S n))) with (Z.to_nat m + Z.to_nat (m * Z.of_nat n))%nat by nia.
      rewrite zseq_app, map_app. f_equal.
      + unfold block_times. cbn [fst snd]. unfold zrange.
        assert (Q : forall k a b, map (fun k => start + m * delta c * lo + k * delta c) (zseq a k)
                    = map (fun k => start + k * delta c) (zseq b k) \/ b <> m * lo + a).
        { induction k as [|k IHk]; intros a b; [left; reflexivity|].
          destruct (Z.eq_dec b (m * lo + a)) as [->|]; [left|right; assumption].
          cbn [zseq map]. f_equal; [ring|].
          destruct (IHk (a + 1) (m * lo + a + 1)) as [H|H]; [exact H|lia]. }
        destruct (Q (Z.to_nat m) 0 (m * lo)) as [H|H]; [exact H|lia].
      + f_equal. f_equal. nia. }
  rewrite (G n 0) by lia. rewrite Z.mul_0_r. reflexivity.
Qed.

Lemma detect_times_ok timespan pre0 post0 pre post starttime endtime timestep data :
  integer_rate c -> whole_ms c -> 0 <= timespan -> 0 <= pre0 -> 0 <= post0 ->
  onset_pad c timespan pre0 post0 = (pre, post) -> 0 < timestep -> (delta c | timestep) ->
  detect_times c starttime endtime timestep pre post data
  = times_from c starttime (timestep / delta c * Z.max 0 (n_steps c starttime endtime timestep)).
Proof.
  intros Hr Hm Ht Hp Hq E Hts Hd. pose proof delta_pos as HD. unfold detect_times.
  rewrite (flat_map_ext_in _ _ _ (fun i => block_times c (starttime + timestep / delta c * delta c * i, timestep / delta c))).
  - unfold zrange. rewrite blocks_concat by (apply Z.div_pos; lia). f_equal. f_equal. lia.
  - intros i _. rewrite (detect_step_ok timespan pre0 post0) by assumption. f_equal. f_equal.
    destruct Hd as [k ->]. rewrite Z.div_mul by lia. reflexivity.
Qed.

Lemma in_times_from t0 n t : In t (times_from c t0 n) <-> exists k, 0 <= k < n /\ t = t0 + k * delta c.
Proof.
  unfold times_from. rewrite in_map_iff. split.
  - intros (k & <- & H). apply in_zrange in H. exists k. split; [exact H|reflexivity].
  - intros (k & H & ->). exists k. split; [reflexivity|]. apply in_zrange. exact H.
Qed.
Lemma times_from_nodup t0 n : NoDup (times_from c t0 n).
Proof.
  pose proof delta_pos. unfold times_from. apply FinFun.Injective_map_NoDup; [|apply zrange_nodup].
  intros x y E. nia.
Qed.

(** Tapers. The trace analysed is at most one sample longer than the window. *)
Lemma taper_fits span raw tp d n :
  0 < d -> 3 * d <= sec c -> 0 < raw ->
  tp = cdiv (raw * 6) (100 * sec c) * sec c -> span <= raw + 2 * tp + 3 * d -> (n - 1) * d <= span -> 0 <= n ->
  taper_samples n * d <= tp.
Proof.
  intros Hd Hds Hraw Etp Hspan Hn Hn0. pose proof sec_pos as Hs.
  assert (Ht : sec c <= tp /\ 6 * raw <= 100 * tp).
  { pose proof (cdiv_spec (raw * 6) (100 * sec c) ltac:(lia)) as [A _].
    pose proof (cdiv_pos (raw * 6) (100 * sec c) ltac:(lia) ltac:(lia)) as B. subst tp.
    set (q := cdiv _ _) in *. split; [nia|]. rewrite Z.mul_assoc, (Z.mul_comm 100 q), <- Z.mul_assoc. lia. }
  unfold taper_samples. pose proof (Z.div_mod (n * 5) 100). pose proof (Z.mod_pos_bound (n * 5) 100).
  apply Z.le_trans with (n * 5 / 100 * d); [apply Z.mul_le_mono_nonneg_r; lia|].
  assert (H1 : 20 * (n * 5 / 100) <= n) by lia.
  set (q := n * 5 / 100) in *.
  assert (H2 : 20 * q * d <= n * d) by (apply Z.mul_le_mono_nonneg_r; lia).
  lia.
Qed.

Lemma rnd_le_half x : 2 * (rnd_he x (delta c) * delta c) <= 2 * x + delta c.
Proof. pose proof delta_pos as H. pose proof (rnd_he_nearest x (delta c) H) as N. unfold nearest in N. lia. Qed.

(** The pads of a scan: at least the requested pads plus the taper allowance. *)
Lemma onset_pad_ge timespan pre post a b :
  whole_ms c -> 0 <= timespan -> 0 <= pre -> 0 <= post -> onset_pad c timespan pre post = (a, b) ->
  exists tp, tp = cdiv ((timespan + (pre + post)) * 6) (100 * sec c) * sec c /\ 0 <= tp
    /\ pre + tp <= a < pre + tp + delta c /\ post + tp <= b < post + tp + delta c.
Proof.
  intros Hm Ht Hp Hq E. unfold onset_pad in E. cbv zeta in E.
  pose proof sec_pos as Hs. pose proof delta_pos as Hd.
  assert (Htp : 0 <= cdiv ((timespan + (pre + post)) * 6) (100 * sec c) * sec c).
  { apply Z.mul_nonneg_nonneg; [|lia]. apply cdiv_nonneg; lia. }
  exists (cdiv ((timespan + (pre + post)) * 6) (100 * sec c) * sec c).
  set (tp := cdiv _ _ * sec c) in *. injection E as <- <-.
  rewrite !trim2sample_whole by (assumption || lia).
  pose proof (cdiv_spec (pre + tp) (delta c) Hd). pose proof (cdiv_spec (post + tp) (delta c) Hd).
  repeat split; lia.
Qed.

Lemma stalta_post_ge windows ttmax : ttmax + 2 * zmax (map snd windows) <= stalta_post_pad c windows ttmax.
Proof. pose proof sec_pos as Hs. unfold stalta_post_pad. pose proof (cdiv_spec (ttmax + 2 * zmax (map snd windows)) (sec c) Hs). lia. Qed.

(** The same for any rate, when the pads are whole milliseconds (upper bounds) or not. *)
Lemma onset_pad_bounds timespan pre post a b :
  0 <= timespan -> 0 <= pre -> 0 <= post -> onset_pad c timespan pre post = (a, b) ->
  exists tp, tp = cdiv ((timespan + (pre + post)) * 6) (100 * sec c) * sec c /\ 0 <= tp
    /\ 6 * (timespan + (pre + post)) <= 100 * tp
    /\ (0 < timespan -> sec c <= tp)
    /\ pre + tp - ms c < a < pre + tp + delta c /\ post + tp - ms c < b < post + tp + delta c
    /\ ((ms c | pre) -> pre + tp <= a) /\ ((ms c | post) -> post + tp <= b).
Proof.
  intros Ht Hp Hq E. unfold onset_pad in E. cbv zeta in E.
  destruct sec_decomp as (e & Es & He & _ & Em & D).
  pose proof sec_pos as Hs. pose proof delta_pos as Hd.
  pose proof (cdiv_spec ((timespan + (pre + post)) * 6) (100 * sec c) ltac:(lia)) as [Hc1 _].
  assert (Hq0 : 0 <= cdiv ((timespan + (pre + post)) * 6) (100 * sec c)) by (apply cdiv_nonneg; lia).
  assert (Hq1 : 0 < timespan -> 0 < cdiv ((timespan + (pre + post)) * 6) (100 * sec c)) by (intros; apply cdiv_pos; lia).
  exists (cdiv ((timespan + (pre + post)) * 6) (100 * sec c) * sec c).
  set (q := cdiv _ _) in *.
  assert (Htp : 0 <= q * sec c) by nia.
  assert (Dtp : (ms c | q * sec c)) by (rewrite Em, Es; exists (q * 1000); ring).
  injection E as <- <-.
  pose proof (trim2sample_bounds (pre + q * sec c) ltac:(lia)).
  pose proof (trim2sample_bounds (post + q * sec c) ltac:(lia)).
  repeat split; try lia.
  - intros H1. specialize (Hq1 H1). nia.
  - intros H1. apply trim2sample_ge_ms; [lia|]. apply Z.divide_add_r; assumption.
  - intros H1. apply trim2sample_ge_ms; [lia|]. apply Z.divide_add_r; assumption.
Qed.

Lemma time2sample_le_half x : 0 <= x -> 2 * (time2sample c x * delta c) <= 2 * x + delta c.
Proof.
  intros Hx. pose proof sec_pos as Hs. pose proof delta_pos as Hd. unfold time2sample.
  pose proof (rnd_he_nearest (x * (sec c / delta c)) (sec c) Hs) as N. unfold nearest in N.
  set (y := rnd_he _ _) in *.
  pose proof (Z.mul_div_le (sec c) (delta c) Hd) as Hq. set (q := sec c / delta c) in *.
  assert (Hq0 : 0 <= q) by (apply Z.div_pos; lia).
  assert (H1 : 2 * (y * sec c) <= 2 * (x * q) + sec c) by lia.
  destruct (Z.le_gt_cases y 0) as [Hy|Hy]; [nia|].
  assert (H2 : delta c * (2 * (y * sec c)) <= delta c * (2 * (x * q) + sec c)) by (apply Z.mul_le_mono_nonneg_l; lia).
  assert (H3 : delta c * (2 * (x * q)) <= 2 * x * sec c).
  { replace (delta c * (2 * (x * q))) with (2 * x * (delta c * q)) by ring. apply Z.mul_le_mono_nonneg_l; lia. }
  assert (H4 : sec c * (2 * (y * delta c)) <= sec c * (2 * x + delta c)) by lia.
  apply Z.mul_le_mono_pos_l in H4; lia.
Qed.

(** Number of samples of a trace trimmed to a window and long enough for it. *)
Lemma window_npts_bounds w_beg w_end t t' :
  trim_window c w_beg w_end t = Some t' -> full_timespan_ok c w_beg w_end (npts t') = true ->
  w_end - w_beg <= (npts t' - 1) * delta c <= w_end - w_beg + 2 * eps c.
Proof.
  intros Et Ef. destruct sec_decomp as (e & Es & He & Ee & Em & D). pose proof delta_pos.
  unfold trim_window in Et. cbv zeta in Et.
  set (A := Z.max _ _) in *. set (B := Z.min _ _) in *. destruct (Z.leb_spec A B); [|discriminate].
  injection Et as <-. unfold npts in *. cbn [k0 k1] in *.
  unfold full_timespan_ok in Ef. apply negb_true_iff, Z.ltb_ge in Ef.
  assert (HA : cdiv (w_beg - eps c - phase t) (delta c) <= A) by (subst A; lia).
  assert (HB : B <= (w_end + eps c - phase t) / delta c) by (subst B; lia).
  apply cdiv_le in HA; [|lia]. apply le_div in HB; [|lia]. split; [lia|].
  replace ((B - A + 1 - 1) * delta c) with (B * delta c - A * delta c) by ring. lia.
Qed.

Lemma windows_facts windows sta lta :
  In (sta, lta) windows -> Forall (fun w => 0 <= fst w /\ 0 <= snd w) windows ->
  0 <= sta /\ 0 <= lta /\ sta <= zmax (map fst windows) /\ lta <= zmax (map snd windows).
Proof.
  intros Hin Hall. rewrite Forall_forall in Hall. destruct (Hall _ Hin) as [H1 H2]. cbn [fst snd] in *.
  repeat split; try assumption; apply zmax_ge, in_map_iff; exists (sta, lta); split; try reflexivity; exact Hin.
Qed.
Lemma windows_nonneg windows : Forall (fun w => 0 <= fst w /\ 0 <= snd w) windows ->
  0 <= zmax (map fst windows) /\ 0 <= zmax (map snd windows).
Proof.
  intros Hall. split; apply zmax_nonneg, Forall_map; (eapply Forall_impl; [|exact Hall]); cbn; tauto.
Qed.

Lemma zmax_divide x l : Forall (fun y => (x | y)) l -> (x | zmax l).
Proof.
  intros H. unfold zmax.
  assert (Hd : (x | hd 0 l)) by (destruct l; [apply Z.divide_0_r|inversion H; assumption]).
  revert Hd. generalize (hd 0 l). induction l as [|a l IH]; intros d Hd; [exact Hd|]. cbn.
  inversion H; subst. specialize (IH H3 d Hd). destruct (Z.max_spec a (fold_right Z.max d l)) as [[_ ->]|[_ ->]]; assumption.
Qed.

(** Every signal sample that enters a migrated onset value lies between the tapers. *)
Lemma taper_clear windows sta lta ttmax timespan m pre post w_beg w_end t t' s tt i :
  integer_rate c -> 3 * delta c <= sec c ->
  In (sta, lta) windows -> Forall (fun w => 0 <= fst w /\ 0 <= snd w) windows ->
  Forall (fun w => (sec c / 1000 | fst w) /\ (sec c / 1000 | snd w)) windows ->
  0 < sta -> 3 * delta c < 2 * (2 * lta - sta) -> 0 <= ttmax -> 0 < timespan -> 0 < m -> m * delta c <= timespan + delta c ->
  onset_pad c timespan (stalta_pre_pad windows) (stalta_post_pad c windows ttmax) = (pre, post) ->
  w_end - w_beg = m * delta c - delta c + pre + post ->
  trim_window c w_beg w_end t = Some t' -> full_timespan_ok c w_beg w_end (npts t') = true ->
  0 <= s < m -> 0 <= tt <= ttmax ->
  let j := time2sample c pre + s + tt_samples c tt in
  j - ltw_samples c lta + 1 <= i <= j + stw_samples c sta ->
  taper_samples (npts t') <= i < npts t' - taper_samples (npts t').
Proof.
  intros Hr Hs3 Hin Hall Hms Hsta0 Hlta Htt Hts Hm0 Hmd Epad Ew Et Ef Hs Hst j Hi.
  destruct sec_decomp as (e & Es & He & Ee & Em & D).
  pose proof sec_pos as Hsec. pose proof delta_pos as Hd.
  destruct (windows_facts windows sta lta Hin Hall) as (Hsta & Hlta0 & Ws & Wl).
  destruct (windows_nonneg windows Hall) as (W1 & W0).
  pose proof (stalta_post_ge windows ttmax) as Hpost0.
  assert (Dpre : (ms c | stalta_pre_pad windows)).
  { unfold stalta_pre_pad. apply Z.divide_add_r; [|apply Z.divide_mul_r]; apply zmax_divide, Forall_map;
      (eapply Forall_impl; [|exact Hms]); unfold ms; cbn; tauto. }
  assert (Dpost : (ms c | stalta_post_pad c windows ttmax)).
  { unfold stalta_post_pad. apply Z.divide_mul_r. exists 1000. lia. }
  set (pre0 := stalta_pre_pad windows) in *. set (post0 := stalta_post_pad c windows ttmax) in *.
  assert (Hpre0 : lta + 3 * sta <= pre0) by (subst pre0; unfold stalta_pre_pad; lia).
  destruct (onset_pad_bounds timespan pre0 post0 pre post (Z.lt_le_incl _ _ Hts) ltac:(lia) ltac:(lia) Epad)
    as (tp & Etp & Htp0 & Htp6 & Htps & Hpre & Hpost & Hpre' & Hpost').
  specialize (Htps Hts). specialize (Hpre' Dpre). specialize (Hpost' Dpost).
  pose proof (window_npts_bounds _ _ _ _ Et Ef) as Hn. rewrite Ew in Hn.
  set (n := npts t') in *.
  assert (Hn0 : 0 <= n) by nia.
  assert (Htap : taper_samples n * delta c <= tp).
  { apply (taper_fits (timespan + pre + post + 2 * eps c) (timespan + (pre0 + post0)) tp (delta c)); try assumption; try lia. }
  set (T := taper_samples n) in *.
  subst j. unfold ltw_samples, stw_samples, tt_samples in Hi. rewrite !time2sample_rate in Hi by assumption.
  pose proof (rnd_he_nearest lta (delta c) Hd) as R1. pose proof (rnd_he_nearest sta (delta c) Hd) as R2.
  pose proof (rnd_he_nearest tt (delta c) Hd) as R3. pose proof (rnd_he_nearest pre (delta c) Hd) as R5.
  unfold nearest in *.
  assert (R4 : 0 <= rnd_he tt (delta c)).
  { rewrite <- (rnd_he_mul 0 (delta c) Hd). rewrite Z.mul_0_l. apply rnd_he_mono; lia. }
  set (L := rnd_he lta (delta c)) in *. set (S := rnd_he sta (delta c)) in *. set (U := rnd_he tt (delta c)) in *.
  set (P := rnd_he pre (delta c)) in *.
  split.
  - assert (HH : T * delta c < (P - L + 1) * delta c) by lia.
    apply Z.mul_lt_mono_pos_r in HH; lia.
  - assert (HH : (T + S + U + P + m) * delta c < n * delta c) by lia.
    apply Z.mul_lt_mono_pos_r in HH; lia.
Qed.

(** The pads make every traveltime (in samples) at most the number of trailing pad samples. *)
Lemma pad_covers_traveltime windows timestep ttmax pre post tt :
  integer_rate c \/ 20 * delta c <= sec c -> Forall (fun w => 0 <= fst w /\ 0 <= snd w) windows ->
  0 < timestep -> 0 <= tt <= ttmax ->
  onset_pad c timestep (stalta_pre_pad windows) (stalta_post_pad c windows ttmax) = (pre, post) ->
  0 <= tt_samples c tt <= time2sample c post.
Proof.
  intros Hr Hall Hts Htt Epad. pose proof sec_pos as Hsec. pose proof delta_pos as Hd.
  destruct sec_decomp as (e & Es & He & Ee & Em & D).
  destruct (windows_nonneg windows Hall) as (W1 & W0).
  pose proof (stalta_post_ge windows ttmax) as Hpost0.
  assert (Hpre0 : 0 <= stalta_pre_pad windows) by (unfold stalta_pre_pad; lia).
  destruct (onset_pad_bounds timestep (stalta_pre_pad windows) (stalta_post_pad c windows ttmax) pre post (Z.lt_le_incl _ _ Hts) Hpre0 ltac:(lia) Epad)
    as (tp & Etp & Htp0 & Htp6 & Htps & Hpre & Hpost & _).
  specialize (Htps Hts). unfold tt_samples. split.
  - rewrite <- (rnd_he_mul 0 (delta c) Hd). rewrite Z.mul_0_l. apply rnd_he_mono; lia.
  - destruct Hr as [Hr|Hr].
    + rewrite time2sample_rate by assumption. apply rnd_he_mono; lia.
    + unfold time2sample. pose proof (Z.div_mod (sec c) (delta c) ltac:(lia)) as Hdm.
      pose proof (Z.mod_pos_bound (sec c) (delta c) Hd) as Hmb.
      assert (Hq20 : 20 <= sec c / delta c) by (apply le_div; lia).
      set (q := sec c / delta c) in *.
      rewrite <- (rnd_he_scale tt (delta c) (sec c)) by lia.
      rewrite <- (rnd_he_scale (post * q) (sec c) (delta c)) by lia. rewrite (Z.mul_comm (delta c) (sec c)).
      apply rnd_he_mono; [nia|].
      assert (Hp : 21 * tt <= 20 * post) by lia.
      assert (Hsq : sec c <= (q + 1) * delta c) by lia.
      apply Z.le_trans with (tt * ((q + 1) * delta c)); [apply Z.mul_le_mono_nonneg_l; lia|].
      replace (tt * ((q + 1) * delta c)) with (tt * (q + 1) * delta c) by ring.
      apply Z.mul_le_mono_nonneg_r; [lia|]. nia.
Qed.

(** The pads make the data long enough for the STA/LTA kernels. *)
Lemma pad_covers_windows windows sta lta timestep ttmax pre post w_beg w_end t t' :
  3 * delta c <= sec c ->
  In (sta, lta) windows -> Forall (fun w => 0 <= fst w /\ 0 <= snd w) windows ->
  0 < timestep -> 0 <= ttmax ->
  onset_pad c timestep (stalta_pre_pad windows) (stalta_post_pad c windows ttmax) = (pre, post) ->
  w_end - w_beg = timestep - delta c + pre + post ->
  trim_window c w_beg w_end t = Some t' -> full_timespan_ok c w_beg w_end (npts t') = true ->
  ltw_samples c lta + stw_samples c sta <= npts t'.
Proof.
  intros Hs3 Hin Hall Hts Htt Epad Ew Et Ef.
  pose proof sec_pos as Hsec. pose proof delta_pos as Hd.
  destruct sec_decomp as (e & Es & He & Ee & Em & D).
  destruct (windows_facts windows sta lta Hin Hall) as (Hsta & Hlta0 & Ws & Wl).
  destruct (windows_nonneg windows Hall) as (W1 & W0).
  pose proof (stalta_post_ge windows ttmax) as Hpost0.
  assert (Hpre0 : lta + 3 * sta <= stalta_pre_pad windows) by (unfold stalta_pre_pad; lia).
  destruct (onset_pad_bounds timestep (stalta_pre_pad windows) (stalta_post_pad c windows ttmax) pre post (Z.lt_le_incl _ _ Hts) ltac:(lia) ltac:(lia) Epad)
    as (tp & Etp & Htp0 & Htp6 & Htps & Hpre & Hpost & _).
  specialize (Htps Hts).
  pose proof (window_npts_bounds _ _ _ _ Et Ef) as Hn. rewrite Ew in Hn. set (n := npts t') in *.
  unfold ltw_samples, stw_samples.
  pose proof (time2sample_le_half lta Hlta0) as R1. pose proof (time2sample_le_half sta Hsta) as R2.
  set (L := time2sample c lta) in *. set (S := time2sample c sta) in *.
  assert (HH : (L + S + 2) * delta c <= n * delta c) by lia.
  apply Z.mul_le_mono_pos_r in HH; lia.
Qed.

(** Amplitude traces: [n] samples every [d] ticks from [f], trimmed (to the nearest sample) to
    the padded window around the origin time. *)
Lemma amp_taper_clear noise signal mw ttx pre post otime d f n k :
  0 < d -> 3 * d <= sec c -> 0 < noise + mw + (signal + ttx + mw) ->
  amp_pad c noise signal mw ttx = (pre, post) ->
  2 * Z.abs (f - (otime - pre)) <= d -> 2 * Z.abs (f + (n - 1) * d - (otime + post)) <= d -> 0 <= n ->
  otime - (noise + mw) <= f + k * d <= otime + (signal + ttx + mw) ->
  taper_samples n <= k < n - taper_samples n.
Proof.
  intros Hd Hs3 Hraw E Hf Hl Hn Hk. unfold amp_pad, amp_raw_pads in E. cbv zeta in E. cbn [fst snd] in E.
  pose proof sec_pos as Hsec.
  set (tp := cdiv _ _ * sec c) in *. injection E as <- <-.
  assert (Htap : taper_samples n * d <= tp).
  { apply (taper_fits (noise + mw + (signal + ttx + mw) + 2 * tp + d) (noise + mw + (signal + ttx + mw)) tp d n);
      try reflexivity; lia. }
  set (T := taper_samples n) in *.
  split.
  - assert (2 * (T * d) <= 2 * (k * d) + d) by lia. nia.
  - assert (2 * (T * d) + 2 * (k * d) <= 2 * ((n - 1) * d) + d) by lia. nia.
Qed.

(** Off-sample time stamps. *)
Lemma off_sample_eq start : integer_rate c -> (1000000 | sec c) -> (us c | start) ->
  off_sample c start = start mod delta c.
Proof.
  intros [r Er] [m Em] [k Ek]. pose proof sec_pos as Hs. pose proof delta_pos as Hd. unfold off_sample.
  assert (Hus : us c = m) by (unfold us; rewrite Em; apply Z.div_mul; lia). rewrite Hus in *.
  assert (H : (start mod sec c) / m * m = start mod sec c).
  { assert (D : (m | start mod sec c)).
    { rewrite Z.mod_eq by lia. apply Z.divide_sub_r; [exists k; exact Ek|]. rewrite Em. exists (1000000 * (start / (m * 1000000))). ring. }
    destruct D as [q ->]. rewrite Z.div_mul by lia. reflexivity. }
  rewrite H. symmetry. apply Znumtheory.Zmod_div_mod; [lia|lia|]. exists r. exact Er.
Qed.

Lemma shift_to_sample_ok start : integer_rate c -> (1000000 | sec c) -> (us c | start) ->
  on_sample c (shift_to_sample c start) /\ 2 * Z.abs (shift_to_sample c start - start) <= delta c
  /\ (on_sample c start -> shift_to_sample c start = start).
Proof.
  intros Hr Hm Hu. pose proof delta_pos as Hd. unfold shift_to_sample, time_shift. cbv zeta.
  rewrite off_sample_eq by assumption. unfold on_sample.
  pose proof (Z.div_mod start (delta c)) as Hdm. pose proof (Z.mod_pos_bound start (delta c) Hd) as Hb.
  destruct (Z.eqb_spec (start mod delta c) 0) as [H0|H0].
  - repeat split; [apply Z.mod_divide; lia|lia].
  - pose proof (rnd_he_nearest (start mod delta c) (delta c) Hd) as N. unfold nearest in N.
    split; [|split; [lia|intros [k Ek]; exfalso; apply H0; rewrite Ek; apply Z.mod_mul; lia]].
    exists (start / delta c + rnd_he (start mod delta c) (delta c)). rewrite Hdm at 1 by lia. ring.
Qed.

Lemma shift_interpolate_ok start n : integer_rate c -> (1000000 | sec c) -> (us c | start) ->
  shift_interpolate c start n = (shift_to_sample c start, n).
Proof.
  intros Hr Hm Hu. pose proof delta_pos as Hd.
  destruct (shift_to_sample_ok start Hr Hm Hu) as (Hon & Hhalf & Hid).
  unfold shift_interpolate, shift_to_sample in *.
  destruct (Z.eqb_spec (off_sample c start) 0) as [H0|H0]; [reflexivity|]. cbv zeta.
  set (sh := time_shift c start) in *.
  destruct (Z.ltb_spec sh 0).
  - replace (0 <? sh) with false by (symmetry; apply Z.ltb_ge; lia). f_equal; [lia|].
    replace (start + (n - 1) * delta c - (start + sh + delta c)) with ((- sh) + (n - 2) * delta c) by ring.
    rewrite Z.div_add by lia. rewrite Z.div_small by lia. lia.
  - destruct (Z.ltb_spec 0 sh).
    + f_equal. replace (start + (n - 1) * delta c - (start + sh)) with ((delta c - sh) + (n - 2) * delta c) by ring.
      rewrite Z.div_add by lia. rewrite Z.div_small by lia. lia.
    + assert (sh = 0) by lia. exfalso. apply H0. unfold sh, time_shift in H2. cbv zeta in H2.
      clear Hon Hhalf Hid. rewrite off_sample_eq in H2 |- * by assumption.
      pose proof (Z.mod_pos_bound start (delta c) Hd).
      set (r := start mod delta c) in *. set (x := rnd_he r (delta c)) in *.
      assert (x = 0) by nia. nia.
Qed.
End Clock.


(** * Upsampling *)

Definition stride_at {A} (i u : Z) (vals : Z -> A) (m : Z) (old : Z -> A) (p : Z) : A :=
  if (i <=? p) && ((p - i) mod u =? 0) && ((p - i) / u <? m) then vals ((p - i) / u) else old p.

Lemma set_stride_ok A (old : Z -> A) L i u (vals : Z -> A) m :
  0 <= L -> 0 < u -> 0 <= i -> 0 <= m -> cdiv (L - i) u = m ->
  set_stride (array1 L old) i u (array1 m vals) = Some (array1 L (stride_at i u vals m old)).
Proof.
  intros HL Hu Hi Hm Hc. unfold set_stride. rewrite !array1_length, !Z.max_r by lia.
  rewrite Hc, Z.eqb_refl.
  pose proof (cdiv_spec (L - i) u Hu) as Hcd. rewrite Hc in Hcd.
  match goal with |- for_ ?lo ?hi ?bd ?st = _ =>
    destruct (for_inv _ (fun j s => s = array1 L (stride_at i u vals j old)) lo hi bd st) as (s & E & Hs) end.
  - lia.
  - apply array1_ext. intros p Hp. unfold stride_at.
    destruct (Z.leb_spec i p); [|reflexivity]. cbn [andb].
    assert (0 <= (p - i) / u) by (apply Z.div_pos; lia).
    replace ((p - i) / u <? 0) with false by (symmetry; apply Z.ltb_ge; lia). rewrite andb_false_r. reflexivity.
  - intros j s Hj ->. rewrite rd_array1 by lia.
    destruct (wr_some _ (array1 L (stride_at i u vals j old)) (i + j * u) (vals j)) as (l' & E).
    + rewrite array1_length. nia.
    + exists l'. split; [exact E|]. apply list_eq_array1.
      * rewrite (wr_length _ _ _ _ _ E), array1_length. lia.
      * intros p Hp. rewrite (wr_rd _ _ _ _ _ p E). unfold stride_at.
        destruct (Z.eqb_spec p (i + j * u)) as [->|Hne].
        -- replace (i + j * u - i) with (j * u) by ring. rewrite Z.mod_mul, Z.div_mul by lia.
           replace (i <=? i + j * u) with true by (symmetry; apply Z.leb_le; nia).
           replace (j <? j + 1) with true by (symmetry; apply Z.ltb_lt; lia). reflexivity.
        -- rewrite rd_array1 by lia. f_equal. unfold stride_at.
           destruct (Z.leb_spec i p); [|reflexivity]. destruct (Z.eqb_spec ((p - i) mod u) 0) as [H0|]; [|reflexivity].
           cbn [andb]. pose proof (Z.div_mod (p - i) u ltac:(lia)).
           destruct (Z.ltb_spec ((p - i) / u) j), (Z.ltb_spec ((p - i) / u) (j + 1)); try lia; try reflexivity.
           exfalso. apply Hne. assert ((p - i) / u = j) by lia. nia.
  - rewrite E, Hs. reflexivity.
Qed.

Lemma upsample_data_ok (f : Z -> R) n u : 1 <= n -> 1 <= u ->
  upsample_data (array1 n f) u
  = Some (array1 ((n - 1) * u + 1) (fun p => line (f (p / u)) (f (p / u + 1)) (p mod u) u)).
Proof.
  intros Hn Hu. unfold upsample_data. cbv zeta. rewrite array1_length, Z.max_r by lia.
  rewrite repeat_array1.
  set (L := (n - 1) * u + 1). assert (HL : 0 <= L) by (subst L; nia).
  rewrite set_stride_ok; try lia.
  2:{ apply cdiv_unique; [lia|]. subst L. nia. }
  assert (El : forall i, 1 <= i < u ->
    map (fun p => (IZR i / IZR u * fst p + IZR (u - i) / IZR u * snd p)%R)
        (combine (pyslice (array1 n f) (Some 1) None) (pyslice (array1 n f) None (Some (-1))))
    = array1 (n - 1) (fun k => (IZR i / IZR u * f (k + 1)%Z + IZR (u - i) / IZR u * f k)%R)).
  { intros i Hi. rewrite pyslice_from by lia. change (-1) with (- (1)). rewrite (pyslice_upto_neg _ n f 1) by lia.
    rewrite combine_array1, map_array1. apply array1_ext. intros k Hk. cbn [fst snd].
    rewrite (Z.add_comm 1 k). reflexivity. }
  match goal with |- for_ ?lo ?hi ?bd ?st = _ =>
    destruct (for_inv _ (fun i s => s = array1 L (fun p => if p mod u <? i then line (f (p / u)) (f (p / u + 1)) (p mod u) u else 0%R))
      lo hi bd st) as (s & E & Hs) end.
  - lia.
  - apply array1_ext. intros p Hp. unfold stride_at. rewrite Z.sub_0_r.
    replace (0 <=? p) with true by (symmetry; apply Z.leb_le; lia). cbn [andb].
    pose proof (Z.mod_pos_bound p u ltac:(lia)) as Hb. pose proof (Z.div_mod p u ltac:(lia)) as Hdm.
    destruct (Z.eqb_spec (p mod u) 0) as [H0|H0].
    + replace (p / u <? n) with true by (symmetry; apply Z.ltb_lt; subst L; nia).
      rewrite H0. cbn [andb Z.ltb Z.compare]. unfold line. unfold Rdiv. ring.
    + replace (p mod u <? 1) with false by (symmetry; apply Z.ltb_ge; lia). reflexivity.
  - intros i s Hi ->. rewrite El by lia.
    rewrite set_stride_ok; try lia.
    2:{ apply cdiv_unique; [lia|]. subst L. nia. }
    eexists. split; [reflexivity|]. apply array1_ext. intros p Hp. unfold stride_at.
    pose proof (Z.mod_pos_bound p u ltac:(lia)) as Hb. pose proof (Z.div_mod p u ltac:(lia)) as Hdm.
    destruct (Z.eq_dec (p mod u) i) as [He|He].
    + assert (Hq : p - i = p / u * u) by lia. rewrite Hq, Z.mod_mul, Z.div_mul by lia.
      assert (0 <= p / u) by (apply Z.div_pos; lia).
      replace (i <=? p) with true by (symmetry; apply Z.leb_le; nia).
      replace (p / u <? n - 1) with true by (symmetry; apply Z.ltb_lt; subst L; nia).
      replace (p mod u <? i + 1) with true by (symmetry; apply Z.ltb_lt; lia). cbn [andb Z.eqb].
      unfold line. rewrite He, minus_IZR. field. apply not_0_IZR. lia.
    + replace ((i <=? p) && ((p - i) mod u =? 0) && ((p - i) / u <? n - 1)) with false.
      * destruct (Z.ltb_spec (p mod u) i), (Z.ltb_spec (p mod u) (i + 1)); try lia; reflexivity.
      * symmetry. apply andb_false_iff. left. apply andb_false_iff. right. apply Z.eqb_neq. intros H0. apply He.
        pose proof (Z.div_mod (p - i) u ltac:(lia)) as Hd2. rewrite H0 in Hd2.
        symmetry. apply Z.mod_unique_pos with (q := (p - i) / u); lia.
  - rewrite E, Hs. f_equal. apply array1_ext. intros p Hp.
    pose proof (Z.mod_pos_bound p u ltac:(lia)) as Hb.
    replace (p mod u <? u) with true by (symmetry; apply Z.ltb_lt; lia). reflexivity.
Qed.

Lemma line_bounds y0 y1 i u lo hi : 0 < u -> 0 <= i <= u ->
  (lo <= y0 <= hi)%R -> (lo <= y1 <= hi)%R -> (lo <= line y0 y1 i u <= hi)%R.
Proof.
  intros Hu Hi H0 H1. unfold line.
  assert (Hup : (0 < IZR u)%R) by (apply IZR_lt; lia).
  assert (Hq : (0 <= IZR i / IZR u <= 1)%R).
  { split.
    - apply Rmult_le_pos; [apply IZR_le; lia|]. left. apply Rinv_0_lt_compat. exact Hup.
    - apply Rmult_le_reg_r with (IZR u); [exact Hup|]. unfold Rdiv. rewrite Rmult_assoc, Rinv_l by lra.
      rewrite Rmult_1_r, Rmult_1_l. apply IZR_le. lia. }
  set (q := (IZR i / IZR u)%R) in *. split; nra.
Qed.

Lemma Int_part_unique r z : (r - 1 < IZR z <= r)%R -> Int_part r = z.
Proof.
  intros H. unfold Int_part. rewrite <- (tech_up r (z + 1)); [lia| |]; rewrite plus_IZR; lra.
Qed.
Lemma Int_part_IZR z : Int_part (IZR z) = z.
Proof. apply Int_part_unique. lra. Qed.
Lemma trunc_IZR z : trunc (IZR z) = IZR z.
Proof.
  unfold trunc. destruct (Rle_dec 0 (IZR z)).
  - rewrite Int_part_IZR. reflexivity.
  - replace (- IZR z)%R with (IZR (- z)) by apply opp_IZR. rewrite Int_part_IZR, opp_IZR. ring.
Qed.
Lemma trunc_half : trunc (/ 2) = 0%R.
Proof.
  unfold trunc. destruct (Rle_dec 0 (/ 2)); [|lra]. replace (Int_part (/ 2)) with 0; [reflexivity|].
  symmetry. apply Int_part_unique. lra.
Qed.

Lemma pyget_last A n (f : Z -> A) : 1 <= n -> pyget (array1 n f) (-1) = Some (f (n - 1)).
Proof.
  intros Hn. unfold pyget. rewrite array1_length, Z.max_r by lia. cbn [Z.ltb Z.compare].
  rewrite rd_array1 by lia. f_equal. f_equal. lia.
Qed.

Lemma upsample_ok c start (z : Z -> Z) n u starttime endtime : 0 < delta c -> 1 <= n -> 1 <= u -> (u | delta c) ->
  let tr_end := start + (n - 1) * delta c in
  let a := if (0 <? start - starttime) && (start - starttime <? delta c)
           then rnd_he ((start - starttime) * u) (delta c) else 0 in
  let b := if (0 <? endtime - tr_end) && (endtime - tr_end <? delta c)
           then rnd_he ((endtime - tr_end) * u) (delta c) else 0 in
  upsample c start (array1 n (fun k => IZR (z k))) u starttime endtime
  = Some (start - a * (delta c / u),
          repeat (IZR (z 0)) (Z.to_nat a)
          ++ array1 ((n - 1) * u + 1) (fun p => line (IZR (z (p / u))) (IZR (z (p / u + 1))) (p mod u) u)
          ++ repeat (IZR (z (n - 1))) (Z.to_nat b)).
Proof.
  intros Hd Hn Hu [m Em] tr_end a b. unfold upsample. rewrite upsample_data_ok by lia.
  rewrite array1_length, Z.max_r by lia. cbv zeta. fold tr_end. rewrite rd_array1 by lia. rewrite pyget_last by lia.
  rewrite !trunc_IZR. subst a b.
  assert (Q : forall x, x * delta c / u = x * (delta c / u)).
  { intros x. rewrite Em, Z.div_mul by lia. rewrite Z.mul_assoc, Z.div_mul by lia. reflexivity. }
  destruct ((0 <? start - starttime) && (start - starttime <? delta c));
    destruct ((0 <? endtime - tr_end) && (endtime - tr_end <? delta c)); rewrite ?Q.
  - rewrite <- app_assoc. reflexivity.
  - cbn [Z.to_nat repeat]. rewrite app_nil_r. reflexivity.
  - cbn [Z.to_nat repeat app]. rewrite Z.mul_0_l, Z.sub_0_r. reflexivity.
  - cbn [Z.to_nat repeat app]. rewrite Z.mul_0_l, Z.sub_0_r, app_nil_r. reflexivity.
Qed.

(** Properties C41, C42 and C61-C63: the phase picker. *)
From Coq Require Import String Ascii.
From Coq Require Import List ZArith QArith Lia Lqa Bool.
From Verif Require Import Lib LibFacts PySlice PySliceFacts Timeline_Model Timeline_Spec Timeline_Proofs Timeline_Props
  Trigger_Model Locate_Model Picker_Model Picker_Spec Picker_Proofs.
Import ListNotations.
Open Scope Z_scope.

(** ** C41: windows *)

(** The phases of a station: arrays of [n] samples, traveltimes in order, arrivals inside the
    arrays, sensible widths. *)
Definition pickable (c : clock) (otime starttime mw n : Z) (phases : list phase_data) : Prop :=
  clock_ok c /\ integer_rate c /\ 0 <= mw /\ phases <> []
  /\ Forall (fun p => Z.of_nat (length (ph_onset p)) = n /\ 0 <= ph_ttf p
                      /\ starttime <= otime + ph_tt p <= starttime + (n - 1) * delta c) phases
  /\ (forall i p q, rd phases i = Some p -> rd phases (i + 1) = Some q -> ph_tt p <= ph_tt q).

Lemma in_order_map ws : (forall i a b, rd ws i = Some a -> rd ws (i + 1) = Some b -> w_arr a <= w_arr b) -> in_order ws.
Proof.
  induction ws as [|w r IH]; intros H; [exact I|]. destruct r as [|w2 r]; [exact I|]. split.
  - apply (H 0 w w2); reflexivity.
  - apply IH. intros i a b Ha Hb. pose proof (rd_bounds _ _ _ _ Ha). apply (H (i + 1)); rewrite rd_S by lia; assumption.
Qed.
Lemma rnd_he_shift2 a b : 0 < b -> rnd_he (a + 2 * b) b = rnd_he a b + 2.
Proof.
  intros H. unfold rnd_he. rewrite Z.div_add, Z.mod_add by lia. cbv zeta. rewrite Z.even_add. cbn [Z.even].
  replace (Bool.eqb (Z.even (a / b)) true) with (Z.even (a / b)) by (destruct (Z.even (a / b)); reflexivity).
  destruct (Z.ltb_spec (2 * (a mod b)) b); [lia|]. destruct (Z.ltb_spec b (2 * (a mod b))); [lia|].
  destruct (Z.even (a / b)); lia.
Qed.
Lemma last_length (phases : list phase_data) n d : phases <> [] ->
  Forall (fun p => Z.of_nat (length (ph_onset p)) = n) phases -> Z.of_nat (length (ph_onset (last phases d))) = n.
Proof.
  intros Hne H. rewrite Forall_forall in H. apply H. destruct (exists_last Hne) as (l & x & ->). rewrite last_last.
  apply in_or_app. right. left. reflexivity.
Qed.

(** The windows of the phases, in order of arrival: each holds its modelled arrival (to the nearest
    sample) and lies inside the onset array; no two overlap; they are never wider than asked for.
    If neighbouring arrivals are two samples apart and the half-width a sample, the sample of the
    arrival itself is among the data searched. *)
Theorem C41_windows_disjoint :
  forall c otime starttime mw n phases, pickable c otime starttime mw n phases ->
  exists ws, station_windows c otime starttime mw phases = Ret ws /\ length ws = length phases
  /\ (forall i p w, rd phases i = Some p -> rd ws i = Some w ->
        nearest (w_arr w) (otime + ph_tt p - starttime) (delta c)
        /\ 0 <= w_lo w <= w_arr w /\ w_arr w <= w_hi w <= n
        /\ 2 * ((w_arr w - w_lo w) * delta c) <= 2 * (ph_ttf p + mw) + delta c
        /\ 2 * ((w_hi w - w_arr w) * delta c) <= 2 * (ph_ttf p + mw) + delta c)
  /\ (forall i j w w', i < j -> rd ws i = Some w -> rd ws j = Some w' -> w_hi w <= w_lo w')
  /\ (delta c <= mw -> (forall i p q, rd phases i = Some p -> rd phases (i + 1) = Some q -> ph_tt p + 2 * delta c <= ph_tt q) ->
      forall i w, rd ws i = Some w -> w_arr w < w_hi w).
Proof.
  intros c otime starttime mw n phases (Hc & Hr & Hmw & Hne & Hall & Hord).
  pose proof (delta_pos c Hc) as HD. pose proof (sec_pos c Hc) as HS.
  set (dw := fun p => determine_window c otime starttime mw (ph_tt p) (ph_ttf p)).
  set (ws0 := map dw phases).
  assert (Hlast : Z.of_nat (length (ph_onset (last phases (mk_phase "" [] 0 0)))) = n).
  { apply last_length; [exact Hne|]. eapply Forall_impl; [|exact Hall]. intros p Hp. apply Hp. }
  assert (Hf : forall p, In p phases -> 0 <= w_arr (dw p) < n /\ nearest (w_arr (dw p)) (otime + ph_tt p - starttime) (delta c)
    /\ 0 <= w_arr (dw p) - w_lo (dw p) /\ w_hi (dw p) - w_arr (dw p) = w_arr (dw p) - w_lo (dw p)
    /\ 2 * ((w_arr (dw p) - w_lo (dw p)) * delta c) <= 2 * (ph_ttf p + mw) + delta c
    /\ (delta c <= mw -> 1 <= w_hi (dw p) - w_arr (dw p))).
  { intros p Hp. rewrite Forall_forall in Hall. destruct (Hall p Hp) as (_ & Ht & Ha).
    unfold dw, determine_window. cbn [w_lo w_arr w_hi]. rewrite !time2sample_rate by assumption.
    assert (E0 : rnd_he 0 (delta c) = 0) by (apply (rnd_he_mul 0); exact HD).
    assert (En : rnd_he ((n - 1) * delta c) (delta c) = n - 1) by (apply rnd_he_mul; exact HD).
    assert (E1 : rnd_he (delta c) (delta c) = 1) by (rewrite <- (Z.mul_1_l (delta c)) at 1; apply rnd_he_mul; exact HD).
    pose proof (rnd_he_mono 0 (otime + ph_tt p - starttime) (delta c) HD ltac:(lia)).
    pose proof (rnd_he_mono (otime + ph_tt p - starttime) ((n - 1) * delta c) (delta c) HD ltac:(lia)).
    pose proof (rnd_he_mono 0 (ph_ttf p + mw) (delta c) HD ltac:(lia)).
    pose proof (rnd_he_nearest (ph_ttf p + mw) (delta c) HD) as N. unfold nearest in N.
    split; [lia|]. split; [apply rnd_he_nearest; exact HD|]. split; [lia|]. split; [lia|].
    split; [|intros Hm; pose proof (rnd_he_mono (delta c) (ph_ttf p + mw) (delta c) HD ltac:(lia)); lia].
    set (x := rnd_he (ph_ttf p + mw) (delta c)) in *.
    replace (rnd_he (otime + ph_tt p - starttime) (delta c) - (rnd_he (otime + ph_tt p - starttime) (delta c) - x)) with x by lia. lia. }
  assert (Hrd : forall i w, rd ws0 i = Some w -> exists p, rd phases i = Some p /\ w = dw p).
  { intros i w H. unfold ws0 in H. rewrite rd_map in H. destruct (rd phases i) as [p|]; [|discriminate]. exists p. split; [reflexivity|].
    cbn in H. congruence. }
  destruct (distinguish_ok ws0 n) as (ws & E & L & Hin & Hpr & Hdis & Hsame).
  - unfold ws0. destruct phases; [congruence|discriminate].
  - apply Forall_forall. intros w Hw. unfold ws0 in Hw. apply in_map_iff in Hw. destruct Hw as (p & <- & Hp).
    destruct (Hf p Hp) as (A1 & _ & A3 & A4 & _). unfold proper. lia.
  - apply in_order_map. intros i a b Ha Hb. destruct (Hrd _ _ Ha) as (p & Hp & ->). destruct (Hrd _ _ Hb) as (q & Hq & ->).
    unfold dw, determine_window. cbn [w_arr]. rewrite !time2sample_rate by assumption. apply rnd_he_mono; [exact HD|].
    specialize (Hord _ _ _ Hp Hq). lia.
  - apply Forall_forall. intros w Hw. unfold ws0 in Hw. apply in_map_iff in Hw. destruct Hw as (p & <- & Hp). apply (Hf p Hp).
  - exists ws. split; [unfold station_windows; rewrite Hlast; exact E|]. split; [rewrite L; unfold ws0; apply map_length|].
    split; [|split; [exact Hdis|]].
    + intros i p w Hp Hw. destruct (Hf p (rd_in _ _ _ _ Hp)) as (A1 & A2 & A3 & A4 & A5 & A6).
      assert (H0 : rd ws0 i = Some (dw p)) by (unfold ws0; rewrite rd_map, Hp; reflexivity).
      destruct (Hsame _ _ _ H0 Hw) as (B1 & B2 & B3).
      unfold windows_inside in Hin. rewrite Forall_forall in Hin, Hpr. specialize (Hin w (rd_in _ _ _ _ Hw)). specialize (Hpr w (rd_in _ _ _ _ Hw)).
      unfold proper in Hpr. rewrite B1. split; [exact A2|]. split; [lia|]. split; [lia|].
      split; (eapply Z.le_trans; [|exact A5]); apply Z.mul_le_mono_nonneg_l; try lia; apply Z.mul_le_mono_nonneg_r; lia.
    + intros Hm Hgap. destruct phases as [|p0 ps] eqn:Eph; [congruence|]. unfold ws0 in E. cbn [map] in E.
      cbn [distinguish_windows] in E. assert (F : Forall (fun x => w_arr x < w_hi x) ws).
      { injection E as <-. apply clamp_last_strict.
        - apply narrow_strict.
          + cbn. destruct (Hf p0 (or_introl eq_refl)) as (_ & _ & _ & _ & _ & A6). specialize (A6 Hm). unfold dw in *. cbn in *. lia.
          + apply Forall_forall. intros w Hw. apply in_map_iff in Hw. destruct Hw as (p & <- & Hp).
            destruct (Hf p (or_intror Hp)) as (_ & _ & _ & _ & _ & A6). specialize (A6 Hm). lia.
          + cbn [w_arr]. apply (Hf p0 (or_introl eq_refl)).
          + intros i a b Ha Hb.
            assert (Q : forall j w, rd (mk_window (if w_lo (dw p0) <? 0 then 0 else w_lo (dw p0)) (w_arr (dw p0)) (w_hi (dw p0)) :: map dw ps) j = Some w ->
              exists p, rd (p0 :: ps) j = Some p /\ w_arr w = w_arr (dw p)).
            { intros j w Hj. rewrite rd_cons in Hj |- *. destruct (j =? 0); [injection Hj as <-; exists p0; auto|].
              rewrite rd_map in Hj. destruct (rd ps (j - 1)) as [p|]; [|discriminate]. exists p. split; [reflexivity|]. cbn in Hj. congruence. }
            destruct (Q _ _ Ha) as (p & Hp & ->). destruct (Q _ _ Hb) as (q & Hq & ->). specialize (Hgap _ _ _ Hp Hq).
            unfold dw, determine_window. cbn [w_arr]. rewrite !time2sample_rate by assumption.
            rewrite <- rnd_he_shift2 by exact HD. apply rnd_he_mono; [exact HD|lia].
        - apply Forall_forall. intros w Hw. destruct (in_rd _ _ _ Hw) as [i Hi].
          destruct (forall2_rd _ _ _ (narrow_arr (map dw ps) (mk_window (if w_lo (dw p0) <? 0 then 0 else w_lo (dw p0)) (w_arr (dw p0)) (w_hi (dw p0))))) as [L1 R1].
          destruct (rd_in_range _ (mk_window (if w_lo (dw p0) <? 0 then 0 else w_lo (dw p0)) (w_arr (dw p0)) (w_hi (dw p0)) :: map dw ps) i) as [v Hv].
          { rewrite L1. apply (rd_bounds _ _ _ _ Hi). }
          destruct (R1 _ _ _ Hv Hi) as [<- _]. apply rd_in in Hv. destruct Hv as [<-|Hv]; [cbn; apply (Hf p0 (or_introl eq_refl))|].
          apply in_map_iff in Hv. destruct Hv as (p & <- & Hp). apply (Hf p (or_intror Hp)). }
      intros i w Hw. rewrite Forall_forall in F. apply F, (rd_in _ _ _ _ Hw).
Qed.
Print Assumptions C41_windows_disjoint.

(** Two phases of 400 samples of 0.02 s. *)
Definition flat_onset : list Q := repeat (1 # 1)%Q 400.
Definition ps_phases : list phase_data := [mk_phase "P" flat_onset 100000 10000; mk_phase "S" flat_onset 173000 17300].
Example C41_windows_disjoint_ex : pickable hz50 500000 400000 100000 400 ps_phases
  /\ station_windows hz50 500000 400000 100000 ps_phases = Ret [mk_window 45 100 118; mk_window 118 136 195].
Proof.
  split; [|reflexivity]. destruct hz50_ok as (H1 & H2 & _). split; [exact H1|]. split; [exact H2|]. split; [lia|]. split; [discriminate|].
  split; [repeat constructor; cbn; lia|]. intros i p q Hp Hq. pose proof (rd_bounds _ _ _ _ Hp). pose proof (rd_bounds _ _ _ _ Hq).
  cbn in H, H0. assert (i = 0) by lia. subst i. injection Hp as <-. injection Hq as <-. cbn. lia.
Qed.

(** The arrivals at the located origin do fall inside the onset arrays: for a station that passed
    the full-timespan check in the window read around the trigger time, and an event that was kept
    (its origin time is inside the marginal window), the arrivals up to the largest traveltime of
    the lookup table lie between the first and the last sample. *)
Lemma onset_pad_covers c timespan pre post a b : clock_ok c -> 0 <= timespan -> 0 <= pre -> 0 <= post -> 0 < timespan + (pre + post) ->
  onset_pad c timespan pre post = (a, b) -> 0 <= a /\ post <= b.
Proof.
  intros Hc Ht Hp Hq Hpos E. unfold onset_pad in E. cbv zeta in E. destruct Hc as (Hs & [k Hk] & He). rewrite Hk, Z.div_mul in He by lia.
  assert (Hk0 : 0 < k) by lia. assert (HD : 0 < delta c) by lia.
  set (tp := cdiv ((timespan + (pre + post)) * 6) (100 * sec c) * sec c) in *.
  assert (Htp : sec c <= tp).
  { unfold tp. assert (0 < cdiv ((timespan + (pre + post)) * 6) (100 * sec c)) by (apply cdiv_pos; lia).
    rewrite <- (Z.mul_1_l (sec c)) at 1. apply Z.mul_le_mono_nonneg_r; lia. }
  assert (Hms : ms c = 100 * k) by (unfold ms; rewrite Hk; replace (k * 100000) with (100 * k * 1000) by ring; apply Z.div_mul; lia).
  assert (H : forall t, 0 <= t -> t - ms c <= trim2sample c t).
  { intros t Ht0. unfold trim2sample. pose proof (cdiv_spec t (delta c) HD) as [Hc1 _]. set (u := cdiv t (delta c) * delta c) in *.
    rewrite Z.quot_div_nonneg by lia. pose proof (Z.div_mod (u * 1000) (sec c) ltac:(lia)) as D. pose proof (Z.mod_pos_bound (u * 1000) (sec c) Hs).
    set (q := u * 1000 / sec c) in *. rewrite Hms, Hk in *. lia. }
  pose proof (H (pre + tp) ltac:(lia)). pose proof (H (post + tp) ltac:(lia)).
  assert (a = trim2sample c (pre + tp)) by congruence. assert (b = trim2sample c (post + tp)) by congruence. lia.
Qed.
Theorem C41_arrivals_in_onset :
  forall c windows ttmax pre post t t' M (ev : event M) tt, clock_ok c -> 0 < e_mw ev ->
  Forall (fun w : Z * Z => 0 <= fst w /\ 0 <= snd w) windows -> 0 <= tt <= ttmax ->
  onset_pad c (4 * e_mw ev) (stalta_pre_pad windows) (stalta_post_pad c windows ttmax) = (pre, post) ->
  let '(w_beg, w_end) := locate_window (e_trig ev) (e_mw ev) pre post in
  trim_window c w_beg w_end t = Some t' -> full_timespan_ok c w_beg w_end (npts t') = true ->
  in_marginal_window ev = true ->
  w_beg <= e_otime ev + tt <= w_beg + (npts t' - 1) * delta c.
Proof.
  intros c windows ttmax pre post t t' M ev tt Hc Hmw Hw Htt E. cbn [locate_window]. intros _ Hf Hin.
  destruct (windows_nonneg windows Hw) as [Z1 Z2]. pose proof (stalta_post_ge c Hc windows ttmax) as Hp.
  destruct (onset_pad_covers c (4 * e_mw ev) (stalta_pre_pad windows) (stalta_post_pad c windows ttmax) pre post Hc ltac:(lia) ltac:(unfold stalta_pre_pad; lia) ltac:(lia) ltac:(unfold stalta_pre_pad; lia) E) as [Ha Hb].
  unfold full_timespan_ok in Hf. apply negb_true_iff, Z.ltb_ge in Hf. unfold in_marginal_window in Hin. apply andb_true_iff in Hin.
  destruct Hin as [H1 H2]. apply Z.ltb_lt in H1, H2. lia.
Qed.
Print Assumptions C41_arrivals_in_onset.
Example C41_arrivals_in_onset_ex : exists c windows ttmax pre post t t' (ev : event Z) tt w_beg w_end, clock_ok c /\ 0 < e_mw ev
  /\ Forall (fun w : Z * Z => 0 <= fst w /\ 0 <= snd w) windows /\ 0 < tt <= ttmax
  /\ onset_pad c (4 * e_mw ev) (stalta_pre_pad windows) (stalta_post_pad c windows ttmax) = (pre, post)
  /\ locate_window (e_trig ev) (e_mw ev) pre post = (w_beg, w_end)
  /\ trim_window c w_beg w_end t = Some t' /\ full_timespan_ok c w_beg w_end (npts t') = true
  /\ in_marginal_window ev = true /\ e_trig ev < e_otime ev.
Proof.
  exists hz50, [(20000, 100000); (30000, 150000)], 500000, 340000, 900000, {| phase := 0; k0 := -1000; k1 := 3000 |}, {| phase := 0; k0 := 80; k1 := 900 |},
    (mk_event 700000 100000 [] [] 750000), 300000, 160000, 1800000.
  split; [apply hz50_ok|]. split; [cbn; lia|]. split; [repeat constructor; cbn; lia|]. split; [lia|]. repeat split.
Qed.

(** The order of the phases matters: listed the other way round (["S", "P"]), the window of the
    first ends before it begins, whatever the onset function, and that phase is never picked. *)
Theorem C41_unordered_phases_not_picked :
  exists c otime starttime mw phases ws w, clock_ok c /\ integer_rate c /\ 0 < mw
  /\ Forall (fun p => starttime <= otime + ph_tt p <= starttime + 399 * delta c /\ Z.of_nat (length (ph_onset p)) = 400) phases
  /\ station_windows c otime starttime mw phases = Ret ws /\ rd ws 0 = Some w /\ w_hi w < w_lo w
  /\ forall cf onset t, Z.of_nat (length onset) = 400 -> fit_gaussian cf onset t w = Ret None.
Proof.
  exists hz50, 500000, 400000, 10000, (rev ps_phases), [mk_window 122 136 118; mk_window 118 100 110], (mk_window 122 136 118).
  destruct hz50_ok as (H1 & H2 & _). split; [exact H1|]. split; [exact H2|]. split; [lia|]. split; [repeat constructor; cbn; lia|].
  split; [reflexivity|]. split; [reflexivity|]. split; [cbn; lia|]. intros cf onset t L. unfold fit_gaussian. cbn [w_lo w_hi].
  assert (E : pyslice onset (Some 122) (Some 118) = []).
  { apply length_zero_iff_nil. apply Nat2Z.inj. rewrite pyslice_length, L. reflexivity. }
  rewrite E. destruct t; reflexivity.
Qed.
Print Assumptions C41_unordered_phases_not_picked.

(** ** C42: the data fitted *)

(** If a sample of the window is above the threshold, there is exactly one maximal run around the
    (first) largest sample of the window. *)
Theorem C42_one_peak :
  forall onset w t, 0 <= w_lo w <= w_hi w -> w_hi w <= Z.of_nat (length onset) ->
  (exists i, w_lo w <= i < w_hi w /\ above onset t i) ->
  exists k s e, window_max onset (w_lo w) (w_hi w) k /\ run_around onset t (w_lo w) (w_hi w) k s e
  /\ forall k' s' e', window_max onset (w_lo w) (w_hi w) k' -> run_around onset t (w_lo w) (w_hi w) k' s' e' -> k' = k /\ s' = s /\ e' = e.
Proof.
  intros onset w t Hw Hn H. destruct (run_exists onset w Hw Hn t H) as (k & s & e & Hk & Hr). exists k, s, e.
  split; [exact Hk|]. split; [exact Hr|]. intros k' s' e' Hk' Hr'.
  assert (k' = k). { apply (max_shift onset w Hw Hn) in Hk, Hk'. pose proof (first_max_unique _ _ _ Hk Hk'). lia. }
  subst k'. destruct (run_unique _ _ _ _ _ _ _ _ _ Hr Hr') as [-> ->]. auto.
Qed.
Print Assumptions C42_one_peak.

(** The data given to the fit are that run and one sample on each side, all inside the array; the
    pick fails if there is no such run or only one sample of it, if it reaches the end of the array,
    if the fit fails, or if the fitted mean is outside the window.
    Missing: runs that start at the first sample of the array (next theorem). *)
Theorem C42_fit_data_partial :
  forall cf onset w t, 0 <= w_lo w <= w_hi w -> w_hi w <= Z.of_nat (length onset) ->
  ((forall i, w_lo w <= i < w_hi w -> ~ above onset t i) -> fit_gaussian cf onset (Some t) w = Ret None)
  /\ (forall k s e, window_max onset (w_lo w) (w_hi w) k -> run_around onset t (w_lo w) (w_hi w) k s e -> 1 <= s ->
      (e < s + 2 \/ e = Z.of_nat (length onset) -> fit_gaussian cf onset (Some t) w = Ret None)
      /\ (s + 2 <= e < Z.of_nat (length onset) ->
          exists x y, Z.of_nat (length x) = e - s + 2 /\ Z.of_nat (length y) = e - s + 2
          /\ (forall i, 0 <= i < e - s + 2 -> rd x i = Some (s - 1 + i) /\ rd y i = rd onset (s - 1 + i))
          /\ (forall h m sg, cf x y = Ret (h, m, sg) -> (inject_Z (w_lo w) < m < inject_Z (w_hi w))%Q ->
              fit_gaussian cf onset (Some t) w = Ret (Some (h, m, Qabs.Qabs sg)))
          /\ (forall h m sg, cf x y = Ret (h, m, sg) -> ~ (inject_Z (w_lo w) < m < inject_Z (w_hi w))%Q ->
              fit_gaussian cf onset (Some t) w = Ret None)
          /\ (forall er, cf x y = Raise er -> er = ValueError \/ er = RuntimeError -> fit_gaussian cf onset (Some t) w = Ret None))).
Proof.
  intros cf onset w t Hw Hn. split; [apply fit_none; assumption|]. intros k s e Hk Hr Hs.
  destruct (fit_run cf onset w Hw Hn t k s e Hk Hr Hs) as [F1 F2]. split; [exact F2|]. intros He.
  specialize (F1 ltac:(lia) ltac:(lia)). destruct (slice_inside onset (s - 1) (e + 1) ltac:(lia) ltac:(lia)) as [L R].
  exists (zseq (s - 1) (Z.to_nat (e - s + 2))), (pyslice onset (Some (s - 1)) (Some (e + 1))).
  split; [rewrite zseq_length; lia|]. split; [lia|]. split; [|split; [|split]].
  - intros i Hi. split; [apply rd_zseq; lia|]. apply R. lia.
  - intros h m sg E [M1 M2]. rewrite F1, E. unfold accept, Qlt_b. rewrite !Qlt_bool_false by assumption. reflexivity.
  - intros h m sg E M. rewrite F1, E. unfold accept, Qlt_b.
    destruct (Qle_bool m (inject_Z (w_lo w))) eqn:E1; [reflexivity|]. destruct (Qle_bool (inject_Z (w_hi w)) m) eqn:E2; [reflexivity|].
    exfalso. apply M. split; apply Qle_bool_false; assumption.
  - intros er E [-> | ->]; rewrite F1, E; reflexivity.
Qed.
Print Assumptions C42_fit_data_partial.

(** Ten samples, the largest above-threshold run at samples 4 to 6 of the window [2, 9). *)
Definition peak_onset : list Q := map (fun z => (z # 10)%Q) [9; 11; 9; 25; 30; 50; 40; 12; 35; 10].
Example C42_fit_data_ex : window_max peak_onset 2 9 5 /\ run_around peak_onset (2 # 1) 2 9 5 3 7
  /\ fit_gaussian (fun x y => if (length x =? 6)%nat && (length y =? 6)%nat then Ret ((48 # 10), (52 # 10), (-9 # 10))%Q else Raise TypeError)
       peak_onset (Some (2 # 1)) (mk_window 2 5 9) = Ret (Some ((48 # 10), (52 # 10), (9 # 10))%Q).
Proof.
  split; [|split; [|reflexivity]].
  - split; [lia|]. exists (50 # 10)%Q. split; [reflexivity|]. split; intros i v Hi Hv.
    + assert (H : i = 2 \/ i = 3 \/ i = 4 \/ i = 5 \/ i = 6 \/ i = 7 \/ i = 8) by lia.
      repeat (destruct H as [->|H]; [cbn in Hv; injection Hv as <-; lra|]). subst i. cbn in Hv. injection Hv as <-. lra.
    + assert (H : i = 2 \/ i = 3 \/ i = 4) by lia.
      repeat (destruct H as [->|H]; [cbn in Hv; injection Hv as <-; lra|]). subst i. cbn in Hv. injection Hv as <-. lra.
  - split; [lia|]. split; [lia|]. split; [lia|]. split; [|split; right].
    + intros i Hi. assert (H : i = 3 \/ i = 4 \/ i = 5 \/ i = 6) by lia.
      repeat (destruct H as [->|H]; [eexists; split; [reflexivity|lra]|]). subst i. eexists. split; [reflexivity|lra].
    + intros (v & E & H). cbn in E. injection E as <-. lra.
    + intros (v & E & H). cbn in E. injection E as <-. lra.
Qed.

(** A NaN threshold (no noise sample outside the windows) fails the pick. *)
Theorem C42_no_noise_no_pick :
  forall cf onset w ws m, onset_noise onset ws = [] -> fit_gaussian cf onset (find_pick_threshold onset ws m) w = Ret None.
Proof. intros cf onset w ws m E. unfold find_pick_threshold. rewrite E. apply fit_nan. Qed.
Print Assumptions C42_no_noise_no_pick.
Example C42_no_noise_no_pick_ex : onset_noise peak_onset [mk_window 1 5 9] = [].
Proof. reflexivity. Qed.

(** A run that starts at the first sample of the array: the index of the sample before it is -1,
    which counts from the end. The data are empty and [max] raises ValueError outside the [try]:
    the pick is not recorded as failed, the event is lost. *)
Theorem C42_peak_at_first_sample_refuted :
  ~ (forall cf onset w t, fails_softly cf -> 0 <= w_lo w <= w_arr w -> w_arr w <= w_hi w <= Z.of_nat (length onset) ->
     exists f, fit_gaussian cf onset (Some t) w = Ret f).
Proof.
  intros H. destruct (H (fun _ _ => Raise RuntimeError) (map (fun z => (z # 10)%Q) [30; 25; 12; 10; 10]) (mk_window 0 1 3) (2 # 1)%Q) as [f E].
  - intros x y _ _. right. right. reflexivity.
  - cbn. lia.
  - cbn. lia.
  - vm_compute in E. discriminate.
Qed.
Print Assumptions C42_peak_at_first_sample_refuted.

(** Picking never raises if the first sample of each onset function is at most 1 (it is 1 in the
    tapered padding, C14), the threshold settings are sensible and the fit fails softly. *)
Theorem C42_picking_total_partial :
  forall cf m c otime starttime mw n (onsets : list (string * list phase_data)), fails_softly cf ->
  match m with Percentile p => (0 <= p <= 1)%Q | MadMultiple k => (0 <= k)%Q end ->
  Forall (fun so : string * list phase_data => pickable c otime starttime mw n (snd so)
          /\ forall p v, In p (snd so) -> rd (ph_onset p) 0 = Some v -> (v <= 1)%Q) onsets ->
  exists rows, pick_phases cf m c otime starttime mw onsets = Ret rows.
Proof.
  intros cf m c otime starttime mw n onsets Hcf Hm Hall. unfold pick_phases.
  destruct (outcome_map_total (fun so : string * list phase_data => pick_station cf m c otime starttime mw (fst so) (snd so)) onsets) as [ys ->];
    [|eexists; reflexivity].
  intros [st ph] Hso. cbn [fst snd]. rewrite Forall_forall in Hall. destruct (Hall _ Hso) as [Hp H0]. cbn [snd] in Hp, H0.
  destruct (C41_windows_disjoint _ _ _ _ _ _ Hp) as (ws & Ew & L & Hw & _). unfold pick_station. rewrite Ew. cbn [bind].
  apply outcome_map_total. intros [p w] Hpw. cbn [fst snd].
  destruct (in_rd _ _ _ Hpw) as [i Hi].
  assert (Hpi : rd ph i = Some p /\ rd ws i = Some w).
  { pose proof (rd_bounds _ _ _ _ Hi) as B. rewrite combine_length in B. destruct (rd_in_range _ ph i) as [p' Hp']; [lia|].
    destruct (rd_in_range _ ws i) as [w' Hw']; [lia|]. rewrite (rd_combine _ _ _ _ _ Hp' Hw') in Hi. injection Hi as -> ->. auto. }
  destruct Hpi as [Hpi Hwi]. destruct (Hw _ _ _ Hpi Hwi) as (_ & B1 & B2 & _).
  destruct Hp as (_ & _ & _ & _ & Hlen & _). rewrite Forall_forall in Hlen. destruct (Hlen p (rd_in _ _ _ _ Hpi)) as [Hl _].
  destruct (fit_total cf (ph_onset p) (find_pick_threshold (ph_onset p) ws m) w Hcf ltac:(lia) ltac:(lia)) as [f ->]; [|eexists; reflexivity].
  intros _. destruct (find_pick_threshold (ph_onset p) ws m) as [t|] eqn:Et; [|exact I].
  pose proof (threshold_above _ _ _ _ Et Hm) as Ht. intros (v & Hv & Hl'). specialize (H0 p v (rd_in _ _ _ _ Hpi) Hv). lra.
Qed.
Print Assumptions C42_picking_total_partial.
Example C42_picking_total_ex : Forall (fun so : string * list phase_data => pickable hz50 500000 400000 100000 400 (snd so)
          /\ forall p v, In p (snd so) -> rd (ph_onset p) 0 = Some v -> (v <= 1)%Q) [("ST01"%string, ps_phases)].
Proof.
  constructor; [|constructor]. split; [apply C41_windows_disjoint_ex|]. cbn [snd]. intros p v [<-|[<-|[]]] E; injection E as <-; lra.
Qed.

(** ** C61: the pick threshold *)

(** The threshold is computed from exactly the samples outside all pick windows with a value above
    1; changing the onset function inside the windows does not change it. It is above 1, and with a
    percentile it lies between the smallest and the largest of these samples. *)
Theorem C61_threshold_from_noise :
  forall onset ws m, windows_inside (Z.of_nat (length onset)) ws ->
  (forall v, In v (onset_noise onset ws) <-> exists k, rd onset k = Some v /\ ~ in_windows ws k /\ (1 < v)%Q)
  /\ (forall onset', length onset = length onset' -> (forall k, ~ in_windows ws k -> rd onset k = rd onset' k) ->
      find_pick_threshold onset ws m = find_pick_threshold onset' ws m)
  /\ (forall t, find_pick_threshold onset ws m = Some t ->
      match m with Percentile p => (0 <= p <= 1)%Q | MadMultiple k => (0 <= k)%Q end -> (1 < t)%Q).
Proof.
  intros onset ws m Hin. split; [intros v; apply noise_in; exact Hin|]. split.
  - intros onset' Hl H. unfold find_pick_threshold. rewrite (noise_ext onset onset' ws Hin Hl H). reflexivity.
  - intros t E Hm. exact (threshold_above _ _ _ _ E Hm).
Qed.
Print Assumptions C61_threshold_from_noise.
Theorem C61_percentile_in_range :
  forall onset ws p t lo hi, windows_inside (Z.of_nat (length onset)) ws -> find_pick_threshold onset ws (Percentile p) = Some t ->
  (0 <= p <= 1)%Q -> (forall k v, rd onset k = Some v -> ~ in_windows ws k -> (1 < v)%Q -> (lo <= v <= hi)%Q) -> (lo <= t <= hi)%Q.
Proof.
  intros onset ws p t lo hi Hin E Hp H. unfold find_pick_threshold in E. destruct (onset_noise onset ws) as [|x r] eqn:En; [discriminate|].
  injection E as <-. apply percentile_range; [discriminate|exact Hp|]. rewrite <- En. intros v Hv. apply noise_in in Hv; [|exact Hin].
  destruct Hv as (k & A & B & C). exact (H k v A B C).
Qed.
Print Assumptions C61_percentile_in_range.
(** The threshold applied to a phase of a station comes from the samples outside the windows of all
    phases of this station, not only of its own. *)
Theorem C61_all_windows_masked :
  forall cf m c otime starttime mw station phases rows ws,
  pick_station cf m c otime starttime mw station phases = Ret rows -> station_windows c otime starttime mw phases = Ret ws ->
  length ws = length phases /\ forall i p w r, rd phases i = Some p -> rd ws i = Some w -> rd rows i = Some r ->
  exists f, fit_gaussian cf (ph_onset p) (find_pick_threshold (ph_onset p) ws m) w = Ret f /\ r = pick_row_of c otime starttime station p f.
Proof.
  intros cf m c otime starttime mw station phases rows ws H Ew.
  split; [apply distinguish_length in Ew; rewrite map_length in Ew; exact Ew|]. intros i p w r Hp Hw Hr.
  destruct (pick_station_row _ _ _ _ _ _ _ _ _ _ H Ew i r Hr) as (p' & w' & f & Hp' & Hw' & Ef & Er).
  exists f. replace p with p' by congruence. replace w with w' by congruence. split; assumption.
Qed.
Print Assumptions C61_all_windows_masked.
Example C61_threshold_ex : windows_inside (Z.of_nat (length peak_onset)) [mk_window 2 4 5; mk_window 6 7 8]
  /\ onset_noise peak_onset [mk_window 2 4 5; mk_window 6 7 8] = [11 # 10; 50 # 10; 35 # 10]%Q
  /\ exists t, find_pick_threshold peak_onset [mk_window 2 4 5; mk_window 6 7 8] (Percentile (3 # 4)) = Some t /\ (t == 425 # 100)%Q.
Proof.
  split; [repeat constructor; cbn; lia|]. split; [reflexivity|]. eexists. split; [reflexivity|]. vm_compute. reflexivity.
Qed.

(** ** C62: successful picks *)

(** The time of a successful pick lies strictly inside the window of its phase, so the picks of a
    station are in the order of the modelled arrivals. *)
Theorem C62_picks_in_order :
  forall cf m c otime starttime mw n station phases rows, pickable c otime starttime mw n phases ->
  pick_station cf m c otime starttime mw station phases = Ret rows ->
  (forall i r t, rd rows i = Some r -> p_time r = Some t -> exists p w ws, rd phases i = Some p
     /\ station_windows c otime starttime mw phases = Ret ws /\ rd ws i = Some w
     /\ (inject_Z (starttime + w_lo w * delta c) < t < inject_Z (starttime + w_hi w * delta c))%Q
     /\ (Qabs.Qabs (t - inject_Z (otime + ph_tt p)) < inject_Z (ph_ttf p + mw + delta c))%Q)
  /\ (forall i j r r' t t', i < j -> rd rows i = Some r -> rd rows j = Some r' -> p_time r = Some t -> p_time r' = Some t' -> (t < t')%Q).
Proof.
  intros cf m c otime starttime mw n station phases rows Hp H.
  destruct (C41_windows_disjoint _ _ _ _ _ _ Hp) as (ws & Ew & L & Hw & Hdis & _).
  pose proof Hp as (Hc & _). pose proof (delta_pos c Hc) as HD.
  assert (HDq : (0 < inject_Z (delta c))%Q) by (change 0%Q with (inject_Z 0); rewrite <- Zlt_Qlt; exact HD).
  assert (K : forall i r t, rd rows i = Some r -> p_time r = Some t -> exists p w, rd phases i = Some p /\ rd ws i = Some w
     /\ (inject_Z (starttime + w_lo w * delta c) < t < inject_Z (starttime + w_hi w * delta c))%Q).
  { intros i r t Hr Ht. destruct (pick_station_row _ _ _ _ _ _ _ _ _ _ H Ew i r Hr) as (p & w & f & Hpi & Hwi & Ef & ->).
    exists p, w. split; [exact Hpi|]. split; [exact Hwi|]. cbn [pick_row_of p_time] in Ht. destruct f as [[[h mn] sg]|]; [|discriminate].
    injection Ht as <-. destruct (fit_in _ _ _ _ _ _ _ Ef) as (M1 & M2 & _). rewrite !inject_Z_plus, !inject_Z_mult.
    apply (Qmult_lt_compat_r _ _ _ HDq) in M1. apply (Qmult_lt_compat_r _ _ _ HDq) in M2. split; lra. }
  split.
  - intros i r t Hr Ht. destruct (K i r t Hr Ht) as (p & w & Hpi & Hwi & Hb). exists p, w, ws. split; [exact Hpi|]. split; [exact Ew|].
    split; [exact Hwi|]. split; [exact Hb|]. destruct (Hw _ _ _ Hpi Hwi) as (N & _ & _ & W1 & W2). unfold nearest in N.
    assert (Z1 : otime + ph_tt p - (ph_ttf p + mw + delta c) <= starttime + w_lo w * delta c) by lia.
    assert (Z2 : starttime + w_hi w * delta c <= otime + ph_tt p + (ph_ttf p + mw + delta c)) by lia.
    rewrite Zle_Qle in Z1, Z2. unfold Z.sub in Z1. rewrite (inject_Z_plus (otime + ph_tt p)), ?inject_Z_opp in Z1.
    rewrite (inject_Z_plus (otime + ph_tt p)) in Z2. apply Qabs.Qabs_case; intros _; lra.
  - intros i j r r' t t' Hij Hr Hr' Ht Ht'. destruct (K i r t Hr Ht) as (p & w & _ & Hwi & Hb).
    destruct (K j r' t' Hr' Ht') as (p' & w' & _ & Hwj & Hb'). pose proof (Hdis _ _ _ _ Hij Hwi Hwj) as D.
    assert (Z1 : starttime + w_hi w * delta c <= starttime + w_lo w' * delta c).
    { apply Z.add_le_mono_l. apply Z.mul_le_mono_nonneg_r; lia. }
    rewrite Zle_Qle in Z1. lra.
Qed.
Print Assumptions C62_picks_in_order.

(** Two windows with a peak each; the fit returns its middle. *)
Definition bump_onset : list Q := map (fun k => if (Z.abs (k - 101) <? 4) || (Z.abs (k - 137) <? 5) then 10 - inject_Z (Z.abs (k - 101))/200 else if k <? 40 then 1 else 3 # 2)%Q (zrange 400).
Definition bump_phases : list phase_data := [mk_phase "P" bump_onset 100000 10000; mk_phase "S" bump_onset 173000 17300].
Definition mid_fit (x : list Z) (y : list Q) : outcome (Q * Q * Q) :=
  match x with [] => Raise ValueError | a :: _ => Ret (5 # 1, (inject_Z a + inject_Z (last x a)) / 2, 1 # 1)%Q end.
Example C62_picks_in_order_ex : pickable hz50 500000 400000 100000 400 bump_phases
  /\ exists r1 r2 t1 t2, pick_station mid_fit (Percentile 1) hz50 500000 400000 100000 "ST01" bump_phases = Ret [r1; r2]
     /\ p_time r1 = Some t1 /\ p_time r2 = Some t2 /\ (t1 == 602000 # 1)%Q /\ (t2 == 674000 # 1)%Q.
Proof.
  split.
  - destruct C41_windows_disjoint_ex as [H _]. destruct H as (H1 & H2 & H3 & H4 & H5 & H6). split; [exact H1|]. split; [exact H2|].
    split; [lia|]. split; [discriminate|]. split; [repeat constructor; vm_compute; congruence|].
    intros i p q Hp Hq. pose proof (rd_bounds _ _ _ _ Hp). pose proof (rd_bounds _ _ _ _ Hq).
    cbn [length bump_phases] in H, H0. assert (i = 0) by lia. subst i. injection Hp as <-. injection Hq as <-. cbn. lia.
  - eexists _, _, _, _. split; [vm_compute; reflexivity|]. split; [reflexivity|]. split; [reflexivity|]. split; reflexivity.
Qed.

(** ** C63: the table of picks *)

(** One row per station and phase, in order, with the modelled arrival time; a failed pick has no
    time, error, signal-to-noise ratio or residual, a successful one has all four: the time of the
    fitted mean, the width in time (not negative), the height and the time minus the modelled one. *)
Theorem C63_pick_table :
  forall cf m c otime starttime mw onsets rows, pick_phases cf m c otime starttime mw onsets = Ret rows ->
  map (fun r => (p_station r, p_phase r, p_model r)) rows
    = concat (map (fun so : string * list phase_data => map (fun p => (fst so, ph_name p, otime + ph_tt p)) (snd so)) onsets)
  /\ (0 < delta c -> forall r, In r rows ->
      (p_time r = None /\ p_error r = None /\ p_snr r = None /\ p_residual r = None)
      \/ exists t err snr res, p_time r = Some t /\ p_error r = Some err /\ p_snr r = Some snr /\ p_residual r = Some res
         /\ (res == t - inject_Z (p_model r))%Q /\ (0 <= err)%Q
         /\ exists x y mean sg, cf x y = Ret (snr, mean, sg) /\ (t == inject_Z starttime + mean * inject_Z (delta c))%Q
            /\ (err == Qabs.Qabs sg * inject_Z (delta c))%Q).
Proof.
  intros cf m c otime starttime mw onsets rows H. split; [exact (pick_phases_rows _ _ _ _ _ _ _ _ H)|].
  intros HD r Hr. unfold pick_phases in H. destruct (outcome_map _ onsets) as [ys| |] eqn:Eo; cbn [bind] in H; try discriminate.
  injection H as <-. apply in_concat in Hr. destruct Hr as (rs & Hrs & Hr). destruct (outcome_map_ok _ _ _ Eo) as [L R].
  destruct (in_rd _ _ _ Hrs) as [i Hi]. pose proof (rd_bounds _ _ _ _ Hi) as B. destruct (rd_in_range _ onsets i) as [so Hso]; [lia|].
  destruct (R i so Hso) as (y & Ey & Hy). assert (y = rs) by congruence. subst y.
  destruct (station_windows c otime starttime mw (snd so)) as [ws| |] eqn:Ew;
    [|unfold pick_station in Ey; rewrite Ew in Ey; discriminate..].
  destruct (in_rd _ _ _ Hr) as [j Hj]. destruct (pick_station_row _ _ _ _ _ _ _ _ _ _ Ey Ew j r Hj) as (p & w & f & _ & _ & Ef & ->).
  destruct f as [[[h mn] sg]|]; [|left; cbn; auto]. right. cbn [pick_row_of p_time p_error p_snr p_residual p_model].
  eexists _, _, _, _. split; [reflexivity|]. split; [reflexivity|]. split; [reflexivity|]. split; [reflexivity|].
  split; [reflexivity|]. destruct (fit_in _ _ _ _ _ _ _ Ef) as (_ & _ & Hs).
  assert (HDq : (0 <= inject_Z (delta c))%Q) by (change 0%Q with (inject_Z 0); rewrite <- Zle_Qle; lia).
  split; [apply Qmult_le_0_compat; assumption|].
  unfold fit_gaussian in Ef. destruct (find_peak _ _) as [[p0 p1]|e|]; [|destruct e; discriminate|discriminate].
  cbv zeta in Ef. destruct (pyslice (ph_onset p) _ _) as [|y0 y] eqn:Es; [discriminate|]. rewrite <- Es in Ef.
  match type of Ef with context [if ?b then cf ?x ?y else _] => exists x, y; destruct b; [|discriminate] end.
  match type of Ef with context [cf ?x ?y] => destruct (cf x y) as [[[h0 m0] s0]|e|] end; [|destruct e; discriminate|discriminate].
  exists m0, s0. destruct (_ && _); [|discriminate]. assert (E : (h, mn, sg) = (h0, m0, Qabs.Qabs s0)) by congruence. injection E as -> -> ->.
  split; [reflexivity|]. split; reflexivity.
Qed.
Print Assumptions C63_pick_table.
Example C63_pick_table_ex : exists r1 r2 r3 r4,
  pick_phases mid_fit (Percentile 1) hz50 500000 400000 100000 [("ST01"%string, bump_phases); ("ST02"%string, ps_phases)] = Ret [r1; r2; r3; r4]
  /\ p_snr r1 = Some (5 # 1)%Q /\ p_time r3 = None /\ p_station r4 = "ST02"%string /\ p_phase r4 = "S"%string /\ p_model r4 = 673000.
Proof. eexists _, _, _, _. split; [vm_compute; reflexivity|]. repeat split. Qed.

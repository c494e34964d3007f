(** Proofs about picks from waveforms. *)
From Coq Require Import String Ascii.
From Coq Require Import List ZArith Reals QArith Bool Lia Lra.
From Verif Require Import Lib LibFacts PyDict Timeline_Model Timeline_Spec Timeline_Proofs Avail_Model Avail_Spec Archive_Model Read_Model Resample_Spec Onset_Model Onset_Spec Onset_Proofs Compute_Spec PickRun_Model PickRun_Spec.
From Verif Require Import Picker_Model.
From Verif Require Resample_Model Picker_Proofs Avail_Proofs.
Import ListNotations.
Open Scope Z_scope.

(** ** Windows *)
Definition inside (w w' : window) : Prop := w_lo w <= w_lo w' /\ w_hi w' <= w_hi w.
Lemma inside_refl l : Forall2 inside l l.
Proof. induction l; constructor; [split; apply Z.le_refl|assumption]. Qed.
Lemma clamp_inside n : forall l, Forall2 inside l (clamp_last n l).
Proof.
  induction l as [|w l IH]; [constructor|]. destruct l as [|w' l].
  - cbn [clamp_last]. constructor; [|constructor]. split; cbn [w_lo w_hi]; [apply Z.le_refl|]. destruct (Z.ltb_spec n (w_hi w)); lia.
  - change (clamp_last n (w :: w' :: l)) with (w :: clamp_last n (w' :: l)). constructor; [split; apply Z.le_refl|exact IH].
Qed.
Lemma narrow_inside : forall l w w', inside w w' -> Forall2 inside (w :: l) (narrow w' l).
Proof.
  induction l as [|w2 l IH]; intros w w' (H1 & H2); cbn [narrow]; [constructor; [split; assumption|constructor]|].
  constructor; [split; cbn [w_lo w_hi]; lia|]. apply IH. split; cbn [w_lo w_hi]; lia.
Qed.
Lemma inside_trans : forall a b, Forall2 inside a b -> forall c, Forall2 inside b c -> Forall2 inside a c.
Proof.
  induction 1 as [|x y a b [H1 H2] _ IH]; intros c Hc; inversion Hc as [|? z ? c' [H3 H4] Hr]; subst; constructor; [split; lia|apply IH; assumption].
Qed.
Lemma distinguish_inside ws n r : distinguish_windows ws n = Ret r -> Forall2 inside ws r.
Proof.
  destruct ws as [|w ws]; [discriminate|]. cbn [distinguish_windows]. cbv zeta. intros H.
  assert (E : r = clamp_last n (narrow (mk_window (if w_lo w <? 0 then 0 else w_lo w) (w_arr w) (w_hi w)) ws)) by congruence. rewrite E.
  eapply inside_trans; [|apply clamp_inside]. apply narrow_inside. split; cbn [w_lo w_hi]; [destruct (Z.ltb_spec (w_lo w) 0); lia|apply Z.le_refl].
Qed.
Lemma forall2_combine {A B C} (P : B -> C -> Prop) (f : A -> B) : forall l r, Forall2 P (map f l) r -> forall a c, In (a, c) (combine l r) -> In a l /\ P (f a) c.
Proof.
  induction l as [|x l IH]; intros r H a c I; cbn [map] in H; inversion H as [|? y ? r' P1 P2]; subst; [destruct I|]. cbn [combine] in I. destruct I as [E|I].
  - assert (x = a) by congruence. assert (y = c) by congruence. subst. split; [left; reflexivity|exact P1].
  - destruct (IH r' P2 a c I) as (I1 & I2). split; [right; exact I1|exact I2].
Qed.

Section Win.
Variables (secs : Z) (k : onset_cfg) (d : wdata) (trig mw otime ttmax : Z).
Let c := o_clock secs k.
Let wins := map (fun kv : string * phase_cfg => (ph_sta (snd kv), ph_lta (snd kv))) (o_cfg k).
Hypothesis Tk : ticks_ok secs (o_rate k).
Hypothesis Hpost : o_post k = stalta_post_pad c wins ttmax.
Hypothesis Hmw : 0 <= mw.
Hypothesis Hw : Forall (fun w => 0 <= fst w /\ 0 <= snd w) wins.
Let pads := onset_pad c (4 * mw) (stalta_pre_pad wins) (o_post k).
Hypothesis Hs : d_start d = trig - 2 * mw - fst pads.
Hypothesis He : d_end d = trig + 2 * mw + snd pads.
Hypothesis Ho : Z.abs (otime - trig) <= mw.
Lemma clock_of : clock_ok c /\ integer_rate c /\ 0 < delta c.
Proof.
  destruct Tk as (R0 & D5 & (q & Eq) & S0 & S1). assert (R : secs / o_rate k = q) by (rewrite Eq; apply Z.div_mul; lia).
  split; [|split].
  - split; [|split; [exact D5|exact S1]]. unfold c, o_clock. cbn [sec]. destruct D5 as (z & ->). rewrite Z.div_mul in S0 by lia. lia.
  - exists (o_rate k). unfold c, o_clock. cbn [sec delta]. rewrite R, Eq. lia.
  - unfold c, o_clock. cbn [delta]. lia.
Qed.
Lemma window_untapered ph pc tt ttf i : In (ph, pc) (o_cfg k) -> delta c <= ph_sta pc -> 0 <= tt <= ttmax -> 0 <= ttf <= tt ->
  tt + ttf + ph_sta pc + 4 * delta c <= ttmax + 2 * ph_lta pc ->
  let w := determine_window c otime (d_start d) mw tt ttf in w_lo w <= i < w_hi w ->
  untapered (n_window secs (o_rate k) (d_start d) (d_end d)) (Onset_Model.taper_samples secs k (4 * mw)) (stw_samples c (ph_sta pc)) (ltw_samples c (ph_lta pc)) i.
Proof.
  intros I Hst Htt Hf Hc w Hi. destruct clock_of as (Ck & Ir & D0).
  assert (Iw : In (ph_sta pc, ph_lta pc) wins) by (apply in_map_iff; exists (ph, pc); split; [reflexivity|exact I]).
  destruct (windows_facts wins _ _ Iw Hw) as (Z1 & Z2 & Ws & Wl). pose proof (stalta_post_ge c Ck wins ttmax) as Pg. rewrite <- Hpost in Pg.
  assert (Pp : ph_lta pc + 3 * ph_sta pc <= stalta_pre_pad wins) by (unfold stalta_pre_pad; lia).
  unfold pads in Hs, He. destruct (onset_pad c (4 * mw) (stalta_pre_pad wins) (o_post k)) as [pre post] eqn:Ep. cbn [fst snd] in Hs, He.
  assert (M4 : 0 <= 4 * mw) by (apply Z.mul_nonneg_nonneg; [lia|exact Hmw]). assert (P0 : 0 <= stalta_pre_pad wins) by lia. assert (Q0 : 0 <= o_post k) by lia.
  destruct (onset_pad_bounds c Ck (4 * mw) _ _ _ _ M4 P0 Q0 Ep) as (tp & _ & Htp & _ & _ & Hpre & _ & _ & Hpo).
  assert (Dm : (ms c | o_post k)).
  { rewrite Hpost. unfold stalta_post_pad. apply Z.divide_mul_r. destruct Ck as (_ & (z & Ez) & _). unfold ms. rewrite Ez. replace (z * 100000) with (z * 100 * 1000) by lia. rewrite Z.div_mul by lia. exists 1000. lia. }
  specialize (Hpo Dm).
  unfold untapered, n_window, Onset_Model.taper_samples. cbv zeta. fold wins. fold c. rewrite Ep. cbn [fst].
  subst w. unfold determine_window in Hi. cbn [w_lo w_hi] in Hi. unfold stw_samples, ltw_samples. rewrite !time2sample_rate in * by assumption.
  change (secs / o_rate k) with (delta c). set (D := delta c) in *.
  pose proof (rnd_he_nearest (otime + tt - d_start d) D D0) as R1. pose proof (rnd_he_nearest (ttf + mw) D D0) as R2. pose proof (rnd_he_nearest (pre - stalta_pre_pad wins) D D0) as R3.
  pose proof (rnd_he_nearest (ph_sta pc) D D0) as R4. pose proof (rnd_he_nearest (ph_lta pc) D D0) as R5. unfold nearest in *.
  set (a := rnd_he (otime + tt - d_start d) D) in *. set (b := rnd_he (ttf + mw) D) in *. set (e := rnd_he (pre - stalta_pre_pad wins) D) in *. set (g := rnd_he (ph_sta pc) D) in *. set (h := rnd_he (ph_lta pc) D) in *.
  pose proof (Z.div_mod (d_end d - d_start d) D ltac:(lia)) as Dv. pose proof (Z.mod_pos_bound (d_end d - d_start d) D D0) as Mb. set (n := (d_end d - d_start d) / D) in *.
  clearbody a b e g h n D. rewrite Hs in *. rewrite He in *. clear Hs He Ep pads Hpost Iw I Dm.
  split.
  - assert (L : (e + h) * D <= (a - b) * D) by lia. apply Z.mul_le_mono_pos_r in L; lia.
  - assert (L : (a + b + g + e) * D < (n + 1) * D) by lia. apply Z.mul_lt_mono_pos_r in L; [|exact D0].  lia.
Qed.
End Win.

(** ** What the loops leave for a station *)
Lemma dset_dset {A} (l : dict A) key v : dset (dset l key v) key v = dset l key v.
Proof. induction l as [|(a, x) l IH]; cbn [dset]; [rewrite String.eqb_refl; reflexivity|]. destruct (String.eqb a key) eqn:E; cbn [dset]; rewrite E; [reflexivity|]. rewrite IH. reflexivity. Qed.
Lemma dset_keys {A} (l : dict A) key v : NoDup (keys l) -> NoDup (keys (dset l key v)).
Proof.
  unfold keys. induction l as [|(a, x) l IH]; cbn [dset map fst]; intros N; [constructor; [intros []|constructor]|]. inversion N as [|? ? N1 N2]; subst. destruct (String.eqb_spec a key) as [->|Ne]; cbn [map fst]; constructor; auto.
  intros I. apply N1. apply (dget_in A l a). assert (I' : In a (keys (dset l key v))) by exact I. apply dget_in in I'. rewrite dget_dset in I'. destruct (String.eqb_spec key a); [congruence|exact I'].
Qed.
Definition put (e : option (dict (list (option R)))) (ph : string) (r : Z * option (list (option R) * list seg)) : option (dict (list (option R))) :=
  match res_onset r with Some o => Some (dset (match e with Some x => x | None => [] end) ph o) | None => e end.
Section Loops.
Variables (lowpass : Z -> list R -> list R) (taper : list R -> list R) (tiny : R) (secs : Z) (k : onset_cfg) (d : wdata) (ts : option Z).
Lemma stations_entry ph pc fl : forall sts st0 st1, fold_out (station_body taper tiny secs k d ts ph pc fl) sts st0 = Ret st1 ->
  (forall s, dget (l_dict st1) s = if in_dec string_dec s sts then put (dget (l_dict st0) s) ph (one taper tiny secs k d ts pc fl s) else dget (l_dict st0) s)
  /\ (NoDup (keys (l_dict st0)) -> NoDup (keys (l_dict st1)))
  /\ (forall g, In g (l_filtered st1) <-> In g (l_filtered st0) \/ exists s o w, In s sts /\ snd (one taper tiny secs k d ts pc fl s) = Some (o, w) /\ In g w).
Proof.
  induction sts as [|s sts IH]; intros st0 st1 H; cbn [fold_out] in H.
  - assert (st1 = st0) by congruence. subst. repeat split; auto. intros [X|(s & _ & _ & [] & _)]. exact X.
  - unfold station_body in H at 1. destruct (station_onset taper tiny secs k d ts pc fl s) as [[av x]| |] eqn:E; cbn [bind] in H; try discriminate.
    assert (Eg : one taper tiny secs k d ts pc fl s = (av, x)) by (unfold one; rewrite E; reflexivity).
    set (stm := match x with None => mk_state (l_onsets st0) (l_dict st0) (l_filtered st0) (dset (l_avail st0) (onset_key s ph) av)
      | Some (o, w) => mk_state (l_onsets st0 ++ [o]) (set_onset (l_dict st0) s ph o) (l_filtered st0 ++ w) (dset (l_avail st0) (onset_key s ph) av) end).
    assert (Hm : fold_out (station_body taper tiny secs k d ts ph pc fl) sts stm = Ret st1) by (unfold stm; destruct x as [[o w]|]; exact H). clear H.
    destruct (IH stm st1 Hm) as (I1 & I2 & I3).
    assert (M1 : forall s', dget (l_dict stm) s' = if String.eqb s s' then put (dget (l_dict st0) s) ph (av, x) else dget (l_dict st0) s').
    { intros s'. unfold stm, put, res_onset. cbn [snd]. destruct x as [[o w]|]; cbn [l_dict option_map fst]; [unfold set_onset; rewrite dget_dset; reflexivity|]. destruct (String.eqb_spec s s') as [->|]; reflexivity. }
    split; [|split].
    + intros s'. rewrite I1, M1. destruct (String.eqb_spec s s') as [<-|Ne].
      * rewrite Eg. destruct (in_dec string_dec s (s :: sts)) as [_|C]; [|exfalso; apply C; left; reflexivity]. destruct (in_dec string_dec s sts); [|reflexivity].
        unfold put. destruct (res_onset (av, x)); [|reflexivity]. rewrite dset_dset. reflexivity.
      * destruct (in_dec string_dec s' sts) as [Y|N]; destruct (in_dec string_dec s' (s :: sts)) as [Y'|N']; try reflexivity; [exfalso; apply N'; right; exact Y|destruct Y' as [Y'|Y']; contradiction].
    + intros N. apply I2. unfold stm. destruct x as [[o w]|]; cbn [l_dict]; [apply dset_keys|]; exact N.
    + intros g. rewrite I3. assert (M3 : In g (l_filtered stm) <-> In g (l_filtered st0) \/ exists o w, x = Some (o, w) /\ In g w).
      { unfold stm. destruct x as [[o w]|]; cbn [l_filtered]; [rewrite in_app_iff|]; split; intros X.
        - destruct X as [X|X]; [left; exact X|right; exists o, w; split; [reflexivity|exact X]].
        - destruct X as [X|(o' & w' & X & Y)]; [left; exact X|right]. assert (w' = w) by congruence. subst. exact Y.
        - left; exact X.
        - destruct X as [X|(o' & w' & X & Y)]; [exact X|discriminate]. }
      rewrite M3. split.
      * intros [[X|(o & w & X & Y)]|(s' & o & w & X & Y & Z)]; [left; exact X|right; exists s, o, w; rewrite Eg; split; [left; reflexivity|]; split; [exact X|exact Y]|right; exists s', o, w; split; [right; exact X|split; [exact Y|exact Z]]].
      * intros [X|(s' & o & w & [X|X] & Y & Z)]; [left; left; exact X|subst s'; left; right; exists o, w; rewrite Eg in Y; split; [exact Y|exact Z]|right; exists s', o, w; split; [exact X|split; [exact Y|exact Z]]].
Qed.
Let g := got lowpass taper tiny secs k d ts.
Lemma phases_entry : forall phs st0 st1, fold_out (phase_body lowpass taper tiny secs k d ts) phs st0 = Ret st1 ->
  (forall s, In s (d_stations d) -> dget (l_dict st1) s = fold_left (fun e ph => put e ph (g ph s)) phs (dget (l_dict st0) s))
  /\ (forall s, ~ In s (d_stations d) -> dget (l_dict st1) s = dget (l_dict st0) s)
  /\ (NoDup (keys (l_dict st0)) -> NoDup (keys (l_dict st1)))
  /\ (forall x, In x (l_filtered st1) <-> In x (l_filtered st0) \/ exists ph s o w, In ph phs /\ In s (d_stations d) /\ snd (g ph s) = Some (o, w) /\ In x w).
Proof.
  induction phs as [|ph phs IH]; intros st0 st1 H; cbn [fold_out] in H.
  - assert (st1 = st0) by congruence. subst. repeat split; auto. intros [X|(p & _ & _ & _ & [] & _)]. exact X.
  - unfold phase_body in H at 1. destruct (dget (o_cfg k) ph) as [pc|] eqn:Ec; [|discriminate]. destruct (phase_waveforms lowpass secs k d pc) as [fl| |] eqn:Ef; cbn [bind] in H; try discriminate.
    destruct (fold_out (station_body taper tiny secs k d ts ph pc fl) (d_stations d) st0) as [stm| |] eqn:Em; cbn [bind] in H; try discriminate.
    destruct (stations_entry ph pc fl _ _ _ Em) as (J1 & J2 & J3). destruct (IH _ _ H) as (I1 & I2 & I3 & I4).
    assert (Eg : forall s, g ph s = one taper tiny secs k d ts pc fl s) by (intros s; unfold g, got, pair_result, one; rewrite Ec, Ef; reflexivity).
    split; [|split; [|split]].
    + intros s Is. rewrite (I1 s Is), J1. cbn [fold_left]. destruct (in_dec string_dec s (d_stations d)); [|contradiction]. rewrite Eg. reflexivity.
    + intros s Is. rewrite (I2 s Is), J1. destruct (in_dec string_dec s (d_stations d)); [contradiction|reflexivity].
    + auto.
    + intros x. rewrite I4, J3. split.
      * intros [[X|(s & o & w & X & Y & Z)]|(p & s & o & w & X & Y & Z & U)]; [left; exact X|right; exists ph, s, o, w; rewrite Eg; split; [left; reflexivity|]; auto|right; exists p, s, o, w; split; [right; exact X|]; auto].
      * intros [X|(p & s & o & w & [X|X] & Y & Z & U)]; [left; left; exact X|subst p; left; right; exists s, o, w; rewrite <- Eg; auto|right; exists p, s, o, w; auto].
Qed.
End Loops.

(** ** The traces used *)
Lemma join_all_id fill : forall l s o, Resample_Model.join_all fill s l = Ret o -> sg_id o = sg_id s.
Proof.
  induction l as [|r l IH]; intros s o H; cbn [Resample_Model.join_all] in H; [congruence|]. unfold Resample_Model.join in H at 1. cbv zeta in H. destruct (_ || _); [discriminate|]. cbn [bind] in H. rewrite (IH _ _ H). reflexivity.
Qed.
Lemma fill_channel_id taper fill secs a b i st o : (forall g, In g st -> sg_id g = i) -> Resample_Model.fill_channel taper fill secs a b st = Ret o -> sg_id o = i.
Proof.
  intros H. unfold Resample_Model.fill_channel, Resample_Model.merge_fill. cbv zeta. set (l := map _ st). assert (Hl : forall g, In g l -> sg_id g = i) by (intros g I; apply in_map_iff in I; destruct I as (x & <- & I); apply (H x I)).
  destruct (sort_segs l) as [|s r] eqn:E; [discriminate|]. destruct (Resample_Model.join_all fill s r) as [q| |] eqn:Eq; cbn [bind]; try discriminate. intros X.
  assert (Eo : o = Resample_Model.pad_trim fill (a - secs / 100000) (b + secs / 100000) q) by congruence. rewrite Eo. unfold Resample_Model.pad_trim. cbn [sg_id]. rewrite (join_all_id _ _ _ _ Eq).
  apply Hl. apply (Permutation.Permutation_in _ (Avail_Proofs.sort_perm l)). rewrite E. left. reflexivity.
Qed.
Lemma map_out_in {A B} (f : A -> outcome B) l ys y : map_out f l = Ret ys -> In y ys -> exists x, In x l /\ f x = Ret y.
Proof.
  intros H I. apply map_out_all in H. induction H as [|x z l ys E _ IH]; [destruct I|]. destruct I as [<-|I]; [exists x; split; [left; reflexivity|exact E]|]. destruct (IH I) as (x' & I' & E'). exists x'. split; [right; exact I'|exact E'].
Qed.
Section Used.
Variables (lowpass : Z -> list R -> list R) (taper : list R -> list R) (tiny : R) (secs : Z) (k : onset_cfg) (d : wdata) (ts : option Z).
Lemma remove_in av : forall st x, In x (remove_unavailable av st) -> In x st.
Proof. unfold remove_unavailable. induction av as [|(i, v) av IH]; intros st x I; cbn [fold_left] in I; [exact I|]. apply IH in I. destruct (snd (i, v) =? 0); [apply filter_In in I; apply I|exact I]. Qed.
Lemma station_used pc fl s av o w x : station_onset taper tiny secs k d ts pc fl s = Ret (av, Some (o, w)) -> In x w -> exists y, In y fl /\ sg_id y = sg_id x /\ station_of y = s.
Proof.
  unfold station_onset. cbv zeta. destruct (check_availability _ _ _ _ _) as [[v dct]| |]; cbn [bind]; try discriminate. destruct (v =? 0); [discriminate|].
  destruct (fill_gaps _ _ _ _ _ _ _) as [w0| |] eqn:Ef; cbn [bind]; try discriminate. destruct (onset _ _ _ _ _ _ _) as [o0| |]; cbn [bind]; try discriminate. intros H I. assert (w0 = w) by congruence. subst w0. clear H.
  set (l := remove_unavailable dct (select_station fl s)) in *.
  assert (Hl : forall y, In y l -> In y fl /\ station_of y = s). { intros y Iy. apply remove_in in Iy. apply filter_In in Iy. destruct Iy as (Iy & E). split; [exact Iy|apply String.eqb_eq, E]. }
  unfold fill_gaps in Ef. destruct (o_gaps k || negb (o_full k)).
  - destruct (map_out_in _ _ _ _ Ef I) as (i & Ii & Ei). apply Avail_Proofs.sorted_ids_in in Ii. destruct Ii as (y & Iy & Ey). destruct (Hl y Iy) as (H1 & H2). exists y. split; [exact H1|]. split; [|exact H2].
    rewrite Ey. symmetry. eapply fill_channel_id; [|exact Ei]. intros g' Ig. apply filter_In in Ig. apply String.eqb_eq, Ig.
  - assert (l = w) by congruence. subst w. destruct (Hl x I). exists x. auto.
Qed.
Lemma phase_ids pc fl x : phase_waveforms lowpass secs k d pc = Ret fl -> In x fl -> fnmatch (ph_map pc) (channel_of x) = true.
Proof.
  intros H I. unfold phase_waveforms in H. pose proof (pp_select _ _ _ _ _ _ _ _ _ _ _ (sg_id x) H) as P. rewrite channel_select in P. unfold channel_of. destruct (fnmatch (ph_map pc) (snd (at_dot (list_ascii_of_string (sg_id x))))) eqn:E; [reflexivity|exfalso].
  assert (Ix : In x (select_id fl (sg_id x))) by (apply select_in; auto). unfold Resample_Model.pre_process, Resample_Model.resample in P. cbn in P. destruct (Qle_bool _ _); [discriminate|]. assert (E0 : select_id fl (sg_id x) = []) by congruence. rewrite E0 in Ix. exact Ix.
Qed.
End Used.
Lemma station_of_id x y : sg_id x = sg_id y -> station_of x = station_of y. Proof. unfold station_of. congruence. Qed.
Lemma channel_of_id x y : sg_id x = sg_id y -> channel_of x = channel_of y. Proof. unfold channel_of. congruence. Qed.

(** ** The rows of a station *)
Lemma filter_none {A} (f : A -> bool) l : (forall x, In x l -> f x = false) -> filter f l = [].
Proof. induction l as [|x l IH]; intros H; [reflexivity|]. cbn [filter]. rewrite (H x (or_introl eq_refl)). apply IH. intros y I. apply H. right. exact I. Qed.
Lemma filter_all {A} (f : A -> bool) l : (forall x, In x l -> f x = true) -> filter f l = l.
Proof. induction l as [|x l IH]; intros H; [reflexivity|]. cbn [filter]. rewrite (H x (or_introl eq_refl)), IH; [reflexivity|]. intros y I. apply H. right. exact I. Qed.
Lemma station_row_names cf m c otime t0 mw st phs rows r : pick_station cf m c otime t0 mw st phs = Ret rows -> In r rows -> p_station r = st.
Proof.
  intros H I. apply Picker_Proofs.pick_station_rows in H. apply (in_map (fun r => (p_station r, p_phase r, p_model r))) in I. rewrite H in I. apply in_map_iff in I. destruct I as (p & E & _). congruence.
Qed.
Lemma station_rows cf m c otime t0 mw s : forall onsets rows, NoDup (map fst onsets) -> pick_phases cf m c otime t0 mw onsets = Ret rows ->
  match dget onsets s with
  | Some phs => pick_station cf m c otime t0 mw s phs = Ret (filter (fun r => String.eqb (p_station r) s) rows)
  | None => filter (fun r => String.eqb (p_station r) s) rows = []
  end.
Proof.
  unfold pick_phases. induction onsets as [|(st, phs) l IH]; intros rows N H; cbn [outcome_map bind concat] in H; [assert (rows = []) by congruence; subst; reflexivity|]. cbn [fst snd] in H.
  destruct (pick_station cf m c otime t0 mw st phs) as [y| |] eqn:Ey; cbn [bind] in H; try discriminate.
  destruct (outcome_map _ l) as [ys| |] eqn:El; cbn [bind] in H; try discriminate. assert (Er : rows = y ++ concat ys) by (cbn [concat] in H; congruence). rewrite Er, filter_app. clear H Er.
  inversion N as [|? ? N1 N2]; subst. specialize (IH (concat ys) N2 eq_refl). cbn [dget]. destruct (String.eqb_spec st s) as [->|Ne].
  - rewrite Ey. f_equal. rewrite (filter_all _ y) by (intros r I; apply String.eqb_eq; eapply station_row_names; eassumption).
    assert (D : dget l s = None) by (apply dget_none; exact N1). rewrite D in IH. rewrite IH, app_nil_r. reflexivity.
  - rewrite (filter_none _ y). 2: { intros r I. destruct (String.eqb_spec (p_station r) s) as [C|]; [|reflexivity]. exfalso. apply Ne. rewrite <- C. symmetry. eapply station_row_names; eassumption. }
    exact IH.
Qed.
Lemma map_out_fst {A B} (f : A -> outcome (A * B)) : (forall x y, f x = Ret y -> fst y = x) -> forall l ys, map_out f l = Ret ys -> map fst ys = l.
Proof.
  intros Hf l ys H. apply map_out_all in H. induction H as [|x y l ys E _ IH]; [reflexivity|]. cbn [map]. rewrite (Hf _ _ E), IH. reflexivity.
Qed.

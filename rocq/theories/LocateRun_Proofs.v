(** Proofs about locating events in an archive. *)
From Coq Require Import String Ascii.
From Coq Require Import List ZArith QArith Reals Bool Lia Lra.
From Verif Require Import Lib LibFacts PyDict PySlice Timeline_Model Timeline_Spec ScanMseed_Model Migrate_Spec Lut_Model Lut_Spec Locate_Model Locate_Spec Locate_Proofs Locate_Props Resample_Spec Onset_Model Onset_Spec Compute_Spec
  PickRun_Model DetectRun_Model DetectRun_Spec LocatePipe_Model LocatePipe_Spec LocateRun_Model LocateRun_Spec Gain_Spec Shift_Spec.
From Verif Require Migrate_Model Migrate_Proofs Lut_Proofs Timeline_Proofs Pipeline_Proofs Resample_Proofs Onset_Proofs LocatePipe_Proofs Compute_Props DetectRun_Proofs Picker_Model Shift_Props.
Import ListNotations.
Open Scope Z_scope.

(** * Later *)
Section Later.
Variable t : Z.
Lemma dataframe_later : forall dt a b x, dataframe (map (Z.add t) dt) a b x = out_map (map (row_later t)) (dataframe dt a b x).
Proof.
  induction dt as [|d dt IH]; intros [|a aa] [|b bb] [|x xx]; try reflexivity. cbn [map dataframe]. rewrite IH. destruct (dataframe dt aa bb xx); cbn [bind out_map map]; try reflexivity. do 2 f_equal. unfold row_later. cbn [r_dt r_coa r_norm r_xyz]. f_equal. ring.
Qed.
Lemma coa_later rows : map r_coa (map (row_later t) rows) = map r_coa rows.
Proof. rewrite map_map. reflexivity. Qed.
Lemma peak_later rows : peak (map (row_later t) rows) = out_map (row_later t) (peak rows).
Proof. unfold peak. rewrite coa_later. destruct (argmax (map r_coa rows)) as [i| |]; cbn [bind out_map]; try reflexivity. rewrite rd_map. destruct (rd rows i); reflexivity. Qed.
Lemma output_later {M} trig mw dt a b x (mp : list M) : add_compute_output (trig + t) mw (map (Z.add t) dt) a b x mp = out_map (event_later t) (add_compute_output trig mw dt a b x mp).
Proof.
  unfold add_compute_output. rewrite dataframe_later. destruct (dataframe dt a b x) as [rows| |]; cbn [bind out_map]; try reflexivity. rewrite peak_later. destruct (peak rows) as [r| |]; cbn [bind out_map]; reflexivity.
Qed.
Lemma times_later c trig mw : mw_times c (trig + t) mw = map (Z.add t) (mw_times c trig mw).
Proof. unfold mw_times. rewrite map_map. apply map_ext. intros i. ring. Qed.
Lemma in_window_later {M} (e : event M) : in_marginal_window (event_later t e) = in_marginal_window e.
Proof. unfold in_marginal_window, event_later. cbn [e_otime e_mw e_trig]. f_equal; apply eq_true_iff_eq; rewrite !Z.ltb_lt; lia. Qed.
Lemma combine_map_r {A B C} (f : B -> C) : forall (a : list A) b, combine a (map f b) = map (fun ab => (fst ab, f (snd ab))) (combine a b).
Proof. induction a as [|x a IH]; intros [|y b]; try reflexivity. cbn [map combine fst snd]. f_equal. apply IH. Qed.
Lemma filter_map_comm {A B} (f : A -> B) (p : B -> bool) l : filter p (map f l) = map f (filter (fun x => p (f x)) l).
Proof. induction l as [|x l IH]; [reflexivity|]. cbn [map filter]. destruct (p (f x)); cbn [map]; rewrite IH; reflexivity. Qed.
Lemma last_map {A B} (f : A -> B) : forall l d, last (map f l) (f d) = f (last l d).
Proof. induction l as [|x l IH]; intros d; [reflexivity|]. cbn [map]. destruct l as [|y l]; [reflexivity|]. cbn [map last] in *. apply (IH d). Qed.
Lemma trim_later {M} (e : event M) : trim2window (event_later t e) = out_map (event_later t) (trim2window e).
Proof.
  destruct e as [tr mw rows mp ot]. change (event_later t (mk_event tr mw rows mp ot)) with (mk_event (tr + t) mw (map (row_later t) rows) mp (ot + t)). unfold trim2window. cbn [e_rows e_otime e_mw e_map e_trig]. cbv zeta.
  set (g := fun ab : Z * coarow => (fst ab, row_later t (snd ab))).
  assert (E : filter (fun ir => (ot + t - mw <=? r_dt (snd ir)) && (r_dt (snd ir) <=? ot + t + mw)) (labelled (map (row_later t) rows)) = map g (filter (fun ir => (ot - mw <=? r_dt (snd ir)) && (r_dt (snd ir) <=? ot + mw)) (labelled rows))).
  { unfold labelled. rewrite map_length, combine_map_r, filter_map_comm. unfold g. f_equal. apply filter_ext. intros x. cbn [fst snd row_later r_dt]. f_equal; apply eq_true_iff_eq; rewrite !Z.leb_le; lia. }
  rewrite E. clear E. set (kept := filter _ _). clearbody kept. destruct kept as [|f r]; [reflexivity|].
  pose proof (last_map g (f :: r) f) as L. cbn [map] in L |- *. rewrite L.
  change (snd (g f) :: map snd (map g r)) with (map snd (map g (f :: r))). assert (Em : map snd (map g (f :: r)) = map (row_later t) (map snd (f :: r))) by (rewrite !map_map; reflexivity).
  rewrite Em, peak_later. change (snd f :: map snd r) with (map snd (f :: r)). destruct (peak (map snd (f :: r))) as [x| |]; cbn [bind out_map]; reflexivity.
Qed.
Lemma window_later trig mw pre post mags a b : event_window (trig + t) mw pre post mags a b = let '(x, y, p, q) := event_window trig mw pre post mags a b in (x + t, y + t, p, q).
Proof. unfold event_window, locate_window. cbn [fst snd]. replace (trig + t - 2 * mw - pre) with (trig - 2 * mw - pre + t) by ring. replace (trig + t + 2 * mw + post) with (trig + 2 * mw + post + t) by ring. reflexivity. Qed.
End Later.

Section Run.
Variables (lowpass : Z -> list R -> list R) (taper : list R -> list R) (tiny : R) (secs : Z) (k : onset_cfg) (transform : Z -> Z -> vec -> vec) (l : lut) (r0 : Migrate_Model.mreg) (r1 : Migrate_Model.freg).
Lemma compute_later t pre post mw d trig : event_compute lowpass taper tiny secs k transform l r0 r1 pre post mw (later_data t d) (trig + t) = out_map (event_later t) (event_compute lowpass taper tiny secs k transform l r0 r1 pre post mw d trig).
Proof.
  unfold event_compute. rewrite Shift_Props.C123_coalescence. destruct (compute_coalescence _ _ _ _ _ _ _ _ _ _ _) as [mp| |]; cbn [bind out_map]; try reflexivity. cbv zeta.
  destruct (Migrate_Model.lib_find_max_coa _ _ _ _) as [o| |]; cbn [bind out_map]; try reflexivity. destruct (scan_rows _ _ _ _ _) as [rows| |]; cbn [bind out_map]; try reflexivity. rewrite times_later. apply output_later.
Qed.
Variables (rbf : list vec -> list R -> vec -> R) (rat : option R -> Q) (curve_fit : list Z -> list Q -> outcome (Q * Q * Q)) (m : Picker_Model.pick_method) (ticks : R -> Z) (fraction : R).
Let one := locate_event lowpass taper tiny secs k transform l r0 r1 rbf rat curve_fit m ticks fraction.
Lemma event_moved t read read' mw pre post mags a b trig : (forall x y p q, read' (x + t) (y + t) p q = out_map (later_data t) (read x y p q)) ->
  out_rel (skipped_or (located_later t)) (one read mw pre post mags a b trig) (one read' mw pre post mags a b (trig + t)).
Proof.
  intros Hr. unfold one, locate_event. rewrite window_later. destruct (event_window trig mw pre post mags a b) as (((x, y), p), q). rewrite Hr.
  assert (G : forall e, match e with ArchiveEmpty | DataGapException | DataAvailabilityException => True | _ => True end) by (intros []; exact I).
  destruct (read x y p q) as [d|e|]; cbn [out_map bind]; [|destruct e; exact I || reflexivity|exact I].
  rewrite compute_later. destruct (event_compute lowpass taper tiny secs k transform l r0 r1 pre post mw d trig) as [ev|e|]; cbn [out_map bind]; [|destruct e; exact I || reflexivity|exact I].
  rewrite in_window_later. destruct (in_marginal_window ev); [|exact I]. rewrite trim_later. destruct (trim2window ev) as [ev'|e|]; cbn [out_map bind]; [|reflexivity|exact I].
  change (e_map (event_later t ev')) with (e_map ev'). destruct (calculate_location rbf (l_grid l) (e_map ev')) as [loc|e|]; cbn [bind]; [|reflexivity|exact I].
  change (e_otime (event_later t ev')) with (e_otime ev' + t).
  pose proof (Shift_Props.C123_picks t lowpass taper tiny secs k rat curve_fit m (arrivals transform l ticks fraction (fst loc)) d (e_otime ev') mw) as P.
  destruct (pick_run lowpass taper tiny secs k rat curve_fit m (arrivals transform l ticks fraction (fst loc)) d (e_otime ev') mw) as [ps|e|], (pick_run lowpass taper tiny secs k rat curve_fit m (arrivals transform l ticks fraction (fst loc)) (later_data t d) (e_otime ev' + t) mw) as [ps'|e'|];
    cbn [bind out_rel] in *; try contradiction; try exact I; try assumption.
  cbn [skipped_or]. unfold located_later. cbn [lo_event lo_spline lo_cov lo_picks]. split; [reflexivity|]. split; [reflexivity|]. split; [reflexivity|exact P].
Qed.
End Run.

(** * An event that can be located *)
Section Trim.
Context (c : clock) (f : Z -> Z -> R) (kk nn trig : Z) (Hd : 0 < delta c) (Hk : 0 < kk).
Let mw := kk * delta c.
Let ns := 4 * kk + 1.
Lemma mw_len : 4 * mw / delta c + 1 = ns.
Proof. unfold mw, ns. replace (4 * (kk * delta c)) with (4 * kk * delta c) by ring. rewrite Z.div_mul by lia. lia. Qed.
Lemma trimmed ev s0 : computed ev s0 -> e_trig ev = trig -> e_mw ev = mw ->
  e_otime ev = trig - 2 * mw + s0 * delta c -> map r_dt (e_rows ev) = mw_times c trig mw ->
  e_map ev = map (fun s => map (fun node => f node s) (zrange nn)) (zrange ns) ->
  0 <= s0 < ns -> Z.abs (e_otime ev - trig) < mw ->
  exists ev', trim2window ev = Ret ev' /\ e_otime ev' = e_otime ev /\ max_coalescence ev' = max_coalescence ev /\
    e_map ev' = map (fun i => map (fun node => f node (s0 - kk + i)) (zrange nn)) (zrange (2 * kk)).
Proof.
  intros Hc Ht Hm Ho Hdt Hmap B Hin.
  assert (Hmw : 0 < mw) by (unfold mw; nia).
  assert (Him : in_marginal_window ev = true).
  { unfold in_marginal_window. rewrite Ht, Hm, andb_true_iff, !Z.ltb_lt. lia. }
  destruct (C38_window_complete _ c trig mw ev s0 Hd Hmw ltac:(exists kk; reflexivity) Hc Ht Hm Hdt Him) as (ev' & E & Hdt' & Hlen).
  assert (Hmw0 : 0 <= e_mw ev) by lia.
  destruct (C38_trim_keeps_origin_partial _ ev s0 Hc Hmw0) as (ev2 & a & E2 & T1 & T2 & T3 & _ & (r & Hr & Hmc & Hr') & Hrows & Hmaps & Hl1).
  assert (ev2 = ev') by congruence. subst ev2.
  exists ev'. split; [exact E|]. split; [exact T1|]. split.
  { rewrite Hmc. unfold max_coalescence, peak. destruct Hc as (_ & _ & Hfl & Hot).
    destruct (argmax_total (map r_coa (e_rows ev))) as [q Eq].
    { destruct Hfl as (v & Hv & _). intros N. rewrite N in Hv. unfold rd in Hv. destruct (s0 <? 0); [discriminate|]. destruct (Z.to_nat s0); discriminate. }
    rewrite Eq. cbn [bind]. apply argmax_ok in Eq. rewrite (first_largest_unique _ _ _ Eq Hfl), Hr. cbn [bind]. f_equal. f_equal. f_equal.
    rewrite rd_map, Hr in Hot. cbn in Hot. congruence. }
  assert (E2k : 2 * mw / delta c = 2 * kk).
  { unfold mw. replace (2 * (kk * delta c)) with (2 * kk * delta c) by ring. apply Z.div_mul. lia. }
  rewrite E2k in Hlen.
  assert (Ha : a = s0 - kk).
  { assert (Hl' : Z.of_nat (length (e_rows ev')) = 2 * kk + 1) by lia.
    destruct (rd_in_range _ (e_rows ev') 0) as [r1' Hr1]; [lia|].
    pose proof (Hrows 0 ltac:(lia)) as Hz. rewrite Z.add_0_r, Hr1 in Hz.
    pose proof (f_equal (fun l => rd l 0) Hdt') as Q. cbn beta in Q. rewrite rd_map, Hr1 in Q. unfold times_from in Q.
    rewrite rd_map, rd_zrange in Q by lia. cbn [option_map] in Q.
    pose proof (f_equal (fun l => rd l a) Hdt) as P. cbn beta in P. rewrite rd_map, <- Hz in P. unfold mw_times in P. rewrite mw_len in P.
    assert (0 <= a < ns).
    { pose proof (rd_bounds _ _ _ _ (eq_sym Hz)) as Bz. pose proof (f_equal (@length _) Hdt) as LL. unfold mw_times in LL.
      rewrite !map_length, zrange_length, mw_len in LL. lia. }
    rewrite rd_map, rd_zrange in P by lia. cbn [option_map] in P.
    assert (Hx : r_dt r1' = e_otime ev - mw + 0 * delta c) by congruence.
    assert (Hy : r_dt r1' = trig - 2 * mw + a * delta c) by congruence.
    assert (Hz2 : (s0 - kk - a) * delta c = 0) by (unfold mw in *; lia). apply Z.mul_eq_0 in Hz2. lia. }
  apply (rd_ext_opt _). intros i. destruct (Z.le_gt_cases 0 i) as [Hi0|Hi0]; [|rewrite !rd_none by lia; reflexivity].
  destruct (Z.lt_ge_cases i (2 * kk)) as [Hi|Hi].
  - destruct (Hmaps i ltac:(lia)) as [-> _]. rewrite Ha, Hmap.
    assert (Hr2 : 0 <= s0 - kk + i < ns).
    { unfold ns, mw in *. rewrite Ho in Hin. assert (Z.abs ((s0 - 2 * kk) * delta c) < kk * delta c) by (replace ((s0 - 2 * kk) * delta c) with (trig - 2 * (kk * delta c) + s0 * delta c - trig) by ring; exact Hin).
      rewrite Z.abs_mul, (Z.abs_eq (delta c)) in H by lia. apply Z.mul_lt_mono_pos_r in H; lia. }
    rewrite !rd_map, !rd_zrange by lia. reflexivity.
  - rewrite !rd_none; [reflexivity| |]; right; [rewrite map_length, zrange_length|]; lia.
Qed.
End Trim.

Section Ready.
Variables (lowpass : Z -> list R -> list R) (taper : list R -> list R) (tiny : R) (secs : Z) (k : onset_cfg) (transform : Z -> Z -> vec -> vec) (l : lut) (r0 : Migrate_Model.mreg) (r1 : Migrate_Model.freg)
  (tab : string -> string -> table) (stations : list string) (mw pre post : Z).
Hypothesis S : locate_ready lowpass taper tiny secs k l tab stations mw pre post.
Let D := secs / o_rate k.
Let n := g_count (l_grid l).
Let coord := node_coord transform (l_grid l).
Let c := o_clock secs k.

Lemma lr_delta : 0 < D /\ 0 < secs.
Proof. destruct (Resample_Proofs.ticks_d _ _ (lr_ticks _ _ _ _ _ _ _ _ _ _ _ S)) as (A & B). split; [exact A|]. rewrite B. destruct (lr_ticks _ _ _ _ _ _ _ _ _ _ _ S) as (C & _). apply Z.mul_pos_pos; assumption. Qed.
Lemma lr_clock : clock_ok (o_clock secs k) /\ integer_rate (o_clock secs k).
Proof.
  destruct (lr_ticks _ _ _ _ _ _ _ _ _ _ _ S) as (A & B & C & E & F). destruct lr_delta as (G & H). unfold clock_ok, integer_rate, o_clock. cbn [sec delta]. split; [repeat split; assumption|].
  destruct C as [q Hq]. exists (o_rate k). rewrite Hq at 1. rewrite Hq. rewrite Z.div_mul by lia. ring.
Qed.
Lemma lr_multiples : exists a b m, pre = a * D /\ post = b * D /\ mw = m * D /\ 0 <= a /\ 0 <= b /\ 0 < m
  /\ time2sample (o_clock secs k) pre = a /\ time2sample (o_clock secs k) post = b.
Proof.
  destruct lr_clock as (Ck & Ir). destruct lr_delta as (Dp & Sp). pose proof (lr_mw _ _ _ _ _ _ _ _ _ _ _ S) as Hs.
  destruct (Timeline_Proofs.onset_pad_whole (o_clock secs k) Ck (4 * mw) _ _ pre post (lr_ms _ _ _ _ _ _ _ _ _ _ _ S) ltac:(lia) (lr_pre0 _ _ _ _ _ _ _ _ _ _ _ S) (lr_post0 _ _ _ _ _ _ _ _ _ _ _ S) (lr_pads _ _ _ _ _ _ _ _ _ _ _ S)) as (P1 & P2 & P3 & P4).
  pose proof (lr_whole _ _ _ _ _ _ _ _ _ _ _ S) as P5. pose proof (lr_pre0 _ _ _ _ _ _ _ _ _ _ _ S) as Q1. pose proof (lr_post0 _ _ _ _ _ _ _ _ _ _ _ S) as Q2.
  rewrite !(Timeline_Proofs.time2sample_on (o_clock secs k) Ck) by assumption. cbn [o_clock delta] in *. fold D in P1, P2, P5 |- *. destruct P1 as [a Ea], P2 as [b Eb], P5 as [m Em]. exists a, b, m. rewrite Ea, Eb, Em, !Z.div_mul by lia.
  repeat split; try reflexivity; nia.
Qed.
Lemma lr_node q : is_node n q -> flat2coord transform (l_grid l) (flat n q) = Ret (coord q).
Proof.
  intros Hq. pose proof (Lut_Proofs.grid_ok_pos _ (lr_grid _ _ _ _ _ _ _ _ _ _ _ S)) as Hn. fold n in Hn.
  destruct (Lut_Proofs.unravel_inv (flat n q) n Hn (Lut_Proofs.flat_range n q Hq)) as (q' & Hu & Hq' & Hf).
  assert (E : q' = q). { pose proof (Locate_Proofs.all_nodes_rd n q Hq) as A. pose proof (Locate_Proofs.all_nodes_rd n q' Hq') as B. rewrite Hf in B. congruence. }
  subst q'. unfold flat2coord, flat2grid. fold n. rewrite Hu. cbn [bind]. rewrite Lut_Proofs.node2grid_eq. reflexivity.
Qed.

Lemma event_ok trig d : (D | trig) -> d_start d = trig - 2 * mw - pre -> d_end d = trig + 2 * mw + post -> d_stations d = stations ->
  Forall (usable secs (o_rate k) (d_resample d) (d_upfactor d) (d_start d) (d_end d)) (d_waveforms d) ->
  (calculate_onsets lowpass taper tiny secs k d None = Raise DataAvailabilityException /\ event_compute lowpass taper tiny secs k transform l r0 r1 pre post mw d trig = Raise DataAvailabilityException)
  \/ exists r (tt : string -> string -> ijk -> Z) ev s0 q0,
     let F s q := DetectRun_Spec.stacked (l_dict r) (with_onset (l_dict r) (o_phases k) stations) tt (pre / D + s) q in
     calculate_onsets lowpass taper tiny secs k d None = Ret r
     /\ (forall s p q, (Rabs (IZR (tt s p q) - entry0 (tab s p) q * IZR (o_rate k)) <= 1 / 2)%R)
     /\ event_compute lowpass taper tiny secs k transform l r0 r1 pre post mw d trig = Ret ev
     /\ first_peak n (4 * (mw / D) + 1) F s0 q0 /\ computed ev s0 /\ e_trig ev = trig /\ e_mw ev = mw /\ e_otime ev = trig - 2 * mw + s0 * D /\ map r_dt (e_rows ev) = mw_times c trig mw
     /\ max_coalescence ev = Ret (e_otime ev, F s0 q0, (F s0 q0 / arithmetic_mean (map (F s0) (all_nodes n)))%R)
     /\ (forall s q, (0 < F s q)%R)
     /\ exists f, (forall q s, is_node n q -> 0 <= s < 4 * (mw / D) + 1 -> f (flat n q) s = F s q) /\ e_map ev = map (fun s => map (fun node => f node s) (zrange (n_nodes n))) (zrange (4 * (mw / D) + 1)).
Proof.
  intros Gt Es Ee Est Fu. destruct lr_multiples as (a & b & m & Ea & Eb & Em & Ha & Hb & Hm & Ta & Tb). destruct lr_delta as (Dp & Sp).
  pose proof S as [S1 S2 S3 S4 S5 S6 S7 S8 S9 S11 S12 S13 S14 S15 S16 S17 S18 S19 S20 S21].
  set (ns := 4 * m + 1).
  assert (Nw : n_window secs (o_rate k) (d_start d) (d_end d) = a + ns + b).
  { unfold n_window. fold D. rewrite Es, Ee, Ea, Eb, Em. replace (trig + 2 * (m * D) + b * D - (trig - 2 * (m * D) - a * D)) with ((4 * m + b + a) * D) by ring. rewrite Z.div_mul by lia. unfold ns. lia. }
  assert (Tot : (4 * mw + pre + post) / (secs / o_rate k) + 1 = a + ns + b) by (fold D; rewrite Ea, Eb, Em; replace (4 * (m * D) + a * D + b * D) with ((4 * m + a + b) * D) by ring; rewrite Z.div_mul by lia; unfold ns; lia).
  assert (Pre : pre / D = a) by (rewrite Ea; apply Z.div_mul; lia). assert (Post : post / D = b) by (rewrite Eb; apply Z.div_mul; lia). assert (Tst : mw / D = m) by (rewrite Em; apply Z.div_mul; lia). rewrite Pre, Tst. fold ns.
  destruct (Compute_Props.C120_window_partial lowpass taper tiny secs k r0 l d tab (IZR (o_rate k)) (time2sample (o_clock secs k) pre) (time2sample (o_clock secs k) post) S1 S2 S3 S4 S5 S6) as [(E1 & E2)|(r & tt & mm & E1 & Htt & E2 & Lm & Hv)].
  - rewrite Es. destruct Gt as [x Hx]. fold D in Hx |- *. rewrite Ea, Em, Hx. exists (x - 2 * m - a). ring.
  - rewrite Ee. destruct Gt as [x Hx]. fold D in Hx |- *. rewrite Eb, Em, Hx. exists (x + 2 * m + b). ring.
  - rewrite Es, Ee, Ea, Eb, Em. assert (0 <= m * D) by (apply Z.mul_nonneg_nonneg; lia). assert (0 <= a * D) by (apply Z.mul_nonneg_nonneg; lia). assert (0 <= b * D) by (apply Z.mul_nonneg_nonneg; lia). lia.
  - intros ph Ip. destruct (S14 ph Ip) as (pc & P1 & (P2 & P3) & P4 & P5 & P6). exists pc. split; [exact P1|]. rewrite Tot in P3. unfold Onset_Proofs.phase_ok. rewrite Nw. auto.
  - exact Fu.
  - exact S15.
  - exact S16.
  - rewrite Est. exact S17.
  - exact S18.
  - rewrite Est. exact S19.
  - intros s p Is Ip. rewrite Est in Is. destruct (S20 s p Is Ip) as (T1 & T2 & T3). split; [exact T1|]. split; [exact T2|]. rewrite Tb. fold D in T3. rewrite Post in T3. exact T3.
  - lia.
  - lia.
  - rewrite Nw. lia.
  - rewrite Est, Nw. rewrite Tot in S21. exact S21.
  - left. split; [exact E1|]. unfold event_compute. rewrite E2. reflexivity.
  - right. rewrite Nw, Ta, Tb in Lm, Hv. replace (a + ns + b - a - b) with ns in Lm, Hv by lia. fold n in Lm, Hv. rewrite Est in Hv. set (U := with_onset (l_dict r) (o_phases k) stations) in *.
    set (F := fun j => DetectRun_Spec.stacked (l_dict r) U tt (a + j)). assert (Fp : forall j q, (0 < F j q)%R).
    { intros j q. unfold F, DetectRun_Spec.stacked. apply Pipeline_Proofs.geometric_mean_pos. intros x Hx. apply in_map_iff in Hx. destruct Hx as (sp & <- & _). apply Rlt_le_trans with (1 / 100)%R; [lra|apply Rmax_r]. }
    pose proof (Lut_Proofs.grid_ok_pos _ S15) as Hn. fold n in Hn. pose proof (Lut_Proofs.pos3_nodes n Hn) as Np. assert (Hns : 0 < ns) by (unfold ns; lia).
    assert (Vq : forall q j, is_node n q -> 0 <= j < ns -> rd mm (flat n q * ns + j) = Some (F j q)). { intros q j Hq Hj. rewrite (Hv q j Hq Hj). unfold F, DetectRun_Spec.stacked. do 2 f_equal. }
    set (f := fun node s => Lut_Spec.value mm (node * ns + s)).
    assert (Un : forall kk, 0 <= kk < n_nodes n -> exists q, is_node n q /\ flat n q = kk). { intros kk Hk. destruct (Lut_Proofs.unravel_inv kk n Hn Hk) as (q & _ & Hq & Hf). exists q. auto. }
    assert (Fq : forall q j, is_node n q -> 0 <= j < ns -> f (flat n q) j = F j q). { intros q j Hq Hj. unfold f, Lut_Spec.value. rewrite (Vq q j Hq Hj). reflexivity. }
    assert (Hrd : forall node s, 0 <= node < n_nodes n -> 0 <= s < ns -> rd mm (node * ns + s) = Some (f node s)). { intros node s Hnode Hs. destruct (Un node Hnode) as (q & Hq & <-). rewrite (Vq q s Hq Hs), (Fq q s Hq Hs). reflexivity. }
    assert (Em2 : mm = array2 (n_nodes n) ns f) by (apply Migrate_Proofs.list_eq_array2; try lia; exact Hrd).
    destruct (Migrate_Proofs.find_max_ok r1 f (n_nodes n) ns ltac:(lia) ltac:(lia)) as (o & Eo & L1 & L2 & L3 & Ho).
    assert (Pt : forall j, 0 <= j < ns -> exists q, is_node n q /\ (forall q', is_node n q' -> (F j q' <= F j q)%R)
      /\ rd (Migrate_Model.o_max o) j = Some (F j q) /\ rd (Migrate_Model.o_idx o) j = Some (flat n q) /\ rd (Migrate_Model.o_norm o) j = Some (Some (F j q / arithmetic_mean (map (F j) (all_nodes n)))%R)).
    { intros j Hj. destruct (Ho j Hj) as (kk & (K1 & K2 & K3) & H1 & H2 & _). destruct (Un kk K1) as (q & Hq & Eq). exists q. split; [exact Hq|]. subst kk. rewrite (Fq q j Hq Hj) in *.
      split; [intros q' Hq'; rewrite <- (Fq q' j Hq' Hj); apply K2, Lut_Proofs.flat_range, Hq'|]. split; [exact H1|]. split; [exact H2|].
      destruct (Migrate_Proofs.find_max_norm r1 f (n_nodes n) ns o j ltac:(lia) ltac:(lia) Eo Hj) as (v & M & N1 & N2 & N3 & _).
      { intros kk Hk. destruct (Un kk Hk) as (q' & Hq' & <-). rewrite (Fq q' j Hq' Hj). apply Fp. }
      rewrite N1. rewrite H1 in N2. injection N2 as <-. rewrite N3. do 4 f_equal. apply rd_ext_opt. intros x. rewrite !rd_map.
      destruct (Z_lt_dec x 0) as [C|C]; [rewrite !rd_none by (left; exact C); reflexivity|]. destruct (Z_lt_dec x (n_nodes n)) as [C'|C'].
      - rewrite rd_zrange by lia. destruct (Un x ltac:(lia)) as (q' & Hq' & <-). rewrite (Locate_Proofs.all_nodes_rd n q' Hq'). cbn [option_map]. f_equal. apply Fq; assumption.
      - rewrite (rd_none _ (zrange (n_nodes n))) by (right; rewrite zrange_length; lia). rewrite (rd_none _ (all_nodes n)) by (right; rewrite (Locate_Proofs.all_nodes_length n Hn); lia). reflexivity. }
    destruct (DetectRun_Proofs.scan_rows_ok transform l (Migrate_Model.o_max o) (Migrate_Model.o_norm o) (Migrate_Model.o_idx o)) as (rows & Er & Lr & Hr); [lia|lia| |].
    { intros s x y z Hx Hy Hz. pose proof (rd_bounds _ _ _ _ Hx) as Bs. destruct (Pt s ltac:(lia)) as (q & Hq & _ & _ & I2 & I3). rewrite Hz in I2. injection I2 as ->. rewrite Hy in I3. injection I3 as ->. eexists _, (coord q). split; [reflexivity|apply lr_node, Hq]. }
    assert (Hrow : forall j, 0 <= j < ns -> exists q, is_node n q /\ (forall q', is_node n q' -> (F j q' <= F j q)%R) /\ rd (map coa rows) j = Some (F j q) /\ rd (map coa_n rows) j = Some (F j q / arithmetic_mean (map (F j) (all_nodes n)))%R).
    { intros j Hj. destruct (Pt j Hj) as (q & Hq & Q1 & I1 & I2 & I3). destruct (Hr j _ _ _ I1 I3 I2) as (v & x & y & z & Ev & Ec & Erow). exists q. split; [exact Hq|]. split; [exact Q1|]. rewrite !rd_map, Erow. cbn [option_map coa coa_n]. split; [reflexivity|]. congruence. }
    assert (Lc : Z.of_nat (length rows) = ns) by lia. assert (Dc : delta c = D) by reflexivity.
    assert (Lt : Z.of_nat (length (mw_times c trig mw)) = ns). { unfold mw_times. rewrite map_length, zrange_length, Dc, Em. replace (4 * (m * D)) with (4 * m * D) by ring. rewrite Z.div_mul by lia. unfold ns. lia. }
    set (mp := map (fun s => map (fun node => f node s) (zrange (n_nodes n))) (zrange ns)).
    destruct (C38_origin_is_peak (list R) c trig mw (map coa rows) (map coa_n rows) (map (fun r => (px r, py r, pz r)) rows) mp ltac:(rewrite Dc; exact Dp) ltac:(lia))
      as (ev & s0 & E & Hfl & Hot & Hmc & D1 & D2 & D3 & D4 & D5 & D6 & D7 & Hcomp); [rewrite map_length; lia|rewrite map_length; lia|rewrite map_length; lia|].
    assert (B : 0 <= s0 < ns) by (destruct Hfl as (v & Hv' & _); pose proof (rd_bounds _ _ _ _ Hv') as Bd; rewrite map_length in Bd; lia).
    destruct (Hrow s0 B) as (q0 & Hq0 & Q1 & R1 & R2).
    exists r, tt, ev, s0, q0. cbv zeta. fold U. change (fun s q => DetectRun_Spec.stacked (l_dict r) U tt (a + s) q) with F.
    split; [exact E1|]. split; [exact Htt|]. split.
    { unfold event_compute. rewrite E2. cbn [bind]. fold n. assert (En : (let '(nx, ny, nz) := n in nx * ny * nz) = n_nodes n) by reflexivity. rewrite En. cbv zeta. rewrite Lm. rewrite (Z.mul_comm (n_nodes n) ns), Z.div_mul by lia. rewrite Em2, Eo. cbn [bind]. rewrite Er. cbn [bind].
      rewrite LocatePipe_Proofs.time_slices_array by lia. exact E. }
    split. { split; [exact B|]. split; [exact Hq0|]. intros s q Hs Hq. destruct (Hrow s Hs) as (q1 & Hq1 & Q2 & R3 & _). specialize (Q2 q Hq). destruct Hfl as (v & Hv' & Hmax & Hfirst). assert (v = F s0 q0) by congruence. subst v.
      change (DetectRun_Spec.stacked (l_dict r) U tt (a + s) q) with (F s q). change (DetectRun_Spec.stacked (l_dict r) U tt (a + s0) q0) with (F s0 q0). split; [pose proof (Hmax s _ R3); lra|]. intros Hlt. pose proof (Hfirst s _ Hlt R3). lra. }
    split. { apply Hcomp. unfold mp. rewrite map_length, zrange_length. lia. }
    split; [exact D6|]. split; [exact D7|]. split; [rewrite Hot, Dc; reflexivity|]. split; [exact D1|].
    split. { rewrite Hmc. unfold Lut_Spec.value. rewrite R1, R2. reflexivity. }
    split; [exact Fp|]. exists f. split; [exact Fq|]. exact D5.
Qed.
End Ready.

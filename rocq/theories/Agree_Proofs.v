(** Proofs about the scan and the location of the same time. *)
From Coq Require Import String Ascii.
From Coq Require Import List ZArith Reals QArith Bool Lia Lra.
From Verif Require Import Lib LibFacts PyDict Timeline_Model Timeline_Spec ScanMseed_Model ScanMseed_Spec Migrate_Spec Lut_Spec Locate_Model Locate_Spec Resample_Spec Onset_Model Onset_Spec StationSet_Spec DetectRun_Model DetectRun_Spec DetectRun_Proofs
  Window_Spec Window_Proofs LocateRun_Model LocateRun_Spec Agree_Spec.
From Verif Require Avail_Model Migrate_Model Lut_Model ScanMseed_Proofs ScanMseed_Props Pipeline_Model Pipeline_Proofs DetectRun_Props LocateRun_Proofs LocatePipe_Model Locate_Props Locate_Proofs.
Import ListNotations.
Open Scope Z_scope.

(** The samples of a scan are in its files. *)
Lemma scan_stored lp tp tiny secs k tr ucf l r0 r1 tab stations starttime timestep pre post cw read fs afs n :
  scan_ready lp tp tiny secs k tr ucf l tab stations starttime timestep pre post -> 0 < n ->
  let c := o_clock secs k in let w i := step_window c starttime timestep pre post i in
  (forall i, 0 <= i < n -> answers secs k stations (fst (w i)) (snd (w i)) (read (fst (w i)) (snd (w i)))) ->
  exists f a, continuous_compute lp tp tiny secs k tr ucf l r0 r1 cw read stations fs afs starttime timestep n = Ret (f, a)
  /\ forall i, 0 <= i < n -> exists rs av, made lp tp tiny secs k tr l r0 r1 stations starttime timestep pre post read i rs av /\ Z.of_nat (length rs) = timestep / delta c
     /\ forall j r, rd rs j = Some r -> exists z, encode_row ucf r = Some z /\ stored c f (starttime + timestep * i + j * delta c) z.
Proof.
  intros S Hn c w Ha. destruct (sr_delta lp tp tiny secs k tr ucf l tab stations starttime timestep pre post S) as (Dp & Sp). destruct (sr_clock lp tp tiny secs k tr ucf l tab stations starttime timestep pre post S) as (Ck & Ir).
  destruct (steps_full lp tp tiny secs k tr ucf l r0 r1 tab stations starttime timestep pre post S read (zrange n)) as (bl & F). { intros i Hi. apply in_zrange in Hi. apply Ha, Hi. }
  assert (Lb : Z.of_nat (length bl) = n). { clear - F Hn. assert (length bl = length (zrange n)) by (induction F; cbn [length]; congruence). rewrite H, zrange_length. lia. }
  assert (Ez : zrange n = zseq 0 (length bl)) by (unfold zrange; f_equal; lia). pose proof F as F0. rewrite Ez in F.
  destruct (run_ok lp tp tiny secs k tr ucf l r0 r1 tab stations starttime timestep pre post S read cw fs afs 0 bl) as (Cs & f & E2 & E1); [intros ->; cbn in Lb; lia|clear - F; induction F as [|? ? ? ? H _ IH]; constructor; tauto|].
  set (blocks := map _ (combine _ bl)) in Cs, E2. eexists f, _. split.
  { unfold continuous_compute, d_clock. rewrite (sr_pads _ _ _ _ _ _ _ _ _ _ _ _ _ _ S). cbn [fst snd]. rewrite Ez, E1. reflexivity. }
  rewrite Z.mul_0_r, Z.add_0_r in Cs. change (o_clock secs k) with c in Cs, E2. assert (Gs : (delta c | starttime)) by exact (sr_start _ _ _ _ _ _ _ _ _ _ _ _ _ _ S).
  destruct (Pipeline_Proofs.store_run_encoded _ _ _ _ _ _ E2) as (k0 & K0 & R0). pose proof (Pipeline_Proofs.run_samples_encoded c ucf _ _ K0) as RE.
  assert (N0 : k0 <> []) by (intros ->; inversion K0 as [N|]; destruct bl; [cbn in Lb; lia|discriminate]). pose proof (Pipeline_Proofs.consecutive_encoded c ucf _ _ _ K0 Cs) as D0.
  assert (Grid : (delta c | 86400 * sec c)) by (apply Z.divide_mul_r; exact Ir).
  destruct (ScanMseed_Props.C23_each_sample_in_the_file_of_its_date c fs starttime k0 Sp Dp Grid Gs N0 D0) as (f0 & f0' & P1 & P2 & P3).
  assert (W : forall day, f day = f0 day) by (intros day; destruct cw; [destruct (P3 day) as (-> & _)|]; congruence).
  intros i Hi. assert (Zi : rd (zrange n) i = Some i) by (apply rd_zrange; lia). destruct (DetectRun_Props.forall2_rd _ _ _ F0 i i Zi) as ((rs, av) & Q & (Mk & Lr & _)). cbn [fst snd] in Mk, Lr. exists rs, av. split; [exact Mk|]. split; [exact Lr|].
  intros j r Rj. set (t := starttime + timestep * i + j * delta c).
  assert (It : In (t, r) (run_samples c blocks)).
  { unfold run_samples. apply in_flat_map. exists (mk_seg (starttime + timestep * i) rs). split; [|unfold samples; cbn [t0 rows]; apply Pipeline_Proofs.samples_from_in; exact Rj].
    unfold blocks. apply in_map_iff. exists (i, (rs, av)). split; [reflexivity|]. rewrite <- Ez. apply (rd_in _ _ i). exact (DetectRun_Props.rd_combine _ _ _ _ _ Zi Q). }
  assert (Iz : exists z, encode_row ucf r = Some z /\ In (t, z) (run_samples c k0)).
  { clear - It RE. induction RE as [|x y X Y Hxy _ IH]; [destruct It|]. destruct It as [->|It]; [|destruct (IH It) as (z & Ez & Iz); exists z; split; [exact Ez|right; exact Iz]]. exists (snd y). destruct y as [yt yz]. destruct Hxy as (Hx & He). cbn in *. split; [exact He|]. left. congruence. }
  destruct Iz as (z & Ee & Iz). exists z. split; [exact Ee|]. unfold stored. change (sec c) with secs in *.
  assert (Io : In (t, z) (on_date c (t / (86400 * secs)) (run_samples c k0))). { unfold on_date. apply filter_In. split; [exact Iz|]. apply Z.eqb_eq. reflexivity. }
  rewrite W. destruct (P3 (t / (86400 * secs))) as (_ & -> & _); [exact Io|]. intros N. rewrite N in Io. destruct Io.
Qed.

(** The window of an event. *)
Lemma event_window_ready lp tp tiny secs k l tab x ids stations mw pre post trig d : locate_ready lp tp tiny secs k l tab stations mw pre post -> Forall plain_station stations -> (secs / o_rate k | trig) ->
  d_start d = trig - 2 * mw - pre -> d_end d = trig + 2 * mw + post -> d_stations d = stations -> recorded secs k x ids d ->
  window_ready lp tp tiny secs k l tab (IZR (o_rate k)) (time2sample (o_clock secs k) pre) (time2sample (o_clock secs k) post) d
  /\ n_window secs (o_rate k) (d_start d) (d_end d) - time2sample (o_clock secs k) pre - time2sample (o_clock secs k) post = 4 * (mw / (secs / o_rate k)) + 1
  /\ n_window secs (o_rate k) (d_start d) (d_end d) = (4 * mw + pre + post) / (secs / o_rate k) + 1.
Proof.
  intros S Pd Gt Es Ee Est Rc. destruct (LocateRun_Proofs.lr_multiples lp tp tiny secs k l tab stations mw pre post S) as (a & b & m & Ea & Eb & Em & Ha & Hb & Hm & Ta & Tb).
  destruct (LocateRun_Proofs.lr_delta lp tp tiny secs k l tab stations mw pre post S) as (Dp & Sp). set (D := secs / o_rate k) in *.
  pose proof S as [S1 S2 S3 S4 S5 S6 S7 S8 S9 S11 S12 S13 S14 S15 S16 S17 S18 S19 S20 S21]. destruct Gt as [y Hy].
  assert (Nw : n_window secs (o_rate k) (d_start d) (d_end d) = a + (4 * m + 1) + b).
  { unfold n_window. fold D. rewrite Es, Ee, Ea, Eb, Em. replace (trig + 2 * (m * D) + b * D - (trig - 2 * (m * D) - a * D)) with ((4 * m + b + a) * D) by ring. rewrite Z.div_mul by lia. lia. }
  assert (Tot : (4 * mw + pre + post) / D + 1 = a + (4 * m + 1) + b) by (rewrite Ea, Eb, Em; replace (4 * (m * D) + a * D + b * D) with ((4 * m + a + b) * D) by ring; rewrite Z.div_mul by lia; lia).
  assert (Post : post / D = b) by (rewrite Eb; apply Z.div_mul; lia). assert (Gs : (D | d_start d)) by (rewrite Es, Ea, Em, Hy; exists (y - 2 * m - a); ring).
  assert (Ms : secs <= 500000 * D).
  { unfold whole_ms, o_clock in S7. cbn [sec delta] in S7. fold D in S7. apply Z.divide_pos_le in S7; [|exact Dp]. pose proof (Z.div_mod secs 1000 ltac:(lia)). pose proof (Z.mod_pos_bound secs 1000 ltac:(lia)). lia. }
  split; [|split; [rewrite Nw, Ta, Tb, Em, Z.div_mul by lia; lia|exact (eq_trans Nw (eq_sym Tot))]]. constructor; try assumption; rewrite ?Est, ?Nw, ?Ta, ?Tb; try assumption; try lia.
  - rewrite Ee, Eb, Em, Hy. fold D. exists (y + 2 * m + b). ring.
  - intros ph Ip. destruct (S14 ph Ip) as (pc & P1 & (P2 & P3) & P4 & P5 & P6). exists pc. fold D in P3. rewrite Tot in P3. auto 10.
  - rewrite Rc. apply Forall_forall. intros g Ig. apply in_map_iff in Ig. destruct Ig as (id & <- & _). unfold usable, on_own_grid. cbn [Avail_Model.sg_delta Avail_Model.sg_data Avail_Model.sg_start]. fold D. split; [auto|]. split; [|split; [exact Ms|left; reflexivity]].
    unfold window_of, cut. rewrite Nw. intros N. apply (f_equal (@length R)) in N. unfold array1 in N. rewrite map_length, zrange_length in N. cbn [length] in N. lia.
  - intros s p Is Ip. destruct (S20 s p Is Ip) as (T1 & T2 & T3). split; [exact T1|]. split; [exact T2|]. fold D in T3. rewrite Post in T3. exact T3.
  - fold D in S21. rewrite Tot in S21. exact S21.
Qed.

(** The two calls of _compute differ in what is made of the samples. *)
Lemma event_from_compute lp tp tiny secs k tr l r0 r1 pre post mw d trig t rows av :
  compute lp tp tiny secs k tr l r0 r1 pre post d = Ret (t, rows, av) ->
  exists slices, event_compute lp tp tiny secs k tr l r0 r1 pre post mw d trig
    = add_compute_output trig mw (mw_times (o_clock secs k) trig mw) (map coa rows) (map coa_n rows) (map (fun r => (px r, py r, pz r)) rows) slices.
Proof.
  unfold compute, event_compute, d_clock. intros H. destruct (calculate_onsets lp tp tiny secs k d None) as [st| |]; cbn [bind] in H; try discriminate.
  destruct (compute_coalescence _ _ _ _ _ _ _ _ _ _ _) as [mp| |]; cbn [bind] in H |- *; try discriminate. cbv zeta.
  destruct (Migrate_Model.lib_find_max_coa _ _ _ _) as [o| |]; cbn [bind] in H |- *; try discriminate.
  destruct (scan_rows _ _ _ _ _) as [rs| |]; cbn [bind] in H |- *; try discriminate. assert (rs = rows) by congruence. subst rs. eexists. reflexivity.
Qed.
Lemma event_without lp tp tiny secs k tr l r0 r1 pre post mw d trig e :
  compute lp tp tiny secs k tr l r0 r1 pre post d = Raise e -> forall ev, event_compute lp tp tiny secs k tr l r0 r1 pre post mw d trig <> Ret ev.
Proof.
  unfold compute, event_compute, d_clock. intros H ev N. destruct (compute_coalescence _ _ _ _ _ _ _ _ _ _ _) as [mp| |] eqn:Ec; cbn [bind] in N; try discriminate. cbv zeta in N.
  destruct (onsets_of lp tp tiny secs k l _ _ _ _ _ Ec) as (st & Es). rewrite Es in H. cbn [bind] in H.
  destruct (Migrate_Model.lib_find_max_coa _ _ _ _) as [o| |]; cbn [bind] in H, N; try discriminate.
  destruct (scan_rows _ _ _ _ _) as [rs| |]; cbn [bind] in H, N; discriminate.
Qed.

Lemma forall2_of_rd {A B} (P : A -> B -> Prop) : forall (a : list A) (b : list B), Z.of_nat (length a) = Z.of_nat (length b) -> (forall j x y, rd a j = Some x -> rd b j = Some y -> P x y) -> Forall2 P a b.
Proof.
  induction a as [|x a IH]; intros [|y b] L H; cbn [length] in L; try lia; constructor.
  - apply (H 0); apply rd_0.
  - apply IH; [lia|]. intros j u v Hu Hv. pose proof (rd_bounds _ _ _ _ Hu) as Bj. apply (H (j + 1)); rewrite rd_cons; destruct (Z.eqb_spec (j + 1) 0); try lia; replace (j + 1 - 1) with j by lia; assumption.
Qed.

(** ** Both stages *)
Section Both.
Variables (lowpass : Z -> list R -> list R) (taper : list R -> list R) (tiny : R) (secs : Z) (k : onset_cfg) (transform : Z -> Z -> Lut_Model.vec -> Lut_Model.vec) (ucf : R) (l : Lut_Model.lut) (r0 : Migrate_Model.mreg) (r1 : Migrate_Model.freg).
Variables (tab : string -> string -> Lut_Model.table) (stations : list string) (x : string -> Z -> R) (ids : list string) (m : Z -> Z) (reach starttime timestep pre post n mw pre' post' trig : Z) (read : Z -> Z -> outcome wdata) (d' : wdata).
Notation D := (secs / o_rate k).
Notation c := (o_clock secs k).
Hypothesis S : scan_ready lowpass taper tiny secs k transform ucf l tab stations starttime timestep pre post.
Hypothesis S' : locate_ready lowpass taper tiny secs k l tab stations mw pre' post'.
Hypothesis St : steady secs k l tab ids stations m reach.
Hypothesis Cl : clear_of_ends secs k (m ((timestep + pre + post) / D)) (time2sample c pre) (time2sample c post) reach.
Hypothesis Cl' : clear_of_ends secs k (m ((4 * mw + pre' + post') / D + 1)) (time2sample c pre') (time2sample c post') reach.
Hypothesis Gt : (D | trig).
Hypothesis Ds : d_start d' = trig - 2 * mw - pre'.
Hypothesis De : d_end d' = trig + 2 * mw + post'.
Hypothesis Dst : d_stations d' = stations.
Hypothesis Rc' : recorded secs k x ids d'.
Hypothesis Lv' : lively tiny secs k x ids d'.
Notation W := (fun i => step_window c starttime timestep pre post i).
Lemma step_answers i : reads tiny secs k x ids stations read (fst (W i)) (snd (W i)) -> answers secs k stations (fst (W i)) (snd (W i)) (read (fst (W i)) (snd (W i))).
Proof.
  intros (d & Er & Es & Ee & Est & Rc & _). right. exists d. split; [exact Er|]. split; [exact Es|]. split; [exact Ee|]. split; [exact Est|]. rewrite <- Es, <- Ee. unfold step_window in Es, Ee. cbn [fst snd o_clock delta] in Es, Ee.
  destruct (scan_window lowpass taper tiny secs k transform ucf l tab x ids stations starttime timestep pre post i d S (st_dots _ _ _ _ _ _ _ _ St) Es Ee Est Rc) as (Wr & _). exact (wr_data _ _ _ _ _ _ _ _ _ _ _ Wr).
Qed.
(** A timestep and the window of the event. *)
Lemma step_event i rs av : reads tiny secs k x ids stations read (fst (W i)) (snd (W i)) -> made lowpass taper tiny secs k transform l r0 r1 stations starttime timestep pre post read i rs av -> Z.of_nat (length rs) = timestep / D ->
  (compute lowpass taper tiny secs k transform l r0 r1 pre' post' d' = Raise DataAvailabilityException /\ rs = repeat (mk_row 0 0 0 0 0)%R (Z.to_nat (timestep / D)))
  \/ exists t rows' av', compute lowpass taper tiny secs k transform l r0 r1 pre' post' d' = Ret (t, rows', av') /\ Z.of_nat (length rows') = 4 * (mw / D) + 1
     /\ forall j j', 0 <= j < timestep / D -> 0 <= j' < 4 * (mw / D) + 1 -> starttime + timestep * i + j * D = trig - 2 * mw + j' * D -> exists row, rd rs j = Some row /\ rd rows' j' = Some row.
Proof.
  intros (d & Er & Es & Ee & Est & Rc & Lv) Mk Lr. unfold step_window in Es, Ee. cbn [fst snd o_clock delta] in Es, Ee.
  unfold made in Mk. rewrite Er in Mk. destruct Mk as [(e & N)|(d0 & N & Mk)]; [discriminate|]. assert (d0 = d) by congruence. subst d0. clear N.
  pose proof St as [T1 T2 T3 T4 T5 T6 T7 T8].
  destruct (scan_window lowpass taper tiny secs k transform ucf l tab x ids stations starttime timestep pre post i d S T4 Es Ee Est Rc) as (Wr & Nw & Nt). destruct (event_window_ready lowpass taper tiny secs k l tab x ids stations mw pre' post' trig d' S' T4 Gt Ds De Dst Rc') as (Wr' & Nw' & Nt').
  assert (Cm : comparable lowpass taper tiny secs k l tab (IZR (o_rate k)) x ids m reach (time2sample c pre) (time2sample c post) (time2sample c pre') (time2sample c post') d d').
  { constructor; try assumption; [congruence|rewrite Est; exact T8|rewrite Nt; exact Cl|rewrite Nt'; exact Cl']. }
  destruct (compute_two lowpass taper tiny secs k transform l r0 r1 tab x ids m reach pre post pre' post' d d' Cm) as [(E & E')|(rows & rows' & av0 & av' & E & E' & L & L' & _ & Hr)].
  - left. split; [exact E'|]. rewrite E in Mk. destruct Mk as [(_ & -> & _)|(av1 & N & _)]; [reflexivity|discriminate].
  - right. exists (d_start d' + pre'), rows', av'. split; [exact E'|]. split; [lia|]. rewrite E in Mk. destruct Mk as [(N & _)|(av1 & Q & _)]; [discriminate|]. assert (rs = rows) by congruence. subst rs.
    rewrite Nw, Nw' in Hr. intros j j' Hj Hj' Et. apply Hr; try assumption.
    destruct (sr_multiples lowpass taper tiny secs k transform ucf l tab stations starttime timestep pre post S) as (pa & _ & q & Ea & _ & Em & _ & _ & _ & Ta & _ & _). destruct (LocateRun_Proofs.lr_multiples lowpass taper tiny secs k l tab stations mw pre' post' S') as (pa' & _ & q' & Ea' & _ & Em' & _ & _ & _ & Ta' & _).
    destruct (sr_delta lowpass taper tiny secs k transform ucf l tab stations starttime timestep pre post S) as (Dp & _). destruct (sr_start _ _ _ _ _ _ _ _ _ _ _ _ _ _ S) as [y Hy]. destruct Gt as [g Hg].
    rewrite Ta, Ta', Es, Ds, Ea, Ea', Hy, Hg. rewrite Em, Hy, Em', Hg in Et. rewrite Em, Em'. replace (y * D + q * D * i - pa * D) with ((y + q * i - pa) * D) by ring. replace (g * D - 2 * (q' * D) - pa' * D) with ((g - 2 * q' - pa') * D) by ring. rewrite !Z.div_mul by lia.
    assert (y + q * i + j = g - 2 * q' + j'); [|lia]. apply (Z.mul_reg_r _ _ D); [lia|]. lia.
Qed.

Hypothesis Rd : forall i, 0 <= i < n -> reads tiny secs k x ids stations read (fst (W i)) (snd (W i)).
Hypothesis Hn : 0 < n.
Hypothesis Lo : starttime <= trig - 2 * mw.
Hypothesis Hi : trig + 2 * mw < starttime + timestep * n.
(** The timestep and the sample of a time. *)
Lemma step_of t : (D | t) -> trig - 2 * mw <= t <= trig + 2 * mw -> exists i j j', 0 <= i < n /\ 0 <= j < timestep / D /\ 0 <= j' < 4 * (mw / D) + 1 /\ t = starttime + timestep * i + j * D /\ t = trig - 2 * mw + j' * D.
Proof.
  intros Gu Hu. destruct (sr_multiples lowpass taper tiny secs k transform ucf l tab stations starttime timestep pre post S) as (_ & _ & q & _ & _ & Em & _ & _ & Hq & _). destruct (LocateRun_Proofs.lr_multiples lowpass taper tiny secs k l tab stations mw pre' post' S') as (_ & _ & q' & _ & _ & Em' & _ & _ & Hq' & _).
  destruct (sr_delta lowpass taper tiny secs k transform ucf l tab stations starttime timestep pre post S) as (Dp & _). destruct (sr_start _ _ _ _ _ _ _ _ _ _ _ _ _ _ S) as [y Hy]. destruct Gt as [g Hg]. destruct Gu as [u Eu].
  assert (Tq : timestep / D = q) by (rewrite Em; apply Z.div_mul; lia). assert (Mq : mw / D = q') by (rewrite Em'; apply Z.div_mul; lia). rewrite Tq, Mq. rewrite Em', Hg, Hy in Lo, Hi. rewrite Em in Hi. rewrite Em', Hg, Eu in Hu.
  assert (A1 : y <= g - 2 * q') by (apply (Zmult_le_reg_r _ _ D); lia). assert (A2 : g + 2 * q' < y + q * n) by (apply (Z.mul_lt_mono_pos_r D); lia).
  assert (A3 : g - 2 * q' <= u) by (apply (Zmult_le_reg_r _ _ D); lia). assert (A4 : u <= g + 2 * q') by (apply (Zmult_le_reg_r _ _ D); lia).
  pose proof (Z.div_mod (u - y) q ltac:(lia)) as Dm. pose proof (Z.mod_pos_bound (u - y) q ltac:(lia)) as Bm. set (i := (u - y) / q) in *. set (j := (u - y) mod q) in *.
  exists i, j, (u - g + 2 * q'). split; [unfold i; split; [apply Z.div_pos; lia|apply Z.div_lt_upper_bound; lia]|]. split; [exact Bm|]. split; [lia|]. split.
  - rewrite Eu, Hy, Em. replace (y * D + q * D * i + j * D) with ((y + (q * i + j)) * D) by ring. rewrite <- Dm. f_equal. ring.
  - rewrite Eu, Hg, Em'. ring.
Qed.
Lemma both_stages cw fs afs : exists f a, continuous_compute lowpass taper tiny secs k transform ucf l r0 r1 cw read stations fs afs starttime timestep n = Ret (f, a)
  /\ ((event_compute lowpass taper tiny secs k transform l r0 r1 pre' post' mw d' trig = Raise DataAvailabilityException
       /\ forall t, (D | t) -> trig - 2 * mw <= t <= trig + 2 * mw -> stored c f t (mk_row 0 0 0 0 0))
     \/ exists ev row, event_compute lowpass taper tiny secs k transform l r0 r1 pre' post' mw d' trig = Ret ev
        /\ (forall t, (D | t) -> trig - 2 * mw <= t <= trig + 2 * mw -> exists z, encode_row ucf (row t) = Some z /\ stored c f t z)
        /\ Forall2 (fun t e => same_sample t (row t) e) (mw_times c trig mw) (e_rows ev)
        /\ first_best D (trig - 2 * mw) (trig + 2 * mw) (fun t => coa (row t)) (e_otime ev)
        /\ max_coalescence ev = Ret (e_otime ev, coa (row (e_otime ev)), coa_n (row (e_otime ev)))).
Proof.
  destruct (LocateRun_Proofs.lr_multiples lowpass taper tiny secs k l tab stations mw pre' post' S') as (_ & _ & q' & _ & _ & Em' & _ & _ & Hq' & _). destruct (sr_delta lowpass taper tiny secs k transform ucf l tab stations starttime timestep pre post S) as (Dp & _).
  assert (Mq : mw / D = q') by (rewrite Em'; apply Z.div_mul; lia). assert (Mp : 0 < mw) by (rewrite Em'; apply Z.mul_pos_pos; lia).
  destruct (scan_stored lowpass taper tiny secs k transform ucf l r0 r1 tab stations starttime timestep pre post cw read fs afs n S Hn) as (f & a & E & Hst). { intros i Bi. apply step_answers, Rd, Bi. }
  cbn [o_clock delta] in Hst. exists f, a. split; [exact E|]. destruct (step_of trig Gt ltac:(lia)) as (i0 & _ & _ & Bi0 & _).
  destruct (Hst i0 Bi0) as (rs0 & av0 & Mk0 & L0 & _). destruct (step_event i0 rs0 av0 (Rd i0 Bi0) Mk0 L0) as [(Ec & _)|(t' & rows' & av' & Ec & L' & _)].
  - left. split.
    + destruct (LocateRun_Proofs.event_ok lowpass taper tiny secs k transform l r0 r1 tab stations mw pre' post' S' trig d' Gt Ds De Dst) as [(_ & Q)|(r & tt & ev & s0 & q0 & H)].
      * destruct (event_window_ready lowpass taper tiny secs k l tab x ids stations mw pre' post' trig d' S' (st_dots _ _ _ _ _ _ _ _ St) Gt Ds De Dst Rc') as (Wr' & _). exact (wr_data _ _ _ _ _ _ _ _ _ _ _ Wr').
      * exact Q.
      * exfalso. cbv zeta in H. destruct H as (_ & _ & Q & _). exact (event_without _ _ _ _ _ _ _ _ _ _ _ mw _ trig _ Ec ev Q).
    + intros t Gu Hu. destruct (step_of t Gu Hu) as (i & j & _ & Bi & Bj & _ & Et & _). destruct (Hst i Bi) as (rs & av & Mk & Lr & Hs). destruct (step_event i rs av (Rd i Bi) Mk Lr) as [(_ & Ers)|(t1 & rows1 & av1 & N & _)]; [|congruence].
      destruct (Hs j (mk_row 0 0 0 0 0)%R) as (z & Ez & Sz); [rewrite Ers; apply rd_repeat; lia|]. rewrite <- Et in Sz.
      assert (z = mk_row 0 0 0 0 0); [|subst z; exact Sz]. assert (E0 : encode_row ucf (mk_row 0 0 0 0 0)%R = Some (mk_row 0 0 0 0 0)); [|congruence].
      unfold encode_row, clip_coa, data2int. cbn [coa coa_n px py pz]. destruct (Rlt_dec 21474 0); [lra|]. rewrite !Rmult_0_l. assert (Z0 : np_round 0 = 0) by (change 0%R with (IZR 0); apply ScanMseed_Proofs.np_round_IZR). rewrite Z0. reflexivity.
  - right. destruct (event_from_compute lowpass taper tiny secs k transform l r0 r1 pre' post' mw d' trig _ _ _ Ec) as (slices & Ee).
    assert (Lm : Z.of_nat (length (mw_times c trig mw)) = 4 * (mw / D) + 1). { unfold mw_times. rewrite map_length, zrange_length. cbn [o_clock delta]. rewrite Em'. replace (4 * (q' * D)) with (4 * q' * D) by ring. rewrite !Z.div_mul by lia. lia. }
    destruct (Locate_Props.C38_origin_is_peak _ c trig mw (map coa rows') (map coa_n rows') (map (fun r => (px r, py r, pz r)) rows') slices Dp ltac:(lia)) as (ev & p & E1 & Hfl & Ho & Hmc & D1 & D2 & D3 & D4 & _); try (rewrite map_length; lia).
    set (row := fun t => match rd rows' ((t - (trig - 2 * mw)) / D) with Some r => r | None => mk_row 0 0 0 0 0 end%R).
    assert (Rw : forall j, 0 <= j < 4 * (mw / D) + 1 -> rd rows' j = Some (row (trig - 2 * mw + j * D))).
    { intros j Bj. unfold row. replace (trig - 2 * mw + j * D - (trig - 2 * mw)) with (j * D) by ring. rewrite Z.div_mul by lia. destruct (rd_in_range _ rows' j ltac:(lia)) as (r & ->). reflexivity. }
    exists ev, row. split; [rewrite Ee; exact E1|]. cbn [o_clock delta] in Ho. assert (Fl := Hfl). destruct Hfl as (v & Hv & Hmax & Hfirst). pose proof (rd_bounds _ _ _ _ Hv) as Bp. rewrite map_length, L' in Bp. rewrite rd_map, (Rw p Bp) in Hv. cbn [option_map] in Hv. rewrite <- Ho in Hv.
    split; [|split; [|split]].
    + intros t Gu Hu. destruct (step_of t Gu Hu) as (i & j & j' & Bi & Bj & Bj' & Et & Et'). destruct (Hst i Bi) as (rs & av & Mk & Lr & Hs). destruct (step_event i rs av (Rd i Bi) Mk Lr) as [(N & _)|(t1 & rows1 & av1 & Q & _ & Hr)]; [congruence|].
      assert (rows1 = rows') by congruence. subst rows1. destruct (Hr j j' Bj Bj') as (r & R1 & R2); [lia|]. rewrite (Rw j' Bj'), <- Et' in R2. assert (r = row t) by congruence. subst r. destruct (Hs j _ R1) as (z & Ez & Sz). exists z. split; [exact Ez|]. rewrite Et. exact Sz.
    + assert (Le : Z.of_nat (length (e_rows ev)) = 4 * (mw / D) + 1) by (rewrite <- Lm, <- D1, map_length; reflexivity).
      apply forall2_of_rd; [lia|]. intros j t e Rt Re. pose proof (rd_bounds _ _ _ _ Re) as Bj. rewrite Le in Bj.
      assert (Et : t = trig - 2 * mw + j * D). { unfold mw_times in Rt. rewrite rd_map in Rt. rewrite rd_zrange in Rt by (cbn [o_clock delta]; rewrite Em'; replace (4 * (q' * D)) with (4 * q' * D) by ring; rewrite Z.div_mul by lia; lia). cbn [option_map o_clock delta] in Rt. congruence. }
      pose proof (f_equal (fun l => rd l j) D1) as Q1. pose proof (f_equal (fun l => rd l j) D2) as Q2. pose proof (f_equal (fun l => rd l j) D3) as Q3. pose proof (f_equal (fun l => rd l j) D4) as Q4. cbv beta in Q1, Q2, Q3, Q4.
      rewrite rd_map, Re, Rt in Q1. rewrite !rd_map, Re, (Rw j Bj), <- Et in Q2. rewrite !rd_map, Re, (Rw j Bj), <- Et in Q3. rewrite !rd_map, Re, (Rw j Bj), <- Et in Q4. cbn [option_map] in *. unfold same_sample. destruct e as [e1 e2 e3 e4]. cbn [r_dt r_coa r_norm r_xyz] in *. congruence.
    + split; [|split].
      * rewrite Ho. rewrite Mq in Bp. rewrite Em'. nia.
      * rewrite Ho. destruct Gt as [g Hg]. rewrite Hg, Em'. exists (g - 2 * q' + p). ring.
      * intros u Hu Gu. destruct (step_of u Gu Hu) as (_ & _ & j' & _ & _ & Bj' & _ & Eu). assert (Ru : rd (map coa rows') j' = Some (coa (row u))) by (rewrite rd_map, (Rw j' Bj'), <- Eu; reflexivity).
        assert (Ev : v = coa (row (e_otime ev))) by congruence. rewrite <- Ev. split; [exact (Hmax j' _ Ru)|]. intros Hlt. apply (Hfirst j' _); [|exact Ru]. rewrite Ho, Eu in Hlt. apply (Z.mul_lt_mono_pos_r D); lia.
    + rewrite Hmc. unfold value. rewrite !rd_map, (Rw p Bp). cbn [option_map]. rewrite <- Ho. reflexivity.
Qed.
End Both.

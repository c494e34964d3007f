(** C128: the coalescence at a time does not depend on the window it was computed in; a scan does not depend on its timestep. *)
From Coq Require Import String Ascii.
From Coq Require Import List ZArith Reals QArith Bool Lia Lra.
From Verif Require Import Lib LibFacts PyDict Timeline_Model Timeline_Spec ScanMseed_Model ScanMseed_Spec Migrate_Spec Lut_Spec Locate_Spec Resample_Spec StaLta_Spec StaLta_Proofs Onset_Model Onset_Spec StationSet_Spec DetectRun_Model DetectRun_Spec DetectRun_Proofs Window_Spec Window_Proofs.
From Verif Require StationSet_Proofs Onset_Proofs Avail_Model Avail_Spec Migrate_Model Lut_Model ScanMseed_Proofs ScanMseed_Props Pipeline_Model Pipeline_Proofs Onset_Props Compute_Props Lut_Props Timeline_Proofs DetectRun_Props.
Import ListNotations.
Open Scope Z_scope.

(** Partial: in two windows of the same continuous records, both clear of the ends ([comparable]: no gaps, the Python backend, processing that settles within [m] samples). Either neither window has an onset function, or the 4-D coalescence
    at every node and every time that the two maps share is the same. *)
Theorem C128_coalescence_partial :
  forall lowpass taper tiny secs k r0 l tab rate x ids m reach first last first' last' d d',
  comparable lowpass taper tiny secs k l tab rate x ids m reach first last first' last' d d' ->
  let n := Lut_Model.g_count (Lut_Model.l_grid l) in let D := secs / o_rate k in
  let w := n_window secs (o_rate k) (d_start d) (d_end d) - first - last in let w' := n_window secs (o_rate k) (d_start d') (d_end d') - first' - last' in
  (compute_coalescence lowpass taper tiny secs k r0 l d rate first last = Raise DataAvailabilityException /\ compute_coalescence lowpass taper tiny secs k r0 l d' rate first' last' = Raise DataAvailabilityException)
  \/ exists mp mp', compute_coalescence lowpass taper tiny secs k r0 l d rate first last = Ret mp /\ compute_coalescence lowpass taper tiny secs k r0 l d' rate first' last' = Ret mp'
     /\ Z.of_nat (length mp) = n_nodes n * w /\ Z.of_nat (length mp') = n_nodes n * w'
     /\ forall q j j', is_node n q -> 0 <= j < w -> 0 <= j' < w' -> d_start d + (first + j) * D = d_start d' + (first' + j') * D ->
        exists v, rd mp (flat n q * w + j) = Some v /\ rd mp' (flat n q * w' + j') = Some v.
Proof.
  intros lp tp tiny secs k r0 l tab rate x ids m reach first last first' last' d d' [R1 R2 Gp Fl Nd Sts Rc Rc' Lv Lv' M0 Hm Re0 Re Cl Cl'] n D w w'.
  destruct (coalescence_two lp tp tiny secs k l tab rate x ids Nd Gp Fl m _ _ _ _ d d' R1 R2 Rc Rc' Lv Lv' Sts Hm M0 reach Re0 Re Cl Cl' r0) as [E|(mp & mp' & E & E' & L & L' & _ & _ & V)]; [left; exact E|right].
  exists mp, mp'. split; [exact E|]. split; [exact E'|]. split; [exact L|]. split; [exact L'|]. intros q j j' Hq Hj Hj' Et. apply (V q j j' Hq Hj Hj').
  pose proof (D_pos _ _ _ _ _ _ _ _ _ _ _ R1) as Dp. fold D in Dp |- *. destruct (wr_start _ _ _ _ _ _ _ _ _ _ _ R1) as [a Ha]. destruct (wr_start _ _ _ _ _ _ _ _ _ _ _ R2) as [b Hb]. fold D in Ha, Hb. rewrite Ha, Hb in *. rewrite !Z.div_mul by lia.
  assert (a + (first + j) = b + (first' + j')); [|lia]. apply (Z.mul_reg_r _ _ D); lia.
Qed.
Print Assumptions C128_coalescence_partial.

(** Partial: as above. The samples that the scan takes from two windows are the same at equal times (the maximum, its normalised value and its place), and so is the availability. *)
Theorem C128_scan_partial :
  forall lowpass taper tiny secs k transform l r0 r1 tab x ids m reach pre post pre' post' d d', let c := o_clock secs k in
  comparable lowpass taper tiny secs k l tab (IZR (o_rate k)) x ids m reach (time2sample c pre) (time2sample c post) (time2sample c pre') (time2sample c post') d d' ->
  (secs / o_rate k | pre) -> (secs / o_rate k | pre') ->
  (compute lowpass taper tiny secs k transform l r0 r1 pre post d = Raise DataAvailabilityException /\ compute lowpass taper tiny secs k transform l r0 r1 pre' post' d' = Raise DataAvailabilityException)
  \/ exists t rows av t' rows' av', compute lowpass taper tiny secs k transform l r0 r1 pre post d = Ret (t, rows, av) /\ compute lowpass taper tiny secs k transform l r0 r1 pre' post' d' = Ret (t', rows', av')
     /\ (forall s ph, In s (d_stations d) -> In ph (o_phases k) -> dget av (onset_key s ph) = dget av' (onset_key s ph))
     /\ forall u r r', In (u, r) (samples_from (delta c) t rows) -> In (u, r') (samples_from (delta c) t' rows') -> r = r'.
Proof.
  intros lp tp tiny secs k tr l r0 r1 tab x ids m reach pre post pre' post' d d' c H Gp Gp'. pose proof (cp_ready _ _ _ _ _ _ _ _ _ _ _ _ _ _ _ _ _ _ H) as R1. pose proof (cp_ready' _ _ _ _ _ _ _ _ _ _ _ _ _ _ _ _ _ _ H) as R2.
  destruct (compute_two lp tp tiny secs k tr l r0 r1 tab x ids m reach pre post pre' post' d d' H) as [E|(rows & rows' & av & av' & E & E' & L & L' & Ha & Hr)]; [left; exact E|right].
  exists (d_start d + pre), rows, av, (d_start d' + pre'), rows', av'. split; [exact E|]. split; [exact E'|]. split; [exact Ha|]. intros u r r' I I'.
  apply Pipeline_Proofs.in_samples_from in I. apply Pipeline_Proofs.in_samples_from in I'. destruct I as (j & Rj & Eu). destruct I' as (j' & Rj' & Eu'). cbn [fst snd] in *. pose proof (rd_bounds _ _ _ _ Rj) as Bj. pose proof (rd_bounds _ _ _ _ Rj') as Bj'.
  pose proof (D_pos _ _ _ _ _ _ _ _ _ _ _ R1) as Dp. destruct (wr_start _ _ _ _ _ _ _ _ _ _ _ R1) as [a Ea]. destruct (wr_start _ _ _ _ _ _ _ _ _ _ _ R2) as [b Eb]. destruct Gp as [p Ep]. destruct Gp' as [p' Ep'].
  assert (T : forall p0 z, z = p0 * (secs / o_rate k) -> time2sample c z = p0).
  { intros p0 z ->. pose proof (wr_ticks _ _ _ _ _ _ _ _ _ _ _ R1) as (T1 & T2 & T3 & T4 & T5). destruct T3 as [q Eq]. unfold c, time2sample, o_clock. cbn [sec delta]. assert (Dq : secs / o_rate k = q) by (rewrite Eq; apply Z.div_mul; lia). rewrite Dq in *.
    rewrite Eq. rewrite (Z.mul_comm q (o_rate k)), Z.div_mul by lia. replace (p0 * q * o_rate k) with (p0 * (o_rate k * q)) by ring. apply Timeline_Proofs.rnd_he_mul. nia. }
  unfold c in *. rewrite (T p pre Ep), (T p' pre' Ep') in *.
  destruct (Hr j j') as (row & Q & Q'); [lia|lia| |congruence]. rewrite Ea, Eb, !Z.div_mul by lia. cbn [o_clock delta] in Eu, Eu'.
  assert (a + p + j = b + p' + j'); [|lia]. apply (Z.mul_reg_r _ _ (secs / o_rate k)); lia.
Qed.
Print Assumptions C128_scan_partial.

Lemma encoded_rows ucf : forall (a b : list (row R)) (a' b' : list (row Z)), Forall2 (fun r z => encode_row ucf r = Some z) a a' -> Forall2 (fun r z => encode_row ucf r = Some z) b b' -> a = b -> a' = b'.
Proof. intros a b a' b' F. revert b b'. induction F as [|r z a a' E _ IH]; intros b b' G <-; inversion G; subst; [reflexivity|]. f_equal; [congruence|]. eapply IH; [eassumption|reflexivity]. Qed.
Lemma encoded_flat ucf : forall (b : list (seg (row R))) (b' : list (seg (row Z))), Forall2 (fun g g' => Pipeline_Proofs.encode_seg ucf g = Some g') b b' -> Forall2 (fun r z => encode_row ucf r = Some z) (flat_map rows b) (flat_map rows b').
Proof. induction 1 as [|g g' b b' E _ IH]; [constructor|]. cbn [flat_map]. apply Forall2_app; [|exact IH]. destruct (Pipeline_Proofs.encode_seg_facts _ _ _ E) as (_ & F). exact F. Qed.
Lemma flat_blocks starttime timestep : forall (is : list Z) (bl : list (list (row R) * list Z)), length is = length bl ->
  flat_map rows (map (fun ib => block_of starttime timestep (fst ib) (fst (snd ib))) (combine is bl)) = concat (map fst bl).
Proof. induction is as [|i is IH]; intros [|b bl] L; try discriminate; [reflexivity|]. cbn [combine map flat_map concat fst snd block_of rows]. rewrite IH by (cbn in L; lia). reflexivity. Qed.
Lemma table_same starttime timestep a : forall (is : list Z) (bl : list (list (row R) * list Z)), length is = length bl -> Forall (fun b => snd b = a) bl ->
  map (fun ib => (starttime + timestep * fst ib, snd (snd ib))) (combine is bl) = map (fun i => (starttime + timestep * i, a)) is.
Proof. induction is as [|i is IH]; intros [|b bl] L F; try discriminate; [reflexivity|]. inversion F; subst. cbn [combine map fst snd]. f_equal. apply IH; [cbn in L; lia|assumption]. Qed.

(** Partial: as above, for settings with which a scan can be made ([scan_ready]). Two scans of the same time span with different timesteps leave the same samples in every file, and all their rows of availability are the same. *)
Theorem C128_timestep_partial :
  forall lowpass taper tiny secs k transform ucf l r0 r1 tab stations x ids m reach starttime timestep pre post n timestep' pre' post' n' cw cw' read fs afs afs',
  scan_ready lowpass taper tiny secs k transform ucf l tab stations starttime timestep pre post -> scan_ready lowpass taper tiny secs k transform ucf l tab stations starttime timestep' pre' post' ->
  let c := o_clock secs k in let w i := step_window c starttime timestep pre post i in let w' i := step_window c starttime timestep' pre' post' i in
  steady secs k l tab ids stations m reach ->
  clear_of_ends secs k (m ((timestep + pre + post) / delta c)) (time2sample c pre) (time2sample c post) reach -> clear_of_ends secs k (m ((timestep' + pre' + post') / delta c)) (time2sample c pre') (time2sample c post') reach ->
  (forall i, 0 <= i < n -> reads tiny secs k x ids stations read (fst (w i)) (snd (w i))) -> (forall i, 0 <= i < n' -> reads tiny secs k x ids stations read (fst (w' i)) (snd (w' i))) ->
  0 < n -> timestep * n = timestep' * n' ->
  exists f f' a,
    continuous_compute lowpass taper tiny secs k transform ucf l r0 r1 cw read stations fs afs starttime timestep n
      = Ret (f, Avail_Model.write_availability c afs (Avail_Model.mk_atable (columns k stations) (map (fun i => (starttime + timestep * i, a)) (zrange n))))
    /\ continuous_compute lowpass taper tiny secs k transform ucf l r0 r1 cw' read stations fs afs' starttime timestep' n'
      = Ret (f', Avail_Model.write_availability c afs' (Avail_Model.mk_atable (columns k stations) (map (fun i => (starttime + timestep' * i, a)) (zrange n'))))
    /\ forall day, file_samples c (f day) = file_samples c (f' day).
Proof.
  intros lp tp tiny secs k tr ucf l r0 r1 tab stations x ids m reach starttime timestep pre post n timestep' pre' post' n' cw cw' read fs afs afs' S S' c w w' St Cl Cl' Rd Rd' Hn Hnn.
  destruct (sr_delta lp tp tiny secs k tr ucf l tab stations starttime timestep pre post S) as (Dp & Sp). destruct (sr_clock lp tp tiny secs k tr ucf l tab stations starttime timestep pre post S) as (Ck & Ir).
  destruct (sr_step _ _ _ _ _ _ _ _ _ _ _ _ _ _ S) as (Ts & _). destruct (sr_step _ _ _ _ _ _ _ _ _ _ _ _ _ _ S') as (Ts' & _). assert (Hn' : 0 < n') by nia.
  destruct (sr_whole _ _ _ _ _ _ _ _ _ _ _ _ _ _ S) as [M EM]. destruct (sr_whole _ _ _ _ _ _ _ _ _ _ _ _ _ _ S') as [M' EM']. set (D := secs / o_rate k) in *.
  assert (HM : 0 < M) by (apply Z.mul_pos_cancel_r with D; lia). assert (HM' : 0 < M') by (apply Z.mul_pos_cancel_r with D; lia). assert (TM : timestep / D = M) by (rewrite EM; apply Z.div_mul; lia). assert (TM' : timestep' / D = M') by (rewrite EM'; apply Z.div_mul; lia).
  assert (An : forall ts p1 p2 i, scan_ready lp tp tiny secs k tr ucf l tab stations starttime ts p1 p2 -> let v := step_window c starttime ts p1 p2 i in reads tiny secs k x ids stations read (fst v) (snd v) -> answers secs k stations (fst v) (snd v) (read (fst v) (snd v))).
  { intros ts p1 p2 i Sr v (d & Er & Es & Ee & Est & Rc & _). right. exists d. split; [exact Er|]. split; [exact Es|]. split; [exact Ee|]. split; [exact Est|]. rewrite <- Es, <- Ee. unfold v, step_window, c in Es, Ee. cbn [fst snd o_clock delta] in Es, Ee.
    destruct (scan_window lp tp tiny secs k tr ucf l tab x ids stations starttime ts p1 p2 i d Sr (st_dots _ _ _ _ _ _ _ _ St) Es Ee Est Rc) as (Wr & _). exact (wr_data _ _ _ _ _ _ _ _ _ _ _ Wr). }
  destruct (steps_full lp tp tiny secs k tr ucf l r0 r1 tab stations starttime timestep pre post S read (zrange n)) as (bl & F). { intros i Hi. apply in_zrange in Hi. apply (An timestep pre post i S). apply Rd, Hi. }
  destruct (steps_full lp tp tiny secs k tr ucf l r0 r1 tab stations starttime timestep' pre' post' S' read (zrange n')) as (bl' & F'). { intros i Hi. apply in_zrange in Hi. apply (An timestep' pre' post' i S'). apply Rd', Hi. }
  assert (Lb : Z.of_nat (length bl) = n). { clear - F Hn. assert (length bl = length (zrange n)) by (induction F; cbn [length]; congruence). rewrite H, zrange_length. lia. }
  assert (Lb' : Z.of_nat (length bl') = n'). { clear - F' Hn'. assert (length bl' = length (zrange n')) by (induction F'; cbn [length]; congruence). rewrite H, zrange_length. lia. }
  assert (Two : forall i i' b b', rd bl i = Some b -> rd bl' i' = Some b' -> snd b = snd b' /\ forall j j', 0 <= j < M -> 0 <= j' < M' -> M * i + j = M' * i' + j' -> rd (fst b) j = rd (fst b') j').
  { intros i i' b b' Rb Rb'. pose proof (rd_bounds _ _ _ _ Rb) as Bi. pose proof (rd_bounds _ _ _ _ Rb') as Bi'. rewrite Lb in Bi. rewrite Lb' in Bi'.
    assert (Zi : rd (zrange n) i = Some i) by (apply rd_zrange; lia). assert (Zi' : rd (zrange n') i' = Some i') by (apply rd_zrange; lia).
    destruct (DetectRun_Props.forall2_rd _ _ _ F i i Zi) as (b0 & Q & (Mk & _)). assert (b0 = b) by congruence. subst b0. destruct (DetectRun_Props.forall2_rd _ _ _ F' i' i' Zi') as (b0 & Q' & (Mk' & _)). assert (b0 = b') by congruence. subst b0.
    destruct (steps_two lp tp tiny secs k tr ucf l r0 r1 tab stations x ids m reach starttime timestep pre post timestep' pre' post' read S S' St Cl Cl' i i' (fst b) (snd b) (fst b') (snd b') (Rd i Bi) (Rd' i' Bi') Mk Mk') as (Ea & Er).
    split; [exact Ea|]. intros j j' Hj Hj' Et. fold D in Er. rewrite TM, TM' in Er. apply Er; try assumption. rewrite EM, EM'. replace (M * D * i + j * D) with ((M * i + j) * D) by ring. rewrite Et. ring. }
  assert (Fl : Forall (fun b => Z.of_nat (length b) = M) (map fst bl)). { clear - F TM. fold D in F. induction F as [|? ? ? ? H _ IH]; constructor; [rewrite <- TM; tauto|exact IH]. }
  assert (Fl' : Forall (fun b => Z.of_nat (length b) = M') (map fst bl')). { clear - F' TM'. fold D in F'. induction F' as [|? ? ? ? H _ IH]; constructor; [rewrite <- TM'; tauto|exact IH]. }
  assert (Flat : concat (map fst bl) = concat (map fst bl')).
  { pose proof (concat_len M _ Fl) as C1. pose proof (concat_len M' _ Fl') as C2. rewrite map_length, Lb in C1. rewrite map_length, Lb' in C2. assert (Eq : n * M = n' * M') by (apply (Z.mul_reg_r _ _ D); [lia|]; rewrite <- !Z.mul_assoc, <- EM, <- EM'; lia).
    apply rd_ext_opt. intros u. destruct (Z_lt_dec u 0) as [C|C]; [rewrite !rd_none by (left; exact C); reflexivity|]. destruct (Z_lt_dec u (n * M)) as [C'|C']; [|rewrite !rd_none by (right; lia); reflexivity].
    pose proof (Z.div_mod u M ltac:(lia)) as U. pose proof (Z.mod_pos_bound u M ltac:(lia)) as U1. pose proof (Z.div_mod u M' ltac:(lia)) as V. pose proof (Z.mod_pos_bound u M' ltac:(lia)) as V1.
    assert (B : 0 <= u / M < n) by (split; [apply Z.div_pos|apply Z.div_lt_upper_bound]; lia). assert (B' : 0 <= u / M' < n') by (split; [apply Z.div_pos|apply Z.div_lt_upper_bound]; lia).
    assert (X : rd (concat (map fst bl)) u = match rd (map fst bl) (u / M) with Some b => rd b (u mod M) | None => None end) by (rewrite <- (rd_concat M HM _ Fl) by lia; f_equal; lia).
    assert (Y : rd (concat (map fst bl')) u = match rd (map fst bl') (u / M') with Some b => rd b (u mod M') | None => None end) by (rewrite <- (rd_concat M' HM' _ Fl') by lia; f_equal; lia).
    rewrite X, Y, !rd_map.
    destruct (rd_in_range _ bl (u / M) ltac:(lia)) as (b & Rb). destruct (rd_in_range _ bl' (u / M') ltac:(lia)) as (b' & Rb'). rewrite Rb, Rb'. cbn [option_map]. apply (Two _ _ _ _ Rb Rb'); lia. }
  destruct (rd_in_range _ bl' 0 ltac:(lia)) as (b0 & Rb0). destruct (rd_in_range _ bl 0 ltac:(lia)) as (b1 & Rb1).
  assert (Av : Forall (fun b => snd b = snd b0) bl) by (apply Forall_forall; intros b Ib; apply in_rd in Ib; destruct Ib as (i & Ri); exact (proj1 (Two _ _ _ _ Ri Rb0))).
  assert (Av' : Forall (fun b => snd b = snd b0) bl') by (apply Forall_forall; intros b Ib; apply in_rd in Ib; destruct Ib as (i & Ri); rewrite <- (proj1 (Two _ _ _ _ Rb1 Ri)); exact (proj1 (Two _ _ _ _ Rb1 Rb0))).
  assert (Ez : zrange n = zseq 0 (length bl)) by (unfold zrange; f_equal; lia). assert (Ez' : zrange n' = zseq 0 (length bl')) by (unfold zrange; f_equal; lia). rewrite Ez in F. rewrite Ez' in F'.
  destruct (run_ok lp tp tiny secs k tr ucf l r0 r1 tab stations starttime timestep pre post S read cw fs afs 0 bl) as (C0 & f & S0 & E0); [intros ->; cbn in Lb; lia|clear - F; induction F as [|? ? ? ? H _ IH]; constructor; tauto|].
  destruct (run_ok lp tp tiny secs k tr ucf l r0 r1 tab stations starttime timestep' pre' post' S' read cw' fs afs' 0 bl') as (C0' & f' & S0' & E0'); [intros ->; cbn in Lb'; lia|clear - F'; induction F' as [|? ? ? ? H _ IH]; constructor; tauto|].
  exists f, f', (snd b0). split; [|split].
  - unfold continuous_compute, d_clock. rewrite (sr_pads _ _ _ _ _ _ _ _ _ _ _ _ _ _ S). cbn [fst snd]. rewrite Ez, E0. rewrite (table_same starttime timestep (snd b0)) by (rewrite ?DetectRun_Props.zseq_len; auto). reflexivity.
  - unfold continuous_compute, d_clock. rewrite (sr_pads _ _ _ _ _ _ _ _ _ _ _ _ _ _ S'). cbn [fst snd]. rewrite Ez', E0'. rewrite (table_same starttime timestep' (snd b0)) by (rewrite ?DetectRun_Props.zseq_len; auto). reflexivity.
  - destruct (Pipeline_Proofs.store_run_encoded _ _ _ _ _ _ S0) as (k0 & K0 & R0). destruct (Pipeline_Proofs.store_run_encoded _ _ _ _ _ _ S0') as (k0' & K0' & R0').
    rewrite Z.mul_0_r, Z.add_0_r in C0, C0'. pose proof (Pipeline_Proofs.consecutive_encoded _ ucf _ _ _ K0 C0) as D0. pose proof (Pipeline_Proofs.consecutive_encoded _ ucf _ _ _ K0' C0') as D0'. fold c in D0, D0', R0, R0'.
    assert (Er : run_samples c k0 = run_samples c k0').
    { rewrite (ScanMseed_Proofs.run_samples_eq c k0 starttime D0), (ScanMseed_Proofs.run_samples_eq c k0' starttime D0'). f_equal. eapply encoded_rows; [apply encoded_flat, K0|apply encoded_flat, K0'|]. rewrite !flat_blocks by (rewrite DetectRun_Props.zseq_len; reflexivity). exact Flat. }
    assert (N0 : k0 <> []) by (intros ->; inversion K0 as [N|]; destruct bl; [cbn in Lb; lia|discriminate]). assert (N0' : k0' <> []) by (intros ->; inversion K0' as [N|]; destruct bl'; [cbn in Lb'; lia|discriminate]).
    assert (Grid : (delta c | 86400 * sec c)) by (apply Z.divide_mul_r; exact Ir). assert (Gs : (delta c | starttime)) by exact (sr_start _ _ _ _ _ _ _ _ _ _ _ _ _ _ S).
    destruct (ScanMseed_Props.C23_each_sample_in_the_file_of_its_date c fs starttime k0 Sp Dp Grid Gs N0 D0) as (g1 & g2 & P1 & P2 & P3). destruct (ScanMseed_Props.C23_each_sample_in_the_file_of_its_date c fs starttime k0' Sp Dp Grid Gs N0' D0') as (h1 & h2 & Q1 & Q2 & Q3).
    intros day. assert (W0 : f day = g1 day) by (destruct cw; [destruct (P3 day) as (-> & _)|]; congruence). assert (W0' : f' day = h1 day) by (destruct cw'; [destruct (Q3 day) as (-> & _)|]; congruence). rewrite W0, W0'.
    destruct (P3 day) as (_ & A1 & A2). destruct (Q3 day) as (_ & B1 & B2). rewrite <- Er in B1, B2. destruct (on_date c day (run_samples c k0)) as [|z zs] eqn:Eo; [rewrite (A2 eq_refl), (B2 eq_refl); reflexivity|]. rewrite A1, B1 by discriminate. reflexivity.
Qed.
Print Assumptions C128_timestep_partial.

Lemma pair_in {A} : forall (d : dict A) key v, dget d key = Some v -> In (key, v) d.
Proof. induction d as [|(a, x) d IH]; intros key v H; cbn in H; [discriminate|]. destruct (String.eqb_spec a key) as [->|N]; [left; congruence|right; apply IH, H]. Qed.
(** The pads of the code are wide enough: they keep the windows of the onset functions off the 5 % cosine taper (stalta.py:206) at both ends, for every timestep. *)
Theorem C128_pads_keep_off_the_taper :
  forall lowpass taper tiny secs k transform ucf l tab stations starttime timestep pre post ttmax reach, let c := o_clock secs k in let windows := map (fun kv => (ph_sta (snd kv), ph_lta (snd kv))) (o_cfg k) in
  scan_ready lowpass taper tiny secs k transform ucf l tab stations starttime timestep pre post -> 3 <= o_rate k -> Forall (fun w => 0 <= fst w /\ 0 <= snd w) windows ->
  o_post k = stalta_post_pad c windows ttmax -> 0 <= reach -> reach * delta c <= ttmax ->
  clear_of_ends secs k (Timeline_Model.taper_samples ((timestep + pre + post) / delta c)) (time2sample c pre) (time2sample c post) reach.
Proof.
  intros lp tp tiny secs k tr ucf l tab stations starttime timestep pre post ttmax reach c windows S Hr Hw Ho Re0 Re ph pc Ip Ec.
  destruct (sr_delta lp tp tiny secs k tr ucf l tab stations starttime timestep pre post S) as (Dp & Sp). destruct (sr_clock lp tp tiny secs k tr ucf l tab stations starttime timestep pre post S) as (Ck & Ir).
  destruct (sr_multiples lp tp tiny secs k tr ucf l tab stations starttime timestep pre post S) as (a & b & m & Ea & Eb & Em & Ha & Hb & Hm & Ta & Tb & _). fold c. fold c in Ta, Tb, Ck, Ir. change (delta c) with (secs / o_rate k) in *. set (D := secs / o_rate k) in *.
  pose proof (sr_ms _ _ _ _ _ _ _ _ _ _ _ _ _ _ S) as Ms. pose proof (sr_pads _ _ _ _ _ _ _ _ _ _ _ _ _ _ S) as Ep. pose proof (sr_pre0 _ _ _ _ _ _ _ _ _ _ _ _ _ _ S) as P0. pose proof (sr_post0 _ _ _ _ _ _ _ _ _ _ _ _ _ _ S) as Q0. fold windows in Ep, P0. fold c in Ep, Ms. destruct (sr_step _ _ _ _ _ _ _ _ _ _ _ _ _ _ S) as (Ts & _).
  destruct (sr_phases _ _ _ _ _ _ _ _ _ _ _ _ _ _ S ph Ip) as (pc' & Ec' & (Hn & _) & _). assert (pc' = pc) by congruence. subst pc'. fold c in Hn.
  assert (Iw : In (ph_sta pc, ph_lta pc) windows) by (apply in_map_iff; exists (ph, pc); split; [reflexivity|]; exact (pair_in _ _ _ Ec)).
  destruct (Timeline_Proofs.windows_facts windows _ _ Iw Hw) as (W1 & W2 & W3 & W4). destruct (Timeline_Proofs.windows_nonneg windows Hw) as (W5 & W6). pose proof (Timeline_Proofs.stalta_post_ge c Ck windows ttmax) as Pq. rewrite <- Ho in Pq.
  unfold stalta_pre_pad in *. set (P := zmax (map snd windows) + 3 * zmax (map fst windows)) in *. set (Q := o_post k) in *. unfold onset_pad in Ep. cbv zeta in Ep. change (sec c) with secs in Ep.
  set (T := cdiv ((timestep + (P + Q)) * 6) (100 * secs) * secs) in *. assert (HT : 6 * (timestep + P + Q) <= 100 * T /\ secs <= T).
  { pose proof (Timeline_Proofs.cdiv_spec ((timestep + (P + Q)) * 6) (100 * secs) ltac:(lia)) as C1. pose proof (Timeline_Proofs.cdiv_pos ((timestep + (P + Q)) * 6) (100 * secs) ltac:(lia) ltac:(lia)) as C2. unfold T. split; [lia|]. assert (1 * secs <= cdiv ((timestep + (P + Q)) * 6) (100 * secs) * secs) by (apply Z.mul_le_mono_nonneg_r; lia). lia. }
  injection Ep as E1 E2. rewrite (Timeline_Proofs.trim2sample_whole c Ck) in E1, E2 by (assumption || lia). change (delta c) with D in E1, E2.
  pose proof (Timeline_Proofs.cdiv_spec (P + T) D Dp) as C1. pose proof (Timeline_Proofs.cdiv_spec (Q + T) D Dp) as C2. rewrite E1 in C1. rewrite E2 in C2. clearbody T. clear E1 E2.
  assert (Nw : (timestep + pre + post) / D = a + m + b) by (rewrite Ea, Eb, Em; replace (m * D + a * D + b * D) with ((a + m + b) * D) by ring; apply Z.div_mul; lia). rewrite Nw, Ta, Tb. unfold Timeline_Model.taper_samples. set (v := Z.min _ _).
  assert (V : 20 * v <= a + m + b) by (pose proof (Z.mul_div_le ((a + m + b) * 5) 100 ltac:(lia)); unfold v; lia).
  assert (DR : 3 * D <= secs) by (destruct (sr_ticks _ _ _ _ _ _ _ _ _ _ _ _ _ _ S) as (_ & _ & (q & Eq) & _); unfold D; rewrite Eq, Z.div_mul by lia; assert (0 < q) by (apply Z.mul_pos_cancel_r with (o_rate k); lia); rewrite (Z.mul_comm 3); apply Z.mul_le_mono_nonneg_l; lia).
  assert (VD : 20 * (v * D) <= timestep + pre + post) by (rewrite Ea, Eb, Em; replace (m * D + a * D + b * D) with ((a + m + b) * D) by ring; rewrite Z.mul_assoc; apply Z.mul_le_mono_nonneg_r; lia).
  assert (V1 : v * D <= T) by lia.
  assert (Rn : forall t N, t <= N * D -> time2sample c t <= N). { intros t N Ht. rewrite (Timeline_Proofs.time2sample_rate c Ck t Ir). change (delta c) with D. rewrite <- (Timeline_Proofs.rnd_he_mul N D Dp). apply Timeline_Proofs.rnd_he_mono; [exact Dp|exact Ht]. }
  unfold stw_samples, ltw_samples in *. split.
  - assert (time2sample c (ph_lta pc) <= a - v); [|lia]. apply Rn. rewrite Z.mul_sub_distr_r, <- Ea. lia.
  - assert (Rl : 2 * (time2sample c (ph_lta pc) * D) <= 2 * ph_lta pc + D) by (rewrite (Timeline_Proofs.time2sample_rate c Ck _ Ir); change (delta c) with D; pose proof (Timeline_Proofs.rnd_he_nearest (ph_lta pc) D Dp) as N; unfold Timeline_Spec.nearest in N; lia).
    assert (G : (time2sample c (ph_sta pc) + 1) * D <= 2 * ph_lta pc).
    { set (s := time2sample c (ph_sta pc)) in *. set (t := time2sample c (ph_lta pc)) in *. assert (0 <= s) by lia. assert ((s + 1) * D <= t * D) by (apply Z.mul_le_mono_nonneg_r; lia). assert (D <= (s + 1) * D) by nia. lia. }
    apply (Z.mul_le_mono_pos_r _ _ D Dp). rewrite !Z.mul_add_distr_r, <- Eb. rewrite Z.mul_add_distr_r in G. lia.
Qed.
Print Assumptions C128_pads_keep_off_the_taper.

(** ** Examples *)
(** A taper of a twentieth of the window at each end. *)
Definition ex_taper (_ : Z) (y : list R) : list R := let n := Z.of_nat (length y) in array1 n (fun i => if (i <? n / 20) || (n - n / 20 <=? i) then (9 / 10 * sample y i)%R else sample y i).
Definition ex_phase : phase_cfg := mk_phase [Archive_Model.GStar; Archive_Model.GChar "Z"%char] 1 0 2000 (2 # 1) ex_taper.
Definition ex_set : onset_cfg := mk_onset ["P"%string] [("P"%string, ex_phase)] true false true 50 false true (map (fun x => x * x)%R) (1 / 100)%R 100000.
Lemma ex_ready ts pre post : 0 < ts <= 8640000000 -> (2000 | ts) -> onset_pad (o_clock 100000 ex_set) ts 2000 100000 = (pre, post) -> 3 <= (ts + pre + post) / 2000 -> 100 <= post / 2000 -> 2 * ((ts + pre + post) / 2000) < 2147483648 ->
  scan_ready (fun _ x => x) (fun x => x) (1 / 2) 100000 ex_set (fun _ _ x => x) 1 Compute_Props.ex_lut Compute_Props.ex_tab ["A"%string; "B"%string] 360000000 ts pre post.
Proof.
  intros T1 T2 Ep L1 L2 L3. constructor; cbn [ex_set o_rate o_python o_transform o_cfg o_phases o_post o_all Compute_Props.ex_lut Lut_Model.l_grid].
  + repeat split; try lia; [exists 1|exists 2000]; reflexivity.
  + lra.
  + reflexivity.
  + reflexivity.
  + reflexivity.
  + intros x. apply map_length.
  + exists 20. reflexivity.
  + lia.
  + exact T2.
  + exists 180000. reflexivity.
  + discriminate.
  + discriminate.
  + exact Ep.
  + intros ph [<-|[]]. exists ex_phase. split; [reflexivity|]. change (100000 / 50) with 2000. split; [split; [vm_compute; split; [discriminate|reflexivity]|vm_compute (_ + _); exact L1]|]. split; [reflexivity|]. split; [|reflexivity]. intros dd x. cbn [ex_phase ph_band]. unfold ex_taper, array1. rewrite map_length, zrange_length. lia.
  + unfold grid_ok. cbn. repeat split; try lra; lia.
  + constructor; [intros []|constructor].
  + constructor; [intros [H|[]]; discriminate|]. constructor; [intros []|constructor].
  + constructor; [exact Lut_Props.plain_P|constructor].
  + constructor; [intros [H|[]]; discriminate|]. constructor; [intros [H|[]]; discriminate|constructor].
  + intros s p Is [<-|[]]. split; [|split].
    * destruct Is as [<-|[<-|[]]]; (eexists; split; [reflexivity|left; reflexivity]).
    * cbn. split; [reflexivity|]. repeat (constructor; [cbn; split; [reflexivity|repeat constructor]|]); constructor.
    * intros ((i, j), h) Hq. cbn in Hq. assert (j = 0) by lia. assert (h = 0) by lia. subst j h. assert (Hi : i = 0 \/ i = 1) by lia. change (100000 / 50) with 2000. apply IZR_le in L2.
      destruct Hi as [->| ->]; match goal with |- context [entry0 ?t ?q] => let v := eval cbv -[IZR] in (entry0 t q) in change (entry0 t q) with v end; lra.
  + cbn [length]. change (100000 / 50) with 2000. change (Z.of_nat (1 * 2)) with 2. exact L3.
  + lra.
  + intros ((i, j), h) Hq. cbn in Hq. assert (j = 0) by lia. assert (h = 0) by lia. subst j h. assert (Hi : i = 0 \/ i = 1) by lia. cbn. destruct Hi as [->| ->]; repeat split; apply Rabs_le; lra.
Qed.
Example C128_pads_example : let c := o_clock 100000 ex_set in let windows := map (fun kv => (ph_sta (snd kv), ph_lta (snd kv))) (o_cfg ex_set) in
  scan_ready (fun _ x => x) (fun x => x) (1 / 2) 100000 ex_set (fun _ _ x => x) 1 Compute_Props.ex_lut Compute_Props.ex_tab ["A"%string; "B"%string] 360000000 2000000 202000 300000
  /\ 3 <= o_rate ex_set /\ Forall (fun w => 0 <= fst w /\ 0 <= snd w) windows /\ o_post ex_set = stalta_post_pad c windows 90000 /\ 45 * delta c <= 90000.
Proof.
  split; [apply ex_ready; try (vm_compute; congruence); [lia|exists 1000; reflexivity]|]. split; [vm_compute; discriminate|]. split; [constructor; [cbn; lia|constructor]|]. split; [reflexivity|vm_compute; discriminate].
Qed.
(** A record that is 1 and 2 in turn. *)
Definition ex_x (_ : string) (j : Z) : R := if Z.even j then 1%R else 2%R.
Definition ex_reads (a b : Z) : outcome wdata := Ret (mk_wdata [Avail_Model.mk_seg "A.BHZ"%string a 2000 (cut (ex_x "A.BHZ") (a / 2000) ((b - a) / 2000 + 1))] ["A"%string; "B"%string] false None a b).
Lemma ex_lively d : 2 <= n_window 100000 50 (d_start d) (d_end d) -> lively (1 / 2) 100000 ex_set ex_x ["A.BHZ"%string] d.
Proof.
  intros Hn ph pc i [<-|[]] Ec [<-|[]] y. assert (pc = ex_phase) by (cbn in Ec; congruence). subst pc.
  set (n := n_window 100000 50 (d_start d) (d_end d)) in *. set (a := d_start d / (100000 / 50)).
  set (z := window_of 100000 ex_set ex_x d "A.BHZ"). assert (Lz : Z.of_nat (length z) = n) by (unfold z, window_of, cut, array1; rewrite map_length, zrange_length; change (o_rate ex_set) with 50; fold n; lia).
  assert (Rz : forall j, 0 <= j < n -> sample z j = ex_x "" (a + j)) by (intros j Hj; unfold z, window_of, cut, sample; rewrite rd_array1 by exact Hj; reflexivity).
  assert (Ey : y = array1 n (fun i => if (i <? n / 20) || (n - n / 20 <=? i) then (9 / 10 * sample z i)%R else sample z i)) by (rewrite <- Lz; reflexivity). clearbody y.
  assert (Ly : Z.of_nat (length y) = n) by (rewrite Ey; unfold array1; rewrite map_length, zrange_length; lia).
  assert (Ry : forall j, 0 <= j < n -> exists f, rd y j = Some (f * ex_x "" (a + j))%R /\ (9 / 10 <= f <= 1)%R). { intros j Hj. rewrite Ey, rd_array1 by exact Hj. rewrite (Rz j Hj). destruct (_ || _); [exists (9 / 10)%R|exists 1%R]; (split; [f_equal; lra|lra]). }
  assert (Sx : forall j, (ex_x "" j = 1 /\ ex_x "" (j + 1) = 2 \/ ex_x "" j = 2 /\ ex_x "" (j + 1) = 1)%R). { intros j. unfold ex_x. change (j + 1) with (Z.succ j). rewrite Z.even_succ, <- Z.negb_even. destruct (Z.even j); cbn [negb]; auto. } split.
  - intros (v & Hv). rewrite Forall_forall in Hv. destruct (Ry 0 ltac:(lia)) as (f & F1 & F2). destruct (Ry 1 ltac:(lia)) as (g & G1 & G2). pose proof (Hv _ (rd_in _ _ _ _ F1)) as V0. pose proof (Hv _ (rd_in _ _ _ _ G1)) as V1. rewrite <- V1 in V0. rewrite Z.add_0_r in V0. destruct (Sx a) as [(X1 & X2)|(X1 & X2)]; rewrite X1, X2 in V0; lra.
  - intros j Hj. change (ltw_samples _ _) with 2 in *. cbn [o_transform ex_set] in *. rewrite map_length, Ly in Hj. unfold window_mean. change (Z.to_nat 2) with 2%nat. cbn [zseq map Rsum fold_right]. replace (j - 2 + 1) with (j - 1) by lia. replace (j - 1 + 1) with j by lia.
    unfold sample. rewrite !rd_map. destruct (Ry j ltac:(lia)) as (f & -> & F2). destruct (Ry (j - 1) ltac:(lia)) as (g & -> & G2). cbn [option_map].
    assert (P : forall h w, (9 / 10 <= h -> 1 <= w -> 1 / 2 <= h * w * (h * w))%R). { intros h w Hh Hw. assert (9 / 10 <= h * w)%R by (apply Rle_trans with (h * 1)%R; [lra|apply Rmult_le_compat_l; lra]). apply Rle_trans with (9 / 10 * (9 / 10))%R; [lra|apply Rmult_le_compat; lra]. }
    assert (W : forall t, (1 <= ex_x "" t)%R) by (intros t; destruct (Sx t) as [(-> & _)|(-> & _)]; lra). pose proof (P f _ (proj1 F2) (W (a + j))). pose proof (P g _ (proj1 G2) (W (a + (j - 1)))). lra.
Qed.
(** Timesteps of one second and of twenty, with different pads. *)
Example C128_example :
  let c := o_clock 100000 ex_set in let st := ["A"%string; "B"%string] in
  scan_ready (fun _ x => x) (fun x => x) (1 / 2) 100000 ex_set (fun _ _ x => x) 1 Compute_Props.ex_lut Compute_Props.ex_tab st 360000000 100000 102000 200000
  /\ scan_ready (fun _ x => x) (fun x => x) (1 / 2) 100000 ex_set (fun _ _ x => x) 1 Compute_Props.ex_lut Compute_Props.ex_tab st 360000000 2000000 202000 300000
  /\ steady 100000 ex_set Compute_Props.ex_lut Compute_Props.ex_tab ["A.BHZ"%string] st (fun n => Z.max 0 (n / 20)) 50
  /\ clear_of_ends 100000 ex_set ((100000 + 102000 + 200000) / 2000 / 20) (time2sample c 102000) (time2sample c 200000) 50 /\ clear_of_ends 100000 ex_set ((2000000 + 202000 + 300000) / 2000 / 20) (time2sample c 202000) (time2sample c 300000) 50
  /\ (forall i, 0 <= i < 20 -> let w := step_window c 360000000 100000 102000 200000 i in reads (1 / 2) 100000 ex_set ex_x ["A.BHZ"%string] st ex_reads (fst w) (snd w))
  /\ (forall i, 0 <= i < 1 -> let w := step_window c 360000000 2000000 202000 300000 i in reads (1 / 2) 100000 ex_set ex_x ["A.BHZ"%string] st ex_reads (fst w) (snd w)).
Proof.
  intros c st. assert (Rd : forall a b, a + 2000 <= b -> reads (1 / 2) 100000 ex_set ex_x ["A.BHZ"%string] st ex_reads a b).
  { intros a b Hab. eexists. split; [reflexivity|]. cbn [d_start d_end d_stations d_waveforms]. split; [reflexivity|]. split; [reflexivity|]. split; [reflexivity|]. split; [reflexivity|]. apply ex_lively. unfold n_window. cbn [d_start d_end]. change (100000 / 50) with 2000. assert (1 <= (b - a) / 2000) by (apply Z.div_le_lower_bound; lia). lia. }
  split; [|split; [|split; [|split; [|split; [|split]]]]].
  - apply ex_ready; try (vm_compute; congruence); [lia|exists 50; reflexivity].
  - apply ex_ready; try (vm_compute; congruence); [lia|exists 1000; reflexivity].
  - constructor; try reflexivity; try lia.
    + constructor; [intros []|constructor].
    + constructor; [intros [H|[]]; discriminate|]. constructor; [intros [H|[]]; discriminate|constructor].
    + intros ph pc [<-|[]] Ec. assert (pc = ex_phase) by (cbn in Ec; congruence). subst pc. intros x a n a' n' t Ht Ht'. cbn [ex_set o_transform ex_phase ph_band].
      assert (G : forall b u, b + Z.max 0 (u / 20) <= t < b + u - Z.max 0 (u / 20) -> sample (map (fun x => x * x)%R (ex_taper (100000 / o_rate ex_set) (cut x b u))) (t - b) = (x t * x t)%R).
      { intros b u Hu. assert (Lu : Z.of_nat (length (cut x b u)) = Z.max 0 u) by apply array1_length. assert (0 <= u) by lia. rewrite Z.max_r in Lu by lia.
        assert (0 <= u / 20) by (apply Z.div_pos; lia). unfold ex_taper. cbv zeta. rewrite Lu. unfold sample at 1. rewrite rd_map, rd_array1 by lia. destruct (Z.ltb_spec (t - b) (u / 20)); [lia|]. destruct (Z.leb_spec (u - u / 20) (t - b)); [lia|]. cbn [orb option_map]. unfold sample, cut. rewrite rd_array1 by lia. replace (b + (t - b)) with t by lia. reflexivity. }
      rewrite (G a n Ht), (G a' n' Ht'). reflexivity.
    + intros s p ((i, j), h) Is [<-|[]] Hq. cbn in Hq. assert (j = 0) by lia. assert (h = 0) by lia. subst j h. assert (Hi : i = 0 \/ i = 1) by lia. cbn [ex_set o_rate]. destruct Hi as [->| ->]; match goal with |- context [entry0 ?t ?q] => let v := eval cbv -[IZR] in (entry0 t q) in change (entry0 t q) with v end; lra.
  - intros ph pc [<-|[]] Ec. assert (pc = ex_phase) by (cbn in Ec; congruence). subst pc. vm_compute. split; discriminate.
  - intros ph pc [<-|[]] Ec. assert (pc = ex_phase) by (cbn in Ec; congruence). subst pc. vm_compute. split; discriminate.
  - intros i Hi w. apply Rd. unfold w, step_window. cbn [fst snd]. change (delta c) with 2000. lia.
  - intros i Hi w. apply Rd. unfold w, step_window. cbn [fst snd]. change (delta c) with 2000. lia.
Qed.

(** Removing the mean of the window, as the detrending of the real code does (stalta.py:202-209), is not a step that settles. *)
Definition demean (_ : Z) (y : list R) : list R := map (fun v => v - arithmetic_mean y)%R y.
Definition rf_phase : phase_cfg := mk_phase [Archive_Model.GStar; Archive_Model.GChar "Z"%char] 1 0 2000 (2 # 1) demean.
Definition rf_set : onset_cfg := mk_onset ["P"%string] [("P"%string, rf_phase)] true false true 50 false true (map (fun x => x * x)%R) (1 / 100)%R 100000.
Definition rf_tab (s p : string) : Lut_Model.table := [[[0%R]]].
Definition rf_lut : Lut_Model.lut := Lut_Model.mk_lut (Lut_Model.mk_grid (0, 0, 0)%R (1, 1, 1)%R (1, 1, 1) 1 2) [("A"%string, [("P"%string, rf_tab "A" "P")])] ["A"]%string ["P"%string].
Definition rf_x (_ : string) (j : Z) : R := nth (Z.to_nat j) [0; 2; 0; 2; 6]%R 0%R.
Definition rf_data (n : Z) : wdata := mk_wdata [Avail_Model.mk_seg "A.BHZ"%string 0 2000 (cut (rf_x "") 0 n)] ["A"%string] false None 0 ((n - 1) * 2000).
Lemma rf_ready n : n = 4 \/ n = 5 -> window_ready (fun _ x => x) (fun x => x) (1 / 2) 100000 rf_set rf_lut rf_tab 50 1 1 (rf_data n).
Proof.
  intros Hn. constructor; cbn [rf_set rf_data rf_lut o_rate o_python o_transform o_phases o_cfg o_all d_start d_end d_stations d_waveforms d_resample d_upfactor Lut_Model.l_grid]; change (100000 / 50) with 2000.
  + repeat split; try lia; [exists 1|exists 2000]; reflexivity.
  + lra.
  + reflexivity.
  + reflexivity.
  + reflexivity.
  + intros x. apply map_length.
  + exists 0. reflexivity.
  + exists (n - 1). reflexivity.
  + lia.
  + intros ph [<-|[]]. exists rf_phase. split; [reflexivity|]. split; [destruct Hn as [->| ->]; vm_compute; repeat split; discriminate|]. split; [reflexivity|]. split; [|reflexivity]. intros dd x. apply map_length.
  + constructor; [|constructor]. unfold usable, on_own_grid. cbn [Avail_Model.sg_delta Avail_Model.sg_start Avail_Model.sg_data]. repeat split; try lia; [exists 0; reflexivity| |left; reflexivity]. destruct Hn as [->| ->]; discriminate.
  + unfold grid_ok. cbn. repeat split; try lra; lia.
  + constructor; [intros []|constructor].
  + constructor; [intros []|constructor].
  + constructor; [exact Lut_Props.plain_P|constructor].
  + constructor; [intros [H|[]]; discriminate|constructor].
  + constructor; [intros [H|[]]; discriminate|constructor].
  + intros s p [<-|[]] [<-|[]]. split; [eexists; split; [reflexivity|left; reflexivity]|]. split; [cbn; repeat (constructor; try reflexivity)|].
    intros ((i, j), h) Hq. cbn in Hq. assert (i = 0) by lia. assert (j = 0) by lia. assert (h = 0) by lia. subst i j h. cbn. lra.
  + lia.
  + lia.
  + destruct Hn as [->| ->]; vm_compute; discriminate.
  + destruct Hn as [->| ->]; vm_compute; reflexivity.
Qed.
Lemma rf_wave n : n = 4 \/ n = 5 -> demean 2000 (window_of 100000 rf_set rf_x (rf_data n) "A.BHZ") = if n =? 4 then [-1; 1; -1; 1]%R else [-2; 0; -2; 0; 4]%R.
Proof.
  intros [->| ->].
  - change (window_of 100000 rf_set rf_x (rf_data 4) "A.BHZ") with [0; 2; 0; 2]%R. unfold demean, arithmetic_mean. cbn [map Rsum fold_right length INR Z.eqb Pos.eqb]. repeat (f_equal; try lra).
  - change (window_of 100000 rf_set rf_x (rf_data 5) "A.BHZ") with [0; 2; 0; 2; 6]%R. unfold demean, arithmetic_mean. cbn [map Rsum fold_right length INR Z.eqb Pos.eqb]. repeat (f_equal; try lra).
Qed.
Lemma rf_lively n : n = 4 \/ n = 5 -> lively (1 / 2) 100000 rf_set rf_x ["A.BHZ"%string] (rf_data n).
Proof.
  intros Hn ph pc i [<-|[]] Ec [<-|[]] y. assert (pc = rf_phase) by (cbn in Ec; congruence). subst pc. assert (Ey : y = if n =? 4 then [-1; 1; -1; 1]%R else [-2; 0; -2; 0; 4]%R) by exact (rf_wave n Hn). change (ltw_samples _ _) with 2. cbn [o_transform rf_set]. clearbody y. split.
  - intros (v & Hv). destruct Hn as [->| ->]; cbn in Ey; subst y; inversion Hv as [|? ? A B]; inversion B as [|? ? C E]; subst; lra.
  - intros j Hj. rewrite map_length in Hj. unfold window_mean. change (Z.to_nat 2) with 2%nat. cbn [zseq map Rsum fold_right]. replace (j - 2 + 1) with (j - 1) by lia. replace (j - 1 + 1) with j by lia.
    destruct Hn as [->| ->]; cbn in Ey; subst y; cbn [length] in Hj.
    + assert (Cj : j = 1 \/ j = 2 \/ j = 3) by lia. destruct Cj as [-> | [-> | ->]]; unfold sample; cbn [map]; cbv [rd Z.sub Z.add Z.opp Pos.pred_double Z.pos_sub Z.ltb Z.compare Z.to_nat nth_error Pos.to_nat Pos.iter_op Init.Nat.add]; lra.
    + assert (Cj : j = 1 \/ j = 2 \/ j = 3 \/ j = 4) by lia. destruct Cj as [-> | [-> | [-> | ->]]]; unfold sample; cbn [map]; cbv [rd Z.sub Z.add Z.opp Pos.pred_double Z.pos_sub Z.ltb Z.compare Z.to_nat nth_error Pos.to_nat Pos.iter_op Init.Nat.add]; lra.
Qed.
Lemma rf_value n r0 : n = 4 \/ n = 5 -> exists mp, compute_coalescence (fun _ x => x) (fun x => x) (1 / 2) 100000 rf_set r0 rf_lut (rf_data n) 50 1 1 = Ret mp /\ rd mp 1 = Some (if n =? 4 then 1%R else 2%R).
Proof.
  intros Hn. pose proof (rf_ready n Hn) as Hr. assert (Rc : recorded 100000 rf_set rf_x ["A.BHZ"%string] (rf_data n)). { unfold recorded, window_of, n_window. cbn [rf_data d_waveforms d_start d_end map]. change (100000 / o_rate rf_set) with 2000. do 2 f_equal. unfold cut. f_equal. rewrite Z.sub_0_r, Z.div_mul by lia. lia. }
  pose proof (rf_lively n Hn) as Lv. assert (Nd : NoDup ["A.BHZ"%string]) by (constructor; [intros []|constructor]).
  assert (En : enough rf_set ["A.BHZ"%string] rf_phase "A" = true) by (vm_compute; reflexivity).
  pose proof (check_is (fun _ x => x) (fun x => x) (1 / 2) 100000 rf_set rf_lut rf_tab 50 rf_x ["A.BHZ"%string] Nd eq_refl eq_refl 1 1 (rf_data n) Hr Rc Lv "P" rf_phase "A" (or_introl eq_refl) eq_refl (or_introl eq_refl)) as Ck. rewrite En in Ck.
  assert (U : used (Onset_Proofs.check (fun _ x => x) (fun x => x) (1 / 2)%R 100000 rf_set (rf_data n) None) (o_phases rf_set) (d_stations (rf_data n)) = [("A"%string, "P"%string)]) by (unfold used, pairs; cbn [rf_set rf_data o_phases d_stations flat_map map app filter fst snd]; rewrite Ck; reflexivity).
  destruct (StationSet_Proofs.map_of (fun _ x => x) (fun x => x) (1 / 2) 100000 rf_set rf_lut rf_tab 50 1 1 (rf_data n) r0 Hr) as (mp & E & L & V); [rewrite U; discriminate|]. exists mp. split; [exact E|].
  specialize (V (0, 0, 0) 1). rewrite U in V. assert (Nw : n_window 100000 (o_rate rf_set) (d_start (rf_data n)) (d_end (rf_data n)) = n) by (destruct Hn as [->| ->]; reflexivity). rewrite Nw in V. change (flat (Lut_Model.g_count (Lut_Model.l_grid rf_lut)) (0, 0, 0) * (n - 1 - 1) + 1) with 1 in V.
  rewrite V; [|cbn; lia|lia]. f_equal. cbn [map fst snd]. change (entry0 (rf_tab "A" "P") (0, 0, 0)) with 0%R. rewrite Rmult_0_l. rewrite (ScanMseed_Proofs.np_round_IZR 0). change (1 + 1 + Z.max 0 0) with 2.
  rewrite (value_is (fun _ x => x) (fun x => x) (1 / 2) 100000 rf_set rf_lut rf_tab 50 rf_x ["A.BHZ"%string] Nd eq_refl eq_refl 1 1 (rf_data n) Hr Rc Lv "P" rf_phase "A" 2 (or_introl eq_refl) eq_refl (or_introl eq_refl) En) by (rewrite Nw; lia).
  unfold onset_at. change (chans ["A.BHZ"%string] rf_phase "A") with ["A.BHZ"%string]. cbn [map]. rewrite Nw. change (stw_samples _ _) with 1. change (ltw_samples _ _) with 2. change (ph_band rf_phase (100000 / o_rate rf_set)) with (demean 2000). rewrite (rf_wave n Hn).
  change (o_centred rf_set) with false. unfold sta_lta. change (2 <? 2 - 1) with false. cbv iota. unfold window_mean. change (Z.to_nat 1) with 1%nat. change (Z.to_nat 2) with 2%nat. change (2 - 1 + 1) with 2. change (2 - 2 + 1) with 1. cbn [zseq map Rsum fold_right]. change (1 + 1) with 2.
  change (o_floor rf_set) with (1 / 100)%R. cbn [o_transform rf_set]. 
  assert (Sm : (sample (map (fun x => x * x)%R (if n =? 4 then [-1; 1; -1; 1]%R else [-2; 0; -2; 0; 4]%R)) 2 = if n =? 4 then 1 else 4)%R /\ (sample (map (fun x => x * x)%R (if n =? 4 then [-1; 1; -1; 1]%R else [-2; 0; -2; 0; 4]%R)) 1 = if n =? 4 then 1 else 0)%R).
  { destruct Hn as [->| ->]; cbn [Z.eqb Pos.eqb]; split; unfold sample; cbn [map]; cbv [rd Z.ltb Z.compare Z.to_nat nth_error Pos.to_nat Pos.iter_op Init.Nat.add]; lra. }
  destruct Sm as (-> & ->). unfold rms. cbn [map Rsum fold_right length INR].
  assert (G : forall v, (1 <= v)%R -> geometric_mean [clip01 (Rmax (sqrt ((v * v + 0) / 1)) (1 / 100))] = v).
  { intros v Hv. replace ((v * v + 0) / 1)%R with (v * v)%R by lra. rewrite sqrt_square by lra. rewrite (Rmax_left v) by lra. unfold clip01. rewrite Rmax_left by lra. unfold geometric_mean. cbn [Rprod fold_right length INR]. rewrite Rmult_1_r, Rinv_1. apply Rpower_1. lra. }
  destruct Hn as [->| ->]; cbn [Z.eqb Pos.eqb].
  - replace ((1 + 0) / 1 / ((1 + (1 + 0)) / 2))%R with 1%R by lra. apply G. lra.
  - replace ((4 + 0) / 1 / ((0 + (4 + 0)) / 2))%R with 2%R by lra. apply G. lra.
Qed.
(** Refuted: with the mean of the window removed (all else as above), the coalescence at the same time is 1 in a window of four samples and 2 in one of five: a scan does depend on its timestep. *)
Theorem C128_mean_removal_refuted :
  exists k l tab rate x ids first last d d' r0 mp mp' v v',
  let ready := window_ready (fun _ y => y) (fun y => y) (1 / 2) 100000 k l tab rate first last in
  ready d /\ ready d' /\ recorded 100000 k x ids d /\ recorded 100000 k x ids d' /\ lively (1 / 2) 100000 k x ids d /\ lively (1 / 2) 100000 k x ids d' /\ clear_of_ends 100000 k 0 first last 0
  /\ (forall ph pc y, In ph (o_phases k) -> dget (o_cfg k) ph = Some pc -> ph_band pc (100000 / o_rate k) y = map (fun v => v - arithmetic_mean y)%R y)
  /\ d_start d = d_start d'
  /\ compute_coalescence (fun _ y => y) (fun y => y) (1 / 2) 100000 k r0 l d rate first last = Ret mp /\ compute_coalescence (fun _ y => y) (fun y => y) (1 / 2) 100000 k r0 l d' rate first last = Ret mp'
  /\ Lut_Model.g_count (Lut_Model.l_grid l) = (1, 1, 1) /\ rd mp 1 = Some v /\ rd mp' 1 = Some v' /\ v <> v'.
Proof.
  assert (H4 : 4 = 4 \/ 4 = 5) by lia. assert (H5 : 5 = 4 \/ 5 = 5) by lia. set (r0 := {| Migrate_Model.traveltime := 0; Migrate_Model.acc := 0 |}).
  destruct (rf_value 4 r0 H4) as (mp & E & V). destruct (rf_value 5 r0 H5) as (mp' & E' & V').
  exists rf_set, rf_lut, rf_tab, 50%R, rf_x, ["A.BHZ"%string], 1, 1, (rf_data 4), (rf_data 5), r0, mp, mp', 1%R, 2%R. intros ready.
  split; [exact (rf_ready 4 H4)|]. split; [exact (rf_ready 5 H5)|]. split; [reflexivity|]. split; [reflexivity|]. split; [exact (rf_lively 4 H4)|]. split; [exact (rf_lively 5 H5)|]. split.
  { intros ph pc [<-|[]] Ec. assert (pc = rf_phase) by (cbn in Ec; congruence). subst pc. vm_compute. split; discriminate. }
  split; [intros ph pc y [<-|[]] Ec; assert (pc = rf_phase) by (cbn in Ec; congruence); subst pc; reflexivity|].
  split; [reflexivity|]. split; [exact E|]. split; [exact E'|]. split; [reflexivity|]. split; [exact V|]. split; [exact V'|]. lra.
Qed.
Print Assumptions C128_mean_removal_refuted.

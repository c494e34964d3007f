(** C142: the pads of the code leave the filter room to settle; a scan with the processing of the code, whatever its timestep. *)
From Coq Require Import String Ascii.
From Coq Require Import List ZArith Reals QArith Qreals Bool Lia Lra.
From Verif Require Import Lib LibFacts PyDict Migrate_Spec Timeline_Model Timeline_Spec ScanMseed_Model ScanMseed_Spec Lut_Spec Locate_Model Locate_Spec Resample_Spec Onset_Model Onset_Spec DetectRun_Model DetectRun_Spec
  LocateRun_Model LocateRun_Spec Agree_Spec StaLta_Spec Window_Spec Formula_Spec Near_Spec Near_Props Chain_Model Chain_Spec Chain_Proofs Chain_Props Room_Spec Room_Proofs.
From Verif Require Avail_Model Avail_Spec Lut_Model Lut_Props DetectRun_Proofs LocateRun_Proofs Window_Props Compute_Props Archive_Model.
From Verif Require Import StaLta_Proofs.
Import ListNotations.
Open Scope Z_scope.

Lemma rate_ticks secs rate : ticks_ok secs rate -> 3 <= rate -> 3 * (secs / rate) <= secs.
Proof. intros (_ & _ & (q & Eq) & A & B) Hr. rewrite Eq, Z.div_mul in * by lia. rewrite (Z.mul_comm 3). apply Z.mul_le_mono_nonneg_l; lia. Qed.

(** With the pads of [Onset.pad], all the samples that the onset functions of a timestep use are clear of the taper by [J] samples at least. *)
Theorem C142_pads_leave_room :
  forall lowpass taper tiny secs k transform ucf l tab stations starttime timestep pre post ttmax reach J,
  scan_ready lowpass taper tiny secs k transform ucf l tab stations starttime timestep pre post -> room secs k timestep ttmax reach J ->
  clear_of_ends secs k (settling J ((timestep + pre + post) / (secs / o_rate k))) (time2sample (o_clock secs k) pre) (time2sample (o_clock secs k) post) reach.
Proof.
  intros lp tp tiny secs k tr ucf l tab stations starttime timestep pre post ttmax reach J S [Hr Hw Ho Re0 Re R1 R2] ph pc Ip Ec. set (c := o_clock secs k).
  destruct (DetectRun_Proofs.sr_delta lp tp tiny secs k tr ucf l tab stations starttime timestep pre post S) as (Dp & Sp). destruct (DetectRun_Proofs.sr_clock lp tp tiny secs k tr ucf l tab stations starttime timestep pre post S) as (Ck & Ir).
  destruct (DetectRun_Proofs.sr_multiples lp tp tiny secs k tr ucf l tab stations starttime timestep pre post S) as (a & b & m & Ea & Eb & Em & Ha & Hb & Hm & _).
  pose proof (sr_pads _ _ _ _ _ _ _ _ _ _ _ _ _ _ S) as Ep. rewrite Ho in Ep. destruct (sr_step _ _ _ _ _ _ _ _ _ _ _ _ _ _ S) as (Ts & _).
  destruct (sr_phases _ _ _ _ _ _ _ _ _ _ _ _ _ _ S ph Ip) as (pc' & Ec' & (Hn & _) & _). assert (pc' = pc) by congruence. subst pc'.
  assert (Iw : In (ph_sta pc, ph_lta pc) (windows_of k)) by (apply in_map_iff; exists (ph, pc); split; [reflexivity|]; exact (Window_Props.pair_in _ _ _ Ec)).
  unfold settling. apply (pads_core c (windows_of k) timestep ttmax reach pre post _ (ph_sta pc) (ph_lta pc) (Z.of_nat J) Ck Ir (sr_ms _ _ _ _ _ _ _ _ _ _ _ _ _ _ S)); try assumption; try lia.
  - exact (rate_ticks _ _ (sr_ticks _ _ _ _ _ _ _ _ _ _ _ _ _ _ S) Hr).
  - apply Z.div_pos; [|exact Dp]. assert (0 <= pre /\ 0 <= post) by (rewrite Ea, Eb; split; apply Z.mul_nonneg_nonneg; lia). lia.
  - change (delta c) with (secs / o_rate k). rewrite Z.mul_comm. pose proof (Z.mul_div_le (timestep + pre + post) (secs / o_rate k) Dp). lia.
Qed.
Print Assumptions C142_pads_leave_room.
Theorem C142_pads_leave_room_for_events :
  forall lowpass taper tiny secs k l tab stations mw pre post ttmax reach J,
  locate_ready lowpass taper tiny secs k l tab stations mw pre post -> room secs k (4 * mw) ttmax reach J ->
  clear_of_ends secs k (settling J ((4 * mw + pre + post) / (secs / o_rate k) + 1)) (time2sample (o_clock secs k) pre) (time2sample (o_clock secs k) post) reach.
Proof.
  intros lp tp tiny secs k l tab stations mw pre post ttmax reach J S [Hr Hw Ho Re0 Re R1 R2] ph pc Ip Ec. set (c := o_clock secs k).
  destruct (LocateRun_Proofs.lr_delta lp tp tiny secs k l tab stations mw pre post S) as (Dp & Sp). destruct (LocateRun_Proofs.lr_clock lp tp tiny secs k l tab stations mw pre post S) as (Ck & Ir).
  destruct (LocateRun_Proofs.lr_multiples lp tp tiny secs k l tab stations mw pre post S) as (a & b & m & Ea & Eb & Em & Ha & Hb & Hm & _).
  pose proof (lr_pads _ _ _ _ _ _ _ _ _ _ _ S) as Ep. rewrite Ho in Ep. pose proof (lr_mw _ _ _ _ _ _ _ _ _ _ _ S) as Ts.
  destruct (lr_phases _ _ _ _ _ _ _ _ _ _ _ S ph Ip) as (pc' & Ec' & (Hn & _) & _). assert (pc' = pc) by congruence. subst pc'.
  assert (Iw : In (ph_sta pc, ph_lta pc) (windows_of k)) by (apply in_map_iff; exists (ph, pc); split; [reflexivity|]; exact (Window_Props.pair_in _ _ _ Ec)).
  assert (P0 : 0 <= (4 * mw + pre + post) / (secs / o_rate k)) by (apply Z.div_pos; [|exact Dp]; assert (0 <= pre /\ 0 <= post) by (rewrite Ea, Eb; split; apply Z.mul_nonneg_nonneg; lia); lia).
  unfold settling. apply (pads_core c (windows_of k) (4 * mw) ttmax reach pre post _ (ph_sta pc) (ph_lta pc) (Z.of_nat J) Ck Ir (lr_ms _ _ _ _ _ _ _ _ _ _ _ S)); try assumption; try lia.
  - exact (rate_ticks _ _ (lr_ticks _ _ _ _ _ _ _ _ _ _ _ S) Hr).
  - change (delta c) with (secs / o_rate k). rewrite Z.mul_add_distr_r, Z.mul_comm. pose proof (Z.mul_div_le (4 * mw + pre + post) (secs / o_rate k) Dp). lia.
Qed.
Print Assumptions C142_pads_leave_room_for_events.

Lemma nearly_max secs k J e x ids y : nearly secs k (settling J) e x ids y -> nearly secs k (fun n => Z.max 0 (settling J n)) e x ids y.
Proof. intros H ph pc i a n t Hp Hg Hi Ht. apply H; try assumption. lia. Qed.
Lemma clear_max secs k m first last reach : 0 <= m -> clear_of_ends secs k m first last reach -> clear_of_ends secs k (Z.max 0 m) first last reach.
Proof. intros H. rewrite Z.max_r by exact H. exact (fun X => X). Qed.
Lemma scan_settling_pos lp tp tiny secs k tr ucf l tab stations starttime timestep pre post J : scan_ready lp tp tiny secs k tr ucf l tab stations starttime timestep pre post -> 0 <= settling J ((timestep + pre + post) / (secs / o_rate k)).
Proof.
  intros S. destruct (DetectRun_Proofs.sr_delta lp tp tiny secs k tr ucf l tab stations starttime timestep pre post S) as (Dp & Sp).
  destruct (DetectRun_Proofs.sr_multiples lp tp tiny secs k tr ucf l tab stations starttime timestep pre post S) as (a & b & m & Ea & Eb & Em & Ha & Hb & Hm & _). unfold settling.
  assert (0 <= (timestep + pre + post) / (secs / o_rate k)). { apply Z.div_pos; [|exact Dp]. rewrite Ea, Eb, Em. assert (0 <= a * (secs / o_rate k) /\ 0 <= b * (secs / o_rate k) /\ 0 <= m * (secs / o_rate k)) by (repeat split; apply Z.mul_nonneg_nonneg; lia). lia. }
  pose proof (Z.div_pos _ 20 H). lia.
Qed.

(** Two scans of the same records with the detrending, taper, filter and energy of the code, and any two timesteps: the coalescences that they store differ by no more than the factor [(1 + g) / (1 - g)], where [g] goes to zero with what is left of the response of the filter after [J] samples. *)
Theorem C142_timestep_partial :
  forall w sos M A E J lowpass taper tiny secs k transform ucf l r0 r1 tab stations x ids L ttmax reach starttime timestep pre post n read cw fs afs starttime' timestep' pre' post' n' read' cw' fs' afs',
  let c := o_clock secs k in let D := secs / o_rate k in let e := energy_error M A E in let g := slack e L in
  taper_weights w -> chained w sos k -> (forall z, o_transform k z = transform_energy z) -> (forall ph, In ph (o_phases k) -> calm (response (sosfilt (sos ph))) A E J) -> (0 < J)%nat -> (0 <= M)%R -> (forall i j, In i ids -> (Rabs (x i j) <= M)%R) ->
  loud secs k ids (clean_energy sos J x) L -> (0 <= e < L)%R -> (g < 1)%R ->
  scan_ready lowpass taper tiny secs k transform ucf l tab stations starttime timestep pre post -> scan_ready lowpass taper tiny secs k transform ucf l tab stations starttime' timestep' pre' post' -> regular secs k l tab ids stations reach ->
  room secs k timestep ttmax reach J -> room secs k timestep' ttmax reach J ->
  0 < n -> (forall i, 0 <= i < n -> let w := step_window c starttime timestep pre post i in reads tiny secs k x ids stations read (fst w) (snd w)) ->
  0 < n' -> (forall i, 0 <= i < n' -> let w := step_window c starttime' timestep' pre' post' i in reads tiny secs k x ids stations read' (fst w) (snd w)) -> contributing k ids stations <> [] ->
  exists f a f' a', continuous_compute lowpass taper tiny secs k transform ucf l r0 r1 cw read stations fs afs starttime timestep n = Ret (f, a) /\ continuous_compute lowpass taper tiny secs k transform ucf l r0 r1 cw' read' stations fs' afs' starttime' timestep' n' = Ret (f', a')
  /\ forall t, (D | t) -> starttime <= t < starttime + timestep * n -> starttime' <= t < starttime' + timestep' * n' ->
     exists row z row' z', encode_row ucf row = Some z /\ stored c f t z /\ encode_row ucf row' = Some z' /\ stored c f' t z' /\ ((1 - g) * coa row <= (1 + g) * coa row')%R /\ ((1 - g) * coa row' <= (1 + g) * coa row)%R.
Proof.
  intros w sos M A E J lp tp tiny secs k tr ucf l r0 r1 tab stations x ids L ttmax reach starttime timestep pre post n read cw fs afs starttime' timestep' pre' post' n' read' cw' fs' afs' c D e g Hw Hk Ho Hc HJ HM Bx Ld He Hg S S' Rg Ro Ro' Hn Rd Hn' Rd' Ne.
  pose proof (nearly_max _ _ _ _ _ _ _ (C138_energy_partial secs k w sos x ids M A E J Hw Hk Ho Hc HJ HM Bx)) as Ny.
  apply (C134_timestep_partial lp tp tiny secs k tr ucf l r0 r1 tab stations x (clean_energy sos J x) ids (fun n => Z.max 0 (settling J n)) e L reach starttime timestep pre post n read cw fs afs starttime' timestep' pre' post' n' read' cw' fs' afs' S S' Rg); try assumption.
  - intros; apply Z.le_max_l.
  - apply clear_max; [exact (scan_settling_pos _ _ _ _ _ _ _ _ _ _ _ _ _ _ J S)|]. exact (C142_pads_leave_room lp tp tiny secs k tr ucf l tab stations starttime timestep pre post ttmax reach J S Ro).
  - apply clear_max; [exact (scan_settling_pos _ _ _ _ _ _ _ _ _ _ _ _ _ _ J S')|]. exact (C142_pads_leave_room lp tp tiny secs k tr ucf l tab stations starttime' timestep' pre' post' ttmax reach J S' Ro').
Qed.
Print Assumptions C142_timestep_partial.

(** The hypotheses of all of C134 (a source is found by the scan, becomes an event, and is located) about the processing and the pads, for scan and locate. *)
Theorem C142_meets_C134_partial :
  forall w sos M A E J lowpass taper tiny secs k transform ucf l tab stations x ids ttmax reach starttime timestep pre post mw pre' post',
  let c := o_clock secs k in let D := secs / o_rate k in let m n := Z.max 0 (settling J n) in
  taper_weights w -> chained w sos k -> (forall z, o_transform k z = transform_energy z) -> (forall ph, In ph (o_phases k) -> calm (response (sosfilt (sos ph))) A E J) -> (0 < J)%nat -> (0 <= M)%R -> (forall i j, In i ids -> (Rabs (x i j) <= M)%R) ->
  scan_ready lowpass taper tiny secs k transform ucf l tab stations starttime timestep pre post -> locate_ready lowpass taper tiny secs k l tab stations mw pre' post' -> room secs k timestep ttmax reach J -> room secs k (4 * mw) ttmax reach J ->
  (forall n, 0 <= m n) /\ nearly secs k m (energy_error M A E) x ids (clean_energy sos J x)
  /\ clear_of_ends secs k (m ((timestep + pre + post) / D)) (time2sample c pre) (time2sample c post) reach /\ clear_of_ends secs k (m ((4 * mw + pre' + post') / D + 1)) (time2sample c pre') (time2sample c post') reach.
Proof.
  intros w sos M A E J lp tp tiny secs k tr ucf l tab stations x ids ttmax reach starttime timestep pre post mw pre' post' c D m Hw Hk Ho Hc HJ HM Bx S S' Ro Ro'. split; [intros; apply Z.le_max_l|].
  split; [exact (nearly_max _ _ _ _ _ _ _ (C138_energy_partial secs k w sos x ids M A E J Hw Hk Ho Hc HJ HM Bx))|]. split.
  - apply clear_max; [exact (scan_settling_pos _ _ _ _ _ _ _ _ _ _ _ _ _ _ J S)|]. exact (C142_pads_leave_room lp tp tiny secs k tr ucf l tab stations starttime timestep pre post ttmax reach J S Ro).
  - apply clear_max; [|exact (C142_pads_leave_room_for_events lp tp tiny secs k l tab stations mw pre' post' ttmax reach J S' Ro')].
    destruct (LocateRun_Proofs.lr_delta lp tp tiny secs k l tab stations mw pre' post' S') as (Dp & _). destruct (LocateRun_Proofs.lr_multiples lp tp tiny secs k l tab stations mw pre' post' S') as (a & b & q & Ea & Eb & Em & Ha & Hb & Hm & _). unfold settling.
    assert (P0 : 0 <= (4 * mw + pre' + post') / D). { apply Z.div_pos; [|exact Dp]. fold D in Ea, Eb, Em, Dp. rewrite Ea, Eb, Em. assert (0 <= a * D /\ 0 <= b * D /\ 0 <= q * D) by (repeat split; apply Z.mul_nonneg_nonneg; lia). lia. }
    pose proof (Z.div_pos ((4 * mw + pre' + post') / D + 1) 20 ltac:(lia) ltac:(lia)). lia.
Qed.
Print Assumptions C142_meets_C134_partial.

(** When the windows of the onset functions are longer than what has to be kept clear, a condition on the filtered record without ends suffices for [lively]. *)
Theorem C142_lively :
  forall w sos M A E J tiny secs k x ids d, let n := n_window secs (o_rate k) (d_start d) (d_end d) in let e := (16 * M * A * E)%R in
  taper_weights w -> chained w sos k -> (forall z, o_transform k z = transform_energy z) -> (forall ph, In ph (o_phases k) -> calm (response (sosfilt (sos ph))) A E J) -> (0 < J)%nat -> (forall i j, In i ids -> (Rabs (x i j) <= M)%R) ->
  0 <= n -> 2 * settling J n + 1 < n -> (forall ph pc, In ph (o_phases k) -> dget (o_cfg k) ph = Some pc -> settling J n < ltw_samples (o_clock secs k) (ph_lta pc)) ->
  (forall ph pc i t, In ph (o_phases k) -> dget (o_cfg k) ph = Some pc -> In i ids -> let y := two_sided (response (sosfilt (sos ph))) J (x i) in
    (e < Rabs (y t) /\ tiny * IZR (ltw_samples (o_clock secs k) (ph_lta pc)) <= (Rabs (y t) - e) * (Rabs (y t) - e) /\ 2 * e < Rabs (y (t + 1)%Z - y t))%R) ->
  lively tiny secs k x ids d.
Proof.
  intros w sos M A E J tiny secs k x ids d n e Hw Hk Ho Hc HJ Bx N0 Hn Hm Hy ph pc i Ip Ec Ii v.
  unfold v. rewrite (Hk ph pc _ _ Ip Ec). set (a := d_start d / (secs / o_rate k)). change (window_of secs k x d i) with (cut (x i) a n). set (y := pre_filter w (sos ph) (cut (x i) a n)). set (f := two_sided (response (sosfilt (sos ph))) J (x i)).
  assert (Ly : Z.of_nat (length y) = n) by (unfold y; rewrite chain_length, cut_length by lia; lia).
  assert (Ny : forall t, settling J n <= t < n - settling J n -> (Rabs (sample y t - f (a + t)%Z) <= e)%R).
  { intros t Ht. replace t with (a + t - a) at 1 by lia. apply (chain_window w (sos ph) (x i) M A E J a n (a + t) Hw (Hc ph Ip) HJ (fun j _ => Bx i j Ii)). lia. }
  assert (Sp : 0 <= settling J n) by (unfold settling; pose proof (Z.div_pos n 20); lia). specialize (Hm ph pc Ip Ec). set (N := ltw_samples _ _) in *. split.
  - intros (v0 & Hv). rewrite Forall_forall in Hv. set (t := settling J n) in *. assert (G : forall j, 0 <= j < n -> sample y j = v0) by (intros j Hj; unfold sample; destruct (rd_in_range _ y j) as (u & Eu); [lia|]; rewrite Eu; exact (Hv _ (rd_in _ _ _ _ Eu))).
    pose proof (Ny t ltac:(lia)) as N1. pose proof (Ny (t + 1) ltac:(lia)) as N2. rewrite G in N1, N2 by lia. destruct (Hy ph pc i (a + t) Ip Ec Ii) as (_ & _ & Q). fold f in Q. rewrite Z.add_assoc in N2.
    pose proof (Rabs_triang (f (a + t + 1)%Z - v0) (v0 - f (a + t)%Z)) as T. replace (f (a + t + 1)%Z - v0 + (v0 - f (a + t)%Z))%R with (f (a + t + 1)%Z - f (a + t)%Z)%R in T by ring. rewrite (Rabs_minus_sym (f (a + t + 1)%Z) v0) in T. lra.
  - intros j Hj. rewrite Ho in *. unfold transform_energy in *. rewrite map_length, Ly in Hj. set (s := j - N + 1). set (t := Z.max s (settling J n)).
    assert (Ht : settling J n <= t < n - settling J n) by (unfold t, s; lia).
    apply Rle_trans with (sample (map (fun u => u * u) y) t / IZR N)%R; [|apply window_mean_ge; [lia|unfold t, s; lia|intros q _; rewrite (sample_map (fun u => u * u)%R) by ring; apply Rle_0_sqr]].
    rewrite (sample_map (fun u => u * u)%R) by ring. pose proof (Ny t Ht) as Q. destruct (Hy ph pc i (a + t) Ip Ec Ii) as (Q1 & Q2 & _). fold f in Q1, Q2. assert (NP : (0 < IZR N)%R) by (apply IZR_lt; lia).
    apply (Rmult_le_reg_r (IZR N)); [exact NP|]. unfold Rdiv. rewrite Rmult_assoc, Rinv_l, Rmult_1_r by lra. eapply Rle_trans; [exact Q2|].
    assert (B : (Rabs (f (a + t)%Z) - e <= Rabs (sample y t))%R). { pose proof (Rabs_triang (f (a + t)%Z - sample y t) (sample y t)) as T. replace (f (a + t)%Z - sample y t + sample y t)%R with (f (a + t)%Z) in T by ring. rewrite (Rabs_minus_sym (f (a + t)%Z)) in T. lra. }
    replace (sample y t * sample y t)%R with (Rabs (sample y t) * Rabs (sample y t))%R by (rewrite <- Rabs_mult; apply Rabs_pos_eq, Rle_0_sqr). apply Rmult_le_compat; lra.
Qed.
Print Assumptions C142_lively.

(** ** An example: the filter of C138, short and long windows of half a second and two seconds, timesteps of one and two seconds, and a record that is 1 and -1 in turn. *)
Definition room_phase : phase_cfg := mk_phase [Archive_Model.GStar; Archive_Model.GChar "Z"%char] 1 50000 200000 (2 # 1) (fun _ l => pre_filter cosine_weights ex_sos l).
Definition room_set : onset_cfg := mk_onset ["P"%string] [("P"%string, room_phase)] true false true 50 true true transform_energy (1 / 100)%R 500000.
Definition room_x (_ : string) (j : Z) : R := if Z.even j then 1%R else (-1)%R.
Definition room_reads (a b : Z) : outcome wdata := Ret (mk_wdata [Avail_Model.mk_seg "A.BHZ"%string a 2000 (cut (room_x "A.BHZ") (a / 2000) ((b - a) / 2000 + 1))] ["A"%string; "B"%string] false None a b).
Lemma room_ready ts pre post : 0 < ts <= 8640000000 -> (2000 | ts) -> onset_pad (o_clock 100000 room_set) ts 350000 500000 = (pre, post) -> 127 <= (ts + pre + post) / 2000 -> 100 <= post / 2000 -> 2 * ((ts + pre + post) / 2000) < 2147483648 ->
  scan_ready (fun _ x => x) (fun x => x) (1 / 4) 100000 room_set (fun _ _ x => x) 1 Compute_Props.ex_lut Compute_Props.ex_tab ["A"%string; "B"%string] 360000000 ts pre post.
Proof.
  intros T1 T2 Ep L1 L2 L3. constructor; cbn [room_set o_rate o_python o_transform o_cfg o_phases o_post o_all Compute_Props.ex_lut Lut_Model.l_grid].
  + repeat split; try lia; [exists 1|exists 2000]; reflexivity.
  + lra.
  + reflexivity.
  + reflexivity.
  + reflexivity.
  + intros x. apply map_length.
  + exists 20. reflexivity.
  + lia.
  + exact T2.
  + exists 180000. reflexivity.
  + discriminate.
  + discriminate.
  + exact Ep.
  + intros ph [<-|[]]. exists room_phase. split; [reflexivity|]. change (100000 / 50) with 2000. split; [split; [vm_compute; split; [discriminate|reflexivity]|vm_compute (_ + _); exact L1]|]. split; [reflexivity|]. split; [|reflexivity]. intros dd x. cbn [room_phase ph_band]. apply chain_length.
  + unfold grid_ok. cbn. repeat split; try lra; lia.
  + constructor; [intros []|constructor].
  + constructor; [intros [H|[]]; discriminate|]. constructor; [intros []|constructor].
  + constructor; [exact Lut_Props.plain_P|constructor].
  + constructor; [intros [H|[]]; discriminate|]. constructor; [intros [H|[]]; discriminate|constructor].
  + intros s p Is [<-|[]]. split; [|split].
    * destruct Is as [<-|[<-|[]]]; (eexists; split; [reflexivity|left; reflexivity]).
    * cbn. split; [reflexivity|]. repeat (constructor; [cbn; split; [reflexivity|repeat constructor]|]); constructor.
    * intros ((i, j), h) Hq. cbn in Hq. assert (j = 0) by lia. assert (h = 0) by lia. subst j h. assert (Hi : i = 0 \/ i = 1) by lia. change (100000 / 50) with 2000. apply IZR_le in L2.
      destruct Hi as [->| ->]; match goal with |- context [entry0 ?t ?q] => let v := eval cbv -[IZR] in (entry0 t q) in change (entry0 t q) with v end; lra.
  + cbn [length]. change (100000 / 50) with 2000. change (Z.of_nat (1 * 2)) with 2. exact L3.
  + lra.
  + intros ((i, j), h) Hq. cbn in Hq. assert (j = 0) by lia. assert (h = 0) by lia. subst j h. assert (Hi : i = 0 \/ i = 1) by lia. cbn. destruct Hi as [->| ->]; repeat split; apply Rabs_le; lra.
Qed.
Lemma room_x_shift s t i j : room_x s (t + Z.of_nat i - Z.of_nat j) = (room_x s t * (-1) ^ i * (-1) ^ j)%R.
Proof.
  assert (P : forall n, ((-1) ^ n = if Z.even (Z.of_nat n) then 1 else -1)%R).
  { induction n as [|n IH]; [reflexivity|]. cbn [pow]. rewrite IH, Nat2Z.inj_succ, Z.even_succ, <- Z.negb_even. destruct (Z.even (Z.of_nat n)); cbn; ring. }
  rewrite !P. unfold room_x. rewrite Z.even_sub, Z.even_add. destruct (Z.even t), (Z.even (Z.of_nat i)), (Z.even (Z.of_nat j)); cbn; ring.
Qed.
Definition room_gain (J : nat) : R := total J (fun i => (response (sosfilt ex_sos) i * (-1) ^ i)%R).
Lemma room_two_sided J s t : two_sided (response (sosfilt ex_sos)) J (room_x s) t = (room_x s t * (room_gain J * room_gain J))%R.
Proof.
  unfold two_sided. rewrite (total_ext J _ (fun i => (room_x s t * room_gain J) * (response (sosfilt ex_sos) i * (-1) ^ i))%R).
  - rewrite total_scal. fold (room_gain J). ring.
  - intros i _. rewrite (total_ext J _ (fun j => (room_x s t * (-1) ^ i) * (response (sosfilt ex_sos) j * (-1) ^ j))%R) by (intros j _; rewrite room_x_shift; ring). rewrite total_scal. fold (room_gain J). ring.
Qed.
Lemma room_gain_bounds N : (5 / 2 <= room_gain (S (S N)) <= 3)%R.
Proof.
  destruct ex_response as (R0 & R1 & R2). assert (Eq : room_gain (S (S N)) = (5 / 2 + 1 / 6 * (1 - (-1 / 2) ^ N))%R).
  { induction N as [|N IH]; [unfold room_gain; cbn [total pow]; rewrite R0, R1; lra|]. set (h := fun i => (response (sosfilt ex_sos) i * (-1) ^ i)%R). change (room_gain (S (S (S N)))) with (room_gain (S (S N)) + h (S (S N)))%R. rewrite IH. unfold h. rewrite R2.
    replace ((-1 / 2) ^ N)%R with ((1 / 2) ^ N * (-1) ^ N)%R by (rewrite <- Rpow_mult_distr; f_equal; field). replace ((-1 / 2) ^ S N)%R with ((1 / 2) ^ S N * (-1) ^ S N)%R by (rewrite <- Rpow_mult_distr; f_equal; field). cbn [pow]. field. }
  assert (B : (Rabs ((-1 / 2) ^ N) <= 1)%R). { rewrite <- RPow_abs. rewrite Rabs_left by lra. rewrite <- (pow1 N). apply pow_incr. lra. }
  pose proof (Rle_abs ((-1 / 2) ^ N)) as B1. pose proof (Rle_abs (- (-1 / 2) ^ N)) as B2. rewrite Rabs_Ropp in B2. assert (-1 <= (-1 / 2) ^ N <= 1)%R by lra. rewrite Eq. lra.
Qed.
Lemma room_bound i j : (Rabs (room_x i j) <= 1)%R.
Proof. unfold room_x. destruct (Z.even j); [rewrite Rabs_R1; lra|rewrite Rabs_left; lra]. Qed.
Lemma room_chained : chained cosine_weights (fun _ => ex_sos) room_set.
Proof. intros ph pc d l [<-|[]] G. cbn in G. injection G as <-. reflexivity. Qed.
Lemma room_leftover : (0 <= leftover 3 (1 / 2) 60 <= 1 / 10 ^ 14)%R.
Proof. unfold leftover. replace (3 * (1 / 2) ^ 60 * / (1 - 1 / 2))%R with (6 * (1 / 2) ^ 60)%R by field. cbn [pow]. lra. Qed.
Lemma room_lively d : 300 <= n_window 100000 50 (d_start d) (d_end d) <= 800 -> lively (1 / 4) 100000 room_set room_x ["A.BHZ"%string] d.
Proof.
  intros Hn. pose proof room_leftover as E0. apply (C142_lively cosine_weights (fun _ => ex_sos) 1 6 (leftover 3 (1 / 2) 60) 60 (1 / 4)).
  - exact C138_cosine.
  - exact room_chained.
  - reflexivity.
  - intros ph _. apply C138_applies.
  - lia.
  - intros i j _. apply room_bound.
  - change (o_rate room_set) with 50. lia.
  - change (o_rate room_set) with 50. unfold settling. assert (n_window 100000 50 (d_start d) (d_end d) / 20 <= 40) by (apply Z.div_le_upper_bound; lia). lia.
  - intros ph pc [<-|[]] Ec. assert (pc = room_phase) by (cbn in Ec; congruence). subst pc. change (ltw_samples _ _) with 101. change (o_rate room_set) with 50. unfold settling. assert (n_window 100000 50 (d_start d) (d_end d) / 20 <= 40) by (apply Z.div_le_upper_bound; lia). lia.
  - intros ph pc i t [<-|[]] Ec _ y. assert (pc = room_phase) by (cbn in Ec; congruence). subst pc. change (ltw_samples _ _) with 101. unfold y. rewrite !room_two_sided. pose proof (room_gain_bounds 58) as G. set (g := room_gain 60) in *.
    assert (G2 : (25 / 4 <= g * g <= 9)%R) by (split; [replace (25 / 4)%R with (5 / 2 * (5 / 2))%R by field|replace 9%R with (3 * 3)%R by ring]; apply Rmult_le_compat; lra).
    assert (Nx : room_x i (t + 1) = (- room_x i t)%R) by (unfold room_x; change (t + 1) with (Z.succ t); rewrite Z.even_succ, <- Z.negb_even; destruct (Z.even t); cbn [negb]; lra). rewrite Nx. set (e := (16 * 1 * 6 * leftover 3 (1 / 2) 60)%R). assert (He : (0 <= e <= 1 / 100)%R) by (unfold e; lra).
    assert (Ax : Rabs (room_x i t) = 1%R) by (unfold room_x; destruct (Z.even t); [apply Rabs_R1|rewrite Rabs_left; lra]).
    replace (- room_x i t * (g * g) - room_x i t * (g * g))%R with (room_x i t * (- (2 * (g * g))))%R by ring. rewrite !Rabs_mult, Ax, Rabs_Ropp, !Rmult_1_l. rewrite Rabs_mult, <- Rabs_mult, (Rabs_pos_eq (g * g)) by lra. rewrite (Rabs_pos_eq 2) by lra. split; [lra|]. split; [|lra].
    apply Rle_trans with (6 * 6)%R; [lra|]. apply Rmult_le_compat; lra.
Qed.
Lemma room_reads_ok a b : 299 * 2000 <= b - a < 800 * 2000 -> reads (1 / 4) 100000 room_set room_x ["A.BHZ"%string] ["A"%string; "B"%string] room_reads a b.
Proof.
  intros H. eexists. split; [reflexivity|]. cbn [d_start d_end d_stations d_waveforms]. split; [reflexivity|]. split; [reflexivity|]. split; [reflexivity|]. split; [reflexivity|]. apply room_lively. unfold n_window. cbn [d_start d_end]. change (100000 / 50) with 2000.
  assert (299 <= (b - a) / 2000) by (apply Z.div_le_lower_bound; lia). assert ((b - a) / 2000 < 800) by (apply Z.div_lt_upper_bound; lia). lia.
Qed.
Example C142_example :
  let c := o_clock 100000 room_set in let st := ["A"%string; "B"%string] in let ids := ["A.BHZ"%string] in let E := leftover 3 (1 / 2) 60 in let e := energy_error 1 6 E in
  taper_weights cosine_weights /\ chained cosine_weights (fun _ => ex_sos) room_set /\ (forall ph, In ph (o_phases room_set) -> calm (response (sosfilt ex_sos)) 6 E 60) /\ (forall i j, In i ids -> (Rabs (room_x i j) <= 1)%R)
  /\ loud 100000 room_set ids (clean_energy (fun _ => ex_sos) 60 room_x) 39 /\ (0 <= e < 39)%R /\ (slack e 39 < 1 / 1000000)%R
  /\ scan_ready (fun _ x => x) (fun x => x) (1 / 4) 100000 room_set (fun _ _ x => x) 1 Compute_Props.ex_lut Compute_Props.ex_tab st 360000000 100000 450000 600000
  /\ scan_ready (fun _ x => x) (fun x => x) (1 / 4) 100000 room_set (fun _ _ x => x) 1 Compute_Props.ex_lut Compute_Props.ex_tab st 360000000 200000 450000 600000
  /\ regular 100000 room_set Compute_Props.ex_lut Compute_Props.ex_tab ids st 50 /\ room 100000 room_set 100000 100000 50 60 /\ room 100000 room_set 200000 100000 50 60
  /\ (forall i, 0 <= i < 20 -> let w := step_window c 360000000 100000 450000 600000 i in reads (1 / 4) 100000 room_set room_x ids st room_reads (fst w) (snd w))
  /\ (forall i, 0 <= i < 10 -> let w := step_window c 360000000 200000 450000 600000 i in reads (1 / 4) 100000 room_set room_x ids st room_reads (fst w) (snd w))
  /\ contributing room_set ids st <> [].
Proof.
  intros c st ids E e. pose proof room_leftover as E0. fold E in E0.
  assert (He : (0 <= e <= 1 / 10 ^ 9)%R).
  { unfold e, energy_error. split; [apply Rmult_le_pos; lra|]. apply Rle_trans with (16 * 1 * 6 * (1 / 10 ^ 14) * 73)%R; [apply Rmult_le_compat; lra|lra]. }
  split; [exact C138_cosine|]. split; [exact room_chained|]. split; [intros ph _; apply C138_applies|]. split; [intros; apply room_bound|]. split.
  { intros ph pc i t [<-|[]] Ec _. assert (pc = room_phase) by (cbn in Ec; congruence). subst pc. change (ltw_samples _ _) with 101. split; [unfold clean_energy; apply Rle_0_sqr|].
    assert (C : forall u, (39 <= clean_energy (fun _ => ex_sos) 60 room_x "P" i u)%R).
    { intros u. unfold clean_energy. rewrite room_two_sided. pose proof (room_gain_bounds 58) as G. set (g := room_gain 60) in *. assert (G2 : (25 / 4 <= g * g)%R) by (replace (25 / 4)%R with (5 / 2 * (5 / 2))%R by field; apply Rmult_le_compat; lra).
      assert (X : (room_x i u * room_x i u = 1)%R) by (unfold room_x; destruct (Z.even u); ring). replace (room_x i u * (g * g) * (room_x i u * (g * g)))%R with ((room_x i u * room_x i u) * ((g * g) * (g * g)))%R by ring. rewrite X, Rmult_1_l.
      apply Rle_trans with (25 / 4 * (25 / 4))%R; [lra|apply Rmult_le_compat; lra]. }
    unfold window_mean. set (f := clean_energy _ _ _ _ _) in *. assert (Sm : forall m s, (39 * INR m <= Rsum (map f (zseq s m)))%R). { unfold Rsum. induction m as [|m IH]; intros s; [cbn; lra|]. cbn [zseq map fold_right]. rewrite S_INR. pose proof (C s). pose proof (IH (s + 1)). lra. }
    specialize (Sm (Z.to_nat 101) t). rewrite INR_IZR_INZ, Z2Nat.id in Sm by lia. lra. }
  split; [lra|]. split.
  { unfold slack. assert (e / (39 - e) <= 1 / 10 ^ 9)%R; [|lra]. apply (Rmult_le_reg_r (39 - e)); [lra|]. unfold Rdiv at 1. rewrite Rmult_assoc, Rinv_l, Rmult_1_r by lra. apply Rle_trans with (1 / 10 ^ 9 * 1)%R; [lra|apply Rmult_le_compat_l; lra]. }
  split; [apply room_ready; try (vm_compute; congruence); [lia|exists 50; reflexivity]|]. split; [apply room_ready; try (vm_compute; congruence); [lia|exists 100; reflexivity]|]. split; [|split; [|split; [|split; [|split]]]].
  - constructor; try reflexivity; try lia.
    + constructor; [intros []|constructor].
    + constructor; [intros [H|[]]; discriminate|]. constructor; [intros [H|[]]; discriminate|constructor].
    + intros s p ((i, j), h) Is [<-|[]] Hq. cbn in Hq. assert (j = 0) by lia. assert (h = 0) by lia. subst j h. assert (Hi : i = 0 \/ i = 1) by lia. cbn [room_set o_rate]. destruct Hi as [->| ->]; match goal with |- context [entry0 ?t ?q] => let v := eval cbv -[IZR] in (entry0 t q) in change (entry0 t q) with v end; lra.
  - constructor; try (vm_compute; discriminate); try reflexivity; [constructor; [cbn; lia|constructor]| |]; (exists (50000, 200000); split; [left; reflexivity|vm_compute; discriminate]).
  - constructor; try (vm_compute; discriminate); try reflexivity; [constructor; [cbn; lia|constructor]| |]; (exists (50000, 200000); split; [left; reflexivity|vm_compute; discriminate]).
  - intros i Hi w. apply room_reads_ok. unfold w, step_window. cbn [fst snd]. change (delta c) with 2000. lia.
  - intros i Hi w. apply room_reads_ok. unfold w, step_window. cbn [fst snd]. change (delta c) with 2000. lia.
  - vm_compute. discriminate.
Qed.

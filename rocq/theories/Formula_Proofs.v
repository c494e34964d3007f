(** Proofs about the coalescence as a function of the records. *)
From Coq Require Import String Ascii.
From Coq Require Import List ZArith Reals QArith Bool Lia Lra.
From Verif Require Import Lib LibFacts PyDict Timeline_Model Timeline_Spec StaLta_Model Archive_Model Avail_Model Read_Model ScanMseed_Model ScanMseed_Spec Migrate_Spec Lut_Spec Locate_Spec Resample_Spec Onset_Model Onset_Spec Onset_Proofs StationSet_Spec StationSet_Proofs
  DetectRun_Model DetectRun_Spec DetectRun_Proofs Locate_Model LocateRun_Model LocateRun_Spec StaLta_Spec Window_Spec Window_Proofs Agree_Spec Agree_Proofs Formula_Spec.
From Verif Require Pipeline_Model Locate_Props LocateRun_Proofs DetectRun_Props Migrate_Proofs Source_Proofs Locate_Proofs Lut_Model Lut_Proofs Migrate_Model ScanMseed_Proofs Pipeline_Proofs.
Import ListNotations.
Open Scope Z_scope.

Lemma filter_filter_ {A} (f g : A -> bool) l : filter f (filter g l) = filter (fun x => g x && f x) l.
Proof. induction l as [|x l IH]; [reflexivity|]. cbn [filter]. destruct (g x); cbn [andb filter]; [destruct (f x)|]; rewrite ?IH; reflexivity. Qed.
Lemma chans_eq ids pc s : chans ids pc s = channels_of pc ids s.
Proof. unfold chans, channels_of. rewrite filter_filter_. apply filter_ext. intros i. unfold in_phase, of_st. destruct (at_dot (list_ascii_of_string i)). reflexivity. Qed.
Lemma enough_eq k ids pc s ph : dget (o_cfg k) ph = Some pc -> enough k ids pc s = has_onset k ids s ph.
Proof. intros E. unfold enough, has_onset. rewrite E, chans_eq. destruct (channels_of pc ids s); [reflexivity|]. destruct (o_all k); [apply Z.eqb_sym|reflexivity]. Qed.

Lemma peak_ext n coord f g r : (forall q, is_node n q -> f q = g q) -> is_peak n coord f r -> is_peak n coord g r.
Proof.
  intros E (q & Hq & Mx & Fi & C1 & C2 & C3). exists q. split; [exact Hq|]. split; [intros q' Hq'; rewrite <- !E by assumption; apply Mx, Hq'|]. split; [intros q' Hq' L; rewrite <- !E by assumption; apply Fi; assumption|].
  rewrite <- E by exact Hq. split; [exact C1|]. split; [|exact C3]. rewrite C2. do 2 f_equal. apply map_ext_in. intros q' I. apply E, Locate_Proofs.in_all_nodes, I.
Qed.

Lemma samples_from_inv {A} d : forall (l : list A) t u x, In (u, x) (samples_from d t l) -> exists i, rd l i = Some x /\ u = t + i * d.
Proof.
  induction l as [|a l IH]; intros t u x H; [destruct H|]. cbn [samples_from] in H. destruct H as [H|H].
  - exists 0. rewrite rd_0. split; [congruence|]. assert (t = u) by congruence. lia.
  - destruct (IH _ _ _ H) as (i & R & E). pose proof (rd_bounds _ _ _ _ R). exists (i + 1). rewrite rd_cons. destruct (Z.eqb_spec (i + 1) 0); [lia|]. replace (i + 1 - 1) with i by lia. split; [exact R|]. rewrite E. ring.
Qed.

Lemma steady_regular secs k l tab ids stations m reach : steady secs k l tab ids stations m reach -> regular secs k l tab ids stations reach.
Proof. intros [T1 T2 T3 T4 T5 T6 T7 T8]. constructor; assumption. Qed.
(** What is computed in a window: [Q], of the sample number and the five values. *)
Definition computed lowpass taper tiny secs k transform l r0 r1 (ids stations : list string) (Q : Z -> row R -> Prop) (pre post : Z) (d : wdata) : Prop :=
  let c := o_clock secs k in let w := n_window secs (o_rate k) (d_start d) (d_end d) - time2sample c pre - time2sample c post in
  (contributing k ids stations = [] /\ compute lowpass taper tiny secs k transform l r0 r1 pre post d = Raise DataAvailabilityException)
  \/ (contributing k ids stations <> [] /\ exists rows av, compute lowpass taper tiny secs k transform l r0 r1 pre post d = Ret (d_start d + pre, rows, av) /\ Z.of_nat (length rows) = w
      /\ forall j, 0 <= j < w -> exists row, rd rows j = Some row /\ Q (d_start d / (secs / o_rate k) + time2sample c pre + j) row).

Section One.
Variables (lowpass : Z -> list R -> list R) (taper : list R -> list R) (tiny : R) (secs : Z) (k : onset_cfg) (transform : Z -> Z -> Lut_Model.vec -> Lut_Model.vec) (l : Lut_Model.lut) (r0 : Migrate_Model.mreg) (r1 : Migrate_Model.freg).
Variables (tab : string -> string -> Lut_Model.table) (x : string -> Z -> R) (y : string -> string -> Z -> R) (ids stations : list string) (m : Z) (reach pre post : Z) (d : wdata).
Notation D := (secs / o_rate k).
Notation c := (o_clock secs k).
Notation rate := (IZR (o_rate k)).
Notation first := (time2sample c pre).
Notation last := (time2sample c post).
Notation nw := (n_window secs (o_rate k) (d_start d) (d_end d)).
Notation n := (Lut_Model.g_count (Lut_Model.l_grid l)).
Hypothesis H : window_ready lowpass taper tiny secs k l tab rate first last d.
Hypothesis St : regular secs k l tab ids stations reach.
Hypothesis Mp : 0 <= m.
Hypothesis Py : forall ph pc i t, In ph (o_phases k) -> dget (o_cfg k) ph = Some pc -> In i ids -> m <= t < nw - m -> Onset_Spec.sample (o_transform k (ph_band pc D (window_of secs k x d i))) t = y ph i (d_start d / D + t).
Hypothesis Rc : recorded secs k x ids d.
Hypothesis Lv : lively tiny secs k x ids d.
Hypothesis Dst : d_stations d = stations.
Hypothesis Cl : clear_of_ends secs k m first last reach.
Notation ck := (check lowpass taper tiny secs k d None).
Notation on := (rows_of lowpass taper tiny secs k d None).
Lemma used_is : used ck (o_phases k) stations = contributing k ids stations.
Proof.
  pose proof St as [T1 T2 T3 T4 T6 T8].
  unfold used, contributing. apply filter_ext_in. intros [s p] I. cbn [fst snd]. unfold pairs in I. apply in_flat_map in I. destruct I as (p' & Ip & I). apply in_map_iff in I. destruct I as (s' & X & Is). injection X as -> ->.
  destruct (wr_phases _ _ _ _ _ _ _ _ _ _ _ H p Ip) as (pc & Ec & _). rewrite (check_is lowpass taper tiny secs k l tab rate x ids T3 T1 T2 first last d H Rc Lv p pc s Ip Ec) by (rewrite Dst; exact Is). apply enough_eq, Ec.
Qed.
Lemma onset_is s p q smp : In (s, p) (contributing k ids stations) -> is_node n q -> 0 <= smp < nw - first - last ->
  value (on s p) (first + smp + Z.max 0 (np_round (entry0 (tab s p) q * rate))) = onset_of secs k ids y s p (d_start d / D + first + smp + Z.max 0 (np_round (entry0 (tab s p) q * rate))).
Proof.
  intros I Hq Hs. pose proof St as [T1 T2 T3 T4 T6 T8]. unfold contributing in I. apply filter_In in I. destruct I as (I & En). cbn [fst snd] in En. unfold pairs in I. apply in_flat_map in I. destruct I as (p' & Ip & I). apply in_map_iff in I. destruct I as (s' & X & Is). injection X as -> ->.
  pose proof (T8 s p q Is Ip Hq) as Rq. set (a := np_round (entry0 (tab s p) q * rate)) in *. assert (A : a <= reach) by (unfold a; rewrite <- (ScanMseed_Proofs.np_round_IZR reach); apply ScanMseed_Proofs.np_round_mono, Rq).
  destruct (wr_phases _ _ _ _ _ _ _ _ _ _ _ H p Ip) as (pc & Ec & (Hw & _) & _). destruct (Cl p pc Ip Ec) as (C1 & C2). rewrite <- (enough_eq k ids pc s p Ec) in En.
  rewrite (value_is lowpass taper tiny secs k l tab rate x ids T3 T1 T2 first last d H Rc Lv p pc s) by (assumption || (rewrite Dst; exact Is) || lia).
  unfold onset_at, onset_of. rewrite Ec, chans_eq. set (nsta := stw_samples c (ph_sta pc)) in *. set (nlta := ltw_samples c (ph_lta pc)) in *. do 2 f_equal. apply map_ext_in. intros i Ii.
  assert (Ii' : In i ids) by (unfold channels_of in Ii; apply filter_In in Ii; tauto).
  unfold sta_lta, ratio. set (u := first + smp + Z.max 0 a). destruct (Z.ltb_spec u (nlta - 1)); [lia|].
  assert (Hy : forall lo w, 0 <= w -> m <= lo -> lo + w <= nw - m -> window_mean (Onset_Spec.sample (o_transform k (ph_band pc D (window_of secs k x d i)))) lo w = window_mean (y p i) (d_start d / D + lo) w).
  { intros lo w Hw0 Hlo Hhi. apply window_mean_ext. intros j Hj. rewrite (Py p pc i (lo + j) Ip Ec Ii' ltac:(lia)). f_equal. ring. }
  destruct (o_centred k).
  - destruct (Z.leb_spec (nw - nsta) u); [lia|]. rewrite !Hy by lia. replace (d_start d / D + (u + 1)) with (d_start d / D + first + smp + Z.max 0 a + 1) by lia. replace (d_start d / D + (u - nlta + 1)) with (d_start d / D + first + smp + Z.max 0 a - nlta + 1) by lia. reflexivity.
  - rewrite !Hy by lia. replace (d_start d / D + (u - nsta + 1)) with (d_start d / D + first + smp + Z.max 0 a - nsta + 1) by lia. replace (d_start d / D + (u - nlta + 1)) with (d_start d / D + first + smp + Z.max 0 a - nlta + 1) by lia. reflexivity.
Qed.
(** Without a station and phase with an onset function. *)
Lemma map_none : contributing k ids stations = [] -> compute_coalescence lowpass taper tiny secs k r0 l d rate first last = Raise DataAvailabilityException.
Proof.
  intros EU. pose proof used_is as Us. pose proof H as [_ _ _ _ _ _ _ _ _ _ _ _ Np Ns Pp Ps _ _ _ _ _ _]. rewrite (compute_is lowpass taper tiny secs k l tab rate first last d r0 H). unfold Lut_Model.compute_map.
  rewrite (Lut_Proofs.calculate_onsets_ok ck on (o_phases k) (d_stations d) Np Ns Pp Ps). rewrite Dst, Us, EU. reflexivity.
Qed.
(** The map of a window. *)
Lemma map_one : contributing k ids stations <> [] -> exists mp, compute_coalescence lowpass taper tiny secs k r0 l d rate first last = Ret mp /\ Z.of_nat (length mp) = n_nodes n * (nw - first - last)
  /\ forall q smp, is_node n q -> 0 <= smp < nw - first - last -> rd mp (flat n q * (nw - first - last) + smp) = Some (coalescence_of secs k tab ids stations y (d_start d / D + first + smp) q).
Proof.
  intros NZ. pose proof used_is as Us. assert (NU : used ck (o_phases k) (d_stations d) <> []) by (rewrite Dst, Us; exact NZ).
  destruct (map_of lowpass taper tiny secs k l tab rate first last d r0 H NU) as (mp & E & L & Hv). rewrite Dst, Us in Hv. exists mp. split; [exact E|]. split; [exact L|].
  intros q smp Hq Hs. rewrite (Hv q smp Hq Hs). unfold coalescence_of. do 2 f_equal. apply map_ext_in. intros [s p] I. cbn [fst snd]. unfold clip01. rewrite (onset_is s p q smp I Hq Hs). reflexivity.
Qed.
(** The rows of a window. *)
Lemma compute_one : computed lowpass taper tiny secs k transform l r0 r1 ids stations (fun t => is_peak n (node_coord transform (Lut_Model.l_grid l)) (coalescence_of secs k tab ids stations y t)) pre post d.
Proof.
  unfold computed. cbv zeta. destruct (contributing k ids stations) as [|u0 u] eqn:EU.
  - left. split; [reflexivity|]. pose proof (map_none EU) as E.
    unfold compute, d_clock. destruct (wr_lengths lowpass taper tiny secs k l tab rate _ _ d H) as [Eo|(st & Eo & _)]; rewrite Eo; cbn [bind]; [reflexivity|]. rewrite E. reflexivity.
  - right. split; [discriminate|]. destruct map_one as (mp & E & L & Hv'); [rewrite EU; discriminate|]. clear EU u0 u.
    assert (P : forall q smp, is_node n q -> 0 <= smp < nw - first - last -> exists v, rd mp (flat n q * (nw - first - last) + smp) = Some v /\ (0 < v)%R).
    { intros q smp Hq Hs. eexists. split; [exact (Hv' q smp Hq Hs)|]. apply Pipeline_Proofs.geometric_mean_pos. intros z Hz. apply in_map_iff in Hz. destruct Hz as (sp & <- & _). eapply Rlt_le_trans; [|apply Rmax_r]. lra. }
    destruct (onsets_of lowpass taper tiny secs k l _ _ _ _ _ E) as (st & Es). pose proof (wr_grid _ _ _ _ _ _ _ _ _ _ _ H) as Hg. pose proof (wr_samples _ _ _ _ _ _ _ _ _ _ _ H) as W1.
    pose proof (Lut_Proofs.pos3_nodes _ (Lut_Proofs.grid_ok_pos _ Hg)) as Np. assert (Wd : 0 <= nw - first - last) by lia.
    destruct (rows_of_map transform l r1 mp _ Hg Wd L P) as (o & rows & Eo & Er & Lr & Hr). exists rows, (l_avail st). split; [|split; [exact Lr|]].
    + unfold compute, d_clock. rewrite Es. cbn [bind]. rewrite E. cbn [bind]. change (let '(nx, ny, nz) := Lut_Model.g_count (Lut_Model.l_grid l) in nx * ny * nz) with (n_nodes (Lut_Model.g_count (Lut_Model.l_grid l))).
      rewrite L at 1. rewrite (Z.mul_comm (n_nodes _) (_ - _ - _)), Z.div_mul by lia. rewrite Eo. cbn [bind]. rewrite Er. reflexivity.
    + intros j Hj. destruct (Hr j Hj) as (row & Rr & Pk). exists row. split; [exact Rr|]. eapply peak_ext; [|exact Pk]. intros q Hq. unfold value. rewrite (Hv' q j Hq Hj). reflexivity.
Qed.
End One.
Lemma compute_steady lowpass taper tiny secs k transform l r0 r1 tab x y ids stations m reach pre post d : window_ready lowpass taper tiny secs k l tab (IZR (o_rate k)) (time2sample (o_clock secs k) pre) (time2sample (o_clock secs k) post) d ->
  steady secs k l tab ids stations m reach -> processed secs k m x ids y -> recorded secs k x ids d -> lively tiny secs k x ids d -> d_stations d = stations ->
  forall nt, n_window secs (o_rate k) (d_start d) (d_end d) = nt -> clear_of_ends secs k (m nt) (time2sample (o_clock secs k) pre) (time2sample (o_clock secs k) post) reach ->
  computed lowpass taper tiny secs k transform l r0 r1 ids stations (fun t => is_peak (Lut_Model.g_count (Lut_Model.l_grid l)) (node_coord transform (Lut_Model.l_grid l)) (coalescence_of secs k tab ids stations y t)) pre post d.
Proof.
  intros W St Py Rc Lv Ds nt <- Cl. destruct St as [T1 T2 T3 T4 T5 T6 T7 T8]. apply (compute_one lowpass taper tiny secs k transform l r0 r1 tab x y ids stations (m (n_window secs (o_rate k) (d_start d) (d_end d))) reach pre post d W); try assumption; [constructor; assumption|apply T5|].
  intros ph pc i t Ip Ec Ii Ht. pose proof (Py ph pc i (d_start d / (secs / o_rate k)) (n_window secs (o_rate k) (d_start d) (d_end d)) (d_start d / (secs / o_rate k) + t) Ip Ec Ii ltac:(lia)) as Q. replace (d_start d / (secs / o_rate k) + t - d_start d / (secs / o_rate k)) with t in Q by ring. exact Q.
Qed.

(** ** The whole scan; [x i]: the records as the step [i] sees them *)
Section Scan.
Variables (lowpass : Z -> list R -> list R) (taper : list R -> list R) (tiny : R) (secs : Z) (k : onset_cfg) (transform : Z -> Z -> Lut_Model.vec -> Lut_Model.vec) (ucf : R) (l : Lut_Model.lut) (r0 : Migrate_Model.mreg) (r1 : Migrate_Model.freg).
Variables (tab : string -> string -> Lut_Model.table) (stations : list string) (x : Z -> string -> Z -> R) (ids : list string) (Q : Z -> row R -> Prop) (starttime timestep pre post n : Z) (read : Z -> Z -> outcome wdata).
Notation D := (secs / o_rate k).
Notation c := (o_clock secs k).
Hypothesis S : scan_ready lowpass taper tiny secs k transform ucf l tab stations starttime timestep pre post.
Hypothesis Pd : Forall plain_station stations.
Notation W := (fun i => step_window c starttime timestep pre post i).
Hypothesis Rd : forall i, 0 <= i < n -> reads tiny secs k (x i) ids stations read (fst (W i)) (snd (W i)).
Hypothesis Hn : 0 < n.
Hypothesis Hc : forall i d, 0 <= i < n -> read (fst (W i)) (snd (W i)) = Ret d -> d_start d = fst (W i) -> d_end d = snd (W i) -> d_stations d = stations -> recorded secs k (x i) ids d -> lively tiny secs k (x i) ids d ->
  window_ready lowpass taper tiny secs k l tab (IZR (o_rate k)) (time2sample c pre) (time2sample c post) d -> n_window secs (o_rate k) (d_start d) (d_end d) = (timestep + pre + post) / D ->
  computed lowpass taper tiny secs k transform l r0 r1 ids stations Q pre post d.
Lemma zero_row : encode_row ucf (mk_row 0 0 0 0 0)%R = Some (mk_row 0 0 0 0 0).
Proof. unfold encode_row, clip_coa, data2int. cbn [coa coa_n px py pz]. destruct (Rlt_dec 21474 0); [lra|]. rewrite !Rmult_0_l. assert (Z0 : np_round 0 = 0) by (change 0%R with (IZR 0); apply ScanMseed_Proofs.np_round_IZR). rewrite Z0. reflexivity. Qed.
Lemma step_at t : (D | t) -> starttime <= t < starttime + timestep * n -> exists i j, 0 <= i < n /\ 0 <= j < timestep / D /\ t = starttime + timestep * i + j * D.
Proof.
  intros Gu Hu. destruct (sr_multiples lowpass taper tiny secs k transform ucf l tab stations starttime timestep pre post S) as (_ & _ & q & _ & _ & Em & _ & _ & Hq & _).
  destruct (sr_delta lowpass taper tiny secs k transform ucf l tab stations starttime timestep pre post S) as (Dp & _). destruct (sr_start _ _ _ _ _ _ _ _ _ _ _ _ _ _ S) as [y0 Hy]. destruct Gu as [u Eu].
  assert (Tq : timestep / D = q) by (rewrite Em; apply Z.div_mul; lia). rewrite Tq. rewrite Em, Hy, Eu in Hu.
  assert (A1 : y0 <= u) by (apply (Zmult_le_reg_r _ _ D); lia). assert (A2 : u < y0 + q * n) by (apply (Z.mul_lt_mono_pos_r D); lia).
  pose proof (Z.div_mod (u - y0) q ltac:(lia)) as Dm. pose proof (Z.mod_pos_bound (u - y0) q ltac:(lia)) as Bm. set (i := (u - y0) / q) in *. set (j := (u - y0) mod q) in *.
  exists i, j. split; [unfold i; split; [apply Z.div_pos; lia|apply Z.div_lt_upper_bound; lia]|]. split; [exact Bm|].
  rewrite Eu, Hy, Em. replace (y0 * D + q * D * i + j * D) with ((y0 + (q * i + j)) * D) by ring. rewrite <- Dm. f_equal. ring.
Qed.
Lemma step_rows i rs av : 0 <= i < n -> made lowpass taper tiny secs k transform l r0 r1 stations starttime timestep pre post read i rs av ->
  (contributing k ids stations = [] /\ rs = repeat (mk_row 0 0 0 0 0)%R (Z.to_nat (timestep / D)))
  \/ (contributing k ids stations <> [] /\ Z.of_nat (length rs) = timestep / D
      /\ forall j row, rd rs j = Some row -> Q ((starttime + timestep * i + j * D) / D) row).
Proof.
  intros Bi Mk. destruct (Rd i Bi) as (d & Er & Es & Ee & Est & Rc & Lv). pose proof Es as Es0. pose proof Ee as Ee0. unfold step_window in Es, Ee. cbn [fst snd o_clock delta] in Es, Ee.
  unfold made in Mk. rewrite Er in Mk. destruct Mk as [(e & N)|(d0 & N & Mk)]; [discriminate|]. assert (d0 = d) by congruence. subst d0. clear N.
  destruct (scan_window lowpass taper tiny secs k transform ucf l tab (x i) ids stations starttime timestep pre post i d S Pd Es Ee Est Rc) as (Wr & Nw & Nt).
  destruct (Hc i d Bi Er Es0 Ee0 Est Rc Lv Wr Nt) as [(Z0 & Ec)|(NZ & rows & av' & Ec & Lr & Hr)].
  - left. split; [exact Z0|]. rewrite Ec in Mk. destruct Mk as [(_ & Ers & _)|(av1 & N & _)]; [|discriminate]. exact Ers.
  - right. split; [exact NZ|]. rewrite Ec in Mk. destruct Mk as [(N & _)|(av1 & Eq & _)]; [discriminate|]. assert (rs = rows) by congruence. subst rs. rewrite Nw in Hr, Lr. split; [exact Lr|]. intros j row Rj. pose proof (rd_bounds _ _ _ _ Rj) as Bj. rewrite Lr in Bj. destruct (Hr j Bj) as (row' & Rr & Pk). assert (row' = row) by congruence. subst row'.
    replace ((starttime + timestep * i + j * D) / D) with (d_start d / D + time2sample c pre + j); [exact Pk|].
    destruct (sr_multiples lowpass taper tiny secs k transform ucf l tab stations starttime timestep pre post S) as (pa & _ & q & Ea & _ & Em & _ & _ & _ & Ta & _ & _).
    destruct (sr_delta lowpass taper tiny secs k transform ucf l tab stations starttime timestep pre post S) as (Dp & _). destruct (sr_start _ _ _ _ _ _ _ _ _ _ _ _ _ _ S) as [y0 Hy].
    rewrite Ta, Es, Ea, Hy, Em. replace (y0 * D + q * D * i - pa * D) with ((y0 + q * i - pa) * D) by ring. replace (y0 * D + q * D * i + j * D) with ((y0 + q * i + j) * D) by ring. rewrite !Z.div_mul by lia. lia.
Qed.
Lemma all_answers i : 0 <= i < n -> answers secs k stations (fst (W i)) (snd (W i)) (read (fst (W i)) (snd (W i))).
Proof.
  intros Bi. destruct (Rd i Bi) as (d & Er & Es & Ee & Est & Rc & _). right. exists d. split; [exact Er|]. split; [exact Es|]. split; [exact Ee|]. split; [exact Est|]. rewrite <- Es, <- Ee. unfold step_window in Es, Ee. cbn [fst snd o_clock delta] in Es, Ee.
  destruct (scan_window lowpass taper tiny secs k transform ucf l tab (x i) ids stations starttime timestep pre post i d S Pd Es Ee Est Rc) as (Wr & _). exact (wr_data _ _ _ _ _ _ _ _ _ _ _ Wr).
Qed.
Lemma scan_formula_at cw fs afs : exists f a, continuous_compute lowpass taper tiny secs k transform ucf l r0 r1 cw read stations fs afs starttime timestep n = Ret (f, a)
  /\ forall t, (D | t) -> starttime <= t < starttime + timestep * n ->
     (contributing k ids stations = [] /\ stored c f t (mk_row 0 0 0 0 0))
     \/ (contributing k ids stations <> [] /\ exists row z, Q (t / D) row
         /\ encode_row ucf row = Some z /\ stored c f t z).
Proof.
  destruct (scan_stored lowpass taper tiny secs k transform ucf l r0 r1 tab stations starttime timestep pre post cw read fs afs n S Hn all_answers) as (f & a & E & Hst).
  cbn [o_clock delta] in Hst. exists f, a. split; [exact E|]. intros t Gt Ht. destruct (step_at t Gt Ht) as (i & j & Bi & Bj & Et). destruct (Hst i Bi) as (rs & av & Mk & Lr & Hs).
  destruct (step_rows i rs av Bi Mk) as [(Z0 & Ers)|(NZ & _ & Hr)].
  - left. split; [exact Z0|]. destruct (Hs j (mk_row 0 0 0 0 0)%R) as (z & Ez & Sz); [rewrite Ers; apply rd_repeat; lia|]. rewrite <- Et in Sz. rewrite zero_row in Ez. congruence.
  - right. split; [exact NZ|]. destruct (rd_in_range _ rs j ltac:(lia)) as (row & Rr). destruct (Hs j row Rr) as (z & Ez & Sz). rewrite <- Et in Sz. exists row, z. split; [|split; assumption]. rewrite Et. exact (Hr j row Rr).
Qed.
(** The same of the samples handed to the store. *)
Lemma scan_blocks_at cw fs afs f a : continuous_compute lowpass taper tiny secs k transform ucf l r0 r1 cw read stations fs afs starttime timestep n = Ret (f, a) -> contributing k ids stations <> [] ->
  exists blocks, blocks <> [] /\ consecutive c starttime blocks /\ Pipeline_Model.store_run c ucf cw fs blocks = Ret f
  /\ (forall t row, In (t, row) (run_samples c blocks) -> (D | t) /\ starttime <= t < starttime + timestep * n /\ Q (t / D) row)
  /\ forall t, (D | t) -> starttime <= t < starttime + timestep * n -> exists row, In (t, row) (run_samples c blocks).
Proof.
  intros E NZ. destruct (sr_delta lowpass taper tiny secs k transform ucf l tab stations starttime timestep pre post S) as (Dp & Sp).
  destruct (steps_full lowpass taper tiny secs k transform ucf l r0 r1 tab stations starttime timestep pre post S read (zrange n)) as (bl & F). { intros i Hi. apply in_zrange in Hi. apply all_answers, Hi. }
  assert (Lb : Z.of_nat (length bl) = n). { clear - F Hn. assert (length bl = length (zrange n)) by (induction F; cbn [length]; congruence). rewrite H, zrange_length. lia. }
  assert (Ez : zrange n = zseq 0 (length bl)) by (unfold zrange; f_equal; lia). pose proof F as F0. rewrite Ez in F.
  destruct (run_ok lowpass taper tiny secs k transform ucf l r0 r1 tab stations starttime timestep pre post S read cw fs afs 0 bl) as (Cs & f' & E2 & E1); [intros ->; cbn in Lb; lia|clear - F; induction F as [|? ? ? ? H _ IH]; constructor; tauto|].
  set (blocks := map _ (combine _ bl)) in Cs, E2. rewrite Z.mul_0_r, Z.add_0_r in Cs.
  assert (Eq : exists a', continuous_compute lowpass taper tiny secs k transform ucf l r0 r1 cw read stations fs afs starttime timestep n = Ret (f', a')).
  { eexists. unfold continuous_compute, d_clock. rewrite (sr_pads _ _ _ _ _ _ _ _ _ _ _ _ _ _ S). cbn [fst snd]. rewrite Ez, E1. reflexivity. }
  destruct Eq as (a' & Eq). assert (f' = f) by congruence. subst f'. exists blocks. split; [unfold blocks; destruct bl; [cbn in Lb; lia|discriminate]|]. split; [exact Cs|]. split; [exact E2|]. split.
  - intros t row I. unfold run_samples in I. apply in_flat_map in I. destruct I as (g & Ig & I). unfold blocks in Ig. apply in_map_iff in Ig. destruct Ig as ((i, (rs, av)) & <- & Ic). cbn [fst snd] in I.
    unfold samples, block_of in I. cbn [t0 rows] in I. destruct (samples_from_inv _ _ _ _ _ I) as (j & Rj & Et). cbn [o_clock delta block_of t0 rows] in Et, Rj.
    assert (Mk : 0 <= i < n /\ made lowpass taper tiny secs k transform l r0 r1 stations starttime timestep pre post read i rs av).
    { rewrite <- Ez in Ic. clear - F0 Ic. assert (G : forall is b, Forall2 (fun i b => made lowpass taper tiny secs k transform l r0 r1 stations starttime timestep pre post read i (fst b) (snd b)) is b -> In (i, (rs, av)) (combine is b) -> In i is /\ made lowpass taper tiny secs k transform l r0 r1 stations starttime timestep pre post read i rs av).
      { induction 1 as [|i0 b0 is b M _ IH]; [intros []|]. intros [X|X]; [|destruct (IH X) as (Y1 & Y2); split; [right; exact Y1|exact Y2]]. assert (i0 = i) by congruence. assert (b0 = (rs, av)) by congruence. subst. split; [left; reflexivity|exact M]. }
      destruct (G (zrange n) bl) as (Ii & M); [|exact Ic|split; [apply in_zrange, Ii|exact M]]. clear - F0. induction F0 as [|? ? ? ? H _ IH]; constructor; tauto. }
    destruct Mk as (Bi & Mk). destruct (step_rows i rs av Bi Mk) as [(Z0 & _)|(_ & Lr & Hr)]; [contradiction|]. rewrite Et. split; [|split; [|exact (Hr j row Rj)]].
    + destruct (sr_start _ _ _ _ _ _ _ _ _ _ _ _ _ _ S) as [y0 Hy]. destruct (sr_whole _ _ _ _ _ _ _ _ _ _ _ _ _ _ S) as [w0 Hw]. exists (y0 + w0 * i + j). rewrite Hy, Hw. ring.
    + pose proof (rd_bounds _ _ _ _ Rj) as Bj. rewrite Lr in Bj. destruct (sr_whole _ _ _ _ _ _ _ _ _ _ _ _ _ _ S) as [w0 Hw]. rewrite Hw, Z.div_mul in Bj by lia. rewrite Hw.
      assert (0 <= w0 * i * D) by (apply Z.mul_nonneg_nonneg; [apply Z.mul_nonneg_nonneg; lia|lia]). assert (0 <= j * D) by (apply Z.mul_nonneg_nonneg; lia). assert ((w0 * i + j) * D < w0 * n * D); [|lia]. apply Z.mul_lt_mono_pos_r; [exact Dp|]. assert (w0 * (i + 1) <= w0 * n) by (apply Z.mul_le_mono_nonneg_l; lia). lia.
  - intros t Gt Ht. destruct (step_at t Gt Ht) as (i & j & Bi & Bj & Et). assert (Zi : rd (zrange n) i = Some i) by (apply rd_zrange; lia). destruct (DetectRun_Props.forall2_rd _ _ _ F0 i i Zi) as ((rs, av) & R & (_ & Lr & _)). cbn [fst snd] in Lr.
    destruct (rd_in_range _ rs j ltac:(lia)) as (row & Rj). exists row. unfold run_samples. apply in_flat_map. exists (mk_seg (starttime + timestep * i) rs). split; [|unfold samples; cbn [t0 rows]; rewrite Et; apply (Pipeline_Proofs.samples_from_in D), Rj].
    unfold blocks. apply in_map_iff. exists (i, (rs, av)). split; [reflexivity|]. rewrite <- Ez. apply (rd_in _ _ i). exact (DetectRun_Props.rd_combine _ _ _ _ _ Zi R).
Qed.
End Scan.
Definition scan_formula lp tp tiny secs k tr ucf l r0 r1 tab stations x := scan_formula_at lp tp tiny secs k tr ucf l r0 r1 tab stations (fun _ => x).
Definition scan_blocks lp tp tiny secs k tr ucf l r0 r1 tab stations x := scan_blocks_at lp tp tiny secs k tr ucf l r0 r1 tab stations (fun _ => x).

(** ** An event *)
Section Event.
Variables (lowpass : Z -> list R -> list R) (taper : list R -> list R) (tiny : R) (secs : Z) (k : onset_cfg) (transform : Z -> Z -> Lut_Model.vec -> Lut_Model.vec) (l : Lut_Model.lut) (r0 : Migrate_Model.mreg) (r1 : Migrate_Model.freg).
Variables (tab : string -> string -> Lut_Model.table) (stations : list string) (x : string -> Z -> R) (ids : list string) (Q : Z -> row R -> Prop) (mw pre post trig : Z) (d : wdata).
Notation D := (secs / o_rate k).
Notation c := (o_clock secs k).
Hypothesis S : locate_ready lowpass taper tiny secs k l tab stations mw pre post.
Hypothesis Pd : Forall plain_station stations.
Hypothesis Gt : (D | trig).
Hypothesis Ds : d_start d = trig - 2 * mw - pre.
Hypothesis De : d_end d = trig + 2 * mw + post.
Hypothesis Dst : d_stations d = stations.
Hypothesis Rc : recorded secs k x ids d.
Hypothesis Lv : lively tiny secs k x ids d.
Hypothesis Hc : window_ready lowpass taper tiny secs k l tab (IZR (o_rate k)) (time2sample c pre) (time2sample c post) d -> n_window secs (o_rate k) (d_start d) (d_end d) = (4 * mw + pre + post) / D + 1 -> computed lowpass taper tiny secs k transform l r0 r1 ids stations Q pre post d.
Lemma event_formula :
  (contributing k ids stations = [] /\ event_compute lowpass taper tiny secs k transform l r0 r1 pre post mw d trig = Raise DataAvailabilityException)
  \/ (contributing k ids stations <> [] /\ exists ev row, event_compute lowpass taper tiny secs k transform l r0 r1 pre post mw d trig = Ret ev
      /\ (forall t, (D | t) -> trig - 2 * mw <= t <= trig + 2 * mw -> Q (t / D) (row t))
      /\ Forall2 (fun t e => same_sample t (row t) e) (mw_times c trig mw) (e_rows ev)
      /\ first_best D (trig - 2 * mw) (trig + 2 * mw) (fun t => coa (row t)) (e_otime ev)
      /\ max_coalescence ev = Ret (e_otime ev, coa (row (e_otime ev)), coa_n (row (e_otime ev)))).
Proof.
  destruct (LocateRun_Proofs.lr_multiples lowpass taper tiny secs k l tab stations mw pre post S) as (pa & _ & q' & Ea & _ & Em' & _ & _ & Hq' & Ta & _). destruct (LocateRun_Proofs.lr_delta lowpass taper tiny secs k l tab stations mw pre post S) as (Dp & _).
  assert (Mq : mw / D = q') by (rewrite Em'; apply Z.div_mul; lia). assert (Mp : 0 < mw) by (rewrite Em'; apply Z.mul_pos_pos; lia).
  destruct (event_window_ready lowpass taper tiny secs k l tab x ids stations mw pre post trig d S Pd Gt Ds De Dst Rc) as (Wr & Nw & Nt).
  destruct (Hc Wr Nt) as [(Z0 & Ec)|(NZ & rows' & av' & Ec & L' & Hr)]; [left|right]; (split; [assumption|]).
  - destruct (LocateRun_Proofs.event_ok lowpass taper tiny secs k transform l r0 r1 tab stations mw pre post S trig d Gt Ds De Dst (wr_data _ _ _ _ _ _ _ _ _ _ _ Wr)) as [(_ & Eq)|(r & tt & ev & s0 & q0 & H)]; [exact Eq|].
    exfalso. cbv zeta in H. destruct H as (_ & _ & Eq & _). exact (event_without _ _ _ _ _ _ _ _ _ _ _ mw _ trig _ Ec ev Eq).
  - rewrite Nw in L', Hr. destruct (event_from_compute lowpass taper tiny secs k transform l r0 r1 pre post mw d trig _ _ _ Ec) as (slices & Ee).
    assert (Lm : Z.of_nat (length (mw_times c trig mw)) = 4 * (mw / D) + 1). { unfold mw_times. rewrite map_length, zrange_length. cbn [o_clock delta]. rewrite Em'. replace (4 * (q' * D)) with (4 * q' * D) by ring. rewrite !Z.div_mul by lia. lia. }
    destruct (Locate_Props.C38_origin_is_peak _ c trig mw (map coa rows') (map coa_n rows') (map (fun r => (px r, py r, pz r)) rows') slices Dp ltac:(lia)) as (ev & p & E1 & Hfl & Ho & Hmc & D1 & D2 & D3 & D4 & _); try (rewrite map_length; lia).
    set (row := fun t => match rd rows' ((t - (trig - 2 * mw)) / D) with Some r => r | None => mk_row 0 0 0 0 0 end%R).
    assert (Rw : forall j, 0 <= j < 4 * (mw / D) + 1 -> rd rows' j = Some (row (trig - 2 * mw + j * D))).
    { intros j Bj. unfold row. replace (trig - 2 * mw + j * D - (trig - 2 * mw)) with (j * D) by ring. rewrite Z.div_mul by lia. destruct (rd_in_range _ rows' j ltac:(lia)) as (r & ->). reflexivity. }
    assert (Tj : forall t, (D | t) -> trig - 2 * mw <= t <= trig + 2 * mw -> exists j, 0 <= j < 4 * (mw / D) + 1 /\ t = trig - 2 * mw + j * D).
    { intros t (u & Eu) Bu. destruct Gt as [g Hg]. rewrite Mq. exists (u - g + 2 * q'). rewrite Eu, Hg, Em' in Bu |- *.
      assert (A3 : g - 2 * q' <= u) by (apply (Zmult_le_reg_r _ _ D); lia). assert (A4 : u <= g + 2 * q') by (apply (Zmult_le_reg_r _ _ D); lia). split; [lia|ring]. }
    exists ev, row. split; [rewrite Ee; exact E1|]. cbn [o_clock delta] in Ho. assert (Fl := Hfl). destruct Hfl as (v & Hv & Hmax & Hfirst). pose proof (rd_bounds _ _ _ _ Hv) as Bp. rewrite map_length, L' in Bp. rewrite rd_map, (Rw p Bp) in Hv. cbn [option_map] in Hv. rewrite <- Ho in Hv.
    split; [|split; [|split]].
    + intros t Gu Hu. destruct (Tj t Gu Hu) as (j & Bj & Et). destruct (Hr j Bj) as (r & Rr & Pk). rewrite (Rw j Bj), <- Et in Rr. assert (r = row t) by congruence. subst r. replace (t / D) with (d_start d / D + time2sample c pre + j); [exact Pk|].
      destruct Gt as [g Hg]. rewrite Ta, Et, Ds, Ea, Hg, Em'. replace (g * D - 2 * (q' * D) - pa * D) with ((g - 2 * q' - pa) * D) by ring. replace (g * D - 2 * (q' * D) + j * D) with ((g - 2 * q' + j) * D) by ring. rewrite !Z.div_mul by lia. lia.
    + assert (Le : Z.of_nat (length (e_rows ev)) = 4 * (mw / D) + 1) by (rewrite <- Lm, <- D1, map_length; reflexivity).
      apply forall2_of_rd; [lia|]. intros j t e Rt Re. pose proof (rd_bounds _ _ _ _ Re) as Bj. rewrite Le in Bj.
      assert (Et : t = trig - 2 * mw + j * D). { unfold mw_times in Rt. rewrite rd_map in Rt. rewrite rd_zrange in Rt by (cbn [o_clock delta]; rewrite Em'; replace (4 * (q' * D)) with (4 * q' * D) by ring; rewrite Z.div_mul by lia; lia). cbn [option_map o_clock delta] in Rt. congruence. }
      pose proof (f_equal (fun l => rd l j) D1) as Q1. pose proof (f_equal (fun l => rd l j) D2) as Q2. pose proof (f_equal (fun l => rd l j) D3) as Q3. pose proof (f_equal (fun l => rd l j) D4) as Q4. cbv beta in Q1, Q2, Q3, Q4.
      rewrite rd_map, Re, Rt in Q1. rewrite !rd_map, Re, (Rw j Bj), <- Et in Q2. rewrite !rd_map, Re, (Rw j Bj), <- Et in Q3. rewrite !rd_map, Re, (Rw j Bj), <- Et in Q4. cbn [option_map] in *. unfold same_sample. destruct e as [e1 e2 e3 e4]. cbn [r_dt r_coa r_norm r_xyz] in *. congruence.
    + split; [|split].
      * rewrite Ho. rewrite Mq in Bp. rewrite Em'. nia.
      * rewrite Ho. destruct Gt as [g Hg]. rewrite Hg, Em'. exists (g - 2 * q' + p). ring.
      * intros u Hu Gu. destruct (Tj u Gu Hu) as (j' & Bj' & Eu). assert (Ru : rd (map coa rows') j' = Some (coa (row u))) by (rewrite rd_map, (Rw j' Bj'), <- Eu; reflexivity).
        assert (Ev : v = coa (row (e_otime ev))) by congruence. rewrite <- Ev. split; [exact (Hmax j' _ Ru)|]. intros Hlt. apply (Hfirst j' _); [|exact Ru]. rewrite Ho, Eu in Hlt. apply (Z.mul_lt_mono_pos_r D); lia.
    + rewrite Hmc. unfold value. rewrite !rd_map, (Rw p Bp). cbn [option_map]. rewrite <- Ho. reflexivity.
Qed.
End Event.

(** ** A source *)
Lemma geo_lt {A} (f g : A -> R) l a : (forall b, In b l -> (0 < f b <= g b)%R) -> In a l -> (f a < g a)%R -> (geometric_mean (map f l) < geometric_mean (map g l))%R.
Proof.
  intros H Ia La. assert (Lp : (0 < INR (length l))%R) by (apply lt_0_INR; destruct l; [destruct Ia|cbn; lia]).
  rewrite !Migrate_Proofs.geometric_mean_exp by (intros z I; apply in_map_iff in I; destruct I as (b & <- & I); destruct (H b I); lra). rewrite !map_map, !map_length. apply exp_increasing. apply Rmult_lt_compat_r; [apply Rinv_0_lt_compat, Lp|].
  apply (Source_Proofs.Rsum_map_lt _ _ l a Ia); [intros b I; destruct (H b I); apply Source_Proofs.ln_le; assumption|]. destruct (H a Ia). apply ln_increasing; assumption.
Qed.
Lemma source_peak secs k tab ids stations y n T t0 q0 t q : source secs k tab ids stations y n T t0 q0 -> T t -> is_node n q -> (t, q) <> (t0, q0) ->
  (coalescence_of secs k tab ids stations y t q < coalescence_of secs k tab ids stations y t0 q0)%R.
Proof.
  intros [S1 S2 S3 S4] Ht Hq Ne. destruct (S4 t q Ht Hq Ne) as (s & ph & I & Na). unfold coalescence_of.
  apply (geo_lt _ _ _ (s, ph)).
  - intros (s', p') I'. cbn [fst snd]. pose proof (Rmax_r (onset_of secs k ids y s' p' (arrive k tab s' p' q t)) (1 / 100)). split; [lra|]. apply Rle_max_compat_r.
    destruct (Z.eq_dec (arrive k tab s' p' q t) (arrive k tab s' p' q0 t0)) as [->|N]; [lra|]. left. apply S3; assumption.
  - exact I.
  - cbn [fst snd]. apply Source_Proofs.clip01_strict; [apply S3; assumption|apply S2, I].
Qed.

(** Proofs about the scan of an archive. *)
From Coq Require Import String Ascii.
From Coq Require Import List ZArith Reals QArith Bool Lia Lra.
From Verif Require Import Lib LibFacts PyDict Timeline_Model Timeline_Spec ScanMseed_Model ScanMseed_Spec Migrate_Spec Lut_Spec Locate_Spec Resample_Spec Onset_Model Onset_Spec Onset_Proofs Compute_Spec DetectRun_Model DetectRun_Spec.
From Verif Require Avail_Model Migrate_Model Migrate_Proofs Lut_Model Lut_Proofs Locate_Proofs Timeline_Proofs Resample_Proofs ScanMseed_Proofs ScanMseed_Props Compute_Props Pipeline_Model Pipeline_Proofs.
Import ListNotations.
Open Scope Z_scope.

Lemma scan_rows_ok transform l : forall mx nm ix, length nm = length mx -> length ix = length mx ->
  (forall s a b i, rd mx s = Some a -> rd nm s = Some b -> rd ix s = Some i -> exists v c, b = Some v /\ Lut_Model.flat2coord transform (Lut_Model.l_grid l) i = Ret c) ->
  exists rows, scan_rows transform l mx nm ix = Ret rows /\ length rows = length mx
  /\ forall s a b i, rd mx s = Some a -> rd nm s = Some b -> rd ix s = Some i -> exists v x y z, b = Some v /\ Lut_Model.flat2coord transform (Lut_Model.l_grid l) i = Ret (x, y, z) /\ rd rows s = Some (mk_row a v x y z).
Proof.
  induction mx as [|a mx IH]; intros [|b nm] [|i ix] L1 L2 H; try discriminate.
  - exists []. split; [reflexivity|]. split; [reflexivity|]. intros s a b i C. rewrite rd_nil in C. discriminate.
  - cbn [scan_rows]. destruct (H 0 a b i (rd_0 _ _ _) (rd_0 _ _ _) (rd_0 _ _ _)) as (v & ((x, y), z) & -> & Ec). rewrite Ec. cbn [bind].
    destruct (IH nm ix) as (rows & Er & Lr & Hr); [cbn in L1; lia|cbn in L2; lia| |].
    { intros s a' b' i' Ha Hb Hi. pose proof (rd_bounds _ _ _ _ Ha). apply (H (s + 1) a' b' i'); rewrite rd_S by lia; assumption. }
    rewrite Er. cbn [bind]. eexists. split; [reflexivity|]. split; [cbn [length]; lia|]. intros s a' b' i' Ha Hb Hi. pose proof (rd_bounds _ _ _ _ Ha) as Bs. rewrite rd_cons in Ha, Hb, Hi. rewrite rd_cons. destruct (Z.eqb_spec s 0) as [->|N].
    + injection Ha as <-. injection Hb as <-. injection Hi as <-. exists v, x, y, z. auto.
    + apply (Hr (s - 1) a' b' i'); assumption.
Qed.

(** The verdict is 0 or 1. *)
Lemma verdict01 taper tiny secs k d ts pc fl s av x : station_onset taper tiny secs k d ts pc fl s = Ret (av, x) -> av = match x with Some _ => 1 | None => 0 end.
Proof.
  unfold station_onset. cbv zeta. destruct (Avail_Model.check_availability _ _ _ _ _) as [[v dct]| |] eqn:E; cbn [bind]; try discriminate.
  assert (V : v = 0 \/ v = 1).
  { unfold Avail_Model.check_availability in E. destruct (select_station fl s) as [|g st]; [left; congruence|]. destruct (Avail_Model.check_channels _ _ _ _ _ _) as [dd| |]; cbn [bind] in E; try discriminate.
    destruct (forallb _ _); [destruct (Avail_Model.all_channels _); [destruct (Avail_Model.n_channels _) as [[|p|p]|]; try discriminate|]|].
    - destruct (_ =? _); [right|left]; congruence.
    - destruct (_ =? _); [right|left]; congruence.
    - right; congruence.
    - destruct (_ && _); [right|left]; congruence. }
  destruct (Z.eqb_spec v 0) as [->|N].
  - intros H. assert (x = None) by congruence. subst. congruence.
  - destruct (fill_gaps _ _ _ _ _ _ _) as [w| |]; cbn [bind]; try discriminate. destruct (onset _ _ _ _ _ _ _) as [o| |]; cbn [bind]; try discriminate. intros H. assert (x = Some (o, w)) by congruence. subst x. assert (av = v) by congruence. lia.
Qed.

(** The availability of the data of a window. *)
Lemma availability_flags lowpass taper tiny secs k d r : calculate_onsets lowpass taper tiny secs k d None = Ret r ->
  Forall plain_name (o_phases k) -> Forall plain_name (d_stations d) ->
  avail_row (columns k (d_stations d)) (l_avail r) = Ret (map (flag (l_dict r)) (pairs_of (o_phases k) (d_stations d))).
Proof.
  intros E Pp Ps. destruct (phases_loop lowpass taper tiny secs k d None _ _ _ (calculate_loops _ _ _ _ _ _ _ _ E)) as (A1 & _ & A3 & A4 & _). rewrite Forall_forall in Pp, Ps.
  assert (A5 := A4 (fun s s' p p' Hs Hs' Hp Hp' H => proj2 (Lut_Proofs.key_inj s p s' p' (Ps s Hs) (Pp p Hp) (Ps s' Hs') (Pp p' Hp') H))). clear A4.
  assert (Pt : forall s p, In p (o_phases k) -> In s (d_stations d) -> dget (l_avail r) (onset_key s p) = Some (flag (l_dict r) (s, p))).
  { intros s p Ip Is. rewrite (A5 s p Ip Is). f_equal. unfold flag. cbn [fst snd]. rewrite A3. destruct (in_dec string_dec p (o_phases k)) as [_|C]; [|contradiction]. destruct (in_dec string_dec s (d_stations d)) as [_|C]; [|contradiction].
    cbn [l_dict]. pose proof (A1 p s Ip Is) as Ep. unfold pair_result in Ep. destruct (dget (o_cfg k) p) as [pc|]; [|discriminate]. destruct (phase_waveforms lowpass secs k d pc) as [fl| |]; cbn [bind] in Ep; try discriminate.
    destruct (got lowpass taper tiny secs k d None p s) as [av x]. rewrite (verdict01 _ _ _ _ _ _ _ _ _ _ _ Ep). unfold res_onset. cbn [fst snd]. destruct x as [[o w]|]; reflexivity. }
  clear A1 A3 A5 E. unfold avail_row, columns, pairs_of.
  assert (G : forall phs, (forall p, In p phs -> In p (o_phases k)) ->
    map_opt (dget (l_avail r)) (flat_map (fun ph => map (fun s => onset_key s ph) (d_stations d)) phs) = Some (map (flag (l_dict r)) (flat_map (fun p => map (fun s => (s, p)) (d_stations d)) phs))).
  { assert (App : forall (f : string -> option Z) a b x y, map_opt f a = Some x -> map_opt f b = Some y -> map_opt f (a ++ b) = Some (x ++ y)).
    { clear. intros f. induction a as [|h a IH]; intros b x y Ha Hb; cbn in Ha |- *.
      - injection Ha as <-. exact Hb.
      - destruct (f h) as [v|]; [|discriminate]. destruct (map_opt f a) as [xs|]; [|discriminate]. injection Ha as <-. rewrite (IH b xs y eq_refl Hb). reflexivity. }
    induction phs as [|p phs IH]; intros Hin; [reflexivity|]. cbn [flat_map]. rewrite map_app. apply App; [|apply IH; intros p' I'; apply Hin; right; exact I'].
    assert (Ip := Hin p (or_introl eq_refl)). rewrite map_map. clear IH. assert (Hs : forall s, In s (d_stations d) -> In s (d_stations d)) by auto. revert Hs. generalize (d_stations d) at 1 3 4. induction l as [|s sts IH]; intros Hs; [reflexivity|].
    cbn [map map_opt]. rewrite (Pt s p Ip (Hs s (or_introl eq_refl))). rewrite IH by (intros s' I'; apply Hs; right; exact I'). reflexivity. }
  rewrite (G (o_phases k) (fun p H => H)). reflexivity.
Qed.

Section Ready.
Variables (lowpass : Z -> list R -> list R) (taper : list R -> list R) (tiny : R) (secs : Z) (k : onset_cfg) (transform : Z -> Z -> Lut_Model.vec -> Lut_Model.vec) (ucf : R) (l : Lut_Model.lut)
  (r0 : Migrate_Model.mreg) (r1 : Migrate_Model.freg) (tab : string -> string -> Lut_Model.table) (stations : list string) (starttime timestep pre post : Z).
Hypothesis S : scan_ready lowpass taper tiny secs k transform ucf l tab stations starttime timestep pre post.
Let D := secs / o_rate k.
Let n := Lut_Model.g_count (Lut_Model.l_grid l).
Let coord := node_coord transform (Lut_Model.l_grid l).

Lemma sr_delta : 0 < D /\ 0 < secs.
Proof. destruct (Resample_Proofs.ticks_d _ _ (sr_ticks _ _ _ _ _ _ _ _ _ _ _ _ _ _ S)) as (A & B). split; [exact A|]. rewrite B. destruct (sr_ticks _ _ _ _ _ _ _ _ _ _ _ _ _ _ S) as (C & _). apply Z.mul_pos_pos; assumption. Qed.
Lemma sr_clock : clock_ok (o_clock secs k) /\ integer_rate (o_clock secs k).
Proof.
  destruct (sr_ticks _ _ _ _ _ _ _ _ _ _ _ _ _ _ S) as (A & B & C & E & F). destruct sr_delta as (G & H). unfold clock_ok, integer_rate, o_clock. cbn [sec delta]. split; [repeat split; assumption|].
  destruct C as [q Hq]. exists (o_rate k). rewrite Hq at 1. rewrite Hq. rewrite Z.div_mul by lia. ring.
Qed.
Lemma sr_multiples : exists a b m, pre = a * D /\ post = b * D /\ timestep = m * D /\ 0 <= a /\ 0 <= b /\ 0 < m
  /\ time2sample (o_clock secs k) pre = a /\ time2sample (o_clock secs k) post = b /\ time2sample (o_clock secs k) timestep = m.
Proof.
  destruct sr_clock as (Ck & Ir). destruct sr_delta as (Dp & Sp). pose proof (sr_step _ _ _ _ _ _ _ _ _ _ _ _ _ _ S) as Hs.
  destruct (Timeline_Proofs.onset_pad_whole (o_clock secs k) Ck timestep _ _ pre post (sr_ms _ _ _ _ _ _ _ _ _ _ _ _ _ _ S) ltac:(lia) (sr_pre0 _ _ _ _ _ _ _ _ _ _ _ _ _ _ S) (sr_post0 _ _ _ _ _ _ _ _ _ _ _ _ _ _ S) (sr_pads _ _ _ _ _ _ _ _ _ _ _ _ _ _ S)) as (P1 & P2 & P3 & P4).
  pose proof (sr_whole _ _ _ _ _ _ _ _ _ _ _ _ _ _ S) as P5. pose proof (sr_pre0 _ _ _ _ _ _ _ _ _ _ _ _ _ _ S) as Q1. pose proof (sr_post0 _ _ _ _ _ _ _ _ _ _ _ _ _ _ S) as Q2.
  rewrite !(Timeline_Proofs.time2sample_on (o_clock secs k) Ck) by assumption. cbn [o_clock delta] in *. fold D in P1, P2, P5 |- *. destruct P1 as [a Ea], P2 as [b Eb], P5 as [m Em]. exists a, b, m. rewrite Ea, Eb, Em, !Z.div_mul by lia.
  repeat split; try reflexivity; nia.
Qed.

Lemma node_of_flat q : is_node n q -> Lut_Model.flat2coord transform (Lut_Model.l_grid l) (flat n q) = Ret (coord q).
Proof.
  intros Hq. pose proof (Lut_Proofs.grid_ok_pos _ (sr_grid _ _ _ _ _ _ _ _ _ _ _ _ _ _ S)) as Hn. fold n in Hn.
  destruct (Lut_Proofs.unravel_inv (flat n q) n Hn (Lut_Proofs.flat_range n q Hq)) as (q' & Hu & Hq' & Hf).
  assert (E : q' = q). { pose proof (Locate_Proofs.all_nodes_rd n q Hq) as A. pose proof (Locate_Proofs.all_nodes_rd n q' Hq') as B. rewrite Hf in B. congruence. }
  subst q'. unfold Lut_Model.flat2coord, Lut_Model.flat2grid. fold n. rewrite Hu. cbn [bind]. rewrite Lut_Proofs.node2grid_eq. reflexivity.
Qed.

Lemma window_ok i d : d_start d = starttime + timestep * i - pre -> d_end d = starttime + timestep * (i + 1) - D + post -> d_stations d = stations ->
  Forall (usable secs (o_rate k) (d_resample d) (d_upfactor d) (d_start d) (d_end d)) (d_waveforms d) ->
  (calculate_onsets lowpass taper tiny secs k d None = Raise DataAvailabilityException /\ compute lowpass taper tiny secs k transform l r0 r1 pre post d = Raise DataAvailabilityException)
  \/ exists r (tt : string -> string -> Lut_Model.ijk -> Z) rows,
     calculate_onsets lowpass taper tiny secs k d None = Ret r
     /\ (forall s p q, (Rabs (IZR (tt s p q) - entry0 (tab s p) q * IZR (o_rate k)) <= 1 / 2)%R)
     /\ compute lowpass taper tiny secs k transform l r0 r1 pre post d = Ret (starttime + timestep * i, rows, l_avail r)
     /\ Z.of_nat (length rows) = timestep / D
     /\ forall j, 0 <= j < timestep / D -> exists row, rd rows j = Some row
        /\ is_peak n coord (stacked (l_dict r) (with_onset (l_dict r) (o_phases k) stations) tt (pre / D + j)) row
        /\ (forall q, (0 < stacked (l_dict r) (with_onset (l_dict r) (o_phases k) stations) tt (pre / D + j) q)%R).
Proof.
  intros Es Ee Est Fu. destruct sr_multiples as (a & b & m & Ea & Eb & Em & Ha & Hb & Hm & Ta & Tb & _). destruct sr_delta as (Dp & Sp).
  pose proof S as [S1 S2 S3 S4 S5 S6 S7 S8 S9 S10 S11 S12 S13 S14 S15 S16 S17 S18 S19 S20 S21 S22 S23].
  assert (Nw : n_window secs (o_rate k) (d_start d) (d_end d) = a + m + b).
  { unfold n_window. fold D. rewrite Es, Ee, Ea, Eb, Em. replace (starttime + m * D * (i + 1) - D + b * D - (starttime + m * D * i - a * D)) with ((m - 1 + b + a) * D) by ring. rewrite Z.div_mul by lia. lia. }
  assert (Tot : (timestep + pre + post) / (secs / o_rate k) = a + m + b) by (fold D; rewrite Ea, Eb, Em; replace (m * D + a * D + b * D) with ((a + m + b) * D) by ring; apply Z.div_mul; lia).
  assert (Pre : pre / D = a) by (rewrite Ea; apply Z.div_mul; lia). assert (Post : post / D = b) by (rewrite Eb; apply Z.div_mul; lia). assert (Tst : timestep / D = m) by (rewrite Em; apply Z.div_mul; lia). rewrite Pre, Tst.
  destruct (Compute_Props.C120_window_partial lowpass taper tiny secs k r0 l d tab (IZR (o_rate k)) (time2sample (o_clock secs k) pre) (time2sample (o_clock secs k) post) S1 S2 S3 S4 S5 S6) as [(E1 & E2)|(r & tt & mm & E1 & Htt & E2 & Lm & Hv)].
  - rewrite Es. destruct S10 as [x Hx]. fold D in Hx |- *. rewrite Ea, Em, Hx. exists (x + m * i - a). ring.
  - rewrite Ee. destruct S10 as [x Hx]. fold D in Hx |- *. rewrite Eb, Em, Hx. exists (x + m * (i + 1) - 1 + b). ring.
  - rewrite Es, Ee, Ea, Eb, Em. assert (0 <= (m - 1) * D) by (apply Z.mul_nonneg_nonneg; lia). assert (0 <= a * D) by (apply Z.mul_nonneg_nonneg; lia). assert (0 <= b * D) by (apply Z.mul_nonneg_nonneg; lia). lia.
  - intros ph Ip. destruct (S14 ph Ip) as (pc & P1 & (P2 & P3) & P4 & P5 & P6). exists pc. split; [exact P1|]. rewrite Tot in P3. unfold phase_ok. rewrite Nw. auto.
  - exact Fu.
  - exact S15.
  - exact S16.
  - rewrite Est. exact S17.
  - exact S18.
  - rewrite Est. exact S19.
  - intros s p Is Ip. rewrite Est in Is. destruct (S20 s p Is Ip) as (T1 & T2 & T3). split; [exact T1|]. split; [exact T2|]. rewrite Tb. fold D in T3. rewrite Post in T3. exact T3.
  - lia.
  - lia.
  - rewrite Nw. lia.
  - rewrite Est, Nw. rewrite Tot in S21. exact S21.
  - left. split; [exact E1|]. unfold compute. rewrite E1. reflexivity.
  - right. rewrite Nw, Ta, Tb in Lm, Hv. replace (a + m + b - a - b) with m in Lm, Hv by lia. fold n in Lm, Hv. rewrite Est in Hv. set (U := with_onset (l_dict r) (o_phases k) stations) in *.
    set (F := fun j => stacked (l_dict r) U tt (a + j)). assert (Fp : forall j q, (0 < F j q)%R).
    { intros j q. unfold F, stacked. apply Pipeline_Proofs.geometric_mean_pos. intros x Hx. apply in_map_iff in Hx. destruct Hx as (sp & <- & _). apply Rlt_le_trans with (1 / 100)%R; [lra|apply Rmax_r]. }
    pose proof (Lut_Proofs.grid_ok_pos _ S15) as Hn. fold n in Hn. pose proof (Lut_Proofs.pos3_nodes n Hn) as Np.
    assert (Vq : forall q j, is_node n q -> 0 <= j < m -> rd mm (flat n q * m + j) = Some (F j q)). { intros q j Hq Hj. rewrite (Hv q j Hq Hj). unfold F, stacked. do 2 f_equal. }
    set (f := fun node s => Lut_Spec.value mm (node * m + s)).
    assert (Un : forall kk, 0 <= kk < n_nodes n -> exists q, is_node n q /\ flat n q = kk). { intros kk Hk. destruct (Lut_Proofs.unravel_inv kk n Hn Hk) as (q & _ & Hq & Hf). exists q. auto. }
    assert (Fq : forall q j, is_node n q -> 0 <= j < m -> f (flat n q) j = F j q). { intros q j Hq Hj. unfold f, Lut_Spec.value. rewrite (Vq q j Hq Hj). reflexivity. }
    assert (Hrd : forall node s, 0 <= node < n_nodes n -> 0 <= s < m -> rd mm (node * m + s) = Some (f node s)). { intros node s Hnode Hs. destruct (Un node Hnode) as (q & Hq & <-). rewrite (Vq q s Hq Hs), (Fq q s Hq Hs). reflexivity. }
    assert (Em2 : mm = array2 (n_nodes n) m f) by (apply Migrate_Proofs.list_eq_array2; try lia; exact Hrd).
    destruct (Migrate_Proofs.find_max_ok r1 f (n_nodes n) m ltac:(lia) ltac:(lia)) as (o & Eo & L1 & L2 & L3 & Ho).
    assert (Pt : forall j, 0 <= j < m -> exists q, is_node n q /\ (forall q', is_node n q' -> (F j q' <= F j q)%R) /\ (forall q', is_node n q' -> flat n q' < flat n q -> (F j q' < F j q)%R)
      /\ rd (Migrate_Model.o_max o) j = Some (F j q) /\ rd (Migrate_Model.o_idx o) j = Some (flat n q) /\ rd (Migrate_Model.o_norm o) j = Some (Some (F j q / arithmetic_mean (map (F j) (all_nodes n)))%R)).
    { intros j Hj. destruct (Ho j Hj) as (kk & (K1 & K2 & K3) & H1 & H2 & _). destruct (Un kk K1) as (q & Hq & Eq). exists q. split; [exact Hq|]. subst kk. rewrite (Fq q j Hq Hj) in *.
      split; [intros q' Hq'; rewrite <- (Fq q' j Hq' Hj); apply K2, Lut_Proofs.flat_range, Hq'|].
      split; [intros q' Hq' Hl; rewrite <- (Fq q' j Hq' Hj); apply K3; pose proof (Lut_Proofs.flat_range n q' Hq'); lia|]. split; [exact H1|]. split; [exact H2|].
      destruct (Migrate_Proofs.find_max_norm r1 f (n_nodes n) m o j ltac:(lia) ltac:(lia) Eo Hj) as (v & M & N1 & N2 & N3 & _).
      { intros kk Hk. destruct (Un kk Hk) as (q' & Hq' & <-). rewrite (Fq q' j Hq' Hj). apply Fp. }
      rewrite N1. rewrite H1 in N2. injection N2 as <-. rewrite N3. do 4 f_equal. apply rd_ext_opt. intros x. rewrite !rd_map.
      destruct (Z_lt_dec x 0) as [C|C]; [rewrite !rd_none by (left; exact C); reflexivity|]. destruct (Z_lt_dec x (n_nodes n)) as [C'|C'].
      - rewrite rd_zrange by lia. destruct (Un x ltac:(lia)) as (q' & Hq' & <-). rewrite (Locate_Proofs.all_nodes_rd n q' Hq'). cbn [option_map]. f_equal. apply Fq; assumption.
      - rewrite (rd_none _ (zrange (n_nodes n))) by (right; rewrite zrange_length; lia). rewrite (rd_none _ (all_nodes n)) by (right; rewrite (Locate_Proofs.all_nodes_length n Hn); lia). reflexivity. }
    destruct (scan_rows_ok transform l (Migrate_Model.o_max o) (Migrate_Model.o_norm o) (Migrate_Model.o_idx o)) as (rows & Er & Lr & Hr); [lia|lia| |].
    { intros s x y z Hx Hy Hz. pose proof (rd_bounds _ _ _ _ Hx) as Bs. destruct (Pt s ltac:(lia)) as (q & Hq & _ & _ & _ & I2 & I3). rewrite Hz in I2. injection I2 as ->. rewrite Hy in I3. injection I3 as ->. eexists _, (coord q). split; [reflexivity|apply node_of_flat, Hq]. }
    exists r, tt, rows. split; [exact E1|]. split; [exact Htt|]. split.
    { unfold compute. rewrite E1. cbn [bind]. unfold d_clock. rewrite E2. cbn [bind]. fold n. assert (En : (let '(nx, ny, nz) := n in nx * ny * nz) = n_nodes n) by reflexivity. rewrite En. rewrite Lm. rewrite (Z.mul_comm (n_nodes n) m), Z.div_mul by lia. rewrite Em2, Eo. cbn [bind]. rewrite Er. cbn [bind].
      rewrite Es. replace (starttime + timestep * i - pre + pre) with (starttime + timestep * i) by ring. reflexivity. }
    split; [lia|]. intros j Hj. destruct (Pt j Hj) as (q & Hq & Q1 & Q2 & I1 & I2 & I3). destruct (Hr j _ _ _ I1 I3 I2) as (v & x & y & z & Ev & Ec & Erow). exists (mk_row (F j q) v x y z). split; [exact Erow|]. split; [|exact (Fp j)].
    exists q. split; [exact Hq|]. split; [exact Q1|]. split; [exact Q2|]. cbn [coa coa_n px py pz]. split; [reflexivity|]. split; [injection Ev as <-; reflexivity|]. rewrite (node_of_flat q Hq) in Ec. congruence.
Qed.

Lemma rsum_pos xs : xs <> [] -> (forall x, In x xs -> (0 < x)%R) -> (0 < Rsum xs)%R.
Proof.
  destruct xs as [|x xs]; intros N H; [congruence|]. clear N. assert (G : (0 <= Rsum xs)%R).
  { assert (H' : forall y, In y xs -> (0 < y)%R) by (intros y Iy; apply H; right; exact Iy). clear H. unfold Rsum. induction xs as [|y ys IH]; cbn [fold_right]; [lra|]. pose proof (H' y (or_introl eq_refl)). pose proof (IH (fun z Iz => H' z (or_intror Iz))). lra. }
  pose proof (H x (or_introl eq_refl)). unfold Rsum in *. cbn [fold_right]. lra.
Qed.
Lemma peak_encodes f row : (forall q, (0 < f q)%R) -> is_peak n coord f row -> exists z, encode_row ucf row = Some z.
Proof.
  intros Fp (q & Hq & _ & _ & E1 & E2 & E3). pose proof (sr_coords _ _ _ _ _ _ _ _ _ _ _ _ _ _ S q Hq) as Hc. fold coord in Hc. rewrite <- E3 in Hc. destruct Hc as (C1 & C2 & C3).
  destruct (ScanMseed_Props.C22_read_back_to_half_a_digit ucf row (sr_ucf _ _ _ _ _ _ _ _ _ _ _ _ _ _ S)) as (z & Ez & _); try assumption.
  - rewrite E1. apply Rlt_le, Fp.
  - rewrite E2. pose proof (Lut_Proofs.grid_ok_pos _ (sr_grid _ _ _ _ _ _ _ _ _ _ _ _ _ _ S)) as Hn. fold n in Hn. pose proof (Lut_Proofs.pos3_nodes n Hn) as Np. pose proof (Locate_Proofs.all_nodes_length n Hn) as Ln.
    assert (P : (0 < Rsum (map f (all_nodes n)))%R). { apply rsum_pos; [|intros x Ix; apply in_map_iff in Ix; destruct Ix as (q' & <- & _); apply Fp]. destruct (all_nodes n); [cbn in Ln; lia|discriminate]. }
    apply Rlt_le. unfold arithmetic_mean. rewrite map_length. assert (0 < INR (length (all_nodes n)))%R by (apply lt_0_INR; lia). apply Rdiv_lt_0_compat; [apply Fp|]. apply Rdiv_lt_0_compat; assumption.
  - exists z. exact Ez.
Qed.

Variable read : Z -> Z -> outcome wdata.
Let C := o_clock secs k.
Let W i := step_window C starttime timestep pre post i.
Let body cw := timestep_body lowpass taper tiny secs k transform ucf l r0 r1 cw read (columns k stations) starttime timestep pre post.
Let result i := step_result lowpass taper tiny secs k transform l tab stations pre (read (fst (W i)) (snd (W i))).

Lemma columns_length : length (columns k stations) = length (pairs_of (o_phases k) stations).
Proof. unfold columns, pairs_of. induction (o_phases k) as [|p ps IH]; [reflexivity|]. cbn [flat_map]. rewrite !app_length, !map_length, IH. reflexivity. Qed.
(** How the samples of a timestep come about. *)
Definition made (i : Z) (rs : list (row R)) (a : list Z) : Prop :=
  (exists e, read (fst (W i)) (snd (W i)) = Raise e)
  \/ exists d, read (fst (W i)) (snd (W i)) = Ret d
     /\ ((compute lowpass taper tiny secs k transform l r0 r1 pre post d = Raise DataAvailabilityException /\ rs = repeat (mk_row 0 0 0 0 0)%R (Z.to_nat (timestep / D)) /\ a = repeat 0 (length (columns k stations)))
         \/ exists av, compute lowpass taper tiny secs k transform l r0 r1 pre post d = Ret (starttime + timestep * i, rs, av) /\ avail_row (columns k stations) av = Ret a).
Lemma step_full i : answers secs k stations (fst (W i)) (snd (W i)) (read (fst (W i)) (snd (W i))) ->
  exists rs a, (result i rs a /\ made i rs a) /\ Z.of_nat (length rs) = timestep / D /\ (exists zs, map_opt (encode_row ucf) rs = Some zs)
  /\ forall cw s p, append C ucf cw (ds_files s) (ds_obj s) (starttime + timestep * i) rs = Ret p -> body cw s i = Ret (mk_dstate (fst p) (snd p) (ds_table s ++ [(starttime + timestep * i, a)])).
Proof.
  destruct sr_multiples as (pa & pb & m & Ea & Eb & Em & Ha & Hb & Hm & Ta & Tb & Tm). destruct sr_delta as (Dp & Sp). assert (Tst : timestep / D = m) by (rewrite Em; apply Z.div_mul; lia).
  assert (Zenc : forall u, exists zs, map_opt (encode_row ucf) (repeat (mk_row 0 0 0 0 0)%R u) = Some zs).
  { intros u. apply Pipeline_Proofs.map_opt_some. intros x Ix. apply repeat_spec in Ix. subst x.
    destruct (ScanMseed_Props.C22_read_back_to_half_a_digit ucf (mk_row 0 0 0 0 0)%R (sr_ucf _ _ _ _ _ _ _ _ _ _ _ _ _ _ S)) as (z & Ez & _); cbn [coa coa_n px py pz]; rewrite ?Rmult_0_l, ?Rabs_R0; try lra. congruence. }
  assert (Zs : forall e, no_data e -> made i (repeat (mk_row 0 0 0 0 0)%R (Z.to_nat m)) (repeat 0 (length (columns k stations))) -> ((exists e, read (fst (W i)) (snd (W i)) = Raise e /\ no_data e) \/ exists d, read (fst (W i)) (snd (W i)) = Ret d /\ calculate_onsets lowpass taper tiny secs k d None = Raise DataAvailabilityException) ->
    (forall s cw, bind (read (fst (W i)) (snd (W i))) (fun d => bind (compute lowpass taper tiny secs k transform l r0 r1 pre post d) (fun '(t, rows, av) => bind (append C ucf cw (ds_files s) (ds_obj s) t rows) (fun p => bind (avail_row (columns k stations) av) (fun a =>
        Ret (mk_dstate (fst p) (snd p) (ds_table s ++ [(starttime + timestep * i, a)])))))) = Raise e) ->
    exists rs a, (result i rs a /\ made i rs a) /\ Z.of_nat (length rs) = timestep / D /\ (exists zs, map_opt (encode_row ucf) rs = Some zs)
    /\ forall cw s p, append C ucf cw (ds_files s) (ds_obj s) (starttime + timestep * i) rs = Ret p -> body cw s i = Ret (mk_dstate (fst p) (snd p) (ds_table s ++ [(starttime + timestep * i, a)]))).
  { intros e He Mk Hn Hr. exists (repeat (mk_row 0 0 0 0 0)%R (Z.to_nat m)), (repeat 0 (length (columns k stations))). split; [|split; [rewrite repeat_length; lia|split; [apply Zenc|]]].
    - split; [|exact Mk]. left. split; [exact Hn|]. split; [apply Forall_forall; intros x Ix; apply repeat_spec in Ix; congruence|]. split; [rewrite repeat_length; apply columns_length|apply Forall_forall; intros x Ix; apply repeat_spec in Ix; congruence].
    - intros cw s p Hp. unfold body, timestep_body. unfold d_clock. fold C. fold (W i). cbv zeta. rewrite Hr. unfold empty. unfold C. rewrite Tm. unfold C in Hp. destruct He as [->|[->| ->]]; rewrite Hp; reflexivity. }
  intros [(e & Er & He)|(d & Er & Es & Ee & Est & Fu)].
  - apply (Zs e He); [left; exists e; exact Er|left; exists e; auto|]. intros s cw. rewrite Er. reflexivity.
  - rewrite <- Es, <- Ee in Fu. unfold W, step_window in Es, Ee. cbn [fst snd] in Es, Ee. unfold C, o_clock in Ee. cbn [delta] in Ee. fold D in Ee. destruct (window_ok i d Es Ee Est Fu) as [(E1 & E2)|(r & tt & rs & E1 & Htt & E2 & L & Hj)].
    + apply (Zs DataAvailabilityException); [right; right; reflexivity|right; exists d; split; [exact Er|]; left; rewrite Tst; auto|right; exists d; auto|]. intros s cw. rewrite Er. cbn [bind]. rewrite E2. reflexivity.
    + pose proof (availability_flags lowpass taper tiny secs k d r E1 (sr_pl_phases _ _ _ _ _ _ _ _ _ _ _ _ _ _ S)) as AF. rewrite Est in AF. specialize (AF (sr_pl_stations _ _ _ _ _ _ _ _ _ _ _ _ _ _ S)).
      exists rs, (map (flag (l_dict r)) (pairs_of (o_phases k) stations)). split; [|split; [exact L|split]].
      * split; [|right; exists d; split; [exact Er|]; right; exists (l_avail r); split; [exact E2|exact AF]]. right. exists d, r, tt. split; [exact Er|]. split; [exact E1|]. split; [exact Htt|]. split; [reflexivity|]. intros j row Hr. pose proof (rd_bounds _ _ _ _ Hr) as B. destruct (Hj j ltac:(lia)) as (row' & R1 & R2 & _). replace row with row' by congruence. exact R2.
      * apply Pipeline_Proofs.map_opt_some. intros x Ix. apply in_rd in Ix. destruct Ix as (j & Hr). pose proof (rd_bounds _ _ _ _ Hr) as B. destruct (Hj j ltac:(lia)) as (row' & R1 & R2 & R3). replace x with row' by congruence. destruct (peak_encodes _ _ R3 R2) as (z & Ez). congruence.
      * intros cw s p Hp. unfold body, timestep_body. unfold d_clock. fold C. fold (W i). cbv zeta. rewrite Er. cbn [bind]. rewrite E2. cbn [bind]. rewrite Hp. cbn [bind]. rewrite AF. reflexivity.
Qed.

Lemma step_ok i : answers secs k stations (fst (W i)) (snd (W i)) (read (fst (W i)) (snd (W i))) ->
  exists rs a, result i rs a /\ Z.of_nat (length rs) = timestep / D /\ (exists zs, map_opt (encode_row ucf) rs = Some zs)
  /\ forall cw s p, append C ucf cw (ds_files s) (ds_obj s) (starttime + timestep * i) rs = Ret p -> body cw s i = Ret (mk_dstate (fst p) (snd p) (ds_table s ++ [(starttime + timestep * i, a)])).
Proof. intros H. destruct (step_full i H) as (rs & a & (H1 & _) & H2). exists rs, a. split; assumption. Qed.

Definition block_of (i : Z) (rs : list (row R)) : seg (row R) := mk_seg (starttime + timestep * i) rs.
Definition step_gives (i : Z) (rs : list (row R)) (a : list Z) : Prop :=
  forall cw s p, append C ucf cw (ds_files s) (ds_obj s) (starttime + timestep * i) rs = Ret p -> body cw s i = Ret (mk_dstate (fst p) (snd p) (ds_table s ++ [(starttime + timestep * i, a)])).
Lemma steps_ok : forall is, (forall i, In i is -> answers secs k stations (fst (W i)) (snd (W i)) (read (fst (W i)) (snd (W i)))) ->
  exists bl, Forall2 (fun i b => result i (fst b) (snd b) /\ Z.of_nat (length (fst b)) = timestep / D /\ (exists zs, map_opt (encode_row ucf) (fst b) = Some zs) /\ step_gives i (fst b) (snd b)) is bl.
Proof.
  induction is as [|i is IH]; intros H; [exists []; constructor|]. destruct (step_ok i (H i (or_introl eq_refl))) as (rs & a & R). destruct (IH (fun j Hj => H j (or_intror Hj))) as (bl & F). exists ((rs, a) :: bl). constructor; [exact R|exact F].
Qed.
Lemma steps_full : forall is, (forall i, In i is -> answers secs k stations (fst (W i)) (snd (W i)) (read (fst (W i)) (snd (W i)))) ->
  exists bl, Forall2 (fun i b => made i (fst b) (snd b) /\ Z.of_nat (length (fst b)) = timestep / D /\ (exists zs, map_opt (encode_row ucf) (fst b) = Some zs) /\ step_gives i (fst b) (snd b)) is bl.
Proof.
  induction is as [|i is IH]; intros H; [exists []; constructor|]. destruct (step_full i (H i (or_introl eq_refl))) as (rs & a & (_ & R1) & R2). destruct (IH (fun j Hj => H j (or_intror Hj))) as (bl & F). exists ((rs, a) :: bl). constructor; [split; [exact R1|exact R2]|exact F].
Qed.
Lemma loop_ok : forall is bl, Forall2 (fun i b => step_gives i (fst b) (snd b)) is bl -> forall cw s p,
  Pipeline_Model.append_all C ucf cw (ds_files s) (ds_obj s) (map (fun ib => block_of (fst ib) (fst (snd ib))) (combine is bl)) = Ret p ->
  fold_out (body cw) is s = Ret (mk_dstate (fst p) (snd p) (ds_table s ++ map (fun ib => (starttime + timestep * fst ib, snd (snd ib))) (combine is bl))).
Proof.
  induction 1 as [|i [rs a] is bl R4 F G]; intros cw s p Hp.
  - cbn in Hp |- *. injection Hp as <-. cbn [fst snd]. rewrite app_nil_r. destruct s; reflexivity.
  - cbn [combine map Pipeline_Model.append_all fold_out fst snd block_of t0 rows] in Hp, R4 |- *. destruct (append C ucf cw (ds_files s) (ds_obj s) (starttime + timestep * i) rs) as [q| |] eqn:Eq; cbn [bind] in Hp; try discriminate.
    rewrite (R4 cw s q Eq). cbn [bind]. rewrite (G cw (mk_dstate (fst q) (snd q) (ds_table s ++ [(starttime + timestep * i, a)])) p Hp). cbn [ds_table]. rewrite <- app_assoc. reflexivity.
Qed.
Lemma blocks_consecutive : forall (bl : list (list (row R) * list Z)) i0, Forall (fun b => Z.of_nat (length (fst b)) = timestep / D) bl ->
  consecutive C (starttime + timestep * i0) (map (fun ib => block_of (fst ib) (fst (snd ib))) (combine (zseq i0 (length bl)) bl)).
Proof.
  destruct sr_multiples as (pa & pb & m & Ea & Eb & Em & Ha & Hb & Hm & Ta & Tb & Tm). destruct sr_delta as (Dp & Sp). assert (Tst : timestep / D = m) by (rewrite Em; apply Z.div_mul; lia). pose proof (sr_step _ _ _ _ _ _ _ _ _ _ _ _ _ _ S) as Hs.
  induction bl as [|b bl IH]; intros i0 F; [exact I|]. pose proof (Forall_inv F) as Hb0. pose proof (Forall_inv_tail F) as F'. cbv beta in Hb0. cbn [length zseq combine map consecutive fst snd block_of t0 rows]. change (delta C) with D. change (sec C) with secs. rewrite Hb0, Tst, <- Em. split; [reflexivity|]. split; [intros Cn; rewrite Cn in Hb0; cbn in Hb0; lia|]. split; [lia|].
  replace (starttime + timestep * i0 + timestep) with (starttime + timestep * (i0 + 1)) by ring. apply IH, F'.
Qed.
(** A run of blocks. *)
Lemma run_ok cw fs afs i0 bl : bl <> [] ->
  Forall2 (fun i b => Z.of_nat (length (fst b)) = timestep / D /\ (exists zs, map_opt (encode_row ucf) (fst b) = Some zs) /\ step_gives i (fst b) (snd b)) (zseq i0 (length bl)) bl ->
  let blocks := map (fun ib => block_of (fst ib) (fst (snd ib))) (combine (zseq i0 (length bl)) bl) in
  let table := map (fun ib => (starttime + timestep * fst ib, snd (snd ib))) (combine (zseq i0 (length bl)) bl) in
  consecutive C (starttime + timestep * i0) blocks
  /\ exists fs', Pipeline_Model.store_run C ucf cw fs blocks = Ret fs'
     /\ bind (fold_out (body cw) (zseq i0 (length bl)) (mk_dstate fs new_scanmseed [])) (fun s =>
        bind (if written (ds_obj s) then Ret (ds_files s) else write C (ds_files s) (stream (ds_obj s))) (fun fs' =>
        Ret (fs', Avail_Model.write_availability C afs (Avail_Model.mk_atable (columns k stations) (ds_table s)))))
        = Ret (fs', Avail_Model.write_availability C afs (Avail_Model.mk_atable (columns k stations) table)).
Proof.
  intros Hn F blocks table. destruct sr_delta as (Dp & Sp). destruct sr_clock as (Ck & Ir). destruct sr_multiples as (pa & pb & m & _ & _ & Em & _).
  assert (Fl : Forall (fun b : list (row R) * list Z => Z.of_nat (length (fst b)) = timestep / D) bl). { clear - F. induction F as [|? ? ? ? H _ IH]; constructor; tauto. }
  pose proof (blocks_consecutive bl i0 Fl) as Cs. fold blocks in Cs. split; [exact Cs|].
  assert (Lz : length (zseq i0 (length bl)) = length bl) by (clear; revert i0; induction (length bl) as [|u IH]; intros i0; [reflexivity|]; cbn [zseq length]; rewrite IH; reflexivity).
  destruct (Pipeline_Proofs.store_run_ok C ucf cw fs (starttime + timestep * i0) blocks) as (fs' & E).
  - exact Sp.
  - exact Dp.
  - destruct Ir as [x Hx]. exists (86400 * x). unfold C. rewrite Hx. cbn [o_clock delta]. ring.
  - destruct (sr_start _ _ _ _ _ _ _ _ _ _ _ _ _ _ S) as [x Hx]. exists (x + m * i0). change (delta C) with D. rewrite Em, Hx. fold D. ring.
  - unfold blocks. destruct bl; [congruence|discriminate].
  - exact Cs.
  - unfold blocks. clear - F. revert F. generalize (zseq i0 (length bl)) as is. intros is F. induction F as [|? ? ? ? H _ IH]; cbn [combine map]; constructor; [cbn [fst snd block_of rows]; tauto|exact IH].
  - exists fs'. split; [exact E|]. unfold Pipeline_Model.store_run in E. destruct (Pipeline_Model.append_all C ucf cw fs new_scanmseed blocks) as [p| |] eqn:Ep; cbn [bind] in E; try discriminate.
    rewrite (loop_ok (zseq i0 (length bl)) bl) with (p := p); [| |exact Ep].
    + cbn [bind ds_obj ds_files ds_table app]. fold table. rewrite E. reflexivity.
    + clear - F. induction F as [|? ? ? ? H _ IH]; constructor; tauto.
Qed.
End Ready.

(** The same timesteps counted from a later start. *)
Lemma body_from lowpass taper tiny secs k transform ucf l r0 r1 cw read cols starttime timestep pre post m s i :
  timestep_body lowpass taper tiny secs k transform ucf l r0 r1 cw read cols (starttime + timestep * m) timestep pre post s i = timestep_body lowpass taper tiny secs k transform ucf l r0 r1 cw read cols starttime timestep pre post s (m + i).
Proof.
  unfold timestep_body, empty, step_window. cbn [fst snd]. replace (starttime + timestep * m + timestep * i) with (starttime + timestep * (m + i)) by ring. replace (starttime + timestep * m + timestep * (i + 1)) with (starttime + timestep * (m + i + 1)) by ring. reflexivity.
Qed.

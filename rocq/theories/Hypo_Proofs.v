(** Proofs about the location of an event as a function of the records. *)
From Coq Require Import String Ascii.
From Coq Require Import List ZArith Reals QArith Bool Lia Lra.
From Verif Require Import Lib LibFacts PyDict Timeline_Model Timeline_Spec Migrate_Spec Lut_Spec Locate_Model Locate_Spec Resample_Spec Onset_Model Onset_Spec PickRun_Model DetectRun_Model DetectRun_Spec LocatePipe_Model
  LocatePipe_Spec LocateRun_Model LocateRun_Spec StationSet_Spec Window_Spec Agree_Proofs Formula_Spec Formula_Proofs Hypo_Spec.
From Verif Require Compute_Spec Lut_Model Migrate_Model Migrate_Proofs Lut_Proofs LocateRun_Proofs LocateRun_Props Locate_Proofs.
Import ListNotations.
Open Scope Z_scope.

Section Located.
Variables (lowpass : Z -> list R -> list R) (taper : list R -> list R) (tiny : R) (secs : Z) (k : onset_cfg) (transform : Z -> Z -> Lut_Model.vec -> Lut_Model.vec) (l : Lut_Model.lut) (r0 : Migrate_Model.mreg) (r1 : Migrate_Model.freg).
Variables (rbf : list Lut_Model.vec -> list R -> Lut_Model.vec -> R) (rat : option R -> Q) (curve_fit : list Z -> list Q -> outcome (Q * Q * Q)) (pm : Picker_Model.pick_method) (ticks : R -> Z) (fraction : R).
Variables (tab : string -> string -> Lut_Model.table) (stations : list string) (x : string -> Z -> R) (y : string -> string -> Z -> R) (ids : list string) (m reach mw pre post : Z).
Variables (read : Z -> Z -> Z -> Z -> outcome wdata) (mags : option (Z * Z)) (pre_cut post_cut : option Z) (trig : Z) (d : wdata).
Notation D := (secs / o_rate k).
Notation c := (o_clock secs k).
Notation n := (Lut_Model.g_count (Lut_Model.l_grid l)).
Notation nw := (n_window secs (o_rate k) (d_start d) (d_end d)).
Notation F := (coalescence_of secs k tab ids stations y).
Notation w := (mw / D).
Hypothesis S : locate_ready lowpass taper tiny secs k l tab stations mw pre post.
Hypothesis Hrbf : interpolating rbf.
Hypothesis Gt : (D | trig).
Hypothesis Rg : regular secs k l tab ids stations reach.
Hypothesis Mp : 0 <= m.
Hypothesis Py : forall ph pc i t, In ph (o_phases k) -> dget (o_cfg k) ph = Some pc -> In i ids -> m <= t < nw - m -> Onset_Spec.sample (o_transform k (ph_band pc D (window_of secs k x d i))) t = y ph i (d_start d / D + t).
Hypothesis Er : let '(a, b, p, q) := event_window trig mw pre post mags pre_cut post_cut in read a b p q = Ret d.
Hypothesis Ds : d_start d = trig - 2 * mw - pre.
Hypothesis De : d_end d = trig + 2 * mw + post.
Hypothesis Dst : d_stations d = stations.
Hypothesis Rc : recorded secs k x ids d.
Hypothesis Lv : lively tiny secs k x ids d.
Hypothesis Cl : clear_of_ends secs k m (time2sample c pre) (time2sample c post) reach.
Notation run := (locate_event lowpass taper tiny secs k transform l r0 r1 rbf rat curve_fit pm ticks fraction read mw pre post mags pre_cut post_cut trig).

Lemma event_times : exists g kk a, trig = g * D /\ mw = kk * D /\ pre = a * D /\ 0 < D /\ 1 <= kk /\ w = kk /\ pre / D = a /\ time2sample c pre = a /\ d_start d / D = g - 2 * kk - a /\ nw - time2sample c pre - time2sample c post = 4 * kk + 1.
Proof.
  destruct (LocateRun_Proofs.lr_multiples _ _ _ _ _ _ _ _ _ _ _ S) as (a & b & kk & Ea & Eb & Em & Ha & Hb & Hk & Ta & Tb). destruct (LocateRun_Proofs.lr_delta _ _ _ _ _ _ _ _ _ _ _ S) as (Dp & _). destruct Gt as (g & Hg).
  exists g, kk, a. split; [exact Hg|]. split; [exact Em|]. split; [exact Ea|]. split; [exact Dp|]. split; [lia|]. split; [rewrite Em; apply Z.div_mul; lia|]. split; [rewrite Ea; apply Z.div_mul; lia|]. split; [exact Ta|]. split.
  - rewrite Ds, Hg, Em, Ea. replace (g * D - 2 * (kk * D) - a * D) with ((g - 2 * kk - a) * D) by ring. apply Z.div_mul. lia.
  - rewrite Ta, Tb. unfold n_window. rewrite Ds, De, Hg, Em, Ea, Eb. replace (g * D + 2 * (kk * D) + b * D - (g * D - 2 * (kk * D) - a * D)) with ((4 * kk + a + b) * D) by ring. rewrite Z.div_mul by lia. lia.
Qed.
(** The map of the event. *)
Lemma event_map ev : contributing k ids stations <> [] -> event_compute lowpass taper tiny secs k transform l r0 r1 pre post mw d trig = Ret ev -> forall g, e_map ev = map (fun s => map (fun node => g node s) (zrange (n_nodes n))) (zrange (4 * w + 1)) ->
  forall q s, is_node n q -> 0 <= s < 4 * w + 1 -> g (flat n q) s = F (trig / D - 2 * w + s) q.
Proof.
  intros NZ E g Eg q s Hq Hs. destruct event_times as (gg & kk & a & Hg & Em & Ea & Dp & Hk & Ew & Ep & Ta & Es & Ens). rewrite Ew in *.
  destruct (event_window_ready lowpass taper tiny secs k l tab x ids stations mw pre post trig d S (rg_dots _ _ _ _ _ _ _ Rg) Gt Ds De Dst Rc) as (Wr & _ & _).
  destruct (map_one lowpass taper tiny secs k transform l r0 tab x y ids stations m reach pre post d Wr Rg Mp Py Rc Lv Dst Cl NZ) as (mp & Emp & Lm & Hv). rewrite Ens in Lm, Hv.
  pose proof (Lut_Proofs.pos3_nodes _ (Lut_Proofs.grid_ok_pos _ (lr_grid _ _ _ _ _ _ _ _ _ _ _ S))) as Np.
  unfold event_compute in E. rewrite Emp in E. cbn [bind] in E. change (let '(nx, ny, nz) := Lut_Model.g_count (Lut_Model.l_grid l) in nx * ny * nz) with (n_nodes n) in E. rewrite Lm, (Z.mul_comm (n_nodes n)), Z.div_mul in E by lia.
  destruct (Migrate_Model.lib_find_max_coa r1 mp (n_nodes n) (4 * kk + 1)) as [o| |]; cbn [bind] in E; try discriminate. destruct (DetectRun_Model.scan_rows _ _ _ _ _) as [rows| |]; cbn [bind] in E; try discriminate.
  assert (M : e_map ev = time_slices (n_nodes n) (4 * kk + 1) mp). { unfold add_compute_output in E. destruct (dataframe _ _ _ _) as [fr| |]; cbn [bind] in E; try discriminate. destruct (peak fr) as [pk| |]; cbn [bind] in E; try discriminate. assert (E2 : forall A (u v : A), Ret u = Ret v -> u = v) by congruence. apply E2 in E. rewrite <- E. reflexivity. }
  rewrite Eg in M. pose proof (Lut_Proofs.flat_range n q Hq) as Fq. apply (f_equal (fun z => match rd z s with Some v => rd v (flat n q) | None => None end)) in M. unfold time_slices in M. rewrite !rd_map, !rd_zrange in M by lia. cbn [option_map] in M. rewrite !rd_map, !rd_zrange in M by lia. cbn [option_map] in M.
  pose proof (Hv q s Hq Hs) as V. assert (X : node_value mp (flat n q * (4 * kk + 1) + s) = F (d_start d / D + time2sample c pre + s) q). { unfold node_value. pose proof V as V'. unfold rd in V'. destruct (_ <? 0); [discriminate|]. rewrite (nth_error_nth _ _ 0%R V'). reflexivity. }
  assert (G : g (flat n q) s = node_value mp (flat n q * (4 * kk + 1) + s)) by congruence. rewrite G, X. f_equal. rewrite Es, Ta. rewrite Hg. rewrite Z.div_mul by lia. lia.
Qed.
Lemma located_one :
  (contributing k ids stations = [] /\ run = Ret None)
  \/ (contributing k ids stations <> [] /\ exists t0 q0, first_peak_in n (trig / D - 2 * w) (trig / D + 2 * w) F t0 q0
      /\ ((mw <= Z.abs (t0 * D - trig) /\ run = Ret None)
          \/ (Z.abs (t0 * D - trig) < mw /\ exists ev loc cloc cov unc best,
              run = bind (pick_run lowpass taper tiny secs k rat curve_fit pm (arrivals transform l ticks fraction loc) d (t0 * D) mw) (fun picks => Ret (Some (mk_located ev loc (Some (cloc, cov, unc)) picks)))
              /\ e_otime ev = t0 * D /\ max_coalescence ev = Ret (t0 * D, F t0 q0, (F t0 q0 / arithmetic_mean (map (F t0) (all_nodes n)))%R)
              /\ largest_around n F t0 w best /\ within_two best loc /\ inside (Lut_Model.l_grid l) (frac2grid (Lut_Model.l_grid l) loc) /\ inside (Lut_Model.l_grid l) cloc))).
Proof.
  destruct (event_window_ready lowpass taper tiny secs k l tab x ids stations mw pre post trig d S (rg_dots _ _ _ _ _ _ _ Rg) Gt Ds De Dst Rc) as (Wr & _ & _).
  pose proof (LocateRun_Props.located_map lowpass taper tiny secs k transform l r0 r1 rbf rat curve_fit pm ticks fraction tab stations read mw pre post mags pre_cut post_cut trig S Hrbf Gt) as H. cbv zeta in H.
  assert (RUN : run = let '(b, e, p, q) := event_window trig mw pre post mags pre_cut post_cut in match bind (read b e p q) (fun d => bind (event_compute lowpass taper tiny secs k transform l r0 r1 pre post mw d trig) (fun ev => Ret (d, ev))) with Raise ArchiveEmpty | Raise DataGapException | Raise DataAvailabilityException => Ret None | _ => run end).
  { unfold locate_event. destruct (event_window trig mw pre post mags pre_cut post_cut) as (((b, e), p), q). destruct (bind (read b e p q) _) as [(d', ev)|ex|]; [reflexivity|destruct ex; reflexivity|reflexivity]. }
  unfold event_window, locate_window in *. cbn [fst snd] in *. set (P := event_pads _ _ _ _ _ _) in *.
  destruct event_times as (gg & kk & a & Hg & Em & Ea & Dp & Hk & Ew & Ep & Ta & Es & Ens).
  destruct (contributing k ids stations) as [|u0 u] eqn:EU.
  - left. split; [reflexivity|]. pose proof (map_none lowpass taper tiny secs k l r0 tab x ids stations reach pre post d Wr Rg Rc Lv Dst EU) as E. rewrite RUN. rewrite Er. cbn [bind]. unfold event_compute at 1. rewrite E. reflexivity.
  - right. split; [discriminate|]. assert (NZ : contributing k ids stations <> []) by (rewrite EU; discriminate). clear EU u0 u.
    destruct H as [(_ & [(ex & Exn & _)|(d0 & Ed & Eo')])|H].
    + right. exists d. split; [exact Er|]. split; [exact Ds|]. split; [exact De|]. split; [exact Dst|]. pose proof (wr_data _ _ _ _ _ _ _ _ _ _ _ Wr) as U. rewrite Ds, De in U. exact U.
    + congruence.
    + exfalso. assert (d0 = d) by congruence. subst d0. destruct (map_one lowpass taper tiny secs k transform l r0 tab x y ids stations m reach pre post d Wr Rg Mp Py Rc Lv Dst Cl NZ) as (mp & Emp & _). unfold compute_coalescence in Emp. rewrite Eo' in Emp. cbn in Emp. discriminate.
    + destruct H as (d0 & r & tt & s0 & q0 & ev0 & H). cbv zeta in H. destruct H as (E1 & O1 & _ & (g & Hgf & Hmap) & Ed & _ & _ & Pk & H). assert (d0 = d) by congruence. subst d0.
      pose proof (event_map ev0 NZ E1 g Hmap) as EM. set (f := fun s nd => DetectRun_Spec.stacked (l_dict r) (Compute_Spec.with_onset (l_dict r) (o_phases k) stations) tt (pre / D + s) nd) in *.
      assert (FF : forall q s, is_node n q -> 0 <= s < 4 * w + 1 -> f s q = F (trig / D - 2 * w + s) q) by (intros q s Hq Hs; rewrite <- (EM q s Hq Hs); symmetry; apply Hgf; assumption).
      change (first_peak n (4 * w + 1) f s0 q0) in Pk. destruct Pk as (B0 & Hq0 & Hpk). set (t0 := trig / D - 2 * w + s0).
      assert (Ht0 : trig - 2 * mw + s0 * D = t0 * D) by (assert (Tg : trig / D = gg) by (rewrite Hg; apply Z.div_mul; lia); unfold t0; rewrite Tg, Ew, Hg, Em; ring).
      exists t0, q0. split.
      * split; [unfold t0; lia|]. split; [exact Hq0|]. intros t q Ht Hq. destruct (Hpk (t - (trig / D - 2 * w)) q ltac:(lia) Hq) as (A & B). rewrite !FF in A by (assumption || lia). rewrite !FF in B by (assumption || lia). replace (trig / D - 2 * w + (t - (trig / D - 2 * w))) with t in A, B by lia. fold t0 in A, B. split; [exact A|intros; apply B; unfold t0 in *; lia].
      * rewrite Ht0 in H. destruct H as [H|(Hlt & ev & loc & cloc & cov & unc & best & X1 & X2 & X3 & X4 & X5)]; [left; exact H|right]. split; [exact Hlt|].
        exists ev, loc, cloc, cov, unc, best. split; [exact X1|]. split; [exact X2|]. split.
        { rewrite X3. change (DetectRun_Spec.stacked (l_dict r) (Compute_Spec.with_onset (l_dict r) (o_phases k) stations) tt (pre / D + s0) q0) with (f s0 q0). rewrite (FF q0 s0 Hq0 B0). fold t0. do 3 f_equal. f_equal. apply map_ext_in. intros q Iq. apply Locate_Proofs.in_all_nodes in Iq. exact (FF q s0 Iq B0). }
        split; [|exact X5]. destruct X4 as (Nb & Hb).
        assert (Bs : forall i, 0 <= i < 2 * w -> 0 <= s0 - w + i < 4 * w + 1).
        { intros i Hi. assert (Tg : trig / D = gg) by (rewrite Hg; apply Z.div_mul; lia). assert (X : t0 * D - trig = (s0 - 2 * kk) * D) by (unfold t0; rewrite Tg, Ew, Hg; ring). rewrite X, Em in Hlt. rewrite Z.abs_mul, (Z.abs_eq D) in Hlt by lia. apply Z.mul_lt_mono_pos_r in Hlt; [|lia]. rewrite Ew in Hi |- *. lia. }
        assert (Sm : forall q, is_node n q -> sum (fun i => f (s0 - w + i) q) (zrange (2 * w)) = around F t0 w q).
        { intros q Hq. unfold around, sum. f_equal. apply map_ext_in. intros i Ii. apply in_zrange in Ii. rewrite FF by (assumption || apply Bs, Ii). f_equal. unfold t0. lia. }
        split; [exact Nb|]. intros q Hq. pose proof (Hb q Hq) as B. pose proof (Sm q Hq) as S1. pose proof (Sm best Nb) as S2. rewrite <- S1, <- S2. exact B.
Qed.
End Located.

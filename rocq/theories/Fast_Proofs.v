From Coq Require Import String Ascii.
From Coq Require Import List ZArith Reals QArith Bool Lia Lra.
From Verif Require Import Lib LibFacts PyDict Timeline_Model StaLta_Proofs ScanMseed_Model Avail_Model Migrate_Spec Resample_Spec Onset_Model Onset_Spec DetectRun_Model Window_Spec Window_Proofs Fast_Spec.
From Verif Require Archive_Model Gain_Proofs Resample_Model Resample_Proofs Migrate_Model Lut_Model Avail_Model.
Import ListNotations.
Open Scope Z_scope.

(** Every [f]-th of [f * (n - 1) + 1] samples. *)
Lemma every_array f n (l : list R) : 0 < f -> 1 <= n -> Z.of_nat (length l) = fast_length f n -> Resample_Model.every f l = thinned f n l.
Proof.
  intros Hf Hn L. unfold Resample_Model.every. unfold fast_length in L.
  assert (C : cdiv (Z.of_nat (length l)) f = n).
  { rewrite L. unfold cdiv. replace (- (f * (n - 1) + 1)) with (- n * f + (f - 1)) by ring. rewrite Z.div_add_l by lia. rewrite Z.div_small by lia. lia. }
  rewrite C. unfold thinned, array1. rewrite flat_map_concat_map. replace (map (fun j => Onset_Spec.sample l (f * j)) (zrange n)) with (concat (map (fun j => [Onset_Spec.sample l (f * j)]) (zrange n))).
  - f_equal. apply map_ext_in. intros j I. apply in_zrange in I. unfold Onset_Spec.sample. rewrite (Z.mul_comm j f).
    assert (B : 0 <= f * j < Z.of_nat (length l)). { split; [apply Z.mul_nonneg_nonneg; lia|]. rewrite L. assert (f * j <= f * (n - 1)) by (apply Z.mul_le_mono_nonneg_l; lia). lia. }
    destruct (rd_in_range _ l (f * j) B) as (v & ->). reflexivity.
  - generalize (zrange n). intros z. induction z as [|a z IH]; [reflexivity|]. cbn [map concat]. rewrite IH. reflexivity.
Qed.

Section Fast.
Variables (lowpass : Z -> list R -> list R) (taper : list R -> list R) (tiny : R) (secs : Z) (k : onset_cfg) (f : Z) (x : string -> Z -> R) (ids : list string).
Notation D := (secs / o_rate k).
Hypothesis Hlp : forall dd z, length (lowpass dd z) = length z.
Hypothesis Hf : 2 <= f.
Hypothesis HD : 0 < D.
Hypothesis Fd : (f | D).
(** The same window, with the data at the output rate. *)
Definition slow (d : wdata) : wdata :=
  mk_wdata (map (fun i => mk_seg i (d_start d) D (window_of secs k (slowed lowpass secs k f x d) d i)) ids) (d_stations d) (d_resample d) (d_upfactor d) (d_start d) (d_end d).
Lemma slow_recorded d : recorded secs k (slowed lowpass secs k f x d) ids (slow d).
Proof. reflexivity. Qed.
Lemma slow_lively d : lively tiny secs k (slowed lowpass secs k f x d) ids d -> lively tiny secs k (slowed lowpass secs k f x d) ids (slow d).
Proof. intros H. exact H. Qed.
Variable d : wdata.
Hypothesis Rc : recorded_fast secs k f x ids d.
Hypothesis Ho : d_start d <= d_end d.
Lemma steps_ok : 0 < D / f /\ D = f * (D / f).
Proof. destruct Fd as (q & E). assert (Q : D / f = q) by (rewrite E; apply Z.div_mul; lia). rewrite Q. split; [|lia]. apply (Z.mul_pos_cancel_r q f); lia. Qed.
Lemma n_pos : 1 <= n_window secs (o_rate k) (d_start d) (d_end d).
Proof. unfold n_window. pose proof (Z.div_pos (d_end d - d_start d) D ltac:(lia) HD). lia. Qed.
Lemma fast_len i : Z.of_nat (length (lowpass (D / f) (fast_window secs k f x d i))) = fast_length f (n_window secs (o_rate k) (d_start d) (d_end d)).
Proof. rewrite Hlp. unfold fast_window, cut. rewrite array1_length. apply Z.max_r. unfold fast_length. pose proof n_pos. assert (0 <= f * (n_window secs (o_rate k) (d_start d) (d_end d) - 1)) by (apply Z.mul_nonneg_nonneg; lia). lia. Qed.
Lemma window_slow i : window_of secs k (slowed lowpass secs k f x d) d i = thinned f (n_window secs (o_rate k) (d_start d) (d_end d)) (lowpass (D / f) (fast_window secs k f x d i)).
Proof. unfold window_of, cut. apply array1_ext. intros j Hj. unfold slowed. do 2 f_equal. lia. Qed.
Lemma one_trace t0 t1 rs uf i : let s := mk_seg i (d_start d) (D / f) (fast_window secs k f x d i) in
  Resample_Model.resample_trace lowpass secs (o_rate k) rs uf t0 t1 s = Ret (mk_seg i (d_start d) D (window_of secs k (slowed lowpass secs k f x d) d i)) /\ Resample_Model.moved secs (o_rate k) rs uf s = true.
Proof.
  intros s. destruct steps_ok as (P & E). unfold Resample_Model.resample_trace, Resample_Model.moved, Resample_Model.at_rate, Resample_Model.decimable. cbn [sg_delta s].
  assert (N : (D / f =? D) = false). { apply Z.eqb_neq. intros C. assert (2 * (D / f) <= f * (D / f)) by (apply Z.mul_le_mono_nonneg_r; lia). lia. }
  assert (M : (D mod (D / f) =? 0) = true). { apply Z.eqb_eq. rewrite E at 1. apply Z.mod_mul. lia. }
  rewrite N, M. split; [|reflexivity]. unfold Resample_Model.decimate. cbn [sg_delta sg_id sg_start sg_data s].
  assert (Q : D / (D / f) = f). { rewrite E at 1. apply Z.div_mul. lia. } rewrite Q. destruct (Z.leb_spec f 0); [lia|]. rewrite <- E, window_slow. do 2 f_equal. apply every_array; [lia|apply n_pos|apply fast_len].
Qed.
Lemma loop_slow rs uf t0 t1 : forall is, Resample_Model.resample_loop (Resample_Model.resample_trace lowpass secs (o_rate k) rs uf t0 t1) (Resample_Model.moved secs (o_rate k) rs uf)
    (map (fun i => mk_seg i (d_start d) (D / f) (fast_window secs k f x d i)) is) = Ret ([], map (fun i => mk_seg i (d_start d) D (window_of secs k (slowed lowpass secs k f x d) d i)) is).
Proof.
  induction is as [|i is IH]; [reflexivity|]. cbn [map Resample_Model.resample_loop]. destruct (one_trace t0 t1 rs uf i) as (E & M). cbv zeta in E, M. rewrite E, M. cbn [bind]. rewrite IH. reflexivity.
Qed.
Lemma phase_slow pc : phase_waveforms lowpass secs k d pc = phase_waveforms lowpass secs k (slow d) pc.
Proof.
  unfold phase_waveforms. cbn [slow d_waveforms d_resample d_upfactor d_start d_end]. rewrite Rc. unfold select_channel.
  assert (Fi : forall g : string -> seg, (forall i, sg_id (g i) = i) -> filter (fun s => Archive_Model.fnmatch (ph_map pc) (channel_of s)) (map g ids) = map g (filter (in_phase pc) ids)).
  { intros g Hg. apply Gain_Proofs.filter_same. intros i. unfold channel_of, in_phase. rewrite Hg. reflexivity. }
  rewrite !Fi by reflexivity. unfold Resample_Model.pre_process, Resample_Model.resample. rewrite loop_slow, loop_whole by (apply Forall_map, Forall_forall; intros; reflexivity). cbn [bind fst snd app]. rewrite app_nil_r. reflexivity.
Qed.
Lemma fold_out_ext {A S} (g h : S -> A -> outcome S) : forall l s, (forall s a, In a l -> g s a = h s a) -> fold_out g l s = fold_out h l s.
Proof.
  induction l as [|a l IH]; intros s H; [reflexivity|]. cbn [fold_out]. rewrite (H s a (or_introl eq_refl)). destruct (h s a) as [s'|e|]; cbn [bind]; [|reflexivity|reflexivity]. apply IH. intros s0 b I. apply H. right. exact I.
Qed.
Lemma onsets_slow ts : calculate_onsets lowpass taper tiny secs k d ts = calculate_onsets lowpass taper tiny secs k (slow d) ts.
Proof.
  unfold calculate_onsets. f_equal. apply fold_out_ext. intros s ph _. unfold phase_body. destruct (dget (o_cfg k) ph) as [pc|]; [|reflexivity]. rewrite phase_slow. reflexivity.
Qed.
Lemma compute_slow transform l r0 r1 pre post : compute lowpass taper tiny secs k transform l r0 r1 pre post d = compute lowpass taper tiny secs k transform l r0 r1 pre post (slow d).
Proof. unfold compute, compute_coalescence. rewrite <- !onsets_slow. reflexivity. Qed.
End Fast.

(** ** The scan *)
Section Reader.
Variables (lowpass : Z -> list R -> list R) (taper : list R -> list R) (tiny : R) (secs : Z) (k : onset_cfg) (f : Z) (x : string -> Z -> R) (ids stations : list string).
Notation D := (secs / o_rate k).
Hypothesis Hlp : forall dd z, length (lowpass dd z) = length z.
Hypothesis Hf : 2 <= f.
Hypothesis HD : 0 < D.
Hypothesis Fd : (f | D).
Variables (transform : Z -> Z -> Lut_Model.vec -> Lut_Model.vec) (ucf : R) (l : Lut_Model.lut) (r0 : Migrate_Model.mreg) (r1 : Migrate_Model.freg) (read : Z -> Z -> outcome wdata).
Definition slow_read (a b : Z) : outcome wdata := bind (read a b) (fun d => Ret (slow lowpass secs k f x ids d)).
Lemma reads_slow a b : reads_fast lowpass tiny secs k f x ids stations read a b ->
  reads tiny secs k (match read a b with Ret d => slowed lowpass secs k f x d | _ => x end) ids stations slow_read a b.
Proof.
  intros (d & E & Es & Ee & Est & Rc & Lv). exists (slow lowpass secs k f x ids d). unfold slow_read. rewrite E. cbn [bind]. split; [reflexivity|]. split; [exact Es|]. split; [exact Ee|]. split; [exact Est|]. split; [apply slow_recorded|apply slow_lively; exact Lv].
Qed.
Lemma scan_slow cw cols fs afs starttime timestep n : (forall i, 0 <= i < n -> let pads := onset_pad (d_clock secs k) timestep (stalta_pre_pad (map (fun kv => (ph_sta (snd kv), ph_lta (snd kv))) (o_cfg k))) (o_post k) in
    let w := step_window (d_clock secs k) starttime timestep (fst pads) (snd pads) i in fst w <= snd w /\ reads_fast lowpass tiny secs k f x ids stations read (fst w) (snd w)) ->
  continuous_compute lowpass taper tiny secs k transform ucf l r0 r1 cw read cols fs afs starttime timestep n = continuous_compute lowpass taper tiny secs k transform ucf l r0 r1 cw slow_read cols fs afs starttime timestep n.
Proof.
  intros H. unfold continuous_compute. cbv zeta. f_equal. apply fold_out_ext. intros s i I. apply in_zrange in I. destruct (H i I) as (Hw & d & E & Es & Ee & Est & Rc & _).
  unfold timestep_body. cbv zeta. unfold slow_read. rewrite E. cbn [bind]. rewrite (compute_slow lowpass taper tiny secs k f x ids Hlp Hf HD Fd d Rc) by lia. reflexivity.
Qed.
End Reader.

(** ** What is computed in a window *)
From Verif Require Import Lut_Spec Locate_Spec DetectRun_Spec StationSet_Spec Formula_Spec Formula_Proofs Near_Spec Near_Proofs LocateRun_Model.
Open Scope Z_scope.
Lemma compute_fast lowpass taper tiny secs k transform l r0 r1 tab f x y ids stations m e L reach pre post d : let d' := slow lowpass secs k f x ids d in
  window_ready lowpass taper tiny secs k l tab (IZR (o_rate k)) (time2sample (o_clock secs k) pre) (time2sample (o_clock secs k) post) d' ->
  (forall dd z, length (lowpass dd z) = length z) -> 2 <= f -> 0 < secs / o_rate k -> d_start d <= d_end d ->
  regular secs k l tab ids stations reach -> (forall n, 0 <= m n) -> nearly_fast lowpass secs k f m e x ids y -> loud secs k ids y L -> (0 <= e < L)%R -> lively tiny secs k (slowed lowpass secs k f x d) ids d -> d_stations d = stations ->
  forall nt, n_window secs (o_rate k) (d_start d) (d_end d) = nt -> clear_of_ends secs k (m nt) (time2sample (o_clock secs k) pre) (time2sample (o_clock secs k) post) reach ->
  computed lowpass taper tiny secs k transform l r0 r1 ids stations (fun t => near_peak (Lut_Model.g_count (Lut_Model.l_grid l)) (node_coord transform (Lut_Model.l_grid l)) (slack e L) (coalescence_of secs k tab ids stations y t)) pre post d'.
Proof.
  intros d' W Hlp Hf HD Ho Rg Mp Ny Ld He Lv Ds nt Ent Cl.
  apply (compute_near_at lowpass taper tiny secs k transform l r0 r1 tab (slowed lowpass secs k f x d) y ids stations m e L reach pre post d' W Rg Mp) with (nt := nt); try assumption; [|reflexivity].
  intros ph pc i t Ip Ec Ii a nt' Ht. change (window_of secs k (slowed lowpass secs k f x d) d' i) with (window_of secs k (slowed lowpass secs k f x d) d i). rewrite window_slow by assumption. apply (Ny ph pc i a nt' t Ip Ec Ii Ht).
Qed.
Lemma event_slow lowpass taper tiny secs k f x ids transform l r0 r1 pre post mw trig d : (forall dd z, length (lowpass dd z) = length z) -> 2 <= f -> 0 < secs / o_rate k -> (f | secs / o_rate k) -> recorded_fast secs k f x ids d -> d_start d <= d_end d ->
  event_compute lowpass taper tiny secs k transform l r0 r1 pre post mw d trig = event_compute lowpass taper tiny secs k transform l r0 r1 pre post mw (slow lowpass secs k f x ids d) trig.
Proof. intros Hlp Hf HD Fd Rc Ho. unfold event_compute, compute_coalescence. rewrite <- (onsets_slow lowpass taper tiny secs k f x ids Hlp Hf HD Fd d Rc Ho). reflexivity. Qed.

(** Proofs for a processing that settles only approximately. *)
From Coq Require Import String.
From Coq Require Import List ZArith Reals Rgeom Lia Lra.
From Verif Require Import Lib LibFacts PyDict Timeline_Model StaLta_Model Migrate_Spec Lut_Spec Locate_Spec StaLta_Spec Resample_Spec Onset_Model Onset_Spec DetectRun_Spec StationSet_Spec Window_Spec Formula_Spec Formula_Proofs Near_Spec ScanMseed_Model.
From Verif Require Lut_Model Migrate_Proofs Source_Proofs Pipeline_Proofs ScanMseed_Proofs.
Import ListNotations.
Open Scope Z_scope.

Open Scope R_scope.
(** ** Means *)
Lemma Rsum_close {A} (f g : A -> R) e l : (forall a, In a l -> Rabs (f a - g a) <= e) -> Rabs (Rsum (map f l) - Rsum (map g l)) <= INR (length l) * e.
Proof.
  induction l as [|a l IH]; intros H.
  - cbn. rewrite Rminus_0_r, Rabs_R0. lra.
  - change (length (a :: l)) with (S (length l)). rewrite S_INR. unfold Rsum in *. cbn [map fold_right]. specialize (IH (fun b I => H b (or_intror I))). pose proof (H a (or_introl eq_refl)) as Ha.
    replace (f a + fold_right Rplus 0 (map f l) - (g a + fold_right Rplus 0 (map g l))) with ((f a - g a) + (fold_right Rplus 0 (map f l) - fold_right Rplus 0 (map g l))) by ring. eapply Rle_trans; [apply Rabs_triang|]. lra.
Qed.
Lemma mean_close f g e lo w : (0 < w)%Z -> (forall t, (lo <= t < lo + w)%Z -> Rabs (f t - g t) <= e) -> Rabs (window_mean f lo w - window_mean g lo w) <= e.
Proof.
  intros Hw H. unfold window_mean. assert (Wp : 0 < IZR w) by (apply IZR_lt; lia). replace (Rsum (map f (zseq lo (Z.to_nat w))) / IZR w - Rsum (map g (zseq lo (Z.to_nat w))) / IZR w) with ((Rsum (map f (zseq lo (Z.to_nat w))) - Rsum (map g (zseq lo (Z.to_nat w)))) / IZR w) by (field; lra).
  unfold Rdiv. rewrite Rabs_mult, (Rabs_pos_eq (/ IZR w)) by (left; apply Rinv_0_lt_compat, Wp). apply (Rmult_le_reg_r (IZR w)); [exact Wp|]. rewrite Rmult_assoc, Rinv_l, Rmult_1_r by lra.
  eapply Rle_trans; [apply (Rsum_close f g e)|].
  - intros t I. apply in_zseq in I. apply H. lia.
  - rewrite zseq_length, INR_IZR_INZ, Z2Nat.id by lia. lra.
Qed.
Lemma mean_nonneg f lo w : (0 < w)%Z -> (forall t, 0 <= f t) -> 0 <= window_mean f lo w.
Proof.
  intros Hw H. unfold window_mean. apply Rmult_le_pos; [|left; apply Rinv_0_lt_compat, IZR_lt; lia]. induction (zseq lo (Z.to_nat w)) as [|a l IH]; unfold Rsum in *; cbn [map fold_right]; [lra|]. pose proof (H a). lra.
Qed.
(** ** A ratio *)
Lemma ratio_close s s' l l' e L : 0 <= e < L -> 0 <= s -> L <= l -> Rabs (s' - s) <= e -> Rabs (l' - l) <= e -> Rabs (s' / l' - s / l) <= e / (L - e) * (s / l + 1).
Proof.
  intros He Hs Hl Hs' Hl'. assert (Lp : L - e <= l') by (apply ScanMseed_Proofs.Rabs_le_inv in Hl'; lra). assert (0 < l') by lra. assert (0 < l) by lra.
  replace (s' / l' - s / l) with ((s' - s) / l' + - (s / l) * ((l' - l) / l')) by (field; lra).
  assert (R0 : 0 <= s / l) by (apply Rmult_le_pos; [exact Hs|left; apply Rinv_0_lt_compat; lra]).
  assert (Q : forall v, Rabs v <= e -> Rabs (v / l') <= e / (L - e)).
  { intros v Hv. unfold Rdiv. rewrite Rabs_mult, (Rabs_pos_eq (/ l')) by (left; apply Rinv_0_lt_compat; lra). apply Rmult_le_compat; [apply Rabs_pos|left; apply Rinv_0_lt_compat; lra|exact Hv|]. apply Rinv_le_contravar; lra. }
  eapply Rle_trans; [apply Rabs_triang|]. rewrite Rabs_mult, Rabs_Ropp, (Rabs_pos_eq (s / l)) by exact R0. pose proof (Q _ Hs') as Q1. pose proof (Q _ Hl') as Q2. pose proof (Rmult_le_compat_l _ _ _ R0 Q2). lra.
Qed.
(** ** Root mean squares *)
Definition norm (l : list R) : R := sqrt (Rsum (map (fun v => v * v) l)).
Lemma norm_sum_nonneg l : 0 <= Rsum (map (fun v => v * v) l).
Proof. induction l as [|a l IH]; unfold Rsum in *; cbn [map fold_right]; [lra|]. pose proof (Rle_0_sqr a). unfold Rsqr in *. lra. Qed.
Lemma norm_cons a l : norm (a :: l) = sqrt (a * a + norm l * norm l).
Proof. unfold norm at 1. unfold norm. rewrite sqrt_sqrt by apply norm_sum_nonneg. reflexivity. Qed.
Lemma norm_nonneg l : 0 <= norm l.
Proof. apply sqrt_pos. Qed.
Lemma norm_triangle {A} (f g : A -> R) l : norm (map (fun a => f a + g a) l) <= norm (map f l) + norm (map g l).
Proof.
  induction l as [|a l IH].
  - cbn [map]. unfold norm. cbn. rewrite sqrt_0. lra.
  - cbn [map]. rewrite !norm_cons. set (p := norm (map f l)) in *. set (q := norm (map g l)) in *. pose proof (norm_nonneg (map (fun a => f a + g a) l)) as N. set (z := norm (map (fun a => f a + g a) l)) in *.
    apply Rle_trans with (sqrt ((f a + g a) * (f a + g a) + (p + q) * (p + q))).
    + apply sqrt_le_1_alt. apply Rplus_le_compat_l. apply Rmult_le_compat; lra.
    + pose proof (triangle 0 0 (f a + g a) (p + q) (f a) p) as T. unfold dist_euc in T.
      replace (Rsqr (0 - (f a + g a)) + Rsqr (0 - (p + q))) with ((f a + g a) * (f a + g a) + (p + q) * (p + q)) in T by (unfold Rsqr; ring).
      replace (Rsqr (0 - f a) + Rsqr (0 - p)) with (f a * f a + p * p) in T by (unfold Rsqr; ring).
      replace (Rsqr (f a - (f a + g a)) + Rsqr (p - (p + q))) with (g a * g a + q * q) in T by (unfold Rsqr; ring). exact T.
Qed.
Lemma norm_le {A} (f g : A -> R) l : (forall a, In a l -> Rabs (f a) <= g a) -> norm (map f l) <= norm (map g l).
Proof.
  intros H. unfold norm. apply sqrt_le_1_alt. rewrite !map_map. induction l as [|a l IH]; unfold Rsum in *; cbn [map fold_right]; [lra|].
  apply Rplus_le_compat; [|apply IH; intros b I; apply H; right; exact I]. pose proof (H a (or_introl eq_refl)) as Ha. replace (f a * f a) with (Rabs (f a) * Rabs (f a)) by (rewrite <- Rabs_mult, Rabs_pos_eq; [reflexivity|]; apply Rle_0_sqr).
  pose proof (Rabs_pos (f a)). apply Rmult_le_compat; lra.
Qed.
Lemma norm_scale {A} c (f : A -> R) l : 0 <= c -> norm (map (fun a => c * f a) l) = c * norm (map f l).
Proof.
  intros Hc. unfold norm. replace (c * sqrt (Rsum (map (fun v => v * v) (map f l)))) with (sqrt (c * c) * sqrt (Rsum (map (fun v => v * v) (map f l)))) by (rewrite sqrt_square by exact Hc; reflexivity). rewrite <- sqrt_mult by (apply norm_sum_nonneg || (apply Rmult_le_pos; assumption)). f_equal. rewrite !map_map. induction l as [|a l IH]; unfold Rsum in *; cbn [map fold_right]; [ring|]. rewrite IH. ring.
Qed.
Lemma norm_one {A} (l : list A) : norm (map (fun _ => 1) l) = sqrt (INR (length l)).
Proof.
  unfold norm. f_equal. rewrite map_map. induction l as [|a l IH]; [reflexivity|]. change (length (a :: l)) with (S (length l)). rewrite S_INR. unfold Rsum in *. cbn [map fold_right]. rewrite IH. ring.
Qed.
Lemma rms_norm l : rms l = norm l / sqrt (INR (length l)).
Proof.
  unfold rms, norm. destruct l as [|a l].
  - cbn. unfold Rdiv. rewrite !Rmult_0_l, sqrt_0. ring.
  - apply sqrt_div; [apply norm_sum_nonneg|apply lt_0_INR; cbn; lia].
Qed.
Lemma rms_close {A} (f g : A -> R) d l : 0 <= d -> (forall a, In a l -> 0 <= g a) -> (forall a, In a l -> Rabs (f a - g a) <= d * (g a + 1)) -> Rabs (rms (map f l) - rms (map g l)) <= d * (rms (map g l) + 1).
Proof.
  intros Hd Hg H. destruct l as [|a0 l0] eqn:El.
  - cbn. unfold rms. cbn. unfold Rdiv. rewrite Rmult_0_l, sqrt_0. rewrite Rminus_0_r, Rabs_R0. lra.
  - rewrite <- El in *. assert (Np : 0 < INR (length l)) by (apply lt_0_INR; rewrite El; cbn; lia). clear El a0 l0. assert (Sp : 0 < sqrt (INR (length l))) by (apply sqrt_lt_R0, Np).
    rewrite !rms_norm, !map_length. set (s := sqrt (INR (length l))) in *.
    assert (T : norm (map (fun a => f a - g a) l) <= d * (norm (map g l) + s)).
    { eapply Rle_trans; [apply (norm_le (fun a => f a - g a) (fun a => d * (g a + 1))), H|]. rewrite (norm_scale d (fun a => g a + 1)) by exact Hd. apply Rmult_le_compat_l; [exact Hd|]. eapply Rle_trans; [apply (norm_triangle g (fun _ => 1))|]. rewrite norm_one. unfold s. lra. }
    assert (U : norm (map f l) <= norm (map g l) + norm (map (fun a => f a - g a) l)).
    { eapply Rle_trans; [|apply (norm_triangle g (fun a => f a - g a))]. right. f_equal. apply map_ext. intros a. ring. }
    assert (V : norm (map g l) <= norm (map f l) + norm (map (fun a => f a - g a) l)).
    { assert (N : norm (map (fun a => g a - f a) l) = norm (map (fun a => f a - g a) l)) by (unfold norm; rewrite !map_map; do 2 f_equal; apply map_ext; intros a; ring). rewrite <- N.
      eapply Rle_trans; [|apply (norm_triangle f (fun a => g a - f a))]. right. f_equal. apply map_ext. intros a. ring. }
    replace (norm (map f l) / s - norm (map g l) / s) with ((norm (map f l) - norm (map g l)) / s) by (field; lra). unfold Rdiv. rewrite Rabs_mult, (Rabs_pos_eq (/ s)) by (left; apply Rinv_0_lt_compat, Sp). apply (Rmult_le_reg_r s); [exact Sp|]. rewrite Rmult_assoc, Rinv_l, Rmult_1_r by lra.
    replace (d * (norm (map g l) * / s + 1) * s) with (d * (norm (map g l) + s)) by (field; lra). apply Rabs_le. lra.
Qed.
Lemma max_close a b c : Rabs (Rmax a c - Rmax b c) <= Rabs (a - b).
Proof. unfold Rmax, Rabs. destruct (Rle_dec a c), (Rle_dec b c); repeat destruct (Rcase_abs _); lra. Qed.
(** ** Geometric means *)
Lemma geo_le {A} (f g : A -> R) l : l <> [] -> (forall b, In b l -> 0 < f b <= g b) -> geometric_mean (map f l) <= geometric_mean (map g l).
Proof.
  intros Ne H. assert (Lp : 0 < INR (length l)) by (apply lt_0_INR; destruct l; [contradiction|cbn; lia]).
  rewrite !Migrate_Proofs.geometric_mean_exp by (intros z I; apply in_map_iff in I; destruct I as (b & <- & I); destruct (H b I); lra). rewrite !map_map, !map_length.
  assert (S : Rsum (map (fun b => ln (f b)) l) <= Rsum (map (fun b => ln (g b)) l)).
  { clear Ne Lp. induction l as [|a l IH]; unfold Rsum in *; cbn [map fold_right]; [lra|]. apply Rplus_le_compat; [|apply IH; intros b I; apply H; right; exact I]. destruct (H a (or_introl eq_refl)). apply Source_Proofs.ln_le; assumption. }
  destruct S as [S|S]; [|rewrite S; lra]. left. apply exp_increasing. apply Rmult_lt_compat_r; [apply Rinv_0_lt_compat, Lp|exact S].
Qed.
Lemma geo_scale {A} c (f : A -> R) l : l <> [] -> 0 < c -> (forall b, In b l -> 0 < f b) -> geometric_mean (map (fun b => c * f b) l) = c * geometric_mean (map f l).
Proof.
  intros Ne Hc H. assert (Lp : 0 < INR (length l)) by (apply lt_0_INR; destruct l; [contradiction|cbn; lia]).
  rewrite !Migrate_Proofs.geometric_mean_exp by (intros z I; apply in_map_iff in I; destruct I as (b & <- & I); try apply Rmult_lt_0_compat; auto). rewrite !map_map, !map_length.
  assert (S : Rsum (map (fun b => ln (c * f b)) l) = INR (length l) * ln c + Rsum (map (fun b => ln (f b)) l)).
  { clear Ne Lp. induction l as [|a l IH]; [cbn; ring|]. change (length (a :: l)) with (S (length l)). rewrite S_INR. unfold Rsum in *. cbn [map fold_right]. rewrite IH by (intros b I; apply H; right; exact I). rewrite ln_mult by (assumption || apply H; left; reflexivity). ring. }
  rewrite S. replace ((INR (length l) * ln c + Rsum (map (fun b => ln (f b)) l)) / INR (length l)) with (ln c + Rsum (map (fun b => ln (f b)) l) / INR (length l)) by (field; lra). rewrite exp_plus, exp_ln by exact Hc. reflexivity.
Qed.
Lemma geo_close {A} (f g : A -> R) d l : l <> [] -> 0 <= d -> (forall b, In b l -> 0 < f b) -> (forall b, In b l -> 0 < g b) -> (forall b, In b l -> Rabs (f b - g b) <= d * g b) ->
  (1 - d) * geometric_mean (map g l) <= geometric_mean (map f l) <= (1 + d) * geometric_mean (map g l).
Proof.
  intros Ne Hd Hf Hg H. assert (B : forall b, In b l -> (1 - d) * g b <= f b <= (1 + d) * g b) by (intros b I; pose proof (ScanMseed_Proofs.Rabs_le_inv _ _ (H b I)); lra). split.
  - destruct (Rle_lt_dec (1 - d) 0) as [N|P].
    + apply Rle_trans with 0.
      * assert (0 < geometric_mean (map g l)) by (apply Pipeline_Proofs.geometric_mean_pos; intros z Hz; apply in_map_iff in Hz; destruct Hz as (b & <- & I); apply Hg, I). replace 0 with (0 * geometric_mean (map g l)) by ring. apply Rmult_le_compat_r; lra.
      * left. apply Pipeline_Proofs.geometric_mean_pos. intros z Hz. apply in_map_iff in Hz. destruct Hz as (b & <- & I). apply Hf, I.
    + rewrite <- (geo_scale (1 - d) g l Ne P Hg). apply (geo_le _ _ l Ne). intros b I. split; [apply Rmult_lt_0_compat; [exact P|apply Hg, I]|apply B, I].
  - rewrite <- (geo_scale (1 + d) g l Ne ltac:(lra) Hg). apply (geo_le _ _ l Ne). intros b I. split; [apply Hf, I|apply B, I].
Qed.
(** ** Onset functions and the coalescence *)
Open Scope Z_scope.
(** [y'] is [y], give or take [e], from [lo] to [hi]. *)
Definition close_on (k : onset_cfg) (ids : list string) (e : R) (y y' : string -> string -> Z -> R) (lo hi : Z) : Prop :=
  forall ph pc i t, In ph (o_phases k) -> dget (o_cfg k) ph = Some pc -> In i ids -> lo <= t < hi -> (Rabs (y' ph i t - y ph i t) <= e)%R.
Section Close.
Variables (secs : Z) (k : onset_cfg) (tab : string -> string -> Lut_Model.table) (ids stations : list string) (y y' : string -> string -> Z -> R) (e L : R).
Hypothesis He : (0 <= e < L)%R.
Hypothesis Ld : loud secs k ids y L.
Notation c := (o_clock secs k).
Hypothesis Hw : forall ph pc, In ph (o_phases k) -> dget (o_cfg k) ph = Some pc -> 0 < stw_samples c (ph_sta pc) <= ltw_samples c (ph_lta pc).
Let d : R := (e / (L - e))%R.
Lemma d_nonneg : (0 <= d)%R.
Proof. unfold d. apply Rmult_le_pos; [lra|left; apply Rinv_0_lt_compat; lra]. Qed.
Lemma onset_close s ph pc t lo hi : In ph (o_phases k) -> dget (o_cfg k) ph = Some pc -> close_on k ids e y y' lo hi -> lo <= t - ltw_samples c (ph_lta pc) + 1 -> t + stw_samples c (ph_sta pc) < hi ->
  (Rabs (onset_of secs k ids y' s ph t - onset_of secs k ids y s ph t) <= d * (onset_of secs k ids y s ph t + 1))%R.
Proof.
  intros Ip Ec Hc Hlo Hhi. unfold onset_of. rewrite Ec. pose proof (Hw ph pc Ip Ec) as W. set (nsta := stw_samples c (ph_sta pc)) in *. set (nlta := ltw_samples c (ph_lta pc)) in *.
  eapply Rle_trans; [apply max_close|]. pose proof d_nonneg as Dn.
  assert (M : forall i lo' w, In i ids -> 0 < w -> lo <= lo' -> lo' + w <= hi -> (Rabs (window_mean (y' ph i) lo' w - window_mean (y ph i) lo' w) <= e)%R) by (intros i lo' w Ii Hw0 H1 H2; apply mean_close; [exact Hw0|]; intros u Hu; apply (Hc ph pc); try assumption; lia).
  assert (P : forall i, In i ids -> (0 <= ratio (o_centred k) nsta nlta (y ph i) t)%R /\ (Rabs (ratio (o_centred k) nsta nlta (y' ph i) t - ratio (o_centred k) nsta nlta (y ph i) t) <= d * (ratio (o_centred k) nsta nlta (y ph i) t + 1))%R).
  { intros i Ii. unfold ratio. assert (Lp : (L <= window_mean (y ph i) (t - nlta + 1) nlta)%R) by apply (Ld ph pc i _ Ip Ec Ii).
    assert (Sn : forall lo', (0 <= window_mean (y ph i) lo' nsta)%R) by (intros lo'; apply mean_nonneg; [lia|]; intros u; apply (Ld ph pc i u Ip Ec Ii)). split.
    - apply Rmult_le_pos; [apply Sn|left; apply Rinv_0_lt_compat; lra].
    - apply ratio_close; [exact He|apply Sn|exact Lp|destruct (o_centred k); apply M; try assumption; lia|apply M; try assumption; lia]. }
  eapply Rle_trans; [apply (rms_close _ (fun i => ratio (o_centred k) nsta nlta (y ph i) t) d)|].
  - exact Dn.
  - intros i I. apply P. unfold channels_of in I. apply filter_In in I. tauto.
  - intros i I. apply P. unfold channels_of in I. apply filter_In in I. tauto.
  - apply Rmult_le_compat_l; [exact Dn|]. apply Rplus_le_compat_r, Rmax_l.
Qed.
Lemma coalescence_close t q lo hi : contributing k ids stations <> [] -> close_on k ids e y y' lo hi ->
  (forall s ph pc, In (s, ph) (contributing k ids stations) -> dget (o_cfg k) ph = Some pc -> lo <= arrive k tab s ph q t - ltw_samples c (ph_lta pc) + 1 /\ arrive k tab s ph q t + stw_samples c (ph_sta pc) < hi) ->
  ((1 - slack e L) * coalescence_of secs k tab ids stations y t q <= coalescence_of secs k tab ids stations y' t q <= (1 + slack e L) * coalescence_of secs k tab ids stations y t q)%R.
Proof.
  intros Ne Hc Ha. unfold coalescence_of, slack. fold d. pose proof d_nonneg as Dn.
  assert (Pos : forall o, (0 < Rmax o (1 / 100))%R) by (intros o; pose proof (Rmax_r o (1 / 100)); lra).
  apply geo_close; [exact Ne|lra|intros; apply Pos|intros; apply Pos|].
  intros (s, ph) I. cbn [fst snd]. eapply Rle_trans; [apply max_close|]. pose proof I as I0. unfold contributing in I. apply filter_In in I. destruct I as (I & En). cbn [fst snd] in En. unfold pairs in I. apply in_flat_map in I. destruct I as (p' & Ip & I). apply in_map_iff in I. destruct I as (s' & X & Is). injection X as -> ->.
  unfold has_onset in En. destruct (dget (o_cfg k) ph) as [pc|] eqn:Ec; [|discriminate]. destruct (Ha s ph pc I0 Ec) as (A1 & A2).
  eapply Rle_trans; [apply (onset_close s ph pc _ lo hi Ip Ec Hc A1 A2)|]. set (o := onset_of secs k ids y s ph (arrive k tab s ph q t)). pose proof (Rmax_l o (1 / 100)). pose proof (Rmax_r o (1 / 100)). rewrite (Rmult_comm 101), Rmult_assoc. apply Rmult_le_compat_l; [exact Dn|]. lra.
Qed.
End Close.
(** ** A window *)
Lemma compute_near_at lowpass taper tiny secs k transform l r0 r1 tab x y ids stations m e L reach pre post d : window_ready lowpass taper tiny secs k l tab (IZR (o_rate k)) (time2sample (o_clock secs k) pre) (time2sample (o_clock secs k) post) d ->
  regular secs k l tab ids stations reach -> (forall n, 0 <= m n) -> (forall ph pc i t, In ph (o_phases k) -> dget (o_cfg k) ph = Some pc -> In i ids -> let a := d_start d / (secs / o_rate k) in let nt := n_window secs (o_rate k) (d_start d) (d_end d) in a + m nt <= t < a + nt - m nt ->
    (Rabs (Onset_Spec.sample (o_transform k (ph_band pc (secs / o_rate k) (window_of secs k x d i))) (t - a) - y ph i t) <= e)%R) -> loud secs k ids y L -> (0 <= e < L)%R -> recorded secs k x ids d -> lively tiny secs k x ids d -> d_stations d = stations ->
  forall nt, n_window secs (o_rate k) (d_start d) (d_end d) = nt -> clear_of_ends secs k (m nt) (time2sample (o_clock secs k) pre) (time2sample (o_clock secs k) post) reach ->
  computed lowpass taper tiny secs k transform l r0 r1 ids stations (fun t => near_peak (Lut_Model.g_count (Lut_Model.l_grid l)) (node_coord transform (Lut_Model.l_grid l)) (slack e L) (coalescence_of secs k tab ids stations y t)) pre post d.
Proof.
  intros W St Mp Ny Ld He Rc Lv Ds nt Ent Cl. set (D := secs / o_rate k). set (c := o_clock secs k) in *. set (first := time2sample c pre) in *. set (last := time2sample c post) in *. set (a0 := d_start d / D).
  set (y' := fun (ph i : string) t => match dget (o_cfg k) ph with Some pc => Onset_Spec.sample (o_transform k (ph_band pc D (window_of secs k x d i))) (t - a0) | None => 0%R end).
  assert (Cl0 : clear_of_ends secs k 0 first last reach) by (intros ph pc Ip Ec; destruct (Cl ph pc Ip Ec); pose proof (Mp nt); unfold c in *; lia).
  assert (Py : forall ph pc i t, In ph (o_phases k) -> dget (o_cfg k) ph = Some pc -> In i ids -> 0 <= t < n_window secs (o_rate k) (d_start d) (d_end d) - 0 -> Onset_Spec.sample (o_transform k (ph_band pc D (window_of secs k x d i))) t = y' ph i (a0 + t)).
  { intros ph pc i t Ip Ec Ii Ht. unfold y'. rewrite Ec. f_equal. lia. }
  destruct (compute_one lowpass taper tiny secs k transform l r0 r1 tab x y' ids stations 0 reach pre post d W St (Z.le_refl 0) Py Rc Lv Ds Cl0) as [(Z0 & Ec)|(NZ & rows & av & Ec & Lr & Hr)]; [left; split; assumption|right]. split; [exact NZ|].
  exists rows, av. split; [exact Ec|]. split; [exact Lr|]. intros j Hj. destruct (Hr j Hj) as (row & Rr & Pk). exists row. split; [exact Rr|]. exists (coalescence_of secs k tab ids stations y' (a0 + first + j)). split; [|exact Pk].
  fold c in Hj. fold first in Hj. fold last in Hj. fold c. fold D. fold a0. fold first. intros q Hq. rewrite Ent in Hj.
  assert (Hw : forall ph pc, In ph (o_phases k) -> dget (o_cfg k) ph = Some pc -> 0 < stw_samples c (ph_sta pc) <= ltw_samples c (ph_lta pc)).
  { intros ph pc Ip E. destruct (wr_phases _ _ _ _ _ _ _ _ _ _ _ W ph Ip) as (pc' & E' & (Hw & _) & _). assert (pc' = pc) by congruence. subst pc'. fold c in Hw. lia. }
  apply (coalescence_close secs k tab ids stations y y' e L He Ld Hw _ q (a0 + m nt) (a0 + nt - m nt) NZ).
  - intros ph pc i t Ip E Ii Ht. unfold y'. rewrite E. apply (Ny ph pc i t Ip E Ii). cbv zeta. rewrite Ent. exact Ht.
  - intros s ph pc I E. pose proof St as [T1 T2 T3 T4 T6 T8]. unfold contributing in I. apply filter_In in I. destruct I as (I & En). unfold pairs in I. apply in_flat_map in I. destruct I as (p' & Ip & I). apply in_map_iff in I. destruct I as (s' & X & Is). injection X as -> ->.
    pose proof (T8 s ph q Is Ip Hq) as Rq. unfold arrive. set (a := np_round (entry0 (tab s ph) q * IZR (o_rate k))) in *. assert (A : a <= reach) by (unfold a; rewrite <- (ScanMseed_Proofs.np_round_IZR reach); apply ScanMseed_Proofs.np_round_mono, Rq).
    destruct (Cl ph pc Ip E) as (C1 & C2). fold c. fold c in C1, C2. lia.
Qed.
Lemma compute_near lowpass taper tiny secs k transform l r0 r1 tab x y ids stations m e L reach pre post d : window_ready lowpass taper tiny secs k l tab (IZR (o_rate k)) (time2sample (o_clock secs k) pre) (time2sample (o_clock secs k) post) d ->
  regular secs k l tab ids stations reach -> (forall n, 0 <= m n) -> nearly secs k m e x ids y -> loud secs k ids y L -> (0 <= e < L)%R -> recorded secs k x ids d -> lively tiny secs k x ids d -> d_stations d = stations ->
  forall nt, n_window secs (o_rate k) (d_start d) (d_end d) = nt -> clear_of_ends secs k (m nt) (time2sample (o_clock secs k) pre) (time2sample (o_clock secs k) post) reach ->
  computed lowpass taper tiny secs k transform l r0 r1 ids stations (fun t => near_peak (Lut_Model.g_count (Lut_Model.l_grid l)) (node_coord transform (Lut_Model.l_grid l)) (slack e L) (coalescence_of secs k tab ids stations y t)) pre post d.
Proof.
  intros W St Mp Ny. apply (compute_near_at lowpass taper tiny secs k transform l r0 r1 tab x y ids stations m e L reach pre post d W St Mp). intros ph pc i t Ip Ec Ii a nt Ht. unfold window_of. apply (Ny ph pc i a nt t Ip Ec Ii Ht).
Qed.

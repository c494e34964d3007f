(** Proofs about thresholds that follow the level of the scan. *)
From Coq Require Import List ZArith Reals QArith Qreals Qabs Bool Permutation Sorted Lia Lra.
From Verif Require Import Lib LibFacts Timeline_Model Migrate_Model Migrate_Spec Migrate_Proofs ScanMseed_Model ScanMseed_Spec ScanMseed_Proofs
  ScanMseed_Props Trigger_Model Trigger_Spec Trigger_Proofs Pipeline_Model Pipeline_Spec Pipeline_Proofs Robust_Spec.
Import ListNotations.

Lemma mostly_count {A} (P : A -> Prop) (f : A -> bool) l : mostly P l -> (forall x, P x -> f x = true) -> (length l < 2 * length (filter f l))%nat.
Proof.
  intros (keep & F & C) H. assert (X : (length (filter (fun k => k) keep) <= length (filter f l) /\ length (filter negb keep) + length (filter (fun k => k) keep) = length l)%nat).
  { clear C. induction F as [|k x ks xs Hk _ IH]; [split; reflexivity|]. cbn [filter]. destruct k; cbn [negb length].
    - rewrite (H x (Hk eq_refl)). cbn [length]. lia.
    - destruct (f x); cbn [length]; lia. }
  lia.
Qed.
Lemma mostly_map {A B} (P : A -> Prop) (Q : B -> Prop) (R : A -> B -> Prop) l m : Forall2 R l m -> (forall x y, R x y -> P x -> Q y) -> mostly P l -> mostly Q m.
Proof.
  intros F H (keep & K & C). exists keep. split; [|exact C]. clear C. revert keep K. induction F as [|x y xs ys Hr _ IH]; intros keep K; inversion K as [|k ? ks ? Hk K']; subst; constructor; [intros E; exact (H x y Hr (Hk E))|apply IH, K'].
Qed.
Lemma mostly_weaken {A} (P Q : A -> Prop) l : (forall x, P x -> Q x) -> mostly P l -> mostly Q l.
Proof. intros H (keep & K & C). exists keep. split; [|exact C]. clear C. induction K as [|k x ks xs Hk _ IH]; constructor; auto. Qed.
Lemma mostly_nonempty {A} (P : A -> Prop) l : mostly P l -> l <> [].
Proof. intros (keep & K & C) ->. inversion K; subst. cbn in C. lia. Qed.

Lemma filter_perm {A} (f : A -> bool) l m : Permutation l m -> length (filter f l) = length (filter f m).
Proof. induction 1; cbn [filter]; repeat destruct (f _); cbn [length]; congruence. Qed.
Lemma filter_len {A} (f : A -> bool) l : (length (filter f l) <= length l)%nat.
Proof. induction l as [|x l IH]; cbn [filter]; [reflexivity|]. destruct (f x); cbn [length]; lia. Qed.
Lemma filter_none {A} (f : A -> bool) l : (forall x, In x l -> f x = false) -> filter f l = [].
Proof. induction l as [|x l IH]; intros H; [reflexivity|]. cbn [filter]. rewrite (H x (or_introl eq_refl)). apply IH. intros y I. apply H. right. exact I. Qed.
Lemma sorted_nth s : Sorted Qle s -> forall i j, (i <= j < length s)%nat -> (nth i s 0 <= nth j s 0)%Q.
Proof.
  intros S. apply Sorted_StronglySorted in S; [|intros x y z; apply Qle_trans]. induction S as [|x l _ IH F]; intros i j H; [cbn in H; lia|]. cbn [length] in H. destruct j as [|j].
  - assert (i = 0)%nat by lia. subst. apply Qle_refl.
  - destruct i as [|i]; cbn [nth].
    + rewrite Forall_forall in F. apply F, nth_In. lia.
    + apply IH. lia.
Qed.
Lemma sorted_nthR s : Sorted Qle s -> forall i j, (i <= j < length s)%nat -> (Q2R (nth i s 0%Q) <= Q2R (nth j s 0%Q))%R.
Proof. intros S i j H. apply Qle_Rle, sorted_nth; assumption. Qed.
Definition le_bool (x y : R) : bool := if Rle_dec x y then true else false.
Lemma le_bool_ok x y : le_bool x y = true <-> (x <= y)%R.
Proof. unfold le_bool. destruct (Rle_dec x y); split; intros H; congruence || lra || reflexivity. Qed.
(** No more than the first [k] elements of a sorted list are at most [b] if the one at [k] is not; no more than those after [k] are at least [a] if the one at [k] is not. *)
Lemma few_below b s k : Sorted Qle s -> (k < length s)%nat -> (b < Q2R (nth k s 0%Q))%R -> (length (filter (fun x => le_bool (Q2R x) b) s) <= k)%nat.
Proof.
  intros S Hk H. rewrite <- (firstn_skipn k s) at 1. rewrite filter_app, app_length. rewrite (filter_none _ (skipn k s)).
  - cbn [length]. pose proof (filter_len (fun x => le_bool (Q2R x) b) (firstn k s)) as L. rewrite firstn_length in L. lia.
  - intros x I. destruct (In_nth _ _ 0%Q I) as (j & Hj & E). rewrite skipn_length in Hj. assert (E' : nth (k + j) s 0%Q = x). { rewrite <- E. clear. revert s; induction k as [|k IH]; intros s; [reflexivity|]. destruct s as [|y s]; [destruct j; reflexivity|]. cbn [skipn nth Nat.add]. apply IH. }
    pose proof (sorted_nthR s S k (k + j) ltac:(lia)) as L. rewrite E' in L. destruct (le_bool (Q2R x) b) eqn:Eb; [|reflexivity]. apply le_bool_ok in Eb. exfalso. exact (Rlt_irrefl _ (Rlt_le_trans _ _ _ H (Rle_trans _ _ _ L Eb))).
Qed.
Lemma few_above a s k : Sorted Qle s -> (k < length s)%nat -> (Q2R (nth k s 0%Q) < a)%R -> (length (filter (fun x => le_bool a (Q2R x)) s) <= length s - (k + 1))%nat.
Proof.
  intros S Hk H. rewrite <- (firstn_skipn (k + 1) s) at 1. rewrite filter_app, app_length. rewrite (filter_none _ (firstn (k + 1) s)).
  - cbn [length]. pose proof (filter_len (fun x => le_bool a (Q2R x)) (skipn (k + 1) s)) as L. rewrite skipn_length in L. lia.
  - intros x I. destruct (In_nth _ _ 0%Q I) as (j & Hj & E). rewrite firstn_length in Hj. assert (E' : nth j s 0%Q = x). { rewrite <- E. symmetry. rewrite <- (firstn_skipn (k + 1) s) at 2. rewrite app_nth1 by (rewrite firstn_length; lia). reflexivity. }
    pose proof (sorted_nthR s S j k ltac:(lia)) as L. rewrite E' in L. destruct (le_bool a (Q2R x)) eqn:Eb; [|reflexivity]. apply le_bool_ok in Eb. exfalso. exact (Rlt_irrefl _ (Rle_lt_trans _ _ _ Eb (Rle_lt_trans _ _ _ L H))).
Qed.
Lemma Q2R_half x : Q2R (x / 2) = (Q2R x / 2)%R.
Proof. rewrite Q2R_div by discriminate. replace (Q2R 2) with 2%R by (unfold Q2R; cbn; lra). reflexivity. Qed.
Lemma median_between (a b : R) l m : is_median l m -> mostly (fun x => a <= Q2R x <= b)%R l -> (a <= Q2R m <= b)%R.
Proof.
  intros (s & P & S & E) M. pose proof (mostly_count _ (fun x => le_bool (Q2R x) b) l M ltac:(intros x (_ & H); apply le_bool_ok, H)) as Cb. pose proof (mostly_count _ (fun x => le_bool a (Q2R x)) l M ltac:(intros x (H & _); apply le_bool_ok, H)) as Ca.
  rewrite <- (filter_perm _ _ _ P), <- (Permutation_length P) in Cb. rewrite <- (filter_perm _ _ _ P), <- (Permutation_length P) in Ca. set (n := length s) in *. assert (Np : (0 < n)%nat) by (pose proof (filter_len (fun x => le_bool (Q2R x) b) s); fold n in H; lia).
  assert (D : n = (2 * (n / 2) + n mod 2)%nat) by (apply Nat.div_mod; lia). assert (D' : (n - 1 = 2 * ((n - 1) / 2) + (n - 1) mod 2)%nat) by (apply Nat.div_mod; lia). pose proof (Nat.mod_upper_bound n 2 ltac:(lia)). pose proof (Nat.mod_upper_bound (n - 1) 2 ltac:(lia)).
  set (h := (n / 2)%nat) in *. set (h' := ((n - 1) / 2)%nat) in *.
  assert (Hi : (Q2R (nth h s 0%Q) <= b)%R). { destruct (Rlt_le_dec b (Q2R (nth h s 0%Q))) as [L|L]; [|exact L]. exfalso. pose proof (few_below b s h S ltac:(fold n; lia) L). lia. }
  assert (Lo : (a <= Q2R (nth h' s 0%Q))%R). { destruct (Rlt_le_dec (Q2R (nth h' s 0%Q)) a) as [L|L]; [|exact L]. exfalso. pose proof (few_above a s h' S ltac:(fold n; lia) L) as X. fold n in X. lia. }
  pose proof (sorted_nthR s S h' h ltac:(fold n; lia)) as Mi. apply Qeq_eqR in E. rewrite E, Q2R_half, Q2R_plus. lra.
Qed.
Lemma mad_small (a b : R) l d : is_mad l d -> mostly (fun x => a <= Q2R x <= b)%R l -> (0 <= Q2R d <= 14826 / 10000 * (b - a))%R.
Proof.
  intros (x & y & Mx & My & E) M. pose proof (median_between a b l x Mx M) as Bx.
  assert (B : (0 <= Q2R y <= b - a)%R).
  { apply (median_between 0 (b - a) _ y My). eapply (mostly_map _ _ (fun u v => v = Qabs (u - x))); [|  |exact M]; [clear; induction l; cbn [map]; constructor; auto|]. intros u v -> H. split; [rewrite <- RMicromega.Q2R_0; apply Qle_Rle, Qabs_nonneg|].
    apply Qabs_case; intros _; rewrite ?Q2R_opp, Q2R_minus; lra. }
  apply Qeq_eqR in E. rewrite E, Q2R_mult. replace (Q2R (14826 # 10000)) with (14826 / 10000)%R by (unfold Q2R; cbn; lra). split; [apply Rmult_le_pos; lra|apply Rmult_le_compat_l; lra].
Qed.
(** The thresholds of a batch. *)
Lemma threshold_between p values rate w (a b : R) i x : rd (get_threshold p values rate) i = Some x -> window_samples (level_window p) rate w -> multiplier_ok p -> mostly (fun v => a <= Q2R v <= b)%R (chunk_of w values i) ->
  (threshold_floor p a <= Q2R x <= threshold_ceiling p a b)%R.
Proof.
  intros H Hw Hm M. pose proof (rd_bounds _ _ _ _ H) as Bi. rewrite threshold_length in Bi. rewrite threshold_at in H by exact Bi. unfold threshold_floor, threshold_ceiling, level_window, multiplier_ok in *. destruct (threshold_method p).
  - assert (x = (0 + static_threshold p)%Q) as -> by congruence. rewrite Q2R_plus, RMicromega.Q2R_0. lra.
  - rewrite (int_of_window _ _ _ Hw) in H. cbv zeta in H. match type of H with Some ?z = _ => assert (x = z) as -> by congruence end. clear H. rewrite Q2R_plus, Q2R_mult. pose proof (median_between a b _ _ (median_ok _) M) as B1. pose proof (mad_small a b _ _ (mad_ok _) M) as B2. apply Qle_Rle in Hm. rewrite RMicromega.Q2R_0 in Hm.
    set (d := Q2R (calculate_mad _)) in *. set (k := Q2R (mad_multiplier p)) in *. assert (0 <= d * k)%R by (apply Rmult_le_pos; lra). assert (d * k <= 14826 / 10000 * (b - a) * k)%R by (apply Rmult_le_compat_r; lra). lra.
  - rewrite (int_of_window _ _ _ Hw) in H. match type of H with Some ?z = _ => assert (x = z) as -> by congruence end. clear H. rewrite Q2R_mult. pose proof (median_between a b _ _ (median_ok _) M) as B1. apply Qle_Rle in Hm. rewrite RMicromega.Q2R_0 in Hm. split; apply Rmult_le_compat_r; lra.
Qed.

(** The samples of a batch, in order. *)
Open Scope Z_scope.
Lemma Forall2_firstn {A B} (P : A -> B -> Prop) l m : Forall2 P l m -> forall n, Forall2 P (firstn n l) (firstn n m).
Proof. induction 1; intros [|n]; cbn [firstn]; constructor; auto. Qed.
Lemma Forall2_skipn {A B} (P : A -> B -> Prop) l m : Forall2 P l m -> forall n, Forall2 P (skipn n l) (skipn n m).
Proof. induction 1; intros [|n]; cbn [skipn]; try constructor; auto. Qed.
Lemma Forall2_chunk {A B} (P : A -> B -> Prop) w l m i : Forall2 P l m -> Forall2 P (chunk_of w l i) (chunk_of w m i).
Proof. intros H. unfold chunk_of. apply Forall2_firstn, Forall2_skipn. exact H. Qed.
Lemma Forall2_rd {A B} (P : A -> B -> Prop) l m : Forall2 P l m -> forall i x, rd l i = Some x -> exists y, rd m i = Some y /\ P x y.
Proof.
  intros F i x. unfold rd. destruct (i <? 0); [discriminate|]. generalize (Z.to_nat i). induction F; intros [|n] H0; cbn [nth_error] in *; try discriminate; [|eauto]. assert (x0 = x) by congruence. subst. eauto.
Qed.
Lemma Forall2_rd_r {A B} (P : A -> B -> Prop) l m : Forall2 P l m -> forall i y, rd m i = Some y -> exists x, rd l i = Some x /\ P x y.
Proof.
  intros F i y. unfold rd. destruct (i <? 0); [discriminate|]. generalize (Z.to_nat i). induction F; intros [|n] H0; cbn [nth_error] in *; try discriminate; [|eauto]. assert (y0 = y) by congruence. subst. eauto.
Qed.
Lemma Forall2_between {A B} (P : Z * A -> Z * B -> Prop) lo hi l m : (forall x y, P x y -> fst x = fst y) -> Forall2 P l m -> Forall2 P (between lo hi l) (between lo hi m).
Proof. intros H. unfold between. induction 1 as [|x y l m Hp _ IH]; cbn [filter]; [constructor|]. rewrite <- (H _ _ Hp). destruct (_ && _); [constructor; assumption|exact IH]. Qed.
Lemma Forall2_with_in {A B} (P : A -> B -> Prop) l m : Forall2 P l m -> Forall2 (fun x y => In x l /\ P x y) l m.
Proof. induction 1 as [|x y l m H F IH]; constructor; [split; [left; reflexivity|assumption]|]. eapply Forall2_impl; [|exact IH]. intros a b (I & J). split; [right|]; assumption. Qed.
Lemma Forall2_map_right {A B C} (P : A -> C -> Prop) (f : B -> C) l m : Forall2 (fun x y => P x (f y)) l m -> Forall2 P l (map f m).
Proof. induction 1; cbn [map]; constructor; auto. Qed.

Lemma batch_list c ucf fs fs' start l pd s e data : scanned c ucf fs fs' start l pd s e -> trigger_read c ucf fs' pd s e = Ret data ->
  Forall2 (fun tr x => row_at c ucf l pd s e x (fst tr) (snd tr)) (between (s - pd) (e + pd) (run_samples c l)) data.
Proof.
  intros S H. pose proof (fun t r z => row_of_pair c ucf fs fs' start l pd s e S t r z) as RP. destruct S as [S1 S2 S3 S4 S5 S6 S7 [cw S8] S9 S10 S11].
  destruct (trigger_read_samples _ _ _ _ _ _ _ H) as (g & Eg & ->).
  destruct (store_run_encoded _ _ _ _ _ _ S8) as (l' & F & Er). pose proof (run_samples_encoded c _ _ _ F) as FR.
  assert (Hl' : l' <> []) by (intros ->; inversion F; congruence).
  pose proof (C26_reads_back_the_run_partial c cw fs fs' start l' s e pd S1 S2 S3 S4 Hl' (consecutive_encoded _ _ _ _ _ F S7) Er S9 S10) as B.
  cbv zeta in B. rewrite Eg in B. destruct B as [B _]. { intros d Hd Hn. apply S11; [exact Hd|]. apply (on_date_encoded c (Q2R ucf) d _ _ FR). exact Hn. }
  rewrite B. apply Forall2_map_right. pose proof (Forall2_with_in _ _ _ (Forall2_between (enc_pair (Q2R ucf)) (s - pd) (e + pd) _ _ ltac:(intros x y (E & _); symmetry; exact E) FR)) as FB. eapply Forall2_impl; [|exact FB].
  intros [t r] [t' z] (I & E & Z). cbn [fst snd] in *. subst t'. unfold between in I. apply filter_In in I as (I & J). cbn [fst] in J. apply andb_prop in J as (J1 & J2). apply Z.leb_le in J1, J2. apply RP; [split; [reflexivity|exact Z]|exact I|lia].
Qed.
Lemma near_value p t r x c ucf l pd s e : row_at c ucf l pd s e x t r -> (Rabs (Q2R (trigger_on p x) - value p r) <= 5 / 1000000)%R.
Proof. intros (_ & _ & _ & N1 & N2 & _). unfold trigger_on, value. destruct (normalise_coalescence p); assumption. Qed.
(** The threshold at a sample of a batch whose window is steady. *)
Lemma batch_threshold_between c ucf fs fs' start l p s e data w a b i : scanned c ucf fs fs' start l (pad p) s e -> trigger_read c ucf fs' (pad p) s e = Ret data ->
  window_samples (level_window p) (Qmake (sec c) (Z.to_pos (delta c))) w -> multiplier_ok p -> level_steady p w a b (batch_samples c p l s e) i ->
  forall x, rd (batch_threshold c p data) i = Some x -> (threshold_floor p (a - 5 / 1000000) <= Q2R x <= threshold_ceiling p (a - 5 / 1000000) (b + 5 / 1000000))%R.
Proof.
  intros S H Hw Hm St x Hx. unfold batch_threshold in Hx. apply (threshold_between p _ _ w _ _ i x Hx Hw Hm). unfold level_steady, batch_samples in St.
  eapply (mostly_map _ _ (fun tr v => Rabs (Q2R v - value p (snd tr)) <= 5 / 1000000)%R); [|  |exact St].
  - apply Forall2_chunk, Forall2_map_right. eapply Forall2_impl; [|apply (batch_list _ _ _ _ _ _ _ _ _ _ S H)]. intros tr y R. exact (near_value p _ _ _ _ _ _ _ _ _ R).
  - intros tr y. unfold Rabs. destruct (Rcase_abs _); lra.
Qed.

(** Increasing lists with the same elements are equal. *)
Lemma increasing_same : forall l m : list Z, StronglySorted Z.lt l -> StronglySorted Z.lt m -> (forall x, In x l <-> In x m) -> l = m.
Proof.
  induction l as [|x l IH]; intros [|y m] Sl Sm H; [reflexivity|exfalso; apply (H y); left; reflexivity|exfalso; apply (H x); left; reflexivity|].
  inversion Sl as [|? ? Sl' Fl]; inversion Sm as [|? ? Sm' Fm]; subst. rewrite Forall_forall in Fl, Fm.
  assert (x = y). { destruct (proj1 (H x) (or_introl eq_refl)) as [E|Ix]; [congruence|]. destruct (proj2 (H y) (or_introl eq_refl)) as [E|Iy]; [congruence|]. specialize (Fl _ Iy). specialize (Fm _ Ix). lia. }
  subst y. f_equal. apply IH; [assumption|assumption|]. intros z. split; intros I.
  - destruct (proj1 (H z) (or_intror I)) as [E|J]; [|exact J]. subst z. specialize (Fl _ I). lia.
  - destruct (proj2 (H z) (or_intror I)) as [E|J]; [|exact J]. subst z. specialize (Fm _ I). lia.
Qed.
Lemma increasing_filter {A} (f : Z * A -> bool) : forall l, StronglySorted Z.lt (map fst l) -> StronglySorted Z.lt (map fst (filter f l)).
Proof.
  induction l as [|x l IH]; intros S; [constructor|]. cbn [map] in S. inversion S as [|? ? S' F]; subst. cbn [filter]. destruct (f x); [|apply IH, S']. cbn [map]. constructor; [apply IH, S'|].
  rewrite Forall_forall in *. intros z Hz. apply in_map_iff in Hz as (y & <- & Iy). apply filter_In in Iy as (Iy & _). apply F, in_map, Iy.
Qed.
Lemma increasing_samples {A} d : 0 < d -> forall (l : list A) t, StronglySorted Z.lt (map fst (samples_from d t l)) /\ forall x, In x (map fst (samples_from d t l)) -> t <= x.
Proof.
  intros Hd. induction l as [|x l IH]; intros t; cbn [samples_from map]; [split; [constructor|intros ? []]|]. destruct (IH (t + d)) as (S & G). split.
  - constructor; [exact S|]. apply Forall_forall. intros z Hz. cbn [fst]. specialize (G z Hz). lia.
  - intros z [<-|Hz]; [cbn [fst]; lia|]. specialize (G z Hz). lia.
Qed.
Lemma increasing_range d lo : 0 < d -> forall n k, StronglySorted Z.lt (map (fun j => lo + j * d) (zseq k n)).
Proof.
  intros Hd. induction n as [|n IH]; intros k; cbn [zseq map]; constructor; [apply IH|]. apply Forall_forall. intros z Hz. apply in_map_iff in Hz as (j & <- & Ij). apply in_zseq in Ij. nia.
Qed.
(** The times of the samples of a batch of a scan that stored a sample at each sampling time. *)
Lemma times_of_batch c p start stop s e (l : list (seg (row R))) : 0 < delta c -> (delta c | start) -> (delta c | stop) -> (delta c | s - pad p) -> (delta c | e + pad p) -> consecutive c start l ->
  (forall t r, In (t, r) (run_samples c l) -> (delta c | t) /\ start <= t < stop) -> (forall t, (delta c | t) -> start <= t < stop -> exists r, In (t, r) (run_samples c l)) ->
  map fst (batch_samples c p l s e) = batch_times c p start stop s e.
Proof.
  intros Dp (a & Ea) (b & Eb) (u & Eu) (v & Ev) Cs Hin Hex. set (d := delta c) in *. apply increasing_same.
  - unfold batch_samples, between. apply increasing_filter. rewrite (run_samples_eq c l start Cs). apply increasing_samples, Dp.
  - unfold batch_times, zrange. apply increasing_range. exact Dp.
  - intros t. unfold batch_times, batch_samples, between. fold d. set (lo := Z.max (s - pad p) start). set (hi := Z.min (e + pad p) (stop - d)).
    assert (Elo : exists g, lo = g * d). { exists (Z.max u a). unfold lo. rewrite Eu, Ea. apply Z.mul_max_distr_nonneg_r. lia. } destruct Elo as (g & Eg).
    assert (Ehi : exists h, hi = h * d). { exists (Z.min v (b - 1)). unfold hi. rewrite Ev, Eb. replace (b * d - d) with ((b - 1) * d) by ring. apply Z.mul_min_distr_nonneg_r. lia. } destruct Ehi as (h & Eh).
    replace ((hi - lo) / d) with (h - g) by (rewrite Eh, Eg, <- Z.mul_sub_distr_r, Z.div_mul by lia; reflexivity). split; intros H.
    + apply in_map_iff in H as ((t' & r) & <- & I). cbn [fst] in *. apply filter_In in I as (I & J). cbn [fst] in J. apply andb_prop in J as (J1 & J2). apply Z.leb_le in J1, J2. destruct (Hin _ _ I) as ((w & Ew) & B). subst t'.
      apply in_map_iff. exists (w - g). split; [rewrite Eg; ring|]. apply in_zrange. rewrite Eb in B. assert (w <= b - 1) by (assert (w < b) by (apply (Zmult_lt_reg_r _ _ d); lia); lia). assert (g <= w) by (apply (Zmult_le_reg_r _ _ d); lia). assert (w <= h). { apply (Zmult_le_reg_r _ _ d); [lia|]. rewrite <- Eh. unfold hi. rewrite Eb. replace (b * d - d) with ((b - 1) * d) by ring. apply Z.min_glb; [lia|]. apply Zmult_le_compat_r; lia. } lia.
    + apply in_map_iff in H as (j & <- & I). apply in_zrange in I. rewrite Eg. replace (g * d + j * d) with ((g + j) * d) by ring. assert (L1 : lo <= (g + j) * d) by (rewrite Eg; apply Zmult_le_compat_r; lia). assert (L2 : (g + j) * d <= hi) by (rewrite Eh; apply Zmult_le_compat_r; lia).
      assert (L3 : start <= (g + j) * d < stop) by lia. destruct (Hex _ (Z.divide_factor_r d (g + j)) L3) as (r & Ir). apply in_map_iff. exists ((g + j) * d, r). split; [reflexivity|]. apply filter_In. split; [exact Ir|]. cbn [fst]. apply andb_true_intro. split; apply Z.leb_le; lia.
Qed.

From Coq Require Import String Ascii.
From Coq Require Import List ZArith Reals Bool Lia Lra.
From Verif Require Import Lib LibFacts Mag_Model Mag_Spec.
Import ListNotations.
Open Scope R_scope.

Ltac rcases := repeat match goal with
  | |- context[Rlt_dec ?a ?b] => destruct (Rlt_dec a b); try lra
  | |- context[Rle_dec ?a ?b] => destruct (Rle_dec a b); try lra
  | |- context[Req_EM_T ?a ?b] => destruct (Req_EM_T a b); try lra
  end.

(** * Sums *)

Lemma fold_eadd_fin l : forall a, fold_left eadd (map Fin l) (Fin a) = Fin (a + rsum l).
Proof.
  induction l as [|x l IH]; intros a; cbn [map fold_left rsum fold_right]; [f_equal; lra|].
  cbn [eadd]. rewrite IH. f_equal. unfold rsum. lra.
Qed.
Lemma esum_fin l : esum (map Fin l) = Fin (rsum l).
Proof. unfold esum. rewrite fold_eadd_fin. f_equal. lra. Qed.
Lemma not_nan_fin l : filter (fun x => negb (is_nan x)) (map Fin l) = map Fin l.
Proof. induction l as [|x l IH]; cbn; [reflexivity|rewrite IH; reflexivity]. Qed.
Lemma nansum_fin l : nansum (map Fin l) = Fin (rsum l).
Proof. unfold nansum. rewrite not_nan_fin. apply esum_fin. Qed.
Lemma total_fin s l : total s (map Fin l) = Fin (rsum l).
Proof. destruct s; [apply nansum_fin|apply esum_fin]. Qed.
Lemma nanmean_fin l : l <> [] -> nanmean (map Fin l) = Fin (amean l).
Proof.
  intros H. unfold nanmean. rewrite nansum_fin, not_nan_fin, map_length. cbn [ediv]. destruct (Req_EM_T (INR (length l)) 0) as [E|E]; [|reflexivity].
  exfalso. destruct l; [congruence|]. cbn [length] in E. apply (not_0_INR (S (length l))); [lia|exact E].
Qed.

Lemma map2_fin {A B} (f : ext -> ext -> ext) (g : A -> B -> R) (u : A -> R) (v : B -> R) a : forall b,
  (forall x y, f (Fin (u x)) (Fin (v y)) = Fin (g x y)) -> map2 f (map Fin (map u a)) (map Fin (map v b)) = map Fin (map2 g a b).
Proof. induction a as [|x a IH]; intros [|y b] H; cbn; [reflexivity..|]. rewrite H, IH by exact H. reflexivity. Qed.
Lemma map2_fin_id (f : ext -> ext -> ext) g a : forall b,
  (forall x y, f (Fin x) (Fin y) = Fin (g x y)) -> map2 f (map Fin a) (map Fin b) = map Fin (map2 g a b).
Proof. induction a as [|x a IH]; intros [|y b] H; cbn; [reflexivity..|]. rewrite H, IH by exact H. reflexivity. Qed.

Lemma rsum_map2_mult a : forall b, rsum (map2 Rmult a b) = dot a b.
Proof. induction a as [|x a IH]; intros [|y b]; cbn; [reflexivity..|]. unfold rsum in IH. rewrite IH. reflexivity. Qed.
Lemma dot_minus c l : forall w, length l = length w -> dot (map (fun x => x - c) l) w = dot l w - c * rsum w.
Proof.
  induction l as [|x l IH]; intros [|y w] H; cbn in *; try discriminate; [lra|]. rewrite IH by lia. unfold rsum. lra.
Qed.
Lemma dot_pos l : forall w, length l = length w -> l <> [] -> (forall x, In x l -> 0 < x) -> (forall y, In y w -> 0 < y) -> 0 < dot l w.
Proof.
  induction l as [|x l IH]; intros [|y w] H Hn Hl Hw; cbn in *; try discriminate; [congruence|].
  assert (0 < x * y) by (apply Rmult_lt_0_compat; [apply Hl|apply Hw]; left; reflexivity).
  destruct l as [|x2 l]; [cbn in *; lra|]. assert (0 < dot (x2 :: l) w); [|lra].
  apply IH; [lia|congruence|intros; apply Hl; right; assumption|intros; apply Hw; right; assumption].
Qed.
Lemma rsum_pos w : w <> [] -> (forall y, In y w -> 0 < y) -> 0 < rsum w.
Proof.
  intros Hn Hw. induction w as [|y w IH]; [congruence|]. change (0 < y + rsum w). assert (0 < y) by (apply Hw; left; reflexivity).
  destruct w as [|y2 w]; [cbn; lra|]. assert (0 < rsum (y2 :: w)); [|lra]. apply IH; [congruence|intros; apply Hw; right; assumption].
Qed.
Lemma dot_opp l : forall w, dot (map Ropp l) w = - dot l w.
Proof. induction l as [|x l IH]; intros [|y w]; cbn; try lra. rewrite IH. lra. Qed.
Lemma le_or_gt l c : (exists x, In x l /\ x <= c) \/ (forall x, In x l -> c < x).
Proof.
  induction l as [|x l [(y & Hy & H)|H]]; [right; intros x []|left; exists y; split; [right; exact Hy|exact H]|].
  destruct (Rle_dec x c) as [Hx|Hx]; [left; exists x; split; [left; reflexivity|exact Hx]|right; intros z [<-|Hz]; [lra|apply H, Hz]].
Qed.
Lemma ge_or_lt l c : (exists x, In x l /\ c <= x) \/ (forall x, In x l -> x < c).
Proof.
  induction l as [|x l [(y & Hy & H)|H]]; [right; intros x []|left; exists y; split; [right; exact Hy|exact H]|].
  destruct (Rle_dec c x) as [Hx|Hx]; [left; exists x; split; [left; reflexivity|exact Hx]|right; intros z [<-|Hz]; [lra|apply H, Hz]].
Qed.
Lemma balance_between l w c : length l = length w -> l <> [] -> (forall y, In y w -> 0 < y) -> balance l w c -> between l c.
Proof.
  intros Hl Hn Hw Hb. unfold balance in Hb. split.
  - destruct (le_or_gt l c) as [H|H]; [exact H|]. exfalso.
    assert (0 < dot (map (fun x => x - c) l) w); [|lra]. apply dot_pos; [rewrite map_length; exact Hl|destruct l; [congruence|discriminate]| |exact Hw].
    intros x Hx. apply in_map_iff in Hx. destruct Hx as (y & <- & Hy). specialize (H y Hy). lra.
  - destruct (ge_or_lt l c) as [H|H]; [exact H|]. exfalso.
    assert (0 < dot (map Ropp (map (fun x => x - c) l)) w); [|rewrite dot_opp in H0; lra].
    apply dot_pos; [rewrite !map_length; exact Hl|destruct l; [congruence|discriminate]| |exact Hw].
    intros x Hx. rewrite map_map in Hx. apply in_map_iff in Hx. destruct Hx as (y & <- & Hy). specialize (H y Hy). lra.
Qed.
Lemma rsum_nonneg l : (forall x, In x l -> 0 <= x) -> 0 <= rsum l.
Proof.
  induction l as [|x l IH]; intros H; [cbn; lra|]. change (0 <= x + rsum l). assert (0 <= x) by (apply H; left; reflexivity).
  assert (0 <= rsum l); [|lra]. apply IH. intros y Hy. apply H. right. exact Hy.
Qed.
Lemma in_map2 {A B C} (f : A -> B -> C) a : forall b z, In z (map2 f a b) -> exists x y, z = f x y.
Proof. induction a as [|x a IH]; intros [|y b] z H; cbn in H; try contradiction. destruct H as [<-|H]; [eauto|eauto]. Qed.
Lemma squares_nonneg l c : 0 <= squares l c.
Proof. apply rsum_nonneg. intros x Hx. apply in_map_iff in Hx. destruct Hx as (y & <- & _). apply pow2_ge_0. Qed.
Lemma squares_zero l c : squares l c = 0 -> forall x, In x l -> x = c.
Proof.
  unfold squares. induction l as [|y l IH]; intros H x Hx; [destruct Hx|]. cbn [map] in H. change ((y - c) ^ 2 + squares l c = 0) in H.
  pose proof (squares_nonneg l c) as Hs. pose proof (pow2_ge_0 (y - c)) as Hp. destruct Hx as [<-|Hx]; [|apply IH; [unfold squares in *; lra|exact Hx]].
  assert (Hz : (y - c) ^ 2 = 0) by lra. assert (y - c = 0); [|lra]. destruct (Req_dec (y - c) 0) as [E|E]; [exact E|]. exfalso. apply (pow_nonzero _ 2) in E. contradiction.
Qed.

(** * Weighted means *)

Lemma network_mean_fin s mags ws : length mags = length ws -> 0 < rsum ws ->
  network_mean s (map Fin mags) (map Fin ws) = Fin (dot mags ws / rsum ws).
Proof.
  intros Hl Hw. unfold network_mean. rewrite (map2_fin_id emul Rmult) by reflexivity. rewrite !total_fin. cbn [ediv].
  destruct (Req_EM_T (rsum ws) 0) as [E|E]; [lra|]. rewrite rsum_map2_mult. reflexivity.
Qed.
Lemma mean_balance mags ws : length mags = length ws -> 0 < rsum ws -> balance mags ws (dot mags ws / rsum ws).
Proof. intros Hl Hw. unfold balance. rewrite dot_minus by exact Hl. field. lra. Qed.
Lemma network_error_fin s mags ws : length mags = length ws -> 0 < rsum ws ->
  let m := dot mags ws / rsum ws in
  exists e, network_error s (map Fin mags) (map Fin ws) = Fin e /\ 0 <= e /\ e ^ 2 * rsum ws = rsum (map2 (fun x w => ((x - m) * w) ^ 2) mags ws).
Proof.
  intros Hl Hw m. unfold network_error. rewrite network_mean_fin by assumption. fold m.
  rewrite (map2_fin_id (fun x w => esq (emul (esub x (Fin m)) w)) (fun x w => ((x - m) * w) ^ 2)) by (intros; cbn; f_equal; ring).
  rewrite !total_fin. cbn [ediv]. destruct (Req_EM_T (rsum ws) 0) as [E|E]; [lra|].
  set (S := rsum (map2 _ mags ws)). assert (HS : 0 <= S) by (apply rsum_nonneg; intros x Hx; apply in_map2 in Hx; destruct Hx as (u & v & ->); apply pow2_ge_0).
  assert (HD : 0 <= S / rsum ws) by (apply Rmult_le_pos; [exact HS|left; apply Rinv_0_lt_compat; exact Hw]).
  exists (sqrt (S / rsum ws)). cbn [esqrt]. destruct (Rlt_dec (S / rsum ws) 0); [lra|]. split; [reflexivity|]. split; [apply sqrt_pos|].
  rewrite pow2_sqrt by exact HD. field. lra.
Qed.

(** * Logarithms *)

Lemma ln10_pos : 0 < ln 10. Proof. rewrite <- ln_1. apply ln_increasing; lra. Qed.
Lemma log10_mult a b : 0 < a -> 0 < b -> log10 (a * b) = log10 a + log10 b.
Proof. intros. pose proof ln10_pos. unfold log10. rewrite ln_mult by assumption. field. lra. Qed.
Lemma log10_div a b : 0 < a -> 0 < b -> log10 (a / b) = log10 a - log10 b.
Proof.
  intros. pose proof ln10_pos. unfold log10. unfold Rdiv at 2. rewrite ln_mult by (try assumption; apply Rinv_0_lt_compat; assumption).
  rewrite ln_Rinv by assumption. field. lra.
Qed.
Lemma log10_pow c : log10 (Rpower 10 c) = c.
Proof. pose proof ln10_pos. unfold log10, Rpower. rewrite ln_exp. field. lra. Qed.
Lemma log10_1 : log10 1 = 0. Proof. unfold log10. rewrite ln_1. lra. Qed.
Lemma log10_10 : log10 10 = 1. Proof. unfold log10. pose proof ln10_pos. field. lra. Qed.
Lemma log10_lt a b : 0 < a -> a < b -> log10 a < log10 b.
Proof.
  intros. pose proof ln10_pos. unfold log10. apply Rmult_lt_compat_r; [apply Rinv_0_lt_compat; assumption|]. apply ln_increasing; assumption.
Qed.
Lemma log10_le a b : 0 < a -> a <= b -> log10 a <= log10 b.
Proof. intros Ha [H| ->]; [left; apply log10_lt; assumption|lra]. Qed.
Lemma log10_inj a b : 0 < a -> 0 < b -> log10 a = log10 b -> a = b.
Proof.
  intros Ha Hb E. destruct (Rtotal_order a b) as [H|[H|H]]; [|exact H|]; exfalso; [pose proof (log10_lt a b Ha H)|pose proof (log10_lt b a Hb H)]; lra.
Qed.

(** * Substrings *)

Lemma substring_app a : forall b, String.substring (String.length a) (String.length b) (a ++ b) = b.
Proof.
  induction a as [|c a IH]; intros b; cbn [String.length String.append String.substring]; [|apply IH].
  induction b as [|c b IHb]; cbn; [reflexivity|rewrite IHb; reflexivity].
Qed.
Lemma substring_0_app s : forall t, String.substring 0 (String.length s) (s ++ t) = s.
Proof. induction s as [|c s IH]; intros t; cbn; [destruct t; reflexivity|rewrite IH; reflexivity]. Qed.
Lemma substring_mid a s t : String.substring (String.length a) (String.length s) (a ++ s ++ t) = s.
Proof. induction a as [|c a IH]; cbn [String.length String.append]; [apply substring_0_app|cbn [String.substring]; exact IH]. Qed.
Lemma substring_inv s : forall m t, String.substring m (String.length s) t = s -> (m <= String.length t)%nat -> exists a b, t = (a ++ s ++ b)%string.
Proof.
  intros m t. revert s m. induction t as [|c t IH]; intros s m H Hm.
  - destruct s; [exists EmptyString, EmptyString; reflexivity|]. destruct m; cbn in H; discriminate.
  - destruct m as [|m].
    + clear Hm. exists EmptyString. cbn [String.append].
      assert (G : forall s t, String.substring 0 (String.length s) t = s -> exists b, t = (s ++ b)%string).
      { clear. induction s as [|c s IH]; intros t H; [exists t; reflexivity|]. destruct t as [|c' t]; cbn in H; [discriminate|]. injection H as -> H. destruct (IH _ H) as (b & ->). exists b. reflexivity. }
      apply G, H.
    + cbn [String.substring] in H. destruct (IH s m H) as (a & b & ->); [cbn in Hm; lia|]. exists (String c a), b. reflexivity.
Qed.
Lemma index_range sub : forall s n m, String.index n sub s = Some m -> (m <= String.length s)%nat.
Proof.
  induction s as [|c s IH]; intros n m H; cbn [String.index String.length] in *.
  - destruct n; [destruct sub|]; try discriminate. injection H as <-. lia.
  - destruct n as [|n].
    + destruct (String.prefix sub (String c s)); [injection H as <-; lia|]. destruct (String.index 0 sub s) as [j|] eqn:E; [|discriminate]. injection H as <-. apply IH in E. lia.
    + destruct (String.index n sub s) as [j|] eqn:E; [|discriminate]. injection H as <-. apply IH in E. lia.
Qed.
Lemma contains_spec sub s : sub <> EmptyString -> (contains sub s = true <-> exists a b, s = (a ++ sub ++ b)%string).
Proof.
  intros Hn. unfold contains. destruct (String.index 0 sub s) as [m|] eqn:E; split; try discriminate; try reflexivity.
  - intros _. pose proof (String.index_correct1 _ _ _ _ E) as H. pose proof (index_range _ _ _ _ E). eapply substring_inv; eassumption.
  - intros (a & b & ->). exfalso. pose proof (String.index_correct3 0 (String.length a) sub _ E Hn ltac:(lia)) as H. rewrite substring_mid in H. congruence.
Qed.
Lemma app_assoc_s a b c : ((a ++ b) ++ c = a ++ (b ++ c))%string.
Proof. induction a as [|x a IH]; cbn; [reflexivity|rewrite IH; reflexivity]. Qed.
Lemma contains_dots stn id : contains ("." ++ stn ++ ".") id = true <-> within_dots stn id.
Proof.
  rewrite contains_spec by discriminate. unfold within_dots. split; intros (a & b & ->); exists a, b; rewrite ?app_assoc_s; cbn; rewrite ?app_assoc_s; reflexivity.
Qed.

(** * Rows *)

Lemma measured_distance k att fl o a n d l : measured k att fl o a n d l -> distance k o = Fin d.
Proof.
  intros (_ & _ & _ & _ & Hd & Hd0 & _). unfold distance. destruct (use_hyp_dist k); [|exact Hd].
  destruct Hd as (e & z & -> & -> & Hd1 & Hd2). cbn [esq emul eadd esqrt].
  replace (e * e + z * z) with (d * d) by (rewrite <- (Rmult_1_r d), <- (Rmult_1_r e), <- (Rmult_1_r z); cbn [pow] in Hd2; lra).
  destruct (Rlt_dec (d * d) 0) as [H|H]; [pose proof (Rle_0_sqr d) as Hq; unfold Rsqr in Hq; lra|]. rewrite sqrt_square by exact Hd1. reflexivity.
Qed.
Lemma measured_unique k att fl o a n d l a' n' d' l' :
  measured k att fl o a n d l -> measured k att fl o a' n' d' l' -> a = a' /\ n = n' /\ d = d' /\ l = l'.
Proof.
  intros H H'. pose proof (measured_distance _ _ _ _ _ _ _ _ H) as D. pose proof (measured_distance _ _ _ _ _ _ _ _ H') as D'.
  destruct H as (Ha & _ & Hn & _ & _ & _ & Hl), H' as (Ha' & _ & Hn' & _ & _ & _ & Hl').
  assert (d = d') by congruence. subst d'. split; [congruence|]. split; [|split; congruence].
  destruct fl; [|congruence]. destruct Hn as (n0 & g & E1 & E2 & _ & ->), Hn' as (n0' & g' & E1' & E2' & _ & ->). congruence.
Qed.
Lemma measured_blank k att fl o a n d l : measured k att fl o a n d l -> blank_zero_distance k o = o.
Proof.
  intros (_ & _ & _ & _ & Hd & Hd0 & _). unfold blank_zero_distance. destruct (use_hyp_dist k); [reflexivity|]. rewrite Hd. cbn [zero_to_nan eeqb].
  unfold zero_to_nan. cbn [eeqb]. destruct (Req_EM_T d 0); [lra|]. rewrite <- Hd. destruct o; reflexivity.
Qed.
Lemma measured_obs k att fl o a n d l : measured k att fl o a n d l -> m_obs (magnitude_row k att (negb fl) o) = o.
Proof.
  intros H. unfold magnitude_row. destruct (calc_mag _ _ _ _ _ _). cbn [m_obs]. exact (measured_blank _ _ _ _ _ _ _ _ H).
Qed.

Lemma measured_row k att fl o a n d l : measured k att fl o a n d l -> 0 < amp_multiplier k -> n < a ->
  magnitude_row k att (negb fl) o
  = mk_mobs o (Fin (log10 (a * amp_multiplier k) + l + correction (station_corrections k) (o_id o))) (Fin (log10 ((a + n) / (a - n)))).
Proof.
  intros H Hm Hna. unfold magnitude_row. rewrite (measured_blank _ _ _ _ _ _ _ _ H), (measured_distance _ _ _ _ _ _ _ _ H).
  destruct H as (Ha & Ha0 & Hn & Hn0 & _ & Hd0 & Hl). set (mu := amp_multiplier k) in *.
  assert (En : (if negb fl then emul (o_noise o) (Fin mu) else ediv (emul (o_noise o) (Fin mu)) (o_gain o)) = Fin (n * mu)).
  { destruct fl; cbn [negb]; [|rewrite Hn; reflexivity]. destruct Hn as (n0 & g & -> & -> & Hg & ->). cbn [emul ediv].
    destruct (Req_EM_T g 0); [lra|]. f_equal. field. lra. }
  rewrite En, Ha. cbn [emul]. assert (Q1 : n * mu < a * mu) by (apply Rmult_lt_compat_r; assumption).
  assert (Q2 : 0 < a * mu) by (apply Rmult_lt_0_compat; assumption). assert (Q3 : 0 <= n * mu) by (apply Rmult_le_pos; lra).
  cbn [eltb]. destruct (Rlt_dec (a * mu) (n * mu)); [lra|]. cbn [eeqb]. destruct (Req_EM_T (a * mu) 0); [lra|].
  unfold zero_to_nan. cbn [eeqb]. destruct (Req_EM_T d 0); [lra|]. unfold calc_mag. rewrite Hl. cbn [elog10 eadd esub eneg].
  destruct (Rlt_dec 0 (a * mu)); [|lra]. destruct (Rlt_dec 0 (a * mu + n * mu)); [|lra]. destruct (Rlt_dec 0 (a * mu + - (n * mu))); [|lra].
  cbn [eadd eneg]. f_equal. f_equal.
  replace (a * mu + n * mu) with ((a + n) * mu) by ring. replace (a * mu + - (n * mu)) with ((a - n) * mu) by ring.
  rewrite log10_div by lra. rewrite !log10_mult by lra. unfold esub. cbn [eneg eadd]. f_equal. lra.
Qed.

Definition conditions (k : mag_params) (o : obs) (a n d : R) : Prop :=
  (noise_filter k <> 0 -> n * noise_filter k < a)
  /\ (forall f, trace_filter k = Some f -> f (o_id o) = true)
  /\ (forall ss stn, station_filter k = Some ss -> In stn ss -> ~ within_dots stn (o_id o))
  /\ (forall far, dist_filter k = Some far -> far <> 0 -> d <= far)
  /\ (pick_filter k = true -> o_picked o = true).
Lemma passes_iff k att fl o a n d l : measured k att fl o a n d l -> (passes k att fl o <-> conditions k o a n d).
Proof.
  intros H. split.
  - intros (a' & n' & d' & l' & H' & C). destruct (measured_unique _ _ _ _ _ _ _ _ _ _ _ _ H H') as (-> & -> & -> & ->). exact C.
  - intros C. exists a, n, d, l. split; [exact H|exact C].
Qed.

Lemma eleb_fin a b : eleb (Fin a) (Fin b) = true <-> a <= b.
Proof.
  unfold eleb. cbn [eltb eeqb]. destruct (Rlt_dec a b); [split; [lra|reflexivity]|]. destruct (Req_EM_T a b); cbn; (split; [|]); try reflexivity; try discriminate; lra.
Qed.
Lemma eltb_fin a b : eltb (Fin a) (Fin b) = true <-> a < b.
Proof. cbn [eltb]. destruct (Rlt_dec a b); split; try discriminate; try reflexivity; lra. Qed.

Lemma gained k att fl o a n d l ml err : measured k att fl o a n d l ->
  exists o', gain_corrected (negb fl) (mk_mobs o ml err) = mk_mobs o' ml err
  /\ o_noise o' = Fin n /\ o_amp o' = Fin a /\ o_id o' = o_id o /\ o_picked o' = o_picked o /\ o_epi o' = o_epi o /\ o_z o' = o_z o.
Proof.
  intros (Ha & _ & Hn & _). unfold gain_corrected. destruct fl; cbn [negb m_obs m_ml m_err].
  - destruct Hn as (n0 & g & E1 & E2 & Hg & ->). eexists. split; [reflexivity|]. cbn [o_noise o_amp o_id o_picked o_epi o_z]. rewrite E1, E2. cbn [ediv].
    destruct (Req_EM_T g 0); [lra|]. repeat split. exact Ha.
  - exists o. repeat split; assumption.
Qed.

Lemma used_row k att fl o a n d l ml err : measured k att fl o a n d l ->
  let g := gain_corrected (negb fl) (mk_mobs o ml err) in
  let f := filter_row k g in
  complete g = true /\ (f_used f = true <-> conditions k o a n d)
  /\ m_ml (f_mobs f) = ml /\ m_err (f_mobs f) = err /\ f_corr f = correction (station_corrections k) (o_id o) /\ f_dist f = Fin d
  /\ o_amp (m_obs (f_mobs f)) = Fin a.
Proof.
  intros H g f. unfold f, g. destruct (gained _ _ _ _ _ _ _ _ ml err H) as (o' & -> & E1 & E2 & E3 & E4 & E5 & E6).
  assert (Ed : distance k o' = Fin d). { rewrite <- (measured_distance _ _ _ _ _ _ _ _ H). unfold distance. rewrite E5, E6. reflexivity. }
  assert (Hd : 0 < d) by apply H.
  split; [unfold complete; cbn [m_obs]; rewrite E1, E2; reflexivity|]. split.
  - unfold filter_row. cbn [m_obs m_ml m_err f_used]. rewrite E1, E2, E3, E4, Ed. rewrite !andb_true_iff. unfold conditions. cbn [emul].
    assert (A : (match trace_filter k with Some f0 => f0 (o_id o) | None => true end = true) <-> (forall f0, trace_filter k = Some f0 -> f0 (o_id o) = true)).
    { destruct (trace_filter k) as [f0|]; [|split; [discriminate|reflexivity]]. split; [intros X f1 Y; congruence|intros X; apply X; reflexivity]. }
    assert (B : (match station_filter k with Some l0 => negb (existsb (fun stn => contains ("." ++ stn ++ ".") (o_id o)) l0) | None => true end = true)
                <-> (forall ss stn, station_filter k = Some ss -> In stn ss -> ~ within_dots stn (o_id o))).
    { destruct (station_filter k) as [l0|]; [|split; [discriminate|reflexivity]]. rewrite negb_true_iff. split.
      - intros X ss stn Y Hin C. assert (ss = l0) by congruence. subst ss.
        assert (existsb (fun stn => contains ("." ++ stn ++ ".") (o_id o)) l0 = true); [|congruence]. apply existsb_exists. exists stn. split; [exact Hin|]. apply contains_dots, C.
      - intros X. destruct (existsb _ l0) eqn:E; [|reflexivity]. exfalso. apply existsb_exists in E. destruct E as (stn & Hin & C). apply contains_dots in C. exact (X l0 stn eq_refl Hin C). }
    assert (D : (match dist_filter_on k with Some far => eleb (Fin d) (Fin far) | None => true end = true) <-> (forall far, dist_filter k = Some far -> far <> 0 -> d <= far)).
    { unfold dist_filter_on, real_eqb. destruct (dist_filter k) as [far|]; [|split; [discriminate|reflexivity]]. destruct (Req_EM_T far 0) as [->|N].
      - split; [intros _ far' X Y; congruence|reflexivity].
      - rewrite eleb_fin. split; [intros X far' Y _; congruence|intros X; apply X; [reflexivity|exact N]]. }
    assert (P : ((if pick_filter k then o_picked o else true) = true) <-> (pick_filter k = true -> o_picked o = true)).
    { destruct (pick_filter k); [split; [auto|intros X; apply X; reflexivity]|split; [discriminate|reflexivity]]. }
    assert (N : ((if negb (real_eqb (noise_filter k) 0) then eltb (Fin (n * noise_filter k)) (Fin a) else true) = true) <-> (noise_filter k <> 0 -> n * noise_filter k < a)).
    { unfold real_eqb. destruct (Req_EM_T (noise_filter k) 0) as [E|E]; cbn [negb]; [split; [contradiction|reflexivity]|]. rewrite eltb_fin. split; auto. }
    rewrite A, B, D, P, N. tauto.
  - unfold filter_row. cbn [m_obs f_mobs m_ml m_err f_corr f_dist]. rewrite E3, Ed. do 3 (split; [reflexivity|]). split.
    + unfold zero_to_nan. cbn [eeqb]. destruct (Req_EM_T d 0); [lra|reflexivity].
    + unfold blank_zero_distance. destruct (use_hyp_dist k); exact E2.
Qed.

Lemma missing_row k att unf o : missing o -> complete (gain_corrected unf (magnitude_row k att unf o)) = false.
Proof.
  intros H. unfold magnitude_row. destruct (calc_mag _ _ _ _ _ _) as [ml err].
  assert (M : missing (blank_zero_distance k o)) by (unfold missing, blank_zero_distance in *; destruct (use_hyp_dist k); exact H).
  generalize dependent (blank_zero_distance k o). intros o' M. unfold gain_corrected, complete. destruct unf; cbn [m_obs o_amp o_noise];
    (destruct M as [-> | ->]; [reflexivity|]); [|destruct (o_amp o'); reflexivity]. apply andb_false_r.
Qed.

(** * The used rows of a table *)

Record vals : Type := mk_vals { va : R; vn : R; vd : R; vl : R; vc : R }.
Definition vals_of (k : mag_params) (att : ext -> ext) (fl : bool) (o : obs) (t : vals) : Prop :=
  measured k att fl o (va t) (vn t) (vd t) (vl t) /\ vn t < va t /\ vc t = correction (station_corrections k) (o_id o).
Definition ml_of (k : mag_params) (t : vals) : R := log10 (va t * amp_multiplier k) + vl t + vc t.
Definition err_of (t : vals) : R := log10 ((va t + vn t) / (va t - vn t)).
Definition la_of (k : mag_params) (t : vals) : R := log10 (va t * amp_multiplier k) + vc t.

Definition final_row (k : mag_params) (att : ext -> ext) (fl : bool) (o : obs) : fobs :=
  filter_row k (gain_corrected (negb fl) (magnitude_row k att (negb fl) o)).

Lemma used_rows k att fl rows : 0 < amp_multiplier k -> 1 <= noise_filter k ->
  (forall o, In o rows -> missing o \/ exists a n d l, measured k att fl o a n d l) ->
  exists us ts, selection (passes k att fl) rows us /\ Forall2 (vals_of k att fl) us ts
  /\ filter f_used (filter_mags k (map (gain_corrected (negb fl)) (map (magnitude_row k att (negb fl)) rows))) = map (final_row k att fl) us.
Proof.
  intros Hm Hf. induction rows as [|o rows IH]; intros H; [exists [], []; split; [constructor|split; [constructor|reflexivity]]|].
  destruct IH as (us & ts & S1 & S2 & S3); [intros; apply H; right; assumption|].
  unfold filter_mags in *. cbn [map filter]. destruct (H o (or_introl eq_refl)) as [M|(a & n & d & l & M)].
  - rewrite (missing_row k att (negb fl) o M). exists us, ts. split; [|split; assumption]. apply sel_drop; [|exact S1].
    intros (a & n & d & l & (E1 & _ & E2 & _) & _). destruct M as [M|M]; [congruence|]. destruct fl; [|congruence]. destruct E2 as (n0 & g & E2 & _). congruence.
  - pose proof (measured_obs _ _ _ _ _ _ _ _ M) as Eo. destruct (magnitude_row k att (negb fl) o) as [o1 ml err] eqn:Er. cbn [m_obs] in Eo. subst o1.
    destruct (used_row k att fl o a n d l ml err M) as (U1 & U2 & _). rewrite U1. cbn [map filter].
    destruct (f_used (filter_row k (gain_corrected (negb fl) (mk_mobs o ml err)))) eqn:E.
    + pose proof (proj1 U2 eq_refl) as C. exists (o :: us), (mk_vals a n d l (correction (station_corrections k) (o_id o)) :: ts). split; [|split].
      * apply sel_keep; [|exact S1]. apply (passes_iff _ _ _ _ _ _ _ _ M), C.
      * constructor; [|exact S2]. split; [exact M|]. split; [|reflexivity]. cbn [va vn]. destruct M as (_ & _ & _ & Hn & _). assert (X : n * noise_filter k < a) by (apply C; lra).
        assert (n * 1 <= n * noise_filter k) by (apply Rmult_le_compat_l; lra). lra.
      * cbn [map]. rewrite S3. unfold final_row at 2. rewrite Er. reflexivity.
    + exists us, ts. split; [|split; [exact S2|exact S3]]. apply sel_drop; [|exact S1]. intros C. apply (passes_iff _ _ _ _ _ _ _ _ M) in C. apply U2 in C. congruence.
Qed.

Lemma final_values k att fl o t : 0 < amp_multiplier k -> vals_of k att fl o t ->
  m_ml (f_mobs (final_row k att fl o)) = Fin (ml_of k t) /\ m_err (f_mobs (final_row k att fl o)) = Fin (err_of t)
  /\ f_dist (final_row k att fl o) = Fin (vd t) /\ att (Fin (vd t)) = Fin (vl t)
  /\ corrected_amp k (final_row k att fl o) = Fin (va t * amp_multiplier k * Rpower 10 (vc t)).
Proof.
  intros Hm (M & Hn & Hc). unfold final_row. rewrite (measured_row _ _ _ _ _ _ _ _ M Hm Hn).
  destruct (used_row k att fl o _ _ _ _ (Fin (log10 (va t * amp_multiplier k) + vl t + correction (station_corrections k) (o_id o))) (Fin (log10 ((va t + vn t) / (va t - vn t)))) M) as (_ & _ & E1 & E2 & E3 & E4 & E5).
  cbv zeta in *. rewrite E1, E2, E4. unfold ml_of, err_of. rewrite Hc. do 3 (split; [reflexivity|]). split; [apply M|]. unfold corrected_amp. rewrite E5, E3. reflexivity.
Qed.

Lemma Forall2_map_l {A B C} (P : B -> C -> Prop) (f : A -> B) l l' : Forall2 (fun x y => P (f x) y) l l' -> Forall2 P (map f l) l'.
Proof. induction 1; constructor; assumption. Qed.
Lemma Forall2_eq_map {A B C} (f : A -> C) (g : B -> C) l l' : Forall2 (fun x y => f x = g y) l l' -> map f l = map g l'.
Proof. induction 1; cbn; [reflexivity|congruence]. Qed.
Lemma Forall2_imp {A B} (P Q : A -> B -> Prop) l l' : (forall x y, P x y -> Q x y) -> Forall2 P l l' -> Forall2 Q l l'.
Proof. intros H. induction 1; constructor; auto. Qed.
Lemma Forall2_map_r {A B C} (P : A -> C -> Prop) (f : B -> C) l l' : Forall2 (fun x y => P x (f y)) l l' -> Forall2 P l (map f l').
Proof. induction 1; constructor; assumption. Qed.

(** * The network magnitude *)

Lemma no_filter_iff fl rows : (fl = true <-> some_gain rows) -> no_filter (map o_gain rows) = negb fl.
Proof.
  intros H. unfold no_filter. destruct fl; cbn [negb].
  - destruct (proj1 H eq_refl) as (o & Ho & Hg). destruct (forallb is_nan (map o_gain rows)) eqn:E; [|reflexivity]. rewrite forallb_forall in E.
    specialize (E (o_gain o) (in_map o_gain _ _ Ho)). destruct (o_gain o); try discriminate. congruence.
  - apply forallb_forall. intros x Hx. apply in_map_iff in Hx. destruct Hx as (o & <- & Ho). destruct (o_gain o) eqn:E; try reflexivity; exfalso;
      (assert (false = true) by (apply H; exists o; split; [exact Ho|congruence]); discriminate).
Qed.
Lemma gain_kept k att unf rows : map (fun m => o_gain (m_obs m)) (map (magnitude_row k att unf) rows) = map o_gain rows.
Proof.
  rewrite map_map. apply map_ext. intros o. unfold magnitude_row. destruct (calc_mag _ _ _ _ _ _). cbn [m_obs]. unfold blank_zero_distance. destruct (use_hyp_dist k); reflexivity.
Qed.

Lemma selection_in {A} (P : A -> Prop) l l' : selection P l l' -> forall x, In x l' <-> In x l /\ P x.
Proof.
  induction 1 as [|x l l' Hp H IH|x l l' Hp H IH]; intros y; [split; [intros []|intros [[] _]]| |]; cbn [In]; rewrite IH.
  - split; [intros [<-|[H1 H2]]; [split; [left; reflexivity|exact Hp]|split; [right; exact H1|exact H2]]|intros [[<-|H1] H2]; [left; reflexivity|right; split; assumption]].
  - split; [intros [H1 H2]; split; [right; exact H1|exact H2]|intros [[<-|H1] H2]; [contradiction|split; assumption]].
Qed.
Lemma selection_unique {A} (P : A -> Prop) l l1 : selection P l l1 -> forall l2, selection P l l2 -> l1 = l2.
Proof.
  induction 1 as [|x l l' Hp H IH|x l l' Hp H IH]; intros l2 H2; inversion H2; subst; try reflexivity; try contradiction; [f_equal|]; apply IH; assumption.
Qed.

Definition weight (k : mag_params) (e : R) : R := if weighted_mean k then (1 / e) ^ 2 else 1.

Lemma all_same_fin l : all_same (map Fin l) = true -> forall x y, In x l -> In y l -> x = y.
Proof.
  unfold all_same. rewrite not_nan_fin. destruct l as [|z l]; [discriminate|]. cbn [map]. intros H.
  assert (G : forall x, In x (z :: l) -> x = z).
  { intros x [<-|Hx]; [reflexivity|]. rewrite forallb_forall in H. specialize (H (Fin x) (in_map Fin _ _ Hx)). cbn [eeqb] in H. destruct (Req_EM_T z x); [congruence|discriminate]. }
  intros x y Hx Hy. rewrite (G x Hx), (G y Hy). reflexivity.
Qed.
Lemma all_same_fin' l : l <> [] -> (forall x y, In x l -> In y l -> x = y) -> all_same (map Fin l) = true.
Proof.
  unfold all_same. rewrite not_nan_fin. destruct l as [|z l]; [congruence|]. intros _ H. cbn [map]. apply forallb_forall. intros x Hx. apply in_map_iff in Hx.
  destruct Hx as (y & <- & Hy). cbn [eeqb]. destruct (Req_EM_T z y) as [E|E]; [reflexivity|]. exfalso. apply E, H; [left; reflexivity|right; exact Hy].
Qed.
Lemma all_same_2 {A} (l : list A) : (length l < 2)%nat -> forall x y, In x l -> In y l -> x = y.
Proof. destruct l as [|z [|z' l]]; cbn; intros H x y; [intros []|intros [<-|[]] [<-|[]]; reflexivity|lia]. Qed.

Lemma map2_maps {A B C D} (f : B -> C -> D) (g : A -> B) (h : A -> C) l : map2 f (map g l) (map h l) = map (fun x => f (g x) (h x)) l.
Proof. induction l as [|x l IH]; cbn; [reflexivity|rewrite IH; reflexivity]. Qed.

Lemma r_squared_real k att fl us ts m : 0 < amp_multiplier k -> Forall2 (vals_of k att fl) us ts -> ts <> [] ->
  let r2 := r_squared_of att (Fin m) (map (corrected_amp k) (map (final_row k att fl) us)) (map f_dist (map (final_row k att fl) us)) in
  let las := map (la_of k) ts in
  ((forall x y, In x las -> In y las -> x = y) -> r2 = NaN)
  /\ ((exists x y, In x las /\ In y las /\ x <> y) -> 0 < squares las (amean las) /\ r2 = Fin (1 - squares (map (ml_of k) ts) m / squares las (amean las))).
Proof.
  intros Hmu H Hne r2 las.
  set (amp := fun t => va t * amp_multiplier k * Rpower 10 (vc t)).
  assert (Ea : map (corrected_amp k) (map (final_row k att fl) us) = map Fin (map amp ts)).
  { rewrite !map_map. apply Forall2_eq_map. eapply Forall2_imp; [|exact H]. intros o t V. exact (proj2 (proj2 (proj2 (proj2 (final_values k att fl o t Hmu V))))). }
  assert (Ed : map f_dist (map (final_row k att fl) us) = map (fun t => Fin (vd t)) ts).
  { rewrite !map_map. apply Forall2_eq_map. eapply Forall2_imp; [|exact H]. intros o t V. exact (proj1 (proj2 (proj2 (final_values k att fl o t Hmu V)))). }
  assert (Hall : forall t, In t ts -> 0 < va t /\ att (Fin (vd t)) = Fin (vl t)).
  { clear -H. induction H as [|o t us ts V _ IH]; [intros t []|]. intros t' [<-|Hx]; [|apply IH, Hx]. destruct V as (M & _). split; apply M. }
  assert (Hpos : forall t, In t ts -> 0 < amp t).
  { intros t Ht. unfold amp. apply Rmult_lt_0_compat; [apply Rmult_lt_0_compat; [apply Hall, Ht|exact Hmu]|apply exp_pos]. }
  assert (Hla : forall t, In t ts -> log10 (amp t) = la_of k t).
  { intros t Ht. unfold amp, la_of. rewrite log10_mult; [rewrite log10_pow; reflexivity| |apply exp_pos]. apply Rmult_lt_0_compat; [apply Hall, Ht|exact Hmu]. }
  unfold r2. clear r2. rewrite Ea, Ed. clear Ea Ed H us. unfold r_squared_of.
  split.
  - intros Hs. assert (E : all_same (map Fin (map amp ts)) = true).
    { apply all_same_fin'; [destruct ts; [congruence|discriminate]|]. intros x y Hx Hy. apply in_map_iff in Hx, Hy. destruct Hx as (t & <- & Ht), Hy as (t' & <- & Ht').
      apply log10_inj; [apply Hpos, Ht|apply Hpos, Ht'|]. rewrite !Hla by assumption. apply Hs; apply in_map; assumption. }
    rewrite E, orb_true_r. reflexivity.
  - intros (x & y & Hx & Hy & Hxy). apply in_map_iff in Hx, Hy. destruct Hx as (t & <- & Ht), Hy as (t' & <- & Ht').
    destruct (length (map Fin (map amp ts)) <? 2)%nat eqn:E1.
    { exfalso. apply Nat.ltb_lt in E1. rewrite !map_length in E1. apply Hxy. rewrite (all_same_2 ts E1 t t' Ht Ht'). reflexivity. }
    destruct (all_same (map Fin (map amp ts))) eqn:E2.
    { exfalso. apply Hxy. rewrite <- !Hla by assumption. rewrite (all_same_fin _ E2 (amp t) (amp t')); [reflexivity|apply in_map, Ht|apply in_map, Ht']. }
    cbn [orb]. assert (El : map elog10 (map Fin (map amp ts)) = map Fin las).
    { unfold las. rewrite !map_map. apply map_ext_in. intros s Hs. cbn [elog10]. specialize (Hpos s Hs). destruct (Rlt_dec 0 (amp s)); [|lra]. rewrite Hla by exact Hs. reflexivity. }
    rewrite El. rewrite nanmean_fin by (unfold las; destruct ts; [congruence|discriminate]).
    assert (Ev : map (fun x => esq (esub x (Fin (amean las)))) (map Fin las) = map Fin (map (fun x => (x - amean las) ^ 2) las)).
    { rewrite !map_map. apply map_ext. intros x. cbn. f_equal. ring. }
    rewrite Ev, nansum_fin. fold (squares las (amean las)).
    assert (Em : map2 (fun x d => esq (esub x (esub (Fin m) (att d)))) (map Fin las) (map (fun t => Fin (vd t)) ts) = map Fin (map (fun x => (x - m) ^ 2) (map (ml_of k) ts))).
    { unfold las. rewrite map_map, map2_maps, !map_map. apply map_ext_in. intros s Hs. rewrite (proj2 (Hall s Hs)). cbn. f_equal. unfold la_of, ml_of. ring. }
    rewrite Em, nansum_fin. fold (squares (map (ml_of k) ts) m).
    assert (Hv : 0 < squares las (amean las)).
    { destruct (Rle_lt_or_eq_dec _ _ (squares_nonneg las (amean las))) as [X|X]; [exact X|]. exfalso. symmetry in X. pose proof (squares_zero _ _ X) as Z.
      apply Hxy. rewrite (Z (la_of k t)), (Z (la_of k t')); [reflexivity|apply in_map, Ht'|apply in_map, Ht]. }
    split; [exact Hv|]. cbn [esub eneg eadd ediv]. destruct (Req_EM_T _ 0) as [X|X]; [lra|]. f_equal. field. exact X.
Qed.

Lemma network k att fl rows plot : get_attenuation k = Ret att -> 0 < amp_multiplier k -> 1 <= noise_filter k ->
  (fl = true <-> some_gain rows) ->
  (forall o, In o rows -> missing o \/ exists a n d l, measured k att fl o a n d l) ->
  (exists o, In o rows /\ passes k att fl o) ->
  (weighted_mean k = true -> forall o a n d l, In o rows -> measured k att fl o a n d l -> 0 < n) ->
  exists us ts m e r2, selection (passes k att fl) rows us /\ Forall2 (vals_of k att fl) us ts /\ ts <> []
  /\ calc_magnitude k plot rows = Ret ((Fin m, Fin e, r2), plot)
  /\ let mls := map (ml_of k) ts in let ws := map (fun t => weight k (err_of t)) ts in
     (forall w, In w ws -> 0 < w) /\ m = dot mls ws / rsum ws
     /\ match ts with [t] => e = err_of t | _ => 0 <= e /\ e ^ 2 * rsum ws = rsum (map2 (fun x w => ((x - m) * w) ^ 2) mls ws) end
     /\ (r2_only_used k = true -> r2 = r_squared_of att (Fin m) (map (corrected_amp k) (map (final_row k att fl) us)) (map f_dist (map (final_row k att fl) us))).
Proof.
  intros Hatt Hmu Hnf Hfl Hrows (o0 & Ho0 & Hp0) Hw.
  destruct (used_rows k att fl rows Hmu Hnf Hrows) as (us & ts & S1 & S2 & S3). exists us, ts.
  set (mls := map (ml_of k) ts). set (ws := map (fun t => weight k (err_of t)) ts).
  assert (Hus : In o0 us) by (apply (selection_in _ _ _ S1); split; assumption).
  assert (Hts : ts <> []) by (intros ->; inversion S2; subst; destruct Hus).
  assert (Em : map (fun f => m_ml (f_mobs f)) (map (final_row k att fl) us) = map Fin mls).
  { unfold mls. rewrite !map_map. apply Forall2_eq_map. eapply Forall2_imp; [|exact S2]. intros o t V. exact (proj1 (final_values k att fl o t Hmu V)). }
  assert (Hin : forall o, In o us -> In o rows) by (intros o Ho; apply (selection_in _ _ _ S1) in Ho; apply Ho).
  assert (Herr : forall t, In t ts -> weighted_mean k = true -> 0 < err_of t).
  { clear -S2 Hin Hw. induction S2 as [|o t us ts V _ IH]; [intros t []|]. intros t' [<-|Ht] W; [|apply IH; [intros; apply Hin; right; assumption|exact Ht|exact W]].
    destruct V as (M & Hn & _). pose proof (Hw W o _ _ _ _ (Hin o (or_introl eq_refl)) M) as N. unfold err_of. rewrite <- log10_1. apply log10_lt; [lra|].
    apply (Rmult_lt_reg_r (va t - vn t)); [lra|]. unfold Rdiv. rewrite Rmult_assoc, Rinv_l by lra. lra. }
  assert (Ew : mag_weights (weighted_mean k) (map (final_row k att fl) us) = map Fin ws).
  { unfold mag_weights, ws. rewrite !map_map. clear -S2 Herr Hmu. induction S2 as [|o t us ts V H2 IH]; [reflexivity|]. cbn [map]. rewrite IH by (intros; apply Herr; [right|]; assumption).
    f_equal. rewrite (proj1 (proj2 (final_values k att fl o t Hmu V))). unfold weight. destruct (weighted_mean k) eqn:W; [|reflexivity].
    pose proof (Herr t (or_introl eq_refl) eq_refl) as He. cbn [ediv]. destruct (Req_EM_T (err_of t) 0); [lra|]. cbn [esq emul]. f_equal. ring. }
  assert (Hwp : forall w, In w ws -> 0 < w).
  { intros w Hin'. apply in_map_iff in Hin'. destruct Hin' as (t & <- & Ht). unfold weight. destruct (weighted_mean k) eqn:W; [|lra].
    pose proof (Herr t Ht eq_refl) as He. apply pow_lt. apply Rdiv_lt_0_compat; lra. }
  assert (Hl : length mls = length ws) by (unfold mls, ws; rewrite !map_length; reflexivity).
  assert (Hws : ws <> []) by (unfold ws; destruct ts; [congruence|discriminate]).
  pose proof (rsum_pos ws Hws Hwp) as Hsum. set (m := dot mls ws / rsum ws).
  destruct (network_error_fin (weighted_mean k) mls ws Hl Hsum) as (e1 & Ee1 & He1 & He2). fold m in He2.
  exists m. unfold calc_magnitude.
  replace (forallb (fun o => is_nan (o_amp o)) rows) with false.
  2: { symmetry. destruct (forallb (fun o => is_nan (o_amp o)) rows) eqn:E; [|reflexivity]. rewrite forallb_forall in E. specialize (E o0 Ho0).
       destruct Hp0 as (a & n & d & l & (Ea & _) & _). rewrite Ea in E. discriminate. }
  unfold calculate_magnitudes. rewrite Hatt. cbn [bind]. rewrite (no_filter_iff fl rows Hfl).
  unfold mean_magnitude. rewrite gain_kept, (no_filter_iff fl rows Hfl).
  set (table := filter_mags k (map (gain_corrected (negb fl)) (map (magnitude_row k att (negb fl)) rows))) in *.
  rewrite S3.
  assert (Hr2 : exists r2, mag_r_squared k table (Fin m) = Ret r2
    /\ (r2_only_used k = true -> r2 = r_squared_of att (Fin m) (map (corrected_amp k) (map (final_row k att fl) us)) (map f_dist (map (final_row k att fl) us)))).
  { unfold mag_r_squared, r2_rows. destruct (r2_only_used k).
    - rewrite S3. cbn [bind]. rewrite Hatt. cbn [bind]. eexists. split; reflexivity.
    - destruct (Rle_dec (noise_filter k) 0); [lra|]. cbn [bind]. rewrite Hatt. cbn [bind]. eexists. split; [reflexivity|discriminate]. }
  destruct Hr2 as (r2 & Er2 & Hr2).
  destruct us as [|u us]; [destruct Hus|]. destruct ts as [|t ts]; [congruence|]. cbn [map].
  change (final_row k att fl u :: map (final_row k att fl) us) with (map (final_row k att fl) (u :: us)).
  change (m_ml (f_mobs (final_row k att fl u)) :: map (fun f => m_ml (f_mobs f)) (map (final_row k att fl) us)) with (map (fun f => m_ml (f_mobs f)) (map (final_row k att fl) (u :: us))).
  rewrite Em, Ew. rewrite network_mean_fin by assumption. fold m. rewrite Er2. cbn [bind fst].
  inversion S2 as [|? ? ? ? V S2']; subst.
  exists (match ts with [] => err_of t | _ => e1 end), r2.
  split; [exact S1|]. split; [exact S2|]. split; [discriminate|]. split.
  - destruct S2' as [|u' t' us' ts' V' S2']; cbn [map]; [rewrite (proj1 (proj2 (final_values k att fl u t Hmu V))); reflexivity|]. rewrite Ee1. reflexivity.
  - split; [exact Hwp|]. split; [reflexivity|]. split; [|exact Hr2]. destruct ts; [reflexivity|split; [exact He1|exact He2]].
Qed.
Lemma Forall2_len {A B} (P : A -> B -> Prop) l l' : Forall2 P l l' -> length l = length l'.
Proof. induction 1; cbn; congruence. Qed.

(** * NaN *)

Lemma fold_eadd_nan l : fold_left eadd l NaN = NaN.
Proof. induction l as [|x l IH]; [reflexivity|exact IH]. Qed.
Lemma esum_nan l : In NaN l -> esum l = NaN.
Proof.
  unfold esum. generalize (Fin 0). induction l as [|x l IH]; intros a H; [destruct H|]. cbn [fold_left]. destruct H as [->|H]; [|apply IH, H].
  destruct a; cbn [eadd]; apply fold_eadd_nan.
Qed.
Lemma network_mean_nan mags : In NaN mags -> network_mean false mags (map (fun _ => Fin 1) mags) = NaN.
Proof.
  intros H. unfold network_mean. cbn [total]. rewrite esum_nan; [reflexivity|].
  induction mags as [|x mags IH]; [destruct H|]. cbn [map map2 In]. destruct H as [->|H]; [left; reflexivity|right; apply IH, H].
Qed.
Lemma r_squared_nan att amps dists : (forall x, In x amps -> 0 < x) -> (exists x y, In x amps /\ In y amps /\ x <> y) ->
  r_squared_of att NaN (map Fin amps) dists = Fin 1.
Proof.
  intros Hp (x & y & Hx & Hy & Hxy). unfold r_squared_of.
  destruct (length (map Fin amps) <? 2)%nat eqn:E1. { exfalso. apply Nat.ltb_lt in E1. rewrite map_length in E1. apply Hxy. exact (all_same_2 amps E1 x y Hx Hy). }
  destruct (all_same (map Fin amps)) eqn:E2. { exfalso. apply Hxy. exact (all_same_fin _ E2 x y Hx Hy). }
  cbn [orb]. set (las := map log10 amps).
  assert (El : map elog10 (map Fin amps) = map Fin las).
  { unfold las. rewrite !map_map. apply map_ext_in. intros s Hs. cbn [elog10]. specialize (Hp s Hs). destruct (Rlt_dec 0 s); [reflexivity|lra]. }
  rewrite El. rewrite nanmean_fin by (unfold las; destruct amps; [destruct Hx|discriminate]).
  assert (Ev : map (fun x => esq (esub x (Fin (amean las)))) (map Fin las) = map Fin (map (fun x => (x - amean las) ^ 2) las)).
  { rewrite !map_map. apply map_ext. intros s. cbn. f_equal. ring. }
  rewrite Ev, nansum_fin. fold (squares las (amean las)).
  assert (Em : nansum (map2 (fun x d => esq (esub x (esub NaN (att d)))) (map Fin las) dists) = Fin 0).
  { unfold nansum. assert (G : forall l ds, filter (fun x => negb (is_nan x)) (map2 (fun x d => esq (esub x (esub NaN (att d)))) (map Fin l) ds) = []).
    { induction l as [|s l IH]; intros [|d ds]; cbn; [reflexivity..|apply IH]. } rewrite G. reflexivity. }
  rewrite Em. assert (Hv : squares las (amean las) <> 0).
  { intros X. pose proof (squares_zero _ _ X) as Z. apply Hxy. apply log10_inj; [apply Hp, Hx|apply Hp, Hy|].
    rewrite (Z (log10 x)), (Z (log10 y)); [reflexivity|apply in_map, Hy|apply in_map, Hx]. }
  cbn [esub eneg eadd ediv]. destruct (Req_EM_T _ 0) as [X|X]; [lra|]. f_equal. field. exact X.
Qed.

Lemma log_linear_fin c1 d0 c2 c3 d : 0 < d0 -> 0 < d -> log_linear c1 d0 c2 c3 (Fin d) = Fin (c1 * log10 (d / d0) + c2 * (d - d0) + c3).
Proof.
  intros H0 Hd. unfold log_linear. cbn [ediv]. destruct (Req_EM_T d0 0); [lra|]. cbn [elog10]. pose proof (Rdiv_lt_0_compat d d0 Hd H0).
  destruct (Rlt_dec 0 (d / d0)); [|lra]. cbn. reflexivity.
Qed.
Lemma network_error_nan mags ws : mags <> [] -> ws <> [] -> network_mean false mags ws = NaN -> network_error false mags ws = NaN.
Proof.
  intros H1 H2 E. unfold network_error. rewrite E. cbn [total]. destruct mags as [|x mags], ws as [|w ws]; try congruence. cbn [map2].
  rewrite esum_nan; [reflexivity|]. left. destruct x; reflexivity.
Qed.
Lemma r_squared_flat m amps dists : length dists = length amps -> (forall x, In x amps -> 0 < x) -> (exists x y, In x amps /\ In y amps /\ x <> y) ->
  let las := map log10 amps in
  r_squared_of (fun _ => Fin 0) (Fin m) (map Fin amps) dists = Fin (1 - squares las m / squares las (amean las)).
Proof.
  intros Hl Hp (x & y & Hx & Hy & Hxy) las. unfold r_squared_of.
  destruct (length (map Fin amps) <? 2)%nat eqn:E1. { exfalso. apply Nat.ltb_lt in E1. rewrite map_length in E1. apply Hxy. exact (all_same_2 amps E1 x y Hx Hy). }
  destruct (all_same (map Fin amps)) eqn:E2. { exfalso. apply Hxy. exact (all_same_fin _ E2 x y Hx Hy). }
  cbn [orb]. 
  assert (El : map elog10 (map Fin amps) = map Fin las).
  { unfold las. rewrite !map_map. apply map_ext_in. intros s Hs. cbn [elog10]. specialize (Hp s Hs). destruct (Rlt_dec 0 s); [reflexivity|lra]. }
  rewrite El. rewrite nanmean_fin by (unfold las; destruct amps; [destruct Hx|discriminate]).
  assert (Ev : map (fun x => esq (esub x (Fin (amean las)))) (map Fin las) = map Fin (map (fun x => (x - amean las) ^ 2) las)).
  { rewrite !map_map. apply map_ext. intros s. cbn. f_equal. ring. }
  rewrite Ev, nansum_fin. fold (squares las (amean las)).
  assert (Em : map2 (fun x d => esq (esub x (esub (Fin m) (Fin 0)))) (map Fin las) dists = map Fin (map (fun x => (x - m) ^ 2) las)).
  { assert (Hl' : length dists = length las) by (unfold las; rewrite map_length; exact Hl). clear -Hl'. revert dists Hl'.
    induction las as [|s l IH]; intros [|d ds] H; cbn in *; try discriminate; [reflexivity|]. f_equal; [f_equal; ring|]. apply IH. lia. }
  rewrite Em, nansum_fin. fold (squares las m). assert (Hv : squares las (amean las) <> 0).
  { intros X. pose proof (squares_zero _ _ X) as Z. apply Hxy. apply log10_inj; [apply Hp, Hx|apply Hp, Hy|].
    rewrite (Z (log10 x)), (Z (log10 y)); [reflexivity|apply in_map, Hy|apply in_map, Hx]. }
  cbn [esub eneg eadd ediv]. destruct (Req_EM_T _ 0) as [X|X]; [lra|]. f_equal. field. exact X.
Qed.

(** * Trace ids *)
Lemma no_dot_tail c s : no_dot (String c s) -> no_dot s.
Proof. intros H a b ->. apply (H (String c a) b). reflexivity. Qed.
Lemma no_dot_head c s : no_dot (String c s) -> c <> "."%char.
Proof. intros H ->. apply (H EmptyString s). reflexivity. Qed.
Lemma first_dot net : forall a r r', no_dot net -> (net ++ "." ++ r = a ++ "." ++ r')%string ->
  (a = net /\ r = r') \/ exists a1, a = (net ++ "." ++ a1)%string /\ r = (a1 ++ "." ++ r')%string.
Proof.
  induction net as [|c net IH]; intros a r r' H E.
  - destruct a as [|c a]; cbn in E; [left; split; [reflexivity|congruence]|]. right. exists a. injection E as <- E. split; [reflexivity|exact E].
  - destruct a as [|c' a]; cbn in E; [exfalso; apply (no_dot_head _ _ H); congruence|]. injection E as <- E.
    destruct (IH a r r' (no_dot_tail _ _ H) E) as [[-> ->]|(a1 & -> & ->)]; [left; split; reflexivity|right; exists a1; split; reflexivity].
Qed.
Lemma no_dot_split s t r r' : no_dot s -> no_dot t -> (s ++ "." ++ r = t ++ "." ++ r')%string -> s = t /\ r = r'.
Proof.
  intros Hs Ht E. destruct (first_dot s t r r' Hs E) as [[-> ->]|(a1 & -> & _)]; [split; reflexivity|]. exfalso. apply (Ht s a1). reflexivity.
Qed.

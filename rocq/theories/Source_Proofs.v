(** Proofs about finding a source by stacking. *)
From Coq Require Import List ZArith Reals Lia Lra.
From Verif Require Import Lib LibFacts Migrate_Model Migrate_Spec Migrate_Proofs Source_Spec.
Import ListNotations.
Open Scope Z_scope.

Lemma Rsum_map_le {A} (f g : A -> R) l : (forall x, In x l -> (f x <= g x)%R) ->
  (Rsum (map f l) <= Rsum (map g l))%R.
Proof.
  unfold Rsum. induction l as [|a l IH]; intros H; cbn; [lra|].
  pose proof (H a (or_introl eq_refl)). specialize (IH (fun x Hx => H x (or_intror Hx))). lra.
Qed.

Lemma Rsum_map_lt {A} (f g : A -> R) l a : In a l -> (forall x, In x l -> (f x <= g x)%R) -> (f a < g a)%R ->
  (Rsum (map f l) < Rsum (map g l))%R.
Proof.
  unfold Rsum. induction l as [|b l IH]; intros Ha H Hlt; [contradiction|]. cbn.
  pose proof (H b (or_introl eq_refl)) as Hb.
  destruct Ha as [->|Ha].
  - pose proof (Rsum_map_le f g l (fun x Hx => H x (or_intror Hx))) as Hl. unfold Rsum in Hl. lra.
  - specialize (IH Ha (fun x Hx => H x (or_intror Hx)) Hlt). lra.
Qed.

Lemma coalescence_exp n on tt f node s :
  coalescence n on tt f node s
  = exp (Rsum (map (fun k => ln (clip01 (on k (arrival tt f node s k)))) (zrange n)) / IZR (Z.of_nat (Z.to_nat n))).
Proof.
  unfold coalescence, arrival. rewrite geometric_mean_exp.
  - rewrite map_map, map_length, zrange_length, INR_IZR_INZ. reflexivity.
  - intros x Hx. apply in_map_iff in Hx. destruct Hx as (k & <- & _). apply clip_pos.
Qed.

Lemma clip01_pos x : (0 < clip01 x)%R.
Proof. unfold clip01. pose proof (Rmax_r x (1 / 100)). lra. Qed.

Lemma clip01_mono x y : (x <= y)%R -> (clip01 x <= clip01 y)%R.
Proof. intros H. unfold clip01. apply Rle_max_compat_r. exact H. Qed.

Lemma clip01_strict x y : (x < y)%R -> (1 / 100 < y)%R -> (clip01 x < clip01 y)%R.
Proof. intros H H1. unfold clip01. rewrite (Rmax_left y) by lra. apply Rmax_lub_lt; assumption. Qed.

Lemma ln_le x y : (0 < x)%R -> (x <= y)%R -> (ln x <= ln y)%R.
Proof. intros Hx [Hxy|<-]; [left; apply ln_increasing; lra|lra]. Qed.

(** A station-by-station comparison, one strict, orders the coalescence strictly. *)
Lemma coalescence_lt n on tt f node s on' tt' f' node' s' k0 :
  0 <= k0 < n ->
  (forall k, 0 <= k < n -> (clip01 (on k (arrival tt f node s k)) <= clip01 (on' k (arrival tt' f' node' s' k)))%R) ->
  (clip01 (on k0 (arrival tt f node s k0)) < clip01 (on' k0 (arrival tt' f' node' s' k0)))%R ->
  (coalescence n on tt f node s < coalescence n on' tt' f' node' s')%R.
Proof.
  intros Hk H Hlt. rewrite !coalescence_exp. apply exp_increasing.
  rewrite Z2Nat.id by lia.
  assert (Hn : (0 < IZR n)%R) by (apply IZR_lt; lia).
  apply Rmult_lt_compat_r; [apply Rinv_0_lt_compat; exact Hn|].
  apply Rsum_map_lt with (a := k0).
  - apply in_zrange. exact Hk.
  - intros k Hin. apply in_zrange in Hin. apply ln_le; [apply clip01_pos|]. apply H. exact Hin.
  - apply ln_increasing; [apply clip01_pos|exact Hlt].
Qed.

(** Onsets within a factor [q] of one another give coalescences within the factor [q]. *)
Lemma coalescence_factor n on on' tt f node s q : 1 <= n -> (0 < q)%R ->
  (forall k, 0 <= k < n -> (clip01 (on k (arrival tt f node s k)) <= q * clip01 (on' k (arrival tt f node s k)))%R) ->
  (coalescence n on tt f node s <= q * coalescence n on' tt f node s)%R.
Proof.
  intros Hn Hq H. rewrite !coalescence_exp. rewrite Z2Nat.id by lia.
  assert (Hn' : (0 < IZR n)%R) by (apply IZR_lt; lia).
  rewrite <- (exp_ln q Hq) at 1. rewrite <- exp_plus.
  assert (Hexp : forall x y, (x <= y)%R -> (exp x <= exp y)%R).
  { intros x y [Hxy|<-]; [left; apply exp_increasing; exact Hxy|lra]. }
  apply Hexp.
  assert (Hs : (Rsum (map (fun k => ln (clip01 (on k (arrival tt f node s k)))) (zrange n))
    <= Rsum (map (fun k => ln q + ln (clip01 (on' k (arrival tt f node s k)))) (zrange n)))%R).
  { apply Rsum_map_le. intros k Hk. apply in_zrange in Hk.
    rewrite <- ln_mult by (try exact Hq; apply clip01_pos). apply ln_le; [apply clip01_pos|]. apply H. exact Hk. }
  assert (Hc : forall (g : Z -> R) l, Rsum (map (fun k => ln q + g k)%R l) = (INR (length l) * ln q + Rsum (map g l))%R).
  { intros g l. unfold Rsum. induction l as [|a l IH]; [cbn; lra|].
    cbn [map fold_right length]. rewrite IH, S_INR. ring. }
  rewrite Hc in Hs. rewrite zrange_length, INR_IZR_INZ, Z2Nat.id in Hs by lia.
  apply Rmult_le_reg_r with (IZR n); [exact Hn'|].
  rewrite Rmult_plus_distr_r. unfold Rdiv. rewrite !Rmult_assoc, Rinv_l by lra. lra.
Qed.

(** What the two kernels report when one cell of the map exceeds every other. *)
Lemma found_of_unique_max r0 r1 on n t tt n_nodes f l m o node s0 :
  1 <= n -> 0 <= f -> 0 <= l -> f + l <= t -> n * t < 2147483648 ->
  (forall node k, 0 <= node < n_nodes -> 0 <= k < n -> tt node k <= l) ->
  0 <= node < n_nodes -> 0 <= s0 < t - f - l ->
  lib_migrate r0 (array2 n t on) n t (array2 n_nodes n tt) n_nodes n f l n = Ret m ->
  lib_find_max_coa r1 m n_nodes (t - f - l) = Ret o ->
  (forall node' s, 0 <= node' < n_nodes -> 0 <= s < t - f - l -> (node', s) <> (node, s0) ->
     (coalescence n on tt f node' s < coalescence n on tt f node s0)%R) ->
  source_found (o_max o) (o_idx o) (t - f - l) node s0.
Proof.
  intros Hn Hf Hl Ht Hsz Htt Hnode Hs0 E1 E2 H.
  rewrite lib_migrate_ok in E1 by (try assumption; lia). injection E1 as <-.
  destruct (find_max_ok r1 (coalescence n on tt f) n_nodes (t - f - l)) as (o' & E & _ & _ & _ & HO); [lia|lia|].
  rewrite E2 in E. injection E as <-.
  destruct (HO s0 Hs0) as (k & (Hk & Hmax & _) & Ho1 & Ho2 & _).
  assert (k = node) as ->.
  { destruct (Z.eq_dec k node) as [|Hne]; [assumption|]. exfalso.
    pose proof (Hmax node Hnode). pose proof (H k s0 Hk Hs0 ltac:(congruence)). lra. }
  split; [exact Ho2|]. exists (coalescence n on tt f node s0). split; [exact Ho1|].
  intros s Hs Hne. destruct (HO s Hs) as (k' & (Hk' & _) & Ho1' & _).
  exists (coalescence n on tt f k' s). split; [exact Ho1'|]. apply H; [exact Hk'|exact Hs|congruence].
Qed.

(** Two nodes whose arrivals agree up to one shift have the same coalescence. *)
Lemma coalescence_shift n on tt f node s node' s' :
  (forall k, 0 <= k < n -> arrival tt f node s k = arrival tt f node' s' k) ->
  coalescence n on tt f node s = coalescence n on tt f node' s'.
Proof.
  intros H. rewrite !coalescence_exp. do 3 f_equal. apply map_ext_in. intros k Hk. apply in_zrange in Hk.
  rewrite (H k Hk). reflexivity.
Qed.

(** Property C92: smoothing of the coalescence before triggering. *)
From Coq Require Import List ZArith Reals R_Ifp Lra Lia.
From Verif Require Import Lib LibFacts Locate_Spec Locate_Proofs Smooth_Model Smooth_Spec Smooth_Proofs.
Import ListNotations.
Open Scope Z_scope.

Lemma smooth_columns sigma width rate data out : smooth_coa sigma width rate data = Ret out ->
  length out = length data
  /\ (forall i o, rd out i = Some o -> exists s, rd data i = Some s /\ r_dt o = r_dt s /\ r_x o = r_x s /\ r_y o = r_y s /\ r_z o = r_z s)
  /\ forall col, column col -> gaussian_filter1d (map col data) (sigma * rate) width = Ret (map col out).
Proof.
  intros E. unfold smooth_coa in E. destruct (gaussian_filter1d (map r_coa data) (sigma * rate) width) as [a| |] eqn:Ea; cbn [bind] in E; try discriminate.
  destruct (gaussian_filter1d (map r_coa_n data) (sigma * rate) width) as [b| |] eqn:Eb; cbn [bind] in E; try discriminate. injection E as <-.
  destruct (filter_value _ _ _ _ _ eq_refl Ea) as (_ & _ & La & _). destruct (filter_value _ _ _ _ _ eq_refl Eb) as (_ & _ & Lb & _). rewrite map_length in La, Lb.
  assert (G : forall (l : list rrow) a b, length a = length l -> length b = length l ->
    let o := map (fun rc => mk_rrow (r_dt (fst rc)) (fst (snd rc)) (snd (snd rc)) (r_x (fst rc)) (r_y (fst rc)) (r_z (fst rc))) (combine l (combine a b)) in
    length o = length l /\ map r_coa o = a /\ map r_coa_n o = b /\ forall i x, rd o i = Some x -> exists s, rd l i = Some s /\ r_dt x = r_dt s /\ r_x x = r_x s /\ r_y x = r_y s /\ r_z x = r_z s).
  { clear. induction l as [|s l IH]; intros [|x a] [|y b] La Lb; try discriminate.
    - repeat (split; [reflexivity|]). intros i x H. cbn in H. rewrite rd_nil in H. discriminate.
    - injection La as La. injection Lb as Lb. specialize (IH a b La Lb). cbv zeta in *. cbn [combine map length]. destruct IH as (I1 & I2 & I3 & I4).
      cbn [fst snd r_coa r_coa_n]. split; [f_equal; exact I1|]. split; [f_equal; exact I2|]. split; [f_equal; exact I3|]. intros i z H. rewrite rd_cons in *.
      destruct (i =? 0); [injection H as <-; exists s; repeat split; reflexivity|]. apply I4, H. }
  destruct (G data a b La Lb) as (G1 & G2 & G3 & G4). split; [exact G1|]. split; [exact G4|].
  intros col [|]; [rewrite Ea, G2|rewrite Eb, G3]; reflexivity.
Qed.

(** Each coalescence value becomes a mean of the samples around it, with the weights of a Gaussian
    of [sigma] seconds truncated at [width] standard deviations; beyond its ends the trace is
    continued by its mirror image. Times and locations stay. *)
Theorem C92_gaussian_mean : forall sigma width rate data, (0 < sigma)%R -> (0 < rate)%R -> (0 <= width)%R ->
  exists out r w, smooth_coa sigma width rate data = Ret out /\ radius_ok sigma rate width r /\ gaussian_weights sigma rate r w
  /\ length out = length data
  /\ (forall i o, rd out i = Some o -> exists s, rd data i = Some s /\ r_dt o = r_dt s /\ r_x o = r_x s /\ r_y o = r_y s /\ r_z o = r_z s)
  /\ forall col i o e, column col -> rd out i = Some o -> mirrored (map col data) e ->
     col o = sum (fun d => w d * e (i + d)%Z)%R (around r).
Proof.
  intros sigma width rate data Hs Ht Hw. assert (Hp : (0 < sigma * rate)%R) by (apply Rmult_lt_0_compat; assumption).
  assert (Hq : (0 <= width * (sigma * rate))%R) by (apply Rmult_le_pos; lra).
  assert (Ok : exists out, smooth_coa sigma width rate data = Ret out).
  { unfold smooth_coa. destruct (filter_ok (map r_coa data) _ _ Hp Hq) as [a ->]. destruct (filter_ok (map r_coa_n data) _ _ Hp Hq) as [b ->]. eexists. reflexivity. }
  destruct Ok as [out E]. destruct (smooth_columns _ _ _ _ _ E) as (L & O & C). set (r := Int_part (width * (sigma * rate) + 1 / 2)).
  destruct (filter_value _ _ _ r _ eq_refl (C r_coa col_coa)) as (_ & Hr & _). exists out, r, (weight (sigma * rate) r).
  split; [exact E|]. split; [apply radius_spec; [reflexivity|exact Hr]|]. split; [apply weight_gaussian; assumption|]. split; [exact L|]. split; [exact O|].
  intros col i o e Hc Ho M. destruct (filter_value _ _ _ r _ eq_refl (C col Hc)) as (_ & _ & _ & V).
  pose proof (rd_bounds _ _ _ _ Ho) as B. rewrite map_length in V. specialize (V i ltac:(lia)). rewrite rd_map, Ho in V. cbn [option_map] in V. injection V as ->.
  apply sum_ext. intros d _. f_equal. symmetry. apply mirrored_unique; [|exact M]. destruct data; [cbn in *; lia|discriminate].
Qed.
Print Assumptions C92_gaussian_mean.
(** The mirror image in that statement exists for every trace. *)
Example C92_mirror_ex : forall x, exists e, mirrored x e.
Proof. intros x. exists (extend x). apply extend_mirrored. Qed.

(** A smoothed value lies between two values of the trace at most [r] samples away: what reaches
    the threshold after smoothing has a sample that reached it before. *)
Theorem C92_bounds : forall sigma width rate data out, smooth_coa sigma width rate data = Ret out ->
  exists r, radius_ok sigma rate width r
  /\ forall col i o, column col -> rd out i = Some o ->
     (exists j s, rd data j = Some s /\ Z.abs (j - i) <= r /\ (col o <= col s)%R)
     /\ (exists j s, rd data j = Some s /\ Z.abs (j - i) <= r /\ (col s <= col o)%R).
Proof.
  intros sigma width rate data out E. destruct (smooth_columns _ _ _ _ _ E) as (L & O & C). set (r := Int_part (width * (sigma * rate) + 1 / 2)).
  destruct (filter_value _ _ _ r _ eq_refl (C r_coa col_coa)) as (Hp & Hr & _). exists r. split; [apply radius_spec; [reflexivity|exact Hr]|].
  intros col i o Hc Ho. destruct (filter_value _ _ _ r _ eq_refl (C col Hc)) as (_ & _ & _ & V).
  pose proof (rd_bounds _ _ _ _ Ho) as B. rewrite map_length in V. specialize (V i ltac:(lia)). rewrite rd_map, Ho in V. cbn [option_map] in V. injection V as V.
  assert (Near : forall d, In d (around r) -> exists j s, rd data j = Some s /\ Z.abs (j - i) <= r /\ extend (map col data) (i + d) = col s).
  { intros d Hd. apply around_in in Hd; [|exact Hr]. unfold extend. rewrite map_length. set (n := Z.of_nat (length data)).
    pose proof (reflect_range n (i + d) ltac:(lia)) as R. pose proof (reflect_near n i (i + d) ltac:(lia)) as N.
    destruct (rd_in_range _ data _ R) as [s Es]. exists (reflect n (i + d)), s. split; [exact Es|]. split; [lia|]. unfold value. rewrite rd_map, Es. reflexivity. }
  assert (I0 : In 0 (around r)) by (apply around_in; lia).
  destruct (mean_between (weight (sigma * rate) r) (fun d => extend (map col data) (i + d)) (around r)) as [(d & Hd & A) (d' & Hd' & A')].
  - intros N. rewrite N in I0. destruct I0.
  - intros d _. apply weight_pos, Hr.
  - apply weight_sum, Hr.
  - rewrite <- V in A, A'. split.
    + destruct (Near d Hd) as (j & s & Es & D & X). exists j, s. rewrite <- X. repeat split; assumption.
    + destruct (Near d' Hd') as (j & s & Es & D & X). exists j, s. rewrite <- X. repeat split; assumption.
Qed.
Print Assumptions C92_bounds.

(** The smoothed value of a sample is the same in every batch that has the same samples up to [r]
    away. *)
Theorem C92_batches : forall sigma width rate data data' out out',
  smooth_coa sigma width rate data = Ret out -> smooth_coa sigma width rate data' = Ret out' ->
  exists r, radius_ok sigma rate width r
  /\ forall col i i' o o', column col -> rd out i = Some o -> rd out' i' = Some o' ->
     (forall d, Z.abs d <= r -> exists s s', rd data (i + d) = Some s /\ rd data' (i' + d) = Some s' /\ col s = col s') ->
     col o = col o'.
Proof.
  intros sigma width rate data data' out out' E E'. destruct (smooth_columns _ _ _ _ _ E) as (L & O & C). destruct (smooth_columns _ _ _ _ _ E') as (L' & O' & C').
  set (r := Int_part (width * (sigma * rate) + 1 / 2)).
  destruct (filter_value _ _ _ r _ eq_refl (C r_coa col_coa)) as (Hp & Hr & _). exists r. split; [apply radius_spec; [reflexivity|exact Hr]|].
  intros col i i' o o' Hc Ho Ho' H. destruct (filter_value _ _ _ r _ eq_refl (C col Hc)) as (_ & _ & _ & V). destruct (filter_value _ _ _ r _ eq_refl (C' col Hc)) as (_ & _ & _ & V').
  pose proof (rd_bounds _ _ _ _ Ho) as B. pose proof (rd_bounds _ _ _ _ Ho') as B'. rewrite map_length in V, V'. specialize (V i ltac:(lia)). specialize (V' i' ltac:(lia)).
  rewrite rd_map, Ho in V. rewrite rd_map, Ho' in V'. cbn [option_map] in V, V'. injection V as ->. injection V' as ->.
  apply sum_ext. intros d Hd. apply around_in in Hd; [|exact Hr]. destruct (H d ltac:(lia)) as (s & s' & Es & Es' & X). f_equal.
  destruct (extend_mirrored (map col data)) as [M _]. destruct (extend_mirrored (map col data')) as [M' _].
  rewrite (M _ (col s)) by (rewrite rd_map, Es; reflexivity). rewrite (M' _ (col s')) by (rewrite rd_map, Es'; reflexivity). exact X.
Qed.
Print Assumptions C92_batches.

(** A peak stays where it is: if the values around sample [p] are symmetric and fall off to both
    sides, the largest smoothed value is at [p]. *)
Theorem C92_peak_stays : forall sigma width rate data out, smooth_coa sigma width rate data = Ret out ->
  exists r, radius_ok sigma rate width r
  /\ forall col p D, column col -> 0 <= D ->
     (forall k, 0 <= k <= r + D -> exists s s', rd data (p - k) = Some s /\ rd data (p + k) = Some s' /\ col s = col s') ->
     (forall k s s', 0 <= k < r + D -> rd data (p + k) = Some s -> rd data (p + k + 1) = Some s' -> (col s' <= col s)%R /\ (k = 0 -> (col s' < col s)%R)) ->
     forall i o op, rd out i = Some o -> rd out p = Some op -> i <> p -> Z.abs (i - p) <= D -> (col o < col op)%R.
Proof.
  intros sigma width rate data out E. destruct (smooth_columns _ _ _ _ _ E) as (L & O & C). set (r := Int_part (width * (sigma * rate) + 1 / 2)).
  destruct (filter_value _ _ _ r _ eq_refl (C r_coa col_coa)) as (Hp & Hr & _). exists r. split; [apply radius_spec; [reflexivity|exact Hr]|].
  intros col p D Hc HD Sy De i o op Ho Hop Hi Hd. destruct (filter_value _ _ _ r _ eq_refl (C col Hc)) as (_ & _ & _ & V). rewrite map_length in V.
  pose proof (rd_bounds _ _ _ _ Ho) as B. pose proof (rd_bounds _ _ _ _ Hop) as Bp.
  pose proof (V i ltac:(lia)) as Vi. pose proof (V p ltac:(lia)) as Vp. rewrite rd_map, Ho in Vi. rewrite rd_map, Hop in Vp. cbn [option_map] in Vi, Vp. injection Vi as ->. injection Vp as ->.
  destruct (extend_mirrored (map col data)) as [M _]. set (ex := extend (map col data)) in *. clearbody ex.
  set (f := fun k => ex (p + Z.min (Z.abs k) (r + D))).
  assert (X : forall k s, rd data k = Some s -> ex k = col s) by (intros k s H; apply M; rewrite rd_map, H; reflexivity).
  assert (F : forall k, Z.abs k <= r + D -> ex (p + k) = f k).
  { intros k Hk. unfold f. rewrite Z.min_l by lia. destruct (Sy (Z.abs k) ltac:(lia)) as (s & s' & Es & Es' & Q).
    destruct (Z_le_dec 0 k); [do 2 f_equal; lia|]. replace (p + k) with (p - Z.abs k) by lia. rewrite (X _ _ Es), (X _ _ Es'). exact Q. }
  assert (Fs : forall k, f (- k) = f k) by (intros k; unfold f; rewrite Z.abs_opp; reflexivity).
  assert (Fd : forall k, 0 <= k -> (f (k + 1)%Z <= f k)%R).
  { intros k Hk. unfold f. destruct (Z_lt_dec k (r + D)); [|rewrite !Z.min_r by lia; lra]. rewrite !Z.min_l by lia. rewrite !Z.abs_eq by lia.
    destruct (Sy k ltac:(lia)) as (_ & s & _ & Es & _). destruct (Sy (k + 1) ltac:(lia)) as (_ & s' & _ & Es' & _).
    rewrite (X _ _ Es), (X _ _ Es'). replace (p + (k + 1)) with (p + k + 1) in Es' by lia. apply (De k s s'); [lia|exact Es|exact Es']. }
  assert (F1 : (f 1%Z < f 0%Z)%R).
  { unfold f. rewrite !Z.min_l by (cbn; lia). cbn [Z.abs]. destruct (Sy 0 ltac:(lia)) as (_ & s & _ & Es & _). destruct (Sy 1 ltac:(lia)) as (_ & s' & _ & Es' & _).
    rewrite (X _ _ Es), (X _ _ Es'). replace (p + 1) with (p + 0 + 1) in Es' by lia. apply (De 0 s s'); [lia|exact Es|exact Es'|reflexivity]. }
  pose proof (g_peak (sigma * rate) r Hp Hr f Fs Fd (i - p) ltac:(lia) F1) as G. unfold g in G.
  rewrite (sum_ext _ (fun d => weight (sigma * rate) r d * f (i - p + d)%Z)%R).
  2:{ intros d Hdd. apply around_in in Hdd; [|exact Hr]. f_equal. rewrite <- F by lia. f_equal. lia. }
  rewrite (sum_ext (fun d => weight (sigma * rate) r d * ex (p + d)%Z)%R (fun d => weight (sigma * rate) r d * f (0 + d)%Z)%R).
  2:{ intros d Hdd. apply around_in in Hdd; [|exact Hr]. f_equal. rewrite <- F by lia. reflexivity. }
  exact G.
Qed.
Print Assumptions C92_peak_stays.

(** At 2 samples per second a kernel of half a second, cut at one standard deviation, reaches one
    sample; the trace has its peak at sample 2. *)
Example C92_ex : let row t v := mk_rrow t v v 0 0 0 in let data := [row 0%Z 1; row 1%Z 2; row 2%Z 4; row 3%Z 2; row 4%Z 1]%R in
  (exists out, smooth_coa (1 / 2) 1 2 data = Ret out) /\ (forall r, radius_ok (1 / 2) 2 1 r -> r = 1)
  /\ (forall k, 0 <= k <= 1 + 1 -> exists s s', rd data (2 - k) = Some s /\ rd data (2 + k) = Some s' /\ r_coa s = r_coa s')
  /\ (forall k s s', 0 <= k < 1 + 1 -> rd data (2 + k) = Some s -> rd data (2 + k + 1) = Some s' -> (r_coa s' <= r_coa s)%R /\ (k = 0 -> (r_coa s' < r_coa s)%R)).
Proof.
  intros row data. split; [|split; [|split]].
  - destruct (C92_gaussian_mean (1 / 2) 1 2 data ltac:(lra) ltac:(lra) ltac:(lra)) as (out & _ & _ & E & _). exists out. exact E.
  - intros r (A & B & D). assert (IZR r < 2)%R by lra. assert (0 < IZR r)%R by lra. apply lt_IZR in H, H0. lia.
  - intros k Hk. assert (k = 0 \/ k = 1 \/ k = 2) as [->|[->| ->]] by lia; do 2 eexists; repeat split; reflexivity.
  - intros k s s' Hk. assert (k = 0 \/ k = 1) as [->| ->] by lia; cbn; intros A B; injection A as <-; injection B as <-; cbn; split; intros; lra || lia.
Qed.

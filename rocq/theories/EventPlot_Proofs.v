(** Lemmas about the event summary. *)
From Coq Require Import String Ascii.
From Coq Require Import List ZArith QArith Qminmax Qabs Reals Bool Permutation Lia Lqa.
From Verif Require Import Lib LibFacts PySlice PySliceFacts Timeline_Model Lut_Model Lut_Proofs Comps_Model Catalogue_Model PickPlot_Model PickPlot_Proofs Picker_Model EventPlot_Model EventPlot_Spec.
From Verif Require Lut_Spec Lut_Proofs Locate_Spec Locate_Proofs.
Import ListNotations.
Open Scope Z_scope.

(** ** Ranks *)

Lemma nodup_rd A (l : list A) i j x : NoDup l -> rd l i = Some x -> rd l j = Some x -> i = j.
Proof.
  intros N. revert i j. induction N as [|y r H _ IH]; intros i j Ri Rj; [rewrite rd_nil in Ri; discriminate|].
  rewrite rd_cons in Ri, Rj. destruct (Z.eqb_spec i 0) as [->|Ni], (Z.eqb_spec j 0) as [->|Nj]; [reflexivity| | |].
  - injection Ri as <-. elim H. exact (rd_in _ _ _ _ Rj).
  - injection Rj as <-. elim H. exact (rd_in _ _ _ _ Ri).
  - specialize (IH _ _ Ri Rj). lia.
Qed.
Lemma perm_range (p : list Z) n : 0 <= n -> Permutation p (zrange n) ->
  Z.of_nat (length p) = n /\ NoDup p /\ (forall i a, rd p i = Some a -> 0 <= a < n) /\ (forall a, 0 <= a < n -> exists i, rd p i = Some a).
Proof.
  intros Hn P. split; [rewrite (Permutation_length P), zrange_length; lia|].
  split; [eapply Permutation_NoDup; [symmetry; exact P|apply zrange_nodup]|]. split.
  - intros i a R. apply in_zrange. eapply Permutation_in; [exact P|exact (rd_in _ _ _ _ R)].
  - intros a A. apply in_rd. eapply Permutation_in; [symmetry; exact P|apply in_zrange; exact A].
Qed.
Lemma increasing_id (s : Z -> Z) n : (forall k, 0 <= k < n -> 0 <= s k < n) -> (forall k, 0 <= k -> k + 1 < n -> s k < s (k + 1)) -> forall k, 0 <= k < n -> s k = k.
Proof.
  intros B I. assert (Lo : forall k, 0 <= k -> k < n -> k <= s k).
  { apply (natlike_ind (fun k => k < n -> k <= s k)); [intros H; apply B; lia|]. intros k Hk IH H. unfold Z.succ in *. specialize (IH ltac:(lia)). specialize (I k Hk ltac:(lia)). lia. }
  assert (Hi : forall d, 0 <= d -> forall k, 0 <= k -> k + d = n - 1 -> s k <= k).
  { apply (natlike_ind (fun d => forall k, 0 <= k -> k + d = n - 1 -> s k <= k)).
    - intros k Hk E. specialize (B k ltac:(lia)). lia.
    - intros d Hd IH k Hk E. unfold Z.succ in *. specialize (IH (k + 1) ltac:(lia) ltac:(lia)). specialize (I k Hk ltac:(lia)). lia. }
  intros k K. specialize (Lo k ltac:(lia) ltac:(lia)). specialize (Hi (n - 1 - k) ltac:(lia) k ltac:(lia) ltac:(lia)). lia.
Qed.
(** [argsort] twice: the ranks. *)
Lemma ranks argsort l : is_argsort argsort -> let q := argsort (argsort l) in
  length q = length l
  /\ (forall i r, rd q i = Some r -> 0 <= r < Z.of_nat (length l))
  /\ (forall i j r, rd q i = Some r -> rd q j = Some r -> i = j)
  /\ (forall i j r s x y, rd q i = Some r -> rd q j = Some s -> rd l i = Some x -> rd l j = Some y -> x < y -> r < s).
Proof.
  intros A q. set (n := Z.of_nat (length l)). destruct (A l) as [P1 S1]. destruct (A (argsort l)) as [P2 S2]. fold q in P2, S2. fold n in P1.
  destruct (perm_range _ n ltac:(lia) P1) as (L1 & N1 & B1 & C1). rewrite L1 in P2.
  destruct (perm_range _ n ltac:(lia) P2) as (L2 & N2 & B2 & C2).
  assert (Inv : forall k a, rd q k = Some a -> rd (argsort l) a = Some k).
  { set (s := fun k => match rd q k with Some a => match rd (argsort l) a with Some b => b | None => 0 end | None => 0 end).
    assert (Sk : forall k, 0 <= k < n -> exists a, rd q k = Some a /\ rd (argsort l) a = Some (s k)).
    { intros k K. destruct (rd_in_range _ q k ltac:(lia)) as (a & Ra). exists a. split; [exact Ra|]. unfold s. rewrite Ra.
      destruct (rd_in_range _ (argsort l) a ltac:(specialize (B2 _ _ Ra); lia)) as (b & Rb). rewrite Rb. reflexivity. }
    assert (Id : forall k, 0 <= k < n -> s k = k).
    { apply increasing_id.
      - intros k K. destruct (Sk k K) as (a & _ & Rb). exact (B1 _ _ Rb).
      - intros k K0 K1. destruct (Sk k ltac:(lia)) as (a & Ra & Rb). destruct (Sk (k + 1) ltac:(lia)) as (a' & Ra' & Rb').
        pose proof (S2 k (k + 1) a a' _ _ ltac:(lia) Ra Ra' Rb Rb') as Le.
        assert (Ne : s k <> s (k + 1)); [|lia]. intros E. rewrite <- E in Rb'. pose proof (nodup_rd _ _ _ _ _ N1 Rb Rb') as Ea. subst a'.
        pose proof (nodup_rd _ _ _ _ _ N2 Ra Ra'). lia. }
    intros k a Ra. pose proof (rd_bounds _ _ _ _ Ra) as K. destruct (Sk k ltac:(lia)) as (a' & Ra' & Rb). rewrite Ra in Ra'. injection Ra' as <-. rewrite Id in Rb by lia. exact Rb. }
  split; [lia|]. split; [exact B2|]. split; [intros i j r; exact (nodup_rd _ q i j r N2)|].
  intros i j r t x y Ri Rj Xi Xj Lt. destruct (Z.lt_trichotomy r t) as [H|[H|H]]; [exact H| |].
  - subst t. pose proof (nodup_rd _ _ _ _ _ N2 Ri Rj). subst j. rewrite Xi in Xj. injection Xj as <-. lia.
  - pose proof (S1 t r j i y x H (Inv _ _ Rj) (Inv _ _ Ri) Xj Xi). lia.
Qed.
Lemma rows_facts argsort l : is_argsort argsort -> let q := rows argsort l in let n := Z.of_nat (length l) in
  length q = length l
  /\ (forall i r, rd q i = Some r -> 2 <= r <= 2 * n /\ r mod 2 = 0)
  /\ (forall i j r, rd q i = Some r -> rd q j = Some r -> i = j)
  /\ (forall i j r s x y, rd q i = Some r -> rd q j = Some s -> rd l i = Some x -> rd l j = Some y -> x < y -> s < r).
Proof.
  intros A. destruct (ranks argsort l A) as (L & B & D & O). cbv zeta. unfold rows.
  assert (G : forall i r, rd (map (fun r => Z.abs (r - Z.of_nat (length l)) * 2) (argsort (argsort l))) i = Some r -> exists r0, rd (argsort (argsort l)) i = Some r0 /\ r = 2 * (Z.of_nat (length l) - r0) /\ 0 <= r0 < Z.of_nat (length l)).
  { intros i r R. rewrite rd_map in R. destruct (rd (argsort (argsort l)) i) as [r0|] eqn:E; [|discriminate]. cbn in R. exists r0. split; [reflexivity|]. specialize (B _ _ E). split; [|exact B]. injection R as <-. lia. }
  split; [rewrite map_length; exact L|]. split; [|split].
  - intros i r R. destruct (G i r R) as (r0 & _ & -> & H). split; [lia|]. rewrite Z.mul_comm, Z.mod_mul; lia.
  - intros i j r Ri Rj. destruct (G i r Ri) as (r0 & E0 & H0 & _). destruct (G j r Rj) as (r1 & E1 & H1 & _). assert (r0 = r1) by lia. subst r1. exact (D _ _ _ E0 E1).
  - intros i j r s x y Ri Rj Xi Xj Lt. destruct (G i r Ri) as (r0 & E0 & H0 & _). destruct (G j s Rj) as (r1 & E1 & H1 & _). pose proof (O _ _ _ _ _ _ E0 E1 Xi Xj Lt). lia.
Qed.

(** ** Closest samples *)

Lemma argmin_zseq f k : forall s b, 0 <= b < s -> (forall i, 0 <= i < s -> f b <= f i /\ (i < b -> f b < f i)) ->
  let m := argmin_from f b (zseq s k) in 0 <= m < s + Z.of_nat k /\ forall i, 0 <= i < s + Z.of_nat k -> f m <= f i /\ (i < m -> f m < f i).
Proof.
  induction k as [|k IH]; intros s b B H; cbv zeta; cbn [zseq argmin_from].
  - rewrite Z.add_0_r. split; assumption.
  - replace (s + Z.of_nat (S k)) with (s + 1 + Z.of_nat k) by lia. apply IH.
    + destruct (f s <? f b); lia.
    + intros i I. destruct (Z.ltb_spec (f s) (f b)) as [L|L].
      * destruct (Z.eq_dec i s) as [->|N]; [lia|]. destruct (H i ltac:(lia)). lia.
      * destruct (Z.eq_dec i s) as [->|N]; [lia|]. apply H. lia.
Qed.
Lemma closest_some c start n t2 : 0 < n -> exists k, closest c start n t2 = Ret k /\ is_closest c start n t2 k.
Proof.
  intros N. unfold closest, argmin, zrange. destruct (Z.to_nat n) as [|k] eqn:Ek; [lia|]. cbn [zseq]. eexists. split; [reflexivity|].
  set (f := fun i => Z.abs (2 * (start + i * delta c) - t2)).
  pose proof (argmin_zseq f k 1 0 ltac:(lia)) as H. cbv zeta in H. unfold is_closest. replace n with (1 + Z.of_nat k) by lia. apply H.
  intros i I. assert (i = 0) by lia. subst i. lia.
Qed.
(** Times at least one sample apart, the earlier one inside the data, have different closest samples. *)
Lemma closest_apart c start n t t' k k' : 0 < delta c -> 2 * start <= t -> t + 2 * delta c <= 2 * (start + (n - 1) * delta c) -> t + 2 * delta c <= t' ->
  is_closest c start n t k -> is_closest c start n t' k' -> k < k'.
Proof.
  intros D H1 H2 H3 (K & Kc) (K' & Kc'). destruct (Z.lt_ge_cases k k') as [L|L]; [exact L|exfalso].
  assert (A : 2 * (start + k * delta c) < t + delta c).
  { destruct (Z.eq_dec k 0) as [->|N0]; [lia|]. destruct (Kc (k - 1) ltac:(lia)) as [_ Q0]. specialize (Q0 ltac:(lia)).
    replace (2 * (start + (k - 1) * delta c)) with (2 * (start + k * delta c) - 2 * delta c) in Q0 by ring. lia. }
  assert (A' : 2 * (start + k' * delta c) <= 2 * (start + k * delta c)) by (pose proof (Z.mul_le_mono_nonneg_r k' k (delta c)); lia).
  assert (K1 : k' + 1 < n). { assert (k' * delta c < (n - 1) * delta c) by lia. assert (k' < n - 1) by (apply (Z.mul_lt_mono_pos_r (delta c)); lia). lia. }
  destruct (Kc' (k' + 1) ltac:(lia)) as [Q1 _]. replace (2 * (start + (k' + 1) * delta c)) with (2 * (start + k' * delta c) + 2 * delta c) in Q1 by ring. lia.
Qed.

(** ** Largest values *)

Lemma max_of_some l : l <> [] -> exists m, max_of l = Ret m /\ is_max l m.
Proof.
  destruct l as [|x r]; [congruence|]. intros _. cbn [max_of]. eexists. split; [reflexivity|].
  assert (G : forall r x, In (fold_left Z.max r x) (x :: r) /\ Forall (fun y => y <= fold_left Z.max r x) (x :: r)).
  { clear. induction r as [|y r IH]; intros x; cbn [fold_left]; [split; [left; reflexivity|constructor; [lia|constructor]]|].
    destruct (IH (Z.max x y)) as [A B]. inversion B as [|? ? B1 B2]; subst. split.
    - destruct A as [A|A]; [|right; right; exact A]. rewrite <- A. destruct (Z.max_spec x y) as [[_ ->]|[_ ->]]; [right; left|left]; reflexivity.
    - constructor; [lia|]. constructor; [lia|exact B2]. }
  apply G.
Qed.
Lemma qmax_attained l m : qmax_list l = Ret m -> In m l.
Proof.
  destruct l as [|x r]; [discriminate|]. cbn [qmax_list]. intros [= <-].
  assert (G : forall r x, In (fold_left Qmax r x) (x :: r)).
  { clear. induction r as [|y r IH]; intros x; cbn [fold_left]; [left; reflexivity|]. destruct (IH (Qmax x y)) as [A|A]; [|right; right; exact A].
    rewrite <- A. unfold Qmax, GenericMinMax.gmax. destruct (x ?= y)%Q; [left|right; left|left]; reflexivity. }
  apply G.
Qed.
Lemma slice_in (y : list Q) a b v : 0 <= a -> 0 <= b -> In v (pyslice y (Some a) (Some b)) -> exists k, a <= k < b /\ rd y k = Some v.
Proof.
  intros A B I. destruct (in_rd _ _ _ I) as (i & R). pose proof (rd_bounds _ _ _ _ R) as Bi. rewrite pyslice_length in Bi.
  rewrite rd_pyslice in R by lia.
  assert (E1 : pylo (Z.of_nat (length y)) (Some a) = Z.min a (Z.of_nat (length y))) by (cbn; unfold pynorm; destruct (Z.ltb_spec a 0); lia).
  assert (E2 : pyhi (Z.of_nat (length y)) (Some b) = Z.min b (Z.of_nat (length y))) by (cbn; unfold pynorm; destruct (Z.ltb_spec b 0); lia).
  rewrite E1, E2 in Bi. rewrite E1 in R. exists (Z.min a (Z.of_nat (length y)) + i). split; [lia|exact R].
Qed.
Lemma norm_some data a b : 0 <= a < b -> a < Z.of_nat (length data) -> exists m, qmax_list (map Qabs (pyslice data (Some a) (Some b))) = Ret m.
Proof.
  intros A L. destruct (rd_in_range _ data a ltac:(lia)) as (v & R). pose proof (slice_member data a b a v ltac:(lia) ltac:(lia) R) as I.
  destruct (qmax_some (map Qabs (pyslice data (Some a) (Some b)))) as (m & E & _); [|exists m; exact E]. intros Z0. apply (in_map Qabs) in I. rewrite Z0 in I. contradiction.
Qed.
Lemma norm_largest data a b m : 0 <= a -> 0 <= b -> qmax_list (map Qabs (pyslice data (Some a) (Some b))) = Ret m -> largest data a b m.
Proof.
  intros A B E. split.
  - intros k v K R. destruct (qmax_some (map Qabs (pyslice data (Some a) (Some b)))) as (m' & E' & H).
    { pose proof (qmax_attained _ _ E) as I. destruct (map Qabs _); [contradiction|discriminate]. }
    assert (m' = m) by congruence. subst m'. apply H. apply in_map. eapply slice_member; [| |exact R]; lia.
  - pose proof (qmax_attained _ _ E) as I. apply in_map_iff in I. destruct I as (v & Ev & I). destruct (slice_in _ _ _ _ A B I) as (k & K & R).
    exists k, v. split; [exact K|]. split; [exact R|]. rewrite Ev. reflexivity.
Qed.
Lemma slice_scaled data a b m row : 0 <= a -> 0 <= b ->
  scaled data a b m row (map (fun v => if Qeq_bool m 0 then None else Some (v / m + inject_Z row)%Q) (pyslice data (Some a) (Some b))).
Proof.
  intros A B.
  assert (E1 : pylo (Z.of_nat (length data)) (Some a) = Z.min a (Z.of_nat (length data))) by (cbn; unfold pynorm; destruct (Z.ltb_spec a 0); lia).
  assert (E2 : pyhi (Z.of_nat (length data)) (Some b) = Z.min b (Z.of_nat (length data))) by (cbn; unfold pynorm; destruct (Z.ltb_spec b 0); lia).
  split.
  - intros j J L. rewrite rd_map. rewrite rd_pyslice by lia. rewrite E1. replace (Z.min a (Z.of_nat (length data))) with a by lia. reflexivity.
  - rewrite map_length, pyslice_length, E1, E2. lia.
Qed.
Lemma scaled_within data a b e m row values j v y : largest data a e m -> scaled data a b m row values -> 0 <= j < b - a -> a + j < e -> rd data (a + j) = Some v -> rd values j = Some (Some y) ->
  (inject_Z row - 1 <= y <= inject_Z row + 1)%Q.
Proof.
  intros (H & _) (S & _) J Je R Y. pose proof (rd_bounds _ _ _ _ R) as Rb. rewrite (S j J ltac:(lia)), R in Y. cbn in Y. destruct (Qeq_bool m 0) eqn:E0; [discriminate|]. injection Y as <-.
  specialize (H (a + j) v ltac:(lia) R). pose proof (Qabs_nonneg v) as P. apply Qeq_bool_neq in E0.
  assert (M : (0 < m)%Q) by (destruct (Qlt_le_dec 0 m) as [L|L]; [exact L|elim E0; lra]).
  apply Qabs_Qle_condition in H. destruct H as [H1 H2].
  assert (V1 : (v / m <= 1)%Q) by (apply Qle_shift_div_r; [exact M|lra]). assert (V2 : (-1 <= v / m)%Q) by (apply Qle_shift_div_l; [exact M|lra]). split; lra.
Qed.

(** ** The gather *)

Lemma om_inv A B (f : A -> outcome B) l ys : outcome_map f l = Ret ys -> Forall2 (fun x y => f x = Ret y) l ys.
Proof.
  revert ys. induction l as [|x r IH]; intros ys E; cbn [outcome_map] in E; [injection E as <-; constructor|].
  apply bind_ret in E. destruct E as (y & Ey & E). apply bind_ret in E. destruct E as (r' & Er & E). injection E as <-. constructor; [exact Ey|apply IH; exact Er].
Qed.
Lemma om_some A B (f : A -> outcome B) l : Forall (fun x => exists y, f x = Ret y) l -> exists ys, outcome_map f l = Ret ys.
Proof.
  induction 1 as [|x r (y & Ey) _ (ys & IH)]; [exists []; reflexivity|]. exists (y :: ys). cbn [outcome_map]. rewrite Ey, IH. reflexivity.
Qed.
Lemma f2_in_r A B (P : A -> B -> Prop) l ys y : Forall2 P l ys -> In y ys -> exists x, In x l /\ P x y.
Proof. induction 1 as [|a b l r H _ IH]; intros I; [contradiction|]. destruct I as [<-|I]; [exists a; split; [left; reflexivity|exact H]|]. destruct (IH I) as (x & Ix & Px). exists x. split; [right|]; assumption. Qed.
Lemma f2_in_l A B (P : A -> B -> Prop) l ys x : Forall2 P l ys -> In x l -> exists y, In y ys /\ P x y.
Proof. induction 1 as [|a b l r H _ IH]; intros I; [contradiction|]. destruct I as [<-|I]; [exists b; split; [left; reflexivity|exact H]|]. destruct (IH I) as (y & Iy & Py). exists y. split; [right|]; assumption. Qed.

Lemma wave_of_shows c start n otime a b tts i row colour phase t w : 0 < n -> 0 <= a -> 0 <= b ->
  wave_of c start n otime a b (column tts i) colour row phase t = Ret w -> shows_trace c start n otime a b tts i row colour phase t w.
Proof.
  intros N A B E. unfold wave_of in E. apply bind_ret in E. destruct E as (tt & Et & E). apply bind_ret in E. destruct E as (e & Ee & E). apply bind_ret in E. destruct E as (m & Em & E).
  injection E as <-. unfold shows_trace. cbn [v_station v_comp v_phase v_colour v_row v_from v_values]. repeat (split; [reflexivity|]).
  destruct (closest_some c start n (2 * otime + 3 * tt) N) as (e' & Ee' & C). assert (e' = e) by congruence. subst e'. exists tt, e, m.
  destruct (column tts i) as [|x r] eqn:Ec; [discriminate|]. destruct (max_of_some (x :: r) ltac:(discriminate)) as (tt' & Et' & M). assert (tt' = tt) by congruence. subst tt'.
  split; [exact M|]. split; [exact C|]. split; [apply norm_largest; [exact A|apply C|exact Em]|]. apply slice_scaled; assumption.
Qed.
Lemma column_in_range tts i m k : table m k tts -> (0 < m)%nat -> 0 <= i < Z.of_nat k -> column tts i <> [].
Proof.
  intros (L & F) M I E. destruct tts as [|r tts]; [cbn in L; lia|]. unfold column in E. cbn [flat_map] in E. inversion F as [|? ? Lr _]; subst.
  destruct (rd_in_range _ r i I) as (x & Rx). rewrite Rx in E. discriminate.
Qed.
Lemma column_in tts i x : In x (column tts i) <-> exists r, In r tts /\ rd r i = Some x.
Proof.
  unfold column. rewrite in_flat_map. split; intros (r & I & H); exists r; (split; [exact I|]).
  - destruct (rd r i) as [y|]; [|contradiction]. destruct H as [->|[]]. reflexivity.
  - rewrite H. left. reflexivity.
Qed.

(** The list the gather goes through. *)
Definition station_list (stations : list string) (tts : list (list Z)) (rws : list Z) : list (string * list Z * Z) :=
  combine (combine stations (map (column tts) (zrange (Z.of_nat (length stations))))) rws.
Lemma rd_combine A B (l : list A) (r : list B) i x y : rd l i = Some x -> rd r i = Some y -> rd (combine l r) i = Some (x, y).
Proof.
  revert r i. induction l as [|a l IH]; intros r i R1 R2; [rewrite rd_nil in R1; discriminate|]. destruct r as [|b r]; [rewrite rd_nil in R2; discriminate|].
  cbn [combine]. rewrite rd_cons in *. destruct (i =? 0); [congruence|]. apply IH; assumption.
Qed.
Lemma rd_combine_inv A B (l : list A) (r : list B) i x y : rd (combine l r) i = Some (x, y) -> rd l i = Some x /\ rd r i = Some y.
Proof.
  revert r i. induction l as [|a l IH]; intros r i R; [cbn in R; rewrite rd_nil in R; discriminate|]. destruct r as [|b r]; [cbn in R; rewrite rd_nil in R; discriminate|].
  cbn [combine] in R. rewrite rd_cons in *. rewrite (rd_cons _ b r). destruct (i =? 0); [split; congruence|]. apply IH; assumption.
Qed.
Lemma station_list_rd stations tts rws i s row : rd stations i = Some s -> rd rws i = Some row -> rd (station_list stations tts rws) i = Some (s, column tts i, row).
Proof.
  intros R1 R2. pose proof (rd_bounds _ _ _ _ R1) as B. unfold station_list. apply rd_combine; [|exact R2]. apply rd_combine; [exact R1|].
  rewrite rd_map, rd_zrange by lia. reflexivity.
Qed.
Lemma station_list_inv stations tts rws i s col row : rd (station_list stations tts rws) i = Some (s, col, row) -> rd stations i = Some s /\ rd rws i = Some row /\ col = column tts i.
Proof.
  intros R. unfold station_list in R. apply rd_combine_inv in R. destruct R as (R & R3). apply rd_combine_inv in R. destruct R as (R1 & R2).
  pose proof (rd_bounds _ _ _ _ R1) as B. rewrite rd_map, rd_zrange in R2 by lia. cbn in R2. split; [exact R1|]. split; [exact R3|congruence].
Qed.

Lemma station_waves_inv c start n otime a b s0 s1 s2 waveforms s col row ws : station_waves c start n otime a b [s0; s1; s2] waveforms (s, col, row) = Ret ws ->
  (forall w, In w ws -> exists colour sel phase t, In (colour, sel, phase) (panels s0 s1 s2) /\ In t waveforms /\ t_station t = s /\ sel (t_comp t) = true /\ wave_of c start n otime a b col colour row phase t = Ret w)
  /\ (forall colour sel phase t, In (colour, sel, phase) (panels s0 s1 s2) -> In t waveforms -> t_station t = s -> sel (t_comp t) = true -> exists w, In w ws /\ wave_of c start n otime a b col colour row phase t = Ret w).
Proof.
  intros E. unfold station_waves in E. apply bind_ret in E. destruct E as (l & E & E2). injection E2 as <-. change (combine (combine [0; 1; 2] [s0; s1; s2]) ["P"; "S"; "S"]%string) with (panels s0 s1 s2) in E.
  apply om_inv in E. split.
  - intros w I. apply in_concat in I. destruct I as (ws & Iw & I). destruct (f2_in_r _ _ _ _ _ _ E Iw) as (((colour & sel) & phase) & Ip & Ew). apply om_inv in Ew.
    destruct (f2_in_r _ _ _ _ _ _ Ew I) as (t & It & Et). apply filter_In in It. destruct It as (It & Sel). apply filter_In in It. destruct It as (It & St). apply String.eqb_eq in St.
    exists colour, sel, phase, t. auto.
  - intros colour sel phase t Ip It St Sel. destruct (f2_in_l _ _ _ _ _ _ E Ip) as (ws & Iw & Ew). cbv beta iota in Ew. apply om_inv in Ew.
    assert (If : In t (filter (fun t => sel (t_comp t)) (filter (fun t => String.eqb (t_station t) s) waveforms))).
    { apply filter_In. split; [|exact Sel]. apply filter_In. split; [exact It|]. apply String.eqb_eq. exact St. }
    destruct (f2_in_l _ _ _ _ _ _ Ew If) as (w & I & Et). exists w. split; [|exact Et]. apply in_concat. exists ws. auto.
Qed.
Lemma station_waves_some c start n otime a b s0 s1 s2 waveforms s col row : (forall colour phase t, In t waveforms -> exists w, wave_of c start n otime a b col colour row phase t = Ret w) ->
  exists ws, station_waves c start n otime a b [s0; s1; s2] waveforms (s, col, row) = Ret ws.
Proof.
  intros H. unfold station_waves. set (ps := combine _ _). destruct (om_some _ _ (fun p : Z * (ascii -> bool) * string => let '(colour, s3, phase) := p in
     outcome_map (wave_of c start n otime a b col colour row phase) (filter (fun t => s3 (t_comp t)) (filter (fun t => String.eqb (t_station t) s) waveforms))) ps) as (l & El).
  - apply Forall_forall. intros ((colour & sel) & phase) _. apply om_some. apply Forall_forall. intros t It. apply filter_In in It. destruct It as (It & _). apply filter_In in It. apply H. apply It.
  - rewrite El. eexists. reflexivity.
Qed.

Lemma gather_inv argsort c start n otime endtime phases tts stations sel waveforms g : 0 < n ->
  plot_gather argsort c start n otime endtime phases tts stations sel waveforms = Ret g ->
  exists first r top max_tt a b waves, tts = first :: r /\ is_max (rows argsort (map (fun tt => otime + tt) first)) top /\ is_max (concat tts) max_tt
  /\ let maxt := Z.min (2 * otime + 3 * max_tt) (2 * endtime) in let mint := 2 * otime - 2 * (sec c / 10) in
  is_closest c start n mint a /\ is_closest c start n maxt b
  /\ outcome_map (station_waves c start n otime a b sel waveforms) (station_list stations tts (rows argsort (map (fun tt => otime + tt) first))) = Ret waves
  /\ g = mk_gather (marks otime phases tts (rows argsort (map (fun tt => otime + tt) first))) (concat waves) (mint, maxt) (0, top + 2) (combine (rows argsort (map (fun tt => otime + tt) first)) stations).
Proof.
  intros N E. unfold plot_gather in E. destruct tts as [|first r] eqn:Et; [discriminate|]. rewrite <- Et in *. cbv zeta in E.
  apply bind_ret in E. destruct E as (top & E1 & E). apply bind_ret in E. destruct E as (mx & E2 & E). destruct waveforms as [|w0 ws] eqn:Ew; [discriminate|]. rewrite <- Ew in *.
  apply bind_ret in E. destruct E as (a & E3 & E). apply bind_ret in E. destruct E as (b & E4 & E). apply bind_ret in E. destruct E as (waves & E5 & E).
  exists first, r, top, mx, a, b, waves. split; [exact Et|].
  assert (Mx : forall l m, max_of l = Ret m -> is_max l m). { intros l m H. destruct l as [|x l']; [discriminate|]. destruct (max_of_some (x :: l') ltac:(discriminate)) as (m' & Em & M). congruence. }
  assert (Cl : forall t k, closest c start n t = Ret k -> is_closest c start n t k). { intros t k H. destruct (closest_some c start n t N) as (k' & Ek & C). congruence. }
  split; [apply Mx; exact E1|]. split; [apply Mx; exact E2|]. cbv zeta. split; [apply Cl; exact E3|]. split; [apply Cl; exact E4|]. split; [exact E5|]. congruence.
Qed.

(** ** Slices *)

Lemma in_nodes nx ny nz i j k : In (i, j, k) (nodes (nx, ny, nz)) <-> 0 <= i < nx /\ 0 <= j < ny /\ 0 <= k < nz.
Proof.
  unfold nodes. rewrite in_flat_map. setoid_rewrite in_flat_map. setoid_rewrite in_map_iff. setoid_rewrite in_zrange. split.
  - intros (a & A & b & B & c & E & C). injection E as -> -> ->. auto.
  - intros (A & B & C). exists i. split; [exact A|]. exists j. split; [exact B|]. exists k. auto.
Qed.
Lemma nodes_all n : nodes n = Locate_Spec.all_nodes n.
Proof. destruct n as ((nx, ny), nz). reflexivity. Qed.
(** The position of a node is its place in the flattened map. *)
Lemma nodes_position n q y : rd (nodes n) q = Some y -> Lut_Spec.is_node n y /\ q = Lut_Spec.flat n y.
Proof.
  rewrite nodes_all. intros R. pose proof (proj1 (Locate_Proofs.in_all_nodes n y) (rd_in _ _ _ _ R)) as N. split; [exact N|].
  assert (P : Lut_Proofs.pos3 n). { destruct n as ((nx, ny), nz), y as ((i, j), k). cbn in N |- *. lia. }
  pose proof (rd_bounds _ _ _ _ R) as B. rewrite (Locate_Proofs.all_nodes_length n P) in B.
  destruct (unravel_inv q n) as (p & _ & Np & F); [destruct n as ((nx, ny), nz); exact P|exact B|].
  pose proof (Locate_Proofs.all_nodes_rd n p Np) as R'. rewrite F, R in R'. congruence.
Qed.
(** [best] is the best of the nodes before position [s]. *)
Definition best_before (f : ijk -> option Q) (l : list ijk) (s : Z) (best : option (ijk * Q)) : Prop :=
  match best with
  | None => forall q y, q < s -> rd l q = Some y -> f y = None
  | Some (x, m) => exists p, p < s /\ rd l p = Some x /\ f x = Some m /\ forall q y v, q < s -> rd l q = Some y -> f y = Some v -> (v <= m)%Q /\ (q < p -> (v < m)%Q)
  end.
Lemma best_from_spec f r : forall pre best, best_before f (pre ++ r) (Z.of_nat (length pre)) best -> best_before f (pre ++ r) (Z.of_nat (length (pre ++ r))) (best_from f best r).
Proof.
  induction r as [|x r IH]; intros pre best H; cbn [best_from]; [rewrite app_nil_r in *; exact H|].
  replace (pre ++ x :: r) with ((pre ++ [x]) ++ r) in * by (rewrite <- app_assoc; reflexivity). apply IH.
  assert (Rx : rd ((pre ++ [x]) ++ r) (Z.of_nat (length pre)) = Some x).
  { rewrite <- app_assoc. rewrite rd_app2 by lia. rewrite Z.sub_diag. apply rd_0. }
  assert (L : Z.of_nat (length (pre ++ [x])) = Z.of_nat (length pre) + 1) by (rewrite app_length; cbn; lia). rewrite L.
  set (l := (pre ++ [x]) ++ r) in *. set (s := Z.of_nat (length pre)) in *.
  destruct (f x) as [v|] eqn:Fx; [destruct best as [[y m]|]|].
  - destruct H as (p & P & Rp & Fy & H). destruct (Qle_bool v m) eqn:C.
    + apply Qle_bool_iff in C. exists p. split; [lia|]. split; [exact Rp|]. split; [exact Fy|]. intros q z w Q0 Rq Fz.
      destruct (Z.eq_dec q s) as [->|N]; [rewrite Rx in Rq; injection Rq as <-; rewrite Fx in Fz; injection Fz as <-; split; [exact C|lia]|]. apply (H q z w); [lia|exact Rq|exact Fz].
    + assert (C' : (m < v)%Q). { destruct (Qlt_le_dec m v) as [X|X]; [exact X|]. apply Qle_bool_iff in X. congruence. }
      exists s. split; [lia|]. split; [exact Rx|]. split; [exact Fx|]. intros q z w Q0 Rq Fz.
      destruct (Z.eq_dec q s) as [->|N]; [rewrite Rx in Rq; injection Rq as <-; rewrite Fx in Fz; injection Fz as <-; split; [apply Qle_refl|lia]|].
      destruct (H q z w ltac:(lia) Rq Fz) as [A _]. split; [apply Qlt_le_weak|intros _]; eapply Qle_lt_trans; eassumption.
  - cbn in H. exists s. split; [lia|]. split; [exact Rx|]. split; [exact Fx|]. intros q z w Q0 Rq Fz.
    destruct (Z.eq_dec q s) as [->|N]; [rewrite Rx in Rq; injection Rq as <-; rewrite Fx in Fz; injection Fz as <-; split; [apply Qle_refl|lia]|].
    rewrite (H q z ltac:(lia) Rq) in Fz. discriminate.
  - destruct best as [[y m]|].
    + destruct H as (p & P & Rp & Fy & H). exists p. split; [lia|]. split; [exact Rp|]. split; [exact Fy|]. intros q z w Q0 Rq Fz.
      destruct (Z.eq_dec q s) as [->|N]; [rewrite Rx in Rq; injection Rq as <-; congruence|]. apply (H q z w); [lia|exact Rq|exact Fz].
    + intros q z Q0 Rq. destruct (Z.eq_dec q s) as [->|N]; [rewrite Rx in Rq; injection Rq as <-; exact Fx|]. apply (H q z); [lia|exact Rq].
Qed.

(** ** Legend *)

Lemma label_eqb_eq x y : label_eqb x y = true <-> x = y.
Proof.
  destruct x, y; cbn [label_eqb]; try (split; [discriminate|congruence]).
  - rewrite String.eqb_eq. split; congruence.
  - rewrite andb_true_iff, String.eqb_eq, Ascii.eqb_eq. split; [intros [-> ->]; reflexivity|]. intros E. injection E as -> ->. auto.
  - rewrite !andb_true_iff, String.eqb_eq, !Ascii.eqb_eq. split; [intros [[-> ->] ->]; reflexivity|]. intros E. injection E as -> -> ->. auto.
Qed.
Lemma every_second_two A (l : list A) a b : every_second l = [a; b] -> exists y z, l = a :: y :: b :: z /\ (length z <= 1)%nat.
Proof.
  destruct l as [|x [|y [|x' z]]]; cbn; try discriminate. intros E. exists y, z. destruct z as [|z0 [|z1 z2]]; cbn in E.
  - split; [congruence|cbn; lia].
  - split; [congruence|cbn; lia].
  - exfalso. destruct z2 as [|? [|? ?]]; discriminate.
Qed.
Definition step_pair (ph : string) (text : list ascii) (a b : ascii) : Prop := exists x y z, text = x :: a :: y :: b :: z /\ (length z <= 1)%nat.
Lemma merge_step_map labels ph text : exists f, merge_step labels (ph, text) = map f labels
  /\ forall l, f l = l \/ exists a b, step_pair ph text a b /\ f l = Pair b a ph /\ (l = Single a ph \/ l = Single b ph).
Proof.
  unfold merge_step. destruct (every_second (tl text)) as [|a [|b [|? ?]]] eqn:E; try (exists (fun l => l); split; [symmetry; apply map_id|left; reflexivity]).
  destruct (existsb _ _ && existsb _ _); [|exists (fun l => l); split; [symmetry; apply map_id|left; reflexivity]].
  eexists. split; [reflexivity|]. intros l. cbv beta. destruct (label_eqb l (Single a ph) || label_eqb l (Single b ph)) eqn:D; [right|left; reflexivity].
  exists a, b. split.
  - destruct (every_second_two _ _ _ _ E) as (y & z & Et & L). destruct text as [|x t]; [discriminate|]. cbn in Et. subst t. exists x, y, z. auto.
  - split; [reflexivity|]. apply orb_true_iff in D. destruct D as [D|D]; apply label_eqb_eq in D; auto.
Qed.
Lemma merge_all texts labels : let '(p, s1, s2) := texts in exists g, fold_left merge_step [("P", p); ("S", s1); ("S", s2)]%string labels = map g labels /\ forall l, shortens texts l (g l).
Proof.
  destruct texts as ((p & s1) & s2). cbn [fold_left].
  destruct (merge_step_map labels "P" p) as (f1 & E1 & H1). rewrite E1. destruct (merge_step_map (map f1 labels) "S" s1) as (f2 & E2 & H2). rewrite E2.
  destruct (merge_step_map (map f2 (map f1 labels)) "S" s2) as (f3 & E3 & H3). rewrite E3. exists (fun l => f3 (f2 (f1 l))). split; [rewrite !map_map; reflexivity|].
  intros l. unfold shortens, pair_of.
  assert (S1 : f1 l = l \/ exists a b ph, pair_of (p, s1, s2) ph a b /\ f1 l = Pair b a ph /\ (l = Single a ph \/ l = Single b ph)).
  { destruct (H1 l) as [E|(a & b & P & E & D)]; [left; exact E|right]. exists a, b, "P"%string. split; [left; auto|auto]. }
  assert (S2 : forall l, f2 l = l \/ exists a b ph, pair_of (p, s1, s2) ph a b /\ f2 l = Pair b a ph /\ (l = Single a ph \/ l = Single b ph)).
  { intros l0. destruct (H2 l0) as [E|(a & b & P & E & D)]; [left; exact E|right]. exists a, b, "S"%string. split; [right; auto|auto]. }
  assert (S3 : forall l, f3 l = l \/ exists a b ph, pair_of (p, s1, s2) ph a b /\ f3 l = Pair b a ph /\ (l = Single a ph \/ l = Single b ph)).
  { intros l0. destruct (H3 l0) as [E|(a & b & P & E & D)]; [left; exact E|right]. exists a, b, "S"%string. split; [right; auto|auto]. }
  destruct S1 as [E|(a & b & ph & P & E & D)]; rewrite E.
  - destruct (S2 l) as [E'|(a & b & ph & P & E' & D)]; rewrite E'; [exact (S3 l)|].
    destruct (S3 (Pair b a ph)) as [E''|(? & ? & ? & _ & _ & [D'|D'])]; [|discriminate|discriminate]. rewrite E''. right. exists a, b, ph. auto.
  - destruct (S2 (Pair b a ph)) as [E'|(? & ? & ? & _ & _ & [D'|D'])]; [|discriminate|discriminate]. rewrite E'.
    destruct (S3 (Pair b a ph)) as [E''|(? & ? & ? & _ & _ & [D'|D'])]; [|discriminate|discriminate]. rewrite E''. right. exists a, b, ph. auto.
Qed.
Lemma by_label_in H (l : list (label * H)) : forall d k h, In (k, h) (by_label l d) -> In (k, h) l \/ In (k, h) d.
Proof.
  induction l as [|[k0 h0] r IH]; intros d k h I; cbn [by_label] in I; [right; exact I|]. apply IH in I. destruct I as [I|I]; [left; right; exact I|].
  destruct (existsb _ d).
  - apply in_map_iff in I. destruct I as ((k1 & h1) & E & I). cbn [fst] in E. destruct (label_eqb k1 k0); [left; left; congruence|right; congruence].
  - apply in_app_or in I. destruct I as [I|[I|[]]]; [right; exact I|left; left; congruence].
Qed.
Lemma by_label_keys H (l : list (label * H)) : forall d k, In k (map fst l) \/ In k (map fst d) -> In k (map fst (by_label l d)).
Proof.
  induction l as [|[k0 h0] r IH]; intros d k I; cbn [by_label]; [destruct I as [[]|I]; exact I|]. apply IH. cbn [map fst In] in I.
  destruct (existsb (fun x => label_eqb (fst x) k0) d) eqn:E.
  - assert (M : map fst (map (fun x => if label_eqb (fst x) k0 then (k0, h0) else x) d) = map fst d).
    { rewrite map_map. apply map_ext. intros (k1 & h1). cbn [fst]. destruct (label_eqb k1 k0) eqn:E1; [apply label_eqb_eq in E1; subst; reflexivity|reflexivity]. }
    rewrite M. destruct I as [[<-|I]|I]; [right|left; exact I|right; exact I].
    apply existsb_exists in E. destruct E as (x & Ix & E). apply label_eqb_eq in E. rewrite <- E. apply in_map. exact Ix.
  - rewrite map_app. destruct I as [[<-|I]|I]; [right; apply in_or_app; right; left; reflexivity|left; exact I|right; apply in_or_app; left; exact I].
Qed.
Lemma by_label_nodup H (l : list (label * H)) : forall d, NoDup (map fst d) -> NoDup (map fst (by_label l d)).
Proof.
  induction l as [|[k0 h0] r IH]; intros d N; cbn [by_label]; [exact N|]. apply IH. destruct (existsb (fun x => label_eqb (fst x) k0) d) eqn:E.
  - rewrite map_map. erewrite map_ext; [exact N|]. intros (k1 & h1). cbn [fst]. destruct (label_eqb k1 k0) eqn:E1; [apply label_eqb_eq in E1; subst; reflexivity|reflexivity].
  - rewrite map_app. cbn [map fst]. apply nodup_app; [exact N|constructor; [intros []|constructor]|]. intros k I [<-|[]]. apply in_map_iff in I. destruct I as (x & E1 & I).
    assert (T : existsb (fun x => label_eqb (fst x) k0) d = true); [|congruence]. apply existsb_exists. exists x. split; [exact I|]. apply label_eqb_eq. exact E1.
Qed.

Lemma merge_pair labels ph text a b : step_pair ph text a b -> In (Single a ph) labels -> In (Single b ph) labels -> exists f, merge_step labels (ph, text) = map f labels
  /\ f (Single a ph) = Pair b a ph /\ f (Single b ph) = Pair b a ph.
Proof.
  intros (x & y & z & -> & L) Ia Ib. unfold merge_step. cbn [tl].
  assert (E : every_second (a :: y :: b :: z) = [a; b]) by (destruct z as [|? [|? ?]]; cbn in L |- *; [reflexivity|reflexivity|lia]). rewrite E.
  assert (Ta : existsb (label_eqb (Single a ph)) labels = true) by (apply existsb_exists; exists (Single a ph); split; [exact Ia|apply label_eqb_eq; reflexivity]).
  assert (Tb : existsb (label_eqb (Single b ph)) labels = true) by (apply existsb_exists; exists (Single b ph); split; [exact Ib|apply label_eqb_eq; reflexivity]).
  rewrite Ta, Tb. cbn [andb]. eexists. split; [reflexivity|]. split.
  - rewrite (proj2 (label_eqb_eq (Single a ph) (Single a ph)) eq_refl). reflexivity.
  - rewrite (proj2 (label_eqb_eq (Single b ph) (Single b ph)) eq_refl), orb_true_r. reflexivity.
Qed.
Lemma merge_keeps_pair labels x a b ph : In (Pair b a ph) labels -> In (Pair b a ph) (merge_step labels x).
Proof.
  destruct x as (ph' & text). intros I. destruct (merge_step_map labels ph' text) as (f & -> & H). apply in_map_iff. exists (Pair b a ph). split; [|exact I].
  destruct (H (Pair b a ph)) as [E|(? & ? & _ & _ & [E|E])]; [exact E|discriminate|discriminate].
Qed.
Lemma merge_keeps_single labels ph' text a ph : (forall c d, step_pair ph' text c d -> Single a ph <> Single c ph' /\ Single a ph <> Single d ph') -> In (Single a ph) labels -> In (Single a ph) (merge_step labels (ph', text)).
Proof.
  intros D I. destruct (merge_step_map labels ph' text) as (f & -> & H). apply in_map_iff. exists (Single a ph). split; [|exact I].
  destruct (H (Single a ph)) as [E|(c & d & S & _ & [E|E])]; [exact E|destruct (D c d S); contradiction|destruct (D c d S); contradiction].
Qed.
Lemma merge_makes_pair labels ph text a b : step_pair ph text a b -> In (Single a ph) labels -> In (Single b ph) labels -> In (Pair b a ph) (merge_step labels (ph, text)).
Proof.
  intros S Ia Ib. destruct (merge_pair _ _ _ _ _ S Ia Ib) as (f & -> & Fa & _). apply in_map_iff. exists (Single a ph). auto.
Qed.

(** ** Names *)

Lemma split_plain l : ~ In "_"%char l -> split_us l = [l].
Proof.
  induction l as [|c r IH]; intros H; cbn [split_us]; [reflexivity|]. rewrite IH by (intros I; apply H; right; exact I).
  destruct (Ascii.eqb_spec c "_"); [exfalso; apply H; left; auto|reflexivity].
Qed.
Lemma split_key s p : ~ In "_"%char s -> ~ In "_"%char p -> split_us (s ++ "_"%char :: p) = [s; p].
Proof.
  intros Hs Hp. induction s as [|c r IH]; cbn [split_us app]; [rewrite split_plain by exact Hp; reflexivity|].
  rewrite IH by (intros I; apply Hs; right; exact I). destruct (Ascii.eqb_spec c "_"); [exfalso; apply Hs; left; auto|reflexivity].
Qed.

Lemma split_ne s : (1 <= length (split_us s))%nat.
Proof. induction s as [|c r IH]; cbn [split_us]; [cbn; lia|]. destruct (split_us r); [cbn in IH; lia|]. destruct (Ascii.eqb c "_"); cbn [length]; lia. Qed.
Lemma split_more s r : (length (split_us r) + 1 <= length (split_us (s ++ "_"%char :: r)))%nat.
Proof.
  induction s as [|c s IH]; cbn [split_us app].
  - pose proof (split_ne r). destruct (split_us r); [cbn in H; lia|]. cbn. lia.
  - destruct (split_us (s ++ "_"%char :: r)); [cbn in IH; lia|]. destruct (Ascii.eqb c "_"); cbn [length] in *; lia.
Qed.

(** ** A sorting function, for examples *)

Fixpoint ins (f : Z -> Z) (i : Z) (l : list Z) : list Z := match l with [] => [i] | j :: r => if f i <=? f j then i :: l else j :: ins f i r end.
Definition argsort_ins (l : list Z) : list Z := fold_right (ins (fun a => match rd l a with Some x => x | None => 0 end)) [] (zrange (Z.of_nat (length l))).
Lemma ins_perm f i l : Permutation (ins f i l) (i :: l).
Proof. induction l as [|j r IH]; cbn; [reflexivity|]. destruct (f i <=? f j); [reflexivity|]. rewrite IH. apply perm_swap. Qed.
Definition ascending (f : Z -> Z) (l : list Z) : Prop := forall i j a b, i < j -> rd l i = Some a -> rd l j = Some b -> f a <= f b.
Lemma ascending_cons f a l : ascending f (a :: l) <-> (forall b, In b l -> f a <= f b) /\ ascending f l.
Proof.
  split.
  - intros H. split.
    + intros b I. destruct (in_rd _ _ _ I) as (j & R). pose proof (rd_bounds _ _ _ _ R). apply (H 0 (j + 1) a b); [lia|apply rd_0|]. rewrite rd_cons. destruct (Z.eqb_spec (j + 1) 0); [lia|]. replace (j + 1 - 1) with j by lia. exact R.
    + intros i j x y L Ri Rj. pose proof (rd_bounds _ _ _ _ Ri). apply (H (i + 1) (j + 1) x y); [lia| |]; rewrite rd_cons.
      * destruct (Z.eqb_spec (i + 1) 0); [lia|]. replace (i + 1 - 1) with i by lia. exact Ri.
      * destruct (Z.eqb_spec (j + 1) 0); [lia|]. replace (j + 1 - 1) with j by lia. exact Rj.
  - intros (H1 & H2) i j x y L Ri Rj. rewrite rd_cons in Ri, Rj.
    destruct (Z.eqb_spec j 0) as [->|Nj]; [destruct (Z.eqb_spec i 0); [lia|pose proof (rd_bounds _ _ _ _ Ri); lia]|].
    destruct (Z.eqb_spec i 0) as [->|Ni]; [injection Ri as <-; apply H1; exact (rd_in _ _ _ _ Rj)|]. apply (H2 (i - 1) (j - 1) x y); [lia|exact Ri|exact Rj].
Qed.
Lemma ins_ascending f i l : ascending f l -> ascending f (ins f i l).
Proof.
  induction l as [|j r IH]; intros H; cbn [ins].
  - apply ascending_cons. split; [contradiction|exact H].
  - pose proof (proj1 (ascending_cons f j r) H) as (H1 & H2). destruct (Z.leb_spec (f i) (f j)) as [L|L]; apply ascending_cons.
    + split; [|exact H]. intros b [<-|I]; [exact L|]. specialize (H1 b I). lia.
    + split; [|apply IH; exact H2]. intros b I. apply (Permutation_in _ (ins_perm f i r)) in I. destruct I as [<-|I]; [lia|exact (H1 b I)].
Qed.
Lemma argsort_ins_ok : is_argsort argsort_ins.
Proof.
  intros l. unfold argsort_ins. set (f := fun a => match rd l a with Some x => x | None => 0 end). set (r := zrange _). clearbody r. split.
  - induction r as [|i r IH]; [reflexivity|]. cbn [fold_right]. rewrite ins_perm, IH. reflexivity.
  - assert (A : ascending f (fold_right (ins f) [] r)). { induction r as [|i r IH]; cbn [fold_right]; [intros i j a b _ R; rewrite rd_nil in R; discriminate|apply ins_ascending, IH]. }
    intros i j a b x y L Ri Rj Xa Xb. specialize (A i j a b L Ri Rj). unfold f in A. rewrite Xa, Xb in A. exact A.
Qed.

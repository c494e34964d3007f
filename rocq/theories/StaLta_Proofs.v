(** Proofs about the STA/LTA onset functions. *)
From Coq Require Import List ZArith Reals Lra Lia Bool.
From Verif Require Import Lib LibFacts PySlice PySliceFacts Migrate_Spec Migrate_Proofs StaLta_Model StaLta_Spec.
Import ListNotations.
Open Scope Z_scope.

(* ------------------------------------------------------------------ *)
(** * One-dimensional arrays *)

Lemma array1_length A n (f : Z -> A) : Z.of_nat (length (array1 n f)) = Z.max 0 n.
Proof. unfold array1. rewrite map_length, zrange_length. lia. Qed.

Lemma rd_array1 A n (f : Z -> A) i : 0 <= i < n -> rd (array1 n f) i = Some (f i).
Proof. intros H. unfold array1. rewrite rd_map, rd_zrange by lia. reflexivity. Qed.

Lemma list_eq_array1 A n (f : Z -> A) l : Z.of_nat (length l) = Z.max 0 n ->
  (forall i, 0 <= i < n -> rd l i = Some (f i)) -> l = array1 n f.
Proof.
  intros Hlen H. apply rd_ext_opt. intros a.
  destruct (Z.lt_ge_cases a 0); [rewrite !rd_none by lia; reflexivity|].
  destruct (Z.lt_ge_cases a n) as [Hb|Hb]; [rewrite H, rd_array1 by lia; reflexivity|].
  rewrite !rd_none; [reflexivity| |]; right; rewrite ?array1_length; lia.
Qed.

Lemma map_array1 A B (g : A -> B) n f : map g (array1 n f) = array1 n (fun i => g (f i)).
Proof. unfold array1. apply map_map. Qed.

Lemma array1_ext A n (f g : Z -> A) : (forall i, 0 <= i < n -> f i = g i) -> array1 n f = array1 n g.
Proof. intros H. unfold array1. apply map_ext_in. intros i Hi. apply H, in_zrange, Hi. Qed.

Lemma repeat_array1 A (x : A) n : repeat x (Z.to_nat n) = array1 n (fun _ => x).
Proof.
  apply list_eq_array1; [rewrite repeat_length; lia|]. intros i Hi. apply rd_repeat. lia.
Qed.

Lemma rd_combine A B (a : list A) (b : list B) i : rd (combine a b) i =
  match rd a i, rd b i with Some x, Some y => Some (x, y) | _, _ => None end.
Proof.
  unfold rd. destruct (Z.ltb_spec i 0); [reflexivity|]. generalize (Z.to_nat i) as j. intros j. clear. revert b j.
  induction a as [|x a IH]; intros b j; [destruct j; reflexivity|].
  destruct b as [|y b].
  - cbn [combine]. replace (nth_error (@nil B) j) with (@None B) by (destruct j; reflexivity).
    destruct (nth_error (x :: a) j), j; reflexivity.
  - destruct j; [reflexivity|]. exact (IH b j).
Qed.

Lemma combine_array1 A B n (f : Z -> A) (g : Z -> B) :
  combine (array1 n f) (array1 n g) = array1 n (fun i => (f i, g i)).
Proof.
  apply list_eq_array1.
  - rewrite combine_length. pose proof (array1_length A n f). pose proof (array1_length B n g). lia.
  - intros i Hi. rewrite rd_combine, !rd_array1 by lia. reflexivity.
Qed.

Lemma loop_none S n i (body : Z -> S -> option S) s j :
  i <= j < i + Z.of_nat n -> (forall s, body j s = None) -> loop n i body s = None.
Proof.
  revert i s. induction n as [|n IH]; intros i s Hj H; [lia|]. cbn [loop].
  destruct (Z.eq_dec i j) as [->|Hne]; [rewrite H; reflexivity|].
  destruct (body i s); [|reflexivity]. apply IH; [lia|exact H].
Qed.
Lemma for_none S lo hi (body : Z -> S -> option S) s j :
  lo <= j < hi -> (forall s, body j s = None) -> for_ lo hi body s = None.
Proof. intros Hj H. unfold for_. apply (loop_none _ _ _ _ _ j); [lia|exact H]. Qed.

(* ------------------------------------------------------------------ *)
(** * Window sums *)

Definition wsum (x : Z -> R) (lo w : Z) : R := Rsum (map x (zseq lo (Z.to_nat w))).

Lemma wsum_0 x lo w : w <= 0 -> wsum x lo w = 0%R.
Proof. intros H. unfold wsum. replace (Z.to_nat w) with O by lia. reflexivity. Qed.

Lemma wsum_right x lo w : 0 <= w -> wsum x lo (w + 1) = (wsum x lo w + x (lo + w)%Z)%R.
Proof.
  intros H. unfold wsum. replace (Z.to_nat (w + 1)) with (Z.to_nat w + 1)%nat by lia.
  rewrite zseq_app, map_app, Rsum_app. unfold Rsum at 2. cbn [zseq map fold_right].
  rewrite Z2Nat.id by lia. lra.
Qed.

Lemma wsum_split x lo a b : 0 <= a -> 0 <= b -> wsum x lo (a + b) = (wsum x lo a + wsum x (lo + a) b)%R.
Proof.
  intros Ha Hb. unfold wsum. rewrite Z2Nat.inj_add by lia. rewrite zseq_app, map_app, Rsum_app.
  rewrite Z2Nat.id by lia. reflexivity.
Qed.

Lemma wsum_left x lo w : 0 <= w -> wsum x lo (w + 1) = (x lo + wsum x (lo + 1) w)%R.
Proof.
  intros H. rewrite Z.add_comm. rewrite wsum_split by lia. f_equal.
  unfold wsum. change (Z.to_nat 1) with 1%nat. unfold Rsum. cbn [zseq map fold_right]. lra.
Qed.

Lemma wsum_slide x lo w : 0 <= w -> wsum x (lo + 1) w = (wsum x lo w + (x (lo + w)%Z - x lo))%R.
Proof. intros H. pose proof (wsum_right x lo w H). pose proof (wsum_left x lo w H). lra. Qed.

Lemma wsum_ext x y lo w : (forall i, lo <= i < lo + w -> x i = y i) -> wsum x lo w = wsum y lo w.
Proof.
  intros H. unfold wsum. f_equal. apply map_ext_in. intros i Hi. apply in_zseq in Hi. apply H. lia.
Qed.

Lemma wsum_scale c x lo w : wsum (fun i => c * x i)%R lo w = (c * wsum x lo w)%R.
Proof. unfold wsum. rewrite <- Rsum_scale, map_map. reflexivity. Qed.

Lemma wsum_nonneg x lo w : (forall i, lo <= i < lo + w -> (0 <= x i)%R) -> (0 <= wsum x lo w)%R.
Proof.
  intros H. unfold wsum. unfold Rsum.
  assert (G : forall l, (forall i, In i l -> (0 <= x i)%R) -> (0 <= fold_right Rplus 0 (map x l))%R).
  { induction l as [|i l IH]; intros Hl; cbn [map fold_right]; [lra|].
    pose proof (Hl i (or_introl eq_refl)). specialize (IH (fun j Hj => Hl j (or_intror Hj))). lra. }
  apply G. intros i Hi. apply in_zseq in Hi. apply H. lia.
Qed.

Lemma c_sum_ok x n lo hi init : 0 <= lo <= hi -> hi <= n ->
  c_sum (array1 n x) lo hi init = Some (init + wsum x lo (hi - lo))%R.
Proof.
  intros H1 H2. unfold c_sum.
  destruct (for_inv _ (fun i s => s = init + wsum x lo (i - lo))%R lo hi
    (fun i s => match rd (array1 n x) i with Some x0 => Some (s + x0)%R | None => None end) init)
    as (s & E & Hs); try lia.
  - rewrite wsum_0 by lia. lra.
  - intros j s Hj ->. rewrite rd_array1 by lia. eexists. split; [reflexivity|].
    replace (j + 1 - lo) with (j - lo + 1) by ring. rewrite wsum_right by lia.
    replace (lo + (j - lo)) with j by ring. lra.
  - rewrite E, Hs. reflexivity.
Qed.

Lemma c_sum_none x n lo hi init : 0 <= lo -> lo < hi -> n < hi -> c_sum (array1 n x) lo hi init = None.
Proof.
  intros H1 H2 H3. unfold c_sum. apply for_none with (j := Z.max lo n); [lia|]. intros s.
  rewrite rd_none; [reflexivity|]. right. rewrite array1_length. lia.
Qed.

Definition ovl_value (x : Z -> R) (nsta nlta i : Z) : option R :=
  ratio (window_mean x (i - nsta + 1) nsta) (window_mean x (i - nlta + 1) nlta).
Definition cen_value (x : Z -> R) (nsta nlta i : Z) : option R :=
  ratio (window_mean x (i + 1) nsta) (window_mean x (i - nlta + 1) nlta).

Lemma fscale_ratio S L nsta nlta : 1 <= nsta -> 1 <= nlta ->
  fscale (fdiv S L) (IZR nlta / IZR nsta) = ratio (S / IZR nsta) (L / IZR nlta).
Proof.
  intros H1 H2. assert (0 < IZR nsta)%R by (apply IZR_lt; lia). assert (0 < IZR nlta)%R by (apply IZR_lt; lia).
  unfold fscale, fdiv, ratio. destruct (Req_EM_T L 0) as [->|HL], (Req_EM_T (_ / IZR nlta) 0) as [E|E].
  - reflexivity.
  - exfalso. apply E. unfold Rdiv. ring.
  - exfalso. apply HL. apply (Rmult_eq_reg_r (/ IZR nlta)); [|apply Rinv_neq_0_compat; lra].
    unfold Rdiv in E. rewrite E. ring.
  - cbn [option_map]. f_equal. field. repeat split; lra.
Qed.

Lemma c_overlapping_ok x n nsta nlta : 1 <= nsta <= nlta -> nlta <= n ->
  lib_overlapping (array1 n x) nsta nlta
  = Ret (array1 n (fun i => if i <? nlta - 1 then Some 1%R else ovl_value x nsta nlta i)).
Proof.
  intros Hs Hn. unfold lib_overlapping.
  assert (HL : Z.of_nat (length (array1 n x)) = n) by (rewrite array1_length; lia).
  rewrite HL. replace (length (array1 n x)) with (Z.to_nat n) by lia.
  unfold c_overlapping. rewrite c_sum_ok by lia. rewrite Z.sub_0_r, Rplus_0_l.
  destruct (for_inv _ (fun i (st : R * R) => fst st = wsum x (i - nsta) nsta /\ snd st = wsum x 0 i) nsta nlta
    (fun i (st : R * R) => let (sta, lta) := st in
          match rd (array1 n x) i, rd (array1 n x) (i - nsta) with
          | Some buf, Some old => Some (sta + (buf - old), lta + buf)%R
          | _, _ => None
          end) (wsum x 0 nsta, wsum x 0 nsta)) as ([sta lta] & E & H1 & H2); try lia.
  { rewrite Z.sub_diag. split; reflexivity. }
  { intros j [s l] Hj [Hs1 Hl1]. cbn [fst snd] in *. rewrite !rd_array1 by lia.
    eexists. split; [reflexivity|]. cbn [fst snd]. split.
    - replace (j + 1 - nsta) with (j - nsta + 1) by ring. rewrite wsum_slide by lia.
      replace (j - nsta + nsta) with j by ring. lra.
    - rewrite wsum_right by lia. rewrite Z.add_0_l. lra. }
  rewrite E. cbn [fst snd] in H1, H2.
  rewrite fscale_ratio by lia.
  destruct (wr_some _ (repeat (Some 1%R) (Z.to_nat n)) (nlta - 1) (ratio (sta / IZR nsta) (lta / IZR nlta)))
    as [on1 W]; [rewrite repeat_length; lia|].
  rewrite W.
  assert (Hval : ratio (sta / IZR nsta) (lta / IZR nlta) = ovl_value x nsta nlta (nlta - 1)).
  { unfold ovl_value, window_mean. fold (wsum x (nlta - 1 - nsta + 1) nsta). fold (wsum x (nlta - 1 - nlta + 1) nlta).
    rewrite H1, H2. f_equal; do 2 f_equal; lia. }
  match goal with |- context [for_ nlta n ?bd (sta, lta, on1)] =>
  destruct (for_inv _ (fun i (st : R * R * list (option R)) =>
      fst (fst st) = wsum x (i - nsta) nsta /\ snd (fst st) = wsum x (i - nlta) nlta /\
      Z.of_nat (length (snd st)) = n /\
      forall j, 0 <= j < n -> rd (snd st) j =
        Some (if j <? nlta - 1 then Some 1%R else if j <? i then ovl_value x nsta nlta j else Some 1%R))
    nlta n bd (sta, lta, on1)) as ([[sta2 lta2] on2] & E2 & _ & _ & Hlen2 & Hrd2) end; try lia.
  { cbn [fst snd]. split; [exact H1|]. split; [rewrite Z.sub_diag; exact H2|]. split.
    - rewrite (wr_length _ _ _ _ _ W), repeat_length. lia.
    - intros j Hj. rewrite (wr_rd _ _ _ _ _ j W). destruct (Z.eqb_spec j (nlta - 1)) as [->|Hne].
      + destruct (Z.ltb_spec (nlta - 1) (nlta - 1)); [lia|]. destruct (Z.ltb_spec (nlta - 1) nlta); [|lia].
        rewrite Hval. reflexivity.
      + rewrite rd_repeat by lia. destruct (Z.ltb_spec j (nlta - 1)); [reflexivity|].
        destruct (Z.ltb_spec j nlta); [lia|reflexivity]. }
  { intros i [[s l] on] Hi (A1 & A2 & A3 & A4). cbn [fst snd] in *. rewrite !rd_array1 by lia.
    cbn zeta. rewrite fscale_ratio by lia.
    set (s' := (s + (x i - x (i - nsta)%Z))%R). set (l' := (l + (x i - x (i - nlta)%Z))%R).
    destruct (wr_some _ on i (ratio (s' / IZR nsta) (l' / IZR nlta))) as [on' W']; [lia|]. rewrite W'.
    eexists. split; [reflexivity|]. cbn [fst snd].
    assert (B1 : s' = wsum x (i - nsta + 1) nsta).
    { unfold s'. rewrite wsum_slide by lia. replace (i - nsta + nsta) with i by ring. lra. }
    assert (B2 : l' = wsum x (i - nlta + 1) nlta).
    { unfold l'. rewrite wsum_slide by lia. replace (i - nlta + nlta) with i by ring. lra. }
    split; [rewrite B1; f_equal; lia|]. split; [rewrite B2; f_equal; lia|].
    split; [rewrite (wr_length _ _ _ _ _ W'); exact A3|].
    intros j Hj. rewrite (wr_rd _ _ _ _ _ j W'). destruct (Z.eqb_spec j i) as [->|Hne].
    - destruct (Z.ltb_spec i (nlta - 1)); [lia|]. destruct (Z.ltb_spec i (i + 1)); [|lia].
      rewrite B1, B2. reflexivity.
    - rewrite A4 by lia. destruct (Z.ltb_spec j (nlta - 1)); [reflexivity|].
      destruct (Z.ltb_spec j i), (Z.ltb_spec j (i + 1)); try reflexivity; lia. }
  rewrite E2. cbn [snd] in *. f_equal. apply list_eq_array1; [lia|].
  intros j Hj. rewrite Hrd2 by lia. destruct (Z.ltb_spec j (nlta - 1)); [reflexivity|].
  destruct (Z.ltb_spec j n); [reflexivity|lia].
Qed.

Lemma c_overlapping_undef x n nsta nlta : 0 <= n -> 1 <= nsta <= nlta -> n < nlta ->
  lib_overlapping (array1 n x) nsta nlta = Undef.
Proof.
  intros H0 Hs Hn. unfold lib_overlapping.
  assert (HL : Z.of_nat (length (array1 n x)) = n) by (rewrite array1_length; lia).
  rewrite HL. unfold c_overlapping.
  destruct (Z.lt_ge_cases n nsta) as [H|H].
  - rewrite c_sum_none by lia. reflexivity.
  - rewrite c_sum_ok by lia. rewrite for_none with (j := n); [reflexivity|lia|].
    intros [s l]. rewrite (rd_none _ (array1 n x) n) by lia. reflexivity.
Qed.

Lemma c_centred_ok x n nsta nlta : 1 <= nsta -> 1 <= nlta -> nlta + nsta <= n ->
  lib_centred (array1 n x) nsta nlta
  = Ret (array1 n (fun i =>
      if i <? nlta - 1 then Some 1%R else if n - nsta <=? i then Some 1%R
      else if i =? nlta - 1 then cen_value x nsta nlta i
      else if Rlt_dec 0 (window_mean x (i - nlta + 1) nlta) then cen_value x nsta nlta i else Some 1%R)).
Proof.
  intros Hs Hl Hn. unfold lib_centred.
  assert (HL : Z.of_nat (length (array1 n x)) = n) by (rewrite array1_length; lia).
  rewrite HL. replace (length (array1 n x)) with (Z.to_nat n) by lia.
  unfold c_centred. rewrite !c_sum_ok by lia. rewrite Z.sub_0_r, !Rplus_0_l.
  replace (nlta + nsta - nlta) with nsta by ring.
  rewrite fscale_ratio by lia.
  destruct (wr_some _ (repeat (Some 1%R) (Z.to_nat n)) (nlta - 1)
    (ratio (wsum x nlta nsta / IZR nsta) (wsum x 0 nlta / IZR nlta)))
    as [on1 W]; [rewrite repeat_length; lia|].
  rewrite W.
  set (final := fun i => if i <? nlta - 1 then Some 1%R else if n - nsta <=? i then Some 1%R
      else if i =? nlta - 1 then cen_value x nsta nlta i
      else if Rlt_dec 0 (window_mean x (i - nlta + 1) nlta) then cen_value x nsta nlta i else Some 1%R).
  assert (HnR : (0 < IZR nlta)%R) by (apply IZR_lt; lia).
  match goal with |- context [for_ nlta (n - nsta) ?bd ?st0] =>
  destruct (for_inv _ (fun i (st : R * R * list (option R)) =>
      fst (fst st) = wsum x i nsta /\ snd (fst st) = wsum x (i - nlta) nlta /\
      Z.of_nat (length (snd st)) = n /\
      forall j, 0 <= j < n -> rd (snd st) j = Some (if j <? i then final j else Some 1%R))
    nlta (n - nsta) bd st0) as ([[sta2 lta2] on2] & E2 & _ & _ & Hlen2 & Hrd2) end; try lia.
  { cbn [fst snd]. split; [reflexivity|]. split; [rewrite Z.sub_diag; reflexivity|]. split.
    - rewrite (wr_length _ _ _ _ _ W), repeat_length. lia.
    - intros j Hj. rewrite (wr_rd _ _ _ _ _ j W). unfold final. destruct (Z.eqb_spec j (nlta - 1)) as [->|Hne].
      + destruct (Z.ltb_spec (nlta - 1) nlta); [|lia]. destruct (Z.ltb_spec (nlta - 1) (nlta - 1)); [lia|].
        destruct (Z.leb_spec (n - nsta) (nlta - 1)); [lia|].
        unfold cen_value, window_mean. fold (wsum x (nlta - 1 + 1) nsta). fold (wsum x (nlta - 1 - nlta + 1) nlta).
        replace (nlta - 1 + 1) with nlta by ring. replace (nlta - 1 - nlta + 1) with 0 by ring. reflexivity.
      + rewrite rd_repeat by lia. destruct (Z.ltb_spec j nlta); [|reflexivity].
        destruct (Z.ltb_spec j (nlta - 1)); [reflexivity|lia]. }
  { intros i [[s l] on] Hi (A1 & A2 & A3 & A4). cbn [fst snd] in *. rewrite !rd_array1 by lia.
    cbn zeta. rewrite fscale_ratio by lia.
    set (s' := (s + (x (i + nsta)%Z - x i))%R). set (l' := (l + (x i - x (i - nlta)%Z))%R).
    assert (B1 : s' = wsum x (i + 1) nsta).
    { unfold s'. rewrite wsum_slide by lia. lra. }
    assert (B2 : l' = wsum x (i - nlta + 1) nlta).
    { unfold l'. rewrite wsum_slide by lia. replace (i - nlta + nlta) with i by ring. lra. }
    match goal with |- context [wr on i ?v] => set (val := v) in *; destruct (wr_some _ on i val) as [on' W']; [lia|] end.
    rewrite W'. eexists. split; [reflexivity|]. cbn [fst snd].
    split; [exact B1|]. split; [rewrite B2; f_equal; lia|].
    split; [rewrite (wr_length _ _ _ _ _ W'); exact A3|].
    intros j Hj. rewrite (wr_rd _ _ _ _ _ j W'). destruct (Z.eqb_spec j i) as [->|Hne].
    - destruct (Z.ltb_spec i (i + 1)); [|lia]. unfold final.
      destruct (Z.ltb_spec i (nlta - 1)); [lia|]. destruct (Z.leb_spec (n - nsta) i); [lia|].
      destruct (Z.eqb_spec i (nlta - 1)); [lia|]. f_equal. unfold val.
      unfold cen_value, window_mean. fold (wsum x (i + 1) nsta). fold (wsum x (i - nlta + 1) nlta).
      rewrite <- B1, <- B2.
      destruct (Rlt_dec 0 l') as [P|P], (Rlt_dec 0 (l' / IZR nlta)) as [Q|Q]; try reflexivity.
      + exfalso. apply Q. apply Rdiv_lt_0_compat; lra.
      + exfalso. apply P. apply (Rmult_lt_compat_r (IZR nlta)) in Q; [|lra].
        unfold Rdiv in Q. rewrite Rmult_assoc, Rinv_l in Q by lra. lra.
    - rewrite A4 by lia. destruct (Z.ltb_spec j i), (Z.ltb_spec j (i + 1)); try reflexivity; lia. }
  rewrite E2. cbn [snd] in *. f_equal. apply list_eq_array1; [lia|].
  intros j Hj. rewrite Hrd2 by lia. destruct (Z.ltb_spec j (n - nsta)); [reflexivity|].
  f_equal. unfold final. destruct (Z.ltb_spec j (nlta - 1)); [reflexivity|].
  destruct (Z.leb_spec (n - nsta) j); [reflexivity|lia].
Qed.

Lemma c_centred_undef x n nsta nlta : 0 <= n -> 1 <= nsta -> 1 <= nlta -> n < nlta + nsta ->
  lib_centred (array1 n x) nsta nlta = Undef.
Proof.
  intros H0 Hs Hl Hn. unfold lib_centred.
  assert (HL : Z.of_nat (length (array1 n x)) = n) by (rewrite array1_length; lia).
  rewrite HL. unfold c_centred.
  destruct (Z.lt_ge_cases n nlta) as [H|H].
  - rewrite c_sum_none by lia. reflexivity.
  - rewrite c_sum_ok by lia. rewrite c_sum_none by lia. reflexivity.
Qed.

Lemma c_recursive_defined x n nsta nlta : 0 <= n ->
  exists o, lib_recursive (array1 n x) nsta nlta = Ret o /\ Z.of_nat (length o) = n.
Proof.
  intros Hn. unfold lib_recursive.
  assert (HL : Z.of_nat (length (array1 n x)) = n) by (rewrite array1_length; lia).
  rewrite HL. replace (length (array1 n x)) with (Z.to_nat n) by lia. unfold c_recursive.
  destruct (Z.lt_ge_cases n 1) as [H|H].
  - rewrite for_empty by lia. destruct (Z.ltb_spec nlta n).
    + rewrite for_empty by lia. eexists. split; [reflexivity|]. rewrite repeat_length. lia.
    + eexists. split; [reflexivity|]. rewrite repeat_length. lia.
  - match goal with |- context [for_ 1 n ?b ?s] =>
      destruct (for_inv _ (fun _ (st : R * R * list (option R)) => Z.of_nat (length (snd st)) = n) 1 n b s)
        as ([[s2 l2] o2] & E & Hlen) end; try lia.
    + cbn [snd]. rewrite repeat_length. lia.
    + intros j [[s l] on] Hj Hlen. cbn [snd] in Hlen. rewrite rd_array1 by lia. cbn zeta.
      match goal with |- context [wr on j ?v] => destruct (wr_some _ on j v) as [on' W]; [lia|]; rewrite W end.
      eexists. split; [reflexivity|]. cbn [snd]. rewrite (wr_length _ _ _ _ _ W). exact Hlen.
    + rewrite E. cbn [snd] in Hlen. destruct (Z.ltb_spec nlta n).
      * destruct (Z.lt_ge_cases nlta 0) as [Hneg|Hpos].
        { rewrite for_empty by lia. eauto. }
        destruct (for_inv _ (fun _ (on : list (option R)) => Z.of_nat (length on) = n) 0 nlta
          (fun i on => wr on i (Some 1%R)) o2) as (o3 & E3 & Hlen3); try lia.
        { intros j on Hj Hl. destruct (wr_some _ on j (Some 1%R)) as [on' W]; [lia|]. exists on'.
          split; [exact W|]. rewrite (wr_length _ _ _ _ _ W). exact Hl. }
        rewrite E3. eauto.
      * eauto.
Qed.

(* ------------------------------------------------------------------ *)
(** * Python versions *)

Lemma cumsum_from_rd acc l i y : rd (cumsum_from acc l) i = Some y ->
  y = (acc + Rsum (firstn (S (Z.to_nat i)) l))%R.
Proof.
  revert acc i. induction l as [|x l IH]; intros acc i H.
  - cbn in H. rewrite rd_nil in H. discriminate.
  - cbn [cumsum_from] in H. rewrite rd_cons in H. destruct (Z.eqb_spec i 0) as [Heq|Hne].
    + subst i. injection H as <-. change (Z.to_nat 0) with 0%nat. cbn [firstn]. unfold Rsum. cbn [fold_right]. lra.
    + assert (0 <= i - 1) by (apply rd_bounds in H; lia).
      apply IH in H. rewrite H. replace (Z.to_nat i) with (S (Z.to_nat (i - 1))) by lia.
      cbn [firstn]. unfold Rsum. cbn [fold_right]. lra.
Qed.

Lemma cumsum_from_length acc l : length (cumsum_from acc l) = length l.
Proof. revert acc. induction l; intros; cbn; auto. Qed.

Lemma firstn_zseq k lo n : (k <= n)%nat -> firstn k (zseq lo n) = zseq lo k.
Proof.
  revert lo n. induction k as [|k IH]; intros lo n H; [reflexivity|].
  destruct n as [|n]; [lia|]. cbn. rewrite IH by lia. reflexivity.
Qed.

Lemma cumsum_array1 n x : cumsum (array1 n x) = array1 n (fun i => wsum x 0 (i + 1)).
Proof.
  apply list_eq_array1.
  - unfold cumsum. rewrite cumsum_from_length. apply array1_length.
  - intros i Hi. unfold cumsum.
    destruct (rd_in_range _ (cumsum_from 0 (array1 n x)) i) as [y Hy].
    { rewrite cumsum_from_length, array1_length. lia. }
    rewrite Hy. f_equal. apply cumsum_from_rd in Hy. rewrite Hy, Rplus_0_l.
    unfold wsum, array1, zrange. rewrite firstn_map, firstn_zseq by lia. do 3 f_equal. lia.
Qed.

Lemma sub_lists_array1 n f g : sub_lists (array1 n f) (array1 n g) = Some (array1 n (fun i => f i - g i)%R).
Proof.
  unfold array1. induction (zrange n) as [|i l IH]; [reflexivity|]. cbn [map sub_lists]. rewrite IH. reflexivity.
Qed.

Lemma pyslice_from A n (f : Z -> A) w : 0 <= w -> pyslice (array1 n f) (Some w) None = array1 (n - w) (fun i => f (w + i)).
Proof.
  intros Hw. apply list_eq_array1.
  - rewrite pyslice_length, array1_length. cbn [pylo pyhi]. unfold pynorm. destruct (Z.ltb_spec w 0); lia.
  - intros i Hi. rewrite rd_pyslice; rewrite array1_length; cbn [pylo pyhi]; unfold pynorm;
      destruct (Z.ltb_spec w 0); try lia.
    rewrite Z.min_l by lia. apply rd_array1. lia.
Qed.

Lemma pyslice_upto_neg A n (f : Z -> A) w : 1 <= w -> pyslice (array1 n f) None (Some (- w)) = array1 (n - w) f.
Proof.
  intros Hw. apply list_eq_array1.
  - rewrite pyslice_length, array1_length. cbn [pylo pyhi]. unfold pynorm. destruct (Z.ltb_spec (- w) 0); lia.
  - intros i Hi. rewrite rd_pyslice; rewrite array1_length; cbn [pylo pyhi]; unfold pynorm;
      destruct (Z.ltb_spec (- w) 0); try lia.
    rewrite Z.add_0_l. apply rd_array1. lia.
Qed.

Lemma window_diff_ok n c w : 1 <= w ->
  window_diff (array1 n c) w = Some (array1 n (fun i => if i <? w then c i else (c i - c (i - w)%Z)%R)).
Proof.
  intros Hw. unfold window_diff. rewrite pyslice_from, pyslice_upto_neg by lia. rewrite sub_lists_array1.
  destruct (pyset_some _ (array1 n c) (Some w) None (array1 (n - w) (fun i => (c (w + i)%Z - c i)%R))) as (l & E & Hlen & Hrd).
  { rewrite !array1_length. cbn [pylo pyhi]. unfold pynorm. destruct (Z.ltb_spec w 0); lia. }
  rewrite E. f_equal. apply list_eq_array1; [rewrite Hlen; apply array1_length|].
  intros i Hi. rewrite Hrd. rewrite array1_length. cbn [pylo pyhi]. unfold pynorm. destruct (Z.ltb_spec w 0); [lia|].
  destruct (Z.ltb_spec i w) as [H1|H1].
  - destruct (Z.leb_spec (Z.min w (Z.max 0 n)) i); [lia|]. cbn [andb]. apply rd_array1. lia.
  - destruct (Z.leb_spec (Z.min w (Z.max 0 n)) i); [|lia]. destruct (Z.ltb_spec i (Z.max 0 n)); [|lia]. cbn [andb].
    rewrite Z.min_l by lia. rewrite rd_array1 by lia. do 2 f_equal. f_equal. lia.
Qed.

Lemma pyfill_upto A n (f : Z -> A) k v : 0 <= k ->
  pyfill (array1 n f) None (Some k) v = array1 n (fun i => if i <? k then v else f i).
Proof.
  intros Hk. apply list_eq_array1; [rewrite pyfill_length; apply array1_length|].
  intros i Hi. rewrite rd_pyfill, array1_length. cbn [pylo pyhi]. unfold pynorm. destruct (Z.ltb_spec k 0); [lia|].
  destruct (Z.leb_spec 0 i); [|lia]. cbn [andb].
  destruct (Z.ltb_spec i (Z.min k (Z.max 0 n))), (Z.ltb_spec i k); try lia; [reflexivity|apply rd_array1; lia].
Qed.

Lemma pyfill_from_neg A n (f : Z -> A) k v : 1 <= k ->
  pyfill (array1 n f) (Some (- k)) None v = array1 n (fun i => if n - k <=? i then v else f i).
Proof.
  intros Hk. apply list_eq_array1; [rewrite pyfill_length; apply array1_length|].
  intros i Hi. rewrite rd_pyfill, array1_length. cbn [pylo pyhi]. unfold pynorm. destruct (Z.ltb_spec (- k) 0); [|lia].
  destruct (Z.ltb_spec i (Z.max 0 n)); [|lia]. rewrite andb_true_r.
  destruct (Z.leb_spec (Z.max 0 (- k + Z.max 0 n)) i), (Z.leb_spec (n - k) i); try lia; [reflexivity|apply rd_array1; lia].
Qed.

Lemma fdiv_same a : a <> 0%R -> fdiv a a = Some 1%R.
Proof. intros H. unfold fdiv. destruct (Req_EM_T a 0); [contradiction|]. f_equal. field. exact H. Qed.

Definition py_guard (tiny s l : R) : option R := if Rlt_dec l tiny then Some 1%R else Some (s / l)%R.

Lemma guarded_ratio_array1 tiny n s l : (0 < tiny)%R ->
  guarded_ratio tiny (array1 n s) (array1 n l) = array1 n (fun i => py_guard tiny (s i) (l i)).
Proof.
  intros Ht. unfold guarded_ratio. rewrite combine_array1, map_array1. apply array1_ext. intros i Hi.
  unfold py_guard. destruct (Rlt_dec (l i) tiny) as [H|H]; [apply fdiv_same; lra|].
  unfold fdiv. destruct (Req_EM_T (l i) 0); [lra|reflexivity].
Qed.

Lemma window_diff_wsum n x w : 1 <= w ->
  window_diff (cumsum (array1 n x)) w
  = Some (array1 n (fun i => if i <? w then wsum x 0 (i + 1) else wsum x (i - w + 1) w)).
Proof.
  intros Hw. rewrite cumsum_array1, window_diff_ok by exact Hw. f_equal. apply array1_ext. intros i Hi.
  destruct (Z.ltb_spec i w); [reflexivity|].
  replace (i + 1) with (i - w + 1 + w) at 1 by ring. rewrite (wsum_split x 0 (i - w + 1) w) by lia.
  rewrite Z.add_0_l. lra.
Qed.

Lemma overlapping_py_ok tiny x n nsta nlta : (0 < tiny <= 1)%R -> 1 <= nsta <= nlta ->
  overlapping_py tiny (array1 n x) nsta nlta
  = Ret (array1 n (fun i => if i <? nlta - 1 then Some 1%R
      else py_guard tiny (window_mean x (i - nsta + 1) nsta) (window_mean x (i - nlta + 1) nlta))).
Proof.
  intros Ht Hs. unfold overlapping_py. rewrite !window_diff_wsum by lia.
  unfold scale_list. rewrite !map_array1, !pyfill_upto by lia. rewrite guarded_ratio_array1 by lra.
  f_equal. apply array1_ext. intros i Hi. destruct (Z.ltb_spec i (nlta - 1)) as [H|H].
  - unfold py_guard. destruct (Rlt_dec 1 tiny); [lra|]. f_equal. field.
  - unfold window_mean. fold (wsum x (i - nsta + 1) nsta). fold (wsum x (i - nlta + 1) nlta).
    f_equal; f_equal.
    + destruct (Z.ltb_spec i nsta); [|reflexivity]. f_equal; lia.
    + destruct (Z.ltb_spec i nlta); [|reflexivity]. f_equal; lia.
Qed.

Lemma centred_shift n (s : Z -> R) nsta : 1 <= nsta ->
  pyset (array1 n s) (Some nsta) (Some (- nsta)) (pyslice (array1 n s) (Some (nsta * 2)) None)
  = Some (array1 n (fun i => if (nsta <=? i) && (i <? n - nsta) then s (i + nsta) else s i)).
Proof.
  intros Hs. rewrite pyslice_from by lia.
  destruct (pyset_some _ (array1 n s) (Some nsta) (Some (- nsta)) (array1 (n - nsta * 2) (fun i => s (nsta * 2 + i))))
    as (l & E & Hlen & Hrd).
  { rewrite !array1_length. cbn [pylo pyhi]. unfold pynorm.
    destruct (Z.ltb_spec nsta 0); [lia|]. destruct (Z.ltb_spec (- nsta) 0); lia. }
  rewrite E. f_equal. apply list_eq_array1; [rewrite Hlen; apply array1_length|].
  intros i Hi. rewrite Hrd, array1_length. cbn [pylo pyhi]. unfold pynorm.
  destruct (Z.ltb_spec nsta 0); [lia|]. destruct (Z.ltb_spec (- nsta) 0); [|lia].
  destruct (Z.leb_spec (Z.min nsta (Z.max 0 n)) i), (Z.leb_spec nsta i);
    destruct (Z.ltb_spec i (Z.max 0 (- nsta + Z.max 0 n))), (Z.ltb_spec i (n - nsta)); cbn [andb]; try lia;
    try (apply rd_array1; lia).
  rewrite Z.min_l by lia. rewrite rd_array1 by lia. do 2 f_equal. lia.
Qed.

Lemma centred_py_ok tiny x n nsta nlta : (0 < tiny <= 1)%R -> 1 <= nsta < nlta -> 
  centred_py tiny (array1 n x) nsta nlta
  = Ret (array1 n (fun i => if i <? nlta - 1 then Some 1%R else if n - nsta <=? i then Some 1%R
      else py_guard tiny (window_mean x (i + 1) nsta) (window_mean x (i - nlta + 1) nlta))).
Proof.
  intros Ht Hs. unfold centred_py. rewrite !window_diff_wsum by lia. rewrite centred_shift by lia.
  unfold scale_list. rewrite !map_array1, !pyfill_upto, !pyfill_from_neg by lia. rewrite guarded_ratio_array1 by lra.
  f_equal. apply array1_ext. intros i Hi.
  assert (H1 : py_guard tiny 1 1 = Some 1%R).
  { unfold py_guard. destruct (Rlt_dec 1 tiny); [lra|]. f_equal. field. }
  destruct (Z.leb_spec (n - nsta) i) as [Ha|Ha].
  - destruct (Z.ltb_spec i (nlta - 1)); exact H1.
  - destruct (Z.ltb_spec i (nlta - 1)) as [Hb|Hb]; [exact H1|].
    destruct (Z.leb_spec nsta i); [|lia]. destruct (Z.ltb_spec i (n - nsta)); [|lia]. cbn [andb].
    destruct (Z.ltb_spec (i + nsta) nsta); [lia|].
    unfold window_mean. fold (wsum x (i + 1) nsta). fold (wsum x (i - nlta + 1) nlta).
    f_equal; f_equal.
    + f_equal; lia.
    + destruct (Z.ltb_spec i nlta); [|reflexivity]. f_equal; lia.
Qed.

(** Python versions: every sample is a number, whatever the windows. *)
Lemma guarded_ratio_defined tiny s l : (0 < tiny)%R -> Forall is_number (guarded_ratio tiny s l).
Proof.
  intros Ht. unfold guarded_ratio. apply Forall_forall. intros v Hv. apply in_map_iff in Hv.
  destruct Hv as ([a b] & <- & _). unfold is_number. destruct (Rlt_dec b tiny) as [H|H].
  - rewrite fdiv_same by lra. discriminate.
  - unfold fdiv. destruct (Req_EM_T b 0); [lra|discriminate].
Qed.

Lemma overlapping_py_defined tiny sig nsta nlta o : (0 < tiny)%R ->
  overlapping_py tiny sig nsta nlta = Ret o -> Forall is_number o.
Proof.
  intros Ht. unfold overlapping_py. destruct (window_diff (cumsum sig) nsta) as [a|], (window_diff (cumsum sig) nlta) as [b|]; try discriminate.
  intros H. injection H as <-. apply guarded_ratio_defined, Ht.
Qed.

Lemma centred_py_defined tiny sig nsta nlta o : (0 < tiny)%R ->
  centred_py tiny sig nsta nlta = Ret o -> Forall is_number o.
Proof.
  intros Ht. unfold centred_py. destruct (window_diff (cumsum sig) nsta) as [a|], (window_diff (cumsum sig) nlta) as [b|]; try discriminate.
  match goal with |- context [pyset ?a ?b ?c ?d] => destruct (pyset a b c d) end; [|discriminate].
  intros H. injection H as <-. apply guarded_ratio_defined, Ht.
Qed.

Lemma ratio_number a b : b <> 0%R <-> is_number (ratio a b).
Proof.
  unfold is_number, ratio. destruct (Req_EM_T b 0); split; intros H; try discriminate; try contradiction; congruence.
Qed.

Lemma Forall_array1 A (P : A -> Prop) n f : Forall P (array1 n f) <-> forall i, 0 <= i < n -> P (f i).
Proof.
  unfold array1. rewrite Forall_map, Forall_forall. split; intros H i Hi; apply H; apply in_zrange; exact Hi.
Qed.

Lemma c_centred_numbers x n nsta nlta o : 1 <= nsta -> 1 <= nlta -> nlta + nsta <= n ->
  lib_centred (array1 n x) nsta nlta = Ret o ->
  (Forall is_number o <-> window_mean x 0 nlta <> 0%R).
Proof.
  intros Hs Hl Hn E. rewrite c_centred_ok in E by lia. injection E as <-. rewrite Forall_array1. split.
  - intros H. specialize (H (nlta - 1) ltac:(lia)). cbv beta in H.
    destruct (Z.ltb_spec (nlta - 1) (nlta - 1)); [lia|]. destruct (Z.leb_spec (n - nsta) (nlta - 1)); [lia|].
    rewrite Z.eqb_refl in H. unfold cen_value in H. replace (nlta - 1 - nlta + 1) with 0 in H by ring.
    apply ratio_number in H. exact H.
  - intros H i Hi. destruct (Z.ltb_spec i (nlta - 1)); [discriminate|]. destruct (Z.leb_spec (n - nsta) i); [discriminate|].
    destruct (Z.eqb_spec i (nlta - 1)) as [->|Hne].
    + apply ratio_number. replace (nlta - 1 - nlta + 1) with 0 by ring. exact H.
    + destruct (Rlt_dec 0 _) as [P|P]; [|discriminate]. apply ratio_number. lra.
Qed.

Lemma c_overlapping_numbers x n nsta nlta o : 1 <= nsta <= nlta -> nlta <= n ->
  lib_overlapping (array1 n x) nsta nlta = Ret o ->
  (Forall is_number o <-> forall i, nlta - 1 <= i < n -> window_mean x (i - nlta + 1) nlta <> 0%R).
Proof.
  intros Hs Hn E. rewrite c_overlapping_ok in E by lia. injection E as <-. rewrite Forall_array1. split.
  - intros H i Hi. specialize (H i ltac:(lia)). cbv beta in H. destruct (Z.ltb_spec i (nlta - 1)); [lia|].
    apply ratio_number in H. exact H.
  - intros H i Hi. destruct (Z.ltb_spec i (nlta - 1)); [discriminate|]. apply ratio_number. apply H. lia.
Qed.

Lemma window_mean_zero lo w : window_mean (fun _ => 0%R) lo w = 0%R.
Proof.
  unfold window_mean. change (Rsum (map (fun _ : Z => 0%R) (zseq lo (Z.to_nat w)))) with (wsum (fun _ => 0%R) lo w).
  assert (E : wsum (fun _ => 0%R) lo w = 0%R).
  { unfold wsum, Rsum. induction (zseq lo (Z.to_nat w)) as [|a l IH]; cbn [map fold_right]; [reflexivity|]. rewrite IH. lra. }
  rewrite E. unfold Rdiv. ring.
Qed.

(** Recursive version in closed form. *)
Lemma c_recursive_ok x n nsta nlta : 0 <= n -> 0 <= nlta ->
  lib_recursive (array1 n x) nsta nlta
  = Ret (array1 n (fun i =>
      if (nlta <? n) && (i <? nlta) then Some 1%R
      else if i =? 0 then Some 0%R
      else ratio (exp_average (1 / IZR nsta) x (Z.to_nat i)) (exp_average (1 / IZR nlta) x (Z.to_nat i)))).
Proof.
  intros Hn Hl. unfold lib_recursive.
  assert (HL : Z.of_nat (length (array1 n x)) = n) by (rewrite array1_length; lia).
  rewrite HL. replace (length (array1 n x)) with (Z.to_nat n) by lia. unfold c_recursive.
  set (val := fun i => if i =? 0 then Some 0%R
      else ratio (exp_average (1 / IZR nsta) x (Z.to_nat i)) (exp_average (1 / IZR nlta) x (Z.to_nat i))).
  assert (Hmain : exists st, for_ 1 n (fun i (st : R * R * list (option R)) =>
          let '(sta, lta, on) := st in
          match rd (array1 n x) i with
          | Some buf =>
              let sta' := (1 / IZR nsta * buf + (1 - 1 / IZR nsta) * sta)%R in
              let lta' := (1 / IZR nlta * buf + (1 - 1 / IZR nlta) * lta)%R in
              match wr on i (fdiv sta' lta') with
              | Some on' => Some (sta', lta', on')
              | None => None
              end
          | None => None
          end) (0%R, 0%R, repeat (Some 0%R) (Z.to_nat n)) = Some st /\ snd st = array1 n val).
  { destruct (Z.lt_ge_cases n 1) as [H|H].
    - rewrite for_empty by lia. eexists. split; [reflexivity|]. cbn [snd].
      replace n with 0 by lia. reflexivity.
    - match goal with |- exists _, for_ 1 n ?bd ?s0 = _ /\ _ =>
      destruct (for_inv _ (fun i (st : R * R * list (option R)) =>
        fst (fst st) = exp_average (1 / IZR nsta) x (Z.to_nat (i - 1)) /\
        snd (fst st) = exp_average (1 / IZR nlta) x (Z.to_nat (i - 1)) /\
        Z.of_nat (length (snd st)) = n /\
        forall j, 0 <= j < n -> rd (snd st) j = Some (if j <? i then val j else Some 0%R)) 1 n bd s0)
        as (st & E & _ & _ & Hlen & Hrd) end; try lia.
      + cbn [fst snd]. split; [reflexivity|]. split; [reflexivity|]. split; [rewrite repeat_length; lia|].
        intros j Hj. rewrite rd_repeat by lia. destruct (Z.ltb_spec j 1); [|reflexivity].
        unfold val. destruct (Z.eqb_spec j 0); [reflexivity|lia].
      + intros i [[s l] on] Hi (A1 & A2 & A3 & A4). cbn [fst snd] in *. rewrite rd_array1 by lia. cbn zeta.
        set (s' := (1 / IZR nsta * x i + (1 - 1 / IZR nsta) * s)%R).
        set (l' := (1 / IZR nlta * x i + (1 - 1 / IZR nlta) * l)%R).
        assert (Hexp : forall c, exp_average c x (Z.to_nat i) = (c * x i + (1 - c) * exp_average c x (Z.to_nat (i - 1)))%R).
        { intros c. replace (Z.to_nat i) with (S (Z.to_nat (i - 1))) by lia. cbn [exp_average].
          replace (Z.of_nat (S (Z.to_nat (i - 1)))) with i by lia. reflexivity. }
        destruct (wr_some _ on i (fdiv s' l')) as [on' W]; [lia|]. rewrite W.
        eexists. split; [reflexivity|]. cbn [fst snd]. replace (i + 1 - 1) with i by ring.
        split; [rewrite Hexp; unfold s'; rewrite A1; reflexivity|].
        split; [rewrite Hexp; unfold l'; rewrite A2; reflexivity|].
        split; [rewrite (wr_length _ _ _ _ _ W); exact A3|].
        intros j Hj. rewrite (wr_rd _ _ _ _ _ j W). destruct (Z.eqb_spec j i) as [->|Hne].
        * destruct (Z.ltb_spec i (i + 1)); [|lia]. unfold val. destruct (Z.eqb_spec i 0); [lia|].
          rewrite !Hexp, <- A1, <- A2. reflexivity.
        * rewrite A4 by lia. destruct (Z.ltb_spec j i), (Z.ltb_spec j (i + 1)); try reflexivity; lia.
      + rewrite E. exists st. split; [reflexivity|]. apply list_eq_array1; [lia|].
        intros j Hj. rewrite Hrd by lia. destruct (Z.ltb_spec j n); [reflexivity|lia]. }
  destruct Hmain as ([[s2 l2] o2] & E & Ho). cbn [snd] in Ho. subst o2. cbv zeta in E |- *. rewrite E.
  destruct (Z.ltb_spec nlta n) as [H|H]; cbn [andb].
  - destruct (for_inv _ (fun i (on : list (option R)) => Z.of_nat (length on) = n /\
        forall j, 0 <= j < n -> rd on j = Some (if j <? i then Some 1%R else val j)) 0 nlta
          (fun i on => wr on i (Some 1%R)) (array1 n val)) as (o3 & E3 & Hlen3 & Hrd3); try lia.
    + split; [rewrite array1_length; lia|]. intros j Hj. rewrite rd_array1 by lia.
      destruct (Z.ltb_spec j 0); [lia|reflexivity].
    + intros i on Hi [Hlen Hrd]. destruct (wr_some _ on i (Some 1%R)) as [on' W]; [lia|]. exists on'.
      split; [exact W|]. split; [rewrite (wr_length _ _ _ _ _ W); exact Hlen|].
      intros j Hj. rewrite (wr_rd _ _ _ _ _ j W). destruct (Z.eqb_spec j i) as [->|Hne].
      * destruct (Z.ltb_spec i (i + 1)); [reflexivity|lia].
      * rewrite Hrd by lia. destruct (Z.ltb_spec j i), (Z.ltb_spec j (i + 1)); try reflexivity; lia.
    + rewrite E3. f_equal. apply list_eq_array1; [lia|]. intros j Hj. rewrite Hrd3 by lia. reflexivity.
  - reflexivity.
Qed.

(* ------------------------------------------------------------------ *)
(** * Units *)

Lemma window_mean_scale c x lo w : window_mean (fun i => c * x i)%R lo w = (c * window_mean x lo w)%R.
Proof.
  unfold window_mean. fold (wsum (fun i => c * x i)%R lo w). fold (wsum x lo w). rewrite wsum_scale. unfold Rdiv. ring.
Qed.

Lemma ratio_scale c a b : c <> 0%R -> ratio (c * a) (c * b) = ratio a b.
Proof.
  intros Hc. unfold ratio. destruct (Req_EM_T b 0) as [->|Hb], (Req_EM_T (c * _) 0) as [E|E]; try reflexivity.
  - exfalso. apply E. ring.
  - exfalso. apply Rmult_integral in E. tauto.
  - f_equal. field. tauto.
Qed.

Lemma overlapping_scale c x n nsta nlta : c <> 0%R -> 0 <= n -> 1 <= nsta <= nlta ->
  lib_overlapping (array1 n (fun i => c * x i)%R) nsta nlta = lib_overlapping (array1 n x) nsta nlta.
Proof.
  intros Hc Hn Hs. destruct (Z.lt_ge_cases n nlta).
  - rewrite !c_overlapping_undef by lia. reflexivity.
  - rewrite !c_overlapping_ok by lia. f_equal. apply array1_ext. intros i Hi.
    destruct (Z.ltb_spec i (nlta - 1)); [reflexivity|]. unfold ovl_value.
    rewrite !window_mean_scale. apply ratio_scale, Hc.
Qed.

Lemma centred_scale c x n nsta nlta : (0 < c)%R -> 0 <= n -> 1 <= nsta -> 1 <= nlta ->
  lib_centred (array1 n (fun i => c * x i)%R) nsta nlta = lib_centred (array1 n x) nsta nlta.
Proof.
  intros Hc Hn Hs Hl. destruct (Z.lt_ge_cases n (nlta + nsta)).
  - rewrite !c_centred_undef by lia. reflexivity.
  - rewrite !c_centred_ok by lia. f_equal. apply array1_ext. intros i Hi.
    destruct (Z.ltb_spec i (nlta - 1)); [reflexivity|]. destruct (Z.leb_spec (n - nsta) i); [reflexivity|].
    unfold cen_value. rewrite !window_mean_scale, ratio_scale by lra.
    destruct (Z.eqb_spec i (nlta - 1)); [reflexivity|].
    destruct (Rlt_dec 0 (c * _)) as [P|P], (Rlt_dec 0 (window_mean x (i - nlta + 1) nlta)) as [Q|Q]; try reflexivity.
    + exfalso. apply Q. apply (Rmult_lt_reg_l c); lra.
    + exfalso. apply P. apply Rmult_lt_0_compat; lra.
Qed.

Lemma exp_average_scale w c x i : exp_average w (fun j => c * x j)%R i = (c * exp_average w x i)%R.
Proof. induction i as [|i IH]; cbn [exp_average]; [ring|]. rewrite IH. ring. Qed.

Lemma recursive_scale c x n nsta nlta : c <> 0%R -> 0 <= n -> 0 <= nlta ->
  lib_recursive (array1 n (fun i => c * x i)%R) nsta nlta = lib_recursive (array1 n x) nsta nlta.
Proof.
  intros Hc Hn Hl. rewrite !c_recursive_ok by lia. f_equal. apply array1_ext. intros i Hi.
  rewrite !exp_average_scale, ratio_scale by exact Hc. reflexivity.
Qed.

Lemma py_guard_scale tiny c s l : (0 < tiny)%R -> c <> 0%R -> (tiny <= l)%R -> (tiny <= c * l)%R ->
  py_guard tiny (c * s) (c * l) = py_guard tiny s l.
Proof.
  intros Ht Hc H1 H2. unfold py_guard. destruct (Rlt_dec l tiny); [lra|]. destruct (Rlt_dec (c * l) tiny); [lra|].
  f_equal. field. split; [lra|exact Hc].
Qed.

Lemma ovl_value_bounds x nsta nlta i v : 1 <= nsta <= nlta ->
  (forall j, i - nlta < j <= i -> (0 <= x j)%R) ->
  ovl_value x nsta nlta i = Some v -> (0 <= v <= IZR nlta / IZR nsta)%R.
Proof.
  intros Hs Hx. unfold ovl_value, ratio. destruct (Req_EM_T _ 0) as [E|E]; [discriminate|].
  intros H. injection H as <-. revert E. unfold window_mean.
  fold (wsum x (i - nsta + 1) nsta). fold (wsum x (i - nlta + 1) nlta).
  assert (0 < IZR nsta)%R by (apply IZR_lt; lia). assert (0 < IZR nlta)%R by (apply IZR_lt; lia).
  assert (Hsplit : wsum x (i - nlta + 1) nlta = (wsum x (i - nlta + 1) (nlta - nsta) + wsum x (i - nsta + 1) nsta)%R).
  { replace nlta with (nlta - nsta + nsta) at 2 by ring. rewrite wsum_split by lia. f_equal. f_equal. lia. }
  assert (H1 : (0 <= wsum x (i - nlta + 1) (nlta - nsta))%R) by (apply wsum_nonneg; intros; apply Hx; lia).
  assert (H2 : (0 <= wsum x (i - nsta + 1) nsta)%R) by (apply wsum_nonneg; intros; apply Hx; lia).
  set (S := wsum x (i - nsta + 1) nsta) in *. set (L := wsum x (i - nlta + 1) nlta) in *. intros E.
  assert (HL : (0 < L)%R).
  { destruct (Rle_lt_or_eq_dec 0 L) as [|Z0]; [lra|assumption|]. exfalso. apply E. rewrite <- Z0. unfold Rdiv. ring. }
  replace (S / IZR nsta / (L / IZR nlta))%R with ((S / L) * (IZR nlta / IZR nsta))%R by (field; lra).
  assert (HSL : (0 <= S / L <= 1)%R).
  { split; [apply Rmult_le_pos; [lra|left; apply Rinv_0_lt_compat; lra]|].
    apply (Rmult_le_reg_r L); [lra|]. unfold Rdiv. rewrite Rmult_assoc, Rinv_l by lra. lra. }
  assert (Hr : (0 <= IZR nlta / IZR nsta)%R) by (apply Rmult_le_pos; [lra|left; apply Rinv_0_lt_compat; lra]).
  split; [apply Rmult_le_pos; lra|].
  rewrite <- (Rmult_1_l (IZR nlta / IZR nsta)) at 2. apply Rmult_le_compat_r; lra.
Qed.

(** Transforms turn a change of units of the waveform into a positive factor. *)
Lemma energy_scale c n d : energy (array1 n (fun i => c * d i)%R) = array1 n (fun i => (c * c) * (d i * d i))%R.
Proof. unfold energy. rewrite map_array1. apply array1_ext. intros. ring. Qed.
Lemma energy_array n d : energy (array1 n d) = array1 n (fun i => d i * d i)%R.
Proof. unfold energy. apply map_array1. Qed.
Lemma absval_scale c n d : absval (array1 n (fun i => c * d i)%R) = array1 n (fun i => Rabs c * Rabs (d i))%R.
Proof. unfold absval. rewrite map_array1. apply array1_ext. intros. apply Rabs_mult. Qed.
Lemma absval_array n d : absval (array1 n d) = array1 n (fun i => Rabs (d i)).
Proof. unfold absval. apply map_array1. Qed.

(* ------------------------------------------------------------------ *)
(** * Components *)

Lemma add_lists_array1 n f g : add_lists (array1 n f) (array1 n g) = array1 n (fun i => fadd (f i) (g i)).
Proof. unfold array1. induction (zrange n) as [|i l IH]; [reflexivity|]. cbn [map add_lists]. rewrite IH. reflexivity. Qed.

Lemma fold_add n (fs : list (Z -> R)) g :
  fold_left (fun acc x => add_lists acc (map fsq x)) (map (fun f => array1 n (fun i => Some (f i))) fs) (array1 n (fun i => Some (g i)))
  = array1 n (fun i => Some (g i + Rsum (map (fun f : Z -> R => f i * f i) fs))%R).
Proof.
  revert g. induction fs as [|f fs IH]; intros g; cbn [map fold_left].
  - apply array1_ext. intros i _. unfold Rsum. cbn. f_equal. ring.
  - rewrite map_array1, add_lists_array1. cbn [fadd fsq option_map].
    rewrite (IH (fun i => (g i + f i * f i)%R)). apply array1_ext. intros i _. unfold Rsum. cbn [map fold_right]. f_equal. ring.
Qed.

Lemma combine_components_ok n (fs : list (Z -> R)) : fs <> [] ->
  combine_components (map (fun f => array1 n (fun i => Some (f i))) fs)
  = array1 n (fun i => Some (rms (map (fun f => f i) fs))).
Proof.
  destruct fs as [|f fs]; [congruence|]. intros _. unfold combine_components. cbn [map].
  rewrite map_array1. cbn [fsq option_map]. rewrite (fold_add n fs (fun i => (f i * f i)%R)).
  rewrite map_array1. apply array1_ext. intros i _. cbn [option_map]. f_equal. unfold rms.
  cbn [map length]. rewrite !map_length, map_map. unfold Rsum. cbn [fold_right]. reflexivity.
Qed.

Definition edge1 (n stw ltw tp : Z) (f : Z -> R) (i : Z) : R :=
  if (i <? tp + ltw - 1) || (n - (stw + tp) <=? i) then 1%R else f i.

Lemma trim_taper_pad1_ok n stw ltw tp f : 1 <= stw -> 1 <= ltw -> 0 <= tp ->
  trim_taper_pad1 stw ltw tp (array1 n (fun i => Some (f i))) = array1 n (fun i => Some (edge1 n stw ltw tp f i)).
Proof.
  intros Hs Hl Ht. unfold trim_taper_pad1. rewrite pyfill_upto, pyfill_from_neg by lia. apply array1_ext.
  intros i Hi. unfold edge1. destruct (Z.ltb_spec i (tp + ltw - 1)), (Z.leb_spec (n - (stw + tp)) i); reflexivity.
Qed.

Lemma combined_onset_ok mov n stw ltw taper fs : fs <> [] -> 1 <= stw -> 1 <= ltw ->
  (forall tp, taper = Some tp -> 0 <= tp) ->
  combined_onset mov stw ltw taper (map (fun f => array1 n (fun i => Some (f i))) fs)
  = array1 n (fun i => Some (Rmax (rms (map (fun f =>
      match taper with Some tp => edge1 n stw ltw tp f i | None => f i end) fs)) mov)).
Proof.
  intros Hne Hs Hl Ht. unfold combined_onset, clip_min. destruct taper as [tp|].
  - rewrite map_map.
    rewrite (map_ext_in _ (fun f => array1 n (fun i => Some (edge1 n stw ltw tp f i)))).
    2:{ intros f _. apply trim_taper_pad1_ok; try lia. apply Ht. reflexivity. }
    rewrite <- (map_map (fun f => edge1 n stw ltw tp f) (fun f => array1 n (fun i => Some (f i)))).
    rewrite combine_components_ok by (destruct fs; cbn; congruence).
    rewrite map_array1. apply array1_ext. intros i _. cbn [option_map]. rewrite map_map. reflexivity.
  - rewrite combine_components_ok by exact Hne. rewrite map_array1. reflexivity.
Qed.

Lemma rms_bounds l a b : l <> [] -> (0 <= a)%R -> (forall v, In v l -> (a <= v <= b)%R) -> (a <= rms l <= b)%R.
Proof.
  intros Hne Ha H. unfold rms.
  assert (Hl : (0 < INR (length l))%R) by (apply lt_0_INR; destruct l; [congruence|cbn; lia]).
  assert (Hb : (0 <= b)%R). { destruct l as [|v l]; [congruence|]. specialize (H v (or_introl eq_refl)). lra. }
  assert (Hsum : forall l, (forall v, In v l -> (a <= v <= b)%R) ->
     (a * a * INR (length l) <= Rsum (map (fun v => v * v) l) <= b * b * INR (length l))%R).
  { clear -Ha. induction l as [|v l IH]; intros H; [unfold Rsum; cbn; lra|].
    specialize (IH (fun w Hw => H w (or_intror Hw))). specialize (H v (or_introl eq_refl)).
    cbn [length]. rewrite S_INR. unfold Rsum in *. cbn [map fold_right].
    assert (a * a <= v * v)%R by (apply Rmult_le_compat; lra).
    assert (v * v <= b * b)%R by (apply Rmult_le_compat; lra). lra. }
  destruct (Hsum l H) as [H1 H2]. split.
  - rewrite <- (sqrt_square a) by exact Ha. apply sqrt_le_1_alt.
    apply (Rmult_le_reg_r (INR (length l))); [exact Hl|].
    replace (Rsum (map (fun v => v * v) l) / INR (length l) * INR (length l))%R with (Rsum (map (fun v => v * v)%R l)) by (field; lra). lra.
  - rewrite <- (sqrt_square b) by exact Hb. apply sqrt_le_1_alt.
    apply (Rmult_le_reg_r (INR (length l))); [exact Hl|].
    replace (Rsum (map (fun v => v * v) l) / INR (length l) * INR (length l))%R with (Rsum (map (fun v => v * v)%R l)) by (field; lra). lra.
Qed.

Lemma rms_ones l : l <> [] -> (forall v, In v l -> v = 1%R) -> rms l = 1%R.
Proof.
  intros Hne H. destruct (rms_bounds l 1 1 Hne ltac:(lra)) as [H1 H2]; [|lra].
  intros v Hv. rewrite (H v Hv). lra.
Qed.

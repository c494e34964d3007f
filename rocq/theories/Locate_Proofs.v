(** Proofs about the locate stage. *)
From Coq Require Import String Ascii.
From Coq Require Import List ZArith Reals Lra Lia Bool.
From Verif Require Import Lib LibFacts PySlice PySliceFacts PyDict Migrate_Model Migrate_Spec Migrate_Proofs
  ScanMseed_Model ScanMseed_Proofs Timeline_Model Timeline_Spec Lut_Model Lut_Spec Lut_Proofs Locate_Model Locate_Spec.
Import ListNotations.
Open Scope Z_scope.

(** * Largest element *)
Lemma argmax_from_ok l : forall i best bv pre,
  i = Z.of_nat (length pre) ->
  rd pre best = Some bv -> (forall q w, rd pre q = Some w -> (w <= bv)%R) ->
  (forall q w, q < best -> rd pre q = Some w -> (w < bv)%R) ->
  first_largest (pre ++ l) (argmax_from i best bv l).
Proof.
  induction l as [|v l IH]; intros i best bv pre Ei Hb Hle Hlt; cbn [argmax_from].
  - rewrite app_nil_r. exists bv. auto.
  - destruct (rd_bounds _ _ _ _ Hb) as [B1 B2].
    replace (pre ++ v :: l) with ((pre ++ [v]) ++ l) by (rewrite <- app_assoc; reflexivity).
    assert (Hnew : rd (pre ++ [v]) i = Some v).
    { rewrite rd_app2 by lia. replace (i - Z.of_nat (length pre)) with 0 by lia. reflexivity. }
    assert (Hsplit : forall q w, rd (pre ++ [v]) q = Some w -> rd pre q = Some w \/ (q = i /\ w = v)).
    { intros q w Hq. destruct (rd_bounds _ _ _ _ Hq) as [Q1 Q2]. rewrite app_length in Q2. cbn [length] in Q2.
      destruct (Z.eq_dec q i) as [->|Hn]; [right; split; congruence|].
      left. rewrite rd_app1 in Hq by lia. exact Hq. }
    destruct (Rlt_dec bv v) as [L|L].
    + apply IH; [rewrite app_length; cbn [length]; lia|exact Hnew| |].
      * intros q w Hq. destruct (Hsplit _ _ Hq) as [H|[-> ->]]; [specialize (Hle _ _ H)|]; lra.
      * intros q w Hq Hw. destruct (Hsplit _ _ Hw) as [H|[-> ->]]; [specialize (Hle _ _ H); lra|lia].
    + apply IH; [rewrite app_length; cbn [length]; lia| | |].
      * rewrite rd_app1 by lia. exact Hb.
      * intros q w Hq. destruct (Hsplit _ _ Hq) as [H|[-> ->]]; [apply (Hle _ _ H)|]; lra.
      * intros q w Hq Hw. destruct (Hsplit _ _ Hw) as [H|[-> ->]]; [apply (Hlt _ _ Hq H)|lia].
Qed.

Lemma argmax_ok l p : argmax l = Ret p -> first_largest l p.
Proof.
  destruct l as [|v l]; [discriminate|]. intros H. apply (f_equal (fun o => match o with Ret x => x | _ => 0 end)) in H.
  cbn [argmax] in H. subst p. apply (argmax_from_ok l 1 0 v [v]).
  - reflexivity.
  - reflexivity.
  - intros q w Hq. destruct (rd_bounds _ _ _ _ Hq) as [Q1 Q2]. cbn in Q2. replace q with 0 in Hq by lia.
    cbn in Hq. injection Hq as ->. lra.
  - intros q w Hq Hw. apply rd_bounds in Hw. lia.
Qed.

Lemma first_largest_unique l p q : first_largest l p -> first_largest l q -> p = q.
Proof.
  intros (v & Hv & Hle & Hlt) (w & Hw & Hle' & Hlt').
  destruct (Z.lt_trichotomy p q) as [C|[C|C]]; [|exact C|].
  - specialize (Hlt' p v C Hv). specialize (Hle q w Hw). lra.
  - specialize (Hlt q w C Hw). specialize (Hle' p v Hv). lra.
Qed.

Lemma argmax_total l : l <> [] -> exists p, argmax l = Ret p.
Proof. destruct l; [congruence|]. intros _. eexists. reflexivity. Qed.

Lemma argmax_iff l p : argmax l = Ret p <-> first_largest l p.
Proof.
  split; [apply argmax_ok|]. intros H.
  destruct (argmax_total l) as [q Hq].
  { intros ->. destruct H as (v & Hv & _). rewrite rd_nil in Hv. discriminate. }
  rewrite Hq. f_equal. apply (first_largest_unique l); [apply argmax_ok, Hq|exact H].
Qed.

Lemma peak_ok rows p r : first_largest (map r_coa rows) p -> rd rows p = Some r -> peak rows = Ret r.
Proof.
  intros H Hr. unfold peak. rewrite (proj2 (argmax_iff _ p) H). cbn [bind]. rewrite Hr. reflexivity.
Qed.

Lemma peak_inv rows r : peak rows = Ret r -> exists p, first_largest (map r_coa rows) p /\ rd rows p = Some r.
Proof.
  unfold peak. destruct (argmax (map r_coa rows)) as [p| |] eqn:E; try discriminate. cbn [bind].
  destruct (rd rows p) eqn:Er; [|discriminate]. intros H. injection H as ->. exists p. split; [apply argmax_ok, E|exact Er].
Qed.

Lemma dataframe_ok dt : forall coa norm xyz rows, dataframe dt coa norm xyz = Ret rows ->
  map r_dt rows = dt /\ map r_coa rows = coa /\ map r_norm rows = norm /\ map r_xyz rows = xyz.
Proof.
  induction dt as [|t dt IH]; intros [|a coa] [|b norm] [|p xyz] rows H; cbn [dataframe] in H; try discriminate.
  - injection H as <-. repeat split.
  - destruct (dataframe dt coa norm xyz) as [rs| |] eqn:E; try discriminate. cbn [bind] in H. injection H as <-.
    destruct (IH _ _ _ _ E) as (H1 & H2 & H3 & H4). cbn. repeat split; congruence.
Qed.

Lemma dataframe_total dt : forall coa norm xyz, length coa = length dt -> length norm = length dt -> length xyz = length dt ->
  exists rows, dataframe dt coa norm xyz = Ret rows.
Proof.
  induction dt as [|t dt IH]; intros [|a coa] [|b norm] [|p xyz] H1 H2 H3; try discriminate.
  - exists []. reflexivity.
  - cbn in H1, H2, H3. destruct (IH coa norm xyz) as [rs E]; try lia. cbn [dataframe]. rewrite E. eexists. reflexivity.
Qed.

(** * Windows of sorted lists *)
Lemma window_split {A} (f : A -> Z) lo hi (l : list A) : 
  (forall i j a b, i < j -> rd l i = Some a -> rd l j = Some b -> f a < f b) ->
  l = filter (fun x => f x <? lo) l ++ filter (fun x => (lo <=? f x) && (f x <=? hi)) l
      ++ filter (fun x => (lo <=? f x) && (hi <? f x)) l.
Proof.
  induction l as [|x l IH]; intros H; [reflexivity|].
  assert (Htl : forall y, In y l -> f x < f y).
  { intros y Hy. destruct (in_rd _ _ _ Hy) as [j Hj]. apply (H 0 (j + 1)).
    - apply rd_bounds in Hj. lia.
    - reflexivity.
    - rewrite rd_S by (apply rd_bounds in Hj; lia). exact Hj. }
  assert (IH' : l = filter (fun x => f x <? lo) l ++ filter (fun x => (lo <=? f x) && (f x <=? hi)) l
      ++ filter (fun x => (lo <=? f x) && (hi <? f x)) l).
  { apply IH. intros i j a b Hij Ha Hb. apply (H (i + 1) (j + 1)); [lia| |].
    - rewrite rd_S by (apply rd_bounds in Ha; lia). exact Ha.
    - rewrite rd_S by (apply rd_bounds in Hb; lia). exact Hb. }
  cbn [filter]. destruct (Z.ltb_spec (f x) lo) as [C|C].
  - rewrite (proj2 (Z.leb_gt _ _)) by lia. cbn [andb app]. f_equal. exact IH'.
  - rewrite (proj2 (Z.leb_le _ _)) by lia. cbn [andb].
    assert (E0 : filter (fun x => f x <? lo) l = []).
    { destruct (filter (fun x => f x <? lo) l) as [|y r] eqn:E; [reflexivity|].
      assert (Hy : In y (filter (fun x => f x <? lo) l)) by (rewrite E; left; reflexivity).
      apply filter_In in Hy. destruct Hy as [Hy1 Hy2]. apply Z.ltb_lt in Hy2. specialize (Htl y Hy1). lia. }
    rewrite E0 in IH' |- *. cbn [app] in *. destruct (Z.leb_spec (f x) hi) as [D|D].
    + rewrite (proj2 (Z.ltb_ge _ _)) by lia. cbn [app]. f_equal. exact IH'.
    + rewrite (proj2 (Z.ltb_lt _ _)) by lia.
      assert (E1 : filter (fun x => (lo <=? f x) && (f x <=? hi)) l = []).
      { destruct (filter (fun x => (lo <=? f x) && (f x <=? hi)) l) as [|y r] eqn:E; [reflexivity|].
        assert (Hy : In y (filter (fun x => (lo <=? f x) && (f x <=? hi)) l)) by (rewrite E; left; reflexivity).
        apply filter_In in Hy. destruct Hy as [Hy1 Hy2]. apply andb_true_iff in Hy2. destruct Hy2 as [_ Hy2].
        apply Z.leb_le in Hy2. specialize (Htl y Hy1). lia. }
      rewrite E1 in IH' |- *. cbn [app] in *. f_equal. exact IH'.
Qed.

Lemma combine_app_labels {A} (l1 l2 : list A) : forall lo,
  combine (zseq lo (length (l1 ++ l2))) (l1 ++ l2)
  = combine (zseq lo (length l1)) l1 ++ combine (zseq (lo + Z.of_nat (length l1)) (length l2)) l2.
Proof.
  induction l1 as [|x l1 IH]; intros lo.
  - cbn [app length zseq combine]. f_equal. f_equal. cbn. lia.
  - cbn [app length zseq combine]. f_equal. rewrite IH. f_equal. f_equal. f_equal. lia.
Qed.

Lemma map_snd_labels {A} (l : list A) : forall lo, map snd (combine (zseq lo (length l)) l) = l.
Proof. induction l as [|x l IH]; intros lo; [reflexivity|]. cbn [length zseq combine map snd]. f_equal. apply IH. Qed.

Lemma filter_labels {A} (P : A -> bool) (l : list A) : forall lo,
  map snd (filter (fun ir => P (snd ir)) (combine (zseq lo (length l)) l)) = filter P l.
Proof.
  induction l as [|x l IH]; intros lo; [reflexivity|].
  cbn [length zseq combine filter snd]. destruct (P x); cbn [map snd]; rewrite IH; reflexivity.
Qed.

Lemma filter_none {A} (P : A -> bool) l : (forall x, In x l -> P x = false) -> filter P l = [].
Proof.
  induction l as [|x l IH]; intros H; [reflexivity|]. cbn [filter]. rewrite H by (left; reflexivity).
  apply IH. intros y Hy. apply H. right. exact Hy.
Qed.
Lemma filter_all {A} (P : A -> bool) l : (forall x, In x l -> P x = true) -> filter P l = l.
Proof.
  induction l as [|x l IH]; intros H; [reflexivity|]. cbn [filter]. rewrite H by (left; reflexivity).
  f_equal. apply IH. intros y Hy. apply H. right. exact Hy.
Qed.

Lemma in_labels {A} (l : list A) lo ir : In ir (combine (zseq lo (length l)) l) -> In (snd ir) l.
Proof. destruct ir as [i r]. intros H. apply in_combine_r in H. exact H. Qed.

Lemma last_labels {A} (l : list A) : forall lo d, l <> [] ->
  fst (last (combine (zseq lo (length l)) l) d) = lo + Z.of_nat (length l) - 1.
Proof.
  induction l as [|x l IH]; intros lo d H; [congruence|].
  destruct l as [|y l]; [cbn; lia|].
  cbn [length zseq combine]. change (last ((lo, x) :: ?r) d) with (last r d) in *.
  specialize (IH (lo + 1) d ltac:(discriminate)). cbn [length zseq combine] in IH.
  cbn [length zseq combine]. rewrite IH. cbn [length]. lia.
Qed.

(** * Trimming to the marginal window *)
Lemma trim_ok {M} (e : event M) p : computed e p -> 0 <= e_mw e ->
  exists e' a, trim2window e = Ret e'
  /\ e_trig e' = e_trig e /\ e_mw e' = e_mw e /\ e_otime e' = e_otime e
  /\ e_rows e' = filter (fun r => (e_otime e - e_mw e <=? r_dt r) && (r_dt r <=? e_otime e + e_mw e)) (e_rows e)
  /\ first_largest (map r_coa (e_rows e')) (p - a) /\ rd (e_rows e') (p - a) = rd (e_rows e) p
  /\ 0 <= a
  /\ Z.of_nat (length (e_map e')) = Z.of_nat (length (e_rows e')) - 1
  /\ (forall i, 0 <= i < Z.of_nat (length (e_rows e')) -> rd (e_rows e') i = rd (e_rows e) (a + i))
  /\ (forall i, 0 <= i < Z.of_nat (length (e_map e')) -> rd (e_map e') i = rd (e_map e) (a + i)).
Proof.
  intros (Hinc & Hlen & Hpk & Hot) Hmw.
  set (lo := e_otime e - e_mw e). set (hi := e_otime e + e_mw e).
  set (W := fun r : coarow => (lo <=? r_dt r) && (r_dt r <=? hi)).
  assert (Hs : forall i j a b, i < j -> rd (e_rows e) i = Some a -> rd (e_rows e) j = Some b -> r_dt a < r_dt b).
  { intros i j a b Hij Ha Hb. apply (Hinc i j); [exact Hij| |]; rewrite rd_map; [rewrite Ha|rewrite Hb]; reflexivity. }
  pose proof (window_split r_dt lo hi (e_rows e) Hs) as Sp.
  set (A := filter (fun r => r_dt r <? lo) (e_rows e)) in *.
  set (C := filter (fun r => (lo <=? r_dt r) && (hi <? r_dt r)) (e_rows e)) in *.
  change (filter (fun x => (lo <=? r_dt x) && (r_dt x <=? hi)) (e_rows e)) with (filter W (e_rows e)) in Sp.
  set (B := filter W (e_rows e)) in *.
  assert (HA : forall x, In x A -> W x = false).
  { intros x Hx. apply filter_In in Hx. destruct Hx as [_ Hx]. apply Z.ltb_lt in Hx. unfold W.
    rewrite (proj2 (Z.leb_gt _ _)) by lia. reflexivity. }
  assert (HB : forall x, In x B -> W x = true) by (intros x Hx; apply filter_In in Hx; tauto).
  assert (HC : forall x, In x C -> W x = false).
  { intros x Hx. apply filter_In in Hx. destruct Hx as [_ Hx]. apply andb_true_iff in Hx. destruct Hx as [_ Hx].
    apply Z.ltb_lt in Hx. unfold W. rewrite (proj2 (Z.leb_gt (r_dt x) hi)) by lia. apply andb_false_r. }
  (* the peak row lies in B *)
  rewrite rd_map in Hot. destruct (rd (e_rows e) p) as [r|] eqn:Er; [|discriminate]. cbn [option_map] in Hot.
  injection Hot as Hot.
  assert (HrB : In r B).
  { apply filter_In. split; [apply (rd_in _ _ _ _ Er)|]. unfold W. apply andb_true_iff. split; apply Z.leb_le; unfold lo, hi; lia. }
  assert (Hp : exists q, p = Z.of_nat (length A) + q /\ rd B q = Some r).
  { destruct (rd_bounds _ _ _ _ Er) as [P1 P2]. rewrite Sp in Er.
    destruct (Z.lt_ge_cases p (Z.of_nat (length A))) as [D|D].
    - rewrite rd_app1 in Er by lia. apply rd_in in Er. apply HA in Er. rewrite (HB _ HrB) in Er. discriminate.
    - rewrite rd_app2 in Er by lia.
      destruct (Z.lt_ge_cases (p - Z.of_nat (length A)) (Z.of_nat (length B))) as [D'|D'].
      + rewrite rd_app1 in Er by lia. eexists. split; [|exact Er]. lia.
      + rewrite rd_app2 in Er by lia. apply rd_in in Er. apply HC in Er. rewrite (HB _ HrB) in Er. discriminate. }
  destruct Hp as (q & Ep & Hq).
  assert (Hrd : forall i, 0 <= i < Z.of_nat (length B) -> rd B i = rd (e_rows e) (Z.of_nat (length A) + i)).
  { intros i Hi. rewrite Sp. rewrite rd_app2 by lia. replace (Z.of_nat (length A) + i - Z.of_nat (length A)) with i by lia.
    rewrite rd_app1 by lia. reflexivity. }
  assert (HpkB : first_largest (map r_coa B) q).
  { destruct Hpk as (v & Hv & Hle & Hlt). exists v.
    assert (Hm : forall i w, rd (map r_coa B) i = Some w -> rd (map r_coa (e_rows e)) (Z.of_nat (length A) + i) = Some w).
    { intros i w Hi. pose proof (rd_bounds _ _ _ _ Hi) as Hb. rewrite map_length in Hb. rewrite rd_map in *.
      rewrite <- Hrd by lia. exact Hi. }
    split.
    - rewrite rd_map, Hrd by (apply rd_bounds in Hq; lia). rewrite <- Ep. rewrite rd_map in Hv. exact Hv.
    - split.
      + intros i w Hi. apply (Hle (Z.of_nat (length A) + i) w), Hm, Hi.
      + intros i w Hi Hw. apply (Hlt (Z.of_nat (length A) + i) w); [lia|]. apply Hm, Hw. }
  (* the labelled rows kept *)
  assert (Ek : filter (fun ir => W (snd ir)) (labelled (e_rows e))
               = combine (zseq (Z.of_nat (length A)) (length B)) B).
  { unfold labelled, zrange. rewrite Nat2Z.id. rewrite Sp at 1 2. rewrite combine_app_labels, combine_app_labels.
    rewrite !filter_app. rewrite (filter_none _ (combine (zseq 0 (length A)) A)) by (intros x Hx; apply HA, (in_labels _ _ _ Hx)).
    rewrite (filter_all _ (combine _ B)) by (intros x Hx; apply HB, (in_labels _ _ _ Hx)).
    rewrite (filter_none _ (combine _ C)) by (intros x Hx; apply HC, (in_labels _ _ _ Hx)).
    rewrite app_nil_r. cbn [app]. reflexivity. }
  assert (HBn : B <> []) by (intros E; rewrite E in HrB; destruct HrB).
  assert (Htot : Z.of_nat (length (e_rows e)) = Z.of_nat (length A) + Z.of_nat (length B) + Z.of_nat (length C)).
  { rewrite Sp. rewrite !app_length. lia. }
  unfold trim2window. cbv zeta. fold lo hi.
  change (filter (fun ir : Z * coarow => (lo <=? r_dt (snd ir)) && (r_dt (snd ir) <=? hi)) (labelled (e_rows e)))
    with (filter (fun ir => W (snd ir)) (labelled (e_rows e))).
  rewrite Ek. destruct (combine (zseq (Z.of_nat (length A)) (length B)) B) as [|first rest] eqn:Ec.
  { destruct B; [congruence|discriminate]. }
  assert (Ef : fst first = Z.of_nat (length A)).
  { destruct B as [|b B']; [congruence|]. cbn [length zseq combine] in Ec. injection Ec as <- _. reflexivity. }
  rewrite <- Ec. rewrite (last_labels B _ _ HBn), map_snd_labels, Ef.
  rewrite (peak_ok B q r HpkB Hq). cbn [bind].
  set (sl := pyslice (e_map e) (Some (Z.of_nat (length A))) (Some (Z.of_nat (length A) + Z.of_nat (length B) - 1))).
  assert (HBl : 0 < Z.of_nat (length B)) by (destruct B; [congruence|cbn [length]; lia]).
  assert (Hsl : Z.of_nat (length sl) = Z.of_nat (length B) - 1).
  { unfold sl. rewrite pyslice_length. cbn [pylo pyhi]. unfold pynorm. rewrite Hlen.
    destruct (Z.ltb_spec (Z.of_nat (length A)) 0); [lia|].
    destruct (Z.ltb_spec (Z.of_nat (length A) + Z.of_nat (length B) - 1) 0); lia. }
  eexists. exists (Z.of_nat (length A)). split; [reflexivity|].
  cbn [e_trig e_mw e_otime e_rows e_map].
  split; [reflexivity|]. split; [reflexivity|]. split; [exact Hot|]. split; [reflexivity|].
  replace (p - Z.of_nat (length A)) with q by lia.
  split; [exact HpkB|]. split; [congruence|]. split; [lia|]. split; [exact Hsl|]. split; [exact Hrd|].
  intros i Hi. unfold sl. rewrite Hsl in Hi. rewrite rd_pyslice; cbn [pylo pyhi]; unfold pynorm; rewrite Hlen;
    destruct (Z.ltb_spec (Z.of_nat (length A)) 0); try lia;
    destruct (Z.ltb_spec (Z.of_nat (length A) + Z.of_nat (length B) - 1) 0); try lia.
  f_equal. lia.
Qed.

(** * Reading the archive *)
Lemma load_days_ok c endtime : 0 < day c -> forall fuel d ds, load_days fuel c (d * day c) endtime = Some ds ->
  forall x, In x ds <-> d <= x <= endtime / day c.
Proof.
  intros Hd. induction fuel as [|fuel IH]; intros d ds H x; cbn [load_days] in H.
  - destruct (Z.leb_spec (d * day c) endtime) as [C|C]; [discriminate|]. injection H as <-. cbn [In].
    split; [tauto|]. intros [H1 H2].
    assert (x * day c <= endtime) by (pose proof (Z.mul_div_le endtime (day c) Hd);
      assert (x * day c <= endtime / day c * day c) by (apply Z.mul_le_mono_nonneg_r; lia); lia).
    assert (d * day c <= x * day c) by (apply Z.mul_le_mono_nonneg_r; lia). lia.
  - destruct (Z.leb_spec (d * day c) endtime) as [C|C].
    + destruct (load_days fuel c (d * day c + day c) endtime) as [ds'|] eqn:E; [|discriminate]. injection H as <-.
      replace (d * day c + day c) with ((d + 1) * day c) in E by ring.
      cbn [In]. rewrite (IH _ _ E x). rewrite Z.div_mul by lia.
      assert (d <= endtime / day c) by (apply Z.div_le_lower_bound; lia). lia.
    + injection H as <-. cbn [In]. split; [tauto|]. intros [H1 H2].
      assert (x * day c <= endtime) by (pose proof (Z.mul_div_le endtime (day c) Hd);
        assert (x * day c <= endtime / day c * day c) by (apply Z.mul_le_mono_nonneg_r; lia); lia).
      assert (d * day c <= x * day c) by (apply Z.mul_le_mono_nonneg_r; lia). lia.
Qed.

Lemma load_days_nodup c endtime : 0 < day c -> forall fuel d ds, load_days fuel c (d * day c) endtime = Some ds -> NoDup ds.
Proof.
  intros Hd. induction fuel as [|fuel IH]; intros d ds H; cbn [load_days] in H.
  - destruct (d * day c <=? endtime); [discriminate|]. injection H as <-. constructor.
  - destruct (d * day c <=? endtime); [|injection H as <-; constructor].
    destruct (load_days fuel c (d * day c + day c) endtime) as [ds'|] eqn:E; [|discriminate]. injection H as <-.
    replace (d * day c + day c) with ((d + 1) * day c) in E by ring.
    constructor; [|apply (IH _ _ E)]. rewrite (load_days_ok c endtime Hd _ _ _ E). rewrite Z.div_mul by lia. lia.
Qed.

Lemma load_days_total c endtime : 0 < day c -> forall fuel d, endtime / day c - d < Z.of_nat fuel ->
  exists ds, load_days fuel c (d * day c) endtime = Some ds.
Proof.
  intros Hd. induction fuel as [|fuel IH]; intros d H; cbn [load_days].
  - destruct (Z.leb_spec (d * day c) endtime) as [C|C]; [|eexists; reflexivity].
    assert (d <= endtime / day c) by (apply Z.div_le_lower_bound; lia). lia.
  - destruct (Z.leb_spec (d * day c) endtime) as [C|C]; [|eexists; reflexivity].
    replace (d * day c + day c) with ((d + 1) * day c) by ring.
    destruct (IH (d + 1)) as [ds E]; [lia|]. rewrite E. eexists. reflexivity.
Qed.

Lemma midnight c t : 0 < day c -> t - t mod day c = t / day c * day c.
Proof. intros H. pose proof (Z.div_mod t (day c) ltac:(lia)). lia. Qed.

(** What a successful read returns. *)
Lemma read_ok fuel c glob all stations prepare b e p q raw st : 0 < delta c -> 0 < day c ->
  read_waveform_data fuel c glob all stations prepare b e p q = Some (Ret (raw, st)) ->
  (forall x, stored c glob all stations x -> b - Z.max 0 p <= s_time x <= e + Z.max 0 q -> In x raw)
  /\ (forall x, In x raw -> in_archive glob x /\ 2 * (b - Z.max 0 p - s_time x) < delta c /\ 2 * (s_time x - (e + Z.max 0 q)) <= delta c).
Proof.
  intros HD Hd H. unfold read_waveform_data in H. cbv zeta in H.
  destruct (load_from_path fuel c glob all stations (b - Z.max 0 p) (e + Z.max 0 q)) as [files|] eqn:El; [|discriminate].
  destruct files as [|f0 fs]; [discriminate|]. set (files := f0 :: fs) in *.
  set (raw' := flat_map (fun f : file => match f with
       | Some st => trim_to c (e + Z.max 0 q) (trim_from c (b - Z.max 0 p) st) | None => [] end) files) in *.
  assert (Eraw : raw = raw').
  { match type of H with (match ?X with [] => _ | _ => _ end = _) => destruct X end;
      [discriminate|]. injection H as <- _. reflexivity. }
  subst raw. clear H. unfold load_from_path in El.
  rewrite (midnight c (b - Z.max 0 p) Hd) in El.
  destruct (load_days fuel c ((b - Z.max 0 p) / day c * day c) (e + Z.max 0 q)) as [ds|] eqn:Ed; [|discriminate].
  injection El as El. pose proof (load_days_ok c _ Hd _ _ _ Ed) as Hds. split.
  - intros x Hs Ht.
    assert (Hday : In (s_time x / day c) ds).
    { apply Hds. split; apply Z.div_le_mono; lia. }
    assert (Hf : exists f, In (Some f) files /\ In x f).
    { rewrite <- El. unfold stored in Hs. destruct all.
      - destruct Hs as (f & H1 & H2). exists f. split; [|exact H2]. apply in_flat_map. exists (s_time x / day c). tauto.
      - destruct Hs as (s & f & H0 & H1 & H2). exists f. split; [|exact H2]. apply in_flat_map. exists (s_time x / day c).
        split; [exact Hday|]. apply in_flat_map. exists s. tauto. }
    destruct Hf as (f & Hf & Hx). unfold raw'. apply in_flat_map. exists (Some f). split; [exact Hf|].
    unfold trim_to, trim_from. apply filter_In. split; [apply filter_In; split; [exact Hx|apply Z.ltb_lt; lia]|apply Z.leb_le; lia].
  - intros x Hx. unfold raw' in Hx. apply in_flat_map in Hx. destruct Hx as ([f|] & Hf & Hx); [|destruct Hx].
    unfold trim_to, trim_from in Hx. apply filter_In in Hx. destruct Hx as [Hx H2]. apply filter_In in Hx. destruct Hx as [Hx H1].
    apply Z.ltb_lt in H1. apply Z.leb_le in H2. split; [|lia].
    rewrite <- El in Hf. apply in_flat_map in Hf. destruct Hf as (d & _ & Hf). destruct all.
    + exists d, None, f. auto.
    + apply in_flat_map in Hf. destruct Hf as (s & _ & Hf). exists d, (Some s), f. auto.
Qed.

(** The padded window contains the requested window around any origin time within [mw]. *)
Lemma pads_cover trig mw sp sq mags pre post otime : 0 <= sp -> 0 <= sq -> Z.abs (otime - trig) < mw ->
  let '(b, e, p, q) := event_window trig mw sp sq mags pre post in
  (forall x, pre = Some x -> 0 < x -> b - Z.max 0 p <= otime - x)
  /\ (forall x, post = Some x -> 0 < x -> otime + x <= e + Z.max 0 q)
  /\ (forall m n, mags = Some (m, n) -> b - Z.max 0 p <= otime - m /\ otime + n <= e + Z.max 0 q)
  /\ (b <= otime - mw /\ otime + mw <= e).
Proof.
  intros Hs Hq Ho. unfold event_window, event_pads, locate_window. cbn [fst snd].
  assert (Hc : forall x, 0 < x -> cut_of (Some x) = Some x).
  { intros x Hx. unfold cut_of. destruct (Z.eqb_spec x 0); [lia|reflexivity]. }
  split; [|split; [|split]].
  - intros x -> Hx. rewrite (Hc x Hx). lia.
  - intros x -> Hx. rewrite (Hc x Hx). lia.
  - intros m n ->. cbn [fst snd]. destruct (cut_of pre), (cut_of post); lia.
  - lia.
Qed.

Lemma cut_raw_in c otime pre post st x : 0 < pre -> 0 < post ->
  In x (cut_raw c otime (Some pre) (Some post) st) <->
  In x st /\ 2 * (otime - pre - s_time x) < delta c /\ 2 * (s_time x - (otime + post)) <= delta c.
Proof.
  intros Hp Hq. unfold cut_raw, cut_of. destruct (Z.eqb_spec pre 0); [lia|]. destruct (Z.eqb_spec post 0); [lia|].
  unfold trim_to, trim_from. rewrite !filter_In, Z.ltb_lt, Z.leb_le. tauto.
Qed.

(** * The loop over events *)
Lemma locate_loop_files {W} (one : Z -> outcome (option W)) : forall events files fs,
  NoDup (map fst events) -> locate_loop one events files = (fs, None) -> (forall u t, In (u, t) events -> one t <> Undef) ->
  forall uid, dget fs uid = match find (fun ut => String.eqb (fst ut) uid) events with
                            | Some ut => match one (snd ut) with Ret (Some w) => Some w | _ => dget files uid end
                            | None => dget files uid
                            end.
Proof.
  induction events as [|(u, t) r IH]; intros files fs Hnd H Hu uid; cbn [locate_loop] in H; cbn [find fst snd].
  - injection H as <-. reflexivity.
  - cbn [map fst] in Hnd. inversion Hnd as [|? ? Hn Hnd']; subst.
    assert (Hu' : forall u t, In (u, t) r -> one t <> Undef) by (intros u' t' Hin; apply (Hu u' t'); right; exact Hin).
    assert (Hnone : forall uid, String.eqb u uid = true -> find (fun ut : string * Z => String.eqb (fst ut) uid) r = None).
    { intros uid' E. apply String.eqb_eq in E. subst uid'.
      destruct (find (fun ut : string * Z => String.eqb (fst ut) u) r) as [(u', t')|] eqn:Ef; [|reflexivity].
      apply find_some in Ef. destruct Ef as [Ef1 Ef2]. cbn [fst] in Ef2. apply String.eqb_eq in Ef2. subst u'.
      exfalso. apply Hn. apply (in_map fst) in Ef1. exact Ef1. }
    destruct (one t) as [[w|]|x|] eqn:Eo; [| |discriminate|exfalso; apply (Hu u t); [left; reflexivity|exact Eo]].
    + rewrite (IH _ _ Hnd' H Hu' uid). rewrite dget_dset. destruct (String.eqb u uid) eqn:E.
      * rewrite (Hnone uid E). cbn [snd]. rewrite Eo. reflexivity.
      * reflexivity.
    + rewrite (IH _ _ Hnd' H Hu' uid). destruct (String.eqb u uid) eqn:E; [|reflexivity].
      rewrite (Hnone uid E). cbn [snd]. rewrite Eo. reflexivity.
Qed.

(** * Maps as lists over the nodes *)
Lemma all_nodes_length n : pos3 n -> Z.of_nat (length (all_nodes n)) = n_nodes n.
Proof.
  destruct n as ((nx, ny), nz). intros (Hx & Hy & Hz). cbn [all_nodes n_nodes].
  rewrite (flat_map_len _ _ _ (Z.to_nat ny * Z.to_nat nz)%nat).
  - rewrite zrange_length. lia.
  - intros i _. rewrite (flat_map_len _ _ _ (Z.to_nat nz)); [rewrite zrange_length; reflexivity|].
    intros j _. rewrite map_length, zrange_length. reflexivity.
Qed.

Lemma all_nodes_rd n p : is_node n p -> rd (all_nodes n) (flat n p) = Some p.
Proof.
  destruct n as ((nx, ny), nz), p as ((i, j), k). intros (Hi & Hj & Hk). cbn [all_nodes flat].
  assert (Hjk : 0 <= j * nz + k < ny * nz).
  { split; [apply Z.add_nonneg_nonneg; [apply Z.mul_nonneg_nonneg|]; lia|].
    assert (j * nz <= (ny - 1) * nz) by (apply Z.mul_le_mono_nonneg_r; lia). lia. }
  replace ((i * ny + j) * nz + k) with (i * (ny * nz) + (j * nz + k)) by ring.
  rewrite (rd_flat_map _ _ _ (ny * nz) _ ltac:(lia)) with (x := i); [| |exact Hjk|apply rd_zrange; lia].
  - rewrite (rd_flat_map _ _ _ nz _ ltac:(lia)) with (x := j); [| |lia|apply rd_zrange; lia].
    + rewrite rd_map, rd_zrange by lia. reflexivity.
    + intros x _. rewrite map_length, zrange_length. lia.
  - intros x _. rewrite (flat_map_len _ _ _ (Z.to_nat nz)); [rewrite zrange_length; lia|].
    intros y _. rewrite map_length, zrange_length. reflexivity.
Qed.

Lemma in_all_nodes n p : In p (all_nodes n) <-> is_node n p.
Proof.
  destruct n as ((nx, ny), nz), p as ((i, j), k). cbn [all_nodes is_node]. rewrite in_flat_map. split.
  - intros (i' & Hi & H). apply in_flat_map in H. destruct H as (j' & Hj & H). apply in_map_iff in H.
    destruct H as (k' & E & Hk). injection E as -> -> ->. apply in_zrange in Hi, Hj, Hk. lia.
  - intros (Hi & Hj & Hk). exists i. split; [apply in_zrange; lia|]. apply in_flat_map. exists j.
    split; [apply in_zrange; lia|]. apply in_map_iff. exists k. split; [reflexivity|apply in_zrange; lia].
Qed.

(** A map is the list of its values at the nodes. *)
Lemma map_all_nodes n m : pos3 n -> Z.of_nat (length m) = n_nodes n -> map (at_node n m) (all_nodes n) = m.
Proof.
  intros Hn Hl. apply rd_ext.
  - rewrite map_length. pose proof (all_nodes_length n Hn). lia.
  - intros q Hq. rewrite map_length, all_nodes_length in Hq by exact Hn.
    destruct (unravel_inv q n Hn Hq) as (p & _ & Hp & Ef).
    rewrite rd_map, <- Ef, (all_nodes_rd n p Hp). cbn [option_map]. unfold at_node, value. rewrite Ef.
    destruct (rd m q) eqn:E; [reflexivity|]. destruct (rd_in_range _ m q) as [v Hv]; [lia|]. congruence.
Qed.

(** * Weighted sums *)
Lemma sum_nil {A} (f : A -> R) : sum f [] = 0%R.
Proof. reflexivity. Qed.
Lemma sum_cons {A} (f : A -> R) x l : sum f (x :: l) = (f x + sum f l)%R.
Proof. reflexivity. Qed.

Lemma nansum_sum {A} (t : R) (w h : A -> R) l :
  nansum (map (fun p => if Rlt_dec t (w p) then Some (w p) else None) l) (map h l)
  = sum (fun p => w p * h p)%R (filter (fun p => if Rlt_dec t (w p) then true else false) l).
Proof.
  induction l as [|x l IH]; [reflexivity|]. cbn [map nansum filter].
  destruct (Rlt_dec t (w x)); cbn [nansum]; [rewrite sum_cons|]; rewrite IH; reflexivity.
Qed.

Lemma sum_le {A} (f h : A -> R) l : (forall x, In x l -> (f x <= h x)%R) -> (sum f l <= sum h l)%R.
Proof.
  induction l as [|x l IH]; intros H; [cbv; lra|]. rewrite !sum_cons.
  specialize (H x (or_introl eq_refl)) as Hx. assert ((sum f l <= sum h l)%R) by (apply IH; intros y Hy; apply H; right; exact Hy). lra.
Qed.
Lemma sum_ext {A} (f h : A -> R) l : (forall x, In x l -> f x = h x) -> sum f l = sum h l.
Proof.
  induction l as [|x l IH]; intros H; [reflexivity|]. rewrite !sum_cons. rewrite H by (left; reflexivity).
  rewrite IH; [reflexivity|]. intros y Hy. apply H. right. exact Hy.
Qed.
Lemma sum_scal {A} (f : A -> R) a l : sum (fun x => a * f x)%R l = (a * sum f l)%R.
Proof. induction l as [|x l IH]; [cbv; ring|]. rewrite !sum_cons, IH. ring. Qed.
Lemma sum_plus {A} (f h : A -> R) l : sum (fun x => f x + h x)%R l = (sum f l + sum h l)%R.
Proof. induction l as [|x l IH]; [cbv; ring|]. rewrite !sum_cons, IH. ring. Qed.
Lemma sum_nonneg {A} (f : A -> R) l : (forall x, In x l -> (0 <= f x)%R) -> (0 <= sum f l)%R.
Proof.
  induction l as [|x l IH]; intros H; [cbv; lra|]. rewrite sum_cons.
  specialize (H x (or_introl eq_refl)) as Hx. assert ((0 <= sum f l)%R) by (apply IH; intros y Hy; apply H; right; exact Hy). lra.
Qed.
Lemma sum_pos {A} (f : A -> R) l x : (forall y, In y l -> (0 <= f y)%R) -> In x l -> (0 < f x)%R -> (0 < sum f l)%R.
Proof.
  induction l as [|y l IH]; intros H Hx Hp; [destruct Hx|]. rewrite sum_cons.
  assert (H0 : (0 <= f y)%R) by (apply H; left; reflexivity).
  assert (H1 : forall z, In z l -> (0 <= f z)%R) by (intros z Hz; apply H; right; exact Hz).
  destruct Hx as [->|Hx]; [pose proof (sum_nonneg f l H1); lra|pose proof (IH H1 Hx Hp); lra].
Qed.

(** * Covariance location *)
Lemma node_offsets_map g (f : vec -> R) : map f (node_offsets g)
  = map (fun p => f (offset g 0 p, offset g 1 p, offset g 2 p)) (all_nodes (g_count g)).
Proof.
  unfold node_offsets, all_nodes. destruct (g_count g) as ((nx, ny), nz). rewrite map_map. apply map_ext.
  intros ((i, j), k). unfold offset. destruct (g_spacing g) as ((sx, sy), sz). reflexivity.
Qed.

Lemma mean_wmean g t m (f : vec -> R) : pos3 (g_count g) -> Z.of_nat (length m) = n_nodes (g_count g) ->
  nansum (map (fun v => if Rlt_dec t v then Some v else None) m) (map f (node_offsets g))
  = sum (fun p => at_node (g_count g) m p * f (offset g 0 p, offset g 1 p, offset g 2 p))%R (above (g_count g) t m).
Proof.
  intros Hn Hl. rewrite node_offsets_map. rewrite <- (map_all_nodes _ m Hn Hl) at 1. rewrite map_map.
  apply (nansum_sum t (at_node (g_count g) m)).
Qed.

Lemma ssw_sum g t m : pos3 (g_count g) -> Z.of_nat (length m) = n_nodes (g_count g) ->
  nansum (map (fun v => if Rlt_dec t v then Some v else None) m) (map (fun _ => 1%R) m)
  = sum (at_node (g_count g) m) (above (g_count g) t m).
Proof.
  intros Hn Hl. rewrite <- (map_all_nodes _ m Hn Hl) at 1 2. rewrite !map_map.
  rewrite (nansum_sum t (at_node (g_count g) m) (fun _ => 1%R)). apply sum_ext. intros x _. ring.
Qed.

Lemma covfit_ok g t m : pos3 (g_count g) -> Z.of_nat (length m) = n_nodes (g_count g) ->
  sum (at_node (g_count g) m) (above (g_count g) t m) <> 0%R ->
  exists loc cov unc, covfit3d g t m = Some (loc, cov, unc)
  /\ (forall a, 0 <= a < 3 -> comp a loc = (comp a (g_ll g) + wmean (g_count g) t m (offset g a))%R)
  /\ (forall a b, 0 <= a < 3 -> 0 <= b < 3 -> mcell a b cov
       = wmean (g_count g) t m (fun p => (offset g a p - wmean (g_count g) t m (offset g a))
                                         * (offset g b p - wmean (g_count g) t m (offset g b)))%R)
  /\ (forall a, 0 <= a < 3 -> comp a unc = sqrt (Rabs (mcell a a cov))).
Proof.
  intros Hn Hl Hs. unfold covfit3d. cbv zeta. rewrite (ssw_sum g t m Hn Hl).
  destruct (Req_EM_T (sum (at_node (g_count g) m) (above (g_count g) t m)) 0) as [E|_]; [congruence|].
  rewrite !(mean_wmean g t m _ Hn Hl). cbn [vx vy vz fst snd].
  do 3 eexists. split; [reflexivity|].
  assert (H3 : forall a, 0 <= a < 3 -> a = 0 \/ a = 1 \/ a = 2) by (intros; lia).
  destruct (g_ll g) as ((l1, l2), l3).
  split; [|split].
  - intros a Ha. destruct (H3 a Ha) as [->|[->| ->]]; reflexivity.
  - assert (Hc : forall u v, (sum (fun p => at_node (g_count g) m p * (u p * v p))%R (above (g_count g) t m) / sum (at_node (g_count g) m) (above (g_count g) t m))%R
       = (sum (fun p => at_node (g_count g) m p * (v p * u p))%R (above (g_count g) t m) / sum (at_node (g_count g) m) (above (g_count g) t m))%R).
    { intros u v. f_equal. apply sum_ext. intros x _. ring. }
    intros a b Ha Hb.
    destruct (H3 a Ha) as [->|[->| ->]], (H3 b Hb) as [->|[->| ->]]; try reflexivity;
      unfold wmean at 1; apply Hc.
  - intros a Ha. destruct (H3 a Ha) as [->|[->| ->]]; reflexivity.
Qed.

Lemma wmean_bounds n t m (f : ijk -> R) lo hi : (0 <= t)%R -> above n t m <> [] ->
  (forall p, In p (above n t m) -> (lo <= f p <= hi)%R) -> (lo <= wmean n t m f <= hi)%R.
Proof.
  intros Ht Hne H.
  assert (Hw : forall p, In p (above n t m) -> (0 < at_node n m p)%R).
  { intros p Hp. apply filter_In in Hp. destruct Hp as [_ Hp]. destruct (Rlt_dec t (at_node n m p)); [lra|discriminate]. }
  assert (Hs : (0 < sum (at_node n m) (above n t m))%R).
  { destruct (above n t m) as [|p l] eqn:E; [congruence|]. apply (sum_pos _ _ p).
    - intros y Hy. apply Rlt_le, Hw. exact Hy.
    - left. reflexivity.
    - apply Hw. left. reflexivity. }
  unfold wmean. set (S := sum (at_node n m) (above n t m)) in *.
  assert (H1 : (lo * S <= sum (fun p => at_node n m p * f p) (above n t m))%R).
  { unfold S. rewrite <- sum_scal. apply sum_le. intros p Hp. specialize (H p Hp). specialize (Hw p Hp).
    rewrite Rmult_comm. apply Rmult_le_compat_l; lra. }
  assert (H2 : (sum (fun p => at_node n m p * f p) (above n t m) <= hi * S)%R).
  { unfold S. rewrite <- sum_scal. apply sum_le. intros p Hp. specialize (H p Hp). specialize (Hw p Hp).
    rewrite (Rmult_comm hi). apply Rmult_le_compat_l; lra. }
  split.
  - apply (Rmult_le_reg_r S); [exact Hs|]. unfold Rdiv. rewrite Rmult_assoc, Rinv_l by lra. lra.
  - apply (Rmult_le_reg_r S); [exact Hs|]. unfold Rdiv. rewrite Rmult_assoc, Rinv_l by lra. lra.
Qed.

Lemma wmean_lin n t m f h a b : wmean n t m (fun p => a * f p + b * h p)%R = (a * wmean n t m f + b * wmean n t m h)%R.
Proof.
  unfold wmean, Rdiv. rewrite (sum_ext _ (fun p => a * (at_node n m p * f p) + b * (at_node n m p * h p))%R) by (intros; ring).
  rewrite sum_plus, !sum_scal. ring.
Qed.

Lemma wmean_ext n t m f h : (forall p, f p = h p) -> wmean n t m f = wmean n t m h.
Proof. intros H. unfold wmean. f_equal. apply sum_ext. intros p _. rewrite H. reflexivity. Qed.

(** * Normalised map *)
Lemma marginalise_length nn map4d : 0 <= nn -> Z.of_nat (length (marginalise nn map4d)) = nn.
Proof. intros H. unfold marginalise. rewrite map_length, zrange_length. lia. Qed.

Lemma node_value_value m i : 0 <= i -> node_value m i = value m i.
Proof.
  intros Hi. unfold node_value, value, rd. destruct (Z.ltb_spec i 0); [lia|].
  destruct (nth_error m (Z.to_nat i)) eqn:E; [apply nth_error_nth, E|]. apply nth_overflow, nth_error_None, E.
Qed.

Lemma fold_plus_sum l : forall a, fold_left Rplus l a = (a + sum (fun x => x) l)%R.
Proof.
  induction l as [|x l IH]; intros a; [cbv; ring|]. cbn [fold_left]. rewrite IH, sum_cons. ring.
Qed.
Lemma sum_map {A B} (f : A -> B) (h : B -> R) l : sum h (map f l) = sum (fun x => h (f x)) l.
Proof. unfold sum. rewrite map_map. reflexivity. Qed.

Lemma marginalise_at n map4d p : is_node n p -> at_node n (marginalise (n_nodes n) map4d) p = stacked n map4d p.
Proof.
  intros Hp. pose proof (flat_range n p Hp) as F. unfold at_node at 1, value, marginalise.
  rewrite rd_map, rd_zrange by exact F. cbn [option_map]. rewrite fold_plus_sum, sum_map, Rplus_0_l.
  unfold stacked. apply sum_ext. intros m _. rewrite node_value_value by lia. reflexivity.
Qed.

Lemma normalise_ok l : l <> [] -> (forall v, In v l -> (0 <= v)%R) -> (exists v, In v l /\ (0 < v)%R) ->
  exists top, (0 < top)%R /\ In top l /\ (forall v, In v l -> (v <= top)%R) /\ normalise l = Ret (map (fun x => (x / top)%R) l).
Proof.
  destruct l as [|v l]; [congruence|]. intros _ Hn (u & Hu & Hp). cbn [normalise].
  pose proof (fold_Rmax_ge l v) as [G1 G2]. set (top := fold_left Rmax l v) in *.
  assert (Hle : forall x, In x (v :: l) -> (x <= top)%R) by (intros x [->|Hx]; [exact G1|apply G2, Hx]).
  assert (Hin : In top (v :: l)) by (destruct (fold_Rmax_in l v) as [E|E]; [left; symmetry; exact E|right; exact E]).
  specialize (Hle u Hu) as Hu'. exists top. split; [lra|]. split; [exact Hin|]. split; [exact Hle|].
  destruct (Req_EM_T top 0); [lra|]. reflexivity.
Qed.

(** * Spline location *)
Lemma nodup_rd A (l : list A) : (forall i j x, rd l i = Some x -> rd l j = Some x -> i = j) -> NoDup l.
Proof.
  induction l as [|x l IH]; intros H; constructor.
  - intros Hx. destruct (in_rd _ _ _ Hx) as [j Hj].
    assert (0 = j + 1) by (apply (H 0 (j + 1) x); [reflexivity|rewrite rd_S by (apply rd_bounds in Hj; lia); exact Hj]).
    apply rd_bounds in Hj. lia.
  - apply IH. intros i j y Hi Hj.
    assert (i + 1 = j + 1) by (apply (H (i + 1) (j + 1) y); rewrite rd_S; try assumption; apply rd_bounds in Hi, Hj; lia). lia.
Qed.

Definition cube (s : Z) : ijk := (s, s, s).
Lemma meshgrid_rd s f a b c : 0 <= a < s -> 0 <= b < s -> 0 <= c < s ->
  rd (meshgrid_xy s f) (flat (cube s) (a, b, c)) = Some (f b, f a, f c).
Proof.
  intros Ha Hb Hc. cbn [flat cube]. unfold meshgrid_xy.
  assert (Hjk : 0 <= b * s + c < s * s).
  { split; [apply Z.add_nonneg_nonneg; [apply Z.mul_nonneg_nonneg|]; lia|].
    assert (b * s <= (s - 1) * s) by (apply Z.mul_le_mono_nonneg_r; lia). lia. }
  replace ((a * s + b) * s + c) with (a * (s * s) + (b * s + c)) by ring.
  rewrite (rd_flat_map _ _ _ (s * s) _ ltac:(lia)) with (x := a); [| |exact Hjk|apply rd_zrange; lia].
  - rewrite (rd_flat_map _ _ _ s _ ltac:(lia)) with (x := b); [| |lia|apply rd_zrange; lia].
    + rewrite rd_map, rd_zrange by lia. reflexivity.
    + intros x _. rewrite map_length, zrange_length. lia.
  - intros x _. rewrite (flat_map_len _ _ _ (Z.to_nat s)); [rewrite zrange_length; lia|].
    intros y _. rewrite map_length, zrange_length. reflexivity.
Qed.
Lemma meshgrid_length s f : 0 <= s -> Z.of_nat (length (meshgrid_xy s f)) = n_nodes (cube s).
Proof.
  intros Hs. unfold meshgrid_xy. rewrite (flat_map_len _ _ _ (Z.to_nat s * Z.to_nat s)%nat).
  - rewrite zrange_length. cbn [n_nodes cube]. lia.
  - intros i _. rewrite (flat_map_len _ _ _ (Z.to_nat s)); [rewrite zrange_length; reflexivity|].
    intros j _. rewrite map_length, zrange_length. reflexivity.
Qed.
Lemma sub_cube_rd n m x1 y1 z1 s a b c : 0 <= a < s -> 0 <= b < s -> 0 <= c < s ->
  rd (sub_cube n m (x1, y1, z1) s) (flat (cube s) (a, b, c)) = Some (node_value m (c_index n (x1 + a, y1 + b, z1 + c))).
Proof.
  intros Ha Hb Hc. cbn [flat cube]. unfold sub_cube.
  assert (Hjk : 0 <= b * s + c < s * s).
  { split; [apply Z.add_nonneg_nonneg; [apply Z.mul_nonneg_nonneg|]; lia|].
    assert (b * s <= (s - 1) * s) by (apply Z.mul_le_mono_nonneg_r; lia). lia. }
  replace ((a * s + b) * s + c) with (a * (s * s) + (b * s + c)) by ring.
  rewrite (rd_flat_map _ _ _ (s * s) _ ltac:(lia)) with (x := a); [| |exact Hjk|apply rd_zrange; lia].
  - rewrite (rd_flat_map _ _ _ s _ ltac:(lia)) with (x := b); [| |lia|apply rd_zrange; lia].
    + rewrite rd_map, rd_zrange by lia. reflexivity.
    + intros x _. rewrite map_length, zrange_length. lia.
  - intros x _. rewrite (flat_map_len _ _ _ (Z.to_nat s)); [rewrite zrange_length; lia|].
    intros y _. rewrite map_length, zrange_length. reflexivity.
Qed.
Lemma sub_cube_length n m lo s : 0 <= s -> Z.of_nat (length (sub_cube n m lo s)) = n_nodes (cube s).
Proof.
  destruct lo as ((x1, y1), z1). intros Hs. unfold sub_cube. rewrite (flat_map_len _ _ _ (Z.to_nat s * Z.to_nat s)%nat).
  - rewrite zrange_length. cbn [n_nodes cube]. lia.
  - intros i _. rewrite (flat_map_len _ _ _ (Z.to_nat s)); [rewrite zrange_length; reflexivity|].
    intros j _. rewrite map_length, zrange_length. reflexivity.
Qed.

Lemma linspace_coarse s i : 0 <= i < s -> linspace (IZR (s - 1)) s i = IZR i.
Proof.
  intros Hi. unfold linspace. destruct (Z.eqb_spec s 1) as [->|Hs].
  - replace i with 0 by lia. reflexivity.
  - assert (IZR (s - 1) <> 0%R) by (apply not_0_IZR; lia). field. assumption.
Qed.
Lemma linspace_fine s up i : 1 <= s -> 1 <= up -> 0 <= i < (s - 1) * up + 1 ->
  linspace (IZR (s - 1)) ((s - 1) * up + 1) i = (IZR i / IZR up)%R.
Proof.
  intros Hs Hu Hi. unfold linspace. assert (IZR up <> 0%R) by (apply not_0_IZR; lia).
  destruct (Z.eqb_spec ((s - 1) * up + 1) 1) as [E|E].
  - replace i with 0 by lia. unfold Rdiv. rewrite Rmult_0_l. reflexivity.
  - replace ((s - 1) * up + 1 - 1) with ((s - 1) * up) by ring. rewrite mult_IZR.
    assert (Hne : (s - 1) <> 0) by (intros E'; rewrite E' in E; cbn in E; lia).
    assert (IZR (s - 1) <> 0%R) by (apply not_0_IZR; exact Hne). field. split; assumption.
Qed.

Lemma meshgrid_nodup s : 0 <= s -> NoDup (meshgrid_xy s (linspace (IZR (s - 1)) s)).
Proof.
  intros Hs. apply nodup_rd. intros i j x Hi Hj.
  pose proof (rd_bounds _ _ _ _ Hi) as Bi. pose proof (rd_bounds _ _ _ _ Hj) as Bj.
  rewrite meshgrid_length in Bi, Bj by exact Hs.
  assert (Hp : pos3 (cube s)).
  { cbn. assert (s <> 0) by (intros ->; cbn in Bi; lia). lia. }
  destruct (unravel_inv i (cube s) Hp Bi) as (((a, b), c) & _ & (Ha & Hb & Hc) & Ei).
  destruct (unravel_inv j (cube s) Hp Bj) as (((a', b'), c') & _ & (Ha' & Hb' & Hc') & Ej).
  subst i j. rewrite meshgrid_rd in Hi, Hj by assumption. rewrite <- Hi in Hj.
  rewrite !linspace_coarse in Hj by assumption. injection Hj as E1 E2 E3.
  apply eq_IZR in E1, E2, E3. subst. reflexivity.
Qed.

Lemma pow_div up : 1 <= up -> (0 < / IZR up)%R.
Proof. intros H. apply Rinv_0_lt_compat, IZR_lt. lia. Qed.

(** The fine axis: [i / up + lo] for a node index below [(s-1) up] stays between the first and the last node. *)
Lemma fine_range s up i lo : 1 <= s -> 1 <= up -> 0 <= i < (s - 1) * up + 1 ->
  (IZR lo <= IZR i / IZR up + IZR lo <= IZR (lo + s - 1))%R.
Proof.
  intros Hs Hu Hi. assert (Hup : (0 < IZR up)%R) by (apply IZR_lt; lia).
  assert (H0 : (0 <= IZR i / IZR up)%R).
  { unfold Rdiv. apply Rmult_le_pos; [apply IZR_le; lia|left; apply Rinv_0_lt_compat; exact Hup]. }
  assert (H1 : (IZR i / IZR up <= IZR (s - 1))%R).
  { apply (Rmult_le_reg_r (IZR up)); [exact Hup|]. unfold Rdiv. rewrite Rmult_assoc, Rinv_l by lra.
    rewrite Rmult_1_r, <- mult_IZR. apply IZR_le. lia. }
  rewrite minus_IZR, plus_IZR. rewrite minus_IZR in H1. lra.
Qed.

Lemma peak_of_argmax n m q : pos3 n -> Z.of_nat (length m) = n_nodes n -> first_largest m q ->
  exists p, unravel_index q n = Ret p /\ peak_node n m p.
Proof.
  intros Hn Hl (v & Hv & Hle & Hlt). pose proof (rd_bounds _ _ _ _ Hv) as B. rewrite Hl in B.
  destruct (unravel_inv q n Hn B) as (p & Eu & Hp & Ef). exists p. split; [exact Eu|].
  assert (Hval : forall x, is_node n x -> exists w, rd m (flat n x) = Some w /\ at_node n m x = w).
  { intros x Hx. pose proof (flat_range n x Hx). destruct (rd_in_range _ m (flat n x)) as [w Hw]; [lia|].
    exists w. split; [exact Hw|]. unfold at_node, value. rewrite Hw. reflexivity. }
  assert (Ep : at_node n m p = v) by (unfold at_node, value; rewrite Ef, Hv; reflexivity).
  split; [exact Hp|]. rewrite Ep. split.
  - intros x Hx. destruct (Hval x Hx) as (w & Hw & ->). apply (Hle _ _ Hw).
  - intros x Hx Hlt'. destruct (Hval x Hx) as (w & Hw & ->). apply (Hlt _ _ ltac:(rewrite <- Ef; exact Hlt') Hw).
Qed.

Lemma c_index_flat n p : c_index n p = flat n p.
Proof. destruct n as ((?, ?), ?), p as ((?, ?), ?). reflexivity. Qed.

Lemma splineloc_ok rbf n m win up : interpolating rbf -> pos3 n -> Z.of_nat (length m) = n_nodes n -> 1 <= win -> 1 <= up ->
  exists loc p, splineloc rbf n m win up = Ret loc /\ peak_node n m p /\ inside_win n p ((win - 1) / 2) loc /\
  ((~ eq_sizes n p ((win - 1) / 2) /\ loc = of_node p)
   \/ (eq_sizes n p ((win - 1) / 2) /\ exists pts vals,
       let F q := rbf pts vals (rel n p ((win - 1) / 2) q) in
       (forall q, in_win n p ((win - 1) / 2) q -> F (of_node q) = at_node n m q) /\
       (exists f, loc = fine_point n p ((win - 1) / 2) up f) /\
       (forall f, inside_win n p ((win - 1) / 2) (fine_point n p ((win - 1) / 2) up f) ->
          (F (fine_point n p ((win - 1) / 2) up f) <= F loc)%R))).
Proof.
  intros Hrbf Hn Hl Hwin Hup. unfold splineloc.
  destruct (argmax_total m) as [q0 Eq0].
  { intros ->. cbn in Hl. pose proof (pos3_nodes n Hn). lia. }
  rewrite Eq0. cbn [bind]. apply argmax_ok in Eq0.
  destruct (peak_of_argmax n m q0 Hn Hl Eq0) as (p & Eu & Hpk). rewrite Eu. cbn [bind].
  destruct n as ((nx, ny), nz), p as ((mx, my), mz). pose proof Hpk as ((Hmx & Hmy & Hmz) & Hbest & _).
  set (w2 := (win - 1) / 2) in *. assert (Hw2 : 0 <= w2) by (apply Z.div_pos; lia).
  cbv zeta. set (n := (nx, ny, nz)) in *. set (p := (mx, my, mz)) in *.
  assert (Clo : forall x nn, 0 <= x < nn -> np_clip (x - w2) 0 nn = Z.max 0 (x - w2)) by (intros; unfold np_clip; lia).
  assert (Chi : forall x nn, 0 <= x < nn -> np_clip (x + w2 + 1) 0 nn = Z.min (nn - 1) (x + w2) + 1) by (intros; unfold np_clip; lia).
  rewrite (Clo mx nx Hmx), (Clo my ny Hmy), (Clo mz nz Hmz), (Chi mx nx Hmx), (Chi my ny Hmy), (Chi mz nz Hmz).
  assert (L0 : win_lo n p w2 0 = Z.max 0 (mx - w2)) by reflexivity.
  assert (L1 : win_lo n p w2 1 = Z.max 0 (my - w2)) by reflexivity.
  assert (L2 : win_lo n p w2 2 = Z.max 0 (mz - w2)) by reflexivity.
  assert (H0 : win_hi n p w2 0 = Z.min (nx - 1) (mx + w2)) by reflexivity.
  assert (H1 : win_hi n p w2 1 = Z.min (ny - 1) (my + w2)) by reflexivity.
  assert (H2 : win_hi n p w2 2 = Z.min (nz - 1) (mz + w2)) by reflexivity.
  rewrite <- L0, <- L1, <- L2, <- H0, <- H1, <- H2.
  set (x1 := win_lo n p w2 0) in *. set (y1 := win_lo n p w2 1) in *. set (z1 := win_lo n p w2 2) in *.
  set (x2 := win_hi n p w2 0) in *. set (y2 := win_hi n p w2 1) in *. set (z2 := win_hi n p w2 2) in *.
  assert (H3 : forall a, 0 <= a < 3 -> a = 0 \/ a = 1 \/ a = 2) by (intros; lia).
  assert (Heq : eq_sizes n p w2 <-> (y2 - y1 = x2 - x1 /\ z2 - z1 = x2 - x1)).
  { unfold eq_sizes. split.
    - intros H. split; [apply (H 1); lia|apply (H 2); lia].
    - intros (E1 & E2) a Ha. destruct (H3 a Ha) as [->|[->| ->]]; [reflexivity|exact E1|exact E2]. }
  assert (Hnode : forall a, 0 <= a < 3 -> (IZR (win_lo n p w2 a) <= comp a (of_node p) <= IZR (win_hi n p w2 a))%R).
  { intros a Ha. destruct (H3 a Ha) as [->|[->| ->]]; cbn [comp of_node p Z.eqb Pos.eqb]; split; apply IZR_le; unfold x1, y1, z1, x2, y2, z2 in *; lia. }
  destruct ((x2 + 1 - x1 =? y2 + 1 - y1) && (y2 + 1 - y1 =? z2 + 1 - z1)) eqn:Ecmp.
  2:{ exists (of_node p), p. split; [reflexivity|]. split; [exact Hpk|]. split; [exact Hnode|]. left. split; [|reflexivity].
      intros H. apply Heq in H. apply andb_false_iff in Ecmp. destruct Ecmp as [E|E]; apply Z.eqb_neq in E; lia. }
  apply andb_true_iff in Ecmp. destruct Ecmp as [E1 E2]. apply Z.eqb_eq in E1, E2.
  set (s := x2 + 1 - x1) in *. assert (Hs : 1 <= s) by (unfold s; lia).
  set (pts := meshgrid_xy s (linspace (IZR (s - 1)) s)) in *.
  set (vals := sub_cube n m (x1, y1, z1) s) in *.
  set (s' := (s - 1) * up + 1) in *.
  assert (Hs' : 1 <= s') by (unfold s'; assert (0 <= (s - 1) * up) by (apply Z.mul_nonneg_nonneg; lia); lia).
  set (fine := map (rbf pts vals) (meshgrid_xy s' (linspace (IZR (s - 1)) s'))) in *.
  assert (Hfl : Z.of_nat (length fine) = n_nodes (cube s')) by (unfold fine; rewrite map_length; apply meshgrid_length; lia).
  assert (Hp' : pos3 (cube s')) by (cbn; lia).
  destruct (argmax_total fine) as [fm Efm].
  { intros E. rewrite E in Hfl. cbn in Hfl. pose proof (pos3_nodes (cube s') Hp'). cbn [n_nodes cube] in *. lia. }
  rewrite Efm. cbn [bind]. apply argmax_ok in Efm.
  destruct (peak_of_argmax (cube s') fine fm Hp' Hfl Efm) as (((a, b), c) & Eu' & ((Ha & Hb & Hc) & Hbest' & _)).
  unfold cube in Eu'. rewrite Eu'. cbn [bind]. cbv zeta.
  pose proof (fine_range s up a x1 Hs Hup Ha) as Ra. pose proof (fine_range s up b y1 Hs Hup Hb) as Rb.
  pose proof (fine_range s up c z1 Hs Hup Hc) as Rc.
  replace (x1 + s - 1) with x2 in Ra by (unfold s; lia). replace (y1 + s - 1) with y2 in Rb by lia.
  replace (z1 + s - 1) with z2 in Rc by lia.
  assert (Hwin3 : forall mm lo hi mi, Z.max 0 (mm - w2) = lo -> hi <= mm + w2 -> (IZR lo <= mi <= IZR hi)%R ->
            (if Rlt_dec (IZR w2) (Rabs (IZR mm - mi)) then true else false) = false).
  { intros mm lo hi mi Elo Ehi Hmi. destruct (Rlt_dec (IZR w2) (Rabs (IZR mm - mi))) as [C|C]; [|reflexivity]. exfalso.
    assert (A1 : (IZR mm - IZR w2 <= IZR lo)%R) by (rewrite <- minus_IZR; apply IZR_le; lia).
    assert (A2 : (IZR hi <= IZR mm + IZR w2)%R) by (rewrite <- plus_IZR; apply IZR_le; lia).
    apply (Rlt_not_le _ _ C). apply Rabs_le. lra. }
  rewrite (Hwin3 mx x1 x2) by (assumption || lia || exact (eq_sym L0)).
  rewrite (Hwin3 my y1 y2) by (assumption || lia || exact (eq_sym L1)).
  rewrite (Hwin3 mz z1 z2) by (assumption || lia || exact (eq_sym L2)). cbn [orb].
  exists (IZR a / IZR up + IZR x1, IZR b / IZR up + IZR y1, IZR c / IZR up + IZR z1)%R, p.
  split; [reflexivity|]. split; [exact Hpk|]. split.
  { intros d Hd. destruct (H3 d Hd) as [->|[->| ->]]; cbn [comp Z.eqb Pos.eqb]; assumption. }
  right. split; [apply Heq; lia|]. exists pts, vals. cbv zeta.
  assert (Hpl : length pts = length vals).
  { apply Nat2Z.inj. unfold pts, vals. rewrite meshgrid_length, sub_cube_length by lia. reflexivity. }
  split.
  - intros ((i, j), k) Hq.
    pose proof (Hq 0 ltac:(lia)) as Q0. pose proof (Hq 1 ltac:(lia)) as Q1. pose proof (Hq 2 ltac:(lia)) as Q2.
    cbn [idx Z.eqb Pos.eqb] in Q0, Q1, Q2. fold x1 x2 in Q0. fold y1 y2 in Q1. fold z1 z2 in Q2.
    cbn [of_node rel].
    fold x1 y1 z1. rewrite <- !minus_IZR.
    apply (Hrbf pts vals (flat (cube s) (i - x1, j - y1, k - z1))).
    + apply meshgrid_nodup. lia.
    + exact Hpl.
    + unfold pts. rewrite meshgrid_rd by lia. rewrite !linspace_coarse by lia. reflexivity.
    + unfold vals. rewrite sub_cube_rd by lia. f_equal.
      replace (x1 + (i - x1)) with i by ring. replace (y1 + (j - y1)) with j by ring. replace (z1 + (k - z1)) with k by ring.
      rewrite c_index_flat. unfold at_node. apply node_value_value.
      apply flat_range. unfold n, is_node. unfold x1, y1, z1, x2, y2, z2 in *. lia.
  - split; [exists (a, b, c); reflexivity|]. intros ((i, j), k) Hq.
    pose proof (Hq 0 ltac:(lia)) as Q0. pose proof (Hq 1 ltac:(lia)) as Q1. pose proof (Hq 2 ltac:(lia)) as Q2.
    cbn [comp fine_point Z.eqb Pos.eqb] in Q0, Q1, Q2. fold x1 y1 z1 in Q0, Q1, Q2. fold x1 x2 in Q0. fold y1 y2 in Q1. fold z1 z2 in Q2.
    assert (Hidx : forall u lo hi, hi - lo = s - 1 -> (IZR lo <= IZR u / IZR up + IZR lo <= IZR hi)%R -> 0 <= u < s').
    { intros u lo hi E H. assert (Hup' : (0 < IZR up)%R) by (apply IZR_lt; lia). split.
      - apply le_IZR. apply (Rmult_le_reg_r (/ IZR up)); [apply Rinv_0_lt_compat; exact Hup'|].
        rewrite Rmult_0_l. unfold Rdiv in H. lra.
      - unfold s'. apply Z.lt_succ_r. rewrite <- E. apply le_IZR. rewrite mult_IZR, minus_IZR.
        apply (Rmult_le_reg_r (/ IZR up)); [apply Rinv_0_lt_compat; exact Hup'|].
        rewrite Rmult_assoc, Rinv_r by lra. unfold Rdiv in H. lra. }
    assert (Hi : 0 <= i < s') by (apply (Hidx i x1 x2); [unfold s; lia|exact Q0]).
    assert (Hj : 0 <= j < s') by (apply (Hidx j y1 y2); [lia|exact Q1]).
    assert (Hk : 0 <= k < s') by (apply (Hidx k z1 z2); [lia|exact Q2]).
    cbn [fine_point rel]. fold x1 y1 z1.
    assert (Hfine : forall u v w, 0 <= u < s' -> 0 <= v < s' -> 0 <= w < s' ->
       at_node (cube s') fine (u, v, w) = rbf pts vals (IZR v / IZR up, IZR u / IZR up, IZR w / IZR up)%R).
    { intros u v w Hu Hv Hw. unfold at_node, value, fine. rewrite rd_map, meshgrid_rd by assumption. cbn [option_map].
      unfold s'. rewrite !linspace_fine by (assumption || lia). reflexivity. }
    assert (Simp : forall x y, (x + y - y = x)%R) by (intros; ring). rewrite !Simp.
    rewrite <- (Hfine i j k Hi Hj Hk), <- (Hfine a b c Ha Hb Hc). apply Hbest'. cbn. lia.
Qed.

(** * Both estimates for a stack of maps *)
Lemma normalised_map n map4d : pos3 n -> map4d <> [] ->
  Forall (fun m => Z.of_nat (length m) = n_nodes n /\ Forall (fun v => (0 < v)%R) m) map4d ->
  exists w p, normalise (marginalise (n_nodes n) map4d) = Ret w /\ Z.of_nat (length w) = n_nodes n
  /\ peak_node n w p /\ at_node n w p = 1%R
  /\ (forall q, is_node n q -> at_node n w q = (stacked n map4d q / stacked n map4d p)%R /\ (0 < at_node n w q)%R).
Proof.
  intros Hn Hne Hall. pose proof (pos3_nodes n Hn) as Hnn. set (ms := marginalise (n_nodes n) map4d).
  assert (Hml : Z.of_nat (length ms) = n_nodes n) by (apply marginalise_length; lia).
  assert (Hst : forall q, is_node n q -> (0 < stacked n map4d q)%R).
  { intros q Hq. unfold stacked.
    assert (Hpos : forall m, In m map4d -> (0 < at_node n m q)%R).
    { intros m Hm. rewrite Forall_forall in Hall. destruct (Hall m Hm) as [Hl Hv]. pose proof (flat_range n q Hq).
      destruct (rd_in_range _ m (flat n q)) as [v E]; [lia|]. unfold at_node, value. rewrite E.
      rewrite Forall_forall in Hv. apply Hv, (rd_in _ _ _ _ E). }
    destruct map4d as [|m0 r]; [congruence|]. apply (sum_pos _ _ m0).
    - intros m Hm. apply Rlt_le, Hpos, Hm.
    - left. reflexivity.
    - apply Hpos. left. reflexivity. }
  assert (Hpos : forall v, In v ms -> (0 < v)%R).
  { intros v Hv. rewrite <- (map_all_nodes n ms Hn Hml) in Hv. apply in_map_iff in Hv. destruct Hv as (q & <- & Hq).
    apply in_all_nodes in Hq. unfold ms. rewrite marginalise_at by exact Hq. apply Hst, Hq. }
  destruct (normalise_ok ms) as (top & Ht & Hin & Htop & E).
  - intros E. rewrite E in Hml. cbn in Hml. lia.
  - intros v Hv. apply Rlt_le, Hpos, Hv.
  - destruct ms as [|v r]; [cbn in Hml; lia|]. exists v. split; [left; reflexivity|apply Hpos; left; reflexivity].
  - set (w := map (fun x => (x / top)%R) ms) in *.
    assert (Hwl : Z.of_nat (length w) = n_nodes n) by (unfold w; rewrite map_length; exact Hml).
    destruct (argmax_total w) as [i Ei]; [intros Ew; rewrite Ew in Hwl; cbn in Hwl; lia|].
    apply argmax_ok in Ei. destruct (peak_of_argmax n w i Hn Hwl Ei) as (p & _ & Hpk).
    assert (Hw : forall q, is_node n q -> at_node n w q = (stacked n map4d q / top)%R).
    { intros q Hq. pose proof (flat_range n q Hq). unfold at_node, value, w. rewrite rd_map.
      destruct (rd_in_range _ ms (flat n q)) as [v Ev]; [lia|]. rewrite Ev. cbn [option_map].
      rewrite <- (marginalise_at n map4d q Hq). fold ms. unfold at_node, value. rewrite Ev. reflexivity. }
    pose proof Hpk as (Hp & Hbest & _).
    assert (Ep : stacked n map4d p = top).
    { assert (Hq : exists q, is_node n q /\ stacked n map4d q = top).
      { rewrite <- (map_all_nodes n ms Hn Hml) in Hin. apply in_map_iff in Hin. destruct Hin as (q & Eq & Hq).
        apply in_all_nodes in Hq. exists q. split; [exact Hq|]. rewrite <- Eq. unfold ms. symmetry. apply marginalise_at, Hq. }
      destruct Hq as (q & Hq & Eq).
      assert (A1 : (stacked n map4d p <= top)%R).
      { apply Htop. rewrite <- (map_all_nodes n ms Hn Hml). apply in_map_iff. exists p. split; [|apply in_all_nodes, Hp].
        unfold ms. apply marginalise_at, Hp. }
      specialize (Hbest q Hq). rewrite (Hw q Hq), (Hw p Hp), Eq in Hbest. unfold Rdiv in Hbest.
      apply Rmult_le_reg_r in Hbest; [lra|apply Rinv_0_lt_compat, Ht]. }
    exists w, p. split; [exact E|]. split; [exact Hwl|]. split; [exact Hpk|]. split.
    + rewrite (Hw p Hp), Ep. unfold Rdiv. apply Rinv_r. lra.
    + intros q Hq. rewrite Ep, (Hw q Hq). split; [reflexivity|]. unfold Rdiv. apply Rmult_lt_0_compat; [apply Hst, Hq|].
      apply Rinv_0_lt_compat, Ht.
Qed.

(** * Traveltimes *)
Lemma cell_node n i : 2 <= n -> 0 <= i < n ->
  (cell n (IZR i) = i /\ i + 1 < n) \/ (cell n (IZR i) = i - 1 /\ i = n - 1).
Proof.
  intros Hn Hi. unfold cell. assert (Int_part (IZR i) = i).
  { destruct (base_Int_part (IZR i)) as [B1 B2]. apply Z.le_antisymm; [apply le_IZR; lra|].
    assert (IZR i < IZR (Int_part (IZR i) + 1))%R by (rewrite plus_IZR; lra). apply lt_IZR in H. lia. }
  rewrite H. lia.
Qed.

Lemma traveltime_at_node n t p : (let '(nx, ny, nz) := n in 2 <= nx /\ 2 <= ny /\ 2 <= nz) -> is_node n p ->
  traveltime_to n t (of_node p) = at_node n t p.
Proof.
  destruct n as ((nx, ny), nz), p as ((i, j), k). intros (Nx & Ny & Nz) (Hi & Hj & Hk).
  unfold traveltime_to. cbn [of_node].
  assert (Hnv : forall q, is_node (nx, ny, nz) q -> node_value t (c_index (nx, ny, nz) q) = at_node (nx, ny, nz) t q).
  { intros q Hq. rewrite c_index_flat. unfold at_node. apply node_value_value, flat_range, Hq. }
  assert (Hone : forall z, (IZR z - IZR (z - 1) = 1)%R) by (intros z; rewrite minus_IZR; ring).
  destruct (cell_node nx i Nx Hi) as [[-> ?]|[-> ?]], (cell_node ny j Ny Hj) as [[-> ?]|[-> ?]],
    (cell_node nz k Nz Hk) as [[-> ?]|[-> ?]]; rewrite ?Rminus_diag_eq, ?Hone by reflexivity;
    rewrite !Hnv by (cbn; lia); rewrite ?Z.add_0_r, ?Z.sub_add; ring.
Qed.

(** Between nodes the interpolated value is a weighted mean of the eight corners. *)
Lemma traveltime_bounds n t v lo hi : (let '(nx, ny, nz) := n in 2 <= nx /\ 2 <= ny /\ 2 <= nz) ->
  (forall a, 0 <= a < 3 -> (0 <= comp a v <= IZR (idx a n - 1))%R) ->
  (forall q, is_node n q -> (forall a, 0 <= a < 3 -> (Rabs (comp a v - IZR (idx a q)) <= 1)%R) -> (lo <= at_node n t q <= hi)%R) ->
  (lo <= traveltime_to n t v <= hi)%R.
Proof.
  destruct n as ((nx, ny), nz), v as ((x, y), z). intros (Nx & Ny & Nz) Hin H.
  pose proof (Hin 0 ltac:(lia)) as X. pose proof (Hin 1 ltac:(lia)) as Y. pose proof (Hin 2 ltac:(lia)) as Z'.
  cbn [comp idx Z.eqb Pos.eqb] in X, Y, Z'.
  assert (Hcell : forall n u, 2 <= n -> (0 <= u <= IZR (n - 1))%R ->
            0 <= cell n u /\ cell n u + 1 < n /\ (0 <= u - IZR (cell n u) <= 1)%R).
  { intros n u Hn Hu. unfold cell. destruct (base_Int_part u) as [B1 B2].
    assert (0 <= Int_part u) by (apply le_IZR; assert (IZR (-1) < IZR (Int_part u))%R by lra; apply lt_IZR in H0; apply IZR_le; lia).
    assert (Int_part u <= n - 1) by (apply le_IZR; lra).
    destruct (Z.le_gt_cases (Int_part u) (n - 2)) as [C|C].
    - rewrite Z.min_r, Z.max_r by lia. split; [lia|]. split; [lia|]. lra.
    - rewrite Z.min_l, Z.max_r by lia. split; [lia|]. split; [lia|].
      assert (E : Int_part u = n - 1) by lia. rewrite E in B1. rewrite minus_IZR in *. lra. }
  destruct (Hcell nx x Nx X) as (Cx0 & Cx1 & Cx). destruct (Hcell ny y Ny Y) as (Cy0 & Cy1 & Cy).
  destruct (Hcell nz z Nz Z') as (Cz0 & Cz1 & Cz).
  unfold traveltime_to. set (i := cell nx x) in *. set (j := cell ny y) in *. set (k := cell nz z) in *.
  set (a := (x - IZR i)%R) in *. set (b := (y - IZR j)%R) in *. set (c := (z - IZR k)%R) in *.
  assert (Hf : forall d e f, 0 <= d <= 1 -> 0 <= e <= 1 -> 0 <= f <= 1 ->
    (lo <= node_value t (c_index (nx, ny, nz) (i + d, j + e, k + f)%Z) <= hi)%R).
  { intros d e f Hd He Hf.
    assert (Hq : is_node (nx, ny, nz) (i + d, j + e, k + f)) by (cbn; lia).
    rewrite c_index_flat, node_value_value by (apply flat_range, Hq). apply (H _ Hq).
    assert (Habs : forall u w g, 0 <= g <= 1 -> (0 <= u - IZR w <= 1)%R -> (Rabs (u - IZR (w + g)) <= 1)%R).
    { intros u w g Hg Hu. rewrite plus_IZR. apply Rabs_le. assert (Hg' : (0 <= IZR g <= 1)%R) by (split; apply IZR_le; lia). lra. }
    intros ax Hax. assert (Hc : ax = 0 \/ ax = 1 \/ ax = 2) by lia.
    destruct Hc as [->|[->| ->]]; cbn [comp idx Z.eqb Pos.eqb]; apply Habs; assumption. }
  pose proof (Hf 0 0 0 ltac:(lia) ltac:(lia) ltac:(lia)) as F000. pose proof (Hf 0 0 1 ltac:(lia) ltac:(lia) ltac:(lia)) as F001.
  pose proof (Hf 0 1 0 ltac:(lia) ltac:(lia) ltac:(lia)) as F010. pose proof (Hf 0 1 1 ltac:(lia) ltac:(lia) ltac:(lia)) as F011.
  pose proof (Hf 1 0 0 ltac:(lia) ltac:(lia) ltac:(lia)) as F100. pose proof (Hf 1 0 1 ltac:(lia) ltac:(lia) ltac:(lia)) as F101.
  pose proof (Hf 1 1 0 ltac:(lia) ltac:(lia) ltac:(lia)) as F110. pose proof (Hf 1 1 1 ltac:(lia) ltac:(lia) ltac:(lia)) as F111.
  cbv zeta. clearbody a b c.
  assert (Hlin : forall u w s, (0 <= s <= 1)%R -> (lo <= u <= hi)%R -> (lo <= w <= hi)%R -> (lo <= u * (1 - s) + w * s <= hi)%R).
  { intros u w s Hs Hu Hw. split.
    - assert (lo * (1 - s) <= u * (1 - s))%R by (apply Rmult_le_compat_r; lra).
      assert (lo * s <= w * s)%R by (apply Rmult_le_compat_r; lra). lra.
    - assert (u * (1 - s) <= hi * (1 - s))%R by (apply Rmult_le_compat_r; lra).
      assert (w * s <= hi * s)%R by (apply Rmult_le_compat_r; lra). lra. }
  match goal with |- (lo <= ?E <= hi)%R => match E with context [(?f000 * (1 - a) * (1 - b) * (1 - c))%R] => idtac end end.
  set (f000 := node_value t (c_index (nx, ny, nz) (i + 0, j + 0, k + 0))) in *.
  set (f001 := node_value t (c_index (nx, ny, nz) (i + 0, j + 0, k + 1))) in *.
  set (f010 := node_value t (c_index (nx, ny, nz) (i + 0, j + 1, k + 0))) in *.
  set (f011 := node_value t (c_index (nx, ny, nz) (i + 0, j + 1, k + 1))) in *.
  set (f100 := node_value t (c_index (nx, ny, nz) (i + 1, j + 0, k + 0))) in *.
  set (f101 := node_value t (c_index (nx, ny, nz) (i + 1, j + 0, k + 1))) in *.
  set (f110 := node_value t (c_index (nx, ny, nz) (i + 1, j + 1, k + 0))) in *.
  set (f111 := node_value t (c_index (nx, ny, nz) (i + 1, j + 1, k + 1))) in *.
  pose proof (Hlin _ _ c Cz F000 F001) as G00. pose proof (Hlin _ _ c Cz F010 F011) as G01.
  pose proof (Hlin _ _ c Cz F100 F101) as G10. pose proof (Hlin _ _ c Cz F110 F111) as G11.
  pose proof (Hlin _ _ b Cy G00 G01) as G0. pose proof (Hlin _ _ b Cy G10 G11) as G1.
  pose proof (Hlin _ _ a Cx G0 G1) as G.
  match type of G with (lo <= ?E <= hi)%R => match goal with |- (lo <= ?E' <= hi)%R => replace E' with E by ring end end.
  exact G.
Qed.

(** * Processed waveforms *)
Lemma get_waveforms_ok (get : Z -> caches -> outcome product * caches) (responds : Z -> bool) (prod : Z -> product) :
  (forall ch k, exists k', get ch k = ((if responds ch then Ret (prod ch) else Raise ResponseNotFound), k')) ->
  forall chans k, fst (get_waveforms get chans k) = Ret (map prod (filter responds chans)).
Proof.
  intros Hg. induction chans as [|ch r IH]; intros k; [reflexivity|]. cbn [get_waveforms filter].
  destruct (Hg ch k) as [k' E]. rewrite E. destruct (responds ch).
  - specialize (IH k'). destruct (get_waveforms get r k') as [o k'']. cbn [fst] in *. rewrite IH. reflexivity.
  - apply IH.
Qed.

Lemma get_real_ok responds u ch k : exists k', get_real responds ch u k
  = ((if responds ch then Ret (mk_product ch Real u) else Raise ResponseNotFound), k').
Proof. unfold get_real. destruct (responds ch); eexists; reflexivity. Qed.
Lemma get_wa_ok responds u ch k : exists k', get_wa responds ch u k
  = ((if responds ch then Ret (mk_product ch WoodAnderson u) else Raise ResponseNotFound), k').
Proof. unfold get_wa, get_real. destruct (responds ch); eexists; reflexivity. Qed.

Lemma filter_zseq_window a b : forall n lo, lo <= a -> a <= b + 1 -> b < lo + Z.of_nat n ->
  filter (fun k => (a <=? k) && (k <=? b)) (zseq lo n) = zseq a (Z.to_nat (b - a + 1)).
Proof.
  intros n lo H1 H2 H3.
  replace n with (Z.to_nat (a - lo) + (Z.to_nat (b - a + 1) + Z.to_nat (lo + Z.of_nat n - 1 - b)))%nat by lia.
  rewrite !zseq_app, !filter_app.
  rewrite (filter_none _ (zseq lo _)), (filter_all _ (zseq _ (Z.to_nat (b - a + 1)))), (filter_none _ (zseq _ (Z.to_nat (lo + Z.of_nat n - 1 - b)))).
  - rewrite app_nil_r. cbn [app]. f_equal. lia.
  - intros x Hx. apply in_zseq in Hx. apply andb_false_iff. right. apply Z.leb_gt. lia.
  - intros x Hx. apply in_zseq in Hx. apply andb_true_iff. split; apply Z.leb_le; lia.
  - intros x Hx. apply in_zseq in Hx. apply andb_false_iff. left. apply Z.leb_gt. lia.
Qed.

Lemma filter_map_comm {A B} (f : A -> B) (P : B -> bool) l : filter P (map f l) = map f (filter (fun x => P (f x)) l).
Proof. induction l as [|x l IH]; [reflexivity|]. cbn [map filter]. destruct (P (f x)); cbn [map]; rewrite IH; reflexivity. Qed.

Lemma mw_times_increasing c trig mw : 0 < delta c -> increasing (mw_times c trig mw).
Proof.
  intros HD i j a b Hij Ha Hb. unfold mw_times in *. rewrite rd_map in Ha, Hb.
  destruct (rd (zrange (4 * mw / delta c + 1)) i) as [x|] eqn:Ei; [|discriminate].
  destruct (rd (zrange (4 * mw / delta c + 1)) j) as [y|] eqn:Ej; [|discriminate].
  cbn [option_map] in *. pose proof (rd_bounds _ _ _ _ Ei) as Bi. pose proof (rd_bounds _ _ _ _ Ej) as Bj.
  rewrite zrange_length in Bi, Bj. rewrite rd_zrange in Ei, Ej by lia.
  injection Ha as <-. injection Hb as <-. injection Ei as <-. injection Ej as <-.
  assert (i * delta c < j * delta c) by (apply Z.mul_lt_mono_pos_r; lia). lia.
Qed.

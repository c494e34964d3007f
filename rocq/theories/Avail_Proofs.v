(** Proofs about data availability. *)
From Coq Require Import String Ascii.
From Coq Require Import List ZArith Reals Lia Lra Bool Permutation.
From Verif Require Import Lib LibFacts PyDict Timeline_Model Lut_Model Locate_Proofs Lut_Spec Lut_Proofs Avail_Model Avail_Spec.
Import ListNotations.
Open Scope Z_scope.

(** * Flatline *)
Lemma fold_max_ge r : forall x, (x <= fold_left Rmax r x)%R /\ forall y, In y r -> (y <= fold_left Rmax r x)%R.
Proof.
  induction r as [|z r IH]; intros x; cbn [fold_left]; [split; [lra|intros y []]|].
  destruct (IH (Rmax x z)) as [I1 I2]. pose proof (Rmax_l x z). pose proof (Rmax_r x z).
  split; [lra|]. intros y [->|Hy]; [lra|apply I2, Hy].
Qed.
Lemma fold_min_le r : forall x, (fold_left Rmin r x <= x)%R /\ forall y, In y r -> (fold_left Rmin r x <= y)%R.
Proof.
  induction r as [|z r IH]; intros x; cbn [fold_left]; [split; [lra|intros y []]|].
  destruct (IH (Rmin x z)) as [I1 I2]. pose proof (Rmin_l x z). pose proof (Rmin_r x z).
  split; [lra|]. intros y [->|Hy]; [lra|apply I2, Hy].
Qed.
Lemma fold_same (f : R -> R -> R) r : forall x, (forall y, f y y = y) -> Forall (fun y => y = x) r -> fold_left f r x = x.
Proof.
  induction r as [|z r IH]; intros x Hf H; [reflexivity|]. inversion H; subst. cbn. rewrite Hf. apply IH; assumption.
Qed.
Lemma flatline_ok s : sg_data s <> [] -> exists b, flatline s = Ret b /\ (b = true <-> flat (sg_data s)).
Proof.
  unfold flatline. destruct (sg_data s) as [|x r]; [congruence|]. intros _. eexists. split; [reflexivity|].
  destruct (Req_EM_T (fold_left Rmax r x) (fold_left Rmin r x)) as [E|E].
  - split; [|reflexivity]. intros _. exists x. constructor; [reflexivity|]. apply Forall_forall. intros y Hy.
    destruct (fold_max_ge r x) as [A1 A2]. destruct (fold_min_le r x) as [B1 B2]. specialize (A2 y Hy). specialize (B2 y Hy). lra.
  - split; [discriminate|]. intros (v & F). inversion F as [|? ? Hx Fr]; subst. exfalso. apply E. 
    rewrite !fold_same; [reflexivity|intros y; unfold Rmin; destruct (Rle_dec y y); reflexivity|exact Fr
      |intros y; unfold Rmax; destruct (Rle_dec y y); reflexivity|exact Fr].
Qed.
Lemma any_flat_ok l : Forall (fun s => sg_data s <> []) l ->
  exists b, any_flat l = Ret b /\ (b = false <-> Forall (fun s => ~ flat (sg_data s)) l).
Proof.
  induction 1 as [|s l Hs _ IH]; cbn [any_flat]; [eexists; split; [reflexivity|]; split; constructor|].
  destruct (flatline_ok s Hs) as (f & -> & Hf). cbn [bind]. destruct f.
  - exists true. split; [reflexivity|]. split; [discriminate|]. intros F. inversion F as [|? ? Hn ?]; subst. exfalso. apply Hn, Hf. reflexivity.
  - destruct IH as (b & -> & Hb). exists b. split; [reflexivity|]. rewrite Hb. split; intros F.
    + constructor; [|exact F]. intros C. apply Hf in C. discriminate.
    + inversion F; assumption.
Qed.
Lemma not_flat_two s : sg_data s <> [] -> ~ flat (sg_data s) -> 2 <= npts s.
Proof.
  unfold npts. destruct (sg_data s) as [|x [|y r]]; intros H1 H2; [congruence| |cbn [length]; lia].
  exfalso. apply H2. exists x. repeat constructor.
Qed.

(** * Gaps *)
Definition seg_before (a b : seg) : Prop := sg_start a < sg_start b \/ (sg_start a = sg_start b /\ sg_end a <= sg_end b).
Lemma insert_perm a l : Permutation (insert_seg a l) (a :: l).
Proof. induction l as [|b l IH]; cbn [insert_seg]; [reflexivity|]. destruct (seg_le a b); [reflexivity|]. rewrite IH. apply perm_swap. Qed.
Lemma sort_perm l : Permutation (sort_segs l) l.
Proof. induction l as [|a l IH]; [reflexivity|]. cbn. rewrite insert_perm. apply perm_skip, IH. Qed.
Fixpoint sorted_from (b : option seg) (l : list seg) : Prop :=
  match l with [] => True | a :: r => match b with Some b => seg_before b a | None => True end /\ sorted_from (Some a) r end.
Lemma seg_le_spec a b : seg_le a b = true <-> seg_before a b.
Proof.
  unfold seg_le, seg_before. destruct (Z.ltb_spec (sg_start a) (sg_start b)), (Z.eqb_spec (sg_start a) (sg_start b)), (Z.leb_spec (sg_end a) (sg_end b)); cbn; split; intros; try lia; try discriminate; reflexivity.
Qed.
Lemma insert_sorted a l : forall b, sorted_from b l -> match b with Some b => seg_before b a | None => True end -> sorted_from b (insert_seg a l).
Proof.
  induction l as [|x l IH]; intros b Hl Hb; cbn [insert_seg]; [split; [exact Hb|exact I]|].
  destruct (seg_le a x) eqn:E.
  - apply seg_le_spec in E. destruct Hl as [H1 H2]. split; [exact Hb|]. split; [exact E|exact H2].
  - destruct Hl as [H1 H2]. split; [exact H1|]. apply IH; [exact H2|].
    assert (~ seg_before a x) by (intros C; apply seg_le_spec in C; congruence). unfold seg_before in *. lia.
Qed.
Lemma sort_sorted l : sorted_from None (sort_segs l).
Proof. induction l as [|a l IH]; [exact I|]. cbn. apply insert_sorted; [exact IH|exact I]. Qed.
Lemma sorted_weaken l : forall b, sorted_from (Some b) l -> sorted_from None l.
Proof. destruct l; cbn; intros b H; [exact I|]. split; [exact I|apply H]. Qed.
Lemma sorted_start l : forall b x, sorted_from (Some b) l -> In x l -> sg_start b <= sg_start x.
Proof.
  induction l as [|a l IH]; intros b x H Hx; [destruct Hx|]. destruct H as [H1 H2]. unfold seg_before in H1.
  destruct Hx as [->|Hx]; [lia|]. specialize (IH a x H2 Hx). lia.
Qed.

Lemma ord_pairs_perm {A} (P : A -> A -> Prop) : (forall x y, P x y -> P y x) ->
  forall l l', Permutation l l' -> ForallOrdPairs P l -> ForallOrdPairs P l'.
Proof.
  intros Hs. induction 1 as [|x l l' Hp IH|x y l|l1 l2 l3 H1 IH1 H2 IH2]; intros H.
  - constructor.
  - inversion H; subst. constructor; [eapply Permutation_Forall; eassumption|apply IH; assumption].
  - inversion H as [|? ? F1 H']; subst. inversion H' as [|? ? F2 H'']; subst. inversion F1; subst.
    constructor; [constructor; [apply Hs; assumption|assumption]|]. constructor; assumption.
  - apply IH2, IH1, H.
Qed.

(** Relation between neighbours. *)
Fixpoint neighbours (P : seg -> seg -> Prop) (l : list seg) : Prop :=
  match l with a :: ((b :: _) as r) => P a b /\ neighbours P r | _ => True end.
Lemma has_gap_ok c o (P : seg -> seg -> Prop) l : (forall a b, In a l -> In b l -> (listed c o a b = false <-> P a b)) ->
  has_gap c o l = false <-> neighbours P l.
Proof.
  induction l as [|a l IH]; intros H; [cbn; tauto|]. destruct l as [|b l]; [cbn; tauto|].
  change (has_gap c o (a :: b :: l)) with (listed c o a b || has_gap c o (b :: l)).
  change (neighbours P (a :: b :: l)) with (P a b /\ neighbours P (b :: l)).
  rewrite orb_false_iff. rewrite IH by (intros x y Hx Hy; apply H; right; assumption).
  rewrite (H a b) by (cbn; auto). reflexivity.
Qed.

Definition good (c : clock) (d : Z) (s : seg) : Prop := sg_delta s = d /\ 2 <= npts s.

Lemma listed_overlap c d a b : 0 < d -> 0 < sec c -> sec c <= 500000 * d -> good c d a -> good c d b -> 
  listed c true a b = false <-> after a b.
Proof.
  intros Hd Hc Hs (Ea & Na) (Eb & Nb). unfold listed, gap_length, after. rewrite Ea, Eb, Z.eqb_refl. cbn [andb].
  assert (Hl : d <= sg_end b - sg_start b).
  { unfold sg_end. rewrite Eb. assert (1 * d <= (npts b - 1) * d) by (apply Z.mul_le_mono_nonneg_r; lia). lia. }
  rewrite andb_false_iff, !negb_false_iff, !Z.ltb_lt.
  set (x := sg_start b - (sg_end a + d)) in *.
  destruct (Z.ltb_spec x 0) as [H1|H1]; [destruct (Z.ltb_spec (sg_end b - sg_start b) (- x)) as [H2|H2]|]; split; intros H; try lia.
Qed.
Lemma listed_gap c d a b : 0 < d -> good c d a -> good c d b -> after a b ->
  listed c false a b = false <-> 2 * Z.abs (sg_start b - (sg_end a + d)) < d.
Proof.
  intros Hd (Ea & Na) (Eb & Nb) Haf. unfold listed, gap_length, after in *. rewrite Ea in Haf. rewrite Ea, Eb, Z.eqb_refl. cbn [andb negb].
  assert (Hl : d <= sg_end b - sg_start b).
  { unfold sg_end. rewrite Eb. assert (1 * d <= (npts b - 1) * d) by (apply Z.mul_le_mono_nonneg_r; lia). lia. }
  rewrite negb_false_iff, Z.ltb_lt. set (x := sg_start b - (sg_end a + d)) in *.
  destruct (Z.ltb_spec x 0) as [H1|H1]; [destruct (Z.ltb_spec (sg_end b - sg_start b) (- x)) as [H2|H2]|]; split; intros H; try lia.
Qed.

Section Gaps.
Variables (c : clock) (d : Z).
Hypothesis Hd : 0 < d.
Hypothesis Hc : 0 < sec c.
Hypothesis Hs : sec c <= 500000 * d.

Lemma end_start s : good c d s -> sg_start s + d <= sg_end s.
Proof.
  intros (E & N). unfold sg_end. rewrite E. assert (1 * d <= (npts s - 1) * d) by (apply Z.mul_le_mono_nonneg_r; lia). lia.
Qed.

Lemma neighbours_all l : Forall (good c d) l -> sorted_from None l ->
  neighbours after l <-> ForallOrdPairs (fun a b => after a b \/ after b a) l.
Proof.
  induction l as [|a l IH]; intros Hg Hso; [split; [constructor|exact (fun _ => I)]|].
  inversion Hg as [|? ? Ga Gl]; subst. destruct l as [|b l]; [split; [constructor; constructor|exact (fun _ => I)]|].
  destruct Hso as [_ Hso]. specialize (IH Gl (sorted_weaken _ _ Hso)).
  change (neighbours after (a :: b :: l)) with (after a b /\ neighbours after (b :: l)). rewrite IH.
  inversion Gl as [|? ? Gb Gl']; subst. pose proof (end_start _ Ga) as Ea. pose proof (end_start _ Gb) as Eb.
  destruct Ga as (Da & Na). destruct Gb as (Db & Nb).
  split.
  - intros [Hab Hp]. constructor; [|exact Hp]. apply Forall_forall. intros x [<-|Hx]; [left; exact Hab|]. left.
    assert (S : sg_start b <= sg_start x) by (apply (sorted_start l); [apply Hso|exact Hx]). unfold after in *. lia.
  - intros Hp. inversion Hp as [|? ? F Hp']; subst. split; [|exact Hp']. inversion F as [|? ? [H|H] _]; subst; [exact H|].
    exfalso. assert (S : sg_start a <= sg_start b) by (apply (sorted_start (b :: l)); [exact Hso|left; reflexivity]). unfold after in H. lia.
Qed.

Lemma overlaps_ok l : Forall (good c d) l -> get_gaps c true l = false <-> overlap_free l.
Proof.
  intros Hg. unfold get_gaps, overlap_free. assert (Hg' : Forall (good c d) (sort_segs l)).
  { eapply Permutation_Forall; [symmetry; apply sort_perm|exact Hg]. }
  rewrite (has_gap_ok c true after).
  - rewrite (neighbours_all _ Hg' (sort_sorted l)). split; apply ord_pairs_perm; try (intros x y [H|H]; auto; fail);
      [apply sort_perm|symmetry; apply sort_perm].
  - rewrite Forall_forall in Hg'. intros a b Ha Hb. apply (listed_overlap c d); auto.
Qed.

(** In a sorted list without overlaps, neighbours continue each other iff every trace is
    continued. *)
Lemma gap_neighbours l : Forall (good c d) l -> sorted_from None l -> neighbours after l ->
  neighbours (fun a b => 2 * Z.abs (sg_start b - (sg_end a + d)) < d) l <->
  (forall a b, In a l -> In b l -> sg_end a < sg_start b -> exists n, In n l /\ 2 * Z.abs (sg_start n - (sg_end a + d)) < d).
Proof.
  induction l as [|a l IH]; intros Hg Hso Hn; [split; [intros _ x y []|exact (fun _ => I)]|].
  inversion Hg as [|? ? Ga Gl]; subst. pose proof (end_start _ Ga) as Ea. destruct l as [|b l].
  { split; [|exact (fun _ => I)]. intros _ x y [<-|[]] [<-|[]] H. lia. }
  destruct Hso as [_ Hso]. destruct Hn as [Hab Hn]. specialize (IH Gl (sorted_weaken _ _ Hso) Hn).
  change (neighbours ?P (a :: b :: l)) with (P a b /\ neighbours P (b :: l)). rewrite IH. clear IH.
  assert (Hst : forall x, In x (b :: l) -> sg_start b <= sg_start x).
  { intros x [<-|Hx]; [lia|]. apply (sorted_start l); [apply Hso|exact Hx]. }
  assert (Hes : forall x, In x (b :: l) -> sg_start x < sg_end x).
  { intros x Hx. rewrite Forall_forall in Gl. pose proof (end_start _ (Gl x Hx)). lia. }
  destruct Ga as (Da & Na). unfold after in Hab. rewrite Da in Hab. split.
  - intros [H1 H2] x y [<-|Hx] Hy Hxy.
    + exists b. split; [right; left; reflexivity|exact H1].
    + destruct Hy as [<-|Hy].
      * exfalso. specialize (Hst x Hx). specialize (Hes x Hx). lia.
      * destruct (H2 x y Hx Hy Hxy) as (n & Hn' & E). exists n. split; [right; exact Hn'|exact E].
  - intros H. split.
    + destruct (H a b (or_introl eq_refl) (or_intror (or_introl eq_refl)) ltac:(lia)) as (n & [<-|Hn'] & E); [lia|].
      specialize (Hst n Hn'). lia.
    + intros x y Hx Hy Hxy. destruct (H x y (or_intror Hx) (or_intror Hy) Hxy) as (n & [<-|Hn'] & E); [|exists n; auto].
      exfalso. specialize (Hst x Hx). specialize (Hes x Hx). lia.
Qed.

Lemma neighbours_iff (P Q : seg -> seg -> Prop) l : neighbours P l -> (forall a b, In a l -> In b l -> P a b -> (listed c false a b = false <-> Q a b)) ->
  has_gap c false l = false <-> neighbours Q l.
Proof.
  induction l as [|a l IH]; intros HP H; [cbn; tauto|]. destruct l as [|b l]; [cbn; tauto|]. destruct HP as [Pab HP].
  change (has_gap c false (a :: b :: l)) with (listed c false a b || has_gap c false (b :: l)).
  change (neighbours Q (a :: b :: l)) with (Q a b /\ neighbours Q (b :: l)).
  rewrite orb_false_iff. rewrite IH; [|exact HP|intros x y Hx Hy; apply H; right; assumption].
  rewrite (H a b); cbn; auto. reflexivity.
Qed.

Lemma gaps_ok l : Forall (good c d) l -> overlap_free l -> get_gaps c false l = false <-> continuous l.
Proof.
  intros Hg Ho. assert (Hg' : Forall (good c d) (sort_segs l)).
  { eapply Permutation_Forall; [symmetry; apply sort_perm|exact Hg]. }
  assert (Hn : neighbours after (sort_segs l)).
  { apply neighbours_all; [exact Hg'|apply sort_sorted|]. eapply ord_pairs_perm; [|symmetry; apply sort_perm|exact Ho].
    intros x y [H|H]; auto. }
  unfold get_gaps. rewrite (neighbours_iff after (fun a b => 2 * Z.abs (sg_start b - (sg_end a + d)) < d) _ Hn).
  - rewrite (gap_neighbours _ Hg' (sort_sorted l) Hn). unfold continuous.
    assert (Hin : forall x, In x (sort_segs l) <-> In x l).
    { intros x. split; apply Permutation_in; [apply sort_perm|symmetry; apply sort_perm]. }
    rewrite Forall_forall in Hg. split; intros H a b Ha Hb Hab.
    + destruct (H a b) as (n & Hn' & E); [apply Hin, Ha|apply Hin, Hb|exact Hab|]. exists n. split; [apply Hin, Hn'|].
      destruct (Hg a Ha) as [-> _]. exact E.
    + destruct (H a b) as (n & Hn' & E); [apply Hin, Ha|apply Hin, Hb|exact Hab|]. exists n. split; [apply Hin, Hn'|].
      destruct (Hg a (proj1 (Hin a) Ha)) as [Ed _]. rewrite Ed in E. exact E.
  - rewrite Forall_forall in Hg'. intros a b Ha Hb. apply (listed_gap c d); auto.
Qed.
End Gaps.

(** * One channel *)
Lemma check_channel_ok c st en k l : 0 < sec c -> l <> [] -> Forall (sampled c) l ->
  (check_rate k = true -> rate k <> None) ->
  (check_rate k = true \/ forall a b, In a l -> In b l -> sg_delta a = sg_delta b) ->
  exists b, check_channel c st en k l = Ret b /\ (b = true <-> channel_ok st en k l).
Proof.
  intros Hsec Hne Hsm Hrate Hone. unfold check_channel.
  destruct (any_flat_ok l) as (f & -> & Hf); [eapply Forall_impl; [|exact Hsm]; intros s H; apply H|]. cbn [bind].
  destruct f.
  { exists false. split; [reflexivity|]. split; [discriminate|]. intros (H & _). apply Hf in H. discriminate. }
  assert (Hnf : Forall (fun s => ~ flat (sg_data s)) l) by (apply Hf; reflexivity).
  (* one sampling rate, or the channel fails *)
  assert (Hdec : (forall a b, In a l -> In b l -> sg_delta a = sg_delta b) \/ check_rate k = true /\ exists a, In a l /\ rate k <> Some (sg_delta a)).
  { destruct Hone as [Hc|Hu]; [|left; exact Hu]. destruct (rate k) as [r|] eqn:Er; [|exfalso; apply (Hrate Hc); reflexivity].
    destruct (Forall_Exists_dec (fun s => sg_delta s = r) (fun s => Z.eq_dec (sg_delta s) r) l) as [F|E].
    - left. rewrite Forall_forall in F. intros a b Ha Hb. rewrite (F a Ha), (F b Hb). reflexivity.
    - right. split; [exact Hc|]. apply Exists_exists in E. destruct E as (a & Ha & Hr). exists a. split; [exact Ha|congruence]. }
  destruct Hdec as [Hu|(Hc & a & Ha & Hbad)].
  2:{ exists false. split; [|split; [discriminate|]; intros (_ & _ & _ & R & _); specialize (R Hc); rewrite Forall_forall in R; exfalso; apply Hbad, R, Ha].
      destruct (get_gaps c true l); [reflexivity|]. destruct (negb (allow_gaps k) && get_gaps c false l); [reflexivity|].
      rewrite Hc. destruct (rate k) as [r|] eqn:Er; [|exfalso; apply (Hrate Hc); reflexivity]. cbn [bind].
      replace (existsb (fun s => negb (sg_delta s =? r)) l) with true; [reflexivity|]. symmetry. apply existsb_exists.
      exists a. split; [exact Ha|]. destruct (Z.eqb_spec (sg_delta a) r); [congruence|reflexivity]. }
  destruct l as [|s0 l0] eqn:El; [congruence|]. rewrite <- El in *.
  assert (Hin0 : In s0 l) by (rewrite El; left; reflexivity). set (d := sg_delta s0).
  assert (Hg : Forall (good c d) l).
  { rewrite Forall_forall in *. intros s Hs. split; [apply Hu; assumption|]. apply not_flat_two; [apply (Hsm s Hs)|apply (Hnf s Hs)]. }
  assert (Hd : 0 < d) by (rewrite Forall_forall in Hsm; apply (Hsm s0 Hin0)).
  assert (Hs : sec c <= 500000 * d) by (rewrite Forall_forall in Hsm; apply (Hsm s0 Hin0)).
  pose proof (overlaps_ok c d Hd Hsec Hs l Hg) as Ho. destruct (get_gaps c true l).
  { exists false. split; [reflexivity|]. split; [discriminate|]. intros (_ & H & _). apply Ho in H. discriminate. }
  assert (Hov : overlap_free l) by (apply Ho; reflexivity). pose proof (gaps_ok c d Hd Hsec Hs l Hg Hov) as Hga.
  destruct (negb (allow_gaps k) && get_gaps c false l) eqn:Eg.
  { apply andb_true_iff in Eg. destruct Eg as [E1 E2]. apply negb_true_iff in E1.
    exists false. split; [reflexivity|]. split; [discriminate|]. intros (_ & _ & H & _). apply Hga in H; [congruence|exact E1]. }
  assert (Hcont : allow_gaps k = false -> continuous l).
  { intros E. rewrite E in Eg. cbn in Eg. apply Hga, Eg. }
  assert (Hrt : exists br, (if check_rate k then match rate k with None => Raise TypeError
      | Some r => Ret (existsb (fun s => negb (sg_delta s =? r)) l) end else Ret false) = Ret br
      /\ (br = false <-> (check_rate k = true -> Forall (fun s => rate k = Some (sg_delta s)) l))).
  { destruct (check_rate k); [|exists false; split; [reflexivity|]; split; [discriminate|reflexivity]].
    destruct (rate k) as [r|] eqn:Er; [|exfalso; apply Hrate; reflexivity]. eexists. split; [reflexivity|]. split.
    - intros E _. apply Forall_forall. intros s Hsl. destruct (Z.eq_dec (sg_delta s) r) as [->|Hn]; [reflexivity|].
      exfalso. rewrite (proj2 (existsb_exists _ l)) in E; [discriminate|]. exists s. split; [exact Hsl|].
      destruct (Z.eqb_spec (sg_delta s) r); [congruence|reflexivity].
    - intros F. specialize (F eq_refl). destruct (existsb _ l) eqn:E; [|reflexivity]. apply existsb_exists in E. destruct E as (s & Hsl & E).
      rewrite Forall_forall in F. specialize (F s Hsl). assert (Er' : sg_delta s = r) by congruence. rewrite Er', Z.eqb_refl in E. discriminate. }
  destruct Hrt as (br & -> & Hbr). cbn [bind]. destruct br.
  { exists false. split; [reflexivity|]. split; [discriminate|]. intros (_ & _ & _ & R & _). apply Hbr in R. discriminate. }
  assert (HR : check_rate k = true -> Forall (fun s => rate k = Some (sg_delta s)) l) by (apply Hbr; reflexivity).
  clear Hbr. subst d. rewrite El. set (several := match l0 with [] => false | _ :: _ => true end).
  assert (Hsev : several = false <-> l = [s0]).
  { rewrite El. unfold several. destruct l0; split; intros H; try reflexivity; try discriminate; injection H; discriminate. }
  assert (Hone1 : forall s, l = [s] -> s = s0 /\ several = false).
  { intros s E. split; [rewrite El in E; congruence|]. apply Hsev. rewrite El in E |- *. congruence. }
  assert (He : sg_end s0 - sg_start s0 = (npts s0 - 1) * sg_delta s0) by (unfold sg_end; lia).
  destruct (full_timespan k && (several || ((npts s0 - 1) * sg_delta s0 <? en - st))) eqn:Ef.
  { exists false. split; [reflexivity|]. split; [discriminate|]. intros (_ & _ & _ & _ & F & _). apply andb_true_iff in Ef. destruct Ef as [E1 E2].
    destruct (F E1) as (s & E & Hle). rewrite <- El in E. destruct (Hone1 _ E) as [-> Hsv]. rewrite Hsv in E2. cbn [orb] in E2. apply Z.ltb_lt in E2. lia. }
  assert (HF : full_timespan k = true -> exists s, l = [s] /\ en - st <= sg_end s - sg_start s).
  { intros E. rewrite E in Ef. cbn [andb] in Ef. apply orb_false_iff in Ef. destruct Ef as [E1 E2]. exists s0.
    split; [apply Hsev, E1|]. apply Z.ltb_ge in E2. lia. }
  destruct (check_times k && (several || negb (sg_start s0 =? st) || negb (sg_end s0 =? en))) eqn:Et.
  { exists false. split; [reflexivity|]. split; [discriminate|]. intros (_ & _ & _ & _ & _ & F). apply andb_true_iff in Et. destruct Et as [E1 E2].
    destruct (F E1) as (s & E & H1 & H2). rewrite <- El in E. destruct (Hone1 _ E) as [-> Hsv]. rewrite Hsv in E2. cbn [orb] in E2.
    rewrite H1, H2, !Z.eqb_refl in E2. discriminate. }
  assert (HT : check_times k = true -> exists s, l = [s] /\ sg_start s = st /\ sg_end s = en).
  { intros E. rewrite E in Et. cbn [andb] in Et. apply orb_false_iff in Et. destruct Et as [E1 E2]. apply orb_false_iff in E1. destruct E1 as [E1 E3].
    apply negb_false_iff in E2, E3. apply Z.eqb_eq in E2, E3. exists s0. split; [apply Hsev, E1|]. split; assumption. }
  exists true. split; [reflexivity|]. split; [|reflexivity]. intros _. rewrite <- El. unfold channel_ok. auto 8.
Qed.

(** * All channels *)
Lemma insert_id_perm x l : Permutation (insert_id x l) (x :: l).
Proof.
  induction l as [|y l IH]; cbn [insert_id]; [reflexivity|]. destruct (String.compare x y); try reflexivity.
  rewrite IH. apply perm_swap.
Qed.
Lemma sorted_ids_perm st : Permutation (sorted_ids st) (nodup string_dec (map sg_id st)).
Proof.
  unfold sorted_ids. induction (nodup string_dec (map sg_id st)) as [|x l IH]; cbn [fold_right]; [reflexivity|].
  rewrite insert_id_perm. apply perm_skip, IH.
Qed.
Lemma sorted_ids_nodup st : NoDup (sorted_ids st).
Proof. eapply Permutation_NoDup; [symmetry; apply sorted_ids_perm|apply NoDup_nodup]. Qed.
Lemma sorted_ids_in st i : In i (sorted_ids st) <-> is_id st i.
Proof.
  assert (E : In i (sorted_ids st) <-> In i (map sg_id st)).
  { rewrite <- (nodup_In string_dec (map sg_id st) i). split; apply Permutation_in; [apply sorted_ids_perm|symmetry; apply sorted_ids_perm]. }
  rewrite E, in_map_iff. unfold is_id. split; intros (s & H1 & H2); exists s; auto.
Qed.

Lemma check_channels_ok c st en k l ids (ok : string -> bool) :
  (forall i, In i ids -> check_channel c st en k (select_id l i) = Ret (ok i)) ->
  check_channels c st en k l ids = Ret (map (fun i => (i, if ok i then 1 else 0)) ids).
Proof.
  induction ids as [|i ids IH]; intros H; [reflexivity|]. cbn [check_channels map]. rewrite (H i (or_introl eq_refl)). cbn [bind].
  rewrite IH by (intros j Hj; apply H; right; exact Hj). reflexivity.
Qed.

Lemma choose_ok (P : string -> Prop) (f : string -> outcome bool) ids : NoDup ids ->
  (forall i, In i ids -> exists b, f i = Ret b /\ (b = true <-> P i)) ->
  exists ok : string -> bool, forall i, In i ids -> f i = Ret (ok i) /\ (ok i = true <-> P i).
Proof.
  intros _ H. exists (fun i => match f i with Ret b => b | _ => false end). intros i Hi.
  destruct (H i Hi) as (b & E & Hb). rewrite E. auto.
Qed.

Lemma values_map {A} (f : string -> A) ids : values (map (fun i => (i, f i)) ids) = map f ids.
Proof. unfold values. rewrite map_map. reflexivity. Qed.

Lemma availability_ok c st en k l : 0 < sec c -> l <> [] -> Forall (sampled c) l -> complete_args k -> one_rate k l ->
  exists (av : Z) (ok : string -> bool), 
    check_availability c st en k l = Ret (av, map (fun i => (i, if ok i then 1 else 0)) (sorted_ids l))
    /\ (forall i, is_id l i -> (ok i = true <-> channel_ok st en k (select_id l i)))
    /\ (av = 0 \/ av = 1)
    /\ (av = 1 <-> if all_channels k then (forall i, is_id l i -> ok i = true) /\ n_channels k = Some (Z.of_nat (length (sorted_ids l)))
                  else exists i, is_id l i /\ ok i = true).
Proof.
  intros Hsec Hne Hsm [Hca Hcn] Hone.
  destruct (choose_ok (fun i => channel_ok st en k (select_id l i)) (fun i => check_channel c st en k (select_id l i)) (sorted_ids l) (sorted_ids_nodup l))
    as [ok Hok].
  { intros i Hi. apply sorted_ids_in in Hi. apply check_channel_ok; [exact Hsec| | |exact Hca|].
    - destruct Hi as (s & Hs & E). intros C. assert (H : In s (select_id l i)) by (apply filter_In; split; [exact Hs|apply String.eqb_eq, E]).
      rewrite C in H. destruct H.
    - rewrite Forall_forall in *. intros s Hs. apply Hsm. apply filter_In in Hs. apply Hs.
    - destruct Hone as [H|H]; [left; exact H|right]. intros a b Ha Hb. apply filter_In in Ha, Hb. destruct Ha as [Ha Ea], Hb as [Hb Eb].
      apply String.eqb_eq in Ea, Eb. apply H; congruence. }
  assert (Hcc : check_channels c st en k l (sorted_ids l) = Ret (map (fun i => (i, if ok i then 1 else 0)) (sorted_ids l))).
  { apply check_channels_ok. intros i Hi. apply Hok, Hi. }
  assert (Hall : forallb (Z.eqb 1) (map (fun i => if ok i then 1 else 0) (sorted_ids l)) = true <-> forall i, is_id l i -> ok i = true).
  { rewrite forallb_forall. split; intros H.
    - intros i Hi. apply sorted_ids_in in Hi. specialize (H _ (in_map (fun i => if ok i then 1 else 0) _ _ Hi)). destruct (ok i); [reflexivity|discriminate].
    - intros x Hx. apply in_map_iff in Hx. destruct Hx as (i & <- & Hi). apply sorted_ids_in in Hi. rewrite (H i Hi). reflexivity. }
  assert (Hex : existsb (Z.eqb 1) (map (fun i => if ok i then 1 else 0) (sorted_ids l)) = true <-> exists i, is_id l i /\ ok i = true).
  { rewrite existsb_exists. split.
    - intros (x & Hx & E). apply in_map_iff in Hx. destruct Hx as (i & <- & Hi). apply sorted_ids_in in Hi. exists i. split; [exact Hi|].
      destruct (ok i); [reflexivity|discriminate].
    - intros (i & Hi & E). apply sorted_ids_in in Hi. exists 1. split; [|reflexivity]. apply in_map_iff. exists i. rewrite E. auto. }
  assert (Hsome : exists i, is_id l i) by (destruct l as [|s l']; [congruence|]; exists (sg_id s), s; split; [left; reflexivity|reflexivity]).
  unfold check_availability. destruct l as [|s0 l0] eqn:El; [congruence|]. rewrite <- El in *. rewrite Hcc. cbn [bind]. rewrite values_map.
  assert (Hid : forall i, is_id l i -> (ok i = true <-> channel_ok st en k (select_id l i))).
  { intros i Hi. apply sorted_ids_in in Hi. apply Hok, Hi. }
  destruct (forallb (Z.eqb 1) (map (fun i => if ok i then 1 else 0) (sorted_ids l))) eqn:Ea.
  - assert (Hao : forall i, is_id l i -> ok i = true) by (apply Hall; reflexivity).
    destruct (all_channels k) eqn:Ek.
    + destruct (Hcn eq_refl) as (n & En & Hn). rewrite En. destruct n as [|p|p]; [lia| |lia]. rewrite map_length.
      eexists _, ok. split; [reflexivity|]. split; [exact Hid|].
      destruct (Z.eqb_spec (Z.of_nat (length (sorted_ids l))) (Z.pos p)) as [E|E].
      * split; [right; reflexivity|]. split; [|reflexivity]. intros _. split; [exact Hao|congruence].
      * split; [left; reflexivity|]. split; [discriminate|]. intros [_ C]. congruence.
    + exists 1, ok. split; [reflexivity|]. split; [exact Hid|]. split; [right; reflexivity|]. split; [|reflexivity]. intros _.
      destruct Hsome as [i Hi]. exists i. split; [exact Hi|apply Hao, Hi].
  - eexists _, ok. split; [reflexivity|]. split; [exact Hid|]. destruct (all_channels k) eqn:Ek; cbn [negb andb].
    + split; [left; reflexivity|]. split; [discriminate|]. intros [C _]. apply Hall in C. discriminate.
    + destruct (existsb _ _); [split; [right; reflexivity|]; split; [intros _; apply Hex; reflexivity|reflexivity]|].
      split; [left; reflexivity|]. split; [discriminate|]. intros C. apply Hex in C. discriminate.
Qed.

Lemma remove_unavailable_in av : forall st s, In s (remove_unavailable av st) <-> In s st /\ ~ In (sg_id s, 0) av.
Proof.
  unfold remove_unavailable. induction av as [|[i v] av IH]; intros st s; cbn [fold_left fst snd]; [cbn; tauto|].
  rewrite IH. cbn [In]. destruct (Z.eqb_spec v 0) as [->|Hv].
  - rewrite filter_In. destruct (String.eqb_spec (sg_id s) i) as [<-|Hn]; cbn [negb]; [intuition congruence|].
    split; [intros [[H1 _] H2]; split; [exact H1|intros [C|C]; [injection C; congruence|exact (H2 C)]]|intuition].
  - split; [intros [H1 H2]; split; [exact H1|intros [C|C]; [injection C; congruence|exact (H2 C)]]|intuition].
Qed.

(** * Files *)
Lemma filter_day_sorted c (rows : list (Z * list Z)) d : 0 < day c ->
  (forall i j a b, i < j -> rd rows i = Some a -> rd rows j = Some b -> fst a <= fst b) ->
  filter (fun r => fst r / day c <? d + 1) rows = filter (fun r => fst r / day c <? d) rows ++ filter (fun r => fst r / day c =? d) rows.
Proof.
  intros Hd. induction rows as [|r rows IH]; intros H; [reflexivity|]. cbn [filter].
  assert (H' : forall i j a b, i < j -> rd rows i = Some a -> rd rows j = Some b -> fst a <= fst b).
  { intros i j a b Hij Ha Hb. pose proof (rd_bounds _ _ _ _ Ha). pose proof (rd_bounds _ _ _ _ Hb). apply (H (i + 1) (j + 1)); [lia| |]; rewrite rd_S by lia; assumption. }
  specialize (IH H'). assert (Hle : forall b, In b rows -> fst r <= fst b).
  { intros b Hb. destruct (in_rd _ _ _ Hb) as [j Hj]. pose proof (rd_bounds _ _ _ _ Hj). apply (H 0 (j + 1)); [lia|reflexivity|rewrite rd_S by lia; exact Hj]. }
  destruct (Z.ltb_spec (fst r / day c) (d + 1)) as [H1|H1], (Z.ltb_spec (fst r / day c) d) as [H2|H2], (Z.eqb_spec (fst r / day c) d) as [H3|H3]; try lia.
  - rewrite IH. reflexivity.
  - rewrite IH. rewrite (filter_none (fun r0 => fst r0 / day c <? d)); [reflexivity|]. intros b Hb. apply Z.ltb_ge.
    rewrite <- H3. apply Z.div_le_mono; [exact Hd|apply Hle, Hb].
  - exact IH.
Qed.

Section Read.
Variables (c : clock) (fs : files) (cols : list string) (rows : list (Z * list Z)).
Hypothesis Hday : 0 < day c.
Hypothesis Hcols : exists c0 r a b, cols = c0 :: r /\ split_on underscore c0 = [a; b].
Hypothesis Hsorted : forall i j a b, i < j -> rd rows i = Some a -> rd rows j = Some b -> fst a <= fst b.
Let t := mk_atable cols rows.

Lemma handle_new rs : handle_old_structure (mk_atable cols rs) = Ret (mk_atable cols rs).
Proof. destruct Hcols as (c0 & r & a & b & -> & E). unfold handle_old_structure. cbn [at_cols]. rewrite E. reflexivity. Qed.

Definition upto (d0 d : Z) : list (Z * list Z) := filter (fun r => (d0 <=? fst r / day c) && (fst r / day c <? d)) rows.
Definition acc_of (l : list (Z * list Z)) : option atable := match l with [] => None | _ => Some (mk_atable cols l) end.

Lemma upto_step d0 d : d0 <= d -> upto d0 (d + 1) = upto d0 d ++ filter (fun r => fst r / day c =? d) rows.
Proof.
  intros H. unfold upto.
  assert (E : forall e, filter (fun r => (d0 <=? fst r / day c) && (fst r / day c <? e)) rows
    = filter (fun r => d0 <=? fst r / day c) (filter (fun r => fst r / day c <? e) rows)).
  { intros e. generalize rows as l. clear. induction l as [|x l IH]; [reflexivity|]. cbn [filter].
    destruct (d0 <=? fst x / day c) eqn:E1, (fst x / day c <? e) eqn:E2; cbn [filter andb]; rewrite ?E1, IH; reflexivity. }
  rewrite !E, filter_day_sorted by assumption. rewrite filter_app. f_equal. apply filter_all.
  intros x Hx. apply filter_In in Hx. destruct Hx as [_ Hx]. apply Z.eqb_eq in Hx. apply Z.leb_le. lia.
Qed.

Lemma read_days_ok d0 endtime : (forall d, d0 <= d -> d <= endtime / day c -> ~ (exists r, In r rows /\ fst r / day c = d) -> fs d = None) ->
  forall fuel d, d0 <= d -> d <= endtime / day c + 1 -> endtime / day c - d < Z.of_nat fuel ->
  read_days fuel c (write_availability c fs t) (d * day c) endtime (acc_of (upto d0 d)) = Some (Ret (acc_of (upto d0 (endtime / day c + 1)))).
Proof.
  intros Hold. induction fuel as [|fuel IH]; intros d H0 Hle Hf; cbn [read_days].
  - assert (d = endtime / day c + 1) by lia. subst d. pose proof (Z.mul_succ_div_gt endtime (day c) Hday) as G.
    destruct (Z.leb_spec ((endtime / day c + 1) * day c) endtime); [lia|reflexivity].
  - destruct (Z.leb_spec (d * day c) endtime) as [C|C].
    + assert (Hd : d <= endtime / day c) by (apply Z.div_le_lower_bound; lia). rewrite Z.div_mul by lia.
      replace (d * day c + day c) with ((d + 1) * day c) by ring. unfold write_availability at 1. cbn [at_rows at_cols t].
      destruct (existsb (fun r => fst r / day c =? d) rows) eqn:Ex.
      * rewrite handle_new. cbn [bind]. 
        assert (Ea : append_table (acc_of (upto d0 d)) (mk_atable cols (filter (fun r => fst r / day c =? d) rows)) = Ret (acc_of (upto d0 (d + 1)))).
        { rewrite upto_step by exact H0. assert (Hne : filter (fun r => fst r / day c =? d) rows <> []).
          { apply existsb_exists in Ex. destruct Ex as (r & Hr & E). intros C'. assert (In r []) as []. rewrite <- C'. apply filter_In. auto. }
          destruct (upto d0 d) as [|x l]; cbn [acc_of append_table app].
          - destruct (filter _ rows); [congruence|reflexivity].
          - cbn [at_cols at_rows]. destruct (list_eq_dec string_dec cols cols); [reflexivity|congruence]. }
        rewrite Ea. apply IH; lia.
      * assert (Hnone : ~ exists r, In r rows /\ fst r / day c = d).
        { intros (r & Hr & E). rewrite (proj2 (existsb_exists _ rows)) in Ex; [discriminate|]. exists r. split; [exact Hr|apply Z.eqb_eq, E]. }
        rewrite (Hold d H0 Hd Hnone). replace (acc_of (upto d0 d)) with (acc_of (upto d0 (d + 1))); [apply IH; lia|].
        rewrite upto_step by exact H0. rewrite (filter_none (fun r => fst r / day c =? d)); [rewrite app_nil_r; reflexivity|].
        intros x Hx. apply Z.eqb_neq. intros E. apply Hnone. exists x. auto.
    + assert (endtime / day c < d) by (apply Z.div_lt_upper_bound; lia). assert (d = endtime / day c + 1) by lia. subst d. reflexivity.
Qed.
End Read.

(** * Old format *)
Lemma rd_combine_ {A B} (l : list A) : forall (l' : list B) i x y, rd l i = Some x -> rd l' i = Some y -> rd (combine l l') i = Some (x, y).
Proof.
  induction l as [|a l IH]; intros l' i x y H H'; [rewrite rd_nil in H; discriminate|].
  destruct l' as [|b l']; [rewrite rd_nil in H'; discriminate|]. cbn [combine]. pose proof (rd_bounds _ _ _ _ H).
  destruct (Z.eq_dec i 0) as [->|Hi]; [rewrite rd_0 in *; congruence|]. replace i with ((i - 1) + 1) in * by lia.
  rewrite rd_S in * by lia. apply IH; assumption.
Qed.
Lemma key_inj s s' p p' : plain_name s -> plain_name s' -> plain_name p -> plain_name p' ->
  (s ++ "_" ++ p)%string = (s' ++ "_" ++ p')%string -> s = s' /\ p = p'.
Proof.
  intros H1 H2 H3 H4 E. apply (f_equal (split_on underscore)) in E. rewrite !split_key in E by assumption.
  split; congruence.
Qed.
Lemma col_index_ok cols : forall k i x, NoDup cols -> rd cols i = Some x -> col_index cols x k = Some (k + i).
Proof.
  induction cols as [|y cols IH]; intros k i x Hn H; [rewrite rd_nil in H; discriminate|]. cbn [col_index].
  inversion Hn as [|? ? Hy Hn']; subst. pose proof (rd_bounds _ _ _ _ H) as B. destruct (String.eqb_spec y x) as [->|Hne].
  - destruct (Z.eq_dec i 0) as [->|Hi]; [f_equal; lia|]. exfalso. apply Hy. replace i with ((i - 1) + 1) in H by lia.
    rewrite rd_S in H by lia. apply rd_in in H. exact H.
  - destruct (Z.eq_dec i 0) as [->|Hi]; [rewrite rd_0 in H; congruence|]. replace i with ((i - 1) + 1) in H by lia.
    rewrite rd_S in H by lia. rewrite (IH (k + 1) (i - 1) x Hn' H). f_equal. lia.
Qed.

Section Old.
Variable t : atable.
Hypothesis Hplain : Forall plain_name (at_cols t).
Hypothesis Hnd : NoDup (at_cols t).

Definition colv (x : string) : list Z := match column t x with Ret v => v | _ => [] end.
Lemma column_ok x : In x (at_cols t) -> column t x = Ret (colv x).
Proof.
  intros H. unfold colv, column. destruct (in_rd _ _ _ H) as [i Hi]. rewrite (col_index_ok _ 0 _ _ Hnd Hi). reflexivity.
Qed.
Definition old_key (p x : string) : string := String.append x (String.append "_" p).
Lemma new_columns_ok p : plain_name p -> forall cols acc, (forall x, In x cols -> In x (at_cols t)) -> NoDup cols ->
  (forall x, In x cols -> ~ In (old_key p x) (keys acc)) ->
  new_columns t p cols acc = Ret (acc ++ map (fun x => (old_key p x, colv x)) cols).
Proof.
  intros Hp. induction cols as [|x cols IH]; intros acc Hin Hn Hk; cbn [new_columns map]; [rewrite app_nil_r; reflexivity|].
  assert (Hx : In x (at_cols t)) by (apply Hin; left; reflexivity). rewrite Forall_forall in Hplain.
  unfold head_part. rewrite split_plain by (apply Hplain, Hx). cbn [hd]. rewrite column_ok by exact Hx. cbn [bind].
  inversion Hn as [|? ? Hx' Hn']; subst. rewrite dset_new.
  2:{ apply dget_none. apply (Hk x). left; reflexivity. }
  rewrite IH; [rewrite <- app_assoc; reflexivity|intros y Hy; apply Hin; right; exact Hy|exact Hn'|].
  intros y Hy C. unfold keys in C. rewrite map_app, in_app_iff in C. destruct C as [C|[C|[]]].
  - apply (Hk y (or_intror Hy)), C.
  - cbn [fst] in C. apply key_inj in C; [|apply Hplain, Hx|apply Hplain, Hin; right; exact Hy|exact Hp|exact Hp].
    destruct C as [-> _]. exact (Hx' Hy).
Qed.

Lemma plain_P : plain_name "P". Proof. unfold plain_name, underscore. cbn. intros [C|[]]. discriminate. Qed.
Lemma plain_S : plain_name "S". Proof. unfold plain_name, underscore. cbn. intros [C|[]]. discriminate. Qed.

Hypothesis Hrows : Forall (fun r : Z * list Z => length (snd r) = length (at_cols t)) (at_rows t).
Lemma cell_ok j r : rd (at_rows t) j = Some r ->
  map (fun v => match rd v j with Some x => x | None => 0 end) (map colv (at_cols t)) = snd r.
Proof.
  intros Hj. rewrite map_map. pose proof Hrows as HR. rewrite Forall_forall in HR. specialize (HR r (rd_in _ _ _ _ Hj)).
  apply rd_ext; [rewrite map_length; symmetry; exact HR|]. intros i Hi. rewrite map_length in Hi. rewrite rd_map.
  destruct (rd_in_range _ (at_cols t) i Hi) as [x Hx]. rewrite Hx. cbn [option_map].
  unfold colv, column. rewrite (col_index_ok _ 0 _ _ Hnd Hx), rd_map, Hj. cbn [option_map]. rewrite Z.add_0_l.
  destruct (rd_in_range _ (snd r) i) as [v Hv]; [rewrite HR; exact Hi|]. rewrite Hv. reflexivity.
Qed.

Lemma old_format_ok : at_cols t <> [] -> handle_old_structure t =
  Ret (mk_atable (map (old_key "P") (at_cols t) ++ map (old_key "S") (at_cols t)) (map (fun r => (fst r, snd r ++ snd r)) (at_rows t))).
Proof.
  intros Hne. unfold handle_old_structure. destruct (at_cols t) as [|c0 cr] eqn:Ec; [congruence|].
  rewrite split_plain by (inversion Hplain; assumption). cbn [length]. change (Z.of_nat 1 =? 2) with false. cbv iota. rewrite <- Ec in *.
  rewrite new_columns_ok; [|exact plain_P|auto|exact Hnd|intros x _ []]. cbn [bind app].
  rewrite new_columns_ok; [|exact plain_S|auto|exact Hnd|].
  2:{ intros x Hx C. unfold keys in C. rewrite map_map in C. apply in_map_iff in C. destruct C as (y & E & Hy). cbn [fst] in E.
      rewrite Forall_forall in Hplain. apply key_inj in E; [destruct E; discriminate|apply Hplain, Hy|apply Hplain, Hx|exact plain_P|exact plain_S]. }
  cbn [bind]. f_equal. f_equal.
  - unfold keys. rewrite map_app, !map_map. reflexivity.
  - unfold rows_of, values. rewrite map_app, !map_map. cbn [snd].
    apply rd_ext; [rewrite !map_length, combine_length, zrange_length, !map_length; lia|].
    intros j Hj. rewrite map_length, combine_length, zrange_length, map_length in Hj.
    destruct (rd_in_range _ (at_rows t) j) as [r Hr]; [lia|]. rewrite !rd_map, Hr. cbn [option_map].
    assert (E : rd (combine (zrange (Z.of_nat (length (map fst (at_rows t))))) (map fst (at_rows t))) j = Some (j, fst r)).
    { apply rd_combine_; [apply rd_zrange; rewrite map_length; lia|]. rewrite rd_map, Hr. reflexivity. }
    rewrite E. cbn [option_map fst snd]. f_equal. f_equal. rewrite map_app. f_equal; apply (cell_ok j r Hr).
Qed.
End Old.

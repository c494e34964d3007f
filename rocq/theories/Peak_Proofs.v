(** Proofs about the peaks of triggered events. *)
From Coq Require Import String Ascii.
From Coq Require Import List ZArith Reals QArith Qreals Bool Lia.
From Verif Require Import Lib LibFacts Timeline_Model Trigger_Model Trigger_Spec Trigger_Proofs Agree_Spec.
From Verif Require ScanMseed_Model ScanMseed_Spec ScanMseed_Proofs ScanMseed_Props Pipeline_Model Pipeline_Spec Pipeline_Proofs.
Import ListNotations.
Open Scope Z_scope.

Lemma forall2_in_l {A B} (R : A -> B -> Prop) l l' x : Forall2 R l l' -> In x l -> exists y, In y l' /\ R x y.
Proof. induction 1 as [|a b l l' H _ IH]; [intros []|]. intros [E|I]; [subst; exists b; split; [left; reflexivity|assumption]|]. destruct (IH I) as (y & I' & R'). exists y. split; [right; exact I'|exact R']. Qed.
Lemma forall2_in_r {A B} (R : A -> B -> Prop) l l' y : Forall2 R l l' -> In y l' -> exists x, In x l /\ R x y.
Proof. induction 1 as [|a b l l' H _ IH]; [intros []|]. intros [E|I]; [subst; exists a; split; [left; reflexivity|assumption]|]. destruct (IH I) as (x & I' & R'). exists x. split; [right; exact I'|exact R']. Qed.

Lemma pairwise_two {A} (R : A -> A -> Prop) l a b : pairwise_ R l -> In a l -> In b l -> a = b \/ R a b \/ R b a.
Proof.
  induction l as [|x l IH]; intros P Ia Ib; [destruct Ia|]. destruct P as (P1 & P2). rewrite Forall_forall in P1. destruct Ia as [->|Ia], Ib as [->|Ib]; auto.
Qed.
Lemma pairwise_order {A} (R : A -> A -> Prop) l1 l2 a b : pairwise_ R (l1 ++ l2) -> In a l1 -> In b l2 -> R a b.
Proof.
  induction l1 as [|x l1 IH]; intros P Ia Ib; [destruct Ia|]. cbn [app] in P. destruct P as (P1 & P2). rewrite Forall_forall in P1. destruct Ia as [->|Ia]; [apply P1, in_or_app; right; exact Ib|exact (IH P2 Ia Ib)].
Qed.

(** Two groups: the candidates at the border between them. *)
Lemma group_border p l gs gs1 g gs2 h gs3 m n :
  grouping p l gs -> gs = gs1 ++ g :: gs2 ++ h :: gs3 -> In m g -> In n h ->
  exists l1 a b l2, l = (l1 ++ [a]) ++ (b :: l2) /\ ~ linked p a b /\ In m (l1 ++ [a]) /\ In n (b :: l2).
Proof.
  intros (Hc & Hne & _ & Hac) E Hm Hn.
  assert (exists g2 rest, gs2 ++ h :: gs3 = g2 :: rest /\ In n (List.concat (g2 :: rest))) as (g2 & rest & E2 & Hn2).
  { destruct gs2 as [|g2 gs2]; cbn [app].
    - exists h, gs3. split; [reflexivity|]. cbn [List.concat]. apply in_or_app. auto.
    - exists g2, (gs2 ++ h :: gs3). split; [reflexivity|]. cbn [List.concat]. apply in_or_app. right. rewrite concat_app. apply in_or_app. right. cbn [List.concat]. apply in_or_app. auto. }
  rewrite E2 in E. subst gs. rewrite Forall_forall in Hne.
  assert (Ng : g <> []) by (apply Hne, in_or_app; right; left; reflexivity). assert (Ng2 : g2 <> []) by (apply Hne, in_or_app; right; right; left; reflexivity).
  destruct (last_in_app g Ng) as (g' & a & ->). destruct g2 as [|b g2']; [congruence|].
  apply chained_app in Hac. specialize (Hac g' a b g2' eq_refl eq_refl).
  exists (List.concat gs1 ++ g'), a, b, (g2' ++ List.concat rest). split; [|split; [exact Hac|split]].
  - rewrite <- Hc, concat_app. cbn [List.concat app]. rewrite <- !app_assoc. reflexivity.
  - rewrite <- app_assoc. apply in_or_app. right. exact Hm.
  - exact Hn2.
Qed.

Section Peak.
Variables (c : clock) (p : params) (t0 : Z) (data : list scanrow) (th : list Q) (cands : list candidate) (es : list event).
Hypothesis Dp : 0 < delta c.
Hypothesis Sm : sampled c t0 data.
Hypothesis Len : List.length data = List.length th.
Hypothesis Ec : identify_candidates p data th = Ret cands.
Hypothesis Er : refine_candidates c p cands = Ret es.
Hypothesis Nn : normalise_coalescence p = false.

Lemma cands_runs : Forall2 (candidate_of_run p data) (runs_of p data th) cands.
Proof. destruct (identify_ok p data th Len) as (cs & E & F). assert (cs = cands) by congruence. subst cs. exact F. Qed.
Lemma cands_inc : pairwise_ (fun a b => CoaTime a < CoaTime b) cands.
Proof. eapply pairwise_impl; [|exact (candidates_increasing c p t0 data _ _ Dp Sm (runs_ordered p data th) cands_runs)]. cbv beta. intros; lia. Qed.

(** A run of samples and its candidate. *)
Definition made_of (lo hi : Z) (e : candidate) : Prop := In (lo, hi) (runs_of p data th) /\ candidate_of_run p data (lo, hi) e.
Lemma made_of_cand e : In e cands -> exists lo hi, made_of lo hi e.
Proof. intros I. destruct (forall2_in_r _ _ _ _ cands_runs I) as ((lo, hi) & I' & H). exists lo, hi. split; assumption. Qed.
Lemma sample_le i j x y : rd data i = Some x -> rd data j = Some y -> i <= j -> DT x <= DT y.
Proof. intros X Y H. rewrite (Sm _ _ X), (Sm _ _ Y). apply (Z.mul_le_mono_nonneg_r _ _ (delta c)) in H; lia. Qed.
Lemma sample_lt_inv i j x y : rd data i = Some x -> rd data j = Some y -> DT x < DT y -> i < j.
Proof. intros X Y H. rewrite (Sm _ _ X), (Sm _ _ Y) in H. apply (Z.mul_lt_mono_pos_r (delta c)); lia. Qed.

(** The runs of two candidates are in the order of their peaks. *)
Lemma runs_by_peak lo hi e lo' hi' e' : made_of lo hi e -> made_of lo' hi' e' -> CoaTime e <= CoaTime e' -> (lo, hi) = (lo', hi') \/ hi < lo'.
Proof.
  intros (I & k & r & f & l & (B & R & _) & _ & _ & C & _) (I' & k' & r' & f' & l' & (B' & R' & _) & _ & _ & C' & _) H. cbn [fst snd] in *.
  destruct (pairwise_two _ _ _ _ (runs_ordered p data th) I I') as [E|[E|E]]; [left; exact E|right; cbn [fst snd] in E; lia|]. cbn [fst snd] in E. exfalso.
  assert (k' + 1 <= k) as L by lia. apply (Z.mul_le_mono_nonneg_r _ _ (delta c)) in L; [|lia]. rewrite C, C', (Sm _ _ R), (Sm _ _ R') in H. lia.
Qed.
Lemma same_run_peak lo hi e e' : made_of lo hi e -> made_of lo hi e' -> CoaTime e = CoaTime e' /\ TRIG_COA e = TRIG_COA e'.
Proof.
  intros (_ & k & r & f & l & (B & R & M) & _ & _ & C & _ & _ & T & _) (_ & k' & r' & f' & l' & (B' & R' & M') & _ & _ & C' & _ & _ & T' & _). cbn [fst snd] in *.
  assert (k = k').
  { destruct (Z.lt_trichotomy k k') as [H|[H|H]]; [|exact H|]; exfalso.
    - pose proof (proj1 (M' _ _ R) ltac:(lia)) as X. pose proof (proj2 (M _ _ R') ltac:(lia)) as Y. exact (Qlt_irrefl _ (Qlt_le_trans _ _ _ X Y)).
    - pose proof (proj1 (M _ _ R') ltac:(lia)) as X. pose proof (proj2 (M' _ _ R) ltac:(lia)) as Y. exact (Qlt_irrefl _ (Qlt_le_trans _ _ _ X Y)). }
  subst k'. assert (r = r') by congruence. subst r'. split; congruence.
Qed.

(** A sample that reaches the threshold within the minimum event interval of an event is not larger than its peak; before the peak it is smaller. *)
Lemma event_peak ev i r : In ev es -> hit p data th i -> rd data i = Some r -> Z.abs (DT r - CoaTime (cand ev)) <= min_event_interval p ->
  (COA r <= TRIG_COA (cand ev))%Q /\ (DT r < CoaTime (cand ev) -> (COA r < TRIG_COA (cand ev))%Q).
Proof.
  intros Iev Hh Hr Hd.
  destruct (refine_ok c p cands) as (es' & Er' & G). assert (es' = es) by congruence. subst es'. pose proof (chop_grouping p cands) as Gr. set (gs := chop (nsep p) cands) in *. clearbody gs.
  destruct (forall2_in_r _ _ _ _ G Iev) as (g & Ig & (l1 & m & l2 & Eg & F1 & F2 & Ct & Tc & _) & _). rewrite Ct in *. rewrite Tc in *. clear Ct Tc.
  assert (Im : In m g) by (rewrite Eg; apply in_or_app; right; left; reflexivity).
  assert (Gc : forall g x, In g gs -> In x g -> In x cands) by (intros g' x' A B; rewrite <- (proj1 Gr); apply in_concat; exists g'; split; assumption).
  destruct (made_of_cand m (Gc g m Ig Im)) as (ml & mh & Mm).
  (* the candidate of the sample *)
  destruct (in_runs p data th i Hh) as (lo & hi & Ir & Bi). destruct (forall2_in_l _ _ _ _ cands_runs Ir) as (x & Ix & Hx). assert (Mx : made_of lo hi x) by (split; assumption).
  assert (Cx : (COA r <= TRIG_COA x)%Q /\ (DT r < CoaTime x -> (COA r < TRIG_COA x)%Q) /\ exists f l, rd data lo = Some f /\ rd data hi = Some l /\ MinTime x <= DT f - (min_event_interval p - marginal_window p) /\ DT l + (min_event_interval p - marginal_window p) <= MaxTime x).
  { destruct Hx as (k & rk & f & l & (B & R & M) & Hf & Hl & C & _ & _ & T & _ & _ & _ & Mi & Ma). cbn [fst snd] in *. rewrite Nn in T. rewrite T, C. split; [|split].
    - destruct (Z_lt_le_dec i k); [apply Qlt_le_weak, (proj1 (M _ _ Hr)); lia|apply (proj2 (M _ _ Hr)); lia].
    - intros H. apply (sample_lt_inv _ _ _ _ Hr R) in H. apply (proj1 (M _ _ Hr)). lia.
    - exists f, l. repeat split; try assumption; lia. }
  destruct Cx as (Cx1 & Cx2 & f & l & Hf & Hl & Mi & Ma).
  pose proof (sample_le _ _ _ _ Hf Hr (proj1 Bi)) as Lf. pose proof (sample_le _ _ _ _ Hr Hl (proj2 Bi)) as Ll.
  assert (Bord : forall l1 a b l2 u v, cands = (l1 ++ [a]) ++ (b :: l2) -> In u (l1 ++ [a]) -> In v (b :: l2) -> CoaTime u <= CoaTime a /\ CoaTime b <= CoaTime v /\ In a cands /\ In b cands).
  { intros k1 a b k2 u v E Iu Iv. pose proof cands_inc as Inc. rewrite E in Inc. split; [|split; [|split]].
    - apply in_app_or in Iu as [Iu|[->|[]]]; [|lia]. apply Z.lt_le_incl. apply (pairwise_order (fun a b => CoaTime a < CoaTime b) k1 ([a] ++ b :: k2)); [rewrite app_assoc; exact Inc|exact Iu|left; reflexivity].
    - destruct Iv as [->|Iv]; [lia|]. apply Z.lt_le_incl. apply (pairwise_order (fun a b => CoaTime a < CoaTime b) ((k1 ++ [a]) ++ [b]) k2); [rewrite <- app_assoc; exact Inc|apply in_or_app; right; left; reflexivity|exact Iv].
    - rewrite E. apply in_or_app. left. apply in_or_app. right. left. reflexivity.
    - rewrite E. apply in_or_app. right. left. reflexivity. }
  assert (Same : In x g -> (COA r <= TRIG_COA m)%Q /\ (DT r < CoaTime m -> (COA r < TRIG_COA m)%Q)).
  { intros Ixg. rewrite Eg in Ixg. rewrite Forall_forall in F1, F2. apply in_app_or in Ixg as [I|[<-|I]].
    - pose proof (Qle_lt_trans _ _ _ Cx1 (F1 _ I)) as Q. split; [apply Qlt_le_weak, Q|intros _; exact Q].
    - split; assumption.
    - split; [exact (Qle_trans _ _ _ Cx1 (F2 _ I))|]. intros H. exfalso. apply in_split in Ig as (gs1 & gs2 & Egs).
      assert (E : cands = (List.concat gs1 ++ l1 ++ [m]) ++ (l2 ++ List.concat gs2)) by (rewrite <- (proj1 Gr), Egs, concat_app, Eg; cbn [List.concat]; rewrite <- !app_assoc; reflexivity).
      pose proof cands_inc as Inc. rewrite E in Inc. assert (L : CoaTime m < CoaTime x) by (apply (pairwise_order _ _ _ _ _ Inc); [apply in_or_app; right; apply in_or_app; right; left; reflexivity|apply in_or_app; left; exact I]).
      destruct (runs_by_peak _ _ _ _ _ _ Mm Mx (Z.lt_le_incl _ _ L)) as [Eq|Lt].
      + assert (ml = lo /\ mh = hi) as (-> & ->) by (split; congruence). destruct (same_run_peak _ _ _ _ Mm Mx). lia.
      + destruct Mm as (_ & km & rm & fm & lm & (Bm & Rm & _) & _ & _ & Cm & _). cbn [fst snd] in *. rewrite Cm in H. apply (sample_lt_inv _ _ _ _ Hr Rm) in H. lia. }
  pose proof (proj1 Gr) as Gcc. rewrite <- Gcc in Ix. apply in_concat in Ix as (h & Ih & Ixh). destruct (in_split _ _ Ig) as (gs1 & gs2 & Egs).
  pose proof Ih as Ih'. rewrite Egs in Ih'. apply in_app_or in Ih' as [Ih'|[Ih'|Ih']].
  - (* an earlier group *)
    exfalso. apply in_split in Ih' as (h1 & h2 & Eh). rewrite Eh, <- app_assoc in Egs. cbn [app] in Egs. destruct (group_border p cands gs h1 h h2 g gs2 x m Gr Egs Ixh Im) as (k1 & a & b & k2 & E & Nl & Ia & Ib).
    destruct (Bord _ _ _ _ _ _ E Ia Ib) as (La & Lb & Ca & Cb). destruct (made_of_cand a Ca) as (al & ah & Mka). unfold linked in Nl.
    assert (La2 : exists la, rd data ah = Some la /\ DT la + (min_event_interval p - marginal_window p) <= MaxTime a /\ DT l <= DT la).
    { destruct (runs_by_peak _ _ _ _ _ _ Mx Mka La) as [Eq|Lt]; destruct Mka as (_ & ka & ra & fa & la & (Ba & _) & _ & Hla & _ & _ & _ & _ & _ & _ & _ & _ & Ma2); cbn [fst snd] in *; exists la; (split; [exact Hla|]; split; [lia|]).
      - assert (ah = hi) by congruence. subst ah. assert (la = l) by congruence. subst la. lia.
      - apply (sample_le hi ah); try assumption. lia. }
    destruct La2 as (la & _ & A1 & A2). lia.
  - subst h. exact (Same Ixh).
  - (* a later group *)
    exfalso. apply in_split in Ih' as (h1 & h2 & Eh). rewrite Eh in Egs. destruct (group_border p cands gs gs1 g h1 h h2 m x Gr Egs Im Ixh) as (k1 & a & b & k2 & E & Nl & Ia & Ib).
    destruct (Bord _ _ _ _ _ _ E Ia Ib) as (La & Lb & Ca & Cb). destruct (made_of_cand b Cb) as (bl & bh & Mkb). unfold linked in Nl.
    assert (Lb2 : exists fb, MinTime b <= DT fb - (min_event_interval p - marginal_window p) /\ DT fb <= DT f).
    { destruct (runs_by_peak _ _ _ _ _ _ Mkb Mx Lb) as [Eq|Lt]; destruct Mkb as (_ & kb & rb & fb & lb & (Bb & _) & Hfb & _ & _ & _ & _ & _ & _ & _ & _ & Mi2 & _); cbn [fst snd] in *; exists fb; (split; [lia|]).
      - assert (bl = lo) by congruence. subst bl. assert (fb = f) by congruence. subst fb. lia.
      - apply (sample_le bl lo); try assumption. lia. }
    destruct Lb2 as (fb & A1 & A2). lia.
Qed.
End Peak.

(** * The rows of a batch and the samples in the files *)

Section Stored.
Variables (c : clock) (ucf : Q) (fs fs' : @ScanMseed_Model.files (ScanMseed_Model.row Z)) (start : Z) (l : list (ScanMseed_Model.seg (ScanMseed_Model.row R))) (pd s e : Z).
Hypothesis S : Pipeline_Spec.scanned c ucf fs fs' start l pd s e.

Lemma batch_stored data : Pipeline_Model.trigger_read c ucf fs' pd s e = Ret data ->
  exists t1, sampled c t1 data
  /\ (forall i x, rd data i = Some x -> exists t z, x = Pipeline_Model.scanrow_of ucf t z /\ stored c fs' t z /\ (delta c | t))
  /\ (forall t z, stored c fs' t z -> s - pd <= t <= e + pd -> exists i, rd data i = Some (Pipeline_Model.scanrow_of ucf t z)).
Proof.
  intros H. destruct S as [S1 S2 S3 S4 S5 S6 S7 [cw S8] S9 S10 S11].
  destruct (Pipeline_Proofs.trigger_read_samples _ _ _ _ _ _ _ H) as (g & Eg & ->).
  destruct (Pipeline_Proofs.store_run_encoded _ _ _ _ _ _ S8) as (l' & F & Er).
  pose proof (Pipeline_Proofs.run_samples_encoded c _ _ _ F) as FR.
  assert (Hl' : l' <> []) by (intros ->; inversion F; congruence).
  pose proof (Pipeline_Proofs.consecutive_encoded _ _ _ _ _ F S7) as Cs.
  pose proof (ScanMseed_Props.C26_reads_back_the_run_partial c cw fs fs' start l' s e pd S1 S2 S3 S4 Hl' Cs Er S9 S10) as B.
  cbv zeta in B. rewrite Eg in B.
  assert (Old : forall d, (s - pd) / (86400 * sec c) <= d <= (e + pd) / (86400 * sec c) -> ScanMseed_Spec.on_date c d (ScanMseed_Spec.run_samples c l') = [] -> fs d = None).
  { intros d Hd Hn. apply S11; [exact Hd|]. apply (Pipeline_Proofs.on_date_encoded c (Q2R ucf) d _ _ FR). exact Hn. }
  destruct (B Old) as [B1 _]. clear B.
  destruct (ScanMseed_Props.C23_each_sample_in_the_file_of_its_date c fs start l' S1 S2 S3 S4 Hl' Cs) as (f0 & f0' & P1 & P2 & P3).
  assert (W : forall day, fs' day = f0 day) by (intros day; destruct cw; [destruct (P3 day) as (-> & _)|]; congruence).
  assert (St : forall t z, In (t, z) (ScanMseed_Spec.run_samples c l') -> stored c fs' t z).
  { intros t z Iz. assert (Io : In (t, z) (ScanMseed_Spec.on_date c (t / (86400 * sec c)) (ScanMseed_Spec.run_samples c l'))) by (unfold ScanMseed_Spec.on_date; apply filter_In; split; [exact Iz|apply Z.eqb_eq; reflexivity]).
    unfold stored. rewrite W. destruct (P3 (t / (86400 * sec c))) as (_ & -> & _); [exact Io|]. intros N. rewrite N in Io. destruct Io. }
  exists (ScanMseed_Model.t0 g). split; [|split].
  - intros i x Hx. rewrite rd_map in Hx. destruct (rd (ScanMseed_Spec.samples c g) i) as [[t z]|] eqn:E; [|discriminate].
    cbn [option_map fst snd] in Hx. replace x with (Pipeline_Model.scanrow_of ucf t z) by congruence. cbn [Pipeline_Model.scanrow_of DT].
    unfold ScanMseed_Spec.samples in E. apply Pipeline_Proofs.rd_samples in E. cbn in E. exact E.
  - intros i x Hx. rewrite rd_map in Hx. destruct (rd (ScanMseed_Spec.samples c g) i) as [[t z]|] eqn:E; [|discriminate].
    cbn [option_map fst snd] in Hx. exists t, z. split; [congruence|].
    assert (Hin : In (t, z) (ScanMseed_Spec.samples c g)) by (eapply rd_in; exact E). rewrite B1 in Hin. unfold ScanMseed_Spec.between in Hin.
    apply filter_In in Hin as [Hin _]. split; [apply St, Hin|]. rewrite (ScanMseed_Proofs.run_samples_eq c _ _ Cs) in Hin. apply Pipeline_Proofs.in_samples_from in Hin. destruct Hin as (j & _ & Et). cbn [fst] in Et. rewrite Et.
    apply Z.divide_add_r; [exact S4|]. apply Z.divide_factor_r.
  - intros t z Hst Ht. unfold stored in Hst. set (d := t / (86400 * sec c)) in *.
    assert (Bd : (s - pd) / (86400 * sec c) <= d <= (e + pd) / (86400 * sec c)) by (unfold d; split; apply Z.div_le_mono; lia).
    rewrite W in Hst. destruct (P3 d) as (_ & Q1 & Q2).
    assert (Io : In (t, z) (ScanMseed_Spec.on_date c d (ScanMseed_Spec.run_samples c l'))).
    { destruct (ScanMseed_Spec.on_date c d (ScanMseed_Spec.run_samples c l')) as [|y ys] eqn:E; [|rewrite <- Q1; [exact Hst|discriminate]]. exfalso. rewrite (Q2 eq_refl), (Old d Bd E) in Hst. destruct Hst. }
    unfold ScanMseed_Spec.on_date in Io. apply filter_In in Io as [Io _].
    assert (Hin : In (t, z) (ScanMseed_Spec.samples c g)) by (rewrite B1; unfold ScanMseed_Spec.between; apply filter_In; split; [exact Io|]; cbn [fst]; apply andb_true_intro; split; apply Z.leb_le; lia).
    apply in_rd in Hin as (i & Hi). exists i. rewrite rd_map, Hi. reflexivity.
Qed.
End Stored.

(** * The peak of a whole batch *)
Lemma batch_peak c p read reg w s e w' es ev t0 data i r : 0 < delta c -> read s e = Ret data -> sampled c t0 data -> trigger_batch c p read reg w s e = Ret (w', es) ->
  normalise_coalescence p = false -> In ev es -> hit p data (batch_threshold c p data) i -> rd data i = Some r -> Z.abs (DT r - CoaTime (cand ev)) <= min_event_interval p ->
  (COA r <= TRIG_COA (cand ev))%Q /\ (DT r < CoaTime (cand ev) -> (COA r < TRIG_COA (cand ev))%Q).
Proof.
  intros Dp Rd Sm Tb Nn Ie Hh Hr Hd. destruct (trigger_batch_inv _ _ _ _ _ _ _ _ _ Tb) as (data' & cands & refined & R & Ic & Rf & Ees & _). assert (data' = data) by congruence. subst data'.
  rewrite Ees in Ie. apply filter_events_in in Ie as (Ie & _). exact (event_peak c p t0 data _ cands refined Dp Sm (batch_threshold_length c p data) Ic Rf Nn ev i r Ie Hh Hr Hd).
Qed.
(** An event is made of a sample that reaches the threshold. *)
Lemma batch_sample c p read reg w s e w' es ev data : read s e = Ret data -> trigger_batch c p read reg w s e = Ret (w', es) -> In ev es ->
  exists i r, hit p data (batch_threshold c p data) i /\ rd data i = Some r /\ CoaTime (cand ev) = DT r /\ TRIG_COA (cand ev) = (if normalise_coalescence p then COA_N r else COA r) /\ s <= CoaTime (cand ev) <= (if e mod day c =? 0 then e - delta c else e).
Proof.
  intros Rd Tb Ie. destruct (trigger_batch_inv _ _ _ _ _ _ _ _ _ Tb) as (data' & cands & refined & R & Ic & Rf & Ees & _). assert (data' = data) by congruence. subst data'.
  rewrite Ees in Ie. apply filter_events_in in Ie as (Ie & Bt & _). destruct (refine_ok c p cands) as (es' & Er' & G). assert (es' = refined) by congruence. subst es'.
  destruct (forall2_in_r _ _ _ _ G Ie) as (g & Ig & (l1 & m & l2 & Eg & F1 & F2 & Ct & Tc & _) & _). rewrite Ct, Tc in *. clear Ct Tc.
  pose proof (chop_grouping p cands) as Gr. assert (Im : In m cands) by (rewrite <- (proj1 Gr); apply in_concat; exists g; split; [exact Ig|rewrite Eg; apply in_or_app; right; left; reflexivity]).
  destruct (identify_ok p data _ (batch_threshold_length c p data)) as (cs & E & F). assert (cs = cands) by congruence. subst cs.
  destruct (forall2_in_r _ _ _ _ F Im) as ((lo, hi) & I' & k & r & f & l & (B & R' & M) & _ & _ & C & _ & _ & T & _). cbn [fst snd] in *.
  exists k, r. split; [exact (proj1 (proj2 (proj1 (runs_maximal _ _ _ _ _) I')) _ B)|]. split; [exact R'|]. split; [exact C|]. split; [exact T|exact Bt].
Qed.

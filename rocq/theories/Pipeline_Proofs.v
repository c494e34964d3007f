(** Proofs about the way from the scan to triggered events. *)
From Coq Require Import List ZArith Reals QArith Qreals Bool Lia Lra.
From Verif Require Import Lib LibFacts Timeline_Model Migrate_Model Migrate_Spec Migrate_Proofs ScanMseed_Model ScanMseed_Spec ScanMseed_Proofs
  ScanMseed_Props Lut_Model Trigger_Model Trigger_Spec Trigger_Proofs Trigger_Props Source_Spec Source_Proofs Pipeline_Model Pipeline_Spec.
Import ListNotations.
Open Scope Z_scope.

(** * The store *)

Definition encode_seg (ucf : R) (g : seg (row R)) : option (seg (row Z)) :=
  option_map (mk_seg (t0 g)) (map_opt (encode_row ucf) (rows g)).

Lemma append_all_encoded c ucf cw : forall l fs o p, append_all c ucf cw fs o l = Ret p ->
  exists l', Forall2 (fun g g' => encode_seg ucf g = Some g') l l' /\ appends c cw fs o l' = Ret p.
Proof.
  induction l as [|g l IH]; intros fs o p H.
  - exists []. split; [constructor|exact H].
  - cbn [append_all] in H. unfold append in H. destruct (map_opt (encode_row ucf) (rows g)) as [zs|] eqn:E; [|discriminate].
    destruct (append_seg c cw fs o (mk_seg (t0 g) zs)) as [q| |] eqn:Eq; try discriminate. cbn [bind] in H.
    destruct (IH _ _ _ H) as (l' & F & Ea). exists (mk_seg (t0 g) zs :: l'). split.
    + constructor; [|exact F]. unfold encode_seg. rewrite E. reflexivity.
    + cbn [appends]. rewrite Eq. exact Ea.
Qed.
Lemma store_run_encoded c ucf cw l fs fs' : store_run c ucf cw fs l = Ret fs' ->
  exists l', Forall2 (fun g g' => encode_seg ucf g = Some g') l l' /\ detect_run c cw fs l' = Ret fs'.
Proof.
  intros H. unfold store_run in H. destruct (append_all c ucf cw fs new_scanmseed l) as [p| |] eqn:E; try discriminate.
  destruct (append_all_encoded _ _ _ _ _ _ _ E) as (l' & F & Ea). exists l'. split; [exact F|].
  unfold detect_run. rewrite Ea. exact H.
Qed.

Lemma map_opt_Forall2 {A B} (f : A -> option B) l : forall m, map_opt f l = Some m -> Forall2 (fun a b => f a = Some b) l m.
Proof.
  induction l as [|a l IH]; intros m H; cbn in H.
  - replace m with (@nil B) by congruence. constructor.
  - destruct (f a) as [b|] eqn:E; [|discriminate]. destruct (map_opt f l) as [r|]; [|discriminate].
    replace m with (b :: r) by congruence. constructor; [exact E|]. apply IH. reflexivity.
Qed.
Lemma Forall2_len {A B} (P : A -> B -> Prop) l m : Forall2 P l m -> length l = length m.
Proof. induction 1; cbn; lia. Qed.

Lemma encode_seg_facts ucf g g' : encode_seg ucf g = Some g' ->
  t0 g' = t0 g /\ Forall2 (fun r z => encode_row ucf r = Some z) (rows g) (rows g').
Proof.
  unfold encode_seg. destruct (map_opt (encode_row ucf) (rows g)) as [zs|] eqn:E; [|discriminate]. cbn [option_map].
  intros H. replace g' with (mk_seg (t0 g) zs) by congruence. cbn. split; [reflexivity|]. apply map_opt_Forall2. exact E.
Qed.

Lemma consecutive_encoded c ucf : forall l l' t, Forall2 (fun g g' => encode_seg ucf g = Some g') l l' ->
  consecutive c t l -> consecutive c t l'.
Proof.
  induction l as [|g l IH]; intros l' t F H; inversion F as [|? g' ? l2 E F']; subst; [exact I|].
  cbn [consecutive] in *. destruct H as (H1 & H2 & H3 & H4). destruct (encode_seg_facts _ _ _ E) as [E1 E2].
  pose proof (Forall2_len _ _ _ E2) as EL. rewrite E1, <- EL. repeat split; try assumption.
  - intros N. rewrite N in EL. destruct (rows g); [congruence|discriminate].
  - apply IH; assumption.
Qed.

Definition enc_pair (ucf : R) (p : Z * row R) (q : Z * row Z) : Prop := fst q = fst p /\ encode_row ucf (snd p) = Some (snd q).
Lemma samples_from_encoded ucf d : forall rs zs t, Forall2 (fun r z => encode_row ucf r = Some z) rs zs ->
  Forall2 (enc_pair ucf) (samples_from d t rs) (samples_from d t zs).
Proof.
  intros rs zs t F. revert t. induction F as [|r z rs zs E F IH]; intros t; cbn; [constructor|].
  constructor; [split; [reflexivity|exact E]|apply IH].
Qed.
Lemma run_samples_encoded c ucf l l' : Forall2 (fun g g' => encode_seg ucf g = Some g') l l' ->
  Forall2 (enc_pair ucf) (run_samples c l) (run_samples c l').
Proof.
  induction 1 as [|g g' l l' E F IH]; [constructor|]. cbn [run_samples flat_map]. apply Forall2_app; [|exact IH].
  destruct (encode_seg_facts _ _ _ E) as [E1 E2]. unfold samples. rewrite E1. apply samples_from_encoded. exact E2.
Qed.
Lemma on_date_encoded c ucf d l l' : Forall2 (enc_pair ucf) l l' -> on_date c d l' = [] <-> on_date c d l = [].
Proof.
  intros F. unfold on_date. induction F as [|p q l l' E F IH]; [tauto|]. destruct E as [E _]. cbn [filter]. rewrite E.
  destruct (_ =? d); [split; discriminate|exact IH].
Qed.
Lemma Forall2_r {A B} (P : A -> B -> Prop) l m y : Forall2 P l m -> In y m -> exists x, In x l /\ P x y.
Proof.
  induction 1 as [|a b l m H F IH]; intros Hy; [contradiction|].
  destruct Hy as [->|Hy]; [exists a; split; [now left|exact H]|]. destruct (IH Hy) as (x & H1 & H2). exists x. split; [now right|exact H2].
Qed.
Lemma Forall2_l {A B} (P : A -> B -> Prop) l m x : Forall2 P l m -> In x l -> exists y, In y m /\ P x y.
Proof.
  induction 1 as [|a b l m H F IH]; intros Hy; [contradiction|].
  destruct Hy as [->|Hy]; [exists b; split; [now left|exact H]|]. destruct (IH Hy) as (y & H1 & H2). exists y. split; [now right|exact H2].
Qed.

(** * Reading *)

Lemma indexed_samples {A B} (f : Z -> A -> B) d : forall (l : list A) t k,
  map (fun iz => f (t + fst iz * d) (snd iz)) (combine (zseq k (length l)) l)
  = map (fun p => f (fst p) (snd p)) (samples_from d (t + k * d) l).
Proof.
  induction l as [|a l IH]; intros t k; [reflexivity|]. cbn [length zseq combine map samples_from fst snd]. f_equal.
  rewrite IH. f_equal. f_equal. ring.
Qed.
Lemma trigger_read_samples c ucf fs pad s e data : trigger_read c ucf fs pad s e = Ret data ->
  exists g, read_scanmseed c fs s e pad = Ret g /\ data = map (fun p => scanrow_of ucf (fst p) (snd p)) (samples c g).
Proof.
  unfold trigger_read. intros H. destruct (read_scanmseed c fs s e pad) as [g| |]; try discriminate. exists g. split; [reflexivity|].
  cbn [bind] in H. match type of H with Ret ?x = Ret _ => replace data with x by congruence end.
  unfold samples, indexed, zrange. rewrite Nat2Z.id. rewrite indexed_samples. rewrite Z.mul_0_l, Z.add_0_r. reflexivity.
Qed.

(** * Encoding *)

Lemma data2int_near x f z : (0 < f)%R -> data2int x f = Some z -> (Rabs (IZR z / f - x) <= 1 / (2 * f))%R.
Proof.
  intros Hf H. unfold data2int, int32 in H. destruct (_ && _) in H; [|discriminate].
  assert (E : z = np_round (x * f)) by congruence. pose proof (np_round_near (x * f)) as N. rewrite <- E in N.
  replace (IZR z / f - x)%R with ((IZR z - x * f) * / f)%R by (field; lra).
  rewrite Rabs_mult, (Rabs_right (/ f)) by (apply Rle_ge, Rlt_le, Rinv_0_lt_compat; exact Hf).
  replace (1 / (2 * f))%R with (1 / 2 * / f)%R by (field; lra).
  apply Rmult_le_compat_r; [apply Rlt_le, Rinv_0_lt_compat; exact Hf|exact N].
Qed.
Lemma clip_coa_min x : clip_coa x = Rmin x 21474.
Proof. unfold clip_coa, Rmin. destruct (Rlt_dec 21474 x), (Rle_dec x 21474); lra. Qed.
Lemma encode_near ucf r z : (0 < ucf)%R -> encode_row ucf r = Some z ->
  (Rabs (IZR (coa z) / 100000 - Rmin (coa r) 21474) <= 5 / 1000000 /\
   Rabs (IZR (coa_n z) / 100000 - Rmin (coa_n r) 21474) <= 5 / 1000000 /\
   Rabs (IZR (px z) / 1000000 - px r) <= 5 / 10000000 /\ Rabs (IZR (py z) / 1000000 - py r) <= 5 / 10000000 /\
   Rabs (IZR (pz z) / (1000 * ucf) - pz r) <= 1 / (2 * (1000 * ucf)))%R.
Proof.
  intros Hu H. unfold encode_row in H.
  destruct (data2int (clip_coa (coa r)) 100000) as [a|] eqn:Ea; [|discriminate].
  destruct (data2int (clip_coa (coa_n r)) 100000) as [b|] eqn:Eb; [|discriminate].
  destruct (data2int (px r) 1000000) as [x|] eqn:Ex; [|discriminate].
  destruct (data2int (py r) 1000000) as [y|] eqn:Ey; [|discriminate].
  destruct (data2int (pz r) (1000 * ucf)) as [w|] eqn:Ez; [|discriminate].
  replace z with (mk_row a b x y w) by congruence. cbn [coa coa_n px py pz].
  assert (P5 : (0 < 100000)%R) by lra. assert (P6 : (0 < 1000000)%R) by lra. assert (Pz : (0 < 1000 * ucf)%R) by lra.
  pose proof (data2int_near _ _ _ P5 Ea) as Na. pose proof (data2int_near _ _ _ P5 Eb) as Nb. pose proof (data2int_near _ _ _ P6 Ex) as Nx.
  pose proof (data2int_near _ _ _ P6 Ey) as Ny. pose proof (data2int_near _ _ _ Pz Ez) as Nz.
  rewrite clip_coa_min in Na, Nb. split; [lra|]. split; [lra|]. split; [lra|]. split; [lra|exact Nz].
Qed.
Lemma Q2R_frac z d : Q2R (z # d) = (IZR z / IZR (Zpos d))%R.
Proof. reflexivity. Qed.

(** * Triggering *)

(** A row that reaches the threshold and has the largest value of all becomes an event. *)
Lemma largest_row_event c p data th cands refined i r :
  length data = length th -> identify_candidates p data th = Ret cands -> refine_candidates c p cands = Ret refined ->
  normalise_coalescence p = false -> rd data i = Some r -> hit p data th i ->
  (forall j x, rd data j = Some x -> j <> i -> (COA x < COA r)%Q) ->
  exists ev, In ev refined /\ CoaTime (cand ev) = DT r /\ TRIG_COA (cand ev) = COA r /\
    COA_X (cand ev) = PX r /\ COA_Y (cand ev) = PY r /\ COA_Z (cand ev) = PZ r /\
    forall ev', In ev' refined -> CoaTime (cand ev') = DT r \/ (TRIG_COA (cand ev') < TRIG_COA (cand ev))%Q.
Proof.
  intros L Ec Er Hn Hr Hh Hbig.
  destruct (C28_candidates_are_the_maximal_runs p data th L) as (runs & cs & E & F & _ & _ & Hcov).
  assert (cs = cands) by congruence. subst cs. clear E.
  destruct (C29_refinement_merges_linked_candidates c p cands) as (es & gs & E & (Gc & _) & FG).
  assert (es = refined) by congruence. subst es. clear E.
  (* a candidate is the row i or smaller *)
  assert (K : forall e, In e cands ->
     (CoaTime e = DT r /\ TRIG_COA e = COA r /\ COA_X e = PX r /\ COA_Y e = PY r /\ COA_Z e = PZ r) \/ (TRIG_COA e < COA r)%Q).
  { intros e He. destruct (Forall2_r _ _ _ _ F He) as ([lo hi] & _ & k & x & f & l & (_ & Hk & _) & _ & _ & E1 & _ & _ & E2 & E3 & E4 & E5 & _).
    rewrite Hn in E2. destruct (Z.eq_dec k i) as [->|Hne].
    - left. replace x with r in * by congruence. repeat split; assumption.
    - right. rewrite E2. apply (Hbig k x Hk Hne). }
  destruct (Hcov i Hh) as (lo & hi & Hrun & Hi).
  destruct (Forall2_l _ _ _ _ F Hrun) as (e & He & k & x & f & l & (Hk1 & Hk & Hk2) & _ & _ & E1 & _ & _ & E2 & E3 & E4 & E5 & _).
  cbn [fst snd] in *.
  assert (k = i) as ->.
  { destruct (Z.eq_dec k i) as [|Hne]; [assumption|]. exfalso. pose proof (Hbig k x Hk Hne) as B.
    destruct (Hk2 i r Hr) as [A1 A2]. destruct (Z_lt_le_dec i k) as [Hik|Hik].
    - assert (COA r < COA x)%Q by (apply A1; lia). exact (Qlt_irrefl _ (Qlt_trans _ _ _ B H)).
    - assert (COA r <= COA x)%Q by (apply A2; lia). exact (Qlt_irrefl _ (Qlt_le_trans _ _ _ B H)). }
  replace x with r in * by congruence. rewrite Hn in E2.
  rewrite <- Gc in He. apply in_concat in He as (g & Hg & He).
  destruct (Forall2_l _ _ _ _ FG Hg) as (ev & Hev & l1 & m & l2 & Eg & F1 & F2 & M1 & M2 & _ & _ & M3 & M4 & M5 & _).
  assert (Hm : In m cands) by (rewrite <- Gc; apply in_concat; exists g; split; [exact Hg|]; rewrite Eg; apply in_or_app; right; now left).
  assert (Hmax : (COA r <= TRIG_COA m)%Q).
  { rewrite <- E2. rewrite Eg in He. apply in_app_or in He as [He|[->|He]].
    - rewrite Forall_forall in F1. apply Qlt_le_weak. exact (F1 _ He).
    - apply Qle_refl.
    - rewrite Forall_forall in F2. exact (F2 _ He). }
  destruct (K m Hm) as [(C1 & C2 & C3 & C4 & C5)|C]; [|exfalso; exact (Qlt_irrefl _ (Qlt_le_trans _ _ _ C Hmax))].
  exists ev. split; [exact Hev|]. rewrite M1, M2, M3, M4, M5. repeat (split; [congruence|]).
  intros ev' Hev'. destruct (Forall2_r _ _ _ _ FG Hev') as (g' & Hg' & k1 & m' & k2 & Eg' & _ & _ & N1 & N2 & _).
  assert (Hm' : In m' cands) by (rewrite <- Gc; apply in_concat; exists g'; split; [exact Hg'|]; rewrite Eg'; apply in_or_app; right; now left).
  rewrite N1, N2, C2. destruct (K m' Hm') as [(D1 & _)|D]; [left; exact D1|right; exact D].
Qed.

(** Every row that reaches the threshold lies in the window of an event at least as large. *)
Lemma hit_covered c p data th cands refined i r t1 : 0 < delta c -> 0 <= marginal_window p <= min_event_interval p -> sampled c t1 data ->
  length data = length th -> identify_candidates p data th = Ret cands -> refine_candidates c p cands = Ret refined ->
  normalise_coalescence p = false -> rd data i = Some r -> hit p data th i ->
  exists ev, In ev refined /\ MinTime (cand ev) <= DT r <= MaxTime (cand ev) /\ (COA r <= TRIG_COA (cand ev))%Q /\
    exists j x, rd data j = Some x /\ hit p data th j /\ CoaTime (cand ev) = DT x.
Proof.
  intros Hd Hw Hs L Ec Er Hn Hr Hh.
  destruct (C28_candidates_are_the_maximal_runs p data th L) as (runs & cs & E & F & Hmax & _ & Hcov).
  assert (cs = cands) by congruence. subst cs. clear E.
  destruct (C29_refinement_merges_linked_candidates c p cands) as (es & gs & E & (Gc & _) & FG).
  assert (es = refined) by congruence. subst es. clear E.
  destruct (Hcov i Hh) as (lo & hi & Hrun & Hi).
  destruct (Forall2_l _ _ _ _ F Hrun) as (e & He & k & x & f & l & (Hk1 & Hk & Hk2) & Hf & Hl & E1 & _ & _ & E2 & _ & _ & _ & E6 & E7).
  cbn [fst snd] in *. rewrite Hn in E2.
  assert (Hc : (COA r <= COA x)%Q).
  { destruct (Hk2 i r Hr) as [A1 A2]. destruct (Z_lt_le_dec i k); [apply Qlt_le_weak, A1; lia|apply A2; lia]. }
  pose proof (Hs _ _ Hr) as Tr. pose proof (Hs _ _ Hf) as Tf. pose proof (Hs _ _ Hl) as Tl.
  assert (Wr : MinTime e <= DT r <= MaxTime e).
  { rewrite E6, E7. assert (lo * delta c <= i * delta c) by (apply Z.mul_le_mono_nonneg_r; lia).
    assert (i * delta c <= hi * delta c) by (apply Z.mul_le_mono_nonneg_r; lia). lia. }
  rewrite <- Gc in He. apply in_concat in He as (g & Hg & He).
  destruct (Forall2_l _ _ _ _ FG Hg) as (ev & Hev & l1 & m & l2 & Eg & F1 & F2 & M1 & M2 & _ & _ & _ & _ & _ & _ & M6 & _ & M7).
  exists ev. split; [exact Hev|]. split.
  - rewrite Forall_forall in M6, M7. pose proof (M6 e He). pose proof (M7 e He). lia.
  - split.
    + rewrite M2. apply Qle_trans with (TRIG_COA e); [rewrite E2; exact Hc|]. rewrite Eg in He. apply in_app_or in He as [He|[->|He]].
      * rewrite Forall_forall in F1. apply Qlt_le_weak. exact (F1 _ He).
      * apply Qle_refl.
      * rewrite Forall_forall in F2. exact (F2 _ He).
    + assert (Hm : In m cands) by (rewrite <- Gc; apply in_concat; exists g; split; [exact Hg|]; rewrite Eg; apply in_or_app; right; now left).
      destruct (Forall2_r _ _ _ _ F Hm) as ([lo' hi'] & Hrun' & k' & x' & f' & l' & (Hk1' & Hk' & _) & _ & _ & E1' & _).
      cbn [fst snd] in *. exists k', x'. split; [exact Hk'|]. split; [|congruence].
      apply Hmax in Hrun'. destruct Hrun' as (_ & Hall & _). apply Hall. exact Hk1'.
Qed.

(** * From the scan to the events of a batch *)

Lemma rd_samples {A} d : forall (l : list A) t i x, rd (samples_from d t l) i = Some x -> fst x = t + i * d.
Proof.
  induction l as [|a l IH]; intros t i x H; [unfold rd in H; destruct (i <? 0); [discriminate|]; destruct (Z.to_nat i); discriminate|].
  cbn [samples_from] in H. destruct (Z.eq_dec i 0) as [->|Hi].
  - cbn in H. replace x with (t, a) by congruence. cbn. lia.
  - assert (0 <= i) by (unfold rd in H; destruct (Z.ltb_spec i 0); [discriminate|lia]).
    rewrite rd_cons_pos in H by lia. rewrite (IH _ _ _ H). ring.
Qed.

Section Batch.
  Variables (c : clock) (ucf : Q) (fs fs' : @files (row Z)) (start : Z) (l : list (seg (row R))) (pd s e : Z).
  Hypothesis S : scanned c ucf fs fs' start l pd s e.

  Lemma ucf_pos : (0 < Q2R ucf)%R.
  Proof. replace 0%R with (Q2R 0) by (unfold Q2R; cbn; lra). apply Qlt_Rlt. exact (sc_ucf _ _ _ _ _ _ _ _ _ S). Qed.

  (** What the rows read are. *)
  Definition row_at (x : scanrow) (t : Z) (r : row R) : Prop :=
    In (t, r) (run_samples c l) /\ s - pd <= t <= e + pd /\ DT x = t /\
    (Rabs (Q2R (COA x) - kept (coa r)) <= 5 / 1000000)%R /\ (Rabs (Q2R (COA_N x) - kept (coa_n r)) <= 5 / 1000000)%R /\
    (Rabs (Q2R (PX x) - px r) <= 5 / 10000000)%R /\ (Rabs (Q2R (PY x) - py r) <= 5 / 10000000)%R /\
    (Rabs (Q2R (PZ x) - pz r) <= 1 / (2 * (1000 * Q2R ucf)))%R.

  Lemma row_of_pair t r z : enc_pair (Q2R ucf) (t, r) (t, z) -> In (t, r) (run_samples c l) -> s - pd <= t <= e + pd ->
    row_at (scanrow_of ucf t z) t r.
  Proof.
    intros [_ E] Hin Ht. cbn [fst snd] in E. destruct (encode_near _ _ _ ucf_pos E) as (N1 & N2 & N3 & N4 & N5).
    split; [exact Hin|]. split; [exact Ht|]. split; [reflexivity|]. cbn [scanrow_of COA COA_N PX PY PZ]. rewrite !Q2R_frac. unfold kept.
    split; [exact N1|]. split; [exact N2|]. split; [exact N3|]. split; [exact N4|].
    pose proof ucf_pos as U.
    assert (E2 : Q2R (inject_Z (pz z) / ((1000 # 1) * ucf)) = (IZR (pz z) / (1000 * Q2R ucf))%R).
    { rewrite Q2R_div, Q2R_mult.
      - f_equal; [unfold Q2R, inject_Z; cbn; field|f_equal; unfold Q2R; cbn; field].
      - intros Z0. apply Qeq_eqR in Z0. rewrite Q2R_mult in Z0. replace (Q2R 0) with 0%R in Z0 by (unfold Q2R; cbn; lra).
        replace (Q2R (1000 # 1)) with 1000%R in Z0 by (unfold Q2R; cbn; lra). lra. }
    rewrite E2. exact N5.
  Qed.

  Lemma batch_read t r : In (t, r) (run_samples c l) -> s - pd <= t <= e + pd -> exists data, trigger_read c ucf fs' pd s e = Ret data.
  Proof.
    intros Hr Ht. destruct S as [S1 S2 S3 S4 S5 S6 S7 [cw S8] S9 S10 S11].
    destruct (store_run_encoded _ _ _ _ _ _ S8) as (l' & F & Er).
    pose proof (run_samples_encoded c _ _ _ F) as FR.
    assert (Hl' : l' <> []) by (intros ->; inversion F; congruence).
    pose proof (C26_reads_back_the_run_partial c cw fs fs' start l' s e pd S1 S2 S3 S4 Hl' (consecutive_encoded _ _ _ _ _ F S7) Er S9 S10) as B.
    cbv zeta in B. unfold trigger_read. destruct (read_scanmseed c fs' s e pd) as [g|x|]; [eexists; reflexivity|exfalso..].
    - destruct B as [_ B]. { intros d Hd Hn. apply S11; [exact Hd|]. apply (on_date_encoded c (Q2R ucf) d _ _ FR). exact Hn. }
      destruct (Forall2_l _ _ _ _ FR Hr) as ([t' z] & Hz & [Ht' _]). cbn [fst] in Ht'. subst t'.
      assert (In (t, z) (between (s - pd) (e + pd) (run_samples c l'))).
      { unfold between. apply filter_In. split; [exact Hz|]. cbn [fst]. apply andb_true_intro. split; apply Z.leb_le; lia. }
      rewrite B in H. contradiction.
    - apply B. intros d Hd Hn. apply S11; [exact Hd|]. apply (on_date_encoded c (Q2R ucf) d _ _ FR). exact Hn.
  Qed.

  Lemma batch_data data : trigger_read c ucf fs' pd s e = Ret data ->
    exists t1, sampled c t1 data /\
    (forall i x, rd data i = Some x -> exists t r, row_at x t r) /\
    (forall t r, In (t, r) (run_samples c l) -> s - pd <= t <= e + pd -> exists i x, rd data i = Some x /\ row_at x t r).
  Proof.
    intros H. destruct S as [S1 S2 S3 S4 S5 S6 S7 [cw S8] S9 S10 S11].
    destruct (trigger_read_samples _ _ _ _ _ _ _ H) as (g & Eg & ->).
    destruct (store_run_encoded _ _ _ _ _ _ S8) as (l' & F & Er).
    pose proof (run_samples_encoded c _ _ _ F) as FR.
    assert (Hl' : l' <> []) by (intros ->; inversion F; congruence).
    pose proof (C26_reads_back_the_run_partial c cw fs fs' start l' s e pd S1 S2 S3 S4 Hl' (consecutive_encoded _ _ _ _ _ F S7) Er S9 S10) as B.
    cbv zeta in B. rewrite Eg in B. destruct B as [B _].
    { intros d Hd Hn. apply S11; [exact Hd|]. apply (on_date_encoded c (Q2R ucf) d _ _ FR). exact Hn. }
    exists (t0 g). split; [|split].
    - intros i x Hx. rewrite rd_map in Hx. destruct (rd (samples c g) i) as [[t z]|] eqn:E; [|discriminate].
      cbn [option_map fst snd] in Hx. replace x with (scanrow_of ucf t z) by congruence. cbn [scanrow_of DT].
      unfold samples in E. apply rd_samples in E. cbn in E. exact E.
    - intros i x Hx. rewrite rd_map in Hx. destruct (rd (samples c g) i) as [[t z]|] eqn:E; [|discriminate].
      cbn [option_map fst snd] in Hx. replace x with (scanrow_of ucf t z) by congruence.
      assert (Hin : In (t, z) (samples c g)) by (eapply rd_in; exact E). rewrite B in Hin. unfold between in Hin.
      apply filter_In in Hin as [Hin Hb]. apply andb_prop in Hb as [B1 B2]. apply Z.leb_le in B1, B2. cbn [fst] in B1, B2.
      destruct (Forall2_r _ _ _ _ FR Hin) as ([t' r] & Hr & Hp). destruct Hp as [Ht Hp]. cbn [fst snd] in Ht, Hp. subst t'.
      exists t, r. apply row_of_pair; [split; [reflexivity|exact Hp]|exact Hr|lia].
    - intros t r Hr Ht. destruct (Forall2_l _ _ _ _ FR Hr) as ([t' z] & Hz & Hp). destruct Hp as [Ht' Hp]. cbn [fst snd] in Ht', Hp. subst t'.
      assert (Hin : In (t, z) (samples c g)).
      { rewrite B. unfold between. apply filter_In. split; [exact Hz|]. cbn [fst]. apply andb_true_intro. split; apply Z.leb_le; lia. }
      apply in_rd in Hin as (i & Hi). exists i, (scanrow_of ucf t z). split.
      + rewrite rd_map, Hi. reflexivity.
      + apply row_of_pair; [split; [reflexivity|exact Hp]|exact Hr|exact Ht].
  Qed.
End Batch.

(** * The static threshold *)

Lemma static_rd c p data i x : threshold_method p = Static -> rd (batch_threshold c p data) i = Some x -> (x == static_threshold p)%Q.
Proof.
  intros Hm H. unfold batch_threshold, get_threshold in H. rewrite Hm in H. rewrite rd_map in H.
  destruct (rd (map (trigger_on p) data) i); [|discriminate]. cbn [option_map] in H.
  replace x with (0 + static_threshold p)%Q by congruence. ring.
Qed.
Lemma static_hit c p data i r : threshold_method p = Static -> rd data i = Some r ->
  (static_threshold p <= (if normalise_coalescence p then COA_N r else COA r))%Q -> hit p data (batch_threshold c p data) i.
Proof.
  intros Hm Hr H. assert (exists x, rd (batch_threshold c p data) i = Some x) as [x Hx].
  { unfold batch_threshold, get_threshold. rewrite Hm, rd_map, rd_map, Hr. cbn. eauto. }
  exists r, x. split; [exact Hr|]. split; [exact Hx|]. rewrite (static_rd _ _ _ _ _ Hm Hx). exact H.
Qed.
Lemma static_hit_inv c p data i : threshold_method p = Static -> hit p data (batch_threshold c p data) i ->
  exists r, rd data i = Some r /\ (static_threshold p <= (if normalise_coalescence p then COA_N r else COA r))%Q.
Proof. intros Hm (r & x & H1 & H2 & H3). exists r. split; [exact H1|]. rewrite <- (static_rd _ _ _ _ _ Hm H2). exact H3. Qed.

(** * Rows of a timestep *)

Lemma rd_combine {A B} : forall (l : list A) (m : list B) i x y, rd l i = Some x -> rd m i = Some y -> rd (combine l m) i = Some (x, y).
Proof.
  intros l m i x y. unfold rd. destruct (i <? 0); [discriminate|]. generalize (Z.to_nat i) as n. revert m.
  induction l as [|a l IH]; intros m n H1 H2; [destruct n; discriminate|]. destruct m as [|b m]; [destruct n; discriminate|].
  destruct n as [|n]; cbn in *; [congruence|apply IH; assumption].
Qed.
Lemma map_opt_rd {A B} (f : A -> option B) : forall l m, map_opt f l = Some m -> forall i x, rd l i = Some x ->
  exists y, f x = Some y /\ rd m i = Some y.
Proof.
  intros l m H i x. unfold rd. destruct (i <? 0); [discriminate|]. generalize (Z.to_nat i) as n. apply map_opt_Forall2 in H.
  induction H as [|a b l m E F IH]; intros [|n] Hx; cbn in *; try discriminate.
  - exists b. split; congruence.
  - apply IH. exact Hx.
Qed.
Lemma map_opt_len {A B} (f : A -> option B) l m : map_opt f l = Some m -> length m = length l.
Proof. intros H. symmetry. eapply Forall2_len. apply map_opt_Forall2. exact H. Qed.

Lemma migrated_rows coord n n_nodes first last tt g on : 1 <= n -> 1 <= n_nodes -> 0 <= first -> 0 <= last ->
  (forall node k, 0 <= node < n_nodes -> 0 <= k < n -> tt node k <= last) ->
  migrated coord n n_nodes first last tt g on ->
  forall s, 0 <= s < Z.of_nat (length (rows g)) -> exists r k, rd (rows g) s = Some r /\ 0 <= k < n_nodes /\
    coa r = stack n first tt on k s /\ (px r, py r, pz r) = coord k /\
    (forall j, 0 <= j < n_nodes -> (stack n first tt on j s <= stack n first tt on k s)%R).
Proof.
  intros Hn Hnn Hf Hl Htt (r0 & r1 & m & o & Hsz & Em & Eo & Er) s Hs. cbv zeta in *.
  set (t := first + Z.of_nat (length (rows g)) + last) in *.
  rewrite (lib_migrate_ok r0 on n t tt n_nodes first last) in Em by (try assumption; lia).
  assert (Em' : m = array2 n_nodes (t - first - last) (fun node s => stack n first tt on node s))
    by (enough (Ret m = Ret (array2 n_nodes (t - first - last) (fun node s => stack n first tt on node s))) by congruence; rewrite <- Em; reflexivity).
  subst m. clear Em.
  destruct (find_max_ok r1 (fun node s => stack n first tt on node s) n_nodes (t - first - last)) as (o' & E' & L1 & L2 & L3 & H); [lia..|].
  assert (o' = o) by congruence. subst o'.
  assert (Hs' : 0 <= s < t - first - last) by lia.
  destruct (H s Hs') as (k & (Hk & Hmax & _) & H1 & H2 & _).
  destruct (rd_in_range _ (o_norm o) s) as [nm Hnm]; [lia|].
  destruct (map_opt_rd _ _ _ Er s (stack n first tt on k s, nm, k)) as (r & Ey & Hr).
  { apply rd_combine; [apply rd_combine|]; assumption. }
  cbn beta iota in Ey. destruct nm as [nv|]; [|discriminate]. destruct (coord k) as [[cx cy] cz] eqn:Ek.
  exists r, k. replace r with (mk_row (stack n first tt on k s) nv cx cy cz) in * by congruence.
  split; [exact Hr|]. split; [exact Hk|]. split; [reflexivity|]. split; [rewrite Ek; reflexivity|]. exact Hmax.
Qed.

Lemma in_samples_from {A} d : forall (l : list A) t p, In p (samples_from d t l) -> exists i, rd l i = Some (snd p) /\ fst p = t + i * d.
Proof.
  intros l t p H. apply in_rd in H as (i & Hi). exists i. split; [|exact (rd_samples _ _ _ _ _ Hi)].
  revert t i Hi. induction l as [|a l IH]; intros t i Hi; [unfold rd in Hi; destruct (i <? 0); [discriminate|]; destruct (Z.to_nat i); discriminate|].
  cbn [samples_from] in Hi. destruct (Z.eq_dec i 0) as [->|Hne]; [cbn in *; replace p with (t, a) by congruence; reflexivity|].
  assert (0 <= i) by (unfold rd in Hi; destruct (Z.ltb_spec i 0); [discriminate|lia]).
  rewrite rd_cons_pos in Hi by lia. rewrite rd_cons_pos by lia. exact (IH _ _ Hi).
Qed.
Lemma samples_from_in {A} d : forall (l : list A) t i x, rd l i = Some x -> In (t + i * d, x) (samples_from d t l).
Proof.
  induction l as [|a l IH]; intros t i x H; [unfold rd in H; destruct (i <? 0); [discriminate|]; destruct (Z.to_nat i); discriminate|].
  cbn [samples_from]. destruct (Z.eq_dec i 0) as [->|Hne]; [left; cbn in H; f_equal; [lia|congruence]|].
  right. assert (0 <= i) by (unfold rd in H; destruct (Z.ltb_spec i 0); [discriminate|lia]).
  rewrite rd_cons_pos in H by lia. replace (t + i * d) with (t + d + (i - 1) * d) by ring. apply IH. exact H.
Qed.

Lemma event_is_a_hit c p data th cands refined ev : length data = length th ->
  identify_candidates p data th = Ret cands -> refine_candidates c p cands = Ret refined -> In ev refined ->
  exists i x, rd data i = Some x /\ hit p data th i /\ CoaTime (cand ev) = DT x /\
    TRIG_COA (cand ev) = (if normalise_coalescence p then COA_N x else COA x) /\
    COA_X (cand ev) = PX x /\ COA_Y (cand ev) = PY x /\ COA_Z (cand ev) = PZ x.
Proof.
  intros L Ec Er Hev.
  destruct (C28_candidates_are_the_maximal_runs p data th L) as (runs & cs & E & F & Hmax & _ & _).
  assert (cs = cands) by congruence. subst cs. clear E.
  destruct (C29_refinement_merges_linked_candidates c p cands) as (es & gs & E & (Gc & _) & FG).
  assert (es = refined) by congruence. subst es. clear E.
  destruct (Forall2_r _ _ _ _ FG Hev) as (g & Hg & k1 & m & k2 & Eg & _ & _ & N1 & N2 & _ & _ & N3 & N4 & N5 & _).
  assert (Hm : In m cands) by (rewrite <- Gc; apply in_concat; exists g; split; [exact Hg|]; rewrite Eg; apply in_or_app; right; now left).
  destruct (Forall2_r _ _ _ _ F Hm) as ([lo hi] & Hrun & k & x & f & l & (Hk & Hx & _) & _ & _ & E1 & _ & _ & E2 & E3 & E4 & E5 & _).
  cbn [fst snd] in *. exists k, x. split; [exact Hx|]. split.
  - apply Hmax in Hrun. destruct Hrun as (_ & Hall & _). apply Hall. exact Hk.
  - repeat split; congruence.
Qed.

(** * The scan does not fail *)

Lemma geometric_mean_pos l : (forall x, In x l -> (0 < x)%R) -> (0 < geometric_mean l)%R.
Proof. intros H. rewrite geometric_mean_exp by exact H. apply exp_pos. Qed.
Lemma stack_pos n first tt on node s : (0 < stack n first tt on node s)%R.
Proof.
  apply geometric_mean_pos. intros x Hx. apply in_map_iff in Hx as (k & <- & _).
  pose proof (Rmax_r (on k (arrival tt first node s k)) (1 / 100)). lra.
Qed.

Definition in_range (ucf : R) (v : vec) : Prop :=
  let '(x, y, z) := v in
  (Rabs x <= 2147 /\ Rabs y <= 2147 /\ Rabs (z * (1000 * ucf)) <= 2147483647)%R.

Lemma map_opt_some {A B} (f : A -> option B) l : (forall x, In x l -> f x <> None) -> exists m, map_opt f l = Some m.
Proof.
  induction l as [|a l IH]; intros H; [eexists; reflexivity|].
  destruct (f a) as [b|] eqn:E; [|elim (H a (or_introl eq_refl)); exact E].
  destruct IH as [m Em]; [intros x Hx; apply H; now right|]. exists (b :: m). cbn. rewrite E, Em. reflexivity.
Qed.

Lemma migrated_exists coord n n_nodes first last tt on t len ucf : 1 <= n -> 1 <= n_nodes -> 0 <= first -> 0 <= last ->
  (forall node k, 0 <= node < n_nodes -> 0 <= k < n -> tt node k <= last) -> 0 <= len -> n * (first + len + last) < 2147483648 ->
  (forall node, 0 <= node < n_nodes -> in_range ucf (coord node)) ->
  exists rs, Z.of_nat (length rs) = len /\ migrated coord n n_nodes first last tt (mk_seg t rs) on /\
    exists zs, map_opt (encode_row ucf) rs = Some zs.
Proof.
  intros Hn Hnn Hf Hl Htt Hlen Hsz Hco. set (T := first + len + last) in *.
  set (F := fun node s => stack n first tt on node s).
  set (r0 := {| traveltime := 0; acc := 0%R |}). set (r1 := {| fcur := 0%R; fmax := 0%R; fsum := 0%R; fidx := 0 |}).
  assert (Em : lib_migrate r0 (array2 n T on) n T (array2 n_nodes n tt) n_nodes n first last n = Ret (array2 n_nodes (T - first - last) F))
    by (apply lib_migrate_ok; try assumption; lia).
  destruct (find_max_ok r1 F n_nodes (T - first - last)) as (o & Eo & L1 & L2 & L3 & H); [lia..|].
  set (f := fun x : R * option R * Z => let '(m, nm, i) := x in
             match nm with Some nv => let '(cx, cy, cz) := coord i in Some (mk_row m nv cx cy cz) | None => None end).
  assert (K : forall x, In x (combine (combine (o_max o) (o_norm o)) (o_idx o)) ->
    exists m nv i, x = (m, Some nv, i) /\ (0 < m)%R /\ (0 < nv)%R /\ 0 <= i < n_nodes).
  { intros x Hx. apply in_rd in Hx as (s & Hs).
    assert (B : 0 <= s < T - first - last).
    { pose proof (rd_bounds _ _ _ _ Hs) as B. rewrite combine_length, combine_length in B. lia. }
    destruct (H s B) as (k & (Hk & _) & H1 & H2 & _).
    destruct (find_max_norm r1 F n_nodes (T - first - last) o s) as (v & M & N1 & N2 & _ & N3 & _); [lia|lia|exact Eo|exact B|intros; apply stack_pos|].
    rewrite (rd_combine _ _ _ _ _ (rd_combine _ _ _ _ _ H1 N1) H2) in Hs.
    exists (F k s), v, k. split; [congruence|]. split; [apply stack_pos|]. split; [lra|exact Hk]. }
  destruct (map_opt_some f (combine (combine (o_max o) (o_norm o)) (o_idx o))) as [rs Ers].
  { intros x Hx. destruct (K x Hx) as (m & nv & i & -> & _). unfold f. destruct (coord i) as [[cx cy] cz]. discriminate. }
  assert (Lr : Z.of_nat (length rs) = len).
  { rewrite (map_opt_len _ _ _ Ers), combine_length, combine_length. lia. }
  exists rs. split; [exact Lr|]. split.
  - exists r0, r1, (array2 n_nodes (T - first - last) F), o. cbn [rows]. rewrite Lr. fold T. cbv zeta.
    split; [exact Hsz|]. split; [exact Em|]. split; [exact Eo|exact Ers].
  - apply map_opt_some. intros r Hr.
    destruct (Forall2_r _ _ _ _ (map_opt_Forall2 _ _ _ Ers) Hr) as (x & Hx & Ex).
    destruct (K x Hx) as (m & nv & i & -> & P1 & P2 & Hi). unfold f in Ex. specialize (Hco i Hi). destruct (coord i) as [[cx cy] cz].
    cbn in Hco. destruct Hco as (R1 & R2 & R3).
    replace r with (mk_row m nv cx cy cz) by congruence. unfold encode_row. cbn [coa coa_n px py pz]. rewrite !clip_coa_min.
    assert (B1 : forall y, (0 < y)%R -> (0 <= Rmin y 21474 <= 21474)%R).
    { intros y Hy. split; [apply Rmin_glb; lra|apply Rmin_r]. }
    pose proof (B1 m P1). pose proof (B1 nv P2).
    rewrite !data2int_ok; [discriminate|..]; try lra; revert R1 R2 R3; unfold Rabs; destruct (Rcase_abs cx), (Rcase_abs cy), (Rcase_abs (cz * (1000 * ucf))); lra.
Qed.

Lemma append_all_of_encoded c ucf cw : forall l l' fs o p, Forall2 (fun g g' => encode_seg ucf g = Some g') l l' ->
  appends c cw fs o l' = Ret p -> append_all c ucf cw fs o l = Ret p.
Proof.
  induction l as [|g l IH]; intros l' fs o p F H; inversion F as [|? g' ? l2 E F']; subst; [exact H|].
  cbn [append_all appends] in *. unfold encode_seg in E. unfold append. destruct (map_opt (encode_row ucf) (rows g)) as [zs|]; [|discriminate].
  cbn [option_map] in E. replace g' with (mk_seg (t0 g) zs) in H by congruence.
  destruct (append_seg c cw fs o (mk_seg (t0 g) zs)) as [q| |]; try discriminate. cbn [bind] in *. eapply IH; eassumption.
Qed.
Lemma store_run_ok c ucf cw fs start l : 0 < sec c -> 0 < delta c -> (delta c | 86400 * sec c) -> (delta c | start) ->
  l <> [] -> consecutive c start l -> Forall (fun g => exists zs, map_opt (encode_row ucf) (rows g) = Some zs) l ->
  exists fs', store_run c ucf cw fs l = Ret fs'.
Proof.
  intros Hs Hd Hg Hst Hl Hc Henc.
  assert (exists l', Forall2 (fun g g' => encode_seg ucf g = Some g') l l') as [l' F].
  { clear - Henc. induction Henc as [|g l [zs E] _ [l' F]]; [exists []; constructor|]. exists (mk_seg (t0 g) zs :: l').
    constructor; [unfold encode_seg; rewrite E; reflexivity|exact F]. }
  destruct (grid_ok c start Hs Hd Hg Hst) as (D & p & HD & Hday & ->).
  assert (Hl' : l' <> []) by (intros ->; inversion F; congruence).
  destruct (detect_run_ok c D Hd HD Hday cw fs p l' Hl' (consecutive_encoded _ _ _ _ _ F Hc)) as (fs' & E & _).
  exists fs'. unfold store_run, detect_run in *. destruct (appends c cw fs new_scanmseed l') as [q| |] eqn:Ea; try discriminate.
  rewrite (append_all_of_encoded _ _ _ _ _ _ _ _ F Ea). exact E.
Qed.

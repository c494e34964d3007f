(** Proofs about merging. *)
From Coq Require Import String Ascii.
From Coq Require Import List ZArith Reals Bool Lia Permutation.
From Verif Require Import Lib LibFacts PySliceFacts Timeline_Model Avail_Model Avail_Spec Avail_Proofs Merge_Model Merge_Spec.
Import ListNotations.
Open Scope Z_scope.

(** A trace of channel [i] with data at interval [d]. *)
Definition tr_ok (i : string) (d : Z) (s : seg) : Prop := sg_id s = i /\ sg_delta s = d /\ sg_data s <> [].
Definition held (l : list seg) (t : Z) (v : R) : Prop := exists s, In s l /\ sample s t v.

Lemma npts_pos s : sg_data s <> [] -> 0 < npts s.
Proof. unfold npts. destruct (sg_data s); [contradiction|]. cbn [length]. lia. Qed.
Lemma sample_bounds d s t v : 0 < d -> sg_delta s = d -> sample s t v -> sg_start s <= t <= sg_end s.
Proof. intros P E (k & -> & H). apply rd_bounds in H. unfold sg_end, npts. rewrite E. nia. Qed.
Lemma sample_fun d s t v v' : 0 < d -> sg_delta s = d -> sample s t v -> sample s t v' -> v = v'.
Proof. intros P E (k & Ek & H) (k' & Ek' & H'). rewrite E in *. assert (k = k') by nia. subst k'. congruence. Qed.
Lemma first_sample s : sg_data s <> [] -> exists v, sample s (sg_start s) v.
Proof. intros N. destruct (sg_data s) as [|x l] eqn:E; [contradiction|]. exists x, 0. rewrite E. split; [ring|reflexivity]. Qed.

Lemma join_ok i d a b c : 0 < d -> tr_ok i d a -> tr_ok i d b -> sg_start a <= sg_start b -> join a b = Some c ->
  tr_ok i d c /\ sg_start c = sg_start a /\ forall t v, sample c t v <-> sample a t v \/ sample b t v.
Proof.
  intros P (Ia & Da & Na) (Ib & Db & Nb) S J. pose proof (npts_pos a Na) as Pa. pose proof (npts_pos b Nb) as Pb. unfold join in J. unfold tr_ok.
  destruct (sg_start b <=? sg_end a) eqn:E1.
  - apply Z.leb_le in E1. destruct (in_step a b) eqn:E2; [|discriminate]. unfold in_step in E2. apply Z.eqb_eq in E2. cbv zeta in J.
    destruct (list_eq_dec _ _ _) as [H|H]; [|discriminate]. injection J as <-. unfold joined. cbn.
    set (k := offset a b) in *. assert (Ek : sg_start b = sg_start a + k * d).
    { unfold k, offset. rewrite Da in *. pose proof (Z.div_mod (sg_start b - sg_start a) d). lia. }
    clearbody k. clear E2. unfold sg_end in E1. rewrite Da in E1. assert (0 <= k < npts a) by nia.
    split; [split; [exact Ia|]; split; [exact Da|]; intros C; apply app_eq_nil in C; tauto|]. split; [reflexivity|].
    assert (Eq : forall m, 0 <= m < npts b -> m < npts a - k -> rd (sg_data b) m = rd (sg_data a) (k + m)).
    { intros m M1 M2. apply (f_equal (fun l => rd l m)) in H. unfold cut in H. rewrite !rd_firstn, !rd_skipn in H by lia. symmetry. exact H. }
    intros t v. unfold sample. cbn [sg_start sg_delta sg_data]. rewrite Da, Db. split.
    + intros (j & -> & R). destruct (Z_lt_le_dec j (npts a)) as [L|L].
      * left. exists j. split; [reflexivity|]. rewrite rd_app1 in R by exact L. exact R.
      * right. exists (j - k). split; [rewrite Ek; ring|]. rewrite rd_app2 in R by exact L. fold (npts a) in R. rewrite rd_skipn in R by lia. rewrite <- R. f_equal. lia.
    + intros [(j & -> & R)|(j & -> & R)].
      * exists j. split; [reflexivity|]. pose proof (rd_bounds _ _ _ _ R). rewrite rd_app1 by lia. exact R.
      * exists (k + j). split; [rewrite Ek; ring|]. pose proof (rd_bounds _ _ _ _ R). fold (npts b) in *. destruct (Z_lt_le_dec (k + j) (npts a)) as [L|L].
        -- rewrite rd_app1 by exact L. rewrite <- Eq by lia. exact R.
        -- rewrite rd_app2 by exact L. fold (npts a). rewrite rd_skipn by lia. rewrite <- R. f_equal. lia.
  - destruct (sg_start b =? sg_end a + sg_delta a) eqn:E2; [|discriminate]. apply Z.eqb_eq in E2. injection J as <-. unfold joined. cbn.
    unfold sg_end in E2. rewrite Da in E2. split; [split; [exact Ia|]; split; [exact Da|]; intros C; apply app_eq_nil in C; tauto|]. split; [reflexivity|].
    intros t v. unfold sample. cbn [sg_start sg_delta sg_data]. rewrite Da, Db. split.
    + intros (j & -> & R). destruct (Z_lt_le_dec j (npts a)) as [L|L].
      * left. exists j. split; [reflexivity|]. rewrite rd_app1 in R by exact L. exact R.
      * right. exists (j - npts a). split; [rewrite E2; ring|]. rewrite rd_app2 in R by exact L. exact R.
    + intros [(j & -> & R)|(j & -> & R)].
      * exists j. split; [reflexivity|]. pose proof (rd_bounds _ _ _ _ R). rewrite rd_app1 by lia. exact R.
      * exists (npts a + j). split; [rewrite E2; ring|]. pose proof (rd_bounds _ _ _ _ R). rewrite rd_app2 by (fold (npts a); lia). fold (npts a). rewrite <- R. f_equal. lia.
Qed.

(** Traces in order of their first samples. *)
Fixpoint ordered (a : seg) (l : list seg) : Prop :=
  match l with [] => True | b :: r => (forall x, In x l -> sg_start a <= sg_start x) /\ ordered b r end.
Lemma ordered_replace a a' b r : sg_start a' = sg_start a -> ordered a (b :: r) -> ordered a' r.
Proof.
  intros E (H1 & H2). destruct r as [|x r]; [exact I|]. destruct H2 as (H2 & H3). split; [|exact H3]. intros y Iy. rewrite E. apply H1. right. exact Iy.
Qed.
Lemma sorted_ordered : forall l a, sorted_from (Some a) l -> ordered a l.
Proof.
  induction l as [|b l IH]; intros a H; [exact I|]. split; [intros x I; apply (sorted_start _ _ _ H I)|]. apply IH. apply H.
Qed.

Lemma join_all_ok i d : 0 < d -> forall l a, tr_ok i d a -> Forall (tr_ok i d) l -> ordered a l ->
  Forall (tr_ok i d) (join_all a l) /\ forall t v, held (join_all a l) t v <-> held (a :: l) t v.
Proof.
  intros P. induction l as [|b l IH]; intros a Ga Gl O; cbn [join_all]; [split; [constructor; [exact Ga|constructor]|reflexivity]|].
  inversion_clear Gl as [|? ? Gb Gl']. destruct (join a b) as [c|] eqn:J.
  - assert (S : sg_start a <= sg_start b) by (apply (proj1 O); left; reflexivity).
    destruct (join_ok i d a b c P Ga Gb S J) as (Gc & Sc & H). destruct (IH c Gc Gl' (ordered_replace a c b l Sc O)) as (F & H'). split; [exact F|].
    intros t v. rewrite H'. unfold held. split.
    + intros (s & [<-|Is] & Hs); [|exists s; cbn; auto]. apply H in Hs. destruct Hs as [Hs|Hs]; [exists a|exists b]; cbn; auto.
    + intros (s & [<-|[<-|Is]] & Hs); [exists c|exists c|exists s; cbn; auto]; (split; [left; reflexivity|]; apply H; auto).
  - destruct (IH b Gb Gl' (proj2 O)) as (F & H'). split; [constructor; assumption|].
    intros t v. unfold held in *. split.
    + intros (s & [<-|Is] & Hs); [exists a; cbn; auto|]. destruct (proj1 (H' t v)) as (s' & Is' & Hs'); [exists s; auto|]. exists s'. split; [right; exact Is'|exact Hs'].
    + intros (s & [<-|Is] & Hs); [exists a; cbn; auto|]. destruct (proj2 (H' t v)) as (s' & Is' & Hs'); [exists s; auto|]. exists s'. split; [right; exact Is'|exact Hs'].
Qed.

(** ** Traces on one grid that do not contradict each other *)
Lemma join_gap i d a b : 0 < d -> tr_ok i d a -> tr_ok i d b -> sg_start a <= sg_start b -> (exists k, sg_start b - sg_start a = k * d) ->
  (forall t v v', sample a t v -> sample b t v' -> v = v') -> join a b = None -> sg_end a + d < sg_start b.
Proof.
  intros P (Ia & Da & Na) (Ib & Db & Nb) S (k & Ek) C J. unfold join in J.
  destruct (sg_start b <=? sg_end a) eqn:E1.
  - exfalso. apply Z.leb_le in E1. assert (Es : in_step a b = true) by (unfold in_step; rewrite Da, Ek, Z.mod_mul by lia; reflexivity). rewrite Es in J. cbv zeta in J.
    assert (Eo : offset a b = k) by (unfold offset; rewrite Da, Ek; apply Z.div_mul; lia). rewrite Eo in J. unfold sg_end in E1. rewrite Da in E1. assert (0 <= k < npts a) by nia.
    destruct (list_eq_dec _ _ _) as [H'|N]; [discriminate|]. apply N. clear N J. apply rd_ext_opt. intros j. unfold cut.
    set (n := Z.min (npts a - k) (npts b)) in *. assert (Hn : n <= npts a - k /\ n <= npts b /\ 0 <= n) by (unfold n; pose proof (npts_pos b Nb); lia). clearbody n.
    destruct (Z_lt_le_dec j 0) as [L|L]; [rewrite !rd_none by (left; exact L); reflexivity|].
    destruct (Z_lt_le_dec j n) as [L'|L']; [|rewrite !rd_firstn_none by lia; reflexivity].
    rewrite !rd_firstn, !rd_skipn by lia. cbn [Z.add].
    destruct (rd_in_range _ (sg_data a) (k + j)) as (v & Ev); [unfold npts in *; lia|]. destruct (rd_in_range _ (sg_data b) j) as (v' & Ev'); [unfold npts in *; lia|].
    rewrite Ev, Ev'. f_equal. apply (C (sg_start b + j * d)); [exists (k + j)|exists j]; (split; [|assumption]); [rewrite Da; lia|rewrite Db; reflexivity].
  - apply Z.leb_gt in E1. destruct (sg_start b =? sg_end a + sg_delta a) eqn:E2; [discriminate|]. apply Z.eqb_neq in E2. unfold sg_end in *. rewrite Da in *. assert (npts a - 1 < k) by nia. assert (k <> npts a) by (intros ->; lia). assert (npts a + 1 <= k) by lia. nia.
Qed.

Lemma join_all_head a l : exists a' r, join_all a l = a' :: r /\ sg_start a' = sg_start a.
Proof.
  revert a. induction l as [|b l IH]; intros a; cbn [join_all]; [exists a, []; auto|]. destruct (join a b) as [c|] eqn:J; [|eexists; eexists; split; reflexivity].
  destruct (IH c) as (a' & r & E & S). exists a', r. split; [exact E|]. rewrite S. unfold join in J. cbv zeta in J.
  destruct (sg_start b <=? sg_end a); [destruct (in_step a b); [|discriminate]; destruct (list_eq_dec _ _ _); [|discriminate]|destruct (sg_start b =? sg_end a + sg_delta a); [|discriminate]]; injection J as <-; reflexivity.
Qed.

Lemma join_all_separated i d : 0 < d -> forall l a, tr_ok i d a -> Forall (tr_ok i d) l -> ordered a l ->
  (forall x, In x l -> exists k, sg_start x - sg_start a = k * d) -> (forall t v v', held (a :: l) t v -> held (a :: l) t v' -> v = v') ->
  separated d (join_all a l).
Proof.
  intros P. induction l as [|b l IH]; intros a Ga Gl O G C; cbn [join_all]; [exact I|].
  inversion_clear Gl as [|? ? Gb Gl']. assert (S : sg_start a <= sg_start b) by (apply (proj1 O); left; reflexivity). destruct (join a b) as [c|] eqn:J.
  - destruct (join_ok i d a b c P Ga Gb S J) as (Gc & Sc & H). apply (IH c Gc Gl' (ordered_replace a c b l Sc O)).
    + intros x Ix. rewrite Sc. apply G. right. exact Ix.
    + assert (W : forall t v, held (c :: l) t v -> held (a :: b :: l) t v).
      { intros t v (s & [<-|Is] & Hs); [|exists s; cbn; auto]. apply H in Hs. destruct Hs as [Hs|Hs]; [exists a|exists b]; cbn; auto. }
      intros t v v' H1 H2. apply (C t); apply W; assumption.
  - assert (Gp : sg_end a + d < sg_start b).
    { apply (join_gap i d a b P Ga Gb S); [apply G; left; reflexivity| |exact J]. intros t v v' H1 H2. apply (C t); [exists a|exists b]; cbn; auto. }
    assert (Sb : separated d (join_all b l)).
    { apply (IH b Gb Gl' (proj2 O)).
      - intros x Ix. destruct (G b) as (k & Ek); [left; reflexivity|]. destruct (G x) as (k' & Ek'); [right; exact Ix|]. exists (k' - k). nia.
      - intros t v v' (s & Is & Hs) (s' & Is' & Hs'). apply (C t); [exists s|exists s']; (split; [right|]; assumption). }
    destruct (join_all_head b l) as (b' & r & E & Eb). rewrite E in *. split; [lia|exact Sb].
Qed.

(** ** Separated traces are determined by their samples *)
Lemma separated_after i d : 0 < d -> forall l a, Forall (tr_ok i d) (a :: l) -> separated d (a :: l) -> forall x, In x l -> sg_end a + d < sg_start x.
Proof.
  intros P. induction l as [|b l IH]; intros a F S x Ix; [destruct Ix|]. inversion_clear F as [|? ? Fa F']. destruct S as (S1 & S2).
  destruct Ix as [<-|Ix]; [exact S1|]. specialize (IH b F' S2 x Ix). inversion_clear F' as [|? ? Fb _]. destruct Fb as (_ & Db & Nb). pose proof (npts_pos b Nb). unfold sg_end in *. rewrite Db in *. nia.
Qed.

Lemma head_start i d a r a' r' : 0 < d -> Forall (tr_ok i d) (a :: r) -> Forall (tr_ok i d) (a' :: r') -> separated d (a' :: r') ->
  (forall t v, held (a :: r) t v <-> held (a' :: r') t v) -> sg_start a' <= sg_start a.
Proof.
  intros P F F' S H. destruct (first_sample a) as (v & Hv); [apply (proj1 (Forall_forall _ _) F); left; reflexivity|].
  destruct (proj1 (H (sg_start a) v)) as (s & Is & Hs); [exists a; split; [left; reflexivity|exact Hv]|].
  assert (Gs : tr_ok i d s) by (apply (proj1 (Forall_forall _ _) F' s Is)). destruct Gs as (_ & Ds & _). pose proof (sample_bounds d s _ _ P Ds Hs).
  destruct Is as [<-|Is]; [lia|]. pose proof (separated_after i d P r' a' F' S s Is). inversion_clear F' as [|? ? (_ & Da & Na) _]. pose proof (npts_pos a' Na). unfold sg_end in *. rewrite Da in *. nia.
Qed.

Lemma head_data i d a r a' r' : 0 < d -> Forall (tr_ok i d) (a :: r) -> Forall (tr_ok i d) (a' :: r') -> separated d (a' :: r') ->
  (forall t v, held (a :: r) t v <-> held (a' :: r') t v) -> sg_start a = sg_start a' ->
  forall n k v, (Z.to_nat k < n)%nat -> rd (sg_data a) k = Some v -> rd (sg_data a') k = Some v.
Proof.
  intros P F F' S H E. assert (Da : sg_delta a = d) by (inversion_clear F as [|? ? (_ & D & _) _]; exact D). assert (Da' : sg_delta a' = d /\ sg_data a' <> []) by (inversion_clear F' as [|? ? (_ & D & N) _]; auto). destruct Da' as (Da' & Na').
  induction n as [|n IH]; intros k v Hk R; [lia|]. pose proof (rd_bounds _ _ _ _ R) as B.
  destruct (proj1 (H (sg_start a + k * d) v)) as (s & Is & Hs); [exists a; split; [left; reflexivity|exists k; rewrite Da; auto]|]. destruct Is as [<-|Is].
  - destruct Hs as (j & Ej & Rj). rewrite Da', E in Ej. assert (j = k) by nia. subst j. exact Rj.
  - exfalso. pose proof (separated_after i d P r' a' F' S s Is) as A. assert (Ds : sg_delta s = d) by (apply (proj1 (Forall_forall _ _) F' s (or_intror Is))). pose proof (sample_bounds d s _ _ P Ds Hs) as Bs.
    pose proof (npts_pos a' Na'). unfold sg_end in A. rewrite Da' in A. assert (Hk' : npts a' < k) by nia.
    destruct (rd_in_range _ (sg_data a) (k - 1)) as (w & Ew); [lia|]. apply (IH (k - 1) w) in Ew; [|lia]. apply rd_bounds in Ew. fold (npts a') in Ew. lia.
Qed.

Lemma seg_eq a b : sg_id a = sg_id b -> sg_start a = sg_start b -> sg_delta a = sg_delta b -> sg_data a = sg_data b -> a = b.
Proof. destruct a, b. cbn. intros -> -> -> ->. reflexivity. Qed.

Lemma separated_unique i d : 0 < d -> forall l l', Forall (tr_ok i d) l -> Forall (tr_ok i d) l' -> separated d l -> separated d l' ->
  (forall t v, held l t v <-> held l' t v) -> l = l'.
Proof.
  intros P. induction l as [|a r IH]; intros [|a' r'] F F' S S' H; [reflexivity| | |].
  - exfalso. inversion_clear F' as [|? ? (_ & _ & N) _]. destruct (first_sample a' N) as (v & Hv). destruct (proj2 (H (sg_start a') v)) as (s & [] & _). exists a'. split; [left; reflexivity|exact Hv].
  - exfalso. inversion_clear F as [|? ? (_ & _ & N) _]. destruct (first_sample a N) as (v & Hv). destruct (proj1 (H (sg_start a) v)) as (s & [] & _). exists a. split; [left; reflexivity|exact Hv].
  - assert (H' : forall t v, held (a' :: r') t v <-> held (a :: r) t v) by (intros; symmetry; apply H).
    assert (E : sg_start a = sg_start a') by (apply Z.le_antisymm; [apply (head_start i d a' r' a r P F' F S H')|apply (head_start i d a r a' r' P F F' S' H)]).
    assert (Ed : sg_data a = sg_data a').
    { apply rd_ext_opt. intros k. destruct (rd (sg_data a) k) as [v|] eqn:R.
      - symmetry. apply (head_data i d a r a' r' P F F' S' H E (Datatypes.S (Z.to_nat k)) k v); [lia|exact R].
      - destruct (rd (sg_data a') k) as [v|] eqn:R'; [|reflexivity]. rewrite (head_data i d a' r' a r P F' F S H' (eq_sym E) (Datatypes.S (Z.to_nat k)) k v) in R; [discriminate|lia|exact R']. }
    assert (Ea : a = a').
    { inversion_clear F as [|? ? (I1 & D1 & _) _]. inversion_clear F' as [|? ? (I2 & D2 & _) _]. apply seg_eq; congruence. }
    subst a'. f_equal. pose proof (separated_after i d P r a F S) as A. pose proof (separated_after i d P r' a F' S') as A'.
    inversion_clear F as [|? ? Ga F1]. inversion_clear F' as [|? ? _ F1']. destruct Ga as (_ & Da & _).
    assert (W : forall r1 r2, (forall x, In x r1 -> sg_end a + d < sg_start x) -> Forall (tr_ok i d) r1 -> (forall t v, held (a :: r1) t v -> held (a :: r2) t v) -> forall t v, held r1 t v -> held r2 t v).
    { intros r1 r2 A1 G1 H1 t v (s & Is & Hs). assert (Ds : sg_delta s = d) by (apply (proj1 (Forall_forall _ _) G1 s Is)). pose proof (sample_bounds d s _ _ P Ds Hs). specialize (A1 s Is).
      destruct (H1 t v) as (s' & Is' & Hs'); [exists s; split; [right; exact Is|exact Hs]|]. destruct Is' as [<-|Is']; [|exists s'; auto]. pose proof (sample_bounds d a _ _ P Da Hs'). lia. }
    apply IH; [exact F1|exact F1'|destruct r; [exact I|apply S]|destruct r'; [exact I|apply S']|].
    intros t v. split; [apply (W r r' A F1); intros; apply H; assumption|apply (W r' r A' F1'); intros; apply H'; assumption].
Qed.

(** ** A channel *)
Lemma select_in st i s : In s (select_id st i) <-> In s st /\ sg_id s = i.
Proof. unfold select_id. rewrite filter_In, String.eqb_eq. reflexivity. Qed.
Definition nonvoid (s : seg) : bool := 0 <? npts s.
Lemma nonvoid_iff s : nonvoid s = true <-> sg_data s <> [].
Proof. unfold nonvoid, npts. rewrite Z.ltb_lt. destruct (sg_data s); cbn [length]; split; intros; try lia; try discriminate. contradiction. Qed.
Lemma sample_nonvoid s t v : sample s t v -> sg_data s <> [].
Proof. intros (k & _ & R) E. rewrite E, rd_nil in R. discriminate. Qed.

(** The sorted traces with data of a channel. *)
Definition chan (st : list seg) (i : string) : list seg := sort_segs (filter nonvoid (select_id st i)).
Lemma chan_in st i s : In s (chan st i) <-> In s st /\ sg_id s = i /\ sg_data s <> [].
Proof.
  unfold chan. assert (E : In s (sort_segs (filter nonvoid (select_id st i))) <-> In s (filter nonvoid (select_id st i))) by (split; apply Permutation_in; [|symmetry]; apply sort_perm).
  rewrite E, filter_In, select_in, nonvoid_iff. tauto.
Qed.
Lemma chan_held st i t v : held (chan st i) t v <-> recorded st i t v.
Proof.
  unfold held, recorded. split; intros (s & H).
  - destruct H as (I & S). apply chan_in in I. exists s. tauto.
  - destruct H as (I & E & S). exists s. split; [apply chan_in; pose proof (sample_nonvoid s t v S); tauto|exact S].
Qed.

Lemma cleanup_ok st i d : on_rate st i d -> exists l, cleanup (select_id st i) = Some l /\ Forall (tr_ok i d) l /\ (forall t v, held l t v <-> recorded st i t v)
  /\ (on_grid st i d -> consistent st i -> separated d l).
Proof.
  intros (P & D). assert (F : Forall (tr_ok i d) (chan st i)).
  { apply Forall_forall. intros s I. apply chan_in in I. destruct I as (I & E & N). split; [exact E|]. split; [apply D; assumption|exact N]. }
  assert (So : sorted_from None (chan st i)) by apply sort_sorted. pose proof (chan_held st i) as H. pose proof (chan_in st i) as In'.
  unfold cleanup. change (sort_segs (filter (fun s => 0 <? npts s) (select_id st i))) with (chan st i).
  destruct (chan st i) as [|a r].
  - exists []. split; [reflexivity|]. split; [constructor|]. split; [exact H|]. intros _ _. exact I.
  - inversion_clear F as [|? ? Ga Gr]. destruct So as (_ & So). pose proof (sorted_ordered r a So) as O.
    assert (Ef : forallb (fun s => sg_delta s =? sg_delta a) r = true).
    { apply forallb_forall. intros x Ix. apply Z.eqb_eq. destruct Ga as (_ & -> & _). apply (proj1 (Forall_forall _ _) Gr x Ix). }
    rewrite Ef. exists (join_all a r). split; [reflexivity|]. destruct (join_all_ok i d P r a Ga Gr O) as (F & Hh). split; [exact F|]. split; [intros t v; rewrite Hh; apply H|].
    intros G C. apply (join_all_separated i d P r a Ga Gr O).
    + intros x Ix. destruct (proj1 (In' a)) as (I1 & I2 & I3); [left; reflexivity|]. destruct (proj1 (In' x)) as (J1 & J2 & J3); [right; exact Ix|]. apply (G a x); assumption.
    + intros t v v' H1 H2. apply H in H1. apply H in H2. apply (C t); assumption.
Qed.

Lemma cleanup_id l m i : (forall s, In s l -> sg_id s = i) -> cleanup l = Some m -> forall s, In s m -> sg_id s = i.
Proof.
  intros Hl. unfold cleanup. assert (Hl' : forall s, In s (sort_segs (filter (fun s => 0 <? npts s) l)) -> sg_id s = i).
  { intros s I. apply (Permutation_in _ (sort_perm _)) in I. apply filter_In in I. apply Hl, I. }
  destruct (sort_segs _) as [|a r]; [intros [= <-] s []|]. destruct (forallb _ _); [|discriminate]. intros [= <-]. 
  assert (G : forall r a, sg_id a = i -> (forall s, In s r -> sg_id s = i) -> forall s, In s (join_all a r) -> sg_id s = i).
  { clear. induction r as [|b r IH]; intros a Ea Er s Is; cbn [join_all] in Is; [destruct Is as [<-|[]]; exact Ea|]. destruct (join a b) as [c|] eqn:J.
    - apply (IH c); [|intros; apply Er; right; assumption|exact Is]. unfold join in J. cbv zeta in J.
      destruct (sg_start b <=? sg_end a); [destruct (in_step a b); [|discriminate]; destruct (list_eq_dec _ _ _); [|discriminate]|destruct (sg_start b =? sg_end a + sg_delta a); [|discriminate]]; injection J as <-; exact Ea.
    - destruct Is as [<-|Is]; [exact Ea|]. apply (IH b); [apply Er; left; reflexivity|intros; apply Er; right; assumption|exact Is]. }
  apply G; [apply Hl'; left; reflexivity|intros; apply Hl'; right; assumption].
Qed.

Definition part (st : list seg) (i : string) : list seg := match cleanup (select_id st i) with Some l => l | None => [] end.
Lemma part_id st i s : In s (part st i) -> sg_id s = i.
Proof.
  unfold part. destruct (cleanup _) as [m|] eqn:E; [|intros []]. apply (cleanup_id (select_id st i) m i); [|exact E]. intros x I. apply select_in in I. apply I.
Qed.
Lemma filter_all {A} (f : A -> bool) l : (forall x, In x l -> f x = true) -> filter f l = l.
Proof. induction l as [|a l IH]; intros H; [reflexivity|]. cbn. rewrite (H a (or_introl eq_refl)), IH; [reflexivity|]. intros x I. apply H. right. exact I. Qed.
Lemma filter_none_ {A} (f : A -> bool) l : (forall x, In x l -> f x = false) -> filter f l = [].
Proof. induction l as [|a l IH]; intros H; [reflexivity|]. cbn. rewrite (H a (or_introl eq_refl)), IH; [reflexivity|]. intros x I. apply H. right. exact I. Qed.
Lemma merged_select order st i : enumerates order st -> select_id (merge_stream order st) i = part st i.
Proof.
  intros (N & A). unfold merge_stream. fold (part st).
  assert (Nil : ~ In i order -> part st i = []).
  { intros Ni. unfold part. assert (E : select_id st i = []).
    { apply filter_none_. intros s Is. apply String.eqb_neq. intros <-. apply Ni, A. apply in_map. exact Is. }
    rewrite E. reflexivity. }
  assert (G : forall o, NoDup o -> select_id (flat_map (part st) o) i = if in_dec string_dec i o then part st i else []).
  { induction o as [|j o IH]; intros ND; [reflexivity|]. cbn [flat_map]. unfold select_id in *. rewrite filter_app. inversion_clear ND as [|? ? Nj ND']. rewrite IH by exact ND'.
    destruct (string_dec j i) as [->|Ne].
    - rewrite (filter_all _ (part st i)) by (intros x Ix; rewrite (part_id st i x Ix); apply String.eqb_refl).
      destruct (in_dec string_dec i o); [contradiction|]. destruct (in_dec string_dec i (i :: o)) as [_|C]; [apply app_nil_r|]. exfalso. apply C. left. reflexivity.
    - rewrite (filter_none_ _ (part st j)) by (intros x Ix; apply String.eqb_neq; rewrite (part_id st j x Ix); exact Ne). cbn [app].
      destruct (in_dec string_dec i o) as [Y|Y]; destruct (in_dec string_dec i (j :: o)) as [Z'|Z']; try reflexivity; exfalso; [apply Z'; right; exact Y|destruct Z'; [contradiction|contradiction]]. }
  change (flat_map _ order) with (flat_map (part st) order). rewrite G by exact N. destruct (in_dec string_dec i order) as [_|C]; [reflexivity|]. symmetry. apply Nil. exact C.
Qed.

Lemma last_sample s : sg_data s <> [] -> exists v, sample s (sg_end s) v.
Proof.
  intros N. pose proof (npts_pos s N). destruct (rd_in_range _ (sg_data s) (npts s - 1)) as (v & E); [unfold npts in *; lia|]. exists v, (npts s - 1). split; [reflexivity|exact E].
Qed.
(** Every trace is within one of the merged ones. *)
Lemma join_all_incl i d : 0 < d -> forall l a, tr_ok i d a -> Forall (tr_ok i d) l -> ordered a l ->
  forall x, In x (a :: l) -> exists m, In m (join_all a l) /\ forall t v, sample x t v -> sample m t v.
Proof.
  intros P. induction l as [|b l IH]; intros a Ga Gl O x Ix; cbn [join_all].
  - destruct Ix as [<-|[]]. exists a. split; [left; reflexivity|auto].
  - inversion_clear Gl as [|? ? Gb Gl']. assert (S : sg_start a <= sg_start b) by (apply (proj1 O); left; reflexivity). destruct (join a b) as [c|] eqn:J.
    + destruct (join_ok i d a b c P Ga Gb S J) as (Gc & Sc & H). pose proof (IH c Gc Gl' (ordered_replace a c b l Sc O)) as K. destruct Ix as [<-|[<-|Ix]].
      * destruct (K c (or_introl eq_refl)) as (m & Im & Hm). exists m. split; [exact Im|]. intros t v Hs. apply Hm, H. auto.
      * destruct (K c (or_introl eq_refl)) as (m & Im & Hm). exists m. split; [exact Im|]. intros t v Hs. apply Hm, H. auto.
      * apply K. right. exact Ix.
    + destruct Ix as [<-|Ix]; [exists a; split; [left; reflexivity|auto]|]. destruct (IH b Gb Gl' (proj2 O) x Ix) as (m & Im & Hm). exists m. split; [right; exact Im|exact Hm].
Qed.

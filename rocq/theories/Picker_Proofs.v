(** Proofs about the phase picker. *)
From Coq Require Import String Ascii.
From Coq Require Import List ZArith QArith Qround Lia Lqa Bool.
From Verif Require Import Lib LibFacts PySlice PySliceFacts Timeline_Model Trigger_Model Trigger_Spec Trigger_Proofs
  Locate_Proofs Picker_Model Picker_Spec.
Import ListNotations.
Open Scope Z_scope.

(** * Windows *)
(** Windows one after the other, the first not before [b]. *)
Fixpoint chain (b : Z) (ws : list window) : Prop :=
  match ws with [] => True | w :: r => b <= w_lo w /\ proper w /\ chain (w_hi w) r end.

Lemma quot2 a : 0 <= a -> 2 * Z.quot a 2 <= a < 2 * Z.quot a 2 + 2.
Proof. intros H. rewrite Z.quot_div_nonneg by lia. pose proof (Z.div_mod a 2). pose proof (Z.mod_pos_bound a 2). lia. Qed.

Lemma narrow_chain r : forall w, proper w -> Forall proper r -> in_order (w :: r) -> 0 <= w_arr w ->
  chain (w_lo w) (narrow w r).
Proof.
  induction r as [|w2 r IH]; intros w Hw Hr Ho H0; cbn [narrow chain].
  - unfold proper in *. lia.
  - inversion Hr as [|? ? Hw2 Hr']; subst. destruct Ho as [Ho1 Ho2].
    pose proof (quot2 (w_arr w + w_arr w2) ltac:(lia)) as Hm. set (m := Z.quot (w_arr w + w_arr w2) 2) in *.
    unfold proper in *. cbn [w_lo w_arr w_hi]. split; [lia|]. split; [lia|].
    specialize (IH (mk_window (Z.max m (w_lo w2)) (w_arr w2) (w_hi w2))). cbn [w_lo w_arr w_hi] in IH.
    assert (C : chain (Z.max m (w_lo w2)) (narrow (mk_window (Z.max m (w_lo w2)) (w_arr w2) (w_hi w2)) r)).
    { apply IH; [lia|exact Hr'| |lia]. destruct r; [exact I|]. exact Ho2. }
    destruct (narrow _ r) as [|x l]; [exact I|]. cbn [chain] in *. destruct C as (C1 & C2 & C3). split; [lia|]. split; assumption.
Qed.

Definition same_arr (w w' : window) : Prop := w_arr w = w_arr w' /\ w_lo w <= w_lo w' /\ w_hi w' <= w_hi w.

Lemma narrow_arr r : forall w, Forall2 same_arr (w :: r) (narrow w r).
Proof.
  induction r as [|w2 r IH]; intros w; cbn [narrow].
  - repeat constructor; lia.
  - constructor; [unfold same_arr; cbn; lia|]. specialize (IH (mk_window (Z.max (Z.quot (w_arr w + w_arr w2) 2) (w_lo w2)) (w_arr w2) (w_hi w2))).
    inversion IH as [|? y ? l Hs Hl E1 E2]; subst. constructor; [|exact Hl].
    unfold same_arr in *. cbn [w_arr w_lo w_hi] in Hs. lia.
Qed.

Lemma clamp_last_chain n ws : forall b, chain b ws -> (forall w, In w ws -> w_arr w <= n) -> chain b (clamp_last n ws).
Proof.
  induction ws as [|w r IH]; intros b C H; [exact I|]. destruct r as [|w2 r].
  - cbn [clamp_last chain] in *. specialize (H w (or_introl eq_refl)). unfold proper in *. cbn [w_lo w_arr w_hi].
    destruct (Z.ltb_spec n (w_hi w)); lia.
  - change (clamp_last n (w :: w2 :: r)) with (w :: clamp_last n (w2 :: r)). cbn [chain]. destruct C as (C1 & C2 & C3).
    split; [exact C1|]. split; [exact C2|]. apply IH; [exact C3|]. intros x Hx. apply H. right. exact Hx.
Qed.

Lemma clamp_last_arr n ws : Forall2 same_arr ws (clamp_last n ws).
Proof.
  induction ws as [|w r IH]; [constructor|]. destruct r as [|w2 r].
  - cbn [clamp_last]. constructor; [|constructor]. unfold same_arr. cbn. destruct (Z.ltb_spec n (w_hi w)); lia.
  - change (clamp_last n (w :: w2 :: r)) with (w :: clamp_last n (w2 :: r)). constructor; [unfold same_arr; lia|exact IH].
Qed.

Lemma clamp_last_bound n ws : forall b, chain b ws -> (forall w, In w ws -> w_arr w <= n) ->
  Forall (fun w => w_hi w <= n) (clamp_last n ws).
Proof.
  induction ws as [|w r IH]; intros b C H; [constructor|]. destruct r as [|w2 r].
  - cbn [clamp_last]. constructor; [|constructor]. cbn. destruct (Z.ltb_spec n (w_hi w)); lia.
  - change (clamp_last n (w :: w2 :: r)) with (w :: clamp_last n (w2 :: r)). destruct C as (C1 & C2 & C3).
    constructor.
    + destruct C3 as (C4 & C5 & _). unfold proper in C5. specialize (H w2 (or_intror (or_introl eq_refl))). lia.
    + apply (IH (w_hi w)); [exact C3|]. intros x Hx. apply H. right. exact Hx.
Qed.

Lemma chain_lo ws : forall b, chain b ws -> Forall (fun w => b <= w_lo w) ws.
Proof.
  induction ws as [|w r IH]; intros b C; [constructor|]. destruct C as (C1 & C2 & C3). constructor; [exact C1|].
  specialize (IH _ C3). rewrite Forall_forall in *. intros x Hx. specialize (IH x Hx). unfold proper in C2. lia.
Qed.
Lemma chain_proper ws : forall b, chain b ws -> Forall proper ws.
Proof. induction ws as [|w r IH]; intros b C; [constructor|]. destruct C as (C1 & C2 & C3). constructor; [exact C2|exact (IH _ C3)]. Qed.
Lemma chain_disjoint ws : forall b i j w w', chain b ws -> i < j -> rd ws i = Some w -> rd ws j = Some w' -> w_hi w <= w_lo w'.
Proof.
  induction ws as [|x r IH]; intros b i j w w' C Hij Hi Hj; [rewrite rd_nil in Hi; discriminate|].
  pose proof (rd_bounds _ _ _ _ Hi) as Bi. destruct C as (C1 & C2 & C3). rewrite rd_cons in Hi, Hj.
  destruct (Z.eqb_spec j 0); [lia|]. destruct (Z.eqb_spec i 0) as [->|Hi0].
  - injection Hi as <-. pose proof (chain_lo _ _ C3) as H. rewrite Forall_forall in H. apply H, (rd_in _ _ _ _ Hj).
  - apply (IH (w_hi x) (i - 1) (j - 1)); [exact C3|lia|exact Hi|exact Hj].
Qed.

Lemma forall2_rd {A B} (P : A -> B -> Prop) l l' : Forall2 P l l' -> length l = length l'
  /\ forall i x y, rd l i = Some x -> rd l' i = Some y -> P x y.
Proof.
  induction 1 as [|x y l l' Hp Hf [IH1 IH2]]; [split; [reflexivity|]; intros i x y H; rewrite rd_nil in H; discriminate|].
  split; [cbn; lia|]. intros i a b Ha Hb. rewrite rd_cons in Ha, Hb. destruct (i =? 0).
  - injection Ha as <-. injection Hb as <-. exact Hp.
  - apply (IH2 _ _ _ Ha Hb).
Qed.

Lemma forall2_trans_arr l1 : forall l2 l3, Forall2 same_arr l1 l2 -> Forall2 same_arr l2 l3 -> Forall2 same_arr l1 l3.
Proof.
  induction l1 as [|x l1 IH]; intros l2 l3 H1 H2; inversion H1; subst; inversion H2; subst; constructor.
  - unfold same_arr in *. lia.
  - eapply IH; eassumption.
Qed.

Lemma in_order_rd ws : in_order ws -> forall i j w w', i <= j -> rd ws i = Some w -> rd ws j = Some w' -> w_arr w <= w_arr w'.
Proof.
  induction ws as [|x r IH]; intros Ho i j w w' Hij Hi Hj; [rewrite rd_nil in Hi; discriminate|].
  pose proof (rd_bounds _ _ _ _ Hi) as Bi. rewrite rd_cons in Hi, Hj.
  assert (Ho' : in_order r) by (destruct r; [exact I|apply Ho]).
  destruct (Z.eqb_spec i 0) as [->|Hi0].
  - injection Hi as <-. destruct (Z.eqb_spec j 0) as [->|Hj0]; [injection Hj as <-; lia|].
    destruct r as [|y r]; [rewrite rd_nil in Hj; discriminate|]. destruct Ho as [Ho1 _].
    specialize (IH Ho' 0 (j - 1) y w' ltac:(lia) eq_refl Hj). lia.
  - destruct (Z.eqb_spec j 0); [lia|]. apply (IH Ho' (i - 1) (j - 1)); [lia|exact Hi|exact Hj].
Qed.

Lemma distinguish_ok ws n : ws <> [] -> Forall proper ws -> in_order ws -> Forall (fun w => 0 <= w_arr w < n) ws ->
  exists ws', distinguish_windows ws n = Ret ws' /\ length ws' = length ws /\ windows_inside n ws' /\ Forall proper ws'
  /\ (forall i j w w', i < j -> rd ws' i = Some w -> rd ws' j = Some w' -> w_hi w <= w_lo w')
  /\ (forall i w w', rd ws i = Some w -> rd ws' i = Some w' -> w_arr w' = w_arr w /\ w_lo w <= w_lo w' /\ w_hi w' <= w_hi w).
Proof.
  intros Hne Hp Ho Hr. destruct ws as [|w r]; [congruence|]. cbn [distinguish_windows].
  set (w0 := mk_window (if w_lo w <? 0 then 0 else w_lo w) (w_arr w) (w_hi w)).
  inversion Hp as [|? ? Hw Hpr]; subst. inversion Hr as [|? ? Hw1 Hrr]; subst.
  assert (Hw0 : proper w0) by (unfold proper, w0 in *; cbn [w_lo w_arr w_hi]; destruct (Z.ltb_spec (w_lo w) 0); lia).
  assert (C : chain (w_lo w0) (narrow w0 r)).
  { apply narrow_chain; [exact Hw0|exact Hpr| |cbn; lia]. destruct r; [exact I|exact Ho]. }
  pose proof (narrow_arr r w0) as F1. pose proof (clamp_last_arr n (narrow w0 r)) as F2.
  assert (Harr : forall x, In x (narrow w0 r) -> w_arr x <= n).
  { intros x Hx. destruct (forall2_rd _ _ _ F1) as [L1 R1]. destruct (in_rd _ _ _ Hx) as [i Hi].
    pose proof (rd_bounds _ _ _ _ Hi) as B. destruct (rd_in_range _ (w0 :: r) i) as [y Hy]; [lia|].
    destruct (R1 _ _ _ Hy Hi) as [E _]. apply rd_in in Hy. destruct Hy as [<-|Hy]; [cbn in *; lia|].
    rewrite Forall_forall in Hrr. specialize (Hrr y Hy). lia. }
  pose proof (clamp_last_chain n _ _ C Harr) as C'.
  exists (clamp_last n (narrow w0 r)). split; [reflexivity|].
  assert (F3 : Forall2 same_arr (w0 :: r) (clamp_last n (narrow w0 r))) by (eapply forall2_trans_arr; eassumption).
  assert (F4 : Forall2 same_arr (w :: r) (clamp_last n (narrow w0 r))).
  { inversion F3 as [|? y ? l Hs Hl]; subst. constructor; [|exact Hl]. unfold same_arr, w0 in *. cbn [w_lo w_arr w_hi] in Hs.
    destruct (Z.ltb_spec (w_lo w) 0); lia. }
  destruct (forall2_rd _ _ _ F4) as [L R]. split; [symmetry; exact L|]. split; [|split; [|split]].
  - unfold windows_inside. apply Forall_forall. intros x Hx.
    pose proof (chain_proper _ _ C') as P. pose proof (chain_lo _ _ C') as Lo. pose proof (clamp_last_bound n _ _ C Harr) as Hi.
    rewrite Forall_forall in P, Lo, Hi. specialize (P x Hx). specialize (Lo x Hx). specialize (Hi x Hx). unfold proper in P.
    assert (0 <= w_lo w0) by (unfold w0; cbn; destruct (Z.ltb_spec (w_lo w) 0); lia). cbn beta in *. lia.
  - exact (chain_proper _ _ C').
  - intros i j a b. exact (chain_disjoint _ _ i j a b C').
  - intros i a b Ha Hb. destruct (R _ _ _ Ha Hb) as (E1 & E2 & E3). split; [congruence|]. split; assumption.
Qed.

(** With at least two samples between neighbouring arrivals and windows of at least a sample, the
    arrival sample itself belongs to the (half-open) window. *)
Lemma narrow_strict r : forall w, w_arr w < w_hi w -> Forall (fun x => w_arr x < w_hi x) r -> 0 <= w_arr w ->
  (forall i a b, rd (w :: r) i = Some a -> rd (w :: r) (i + 1) = Some b -> w_arr a + 2 <= w_arr b) ->
  Forall (fun x => w_arr x < w_hi x) (narrow w r).
Proof.
  induction r as [|w2 r IH]; intros w Hw Hr H0 Hd; cbn [narrow]; [constructor; [exact Hw|constructor]|].
  inversion Hr; subst. pose proof (Hd 0 w w2 eq_refl eq_refl) as D.
  pose proof (quot2 (w_arr w + w_arr w2) ltac:(lia)). constructor; [cbn; lia|].
  apply IH; [cbn; lia|assumption|cbn; lia|]. intros i a b Ha Hb.
  pose proof (rd_bounds _ _ _ _ Ha) as B. rewrite rd_cons in Ha. destruct (Z.eqb_spec i 0) as [->|Hi].
  - injection Ha as <-. cbn [w_arr]. destruct r as [|w3 r]; [rewrite rd_S in Hb by lia; rewrite rd_nil in Hb; discriminate|].
    rewrite rd_S in Hb by lia. apply (Hd 1 w2 b); [reflexivity|]. change (1 + 1) with (0 + 1 + 1). rewrite !rd_S by lia. exact Hb.
  - rewrite rd_S in Hb by lia. apply (Hd (i + 1) a b).
    + rewrite rd_S by lia. rewrite rd_cons. destruct (Z.eqb_spec i 0); [lia|]. exact Ha.
    + rewrite !rd_S by lia. exact Hb.
Qed.

Lemma clamp_last_strict n ws : Forall (fun x => w_arr x < w_hi x) ws -> Forall (fun x => w_arr x < n) ws ->
  Forall (fun x => w_arr x < w_hi x) (clamp_last n ws).
Proof.
  induction ws as [|w r IH]; intros H1 H2; [constructor|]. inversion H1; subst. inversion H2; subst. destruct r as [|w2 r].
  - cbn [clamp_last]. constructor; [|constructor]. cbn. destruct (Z.ltb_spec n (w_hi w)); lia.
  - change (clamp_last n (w :: w2 :: r)) with (w :: clamp_last n (w2 :: r)). constructor; [assumption|]. apply IH; assumption.
Qed.

(** * Peaks *)
Lemma Qle_bool_false x y : Qle_bool x y = false -> (y < x)%Q.
Proof. intros H. apply Qnot_le_lt. intros C. apply Qle_bool_iff in C. congruence. Qed.
Lemma Qlt_bool_false x y : (y < x)%Q -> Qle_bool x y = false.
Proof. intros H. destruct (Qle_bool x y) eqn:E; [|reflexivity]. apply Qle_bool_iff in E. lra. Qed.

(** First of the largest values. *)
Definition first_max (l : list Q) (k : Z) : Prop :=
  exists v, rd l k = Some v /\ (forall i w, rd l i = Some w -> (w <= v)%Q) /\ (forall i w, i < k -> rd l i = Some w -> (w < v)%Q).

Lemma argmax_q_from_ok l : forall i best bv pre,
  i = Z.of_nat (length pre) -> rd pre best = Some bv ->
  (forall j w, rd pre j = Some w -> (w <= bv)%Q) -> (forall j w, j < best -> rd pre j = Some w -> (w < bv)%Q) ->
  first_max (pre ++ l) (argmax_q_from i best bv l).
Proof.
  induction l as [|v l IH]; intros i best bv pre Ei Hb Hle Hlt; cbn [argmax_q_from].
  - rewrite app_nil_r. exists bv. auto.
  - replace (pre ++ v :: l) with ((pre ++ [v]) ++ l) by (rewrite <- app_assoc; reflexivity).
    assert (Hlen : Z.of_nat (length (pre ++ [v])) = i + 1) by (rewrite app_length; cbn; lia).
    assert (Hv : forall j w, rd (pre ++ [v]) j = Some w -> (j = i /\ w = v) \/ rd pre j = Some w).
    { intros j w Hj. pose proof (rd_bounds _ _ _ _ Hj) as B. rewrite Hlen in B.
      destruct (Z.lt_ge_cases j i) as [H|H]; [rewrite rd_app1 in Hj by lia; right; exact Hj|].
      assert (j = i) by lia. subst j. rewrite rd_app2 in Hj by lia. rewrite Ei, Z.sub_diag, rd_0 in Hj.
      left. split; [reflexivity|congruence]. }
    pose proof (rd_bounds _ _ _ _ Hb) as Bb.
    destruct (Qle_bool v bv) eqn:E.
    + apply Qle_bool_iff in E. apply IH; [lia|rewrite rd_app1 by lia; exact Hb| |].
      * intros j w Hj. destruct (Hv _ _ Hj) as [[_ ->]|H]; [exact E|apply (Hle _ _ H)].
      * intros j w Hl Hj. destruct (Hv _ _ Hj) as [[-> _]|H]; [lia|apply (Hlt _ _ Hl H)].
    + apply Qle_bool_false in E. apply IH; [lia|rewrite rd_app2 by lia; rewrite Ei, Z.sub_diag; reflexivity| |].
      * intros j w Hj. destruct (Hv _ _ Hj) as [[_ ->]|H]; [lra|specialize (Hle _ _ H); lra].
      * intros j w Hl Hj. destruct (Hv _ _ Hj) as [[-> _]|H]; [lia|specialize (Hle _ _ H); lra].
Qed.
Lemma argmax_q_ok l : l <> [] -> first_max l (argmax_q l).
Proof.
  destruct l as [|v l]; [congruence|]. intros _. apply (argmax_q_from_ok l 1 0 v [v]); [reflexivity|reflexivity| |].
  - intros j w H. apply rd_in in H. destruct H as [->|[]]. lra.
  - intros j w Hj H. apply rd_bounds in H. lia.
Qed.
Lemma first_max_unique l j k : first_max l j -> first_max l k -> j = k.
Proof.
  intros (v & Hv & A1 & A2) (w & Hw & B1 & B2). destruct (Z.lt_trichotomy j k) as [H|[H|H]]; [|exact H|].
  - specialize (B2 _ _ H Hv). specialize (A1 _ _ Hw). lra.
  - specialize (A2 _ _ H Hw). specialize (B1 _ _ Hv). lra.
Qed.

Lemma where_gen t l : forall lo i, In i (map fst (filter (fun iv => exceeds t (snd iv)) (combine (zseq lo (length l)) l)))
  <-> exists v, rd l (i - lo) = Some v /\ exceeds t v = true.
Proof.
  induction l as [|x l IH]; intros lo i; cbn [length zseq combine filter].
  - cbn. split; [intros []|]. intros (v & H & _). rewrite rd_nil in H. discriminate.
  - assert (E : forall v, rd (x :: l) (i - lo) = Some v <-> (i = lo /\ v = x) \/ rd l (i - (lo + 1)) = Some v).
    { intros v. rewrite rd_cons. destruct (Z.eqb_spec (i - lo) 0) as [E|E].
      - split; [intros [= <-]; left; split; [lia|reflexivity]|]. intros [[_ ->]|H]; [reflexivity|].
        apply rd_bounds in H. lia.
      - replace (i - lo - 1) with (i - (lo + 1)) by lia. split; [intros H; right; exact H|]. intros [[H _]|H]; [lia|exact H]. }
    cbn [snd]. destruct (exceeds t x) eqn:Ex; cbn [map In fst].
    + rewrite IH. split.
      * intros [<-|(v & Hv & Hx)]; [exists x; split; [apply E; left; auto|exact Ex]|exists v; split; [apply E; right; exact Hv|exact Hx]].
      * intros (v & Hv & Hx). apply E in Hv. destruct Hv as [[-> ->]|Hv]; [left; reflexivity|right; exists v; auto].
    + rewrite IH. split.
      * intros (v & Hv & Hx). exists v. split; [apply E; right; exact Hv|exact Hx].
      * intros (v & Hv & Hx). apply E in Hv. destruct Hv as [[-> ->]|Hv]; [congruence|exists v; auto].
Qed.

(** Strictly increasing lists. *)
Fixpoint inc (b : Z) (l : list Z) : Prop := match l with [] => True | x :: r => b < x /\ inc x r end.
Lemma inc_weaken l : forall a b, a <= b -> inc b l -> inc a l.
Proof. destruct l; cbn; intros; [exact I|]. intuition lia. Qed.
Lemma inc_in l : forall b x, inc b l -> In x l -> b < x.
Proof. induction l as [|y l IH]; intros b x H Hx; [destruct Hx|]. destruct H as [H1 H2]. destruct Hx as [->|Hx]; [exact H1|]. specialize (IH _ _ H2 Hx). lia. Qed.
Lemma inc_app l1 : forall b l2, inc b (l1 ++ l2) -> inc b l1 /\ (forall x y, In x l1 -> In y l2 -> x < y).
Proof.
  induction l1 as [|a l1 IH]; intros b l2 H; [split; [exact I|intros x y []]|]. destruct H as [H1 H2].
  destruct (IH _ _ H2) as [I1 I2]. split; [split; assumption|]. intros x y [<-|Hx] Hy.
  - apply (inc_in _ _ _ H2). apply in_or_app. right. exact Hy.
  - apply I2; assumption.
Qed.
Lemma where_inc t l : forall lo, inc (lo - 1) (map fst (filter (fun iv => exceeds t (snd iv)) (combine (zseq lo (length l)) l))).
Proof.
  induction l as [|x l IH]; intros lo; cbn [length zseq combine filter]; [exact I|].
  specialize (IH (lo + 1)). replace (lo + 1 - 1) with lo in IH by lia. cbn [snd].
  destruct (exceeds t x); cbn [map fst inc]; [split; [lia|exact IH]|]. apply (inc_weaken _ _ lo); [lia|exact IH].
Qed.

Lemma split_runs_ok l : forall b, inc b l -> l <> [] ->
  concat (split_runs l) = l /\
  Forall (fun g => exists s m, g = zseq s (S m) /\ (forall i, s <= i <= s + Z.of_nat m -> In i l)
                   /\ ~ In (s - 1) l /\ ~ In (s + Z.of_nat (S m)) l) (split_runs l).
Proof.
  induction l as [|x r IH]; intros b Hi Hne; [congruence|]. destruct Hi as [Hbx Hi]. cbn [split_runs].
  assert (Hx1 : ~ In (x - 1) (x :: r)).
  { intros [H|H]; [lia|]. apply (inc_in _ _ _ Hi) in H. lia. }
  destruct r as [|y0 r0].
  { cbn. split; [reflexivity|]. constructor; [|constructor]. exists x, 0%nat. split; [reflexivity|].
    split; [intros i H; left; lia|]. split; [exact Hx1|]. intros [H|[]]. lia. }
  destruct (IH x Hi ltac:(discriminate)) as [Hc Hg]. set (r := y0 :: r0) in *.
  destruct (split_runs r) as [|g gs] eqn:Er; [unfold r in Hc; discriminate Hc|].
  inversion Hg as [|g' gs' Hg0 Hgs]; subst g' gs'. destruct Hg0 as (s & m & Eg & Hin & Hb & He).
  assert (Hs : zseq s (S m) = s :: zseq (s + 1) m) by reflexivity.
  assert (Hcat : r = s :: (zseq (s + 1) m ++ concat gs)).
  { rewrite <- Hc. cbn [concat]. rewrite Eg, Hs. reflexivity. }
  assert (Hsx : x < s) by (apply (inc_in _ _ _ Hi); rewrite Hcat; left; reflexivity).
  assert (Hrs : forall z, In z r -> s <= z).
  { intros z Hz. rewrite Hcat in Hi, Hz. destruct Hi as [_ Hi']. destruct Hz as [->|Hz]; [lia|]. apply (inc_in _ _ _ Hi') in Hz. lia. }
  assert (Hlater : forall s' m', In (zseq s' (S m')) gs -> s < s').
  { intros s' m' Hin'. rewrite Hcat in Hi. destruct Hi as [_ Hi']. apply (inc_in _ _ _ Hi').
    apply in_or_app. right. apply in_concat. exists (zseq s' (S m')). split; [exact Hin'|left; reflexivity]. }
  assert (Hgs' : Forall (fun g0 => exists s0 m0, g0 = zseq s0 (S m0) /\ (forall i, s0 <= i <= s0 + Z.of_nat m0 -> In i (x :: r))
                   /\ ~ In (s0 - 1) (x :: r) /\ ~ In (s0 + Z.of_nat (S m0)) (x :: r)) gs).
  { rewrite Forall_forall in Hgs |- *. intros g' Hg'. destruct (Hgs g' Hg') as (s' & m' & E' & H1 & H2 & H3).
    exists s', m'. split; [exact E'|]. subst g'. pose proof (Hlater _ _ Hg').
    split; [intros i Hi'; right; apply H1; exact Hi'|]. split; intros [H4|H4]; try lia; auto. }
  rewrite Eg, Hs. destruct (Z.eqb_spec s (x + 1)) as [E|E].
  - split; [cbn [concat]; cbn [app]; f_equal; rewrite Hcat; reflexivity|].
    constructor; [|exact Hgs']. exists x, (S m). split; [subst s; reflexivity|].
    split; [|split; [exact Hx1|]].
    + intros i Hii. destruct (Z.eq_dec i x) as [->|Hn]; [left; reflexivity|]. right. apply Hin. lia.
    + intros [H4|H4]; [lia|]. apply He. replace (s + Z.of_nat (S m)) with (x + Z.of_nat (S (S m))) by lia. exact H4.
  - split; [cbn [concat app]; f_equal; rewrite Hcat; reflexivity|].
    constructor; [|constructor; [|exact Hgs']].
    + exists x, 0%nat. split; [reflexivity|]. split; [intros i H; left; lia|]. split; [exact Hx1|].
      intros [H4|H4]; [lia|]. apply Hrs in H4. lia.
    + exists s, m. split; [reflexivity|]. split; [intros i Hii; right; apply Hin; exact Hii|].
      split; intros [H4|H4]; try lia; auto.
Qed.

Lemma run_with_ok k runs : (exists g, In g runs /\ In k g) -> In (run_with k runs) runs /\ In k (run_with k runs).
Proof.
  induction runs as [|g r IH]; intros (g0 & H1 & H2); [destruct H1|]. destruct r as [|g' r].
  - cbn. destruct H1 as [->|[]]. auto.
  - change (run_with k (g :: g' :: r)) with (if existsb (Z.eqb k) g then g else run_with k (g' :: r)).
    destruct (existsb (Z.eqb k) g) eqn:E.
    + apply existsb_exists in E. destruct E as (y & Hy & Ek). apply Z.eqb_eq in Ek. subst y. split; [left; reflexivity|exact Hy].
    + destruct IH as [I1 I2].
      * destruct H1 as [->|H1]; [|exists g0; auto]. exfalso.
        assert (existsb (Z.eqb k) g0 = true) by (apply existsb_exists; exists k; split; [exact H2|apply Z.eqb_refl]). congruence.
      * split; [right; exact I1|exact I2].
Qed.

Lemma last_zseq m : forall s d, last (zseq s m) d = if (m =? 0)%nat then d else s + Z.of_nat m - 1.
Proof.
  induction m as [|m IH]; intros s d; [reflexivity|]. cbn [zseq]. destruct m as [|m]; [cbn; lia|].
  specialize (IH (s + 1) d). cbn [zseq last] in *. cbn [Nat.eqb] in *. lia.
Qed.

Lemma exceeds_above l t i : (exists v, rd l i = Some v /\ exceeds (Some t) v = true) <-> above l t i.
Proof.
  unfold above, exceeds. split; intros (v & H1 & H2); exists v; (split; [exact H1|]).
  - apply Qle_bool_false. destruct (Qle_bool v t); [discriminate|reflexivity].
  - rewrite Qlt_bool_false by exact H2. reflexivity.
Qed.
Lemma in_where l t i : In i (where_exceeds (Some t) l) <-> above l t i.
Proof.
  unfold where_exceeds, zrange. rewrite Nat2Z.id, where_gen. rewrite Z.sub_0_r. apply exceeds_above.
Qed.

Lemma run_unique onset t lo hi k s e s' e' : run_around onset t lo hi k s e -> run_around onset t lo hi k s' e' -> s = s' /\ e = e'.
Proof.
  intros (A1 & A2 & A3 & A4 & A5 & A6) (B1 & B2 & B3 & B4 & B5 & B6). split.
  - destruct (Z.lt_trichotomy s s') as [H|[H|H]]; [|exact H|].
    + destruct B5 as [->|B5]; [lia|]. exfalso. apply B5, A4. lia.
    + destruct A5 as [->|A5]; [lia|]. exfalso. apply A5, B4. lia.
  - destruct (Z.lt_trichotomy e e') as [H|[H|H]]; [|exact H|].
    + destruct A6 as [->|A6]; [lia|]. exfalso. apply A6, B4. lia.
    + destruct B6 as [->|B6]; [lia|]. exfalso. apply B6, A4. lia.
Qed.

Lemma above_dec l t i : above l t i \/ ~ above l t i.
Proof.
  unfold above. destruct (rd l i) as [v|] eqn:E.
  - destruct (Qlt_le_dec t v) as [H|H]; [left; exists v; auto|]. right. intros (w & Ew & Hw). injection Ew as <-. lra.
  - right. intros (w & Ew & _). discriminate.
Qed.

Lemma find_peak_none l t : (forall i, ~ above l t i) -> find_peak l (Some t) = Raise NoOnsetPeak.
Proof.
  intros H. unfold find_peak. destruct (where_exceeds (Some t) l) as [|x r] eqn:E; [reflexivity|]. exfalso.
  apply (H x). apply in_where. rewrite E. left. reflexivity.
Qed.

Lemma find_peak_some l t : (exists i, above l t i) ->
  exists k s e, first_max l k /\ run_around l t 0 (Z.of_nat (length l)) k s e /\
  find_peak l (Some t) = if s + 2 <=? e then Ret (s, e) else Raise NoOnsetPeak.
Proof.
  intros (i & v & Hi & Hv). assert (Hne : l <> []) by (intros ->; rewrite rd_nil in Hi; discriminate).
  pose proof (argmax_q_ok l Hne) as Hk. set (k := argmax_q l) in *.
  assert (Ak : above l t k).
  { destruct Hk as (m & Em & Hm & _). exists m. split; [exact Em|]. specialize (Hm _ _ Hi). lra. }
  unfold find_peak. fold k.
  assert (Hw : forall j, In j (where_exceeds (Some t) l) <-> above l t j) by (intros j; apply in_where).
  assert (Hinc : inc (0 - 1) (where_exceeds (Some t) l)).
  { unfold where_exceeds, zrange. rewrite Nat2Z.id. apply where_inc. }
  set (W := where_exceeds (Some t) l) in *.
  assert (HW : W <> []) by (intros E; apply Hw in Ak; rewrite E in Ak; destruct Ak).
  destruct (split_runs_ok W _ Hinc HW) as [Hc Hg].
  destruct (run_with_ok k (split_runs W)) as [R1 R2].
  { apply Hw in Ak. rewrite <- Hc in Ak. apply in_concat in Ak. exact Ak. }
  rewrite Forall_forall in Hg. destruct (Hg _ R1) as (s & m & Eg & Hin & Hb & He).
  assert (Hks : s <= k < s + Z.of_nat (S m)) by (rewrite Eg in R2; apply in_zseq in R2; exact R2).
  exists k, s, (s + Z.of_nat (S m)). split; [exact Hk|]. split.
  - assert (B : forall j, s <= j < s + Z.of_nat (S m) -> above l t j) by (intros j Hj; apply Hw, Hin; lia).
    destruct (B s ltac:(lia)) as (v1 & E1 & _). destruct (B (s + Z.of_nat m) ltac:(lia)) as (v2 & E2 & _).
    apply rd_bounds in E1, E2. unfold run_around. split; [lia|]. split; [lia|]. split; [lia|]. split; [exact B|].
    split; right; rewrite <- Hw; assumption.
  - clearbody W. destruct W as [|x0 W']; [congruence|]. rewrite Eg.
    destruct m as [|m].
    + destruct (Z.leb_spec (s + 2) (s + Z.of_nat 1)); [lia|reflexivity].
    + destruct (Z.leb_spec (s + 2) (s + Z.of_nat (S (S m)))); [|lia].
      change (zseq s (S (S m))) with (s :: (s + 1) :: zseq (s + 1 + 1) m). cbv iota.
      f_equal. f_equal. change ((s + 1) :: zseq (s + 1 + 1) m) with (zseq (s + 1) (S m)). rewrite last_zseq. cbn [Nat.eqb]. lia.
Qed.

(** * The fit *)
Section Fit.
Variables (cf : list Z -> list Q -> outcome (Q * Q * Q)) (onset : list Q) (w : window).
Let n := Z.of_nat (length onset).
Hypothesis Hw : 0 <= w_lo w <= w_hi w.
Hypothesis Hn : w_hi w <= n.
Let sl := pyslice onset (Some (w_lo w)) (Some (w_hi w)).

Lemma slice_inside a b : 0 <= a <= b -> b <= n ->
  Z.of_nat (length (pyslice onset (Some a) (Some b))) = b - a
  /\ forall i, 0 <= i < b - a -> rd (pyslice onset (Some a) (Some b)) i = rd onset (a + i).
Proof.
  intros H1 H2. assert (E1 : pylo n (Some a) = a) by (cbn; unfold pynorm; destruct (Z.ltb_spec a 0); lia).
  assert (E2 : pyhi n (Some b) = b) by (cbn; unfold pynorm; destruct (Z.ltb_spec b 0); lia).
  split; [rewrite pyslice_length; fold n; rewrite E1, E2; lia|].
  intros i Hi. rewrite rd_pyslice by (fold n; rewrite E1, E2; lia). fold n. rewrite E1. reflexivity.
Qed.

Lemma slice_above t i : above sl t i <-> 0 <= i < w_hi w - w_lo w /\ above onset t (w_lo w + i).
Proof.
  destruct (slice_inside _ _ Hw Hn) as [L R]. fold sl in L, R. unfold above. split.
  - intros (v & E & Hv). pose proof (rd_bounds _ _ _ _ E) as B. rewrite R in E by lia. split; [lia|]. exists v. auto.
  - intros (B & v & E & Hv). exists v. rewrite R by lia. auto.
Qed.

Lemma fit_none t : (forall i, w_lo w <= i < w_hi w -> ~ above onset t i) -> fit_gaussian cf onset (Some t) w = Ret None.
Proof.
  intros H. unfold fit_gaussian. fold sl. rewrite find_peak_none; [reflexivity|].
  intros i Hi. apply slice_above in Hi. destruct Hi as [B Hi]. apply (H (w_lo w + i)); [lia|exact Hi].
Qed.
Lemma fit_nan : fit_gaussian cf onset None w = Ret None.
Proof.
  unfold fit_gaussian, find_peak, where_exceeds. rewrite filter_none; [reflexivity|]. intros x _. reflexivity.
Qed.

Lemma max_shift k : window_max onset (w_lo w) (w_hi w) k <-> first_max sl (k - w_lo w).
Proof.
  destruct (slice_inside _ _ Hw Hn) as [L R]. fold sl in L, R. unfold window_max, first_max. split.
  - intros (B & v & E & H1 & H2). exists v. split; [rewrite R by lia; replace (w_lo w + (k - w_lo w)) with k by lia; exact E|].
    split; intros i u.
    + intros Hi. pose proof (rd_bounds _ _ _ _ Hi) as Bi. rewrite R in Hi by lia. apply (H1 (w_lo w + i)); [lia|exact Hi].
    + intros Hl Hi. pose proof (rd_bounds _ _ _ _ Hi) as Bi. rewrite R in Hi by lia. apply (H2 (w_lo w + i)); [lia|exact Hi].
  - intros (v & E & H1 & H2). pose proof (rd_bounds _ _ _ _ E) as B. split; [lia|]. exists v.
    rewrite R in E by lia. replace (w_lo w + (k - w_lo w)) with k in E by lia. split; [exact E|]. split; intros i u Hi Eu.
    + apply (H1 (i - w_lo w)). rewrite R by lia. replace (w_lo w + (i - w_lo w)) with i by lia. exact Eu.
    + apply (H2 (i - w_lo w)); [lia|]. rewrite R by lia. replace (w_lo w + (i - w_lo w)) with i by lia. exact Eu.
Qed.
Lemma run_shift t k s e : run_around sl t 0 (Z.of_nat (length sl)) (k - w_lo w) (s - w_lo w) (e - w_lo w)
  <-> run_around onset t (w_lo w) (w_hi w) k s e.
Proof.
  destruct (slice_inside _ _ Hw Hn) as [L R]. fold sl in L, R. unfold run_around. rewrite L. split.
  - intros (A1 & A2 & A3 & A4 & A5 & A6). split; [lia|]. split; [lia|]. split; [lia|]. split; [|split].
    + intros i Hi. specialize (A4 (i - w_lo w) ltac:(lia)). apply slice_above in A4. destruct A4 as [_ A4].
      replace (w_lo w + (i - w_lo w)) with i in A4 by lia. exact A4.
    + destruct A5 as [A5|A5]; [left; lia|]. destruct (Z.eq_dec s (w_lo w)); [left; lia|]. right. intros C. apply A5. apply slice_above.
      split; [lia|]. replace (w_lo w + (s - w_lo w - 1)) with (s - 1) by lia. exact C.
    + destruct A6 as [A6|A6]; [left; lia|]. destruct (Z.eq_dec e (w_hi w)); [left; lia|]. right. intros C. apply A6. apply slice_above.
      split; [lia|]. replace (w_lo w + (e - w_lo w)) with e by lia. exact C.
  - intros (A1 & A2 & A3 & A4 & A5 & A6). split; [lia|]. split; [lia|]. split; [lia|]. split; [|split].
    + intros i Hi. apply slice_above. split; [lia|]. apply A4. lia.
    + destruct A5 as [A5|A5]; [left; lia|]. right. intros C. apply slice_above in C. destruct C as [_ C]. apply A5.
      replace (w_lo w + (s - w_lo w - 1)) with (s - 1) in C by lia. exact C.
    + destruct A6 as [A6|A6]; [left; lia|]. right. intros C. apply slice_above in C. destruct C as [_ C]. apply A6.
      replace (w_lo w + (e - w_lo w)) with e in C by lia. exact C.
Qed.

Lemma run_exists t : (exists i, w_lo w <= i < w_hi w /\ above onset t i) ->
  exists k s e, window_max onset (w_lo w) (w_hi w) k /\ run_around onset t (w_lo w) (w_hi w) k s e.
Proof.
  intros (i & Bi & Hi). destruct (find_peak_some sl t) as (k & s & e & Hk & Hr & _).
  { exists (i - w_lo w). apply slice_above. split; [lia|]. replace (w_lo w + (i - w_lo w)) with i by lia. exact Hi. }
  exists (w_lo w + k), (w_lo w + s), (w_lo w + e). split.
  - apply max_shift. replace (w_lo w + k - w_lo w) with k by lia. exact Hk.
  - apply run_shift. replace (w_lo w + k - w_lo w) with k by lia. replace (w_lo w + s - w_lo w) with s by lia.
    replace (w_lo w + e - w_lo w) with e by lia. exact Hr.
Qed.

Lemma find_peak_window t k s e : window_max onset (w_lo w) (w_hi w) k -> run_around onset t (w_lo w) (w_hi w) k s e ->
  find_peak sl (Some t) = if s + 2 <=? e then Ret (s - w_lo w, e - w_lo w) else Raise NoOnsetPeak.
Proof.
  intros Hk Hr. apply max_shift in Hk. apply run_shift in Hr.
  destruct (find_peak_some sl t) as (k' & s' & e' & Hk' & Hr' & E).
  { exists (k - w_lo w). destruct Hr as (_ & B & _ & A & _). apply A. lia. }
  pose proof (first_max_unique _ _ _ Hk Hk') as <-. destruct (run_unique _ _ _ _ _ _ _ _ _ Hr Hr') as [<- <-]. rewrite E.
  destruct (Z.leb_spec (s - w_lo w + 2) (e - w_lo w)), (Z.leb_spec (s + 2) e); try lia; reflexivity.
Qed.

(** What becomes of the outcome of curve_fit. *)
Definition accept (r : outcome (Q * Q * Q)) : outcome fit :=
  match r with
  | Ret (h, m, sg) => if Qlt_b (inject_Z (w_lo w)) m && Qlt_b m (inject_Z (w_hi w)) then Ret (Some (h, m, Qabs.Qabs sg)) else Ret None
  | Raise ValueError | Raise RuntimeError => Ret None
  | Raise TypeError => Raise NameError
  | Raise e => Raise e
  | Undef => Undef
  end.

Lemma fit_run t k s e : window_max onset (w_lo w) (w_hi w) k -> run_around onset t (w_lo w) (w_hi w) k s e -> 1 <= s ->
  (s + 2 <= e -> e < n -> fit_gaussian cf onset (Some t) w
     = accept (cf (zseq (s - 1) (Z.to_nat (e - s + 2))) (pyslice onset (Some (s - 1)) (Some (e + 1)))))
  /\ (e < s + 2 \/ e = n -> fit_gaussian cf onset (Some t) w = Ret None).
Proof.
  intros Hk Hr Hs. pose proof (find_peak_window t k s e Hk Hr) as E. unfold fit_gaussian. fold sl. rewrite E.
  destruct Hr as (A1 & A2 & A3 & _). destruct (Z.leb_spec (s + 2) e) as [Hl|Hl]; [|split; [lia|reflexivity]].
  replace (w_lo w + (s - w_lo w - 1)) with (s - 1) by lia. replace (w_lo w + (e - w_lo w + 1)) with (e + 1) by lia.
  replace (e + 1 - (s - 1)) with (e - s + 2) by lia. cbv zeta. rewrite zseq_length.
  split; intros He.
  - intros He'. destruct (slice_inside (s - 1) (e + 1) ltac:(lia) ltac:(lia)) as [L _].
    destruct (pyslice onset (Some (s - 1)) (Some (e + 1))) as [|y0 y] eqn:Ey; [cbn in L; lia|]. rewrite <- Ey in *.
    rewrite L. destruct (Z.eqb_spec (Z.of_nat (Z.to_nat (e - s + 2))) (e + 1 - (s - 1))); [|lia]. reflexivity.
  - assert (e = n) by lia. subst e.
    assert (L : Z.of_nat (length (pyslice onset (Some (s - 1)) (Some (n + 1)))) = n - (s - 1)).
    { rewrite pyslice_length. fold n. cbn [pylo pyhi]. unfold pynorm. destruct (Z.ltb_spec (s - 1) 0), (Z.ltb_spec (n + 1) 0); lia. }
    destruct (pyslice onset (Some (s - 1)) (Some (n + 1))) as [|y0 y] eqn:Ey; [cbn in L; lia|]. rewrite <- Ey in *.
    rewrite L. destruct (Z.eqb_spec (Z.of_nat (Z.to_nat (n - s + 2))) (n - (s - 1))); [lia|]. reflexivity.
Qed.

(** A peak that starts at the first sample of the array. *)
Lemma fit_run_start t k e : window_max onset (w_lo w) (w_hi w) k -> run_around onset t (w_lo w) (w_hi w) k 0 e -> 2 <= e ->
  fit_gaussian cf onset (Some t) w = if e + 1 <? n then Raise ValueError else Ret None.
Proof.
  intros Hk Hr Hs. pose proof (find_peak_window t k 0 e Hk Hr) as E. unfold fit_gaussian. fold sl. rewrite E.
  destruct Hr as (A1 & A2 & A3 & _). destruct (Z.leb_spec (0 + 2) e) as [Hl|Hl]; [|lia].
  assert (w_lo w = 0) as -> by lia. replace (0 + (0 - 0 - 1)) with (-1) by lia. replace (0 + (e - 0 + 1)) with (e + 1) by lia.
  cbv zeta. rewrite zseq_length.
  assert (L : Z.of_nat (length (pyslice onset (Some (-1)) (Some (e + 1)))) = Z.max 0 (Z.min n (e + 1) - (n - 1))).
  { rewrite pyslice_length. fold n. cbn [pylo pyhi]. unfold pynorm. change (-1 <? 0) with true.
    destruct (Z.ltb_spec (e + 1) 0); lia. }
  destruct (pyslice onset (Some (-1)) (Some (e + 1))) as [|y0 y] eqn:Ey.
  - cbn in L. destruct (Z.ltb_spec (e + 1) n); [reflexivity|lia].
  - rewrite <- Ey in *. rewrite L. assert (Z.of_nat (length (y0 :: y)) >= 1) by (cbn; lia). rewrite <- Ey in H.
    destruct (Z.ltb_spec (e + 1) n); [lia|].
    destruct (Z.eqb_spec (Z.of_nat (Z.to_nat (e + 1 - -1))) (Z.max 0 (Z.min n (e + 1) - (n - 1)))); [lia|]. reflexivity.
Qed.
End Fit.

(** * Threshold *)
Lemma in_dec_windows ws i : in_windows ws i \/ ~ in_windows ws i.
Proof.
  induction ws as [|x ws IH]; [right; intros (w & [] & _)|].
  destruct IH as [(y & Hy & By)|IH]; [left; exists y; split; [right; exact Hy|exact By]|].
  destruct (Z.leb_spec (w_lo x) i); [destruct (Z.ltb_spec i (w_hi x))|]; try (left; exists x; split; [left; reflexivity|lia]; fail);
  (right; intros (y & [<-|Hy] & By); [lia|apply IH; exists y; auto]).
Qed.
Lemma fill_windows (v : Q) ws : forall onset : list Q, windows_inside (Z.of_nat (length onset)) ws ->
  let l := fold_left (fun l w => pyfill l (Some (w_lo w)) (Some (w_hi w)) v) ws onset in
  length l = length onset /\ forall i, 0 <= i < Z.of_nat (length onset) ->
    (in_windows ws i -> rd l i = Some v) /\ (~ in_windows ws i -> rd l i = rd onset i).
Proof.
  induction ws as [|w ws IH]; intros onset Hin; cbv zeta; cbn [fold_left].
  - split; [reflexivity|]. intros i Hi. split; [intros (w & [] & _)|reflexivity].
  - inversion Hin as [|? ? Hw Hws]; subst. set (o := pyfill onset (Some (w_lo w)) (Some (w_hi w)) v).
    assert (Lo : length o = length onset) by apply pyfill_length.
    destruct (IH o) as [L R]; [rewrite Lo; exact Hws|]. rewrite Lo in *. split; [exact L|].
    intros i Hi. specialize (R i Hi). destruct R as [R1 R2].
    assert (Ro : rd o i = if (w_lo w <=? i) && (i <? w_hi w) then Some v else rd onset i).
    { unfold o. rewrite rd_pyfill. cbn [pylo pyhi]. unfold pynorm.
      destruct (Z.ltb_spec (w_lo w) 0), (Z.ltb_spec (w_hi w) 0); try lia.
      rewrite !Z.min_l by lia. reflexivity. }
    pose proof (in_dec_windows ws i) as Dec.
    split.
    + intros (x & [<-|Hx] & Bx).
      * destruct Dec as [D|D]; [apply R1, D|]. rewrite (R2 D), Ro.
        destruct (Z.leb_spec (w_lo w) i), (Z.ltb_spec i (w_hi w)); cbn; try lia; reflexivity.
      * apply R1. exists x. auto.
    + intros C. rewrite R2 by (intros (x & Hx & Bx); apply C; exists x; split; [right; exact Hx|exact Bx]).
      rewrite Ro. destruct (Z.leb_spec (w_lo w) i), (Z.ltb_spec i (w_hi w)); cbn; try reflexivity.
      exfalso. apply C. exists w. split; [left; reflexivity|lia].
Qed.

Lemma noise_in onset ws v : windows_inside (Z.of_nat (length onset)) ws ->
  In v (onset_noise onset ws) <-> exists k, rd onset k = Some v /\ ~ in_windows ws k /\ (1 < v)%Q.
Proof.
  intros Hin. destruct (fill_windows (-1 # 1) ws onset Hin) as [L R]. unfold onset_noise. rewrite filter_In.
  set (l := fold_left _ ws onset) in *. split.
  - intros [Hi Hv]. apply in_rd in Hi. destruct Hi as [k Hk]. pose proof (rd_bounds _ _ _ _ Hk) as B.
    assert (1 < v)%Q by (apply Qle_bool_false; destruct (Qle_bool v 1); [discriminate|reflexivity]).
    destruct (R k ltac:(lia)) as [R1 R2].
    assert (C : ~ in_windows ws k). { intros C. specialize (R1 C). rewrite Hk in R1. injection R1 as ->. discriminate. }
    exists k. rewrite (R2 C) in Hk. auto.
  - intros (k & Hk & C & Hv). pose proof (rd_bounds _ _ _ _ Hk) as B. split.
    + apply (rd_in _ _ k). destruct (R k ltac:(lia)) as [_ R2]. rewrite (R2 C). exact Hk.
    + rewrite Qlt_bool_false by exact Hv. reflexivity.
Qed.

Lemma noise_ext o o' ws : windows_inside (Z.of_nat (length o)) ws -> length o = length o' ->
  (forall k, ~ in_windows ws k -> rd o k = rd o' k) -> onset_noise o ws = onset_noise o' ws.
Proof.
  intros Hin Hl H. destruct (fill_windows (-1 # 1) ws o Hin) as [L R].
  destruct (fill_windows (-1 # 1) ws o') as [L' R']; [rewrite <- Hl; exact Hin|]. unfold onset_noise. f_equal.
  apply rd_ext_opt. intros i. destruct (Z.lt_ge_cases i 0) as [Hi|Hi]; [rewrite !rd_none by lia; reflexivity|].
  destruct (Z.lt_ge_cases i (Z.of_nat (length o))) as [Hi'|Hi']; [|rewrite !rd_none by lia; reflexivity].
  destruct (R i ltac:(lia)) as [R1 R2]. destruct (R' i ltac:(lia)) as [R1' R2'].
  destruct (in_dec_windows ws i) as [D|D]; [rewrite (R1 D), (R1' D); reflexivity|].
  rewrite (R2 D), (R2' D). apply H, D.
Qed.

Lemma Qmin_exists (l : list Q) : l <> [] -> exists m, In m l /\ Forall (fun y => m <= y)%Q l.
Proof.
  induction l as [|x l IH]; [congruence|]. intros _. destruct l as [|y l].
  - exists x. split; [left; reflexivity|]. constructor; [lra|constructor].
  - destruct IH as (m & Hm & F); [discriminate|]. destruct (Qlt_le_dec x m) as [H|H].
    + exists x. split; [left; reflexivity|]. constructor; [lra|]. eapply Forall_impl; [|exact F]. intros a Ha. cbn beta in *. lra.
    + exists m. split; [right; exact Hm|]. constructor; [exact H|exact F].
Qed.

Lemma percentile_range l p x y : l <> [] -> (0 <= p <= 1)%Q -> (forall v, In v l -> (x <= v <= y)%Q) -> (x <= percentile l p <= y)%Q.
Proof.
  intros Hl [Hp0 Hp1] H. destruct (sort_q_ok l) as [P _]. unfold percentile. set (s := sort_q l) in *.
  assert (Hlen : (0 < length s)%nat) by (rewrite (Permutation.Permutation_length P); destruct l; [congruence|cbn; lia]).
  assert (Hs : forall j, (j < length s)%nat -> (x <= nth j s 0 <= y)%Q).
  { intros j Hj. apply H. eapply Permutation.Permutation_in; [exact P|]. apply nth_In. exact Hj. }
  set (N := Z.of_nat (length s)) in *. set (v := (p * inject_Z (N - 1))%Q).
  assert (HN : (0 <= inject_Z (N - 1))%Q) by (change 0%Q with (inject_Z 0); rewrite <- Zle_Qle; unfold N; lia).
  assert (Hv0 : (0 <= v)%Q) by (unfold v; apply Qmult_le_0_compat; assumption).
  assert (Hv1 : (v <= inject_Z (N - 1))%Q) by (unfold v; setoid_replace (inject_Z (N - 1)) with (1 * inject_Z (N - 1))%Q at 2 by ring; apply Qmult_le_compat_r; assumption).
  assert (F0 : 0 <= Qfloor v) by (change 0 with (Qfloor (inject_Z 0)); apply Qfloor_resp_le; exact Hv0).
  assert (F1 : Qfloor v <= N - 1) by (rewrite <- (Qfloor_Z (N - 1)); apply Qfloor_resp_le; exact Hv1).
  pose proof (Qfloor_le v) as G0. pose proof (Qlt_floor v) as G1.
  replace (Z.max 0 (Z.min (N - 1) (Qfloor v))) with (Qfloor v) by lia. set (i := Qfloor v) in *.
  rewrite inject_Z_plus in G1. change (inject_Z 1) with 1%Q in G1.
  pose proof (Hs (Z.to_nat i) ltac:(unfold N in *; lia)) as Ha.
  pose proof (Hs (Z.to_nat (Z.min (N - 1) (i + 1))) ltac:(unfold N in *; lia)) as Hb.
  set (a := nth (Z.to_nat i) s 0%Q) in *. set (b := nth (Z.to_nat (Z.min (N - 1) (i + 1))) s 0%Q) in *.
  set (f := (v - inject_Z i)%Q) in *. assert (Hf : (0 <= f /\ f <= 1)%Q) by (unfold f; split; lra).
  assert (M1 : (0 <= f * (b - x))%Q) by (apply Qmult_le_0_compat; lra).
  assert (M2 : (0 <= (1 - f) * (a - x))%Q) by (apply Qmult_le_0_compat; lra).
  assert (M3 : (0 <= f * (y - b))%Q) by (apply Qmult_le_0_compat; lra).
  assert (M4 : (0 <= (1 - f) * (y - a))%Q) by (apply Qmult_le_0_compat; lra).
  split; lra.
Qed.

Lemma threshold_above onset ws m t : find_pick_threshold onset ws m = Some t ->
  match m with Percentile p => (0 <= p <= 1)%Q | MadMultiple k => (0 <= k)%Q end -> (1 < t)%Q.
Proof.
  unfold find_pick_threshold. destruct (onset_noise onset ws) as [|x r] eqn:E; [discriminate|]. intros H Hm. injection H as <-.
  assert (Hn : forall v, In v (x :: r) -> (1 < v)%Q).
  { rewrite <- E. unfold onset_noise. intros v Hv. apply filter_In in Hv. destruct Hv as [_ Hv].
    apply Qle_bool_false. destruct (Qle_bool v 1); [discriminate|reflexivity]. }
  destruct (Qmin_exists (x :: r)) as (mn & Hmn & F); [discriminate|]. specialize (Hn mn Hmn). destruct m as [p|k].
  - destruct (sort_q_ok (x :: r)) as [P _].
    assert (exists mx, forall v, In v (x :: r) -> (v <= mx)%Q) as [mx Hmx].
    { generalize (x :: r) as l. clear. induction l as [|a l [b IH]]; [exists 0%Q; intros v []|].
      destruct (Qlt_le_dec a b); [exists b|exists a]; intros v [<-|Hv]; try lra; specialize (IH v Hv); lra. }
    destruct (percentile_range (x :: r) p mn mx) as [G _]; [discriminate|exact Hm| |lra].
    intros v Hv. rewrite Forall_forall in F. split; [apply F, Hv|apply Hmx, Hv].
  - assert (mn <= median (x :: r))%Q by (apply (median_ge _ (x :: r)); [discriminate|apply median_ok|exact F]).
    assert (0 <= calculate_mad (x :: r))%Q by (apply (mad_nonneg (x :: r)); [discriminate|apply mad_ok]).
    assert (0 <= calculate_mad (x :: r) * k)%Q by (apply Qmult_le_0_compat; assumption). lra.
Qed.

(** * Picks *)
Lemma outcome_map_ok {A B} (f : A -> outcome B) l : forall ys, outcome_map f l = Ret ys ->
  length ys = length l /\ forall i x, rd l i = Some x -> exists y, f x = Ret y /\ rd ys i = Some y.
Proof.
  induction l as [|x l IH]; intros ys H; cbn [outcome_map] in H.
  - injection H as <-. split; [reflexivity|]. intros i x Hi. rewrite rd_nil in Hi. discriminate.
  - destruct (f x) as [y| |] eqn:Ef; cbn [bind] in H; try discriminate.
    destruct (outcome_map f l) as [ys'| |] eqn:El; cbn [bind] in H; try discriminate. injection H as <-.
    destruct (IH ys' eq_refl) as [L R]. split; [cbn; lia|]. intros i z Hi. rewrite rd_cons in Hi |- *.
    destruct (i =? 0); [injection Hi as <-; exists y; auto|apply (R _ _ Hi)].
Qed.
Lemma outcome_map_total {A B} (f : A -> outcome B) l : (forall x, In x l -> exists y, f x = Ret y) -> exists ys, outcome_map f l = Ret ys.
Proof.
  induction l as [|x l IH]; intros H; cbn [outcome_map]; [eexists; reflexivity|].
  destruct (H x (or_introl eq_refl)) as [y ->]. destruct IH as [ys ->]; [intros z Hz; apply H; right; exact Hz|]. eexists. reflexivity.
Qed.
Lemma outcome_map_map {A B C} (f : A -> outcome B) (h : B -> C) (g : A -> C) l : forall ys, outcome_map f l = Ret ys ->
  (forall x y, f x = Ret y -> h y = g x) -> map h ys = map g l.
Proof.
  induction l as [|x l IH]; intros ys H Hg; cbn [outcome_map] in H; [injection H as <-; reflexivity|].
  destruct (f x) as [y| |] eqn:Ef; cbn [bind] in H; try discriminate.
  destruct (outcome_map f l) as [ys'| |] eqn:El; cbn [bind] in H; try discriminate. injection H as <-.
  cbn [map]. rewrite (Hg _ _ Ef), (IH ys' eq_refl Hg). reflexivity.
Qed.

Lemma rd_combine {A B} (l : list A) : forall (l' : list B) i x y, rd l i = Some x -> rd l' i = Some y -> rd (combine l l') i = Some (x, y).
Proof.
  induction l as [|a l IH]; intros l' i x y Hx Hy; [rewrite rd_nil in Hx; discriminate|].
  destruct l' as [|b l']; [rewrite rd_nil in Hy; discriminate|]. cbn [combine]. rewrite rd_cons in *.
  destruct (i =? 0); [injection Hx as <-; injection Hy as <-; reflexivity|]. apply IH; assumption.
Qed.

Lemma accept_in w r h m sg : accept w r = Ret (Some (h, m, sg)) ->
  (inject_Z (w_lo w) < m)%Q /\ (m < inject_Z (w_hi w))%Q /\ (0 <= sg)%Q.
Proof.
  unfold accept. destruct r as [[[h0 m0] s0]|e|]; [|destruct e; discriminate|discriminate].
  unfold Qlt_b. destruct (Qle_bool m0 (inject_Z (w_lo w))) eqn:E1; [discriminate|].
  destruct (Qle_bool (inject_Z (w_hi w)) m0) eqn:E2; [discriminate|]. cbn [negb andb]. intros H.
  assert (E : (h, m, sg) = (h0, m0, Qabs.Qabs s0)) by congruence. injection E as -> -> ->.
  split; [apply Qle_bool_false, E1|]. split; [apply Qle_bool_false, E2|apply Qabs.Qabs_nonneg].
Qed.
Lemma fit_in cf onset t w h m sg : fit_gaussian cf onset t w = Ret (Some (h, m, sg)) ->
  (inject_Z (w_lo w) < m)%Q /\ (m < inject_Z (w_hi w))%Q /\ (0 <= sg)%Q.
Proof.
  unfold fit_gaussian. destruct (find_peak _ _) as [[p0 p1]|e|]; [|destruct e; discriminate|discriminate].
  cbv zeta. destruct (pyslice onset _ _) as [|y0 y] eqn:Ey; [discriminate|]. rewrite <- Ey. apply (accept_in w).
Qed.

Lemma narrow_length r : forall w, length (narrow w r) = S (length r).
Proof. induction r as [|w2 r IH]; intros w; cbn [narrow]; [reflexivity|]. cbn [length]. rewrite IH. reflexivity. Qed.
Lemma clamp_last_length n ws : length (clamp_last n ws) = length ws.
Proof. symmetry. apply (forall2_rd same_arr). apply clamp_last_arr. Qed.
Lemma distinguish_length ws n ws' : distinguish_windows ws n = Ret ws' -> length ws' = length ws.
Proof.
  destruct ws as [|w r]; [discriminate|]. cbn [distinguish_windows]. intros H. injection H as <-.
  rewrite clamp_last_length, narrow_length. reflexivity.
Qed.
Lemma map_fst_combine {A B} (l : list A) : forall (l' : list B), length l = length l' -> map fst (combine l l') = l.
Proof. induction l as [|a l IH]; intros [|b l'] H; cbn in *; try discriminate; [reflexivity|]. f_equal. apply IH. lia. Qed.

Lemma pick_station_rows cf m c otime starttime mw station phases rows :
  pick_station cf m c otime starttime mw station phases = Ret rows ->
  map (fun r => (p_station r, p_phase r, p_model r)) rows = map (fun p => (station, ph_name p, otime + ph_tt p)) phases.
Proof.
  unfold pick_station. destruct (station_windows _ _ _ _ _) as [ws| |] eqn:Ew; cbn [bind]; try discriminate.
  intros H. apply distinguish_length in Ew. rewrite map_length in Ew.
  rewrite (outcome_map_map _ _ (fun pw : phase_data * window => (station, ph_name (fst pw), otime + ph_tt (fst pw))) _ _ H).
  - rewrite <- (map_fst_combine phases ws) at 2 by lia. rewrite map_map. reflexivity.
  - intros [p w] y E. cbn [fst snd] in *. destruct (fit_gaussian _ _ _ _); cbn [bind] in E; try discriminate.
    injection E as <-. reflexivity.
Qed.

Lemma pick_station_row cf m c otime starttime mw station phases rows ws :
  pick_station cf m c otime starttime mw station phases = Ret rows -> station_windows c otime starttime mw phases = Ret ws ->
  forall i r, rd rows i = Some r -> exists p w f, rd phases i = Some p /\ rd ws i = Some w
    /\ fit_gaussian cf (ph_onset p) (find_pick_threshold (ph_onset p) ws m) w = Ret f
    /\ r = pick_row_of c otime starttime station p f.
Proof.
  unfold pick_station. intros H Ew i r Hr. rewrite Ew in H. cbn [bind] in H.
  assert (Lw : length ws = length phases) by (apply distinguish_length in Ew; rewrite map_length in Ew; exact Ew).
  destruct (outcome_map_ok _ _ _ H) as [L R]. rewrite combine_length in L. pose proof (rd_bounds _ _ _ _ Hr) as B.
  destruct (rd_in_range _ phases i) as [p Hp]; [lia|]. destruct (rd_in_range _ ws i) as [w Hw]; [lia|].
  destruct (R i (p, w)) as (y & Ey & Hy); [apply rd_combine; assumption|]. cbn [fst snd] in Ey.
  destruct (fit_gaussian _ _ _ _) as [f| |] eqn:Ef; cbn [bind] in Ey; try discriminate.
  exists p, w, f. split; [exact Hp|]. split; [exact Hw|]. split; [exact Ef|]. congruence.
Qed.

Lemma pick_phases_rows cf m c otime starttime mw onsets : forall rows,
  pick_phases cf m c otime starttime mw onsets = Ret rows ->
  map (fun r => (p_station r, p_phase r, p_model r)) rows
  = concat (map (fun so : string * list phase_data => map (fun p => (fst so, ph_name p, otime + ph_tt p)) (snd so)) onsets).
Proof.
  unfold pick_phases. induction onsets as [|[st ph] r IH]; intros rows H; cbn [outcome_map bind] in H.
  - injection H as <-. reflexivity.
  - cbn [fst snd] in H. destruct (pick_station _ _ _ _ _ _ st ph) as [rs| |] eqn:E; cbn [bind] in H; try discriminate.
    destruct (outcome_map _ r) as [rr| |] eqn:Er; cbn [bind] in H; try discriminate. injection H as <-.
    cbn [concat map fst snd]. rewrite map_app, (pick_station_rows _ _ _ _ _ _ _ _ _ E). f_equal. apply IH. reflexivity.
Qed.

Lemma find_peak_none_dec onset t w : 0 <= w_lo w <= w_hi w -> w_hi w <= Z.of_nat (length onset) ->
  (forall i, w_lo w <= i < w_hi w -> ~ above onset t i) \/ (exists i, w_lo w <= i < w_hi w /\ above onset t i).
Proof.
  intros Hw Hn. destruct (where_exceeds (Some t) (pyslice onset (Some (w_lo w)) (Some (w_hi w)))) as [|x r] eqn:E.
  - left. intros i Hi A. assert (C : In (i - w_lo w) []); [|destruct C]. rewrite <- E. apply in_where.
    apply slice_above; [exact Hw|exact Hn|]. split; [lia|]. replace (w_lo w + (i - w_lo w)) with i by lia. exact A.
  - right. assert (C : In x (x :: r)) by (left; reflexivity). rewrite <- E in C. apply in_where in C.
    apply slice_above in C; [|exact Hw|exact Hn]. exists (w_lo w + x). split; [lia|apply C].
Qed.
Lemma fit_total cf onset t w : fails_softly cf -> 0 <= w_lo w <= w_hi w -> w_hi w <= Z.of_nat (length onset) ->
  (w_lo w = 0 -> match t with Some t => ~ above onset t 0 | None => True end) -> exists f, fit_gaussian cf onset t w = Ret f.
Proof.
  intros Hcf Hw Hn H0. destruct t as [t|]; [|exists None; apply fit_nan].
  destruct (find_peak_none_dec onset t w Hw Hn) as [N|Y].
  - exists None. apply fit_none; assumption.
  - destruct (run_exists onset w Hw Hn t Y) as (k & s & e & Hk & Hr).
    assert (Hs : 1 <= s).
    { destruct (Z.eq_dec s 0) as [E|E]; [|destruct Hr as (A & _); lia]. exfalso. destruct Hr as (A1 & A2 & _ & A & _).
      apply H0; [lia|]. subst s. apply A. lia. }
    destruct (fit_run cf onset w Hw Hn t k s e Hk Hr Hs) as [F1 F2].
    assert (B : e <= Z.of_nat (length onset)) by (destruct Hr as (_ & _ & B & _); lia).
    destruct (Z.lt_ge_cases e (s + 2)) as [Hl|Hl]; [exists None; apply F2; lia|].
    destruct (Z.eq_dec e (Z.of_nat (length onset))) as [E|E]; [exists None; apply F2; lia|].
    rewrite F1 by lia. destruct (slice_inside onset (s - 1) (e + 1) ltac:(lia) ltac:(lia)) as [L _].
    destruct (Hcf (zseq (s - 1) (Z.to_nat (e - s + 2))) (pyslice onset (Some (s - 1)) (Some (e + 1)))) as [[[[h mn] sg] ->]|[->| ->]].
    + rewrite zseq_length. lia.
    + lia.
    + unfold accept. destruct (_ && _); eexists; reflexivity.
    + exists None. reflexivity.
    + exists None. reflexivity.
Qed.

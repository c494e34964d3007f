(** Lemmas for C127: coarser groups, and runs inside runs. *)
From Coq Require Import List ZArith QArith Bool Lia Lqa Ascii.
From Verif Require Import Lib LibFacts Timeline_Model Trigger_Model Trigger_Spec Trigger_Proofs Strict_Spec.
Import ListNotations.
Open Scope Z_scope.

(** * Coarser groups *)
Lemma chop_coarser {A B} (S : A -> B -> Prop) adj adj' l l' :
  (forall a b a' b', S a a' -> S b b' -> adj a b = true -> adj' a' b' = true) -> Forall2 S l l' ->
  exists gss, List.concat gss = chop adj l /\ Forall2 (fun gs g' => Forall2 S (List.concat gs) g') gss (chop adj' l').
Proof.
  intros H. induction 1 as [|x x' l l' Hx Hl IH]; [exists []; split; [reflexivity|constructor]|].
  destruct IH as (gss & Ec & F). cbn [chop]. pose proof (chop_head adj l) as Hh. pose proof (chop_head adj' l') as Hh'.
  pose proof (chop_nonempty adj l) as Ne. pose proof (chop_concat adj l) as Cc.
  destruct (chop adj' l') as [|[|y' b'] bs'] eqn:E'.
  - subst l'. inversion Hl; subst. inversion F; subst. cbn in *. exists [[[x]]]. split; [reflexivity|]. constructor; [|constructor]. constructor; [exact Hx|constructor].
  - destruct Hh'.
  - inversion F as [|gs0 ? gss' ? F0 F']. subst. destruct gs0 as [|g0 gs0']; [cbn in F0; inversion F0|].
    cbn [List.concat app] in Ec. rewrite <- Ec in *. destruct g0 as [|y b]; [inversion Ne; congruence|].
    cbn [List.concat app] in F0. inversion F0 as [|? ? ? ? Hy Fb]. subst.
    destruct (adj x y) eqn:Ea.
    + rewrite (H _ _ _ _ Hx Hy Ea). exists (((x :: y :: b) :: gs0') :: gss'). split; [reflexivity|]. constructor; [|exact F'].
      cbn [List.concat app]. constructor; [exact Hx|]. constructor; assumption.
    + destruct (adj' x' y') eqn:Ea'.
      * exists (([x] :: (y :: b) :: gs0') :: gss'). split; [reflexivity|]. constructor; [|exact F']. cbn [List.concat app]. constructor; [exact Hx|]. constructor; assumption.
      * exists ([[x]] :: ((y :: b) :: gs0') :: gss'). split; [reflexivity|]. constructor; [cbn; constructor; [exact Hx|constructor]|].
        constructor; [|exact F']. cbn [List.concat app]. constructor; assumption.
Qed.

Lemma concat_at {A} (gs : list (list A)) : forall l1 m l2, List.concat gs = l1 ++ m :: l2 ->
  exists ga g gb u v, gs = ga ++ g :: gb /\ g = u ++ m :: v /\ l1 = List.concat ga ++ u /\ l2 = v ++ List.concat gb.
Proof.
  induction gs as [|g gs IH]; intros l1 m l2 E; [destruct l1; discriminate|]. cbn [List.concat] in E.
  revert l1 E. induction g as [|x g IHg]; intros l1 E.
  - destruct (IH l1 m l2 E) as (ga & g' & gb & u & v & -> & Eg & -> & ->). exists ([] :: ga), g', gb, u, v. auto.
  - destruct l1 as [|y l1]; cbn [app] in E.
    + injection E as -> E. exists [], (m :: g), gs, [], g. cbn. auto.
    + injection E as -> E. destruct (IHg l1 E) as (ga & g' & gb & u & v & Ea & Eg & -> & ->).
      destruct ga as [|g0 ga].
      * cbn [app] in Ea. injection Ea as -> ->. exists [], (y :: u ++ m :: v), gb, (y :: u), v. subst g'. cbn. auto.
      * cbn [app] in Ea. injection Ea as -> ->. exists ((y :: g0) :: ga), g', gb, u, v. cbn. auto.
Qed.

Lemma first_best_unique {A} (f : A -> Q) : forall l1 m l2 l1' m' l2', l1 ++ m :: l2 = l1' ++ m' :: l2' ->
  Forall (fun x => f x < f m)%Q l1 -> Forall (fun x => f x <= f m)%Q l2 -> Forall (fun x => f x < f m')%Q l1' -> Forall (fun x => f x <= f m')%Q l2' -> m = m'.
Proof.
  induction l1 as [|x l1 IH]; intros m l2 l1' m' l2' E F1 F2 F1' F2'.
  - destruct l1' as [|x' l1']; cbn [app] in E; [congruence|]. injection E as <- E. subst l2. inversion F1' as [|? ? L _]. subst.
    rewrite Forall_forall in F2. specialize (F2 m' ltac:(apply in_or_app; right; left; reflexivity)). exfalso. apply (Qlt_irrefl (f m)). eapply Qlt_le_trans; eassumption.
  - destruct l1' as [|x' l1']; cbn [app] in E.
    + injection E as -> E. subst l2'. inversion F1 as [|? ? L _]. subst. rewrite Forall_forall in F2'. specialize (F2' m ltac:(apply in_or_app; right; left; reflexivity)).
      exfalso. apply (Qlt_irrefl (f m')). eapply Qlt_le_trans; eassumption.
    + injection E as -> E. inversion F1; inversion F1'; subst. eapply IH; eassumption.
Qed.

(** Two candidates for one run, of two settings. *)
Definition twin (p p' : params) (data : list scanrow) (a a' : candidate) : Prop :=
  exists run, candidate_of_run p data run a /\ candidate_of_run p' data run a'.
Record alike (a a' : candidate) : Prop := {
  al_time : CoaTime a = CoaTime a'; al_trig : TRIG_COA a = TRIG_COA a'; al_coa : CCOA a = CCOA a'; al_norm : COA_NORM a = COA_NORM a';
  al_x : COA_X a = COA_X a'; al_y : COA_Y a = COA_Y a'; al_z : COA_Z a = COA_Z a' }.
Lemma twin_alike p p' data a a' : wider p p' -> twin p p' data a a' ->
  alike a a' /\ MinTime a' <= MinTime a + (marginal_window p' - marginal_window p) /\ MaxTime a - (marginal_window p' - marginal_window p) <= MaxTime a'.
Proof.
  intros W (run & (k & r & f & l & FL & Rf & Rl & E1 & E2 & E3 & E4 & E5 & E6 & E7 & E8 & E9) & (k' & r' & f' & l' & FL' & Rf' & Rl' & E1' & E2' & E3' & E4' & E5' & E6' & E7' & E8' & E9')).
  pose proof (first_largest_unique _ _ _ _ _ _ _ FL FL') as K. subst k'. destruct FL as (_ & Rk & _), FL' as (_ & Rk' & _).
  assert (r' = r) by congruence. assert (f' = f) by congruence. assert (l' = l) by congruence. subst r' f' l'.
  rewrite (w_norm _ _ W) in E4'. pose proof (w_marginal _ _ W). pose proof (w_interval _ _ W).
  split; [constructor; congruence|]. lia.
Qed.
Lemma alike_linked p p' data a b a' b' : wider p p' -> twin p p' data a a' -> twin p p' data b b' -> linked p a b -> linked p' a' b'.
Proof.
  intros W Ta Tb L. destruct (twin_alike _ _ _ _ _ W Ta) as (Aa & Ma & Xa). destruct (twin_alike _ _ _ _ _ W Tb) as (Ab & Mb & Xb).
  pose proof (w_marginal _ _ W). pose proof (w_interval _ _ W). destruct Aa as [Ea _ _ _ _ _ _], Ab as [Eb _ _ _ _ _ _]. unfold linked in *. lia.
Qed.
Lemma nsep_linked p a b : nsep p a b = true <-> linked p a b.
Proof.
  unfold nsep. pose proof (separate_linked p a b) as S. destruct (separate p a b); cbn [negb].
  - split; [discriminate|]. intros L. exfalso. apply S; [reflexivity|exact L].
  - split; [|reflexivity]. intros _. unfold linked. unfold linked in S. assert (N : ~ ~ (CoaTime b - marginal_window p <= MaxTime a \/ MinTime b <= CoaTime a + marginal_window p)) by (intros X; apply S in X; discriminate). lia.
Qed.

Lemma Forall2_combine_by {A B C} (R : A -> B -> Prop) (R' : A -> C -> Prop) l : forall m m', Forall2 R l m -> Forall2 R' l m' -> Forall2 (fun b c => exists a, R a b /\ R' a c) m m'.
Proof. induction l as [|x l IH]; intros m m' F F'; inversion F; inversion F'; subst; constructor; [eauto|]. eapply IH; eassumption. Qed.
Lemma Forall2_app_l {A B} (R : A -> B -> Prop) l1 m l2 l' : Forall2 R (l1 ++ m :: l2) l' -> exists l1' m' l2', l' = l1' ++ m' :: l2' /\ Forall2 R l1 l1' /\ R m m' /\ Forall2 R l2 l2'.
Proof. intros F. apply Forall2_app_inv_l in F. destruct F as (a & b & F1 & F2 & ->). inversion F2; subst. eauto 10. Qed.
Lemma Forall2_app_r {A B} (R : A -> B -> Prop) l1' m' l2' l : Forall2 R l (l1' ++ m' :: l2') -> exists l1 m l2, l = l1 ++ m :: l2 /\ Forall2 R l1 l1' /\ R m m' /\ Forall2 R l2 l2'.
Proof. intros F. apply Forall2_app_inv_r in F. destruct F as (a & b & F1 & F2 & ->). inversion F2; subst. eauto 10. Qed.
Lemma Forall2_concat_in {A B} (R : A -> B -> Prop) l l' x : Forall2 R l l' -> In x l -> exists y, In y l' /\ R x y.
Proof. induction 1 as [|a b l l' H F IH]; intros I; [destruct I|]. destruct I as [<-|I]; [exists b; split; [left; reflexivity|exact H]|]. destruct (IH I) as (y & J & K). exists y. split; [right; exact J|exact K]. Qed.

Lemma wider_events c p p' data th cands cands' es es' : wider p p' -> List.length data = List.length th ->
  identify_candidates p data th = Ret cands -> identify_candidates p' data th = Ret cands' -> refine_candidates c p cands = Ret es -> refine_candidates c p' cands' = Ret es' ->
  forall e', In e' es' -> exists e, In e es /\ same_source e e'.
Proof.
  intros W L C C' R R' e' I'.
  pose proof (cands_of_runs p data th cands L C) as F. pose proof (cands_of_runs p' data th cands' L C') as F'.
  assert (Rr : runs_of p' data th = runs_of p data th).
  { unfold runs_of, above, trigger_on. rewrite (w_norm _ _ W). reflexivity. }
  rewrite Rr in F'. pose proof (Forall2_combine_by _ _ _ _ _ F F') as T. clear F F' Rr C C'.
  destruct (refine_ok c p cands) as (es0 & E0 & G). assert (es0 = es) by congruence. subst es0. destruct (refine_ok c p' cands') as (es1 & E1 & G'). assert (es1 = es') by congruence. subst es1.
  destruct (chop_coarser (fun a b => twin p p' data a b) (nsep p) (nsep p') cands cands') as (gss & Ec & Fg).
  { intros a b a' b' Ta Tb N. rewrite nsep_linked in *. exact (alike_linked _ _ _ _ _ _ _ W Ta Tb N). }
  { exact T. }
  destruct (Forall2_in_r _ _ _ _ G' I') as (g' & Ig' & (l1' & m' & l2' & Eg' & B1' & B2' & A1 & A2 & A3 & A4 & A5 & A6 & A7 & _) & Id').
  destruct (Forall2_in_r _ _ _ _ Fg Ig') as (gs & Igs & Fs). rewrite Eg' in Fs.
  destruct (Forall2_app_r _ _ _ _ _ Fs) as (l1 & m & l2 & El & S1 & Sm & S2).
  destruct (concat_at gs l1 m l2 El) as (ga & g & gb & u & v & Egs & Eg & -> & ->).
  assert (Ig : In g (chop (nsep p) cands)). { rewrite <- Ec. apply in_concat. exists gs. split; [exact Igs|]. rewrite Egs. apply in_or_app. right. left. reflexivity. }
  destruct (Forall2_concat_in _ _ _ _ G Ig) as (e & Ie & (n1 & n & n2 & En & D1 & D2 & Q1 & Q2 & Q3 & Q4 & Q5 & Q6 & Q7 & _) & Id).
  assert (Tr : forall a a', twin p p' data a a' -> TRIG_COA a = TRIG_COA a') by (intros a a' Ta; destruct (twin_alike _ _ _ _ _ W Ta) as ([] & _); assumption).
  assert (Lf : forall la lb (P : Q -> Prop), Forall2 (fun a b => twin p p' data a b) la lb -> Forall (fun x => P (TRIG_COA x)) lb -> Forall (fun x => P (TRIG_COA x)) la).
  { intros la lb P F2. induction F2 as [|a b la lb Hab F2 IH]; intros Fa; [constructor|]. inversion Fa; subst. constructor; [rewrite (Tr _ _ Hab); assumption|auto]. }
  assert (m = n).
  { eapply (first_best_unique TRIG_COA u m v n1 n n2).
    - rewrite <- Eg, <- En. reflexivity.
    - pose proof (Lf _ _ (fun q => q < TRIG_COA m')%Q S1 B1') as X. apply Forall_app in X. destruct X as [_ X]. rewrite (Tr _ _ Sm). exact X.
    - pose proof (Lf _ _ (fun q => q <= TRIG_COA m')%Q S2 B2') as X. apply Forall_app in X. destruct X as [X _]. rewrite (Tr _ _ Sm). exact X.
    - exact D1.
    - exact D2. }
  subst n. destruct (twin_alike _ _ _ _ _ W Sm) as ([] & _). exists e. split; [exact Ie|]. unfold same_source. rewrite Id, Id'. repeat split; try congruence.
Qed.

(** * Higher thresholds *)
Lemma Forall2_len {A B} (R : A -> B -> Prop) l l' : Forall2 R l l' -> List.length l = List.length l'.
Proof. induction 1; cbn; congruence. Qed.
Lemma hit_lower p data th th' i : Forall2 Qle th th' -> hit p data th' i -> hit p data th i.
Proof.
  intros F (r & x & Hr & Hx & Hle). pose proof (rd_bounds _ _ _ _ Hx) as B. pose proof (Forall2_len _ _ _ F) as Le.
  destruct (rd_in_range _ th i ltac:(lia)) as (y & Ey). exists r, y. split; [exact Hr|]. split; [exact Ey|].
  assert (y <= x)%Q; [|eapply Qle_trans; eassumption]. clear - F Hx Ey B. revert i Hx Ey B. induction F as [|a b th th' H F IH]; intros i Hx Ey B; [cbn in B; lia|].
  destruct (Z.eq_dec i 0) as [->|N]; [cbn in Hx, Ey; congruence|]. rewrite rd_cons_pos in Hx, Ey by lia. apply (IH (i - 1)); try assumption. cbn in B. lia.
Qed.
Lemma run_inside p data th th' lo hi lo' hi' i : Forall2 Qle th th' -> maximal_run p data th lo hi -> maximal_run p data th' lo' hi' -> lo <= i <= hi -> lo' <= i <= hi' -> lo <= lo' /\ hi' <= hi.
Proof.
  intros F M (L' & A' & _) B B'. split.
  - assert (lo <= lo' <= hi); [|lia]. eapply run_convex; [exact M|exact B|]. intros j Hj. apply (hit_lower _ _ _ th'); [exact F|]. apply A'. lia.
  - assert (lo <= hi' <= hi); [|lia]. eapply run_convex; [exact M|exact B|]. intros j Hj. apply (hit_lower _ _ _ th'); [exact F|]. apply A'. lia.
Qed.

Section Batch.
Variables (c : clock) (p : params) (t0 : Z) (data : list scanrow).
Hypothesis Hd : 0 < delta c.
Hypothesis Hs : sampled c t0 data.
Hypothesis Hm : 0 <= marginal_window p <= min_event_interval p.
(** A candidate's run, first and last times around its peak. *)
Lemma candidate_times run x : candidate_of_run p data run x -> exists k r f l, first_largest data (fst run) (snd run) k r /\ rd data (fst run) = Some f /\ rd data (snd run) = Some l
  /\ CoaTime x = DT r /\ DT f = t0 + fst run * delta c /\ DT r = t0 + k * delta c /\ DT l = t0 + snd run * delta c /\ DT f <= DT r <= DT l
  /\ MinTime x = Z.min (DT r - min_event_interval p) (DT f - (min_event_interval p - marginal_window p)) /\ MaxTime x = Z.max (DT r + min_event_interval p) (DT l + (min_event_interval p - marginal_window p))
  /\ MinTime x <= DT f /\ DT l <= MaxTime x /\ TRIG_COA x = trigger_on p r /\ CCOA x = COA r.
Proof.
  intros (k & r & f & l & FL & Rf & Rl & E1 & E2 & E3 & E4 & _ & _ & _ & E8 & E9). exists k, r, f, l.
  pose proof FL as (B & Rk & _). pose proof (Hs _ _ Rf) as T1. pose proof (Hs _ _ Rl) as T2. pose proof (Hs _ _ Rk) as T3.
  assert (DT f <= DT r <= DT l) by nia.
  split; [exact FL|]. split; [exact Rf|]. split; [exact Rl|]. split; [exact E1|]. split; [exact T1|]. split; [exact T3|]. split; [exact T2|]. split; [assumption|].
  split; [exact E8|]. split; [exact E9|]. split; [lia|]. split; [lia|]. split; [exact E4|exact E2].
Qed.
Variables (th : list Q) (cands : list candidate) (es : list event).
Hypothesis Hl : List.length data = List.length th.
Hypothesis Hc : identify_candidates p data th = Ret cands.
Hypothesis He : refine_candidates c p cands = Ret es.

(** Every candidate belongs to an event. *)
Lemma member_event x : In x cands -> exists e g, In e es /\ In g (chop (nsep p) cands) /\ In x g /\ event_of_group g (cand e)
  /\ MinTime (cand e) <= MinTime x /\ MaxTime x <= MaxTime (cand e) /\ (TRIG_COA x <= TRIG_COA (cand e))%Q /\ EventID e = event_uid c (CoaTime (cand e)).
Proof.
  intros I. destruct (refine_ok c p cands) as (es0 & E0 & G). assert (es0 = es) by congruence. subst es0.
  rewrite <- (chop_concat (nsep p) cands) in I. apply in_concat in I. destruct I as (g & Ig & Ix).
  destruct (Forall2_concat_in _ _ _ _ G Ig) as (e & Ie & Ev & Id). exists e, g.
  split; [exact Ie|]. split; [exact Ig|]. split; [exact Ix|]. split; [exact Ev|].
  destruct Ev as (l1 & m & l2 & Eg & D1 & D2 & _ & Et & _ & _ & _ & _ & _ & _ & M & _ & X). rewrite Forall_forall in D1, D2, M, X.
  split; [apply M, Ix|]. split; [apply X, Ix|]. split; [|exact Id].
  rewrite Et. rewrite Eg in Ix. apply in_app_or in Ix. destruct Ix as [Ix|[<-|Ix]]; [apply Qlt_le_weak, D1, Ix|apply Qle_refl|apply D2, Ix].
Qed.


(** The event of the sample at index [i] that reaches the threshold. *)
Lemma hit_event i r : rd data i = Some r -> hit p data th i ->
  exists e, In e es /\ MinTime (cand e) <= DT r <= MaxTime (cand e) /\ (normalise_coalescence p = false -> (COA r <= TRIG_COA (cand e))%Q).
Proof.
  intros Hr Hh. destruct (in_runs _ _ _ _ Hh) as (lo & hi & Ir & B). apply runs_maximal in Ir.
  destruct (run_candidate p data th cands Hl Hc lo hi Ir) as (x & Ix & Cx). destruct (candidate_times _ _ Cx) as (k & rk & f & l & FL & Rf & Rl & E1 & T1 & T2 & T3 & Bt & _ & _ & Bf & Bl & Et & _).
  cbn [fst snd] in *. destruct (member_event x Ix) as (e & g & Ie & _ & _ & _ & M & X & T & _). exists e. split; [exact Ie|].
  pose proof (Hs _ _ Hr) as T4. split; [nia|]. intros Nn. rewrite Et in T. unfold trigger_on in T. rewrite Nn in T. eapply Qle_trans; [|exact T].
  destruct FL as (Bk & Rk & F). destruct (F i r Hr) as (F1 & F2). destruct (Z.lt_ge_cases i k); [apply Qlt_le_weak, F1; lia|apply F2; lia].
Qed.

Lemma event_is_hit e : In e es -> exists lo hi k r, maximal_run p data th lo hi /\ first_largest data lo hi k r /\ hit p data th k /\ rd data k = Some r
  /\ CoaTime (cand e) = DT r /\ TRIG_COA (cand e) = trigger_on p r.
Proof.
  intros I. destruct (event_peak c p data th cands es Hl Hc He e I) as (lo & hi & k & r & M & FL & E1 & E2). exists lo, hi, k, r.
  pose proof FL as (B & Rk & _). split; [exact M|]. split; [exact FL|]. split; [apply M; exact B|]. auto.
Qed.
End Batch.

Lemma chain_all {A} (R : A -> A -> Prop) (P : A -> Prop) g x : chained R g -> (forall a b, In a g -> In b g -> R a b -> (P a <-> P b)) -> In x g -> P x -> Forall P g.
Proof.
  revert x. induction g as [|a g IH]; intros x Ch Cl I Px; [constructor|]. destruct g as [|b g].
  - destruct I as [->|[]]. constructor; [exact Px|constructor].
  - destruct Ch as (Rab & Ch). assert (Pab : P a <-> P b) by (apply Cl; [left; reflexivity|right; left; reflexivity|exact Rab]).
    assert (Cl' : forall u v, In u (b :: g) -> In v (b :: g) -> R u v -> (P u <-> P v)) by (intros u v Iu Iv; apply Cl; right; assumption).
    assert (F : Forall P (b :: g)). { destruct I as [->|I]; [apply (IH b Ch Cl'); [left; reflexivity|apply Pab, Px]|exact (IH x Ch Cl' I Px)]. }
    constructor; [apply Pab; inversion F; assumption|exact F].
Qed.
Lemma chained_both {A} (R S : A -> A -> Prop) l : chained R l -> chained S l -> chained (fun a b => R a b /\ S a b) l.
Proof. induction l as [|a [|b l] IH]; intros C D; try exact I. destruct C, D. split; [split; assumption|apply IH; assumption]. Qed.
Lemma pairwise_chained {A} (R : A -> A -> Prop) l : pairwise_ R l -> chained R l.
Proof. induction l as [|a [|b l] IH]; intros C; try exact I. destruct C as (F & C). inversion F; subst. split; [assumption|apply IH; exact C]. Qed.
Lemma pairwise_group {A} (R : A -> A -> Prop) gs g : pairwise_ R (List.concat gs) -> In g gs -> pairwise_ R g.
Proof.
  induction gs as [|h gs IH]; intros P I; [destruct I|]. cbn [List.concat] in P. destruct I as [->|I].
  - clear IH. induction g as [|a g IHg]; [exact Logic.I|]. cbn [app pairwise_] in P. destruct P as (F & P). apply Forall_app in F. split; [apply F|apply IHg, P].
  - apply IH; [|exact I]. clear IH I. induction h as [|a h IHh]; [exact P|]. destruct P as (_ & P). apply IHh, P.
Qed.

Section Two.
Variables (c : clock) (p : params) (t0 : Z) (data : list scanrow).
Hypothesis Hd : 0 < delta c.
Hypothesis Hs : sampled c t0 data.
Hypothesis Hm : 0 <= marginal_window p <= min_event_interval p.
Variables (th th' : list Q) (es es' : list event).
Hypothesis Hl : List.length data = List.length th.
Hypothesis Hle : Forall2 Qle th th'.
Hypothesis He : events_at c p data th es.
Hypothesis He' : events_at c p data th' es'.

Lemma len' : List.length data = List.length th'.
Proof. rewrite Hl. exact (Forall2_len _ _ _ Hle). Qed.

Lemma higher_covered e' : In e' es' -> exists e, In e es /\ covers e e' /\ (normalise_coalescence p = false -> (TRIG_COA (cand e') <= TRIG_COA (cand e))%Q).
Proof.
  intros I. destruct He as (cs & C & R), He' as (cs' & C' & R').
  destruct (event_is_hit c p data th' cs' es' len' C' R' e' I) as (lo & hi & k & r & M & FL & Hh & Rk & Ec & Et).
  destruct (hit_event c p t0 data Hd Hs Hm th cs es Hl C R k r Rk (hit_lower _ _ _ _ _ Hle Hh)) as (e & Ie & B & T). exists e. split; [exact Ie|]. split.
  - unfold covers. rewrite Ec. exact B.
  - intros Nn. rewrite Et. unfold trigger_on. rewrite Nn. apply T, Nn.
Qed.

Lemma same_index i j r r' : rd data i = Some r -> rd data j = Some r' -> DT r = DT r' -> i = j.
Proof. intros A B E. rewrite (Hs _ _ A), (Hs _ _ B) in E. assert (i * delta c = j * delta c) by lia. apply Z.mul_cancel_r in H; [exact H|lia]. Qed.

(** The candidate of an event, at the lower threshold, is one at the higher threshold, too. *)
Lemma peak_remains cs cs' e : identify_candidates p data th = Ret cs -> refine_candidates c p cs = Ret es -> identify_candidates p data th' = Ret cs' ->
  In e es -> hit_time p data th' (CoaTime (cand e)) ->
  exists lo hi x run' x' k r, maximal_run p data th lo hi /\ In x cs /\ candidate_of_run p data (lo, hi) x /\ alike (cand e) x /\ EventID e = event_uid c (CoaTime (cand e))
  /\ In x' cs' /\ candidate_of_run p data run' x' /\ lo <= fst run' /\ snd run' <= hi /\ alike x x' /\ first_largest data lo hi k r /\ CoaTime x = DT r /\ fst run' <= k <= snd run'.
Proof.
  intros C R C' I (i & ri & Ri & Ei & Hi).
  destruct (refine_ok c p cs) as (es0 & E0 & G). assert (es0 = es) by congruence. subst es0.
  destruct (Forall2_in_r _ _ _ _ G I) as (g & Ig & (l1 & x & l2 & Eg & _ & _ & Q1 & Q2 & Q3 & Q4 & Q5 & Q6 & Q7 & _) & Id).
  assert (Ix : In x cs). { rewrite <- (chop_concat (nsep p) cs). apply in_concat. exists g. split; [exact Ig|]. rewrite Eg. apply in_or_app. right. left. reflexivity. }
  destruct (Forall2_in_r _ _ _ _ (cands_of_runs p data th cs Hl C) Ix) as ([lo hi] & Ir & Cx). apply runs_maximal in Ir.
  pose proof Cx as (k & r & f & l & FL & Rf & Rl & A1 & A2 & A3 & A4 & A5 & A6 & A7 & _). cbn [fst snd] in FL. pose proof FL as (B & Rk & F).
  assert (i = k) by (apply (same_index _ _ _ _ Ri Rk); congruence). subst i.
  destruct (in_runs _ _ _ _ Hi) as (lo' & hi' & Ir' & B'). apply runs_maximal in Ir'.
  destruct (run_inside _ _ _ _ _ _ _ _ _ Hle Ir Ir' B B') as (In1 & In2).
  destruct (run_candidate p data th' cs' len' C' lo' hi' Ir') as (x' & Ix' & Cx').
  pose proof Cx' as (k' & r' & f' & l' & FL' & _ & _ & A1' & A2' & A3' & A4' & A5' & A6' & A7' & _). cbn [fst snd] in FL'.
  assert (FLr : first_largest data lo' hi' k r). { split; [exact B'|]. split; [exact Rk|]. intros j y Hy. destruct (F j y Hy) as (F1 & F2). split; intros Hj; [apply F1; lia|apply F2; lia]. }
  pose proof (first_largest_unique _ _ _ _ _ _ _ FLr FL'). subst k'. destruct FL' as (_ & Rk' & _). assert (r' = r) by congruence. subst r'.
  exists lo, hi, x, (lo', hi'), x', k, r. cbn [fst snd].
  split; [exact Ir|]. split; [exact Ix|]. split; [exact Cx|]. split; [constructor; assumption|]. split; [exact Id|]. split; [exact Ix'|]. split; [exact Cx'|]. split; [exact In1|]. split; [exact In2|].
  split; [constructor; congruence|]. split; [exact FL|]. split; [exact A1|exact B'].
Qed.

Lemma lower_covered e : In e es -> hit_time p data th' (CoaTime (cand e)) -> exists e', In e' es' /\ covers e' e /\ (TRIG_COA (cand e) <= TRIG_COA (cand e'))%Q.
Proof.
  intros I H. destruct He as (cs & C & R), He' as (cs' & C' & R').
  destruct (peak_remains cs cs' e C R C' I H) as (lo & hi & x & run' & x' & k & r & _ & _ & _ & [E1 E2 _ _ _ _ _] & _ & Ix' & Cx' & _ & _ & [E1' E2' _ _ _ _ _] & _).
  destruct (member_event c p cs' es' R' x' Ix') as (e' & g & Ie' & _ & _ & _ & M & X & T & _). exists e'. split; [exact Ie'|].
  destruct (candidate_times c p t0 data Hd Hs Hm run' x' Cx') as (k' & r' & f & l & _ & _ & _ & A1 & _ & _ & _ & Bt & _ & _ & Bf & Bl & _).
  split; [|rewrite E2, E2'; exact T]. unfold covers. rewrite E1, E1', A1. lia.
Qed.

Lemma alone_kept e : normalise_coalescence p = false -> In e es -> hit_time p data th' (CoaTime (cand e)) -> stands_alone p data th (min_event_interval p + marginal_window p) (CoaTime (cand e)) ->
  exists e', In e' es' /\ same_source e e'.
Proof.
  intros Nn I H (lo0 & hi0 & i0 & r0 & first & final & M0 & B0 & R0 & T0 & Rf & Rl & Alone). destruct He as (cs & C & R), He' as (cs' & C' & R').
  destruct (peak_remains cs cs' e C R C' I H) as (lo & hi & x & run' & x' & k & r & M & Ix & Cx & Ae & Id & Ix' & Cx' & In1 & In2 & Ax & FL & Ek & Bk').
  destruct (candidate_times c p t0 data Hd Hs Hm _ _ Cx') as (kx & rx & fx & lx & FLx & Rfx & Rlx & A1 & S1 & S2 & S3 & Bx & _).
  pose proof FL as (Bk & Rk & FLk).
  assert (i0 = k). { apply (same_index _ _ _ _ R0 Rk). rewrite T0. destruct Ae as [E _ _ _ _ _ _]. congruence. } subst i0.
  destruct (run_unique _ _ _ _ _ _ _ _ M M0 Bk B0). subst lo0 hi0.
  destruct (member_event c p cs' es' R' x' Ix') as (e' & g & Ie' & Ig & Ixg & Ev & _ & _ & _ & Id'). exists e'. split; [exact Ie'|].
  pose proof (cands_of_runs p data th' cs' len' C') as Fr'.
  assert (Ics : forall a, In a g -> In a cs'). { intros a Ia. rewrite <- (chop_concat (nsep p) cs'). apply in_concat. exists g. split; assumption. }
  set (P := fun a : candidate => DT first <= CoaTime a <= DT final).
  pose proof (Hs _ _ Rf) as Tf. pose proof (Hs _ _ Rl) as Tl.
  (* a candidate is inside or far away *)
  assert (Far : forall a, In a cs' -> exists ra fa la ka run, candidate_of_run p data run a /\ first_largest data (fst run) (snd run) ka ra /\ CoaTime a = DT ra /\ TRIG_COA a = COA ra
     /\ MinTime a = Z.min (DT ra - min_event_interval p) (DT fa - (min_event_interval p - marginal_window p)) /\ MaxTime a = Z.max (DT ra + min_event_interval p) (DT la + (min_event_interval p - marginal_window p))
     /\ DT fa <= DT ra <= DT la /\ (P a -> lo <= ka <= hi /\ DT first <= DT fa /\ DT la <= DT final)
     /\ (~ P a -> DT la < DT first - (min_event_interval p + marginal_window p) \/ DT final + (min_event_interval p + marginal_window p) < DT fa)).
  { intros a Ia. destruct (Forall2_in_r _ _ _ _ Fr' Ia) as ([la0 ha0] & Ir & Ca). apply runs_maximal in Ir.
    destruct (candidate_times c p t0 data Hd Hs Hm _ _ Ca) as (ka & ra & fa & la & FLa & Rfa & Rla & Q1 & Q2 & Q3 & Q4 & Qb & Q5 & Q6 & _ & _ & Q7 & _). cbn [fst snd] in *.
    exists ra, fa, la, ka, (la0, ha0). split; [exact Ca|]. split; [exact FLa|]. split; [exact Q1|]. split; [rewrite Q7; unfold trigger_on; rewrite Nn; reflexivity|]. split; [exact Q5|]. split; [exact Q6|]. split; [exact Qb|].
    pose proof FLa as (Bka & Rka & _).
    assert (Hit : forall j, la0 <= j <= ha0 -> hit p data th j) by (intros j Hj; apply (hit_lower _ _ _ th'); [exact Hle|]; apply Ir; exact Hj).
    split.
    - unfold P. rewrite Q1. intros Pa. assert (Bin : lo <= ka <= hi) by nia. split; [exact Bin|].
      destruct (run_inside _ _ _ _ _ _ _ _ _ Hle M Ir Bin Bka). nia.
    - unfold P. rewrite Q1. intros Na.
      assert (Nin : forall j, la0 <= j <= ha0 -> ~ lo <= j <= hi).
      { intros j Hj Bj. destruct (run_inside _ _ _ _ _ _ _ _ _ Hle M Ir Bj Hj). apply Na. nia. }
      assert (U : forall j, la0 <= j <= ha0 -> t0 + j * delta c < DT first - (min_event_interval p + marginal_window p) \/ DT final + (min_event_interval p + marginal_window p) < t0 + j * delta c).
      { intros j Hj. destruct (Hit j Hj) as (rj & xj & Rj & Xj). pose proof (Hs _ _ Rj) as Tj. destruct (Alone (DT rj)) as [A|A].
        - exists j, rj. split; [exact Rj|]. split; [reflexivity|apply Hit, Hj].
        - exfalso. apply (Nin j Hj). nia.
        - rewrite <- Tj. exact A. }
      destruct (U la0 ltac:(lia)) as [Ul|Ul]; [|right; lia]. destruct (U ha0 ltac:(lia)) as [Uh|Uh]; [left; lia|]. exfalso.
      assert (lo <= hi) by (destruct M; assumption). apply (Nin lo); [|lia]. nia. }
  assert (Inc : pairwise_ (fun a b => CoaTime a < CoaTime b) cs').
  { eapply pairwise_impl; [|exact (candidates_increasing c p t0 data _ _ Hd Hs (runs_ordered p data th') Fr')]. cbv beta. intros; lia. }
  assert (Px : P x'). { unfold P. rewrite A1. assert (lo <= hi) by (destruct M; assumption). destruct FLx as (Bkx & _). nia. }
  assert (All : Forall P g).
  { apply (chain_all (fun a b => linked p a b /\ CoaTime a < CoaTime b) P g x'); [| |exact Ixg|exact Px].
    - apply chained_both.
      + pose proof (chop_inside (nsep p) cs') as Ci. rewrite Forall_forall in Ci. eapply chained_impl; [|apply Ci, Ig]. cbv beta. intros a b. apply nsep_linked.
      + apply pairwise_chained. eapply pairwise_group; [|exact Ig]. rewrite chop_concat. exact Inc.
    - intros a b Ia Ib (Lab & Tab). destruct (Far a (Ics a Ia)) as (ra & fa & la & ka & runa & _ & _ & Ea & _ & Mna & Mxa & Bta & Ya & Na). destruct (Far b (Ics b Ib)) as (rb & fb & lb & kb & runb & _ & _ & Eb & _ & Mnb & Mxb & Btb & Yb & Nb).
      assert (Da : P a \/ ~ P a) by (unfold P; lia). assert (Db : P b \/ ~ P b) by (unfold P; lia). unfold linked in Lab.
      assert (HX : DT first <= DT final) by (unfold P in Px; lia).
      destruct Da as [Pa|Pa], Db as [Pb|Pb]; [tauto| | |tauto]; exfalso.
      + destruct (Ya Pa) as (_ & Ya1 & Ya2). unfold P in Pa. destruct (Nb Pb) as [K|K]; lia.
      + destruct (Yb Pb) as (_ & Yb1 & Yb2). unfold P in Pb. destruct (Na Pa) as [K|K]; lia. }
  destruct Ev as (l1 & m & l2 & Eg & D1 & D2 & Q1 & Q2 & Q3 & Q4 & Q5 & Q6 & Q7 & _).
  assert (Best : forall a, In a g -> CoaTime a <> CoaTime x' -> (TRIG_COA a <= TRIG_COA x')%Q /\ (CoaTime a < CoaTime x' -> (TRIG_COA a < TRIG_COA x')%Q)).
  { intros a Ia Na. destruct (Far a (Ics a Ia)) as (ra & fa & la & ka & runa & _ & FLa & Ea & Ta & _ & _ & _ & Ya & _). rewrite Forall_forall in All. destruct (Ya (All a Ia)) as (Bka & _).
    destruct (Far x' Ix') as (rb & fb & lb & kb & runb & _ & FLb & Eb & Tb & _).
    assert (kb = k). { destruct FLb as (_ & Rb & _). apply (same_index _ _ _ _ Rb Rk). destruct Ax as [E _ _ _ _ _ _]. congruence. } subst kb.
    assert (rb = r) by (destruct FLb as (_ & Rb & _); congruence). subst rb. destruct FLa as (_ & Ra & _). destruct (FLk ka ra Ra) as (F1 & F2).
    rewrite Ta, Tb. pose proof (Hs _ _ Ra) as Tra. pose proof (Hs _ _ Rk) as Trk. assert (ka <> k) by (intros ->; apply Na; congruence).
    split.
    - destruct (Z.lt_ge_cases ka k); [apply Qlt_le_weak, F1; lia|apply F2; lia].
    - intros Lt. apply F1. rewrite Ea, Eb in Lt. split; [lia|]. nia. }
  assert (Ord : pairwise_ (fun a b => CoaTime a < CoaTime b) g) by (eapply pairwise_group; [|exact Ig]; rewrite chop_concat; exact Inc).
  assert (Em : m = x').
  { rewrite Eg in Ixg. apply in_app_or in Ixg. rewrite Forall_forall in D1, D2. destruct Ixg as [J|[J|J]]; [|exact J|].
    - exfalso. specialize (D1 x' J). assert (CoaTime m <> CoaTime x').
      { apply in_split in J. destruct J as (u & v & ->). rewrite Eg in Ord. replace ((u ++ x' :: v) ++ m :: l2) with (u ++ x' :: v ++ m :: l2) in Ord by (rewrite <- app_assoc; reflexivity). apply (pairwise_in _ u x' v m l2) in Ord. cbv beta in Ord. lia. }
      destruct (Best m) as (L & _); [rewrite Eg; apply in_or_app; right; left; reflexivity|assumption|]. apply (Qlt_irrefl (TRIG_COA x')). eapply Qlt_le_trans; eassumption.
    - exfalso. specialize (D2 x' J). assert (CoaTime m < CoaTime x').
      { apply in_split in J. destruct J as (u & v & ->). rewrite Eg in Ord. apply (pairwise_in _ l1 m u x' v) in Ord. exact Ord. }
      destruct (Best m) as (_ & L); [rewrite Eg; apply in_or_app; right; left; reflexivity|lia|]. apply (Qlt_irrefl (TRIG_COA x')). eapply Qle_lt_trans; [exact D2|apply L; assumption]. }
  subst m. destruct Ae, Ax. unfold same_source. rewrite Id, Id'. repeat split; congruence.
Qed.
End Two.

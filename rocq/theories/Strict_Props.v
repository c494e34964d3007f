(** C127: wider windows and higher thresholds of the trigger stage. *)
From Coq Require Import List ZArith QArith Bool Lia Lqa Ascii.
From Verif Require Import Lib LibFacts Timeline_Model Trigger_Model Trigger_Spec Trigger_Proofs Trigger_Props Strict_Spec Strict_Proofs.
Import ListNotations.
Open Scope Z_scope.

(** A longer interval between events, or a wider marginal window, only drops events: every event of the wider settings is one of the narrower settings, with the same identifier, time, place and values. So there are no more of them. *)
Theorem C127_wider_windows :
  forall c p p' read reg w1 w2 s e w1' w2' es es', wider p p' ->
  trigger_batch c p read reg w1 s e = Ret (w1', es) -> trigger_batch c p' read reg w2 s e = Ret (w2', es') ->
  (forall e', In e' es' -> exists e, In e es /\ same_source e e')
  /\ (forall t0 data, read s e = Ret data -> 0 < delta c -> sampled c t0 data -> 0 <= marginal_window p' -> 0 <= min_event_interval p' -> (length es' <= length es)%nat).
Proof.
  intros c p p' read reg w1 w2 s e w1' w2' es es' W B B'.
  assert (Main : forall e', In e' es' -> exists e, In e es /\ same_source e e').
  { intros e' I'. destruct (trigger_batch_inv _ _ _ _ _ _ _ _ _ B) as (data & cs & rf & Rd & C & R & -> & _). destruct (trigger_batch_inv _ _ _ _ _ _ _ _ _ B') as (data' & cs' & rf' & Rd' & C' & R' & -> & _).
    assert (data' = data) by congruence. subst data'.
    assert (Th : batch_threshold c p' data = batch_threshold c p data).
    { unfold batch_threshold, get_threshold, trigger_on. rewrite (w_method _ _ W), (w_static _ _ W), (w_madw _ _ W), (w_mad _ _ W), (w_medw _ _ W), (w_med _ _ W), (w_norm _ _ W). reflexivity. }
    rewrite Th in C'. apply filter_events_in in I'. destruct I' as (I' & Bt & Rg).
    destruct (wider_events c p p' data _ cs cs' rf rf' W (batch_threshold_length c p data) C C' R R' e' I') as (e0 & I0 & S). exists e0. split; [|exact S].
    apply filter_events_in. pose proof S as (_ & Et & _ & _ & _ & Ex & Ey & Ez). split; [exact I0|]. rewrite Et. split; [exact Bt|]. destruct reg as [g|]; [|exact I]. unfold in_region in *. rewrite Ex, Ey, Ez. exact Rg. }
  split; [exact Main|]. intros t0 data Rd Hd Hs M0 I0.
  assert (Nd : NoDup (map (fun x => CoaTime (cand x)) es')).
  { destruct (C30_events_respect_the_interval c p' t0 data Hd Hs) as (_ & Pw). specialize (Pw read reg w2 s e w2' es' Rd B'). clear - Pw M0 I0. induction es' as [|x l IH]; [constructor|]. destruct Pw as (F & Pw).
    cbn [map]. constructor; [|apply IH, Pw]. intros I. apply in_map_iff in I. destruct I as (y & Ey & Iy). rewrite Forall_forall in F. specialize (F y Iy). unfold later_by in F. lia. }
  rewrite <- (map_length (fun x => CoaTime (cand x)) es'), <- (map_length (fun x => CoaTime (cand x)) es). apply NoDup_incl_length; [exact Nd|].
  intros t It. apply in_map_iff in It. destruct It as (e' & <- & I'). destruct (Main e' I') as (e0 & J & (_ & Et & _)). rewrite <- Et. apply (in_map (fun x => CoaTime (cand x))), J.
Qed.
Print Assumptions C127_wider_windows.

(** Raising the static threshold, or a multiplier, raises the threshold of every sample (the median ratio for coalescence that is not negative). *)
Lemma thresholds_ordered c p p' data : stricter p p' -> (threshold_method p = MedianRatio -> Forall (fun r => 0 <= (if normalise_coalescence p then COA_N r else COA r))%Q data) ->
  Forall2 Qle (batch_threshold c p data) (batch_threshold c p' data).
Proof.
  intros S Hp. pose proof (batch_threshold_length c p data) as L1. pose proof (batch_threshold_length c p' data) as L2.
  assert (At : forall i x y, rd (batch_threshold c p data) i = Some x -> rd (batch_threshold c p' data) i = Some y -> (x <= y)%Q).
  { intros i x y Hx Hy. pose proof (rd_bounds _ _ _ _ Hx) as Bi. unfold batch_threshold in *. set (rate := Qmake _ _) in *.
    assert (Ev : map (trigger_on p') data = map (trigger_on p) data) by (apply map_ext; intros r; unfold trigger_on; rewrite (s_norm _ _ S); reflexivity).
    rewrite Ev in Hy, L2. set (v := map (trigger_on p) data) in *. assert (Lv : length v = length data) by apply map_length.
    rewrite threshold_at in Hx by lia. rewrite threshold_at in Hy by lia. rewrite (s_method _ _ S), (s_madw _ _ S), (s_medw _ _ S) in Hy.
    assert (Cl : forall q, 1 <= chunk_length q) by (intros q; unfold chunk_length; lia).
    destruct (threshold_method p) eqn:Em.
    - assert (x = (0 + static_threshold p)%Q) by congruence. assert (y = (0 + static_threshold p')%Q) by congruence. subst. pose proof (s_static _ _ S). lra.
    - cbv zeta in *. set (ch := chunk_of _ v i) in *. assert (x = (median ch + calculate_mad ch * mad_multiplier p)%Q) by congruence. assert (y = (median ch + calculate_mad ch * mad_multiplier p')%Q) by congruence. subst.
      apply Qplus_le_compat; [apply Qle_refl|]. rewrite !(Qmult_comm (calculate_mad ch)). apply Qmult_le_compat_r; [apply (s_mad _ _ S)|].
      apply (mad_nonneg ch); [apply chunk_nonempty; [apply Cl|lia]|apply mad_ok].
    - set (ch := chunk_of _ v i) in *. assert (x = (median ch * median_multiplier p)%Q) by congruence. assert (y = (median ch * median_multiplier p')%Q) by congruence. subst.
      rewrite !(Qmult_comm (median ch)). apply Qmult_le_compat_r; [apply (s_med _ _ S)|].
      apply (median_ge 0 ch); [apply chunk_nonempty; [apply Cl|lia]|apply median_ok|]. specialize (Hp eq_refl).
      assert (Fv : Forall (fun q => 0 <= q)%Q v) by (apply Forall_map; exact Hp). clear - Fv. rewrite Forall_forall in *. intros q Iq. apply Fv. unfold ch, chunk_of in Iq.
      assert (Is : forall k l (z : Q), In z (skipn k l) -> In z l) by (intros k l z Iz; rewrite <- (firstn_skipn k l); apply in_or_app; right; exact Iz).
      assert (If : forall k l (z : Q), In z (firstn k l) -> In z l) by (intros k l z Iz; rewrite <- (firstn_skipn k l); apply in_or_app; left; exact Iz).
      eapply Is, If, Iq. }
  revert At L1 L2. generalize (batch_threshold c p data) (batch_threshold c p' data). intros a b At L1 L2. assert (Le : length a = length b) by congruence. clear L1 L2. revert b Le At.
  induction a as [|x a IH]; intros [|y b] Le At; try discriminate; constructor.
  - apply (At 0); reflexivity.
  - apply IH; [cbn in Le; congruence|]. intros i u v Hu Hv. pose proof (rd_bounds _ _ _ _ Hu). apply (At (i + 1)); rewrite rd_cons_pos by lia; replace (i + 1 - 1) with i by lia; assumption.
Qed.

Lemma events_at_same c p p' data th es : stricter p p' -> events_at c p' data th es -> events_at c p data th es.
Proof.
  intros S (cs & C & R). exists cs.
  assert (Mk : forall i rows, make_candidate p' i rows = make_candidate p i rows).
  { intros i [|r rows]; [reflexivity|]. unfold make_candidate, trigger_on. rewrite (s_norm _ _ S), (s_marginal _ _ S), (s_interval _ _ S). reflexivity. }
  assert (Ms : forall l : list (Z * list scanrow), map_some (fun x => make_candidate p' (fst x) (snd x)) l = map_some (fun x => make_candidate p (fst x) (snd x)) l).
  { induction l as [|x l IH]; [reflexivity|]. cbn [map_some]. rewrite Mk, IH. reflexivity. }
  assert (Nu : forall l k, number_events p' k l = number_events p k l).
  { induction l as [|x l IH]; intros k; [reflexivity|]. cbn [number_events]. rewrite IH. f_equal. f_equal. destruct l; [reflexivity|]. unfold separate. rewrite (s_marginal _ _ S). reflexivity. }
  split.
  - rewrite <- C. unfold identify_candidates. destruct (negb _); [reflexivity|]. rewrite Ms. unfold candidate_rows, above, trigger_on. rewrite (s_norm _ _ S). reflexivity.
  - rewrite <- R. unfold refine_candidates. rewrite Nu. reflexivity.
Qed.

(** Partial: what a higher threshold keeps. Every event of the higher threshold is at a time in the window of an event of the lower one, and not larger than it; every event of the lower threshold that reaches the higher one is at a time in the window of an event of the higher one, and not larger than it. An event is kept as it is if the stretch above the lower threshold around it is more than the event interval and the marginal window from all others. For normalised coalescence, without the comparison of the values in the first statement, and without the last one. *)
Theorem C127_higher_threshold_partial :
  forall c p p' t0 data es es', stricter p p' -> 0 < delta c -> sampled c t0 data -> 0 <= marginal_window p <= min_event_interval p ->
  (threshold_method p = MedianRatio -> Forall (fun r => 0 <= (if normalise_coalescence p then COA_N r else COA r))%Q data) ->
  let th := batch_threshold c p data in let th' := batch_threshold c p' data in
  events_at c p data th es -> events_at c p' data th' es' ->
  (forall e', In e' es' -> exists e, In e es /\ covers e e' /\ (normalise_coalescence p = false -> (TRIG_COA (cand e') <= TRIG_COA (cand e))%Q))
  /\ (forall e, In e es -> hit_time p data th' (CoaTime (cand e)) -> exists e', In e' es' /\ covers e' e /\ (TRIG_COA (cand e) <= TRIG_COA (cand e'))%Q)
  /\ (forall e, normalise_coalescence p = false -> In e es -> hit_time p data th' (CoaTime (cand e)) ->
        stands_alone p data th (min_event_interval p + marginal_window p) (CoaTime (cand e)) -> exists e', In e' es' /\ same_source e e').
Proof.
  intros c p p' t0 data es es' S Hd Hs Hm Hp th th' E E'. pose proof (thresholds_ordered c p p' data S Hp) as F. fold th th' in F.
  apply (events_at_same c p p' data th' es' S) in E'. pose proof (batch_threshold_length c p data : length data = length th) as L.
  split; [|split].
  - intros e' I. exact (higher_covered c p t0 data Hd Hs Hm th th' es es' L F E E' e' I).
  - intros e I H. exact (lower_covered c p t0 data Hd Hs Hm th th' es es' L F E E' e I H).
  - intros e Nn I H A. exact (alone_kept c p t0 data Hd Hs Hm th th' es es' L F E E' e Nn I H A).
Qed.
Print Assumptions C127_higher_threshold_partial.

Definition strict_settings (q : Q) (m i : Z) : params :=
  {| threshold_method := Static; static_threshold := q; mad_window_length := 1; mad_multiplier := 1;
     median_window_length := 1; median_multiplier := 1; marginal_window := m; min_event_interval := i;
     normalise_coalescence := false; pad := 10; write_event_time_windows := false |}.
Lemma strict_higher q q' m i : (q <= q')%Q -> stricter (strict_settings q m i) (strict_settings q' m i).
Proof. intros H. constructor; cbn; try reflexivity; try apply Qle_refl. exact H. Qed.

(** False: that a higher threshold leaves some of the events and adds none. One event can be split in two; and an event above both thresholds can give way to a sample that was part of a later, longer stretch. *)
Definition split_data : list scanrow := series 100 [1; 6; 5; 5; 5; 5; 5; 5; 5; 7; 1]%Q.
Definition lost_data : list scanrow := series 100 [6; 1; 1; 1; 1; 7; 5; 5; 5; 5; 5; 5; 8; 1]%Q.
Definition event_times (q : Q) (m i : Z) (data : list scanrow) : option (list (Z * Q)) :=
  let p := strict_settings q m i in
  match identify_candidates p data (batch_threshold hz1 p data) with
  | Ret cs => match refine_candidates hz1 p cs with Ret es => Some (map (fun e => (CoaTime (cand e), TRIG_COA (cand e))) es) | _ => None end
  | _ => None
  end.
Theorem C127_higher_threshold_refuted :
  (exists c p p' t0 data es es', stricter p p' /\ 0 < delta c /\ sampled c t0 data /\ 0 <= marginal_window p <= min_event_interval p
     /\ events_at c p data (batch_threshold c p data) es /\ events_at c p' data (batch_threshold c p' data) es' /\ (length es < length es')%nat)
  /\ (exists c p p' t0 data es es' e, stricter p p' /\ 0 < delta c /\ sampled c t0 data /\ 0 <= marginal_window p <= min_event_interval p
     /\ events_at c p data (batch_threshold c p data) es /\ events_at c p' data (batch_threshold c p' data) es'
     /\ In e es /\ (static_threshold p' <= TRIG_COA (cand e))%Q /\ Forall (fun e' => CoaTime (cand e') <> CoaTime (cand e)) es').
Proof.
  assert (Ev : forall q m i data l, event_times q m i data = Some l -> exists es, events_at hz1 (strict_settings q m i) data (batch_threshold hz1 (strict_settings q m i) data) es /\ map (fun e => (CoaTime (cand e), TRIG_COA (cand e))) es = l).
  { intros q m i data l H. unfold event_times in H. cbv zeta in H. destruct (identify_candidates _ _ _) as [cs| |] eqn:E1; try discriminate. destruct (refine_candidates _ _ _) as [es| |] eqn:E2; try discriminate.
    exists es. split; [exists cs; split; assumption|congruence]. }
  split.
  - destruct (Ev 5%Q 1 4 split_data [(109, 7%Q)]) as (es & E & M); [vm_compute; reflexivity|]. destruct (Ev (11 # 2)%Q 1 4 split_data [(101, 6%Q); (109, 7%Q)]) as (es' & E' & M'); [vm_compute; reflexivity|].
    exists hz1, (strict_settings 5 1 4), (strict_settings (11 # 2) 1 4), 100, split_data, es, es'.
    split; [apply strict_higher; discriminate|]. split; [reflexivity|]. split; [apply series_sampled|]. split; [cbn; lia|]. split; [exact E|]. split; [exact E'|].
    apply (f_equal (@length _)) in M, M'. rewrite map_length in M, M'. rewrite M, M'. cbn. lia.
  - destruct (Ev 5%Q 1 4 lost_data [(100, 6%Q); (112, 8%Q)]) as (es & E & M); [vm_compute; reflexivity|]. destruct (Ev (11 # 2)%Q 1 4 lost_data [(105, 7%Q); (112, 8%Q)]) as (es' & E' & M'); [vm_compute; reflexivity|].
    destruct es as [|e es]; [discriminate|]. cbn [map] in M.
    assert (T1 : CoaTime (cand e) = 100) by congruence. assert (T2 : TRIG_COA (cand e) = 6%Q) by congruence.
    exists hz1, (strict_settings 5 1 4), (strict_settings (11 # 2) 1 4), 100, lost_data, (e :: es), es', e.
    split; [apply strict_higher; discriminate|]. split; [reflexivity|]. split; [apply series_sampled|]. split; [cbn; lia|]. split; [exact E|]. split; [exact E'|].
    split; [left; reflexivity|]. split; [rewrite T2; discriminate|]. rewrite T1. apply Forall_forall. intros x I Ex.
    apply (in_map (fun e => (CoaTime (cand e), TRIG_COA (cand e)))) in I. rewrite M', Ex in I. destruct I as [I|[I|[]]]; discriminate.
Qed.
Print Assumptions C127_higher_threshold_refuted.

Example C127_example :
  wider (strict_settings 5 1 2) (strict_settings 5 1 4) /\ event_times 5 1 2 lost_data = Some [(100, 6%Q); (112, 8%Q)]
  /\ event_times 5 1 2 (series 100 [6; 1; 1; 1; 1; 7; 1]%Q) = Some [(100, 6%Q); (105, 7%Q)] /\ event_times 5 1 4 (series 100 [6; 1; 1; 1; 1; 7; 1]%Q) = Some [(105, 7%Q)]
  /\ stands_alone (strict_settings 5 1 2) (series 100 [6; 1; 1; 1; 1; 7; 1]%Q) (batch_threshold hz1 (strict_settings 5 1 2) (series 100 [6; 1; 1; 1; 1; 7; 1]%Q)) 3 100.
Proof.
  split; [constructor; cbn; try reflexivity; lia|]. split; [vm_compute; reflexivity|]. split; [vm_compute; reflexivity|]. split; [vm_compute; reflexivity|].
  set (d := series _ _). set (th := batch_threshold _ _ _).
  assert (Eth : th = repeat (0 + 5)%Q 7) by reflexivity.
  assert (Hits : forall i, hit (strict_settings 5 1 2) d th i <-> i = 0 \/ i = 5).
  { intros i. split.
    - intros (r & x & Hr & Hx & Hle). pose proof (rd_bounds _ _ _ _ Hr) as Bi. change (length d) with 7%nat in Bi. cbn in Hle.
      assert (Hi : i = 0 \/ i = 1 \/ i = 2 \/ i = 3 \/ i = 4 \/ i = 5 \/ i = 6) by lia. destruct Hi as [-> | [-> | [-> | [-> | [-> | [-> | ->]]]]]]; auto; exfalso; cbn in Hr, Hx; injection Hr as <-; injection Hx as <-; apply Hle; reflexivity.
    - intros [-> | ->]; (eexists; eexists; split; [reflexivity|]; split; [reflexivity|]; cbn; discriminate). }
  exists 0, 0, 0, (row_at 100 6), (row_at 100 6), (row_at 100 6).
  split. { split; [lia|]. split; [intros i Hi; apply Hits; lia|]. split; rewrite Hits; lia. }
  split; [lia|]. split; [reflexivity|]. split; [reflexivity|]. split; [reflexivity|]. split; [reflexivity|].
  intros u (i & r & Hr & <- & Hh). apply Hits in Hh. destruct Hh as [-> | ->]; cbn in Hr; injection Hr as <-; cbn; lia.
Qed.

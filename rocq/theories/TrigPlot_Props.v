(** C116: the trigger summary shows what was triggered. *)
From Coq Require Import String Ascii.
From Coq Require Import List ZArith QArith Bool Lia Lqa.
From Verif Require Import Lib LibFacts Timeline_Model Timeline_Spec Lut_Model Lut_Spec Lut_Proofs Avail_Model Trigger_Model Trigger_Spec Trigger_Proofs TrigPlot_Model TrigPlot_Spec TrigPlot_Proofs.
From Verif Require Timeline_Props Avail_Proofs Trigger_Props.
Import ListNotations.
Open Scope Z_scope.

(** Partial: for one phase, or two recorded at the same stations. The lines show, from the time of each row of the table on, for how many stations the phase is available ("*": every phase is; then no
    station has only one of them); the last number up to the end of the period. All numbers are within the limits of the axis, every phase is shown once, P in the first colour and S in the second. *)
Theorem C116_availability_partial :
  forall t ks endtime, table_of t ks -> ks <> [] -> at_rows t <> [] -> (exists p q, forall x, phases_of ks x -> x = p \/ x = q) ->
  (forall p q, phases_of ks p -> phases_of ks q -> stations_of ks p = stations_of ks q /\ (String.prefix p q = true -> p = q)) ->
  exists lines lims, plot_availability t endtime = Ret (lines, lims)
  /\ NoDup (map al_phase lines) /\ (forall p, phases_of ks p -> exists a, In a lines /\ (al_phase a = p \/ al_phase a = "*"%string))
  /\ (forall a, In a lines -> (al_phase a = "*"%string \/ phases_of ks (al_phase a)) /\ length (al_points a) = S (length (at_rows t))
      /\ (forall i tm row, rd (at_rows t) i = Some (tm, row) -> exists n, rd (al_points a) i = Some (tm, n) /\ shown ks (al_phase a) row n /\ fst lims <= n <= snd lims)
      /\ exists tm row n, rd (at_rows t) (Z.of_nat (length (at_rows t)) - 1) = Some (tm, row) /\ rd (al_points a) (Z.of_nat (length (at_rows t))) = Some (endtime, n) /\ shown ks (al_phase a) row n)
  /\ ((forall x, phases_of ks x -> x = "P"%string \/ x = "S"%string) -> forall a, In a lines -> (al_phase a = "P"%string -> al_colour a = 0) /\ (al_phase a = "S"%string -> al_colour a = 1)).
Proof.
  intros t ks endtime T Nk Nr (pa & pb & Two) Same.
  assert (Er : exists rows r0, at_rows t = rows ++ [r0]) by (destruct (exists_last Nr) as (rows & r0 & E); exists rows, r0; exact E). destruct Er as (rows & r0 & Er).
  assert (Ph : forall x, phases_of ks x <-> In x (sorted_set (map snd ks))).
  { intros x. rewrite sorted_set_in, in_map_iff. split; [intros (s & I); exists (s, x); auto|]. intros ((s & y) & <- & I). exists s. exact I. }
  pose proof (sorted_set_ascending (map snd ks)) as As.
  assert (Fin : forall L d, by_phase t (sorted_set (map snd ks)) = Ret (L, d) -> L <> [] -> NoDup (map fst L) ->
    (forall x, In x L -> fst x = "*"%string \/ phases_of ks (fst x)) -> (forall p, phases_of ks p -> exists x, In x L /\ (fst x = p \/ fst x = "*"%string)) ->
    (forall x r, In x L -> In r (at_rows t) -> shown ks (fst x) (snd r) (drawn t d (fst x) r) /\ 0 <= drawn t d (fst x) r) ->
    ((forall x, phases_of ks x -> x = "P"%string \/ x = "S"%string) -> forall x, In x L -> (fst x = "P"%string -> snd x = 0) /\ (fst x = "S"%string -> snd x = 1)) ->
    exists lines lims, plot_availability t endtime = Ret (lines, lims)
  /\ NoDup (map al_phase lines) /\ (forall p, phases_of ks p -> exists a, In a lines /\ (al_phase a = p \/ al_phase a = "*"%string))
  /\ (forall a, In a lines -> (al_phase a = "*"%string \/ phases_of ks (al_phase a)) /\ length (al_points a) = S (length (at_rows t))
      /\ (forall i tm row, rd (at_rows t) i = Some (tm, row) -> exists n, rd (al_points a) i = Some (tm, n) /\ shown ks (al_phase a) row n /\ fst lims <= n <= snd lims)
      /\ exists tm row n, rd (at_rows t) (Z.of_nat (length (at_rows t)) - 1) = Some (tm, row) /\ rd (al_points a) (Z.of_nat (length (at_rows t))) = Some (endtime, n) /\ shown ks (al_phase a) row n)
  /\ ((forall x, phases_of ks x -> x = "P"%string \/ x = "S"%string) -> forall a, In a lines -> (al_phase a = "P"%string -> al_colour a = 0) /\ (al_phase a = "S"%string -> al_colour a = 1))).
  { intros L d B NL ND In1 In2 Sh Co. destruct (plot_lines t endtime ks L d r0 rows T Er B NL Sh) as (lines & lims & E & EL & H).
    assert (Il : forall a, In a lines -> In (al_phase a, al_colour a) L) by (intros a Ia; rewrite <- EL; apply in_map_iff; exists a; auto).
    exists lines, lims. split; [exact E|]. split; [rewrite <- EL, map_map in ND; exact ND|]. split.
    { intros p Hp. destruct (In2 p Hp) as (x & Ix & Hx). rewrite <- EL in Ix. apply in_map_iff in Ix. destruct Ix as (a & <- & Ia). exists a. auto. }
    split; [|intros F a Ia; apply (Co F (al_phase a, al_colour a) (Il a Ia))].
    intros a Ia. split; [apply (In1 (al_phase a, al_colour a) (Il a Ia))|]. destruct (H a Ia) as (n0 & Ep & En & Lm). split; [rewrite Ep, app_length, map_length; cbn; lia|]. split.
    - intros i tm row Ei. pose proof (rd_bounds _ _ _ _ Ei). assert (Ei' : rd (al_points a) i = Some (tm, drawn t d (al_phase a) (tm, row))).
      { rewrite Ep, rd_app1 by (rewrite map_length; lia). rewrite rd_map, Ei. reflexivity. }
      eexists. split; [exact Ei'|]. split; [|apply (Lm tm); apply rd_in in Ei'; exact Ei']. apply (Sh (al_phase a, al_colour a) (tm, row) (Il a Ia)). apply rd_in in Ei. exact Ei.
    - destruct r0 as (tm & row). exists tm, row, n0. split; [|split].
      + rewrite Er, app_length. cbn [length]. rewrite rd_app2 by lia. replace (Z.of_nat (length rows + 1) - 1 - Z.of_nat (length rows)) with 0 by lia. reflexivity.
      + rewrite Ep, rd_app2 by (rewrite map_length; lia). rewrite map_length, Z.sub_diag. reflexivity.
      + rewrite En. apply (Sh (al_phase a, al_colour a) (tm, row) (Il a Ia)). rewrite Er. apply in_or_app. right. left. reflexivity. }
  destruct (sorted_set (map snd ks)) as [|p [|q [|x l]]] eqn:Es.
  - exfalso. destruct ks as [|(s, p) ks]; [contradiction|]. apply (Ph p). exists s. left. reflexivity.
  - assert (Pp : phases_of ks p) by (apply Ph; left; reflexivity).
    apply (Fin [(p, if String.eqb p "P" then 0 else 1)] 1); [reflexivity|discriminate|repeat constructor; intros []|..].
    + intros x [<-|[]]. right. exact Pp.
    + intros y Hy. apply Ph in Hy. destruct Hy as [<-|[]]. eexists. split; [left; reflexivity|left; reflexivity].
    + intros x r [<-|[]] Ir. apply (drawn_phase t ks p r T Ir Pp).
    + intros _ x [<-|[]]. cbn [fst snd]. split; intros ->; reflexivity.
  - assert (Pp : phases_of ks p) by (apply Ph; left; reflexivity). assert (Pq : phases_of ks q) by (apply Ph; right; left; reflexivity).
    destruct As as (Lt' & _). assert (N : p <> q) by (intros ->; rewrite compare_refl in Lt'; discriminate).
    assert (Hsel : forall y z, phases_of ks z -> (y = p \/ y = q) -> True) by auto. clear Hsel.
    assert (Con : forall z, z = p \/ z = q -> forall r, In r (at_rows t) -> map snd (filter (fun x : string * Z => contains ("_" ++ z) (fst x)) (combine (at_cols t) (snd r))) = map snd (pv ks (snd r) z)).
    { intros z Hz r Ir. rewrite (to_cols t ks T). apply selected. intros (s & y) I. destruct (to_plain t ks T s y I) as (Ps & Py & _). cbn [snd]. apply contains_key; [exact Ps|exact Py|].
      assert (Hz' : phases_of ks z) by (apply Ph; destruct Hz as [->| ->]; cbn; auto). assert (Hy : phases_of ks y) by (exists s; exact I). apply (Same z y Hz' Hy). }
    assert (Ec : combine (select (contains ("_" ++ p)) t) (select (contains ("_" ++ q)) t)
                 = map (fun r : Z * list Z => ((fst r, map snd (pv ks (snd r) p)), (fst r, map snd (pv ks (snd r) q)))) (at_rows t)).
    { unfold select. assert (G : forall l, (forall r, In r l -> In r (at_rows t)) ->
        combine (map (fun r : Z * list Z => (fst r, map snd (filter (fun x => contains ("_" ++ p) (fst x)) (combine (at_cols t) (snd r))))) l)
                (map (fun r : Z * list Z => (fst r, map snd (filter (fun x => contains ("_" ++ q) (fst x)) (combine (at_cols t) (snd r))))) l)
        = map (fun r : Z * list Z => ((fst r, map snd (pv ks (snd r) p)), (fst r, map snd (pv ks (snd r) q)))) l).
      { induction l as [|r l IH]; intros Hl; [reflexivity|]. cbn [map combine]. rewrite IH by (intros r' I; apply Hl; right; exact I).
        rewrite (Con p (or_introl eq_refl) r (Hl r (or_introl eq_refl))), (Con q (or_intror eq_refl) r (Hl r (or_introl eq_refl))). reflexivity. }
      apply G. auto. }
    assert (St : stations_of ks p = stations_of ks q) by apply (Same p q Pp Pq).
    assert (Len : forall r, In r (at_rows t) -> length (map snd (pv ks (snd r) p)) = length (map snd (pv ks (snd r) q))).
    { intros r Ir. destruct (to_rows t ks T r Ir) as (Lr & _). rewrite !map_length, <- (map_length fst (pv ks (snd r) p)), <- (map_length fst (pv ks (snd r) q)), !pv_stations by exact Lr. rewrite St. reflexivity. }
    assert (B : by_phase t [p; q] = if forallb (fun r : Z * list Z => forallb (fun y : Z * Z => fst y =? snd y) (combine (map snd (pv ks (snd r) p)) (map snd (pv ks (snd r) q)))) (at_rows t)
                then Ret ([("*"%string, 2)], 2) else Ret ([(p, 0); (q, 1)], 1)).
    { cbn [by_phase]. rewrite Ec.
      assert (F1 : forallb (fun x : (Z * list Z) * (Z * list Z) => Nat.eqb (length (snd (fst x))) (length (snd (snd x))))
                   (map (fun r : Z * list Z => ((fst r, map snd (pv ks (snd r) p)), (fst r, map snd (pv ks (snd r) q)))) (at_rows t)) = true).
      { apply forallb_forall. intros x Ix. apply in_map_iff in Ix. destruct Ix as (r & <- & Ir). cbn [fst snd]. apply Nat.eqb_eq. apply Len. exact Ir. }
      rewrite F1. cbn [negb].
      assert (F2 : forall l, forallb (fun x : (Z * list Z) * (Z * list Z) => forallb (fun y : Z * Z => fst y =? snd y) (combine (snd (fst x)) (snd (snd x))))
                   (map (fun r : Z * list Z => ((fst r, map snd (pv ks (snd r) p)), (fst r, map snd (pv ks (snd r) q)))) l)
                 = forallb (fun r : Z * list Z => forallb (fun y : Z * Z => fst y =? snd y) (combine (map snd (pv ks (snd r) p)) (map snd (pv ks (snd r) q)))) l).
      { induction l as [|r l IH]; [reflexivity|]. cbn [map forallb fst snd]. rewrite IH. reflexivity. }
      rewrite F2. reflexivity. }
    destruct (forallb _ (at_rows t)) eqn:Fa.
    + apply (Fin [("*"%string, 2)] 2 B); [discriminate|repeat constructor; intros []|..].
      * intros x [<-|[]]. left. reflexivity.
      * intros y Hy. eexists. split; [left; reflexivity|right; reflexivity].
      * intros x r [<-|[]] Ir. cbn [fst]. apply (drawn_both t ks p q r T Ir N); [intros x; rewrite Ph; cbn; intuition|exact St|].
        apply equal_lists; [apply Len; exact Ir|]. rewrite forallb_forall in Fa. apply (Fa r Ir).
      * intros _ x [<-|[]]. split; discriminate.
    + apply (Fin [(p, 0); (q, 1)] 1 B); [discriminate|..].
      * cbn. constructor; [intros [E|[]]; congruence|]. constructor; [intros []|constructor].
      * intros x [<-|[<-|[]]]; right; assumption.
      * intros y Hy. apply Ph in Hy. destruct Hy as [<-|[<-|[]]]; [exists (p, 0)|exists (q, 1)]; (split; [|left; reflexivity]); cbn; auto.
      * intros x r [<-|[<-|[]]] Ir; [apply (drawn_phase t ks p r T Ir Pp)|apply (drawn_phase t ks q r T Ir Pq)].
      * intros PS. assert (p = "P"%string /\ q = "S"%string) as (-> & ->).
        { destruct (PS p Pp) as [->| ->], (PS q Pq) as [->| ->]; try contradiction (N eq_refl); [auto|]. vm_compute in Lt'. discriminate Lt'. }
        intros x [<-|[<-|[]]]; cbn; split; intros; try reflexivity; discriminate.
  - exfalso. destruct As as (A1 & A2 & _). assert (N1 : p <> q) by (intros ->; rewrite compare_refl in A1; discriminate). assert (N2 : q <> x) by (intros ->; rewrite compare_refl in A2; discriminate).
    assert (N3 : p <> x). { intros <-. rewrite String.compare_antisym, A1 in A2. discriminate. }
    destruct (Two p) as [E1|E1], (Two q) as [E2|E2], (Two x) as [E3|E3]; try (apply Ph; cbn; auto); congruence.
Qed.
Print Assumptions C116_availability_partial.

(** Refuted: with three phases the count is not divided by their number: one station is shown as three. *)
Theorem C116_three_phases_refuted :
  exists t ks endtime lines lims a, table_of t ks /\ (forall s p, In (s, p) ks -> s = "A"%string) /\ plot_availability t endtime = Ret (lines, lims) /\ In a lines /\ al_phase a = "*"%string /\ In (0, 3) (al_points a).
Proof.
  exists (mk_atable ["A_P"; "A_S"; "A_R"]%string [(0, [1; 1; 1])]), [("A", "P"); ("A", "S"); ("A", "R")]%string, 10. do 3 eexists. split.
  { split; [reflexivity| | |].
    - repeat constructor; cbn; intuition congruence.
    - assert (Pl : forall x, In x ["A"; "P"; "S"; "R"]%string -> plain_name x) by (intros x I; cbn in I; unfold plain_name; destruct I as [<-|[<-|[<-|[<-|[]]]]]; cbn; intuition discriminate).
      intros s p I. cbn in I. destruct I as [E|[E|[E|[]]]]; injection E as <- <-; (split; [apply Pl; cbn; auto|]; split; [apply Pl; cbn; auto 10|discriminate]).
    - intros r [<-|[]]. cbn. split; [reflexivity|]. intros v [<-|[<-|[<-|[]]]]; auto. }
  split; [intros s p I; cbn in I; intuition congruence|]. split; [vm_compute; reflexivity|]. split; [left; reflexivity|]. split; [reflexivity|left; reflexivity].
Qed.
Print Assumptions C116_three_phases_refuted.

(** The stations of the map: all those with a column, or those available in some row of the table. *)
Theorem C116_stations :
  forall t ks s, table_of t ks ->
  (In s (map_stations true t) <-> exists p, In (s, p) ks) /\ (In s (map_stations false t) <-> exists p r, In r (at_rows t) /\ available ks (snd r) s p).
Proof.
  intros t ks s T. unfold map_stations. rewrite (to_cols t ks T). split.
  - rewrite map_map, in_map_iff. split.
    + intros ((s' & p) & E & I). destruct (to_plain t ks T s' p I) as (Ps & Pp & _). rewrite head_key in E by assumption. subst s'. exists p. exact I.
    + intros (p & I). destruct (to_plain t ks T s p I) as (Ps & Pp & _). exists (s, p). split; [apply head_key; assumption|exact I].
  - rewrite in_map_iff.
    assert (Col : forall s' p i, rd ks i = Some (s', p) -> exists v, column t (key (s', p)) = Ret v /\ forall n, In n v <-> exists r, In r (at_rows t) /\ rd (snd r) i = Some n).
    { intros s' p i Ei. unfold column. rewrite (to_cols t ks T), (Avail_Proofs.col_index_ok (map key ks) 0 i (key (s', p))).
      - cbn [Z.add]. eexists. split; [reflexivity|]. intros n. rewrite in_map_iff.
        assert (V : forall r, In r (at_rows t) -> exists w, rd (snd r) i = Some w).
        { intros r Ir. destruct (to_rows t ks T r Ir) as (Lr & _). pose proof (rd_bounds _ _ _ _ Ei). apply rd_in_range. lia. }
        split; intros (r & H1 & H2).
        + destruct (V r H2) as (w & Ew). rewrite Ew in H1. exists r. split; [exact H2|congruence].
        + exists r. rewrite H2. auto.
      - apply (NoDup_map_inj key ks); [|apply (to_once t ks T)]. intros (a & b) (a' & b') I I' E. destruct (to_plain t ks T a b I) as (P1 & P2 & _). destruct (to_plain t ks T a' b' I') as (P3 & P4 & _).
        apply (f_equal (split_on underscore)) in E. unfold key in E. cbn [fst snd] in E. rewrite !split_key in E by assumption. congruence.
      - rewrite rd_map, Ei. reflexivity. }
    split.
    + intros (k & E & I). apply filter_In in I. destruct I as (I & B). apply in_map_iff in I. destruct I as ((s' & p) & <- & I). destruct (to_plain t ks T s' p I) as (Ps & Pp & _). rewrite head_key in E by assumption. subst s'.
      destruct (in_rd _ _ _ I) as (i & Ei). destruct (Col s p i Ei) as (v & Ev & Hv). rewrite Ev in B. apply existsb_exists in B. destruct B as (n & In' & En). apply Z.eqb_eq in En. subst n. apply Hv in In'.
      destruct In' as (r & Ir & Er). exists p, r. split; [exact Ir|]. exists i. auto.
    + intros (p & r & Ir & (i & Ei & Er)). pose proof (rd_in _ _ _ _ Ei) as I. destruct (to_plain t ks T s p I) as (Ps & Pp & _). exists (key (s, p)). split; [apply head_key; assumption|].
      apply filter_In. split; [apply in_map_iff; exists (s, p); auto|]. destruct (Col s p i Ei) as (v & Ev & Hv). rewrite Ev. apply existsb_exists. exists 1. split; [|reflexivity]. apply Hv. exists r. auto.
Qed.
Print Assumptions C116_stations.

(** Refuted: availability is read in whole days, so a station with data on the day only outside the period is drawn as one with data. *)
Theorem C116_stations_refuted :
  exists c fs starttime endtime t, clock_ok c /\ read_availability 5 c fs starttime endtime = Some (Ret (Some t)) /\ In "A"%string (map_stations false t)
  /\ (exists r, In r (at_rows t) /\ fst r = starttime) /\ forall r, In r (at_rows t) -> starttime <= fst r <= endtime -> ~ available [("A", "P"); ("B", "P")]%string (snd r) "A" "P".
Proof.
  set (tb := mk_atable ["A_P"; "B_P"]%string [(0, [1; 1]); (1000000, [0; 1]); (2000000, [0; 1])]).
  exists Timeline_Props.hz50, (fun d => if d =? 0 then Some tb else None), 2000000, 3000000, tb. split; [apply Timeline_Props.hz50_ok|]. split; [vm_compute; reflexivity|]. split; [vm_compute; auto|].
  split; [eexists; split; [right; right; left; reflexivity|reflexivity]|].
  intros r I Hr (i & E1 & E2). cbn in I. pose proof (rd_bounds _ _ _ _ E1) as B. cbn in B. assert (i = 0 \/ i = 1) as [->| ->] by lia; [|discriminate E1].
  destruct I as [<-|[<-|[<-|[]]]]; cbn in Hr; [lia|discriminate E2|discriminate E2].
Qed.
Print Assumptions C116_stations_refuted.

(** The summary is that of the batch: period, number of events, the series triggered on and their peaks. *)
Theorem C116_events :
  forall c p read reg av all s e P, batch_summary c p read reg av all s e = Ret P ->
  forall w, exists w' es, trigger_batch c p read reg w s e = Ret (w', es)
  /\ tp_xlim P = (s, if e mod day c =? 0 then e - delta c else e) /\ tp_text P = (normalise_coalescence p, Z.of_nat (length es))
  /\ (forall t, In (true, t) (tp_lines P) <-> exists x, In x es /\ t = CoaTime (cand x)) /\ (reg = None -> forall t, ~ In (false, t) (tp_lines P)).
Proof.
  intros c p read reg av all s e P E w. destruct (batch_summary_inv _ _ _ _ _ _ _ _ _ E) as (data & cands & refined & Ed & Ec & Er & Es & Tb). destruct (Tb w) as (w' & Ew). exists w', (filter_events refined s (batch_last c e) reg).
  split; [exact Ew|]. destruct (summary_inv _ _ _ _ _ _ _ _ _ _ _ _ Es) as (_ & X & _ & _ & _ & Ln & _ & _ & _ & Tx & _). split; [exact X|]. split; [exact Tx|]. rewrite Ln. split.
  - intros t. rewrite in_app_iff. unfold event_lines. rewrite !in_map_iff. split.
    + intros [(x & Ex & _)|(x & Ex & I)]; [discriminate Ex|]. exists x. split; [exact I|]. cbn in Ex. congruence.
    + intros (x & I & ->). right. exists x. auto.
  - intros -> t I. apply in_app_or in I. destruct I as [[]|I]. unfold event_lines in I. apply in_map_iff in I. destruct I as (x & Ex & _). discriminate Ex.
Qed.
Print Assumptions C116_events.

(** The threshold is drawn on the series it was applied to, sample by sample: a sample triggers where the series reaches the line. *)
Theorem C116_threshold :
  forall c p read reg av all s e P data, batch_summary c p read reg av all s e = Ret P -> read s e = Ret data ->
  exists tr, rd (tp_traces P) (fst (tp_threshold P)) = Some tr /\ length tr = length data /\ length (snd (tp_threshold P)) = length data
  /\ (forall i r, rd data i = Some r -> exists x, rd tr i = Some (DT r, if normalise_coalescence p then COA_N r else COA r) /\ rd (snd (tp_threshold P)) i = Some (DT r, x))
  /\ forall i, hit p data (batch_threshold c p data) i <-> exists t v x, rd tr i = Some (t, v) /\ rd (snd (tp_threshold P)) i = Some (t, x) /\ (x <= v)%Q.
Proof.
  intros c p read reg av all s e P data E Ed. destruct (batch_summary_inv _ _ _ _ _ _ _ _ _ E) as (data' & cands & refined & Ed' & Ec & Er & Es & _). assert (data' = data) by congruence. subst data'.
  destruct (summary_inv _ _ _ _ _ _ _ _ _ _ _ _ Es) as (L & _ & Tr & Th & _). set (f := fun r => if normalise_coalescence p then COA_N r else COA r). set (th := batch_threshold c p data) in *.
  exists (combine (map DT data) (map f data)). rewrite Tr, Th. cbn [fst snd]. split.
  { unfold f. destruct (normalise_coalescence p); reflexivity. }
  assert (R1 : forall i, rd (combine (map DT data) (map f data)) i = option_map (fun r => (DT r, f r)) (rd data i)).
  { intros i. rewrite <- rd_map. f_equal. clear. induction data as [|r data IH]; [reflexivity|]. cbn. rewrite IH. reflexivity. }
  assert (R2 : forall i, rd (combine (map DT data) th) i = match rd data i, rd th i with Some r, Some x => Some (DT r, x) | _, _ => None end).
  { clear - L. revert L. generalize th as l. induction data as [|r data IH]; intros [|x l] L i; try discriminate L; [rewrite !rd_nil; reflexivity|]. cbn [map combine]. rewrite !rd_cons.
    destruct (i =? 0); [reflexivity|]. apply IH. injection L as L. exact L. }
  split; [rewrite combine_length, !map_length; lia|]. split; [rewrite combine_length, map_length; lia|]. split.
  - intros i r Ei. destruct (rd_in_range _ th i) as (x & Ex); [pose proof (rd_bounds _ _ _ _ Ei); lia|]. exists x. rewrite R1, R2, Ei, Ex. auto.
  - intros i. rewrite R1, R2. unfold hit. split.
    + intros (r & x & Hr & Hx & Le). exists (DT r), (f r), x. rewrite Hr, Hx. auto.
    + intros (t & v & x & H1 & H2 & Le). destruct (rd data i) as [r|]; [|discriminate H1]. destruct (rd th i) as [y|]; [|discriminate H2]. exists r, y. split; [reflexivity|]. split; [reflexivity|].
      cbn in H1. assert (v = f r) by congruence. assert (x = y) by congruence. subst. exact Le.
Qed.
Print Assumptions C116_threshold.

(** The windows: three spans per event, together its time window, the middle one the marginal window about its peak. With a region every sample that reaches the threshold is within a span; every span is
    that of an event of the batch or, grey, of one with its peak outside the period or the region. *)
Theorem C116_windows_partial :
  forall c p read reg av all s e P data t0 w w' es, 0 < delta c -> 0 <= marginal_window p -> 2 * marginal_window p <= min_event_interval p ->
  batch_summary c p read reg av all s e = Ret P -> read s e = Ret data -> sampled c t0 data -> trigger_batch c p read reg w s e = Ret (w', es) ->
  (forall x, In x es -> exists a m b, In a (tp_spans P) /\ In m (tp_spans P) /\ In b (tp_spans P) /\ sp_kind a = Interval /\ sp_kind m = Marginal /\ sp_kind b = Interval
     /\ (forall t, MinTime (cand x) <= t <= MaxTime (cand x) <-> within a t \/ within m t \/ within b t) /\ (forall t, within m t <-> Z.abs (t - CoaTime (cand x)) <= marginal_window p))
  /\ (reg <> None -> forall i r, rd data i = Some r -> hit p data (batch_threshold c p data) i -> exists sp, In sp (tp_spans P) /\ within sp (DT r))
  /\ (forall sp, In sp (tp_spans P) -> sp_kind sp <> Discarded -> exists x, In x es /\ MinTime (cand x) <= sp_from sp /\ sp_to sp <= MaxTime (cand x))
  /\ (forall sp, In sp (tp_spans P) -> sp_kind sp = Discarded -> exists x g, reg = Some g /\ within sp (CoaTime (cand x)) /\ sp = mk_span Discarded (MinTime (cand x)) (MaxTime (cand x))
        /\ ~ (s <= CoaTime (cand x) <= (if e mod day c =? 0 then e - delta c else e) /\ in_region g (cand x))).
Proof.
  intros c p read reg av all s e P data t0 w w' es Dl Mw Mi E Ed Sm Tb. destruct (batch_summary_inv _ _ _ _ _ _ _ _ _ E) as (data' & cands & refined & Ed' & Ec & Er & Es & Tb').
  assert (data' = data) by congruence. subst data'. destruct (Tb' w) as (w'' & Ew). assert (es = filter_events refined s (batch_last c e) reg) as -> by congruence. clear Tb Tb' Ew w''.
  destruct (summary_inv _ _ _ _ _ _ _ _ _ _ _ _ Es) as (L & _ & _ & _ & Sp & _). rewrite Sp. set (es := filter_events refined s (batch_last c e) reg) in *.
  assert (Ir : forall x, In x es -> In x refined) by (intros x I; apply filter_events_in in I; apply I).
  pose proof (fun ev => event_window c p data (batch_threshold c p data) cands refined ev L Ec Er) as W. split; [|split; [|split]].
  - intros x I. destruct (W x (Ir x I)) as (W1 & W2 & _). exists (mk_span Interval (MinTime (cand x)) (CoaTime (cand x) - marginal_window p)), (mk_span Marginal (CoaTime (cand x) - marginal_window p) (CoaTime (cand x) + marginal_window p)), (mk_span Interval (CoaTime (cand x) + marginal_window p) (MaxTime (cand x))).
    split; [apply in_or_app; right; apply spans_in; exists x; auto|]. split; [apply in_or_app; right; apply spans_in; exists x; auto|]. split; [apply in_or_app; right; apply spans_in; exists x; auto|].
    split; [reflexivity|]. split; [reflexivity|]. split; [reflexivity|]. unfold within. cbn [sp_from sp_to]. split; intros t; lia.
  - intros Rg i r Ei Hi. destruct (in_runs _ _ _ _ Hi) as (lo & hi & Ir' & Li). apply runs_maximal in Ir'. destruct (run_candidate p data (batch_threshold c p data) cands L Ec lo hi Ir') as (x & Ix & (k & rk & first & final & _ & F1 & F2 & _ & _ & _ & _ & _ & _ & _ & M1 & M2)).
    destruct (event_of_candidate c p cands refined x Er Ix) as (ev & Iev & V1 & V2). cbn [fst snd] in F1, F2. pose proof (Sm _ _ F1) as D1. pose proof (Sm _ _ F2) as D2. pose proof (Sm _ _ Ei) as D3.
    assert (O1 : lo * delta c <= i * delta c) by (apply Z.mul_le_mono_nonneg_r; lia). assert (O2 : i * delta c <= hi * delta c) by (apply Z.mul_le_mono_nonneg_r; lia).
    assert (B : MinTime (cand ev) <= DT r <= MaxTime (cand ev)) by lia. destruct (W ev Iev) as (W1 & W2 & _).
    assert (K : In ev es \/ In ev (discarded_events refined s (batch_last c e) reg)).
    { destruct (filter_events [ev] s (batch_last c e) reg) as [|y l] eqn:Ef.
      - right. unfold discarded_events. apply filter_In. split; [exact Iev|]. rewrite Ef. reflexivity.
      - left. assert (Iy : In y (filter_events [ev] s (batch_last c e) reg)) by (rewrite Ef; left; reflexivity). apply filter_events_in in Iy. destruct Iy as ([<-|[]] & K). apply filter_events_in. auto. }
    destruct K as [K|K].
    + destruct (Z.le_gt_cases (DT r) (CoaTime (cand ev) - marginal_window p)) as [C1|C1]; [|destruct (Z.le_gt_cases (DT r) (CoaTime (cand ev) + marginal_window p)) as [C2|C2]].
      * exists (mk_span Interval (MinTime (cand ev)) (CoaTime (cand ev) - marginal_window p)). split; [apply in_or_app; right; apply spans_in; exists ev; auto|]. unfold within. cbn. lia.
      * exists (mk_span Marginal (CoaTime (cand ev) - marginal_window p) (CoaTime (cand ev) + marginal_window p)). split; [apply in_or_app; right; apply spans_in; exists ev; auto|]. unfold within. cbn. lia.
      * exists (mk_span Interval (CoaTime (cand ev) + marginal_window p) (MaxTime (cand ev))). split; [apply in_or_app; right; apply spans_in; exists ev; auto|]. unfold within. cbn. lia.
    + destruct reg as [g|]; [|contradiction]. exists (mk_span Discarded (MinTime (cand ev)) (MaxTime (cand ev))). split; [apply in_or_app; left; apply spans_in; exists ev; auto|exact B].
  - intros sp I Kd. apply in_app_or in I. destruct I as [I|I]; apply spans_in in I; destruct I as (x & Ix & Hx); cbn in Hx; [subst sp; contradiction|]. exists x. split; [exact Ix|]. destruct (W x (Ir x Ix)) as (W1 & W2 & _).
    destruct Hx as [->|[->| ->]]; cbn; lia.
  - intros sp I Kd. apply in_app_or in I. destruct I as [I|I]; apply spans_in in I; destruct I as (x & Ix & Hx); cbn in Hx.
    + destruct reg as [g|]; [|contradiction]. exists x, g. split; [reflexivity|]. apply discarded_in in Ix. destruct Ix as (Ix & Nk). destruct (W x Ix) as (W1 & W2 & _). split; [subst sp; unfold within; cbn; lia|]. split; [exact Hx|]. exact Nk.
    + destruct Hx as [->|[->| ->]]; discriminate Kd.
Qed.
Print Assumptions C116_windows_partial.

(** Refuted: without a region the windows of events with their peak outside the period are not drawn: samples of the period reach the threshold and nothing is marked. *)
Theorem C116_windows_refuted :
  exists c p read s e P data, 2 * marginal_window p <= min_event_interval p /\ batch_summary c p read None None false s e = Ret P /\ read s e = Ret data /\ sampled c (s - 3) data
  /\ (exists i r, rd data i = Some r /\ s <= DT r <= e /\ hit p data (batch_threshold c p data) i) /\ tp_spans P = [] /\ tp_lines P = [].
Proof.
  exists Trigger_Props.hz1, (Trigger_Props.settings Static 5 0 1 false), (fun s e => Ret (Trigger_Props.series (s - 3) [1; 1; 8; 6; 6; 1; 1; 1]%Q)), 100, 104. do 2 eexists.
  split; [cbn; lia|]. split; [vm_compute; reflexivity|]. split; [reflexivity|]. split; [apply Trigger_Props.series_sampled|]. split; [|split; reflexivity].
  exists 3. eexists. split; [reflexivity|]. split; [cbn; lia|]. do 2 eexists. split; [reflexivity|]. split; [reflexivity|]. vm_compute. discriminate.
Qed.
Print Assumptions C116_windows_refuted.

(** The map: the events at their places, with colours inside the scale; the region as three rectangles with all events in it. *)
Theorem C116_map :
  forall c p read reg av all s e P w w' es, batch_summary c p read reg av all s e = Ret P -> trigger_batch c p read reg w s e = Ret (w', es) ->
  (es <> [] -> exists sc lo hi, In sc (tp_scatters P) /\ sc_colours sc = Some (map (fun x => TRIG_COA (cand x)) es, (lo, hi))
     /\ (forall i x, rd es i = Some x -> let k := cand x in rd (sc_xy sc) i = Some (COA_X k, COA_Y k) /\ rd (sc_xz sc) i = Some (COA_X k, COA_Z k) /\ rd (sc_yz sc) i = Some (COA_Z k, COA_Y k))
     /\ ((forall x, In x es -> 0 < TRIG_COA (cand x))%Q -> forall x, In x es -> (lo < TRIG_COA (cand x) /\ TRIG_COA (cand x) < hi)%Q))
  /\ (reg = None -> tp_boxes P = []) /\ (forall sc, In sc (tp_scatters P) -> sc_colours sc = None -> reg <> None)
  /\ (forall g, reg = Some g -> exists a b k, tp_boxes P = [a; b; k] /\ rectangle a (xmin g) (xmax g) (ymin g) (ymax g) /\ rectangle b (xmin g) (xmax g) (zmin g) (zmax_ g) /\ rectangle k (zmin g) (zmax_ g) (ymin g) (ymax g)
     /\ (forall x, In x es -> in_region g (cand x))).
Proof.
  intros c p read reg av all s e P w w' es E Tb. destruct (batch_summary_inv _ _ _ _ _ _ _ _ _ E) as (data & cands & refined & Ed & Ec & Er & Es & Tb'). destruct (Tb' w) as (w'' & Ew).
  assert (es = filter_events refined s (batch_last c e) reg) as -> by congruence. clear Tb Tb' Ew w''. destruct (summary_inv _ _ _ _ _ _ _ _ _ _ _ _ Es) as (_ & _ & _ & _ & _ & _ & Sc & Bx & _).
  set (es := filter_events refined s (batch_last c e) reg) in *. assert (Ik : forall x g, In x es -> reg = Some g -> in_region g (cand x)) by (intros x g I ->; apply filter_events_in in I; apply I). clearbody es.
  split; [|split; [|split]].
  - intros Ne. destruct es as [|x0 es0] eqn:Ees; [contradiction|]. rewrite <- Ees in *. assert (Mm : forall l v, In v l -> exists lo hi, qmin_list l = Some lo /\ qmax_list' l = Some hi /\ In lo l /\ In hi l /\ forall y, In y l -> (lo <= y /\ y <= hi)%Q).
    { intros [|z l] v _'; [contradiction|]. clear _'. exists (fold_right (fun a b => if Qle_bool a b then a else b) z l), (fold_right (fun a b => if Qle_bool a b then b else a) z l). split; [reflexivity|]. split; [reflexivity|].
      induction l as [|u l (I1 & I2 & IH)].
      - cbn. split; [auto|]. split; [auto|]. intros y [<-|[]]. split; apply Qle_refl.
      - cbn [fold_right]. set (m := fold_right (fun a b => if Qle_bool a b then a else b) z l) in *. set (M := fold_right (fun a b => if Qle_bool a b then b else a) z l) in *.
        assert (Sub : forall q, In q (z :: l) -> In q (z :: u :: l)) by (cbn; intuition). split; [|split].
        + destruct (Qle_bool u m); [right; left; reflexivity|apply Sub; exact I1].
        + destruct (Qle_bool u M); [apply Sub; exact I2|right; left; reflexivity].
        + intros y Iy. assert (y = u \/ In y (z :: l)) as Hy by (cbn in *; intuition). destruct (Qle_bool u m) eqn:B1, (Qle_bool u M) eqn:B2;
            repeat match goal with H : Qle_bool _ _ = true |- _ => apply Qle_bool_iff in H | H : Qle_bool _ _ = false |- _ => apply not_true_iff_false in H; rewrite Qle_bool_iff in H; apply Qnot_le_lt in H end;
            (destruct Hy as [->|Hy]; [|destruct (IH y Hy) as (J1 & J2)]); split; try apply Qle_refl; clearbody m M; lra. }
    destruct (Mm (map TRIG_COA (map cand es)) (TRIG_COA (cand x0))) as (lo & hi & Elo & Ehi & Il & Ih & Hm); [rewrite Ees; left; reflexivity|].
    exists (event_scatter false es), (lo * (999 # 1000))%Q, (hi * (1001 # 1000))%Q. split; [rewrite Sc; apply in_or_app; right; rewrite Ees; left; reflexivity|].
    unfold event_scatter. cbv zeta. rewrite Elo, Ehi. cbn [sc_colours sc_xy sc_xz sc_yz]. split; [rewrite map_map; reflexivity|]. split.
    + intros i x Ei. rewrite !rd_map, Ei. auto.
    + intros Pos x I. assert (Iv : In (TRIG_COA (cand x)) (map TRIG_COA (map cand es))) by (apply in_map, in_map; exact I). destruct (Hm _ Iv) as (H1 & H2). specialize (Pos x I) as P1.
      assert (P2 : (0 < lo)%Q). { apply in_map_iff in Il. destruct Il as (k & <- & Il). apply in_map_iff in Il. destruct Il as (y & <- & Iy). apply (Pos y Iy). }
      split; lra.
  - intros ->. exact Bx.
  - intros sc I N. rewrite Sc in I. apply in_app_or in I. destruct I as [I|I]; [destruct reg; [discriminate|contradiction]|]. exfalso. destruct es as [|x0 es0]; [contradiction|]. destruct I as [<-|[]].
    unfold event_scatter in N. cbn in N. discriminate N.
  - intros g Eg. rewrite Eg in Bx. unfold region_boxes in Bx. do 3 eexists. split; [exact Bx|]. split; [|split; [|split]].
    + do 4 eexists. split; [reflexivity|]. intros z. cbn. intuition.
    + do 4 eexists. split; [reflexivity|]. intros z. cbn. intuition.
    + do 4 eexists. split; [reflexivity|]. intros z. cbn. intuition.
    + intros x I. apply (Ik x g I Eg).
Qed.
Print Assumptions C116_map.

(** A batch with two events, one of them outside the region, and four rows of availability. *)
Definition summary_table : atable := mk_atable ["A_P"; "B_P"; "A_S"; "B_S"]%string [(90, [1; 1; 1; 0]); (95, [1; 0; 1; 1])].
Definition summary_keys : list (string * string) := [("A", "P"); ("B", "P"); ("A", "S"); ("B", "S")]%string.
Example C116_example :
  (exists P w es, batch_summary Trigger_Props.hz1 (Trigger_Props.settings Static 5 0 1 false) (fun s e => Ret (Trigger_Props.series (s - 3) [1; 1; 1; 1; 8; 1; 1; 1; 1; 1; 1; 6; 1; 1; 1; 1]%Q))
     (Some {| xmin := 0; ymin := 0; zmin := 0; xmax := 7; ymax := 7; zmax_ := 7 |}) (Some summary_table) false 100 113 = Ret P
   /\ trigger_batch Trigger_Props.hz1 (Trigger_Props.settings Static 5 0 1 false) (fun s e => Ret (Trigger_Props.series (s - 3) [1; 1; 1; 1; 8; 1; 1; 1; 1; 1; 1; 6; 1; 1; 1; 1]%Q))
     (Some {| xmin := 0; ymin := 0; zmin := 0; xmax := 7; ymax := 7; zmax_ := 7 |}) {| tfiles := fun _ => None; output_cols := OUTPUT_COLS |} 100 113 = Ret (w, es)
   /\ length es = 1%nat /\ tp_lines P = [(false, 101); (true, 108)] /\ length (tp_spans P) = 4%nat
   /\ exists l, tp_avail P = Some (l, (0, 3)) /\ map al_points l = [[(90, 2); (95, 1); (113, 1)]; [(90, 1); (95, 2); (113, 2)]])
  /\ table_of summary_table summary_keys /\ (forall x, phases_of summary_keys x -> x = "P"%string \/ x = "S"%string)
  /\ (forall p q, phases_of summary_keys p -> phases_of summary_keys q -> stations_of summary_keys p = stations_of summary_keys q /\ (String.prefix p q = true -> p = q)).
Proof.
  assert (Ph : forall x, phases_of summary_keys x -> x = "P"%string \/ x = "S"%string) by (intros x (s & I); cbn in I; intuition congruence). split; [|split; [|split]].
  - do 3 eexists. split; [vm_compute; reflexivity|]. split; [vm_compute; reflexivity|]. split; [reflexivity|]. split; [reflexivity|]. split; [reflexivity|]. eexists. split; [reflexivity|reflexivity].
  - split; [reflexivity| | |].
    + repeat constructor; cbn; intuition congruence.
    + assert (Pl : forall x, In x ["A"; "B"; "P"; "S"]%string -> plain_name x) by (intros x I; cbn in I; unfold plain_name; destruct I as [<-|[<-|[<-|[<-|[]]]]]; cbn; intuition discriminate).
      intros s p I. cbn in I. destruct I as [E|[E|[E|[E|[]]]]]; injection E as <- <-; (split; [apply Pl; cbn; auto|]; split; [apply Pl; cbn; auto 10|discriminate]).
    + intros r [<-|[<-|[]]]; cbn; (split; [reflexivity|]); intros v I; intuition.
  - exact Ph.
  - intros p q Hp Hq. destruct (Ph p Hp) as [->| ->], (Ph q Hq) as [->| ->]; (split; [reflexivity|]); intros H; try reflexivity; discriminate H.
Qed.

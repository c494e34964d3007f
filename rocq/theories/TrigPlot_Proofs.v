(** Proofs about the trigger summary. *)
From Coq Require Import String Ascii.
From Coq Require Import List ZArith QArith Bool Lia.
From Verif Require Import Lib LibFacts Timeline_Model Lut_Model Lut_Spec Lut_Proofs Avail_Model Trigger_Model Trigger_Spec Trigger_Proofs TrigPlot_Model TrigPlot_Spec.
Import ListNotations.
Open Scope Z_scope.

(** * Names *)

Lemma split_app a b : split_on underscore (a ++ String underscore b)%string = split_on underscore a ++ split_on underscore b.
Proof.
  induction a as [|x a IH].
  - change (("" ++ String underscore b)%string) with (String underscore b). change (split_on underscore (String underscore b)) with (""%string :: split_on underscore b). reflexivity.
  - change ((String x a ++ String underscore b)%string) with (String x (a ++ String underscore b)%string). cbn [split_on]. rewrite IH.
    destruct (Ascii.eqb x underscore); [reflexivity|]. destruct (split_on underscore a) as [|h t] eqn:E; [|reflexivity].
    destruct a as [|y a]; cbn in E; [discriminate|]. destruct (Ascii.eqb y underscore); [discriminate|]. destruct (split_on underscore a); discriminate.
Qed.
Lemma split_some a : split_on underscore a <> [].
Proof. destruct a as [|y a]; cbn; [discriminate|]. destruct (Ascii.eqb y underscore); [discriminate|]. destruct (split_on underscore a); discriminate. Qed.
Lemma split_single a p : split_on underscore a = [p] -> a = p.
Proof.
  revert p. induction a as [|x a IH]; intros p E; [cbn in E; congruence|]. cbn [split_on] in E. destruct (Ascii.eqb x underscore).
  - pose proof (split_some a) as S. destruct (split_on underscore a); [contradiction|discriminate].
  - destruct (split_on underscore a) as [|h t] eqn:Ea; [exfalso; apply (split_some a Ea)|]. injection E as <- ->. rewrite (IH h eq_refl). reflexivity.
Qed.
Lemma ends_with_iff x s : ends_with x s = true <-> exists a, s = (a ++ x)%string.
Proof.
  induction s as [|c s IH].
  - cbn [ends_with]. rewrite orb_false_r, String.eqb_eq. split; [intros ->; exists ""%string; reflexivity|]. intros ([|c a] & E); [symmetry; exact E|discriminate E].
  - cbn [ends_with]. rewrite orb_true_iff, String.eqb_eq, IH. split.
    + intros [->|(a & ->)]; [exists ""%string; reflexivity|exists (String c a); reflexivity].
    + intros ([|d a] & E); [left; symmetry; exact E|]. right. injection E as _ E. exists a. exact E.
Qed.
Lemma prefix_iff x s : String.prefix x s = true <-> exists b, s = (x ++ b)%string.
Proof.
  revert s. induction x as [|c x IH]; intros s; [split; [intros _; exists s; reflexivity|destruct s; reflexivity]|].
  destruct s as [|d s]; cbn [String.prefix]; [split; [discriminate|intros (b & E); discriminate E]|].
  destruct (ascii_dec c d) as [->|N].
  - rewrite IH. split; intros (b & E); exists b; [rewrite E; reflexivity|injection E as E; exact E].
  - split; [discriminate|]. intros (b & E). injection E as E _. congruence.
Qed.
Lemma contains_iff x s : contains x s = true <-> exists a b, s = (a ++ x ++ b)%string.
Proof.
  induction s as [|c s IH].
  - cbn [contains]. rewrite orb_false_r, prefix_iff. split; [intros (b & E); exists ""%string, b; exact E|]. intros ([|c a] & b & E); [exists b; exact E|discriminate E].
  - cbn [contains]. rewrite orb_true_iff, prefix_iff, IH. split.
    + intros [(b & E)|(a & b & ->)]; [exists ""%string, b; exact E|exists (String c a), b; reflexivity].
    + intros ([|d a] & b & E); [left; exists b; exact E|]. right. injection E as _ E. exists a, b. exact E.
Qed.
Lemma append_empty (q : string) : (q ++ "")%string = q. Proof. induction q as [|c q IH]; [reflexivity|]. cbn. rewrite IH. reflexivity. Qed.
Lemma append_us q : ("_" ++ q)%string = String underscore q. Proof. reflexivity. Qed.
Lemma ends_key s p q : plain_name s -> plain_name p -> plain_name q -> ends_with ("_" ++ q) (key (s, p)) = String.eqb p q.
Proof.
  intros S P Q. apply eq_true_iff_eq. rewrite ends_with_iff, String.eqb_eq. split.
  - intros (a & E). unfold key in E. cbn [fst snd] in E. apply (f_equal (split_on underscore)) in E. rewrite (split_key s p S P), append_us, split_app, (split_plain q Q) in E.
    change [s; p] with ([s] ++ [p]) in E. apply app_inj_tail in E. apply E.
  - intros ->. exists s. reflexivity.
Qed.
Lemma contains_key s p q : plain_name s -> plain_name p -> (String.prefix q p = true -> q = p) -> contains ("_" ++ q) (key (s, p)) = String.eqb p q.
Proof.
  intros S P Q. apply eq_true_iff_eq. rewrite contains_iff, String.eqb_eq. split.
  - intros (a & b & E). unfold key in E. cbn [fst snd] in E. apply (f_equal (split_on underscore)) in E.
    change ((a ++ ("_" ++ q) ++ b)%string) with ((a ++ String underscore (q ++ b))%string) in E. rewrite (split_key s p S P), split_app in E.
    pose proof (split_some a) as Sa. pose proof (split_some (q ++ b)) as Sb. destruct (split_on underscore a) as [|h t]; [contradiction|]. destruct t as [|h' t]; cbn [app] in E.
    + symmetry. apply Q. apply prefix_iff. exists b. symmetry. apply split_single. congruence.
    + destruct (split_on underscore (q ++ b)); [contradiction|]. destruct t; discriminate.
  - intros ->. exists s, ""%string. unfold key. cbn [fst snd]. f_equal. rewrite (append_empty ("_" ++ q)). reflexivity.
Qed.
Lemma phase_part_key s p : plain_name s -> plain_name p -> phase_part (key (s, p)) = Ret p.
Proof. intros S P. unfold phase_part, key. cbn [fst snd]. rewrite (split_key s p S P). reflexivity. Qed.
Lemma head_key s p : plain_name s -> plain_name p -> head_part (key (s, p)) = s.
Proof. intros S P. unfold head_part, key. cbn [fst snd]. rewrite (split_key s p S P). reflexivity. Qed.
Lemma phase_parts_keys ks : (forall s p, In (s, p) ks -> plain_name s /\ plain_name p /\ p <> "*"%string) -> phase_parts (map key ks) = Ret (map snd ks).
Proof.
  induction ks as [|(s, p) ks IH]; intros H; [reflexivity|]. cbn [map phase_parts]. rewrite phase_part_key by apply (H s p (or_introl eq_refl)). cbn [bind].
  rewrite IH by (intros s' p' I; apply H; right; exact I). reflexivity.
Qed.

(** * Sorted sets *)

Lemma insert_name_in x l y : In y (insert_name x l) <-> y = x \/ In y l.
Proof.
  induction l as [|z l IH]; [cbn; intuition|]. cbn [insert_name]. destruct (String.compare x z) eqn:E; cbn [In].
  - apply String.compare_eq_iff in E. subst z. intuition.
  - intuition.
  - rewrite IH. intuition.
Qed.
Lemma sorted_set_in l y : In y (sorted_set l) <-> In y l.
Proof. induction l as [|x l IH]; [reflexivity|]. cbn [sorted_set fold_right]. fold (sorted_set l). rewrite insert_name_in, IH. cbn. intuition. Qed.
Fixpoint ascending (l : list string) : Prop := match l with x :: ((y :: _) as r) => String.compare x y = Lt /\ ascending r | _ => True end.
Lemma insert_ascending x l : ascending l -> ascending (insert_name x l).
Proof.
  induction l as [|y l IH]; intros A; [exact I|]. cbn [insert_name]. destruct (String.compare x y) eqn:E; [exact A|split; assumption|].
  assert (Gt' : String.compare y x = Lt) by (rewrite String.compare_antisym, E; reflexivity).
  destruct l as [|z l]; [split; [exact Gt'|exact I]|]. destruct A as (A1 & A2). specialize (IH A2). cbn [insert_name] in *.
  destruct (String.compare x z); [split; assumption|split; assumption|split; assumption].
Qed.
Lemma sorted_set_ascending l : ascending (sorted_set l).
Proof. induction l as [|x l IH]; [exact I|]. apply insert_ascending. exact IH. Qed.
Lemma compare_refl x : String.compare x x = Eq.
Proof. induction x as [|a x IH]; [reflexivity|]. cbn. unfold Ascii.compare. rewrite N.compare_refl. exact IH. Qed.

(** * Rows *)

(** Stations and values of a phase in a row. *)
Definition pv (ks : list (string * string)) (row : list Z) (p : string) : list (string * Z) :=
  map (fun x : (string * string) * Z => (fst (fst x), snd x)) (filter (fun x => String.eqb (snd (fst x)) p) (combine ks row)).
Lemma in_combine_rd {A B} (l : list A) (m : list B) a b : In (a, b) (combine l m) <-> exists i, rd l i = Some a /\ rd m i = Some b.
Proof.
  revert m. induction l as [|x l IH]; intros m; [cbn; split; [contradiction|intros (i & E & _); rewrite rd_nil in E; discriminate]|].
  destruct m as [|y m]; [cbn; split; [contradiction|intros (i & _ & E); rewrite rd_nil in E; discriminate]|]. cbn [combine In]. rewrite IH. split.
  - intros [E|(i & E1 & E2)]; [exists 0; rewrite !rd_0; split; congruence|]. exists (i + 1). pose proof (rd_bounds _ _ _ _ E1). rewrite !rd_cons_pos by lia. rewrite !Z.add_simpl_r. auto.
  - intros (i & E1 & E2). rewrite rd_cons in E1, E2. destruct (Z.eqb_spec i 0); [left; congruence|]. right. exists (i - 1). auto.
Qed.
Lemma available_pv ks row s p : available ks row s p <-> In (s, 1) (pv ks row p).
Proof.
  unfold available, pv. rewrite in_map_iff. split.
  - intros (i & E1 & E2). exists ((s, p), 1). split; [reflexivity|]. apply filter_In. split; [apply in_combine_rd; eauto|apply String.eqb_refl].
  - intros (((s', p'), v) & E & I). apply filter_In in I. destruct I as (I & Q). apply in_combine_rd in I. destruct I as (i & E1 & E2). cbn in E, Q. apply String.eqb_eq in Q. subst p'.
    exists i. split; [congruence|]. congruence.
Qed.
Lemma pv_stations ks row p : length row = length ks -> map fst (pv ks row p) = stations_of ks p.
Proof.
  unfold pv, stations_of. revert row. induction ks as [|k ks IH]; intros [|v row] L; try discriminate L; [reflexivity|]. cbn [combine filter]. cbn [fst].
  injection L as L. destruct (String.eqb (snd k) p); cbn [map fst]; rewrite IH by exact L; reflexivity.
Qed.
Lemma stations_nodup ks p : NoDup ks -> NoDup (stations_of ks p).
Proof.
  unfold stations_of. induction 1 as [|(s, q) ks N H IH]; [constructor|]. cbn [filter snd]. destruct (String.eqb_spec q p) as [->|]; [|exact IH]. cbn [map fst]. constructor; [|exact IH].
  intros I. apply in_map_iff in I. destruct I as ((s', q') & E & I). apply filter_In in I. destruct I as (I & Q). cbn in E, Q. apply String.eqb_eq in Q. subst. contradiction.
Qed.
Lemma selected (f : string -> bool) ks row p : (forall k, In k ks -> f (key k) = String.eqb (snd k) p) ->
  map snd (filter (fun x : string * Z => f (fst x)) (combine (map key ks) row)) = map snd (pv ks row p).
Proof.
  unfold pv. revert row. induction ks as [|k ks IH]; intros row F; [reflexivity|]. destruct row as [|v row]; [reflexivity|]. cbn [map combine filter fst].
  rewrite (F k (or_introl eq_refl)). destruct (String.eqb (snd k) p); cbn [map snd]; rewrite IH by (intros k' I; apply F; right; exact I); reflexivity.
Qed.
Lemma ones_counted (l : list (string * Z)) : NoDup (map fst l) -> (forall v, In v (map snd l) -> v = 0 \/ v = 1) -> counts (list_sum (map snd l)) (fun s => In (s, 1) l).
Proof.
  induction l as [|(s, v) l IH]; intros N V; [exists []; split; [constructor|]; split; [reflexivity|]; reflexivity|]. cbn [map fst snd] in N, V. inversion N; subst.
  destruct (IH H2 (fun v' I => V v' (or_intror I))) as (m & Nm & Lm & Im). cbn [map snd list_sum fold_right]. fold (list_sum (map snd l)). destruct (V v (or_introl eq_refl)) as [->| ->].
  - exists m. split; [exact Nm|]. split; [lia|]. intros x. rewrite Im. cbn [In]. split; [tauto|]. intros [E|I]; [discriminate E|exact I].
  - exists (s :: m). split; [constructor; [|exact Nm]; intros I; apply Im in I; apply H1; apply in_map_iff; exists (s, 1); auto|]. split; [cbn [length]; lia|].
    intros x. cbn [In]. rewrite Im. split; intros [E|I]; auto; left; congruence.
Qed.
Lemma pv_values ks row p : (forall v, In v row -> v = 0 \/ v = 1) -> forall v, In v (map snd (pv ks row p)) -> v = 0 \/ v = 1.
Proof.
  intros H v I. apply in_map_iff in I. destruct I as ((s & w) & <- & I). apply in_map_iff in I. destruct I as (((s' & p') & w') & E & I). apply filter_In in I. destruct I as (I & _).
  apply in_combine_r in I. cbn in E. apply H. cbn. congruence.
Qed.
Lemma sum_app a b : list_sum (a ++ b) = list_sum a + list_sum b.
Proof. unfold list_sum. induction a as [|x a IH]; [reflexivity|]. cbn [app fold_right]. lia. Qed.
Lemma sum_two ks row p q : p <> q -> (forall k, In k ks -> snd k = p \/ snd k = q) -> length row = length ks ->
  list_sum row = list_sum (map snd (pv ks row p)) + list_sum (map snd (pv ks row q)).
Proof.
  intros N. unfold pv. revert row. induction ks as [|(s, x) ks IH]; intros [|v row] H L; try discriminate L; [reflexivity|]. injection L as L. cbn [combine filter fst snd].
  specialize (IH row (fun k I => H k (or_intror I)) L). destruct (H (s, x) (or_introl eq_refl)) as [E|E]; cbn in E; subst x; rewrite String.eqb_refl; rewrite ?(proj2 (String.eqb_neq _ _) N), ?(proj2 (String.eqb_neq _ _) (not_eq_sym N));
    cbn [map snd list_sum fold_right]; fold (list_sum row); unfold list_sum in IH |- *; lia.
Qed.
Lemma sum_nonneg l : (forall v, In v l -> v = 0 \/ v = 1) -> 0 <= list_sum l.
Proof. induction l as [|x l IH]; intros H; [reflexivity|]. cbn [list_sum fold_right]. fold (list_sum l). specialize (IH (fun v I => H v (or_intror I))). destruct (H x (or_introl eq_refl)); lia. Qed.

(** * Lines *)

(** The number drawn for a row. *)
Definition drawn (t : atable) (divideby : Z) (phase : string) (r : Z * list Z) : Z :=
  Z.quot (list_sum (map snd (filter (fun x : string * Z => (if String.eqb phase "*" then fun _ => true else ends_with ("_" ++ phase)) (fst x)) (combine (at_cols t) (snd r))))) divideby.
Lemma line_ok t endtime d phase colour r0 rows : at_rows t = rows ++ [r0] ->
  phase_line t endtime d (phase, colour) = Ret (mk_aline phase colour (map (fun r => (fst r, drawn t d phase r)) (at_rows t) ++ [(endtime, drawn t d phase r0)])).
Proof.
  intros E. unfold phase_line, select. cbv zeta. rewrite E, !map_app, !map_map. cbn [map fst snd]. rewrite rev_app_distr. cbn [rev app].
  assert (Eq : Z.quot (list_sum (map snd (filter (fun x : string * Z => (if String.eqb phase "*" then fun _ => true else ends_with ("_" ++ phase)) (fst x)) (combine (at_cols t) (snd r0))))) d = drawn t d phase r0) by reflexivity.
  rewrite Eq. f_equal. f_equal. change (drawn t d phase r0) with (drawn t d phase r0).
  induction rows as [|x rows IH]; [reflexivity|]. cbn [map app combine]. f_equal. clear - IH.
  assert (G : forall (l : list (Z * list Z)) a b, combine ((map (fun r => fst r) l ++ [a]) ++ [endtime]) ((map (fun r => drawn t d phase r) l ++ [b]) ++ [b]) = (map (fun r => (fst r, drawn t d phase r)) l ++ [(a, b)]) ++ [(endtime, b)]).
  { intros l a b. induction l as [|y l IHl]; [reflexivity|]. cbn [map app combine]. rewrite IHl. reflexivity. }
  apply G.
Qed.
Lemma max_ok l x : In x l -> exists m, max_list l = Ret m /\ forall y, In y l -> y <= m.
Proof.
  destruct l as [|z l]; [contradiction|]. intros _. exists (fold_right Z.max z l). split; [reflexivity|]. induction l as [|w l IH]; intros y I; cbn in I.
  - destruct I as [<-|[]]. cbn. lia.
  - cbn [fold_right]. assert (y = w \/ In y (z :: l)) as [->|I'] by (cbn; intuition); [lia|]. specialize (IH y I'). lia.
Qed.
Lemma min_ok l x : In x l -> exists m, min_list l = Ret m /\ In m l /\ forall y, In y l -> m <= y.
Proof.
  destruct l as [|z l]; [contradiction|]. intros _. exists (fold_right Z.min z l). split; [reflexivity|]. induction l as [|w l (IHi & IH)].
  - split; [left; reflexivity|]. intros y [<-|[]]. cbn. lia.
  - cbn [fold_right]. split.
    + destruct (Z.min_spec w (fold_right Z.min z l)) as [(_ & ->)|(_ & ->)]; [right; left; reflexivity|]. destruct IHi as [E|I]; [left; exact E|right; right; exact I].
    + intros y I. assert (y = w \/ In y (z :: l)) as [->|I'] by (cbn in *; intuition); [lia|]. specialize (IH y I'). lia.
Qed.
Lemma lines_ok t endtime d L r0 rows : at_rows t = rows ++ [r0] ->
  phase_lines t endtime d L = Ret (map (fun x => mk_aline (fst x) (snd x) (map (fun r => (fst r, drawn t d (fst x) r)) (at_rows t) ++ [(endtime, drawn t d (fst x) r0)])) L).
Proof.
  intros E. induction L as [|(ph, co) L IH]; [reflexivity|]. cbn [phase_lines map fst snd]. rewrite (line_ok t endtime d ph co r0 rows E). cbn [bind]. rewrite IH. reflexivity.
Qed.
(** What is drawn for given phases. *)
Lemma plot_lines t endtime ks L d r0 rows : table_of t ks -> at_rows t = rows ++ [r0] -> by_phase t (sorted_set (map snd ks)) = Ret (L, d) -> L <> [] ->
  (forall x r, In x L -> In r (at_rows t) -> shown ks (fst x) (snd r) (drawn t d (fst x) r) /\ 0 <= drawn t d (fst x) r) ->
  exists lines lims, plot_availability t endtime = Ret (lines, lims) /\ map (fun a => (al_phase a, al_colour a)) lines = L
  /\ forall a, In a lines -> exists n0, al_points a = map (fun r => (fst r, drawn t d (al_phase a) r)) (at_rows t) ++ [(endtime, n0)] /\ n0 = drawn t d (al_phase a) r0
     /\ forall tm n, In (tm, n) (al_points a) -> fst lims <= n <= snd lims.
Proof.
  intros T Er B NL Sh. unfold plot_availability. rewrite (to_cols t ks T), (phase_parts_keys ks (to_plain t ks T)). cbn [bind]. rewrite B. cbn [bind fst snd].
  rewrite (lines_ok t endtime d L r0 rows Er). cbn [bind]. set (lines := map _ L). set (vs := concat (map (fun a => map snd (al_points a)) lines)).
  assert (Ev : forall a n, In a lines -> In n (map snd (al_points a)) -> In n vs).
  { intros a n Ia In'. apply in_concat. exists (map snd (al_points a)). split; [apply in_map_iff; exists a; auto|exact In']. }
  assert (Pos : forall v, In v vs -> 0 <= v).
  { intros v I. apply in_concat in I. destruct I as (l & I1 & I2). apply in_map_iff in I1. destruct I1 as (a & <- & Ia). apply in_map_iff in Ia. destruct Ia as (x & <- & Ix). cbn [al_points] in I2.
    rewrite map_app, map_map in I2. apply in_app_or in I2. destruct I2 as [I2|[<-|[]]].
    - apply in_map_iff in I2. destruct I2 as (r & <- & Ir). apply (Sh x r Ix Ir).
    - apply (Sh x r0 Ix). rewrite Er. apply in_or_app. right. left. reflexivity. }
  assert (Some' : exists v, In v vs).
  { destruct L as [|x L]; [contradiction|]. exists (drawn t d (fst x) r0). apply (Ev (mk_aline (fst x) (snd x) (map (fun r => (fst r, drawn t d (fst x) r)) (at_rows t) ++ [(endtime, drawn t d (fst x) r0)]))); [left; reflexivity|].
    cbn [al_points]. rewrite map_app. apply in_or_app. right. left. reflexivity. }
  destruct Some' as (v0 & I0). destruct (max_ok vs v0 I0) as (hi & Eh & Hh). destruct (min_ok vs v0 I0) as (lo & El & Il & Hl). rewrite Eh, El. cbn [bind].
  exists lines, (Z.quot (lo * 4) 5, - (- (hi * 11) / 10)). split; [reflexivity|]. split.
  { unfold lines. rewrite map_map. cbn [al_phase al_colour]. rewrite <- (map_id L) at 2. apply map_ext. intros (a & b). reflexivity. }
  intros a Ia. pose proof Ia as Ia'. unfold lines in Ia. apply in_map_iff in Ia. destruct Ia as (x & <- & Ix). cbn [al_points al_phase]. eexists. split; [reflexivity|]. split; [reflexivity|].
  intros tm n In'. assert (Iv : In n vs) by (apply (Ev _ n Ia'); apply in_map_iff; exists (tm, n); auto). pose proof (Hh n Iv). pose proof (Hl n Iv). pose proof (Pos lo Il). pose proof (Pos n Iv). cbn [fst snd].
  rewrite Z.quot_div_nonneg by lia. pose proof (Z.div_mod (lo * 4) 5 ltac:(lia)). pose proof (Z.mod_pos_bound (lo * 4) 5 ltac:(lia)).
  pose proof (Z.div_mod (- (hi * 11)) 10 ltac:(lia)). pose proof (Z.mod_pos_bound (- (hi * 11)) 10 ltac:(lia)). lia.
Qed.
Lemma drawn_phase t ks p r : table_of t ks -> In r (at_rows t) -> phases_of ks p -> shown ks p (snd r) (drawn t 1 p r) /\ 0 <= drawn t 1 p r.
Proof.
  intros T Ir (s0 & I0). destruct (to_plain t ks T s0 p I0) as (_ & Pp & Np). destruct (to_rows t ks T r Ir) as (Lr & Vr).
  unfold shown, drawn. rewrite (proj2 (String.eqb_neq _ _) Np), Z.quot_1_r, (to_cols t ks T).
  rewrite (selected (ends_with ("_" ++ p)) ks (snd r) p).
  2:{ intros (s & q) I. destruct (to_plain t ks T s q I) as (Ps & Pq & _). cbn [snd]. apply ends_key; assumption. }
  split; [|apply sum_nonneg; apply pv_values; exact Vr].
  destruct (ones_counted (pv ks (snd r) p)) as (l & N & L & H).
  - rewrite pv_stations by exact Lr. apply stations_nodup. apply (to_once t ks T).
  - apply pv_values. exact Vr.
  - exists l. split; [exact N|]. split; [exact L|]. intros x. rewrite H, available_pv. reflexivity.
Qed.
Lemma pair_lists {A B} (l m : list (A * B)) : map fst l = map fst m -> map snd l = map snd m -> l = m.
Proof.
  revert m. induction l as [|(a, b) l IH]; intros [|(c, d) m] E1 E2; try discriminate; [reflexivity|]. cbn in E1, E2. injection E1 as -> E1. injection E2 as -> E2. rewrite (IH m E1 E2). reflexivity.
Qed.
Lemma equal_lists (l m : list Z) : length l = length m -> forallb (fun y : Z * Z => fst y =? snd y) (combine l m) = true -> l = m.
Proof.
  revert m. induction l as [|x l IH]; intros [|y m] L E; try discriminate L; [reflexivity|]. cbn in L, E. apply andb_true_iff in E. destruct E as (E & E'). apply Z.eqb_eq in E. subst y. rewrite (IH m) by (congruence || exact E'). reflexivity.
Qed.
Lemma drawn_both t ks p q r : table_of t ks -> In r (at_rows t) -> p <> q -> (forall x, phases_of ks x <-> x = p \/ x = q) -> stations_of ks p = stations_of ks q ->
  map snd (pv ks (snd r) p) = map snd (pv ks (snd r) q) -> shown ks "*" (snd r) (drawn t 2 "*" r) /\ 0 <= drawn t 2 "*" r.
Proof.
  intros T Ir N Ph St Ev. destruct (to_rows t ks T r Ir) as (Lr & Vr).
  assert (Epv : pv ks (snd r) p = pv ks (snd r) q) by (apply pair_lists; [rewrite !pv_stations by exact Lr; exact St|exact Ev]).
  assert (Two : forall k, In k ks -> snd k = p \/ snd k = q) by (intros (s & x) I; apply Ph; exists s; exact I).
  assert (Ed : drawn t 2 "*" r = list_sum (map snd (pv ks (snd r) p))).
  { unfold drawn. rewrite String.eqb_refl, (to_cols t ks T).
    assert (Es : map snd (filter (fun x : string * Z => true) (combine (map key ks) (snd r))) = snd r).
    { assert (Ft : forall l : list (string * Z), filter (fun _ => true) l = l) by (induction l as [|y l IH]; [reflexivity|]; cbn; rewrite IH; reflexivity). rewrite Ft.
      clear - Lr. revert Lr. generalize (snd r) as row. induction ks as [|k ks IH]; intros [|v row] L; try discriminate L; [reflexivity|]. cbn. rewrite IH by (injection L as L; exact L). reflexivity. }
    rewrite Es, (sum_two ks (snd r) p q N Two Lr), <- Ev. replace (list_sum (map snd (pv ks (snd r) p)) + list_sum (map snd (pv ks (snd r) p))) with (list_sum (map snd (pv ks (snd r) p)) * 2) by lia.
    apply Z.quot_mul. lia. }
  rewrite Ed. split; [|apply sum_nonneg; apply pv_values; exact Vr]. unfold shown. rewrite String.eqb_refl.
  destruct (ones_counted (pv ks (snd r) p)) as (l & Nl & L & H).
  { rewrite pv_stations by exact Lr. apply stations_nodup. apply (to_once t ks T). }
  { apply pv_values. exact Vr. }
  assert (Av : forall x s, phases_of ks x -> available ks (snd r) s x <-> In (s, 1) (pv ks (snd r) p)).
  { intros x s Hx. apply Ph in Hx. rewrite available_pv. destruct Hx as [->| ->]; [reflexivity|rewrite Epv; reflexivity]. }
  split; exists l; (split; [exact Nl|]; split; [exact L|]); intros s; rewrite H.
  - split.
    + intros I. exists p. apply Av; [apply Ph; left; reflexivity|exact I].
    + intros (x & A). apply (Av x s); [|exact A]. destruct A as (i & A & _). exists s. apply rd_in in A. exact A.
  - split.
    + intros I. split; [|intros x Ix; apply Av; [exists s; exact Ix|exact I]]. assert (A : available ks (snd r) s p) by (apply available_pv; exact I). destruct A as (i & A & _). exists p. apply rd_in in A. exact A.
    + intros ((x & Ix) & A). apply (Av x s); [exists s; exact Ix|apply A; exact Ix].
Qed.

(** * Batches *)

Definition batch_last (c : clock) (e : Z) : Z := if e mod day c =? 0 then e - delta c else e.
Definition kept_by (s e : Z) (reg : option region) (x : event) : Prop := s <= CoaTime (cand x) <= e /\ match reg with Some g => in_region g (cand x) | None => True end.
Lemma discarded_in l s e reg x : In x (discarded_events l s e reg) <-> In x l /\ ~ kept_by s e reg x.
Proof.
  unfold discarded_events. rewrite filter_In. pose proof (filter_events_in [x] s e reg x) as F. destruct (filter_events [x] s e reg) as [|y l'] eqn:E.
  - split; [intros (I & _); split; [exact I|]; intros K; apply F; split; [left; reflexivity|exact K]|tauto].
  - split; [intros (_ & D); discriminate|]. intros (I & K). exfalso. apply K. assert (Iy : In y (filter_events [x] s e reg)) by (rewrite E; left; reflexivity).
    apply filter_events_in in Iy. destruct Iy as ([<-|[]] & K'). exact K'.
Qed.
Lemma batch_summary_inv c p read reg av all s e P : batch_summary c p read reg av all s e = Ret P ->
  exists data cands refined, read s e = Ret data /\ identify_candidates p data (batch_threshold c p data) = Ret cands /\ refine_candidates c p cands = Ret refined
  /\ trigger_summary (marginal_window p) (normalise_coalescence p) av all reg (filter_events refined s (batch_last c e) reg) (discarded_events refined s (batch_last c e) reg) s (batch_last c e) (batch_threshold c p data) data = Ret P
  /\ forall w, exists w', trigger_batch c p read reg w s e = Ret (w', filter_events refined s (batch_last c e) reg).
Proof.
  unfold batch_summary, trigger_batch. destruct (read s e) as [data|x|]; cbn [bind]; [|discriminate|discriminate]. fold (batch_threshold c p data). fold (batch_last c e).
  destruct (identify_candidates p data (batch_threshold c p data)) as [cands|x|] eqn:Ec; cbn [bind]; [|discriminate|discriminate]. destruct cands as [|x cands].
  - cbn [bind fst snd]. intros E. exists data, [], []. assert (Ef : filter_events [] s (batch_last c e) reg = []) by (unfold filter_events; destruct reg; reflexivity). rewrite Ef.
    split; [reflexivity|]. split; [exact Ec|]. split; [reflexivity|]. split; [exact E|]. intros w. exists w. reflexivity.
  - destruct (refine_candidates c p (x :: cands)) as [refined|y|] eqn:Er; cbn [bind fst snd]; [|discriminate|discriminate]. intros E. exists data, (x :: cands), refined.
    split; [reflexivity|]. split; [exact Ec|]. split; [exact Er|]. split; [exact E|]. intros w. eexists. reflexivity.
Qed.
Lemma summary_inv mw nc av all reg events discarded s e th data P : trigger_summary mw nc av all reg events discarded s e th data = Ret P ->
  let dd := match reg with Some _ => discarded | None => [] end in
  length data = length th /\ tp_xlim P = (s, e) /\ tp_traces P = [combine (map DT data) (map COA data); combine (map DT data) (map COA_N data)]
  /\ tp_threshold P = (if nc then 1 else 0, combine (map DT data) th) /\ tp_spans P = event_spans mw true dd ++ event_spans mw false events
  /\ tp_lines P = event_lines true dd ++ event_lines false events
  /\ tp_scatters P = (match reg with Some _ => [event_scatter true discarded] | None => [] end) ++ (match events with [] => [] | _ => [event_scatter false events] end)
  /\ tp_boxes P = (match reg with Some g => region_boxes g | None => [] end) /\ tp_stations P = option_map (map_stations all) av /\ tp_text P = (nc, Z.of_nat (length events))
  /\ (match av with None => tp_avail P = None | Some t => exists a, plot_availability t e = Ret a /\ tp_avail P = Some a end).
Proof.
  unfold trigger_summary. cbv zeta. destruct av as [t|].
  - destruct (plot_availability t e) as [a|x|]; cbn [bind]; [|discriminate|discriminate]. destruct (Nat.eqb (length (map DT data)) (length th)) eqn:L; cbn [negb]; [|discriminate].
    intros E. injection E as <-. apply Nat.eqb_eq in L. rewrite map_length in L. cbn. repeat (split; [reflexivity || exact L|]). exists a. auto.
  - cbn [bind]. destruct (Nat.eqb (length (map DT data)) (length th)) eqn:L; cbn [negb]; [|discriminate].
    intros E. injection E as <-. apply Nat.eqb_eq in L. rewrite map_length in L. cbn. repeat (split; [reflexivity || exact L|]). reflexivity.
Qed.
Lemma spans_in mw disc events sp : In sp (event_spans mw disc events) <-> exists x, In x events /\
  (if disc then sp = mk_span Discarded (MinTime (cand x)) (MaxTime (cand x))
   else sp = mk_span Interval (MinTime (cand x)) (CoaTime (cand x) - mw) \/ sp = mk_span Interval (CoaTime (cand x) + mw) (MaxTime (cand x)) \/ sp = mk_span Marginal (CoaTime (cand x) - mw) (CoaTime (cand x) + mw)).
Proof.
  unfold event_spans. rewrite in_flat_map. split; intros (x & I & H); exists x; (split; [exact I|]); destruct disc; cbn [In] in *; intuition.
Qed.
(** The event of a refined list that a candidate belongs to. *)
Lemma event_of_candidate c p cands refined x : refine_candidates c p cands = Ret refined -> In x cands ->
  exists ev, In ev refined /\ MinTime (cand ev) <= MinTime x /\ MaxTime x <= MaxTime (cand ev).
Proof.
  intros E I. destruct (refine_ok c p cands) as (es & E' & F). assert (es = refined) by congruence. subst es. clear E' E. rewrite <- (chop_concat (nsep p)) in I. apply in_concat in I. destruct I as (g & Ig & Ix).
  revert Ig. induction F as [|g' ev gs es (Ev & _) F IH]; intros Ig; [contradiction|]. destruct Ig as [->|Ig].
  - exists ev. split; [left; reflexivity|]. destruct Ev as (l1 & m & l2 & _ & _ & _ & _ & _ & _ & _ & _ & _ & _ & _ & Mi & _ & Ma). rewrite Forall_forall in Mi, Ma. split; [apply Mi|apply Ma]; exact Ix.
  - destruct (IH Ig) as (ev' & I' & H'). exists ev'. split; [right; exact I'|exact H'].
Qed.
(** The window of an event reaches the interval before and after its peak. *)
Lemma event_window c p data th cands refined ev : length data = length th -> identify_candidates p data th = Ret cands -> refine_candidates c p cands = Ret refined -> In ev refined ->
  MinTime (cand ev) <= CoaTime (cand ev) - min_event_interval p /\ CoaTime (cand ev) + min_event_interval p <= MaxTime (cand ev)
  /\ exists i r, hit p data th i /\ rd data i = Some r /\ DT r = CoaTime (cand ev).
Proof.
  intros L Ec Er I. destruct (refine_ok c p cands) as (es & E' & F). assert (es = refined) by congruence. subst es. clear E'. pose proof (cands_of_runs p data th cands L Ec) as R.
  assert (G : exists g, In g (chop (nsep p) cands) /\ event_of_group g (cand ev)).
  { clear - F I. induction F as [|g e gs es (H & _) F IH]; [contradiction|]. destruct I as [->|I]; [exists g; split; [left; reflexivity|exact H]|]. destruct (IH I) as (g' & I' & H'). exists g'. split; [right; exact I'|exact H']. }
  destruct G as (g & Ig & (l1 & m & l2 & Eg & _ & _ & Ct & _ & _ & _ & _ & _ & _ & _ & Mi & _ & Ma)).
  assert (Im : In m g) by (rewrite Eg; apply in_or_app; right; left; reflexivity). rewrite Forall_forall in Mi, Ma. specialize (Mi m Im). specialize (Ma m Im).
  assert (Ic : In m cands) by (rewrite <- (chop_concat (nsep p)); apply in_concat; exists g; auto).
  assert (Rm : exists run, In run (runs_of p data th) /\ candidate_of_run p data run m).
  { clear - R Ic. induction R as [|run e rs es H R IH]; [contradiction|]. destruct Ic as [->|Ic]; [exists run; split; [left; reflexivity|exact H]|]. destruct (IH Ic) as (r' & I' & H'). exists r'. split; [right; exact I'|exact H']. }
  destruct Rm as ((lo & hi) & Ir & (k & r & first & final & (Kr & Rk & _) & _ & _ & C & _ & _ & _ & _ & _ & _ & M1 & M2)). apply runs_maximal in Ir. destruct Ir as (_ & Hh & _). cbn [fst snd] in Kr.
  split; [lia|]. split; [lia|]. exists k, r. split; [apply Hh; exact Kr|]. split; [exact Rk|]. congruence.
Qed.
Lemma NoDup_map_inj {A B} (f : A -> B) l : (forall a b, In a l -> In b l -> f a = f b -> a = b) -> NoDup l -> NoDup (map f l).
Proof.
  intros H N. induction N as [|x l Nx N IH]; [constructor|]. cbn. constructor.
  - intros I. apply in_map_iff in I. destruct I as (y & E & I). assert (y = x) by (apply H; cbn; auto). subst. contradiction.
  - apply IH. intros a b Ia Ib. apply H; right; assumption.
Qed.

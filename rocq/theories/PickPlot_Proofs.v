(** Lemmas about the pick plot. *)
From Coq Require Import String Ascii.
From Coq Require Import List ZArith QArith Qminmax Qabs Bool Lia Lqa.
From Verif Require Import Lib LibFacts PySlice PySliceFacts Timeline_Model Picker_Model Picker_Proofs PickPlot_Model PickPlot_Spec.
Import ListNotations.
Open Scope Z_scope.

Lemma bind_ret A B (o : outcome A) (f : A -> outcome B) y : bind o f = Ret y -> exists x, o = Ret x /\ f x = Ret y.
Proof. destruct o; cbn; intros H; try discriminate. eauto. Qed.

Lemma argmin_from_in f l : forall b, argmin_from f b l = b \/ In (argmin_from f b l) l.
Proof.
  induction l as [|i r IH]; intros b; cbn [argmin_from]; [left; reflexivity|].
  destruct (f i <? f b).
  - right. destruct (IH i) as [->|H]; [left; reflexivity|right; exact H].
  - destruct (IH b) as [H|H]; [left; exact H|right; right; exact H].
Qed.
Lemma argmin_some f n : 0 < n -> exists i, argmin f n = Ret i /\ 0 <= i < n.
Proof.
  intros H. unfold argmin. destruct (zrange n) as [|i r] eqn:E.
  - assert (I : In 0 (zrange n)) by (apply in_zrange; lia). rewrite E in I. contradiction.
  - eexists. split; [reflexivity|]. apply in_zrange. rewrite E. destruct (argmin_from_in f r i) as [->|I]; [left; reflexivity|right; exact I].
Qed.
Lemma qmax_some l : l <> [] -> exists m, qmax_list l = Ret m /\ forall v, In v l -> (v <= m)%Q.
Proof.
  destruct l as [|x r]; [congruence|]. intros _. cbn [qmax_list]. eexists. split; [reflexivity|].
  assert (G : forall r x, (x <= fold_left Qmax r x)%Q /\ forall v, In v r -> (v <= fold_left Qmax r x)%Q).
  { clear. induction r as [|y r IH]; intros x; cbn [fold_left In]; [split; [apply Qle_refl|tauto]|].
    destruct (IH (Qmax x y)) as [A B]. pose proof (Q.le_max_l x y). pose proof (Q.le_max_r x y).
    split; [eapply Qle_trans; eassumption|]. intros v [<-|I]; [eapply Qle_trans; eassumption|auto]. }
  destruct (G r x) as [A B]. intros v [<-|I]; auto.
Qed.
Lemma slice_part (y : list Q) a b n : Z.of_nat (length y) = n -> 0 <= a <= b -> b < n ->
  let l := pyslice y (Some a) (Some (b + 1)) in Z.of_nat (length l) = b - a + 1 /\ forall i, 0 <= i <= b - a -> rd l i = rd y (a + i).
Proof.
  intros L A B. cbv zeta. pose proof (pyslice_length _ y (Some a) (Some (b + 1))) as P.
  assert (E1 : pylo (Z.of_nat (length y)) (Some a) = a) by (cbn; unfold pynorm; destruct (Z.ltb_spec a 0); lia).
  assert (E2 : pyhi (Z.of_nat (length y)) (Some (b + 1)) = b + 1) by (cbn; unfold pynorm; destruct (Z.ltb_spec (b + 1) 0); lia).
  split.
  - rewrite P. rewrite E1, E2. lia.
  - intros i I. rewrite rd_pyslice by (rewrite E1, E2; lia). rewrite E1. reflexivity.
Qed.
Lemma slice_member (y : list Q) a b k v : 0 <= a <= k -> k < b -> rd y k = Some v -> In v (pyslice y (Some a) (Some b)).
Proof.
  intros A B R. pose proof (rd_bounds _ _ _ _ R) as K.
  assert (E1 : pylo (Z.of_nat (length y)) (Some a) = a) by (cbn; unfold pynorm; destruct (Z.ltb_spec a 0); lia).
  assert (E2 : k + 1 <= pyhi (Z.of_nat (length y)) (Some b)) by (cbn; unfold pynorm; destruct (Z.ltb_spec b 0); lia).
  apply (rd_in _ _ (k - a)). rewrite rd_pyslice by (rewrite E1; lia). rewrite E1. replace (a + (k - a)) with k by lia. exact R.
Qed.
Lemma curve_some n a b y : Z.of_nat (length y) = n -> 0 <= a <= b -> b < n -> exists l, curve n a (b + 1) y = Ret l /\ part y a b l.
Proof.
  intros L A B. unfold curve. destruct (slice_part y a b n L A B) as [P1 P2].
  assert (E : length (pyslice y (Some a) (Some (b + 1))) = length (pyslice (zrange n) (Some a) (Some (b + 1)))).
  { apply Nat2Z.inj. rewrite !pyslice_length. rewrite zrange_length, Z2Nat.id by lia. rewrite L. reflexivity. }
  rewrite E, Nat.eqb_refl. eexists. split; [reflexivity|]. split; assumption.
Qed.
Lemma pyindex_in n i : 0 <= i < n -> pyindex n i = Ret i.
Proof. intros H. unfold pyindex. destruct (Z.leb_spec (- n) i), (Z.ltb_spec i n); try lia. cbn [andb]. destruct (Z.ltb_spec i 0); [lia|reflexivity]. Qed.
Lemma pyindex_past n i : n <= i -> pyindex n i = Raise IndexError.
Proof. intros H. unfold pyindex. destruct (Z.ltb_spec i n); [lia|]. rewrite andb_false_r. reflexivity. Qed.

Lemma zmin_le d l x : In x l -> zmin_list d l <= x.
Proof. induction l as [|y r IH]; cbn; [tauto|]. intros [->|H]; [lia|]. specialize (IH H). unfold zmin_list in *. lia. Qed.
Lemma zmin_ge d l b : b <= d -> Forall (fun x => b <= x) l -> b <= zmin_list d l.
Proof. intros D. induction 1 as [|y r H _ IH]; cbn; [exact D|]. unfold zmin_list in *. lia. Qed.
Lemma zmax_ge d l x : In x l -> x <= zmax_list d l.
Proof. induction l as [|y r IH]; cbn; [tauto|]. intros [->|H]; [lia|]. specialize (IH H). unfold zmax_list in *. lia. Qed.
Lemma zmax_le d l b : d <= b -> Forall (fun x => x <= b) l -> zmax_list d l <= b.
Proof. intros D. induction 1 as [|y r H _ IH]; cbn; [exact D|]. unfold zmax_list in *. lia. Qed.

Lemma limits_some c start n otime first last items : 0 < n -> In first items ->
  Forall (fun i => Z.of_nat (length (ph_onset (i_phase i))) = n /\ 10 <= w_lo (i_window i) <= w_hi (i_window i) /\ w_hi (i_window i) < n) items ->
  exists mi ma mw xw, plot_limits c start n otime first last items = Ret (mi, ma, mw, xw) /\ 0 <= mi <= ma /\ ma < n /\ 0 <= mw
    /\ forall i, In i items -> mi <= w_lo (i_window i) - 10 /\ w_hi (i_window i) <= ma /\ mw <= w_lo (i_window i) - 10 /\ w_hi (i_window i) + 10 <= xw.
Proof.
  intros N If F. unfold plot_limits.
  destruct (argmin_some (fun i => Z.abs (2 * (start + i * delta c) - (2 * otime + ph_tt (i_phase first)))) n N) as (a & -> & A). cbn [bind].
  destruct (argmin_some (fun i => Z.abs (2 * (start + i * delta c) - (2 * otime + 3 * ph_tt (i_phase last)))) n N) as (b & -> & B). cbn [bind]. cbv zeta.
  set (mw := zmin_list _ _ - 10). set (xw := zmax_list _ _ + 10).
  rewrite Forall_forall in F.
  assert (M : 0 <= mw). { unfold mw. assert (10 <= zmin_list (w_lo (i_window first)) (map (fun i => w_lo (i_window i)) items)); [|lia].
    apply zmin_ge; [destruct (F first If); lia|]. apply Forall_map, Forall_forall. intros i I. destruct (F i I). lia. }
  assert (U : forall i, In i items -> mw <= w_lo (i_window i) - 10 /\ w_hi (i_window i) + 10 <= xw).
  { intros i I. unfold mw, xw. pose proof (zmin_le (w_lo (i_window first)) _ _ (in_map (fun i => w_lo (i_window i)) _ _ I)).
    pose proof (zmax_ge (w_hi (i_window first)) _ _ (in_map (fun i => w_hi (i_window i)) _ _ I)). cbn beta in *. lia. }
  exists (if Z.min a mw <? 0 then 0 else Z.min a mw), (if n <=? Z.max b xw then n - 1 else Z.max b xw), mw, xw. split; [reflexivity|].
  pose proof (U first If) as Uf. pose proof (F first If) as Ff.
  destruct (Z.ltb_spec (Z.min a mw) 0), (Z.leb_spec n (Z.max b xw)); try lia.
  all: split; [lia|]; split; [lia|]; split; [lia|]; intros i I; specialize (U i I); specialize (F i I); lia.
Qed.

Lemma wave_panel_some n mi ma mw xw k st : st <> [] -> Forall (fun y => Z.of_nat (length y) = n) st -> 0 <= mi <= ma -> ma < n -> 0 <= mw <= k -> k <= xw -> k < n ->
  exists curves m, wave_panel n mi ma mw xw st = Ret (Some (curves, m)) /\ Forall2 (fun y l => part y mi ma l) st curves
    /\ forall j v, mw <= j <= xw -> sample (last st []) j v -> (Qabs v <= m)%Q.
Proof.
  intros Ne F A B C D E. unfold wave_panel. destruct st as [|y0 st0] eqn:Est; [congruence|]. rewrite <- Est in *.
  assert (O : exists curves, outcome_map (curve n mi (ma + 1)) st = Ret curves /\ Forall2 (fun y l => part y mi ma l) st curves).
  { clear Est Ne. induction F as [|y l L _ IH]; [exists []; split; [reflexivity|constructor]|]. cbn [outcome_map].
    destruct (curve_some n mi ma y L A B) as (cv & -> & P). destruct IH as (cs & -> & Q0). cbn [bind]. exists (cv :: cs). split; [reflexivity|constructor; assumption]. }
  destruct O as (curves & -> & Q1). cbn [bind].
  assert (Ll : Z.of_nat (length (last st [])) = n). { rewrite Forall_forall in F. apply F. destruct (exists_last Ne) as (l & x & Hx). rewrite Hx, last_last. apply in_or_app. right. left. reflexivity. }
  destruct (rd_in_range _ (last st []) k ltac:(lia)) as (vk & Rk).
  destruct (qmax_some (map Qabs (pyslice (last st []) (Some mw) (Some (xw + 1))))) as (m & -> & M).
  { pose proof (slice_member (last st []) mw (xw + 1) k vk ltac:(lia) ltac:(lia) Rk) as I. intros Z0. apply (in_map Qabs) in I. rewrite Z0 in I. contradiction. }
  cbn [bind]. exists curves, m. split; [reflexivity|]. split; [exact Q1|]. intros j v J S. apply M. apply in_map. eapply slice_member; [| |exact S]; lia.
Qed.
Lemma wave_panels_some n mi ma mw xw k panels : forall axis, Forall (Forall (fun y => Z.of_nat (length y) = n)) panels -> 0 <= mi <= ma -> ma < n -> 0 <= mw <= k -> k <= xw -> k < n ->
  exists waves, wave_panels n mi ma mw xw axis panels = Ret waves
    /\ (forall i st, rd panels i = Some st -> st <> [] -> exists curves m, In (axis + i, (curves, m)) waves /\ Forall2 (fun y l => part y mi ma l) st curves
         /\ forall j v, mw <= j <= xw -> sample (last st []) j v -> (Qabs v <= m)%Q)
    /\ (forall a p, In (a, p) waves -> exists st, rd panels (a - axis) = Some st /\ st <> []).
Proof.
  induction panels as [|st r IH]; intros axis F A B C D E; cbn [wave_panels].
  - exists []. split; [reflexivity|]. split; [intros i st H; rewrite rd_nil in H; discriminate|contradiction].
  - inversion F as [|? ? F1 F2]; subst. destruct (IH (axis + 1) F2 A B C D E) as (waves & Ew & W1 & W2).
    destruct st as [|y0 st0].
    + cbn [wave_panel bind]. rewrite Ew. cbn [bind]. exists waves. split; [reflexivity|]. split.
      * intros i st H Ne. rewrite rd_cons in H. destruct (Z.eqb_spec i 0) as [->|N0]; [congruence|].
        destruct (W1 (i - 1) st H Ne) as (cs & m & I & R). exists cs, m. replace (axis + i) with (axis + 1 + (i - 1)) by lia. split; assumption.
      * intros a p I. destruct (W2 a p I) as (st & H & Ne). exists st. split; [|exact Ne]. rewrite rd_cons. pose proof (rd_bounds _ _ _ _ H).
        destruct (Z.eqb_spec (a - axis) 0); [lia|]. replace (a - axis - 1) with (a - (axis + 1)) by lia. exact H.
    + destruct (wave_panel_some n mi ma mw xw k (y0 :: st0) ltac:(discriminate) F1 A B C D E) as (cs & m & -> & P1 & P2). cbn [bind]. rewrite Ew. cbn [bind].
      exists ((axis, (cs, m)) :: waves). split; [reflexivity|]. split.
      * intros i st H Ne. rewrite rd_cons in H. destruct (Z.eqb_spec i 0) as [->|N0].
        -- injection H as <-. exists cs, m. rewrite Z.add_0_r. split; [left; reflexivity|]. split; assumption.
        -- destruct (W1 (i - 1) st H Ne) as (cs' & m' & I & R). exists cs', m'. replace (axis + i) with (axis + 1 + (i - 1)) by lia. split; [right|]; assumption.
      * intros a p [I|I]; [injection I as <- <-; exists (y0 :: st0); rewrite Z.sub_diag; split; [apply rd_0|discriminate]|].
        destruct (W2 a p I) as (st & H & Ne). exists st. split; [|exact Ne]. rewrite rd_cons. pose proof (rd_bounds _ _ _ _ H).
        destruct (Z.eqb_spec (a - axis) 0); [lia|]. replace (a - axis - 1) with (a - (axis + 1)) by lia. exact H.
Qed.

Lemma onset_panels_some n mi ma items : forall axis,
  Forall (fun i => Z.of_nat (length (ph_onset (i_phase i))) = n /\ 10 <= w_lo (i_window i) <= w_hi (i_window i) /\ w_hi (i_window i) < n) items -> 0 <= mi <= ma -> ma < n ->
  exists l, onset_panels n mi ma axis items = Ret l
    /\ (forall i it, rd items i = Some it -> axis + i < 5 -> exists p, In (axis + i, p) l /\ onset_shown mi ma it p)
    /\ (forall a p, In (a, p) l -> a < 5 /\ exists it, rd items (a - axis) = Some it /\ onset_shown mi ma it p).
Proof.
  induction items as [|it r IH]; intros axis F A B; cbn [onset_panels].
  - exists []. split; [reflexivity|]. split; [intros i it H; rewrite rd_nil in H; discriminate|contradiction].
  - destruct (Z.leb_spec 5 axis).
    { exists []. split; [reflexivity|]. split; [intros i it0 H0 H1; pose proof (rd_bounds _ _ _ _ H0); lia|contradiction]. }
    inversion F as [|? ? (F1 & F1' & F1'') F2]; subst. destruct (IH (axis + 1) F2 A B) as (l & El & L1 & L2).
    destruct (curve_some _ mi ma (ph_onset (i_phase it)) eq_refl A B) as (y & -> & P). cbn [bind].
    destruct (rd_in_range _ (ph_onset (i_phase it)) (w_lo (i_window it)) ltac:(lia)) as (v0 & R0).
    destruct (qmax_some (pyslice (ph_onset (i_phase it)) (Some (w_lo (i_window it))) (Some (w_hi (i_window it) + 1)))) as (m & -> & M).
    { pose proof (slice_member _ (w_lo (i_window it)) (w_hi (i_window it) + 1) (w_lo (i_window it)) v0 ltac:(lia) ltac:(lia) R0) as I. intros Z0. rewrite Z0 in I. contradiction. }
    cbn [bind]. rewrite El. cbn [bind]. cbv zeta.
    set (y_max := match i_thresh it with Some t => _ | None => m end).
    assert (Y : (m <= y_max)%Q /\ forall t, i_thresh it = Some t -> (t <= y_max)%Q).
    { unfold y_max. destruct (i_thresh it) as [t|]; [|split; [apply Qle_refl|discriminate]].
      destruct (Qle_bool t m) eqn:Et; cbn [negb].
      - apply Qle_bool_iff in Et. split; [apply Qle_refl|]. intros t0 [= <-]. exact Et.
      - split; [|intros t0 [= <-]; apply Qle_refl]. destruct (Qlt_le_dec m t) as [L|L]; [apply Qlt_le_weak, L|]. apply Qle_bool_iff in L. congruence. }
    assert (Dr : onset_shown mi ma it (ph_name (i_phase it), y, i_thresh it, y_max)).
    { exists y, y_max. split; [reflexivity|]. split; [exact P|]. split; [|apply Y]. intros j v J S. eapply Qle_trans; [|exact (proj1 Y)]. apply M.
      eapply slice_member; [| |exact S]; lia. }
    eexists. split; [reflexivity|]. split.
    + intros i it0 H0 H1. rewrite rd_cons in H0. destruct (Z.eqb_spec i 0) as [->|N0].
      * injection H0 as <-. eexists. rewrite Z.add_0_r. split; [left; reflexivity|exact Dr].
      * destruct (L1 (i - 1) it0 H0 ltac:(lia)) as (p & I & O). exists p. replace (axis + i) with (axis + 1 + (i - 1)) by lia. split; [right; exact I|exact O].
    + intros a p [I|I].
      * injection I as <- <-. split; [exact H|]. exists it. rewrite Z.sub_diag. split; [apply rd_0|exact Dr].
      * destruct (L2 a p I) as (I5 & it0 & H0 & O). split; [exact I5|]. exists it0. split; [|exact O]. rewrite rd_cons. pose proof (rd_bounds _ _ _ _ H0).
        destruct (Z.eqb_spec (a - axis) 0); [lia|]. replace (a - axis - 1) with (a - (axis + 1)) by lia. exact H0.
Qed.

Definition item_span (otime : Z) (it : item) : span := mk_span (ph_name (i_phase it)) (otime + ph_tt (i_phase it)) (w_lo (i_window it)) (w_hi (i_window it)).
Lemma spans_some c otime n first last axes :
  (0 <= w_lo (i_window first) <= w_hi (i_window first) /\ w_hi (i_window first) < n) -> (0 <= w_lo (i_window last) <= w_hi (i_window last) /\ w_hi (i_window last) < n) ->
  outcome_map (fun a => bind (span_of c otime n first last a) (fun s => Ret (a, s))) axes
    = Ret (map (fun a => (a, item_span otime (if a mod 3 =? 0 then first else last))) axes).
Proof.
  intros F L. induction axes as [|a r IH]; [reflexivity|]. cbn [outcome_map map]. rewrite IH. unfold span_of.
  destruct (a mod 3 =? 0); cbv zeta; rewrite !pyindex_in by lia; reflexivity.
Qed.
Lemma shows_span otime it x : shows otime it x <-> x = item_span otime it.
Proof.
  unfold shows, item_span. split; [|intros ->; cbn; auto]. destruct x as [a b l h]. cbn. intros (-> & -> & -> & ->). reflexivity.
Qed.
Lemma axes_used items a : items <> [] -> (In a (axes_of items) <-> used items a).
Proof.
  intros Ne. unfold axes_of, used, p_axis, s_axis. destruct items as [|it [|it2 r]]; [congruence| |].
  - destruct (String.eqb_spec (ph_name (i_phase it)) "P") as [E|E]; cbn [In length].
    + split.
      * intros H. left. exists it. split; [reflexivity|]. split; [exact E|]. destruct H as [H|[H|H]]; [left|right|contradiction]; congruence.
      * intros [(it0 & H & _ & P)|[(it0 & H & N & _)|(L & _)]]; [|congruence|lia]. destruct P; [left|right; left]; congruence.
    + split.
      * intros H. right. left. exists it. split; [reflexivity|]. split; [exact E|]. destruct H as [H|[H|[H|H]]]; [left|right; left|right; right|contradiction]; congruence.
      * intros [(it0 & H & P & _)|[(it0 & H & N & P)|(L & _)]]; [congruence| |lia]. destruct P as [P|[P|P]]; [left|right; left|right; right; left]; congruence.
  - split.
    + intros H. right. right. split; [cbn; lia|]. apply in_zrange in H. exact H.
    + intros [(it0 & H & _)|[(it0 & H & _)|(_ & H)]]; [discriminate|discriminate|]. apply in_zrange. exact H.
Qed.
Lemma summary_cons c start n otime panels items picks first r : items = first :: r ->
  pick_summary c start n otime panels items picks
  = bind (plot_limits c start n otime first (List.last items first) items) (fun lim =>
      let '(min_idx, max_idx, min_win, max_win) := lim in
      bind (wave_panels n min_idx max_idx min_win max_win 0 panels) (fun waves =>
      bind (onset_panels n min_idx max_idx (if is_single "S" items then 4 else 3) items) (fun onsets =>
      bind (outcome_map (fun a => bind (span_of c otime n first (List.last items first) a) (fun s => Ret (a, s))) (axes_of items)) (fun spans =>
      Ret (mk_drawing (min_idx, max_idx) waves onsets spans
             (if start + min_idx * delta c <? otime then axes_of items else []) (flat_map (pick_lines (axes_of items)) picks)))))).
Proof. intros ->. reflexivity. Qed.

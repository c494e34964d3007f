(** C113: the pick plot of a station shows the waveforms, the onset functions, the pick windows and the picks. *)
From Coq Require Import String Ascii.
From Coq Require Import List ZArith QArith Qabs Bool Lia.
From Verif Require Import Lib LibFacts PySlice PySliceFacts Timeline_Model Timeline_Proofs Timeline_Spec Timeline_Props Picker_Model Picker_Spec Picker_Proofs Picker_Props PickPlot_Model PickPlot_Spec PickPlot_Proofs.
Import ListNotations.
Open Scope Z_scope.

(** Partial: needs pick windows from sample 10 to the last sample. *)
Theorem C113_made_partial :
  forall c start n otime panels items picks, fits n items -> Forall (Forall (fun y : list Q => Z.of_nat (length y) = n)) panels ->
  exists d a b, pick_summary c start n otime panels items picks = Ret d /\ d_xlim d = (a, b) /\ 0 <= a <= b /\ b < n
  /\ (forall it, In it items -> a <= w_lo (i_window it) - 10 /\ w_hi (i_window it) <= b)
  /\ (forall i st, rd panels i = Some st -> st <> [] -> exists curves m, In (i, (curves, m)) (d_waves d) /\ Forall2 (fun y l => part y a b l) st curves
        /\ forall it j v, In it items -> w_lo (i_window it) <= j <= w_hi (i_window it) -> sample (last st []) j v -> (Qabs v <= m)%Q)
  /\ (forall i p, In (i, p) (d_waves d) -> exists st, rd panels i = Some st /\ st <> [])
  /\ (forall x p, In (x, p) (d_onsets d) -> x < 5 /\ exists it, In it items /\ onset_shown a b it p)
  /\ (forall x, In x (d_origin d) <-> used items x /\ start + a * delta c < otime)
  /\ (forall x l, In (x, l) (d_picks d) <-> used items x /\ exists row t err, In row picks /\ p_time row = Some t /\ p_error row = Some err
        /\ ln_phase l = p_phase row /\ ln_time l = t /\ ln_lo l = (t - err / 2)%Q /\ ln_hi l = (t + err / 2)%Q
        /\ (ln_colour l = true <-> (p_phase row = "P"%string <-> p_axis x))).
Proof.
  intros c start n otime panels items picks (Ne & F) Fp. destruct items as [|first r] eqn:Ei; [congruence|]. rewrite <- Ei in *.
  assert (If : In first items) by (rewrite Ei; left; reflexivity).
  assert (Il : In (last items first) items). { destruct (exists_last Ne) as (l & x & Hx). rewrite Hx, last_last. apply in_or_app. right. left. reflexivity. }
  pose proof (proj1 (Forall_forall _ _) F) as F'. pose proof (F' first If) as Ff. pose proof (F' _ Il) as Fl. cbn beta in F', Ff, Fl.
  destruct (limits_some c start n otime first (last items first) items ltac:(lia) If F) as (mi & ma & mw & xw & El & Hmi & Hma & Hmw & U).
  pose proof (U first If) as Uf.
  destruct (wave_panels_some n mi ma mw xw (w_lo (i_window first)) panels 0 Fp Hmi Hma ltac:(lia) ltac:(lia) ltac:(lia)) as (waves & Ew & W1 & W2).
  destruct (onset_panels_some n mi ma items (if is_single "S" items then 4 else 3) F Hmi Hma) as (ons & Eo & O1 & O2).
  pose proof (spans_some c otime n first (last items first) (axes_of items) ltac:(lia) ltac:(lia)) as Es.
  eexists. exists mi, ma.
  split. { rewrite (summary_cons _ _ _ _ _ _ _ _ _ Ei), El. cbn [bind]. cbv beta iota. rewrite Ew. cbn [bind]. rewrite Eo. cbn [bind]. rewrite Es. cbn [bind]. reflexivity. }
  cbn [d_xlim d_waves d_onsets d_spans d_origin d_picks].
  split; [reflexivity|]. split; [exact Hmi|]. split; [exact Hma|].
  split. { intros it I. specialize (U it I). lia. }
  split. { intros i st R N0. destruct (W1 i st R N0) as (cs & m & I & P1 & P2). exists cs, m. split; [exact I|]. split; [exact P1|].
    intros it j v It J S. specialize (U it It). apply (P2 j v); [lia|exact S]. }
  split. { intros i p I. destruct (W2 i p I) as (st & R & N0). rewrite Z.sub_0_r in R. exists st. split; assumption. }
  split. { intros x p I. destruct (O2 x p I) as (L5 & it & R & O). split; [exact L5|]. exists it. split; [exact (rd_in _ _ _ _ R)|exact O]. }
  split. { intros x. rewrite <- (axes_used items x Ne). destruct (Z.ltb_spec (start + mi * delta c) otime); split; [tauto|tauto|contradiction|lia]. }
  intros x l. rewrite in_flat_map, <- (axes_used items x Ne).
  assert (Pax : (x mod 3 =? 0) = true <-> x mod 3 = 0) by apply Z.eqb_eq.
  assert (Rng : In x (axes_of items) -> (x mod 3 = 0 <-> p_axis x)).
  { intros I. apply (axes_used items x Ne) in I. destruct I as [(? & _ & _ & I)|[(? & _ & _ & I)|(_ & I)]]; unfold p_axis, s_axis in *.
    - destruct I as [->| ->]; cbn; lia.
    - destruct I as [->|[->| ->]]; cbn; lia.
    - assert (x = 0 \/ x = 1 \/ x = 2 \/ x = 3 \/ x = 4) as [->|[->|[->|[->| ->]]]] by lia; cbn; lia. }
  assert (Col : forall ph, In x (axes_of items) -> (Bool.eqb (x mod 3 =? 0) (String.eqb ph "P") = true <-> (ph = "P"%string <-> p_axis x))).
  { intros ph I. rewrite <- (Rng I). destruct (Z.eqb_spec (x mod 3) 0) as [E1|E1], (String.eqb_spec ph "P") as [E2|E2]; cbn; split; intros H; try reflexivity; try discriminate; tauto. }
  split.
  - intros (row & Ir & I). unfold pick_lines in I. destruct (p_time row) as [t|] eqn:Et; [|contradiction]. destruct (p_error row) as [err|] eqn:Ee; [|contradiction].
    apply in_map_iff in I. destruct I as (a & Ea & Ia). assert (a = x) by congruence. subst a.
    assert (l = mk_line (p_phase row) t (t - err / 2)%Q (t + err / 2)%Q (Bool.eqb (x mod 3 =? 0) (String.eqb (p_phase row) "P"))) by congruence. subst l.
    split; [exact Ia|]. exists row, t, err. cbn [ln_phase ln_time ln_lo ln_hi ln_colour]. repeat (split; [assumption || reflexivity|]). apply Col, Ia.
  - intros (Ia & row & t & err & Ir & Et & Ee & H1 & H2 & H3 & H4 & H5). exists row. split; [exact Ir|]. unfold pick_lines. rewrite Et, Ee. apply in_map_iff.
    exists x. split; [|exact Ia]. f_equal. destruct l as [a1 a2 a3 a4 a5]. cbn [ln_phase ln_time ln_lo ln_hi ln_colour] in *. subst a1 a2 a3 a4. f_equal.
    apply eq_true_iff_eq. rewrite (Col _ Ia). symmetry. exact H5.
Qed.
Print Assumptions C113_made_partial.

(** P and S: the windows and arrivals of P on the axes 0 and 3, those of S on 1, 2 and 4; the onset functions on 3 and 4. A single phase on its own axes. *)
Theorem C113_axes_partial :
  forall c start n otime panels items picks d, fits n items -> pick_summary c start n otime panels items picks = Ret d ->
  (forall p s, items = [p; s] ->
     (forall a x, In (a, x) (d_spans d) <-> (p_axis a /\ shows otime p x) \/ (s_axis a /\ shows otime s x))
     /\ exists op os, d_onsets d = [(3, op); (4, os)] /\ onset_shown (fst (d_xlim d)) (snd (d_xlim d)) p op /\ onset_shown (fst (d_xlim d)) (snd (d_xlim d)) s os)
  /\ (forall p, items = [p] -> ph_name (i_phase p) = "P"%string ->
     (forall a x, In (a, x) (d_spans d) <-> p_axis a /\ shows otime p x)
     /\ exists op, d_onsets d = [(3, op)] /\ onset_shown (fst (d_xlim d)) (snd (d_xlim d)) p op)
  /\ (forall s, items = [s] -> ph_name (i_phase s) = "S"%string ->
     (forall a x, In (a, x) (d_spans d) <-> s_axis a /\ shows otime s x)
     /\ exists os, d_onsets d = [(4, os)] /\ onset_shown (fst (d_xlim d)) (snd (d_xlim d)) s os).
Proof.
  intros c start n otime panels items picks d (Ne & F) E. destruct items as [|first r] eqn:Ei; [congruence|]. rewrite <- Ei in *.
  assert (If : In first items) by (rewrite Ei; left; reflexivity).
  assert (Il : In (last items first) items). { destruct (exists_last Ne) as (l & x & Hx). rewrite Hx, last_last. apply in_or_app. right. left. reflexivity. }
  pose proof (proj1 (Forall_forall _ _) F) as F'. pose proof (F' first If) as Ff. pose proof (F' _ Il) as Fl. cbn beta in F', Ff, Fl.
  destruct (limits_some c start n otime first (last items first) items ltac:(lia) If F) as (mi & ma & mw & xw & El & Hmi & Hma & Hmw & U).
  assert (On : forall it ax l, Z.of_nat (length (ph_onset (i_phase it))) = n -> In it items -> ax < 5 ->
     exists y m, onset_panels n mi ma ax (it :: l) = bind (onset_panels n mi ma (ax + 1) l) (fun r => Ret ((ax, (ph_name (i_phase it), y, i_thresh it, m)) :: r))
       /\ onset_shown mi ma it (ph_name (i_phase it), y, i_thresh it, m)).
  { intros it ax l _ I Ax. pose proof (F' it I) as Fi. destruct (onset_panels_some n mi ma [it] ax ltac:(repeat constructor; lia) Hmi Hma) as (l0 & E0 & _ & O2).
    cbn [onset_panels] in E0 |- *. destruct (Z.leb_spec 5 ax); [lia|]. destruct (curve n mi (ma + 1) (ph_onset (i_phase it))) as [y| |]; try discriminate. cbn [bind] in E0 |- *.
    destruct (qmax_list _) as [m0| |]; try discriminate. cbn [bind] in E0 |- *. cbv zeta in *. assert (E1 := f_equal (fun o => match o with Ret v => v | _ => [] end) E0). cbn beta iota in E1. subst l0.
    destruct (O2 ax _ (or_introl eq_refl)) as (_ & it0 & R & O). rewrite Z.sub_diag, rd_0 in R. injection R as <-. eexists _, _. split; [reflexivity|exact O]. }
  rewrite (summary_cons _ _ _ _ _ _ _ _ _ Ei), El in E. cbn [bind] in E. cbv beta iota in E.
  apply bind_ret in E. destruct E as (waves & _ & E). apply bind_ret in E. destruct E as (ons & Eo & E).
  rewrite (spans_some c otime n first (last items first) (axes_of items) ltac:(lia) ltac:(lia)) in E. cbn [bind] in E.
  assert (Es : d_spans d = map (fun a => (a, item_span otime (if a mod 3 =? 0 then first else last items first))) (axes_of items)) by (assert (X := f_equal (fun o => match o with Ret v => d_spans v | _ => [] end) E); symmetry; exact X).
  assert (Ed : d_onsets d = ons) by (assert (X := f_equal (fun o => match o with Ret v => d_onsets v | _ => [] end) E); symmetry; exact X).
  assert (Ex : d_xlim d = (mi, ma)) by (assert (X := f_equal (fun o => match o with Ret v => d_xlim v | _ => (0, 0) end) E); symmetry; exact X).
  rewrite Es, Ed, Ex. cbn [fst snd]. clear E Es Ed Ex El.
  assert (Nil : forall ax, onset_panels n mi ma ax [] = Ret []) by reflexivity.
  split; [|split].
  - intros p s Eps. assert (first = p) by congruence. subst first. rewrite Eps in *. cbn [axes_of last is_single] in *. split.
    + intros a x. rewrite !shows_span. change (zrange 5) with [0; 1; 2; 3; 4]. cbn. unfold p_axis, s_axis. split.
      * intros [H|[H|[H|[H|[H|[]]]]]]; injection H as <- <-; auto 6.
      * intros [([->| ->] & ->)|([->|[->| ->]] & ->)]; auto 7.
    + destruct (On p 3 [s]) as (y & m & E1 & O1); [apply (F' p If)|exact If|lia|].
      destruct (On s 4 []) as (y' & m' & E2 & O2); [apply (F' s Il)|exact Il|lia|]. change (3 + 1) with 4 in E1. rewrite E2, Nil in E1. cbn [bind] in E1.
      rewrite E1 in Eo. injection Eo as <-. eexists _, _. split; [reflexivity|]. split; assumption.
  - intros p Ep Nm. assert (first = p) by congruence. subst first. rewrite Ep in *. cbn [axes_of last is_single] in *. rewrite Nm in *. cbn [String.eqb] in *. split.
    + intros a x. rewrite !shows_span. cbn. unfold p_axis. split.
      * intros [H|[H|[]]]; injection H as <- <-; auto.
      * intros ([->| ->] & ->); auto.
    + destruct (On p 3 []) as (y & m & E1 & O1); [apply (F' p If)|exact If|lia|]. rewrite Nil in E1. cbn [bind] in E1. change (onset_panels n mi ma 3 [p] = Ret ons) in Eo.
      rewrite E1 in Eo. injection Eo as <-. eexists. split; [reflexivity|exact O1].
  - intros p Ep Nm. assert (first = p) by congruence. subst first. rewrite Ep in *. cbn [axes_of last is_single] in *. rewrite Nm in *. cbn [String.eqb] in *. split.
    + intros a x. rewrite !shows_span. cbn. unfold s_axis. split.
      * intros [H|[H|[H|[]]]]; injection H as <- <-; auto.
      * intros ([->|[->| ->]] & ->); auto.
    + destruct (On p 4 []) as (y & m & E1 & O1); [apply (F' p If)|exact If|lia|]. rewrite Nil in E1. cbn [bind] in E1. change (onset_panels n mi ma 4 [p] = Ret ons) in Eo.
      rewrite E1 in Eo. injection Eo as <-. eexists. split; [reflexivity|exact O1].
Qed.
Print Assumptions C113_axes_partial.

(** The hypothesis holds for an event located within the marginal window of its trigger time if the pad after the data covers the pick window of the latest arrival. *)
Theorem C113_located_partial :
  forall c trigger otime mw pre post n phases, clock_ok c -> integer_rate c -> 0 <= mw -> Z.abs (otime - trigger) <= mw ->
  11 * delta c <= pre -> (n - 1) * delta c = 4 * mw + pre + post -> phases <> [] ->
  Forall (fun p => Z.of_nat (length (ph_onset p)) = n /\ 0 <= ph_ttf p <= ph_tt p /\ ph_tt p + ph_ttf p + delta c <= post) phases ->
  (forall i p q, rd phases i = Some p -> rd phases (i + 1) = Some q -> ph_tt p <= ph_tt q) ->
  exists ws, station_windows c otime (trigger - 2 * mw - pre) mw phases = Ret ws
  /\ forall items, map i_phase items = phases -> map i_window items = ws -> fits n items.
Proof.
  intros c trigger otime mw pre post n phases Hc Hr Hmw Ho Hpre Hn Ne F Ord. pose proof (delta_pos c Hc) as HD. rewrite Forall_forall in F.
  destruct (C41_windows_disjoint c otime (trigger - 2 * mw - pre) mw n phases) as (ws & Ew & L & W & _ & _).
  { split; [exact Hc|]. split; [exact Hr|]. split; [exact Hmw|]. split; [exact Ne|]. split; [|exact Ord]. apply Forall_forall. intros p I. destruct (F p I) as (H1 & H2 & H3). lia. }
  exists ws. split; [exact Ew|]. intros items E1 E2. split; [intros ->; cbn in E1; congruence|]. apply Forall_forall. intros it I.
  destruct (in_rd _ _ _ I) as (i & Ri).
  assert (R1 : rd phases i = Some (i_phase it)) by (rewrite <- E1, rd_map, Ri; reflexivity).
  assert (R2 : rd ws i = Some (i_window it)) by (rewrite <- E2, rd_map, Ri; reflexivity).
  destruct (W i _ _ R1 R2) as (N1 & N2 & N3 & N4 & N5). destruct (F _ (rd_in _ _ _ _ R1)) as (F1 & F2 & F3). unfold nearest in N1.
  split; [exact F1|]. set (lo := w_lo (i_window it)) in *. set (ar := w_arr (i_window it)) in *. set (hi := w_hi (i_window it)) in *.
  assert (10 * delta c <= lo * delta c) by lia. assert (hi * delta c <= (n - 1) * delta c) by lia. split; [split|].
  - apply (Z.mul_le_mono_pos_r _ _ (delta c)); lia.
  - lia.
  - assert (hi <= n - 1) by (apply (Z.mul_le_mono_pos_r _ _ (delta c)); lia). lia.
Qed.
Print Assumptions C113_located_partial.

(** A station without traces has no figure; otherwise the picks shown are those of the station. *)
Theorem C113_station :
  forall c start otime sel traces station items table,
  (traces = [] -> plot c start otime sel traces station items table = Ret None)
  /\ (forall comp y r, traces = (comp, y) :: r -> forall o, plot c start otime sel traces station items table = o ->
      match pick_summary c start (Z.of_nat (length y)) otime (map (fun s => map snd (filter (fun t => s (fst t)) traces)) sel) items
              (filter (fun r => String.eqb (p_station r) station) table) with
      | Ret d => o = Ret (Some d) /\ (forall x l, In (x, l) (d_picks d) -> exists row, In row table /\ p_station row = station /\ p_phase row = ln_phase l /\ p_time row = Some (ln_time l))
      | Raise e => o = Raise e
      | Undef => o = Undef
      end).
Proof.
  intros c start otime sel traces station items table. split; [intros ->; reflexivity|]. intros comp y r E o Ho. unfold plot in Ho. rewrite E in Ho. rewrite <- E in Ho. cbn [snd] in Ho.
  destruct (pick_summary _ _ _ _ _ _ _) as [d| |] eqn:Ed; cbn [bind] in Ho; try (symmetry; exact Ho). split; [symmetry; exact Ho|].
  intros x l I. destruct items as [|first its] eqn:Ei; [discriminate|]. rewrite <- Ei in Ed. rewrite (summary_cons _ _ _ _ _ _ _ _ _ Ei) in Ed.
  apply bind_ret in Ed. destruct Ed as ((((mi & ma) & mw) & xw) & _ & Ed). apply bind_ret in Ed. destruct Ed as (? & _ & Ed). apply bind_ret in Ed. destruct Ed as (? & _ & Ed).
  apply bind_ret in Ed. destruct Ed as (? & _ & Ed). assert (X := f_equal (fun o => match o with Ret v => d_picks v | _ => [] end) Ed). cbn [d_picks] in X. rewrite <- X in I.
  apply in_flat_map in I. destruct I as (row & Ir & I). apply filter_In in Ir. destruct Ir as (Ir & Es). apply String.eqb_eq in Es. exists row. split; [exact Ir|]. split; [exact Es|].
  unfold pick_lines in I. destruct (p_time row) as [t|]; [|contradiction]. destruct (p_error row); [|contradiction]. apply in_map_iff in I. destruct I as (a & Ea & _).
  assert (El : l = snd (x, l)) by reflexivity. rewrite <- Ea in El. rewrite El. cbn. auto.
Qed.
Print Assumptions C113_station.

(** The two phases of C41's example: 400 samples of 0.02 s. *)
Definition ps_items : list item := [mk_item (mk_phase "P" flat_onset 100000 10000) (mk_window 45 100 118) (Some (2 # 1)%Q); mk_item (mk_phase "S" flat_onset 173000 17300) (mk_window 118 136 195) None].
Definition ps_picks : list pick_row := [mk_row "ST01" "P" 600000 (Some (605000 # 1)%Q) (Some (2000 # 1)%Q) (Some (3 # 1)%Q) (Some (5000 # 1)%Q); mk_row "ST01" "S" 673000 None None None None].
Example C113_example : fits 400 ps_items /\ map i_phase ps_items = ps_phases /\ station_windows hz50 500000 400000 100000 ps_phases = Ret (map i_window ps_items)
  /\ exists d, pick_summary hz50 400000 400 500000 [[flat_onset]; [flat_onset; flat_onset]; []] ps_items ps_picks = Ret d
     /\ length (d_spans d) = 5%nat /\ length (d_picks d) = 5%nat /\ d_xlim d = (35, 205) /\ map fst (d_waves d) = [0; 1] /\ map (fun p => snd (snd p)) (d_onsets d) = [2 # 1; 1 # 1]%Q.
Proof.
  split; [split; [discriminate|repeat constructor; cbn; lia]|]. split; [reflexivity|]. split; [reflexivity|]. eexists. split; [vm_compute; reflexivity|]. vm_compute. auto.
Qed.
Definition hz10 : clock := {| sec := 100000; delta := 10000 |}.
Example C113_located_ex : exists trigger otime mw pre post n, clock_ok hz50 /\ integer_rate hz50 /\ 0 <= mw /\ Z.abs (otime - trigger) <= mw /\ 0 < Z.abs (otime - trigger)
  /\ 11 * delta hz50 <= pre /\ (n - 1) * delta hz50 = 4 * mw + pre + post
  /\ Forall (fun p => Z.of_nat (length (ph_onset p)) = n /\ 0 <= ph_ttf p <= ph_tt p /\ ph_tt p + ph_ttf p + delta hz50 <= post) ps_phases.
Proof.
  exists 700000, 750000, 100000, 198000, 200000, 400. destruct hz50_ok as (H1 & H2 & _). split; [exact H1|]. split; [exact H2|]. repeat split; try (cbn; lia).
  repeat constructor; cbn; lia.
Qed.

(** The pads of the data do not count the width of the pick windows. A station 100 s (S) from the source, an STA/LTA of 0.2 s and 1 s, a marginal window of 1 s, the default fraction_tt
    of 0.1: the pick window of S reaches the end of the data and the plot fails with an IndexError. *)
Definition far_onset : list Q := repeat (1 # 1)%Q 1217.
Definition far_phases : list phase_data := [mk_phase "P" far_onset 5800000 580000; mk_phase "S" far_onset 10000000 1000000].
Theorem C113_end_refuted :
  exists c windows ttmax pre post trigger otime mw n phases ws,
  clock_ok c /\ integer_rate c /\ onset_pad c (4 * mw) (stalta_pre_pad windows) (stalta_post_pad c windows ttmax) = (pre, post)
  /\ Z.abs (otime - trigger) < mw /\ (n - 1) * delta c = 4 * mw + pre + post
  /\ Forall (fun p => Z.of_nat (length (ph_onset p)) = n /\ 0 <= ph_tt p <= ttmax /\ 10 * ph_ttf p = ph_tt p) phases
  /\ station_windows c otime (trigger - 2 * mw - pre) mw phases = Ret ws
  /\ forall items panels picks, map i_phase items = phases -> map i_window items = ws -> Forall (Forall (fun y : list Q => Z.of_nat (length y) = n)) panels ->
     pick_summary c (trigger - 2 * mw - pre) n otime panels items picks = Raise IndexError.
Proof.
  exists hz10, [(20000, 100000)], 10000000, 860000, 10900000, 20000000, 20050000, 100000, 1217, far_phases, [mk_window 623 691 759; mk_window 1001 1111 1217].
  split; [split; [cbn; lia|]; split; [exists 1; reflexivity|cbn; lia]|]. split; [exists 10; reflexivity|]. split; [vm_compute; reflexivity|]. split; [lia|]. split; [reflexivity|].
  split; [repeat constructor; vm_compute; congruence|]. split; [vm_compute; reflexivity|].
  intros items panels picks E1 E2 Fp.
  destruct items as [|[pa wa ta] [|[pb wb tb] [|? ?]]]; try discriminate. cbn [map i_phase i_window] in E1, E2.
  assert (pa = mk_phase "P" far_onset 5800000 580000) by (unfold far_phases in E1; congruence). assert (pb = mk_phase "S" far_onset 10000000 1000000) by (unfold far_phases in E1; congruence).
  assert (wa = mk_window 623 691 759) by congruence. assert (wb = mk_window 1001 1111 1217) by congruence. subst pa pb wa wb.
  rewrite (summary_cons _ _ _ _ _ _ _ _ _ eq_refl).
  match goal with |- bind ?o _ = _ => assert (El : o = Ret (401, 1216, 613, 1227)) by (vm_compute; reflexivity); rewrite El; clear El end. cbn [bind]. cbv beta iota.
  destruct (wave_panels_some 1217 401 1216 613 1227 623 panels 0 Fp ltac:(lia) ltac:(lia) ltac:(lia) ltac:(lia) ltac:(lia)) as (waves & Ew & _ & _). rewrite Ew. cbn [bind].
  match goal with |- bind ?o _ = _ => assert (Eo : exists l, o = Ret l) by (eexists; vm_compute; reflexivity); destruct Eo as (l & Eo); rewrite Eo; clear Eo end. cbn [bind].
  vm_compute. reflexivity.
Qed.
Print Assumptions C113_end_refuted.

(** One sample per second, an STA/LTA of 1 s and 2 s and a station next to the source: ten samples before the pick window lie before the data; taken as a negative index,
    no samples are left and the plot fails with a ValueError. *)
Definition near_onset : list Q := repeat (1 # 1)%Q 28.
Definition near_phases : list phase_data := [mk_phase "P" near_onset 100000 10000; mk_phase "S" near_onset 170000 17000].
Theorem C113_start_refuted :
  exists c windows ttmax pre post trigger otime mw n phases ws,
  clock_ok c /\ integer_rate c /\ onset_pad c (4 * mw) (stalta_pre_pad windows) (stalta_post_pad c windows ttmax) = (pre, post)
  /\ Z.abs (otime - trigger) < mw /\ (n - 1) * delta c = 4 * mw + pre + post
  /\ Forall (fun p => Z.of_nat (length (ph_onset p)) = n /\ 0 <= ph_tt p <= ttmax /\ 10 * ph_ttf p = ph_tt p) phases
  /\ station_windows c otime (trigger - 2 * mw - pre) mw phases = Ret ws
  /\ forall items y panels picks, map i_phase items = phases -> map i_window items = ws -> Z.of_nat (length y) = n ->
     pick_summary c (trigger - 2 * mw - pre) n otime ([y] :: panels) items picks = Raise ValueError.
Proof.
  exists {| sec := 100000; delta := 100000 |}, [(100000, 200000)], 1000000, 700000, 1600000, 2000000, 2000000, 100000, 28, near_phases, [mk_window 9 10 10; mk_window 10 11 12].
  split; [split; [cbn; lia|]; split; [exists 1; reflexivity|cbn; lia]|]. split; [exists 1; reflexivity|]. split; [vm_compute; reflexivity|]. split; [lia|]. split; [reflexivity|].
  split; [repeat constructor; vm_compute; congruence|]. split; [vm_compute; reflexivity|].
  intros items y panels picks E1 E2 L.
  destruct items as [|[pa wa ta] [|[pb wb tb] [|? ?]]]; try discriminate. cbn [map i_phase i_window] in E1, E2.
  assert (pa = mk_phase "P" near_onset 100000 10000) by (unfold near_phases in E1; congruence). assert (pb = mk_phase "S" near_onset 170000 17000) by (unfold near_phases in E1; congruence).
  assert (wa = mk_window 9 10 10) by congruence. assert (wb = mk_window 10 11 12) by congruence. subst pa pb wa wb.
  rewrite (summary_cons _ _ _ _ _ _ _ _ _ eq_refl).
  match goal with |- bind ?o _ = _ => assert (El : exists b, o = Ret (0, b, -1, 22) /\ 0 <= b < 28) by (eexists; split; [vm_compute; reflexivity|lia]); destruct El as (b & El & B); rewrite El; clear El end. cbn [bind]. cbv beta iota.
  assert (Er : wave_panels 28 0 b (-1) 22 0 ([y] :: panels) = Raise ValueError); [|rewrite Er; reflexivity].
  cbn [wave_panels wave_panel outcome_map last]. destruct (curve_some 28 0 b y L ltac:(lia) ltac:(lia)) as (l & -> & _). cbn [bind].
  assert (Em : pyslice y (Some (-1)) (Some (22 + 1)) = []). { apply length_zero_iff_nil. apply Nat2Z.inj. rewrite pyslice_length, L. reflexivity. }
  rewrite Em. reflexivity.
Qed.
Print Assumptions C113_start_refuted.

(** Two traces in one panel: the height is that of the last one, the other may be cut off inside the pick windows. *)
Definition loud : list Q := repeat (9 # 1)%Q 400.
Theorem C113_two_traces_refuted :
  exists c start n otime panels items picks d st y curves m j v it, fits n items /\ Forall (Forall (fun y : list Q => Z.of_nat (length y) = n)) panels
  /\ pick_summary c start n otime panels items picks = Ret d /\ rd panels 0 = Some st /\ In y st /\ In (0, (curves, m)) (d_waves d) /\ length (d_waves d) = 1%nat
  /\ In it items /\ w_lo (i_window it) <= j <= w_hi (i_window it) /\ sample y j v /\ (m < Qabs v)%Q.
Proof.
  exists hz50, 400000, 400, 500000, [[loud; flat_onset]; []; []], ps_items, []. eexists. exists [loud; flat_onset], loud. eexists _, _. exists 100, (9 # 1)%Q. eexists.
  split; [split; [discriminate|repeat constructor; cbn; lia]|]. split; [repeat constructor|]. split; [vm_compute; reflexivity|]. split; [reflexivity|]. split; [left; reflexivity|].
  cbn [d_waves]. split; [left; reflexivity|]. split; [reflexivity|]. split; [left; reflexivity|]. split; [cbn; lia|]. split; [reflexivity|]. reflexivity.
Qed.
Print Assumptions C113_two_traces_refuted.

(** Three phases: the last panel has the onset function of the second phase and the arrival and pick window of the third; the third onset function is not shown. *)
Theorem C113_three_phases_refuted :
  exists c start n otime panels p1 p2 p3 d y t m x, fits n [p1; p2; p3] /\ ph_name (i_phase p2) <> ph_name (i_phase p3)
  /\ pick_summary c start n otime panels [p1; p2; p3] [] = Ret d /\ In (4, (ph_name (i_phase p2), y, t, m)) (d_onsets d)
  /\ (forall a q, In (a, q) (d_onsets d) -> fst (fst (fst q)) <> ph_name (i_phase p3)) /\ In (4, x) (d_spans d) /\ shows otime p3 x /\ (forall z, In (4, z) (d_spans d) -> z = x).
Proof.
  exists hz50, 400000, 400, 500000, [[]; []; []], (mk_item (mk_phase "P" flat_onset 100000 10000) (mk_window 45 100 118) None), (mk_item (mk_phase "S" flat_onset 173000 17300) (mk_window 118 136 195) None),
    (mk_item (mk_phase "R" flat_onset 200000 20000) (mk_window 195 200 205) None). eexists. eexists _, _, _, _.
  split; [split; [discriminate|repeat constructor; cbn; lia]|]. split; [discriminate|]. split; [vm_compute; reflexivity|]. cbn [d_onsets d_spans].
  split; [right; left; reflexivity|]. split; [intros a q [H|[H|[]]]; injection H as _ <-; discriminate|]. split; [right; right; right; right; left; reflexivity|].
  split; [unfold shows; auto|]. intros z [H|[H|[H|[H|[H|[]]]]]]; congruence.
Qed.
Print Assumptions C113_three_phases_refuted.

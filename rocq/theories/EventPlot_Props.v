(** C114: the event summary shows the event. *)
From Coq Require Import String Ascii.
From Coq Require Import List ZArith QArith Qabs Reals Bool Permutation Lia Lra.
From Verif Require Import Lib LibFacts PySlice PySliceFacts Timeline_Model Timeline_Spec Timeline_Props ScanMseed_Proofs Lut_Model Comps_Model Catalogue_Model PickPlot_Model PickPlot_Proofs Picker_Model EventPlot_Model EventPlot_Spec EventPlot_Proofs.
From Verif Require Lut_Spec Locate_Proofs Mag_Model ScanMseed_Model Amps_Proofs.
Import ListNotations.
Open Scope Z_scope.

(** Each station has a row of its own, labelled with its name; the station the first phase reaches first is on top; the rows are inside the plot. *)
Theorem C114_rows :
  forall argsort c start n otime endtime phases tts stations sel waveforms g, is_argsort argsort -> 0 < n -> table (length phases) (length stations) tts ->
  plot_gather argsort c start n otime endtime phases tts stations sel waveforms = Ret g ->
  length (g_ticks g) = length stations
  /\ (forall i s, rd stations i = Some s -> exists row, rd (g_ticks g) i = Some (row, s) /\ fst (g_ylim g) + 2 <= row <= snd (g_ylim g) - 2)
  /\ (forall i j row s s', rd (g_ticks g) i = Some (row, s) -> rd (g_ticks g) j = Some (row, s') -> i = j)
  /\ (forall i j row row' s s', rd (g_ticks g) i = Some (row, s) -> rd (g_ticks g) j = Some (row', s') -> i <> j -> 2 <= Z.abs (row - row'))
  /\ (forall first r i j row row' s s' t t', tts = first :: r -> rd (g_ticks g) i = Some (row, s) -> rd (g_ticks g) j = Some (row', s') -> rd first i = Some t -> rd first j = Some t' -> t < t' -> row' < row).
Proof.
  intros argsort c start n otime endtime phases tts stations sel waveforms g A N (L & F) E.
  destruct (gather_inv _ _ _ _ _ _ _ _ _ _ _ _ N E) as (first & r & top & mx & a & b & waves & Et & T & _ & H). cbv zeta in H. destruct H as (_ & _ & _ & ->). cbn [g_ticks g_ylim fst snd]. clear E.
  assert (L1 : length first = length stations) by (rewrite Et in F; inversion F; assumption).
  set (l := map (fun tt => otime + tt) first) in *. assert (L2 : length l = length stations) by (unfold l; rewrite map_length; exact L1).
  destruct (rows_facts argsort l A) as (R0 & R1 & R2 & R3). set (q := rows argsort l) in *.
  split; [rewrite combine_length; lia|]. split; [|split; [|split]].
  - intros i s Rs. pose proof (rd_bounds _ _ _ _ Rs) as B. destruct (rd_in_range _ q i ltac:(lia)) as (row & Rr). exists row. split; [apply rd_combine; assumption|].
    destruct (R1 i row Rr) as (B1 & _). destruct T as (_ & T). rewrite Forall_forall in T. specialize (T row (rd_in _ _ _ _ Rr)). lia.
  - intros i j row s s' H1 H2. apply rd_combine_inv in H1, H2. exact (R2 i j row (proj1 H1) (proj1 H2)).
  - intros i j row row' s s' H1 H2 Ne. apply rd_combine_inv in H1, H2. destruct (R1 i row (proj1 H1)) as (_ & E1). destruct (R1 j row' (proj1 H2)) as (_ & E2).
    assert (row <> row') by (intros ->; apply Ne; exact (R2 i j row' (proj1 H1) (proj1 H2))).
    pose proof (Z.div_mod row 2 ltac:(lia)). pose proof (Z.div_mod row' 2 ltac:(lia)). lia.
  - intros f r' i j row row' s s' t t' Ef H1 H2 X1 X2 Lt. rewrite Et in Ef. injection Ef as <- <-. apply rd_combine_inv in H1, H2.
    apply (R3 i j row row' (otime + t) (otime + t')); [apply H1|apply H2| | |lia]; unfold l; rewrite rd_map; [rewrite X1|rewrite X2]; reflexivity.
Qed.
Print Assumptions C114_rows.

(** The modelled arrivals of the first two phases are drawn in the rows of their stations; P with S, and P alone, in the colour of P (0), S with P in that of S (1). *)
Theorem C114_arrivals_partial :
  forall argsort c start n otime endtime phases tts stations sel waveforms g, is_argsort argsort -> 0 < n -> table (length phases) (length stations) tts -> (length phases <= 2)%nat ->
  plot_gather argsort c start n otime endtime phases tts stations sel waveforms = Ret g ->
  length (g_marks g) = length phases
  /\ (forall k ph m, rd phases k = Some ph -> rd (g_marks g) k = Some m -> m_phase m = ph /\ m_colour m = k /\ length (m_points m) = length stations
      /\ forall tt i t row s, rd tts k = Some tt -> rd tt i = Some t -> rd (g_ticks g) i = Some (row, s) -> rd (m_points m) i = Some (otime + t, row))
  /\ fst (g_xlim g) = 2 * otime - 2 * (sec c / 10)
  /\ (forall tt t, In tt tts -> In t tt -> 0 <= t -> otime + t <= endtime -> 2 * (otime + t) <= snd (g_xlim g)).
Proof.
  intros argsort c start n otime endtime phases tts stations sel waveforms g A N (L & F) L2 E.
  destruct (gather_inv _ _ _ _ _ _ _ _ _ _ _ _ N E) as (first & r & top & mx & a & b & waves & Et & T & Mx & H). cbv zeta in H. destruct H as (_ & _ & _ & ->). cbn [g_ticks g_ylim g_marks g_xlim fst snd]. clear E.
  assert (L1 : length first = length stations) by (rewrite Et in F; inversion F; assumption).
  set (l := map (fun tt => otime + tt) first) in *. assert (L3 : length l = length stations) by (unfold l; rewrite map_length; exact L1).
  destruct (rows_facts argsort l A) as (R0 & _). set (q := rows argsort l) in *.
  assert (Pc : forall k, 0 <= k < Z.of_nat (length phases) -> rd (pick_colours phases) k = Some k).
  { intros k K. unfold pick_colours. destruct phases as [|p [|p2 [|? ?]]]; cbn in K, L2; [lia| | |lia].
    - assert (k = 0) by lia. subst k. destruct (String.eqb p "P"); reflexivity.
    - assert (k = 0 \/ k = 1) as [->| ->] by lia; reflexivity. }
  assert (Pl : (length phases <= length (pick_colours phases))%nat).
  { unfold pick_colours. destruct phases as [|p [|p2 [|? ?]]]; cbn in L2 |- *; try lia. destruct (String.eqb p "P"); cbn; lia. }
  split; [|split; [|split]].
  - unfold marks. rewrite map_length, !combine_length. lia.
  - intros k ph m Rp Rm. pose proof (rd_bounds _ _ _ _ Rp) as B. unfold marks in Rm. rewrite rd_map in Rm.
    destruct (rd (combine (combine tts (pick_colours phases)) phases) k) as [((tt & col) & ph')|] eqn:Ec; [|discriminate]. cbn [option_map fst snd] in Rm. injection Rm as <-.
    apply rd_combine_inv in Ec. destruct Ec as (Ec & Eph). apply rd_combine_inv in Ec. destruct Ec as (Ett & Ecol). rewrite Pc in Ecol by lia. cbn [m_phase m_colour m_points].
    split; [congruence|]. split; [congruence|]. rewrite Forall_forall in F. pose proof (F tt (rd_in _ _ _ _ Ett)) as Lt.
    split; [rewrite combine_length, map_length; lia|]. intros tt' i t row s Rtt Ri Rr. assert (tt' = tt) by congruence. subst tt'. apply rd_combine_inv in Rr.
    apply rd_combine; [rewrite rd_map, Ri; reflexivity|apply Rr].
  - reflexivity.
  - intros tt t It I Ht He. destruct Mx as (_ & Mx). rewrite Forall_forall in Mx. assert (t <= mx) by (apply Mx; apply in_concat; exists tt; auto). lia.
Qed.
Print Assumptions C114_arrivals_partial.

(** The waveforms: exactly the traces of the listed stations, each in every panel that has its component, in the row of its station, scaled by the largest value up to 1.5 times the
    traveltime of the last phase, and there at most one unit from its row (the rows are two units apart). *)
Theorem C114_waves :
  forall argsort c start n otime endtime phases tts stations s0 s1 s2 waveforms g, is_argsort argsort -> 0 < n -> table (length phases) (length stations) tts ->
  plot_gather argsort c start n otime endtime phases tts stations [s0; s1; s2] waveforms = Ret g ->
  exists a b, is_closest c start n (fst (g_xlim g)) a /\ is_closest c start n (snd (g_xlim g)) b
  /\ (forall w, In w (g_waves g) -> exists i row s colour sel phase t, rd (g_ticks g) i = Some (row, s) /\ In (colour, sel, phase) (panels s0 s1 s2) /\ In t waveforms /\ t_station t = s /\ sel (t_comp t) = true
        /\ shows_trace c start n otime a b tts i row colour phase t w)
  /\ (forall i row s colour sel phase t, rd (g_ticks g) i = Some (row, s) -> In (colour, sel, phase) (panels s0 s1 s2) -> In t waveforms -> t_station t = s -> sel (t_comp t) = true ->
        exists w, In w (g_waves g) /\ shows_trace c start n otime a b tts i row colour phase t w)
  /\ (forall w i row colour phase t tt j k v y, shows_trace c start n otime a b tts i row colour phase t w -> is_max (column tts i) tt -> is_closest c start n (2 * otime + 3 * tt) k ->
        0 <= j < b - a -> a + j < k -> rd (t_data t) (a + j) = Some v -> rd (v_values w) j = Some (Some y) -> (inject_Z row - 1 <= y <= inject_Z row + 1)%Q).
Proof.
  intros argsort c start n otime endtime phases tts stations s0 s1 s2 waveforms g A N (L & F) E.
  destruct (gather_inv _ _ _ _ _ _ _ _ _ _ _ _ N E) as (first & r & top & mx & a & b & waves & Et & T & Mx & H). cbv zeta in H. destruct H as (Ca & Cb & Ew & ->). cbn [g_ticks g_waves g_xlim fst snd]. clear E.
  assert (L1 : length first = length stations) by (rewrite Et in F; inversion F; assumption).
  set (l := map (fun tt => otime + tt) first) in *. set (q := rows argsort l) in *.
  exists a, b. split; [exact Ca|]. split; [exact Cb|]. apply om_inv in Ew. pose proof (proj1 (proj1 Ca)) as A0. pose proof (proj1 (proj1 Cb)) as B0. split; [|split].
  - intros w I. apply in_concat in I. destruct I as (ws & Iw & I). destruct (f2_in_r _ _ _ _ _ _ Ew Iw) as (((s & col) & row) & Is & Es). destruct (in_rd _ _ _ Is) as (i & Ri).
    apply station_list_inv in Ri. destruct Ri as (R1 & R2 & ->). destruct (station_waves_inv _ _ _ _ _ _ _ _ _ _ _ _ _ _ Es) as (S1 & _).
    destruct (S1 w I) as (colour & sel & phase & t & Ip & It & St & Sel & Wt). exists i, row, s, colour, sel, phase, t. split; [apply rd_combine; assumption|].
    repeat (split; [assumption|]). apply wave_of_shows; assumption.
  - intros i row s colour sel phase t Ri Ip It St Sel. apply rd_combine_inv in Ri. destruct Ri as (R2 & R1). pose proof (station_list_rd stations tts q i s row R1 R2) as Rl.
    destruct (f2_in_l _ _ _ _ _ _ Ew (rd_in _ _ _ _ Rl)) as (ws & Iw & Es). destruct (station_waves_inv _ _ _ _ _ _ _ _ _ _ _ _ _ _ Es) as (_ & S2).
    destruct (S2 colour sel phase t Ip It St Sel) as (w & I & Wt). exists w. split; [apply in_concat; exists ws; auto|]. apply wave_of_shows; assumption.
  - intros w i row colour phase t tt j k v y S M C J Jk Rv Ry. destruct S as (_ & _ & _ & _ & _ & _ & tt' & e & m & M' & C' & La & Sc).
    assert (tt' = tt). { destruct M as (I1 & M1), M' as (I2 & M2). rewrite Forall_forall in M1, M2. specialize (M1 _ I2). specialize (M2 _ I1). lia. } subst tt'.
    assert (e = k). { destruct C as (K & C1), C' as (K' & C2). destruct (Z.lt_trichotomy e k) as [X|[X|X]]; [|exact X|].
      - destruct (C1 e K') as (_ & Y). specialize (Y X). destruct (C2 k K) as (Y' & _). lia.
      - destruct (C2 k K) as (_ & Y). specialize (Y X). destruct (C1 e K') as (Y' & _). lia. } subst e.
    eapply scaled_within; eassumption.
Qed.
Print Assumptions C114_waves.

(** Partial: the gather can be drawn for sampling rates of 10 Hz or more. *)
Theorem C114_made_partial :
  forall argsort c start n otime endtime phases tts stations s0 s1 s2 waveforms, is_argsort argsort -> 0 < delta c <= sec c / 10 -> phases <> [] -> stations <> [] -> waveforms <> [] ->
  table (length phases) (length stations) tts -> Forall (Forall (fun t => 0 <= t)) tts -> Forall (fun t => Z.of_nat (length (t_data t)) = n) waveforms ->
  start + sec c / 10 <= otime -> otime <= start + (n - 1) * delta c ->
  exists g, plot_gather argsort c start n otime endtime phases tts stations [s0; s1; s2] waveforms = Ret g.
Proof.
  intros argsort c start n otime endtime phases tts stations s0 s1 s2 waveforms A D Np Ns Nw (L & F) Pos Fw H1 H2.
  assert (N : 0 < n). { destruct (Z.lt_ge_cases 0 n) as [X|X]; [exact X|]. pose proof (Z.mul_le_mono_nonneg_r (n - 1) (-1) (delta c)). lia. }
  destruct tts as [|first r] eqn:Et; [destruct phases; [congruence|discriminate]|]. rewrite <- Et in *.
  assert (L1 : length first = length stations) by (rewrite Et in F; inversion F; assumption).
  unfold plot_gather. rewrite Et. rewrite <- Et. cbv zeta. set (l := map (fun tt => otime + tt) first).
  destruct (rows_facts argsort l A) as (R0 & _). set (q := rows argsort l) in *.
  assert (Lq : length q = length stations) by (rewrite R0; unfold l; rewrite map_length; exact L1).
  destruct (max_of_some q) as (top & -> & _). { intros Z0. rewrite Z0 in Lq. destruct stations; [congruence|discriminate]. }
  cbn [bind]. destruct (max_of_some (concat tts)) as (mx & -> & _).
  { rewrite Et. cbn [concat]. destruct first; [destruct stations; [congruence|discriminate]|discriminate]. }
  cbn [bind]. destruct waveforms as [|w0 ws0] eqn:Ew; [congruence|]. rewrite <- Ew in *.
  destruct (closest_some c start n (2 * otime - 2 * (sec c / 10)) N) as (a & -> & Ca). cbn [bind].
  destruct (closest_some c start n (Z.min (2 * otime + 3 * mx) (2 * endtime)) N) as (b & -> & Cb). cbn [bind].
  change (combine (combine stations (map (column tts) (zrange (Z.of_nat (length stations))))) q) with (station_list stations tts q).
  destruct (om_some _ _ (station_waves c start n otime a b [s0; s1; s2] waveforms) (station_list stations tts q)) as (waves & ->); [|eexists; reflexivity].
  apply Forall_forall. intros ((s & col) & row) Is. destruct (in_rd _ _ _ Is) as (i & Ri). apply station_list_inv in Ri. destruct Ri as (R1 & R2 & ->).
  apply station_waves_some. intros colour phase t It. unfold wave_of. pose proof (rd_bounds _ _ _ _ R1) as Bi.
  destruct (max_of_some (column tts i)) as (tt & -> & M). { apply (column_in_range tts i (length phases) (length stations)); [split; assumption| |lia]. destruct phases; [congruence|cbn; lia]. }
  cbn [bind]. destruct (closest_some c start n (2 * otime + 3 * tt) N) as (e & -> & Ce). cbn [bind].
  assert (Ht : 0 <= tt). { destruct M as (M & _). apply column_in in M. destruct M as (r0 & Ir & Rt). rewrite Forall_forall in Pos. pose proof (proj1 (Forall_forall _ _) (Pos r0 Ir) tt (rd_in _ _ _ _ Rt)). exact H. }
  assert (Lt : a < e). { apply (closest_apart c start n _ _ a e) with (5 := Ca) (6 := Ce); lia. }
  rewrite Forall_forall in Fw. pose proof (Fw t It) as Lw. cbn beta in Lw. destruct (norm_some (t_data t) a e) as (m & ->); [split; [apply Ca|exact Lt]|rewrite Lw; apply Ca|].
  cbn [bind]. eexists. reflexivity.
Qed.
Print Assumptions C114_made_partial.

Definition stn (s : string) (c : ascii) (d : list Q) : trace := mk_trace s c d.
Definition is_char (l : list ascii) (c : ascii) : bool := existsb (Ascii.eqb c) l.
Definition ramp (n : nat) : list Q := map (fun i => inject_Z (Z.of_nat i mod 7 - 3)) (seq 0 n).
(** Two stations at 50 Hz, four seconds, origin time one second after the start. *)
Definition two_stations : list trace := [stn "A" "Z" (ramp 200); stn "A" "N" (ramp 200); stn "A" "E" (ramp 200); stn "B" "Z" (ramp 200); stn "B" "1" (ramp 200)].
Example C114_example : is_argsort argsort_ins /\ table 2 2 [[80000; 50000]; [140000; 90000]]
  /\ exists g, plot_gather argsort_ins hz50 0 200 100000 400000 ["P"; "S"]%string [[80000; 50000]; [140000; 90000]] ["A"; "B"]%string [is_char ["Z"%char]; is_char ["N"; "1"]%char; is_char ["E"; "2"]%char] two_stations = Ret g
     /\ g_ticks g = [(2, "A"); (4, "B")]%string /\ length (g_waves g) = 5%nat /\ g_xlim g = (180000, 620000) /\ g_ylim g = (0, 6)
     /\ map (fun m => (m_phase m, m_colour m, m_points m)) (g_marks g) = [("P", 0, [(180000, 2); (150000, 4)]); ("S", 1, [(240000, 2); (190000, 4)])]%string.
Proof.
  split; [exact argsort_ins_ok|]. split; [split; [reflexivity|repeat constructor]|]. vm_compute. eexists. split; [reflexivity|]. repeat split.
Qed.

(** The traces may be drawn (rows 2 units apart). *)
Example C114_made_ex : 0 < delta hz50 <= sec hz50 / 10 /\ Forall (fun t => Z.of_nat (length (t_data t)) = 200) two_stations /\ Forall (Forall (fun t => 0 <= t)) [[80000; 50000]; [140000; 90000]]
  /\ 0 + sec hz50 / 10 <= 100000 /\ 100000 <= 0 + (200 - 1) * delta hz50.
Proof. split; [vm_compute; split; congruence|]. split; [repeat constructor|]. split; [repeat constructor; lia|]. vm_compute. split; congruence. Qed.

(** Refuted: below 10 Hz the gather may fail, for an event close to a station. *)
Theorem C114_low_rate_refuted :
  exists argsort c start n otime endtime phases tts stations s0 s1 s2 waveforms, is_argsort argsort /\ clock_ok c /\ delta c = sec c / 4 /\ table (length phases) (length stations) tts
  /\ Forall (Forall (fun t => 0 < t)) tts /\ Forall (fun t => Z.of_nat (length (t_data t)) = n) waveforms /\ start + sec c <= otime <= start + (n - 1) * delta c - sec c
  /\ plot_gather argsort c start n otime endtime phases tts stations [s0; s1; s2] waveforms = Raise ValueError.
Proof.
  exists argsort_ins, {| sec := 100000; delta := 25000 |}, 0, 17, 110000, 400000, ["P"; "S"]%string, [[1000]; [1500]], ["A"]%string,
    (is_char ["Z"%char]), (is_char ["N"%char]), (is_char ["E"%char]), [stn "A" "Z" (ramp 17)].
  split; [exact argsort_ins_ok|]. split; [split; [cbn; lia|split; [exists 1; reflexivity|vm_compute; reflexivity]]|]. split; [reflexivity|]. split; [split; [reflexivity|repeat constructor]|].
  split; [repeat constructor; lia|]. split; [repeat constructor|]. split; [vm_compute; split; congruence|]. vm_compute. reflexivity.
Qed.
Print Assumptions C114_low_rate_refuted.

(** Refuted: in a run with the S phase alone its arrivals are drawn in the colour of P, and the arrivals of a third phase are not drawn. *)
Theorem C114_arrivals_refuted :
  (exists argsort c start n otime endtime tts stations s0 s1 s2 waveforms g m, is_argsort argsort /\ table 1 (length stations) tts
     /\ plot_gather argsort c start n otime endtime ["S"%string] tts stations [s0; s1; s2] waveforms = Ret g /\ g_marks g = [m] /\ m_phase m = "S"%string /\ m_colour m = 0)
  /\ exists argsort c start n otime endtime phases tts stations s0 s1 s2 waveforms g, is_argsort argsort /\ table (length phases) (length stations) tts /\ In "T"%string phases
     /\ plot_gather argsort c start n otime endtime phases tts stations [s0; s1; s2] waveforms = Ret g /\ g_marks g <> [] /\ forall m, In m (g_marks g) -> m_phase m <> "T"%string.
Proof.
  split.
  - exists argsort_ins, hz50, 0, 200, 100000, 400000, [[80000; 50000]], ["A"; "B"]%string, (is_char ["Z"%char]), (is_char ["N"; "1"]%char), (is_char ["E"; "2"]%char), two_stations.
    eexists. eexists. split; [exact argsort_ins_ok|]. split; [split; [reflexivity|repeat constructor]|]. split; [vm_compute; reflexivity|]. cbn [g_marks]. split; [reflexivity|]. split; reflexivity.
  - exists argsort_ins, hz50, 0, 200, 100000, 400000, ["P"; "S"; "T"]%string, [[80000; 50000]; [140000; 90000]; [150000; 95000]], ["A"; "B"]%string, (is_char ["Z"%char]), (is_char ["N"; "1"]%char), (is_char ["E"; "2"]%char), two_stations.
    eexists. split; [exact argsort_ins_ok|]. split; [split; [reflexivity|repeat constructor]|]. split; [right; right; left; reflexivity|]. split; [vm_compute; reflexivity|]. cbn [g_marks].
    split; [discriminate|]. intros m [<-|[<-|[]]]; cbn [m_phase]; discriminate.
Qed.
Print Assumptions C114_arrivals_refuted.

(** * The map *)

(** The slices go through the first largest value of the map, and hold no larger one. *)
Theorem C114_slices :
  forall n f, (forall x, idx_max n f = Ret x -> exists m, Lut_Spec.is_node n x /\ f x = Some m
      /\ (forall y v, Lut_Spec.is_node n y -> f y = Some v -> (v <= m)%Q /\ (Lut_Spec.flat n y < Lut_Spec.flat n x -> (v < m)%Q))
      /\ let '(i, j, k) := x in let '(xy, xz, yz) := slices f x in xy i j = Some m /\ xz i k = Some m /\ yz k j = Some m
         /\ forall a b c, xy a b = f (a, b, k) /\ xz a c = f (a, j, c) /\ yz c b = f (i, b, c))
  /\ ((exists x, idx_max n f = Ret x) <-> exists y v, Lut_Spec.is_node n y /\ f y = Some v).
Proof.
  intros n f. pose proof (best_from_spec f (nodes n) [] None) as B. cbn [app length] in B. specialize (B ltac:(intros q y Q R; pose proof (rd_bounds _ _ _ _ R); lia)).
  assert (M : forall x, idx_max n f = Ret x -> exists m, best_from f None (nodes n) = Some (x, m)).
  { intros x E. unfold idx_max in E. destruct (best_from f None (nodes n)) as [(x', m)|]; [|discriminate]. exists m. congruence. }
  assert (N : forall y, Lut_Spec.is_node n y -> rd (nodes n) (Lut_Spec.flat n y) = Some y). { intros y Y. rewrite nodes_all. apply Locate_Proofs.all_nodes_rd. exact Y. }
  split.
  - intros x E. destruct (M x E) as (m & Em). rewrite Em in B. destruct B as (p & P & Rp & Fx & All). apply nodes_position in Rp. destruct Rp as (Nx & ->). exists m.
    split; [exact Nx|]. split; [exact Fx|]. split.
    + intros y v Y Fy. pose proof (N y Y) as R. pose proof (rd_bounds _ _ _ _ R) as Br. apply (All _ y v); [lia|exact R|exact Fy].
    + destruct x as ((i & j) & k). cbn [slices]. repeat (split; [exact Fx|]). intros a b c. auto.
  - split.
    + intros (x & E). destruct (M x E) as (m & Em). rewrite Em in B. destruct B as (p & P & Rp & Fx & All). apply nodes_position in Rp. exists x, m. split; [apply Rp|exact Fx].
    + intros (y & v & Y & Fy). unfold idx_max. destruct (best_from f None (nodes n)) as [(x & m)|]; [exists x; reflexivity|]. exfalso. cbn in B. pose proof (N y Y) as R. pose proof (rd_bounds _ _ _ _ R) as Br.
      specialize (B _ y ltac:(apply Br) R). congruence.
Qed.
Print Assumptions C114_slices.
Example C114_slices_ex : idx_max (2, 2, 2) (fun x => let '(i, j, k) := x in if i =? 0 then None else Some (inject_Z (j * (1 - k)))) = Ret (1, 1, 0).
Proof. vm_compute. reflexivity. Qed.

(** * The legend *)

(** If labels that are the same, or share a panel, have the same colour, the legend has every label once, with its colour; components that share a panel and are both drawn share an entry. *)
Theorem C114_legend :
  forall (H : Type) texts (handles : list (label * H)), (forall l h, In (l, h) handles -> drawn_label l) -> (forall l h h', In (l, h) handles -> In (l, h') handles -> h = h') ->
  (forall ph a b h h', pair_of texts ph a b -> In (Single a ph, h) handles -> In (Single b ph, h') handles -> h = h') ->
  NoDup (map fst (legend texts handles))
  /\ (forall l h, In (l, h) handles -> exists l', shortens texts l l' /\ In (l', h) (legend texts handles))
  /\ (forall l' h, In (l', h) (legend texts handles) -> exists l, shortens texts l l' /\ In (l, h) handles)
  /\ (forall ph h, In (Modelled ph, h) handles -> In (Modelled ph, h) (legend texts handles))
  /\ (let '(p, s1, s2) := texts in
      (forall a b h h', step_pair "P" p a b -> In (Single a "P"%string, h) handles -> In (Single b "P"%string, h') handles -> In (Pair b a "P"%string, h) (legend texts handles))
      /\ (forall a b h h', step_pair "S" s1 a b -> In (Single a "S"%string, h) handles -> In (Single b "S"%string, h') handles -> In (Pair b a "S"%string, h) (legend texts handles))
      /\ (forall a b h h', (forall c d, step_pair "S" s1 c d -> a <> c /\ a <> d /\ b <> c /\ b <> d) -> step_pair "S" s2 a b -> In (Single a "S"%string, h) handles -> In (Single b "S"%string, h') handles ->
           In (Pair b a "S"%string, h) (legend texts handles))).
Proof.
  intros H texts handles D C1 C2. pose proof (merge_all texts (map fst handles)) as M. unfold legend. destruct texts as ((p & s1) & s2). destruct M as (g & E & G).
  remember (fold_left merge_step [("P", p); ("S", s1); ("S", s2)]%string (map fst handles)) as labels eqn:El.
  assert (Cb : combine labels (map snd handles) = map (fun x => (g (fst x), snd x)) handles). { rewrite E. clear. induction handles as [|(l & h) r IH]; cbn; [reflexivity|]. rewrite IH. reflexivity. }
  rewrite Cb. set (lg := by_label _ _).
  assert (Nd : NoDup (map fst lg)) by (apply by_label_nodup; constructor).
  assert (In1 : forall l' h, In (l', h) lg -> exists l, g l = l' /\ In (l, h) handles).
  { intros l' h I. apply by_label_in in I. destruct I as [I|[]]. apply in_map_iff in I. destruct I as ((l & h0) & E0 & I). cbn [fst snd] in E0. exists l. split; congruence. }
  assert (In2 : forall l h, In (l, h) handles -> In (g l, h) lg).
  { intros l h I. assert (K : In (g l) (map fst lg)). { apply by_label_keys. left. rewrite map_map. apply in_map_iff. exists (l, h). auto. }
    apply in_map_iff in K. destruct K as ((k & h2) & Ek & K). cbn [fst] in Ek. subst k. destruct (In1 _ _ K) as (l2 & E2 & I2).
    assert (h = h2); [|subst; exact K]. pose proof (D _ _ I) as Dl. pose proof (D _ _ I2) as D2. pose proof (G l) as G1. pose proof (G l2) as G2. rewrite E2 in G2. unfold shortens in G1, G2.
    destruct G1 as [G1|(a & b & ph & P1 & Q1 & X1)], G2 as [G2|(a' & b' & ph' & P2 & Q2 & X2)].
    - apply (C1 l h h2 I). congruence.
    - rewrite G1 in Q2. subst l. contradiction.
    - rewrite G2 in Q1. subst l2. contradiction.
    - rewrite Q1 in Q2. injection Q2 as <- <- <-. destruct X1 as [-> | ->], X2 as [-> | ->].
      + exact (C1 _ _ _ I I2). + exact (C2 _ _ _ _ _ P1 I I2). + symmetry. exact (C2 _ _ _ _ _ P1 I2 I). + exact (C1 _ _ _ I I2). }
  assert (Kp : forall a b ph h h', pair_of (p, s1, s2) ph a b -> In (Pair b a ph) labels -> In (Single a ph, h) handles -> In (Single b ph, h') handles -> In (Pair b a ph, h) lg).
  { intros a b ph h h' P K Ia Ib. rewrite E in K. apply in_map_iff in K. destruct K as (l & Eg & K). apply in_map_iff in K. destruct K as ((l0 & h0) & E0 & K). cbn [fst] in E0. subst l0.
    pose proof (In2 _ _ K) as R. rewrite Eg in R. assert (h0 = h); [|subst; exact R].
    pose proof (G l) as Gl. rewrite Eg in Gl. destruct Gl as [Gl|(a' & b' & ph' & P' & Q' & X')]; [subst l; destruct (D _ _ K)|].
    injection Q' as <- <- <-. destruct X' as [-> | ->]; [exact (C1 _ _ _ K Ia)|symmetry; exact (C2 _ _ _ _ _ P Ia K)]. }
  assert (Li : forall l h, In (l, h) handles -> In l (map fst handles)) by (intros l h I; apply in_map_iff; exists (l, h); auto).
  split; [exact Nd|]. split; [intros l h I; exists (g l); split; [apply G|exact (In2 _ _ I)]|].
  split; [intros l' h I; destruct (In1 _ _ I) as (l & <- & I'); exists l; split; [apply G|exact I']|].
  split; [intros ph h I; pose proof (In2 _ _ I) as R; destruct (G (Modelled ph)) as [Eg|(? & ? & ? & _ & _ & [X|X])]; [rewrite Eg in R; exact R|discriminate|discriminate]|].
  cbn [fold_left] in El. split; [|split].
  - intros a b h h' S Ia Ib. apply (Kp a b _ h h'); [left; split; [reflexivity|exact S]| |exact Ia|exact Ib]. rewrite El. apply merge_keeps_pair, merge_keeps_pair, merge_makes_pair; [exact S|exact (Li _ _ Ia)|exact (Li _ _ Ib)].
  - intros a b h h' S Ia Ib. apply (Kp a b _ h h'); [right; split; [reflexivity|left; exact S]| |exact Ia|exact Ib]. rewrite El.
    apply merge_keeps_pair, merge_makes_pair; [exact S| |]; apply merge_keeps_single; try (intros c d _; split; discriminate); [exact (Li _ _ Ia)|exact (Li _ _ Ib)].
  - intros a b h h' Dj S Ia Ib. apply (Kp a b _ h h'); [right; split; [reflexivity|right; exact S]| |exact Ia|exact Ib]. rewrite El.
    apply merge_makes_pair; [exact S| |]; (apply merge_keeps_single; [intros c d Scd; destruct (Dj c d Scd) as (? & ? & ? & ?); split; congruence|]); apply merge_keeps_single; try (intros c d _; split; discriminate); [exact (Li _ _ Ia)|exact (Li _ _ Ib)].
Qed.
Print Assumptions C114_legend.
Definition chars (s : string) : list ascii := list_ascii_of_string s.
Example C114_legend_ex : legend (chars "Z", chars "[N,1]", chars "[E,2]")
    [(Modelled "P", 0); (Modelled "S", 1); (Single "Z" "P", 2); (Single "N" "S", 3); (Single "E" "S", 4); (Single "Z" "P", 2); (Single "1" "S", 3)]%string
  = [(Modelled "P", 0); (Modelled "S", 1); (Single "Z" "P", 2); (Pair "1" "N" "S", 3); (Single "E" "S", 4)]%string.
Proof. vm_compute. reflexivity. Qed.

(** * Uncertainty ellipses *)

(** The ellipses are centred on the hypocentre and agree where the panels share an axis; their half widths are the distances to the point of the grid one uncertainty away. *)
Theorem C114_ellipses :
  forall transform gproj cproj x y z ex ey ez, let '(gx, gy, gz) := transform cproj gproj (x, y, z) in let '(px, py, pz) := transform gproj cproj (gx + ex, gy + ey, gz + ez)%R in
  exists wx wy wz, make_ellipses transform gproj cproj (x, y, z) (ex, ey, ez) = ((x, y, (wx, wy)), (x, z, (wx, wz)), (z, y, (wz, wy)))
  /\ (wx = 2 * Rabs (px - x) /\ wy = 2 * Rabs (py - y) /\ wz = 2 * Rabs (pz - z))%R.
Proof.
  intros transform gproj cproj x y z ex ey ez. destruct (transform cproj gproj (x, y, z)) as ((gx & gy) & gz) eqn:E1. destruct (transform gproj cproj (gx + ex, gy + ey, gz + ez)%R) as ((px & py) & pz) eqn:E2.
  unfold make_ellipses, coord2grid. rewrite E1. cbn [vmap2]. rewrite E2. cbn [vmap2]. eexists. eexists. eexists. split; [reflexivity|].
  rewrite (Rabs_minus_sym px), (Rabs_minus_sym py), (Rabs_minus_sym pz). auto.
Qed.
Print Assumptions C114_ellipses.
(** Where each axis of the grid is a multiple of a coordinate the half widths are the uncertainties in the units of the coordinates. *)
Theorem C114_ellipses_units :
  forall transform gproj cproj sx sy sz dx dy dz x y z ex ey ez, (forall a b c, transform cproj gproj (a, b, c) = (sx * a + dx, sy * b + dy, sz * c + dz)%R) -> (sx <> 0 /\ sy <> 0 /\ sz <> 0)%R ->
  (forall a b c, transform gproj cproj (a, b, c) = ((a - dx) / sx, (b - dy) / sy, (c - dz) / sz)%R) -> (0 <= ex /\ 0 <= ey /\ 0 <= ez)%R ->
  exists wx wy wz, make_ellipses transform gproj cproj (x, y, z) (ex, ey, ez) = ((x, y, (wx, wy)), (x, z, (wx, wz)), (z, y, (wz, wy)))
  /\ (wx = 2 * (ex / Rabs sx) /\ wy = 2 * (ey / Rabs sy) /\ wz = 2 * (ez / Rabs sz))%R.
Proof.
  intros transform gproj cproj sx sy sz dx dy dz x y z ex ey ez T1 (S1 & S2 & S3) T2 (P1 & P2 & P3). pose proof (C114_ellipses transform gproj cproj x y z ex ey ez) as W. rewrite T1, T2 in W.
  destruct W as (wx & wy & wz & E & W1 & W2 & W3). exists wx, wy, wz. split; [exact E|].
  assert (A : forall s d v e, (s <> 0 -> 0 <= e -> 2 * Rabs ((s * v + d + e - d) / s - v) = 2 * (e / Rabs s))%R).
  { intros s d v e S P. replace ((s * v + d + e - d) / s - v)%R with (e / s)%R by (field; exact S). unfold Rdiv. rewrite Rabs_mult, (Rabs_inv s), (Rabs_pos_eq e P). reflexivity. }
  rewrite W1, W2, W3, !A by assumption. auto.
Qed.
Print Assumptions C114_ellipses_units.
Example C114_ellipses_ex : let t := (fun a b v => let '(x, y, z) := v in if a =? 1 then (1000 * x + 5, 1000 * y + 7, 1000 * z + 0) else ((x - 5) / 1000, (y - 7) / 1000, (z - 0) / 1000))%R in
  exists wx wy wz, make_ellipses t 0 1 (1, 2, 3)%R (500, 200, 100)%R = ((1, 2, (wx, wy)), (1, 3, (wx, wz)), (3, 2, (wz, wy)))%R /\ (wx = 2 * (500 / Rabs 1000))%R.
Proof.
  intros t. destruct (C114_ellipses_units t 0 1 1000 1000 1000 5 7 0 1 2 3 500 200 100) as (wx & wy & wz & E & W & _); [reflexivity|lra|reflexivity|lra|]. exists wx, wy, wz. auto.
Qed.

(** * The text *)

(** Partial: for a grid in kilometres the text has the coordinates and uncertainties of the .event file. *)
Theorem C114_text_partial :
  (forall prec e, let '((lat, ulat), (lon, ulon), (depth, udepth)) := text_summary prec true 1000 (l_spline e) (l_gau_err e) in
     e_xyz (write_event prec true e) = (lon, lat, depth) /\ e_gau_err (write_event prec true e) = (ulon, ulat, udepth))
  /\ forall prec e, let '((lat, _), (lon, _), (depth, _)) := text_summary prec false 1 (l_spline e) (l_gau_err e) in
     let '(x, y, z) := e_xyz (write_event prec false e) in (lon = x /\ lat = y /\ 1000 * depth = z)%R.
Proof.
  assert (K : forall v, (v / (1000 / 1000) = v)%R) by (intros; lra).
  split; intros ((px & py) & pz) e; unfold text_summary, write_event; cbn [e_xyz e_gau_err]; destruct (l_spline e) as ((x & y) & z), (l_gau_err e) as ((ux & uy) & uz); cbn [map3].
  - rewrite !K. split; reflexivity.
  - split; [reflexivity|]. split; [reflexivity|]. lra.
Qed.
Print Assumptions C114_text_partial.
Lemma round_0_3 : round_to 0 (300 / (1000 / 1)) = 0%R.
Proof.
  unfold round_to. cbn [powerRZ]. set (v := (300 / (1000 / 1) * 1)%R). assert (V : v = (3 / 10)%R) by (unfold v; lra). pose proof (np_round_near v) as N.
  assert (Z0 : ScanMseed_Model.np_round v = 0%Z); [|rewrite Z0; lra]. unfold Rabs in N. destruct (Rcase_abs _) in N; apply Z.le_antisymm; apply Z.lt_succ_r; apply lt_IZR; rewrite ?succ_IZR; lra.
Qed.
(** Refuted: for a grid in metres an uncertainty of 300 m is shown as 0 km. *)
Theorem C114_text_refuted :
  exists prec e, (e_gau_err (write_event prec false e) = (300, 300, 300))%R
  /\ let '((_, ulat), (_, ulon), (_, udepth)) := text_summary prec false 1 (l_spline e) (l_gau_err e) in (ulat = 0 /\ ulon = 0 /\ udepth = 0)%R.
Proof.
  exists (-2, -2, -2), (mk_located "a" 0 (0, 0, 0)%R (0, 0, 0)%R (300, 300, 300)%R (0, 0, 0)%R 0%R 0%R (Mag_Model.Fin 0%R, Mag_Model.Fin 0%R, Mag_Model.Fin 0%R) None). split.
  - cbn [write_event e_gau_err l_gau_err map3]. assert (R : round_to (z_decimals false (-2)) 300 = 300%R); [|rewrite R; reflexivity]. change (z_decimals false (-2)) with 0.
    pose proof (Amps_Proofs.round_to_multiple 0 300) as M. cbn [powerRZ] in M. replace (300 / 1)%R with 300%R in M by lra. exact M.
  - unfold text_summary. cbn [l_spline l_gau_err]. change (z_decimals false (-2)) with 0. rewrite round_0_3. auto.
Qed.
Print Assumptions C114_text_refuted.

(** * The stations *)

(** Partial: with names without underscore, the stations listed are those with data for some phase. *)
Theorem C114_stations_partial :
  forall (availability : list (list ascii * list ascii * Z)), (forall s p a, In (s, p, a) availability -> ~ In "_"%char s /\ ~ In "_"%char p) ->
  exists l, available_stations (map (fun x => (fst (fst x) ++ "_"%char :: snd (fst x), snd x)) availability) = Ret l /\ forall s, In s l <-> exists p, In (s, p, 1) availability.
Proof.
  induction availability as [|((s0 & p0) & a0) r IH]; intros H; [exists []; split; [reflexivity|]; intros s; split; [intros []|intros (p & [])]|].
  destruct IH as (l & E & IH); [intros s p a I; apply (H s p a); right; exact I|]. cbn [map available_stations fst snd].
  destruct (H s0 p0 a0 (or_introl eq_refl)) as (H1 & H2). rewrite split_key by assumption. rewrite E. cbn [bind].
  destruct (Z.eqb_spec a0 1) as [->|Na]; eexists; (split; [reflexivity|]); intros s; cbn [In]; rewrite IH; split.
  - intros [<-|(p & I)]; [exists p0; left; reflexivity|exists p; right; exact I].
  - intros (p & [X|I]); [left; congruence|right; exists p; exact I].
  - intros (p & I). exists p. right. exact I.
  - intros (p & [X|I]); [congruence|exists p; exact I].
Qed.
Print Assumptions C114_stations_partial.
Example C114_stations_ex : available_stations [(chars "A_P", 1); (chars "A_S", 0); (chars "B_P", 0); (chars "C_S", 1)] = Ret [chars "A"; chars "C"].
Proof. vm_compute. reflexivity. Qed.
(** Refuted: an underscore in a station name stops the plot. *)
Theorem C114_stations_refuted : forall s t p rest, available_stations ((s ++ "_"%char :: t ++ "_"%char :: p, 1) :: rest) = Raise ValueError.
Proof.
  intros s t p rest. cbn [available_stations]. pose proof (split_more s (t ++ "_"%char :: p)) as L1. pose proof (split_more t p) as L2. pose proof (split_ne p) as L3.
  set (w := split_us (s ++ _)) in *. clearbody w. destruct w as [|? [|? [|? ?]]]; cbn [length] in L1; try reflexivity; lia.
Qed.
Print Assumptions C114_stations_refuted.

(** C120: the coalescence of a time window, from the data in the archive to the map. *)
From Coq Require Import String Ascii.
From Coq Require Import List ZArith Reals QArith Bool Lia Lra Permutation.
From Verif Require Import Lib LibFacts PyDict Timeline_Model Avail_Model Archive_Model Read_Model Read_Spec Migrate_Spec StaLta_Model StaLta_Spec Lut_Spec Resample_Spec Onset_Model Onset_Spec Onset_Proofs Compute_Spec.
From Verif Require Lut_Model Lut_Proofs Lut_Props Onset_Props Read_Proofs Read_Props Archive_Proofs.
Import ListNotations.
Open Scope Z_scope.

(** Partial: every onset value is a number (with the Python backend: C119), the names have no underscores, the pads cover the traveltimes. The value of the map at a node and sample is the geometric mean, over the stations and phases that
    have an onset function, of the onset at the arrival time for a source there and then. *)
Theorem C120_coalescence_partial :
  forall lowpass taper tiny secs k r0 (l : Lut_Model.lut) d tab rate first last t r,
  let n := Lut_Model.g_count (Lut_Model.l_grid l) in
  calculate_onsets lowpass taper tiny secs k d None = Ret r ->
  let U := with_onset (l_dict r) (o_phases k) (d_stations d) in
  Forall (Forall is_number) (l_onsets r) -> Forall (fun o => Z.of_nat (length o) = t) (l_onsets r) ->
  grid_ok (Lut_Model.l_grid l) -> NoDup (o_phases k) -> NoDup (d_stations d) -> Forall plain_name (o_phases k) -> Forall plain_name (d_stations d) ->
  (forall s p, In (s, p) U -> table_of l s p (tab s p) /\ has_shape (tab s p) n) ->
  (forall s p q, In (s, p) U -> is_node n q -> (-2147483648 <= entry0 (tab s p) q * rate <= IZR last)%R) ->
  0 <= first -> 0 <= last -> first + last <= t -> Z.of_nat (length U) * t < 2147483648 ->
  exists (tt : string -> string -> Lut_Model.ijk -> Z) m,
    (forall s p q, (Rabs (IZR (tt s p q) - entry0 (tab s p) q * rate) <= 1 / 2)%R)
    /\ compute_coalescence lowpass taper tiny secs k r0 l d rate first last = Ret m
    /\ Z.of_nat (length m) = n_nodes n * (t - first - last)
    /\ forall q smp, is_node n q -> 0 <= smp < t - first - last ->
       rd m (flat n q * (t - first - last) + smp) =
       Some (geometric_mean (map (fun sp => Rmax (onset_value (l_dict r) (fst sp) (snd sp) (first + smp + Z.max 0 (tt (fst sp) (snd sp) q))) (1 / 100)) U)).
Proof.
  intros lp tp tiny secs k r0 l d tab rate first last t r n E U Fn Ft Hg Np Ns Pp Ps Ht Hv Hf Hl Hfl Hsz.
  destruct (all_numbers_some _ Fn) as (rows & En). set (ck := check lp tp tiny secs k d None). set (on := rows_of lp tp tiny secs k d None).
  destruct (phases_loop lp tp tiny secs k d None _ _ _ (calculate_loops _ _ _ _ _ _ _ _ E)) as (A1 & A2 & A3 & _). cbn [l_onsets l_dict app] in A2, A3.
  assert (Of : forall s p, In p (o_phases k) -> In s (d_stations d) -> onset_for (l_dict r) s p = res_onset (got lp tp tiny secs k d None p s)).
  { intros s p Ip Is. rewrite A3. destruct (in_dec string_dec p (o_phases k)); [|contradiction]. destruct (in_dec string_dec s (d_stations d)); [|contradiction]. destruct (res_onset _); reflexivity. }
  assert (Vn : forall s p, In p (o_phases k) -> In s (d_stations d) -> (ck s p = true <-> res_onset (got lp tp tiny secs k d None p s) <> None)).
  { intros s p Ip Is. pose proof (A1 p s Ip Is) as Ep. unfold ck, check, is_available, res_onset. destruct (got lp tp tiny secs k d None p s) as [av x]. unfold pair_result in Ep. destruct (dget (o_cfg k) p) as [pc|]; [|discriminate].
    destruct (phase_waveforms lp secs k d pc) as [fl| |]; cbn [bind] in Ep; try discriminate. pose proof (verdict_none lp tp tiny secs k d None pc fl s av x Ep) as V. cbn [fst snd].
    destruct (Z.eqb_spec av 0) as [Z0|Z0]; cbn [negb]; [rewrite (proj1 V Z0); cbn; split; [discriminate|contradiction]|]. split; [|reflexivity]. intros _ C. apply Z0, V. destruct x as [[o w]|]; [discriminate|reflexivity]. }
  assert (EU : used ck (o_phases k) (d_stations d) = U).
  { unfold used, U, with_onset, pairs. apply filter_ext_in. intros [s p] I. cbn [fst snd]. apply in_flat_map in I. destruct I as (p' & Ip & I). apply in_map_iff in I. destruct I as (s' & X & Is). injection X as -> ->.
    rewrite (Of s p Ip Is). pose proof (Vn s p Ip Is) as V. destruct (ck s p); destruct (res_onset _); try reflexivity; [destruct (proj1 V eq_refl eq_refl)|]. apply V. discriminate. }
  assert (InU : forall s p, In (s, p) U -> In p (o_phases k) /\ In s (d_stations d) /\ exists o, onset_for (l_dict r) s p = Some o /\ In o (l_onsets r) /\ on s p = row_of o).
  { intros s p I. unfold U, with_onset in I. apply filter_In in I. destruct I as (I & W). cbn [fst snd] in W. apply in_flat_map in I. destruct I as (p' & Ip & I). apply in_map_iff in I. destruct I as (s' & X & Is). injection X as -> ->.
    split; [exact Ip|]. split; [exact Is|]. rewrite (Of s p Ip Is) in *. unfold on, rows_of, res_numbers. pose proof (onset_rows lp tp tiny secs k d None r E) as Rw. pose proof (A1 p s Ip Is) as Ep. destruct (got lp tp tiny secs k d None p s) as [av x]. unfold res_onset in *. cbn [snd] in *.
    destruct x as [[o w]|]; [|discriminate]. cbn [option_map fst]. exists o. split; [reflexivity|]. split; [|reflexivity]. apply Rw. exists p, s, w, av. auto. }
  assert (Row : forall o, In o (l_onsets r) -> Z.of_nat (length (row_of o)) = t /\ forall i, value (row_of o) i = match rd o i with Some (Some v) => v | _ => 0%R end).
  { intros o Io. destruct (numbers_some o (proj1 (Forall_forall _ _) Fn o Io)) as (x & Ex & Lx & Rx). unfold row_of. rewrite Ex. split; [rewrite Lx; apply (proj1 (Forall_forall _ _) Ft o Io)|]. intros i. unfold value. rewrite Rx. destruct (rd x i); reflexivity. }
  assert (NU : U <> []).
  { intros C. pose proof (calculate_refine lp tp tiny secs k d None r E) as Q. fold ck on in Q. rewrite (Lut_Proofs.calculate_onsets_ok ck on (o_phases k) (d_stations d) Np Ns Pp Ps), EU, C in Q. discriminate. }
  assert (Hon : forall s p, In (s, p) U -> Z.of_nat (length (on s p)) = t).
  { intros s p I. destruct (InU s p I) as (_ & _ & o & _ & Io & ->). apply Row, Io. }
  rewrite <- EU in NU, Hon, Ht, Hv, Hsz.
  destruct (Lut_Props.C45_migration_pairs_stations_partial r0 l ck on tab (o_phases k) (d_stations d) rate first last t Hg Np Ns Pp Ps NU Hon Ht Hv Hf Hl Hfl Hsz) as (tt & m & H1 & H2 & H3 & H4).
  exists tt, m. split; [exact H1|]. split; [rewrite (compute_refine lp tp tiny secs k r0 l d rate first last r rows E En); exact H2|]. split; [exact H3|].
  intros q smp Hq Hs. etransitivity; [exact (H4 q smp Hq Hs)|]. do 2 f_equal. rewrite EU. apply map_ext_in. intros [s p] I. cbn [fst snd]. destruct (InU s p I) as (_ & _ & o & Eo & Io & ->). f_equal. unfold onset_value. rewrite Eo. apply Row, Io.
Qed.
Print Assumptions C120_coalescence_partial.

Lemma filter_le {A} (f : A -> bool) l : (length (filter f l) <= length l)%nat.
Proof. induction l as [|x l IH]; [apply Nat.le_refl|]. cbn [filter length]. destruct (f x); cbn [length]; lia. Qed.
(** Partial: the Python backend, names without underscores, pads that cover the traveltimes. In terms of the data: for traces on their sampling times the call raises the exception for a window without data, or returns this map. *)
Theorem C120_window_partial :
  forall lowpass taper tiny secs k r0 (l : Lut_Model.lut) d tab rate first last, ticks_ok secs (o_rate k) -> (0 < tiny <= 1)%R -> o_python k = true ->
  (forall dd x, length (lowpass dd x) = length x) -> (forall x, length (taper x) = length x) -> (forall x, length (o_transform k x) = length x) ->
  (secs / o_rate k | d_start d) -> (secs / o_rate k | d_end d) -> d_start d <= d_end d ->
  (forall ph, In ph (o_phases k) -> exists pc, dget (o_cfg k) ph = Some pc /\ phase_ok secs k d pc) ->
  Forall (usable secs (o_rate k) (d_resample d) (d_upfactor d) (d_start d) (d_end d)) (d_waveforms d) ->
  let n := Lut_Model.g_count (Lut_Model.l_grid l) in let t := n_window secs (o_rate k) (d_start d) (d_end d) in
  grid_ok (Lut_Model.l_grid l) -> NoDup (o_phases k) -> NoDup (d_stations d) -> Forall plain_name (o_phases k) -> Forall plain_name (d_stations d) ->
  (forall s p, In s (d_stations d) -> In p (o_phases k) -> table_of l s p (tab s p) /\ has_shape (tab s p) n
     /\ forall q, is_node n q -> (-2147483648 <= entry0 (tab s p) q * rate <= IZR last)%R) ->
  0 <= first -> 0 <= last -> first + last <= t -> Z.of_nat (length (o_phases k) * length (d_stations d)) * t < 2147483648 ->
  (calculate_onsets lowpass taper tiny secs k d None = Raise DataAvailabilityException /\ compute_coalescence lowpass taper tiny secs k r0 l d rate first last = Raise DataAvailabilityException)
  \/ exists r (tt : string -> string -> Lut_Model.ijk -> Z) m,
    calculate_onsets lowpass taper tiny secs k d None = Ret r
    /\ (forall s p q, (Rabs (IZR (tt s p q) - entry0 (tab s p) q * rate) <= 1 / 2)%R)
    /\ compute_coalescence lowpass taper tiny secs k r0 l d rate first last = Ret m
    /\ Z.of_nat (length m) = n_nodes n * (t - first - last)
    /\ forall q smp, is_node n q -> 0 <= smp < t - first - last ->
       rd m (flat n q * (t - first - last) + smp) =
       Some (geometric_mean (map (fun sp => Rmax (onset_value (l_dict r) (fst sp) (snd sp) (first + smp + Z.max 0 (tt (fst sp) (snd sp) q))) (1 / 100))
                                 (with_onset (l_dict r) (o_phases k) (d_stations d)))).
Proof.
  intros lp tp tiny secs k r0 l d tab rate first last T Ht Py HL HT HTr G0 G1 Hle Hc Fu n t Hg Np Ns Pp Ps Hb Hf Hl Hfl Hsz.
  destruct (Onset_Props.C119_lengths_partial lp tp tiny secs k d None T Ht HL HT HTr G0 G1 Hle Hc Fu) as [E|(r & E & _ & Ln & Nm)]; [left; split; [exact E|unfold compute_coalescence; rewrite E; reflexivity]|right].
  assert (InU : forall s p, In (s, p) (with_onset (l_dict r) (o_phases k) (d_stations d)) -> In s (d_stations d) /\ In p (o_phases k)).
  { intros s p I. unfold with_onset in I. apply filter_In in I. destruct I as (I & _). apply in_flat_map in I. destruct I as (p' & Ip & I). apply in_map_iff in I. destruct I as (s' & X & Is). injection X as -> ->. auto. }
  assert (LU : (length (with_onset (l_dict r) (o_phases k) (d_stations d)) <= length (o_phases k) * length (d_stations d))%nat).
  { unfold with_onset. eapply Nat.le_trans; [apply filter_le|]. clear. induction (o_phases k) as [|p ps IH]; [apply Nat.le_0_l|]. cbn [flat_map]. rewrite app_length, map_length. cbn [length Nat.mul]. lia. }
  assert (T0 : 0 <= t) by lia.
  destruct (C120_coalescence_partial lp tp tiny secs k r0 l d tab rate first last t r E) as (tt & m & H1 & H2 & H3 & H4); try assumption.
  - apply Forall_forall. intros o Io. apply Forall_forall. intros v Iv. specialize (Nm Py). rewrite Forall_forall in Nm. specialize (Nm o Io). rewrite Forall_forall in Nm. destruct (Nm v Iv) as (x & -> & _). discriminate.
  - intros s p I. destruct (InU s p I) as (Is & Ip). destruct (Hb s p Is Ip) as (B1 & B2 & _). split; assumption.
  - intros s p q I Hq. destruct (InU s p I) as (Is & Ip). destruct (Hb s p Is Ip) as (_ & _ & B3). exact (B3 q Hq).
  - eapply Z.le_lt_trans; [|exact Hsz]. apply Z.mul_le_mono_nonneg_r; [exact T0|lia].
  - exists r, tt, m. auto.
Qed.
Print Assumptions C120_window_partial.

(** The window of the example of C119 and a lookup table with two nodes. *)
Definition ex_tab (s p : string) : Lut_Model.table := [[[1%R]]; [[0%R]]].
Definition ex_lut : Lut_Model.lut := Lut_Model.mk_lut (Lut_Model.mk_grid (0, 0, 0)%R (1, 1, 1)%R (2, 1, 1) 1 2)
  [("A"%string, [("P"%string, ex_tab "A" "P")]); ("B"%string, [("P"%string, ex_tab "B" "P")])] ["A"; "B"]%string ["P"%string].
Example C120_example : exists m, compute_coalescence (fun _ x => x) (fun x => x) (1 / 2) 100000 Onset_Props.ex_set {| Migrate_Model.traveltime := 0; Migrate_Model.acc := 0 |} ex_lut Onset_Props.ex_data 1 1 2 = Ret m
  /\ Z.of_nat (length m) = 4.
Proof.
  destruct Onset_Props.C119_example as (T & P & U & r & o & E & _).
  destruct (C120_window_partial (fun _ x => x) (fun x => x) (1 / 2) 100000 Onset_Props.ex_set {| Migrate_Model.traveltime := 0; Migrate_Model.acc := 0 |} ex_lut Onset_Props.ex_data ex_tab 1 1 2) as [C|(_ & _ & m & _ & _ & Em & Lm & _)]; try assumption; try reflexivity.
  - lra.
  - intros x. apply map_length.
  - exists 5. reflexivity.
  - discriminate.
  - intros ph [<-|[]]. exists Onset_Props.ex_phase. split; [reflexivity|exact P].
  - unfold grid_ok. cbn. repeat split; try lra; lia.
  - constructor; [intros []|constructor].
  - constructor; [intros [H|[]]; discriminate|]. constructor; [intros []|constructor].
  - constructor; [exact Lut_Props.plain_P|constructor].
  - constructor; [intros [H|[]]; discriminate|]. constructor; [intros [H|[]]; discriminate|constructor].
  - intros s p Is [<-|[]]. split; [|split].
    + destruct Is as [<-|[<-|[]]]; (eexists; split; [reflexivity|left; reflexivity]).
    + cbn. split; [reflexivity|]. repeat (constructor; [cbn; split; [reflexivity|repeat constructor]|]); constructor.
    + intros ((i, j), h) Hq. cbn in Hq. assert (j = 0) by lia. assert (h = 0) by lia. subst j h. assert (Hi : i = 0 \/ i = 1) by lia.
      destruct Hi as [->| ->]; match goal with |- context [entry0 ?t ?q] => let v := eval cbv -[IZR] in (entry0 t q) in change (entry0 t q) with v end; lra.
  - lia.
  - lia.
  - vm_compute. discriminate.
  - exfalso. destruct C as (C & _). rewrite E in C. discriminate.
  - exists m. split; [exact Em|]. rewrite Lm. reflexivity.
Qed.

(** ** Archives *)
Lemma after_merge_stations c t0 t1 a b ra sts raw t : In t (Read_Proofs.after_merge c t0 t1 a b ra sts raw) -> exists u, In u raw /\ w_station u = w_station t.
Proof.
  unfold Read_Proofs.after_merge, cut_padding. intros I.
  assert (G : forall x, In x (select_stations ra sts (map (shift_trace c) raw)) -> exists u, In u raw /\ w_station u = w_station x).
  { intros x Ix. apply Archive_Proofs.select_in in Ix. destruct Ix as (Ix & _). apply in_map_iff in Ix. destruct Ix as (u & <- & Iu). exists u. split; [exact Iu|reflexivity]. }
  destruct (negb (a =? 0) || negb (b =? 0)); [|apply G, I]. apply filter_In in I. destruct I as (I & _). apply in_map_iff in I. destruct I as (x & <- & Ix). destruct (G x Ix) as (u & Iu & Eu). exists u. split; [exact Iu|].
  rewrite Eu. symmetry. apply Archive_Proofs.trim_meta.
Qed.
Lemma merge_dotless order raw t : In t (merge_traces order raw) -> ~ In dot (w_station t).
Proof. unfold merge_traces. cbv zeta. intros I. apply in_map_iff in I. destruct I as (m & <- & _). unfold of_seg. cbn [w_station]. apply Read_Proofs.at_dot_nodot. Qed.
Lemma segs_by_channel st i : (forall t, In t st -> ~ In dot (w_station t)) ->
  filter (fun g => String.eqb (sg_id g) i) (map to_seg st) = if String.eqb (chan_id (fst (at_dot (list_ascii_of_string i))) (snd (at_dot (list_ascii_of_string i)))) i
    then map to_seg (traces st (fst (at_dot (list_ascii_of_string i))) (snd (at_dot (list_ascii_of_string i)))) else [].
Proof.
  intros D. set (a := fst (at_dot (list_ascii_of_string i))). set (b := snd (at_dot (list_ascii_of_string i))). unfold traces.
  induction st as [|t st IH]; [destruct (String.eqb _ _); reflexivity|]. cbn [map filter]. pose proof (Read_Proofs.at_dot_chan (w_station t) (w_chan t) (D t (or_introl eq_refl))) as At.
  rewrite IH by (intros t' I'; apply D; right; exact I'). cbn [to_seg sg_id]. destruct (String.eqb_spec (chan_id (w_station t) (w_chan t)) i) as [E|N].
  - rewrite E in At. assert (Ea : a = w_station t) by (unfold a; rewrite At; reflexivity). assert (Eb : b = w_chan t) by (unfold b; rewrite At; reflexivity). rewrite Ea, Eb, E, String.eqb_refl.
    destruct (list_eq_dec ascii_dec (w_station t) (w_station t)) as [_|C]; [|contradiction]. destruct (list_eq_dec ascii_dec (w_chan t) (w_chan t)) as [_|C]; [|contradiction]. reflexivity.
  - destruct (String.eqb_spec (chan_id a b) i) as [E|]; [|reflexivity]. destruct (list_eq_dec ascii_dec (w_station t) a) as [Ea|]; [|reflexivity]. destruct (list_eq_dec ascii_dec (w_chan t) b) as [Eb|]; [|reflexivity]. exfalso. apply N. congruence.
Qed.

(** What the scan makes of the waveforms read: the traces, the stations of the archive and its settings. *)
Definition window_data (names : list string) (rs : bool) (uf : option Z) (starttime endtime : Z) (st : list wtrace) : wdata := mk_wdata (map to_seg st) names rs uf starttime endtime.
(** Partial: as C118. Two archives that store the same samples, however the files are named and cut, give the same coalescence. *)
Theorem C120_archive_partial :
  forall order order' interval fuel fuel' c A A' ra sts f f' starttime endtime pre post raw st o', Read_Props.any_order order -> Read_Props.any_order order' -> 0 < sec c -> starttime <= endtime ->
  path_structure (ar_format A) (ar_channels A) = Ret f -> path_structure (ar_format A') (ar_channels A') = Ret f' ->
  let lo := starttime - Z.max 0 pre in let hi := endtime + Z.max 0 post in
  regular interval c A ra sts lo hi -> regular interval c A' ra sts lo hi ->
  (forall s ch tau v, lo <= tau <= hi -> stored_sample c A ra sts lo hi s ch tau v <-> stored_sample c A' ra sts lo hi s ch tau v) ->
  read_merged order fuel c (ar_files A) (ar_content A) (Some f) ra sts starttime endtime pre post = Some (Ret (raw, st)) ->
  read_merged order' fuel' c (ar_files A') (ar_content A') (Some f') ra sts starttime endtime pre post = Some o' ->
  exists raw' st', o' = Ret (raw', st') /\ forall lowpass taper tiny secs k r0 l names rs uf rate first last m,
    compute_coalescence lowpass taper tiny secs k r0 l (window_data names rs uf starttime endtime st) rate first last = Ret m
    <-> compute_coalescence lowpass taper tiny secs k r0 l (window_data names rs uf starttime endtime st') rate first last = Ret m.
Proof.
  intros order order' interval fuel fuel' c A A' ra sts f f' t0 t1 pre post raw st o' Or Or' Hc Hse E E' lo hi Rg Rg' Same H H'.
  destruct (Read_Props.C118_organisation_partial order order' interval fuel fuel' c A A' ra sts f f' t0 t1 pre post raw st o' Or Or' Hc Hse E E' Rg Rg' Same H H') as (raw' & st' & Eo & Tr). exists raw', st'. split; [exact Eo|].
  assert (Dl : forall od fl (B : archive) g x y, path_structure (ar_format B) (ar_channels B) = Ret g -> read_merged od fl c (ar_files B) (ar_content B) (Some g) ra sts t0 t1 pre post = Some (Ret (x, y)) -> forall t, In t y -> ~ In dot (w_station t)).
  { clear - Hc Hse. intros od fl [a fd fmt ch0] g x y Eg Er t It. cbn [ar_files ar_content ar_format ar_channels] in *. destruct (Read_Proofs.merged_split od fmt ch0 g fl c a fd ra sts t0 t1 pre post _ Hc Hse Eg Er) as (raw0 & _ & [(_ & e & C)|(_ & C)]); [discriminate|].
    assert (Ey : y = Read_Proofs.after_merge c t0 t1 (Z.max 0 pre) (Z.max 0 post) ra sts (merge_traces od raw0)) by congruence. rewrite Ey in It. destruct (after_merge_stations _ _ _ _ _ _ _ _ _ It) as (u & Iu & <-). apply (merge_dotless od raw0 u Iu). }
  rewrite Eo in H'. pose proof (Dl order fuel A f raw st E H) as D1. pose proof (Dl order' fuel' A' f' raw' st' E' H') as D2.
  assert (Sg : forall i, filter (fun g => String.eqb (sg_id g) i) (map to_seg st) = filter (fun g => String.eqb (sg_id g) i) (map to_seg st')).
  { intros i. rewrite !segs_by_channel by assumption. rewrite (proj2 (Tr _ _)). reflexivity. }
  intros lp tp tiny secs k r0 l names rs uf rate a b m. split; apply (compute_sim lp tp tiny secs k _ _ None); try reflexivity; try (repeat split; reflexivity); [exact Sg|intros i; symmetry; apply Sg].
Qed.
Print Assumptions C120_archive_partial.

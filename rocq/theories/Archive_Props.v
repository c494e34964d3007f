(** C97 and C98: the waveform archive. *)
From Coq Require Import String Ascii.
From Coq Require Import List ZArith Bool Reals Lia Lra.
From Verif Require Import Lib LibFacts Calendar_Model Timeline_Model Archive_Model Archive_Spec Archive_Proofs.
Import ListNotations.
Open Scope Z_scope.

(** C97: the files read for a period are those that the layout of the archive gives to the
    stations (all of them, or the selected ones) on the days of the period. *)
Theorem C97_files_of_period :
  forall fmt ch f fuel c a read_all stations starttime endtime r,
  0 < sec c -> starttime <= endtime ->
  path_structure fmt ch = Ret f ->
  load_from_path fuel c a (Some f) read_all stations starttime endtime = Some r ->
  exists files, r = Ret files /\ forall p, In p files <->
    In p a /\ exists d s s', (exists t, starttime <= t <= endtime /\ d * (86400 * sec c) <= t < (d + 1) * (86400 * sec c))
      /\ (read_all = true \/ (s = s' /\ In s stations)) /\ layout fmt ch s s' d p.
Proof.
  intros fmt ch f fuel c a read_all stations starttime endtime r Hc Hse E H.
  exact (load_from_path_in fmt ch f fuel c a read_all stations starttime endtime r Hc Hse E H).
Qed.
Print Assumptions C97_files_of_period.

(** C97: the search ends, and raises for a format that is not one of the seven or not set. *)
Theorem C97_search_ends :
  forall c a f read_all stations starttime endtime, 0 < sec c ->
  exists fuel r, load_from_path fuel c a f read_all stations starttime endtime = Some r.
Proof.
  intros c a f read_all stations starttime endtime Hc. pose proof (day_pos c Hc) as Hd.
  destruct f as [f|]; [|exists O, (Raise ArchiveFormat); reflexivity].
  pose proof (Z.div_mod starttime (day c) ltac:(lia)) as Hdm.
  destruct (load_days_total c a f read_all stations endtime Hc (Z.to_nat (endtime / day c + 1 - starttime / day c)) (starttime / day c)) as (r & Er).
  - pose proof (Z.div_mod endtime (day c) ltac:(lia)). pose proof (Z.mod_pos_bound endtime (day c) Hd). nia.
  - eexists; exists r. cbn [load_from_path]. replace (starttime - starttime mod day c) with (starttime / day c * day c) by lia.
    exact Er.
Qed.
Print Assumptions C97_search_ends.

Theorem C97_unknown_format_rejected :
  forall fmt ch, path_structure fmt ch = Raise ArchivePathStructure <->
  ~ In fmt ["SeisComp3"; "YEAR/JD/*_STATION_*"; "YEAR/JD/STATION"; "STATION.YEAR.JULIANDAY";
            "/STATION/STATION.YearMonthDay"; "YEAR_JD/STATION*"; "YEAR_JD/STATION_*"]%string.
Proof.
  intros fmt ch. unfold path_structure.
  repeat match goal with |- context [if String.eqb fmt ?x then _ else _] =>
    destruct (String.eqb_spec fmt x) as [->|?] end; try (split; [discriminate|intros H; exfalso; apply H; cbn; tauto]).
  split; [|reflexivity]. intros _ H. cbn in H. repeat (destruct H as [H|H]; [congruence|]). exact H.
Qed.
Print Assumptions C97_unknown_format_rejected.

(** C97: a file is read for one station only: always for the two layouts that name the station
    as a directory; for names that end at "_" when no name contains "_"; and for the layouts in
    which anything may follow the name when no name of a station starts with another one. *)
Theorem C97_file_of_one_station_partial :
  forall fmt ch s t d d' p,
  layout fmt ch s s d p -> layout fmt ch t t d' p ->
  (fmt = "SeisComp3"%string \/ fmt = "/STATION/STATION.YearMonthDay"%string -> s = t)
  /\ (fmt = "YEAR_JD/STATION_*"%string -> ~ In "_"%char s -> ~ In "_"%char t -> s = t)
  /\ (fmt = "YEAR/JD/STATION"%string \/ fmt = "YEAR_JD/STATION*"%string ->
      (forall u, t = s ++ u -> u = []) -> (forall u, s = t ++ u -> u = []) -> s = t).
Proof.
  intros fmt ch s t d d' p H H'. repeat split.
  - intros F. exact (layout_station_dir fmt ch s t d d' p F H H').
  - intros -> Hs Ht. exact (layout_station_underscore ch s t d d' p Hs Ht H H').
  - intros F H1 H2. destruct (layout_station_prefix fmt ch s t d d' p F H H') as [(u & E)|(u & E)].
    + rewrite (H1 u E), app_nil_r in E. symmetry. exact E.
    + rewrite (H2 u E), app_nil_r in E. exact E.
Qed.
Print Assumptions C97_file_of_one_station_partial.

(** C97: whatever the layout and the stations, a file belongs to one day. *)
Theorem C97_file_of_one_day :
  forall fmt ch s s' t t' d d' p, 0 <= year d <= 9999 -> 0 <= year d' <= 9999 ->
  layout fmt ch s s' d p -> layout fmt ch t t' d' p -> d = d'.
Proof. exact layout_day. Qed.
Print Assumptions C97_file_of_one_day.

(** C97: no file is read twice when the layout tells the stations apart. *)
Theorem C97_files_once_partial :
  forall fmt ch f fuel c a stations starttime endtime files,
  0 < sec c -> path_structure fmt ch = Ret f -> NoDup a -> NoDup stations ->
  (forall s t d p, In s stations -> In t stations -> layout fmt ch s s d p -> layout fmt ch t t d p -> s = t) ->
  (forall d, starttime / (86400 * sec c) <= d -> d * (86400 * sec c) <= endtime -> 0 <= year d <= 9999) ->
  load_from_path fuel c a (Some f) false stations starttime endtime = Some (Ret files) ->
  NoDup files.
Proof.
  intros fmt ch f fuel c a stations starttime endtime files Hc E Ha Hst Hex Hyr H. pose proof (day_pos c Hc) as Hd.
  pose proof (Z.div_mod starttime (day c) ltac:(lia)) as Hdm. cbn [load_from_path] in H.
  replace (starttime - starttime mod day c) with (starttime / day c * day c) in H by lia.
  exact (load_days_nodup fmt ch f c a stations endtime Hc E Ha Hst Hex fuel (starttime / day c) Hyr files H).
Qed.
Print Assumptions C97_files_once_partial.

(** C97 is false in general: in the layout "YEAR/JD/STATION" of the examples, a station whose
    name starts with that of another one is read for both: here the file of ST10 is read when
    only ST1 is selected, and twice when both are. 2020-01-01 is day 18262. *)
Definition us_clock : clock := {| sec := 1000000; delta := 10000 |}.
Definition c97_t0 : Z := 18262 * 86400 * 1000000.
Definition c97_file : path := [txt "2020"; txt "001"; txt "ST10_Z.m"].
Definition c97_format : format := [ [FYear]; [FJday]; [FStation] ++ fstar ].
Theorem C97_prefix_names_refuted :
  path_structure "YEAR/JD/STATION" [GStar] = Ret c97_format
  /\ load_from_path 2 us_clock [c97_file] (Some c97_format) false [txt "ST1"] c97_t0 (c97_t0 + 1000000) = Some (Ret [c97_file])
  /\ load_from_path 2 us_clock [c97_file] (Some c97_format) false [txt "ST1"; txt "ST10"] c97_t0 (c97_t0 + 1000000)
     = Some (Ret [c97_file; c97_file]).
Proof. repeat split; vm_compute; reflexivity. Qed.
Print Assumptions C97_prefix_names_refuted.

(** C97: the custom format given as the example in the documentation (docs/tutorials/archive.rst:41),
    "{year}/{jday:03d}/{station}_{year}_{jday:03d}_{channels}.*", names the field "channels",
    which is not among those filled in (data.py:370-377): any search with it raises. *)
Definition documented_format : format :=
  [ [FYear]; [FJday]; [FStation] ++ lit "_" ++ [FYear] ++ lit "_" ++ [FJday] ++ lit "_" ++ [FOther] ++ lit "." ++ fstar ].
Theorem C97_documented_format_refuted :
  forall fuel c a s stations starttime endtime r, 0 < sec c -> starttime <= endtime ->
  load_from_path fuel c a (Some documented_format) false (s :: stations) starttime endtime = Some r -> r = Raise KeyError.
Proof.
  intros fuel c a s stations starttime endtime r Hc Hse H. pose proof (day_pos c Hc) as Hd.
  pose proof (Z.mod_pos_bound starttime (day c) Hd) as Hb. cbn [load_from_path] in H.
  destruct fuel as [|fuel]; cbn [load_days] in H;
    destruct (Z.leb_spec (starttime - starttime mod day c) endtime) as [Hle|Hgt]; try discriminate; try lia.
  assert (E : forall d, day_files a documented_format false (s :: stations) d = Raise KeyError).
  { intros d. unfold day_files. cbn [station_files]. unfold documented_format. rend. reflexivity. }
  rewrite E in H. injection H as <-. reflexivity.
Qed.
Print Assumptions C97_documented_format_refuted.

(** The SeisComp3 layout over two days. *)
Definition c97_sds (jd : string) : path :=
  [txt "2020"; txt "XX"; txt "ST1"; txt "HHZ.D"; txt "XX.ST1..HHZ.D.2020." ++ txt jd].
Example C97_applies : exists f files,
  path_structure "SeisComp3" [GSet false (txt "BH"); GChar "H"%char; GStar] = Ret f
  /\ load_from_path 4 us_clock [c97_sds "001"; c97_sds "002"; c97_sds "003"] (Some f) false [txt "ST1"]
       (c97_t0 + 86399000000) (c97_t0 + 86401000000) = Some (Ret files)
  /\ files = [c97_sds "001"; c97_sds "002"].
Proof. eexists; eexists. split; [reflexivity|]. split; [vm_compute; reflexivity|]. reflexivity. Qed.

(* ------------------------------------------------------------------ *)

(** C98: every sample of a selected station in the period, stored in a file of its own day, is
    among the waveforms; those of the padding are among the raw waveforms, for every station if
    all are read. *)
Theorem C98_every_sample_read :
  forall fmt ch f fuel c a fd read_all stations starttime endtime pre_pad post_pad raw st s p d ts t tau v,
  0 < sec c -> starttime <= endtime ->
  path_structure fmt ch = Ret f ->
  read_waveform_data fuel c a fd (Some f) read_all stations starttime endtime pre_pad post_pad = Some (Ret (raw, st)) ->
  In p a -> layout fmt ch s s d p -> fd p = Some ts -> In t ts -> 0 < w_delta t ->
  has_sample t tau v -> d * (86400 * sec c) <= tau < (d + 1) * (86400 * sec c) ->
  starttime - Z.max 0 pre_pad <= tau <= endtime + Z.max 0 post_pad ->
  (read_all = true \/ In s stations) ->
  (exists t', In t' raw /\ w_station t' = w_station t /\ w_chan t' = w_chan t /\ has_sample t' tau v)
  /\ (starttime <= tau <= endtime -> In (w_station t) stations \/ read_all = false ->
      exists t', In t' st /\ w_station t' = w_station t /\ w_chan t' = w_chan t /\ has_sample t' tau v).
Proof.
  intros fmt ch f fuel c a fd read_all stations starttime endtime pre_pad post_pad raw st s p d ts t tau v
    Hc Hse E H Hp HL Hfd Ht Hdl Hs Hday Hin Hsel.
  destruct (read_split fmt ch f fuel c a fd read_all stations starttime endtime pre_pad post_pad Hc Hse E _ H)
    as (files & Hfl & [(_ & K)|[(_ & K)|K]]); [discriminate|discriminate|]. injection K as -> ->.
  set (pre := Z.max 0 pre_pad) in *. set (post := Z.max 0 post_pad) in *.
  assert (Hpf : In p files).
  { apply Hfl. split; [exact Hp|]. exists d, s, s. split; [exists tau; split; [exact Hin|exact Hday]|]. split; [|exact HL].
    destruct Hsel as [Hsel|Hsel]; [left; exact Hsel|right; split; [reflexivity|exact Hsel]]. }
  pose proof (trim_keeps t (starttime - pre) (endtime + post) tau v Hdl Hs Hin) as Hkeep.
  set (t1 := trim t (starttime - pre) (endtime + post)) in *.
  destruct (trim_meta t (starttime - pre) (endtime + post)) as (M1 & M2 & M3). fold t1 in M1, M2, M3.
  assert (H1 : In t1 (flat_map (read_file fd (starttime - pre) (endtime + post)) files)).
  { apply raw_in. exists p, ts, t. repeat split; try assumption. exact (has_sample_nonempty t1 tau v Hkeep). }
  split; [exists t1; repeat split; assumption|].
  intros Hw Hst.
  assert (H2 : In t1 (select_stations read_all stations (flat_map (read_file fd (starttime - pre) (endtime + post)) files))).
  { apply (proj2 (select_in _ _ _ _)). split; [exact H1|]. intros Era. rewrite M1. destruct Hst as [Hst|Hst]; [exact Hst|congruence]. }
  unfold cut_padding. destruct (negb (pre =? 0) || negb (post =? 0)).
  - pose proof (trim_keeps t1 starttime endtime tau v ltac:(lia) Hkeep Hw) as Hk2.
    destruct (trim_meta t1 starttime endtime) as (N1 & N2 & N3).
    exists (trim t1 starttime endtime). split; [|split; [congruence|split; [congruence|exact Hk2]]].
    apply filter_In. split; [apply (in_map (fun t => trim t starttime endtime)); exact H2|].
    exact (has_sample_nonempty _ tau v Hk2).
  - exists t1. repeat split; assumption.
Qed.
Print Assumptions C98_every_sample_read.

(** C98: nothing else is read. Each sample comes from a file of the period; its time is in the
    padded period (the period, for the waveforms) up to half a sample; and if all stations are
    read the waveforms are of the selected ones. *)
Theorem C98_nothing_else_read :
  forall fmt ch f fuel c a fd read_all stations starttime endtime pre_pad post_pad raw st t' tau v,
  0 < sec c -> starttime <= endtime ->
  path_structure fmt ch = Ret f ->
  (forall p ts t, fd p = Some ts -> In t ts -> 0 < w_delta t) ->
  read_waveform_data fuel c a fd (Some f) read_all stations starttime endtime pre_pad post_pad = Some (Ret (raw, st)) ->
  has_sample t' tau v ->
  (In t' raw -> exists d s s' p ts t, In p a /\ layout fmt ch s s' d p /\ (read_all = true \/ (s = s' /\ In s stations))
     /\ (exists x, starttime - Z.max 0 pre_pad <= x <= endtime + Z.max 0 post_pad /\ d * (86400 * sec c) <= x < (d + 1) * (86400 * sec c))
     /\ fd p = Some ts /\ In t ts
     /\ w_station t = w_station t' /\ w_chan t = w_chan t' /\ w_delta t = w_delta t' /\ has_sample t tau v
     /\ 2 * (starttime - Z.max 0 pre_pad) - w_delta t' <= 2 * tau <= 2 * (endtime + Z.max 0 post_pad) + w_delta t')
  /\ (In t' st -> (exists t, In t raw /\ w_station t = w_station t' /\ w_chan t = w_chan t' /\ has_sample t tau v)
     /\ 2 * starttime - w_delta t' <= 2 * tau <= 2 * endtime + w_delta t'
     /\ (read_all = true -> In (w_station t') stations)).
Proof.
  intros fmt ch f fuel c a fd read_all stations starttime endtime pre_pad post_pad raw st t' tau v Hc Hse E Hdl H Hs.
  destruct (read_split fmt ch f fuel c a fd read_all stations starttime endtime pre_pad post_pad Hc Hse E _ H)
    as (files & Hfl & [(_ & K)|[(_ & K)|K]]); [discriminate|discriminate|]. injection K as -> ->.
  set (pre := Z.max 0 pre_pad) in *. set (post := Z.max 0 post_pad) in *.
  set (raw0 := flat_map (read_file fd (starttime - pre) (endtime + post)) files).
  assert (Hraw : forall t1, In t1 raw0 -> exists p ts t, In p files /\ fd p = Some ts /\ In t ts
    /\ t1 = trim t (starttime - pre) (endtime + post)).
  { intros t1 H1. apply raw_in in H1. destruct H1 as (p & ts & t & H1 & H2 & H3 & H4 & _). exists p, ts, t. repeat split; assumption. }
  assert (Hrdl : forall t1, In t1 raw0 -> 0 < w_delta t1).
  { intros t1 H1. destruct (Hraw t1 H1) as (p & ts & t & _ & Efd & Ht & ->).
    rewrite (proj2 (proj2 (trim_meta t (starttime - pre) (endtime + post)))). exact (Hdl p ts t Efd Ht). }
  split.
  - intros H1. destruct (Hraw t' H1) as (p & ts & t & Hp & Efd & Ht & ->).
    apply Hfl in Hp. destruct Hp as (Hpa & d & s & s' & Hd & Hss & HL).
    destruct (trim_meta t (starttime - pre) (endtime + post)) as (M1 & M2 & M3).
    pose proof (trim_only t (starttime - pre) (endtime + post) tau v (Hdl p ts t Efd Ht) Hs) as [Hs' Hb].
    exists d, s, s', p, ts, t. rewrite M3. repeat (split; [first [assumption | congruence | exact Hd]|]). lia.
  - intros H1. unfold cut_padding in H1. destruct (negb (pre =? 0) || negb (post =? 0)) eqn:Ep.
    + apply filter_In in H1. destruct H1 as [H1 _]. apply in_map_iff in H1. destruct H1 as (t & <- & Ht).
      apply (proj1 (select_in _ _ _ _)) in Ht. destruct Ht as [Hr Hst]. destruct (trim_meta t starttime endtime) as (M1 & M2 & M3).
      pose proof (trim_only t starttime endtime tau v (Hrdl t Hr) Hs) as [Hs' Hb].
      split; [exists t; repeat split; congruence || assumption|]. rewrite M1, M3. split; [lia|exact Hst].
    + apply (proj1 (select_in _ _ _ _)) in H1. destruct H1 as [Hr Hst]. split; [exists t'; repeat split; assumption|]. split; [|exact Hst].
      apply orb_false_iff in Ep. destruct Ep as [Ep1 Ep2]. apply negb_false_iff, Z.eqb_eq in Ep1. apply negb_false_iff, Z.eqb_eq in Ep2.
      destruct (Hraw t' Hr) as (p & ts & t & Hp & Efd & Ht & ->).
      destruct (trim_meta t (starttime - pre) (endtime + post)) as (M1 & M2 & M3). rewrite M3.
      pose proof (trim_only t (starttime - pre) (endtime + post) tau v (Hdl p ts t Efd Ht) Hs) as [Hs' Hb]. lia.
Qed.
Print Assumptions C98_nothing_else_read.

(** C98: when the search fails and when it finds nothing. *)
Theorem C98_no_data :
  forall fmt ch f fuel c a fd read_all stations starttime endtime pre_pad post_pad e,
  0 < sec c -> starttime <= endtime ->
  path_structure fmt ch = Ret f ->
  read_waveform_data fuel c a fd (Some f) read_all stations starttime endtime pre_pad post_pad = Some (Raise e) ->
  (e = ArchiveEmpty /\ forall p d s s', In p a -> layout fmt ch s s' d p -> (read_all = true \/ (s = s' /\ In s stations)) ->
     ~ exists x, starttime - Z.max 0 pre_pad <= x <= endtime + Z.max 0 post_pad /\ d * (86400 * sec c) <= x < (d + 1) * (86400 * sec c))
  \/ (e = DataGapException /\ forall p d s ts t tau v, In p a -> layout fmt ch s s d p ->
       (read_all = true \/ In s stations) -> fd p = Some ts -> In t ts -> In (w_station t) stations -> 0 < w_delta t -> has_sample t tau v ->
       d * (86400 * sec c) <= tau < (d + 1) * (86400 * sec c) -> ~ (starttime <= tau <= endtime)).
Proof.
  intros fmt ch f fuel c a fd read_all stations starttime endtime pre_pad post_pad e Hc Hse E H.
  destruct (read_split fmt ch f fuel c a fd read_all stations starttime endtime pre_pad post_pad Hc Hse E _ H)
    as (files & Hfl & [(Ef & K)|[(Hcut & K)|K]]); [| |discriminate]; injection K as ->.
  - left. split; [reflexivity|]. intros p d s s' Hp HL Hss Hd. subst files.
    assert (In p []) as [] by (apply Hfl; split; [exact Hp|]; exists d, s, s'; split; [exact Hd|]; split; [exact Hss|exact HL]).
  - right. split; [reflexivity|].
    set (pre := Z.max 0 pre_pad) in *. set (post := Z.max 0 post_pad) in *.
    set (raw0 := flat_map (read_file fd (starttime - pre) (endtime + post)) files) in *.
    intros p d s ts t tau v Hp HL Hss Hfd Ht Hst Hdl Hs Hday Hw.
    assert (Hin : starttime - pre <= tau <= endtime + post) by lia.
    assert (Hpf : In p files).
    { apply Hfl. split; [exact Hp|]. exists d, s, s. split; [exists tau; split; [exact Hin|exact Hday]|]. split; [|exact HL].
      destruct Hss as [Hsel|Hsel]; [left; exact Hsel|right; split; [reflexivity|exact Hsel]]. }
    pose proof (trim_keeps t (starttime - pre) (endtime + post) tau v Hdl Hs Hin) as Hkeep.
    set (t1 := trim t (starttime - pre) (endtime + post)) in *.
    destruct (trim_meta t (starttime - pre) (endtime + post)) as (M1 & M2 & M3). fold t1 in M1, M2, M3.
    assert (H1 : In t1 raw0).
    { apply raw_in. exists p, ts, t. repeat split; try assumption. exact (has_sample_nonempty t1 tau v Hkeep). }
    assert (H2 : In t1 (select_stations read_all stations raw0)).
    { apply (proj2 (select_in _ _ _ _)). split; [exact H1|]. intros _. rewrite M1. exact Hst. }
    assert (exists x, In x (cut_padding starttime endtime pre post (select_stations read_all stations raw0))) as (x & Hx).
    { unfold cut_padding. destruct (negb (pre =? 0) || negb (post =? 0)); [|exists t1; exact H2].
      pose proof (trim_keeps t1 starttime endtime tau v ltac:(lia) Hkeep Hw) as Hk2.
      exists (trim t1 starttime endtime). apply filter_In. split; [apply (in_map (fun t => trim t starttime endtime)); exact H2|].
      exact (has_sample_nonempty _ tau v Hk2). }
    rewrite Hcut in Hx. exact Hx.
Qed.
Print Assumptions C98_no_data.

(** C98: the waveforms are of the selected stations, if the files hold the data of the station
    they are named after and the layout tells the stations of the archive apart. *)
Theorem C98_only_selected_partial :
  forall fmt ch f fuel c a fd stations starttime endtime pre_pad post_pad raw st t' tau v,
  0 < sec c -> starttime <= endtime ->
  path_structure fmt ch = Ret f ->
  (forall p ts t, fd p = Some ts -> In t ts -> 0 < w_delta t /\ exists d, layout fmt ch (w_station t) (w_station t) d p) ->
  (forall s t d d' p, layout fmt ch s s d p -> layout fmt ch t t d' p -> In p a -> s = t) ->
  read_waveform_data fuel c a fd (Some f) false stations starttime endtime pre_pad post_pad = Some (Ret (raw, st)) ->
  In t' st -> has_sample t' tau v -> In (w_station t') stations.
Proof.
  intros fmt ch f fuel c a fd stations starttime endtime pre_pad post_pad raw st t' tau v Hc Hse E Hfd Hex H Hin Hs.
  pose proof (C98_nothing_else_read fmt ch f fuel c a fd false stations starttime endtime pre_pad post_pad raw st t' tau v
    Hc Hse E (fun p ts t H1 H2 => proj1 (Hfd p ts t H1 H2)) H Hs) as [_ H2].
  destruct (H2 Hin) as ((t & Ht & M1 & _ & Hst) & _).
  pose proof (C98_nothing_else_read fmt ch f fuel c a fd false stations starttime endtime pre_pad post_pad raw st t tau v
    Hc Hse E (fun p ts t H1 H2 => proj1 (Hfd p ts t H1 H2)) H Hst) as [H3 _].
  destruct (H3 Ht) as (d & s & s' & p & ts & t0 & Hp & HL & Hss & _ & Efd & Ht0 & N1 & _).
  destruct Hss as [Hss|[<- Hss]]; [discriminate|].
  destruct (Hfd p ts t0 Efd Ht0) as (_ & d' & HL').
  pose proof (Hex s (w_station t0) d d' p HL HL' Hp) as K. rewrite <- M1, <- N1, <- K. exact Hss.
Qed.
Print Assumptions C98_only_selected_partial.

(** C98 is false in general: the waveforms hold data of a station that was not selected, when
    its name starts with that of a selected one. *)
Theorem C98_only_selected_refuted : exists raw st,
  read_waveform_data 2 us_clock [c97_file]
    (fun _ => Some [mk_wtrace (txt "ST10") (txt "Z") c97_t0 10000 [1; 2; 3]%R]) (Some c97_format) false [txt "ST1"]
    c97_t0 (c97_t0 + 10000) 0 0 = Some (Ret (raw, st))
  /\ exists t, In t st /\ has_sample t c97_t0 1%R /\ w_station t = txt "ST10" /\ ~ In (w_station t) [txt "ST1"].
Proof.
  eexists; eexists. split; [vm_compute; reflexivity|].
  eexists. split; [left; reflexivity|]. split; [exists 0; split; reflexivity|]. split; [reflexivity|].
  cbn. intros [H|[]]. discriminate.
Qed.
Print Assumptions C98_only_selected_refuted.

(** Two days, a window across midnight with padding, all stations read, one selected. *)
Definition c98_fd (p : path) : option (list wtrace) :=
  if list_eq_dec (list_eq_dec ascii_dec) p c97_file
  then Some [mk_wtrace (txt "ST10") (txt "Z") c97_t0 10000 [1; 2; 3; 4]%R] else None.
Example C98_applies : exists raw st,
  read_waveform_data 4 us_clock [c97_file] c98_fd (Some c97_format) true [txt "ST10"]
    (c97_t0 + 10000) (c97_t0 + 20000) 10000 10000 = Some (Ret (raw, st))
  /\ map w_data raw = [[1; 2; 3; 4]%R] /\ map w_data st = [[2; 3]%R].
Proof. eexists; eexists. split; [vm_compute; reflexivity|]. split; reflexivity. Qed.

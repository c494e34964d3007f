(** Properties C47, C48 and C64: data availability, station and availability files. *)
From Coq Require Import String Ascii.
From Coq Require Import List ZArith Reals Lra Lia Bool.
From Verif Require Import Lib LibFacts PyDict Timeline_Model Timeline_Spec Timeline_Props Lut_Model Lut_Spec Lut_Proofs
  Locate_Proofs Avail_Model Avail_Spec Avail_Proofs.
Import ListNotations.
Open Scope Z_scope.

(** C47. The verdict on every channel, and the verdict on the station: with [all_channels] all of
    the channels have to meet the criteria and the expected number of them has to be there,
    otherwise one of them has to. The dictionary has one entry per channel. *)
Theorem C47_verdict_exact :
  forall c starttime endtime k st, 0 < sec c -> Forall (sampled c) st -> complete_args k -> one_rate k st ->
  exists av d, check_availability c starttime endtime k st = Ret (av, d)
  /\ NoDup (keys d) /\ (forall i, In i (keys d) <-> is_id st i)
  /\ (forall i v, In (i, v) d -> (v = 0 \/ v = 1)
      /\ (v = 1 <-> channel_ok starttime endtime k (filter (fun s => String.eqb (sg_id s) i) st)))
  /\ (av = 0 \/ av = 1)
  /\ (av = 1 <-> st <> []
      /\ if all_channels k
         then n_channels k = Some (Z.of_nat (length d))
           /\ forall i, is_id st i -> channel_ok starttime endtime k (filter (fun s => String.eqb (sg_id s) i) st)
         else exists i, is_id st i /\ channel_ok starttime endtime k (filter (fun s => String.eqb (sg_id s) i) st)).
Proof.
  intros c t0 t1 k st Hsec Hsm Hca Hone. destruct st as [|s0 r] eqn:El.
  { exists 0, []. split; [reflexivity|]. split; [constructor|]. split; [intros i; split; [intros []|intros (s & [] & _)]|].
    split; [intros i v []|]. split; [left; reflexivity|]. split; [discriminate|]. intros [C _]. congruence. }
  rewrite <- El in *. assert (Hne : st <> []) by (rewrite El; discriminate).
  destruct (availability_ok c t0 t1 k st Hsec Hne Hsm Hca Hone) as (av & ok & E & Hid & Hav & Hv).
  eexists _, _. split; [exact E|]. unfold keys. rewrite map_map, map_length. cbn [fst]. rewrite map_id.
  split; [apply sorted_ids_nodup|]. split; [intros i; apply sorted_ids_in|]. split.
  { intros i v Hi. apply in_map_iff in Hi. destruct Hi as (j & Ej & Hj). apply sorted_ids_in in Hj.
    assert (j = i) by congruence. subst j. assert (Ev : v = if ok i then 1 else 0) by congruence. specialize (Hid i Hj). unfold select_id in Hid.
    rewrite <- Hid, Ev. destruct (ok i); split; auto; split; auto; discriminate. }
  split; [exact Hav|]. rewrite Hv. destruct (all_channels k).
  - split.
    + intros [H1 H2]. split; [exact Hne|]. split; [exact H2|]. intros i Hi. apply (Hid i Hi), H1, Hi.
    + intros (_ & H2 & H1). split; [|exact H2]. intros i Hi. apply (Hid i Hi), H1, Hi.
  - split.
    + intros (i & Hi & H). split; [exact Hne|]. exists i. split; [exact Hi|apply (Hid i Hi), H].
    + intros (_ & i & Hi & H). exists i. split; [exact Hi|apply (Hid i Hi), H].
Qed.
Print Assumptions C47_verdict_exact.

Definition tr_z : seg := mk_seg "N.A..HHZ" 0 2000 [0; 1; 2; 3]%R.
Definition tr_n1 : seg := mk_seg "N.A..HHN" 0 2000 [0; 1]%R.
Definition tr_n2 : seg := mk_seg "N.A..HHN" 4000 2000 [0; 1]%R.
Definition k_all : criteria := mk_criteria true (Some 2) false true true (Some 2000) false.
Definition k_any : criteria := mk_criteria false None true false false None false.
Lemma two_not_flat (a b : R) l : (a <> b)%R -> ~ flat (a :: b :: l).
Proof.
  intros H [v F]. inversion F as [|? ? Ha F']; subst. inversion F' as [|? ? Hb _]; subst. exact (H eq_refl).
Qed.
Example C47_applies :
  Forall (sampled hz50) [tr_n2; tr_z; tr_n1] /\ complete_args k_all /\ one_rate k_all [tr_n2; tr_z; tr_n1]
  /\ channel_ok 0 6000 k_all [tr_z] /\ channel_ok 0 6000 k_any [tr_n2; tr_n1] /\ ~ channel_ok 0 6000 k_all [tr_n2; tr_n1].
Proof.
  split; [|split; [|split; [|split; [|split]]]].
  - repeat constructor; try discriminate; cbn; lia.
  - split; [intros _; discriminate|]. intros _. exists 2. split; [reflexivity|lia].
  - left. reflexivity.
  - split; [constructor; [apply two_not_flat; lra|constructor]|]. split; [repeat constructor|]. split.
    + intros _ a b [<-|[]] [<-|[]]. cbn. intros C. discriminate C.
    + split; [intros _; repeat constructor|]. split; [|discriminate]. intros _. exists tr_z. split; [reflexivity|cbn; lia].
  - split; [repeat constructor; apply two_not_flat; lra|]. split.
    + constructor; [constructor; [right; unfold after; cbn; lia|constructor]|repeat constructor].
    + split; [discriminate|]. split; [discriminate|]. split; discriminate.
  - intros (_ & _ & _ & _ & F & _). destruct (F eq_refl) as (s & E & _). discriminate.
Qed.

(** Asking for more never makes a station available. *)
Theorem C47_stricter_monotone :
  forall c starttime endtime k k' st d', 0 < sec c -> Forall (sampled c) st ->
  complete_args k -> complete_args k' -> one_rate k st -> stricter k k' ->
  check_availability c starttime endtime k' st = Ret (1, d') ->
  exists d, check_availability c starttime endtime k st = Ret (1, d).
Proof.
  intros c t0 t1 k k' st d' Hsec Hsm Hca Hca' Hone Hst E'.
  assert (Hone' : one_rate k' st).
  { destruct Hone as [H|H]; [left; apply Hst, H|right; exact H]. }
  destruct (C47_verdict_exact c t0 t1 k st Hsec Hsm Hca Hone) as (av & d & E & Hnd & Hk & _ & Hav & Hv).
  destruct (C47_verdict_exact c t0 t1 k' st Hsec Hsm Hca' Hone') as (av2 & d2 & E2 & Hnd2 & Hk2 & _ & _ & Hv2).
  rewrite E' in E2. assert (A1 : av2 = 1) by congruence. assert (A2 : d2 = d') by congruence. subst av2 d2. clear E2.
  exists d. rewrite E. f_equal. f_equal. apply Hv. destruct (proj1 Hv2 eq_refl) as [Hne Hok]. split; [exact Hne|].
  assert (Hmono : forall l, channel_ok t0 t1 k' l -> channel_ok t0 t1 k l).
  { destruct Hst as (_ & S2 & S3 & S4 & S5). intros l (H1 & H2 & H3 & H4 & H5 & H6). unfold channel_ok.
    split; [exact H1|]. split; [exact H2|]. split; [auto|]. split; [|auto].
    intros Hc. destruct (S4 Hc) as [Hc' Hr]. rewrite <- Hr. apply H4, Hc'. }
  assert (Hlen : length d = length d').
  { rewrite <- (map_length fst d), <- (map_length fst d'). apply Permutation.Permutation_length. 
    apply Permutation.NoDup_Permutation; [exact Hnd|exact Hnd2|]. intros i. unfold keys in Hk, Hk2. rewrite Hk, Hk2. reflexivity. }
  destruct Hst as (S1 & _). destruct (all_channels k) eqn:Ea.
  - destruct (S1 eq_refl) as [Ea' En]. rewrite Ea' in Hok. destruct Hok as [N H]. split; [rewrite Hlen, <- En; exact N|].
    intros i Hi. apply Hmono, H, Hi.
  - destruct (all_channels k').
    + destruct Hok as [_ H]. destruct st as [|s r]; [congruence|]. exists (sg_id s).
      assert (Hi : is_id (s :: r) (sg_id s)) by (exists s; split; [left; reflexivity|reflexivity]). split; [exact Hi|apply Hmono, H, Hi].
    + destruct Hok as (i & Hi & H). exists i. split; [exact Hi|apply Hmono, H].
Qed.
Print Assumptions C47_stricter_monotone.

Example C47_stricter_applies : stricter k_any k_all /\ stricter k_all (mk_criteria true (Some 2) false true true (Some 2000) true).
Proof. unfold stricter. cbn. intuition discriminate. Qed.

(** The channels that failed are removed before the onset is computed, the others are kept. *)
Theorem C47_failed_channels_removed :
  forall c starttime endtime k st av d, 0 < sec c -> Forall (sampled c) st -> complete_args k -> one_rate k st ->
  check_availability c starttime endtime k st = Ret (av, d) ->
  forall s, In s (remove_unavailable d st)
    <-> In s st /\ channel_ok starttime endtime k (filter (fun x => String.eqb (sg_id x) (sg_id s)) st).
Proof.
  intros c t0 t1 k st av d Hsec Hsm Hca Hone E s.
  destruct (C47_verdict_exact c t0 t1 k st Hsec Hsm Hca Hone) as (av' & d' & E' & _ & Hk & Hv & _).
  assert (d' = d) by congruence. subst d'. rewrite remove_unavailable_in. split; intros [Hs H]; (split; [exact Hs|]).
  - assert (Hi : In (sg_id s) (keys d)) by (apply Hk; exists s; auto). unfold keys in Hi. apply in_map_iff in Hi.
    destruct Hi as ([i v] & Ei & Hiv). cbn [fst] in Ei. subst i. destruct (Hv _ _ Hiv) as [[->| ->] Hok]; [contradiction|apply Hok; reflexivity].
  - intros C. apply (Hv _ _ C) in H. discriminate.
Qed.
Print Assumptions C47_failed_channels_removed.

Example C47_removed_applies : remove_unavailable [("N.A..HHN", 0); ("N.A..HHZ", 1)]%string [tr_n2; tr_z; tr_n1] = [tr_z].
Proof. reflexivity. Qed.

(** The TypeError announced for a missing number of channels is raised only when every channel
    passed; with a channel that failed the answer is "not available". *)
Theorem C47_missing_number_of_channels :
  forall c starttime endtime k st, 0 < sec c -> st <> [] -> Forall (sampled c) st -> one_rate k st ->
  (check_rate k = true -> rate k <> None) -> all_channels k = true -> n_channels k = None ->
  (check_availability c starttime endtime k st = Raise TypeError
    /\ (forall i, is_id st i -> channel_ok starttime endtime k (filter (fun s => String.eqb (sg_id s) i) st)))
  \/ ((exists d, check_availability c starttime endtime k st = Ret (0, d))
    /\ exists i, is_id st i /\ ~ channel_ok starttime endtime k (filter (fun s => String.eqb (sg_id s) i) st)).
Proof.
  intros c t0 t1 k st Hsec Hne Hsm Hone Hr Ha Hn.
  set (k1 := mk_criteria false None (allow_gaps k) (full_timespan k) (check_rate k) (rate k) (check_times k)).
  assert (Hsame : forall l, check_channel c t0 t1 k1 l = check_channel c t0 t1 k l) by reflexivity.
  assert (Hcs : forall ids, check_channels c t0 t1 k1 st ids = check_channels c t0 t1 k st ids).
  { induction ids as [|i ids IH]; [reflexivity|]. cbn [check_channels]. rewrite Hsame, IH. reflexivity. }
  destruct (availability_ok c t0 t1 k1 st Hsec Hne Hsm) as (av & ok & E & Hid & _ & Hv).
  { split; [exact Hr|discriminate]. }
  { exact Hone. }
  unfold check_availability in E |- *. destruct st as [|s0 r] eqn:El; [congruence|]. rewrite <- El in *. rewrite Hcs in E.
  destruct (check_channels c t0 t1 k st (sorted_ids st)) as [d| |]; cbn [bind] in *; [|discriminate..].
  rewrite Ha, Hn. cbn [k1 all_channels n_channels negb andb] in E |- *.
  assert (Ed : d = map (fun i => (i, if ok i then 1 else 0)) (sorted_ids st)).
  { destruct (forallb _ _); congruence. }
  assert (Hall : forallb (Z.eqb 1) (values d) = true <-> forall i, is_id st i -> ok i = true).
  { rewrite Ed, values_map, forallb_forall. split; intros H.
    - intros i Hi. apply sorted_ids_in in Hi. specialize (H _ (in_map (fun i => if ok i then 1 else 0) _ _ Hi)). destruct (ok i); [reflexivity|discriminate].
    - intros x Hx. apply in_map_iff in Hx. destruct Hx as (i & <- & Hi). apply sorted_ids_in in Hi. rewrite (H i Hi). reflexivity. }
  destruct (forallb (Z.eqb 1) (values d)) eqn:Ef.
  - left. split; [reflexivity|]. intros i Hi. apply (Hid i Hi). apply Hall; [reflexivity|exact Hi].
  - right. split; [eexists; reflexivity|].
    destruct (Exists_dec (fun i => ok i = false) (sorted_ids st)) as [X|X]; [intros i; destruct (ok i); [right; discriminate|left; reflexivity]| |].
    + apply Exists_exists in X. destruct X as (i & Hi & Hf). apply sorted_ids_in in Hi. exists i. split; [exact Hi|].
      intros C. apply (Hid i Hi) in C. congruence.
    + exfalso. assert (C : false = true); [|discriminate C]. apply Hall. intros i Hi. apply sorted_ids_in in Hi.
      destruct (ok i) eqn:Eo; [reflexivity|]. exfalso. apply X, Exists_exists. exists i. auto.
Qed.
Print Assumptions C47_missing_number_of_channels.

Example C47_missing_applies :
  let k := mk_criteria true None true false false None false in
  all_channels k = true /\ n_channels k = None /\ channel_ok 0 6000 k [tr_z].
Proof.
  split; [reflexivity|]. split; [reflexivity|]. split; [constructor; [apply two_not_flat; lra|constructor]|]. split; [repeat constructor|].
  split; [discriminate|]. split; [discriminate|]. split; discriminate.
Qed.

(** C48 (partial). A station file without latitude is rejected with the documented exception, a
    file with all four columns is accepted, and the elevations are turned into depths; any other
    column missing is not covered, see [C48_missing_column_refuted]. *)
Theorem C48_station_files_partial :
  (forall f, ~ In "Latitude"%string (sf_cols f) -> read_stations f = Raise StationFileHeader)
  /\ (forall f, incl required (sf_cols f) -> exists g, read_stations f = Ret g /\ sf_cols g = sf_cols f
        /\ sf_rows g = map (fun r => mk_station (s_lat r) (s_lon r) (- s_elev r)%R (s_name r)) (sf_rows f)).
Proof.
  assert (H : forall cols x, has_col cols x = true <-> In x cols).
  { intros cols x. unfold has_col. rewrite existsb_exists. split.
    - intros (y & Hy & E). apply String.eqb_eq in E. subst. exact Hy.
    - intros Hx. exists x. split; [exact Hx|apply String.eqb_refl]. }
  split; intros f Hf; unfold read_stations; cbn [py_or].
  - destruct (has_col (sf_cols f) "Latitude") eqn:E; [apply H in E; contradiction|reflexivity].
  - rewrite !(proj2 (H _ _)) by (apply Hf; unfold required; cbn; auto 6). cbn [negb]. eexists. split; [reflexivity|].
    split; [reflexivity|]. apply map_ext. intros r. f_equal. lra.
Qed.
Print Assumptions C48_station_files_partial.

Example C48_applies : incl required (sf_cols (mk_sfile ["Name"; "Latitude"; "Elevation"; "Longitude"]%string [mk_station 1 2 3 "A"])).
Proof. intros x H. unfold required in H. cbn in *. intuition. Qed.

(** A file without longitudes is accepted; one without elevations, or without names, is rejected
    with a KeyError, not with the documented exception. *)
Theorem C48_missing_column_refuted :
  (exists f g, ~ In "Longitude"%string (sf_cols f) /\ read_stations f = Ret g)
  /\ (exists f, ~ In "Elevation"%string (sf_cols f) /\ read_stations f = Raise KeyError)
  /\ (exists f, ~ In "Name"%string (sf_cols f) /\ read_stations f = Raise KeyError)
  /\ ~ (forall f, ~ incl required (sf_cols f) -> read_stations f = Raise StationFileHeader).
Proof.
  split; [|split; [|split]].
  - exists (mk_sfile ["Latitude"; "Elevation"; "Name"]%string []). eexists. split; [|reflexivity]. cbn. intuition discriminate.
  - exists (mk_sfile ["Latitude"; "Longitude"; "Name"]%string []). split; [|reflexivity]. cbn. intuition discriminate.
  - exists (mk_sfile ["Latitude"; "Longitude"; "Elevation"]%string []). split; [|reflexivity]. cbn. intuition discriminate.
  - intros H. specialize (H (mk_sfile ["Latitude"; "Elevation"; "Name"]%string [])). cbn in H. discriminate H.
    intros C. assert (In "Longitude"%string (sf_cols (mk_sfile ["Latitude"; "Elevation"; "Name"]%string []))) as [E|[E|[E|[]]]]; [|discriminate..].
    apply C. unfold required. cbn. auto.
Qed.
Print Assumptions C48_missing_column_refuted.

(** C64. What detect wrote about the availability is what trigger reads: a table with rows in
    order of time, whose first column is named station_phase, is found again, as far as the days
    of the period that is read reach. The other days' files are left alone. *)
Theorem C64_availability_roundtrip_partial :
  forall c fs cols rows starttime endtime s p rest, 0 < day c -> starttime <= endtime ->
  cols = (s ++ "_" ++ p)%string :: rest -> plain_name s -> plain_name p ->
  (forall i j a b, i < j -> rd rows i = Some a -> rd rows j = Some b -> fst a <= fst b) ->
  (forall d, starttime / day c <= d -> d <= endtime / day c -> (forall r, In r rows -> fst r / day c <> d) -> fs d = None) ->
  let fs' := write_availability c fs (mk_atable cols rows) in
  let read := filter (fun r => (starttime / day c <=? fst r / day c) && (fst r / day c <=? endtime / day c)) rows in
  (forall d, (forall r, In r rows -> fst r / day c <> d) -> fs' d = fs d)
  /\ exists fuel0, forall fuel, (fuel0 <= fuel)%nat -> read_availability fuel c fs' starttime endtime =
       Some (Ret (match read with [] => None | _ => Some (mk_atable cols read) end)).
Proof.
  intros c fs cols rows t0 t1 s p rest Hd Hle Ec Hs Hp Hsort Hold fs' read. split.
  { intros d Hn. unfold fs', write_availability. cbn [at_rows]. destruct (existsb _ rows) eqn:E; [|reflexivity].
    apply existsb_exists in E. destruct E as (r & Hr & E). apply Z.eqb_eq in E. exfalso. exact (Hn r Hr E). }
  exists (Z.to_nat (t1 / day c - t0 / day c + 1)). intros fuel Hf. unfold read_availability.
  replace (t0 - t0 mod day c) with (t0 / day c * day c) by (pose proof (Z.div_mod t0 (day c)); lia).
  assert (Hdd : t0 / day c <= t1 / day c) by (apply Z.div_le_mono; lia).
  pose proof (read_days_ok c fs cols rows Hd) as R. specialize (R (ex_intro _ _ (ex_intro _ rest (ex_intro _ s (ex_intro _ p (conj Ec (split_key s p Hs Hp))))))).
  specialize (R Hsort (t0 / day c) t1).
  assert (E0 : upto c rows (t0 / day c) (t0 / day c) = []).
  { unfold upto. apply filter_none. intros x _. destruct (Z.leb_spec (t0 / day c) (fst x / day c)), (Z.ltb_spec (fst x / day c) (t0 / day c)); try reflexivity; lia. }
  specialize (R ltac:(intros d H1 H2 H3; apply Hold; [exact H1|exact H2|intros r Hr E; apply H3; exists r; auto])).
  specialize (R fuel (t0 / day c) ltac:(lia) ltac:(lia) ltac:(lia)). rewrite E0 in R. cbn [acc_of] in R.
  unfold fs'. rewrite R. f_equal. f_equal. unfold acc_of, read.
  assert (E1 : upto c rows (t0 / day c) (t1 / day c + 1) = filter (fun r => (t0 / day c <=? fst r / day c) && (fst r / day c <=? t1 / day c)) rows).
  { unfold upto. apply filter_ext. intros r. f_equal. destruct (Z.ltb_spec (fst r / day c) (t1 / day c + 1)), (Z.leb_spec (fst r / day c) (t1 / day c)); try reflexivity; lia. }
  rewrite E1. destruct (filter _ rows); reflexivity.
Qed.
Print Assumptions C64_availability_roundtrip_partial.

Definition av_table : atable := mk_atable ["A_P"; "A_S"]%string [(8639000000, [1; 0]); (8641000000, [1; 1])].
Example C64_applies : read_availability 5 hz50 (write_availability hz50 (fun _ => None) av_table) 8639000000 8642000000 = Some (Ret (Some av_table)).
Proof. reflexivity. Qed.

(** A station name with an underscore makes the file unreadable: it is taken for a file of the
    old format, and a column that is not there is looked up. *)
Theorem C64_underscore_refuted :
  exists cols rows starttime endtime fuel,
    read_availability fuel hz50 (write_availability hz50 (fun _ => None) (mk_atable cols rows)) starttime endtime = Some (Raise KeyError).
Proof. exists ["A_1_P"; "A_1_S"]%string, [(0, [1; 1])], 0, 1000, 3%nat. reflexivity. Qed.
Print Assumptions C64_underscore_refuted.

(** A second run over part of a day replaces the file of that day: what the first run wrote
    there is lost. *)
Theorem C64_day_replaced_refuted :
  exists c fs t1 t2 r, In r (at_rows t1) /\ Forall (fun r2 => fst r < fst r2) (at_rows t2)
  /\ forall starttime endtime fuel t, read_availability fuel c (write_availability c (write_availability c fs t1) t2) starttime endtime = Some (Ret (Some t)) ->
       ~ In r (at_rows t).
Proof.
  exists hz50, (fun _ => None), (mk_atable ["A_P"]%string [(0, [1])]), (mk_atable ["A_P"]%string [(100000, [1])]), (0, [1]).
  split; [left; reflexivity|]. split; [repeat constructor; cbn; lia|]. intros t0 t1 fuel t.
  set (fs := write_availability _ _ _). unfold read_availability.
  assert (Hfs : forall d, fs d = None \/ fs d = Some (mk_atable ["A_P"]%string [(100000, [1])])).
  { intros d. unfold fs, write_availability. cbn [at_rows existsb filter fst at_cols orb]. change (100000 / day hz50) with 0. change (0 / day hz50) with 0.
    destruct (0 =? d); cbn [orb]; auto. }
  clearbody fs. generalize (t0 - t0 mod day hz50) as rs. intros rs.
  assert (G : forall fuel rs acc, match acc with Some a => at_cols a = ["A_P"%string] /\ ~ In (0, [1]) (at_rows a) | None => True end ->
    read_days fuel hz50 fs rs t1 acc = Some (Ret (Some t)) -> ~ In (0, [1]) (at_rows t)).
  { clear fuel rs t0. induction fuel as [|fuel IH]; intros rs acc Hacc E; cbn [read_days] in E.
    - destruct (rs <=? t1); [discriminate|]. assert (acc = Some t) by congruence. subst acc. apply Hacc.
    - destruct (rs <=? t1); [|assert (acc = Some t) by congruence; subst acc; apply Hacc].
      destruct (Hfs (rs / day hz50)) as [F|F]; rewrite F in E.
      + eapply IH; [|exact E]. exact Hacc.
      + change (handle_old_structure (mk_atable ["A_P"%string] [(100000, [1])])) with (Ret (mk_atable ["A_P"%string] [(100000, [1])])) in E. cbn [bind] in E.
        destruct acc as [a|]; cbn [append_table] in E.
        * destruct Hacc as [Ha Hn]. rewrite Ha in E. cbn [at_cols] in E. destruct (list_eq_dec string_dec ["A_P"%string] ["A_P"%string]); [|congruence].
          eapply IH; [|exact E]. cbn [at_cols at_rows]. split; [reflexivity|]. rewrite in_app_iff. intros [C|[C|[]]]; [exact (Hn C)|discriminate].
        * eapply IH; [|exact E]. cbn [at_cols at_rows]. split; [reflexivity|]. intros [C|[]]; discriminate. }
  apply G. exact I.
Qed.
Print Assumptions C64_day_replaced_refuted.

(** A file of the old format, one column per station, is read as if it had one column per station
    and phase with the value of the station in each. *)
Theorem C64_old_format :
  forall t, at_cols t <> [] -> Forall plain_name (at_cols t) -> NoDup (at_cols t) ->
  Forall (fun r : Z * list Z => length (snd r) = length (at_cols t)) (at_rows t) ->
  handle_old_structure t = Ret (mk_atable
    (map (fun x => x ++ "_P")%string (at_cols t) ++ map (fun x => x ++ "_S")%string (at_cols t))
    (map (fun r => (fst r, snd r ++ snd r)) (at_rows t))).
Proof. intros t Hne Hp Hn Hr. exact (old_format_ok t Hp Hn Hr Hne). Qed.
Print Assumptions C64_old_format.

Example C64_old_format_applies : handle_old_structure (mk_atable ["A"; "B"]%string [(5, [1; 0])])
  = Ret (mk_atable ["A_P"; "B_P"; "A_S"; "B_S"]%string [(5, [1; 0; 1; 0])]).
Proof. reflexivity. Qed.

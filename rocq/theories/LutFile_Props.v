(** C99: lookup table files keep their tables. *)
From Coq Require Import String Ascii.
From Coq Require Import List ZArith Reals Bool Lia Lra.
From Verif Require Import Lib PyDict Lut_Model Lut_Spec LutFile_Model LutFile_Spec LutFile_Proofs.
Import ListNotations.
Open Scope Z_scope.

(** A saved lookup table is read back as it was. *)
Theorem C99_read_back : forall d, complete d -> read_lut (save d) = d.
Proof. exact read_back. Qed.
Print Assumptions C99_read_back.

(** Updating an old-style file succeeds and gives a new-style file with the same grid, stations and
    other attributes, in which a table is stored under a phase exactly if it was stored under
    TIME_phase. *)
Theorem C99_update_converts :
  forall f maps n sp, old_style f maps n sp ->
    exists g tts, update_lut f = Ret g /\ new_style g tts n sp /\ same_rest (read_lut f) g
      /\ forall st p t,
           (exists m, dget tts st = Some m /\ dget m p = Some t)
           <-> (exists m, dget maps st = Some m /\ dget m ("TIME_" ++ p)%string = Some t).
Proof.
  intros f maps n sp H. destruct (update_old f maps n sp H) as (g & tts & E & Hn & _ & _ & _ & Hr & _).
  destruct (update_old_stored f maps n sp g H E) as (tts' & E' & Hv).
  assert (tts' = tts) as ->. { destruct Hn as (_ & Ht & _). congruence. }
  exists g, tts. tauto.
Qed.
Print Assumptions C99_update_converts.

(** Every lookup of a station and phase gives the same table before and after the update. *)
Theorem C99_update_keeps_tables :
  forall f maps n sp g, old_style f maps n sp -> update_lut f = Ret g ->
    forall st p t, plain_name p ->
      (find_table (read_lut g) st p = Ret t <-> find_table (read_lut f) st p = Ret t).
Proof. exact update_old_tables. Qed.
Print Assumptions C99_update_keeps_tables.

(** PARTIAL. The tables served for a scan are the same if the file names no phases or names P and
    S. Missing: other phases, see [C99_update_phases_refuted]. *)
Theorem C99_update_served_partial :
  forall f maps n sp g, old_style f maps n sp -> update_lut f = Ret g ->
    a_phases f = None \/ a_phases f = Some ["P"; "S"]%string ->
    forall ts, served_tables (read_lut g) = Ret ts <-> served_tables (read_lut f) = Ret ts.
Proof. exact update_old_served. Qed.
Print Assumptions C99_update_served_partial.

(** PARTIAL. Updating a file that is new-style already changes nothing if it has the phases P and S
    and the default [fraction_tt]; in particular updating twice is updating once. Missing: other
    values, see [C99_update_phases_refuted]. *)
Theorem C99_update_new_partial :
  forall f tts n sp, new_style f tts n sp -> complete f ->
    a_phases f = Some ["P"; "S"]%string -> a_fraction f = Some (1 / 10)%R ->
    update_lut f = Ret f.
Proof.
  intros f tts n sp H Hc Hp Hf. rewrite (update_new f tts n sp H Hc). unfold update_phases.
  rewrite <- Hp, <- Hf. destruct f; reflexivity.
Qed.
Print Assumptions C99_update_new_partial.

Theorem C99_update_twice :
  forall f maps n sp g, old_style f maps n sp -> update_lut f = Ret g -> update_lut g = Ret g.
Proof.
  intros f maps n sp g H E. destruct (update_old f maps n sp H) as (g' & tts & E' & Hn & Hc & Hp & Hf & _).
  rewrite E in E'. injection E' as <-. exact (C99_update_new_partial g tts n sp Hn Hc Hp Hf).
Qed.
Print Assumptions C99_update_twice.

(** PARTIAL. LUT(lut_file=...) finds the same tables and the same grid as read_lut. Missing: the
    stations, see [C99_constructor_refuted]. *)
Theorem C99_constructor_partial :
  forall f st p,
    find_table (lut_from_file f) st p = find_table (read_lut f) st p
    /\ get_nc (lut_from_file f) = get_nc (read_lut f) /\ get_ns (lut_from_file f) = get_ns (read_lut f)
    /\ a_phases (lut_from_file f) = a_phases (read_lut f)
    /\ a_fraction (lut_from_file f) = a_fraction (read_lut f)
    /\ a_other (lut_from_file f) = a_other (read_lut f).
Proof. intros. repeat split; reflexivity. Qed.
Print Assumptions C99_constructor_partial.

Definition box (x : R) : table := [[[x]]].
Definition oldf : attrs :=
  mk_attrs None None (Some (Some [("ST1"%string, (0, 0, 0)%R); ("ST2"%string, (1, 0, 0)%R)])) None
    (Some [("ST1"%string, [("TIME_P"%string, box 1); ("TIME_S"%string, box 2)]);
           ("ST2"%string, [("TIME_P"%string, box 3); ("TIME_S"%string, box 4)])])
    None None (Some (1, 1, 1)) (Some (1, 1, 1)%R) [("velocity_model"%string, "v"%string)].
Definition newf : attrs :=
  mk_attrs (Some (1 / 10)%R) (Some ["P"; "S"]%string)
    (Some (Some [("ST1"%string, (0, 0, 0)%R); ("ST2"%string, (1, 0, 0)%R)]))
    (Some [("ST1"%string, [("P"%string, box 1); ("S"%string, box 2)]);
           ("ST2"%string, [("P"%string, box 3); ("S"%string, box 4)])])
    None (Some (1, 1, 1)) (Some (1, 1, 1)%R) None None [("velocity_model"%string, "v"%string)].
Definition p_only : attrs :=
  mk_attrs (Some (1 / 20)%R) (Some ["P"]%string) (Some (Some [("ST1"%string, (0, 0, 0)%R)]))
    (Some [("ST1"%string, [("P"%string, box 1)])])
    None (Some (1, 1, 1)) (Some (1, 1, 1)%R) None None [].

Lemma ones : valid_count (1, 1, 1) /\ valid_spacing (1, 1, 1)%R.
Proof. split; cbn; [lia|lra]. Qed.

Example C99_applies :
  (exists maps n sp, old_style oldf maps n sp) /\ update_lut oldf = Ret newf
  /\ (exists tts n sp, new_style newf tts n sp) /\ complete newf
  /\ served_tables (read_lut newf) = Ret [box 1; box 3; box 2; box 4].
Proof.
  assert (H : exists maps n sp, old_style oldf maps n sp).
  { do 3 eexists. unfold old_style, oldf. cbn [a_maps a_tt a_nc a_ns a_cc a_cs a_other].
    do 6 (split; [reflexivity|]). split; [exact (proj1 ones)|]. split; [exact (proj2 ones)|].
    split; [repeat constructor; cbn; tauto|]. split; [repeat constructor; cbn; intuition discriminate|].
    intros st m [E|[E|[]]]; injection E as <- <-; (split; [repeat constructor; cbn; intuition discriminate|]);
      intros k t [E|[E|[]]]; injection E as <- <-;
      ((exists "P"%string; split; [unfold plain_name, underscore; cbn; intuition discriminate|reflexivity])
       || (exists "S"%string; split; [unfold plain_name, underscore; cbn; intuition discriminate|reflexivity])). }
  split; [exact H|]. split.
  { unfold update_lut, update_tables, update_grid. cbn -[Rlt_dec set_spacing].
    rewrite (set_spacing_ok (1, 1, 1)%R (proj2 ones)). reflexivity. }
  split. { do 3 eexists. unfold new_style. cbn [a_maps a_tt a_nc a_ns a_cc a_cs newf].
    do 6 (split; [reflexivity|]). exact ones. }
  split; [|reflexivity].
  unfold complete, newf. cbn [a_fraction a_phases a_stations a_other].
  repeat split; try discriminate. repeat constructor; cbn; tauto.
Qed.

(** REFUTED: updating keeps the phases of the table. A table with P only is given the phases P and S
    and another [fraction_tt]; its traveltimes can then not be served. *)
Theorem C99_update_phases_refuted :
  exists f tts n sp g, new_style f tts n sp /\ complete f /\ update_lut f = Ret g
    /\ (exists ts, served_tables (read_lut f) = Ret ts)
    /\ a_fraction g <> a_fraction f /\ served_tables (read_lut g) = Raise KeyError.
Proof.
  assert (Hn : exists tts n sp, new_style p_only tts n sp).
  { do 3 eexists. unfold new_style. cbn [a_maps a_tt a_nc a_ns a_cc a_cs p_only].
    do 6 (split; [reflexivity|]). exact ones. }
  assert (Hc : complete p_only).
  { unfold complete, p_only. cbn [a_fraction a_phases a_stations a_other]. repeat split; try discriminate. constructor. }
  destruct Hn as (tts & n & sp & Hn). exists p_only, tts, n, sp, (update_phases p_only).
  split; [exact Hn|]. split; [exact Hc|]. split; [exact (update_new _ _ _ _ Hn Hc)|].
  split; [exists [box 1]; reflexivity|]. split; [|reflexivity].
  cbn. intros H. injection H as H. lra.
Qed.
Print Assumptions C99_update_phases_refuted.

(** REFUTED: LUT(lut_file=...) restores the saved lookup table. The stations are replaced by an empty
    table, for every file; the traveltimes of all stations can then not be served. *)
Theorem C99_constructor_refuted :
  (forall f phases, a_phases (read_lut f) = Some phases -> served_tables (lut_from_file f) = Raise KeyError)
  /\ exists f ts, complete f /\ served_tables (read_lut f) = Ret ts /\ lut_from_file (save f) <> f.
Proof.
  split.
  - intros f phases H. unfold served_tables. change (a_phases (lut_from_file f)) with (a_phases (read_lut f)).
    rewrite H. reflexivity.
  - exists newf, [box 1; box 3; box 2; box 4]. destruct C99_applies as (_ & _ & _ & Hc & Hs).
    split; [exact Hc|]. split; [exact Hs|]. intros H.
    apply (f_equal a_stations) in H. discriminate H.
Qed.
Print Assumptions C99_constructor_refuted.

(** PARTIAL. load() replaces what was in the object before: a complete new-style table is found as it
    was saved, whatever the object held. Missing: old-style files, see
    [C99_load_over_tables_refuted]. *)
Theorem C99_load_replaces_partial :
  forall d f tts n sp, new_style f tts n sp -> complete f ->
    (forall st p, find_table (load d (save f)) st p = find_table f st p)
    /\ get_nc (load d (save f)) = get_nc f /\ get_ns (load d (save f)) = get_ns f
    /\ served_tables (load d (save f)) = served_tables f
    /\ a_fraction (load d (save f)) = a_fraction f
    /\ forall k v, dget (a_other f) k = Some v -> dget (a_other (load d (save f))) k = Some v.
Proof.
  intros d f tts n sp (Hm & Ht & Hn & Hs & _) (Hf & Hp & Hst & Ho).
  assert (T : a_tt (load d (save f)) = a_tt f).
  { unfold load, update_attrs, save. cbn [a_tt]. rewrite Ht. reflexivity. }
  assert (S : forall st, get_station (load d (save f)) st = get_station f st).
  { intros st. unfold get_station. rewrite T, Ht. reflexivity. }
  assert (F : forall st p, find_table (load d (save f)) st p = find_table f st p).
  { intros st p. unfold find_table, get_table. rewrite S. reflexivity. }
  assert (P : a_phases (load d (save f)) = a_phases f).
  { unfold load, update_attrs, save. cbn [a_phases]. destruct (a_phases f); [reflexivity|congruence]. }
  assert (R : a_stations (load d (save f)) = a_stations f).
  { unfold load, update_attrs, save. cbn [a_stations]. destruct (a_stations f); [reflexivity|congruence]. }
  split; [exact F|].
  split. { unfold get_nc, load, update_attrs, save. cbn [a_nc a_cc]. rewrite Hn. reflexivity. }
  split. { unfold get_ns, load, update_attrs, save. cbn [a_ns a_cs]. rewrite Hs. reflexivity. }
  split. { unfold served_tables. rewrite P, R. destruct (a_phases f) as [ph|]; [|reflexivity].
    destruct (a_stations f) as [[rows|]|]; try reflexivity. f_equal.
    apply flat_map_ext. intros p. apply map_ext. intros st. apply F. }
  split. { unfold load, update_attrs, save. cbn [a_fraction]. destruct (a_fraction f); [reflexivity|congruence]. }
  intros k v Hk. unfold load, update_attrs, save. cbn [a_other]. rewrite dget_dupdate by exact Ho.
  rewrite Hk. reflexivity.
Qed.
Print Assumptions C99_load_replaces_partial.

Example C99_load_applies :
  (exists tts n sp, new_style newf tts n sp) /\ complete newf
  /\ find_table (load p_only (save newf)) "ST2" "S" = Ret (box 4)
  /\ find_table p_only "ST2" "S" = Raise TypeError.
Proof.
  destruct C99_applies as (_ & _ & Hn & Hc & _). split; [exact Hn|]. split; [exact Hc|].
  split; reflexivity.
Qed.

(** REFUTED: load() replaces the traveltimes for every file. If the object has traveltimes already, an
    old-style file adds its [maps] beside them, and the traveltimes of the table before are used. *)
Theorem C99_load_over_tables_refuted :
  exists d f maps n sp t t', old_style f maps n sp /\ find_table f "ST1" "P" = Ret t
    /\ find_table (load d (save f)) "ST1" "P" = Ret t' /\ t' <> t.
Proof.
  destruct C99_applies as ((maps & n & sp & Ho) & _).
  exists (mk_attrs None None None (Some [("ST1"%string, [("P"%string, box 9)])]) None None None None None []),
    oldf, maps, n, sp, (box 1), (box 9).
  split; [exact Ho|]. split; [reflexivity|]. split; [reflexivity|].
  unfold box. intros H. injection H as H. lra.
Qed.
Print Assumptions C99_load_over_tables_refuted.

(** A file from before the travel-time uncertainty or the phases were stored gets a tenth and P and S; what a file stores
    is used. A file without tables serves none: looking one up raises AttributeError. *)
Theorem C99_defaults :
  forall f, let d := read_lut f in
    (forall v, a_fraction f = Some v -> a_fraction d = Some v)
    /\ (a_fraction f = None -> a_fraction d = Some (/ 10)%R)
    /\ (forall ps, a_phases f = Some ps -> a_phases d = Some ps)
    /\ (a_phases f = None -> a_phases d = Some ["P"; "S"]%string)
    /\ (a_tt f = None -> a_maps f = None -> forall st p, find_table d st p = Raise AttributeError).
Proof.
  intros f. unfold read_lut, update_attrs, new_lut, set_stations, bare. cbn [a_fraction a_phases a_tt a_maps first_of].
  repeat split.
  - intros v ->. reflexivity.
  - intros ->. cbn [first_of]. f_equal. lra.
  - intros ps ->. reflexivity.
  - intros ->. reflexivity.
  - intros E1 E2 st p. rewrite E1, E2. reflexivity.
Qed.
Print Assumptions C99_defaults.
Example C99_defaults_applies :
  let f := mk_attrs None None None None None None None None None [] in a_fraction (read_lut f) = Some (/ 10)%R /\ find_table (read_lut f) "ST1" "P" = Raise AttributeError.
Proof.
  intros f. destruct (C99_defaults f) as (_ & H & _ & _ & E). split; [exact (H eq_refl)|exact (E eq_refl eq_refl "ST1"%string "P"%string)].
Qed.

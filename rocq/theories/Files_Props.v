(** C107: files of different runs, sub-runs, days and events are different files. *)
From Coq Require Import String Ascii.
From Coq Require Import List ZArith Bool Lia.
From Verif Require Import Lib Calendar_Model Files_Model Files_Spec Files_Proofs.
Import ListNotations.
Open Scope Z_scope.

(** PARTIAL. Two outputs share a file only if they are the same output of the same run, and of the same sub-run
    unless the detect stage wrote them. Missing: names with dots or slashes and event identifiers that are not
    numbers, see the refuted claims below; formats other than the four that have a suffix of their own. *)
Theorem C107_distinct_files_partial :
  forall p n1 s1 n2 s2 o1 o2 f,
    plain n1 -> free s1 -> plain n2 -> free s2 -> usual_output o1 -> usual_output o2 ->
    file_of (make_run p n1 s1) o1 = Ret f -> file_of (make_run p n2 s2) o2 = Ret f ->
    n1 = n2 /\ o1 = o2 /\ (of_detect o1 \/ s1 = s2).
Proof. exact distinct_files. Qed.
Print Assumptions C107_distinct_files_partial.

(** PARTIAL. Every output has a file, directly in the directory that is created for it, below the directory of
    the run. Missing: names with slashes, see [C107_directory_refuted]. *)
Theorem C107_directory_partial :
  forall p nm sub o, plain nm -> free sub -> usual_output o ->
    exists leaf rest,
      file_of (make_run p nm sub) o = Ret (directory (make_run p nm sub) o ++ [leaf])
      /\ directory (make_run p nm sub) o = p ++ [nm] ++ rest.
Proof.
  intros p nm sub o Hn Hs Ho. rewrite make_run_plain by assumption.
  set (r := mk_run (p ++ [nm]) nm sub).
  assert (Hr : usual_run r) by (split; assumption).
  exists (fst (stem r o) ++ snd (stem r o)), (below r o).
  rewrite directory_below by assumption. split; [apply file_of_usual; assumption|].
  unfold r. cbn [r_path]. rewrite <- app_assoc. reflexivity.
Qed.
Print Assumptions C107_directory_partial.

(** Each stage looks for the files where the stage before writes them, for all runs. *)
Theorem C107_read_where_written :
  forall r d,
    scan_read r d = file_of r (OScan d) /\ avail_read r d = file_of r (OAvail d) /\ trig_read r d = file_of r (OTrig d).
Proof. intros. repeat split; reflexivity. Qed.
Print Assumptions C107_read_where_written.

(** PARTIAL. The export looks for the files of a run where locate writes them. Missing: names with dots, see
    [C107_export_refuted]. *)
Theorem C107_export_partial :
  forall p nm sub, ~ In "."%char nm -> ~ In "."%char sub ->
    forall uid,
      export_events (join p nm) sub = directory (make_run p nm sub) (OEvent uid)
      /\ export_file (join p nm) sub "picks" ".picks" uid = file_of (make_run p nm sub) (OPicks uid)
      /\ export_file (join p nm) sub "amplitudes" ".amps" uid = file_of (make_run p nm sub) (OAmps uid)
      /\ export_file (join p nm) sub "raw_cut_waveforms" ".m" uid
         = file_of (make_run p nm sub) (OCut (str "raw") uid (str "MSEED"))
      /\ export_file (join p nm) sub "real_cut_waveforms" ".m" uid
         = file_of (make_run p nm sub) (OCut (str "real") uid (str "MSEED"))
      /\ export_file (join p nm) sub "wa_cut_waveforms" ".m" uid
         = file_of (make_run p nm sub) (OCut (str "wa") uid (str "MSEED")).
Proof.
  intros p nm sub Hn Hs uid. unfold make_run. rewrite !has_dot_free by assumption. cbn [orb].
  repeat split; reflexivity.
Qed.
Print Assumptions C107_export_partial.

Definition day0 : Z := 18262. (* 2020-01-01 *)
Example C107_applies :
  let p := [str "outputs"] in
  plain (str "icequake") /\ free (str "high_threshold") /\ usual_output (OTrig day0)
  /\ usual_output (OPickPlot (str "20200101010203456") (str "ST1"))
  /\ file_of (make_run p (str "icequake") (str "high_threshold")) (OTrig day0)
     = Ret [str "outputs"; str "icequake"; str "trigger"; str "high_threshold"; str "events";
            str "icequake_high_threshold_2020_001_TriggeredEvents.csv"]
  /\ file_of (make_run p (str "icequake") []) (OPickPlot (str "20200101010203456") (str "ST1"))
     = Ret [str "outputs"; str "icequake"; str "locate"; str "pick_plots"; str "20200101010203456";
            str "20200101010203456_ST1.pdf"].
Proof.
  cbv zeta. split; [split; [discriminate|concrete]|]. split; [concrete|].
  split; [unfold usual_output, four_digit_year; vm_compute; split; discriminate|].
  split. { split; [split; [discriminate|]|concrete].
    repeat constructor; unfold is_digit; cbn; lia. }
  split; vm_compute; reflexivity.
Qed.

(** REFUTED: runs with different names have different files. Dots in names are replaced by underscores, so runs
    "v1.0" and "v1_0" write all their files to the same places. *)
Theorem C107_dots_refuted :
  exists n1 n2, n1 <> n2 /\ plain n2 /\ forall p sub o, free sub -> file_of (make_run p n1 sub) o = file_of (make_run p n2 sub) o.
Proof.
  exists (str "v1.0"), (str "v1_0"). split; [discriminate|]. split; [split; [discriminate|concrete]|].
  intros p sub o Hs. f_equal. unfold make_run. rewrite (has_dot_free sub) by apply Hs.
  cbn. f_equal. induction sub as [|c s IH]; cbn [no_dots map]; [reflexivity|].
  destruct Hs as (Ha & Hb). destruct (ascii_dec c c_dot) as [->|_]; [cbn in Hb; tauto|].
  rewrite <- IH at 2; [reflexivity|]. split; cbn in Ha, Hb; tauto.
Qed.
Print Assumptions C107_dots_refuted.

(** REFUTED: events with different identifiers have different files. What follows a dot in an identifier (of a
    trigger file supplied by the user) is taken for a suffix and replaced, for all files of the event. *)
Theorem C107_uid_refuted :
  exists u1 u2, u1 <> u2 /\ ~ In "/"%char u1 /\ ~ In "/"%char u2
    /\ forall r, 
       (exists f, file_of r (OEvent u1) = Ret f /\ file_of r (OEvent u2) = Ret f)
       /\ (exists f, file_of r (OPicks u1) = Ret f /\ file_of r (OPicks u2) = Ret f)
       /\ (exists f, file_of r (OAmps u1) = Ret f /\ file_of r (OAmps u2) = Ret f).
Proof.
  exists (str "2020.1"), (str "2020.2"). split; [discriminate|].
  split; [cbn; intuition discriminate|]. split; [cbn; intuition discriminate|].
  intros r.
  assert (J : forall d n, n = str "2020.1" \/ n = str "2020.2" -> join d n = d ++ [n])
    by (intros d n [->| ->]; reflexivity).
  assert (W : forall d n suf, n = str "2020.1" \/ n = str "2020.2" -> with_suffix (d ++ [n]) suf = Ret (d ++ [str "2020" ++ suf])).
  { intros d n suf H. unfold with_suffix. rewrite rev_unit.
    destruct H as [->| ->]; (destruct (list_eq_dec ascii_dec _ [c_slash]) as [E|_]; [discriminate E|]);
      cbn [rev]; rewrite rev_involutive; reflexivity. }
  repeat split; (eexists; split; unfold file_of; cbn [stem fst snd]; rewrite J by tauto; rewrite W by tauto; reflexivity).
Qed.
Print Assumptions C107_uid_refuted.

(** REFUTED: for every name of the run the directory of a file is created first. With a slash in the name, the
    detect stage works, but the file of the triggered events is in a directory that is not made. *)
Theorem C107_directory_refuted :
  exists nm, ~ In "."%char nm /\ forall p d, four_digit_year d ->
    (exists leaf, file_of (make_run p nm []) (OScan d) = Ret (directory (make_run p nm []) (OScan d) ++ [leaf]))
    /\ exists f, file_of (make_run p nm []) (OTrig d) = Ret f /\ removelast f <> directory (make_run p nm []) (OTrig d).
Proof.
  exists (str "north/2020"). split; [cbn; intuition discriminate|]. intros p d Hd.
  set (r := make_run p (str "north/2020") []).
  assert (Er : r = mk_run (p ++ [str "north"; str "2020"]) (str "north/2020") []) by reflexivity.
  split.
  - exists (fstem d ++ str ".scanmseed"). unfold file_of. cbn [stem fst snd].
    rewrite join_plain by apply fstem_plain. rewrite with_suffix_plain by apply fstem_plain. reflexivity.
  - assert (Hp : plain (str "2020_" ++ fstem d ++ str "_TriggeredEvents")).
    { split; [discriminate|]. apply free_app; [concrete|]. apply free_app; [apply fstem_plain|concrete]. }
    exists (directory r (OTrig d) ++ [str "north"] ++ [(str "2020_" ++ fstem d ++ str "_TriggeredEvents") ++ str ".csv"]).
    split.
    + unfold file_of. cbn [stem fst snd].
      assert (J : join (directory r (OTrig d)) (full_name r ++ [c_us] ++ fstem d ++ str "_TriggeredEvents")
                  = (directory r (OTrig d) ++ [str "north"]) ++ [str "2020_" ++ fstem d ++ str "_TriggeredEvents"]).
      { rewrite Er. cbn [full_name r_sub r_name]. unfold join.
        change (str "north/2020" ++ [c_us] ++ fstem d ++ str "_TriggeredEvents")
          with ("n"%char :: (str "orth" ++ c_slash :: str "2020_" ++ fstem d ++ str "_TriggeredEvents")).
        cbv iota. destruct (ascii_dec "n" c_slash) as [E|_]; [discriminate E|].
        change ("n"%char :: (str "orth" ++ c_slash :: str "2020_" ++ fstem d ++ str "_TriggeredEvents"))
          with (str "north" ++ c_slash :: (str "2020_" ++ fstem d ++ str "_TriggeredEvents")).
        rewrite parts_app, (parts_plain _ Hp). rewrite <- app_assoc. reflexivity. }
      rewrite J, with_suffix_plain by exact Hp. rewrite <- app_assoc. reflexivity.
    + rewrite app_assoc, removelast_last. intros H. apply (f_equal (@length _)) in H.
      rewrite app_length in H. cbn in H. lia.
Qed.
Print Assumptions C107_directory_refuted.

(** REFUTED: the export finds the files of a sub-run by its name. With a dot in the name, the directory read is
    not the one written. *)
Theorem C107_export_refuted :
  exists sub, forall p nm uid, plain nm ->
    export_events (join p nm) sub <> directory (make_run p nm sub) (OEvent uid).
Proof.
  exists (str "v1.0"). intros p nm uid Hn H.
  assert (E : make_run p nm (str "v1.0") = mk_run (join p nm) nm (str "v1_0")).
  { unfold make_run. rewrite (has_dot_free nm) by apply Hn. cbn [orb].
    change (has_dot (str "v1.0")) with true. cbv iota.
    assert (F : no_dots nm = nm).
    { destruct Hn as (_ & _ & Hd). clear H. induction nm as [|c s IH]; cbn [no_dots map]; [reflexivity|].
      destruct (ascii_dec c c_dot) as [->|_]; [destruct Hd; left; reflexivity|].
      f_equal. apply IH. cbn in Hd; tauto. }
    rewrite F. reflexivity. }
  rewrite E in H. cbn [directory] in H. unfold stage_dir, export_events, locate_dir in H. cbn [r_path r_sub] in H.
  change (join (join p nm) (str "locate")) with (join p nm ++ [str "locate"]) in H.
  change (join (join p nm ++ [str "locate"]) (str "v1.0")) with ((join p nm ++ [str "locate"]) ++ [str "v1.0"]) in H.
  change (join (join p nm ++ [str "locate"]) (str "v1_0")) with ((join p nm ++ [str "locate"]) ++ [str "v1_0"]) in H.
  change (join ((join p nm ++ [str "locate"]) ++ [str "v1.0"]) (str "events")) with (((join p nm ++ [str "locate"]) ++ [str "v1.0"]) ++ [str "events"]) in H.
  change (join ((join p nm ++ [str "locate"]) ++ [str "v1_0"]) (str "events")) with (((join p nm ++ [str "locate"]) ++ [str "v1_0"]) ++ [str "events"]) in H.
  apply app_inj_tail in H. destruct H as (H & _). apply app_inj_tail in H. destruct H as (_ & H). discriminate H.
Qed.
Print Assumptions C107_export_refuted.

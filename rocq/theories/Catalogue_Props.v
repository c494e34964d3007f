(** The theorems about event files and exported catalogues (C81-C86). *)
From Coq Require Import String Ascii.
From Coq Require Import List ZArith Reals Bool Lia Lra.
From Verif Require Import Lib PyDict Lut_Model Mag_Model Export_Model Catalogue_Model Catalogue_Spec Catalogue_Proofs.
Import ListNotations.
Open Scope R_scope.

(** ** C81: the catalogue holds the located events and their picks *)

(** One catalogue event per event file, in the same order, with the picks of its pick file: a modelled
    arrival for every row, a measured one for every row with a pick, at exactly the same times. *)
Theorem C81_catalogue_partial :
  forall rf units ph prec (km : bool) items, units = "km"%string \/ units = "m"%string -> run_of prec km items rf ->
  exists cat, read_quakemigrate rf units ph = Ret cat
  /\ Forall2 (fun it c => let '(e, rows) := it in
       c_id c = l_uid e /\ near (Rabs (l_coa e) / 2000) (c_coa c) (l_coa e) /\ near (Rabs (l_coa_norm e) / 2000) (c_coa_norm c) (l_coa_norm e)
       /\ (let '(t1, t2, t3) := l_trig e in let '(u1, u2, u3) := c_trig c in near_ext (1 / 2000) u1 t1 /\ near_ext (1 / 2000) u2 t2 /\ near_ext (1 / 2000) u3 t3)
       /\ exists rows', Forall2 same_pick rows rows' /\ picks_match rows' (c_picks c)) items cat.
Proof.
  intros rf units ph prec km items Hu Hrun. assert (U : exists k, unit_factor units = Ret k) by (destruct Hu; subst units; eexists; reflexivity). destruct U as (k & U).
  destruct (read_run rf units ph k prec km items U Hrun) as (cat & R & F). exists cat. split; [exact R|]. eapply Forall2_In_impl; [exact F|].
  intros (e, rows) c I Hc. cbn [fst] in Hc. destruct Hrun as (_ & P & A).
  destruct (read_single rf units ph k e rows prec km U (P e rows I) (fun a => A e rows a I)) as (am & sm & mg & R1 & _).
  assert (Ec : c = mk_cat_event (l_uid e) (sig 4 (l_coa e)) (sig 4 (l_coa_norm e)) (map3 (sig_ext 4) (l_trig e)) (waveform_file (l_uid e))
      (origins k (write_event prec km e)) (flat_map picks_of_row (write_picks rows)) am sm mg) by congruence. subst c. cbn [c_id c_coa c_coa_norm c_trig c_picks].
  split; [reflexivity|]. split; [apply sig4_near|]. split; [apply sig4_near|]. split.
  - destruct (l_trig e) as ((t1, t2), t3). cbn [map3]. repeat split; apply sig_ext4_near.
  - exists (write_picks rows). split; [apply write_picks_same|apply picks_of_rows].
Qed.
Print Assumptions C81_catalogue_partial.

Definition ex_event (id : string) : located := mk_located id 1000 (1, 2, 3) (1, 2, 3) (1, 1, 1) (2, 3, 1) 5 2 (NaN, NaN, NaN) (Some (Fin 1, Fin 1, Fin 1)).
Definition ex_rows : list pick_row := [mk_pick_row "A" "P" 1500 (Some (1510%Z, 1 / 10, 5)); mk_pick_row "A" "S" 1900 None].
Definition ex_amp (id : string) : amp_row := mk_amp_row id (Fin 0) (mk_phase_amp (Fin 1) (Fin 2) 1600) (mk_phase_amp (Fin 3) (Fin 2) 2000) (Some (Fin 1, Fin 0)).
Definition ex_run : run_files :=
  mk_run_files (Some [("e1", write_event (2, 2, 0)%Z true (ex_event "e1"))]%string) [("e1", write_picks ex_rows)]%string
    [("e1", [ex_amp "N.A..E"; ex_amp "N.A..N"])]%string.
Example C81_ex : run_of (2, 2, 0)%Z true [(ex_event "e1", ex_rows)] ex_run.
Proof.
  split; [reflexivity|]. split.
  - intros e rows [I|[]]. injection I as <- <-. reflexivity.
  - intros e rows amps [I|[]] H. injection I as <- <-. assert (amps = [ex_amp "N.A..E"; ex_amp "N.A..N"]) by (cbn in H; congruence). subst amps.
    split; [discriminate|]. repeat constructor; discriminate.
Qed.

(** Without the directory of event files, as after a run that located nothing, there is no empty
    catalogue but a NameError: the message is printed and the list of files is never assigned. *)
Theorem C81_no_directory_refuted :
  forall rf units ph, rf_events rf = None -> read_quakemigrate rf units ph = Raise NameError.
Proof. intros rf units ph H. unfold read_quakemigrate. rewrite H. reflexivity. Qed.
Print Assumptions C81_no_directory_refuted.

(** Events without a pick file are missing from the catalogue, without an error. *)
Theorem C81_no_pick_file_refuted :
  forall rf units ph rows, units = "km"%string \/ units = "m"%string -> rf_events rf = Some rows ->
  (forall n row, In (n, row) rows -> dget (rf_picks rf) (e_uid row) = None) -> read_quakemigrate rf units ph = Ret [].
Proof.
  intros rf units ph rows Hu He Hp. unfold read_quakemigrate. rewrite He. clear He. induction rows as [|[n row] l IH]; [reflexivity|].
  cbn [map snd read_events]. unfold read_single_event at 1. assert (U : exists k, unit_factor units = Ret k) by (destruct Hu; subst units; eexists; reflexivity). destruct U as (k & U).
  rewrite U. cbn [bind]. rewrite (Hp n row (or_introl eq_refl)). cbn [bind]. rewrite IH by (intros; eapply Hp; right; eassumption). reflexivity.
Qed.
Print Assumptions C81_no_pick_file_refuted.

(** ** C82: from the located event to the origins of the catalogue *)

(** The origin time is exact. Longitude and latitude are rounded by at most half a millionth of a
    degree and a two-hundredth of the node spacing, the depth by at most half a metre and a
    two-hundredth of the node spacing; the depth is in metres. *)
Theorem C82_origins :
  forall transform g steps rf ph (km : bool) items, node_steps transform g steps -> run_of (precision transform g) km items rf ->
  exists cat, read_quakemigrate rf (if km then "km" else "m") ph = Ret cat
  /\ Forall2 (fun it c => let '(e, _) := it in exists o1 o2, c_origins c = [o1; o2]
       /\ or_method o1 = "spline"%string /\ located_at steps (if km then 1000 else 1) e (l_spline e) o1
       /\ or_method o2 = "gaussian"%string /\ located_at steps (if km then 1000 else 1) e (l_gau e) o2) items cat.
Proof.
  intros transform g ((sx, sy), sz) rf ph km items Hs Hrun. set (k := if km then 1000 else 1).
  assert (U : unit_factor (if km then "km" else "m") = Ret k) by (destruct km; reflexivity).
  destruct (read_run rf _ ph k _ km items U Hrun) as (cat & R & F). exists cat. split; [exact R|]. eapply Forall2_In_impl; [exact F|].
  intros (e, rows) c I Hc. cbn [fst] in Hc. destruct Hrun as (_ & P & A).
  destruct (read_single rf _ ph k e rows (precision transform g) km U (P e rows I) (fun a => A e rows a I)) as (am & sm & mg & R1 & _).
  cbv zeta in R1. rewrite R1 in Hc.
  exists (origin_of k (write_event (precision transform g) km e) "spline" (e_xyz (write_event (precision transform g) km e))),
         (origin_of k (write_event (precision transform g) km e) "gaussian" (e_gau (write_event (precision transform g) km e))).
  split; [injection Hc as <-; reflexivity|]. assert (M : forall row m v, or_method (origin_of k row m v) = m).
  { intros row m ((a, b), z). unfold origin_of. destruct (e_gau_err row) as ((?, ?), ?). destruct (e_cov_err row) as ((?, ?), ?). reflexivity. }
  split; [apply M|]. split; [|split; [apply M|]].
  - destruct (l_spline e) as ((x, y), z) eqn:El. pose proof (origin_located transform g sx sy sz km e (x, y, z) "spline" k Hs eq_refl x y z eq_refl) as L.
    destruct (precision transform g) as ((px, py), pz) eqn:Ep. unfold write_event at 2. cbn [e_xyz]. rewrite El. exact L.
  - destruct (l_gau e) as ((x, y), z) eqn:El. pose proof (origin_located transform g sx sy sz km e (x, y, z) "gaussian" k Hs eq_refl x y z eq_refl) as L.
    destruct (precision transform g) as ((px, py), pz) eqn:Ep. unfold write_event at 2. cbn [e_gau]. rewrite El. exact L.
Qed.
Print Assumptions C82_origins.

Example C82_ex : node_steps (fun _ _ v => v) (mk_grid (0, 0, 0) (1 / 10, 1 / 10, 1 / 2) (2, 2, 2)%Z 1 2) (1 / 10, 1 / 10, 1 / 2).
Proof.
  unfold node_steps, index2coord. cbn. split; [f_equal; [f_equal|]|]; try (split; [|split]); try lra.
  all: rewrite Rabs_left by lra; lra.
Qed.

(** The units are not in the event files. Exporting with those of another lookup table changes the depths
    by a factor of 1000, without an error. *)
Theorem C82_units_refuted :
  forall rf ph prec (km : bool) items, run_of prec km items rf ->
  exists cat cat', read_quakemigrate rf (if km then "km" else "m") ph = Ret cat /\ read_quakemigrate rf (if km then "m" else "km") ph = Ret cat'
  /\ Forall2 (fun c c' => Forall2 (fun o o' => or_depth o' = or_depth o * (if km then / 1000 else 1000)) (c_origins c) (c_origins c')) cat cat'.
Proof.
  intros rf ph prec km items Hrun. assert (U : unit_factor (if km then "km" else "m") = Ret (if km then 1000 else 1)) by (destruct km; reflexivity).
  assert (U' : unit_factor (if km then "m" else "km") = Ret (if km then 1 else 1000)) by (destruct km; reflexivity).
  destruct (read_run rf _ ph _ prec km items U Hrun) as (cat & R & F). destruct (read_run rf _ ph _ prec km items U' Hrun) as (cat' & R' & F').
  exists cat, cat'. split; [exact R|]. split; [exact R'|]. destruct Hrun as (_ & P & A). clear R R'. revert cat' F'.
  induction F as [|(e, rows) c l m H F IH]; intros cat' F'.
  - inversion F'. constructor.
  - inversion F' as [|? c' ? m' H' F'' E1 E2]. subst. constructor; [|apply IH; [intros; eapply P; right; eassumption|intros; eapply A; [right; eassumption|eassumption]|exact F'']].
    cbn [fst] in H, H'.
    destruct (read_single rf _ ph _ e rows prec km U (P e rows (or_introl eq_refl)) (fun a => A e rows a (or_introl eq_refl))) as (am & sm & mg & R1 & _).
    destruct (read_single rf _ ph _ e rows prec km U' (P e rows (or_introl eq_refl)) (fun a => A e rows a (or_introl eq_refl))) as (am' & sm' & mg' & R1' & _).
    cbv zeta in R1, R1'. rewrite R1 in H. rewrite R1' in H'. injection H as <-. injection H' as <-. cbn [c_origins]. unfold origins.
    assert (K : forall row meth v, or_depth (origin_of (if km then 1 else 1000) row meth v) = or_depth (origin_of (if km then 1000 else 1) row meth v) * (if km then / 1000 else 1000)).
    { intros row meth ((x, y), z). unfold origin_of. destruct (e_gau_err row) as ((?, ?), ?). destruct (e_cov_err row) as ((?, ?), ?). cbn [or_depth]. destruct km; field. }
    constructor; [apply K|constructor; [apply K|constructor]].
Qed.
Print Assumptions C82_units_refuted.

(** ** C83: amplitudes and magnitudes *)

(** For an event with an amplitude file: every measured amplitude is in the catalogue once, in metres,
    with its period and time; the station magnitudes are those of the rows with an amplitude of the
    phase and a magnitude; the magnitude is that of the event with three digits. Events without an
    amplitude file have none. *)
Theorem C83_magnitudes_partial :
  forall rf units ph prec (km : bool) items, units = "km"%string \/ units = "m"%string -> run_of prec km items rf ->
  exists cat, read_quakemigrate rf units ph = Ret cat
  /\ Forall2 (fun it c => let '(e, _) := it in
       match dget (rf_amps rf) (l_uid e) with
       | None => c_amps c = [] /\ c_station_mags c = [] /\ c_mag c = None
       | Some amps =>
           c_amps c = flat_map (fun r => flat_map (fun np => match np with
               | (name, mk_phase_amp (Fin v) f t) => [mk_amplitude (am_id r) name (Fin (v / 1000)) (ediv (am_noise r) (Fin 1000)) (ediv (Fin 1) f) t]
               | (name, mk_phase_amp NaN _ _) => []
               | (name, mk_phase_amp v f t) => [mk_amplitude (am_id r) name v (ediv (am_noise r) (Fin 1000)) (ediv (Fin 1) f) t]
               end) [("P_amp", am_p r); ("S_amp", am_s r)]%string) amps
           /\ (ph = "P"%string \/ ph = "S"%string -> forall sm, In sm (c_station_mags c) <->
                 exists r ml err, In r amps /\ a_amp (if String.eqb ph "P" then am_p r else am_s r) <> NaN /\ am_ml r = Some (ml, err) /\ ml <> NaN
                 /\ sm = mk_station_mag (am_id r) ml err)
           /\ exists ml err r2 m, l_ml e = Some (ml, err, r2) /\ c_mag c = Some m
                /\ near_ext (1 / 200) (mg_mag m) ml /\ near_ext (1 / 200) (mg_err m) err /\ near_ext (1 / 200) (mg_r2 m) r2
                /\ mg_count m = Z.of_nat (length (c_station_mags c))
       end) items cat.
Proof.
  intros rf units ph prec km items Hu Hrun. assert (U : exists k, unit_factor units = Ret k) by (destruct Hu; subst units; eexists; reflexivity). destruct U as (k & U).
  destruct (read_run rf units ph k prec km items U Hrun) as (cat & R & F). exists cat. split; [exact R|]. eapply Forall2_In_impl; [exact F|].
  intros (e, rows) c I Hc. cbn [fst] in Hc. destruct Hrun as (_ & P & A).
  destruct (read_single rf units ph k e rows prec km U (P e rows I) (fun a => A e rows a I)) as (am & sm & mg & R1 & Hm).
  cbv zeta in R1. rewrite R1 in Hc. injection Hc as <-. cbn [c_amps c_station_mags c_mag]. destruct (dget (rf_amps rf) (l_uid e)) as [amps|]; [|exact Hm].
  destruct Hm as (-> & Hs & ml & err & r2 & Em & ->). split; [|split].
  - apply flat_map_ext. intros r. unfold amps_of_row. apply flat_map_ext. intros (name, [v f t]). cbn [a_amp a_freq a_time].
    assert (E0 : forall v, ediv (Fin v) (Fin 1000) = Fin (v / 1000)) by (intros; cbn; destruct (Req_EM_T 1000 0); [lra|reflexivity]).
    destruct v; cbn [is_nan]; unfold milli; [rewrite E0; reflexivity| | |reflexivity]; (do 2 f_equal; cbn; destruct (Rlt_dec 1000 0); [lra|reflexivity]).
  - intros Hph x. clear R1. revert sm Hs. induction amps as [|r l IH]; intros sm Hs; cbn [mags_of_rows] in Hs.
    + assert (sm = []) by congruence. subst sm. split; [intros []|intros (? & ? & ? & [] & _)].
    + destruct (mags_of_row ph r) as [a| |] eqn:Er; cbn [bind] in Hs; try discriminate. destruct (mags_of_rows ph l) as [b| |] eqn:El; cbn [bind] in Hs; try discriminate.
      assert (sm = a ++ b) by congruence. subst sm. specialize (IH b eq_refl). rewrite in_app_iff, IH.
      assert (B : (String.eqb ph "P" || String.eqb ph "S")%bool = true) by (destruct Hph; subst ph; reflexivity).
      unfold mags_of_row in Er. rewrite B in Er. cbn [andb] in Er. set (pa := if String.eqb ph "P" then am_p r else am_s r) in *.
      assert (H1 : In x a <-> exists ml err, a_amp pa <> NaN /\ am_ml r = Some (ml, err) /\ ml <> NaN /\ x = mk_station_mag (am_id r) ml err).
      { destruct (a_amp pa) eqn:Ea; cbn [is_nan negb] in Er; try (destruct (am_ml r) as [[m0 e0]|]; [|discriminate]; destruct m0; cbn [is_nan] in Er; injection Er as <-;
          (split; [intros [<-|[]]; repeat eexists; congruence || (intros; discriminate)|intros (m1 & e1 & _ & E & N & ->); injection E as <- <-; left; reflexivity])
          || (split; [intros []|intros (m1 & e1 & _ & E & N & ->); injection E as <- <-; congruence])).
        injection Er as <-. split; [intros []|intros (? & ? & N & _); congruence]. }
      rewrite H1. split.
      * intros [(m1 & e1 & K)|(r' & m1 & e1 & J & K)]; [exists r, m1, e1; split; [left; reflexivity|exact K]|exists r', m1, e1; split; [right; exact J|exact K]].
      * intros (r' & m1 & e1 & [<-|J] & K); [left; exists m1, e1; exact K|right; exists r', m1, e1; split; assumption].
  - exists ml, err, r2. eexists. split; [exact Em|]. split; [reflexivity|]. cbn [mg_mag mg_err mg_r2 mg_count].
    repeat (split; [apply sig_ext3_near|]). reflexivity.
Qed.
Print Assumptions C83_magnitudes_partial.

Example C83_ex : run_of (2, 2, 0)%Z true [(ex_event "e1", ex_rows)] ex_run /\ dget (rf_amps ex_run) "e1"%string = Some [ex_amp "N.A..E"; ex_amp "N.A..N"].
Proof. split; [exact C81_ex|reflexivity]. Qed.

(** The station count is the number of channels: two channels of one station count as two stations. *)
Theorem C83_station_count_refuted :
  exists rf cat c m, read_quakemigrate rf "km" "S" = Ret cat /\ In c cat /\ c_mag c = Some m /\ mg_count m = 2%Z
  /\ forall sm, In sm (c_station_mags c) -> station_of (sm_id sm) = "A"%string.
Proof.
  exists ex_run. eexists. eexists. eexists. split; [reflexivity|]. split; [left; reflexivity|]. split; [reflexivity|]. split; [reflexivity|].
  intros sm [<-|[<-|[]]]; reflexivity.
Qed.
Print Assumptions C83_station_count_refuted.

(** An amplitude file without magnitudes, as written by a run that measures amplitudes only, makes the
    export of the whole catalogue fail. *)
Theorem C83_amplitudes_only_refuted :
  forall rf units ph n row rest amps picks, units = "km"%string \/ units = "m"%string -> ph = "P"%string \/ ph = "S"%string ->
  rf_events rf = Some ((n, row) :: rest) -> dget (rf_picks rf) (e_uid row) = Some picks ->
  dget (rf_amps rf) (e_uid row) = Some amps -> e_ml row = None -> (forall r, In r amps -> am_ml r = None) ->
  read_quakemigrate rf units ph = Raise KeyError.
Proof.
  intros rf units ph n row rest amps picks Hu Hph He Hp Ha Hm Hall. unfold read_quakemigrate. rewrite He. cbn [map snd read_events]. unfold read_single_event at 1.
  assert (U : exists k, unit_factor units = Ret k) by (destruct Hu; subst units; eexists; reflexivity). destruct U as (k & U). rewrite U. cbn [bind]. rewrite Hp, Ha, Hm.
  assert (K : mags_of_rows ph amps = Raise KeyError \/ exists sm, mags_of_rows ph amps = Ret sm).
  { clear Ha. induction amps as [|r l IH]; [right; eexists; reflexivity|]. cbn [mags_of_rows]. unfold mags_of_row. rewrite (Hall r (or_introl eq_refl)). cbv zeta.
    destruct ((String.eqb ph "P" || String.eqb ph "S") && _)%bool; [left; reflexivity|]. cbn [bind].
    destruct IH as [->|(sm & ->)]; [intros; apply Hall; right; assumption|left; reflexivity|right; eexists; reflexivity]. }
  destruct K as [->|(sm & ->)]; reflexivity.
Qed.
Print Assumptions C83_amplitudes_only_refuted.

(** ** C84: the confidence ellipsoid *)

(** Azimuth and plunge of the major axis are zero: the axes are the uncertainties of the covariance fit
    along north, east and depth, to half a metre. *)
Theorem C84_ellipsoid_partial :
  forall transform g steps rf ph (km : bool) items, node_steps transform g steps -> run_of (precision transform g) km items rf ->
  exists cat, read_quakemigrate rf (if km then "km" else "m") ph = Ret cat
  /\ Forall2 (fun it c => let '(e, _) := it in forall o, In o (c_origins c) -> forall x y z, l_cov_err e = (x, y, z) ->
       let k := if km then 1000 else 1 in
       or_azimuth o = 0 /\ or_plunge o = 0
       /\ near (1 / 2) (or_major o) (y * k) /\ near (1 / 2) (or_intermediate o) (x * k) /\ near (1 / 2) (or_minor o) (z * k)) items cat.
Proof.
  intros transform g ((sx, sy), sz) rf ph km items Hs Hrun. set (k := if km then 1000 else 1).
  assert (U : unit_factor (if km then "km" else "m") = Ret k) by (destruct km; reflexivity).
  destruct (read_run rf _ ph k _ km items U Hrun) as (cat & R & F). exists cat. split; [exact R|]. eapply Forall2_In_impl; [exact F|].
  intros (e, rows) c I Hc. cbn [fst] in Hc. destruct Hrun as (_ & P & A).
  destruct (read_single rf _ ph k e rows (precision transform g) km U (P e rows I) (fun a => A e rows a I)) as (am & sm & mg & R1 & _).
  cbv zeta in R1. rewrite R1 in Hc. injection Hc as <-. cbn [c_origins]. intros o Io x y z E. apply (origin_axes transform g sx sy sz km e k o x y z Hs eq_refl E Io).
Qed.
Print Assumptions C84_ellipsoid_partial.

(** The axes are not sorted: for every event less certain to the east than to the north, by a metre or
    more, the major axis is shorter than the intermediate one. *)
Theorem C84_axes_refuted :
  forall transform g steps rf ph (km : bool) items, node_steps transform g steps -> run_of (precision transform g) km items rf ->
  exists cat, read_quakemigrate rf (if km then "km" else "m") ph = Ret cat
  /\ Forall2 (fun it c => let '(e, _) := it in forall o, In o (c_origins c) -> forall x y z, l_cov_err e = (x, y, z) ->
       let k := if km then 1000 else 1 in y * k + 1 < x * k -> or_major o < or_intermediate o) items cat.
Proof.
  intros transform g steps rf ph km items Hs Hrun. destruct (C84_ellipsoid_partial transform g steps rf ph km items Hs Hrun) as (cat & R & F). exists cat. split; [exact R|].
  eapply Forall2_In_impl; [exact F|]. intros (e, rows) c _ H o Io x y z E k L. destruct (H o Io x y z E) as (_ & _ & A & B & _). fold k in A, B.
  apply near_bounds in A, B. lra.
Qed.
Print Assumptions C84_axes_refuted.

Definition ex_grid : grid := mk_grid (0, 0, 0) (1 / 10, 1 / 10, 1 / 2) (2, 2, 2)%Z 1 2.
Example C84_ex : exists items rf, run_of (precision (fun _ _ v => v) ex_grid) true items rf /\ node_steps (fun _ _ v => v) ex_grid (1 / 10, 1 / 10, 1 / 2)
  /\ exists e rows, In (e, rows) items /\ exists x y z, l_cov_err e = (x, y, z) /\ y * 1000 + 1 < x * 1000.
Proof.
  set (e := mk_located "e1" 1000 (1, 2, 3) (1, 2, 3) (1, 1, 1) (3, 2, 1) 5 2 (NaN, NaN, NaN) None).
  exists [(e, ex_rows)], (mk_run_files (Some [("e1"%string, write_event (precision (fun _ _ v => v) ex_grid) true e)]) [("e1"%string, write_picks ex_rows)] []).
  split; [split; [reflexivity|split]|split; [exact C82_ex|]].
  - intros e' rows [I|[]]. injection I as <- <-. reflexivity.
  - intros e' rows amps [I|[]] H. discriminate.
  - exists e, ex_rows. split; [left; reflexivity|]. exists 3, 2, 1. split; [reflexivity|lra].
Qed.

(** ** C85: SAC headers for MFAST *)

(** Each file belongs to a station and a component of it and has the coordinates of the event and the
    station. If the traces of the station start together, origin time and arrival times of the header,
    counted from the start of the file, are those of the catalogue: the measured time, or the modelled
    one if the pick failed. Every station with an S arrival not at the start gets its three files. *)
Theorem C85_headers_partial :
  forall gps ev rows stations stream units files, c_picks ev = flat_map picks_of_row rows ->
  sac_mfast gps ev stations stream units = Ret files ->
  exists o rest, c_origins ev = o :: rest
  /\ (forall f, In f files -> exists s, In s stations /\ s_station f = st_name s /\ s_stla f = st_lat s /\ s_stlo f = st_lon s
      /\ s_evla f = or_lat o /\ s_evlo f = or_lon o /\ s_evdp f = or_depth o / 1000
      /\ s_dist f = fst (gps (or_lat o) (or_lon o) (st_lat s) (st_lon s)) / 1000 /\ s_az f = snd (gps (or_lat o) (or_lon o) (st_lat s) (st_lon s))
      /\ (exists t c, In t stream /\ t_station t = st_name s /\ t_start t = s_start f /\ component_letter (s_comp f) c /\ last_letter (t_channel t) c)
      /\ (start_together stream (st_name s) ->
          (s_start f + s_o f)%Z = or_time o
          /\ (forall r, only_row rows (st_name s) "S" r -> (s_start f + s_t0 f)%Z = best_time r)
          /\ (forall r, only_row rows (st_name s) "P" r ->
                match s_a f with Some a => (s_start f + a)%Z = best_time r | None => best_time r = s_start f end)))
  /\ (forall s r t, In s stations -> only_row rows (st_name s) "S" r -> start_together stream (st_name s) -> In t stream -> t_station t = st_name s ->
      best_time r <> t_start t -> forall comp, In comp ["z"; "n"; "e"]%string -> exists f, In f files /\ s_station f = st_name s /\ s_comp f = comp).
Proof.
  intros gps ev rows stations stream units files Hp H. unfold sac_mfast in H. destruct (c_origins ev) as [|o rest]; [discriminate|]. exists o, rest. split; [reflexivity|].
  destruct (sac_factor units) as [k| |]; cbn [bind] in H; try discriminate. rewrite Hp in H. destruct (sac_stations_in gps o _ stream k stations files H) as (A & B). split.
  - intros f I. destruct (A f I) as (s & gs & Is & Es & If). exists s. split; [exact Is|].
    destruct (sac_station_files gps _ _ _ _ _ _ _ _ _ Es) as [->|(t0 & tz & tn & te & I0 & Iz & In' & Ie & S0 & Sz & Sn & Se & Lz & Ln & Le & E)]; [destruct If|].
    cbv zeta in E. subst gs. set (mine := filter (fun p => String.eqb (pk_station p) (st_name s)) (flat_map picks_of_row rows)) in *.
    assert (T : forall t', In t' stream -> t_station t' = st_name s -> start_together stream (st_name s) ->
       (t_start t' + (or_time o - t_start t0))%Z = or_time o
       /\ (forall r, only_row rows (st_name s) "S" r -> (t_start t' + pick_time "S" mine (t_start t0))%Z = best_time r)
       /\ (forall r, only_row rows (st_name s) "P" r ->
            match (if (pick_time "P" mine (t_start t0) =? 0)%Z then None else Some (pick_time "P" mine (t_start t0))) with
            | Some a => (t_start t' + a)%Z = best_time r | None => best_time r = t_start t' end)).
    { intros t' It St Hst. rewrite (Hst t' t0 It I0 St S0). split; [lia|]. split.
      - intros r Hr. unfold mine. rewrite (pick_time_only rows _ _ r _ Hr). lia.
      - intros r Hr. unfold mine. rewrite (pick_time_only rows _ _ r _ Hr). destruct (Z.eqb_spec (best_time r - t_start t0) 0); lia. }
    destruct If as [<-|[<-|[<-|[]]]]; cbn [s_station s_stla s_stlo s_evla s_evlo s_evdp s_dist s_az s_start s_comp s_o s_t0 s_a]; repeat (split; [reflexivity|]).
    + split; [exists tz, "Z"%char; repeat (split; [assumption || reflexivity|]); split; [left; split; reflexivity|exact Lz]|]. apply T; assumption.
    + split; [exists tn, "N"%char; repeat (split; [assumption || reflexivity|]); split; [right; left; split; reflexivity|exact Ln]|]. apply T; assumption.
    + split; [exists te, "E"%char; repeat (split; [assumption || reflexivity|]); split; [right; right; split; reflexivity|exact Le]|]. apply T; assumption.
  - intros s r t Is Hr Hst It St Hne comp Ic. destruct (B s Is) as (gs & Es & Incl). pose proof Es as Es'.
    destruct (sac_station_files gps _ _ _ _ _ _ _ _ _ Es) as [->|(t0 & tz & tn & te & _ & _ & _ & _ & _ & _ & _ & _ & _ & _ & _ & E)].
    + exfalso. unfold sac_station in Es'. destruct (gps _ _ _ _) as (dist, az). set (mine := filter (fun p => String.eqb (pk_station p) (st_name s)) (flat_map picks_of_row rows)) in *.
      pose proof (row_picks_nonempty rows (st_name s) "S" r Hr) as N. fold mine in N. destruct mine as [|m ms] eqn:Em; [congruence|]. rewrite <- Em in *.
      set (st := filter (fun t => String.eqb (t_station t) (st_name s)) stream) in *. destruct st as [|t1 st'] eqn:Est; [discriminate|]. rewrite <- Est in *.
      assert (I1 : In t1 stream /\ t_station t1 = st_name s). { assert (J : In t1 st) by (rewrite Est; left; reflexivity). apply filter_In in J. destruct J as (J & L). apply String.eqb_eq in L. tauto. }
      destruct I1 as (I1 & S1). assert (PT : pick_time "S" mine (t_start t1) = (best_time r - t_start t1)%Z) by (apply pick_time_only; exact Hr). rewrite PT in Es'.
      rewrite (Hst t t1 It I1 St S1) in Hne. destruct (Z.eqb_spec (best_time r - t_start t1) 0) as [Z0|_]; [lia|].
      destruct (filter (fun t => ends_with (t_channel t) "Z") st) as [|tz lz]; [discriminate|].
      destruct (filter (fun t => ends_with (t_channel t) "N") st) as [|tn ln]; [discriminate|].
      destruct (filter (fun t => ends_with (t_channel t) "E") st) as [|te le]; [discriminate|]. discriminate.
    + cbv zeta in E. subst gs. destruct Ic as [<-|[<-|[<-|[]]]]; eexists.
      * split; [apply Incl; left; reflexivity|split; reflexivity].
      * split; [apply Incl; right; left; reflexivity|split; reflexivity].
      * split; [apply Incl; right; right; left; reflexivity|split; reflexivity].
Qed.
Print Assumptions C85_headers_partial.

(** Two stations, [A] with measured S, and traces starting at [d] on the north component. *)
Definition ex_stream (d : Z) : list trace := [mk_trace "A" "HHZ" 1000; mk_trace "A" "HHN" d; mk_trace "A" "HHE" 1000].
Definition ex_cat (rows : list pick_row) : cat_event :=
  mk_cat_event "e1" 5 2 (NaN, NaN, NaN) "" [mk_origin "spline" 0 0 1000 1200 0 0 0 0 0 0 0 0] (flat_map picks_of_row rows) [] [] None.
Definition ex_station (h : R) : station := mk_station "A" None 1 1 h.
Definition s_row : pick_row := mk_pick_row "A" "S" 1900 (Some (1950%Z, 1 / 10, 4)).
Example C85_ex : exists files, sac_mfast (fun _ _ _ _ => (0, 0)) (ex_cat [s_row]) [ex_station 0] (ex_stream 1000) "km" = Ret files
  /\ length files = 3%nat /\ only_row [s_row] "A" "S" s_row /\ start_together (ex_stream 1000) "A".
Proof.
  eexists. split; [reflexivity|]. split; [reflexivity|]. split.
  - split; [left; reflexivity|]. split; [reflexivity|]. split; [reflexivity|]. intros r' [<-|[]]; reflexivity.
  - intros t t' [<-|[<-|[<-|[]]]] [<-|[<-|[<-|[]]]]; reflexivity.
Qed.

(** Times are counted from the start of the first trace of the station. For a component that starts at
    another time they are wrong, by the difference. *)
Theorem C85_start_times_refuted :
  forall d, exists files f, sac_mfast (fun _ _ _ _ => (0, 0)) (ex_cat [s_row]) [ex_station 0] (ex_stream d) "km" = Ret files
  /\ In f files /\ only_row [s_row] "A" "S" s_row /\ (s_start f + s_t0 f - best_time s_row = d - 1000)%Z.
Proof.
  intros d. eexists. eexists. split; [reflexivity|]. split; [right; left; reflexivity|]. split.
  - split; [left; reflexivity|]. split; [reflexivity|]. split; [reflexivity|]. intros r' [<-|[]]; reflexivity.
  - cbn [s_start s_t0 t_start]. change (pick_time _ _ _) with 950%Z. change (best_time s_row) with 1950%Z. lia.
Qed.
Print Assumptions C85_start_times_refuted.

(** A station [h] metres above sea level is written as [- h / 1000]: in kilometres instead of the metres
    of the SAC format, and with the sign of a depth. *)
Theorem C85_elevation_refuted :
  forall (km : bool) h gps ev stream files f, sac_mfast gps ev [read_station (ex_station (if km then h / 1000 else h))] stream (if km then "km" else "m") = Ret files ->
  In f files -> s_stel f = - h / 1000.
Proof.
  intros km h gps ev stream files f H I. unfold sac_mfast in H. destruct (c_origins ev) as [|o rest]; [discriminate|].
  assert (U : sac_factor (if km then "km" else "m") = Ret (if km then 1 else 1000)) by (destruct km; reflexivity). rewrite U in H. cbn [bind] in H.
  destruct (sac_stations_in gps o _ stream _ _ files H) as (A & _). destruct (A f I) as (s & gs & [<-|[]] & Es & If).
  destruct (sac_station_files gps _ _ _ _ _ _ _ _ _ Es) as [->|(t0 & tz & tn & te & _ & _ & _ & _ & _ & _ & _ & _ & _ & _ & _ & E)]; [destruct If|].
  cbv zeta in E. subst gs. assert (K : st_elev (read_station (ex_station (if km then h / 1000 else h))) / (if km then 1 else 1000) = - h / 1000).
  { cbn [read_station st_elev ex_station]. destruct km; field. }
  destruct If as [<-|[<-|[<-|[]]]]; exact K.
Qed.
Print Assumptions C85_elevation_refuted.

(** Nothing in the file tells a measured arrival from a modelled one: a failed pick and a pick at the
    modelled time give the same files. *)
Theorem C85_failed_pick_refuted :
  forall gps st ph t err snr stations stream units,
  sac_mfast gps (ex_cat [mk_pick_row st ph t None]) stations stream units = sac_mfast gps (ex_cat [mk_pick_row st ph t (Some (t, err, snr))]) stations stream units.
Proof.
  intros. unfold sac_mfast. cbn [c_origins ex_cat c_picks]. destruct (sac_factor units) as [k| |]; cbn [bind]; try reflexivity.
  induction stations as [|s l IH]; [reflexivity|]. cbn [sac_stations]. rewrite IH.
  assert (E : sac_station gps 0 0 1000 1200 (flat_map picks_of_row [mk_pick_row st ph t None]) stream k s
     = sac_station gps 0 0 1000 1200 (flat_map picks_of_row [mk_pick_row st ph t (Some (t, err, snr))]) stream k s).
  { unfold sac_station. cbn [flat_map picks_of_row r_pick r_station r_phase r_model app filter pk_station]. destruct (String.eqb st (st_name s)); [|reflexivity].
    destruct (gps _ _ _ _) as (dist, az). destruct (filter _ stream) as [|t0 r]; [reflexivity|].
    assert (Q : forall q ref, pick_time q [mk_pick "modelled" "" st "" "" "" ph t None None None] ref
       = pick_time q [mk_pick "modelled" "" st "" "" "" ph t None None None; mk_pick "autopick" "" st "" "" "" ph t (Some err) None None] ref).
    { intros q ref. unfold pick_time. cbn [fold_left pk_phase pk_time]. destruct (String.eqb ph q); reflexivity. }
    rewrite <- !Q. reflexivity. }
  cbn [or_lat or_lon or_depth or_time]. rewrite E. reflexivity.
Qed.
Print Assumptions C85_failed_pick_refuted.

(** An S arrival exactly at the start of the waveforms counts as missing: no file is written. *)
Theorem C85_pick_at_start_refuted :
  sac_mfast (fun _ _ _ _ => (0, 0)) (ex_cat [mk_pick_row "A" "S" 1000 None]) [ex_station 0] (ex_stream 1000) "km" = Ret [].
Proof. reflexivity. Qed.
Print Assumptions C85_pick_at_start_refuted.

(** ** C86: the waveform file named in the catalogue *)

(** The name is that of the file of raw waveforms if they are written in the default format. *)
Theorem C86_waveform_file_partial :
  forall rf units ph prec (km : bool) items, units = "km"%string \/ units = "m"%string -> run_of prec km items rf ->
  exists cat, read_quakemigrate rf units ph = Ret cat
  /\ Forall2 (fun it c => c_waveforms c = written_waveforms "raw" (l_uid (fst it)) "MSEED") items cat.
Proof.
  intros rf units ph prec km items Hu Hrun. assert (U : exists k, unit_factor units = Ret k) by (destruct Hu; subst units; eexists; reflexivity). destruct U as (k & U).
  destruct (read_run rf units ph k prec km items U Hrun) as (cat & R & F). exists cat. split; [exact R|]. eapply Forall2_In_impl; [exact F|].
  intros (e, rows) c I Hc. cbn [fst] in Hc |- *. destruct Hrun as (_ & P & A).
  destruct (read_single rf units ph k e rows prec km U (P e rows I) (fun a => A e rows a I)) as (am & sm & mg & R1 & _).
  cbv zeta in R1. rewrite R1 in Hc. injection Hc as <-. reflexivity.
Qed.
Print Assumptions C86_waveform_file_partial.

(** In any other format the catalogue names a file that is not written. *)
Theorem C86_other_formats_refuted :
  forall uid file_format, file_format <> "MSEED"%string -> waveform_file uid <> written_waveforms "raw" uid file_format.
Proof.
  intros uid fmt H. unfold waveform_file, written_waveforms, waveform_suffix. cbn [append]. destruct (String.eqb_spec fmt "MSEED") as [E|_]; [congruence|]. intros K.
  assert (T : forall a b c, (a ++ b)%string = (a ++ c)%string -> b = c) by (induction a as [|x a IH]; cbn; intros b c E; [exact E|injection E as E; apply IH; exact E]).
  repeat match type of K with String ?a _ = String ?a _ => let E := fresh in assert (E : forall x y, String a x = String a y -> x = y) by (intros x y Q; congruence); apply E in K; clear E end.
  apply T in K. destruct (String.eqb fmt "SAC"), (String.eqb fmt "SEGY"), (String.eqb fmt "GSE2"); discriminate.
Qed.
Print Assumptions C86_other_formats_refuted.

Example C86_ex : run_of (2, 2, 0)%Z true [(ex_event "e1", ex_rows)] ex_run /\ waveform_file "e1" = "raw_cut_waveforms/e1.m"%string.
Proof. split; [exact C81_ex|reflexivity]. Qed.

(** C110 and C111: the plot of amplitudes against distance. *)
From Coq Require Import String Ascii.
From Coq Require Import List ZArith Reals Bool Lia Lra.
From Verif Require Import Lib LibFacts Mag_Model Mag_Spec Mag_Proofs AmpPlot_Model AmpPlot_Spec AmpPlot_Proofs.
Import ListNotations.
Open Scope R_scope.

(** ** C110: one label for each station *)

(** PARTIAL. In a table listed by station each station gets one label: black above the highest of its used
    observations, or grey above its highest observation if none is used. Missing: a single used observation, a single
    observation of unused stations, and a last used station with one used and some rejected observations; see
    [C110_single_refuted] and [C110_twice_refuted]. *)
Theorem C110_one_label_partial :
  forall k table gs,
    by_station k table gs -> (forall f, In f table -> exists y, corrected_amp k f = Fin y) ->
    length (filter f_used table) <> 1%nat -> length (concat (map snd (not_in_use gs))) <> 1%nat ->
    (forall pre s g, in_use gs = pre ++ [(s, g)] -> (2 <= length (used_rows g))%nat \/ rejected_rows g = []) ->
    exists used rejected, plot_labels k table = Ret (used ++ rejected)
      /\ Forall2 (fun sg n => station_label (fst sg) (map (row_of k) (used_rows (snd sg))) false n) (in_use gs) used
      /\ Forall2 (fun sg n => station_label (fst sg) (map (row_of k) (snd sg)) true n) (not_in_use gs) rejected
      /\ NoDup (map fst (in_use gs ++ not_in_use gs)) /\ (forall s, In s (map fst gs) <-> In s (map fst (in_use gs ++ not_in_use gs))).
Proof.
  intros k table gs B F L1 L2 HL. pose proof (plot_labels_groups k table gs B L1 L2 HL) as E.
  destruct B as (Et & ND & HG). eexists. eexists. split; [exact E|].
  assert (HG' : forall s g, In (s, g) gs -> group (s, map (row_of k) g)).
  { intros s g I. destruct (HG s g I) as (cs & H). eapply of_station_group. exact H. }
  assert (F' : forall s g f, In (s, g) gs -> In f g -> exists y, corrected_amp k f = Fin y).
  { intros s g f I J. apply F. rewrite Et. apply in_concat. exists g. split; [|exact J]. apply in_map_iff. exists (s, g). auto. }
  split; [|split; [|split]].
  - apply Forall2_map_self. intros [s g] I. apply filter_In in I. destruct I as (I & U). cbn [snd fst] in *.
    apply gnote_label; [apply group_used; [apply HG'; exact I|destruct (used_rows g); [discriminate U|discriminate]]|].
    intros r J. cbn [rows_of snd fst] in J. apply in_map_iff in J. destruct J as (f & <- & J). apply filter_In in J. apply (F' s g f I). tauto.
  - apply Forall2_map_self. intros [s g] I. apply filter_In in I. destruct I as (I & U). cbn [snd fst] in *.
    apply gnote_label; [apply HG'; exact I|].
    intros r J. cbn [rows_of snd fst] in J. apply in_map_iff in J. destruct J as (f & <- & J). exact (F' s g f I J).
  - rewrite map_app. clear -ND. induction gs as [|[s g] gs IH]; [constructor|]. cbn [map fst] in ND. inversion ND as [|? ? N ND']; subst.
    specialize (IH ND'). assert (N' : ~ In s (map fst (in_use gs) ++ map fst (not_in_use gs))).
    { intros J. apply N. apply in_app_or in J. destruct J as [J|J]; apply in_map_iff in J; destruct J as (x & E & J); apply filter_In in J;
        apply in_map_iff; exists x; tauto. }
    unfold in_use, not_in_use in *. cbn [filter snd]. destruct (used_rows g); cbn [negb map fst app].
    + apply NoDup_Add with (a := s) (l := map fst (filter (fun sg => negb match used_rows (snd sg) with [] => true | _ => false end) gs)
        ++ map fst (filter (fun sg => match used_rows (snd sg) with [] => true | _ => false end) gs)); [apply Add_app|auto].
    + constructor; assumption.
  - intros s. rewrite map_app, in_app_iff, !in_map_iff. split.
    + intros ([s' g] & <- & I). destruct (used_rows g) as [|u us] eqn:U; [right|left]; exists (s', g); (split; [reflexivity|]);
        apply filter_In; cbn [snd]; rewrite U; auto.
    + intros [(x & E' & I)|(x & E' & I)]; apply filter_In in I; exists x; tauto.
Qed.
Print Assumptions C110_one_label_partial.

(** Labelling never fails. *)
Theorem C110_never_fails :
  forall k table, (forall f, In f table -> l_id (row_of k f) <> EmptyString) -> exists notes, plot_labels k table = Ret notes.
Proof. exact plot_labels_some. Qed.
Print Assumptions C110_never_fails.

Definition row (id : string) (epi amp : R) (used : bool) : fobs :=
  mk_fobs (mk_mobs (mk_obs id (Fin epi) (Fin 0) (Fin amp) NaN (Fin 1) true) (Fin 0) (Fin 0)) 0 true true true true (Fin epi) used.
Definition plain : mag_params := mk_mag_params (Named "Hutton-Boore") false [] 1 false None 1 None None false true.
Lemma plain_row id epi amp used : row_of plain (row id epi amp used) = mk_lrow id (Fin (amp * 1 * Rpower 10 0)) (Fin epi).
Proof. reflexivity. Qed.

Definition table3 : list fobs :=
  [row "N.A..HHN" 10 20 true; row "N.A..HHE" 10 30 true; row "N.B..HHN" 20 5 false; row "N.B..HHE" 20 4 false; row "N.C..HHN" 30 9 true].
Definition stations3 : list (string * list fobs) :=
  [("N.A..HH"%string, [row "N.A..HHN" 10 20 true; row "N.A..HHE" 10 30 true]);
   ("N.B..HH"%string, [row "N.B..HHN" 20 5 false; row "N.B..HHE" 20 4 false]);
   ("N.C..HH"%string, [row "N.C..HHN" 30 9 true])].
Example C110_applies :
  by_station plain table3 stations3 /\ (forall f, In f table3 -> exists y, corrected_amp plain f = Fin y)
  /\ length (filter f_used table3) = 3%nat /\ length (concat (map snd (not_in_use stations3))) = 2%nat
  /\ (forall pre s g, in_use stations3 = pre ++ [(s, g)] -> (2 <= length (used_rows g))%nat \/ rejected_rows g = [])
  /\ map fst (in_use stations3) = ["N.A..HH"; "N.C..HH"]%string.
Proof.
  split; [|split; [|split; [|split; [|split]]]]; try reflexivity.
  - split; [reflexivity|]. split; [repeat constructor; cbn; intuition discriminate|].
    intros s g [E|[E|[E|[]]]]; assert (Es := f_equal fst E); assert (Eg := f_equal snd E); cbn [fst snd] in *; subst s g.
    + exists ["N"; "E"]%char. split; [discriminate|]. split; [discriminate|]. repeat constructor.
    + exists ["N"; "E"]%char. split; [discriminate|]. split; [discriminate|]. repeat constructor.
    + exists ["N"]%char. split; [discriminate|]. split; [discriminate|]. repeat constructor.
  - intros f [<-|[<-|[<-|[<-|[<-|[]]]]]]; eexists; reflexivity.
  - intros pre s g E. change (in_use stations3) with ([("N.A..HH"%string, [row "N.A..HHN" 10 20 true; row "N.A..HHE" 10 30 true])] ++ [("N.C..HH"%string, [row "N.C..HHN" 30 9 true])]) in E.
    apply app_inj_tail in E. destruct E as (_ & E). assert (Eg := f_equal snd E). cbn [snd] in Eg. subst g. right. reflexivity.
Qed.

(** REFUTED: a single observation gets no label. *)
Theorem C110_single_refuted :
  exists k table gs, by_station k table gs /\ map fst gs = ["N.A..HH"%string] /\ (exists f, table = [f] /\ f_used f = true) /\ plot_labels k table = Ret [].
Proof.
  exists plain, [row "N.A..HHN" 10 20 true], [("N.A..HH"%string, [row "N.A..HHN" 10 20 true])].
  split; [|split; [reflexivity|split; [eexists; split; reflexivity|reflexivity]]].
  split; [reflexivity|]. split; [repeat constructor; cbn; tauto|]. intros s g [E|[]].
  assert (Es := f_equal fst E); assert (Eg := f_equal snd E); cbn [fst snd] in *; subst s g.
  exists ["N"]%char. split; [discriminate|]. split; [discriminate|]. repeat constructor.
Qed.
Print Assumptions C110_single_refuted.

(** REFUTED: a station that ends the list of used observations with one observation is labelled again for its rejected
    ones (its name is not among the labelled stations that are returned). *)
Theorem C110_twice_refuted :
  exists k table gs notes, by_station k table gs /\ plot_labels k table = Ret notes
    /\ map n_text notes = ["N.A..HH[N]"; "N.B..HH[N]"; "N.B..HH[E,Z]"]%string /\ map fst gs = ["N.A..HH"; "N.B..HH"]%string.
Proof.
  exists plain, [row "N.A..HHN" 10 20 true; row "N.B..HHN" 20 5 true; row "N.B..HHE" 20 4 false; row "N.B..HHZ" 20 4 false],
    [("N.A..HH"%string, [row "N.A..HHN" 10 20 true]);
     ("N.B..HH"%string, [row "N.B..HHN" 20 5 true; row "N.B..HHE" 20 4 false; row "N.B..HHZ" 20 4 false])].
  eexists. split; [|split; [unfold plot_labels; cbn; reflexivity|split; reflexivity]].
  split; [reflexivity|]. split; [repeat constructor; cbn; intuition discriminate|]. intros s g [E|[E|[]]];
    assert (Es := f_equal fst E); assert (Eg := f_equal snd E); cbn [fst snd] in *; subst s g.
  - exists ["N"]%char. split; [discriminate|]. split; [discriminate|]. repeat constructor.
  - exists ["N"; "E"; "Z"]%char. split; [discriminate|]. split; [discriminate|]. repeat constructor.
Qed.
Print Assumptions C110_twice_refuted.

(** ** C111: the observations and the predicted amplitudes *)

(** The table of observations after the calculation of the magnitudes. *)
Definition magnitude_table (k : mag_params) (rows : list obs) (r : option (ext * ext * ext)) (table : list fobs) : Prop :=
  exists ms, calculate_magnitudes k rows = Ret ms /\ mean_magnitude k ms = Ret (r, table).

(** A point lies on the predicted curve times ten to the power of the difference between its magnitude and that of the
    event: above it just if its magnitude is larger. *)
Theorem C111_curve :
  forall k att fl rows m e r2 table ucf u p,
    get_attenuation k = Ret att -> 0 < amp_multiplier k -> (fl = true <-> some_gain rows) ->
    (forall o, In o rows -> missing o \/ exists a n d l, measured k att fl o a n d l) ->
    magnitude_table k rows (Some (Fin m, e, r2)) table -> plot_amplitudes k ucf u (Fin m) e table = Ret p ->
    p_used p = map (fun f => (f_dist f, corrected_amp k f)) (filter f_used table)
    /\ p_rejected p = map (fun f => (f_dist f, corrected_amp k f)) (filter (fun f => negb (f_used f)) table)
    /\ forall f ml, In f table -> m_ml (f_mobs f) = Fin ml ->
       exists x y c, f_dist f = Fin x /\ corrected_amp k f = Fin y /\ p_curve p (Fin x) = Fin c
         /\ y = c * Rpower 10 (ml - m) /\ (c < y <-> m < ml).
Proof.
  intros k att fl rows m e r2 table ucf u p Hatt Hk Hfl Hrows (ms & H1 & H2) Hp.
  assert (Et := mean_magnitude_table k att fl rows ms _ table Hatt Hfl H1 H2).
  assert (Shape : p_used p = map (point k) (filter f_used table) /\ p_rejected p = map (point k) (filter (fun f => negb (f_used f)) table)
    /\ forall d, p_curve p d = epow10 (esub (Fin m) (att d))).
  { unfold plot_amplitudes in Hp. destruct u as [[ux uy] uz]. rewrite Hatt in Hp.
    destruct (plot_labels k table); [|discriminate Hp|discriminate Hp]. cbn [bind] in Hp.
    destruct (limits (ediv (series_min (map f_dist table)) (Fin 2)) _); [|discriminate Hp|discriminate Hp]. cbn [bind] in Hp.
    destruct (pymax _); [|discriminate Hp|discriminate Hp]. cbn [bind] in Hp.
    destruct (limits _ _); [|discriminate Hp|discriminate Hp]. cbn [bind] in Hp.
    match type of Hp with Ret ?x = _ => assert (E : p = x) by congruence end. rewrite E. repeat split; reflexivity. }
  destruct Shape as (S1 & S2 & S3). split; [exact S1|]. split; [exact S2|].
  intros f ml I Hml. rewrite Et in I. apply in_map_iff in I. destruct I as (o & <- & I). apply filter_In in I. destruct I as (I & C).
  destruct (Hrows o I) as [Miss|(a & n & d & l & M)]; [rewrite missing_row in C by exact Miss; discriminate C|].
  destruct (table_row_values k att fl o a n d l M) as (E1 & _ & E2 & _ & _).
  pose proof (table_row_ml k att fl o a n d l ml M Hk Hml) as Eml. destruct M as (_ & Pa & _ & _ & _ & Pd & Hl).
  eexists. eexists. exists (Rpower 10 (m - l)). split; [exact E2|]. split; [exact E1|]. split; [rewrite S3, Hl; reflexivity|].
  set (corr := correction (station_corrections k) (o_id o)) in *.
  assert (P : 0 < a * amp_multiplier k) by (apply Rmult_lt_0_compat; assumption).
  assert (Ey : a * amp_multiplier k * Rpower 10 corr = Rpower 10 (m - l) * Rpower 10 (ml - m)).
  { rewrite <- Rpower_plus. replace (m - l + (ml - m)) with (log10 (a * amp_multiplier k) + corr) by lra.
    rewrite Rpower_plus, rpower_log10 by exact P. reflexivity. }
  split; [exact Ey|]. rewrite Ey, <- Rpower_plus. rewrite <- rpower_lt. split; lra.
Qed.
Print Assumptions C111_curve.

(** The dashed curves are those of the magnitude plus and minus its error; the noise is drawn at the distance of its
    trace, corrected like the amplitude; the labels are those of C110. *)
Theorem C111_drawn :
  forall k att m e table ucf x y z p,
    get_attenuation k = Ret att -> plot_amplitudes k ucf (x, y, z) (Fin m) (Fin e) table = Ret p ->
    (forall d l, att (Fin d) = Fin l -> exists c, p_curve p (Fin d) = Fin c /\ log10 c = m - l
       /\ p_upper p (Fin d) = Fin (c * Rpower 10 e) /\ p_lower p (Fin d) = Fin (c * Rpower 10 (- e)))
    /\ p_noise p = map (fun f => (f_dist f, emul (emul (o_noise (m_obs (f_mobs f))) (Fin (amp_multiplier k))) (Fin (Rpower 10 (f_corr f))))) table
    /\ p_xerr p = distance_error k ucf x y z /\ plot_labels k table = Ret (p_labels p).
Proof.
  intros k att m e table ucf x y z p Hatt Hp. unfold plot_amplitudes in Hp. rewrite Hatt in Hp.
  destruct (plot_labels k table) as [labels| |]; [|discriminate Hp|discriminate Hp]. cbn [bind] in Hp.
  destruct (limits (ediv (series_min (map f_dist table)) (Fin 2)) _); [|discriminate Hp|discriminate Hp]. cbn [bind] in Hp.
  destruct (pymax _); [|discriminate Hp|discriminate Hp]. cbn [bind] in Hp.
  destruct (limits _ _); [|discriminate Hp|discriminate Hp]. cbn [bind] in Hp.
  match type of Hp with Ret ?x = _ => assert (E : p = x) by congruence end. rewrite E. clear Hp E.
  cbn [p_curve p_upper p_lower p_noise p_xerr p_labels]. split; [|repeat split; reflexivity].
  intros d l Hl. exists (Rpower 10 (m - l)). rewrite Hl. unfold esub. cbn [eneg eadd epow10].
  split; [reflexivity|]. split; [apply log10_pow|]. rewrite <- !Rpower_plus. split; f_equal; f_equal; lra.
Qed.
Print Assumptions C111_drawn.

(** The uncertainty of the distance is in km, whatever the units of the grid: epicentral or hypocentral. *)
Theorem C111_distance_error :
  forall k ucf x y z, 0 < ucf -> exists e, distance_error k ucf (Fin x) (Fin y) (Fin z) = Fin e /\ 0 <= e
    /\ e ^ 2 = (x ^ 2 + y ^ 2 + (if use_hyp_dist k then z ^ 2 else 0)) * (ucf / 1000) ^ 2.
Proof. exact distance_error_fin. Qed.
Print Assumptions C111_distance_error.

(** The built-in equations are defined at all distances above 0. *)
Theorem C111_equations :
  forall s att, logA0 s = Ret att -> forall d, 0 < d -> exists l, att (Fin d) = Fin l.
Proof. exact named_finite. Qed.
Print Assumptions C111_equations.

(** PARTIAL. With a finite magnitude and some noise on each trace the plot is made, every observation lies within the
    limits in distance, and every amplitude that is not below its noise (so with the default noise filter every used
    one) also in amplitude. Missing: magnitudes that are NaN and amplitudes below a tenth of the noise, see
    [C111_nan_refuted] and [C111_outside_refuted]. *)
Theorem C111_axes_partial :
  forall k att fl rows m e r2 table ucf u,
    get_attenuation k = Ret att -> (forall d, 0 < d -> exists l, att (Fin d) = Fin l) -> 0 < amp_multiplier k ->
    (fl = true <-> some_gain rows) ->
    (forall o, In o rows -> o_id o <> EmptyString /\ (missing o \/ exists a n d l, measured k att fl o a n d l /\ 0 < n)) ->
    magnitude_table k rows (Some (Fin m, e, r2)) table ->
    exists p, plot_amplitudes k ucf u (Fin m) e table = Ret p
      /\ forall f, In f table -> exists a n, corrected_amp k f = Fin a /\ corrected_noise k f = Fin n
           /\ inside (p_xlim p) (f_dist f) /\ (n <= a -> inside (p_ylim p) (corrected_amp k f))
           /\ (f_used f = true -> 1 <= noise_filter k -> n <= a).
Proof.
  intros k att fl rows m e r2 table ucf u Hatt Hfin Hk Hfl Hrows (ms & H1 & H2).
  assert (Et := mean_magnitude_table k att fl rows ms _ table Hatt Hfl H1 H2).
  assert (Hr : forall f, In f table -> exists o a n d l, In o rows /\ f = table_row k att fl o /\ measured k att fl o a n d l /\ 0 < n).
  { intros f I. rewrite Et in I. apply in_map_iff in I. destruct I as (o & <- & I). apply filter_In in I. destruct I as (I & C).
    destruct (Hrows o I) as (_ & [Miss|(a & n & d & l & M & Pn)]); [rewrite missing_row in C by exact Miss; discriminate C|].
    exists o, a, n, d, l. auto. }
  assert (Hne : table <> []).
  { intros E. subst table. unfold mean_magnitude in H2. cbv zeta in H2.
    set (t := filter_mags k (map (gain_corrected (no_filter (map (fun m => o_gain (m_obs m)) ms))) ms)) in *.
    destruct (filter f_used t) as [|x l] eqn:E1; [congruence|].
    destruct t as [|y t']; [discriminate E1|]. match type of H2 with bind ?x _ = _ => destruct x; cbn [bind] in H2; congruence end. }
  assert (Hrow : forall f, In f table -> finite_row k f).
  { intros f I. destruct (Hr f I) as (o & a & n & d & l & J & -> & M & Pn).
    destruct (table_row_values k att fl o a n d l M) as (E1 & E2 & E3 & E4 & _). destruct M as (_ & Pa & _ & _ & _ & Pd & _).
    split; [rewrite E4; apply Hrows; exact J|]. split; [exists d; auto|].
    split; [eexists; split; [exact E1|]|eexists; split; [exact E2|]]; repeat apply Rmult_lt_0_compat; try assumption; apply rpower_pos. }
  destruct (plot_ok k att ucf u m e table Hne Hrow Hatt Hfin) as (p & dmin & dmax & nmin & ymax & top & Ep & B & Ex & Ey & Htop & _).
  exists p. split; [exact Ep|]. intros f I. destruct (B f I) as (d & y & n & E1 & E2 & E3 & B1 & B2 & B3 & B4).
  exists y, n. split; [exact E2|]. split; [exact E3|].
  split; [exists (dmin / 2), (dmax * (15 / 10)), d; split; [exact Ex|]; split; [exact E1|]; lra|].
  split; [intros Ha; exists (nmin / 10), top, y; split; [exact Ey|]; split; [exact E2|]; lra|].
  intros U Hnf. destruct (Hr f I) as (o & a & n' & d' & l & J & -> & M & Pn).
  destruct (table_row_values k att fl o a n' d' l M) as (V1 & V2 & _ & _ & V5).
  assert (Ea : y = a * amp_multiplier k * Rpower 10 (correction (station_corrections k) (o_id o))) by congruence.
  assert (En : n = n' * amp_multiplier k * Rpower 10 (correction (station_corrections k) (o_id o))) by congruence.
  assert (Hu : n' * noise_filter k < a).
  { unfold table_row in U. clear V1 V2 V5. pose proof (measured_obs _ _ _ _ _ _ _ _ M) as Eo.
    assert (Em : magnitude_row k att (negb fl) o = mk_mobs o (m_ml (magnitude_row k att (negb fl) o)) (m_err (magnitude_row k att (negb fl) o))).
    { destruct (magnitude_row k att (negb fl) o) as [o' q q']. cbn [m_obs m_ml m_err] in *. subst o'. reflexivity. }
    rewrite Em in U. unfold filter_row in U. cbn [f_used] in U. apply andb_prop in U. destruct U as (_ & U).
    unfold real_eqb in U. destruct (Req_EM_T (noise_filter k) 0); [lra|]. cbn [negb] in U.
    destruct M as (Ha & _ & Hn & _). unfold gain_corrected in U. cbn [m_obs m_ml m_err] in U.
    destruct fl; cbn [negb m_obs o_noise o_amp] in U.
    - destruct Hn as (nn & g & F1 & F2 & Pg & F3). rewrite F1, F2, Ha in U. cbn [ediv] in U. destruct (Req_EM_T g 0); [lra|].
      cbn [emul] in U. apply eltb_fin in U. rewrite F3. exact U.
    - rewrite Hn, Ha in U. cbn [emul] in U. apply eltb_fin in U. exact U. }
  rewrite Ea, En. apply Rmult_le_compat_r; [apply Rlt_le, rpower_pos|]. apply Rmult_le_compat_r; [lra|].
  assert (n' <= n' * noise_filter k); [|lra]. rewrite <- (Rmult_1_r n') at 1. apply Rmult_le_compat_l; lra.
Qed.
Print Assumptions C111_axes_partial.

Definition quiet (id : string) (epi amp noise : R) : obs := mk_obs id (Fin epi) (Fin 5) (Fin amp) NaN (Fin noise) true.
Definition flat : ext -> ext := fun _ => Fin 3.
Definition flat_params (noise_filter : R) : mag_params :=
  mk_mag_params (Callable flat) false [] 1 false None noise_filter None None false true.
Definition two_rows : list obs := [quiet "N.A..HHN" 10 100 1; quiet "N.A..HHE" 10 (5 / 100) 1].
Lemma two_measured : forall o, In o two_rows -> o_id o <> EmptyString /\ (missing o \/ exists a n d l, measured (flat_params 1) flat false o a n d l /\ 0 < n).
Proof.
  intros o [<-|[<-|[]]]; (split; [discriminate|right]).
  - exists 100, 1, 10, 3. unfold measured. cbn. repeat split; lra.
  - exists (5 / 100), 1, 10, 3. unfold measured. cbn. repeat split; lra.
Qed.
Lemma two_gain : false = true <-> some_gain two_rows.
Proof. split; [discriminate|]. intros (o & [<-|[<-|[]]] & C); exfalso; apply C; reflexivity. Qed.

Lemma two_table : exists m e r2 f, magnitude_table (flat_params 1) two_rows (Some (Fin m, e, r2)) 
    [table_row (flat_params 1) flat false (quiet "N.A..HHN" 10 100 1); f] /\ f = table_row (flat_params 1) flat false (quiet "N.A..HHE" 10 (5 / 100) 1)
  /\ m_ml (f_mobs (table_row (flat_params 1) flat false (quiet "N.A..HHN" 10 100 1))) = Fin m.
Proof.
  set (k := flat_params 1). set (o1 := quiet "N.A..HHN" 10 100 1). set (o2 := quiet "N.A..HHE" 10 (5 / 100) 1).
  assert (M1 : measured k flat false o1 100 1 10 3) by (unfold measured; cbn; repeat split; lra).
  assert (R1 := measured_row k flat false o1 100 1 10 3 M1 ltac:(cbn; lra) ltac:(lra)).
  assert (U1 : f_used (table_row k flat false o1) = true).
  { unfold table_row, filter_row. cbn [f_used]. unfold magnitude_row. cbn [gain_corrected negb m_obs k flat_params trace_filter station_filter dist_filter_on dist_filter pick_filter noise_filter andb].
    unfold real_eqb. destruct (Req_EM_T 1 0); [lra|]. cbn. destruct (Rlt_dec (1 * 1) 100); [reflexivity|lra]. }
  assert (U2 : f_used (table_row k flat false o2) = false).
  { unfold table_row, filter_row. cbn [f_used]. unfold magnitude_row. cbn [gain_corrected negb m_obs k flat_params trace_filter station_filter dist_filter_on dist_filter pick_filter noise_filter andb].
    unfold real_eqb. destruct (Req_EM_T 1 0); [lra|]. cbn. destruct (Rlt_dec (1 * 1) (5 / 100)); [lra|reflexivity]. }
  assert (Ec : calculate_magnitudes k two_rows = Ret [magnitude_row k flat true o1; magnitude_row k flat true o2]) by reflexivity.
  assert (Em : exists m, m_ml (f_mobs (table_row k flat false o1)) = Fin m).
  { unfold table_row, filter_row. cbn [f_mobs m_ml gain_corrected negb]. change (negb false) with true in R1. rewrite R1. cbn [m_ml]. eexists. reflexivity. }
  destruct Em as (m & Em).
  assert (Ef : filter_mags k (map (gain_corrected true) [magnitude_row k flat true o1; magnitude_row k flat true o2])
     = [table_row k flat false o1; table_row k flat false o2]).
  { unfold filter_mags. cbn [map filter].
    assert (O1 := measured_obs k flat false o1 _ _ _ _ M1). change (negb false) with true in O1.
    assert (M2 : measured k flat false o2 (5 / 100) 1 10 3) by (unfold measured; cbn; repeat split; lra).
    assert (O2 := measured_obs k flat false o2 _ _ _ _ M2). change (negb false) with true in O2.
    cbn [gain_corrected]. unfold complete. rewrite O1, O2. reflexivity. }
  assert (G : no_filter (map (fun m => o_gain (m_obs m)) [magnitude_row k flat true o1; magnitude_row k flat true o2]) = true).
  { exact (eq_trans (f_equal no_filter (gain_kept k flat true two_rows)) (no_filter_iff false two_rows two_gain)). }
  set (e := m_err (f_mobs (table_row k flat false o1))).
  exists m, e, NaN, (table_row k flat false o2). split; [|split; [reflexivity|exact Em]].
  exists [magnitude_row k flat true o1; magnitude_row k flat true o2]. split; [exact Ec|].
  unfold mean_magnitude. rewrite G. cbv zeta. rewrite Ef. cbn [filter]. rewrite U1, U2. cbn [map].
  rewrite Em. unfold mag_r_squared, r2_rows. cbn [k flat_params r2_only_used]. cbn [bind]. cbn [filter]. rewrite U1, U2.
  change (get_attenuation k) with (Ret flat). cbn [bind map]. unfold r_squared_of. cbn [length Nat.ltb Nat.leb orb].
  change (weighted_mean k) with false. unfold network_mean, mag_weights. cbn [map total]. unfold esum. cbn [fold_left map2 emul eadd ediv].
  destruct (Req_EM_T (0 + 1) 0); [lra|]. replace ((0 + m * 1) / (0 + 1)) with m by field. reflexivity.
Qed.

Example C111_applies :
  exists m e r2 table, get_attenuation (flat_params 1) = Ret flat /\ (forall d, 0 < d -> exists l, flat (Fin d) = Fin l)
    /\ 0 < amp_multiplier (flat_params 1) /\ (false = true <-> some_gain two_rows)
    /\ (forall o, In o two_rows -> o_id o <> EmptyString /\ (missing o \/ exists a n d l, measured (flat_params 1) flat false o a n d l /\ 0 < n))
    /\ magnitude_table (flat_params 1) two_rows (Some (Fin m, e, r2)) table /\ length table = 2%nat
    /\ (exists f, In f table /\ m_ml (f_mobs f) = Fin m).
Proof.
  destruct two_table as (m & e & r2 & f & T & _ & E). exists m, e, r2. eexists. split; [reflexivity|]. split; [intros d _; exists 3; reflexivity|].
  split; [cbn; lra|]. split; [exact two_gain|]. split; [exact two_measured|]. split; [exact T|]. split; [reflexivity|].
  eexists. split; [left; reflexivity|exact E].
Qed.

(** REFUTED: every observation lies within the limits. An amplitude below a tenth of the smallest noise does not. *)
Theorem C111_outside_refuted :
  exists k rows m e r2 table p f, magnitude_table k rows (Some (Fin m, e, r2)) table
    /\ plot_amplitudes k 1 (Fin 1, Fin 1, Fin 1) (Fin m) e table = Ret p /\ In f table /\ ~ inside (p_ylim p) (corrected_amp k f).
Proof.
  destruct two_table as (m & e & r2 & f & T & Ef & _). set (k := flat_params 1) in *.
  set (table := [table_row k flat false (quiet "N.A..HHN" 10 100 1); f]) in *.
  destruct (C111_axes_partial k flat false two_rows m e r2 table 1 (Fin 1, Fin 1, Fin 1)) as (p & Ep & _);
    [reflexivity|intros d _; exists 3; reflexivity|cbn; lra|exact two_gain|exact two_measured|exact T|].
  exists k, two_rows, m, e, r2, table, p, f. split; [exact T|]. split; [exact Ep|]. split; [right; left; reflexivity|].
  assert (M1 : measured k flat false (quiet "N.A..HHN" 10 100 1) 100 1 10 3) by (unfold measured; cbn; repeat split; lra).
  assert (M2 : measured k flat false (quiet "N.A..HHE" 10 (5 / 100) 1) (5 / 100) 1 10 3) by (unfold measured; cbn; repeat split; lra).
  destruct (table_row_values _ _ _ _ _ _ _ _ M1) as (A1 & N1 & D1 & I1 & _). destruct (table_row_values _ _ _ _ _ _ _ _ M2) as (A2 & N2 & D2 & I2 & _).
  cbn [station_corrections k flat_params correction amp_multiplier] in A1, A2, N1, N2.
  assert (Z1 : Rpower 10 0 = 1) by (unfold Rpower; rewrite Rmult_0_l; apply exp_0). rewrite Z1 in A1, A2, N1, N2.
  assert (Hrow : forall g, In g table -> finite_row k g).
  { intros g [<-|[<-|[]]]; [|rewrite Ef].
    - split; [rewrite I1; discriminate|]. split; [exists 10; split; [exact D1|lra]|]. split; eexists; (split; [eassumption|lra]).
    - split; [rewrite I2; discriminate|]. split; [exists 10; split; [exact D2|lra]|]. split; eexists; (split; [eassumption|lra]). }
  destruct (plot_ok k flat 1 (Fin 1, Fin 1, Fin 1) m e table) as (p' & dmin & dmax & nmin & ymax & top & Ep' & B & _ & Ey & _ & _ & _ & _ & _ & _ & _ & _ & _ & (g & Ig & Eg));
    [discriminate|exact Hrow|reflexivity|intros d _; exists 3; reflexivity|].
  rewrite Ep in Ep'. assert (p' = p) by congruence. subst p'. rewrite Ey.
  assert (nmin = 1). { destruct Ig as [<-|[<-|[]]]; [|rewrite Ef in Eg]; rewrite Eg in *; [assert (Fin nmin = Fin (1 * 1 * 1)) by congruence|assert (Fin nmin = Fin (1 * 1 * 1)) by congruence]; assert (nmin = 1 * 1 * 1) by congruence; lra. }
  intros (a & b & r & E1 & E2 & Hab). rewrite Ef, A2 in E2.
  assert (a = nmin / 10) by congruence. assert (r = 5 / 100 * 1 * 1) by congruence. lra.
Qed.
Print Assumptions C111_outside_refuted.

(** No plot is made for a magnitude that is NaN: the limits of the axis are NaN. *)
Theorem C111_nan_magnitude :
  forall k ucf u e table p, plot_amplitudes k ucf u NaN e table <> Ret p.
Proof.
  intros k ucf u e table p H. unfold plot_amplitudes in H. destruct u as [[ux uy] uz].
  destruct (plot_labels k table); [|discriminate H|discriminate H]. cbn [bind] in H.
  destruct (get_attenuation k) as [att|x|]; [|discriminate H|discriminate H]. cbn [bind] in H.
  destruct (limits (ediv (series_min (map f_dist table)) (Fin 2)) _); [|discriminate H|discriminate H]. cbn [bind] in H.
  match type of H with context [np_max ?x] => assert (E : np_max x = NaN) end.
  { unfold np_max. assert (Ex : existsb is_nan (map (fun d => epow10 (esub NaN (att d)))
      (linspace (ediv (series_min (map f_dist table)) (Fin 2)) (emul (series_max (map f_dist table)) (Fin (15 / 10))) 10000)) = true).
    { apply existsb_exists. exists NaN. split; [|reflexivity]. unfold linspace. rewrite map_map.
      apply in_map_iff. exists 0%Z. split; [unfold esub; destruct (eneg (att _)); reflexivity|]. apply in_zrange. lia. }
    rewrite Ex. reflexivity. }
  rewrite E in H. cbn [pymax fold_left bind] in H.
  assert (E2 : forall x, eltb NaN x = false) by (intros []; reflexivity). rewrite E2 in H.
  match type of H with context [limits ?x NaN] => destruct x; cbn [limits bind] in H; discriminate H end.
Qed.
Print Assumptions C111_nan_magnitude.

(** REFUTED: an event whose magnitude cannot be determined is located without it. With an amplitude below the noise and
    the noise filter switched off the magnitude is NaN, the plot is still tried and raises ValueError. *)
Theorem C111_nan_refuted :
  exists k rows e r2 table, noise_filter k = 0 /\ magnitude_table k rows (Some (NaN, e, r2)) table
    /\ calc_magnitude k true rows = Ret ((NaN, e, r2), true)
    /\ forall ucf u, plot_amplitudes k ucf u NaN e table = Raise ValueError.
Proof.
  set (k := flat_params 0). set (o := quiet "N.A..HHN" 10 1 2).
  assert (Hm : magnitude_row k flat true o = mk_mobs o NaN NaN).
  { unfold magnitude_row, calc_mag. cbn. destruct (Rlt_dec (1 * 1) (2 * 1)); [|lra]. cbn. unfold zero_to_nan. cbn [eeqb].
    destruct (Req_EM_T 10 0); [lra|]. reflexivity. }
  assert (U : f_used (filter_row k (mk_mobs o NaN NaN)) = true).
  { unfold filter_row. cbn [f_used k flat_params trace_filter station_filter dist_filter_on dist_filter pick_filter noise_filter andb].
    unfold real_eqb. destruct (Req_EM_T 0 0); [reflexivity|lra]. }
  assert (Ec : calculate_magnitudes k [o] = Ret [mk_mobs o NaN NaN]) by (unfold calculate_magnitudes; cbn [get_attenuation A0 k flat_params bind map]; unfold no_filter; cbn [forallb is_nan o quiet o_gain andb]; fold o; fold k; rewrite Hm; reflexivity).
  assert (Emm : exists r2, mean_magnitude k [mk_mobs o NaN NaN] = Ret (Some (NaN, NaN, r2), [filter_row k (mk_mobs o NaN NaN)])).
  { unfold mean_magnitude. unfold no_filter. cbn [map m_obs o quiet o_gain forallb is_nan andb gain_corrected]. fold o.
    unfold filter_mags. cbn [filter complete m_obs o quiet o_amp o_noise is_nan negb andb map]. fold o. cbn [filter]. rewrite U.
    unfold mag_r_squared, r2_rows. cbn [k flat_params r2_only_used]. fold k. cbn [filter]. rewrite U. cbn [bind]. cbn [get_attenuation A0 k flat_params bind map]. fold k.
    eexists. reflexivity. }
  destruct Emm as (r2 & Emm). exists k, [o], NaN, r2, [filter_row k (mk_mobs o NaN NaN)].
  split; [reflexivity|]. split; [exists [mk_mobs o NaN NaN]; auto|].
  split. { unfold calc_magnitude. rewrite Ec. cbn [forallb o quiet o_amp is_nan andb bind]. rewrite Emm. reflexivity. }
  intros ucf u. pose proof (C111_nan_magnitude k ucf u NaN [filter_row k (mk_mobs o NaN NaN)]) as N.
  assert (D : f_dist (filter_row k (mk_mobs o NaN NaN)) = Fin 10).
  { unfold filter_row. cbn [f_dist m_obs]. unfold distance, zero_to_nan. cbn [k flat_params use_hyp_dist o quiet o_epi eeqb]. destruct (Req_EM_T 10 0); [lra|reflexivity]. }
  destruct (plot_amplitudes k ucf u NaN NaN _) as [p|x|] eqn:E; [exfalso; exact (N p eq_refl)| |]; revert E;
    unfold plot_amplitudes; destruct u as [[ux uy] uz];
    (destruct (plot_labels_some k [filter_row k (mk_mobs o NaN NaN)]) as (ns & ->); [intros f [<-|[]]; discriminate|]);
    cbn [bind get_attenuation A0 k flat_params map]; fold k; rewrite D;
    unfold series_min, series_max, series_best; cbn [filter is_nan negb fold_left ediv emul];
    (destruct (Req_EM_T 2 0); [lra|]); cbn [limits bind pymax fold_left];
    repeat match goal with |- context [limits ?a ?b] => destruct a, b; cbn [limits bind] end; congruence.
Qed.
Print Assumptions C111_nan_refuted.

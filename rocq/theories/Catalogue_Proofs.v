(** Lemmas about event files and exported catalogues. *)
From Coq Require Import String Ascii.
From Coq Require Import List ZArith Reals Bool Lia Lra.
From Verif Require Import Lib PyDict ScanMseed_Model ScanMseed_Proofs Lut_Model Mag_Model Export_Model Catalogue_Model Catalogue_Spec.
Import ListNotations.
Open Scope R_scope.

(** * Rounding *)

Lemma ten_pow z : powerRZ 10 z = Rpower 10 (IZR z).
Proof. apply powerRZ_Rpower. lra. Qed.
Lemma ten_pos z : 0 < powerRZ 10 z.
Proof. apply powerRZ_lt. lra. Qed.
Lemma ten_mono a b : (a <= b)%Z -> powerRZ 10 a <= powerRZ 10 b.
Proof. intros H. rewrite !ten_pow. apply Rle_Rpower; [lra|]. apply IZR_le. exact H. Qed.
Lemma ten_add a b : powerRZ 10 (a + b) = powerRZ 10 a * powerRZ 10 b.
Proof. apply powerRZ_add. lra. Qed.
Lemma ten_inv a : powerRZ 10 (- a) = / powerRZ 10 a.
Proof. apply powerRZ_neg'. Qed.
Lemma exponent10_spec x : x <> 0 -> powerRZ 10 (exponent10 x) <= Rabs x < powerRZ 10 (exponent10 x + 1).
Proof.
  intros H. assert (P : 0 < Rabs x) by (apply Rabs_pos_lt; exact H). assert (L : 0 < ln 10) by (rewrite <- ln_1; apply ln_increasing; lra).
  unfold exponent10. set (y := ln (Rabs x) / ln 10). pose proof (base_Int_part y) as [A B].
  assert (E : Rabs x = Rpower 10 y). { unfold Rpower, y. replace (ln (Rabs x) / ln 10 * ln 10) with (ln (Rabs x)) by (field; lra). rewrite exp_ln; auto. }
  rewrite !ten_pow, plus_IZR. set (e := IZR (Int_part y)) in *. rewrite E at 1 2. split; [apply Rle_Rpower; lra|apply Rpower_lt; lra].
Qed.
Lemma round_to_near d x : near (powerRZ 10 (- d) / 2) (round_to d x) x.
Proof.
  unfold near, round_to. pose proof (ten_pos d) as P. pose proof (np_round_near (x * powerRZ 10 d)) as N. rewrite ten_inv.
  set (n := IZR (np_round (x * powerRZ 10 d))) in *. set (p := powerRZ 10 d) in *.
  replace (n / p - x) with ((n - x * p) * / p) by (field; lra). rewrite Rabs_mult. rewrite (Rabs_right (/ p)) by (apply Rle_ge, Rlt_le, Rinv_0_lt_compat; exact P).
  replace (/ p / 2) with (1 / 2 * / p) by (field; lra). apply Rmult_le_compat_r; [apply Rlt_le, Rinv_0_lt_compat; exact P|exact N].
Qed.
Lemma near_weaken e e' y x : near e y x -> e <= e' -> near e' y x.
Proof. unfold near. intros A B. exact (Rle_trans _ _ _ A B). Qed.
Lemma near_bounds e y x : near e y x -> x - e <= y <= x + e.
Proof. unfold near, Rabs. destruct (Rcase_abs (y - x)); lra. Qed.
Lemma near_scale c e y x : 0 <= c -> near e y x -> near (e * c) (y * c) (x * c).
Proof.
  unfold near. intros C H. replace (y * c - x * c) with ((y - x) * c) by ring. rewrite Rabs_mult, (Rabs_right c) by lra.
  apply Rmult_le_compat_r; assumption.
Qed.
Lemma ten_m3 : powerRZ 10 (-3) = / 1000. Proof. change (powerRZ 10 (-3)) with (/ 10 ^ 3). simpl. field. Qed.
Lemma ten_m2 : powerRZ 10 (-2) = / 100. Proof. change (powerRZ 10 (-2)) with (/ 10 ^ 2). simpl. field. Qed.
Lemma ten_m6 : powerRZ 10 (-6) = / 1000000. Proof. change (powerRZ 10 (-6)) with (/ 10 ^ 6). simpl. field. Qed.
(** With [p + 2] decimals or more, where [- p] is the exponent of the step, the error is at most a
    two-hundredth of the step. *)
Lemma step_error step d : step <> 0 -> (- exponent10 step + 2 <= d)%Z -> powerRZ 10 (- d) / 2 <= Rabs step / 200.
Proof.
  intros S D. destruct (exponent10_spec step S) as [A _]. assert (B : powerRZ 10 (- d) <= powerRZ 10 (exponent10 step + -2)) by (apply ten_mono; lia).
  rewrite ten_add, ten_m2 in B. lra.
Qed.
Lemma xy_error step x : step <> 0 -> near (Rabs step / 200) (round_to (xy_decimals (- exponent10 step)) x) x
  /\ near (5 / 10000000) (round_to (xy_decimals (- exponent10 step)) x) x.
Proof.
  intros S. unfold xy_decimals. split.
  - eapply near_weaken; [apply round_to_near|]. apply step_error; [exact S|lia].
  - eapply near_weaken; [apply round_to_near|]. assert (B : powerRZ 10 (- Z.max (- exponent10 step + 2) 6) <= powerRZ 10 (-6)) by (apply ten_mono; lia).
    rewrite ten_m6 in B. lra.
Qed.
Lemma z_error km step x : step <> 0 -> near (Rabs step / 200) (round_to (z_decimals km (- exponent10 step)) x) x
  /\ near (if km then 1 / 2000 else 1 / 2) (round_to (z_decimals km (- exponent10 step)) x) x.
Proof.
  intros S. unfold z_decimals. split.
  - eapply near_weaken; [apply round_to_near|]. apply step_error; [exact S|destruct km; lia].
  - eapply near_weaken; [apply round_to_near|]. destruct km.
    + assert (B : powerRZ 10 (- Z.max (- exponent10 step + 2) (0 + 3)) <= powerRZ 10 (-3)) by (apply ten_mono; lia). rewrite ten_m3 in B. lra.
    + assert (B : powerRZ 10 (- Z.max (- exponent10 step + 2) (0 + 0)) <= powerRZ 10 0) by (apply ten_mono; lia). cbn [powerRZ] in B. lra.
Qed.
Lemma sig_near n x : near (Rabs x * powerRZ 10 (1 - n) / 2) (sig n x) x.
Proof.
  unfold sig. destruct (Req_EM_T x 0) as [->|N]; [unfold near; rewrite Rminus_0_r, Rabs_R0; lra|].
  eapply near_weaken; [apply round_to_near|]. destruct (exponent10_spec x N) as [A _].
  replace (- (n - 1 - exponent10 x))%Z with (exponent10 x + (1 - n))%Z by ring. rewrite ten_add. pose proof (ten_pos (1 - n)).
  unfold Rdiv. apply Rmult_le_compat_r; [lra|]. apply Rmult_le_compat_r; lra.
Qed.
Lemma sig3_near x : near (Rabs x / 200) (sig 3 x) x.
Proof. eapply near_weaken; [apply sig_near|]. replace (1 - 3)%Z with (-2)%Z by reflexivity. rewrite ten_m2. lra. Qed.
Lemma sig4_near x : near (Rabs x / 2000) (sig 4 x) x.
Proof. eapply near_weaken; [apply sig_near|]. replace (1 - 4)%Z with (-3)%Z by reflexivity. rewrite ten_m3. lra. Qed.

(** * Reading the catalogue *)

Lemma picks_of_rows rows : picks_match rows (flat_map picks_of_row rows).
Proof.
  unfold picks_match. induction rows as [|r l (A & B & C)]; [repeat split; constructor|]. cbn [flat_map map].
  rewrite !filter_app, !map_app. rewrite A, B. unfold picks_of_row at 1 2 3.
  destruct (r_pick r) as [[[t err] snr]|]; cbn; (repeat split; try reflexivity); unfold picks_of_row; 
    repeat (constructor; [cbn; tauto|]); exact C.
Qed.
Lemma write_picks_same rows : Forall2 same_pick rows (write_picks rows).
Proof.
  unfold write_picks. induction rows as [|r l IH]; [constructor|]. cbn [map]. constructor; [|exact IH].
  unfold same_pick. cbn. repeat (split; [reflexivity|]). destruct (r_pick r) as [[[t err] snr]|]; cbn; [|exact I].
  split; [reflexivity|]. split; apply sig3_near.
Qed.
Lemma mags_of_rows_total ph rows : Forall (fun r => am_ml r <> None) rows -> exists sm, mags_of_rows ph rows = Ret sm.
Proof.
  intros H. induction H as [|r l N H (sm & IH)]; [eexists; reflexivity|]. cbn [mags_of_rows]. rewrite IH. unfold mags_of_row. cbv zeta.
  destruct ((String.eqb ph "P" || String.eqb ph "S") && _); [|eexists; reflexivity]. destruct (am_ml r) as [[ml err]|]; [|congruence].
  destruct (is_nan ml); eexists; reflexivity.
Qed.
Lemma read_events_app rf units ph rows : forall f, (forall r, In r rows -> read_single_event rf units ph r = Ret (Some (f r))) ->
  read_events rf units ph rows = Ret (map f rows).
Proof.
  induction rows as [|r l IH]; intros f H; [reflexivity|]. cbn [read_events map]. rewrite (H r (or_introl eq_refl)). cbn [bind].
  rewrite (IH f) by (intros x X; apply H; right; exact X). reflexivity.
Qed.

Lemma read_single rf units ph k e rows prec km :
  unit_factor units = Ret k -> dget (rf_picks rf) (l_uid e) = Some (write_picks rows) ->
  (forall amps, dget (rf_amps rf) (l_uid e) = Some amps -> l_ml e <> None /\ Forall (fun r => am_ml r <> None) amps) ->
  exists amps sm mag, let c := mk_cat_event (l_uid e) (sig 4 (l_coa e)) (sig 4 (l_coa_norm e)) (map3 (sig_ext 4) (l_trig e)) (waveform_file (l_uid e))
      (origins k (write_event prec km e)) (flat_map picks_of_row (write_picks rows)) amps sm mag in
    read_single_event rf units ph (write_event prec km e) = Ret (Some c)
    /\ match dget (rf_amps rf) (l_uid e) with
       | None => amps = [] /\ sm = [] /\ mag = None
       | Some a => amps = flat_map amps_of_row a /\ mags_of_rows ph a = Ret sm
                   /\ exists ml err r2, l_ml e = Some (ml, err, r2) /\ mag = Some (mk_magnitude (sig_ext 3 ml) (sig_ext 3 err) (sig_ext 3 r2) (Z.of_nat (length sm)))
       end.
Proof.
  intros U P A. unfold read_single_event. rewrite U. cbn [bind]. destruct prec as ((px, py), pz).
  assert (Eu : forall p, e_uid (write_event p km e) = l_uid e) by (intros ((?, ?), ?); reflexivity). rewrite Eu. rewrite P.
  destruct (dget (rf_amps rf) (l_uid e)) as [a|] eqn:Ea.
  - destruct (A a eq_refl) as (M & F). destruct (mags_of_rows_total ph a F) as (sm & Hs). rewrite Hs. cbn [bind].
    destruct (l_ml e) as [[[ml err] r2]|] eqn:Em; [|congruence]. exists (flat_map amps_of_row a), sm, (Some (mk_magnitude (sig_ext 3 ml) (sig_ext 3 err) (sig_ext 3 r2) (Z.of_nat (length sm)))).
    cbv zeta. split; [|split; [reflexivity|split; [reflexivity|exists ml, err, r2; split; reflexivity]]].
    unfold write_event. cbn [e_ml]. rewrite Em. reflexivity.
  - exists [], [], None. cbv zeta. split; [reflexivity|repeat split].
Qed.
Lemma read_run rf units ph k prec km items : unit_factor units = Ret k -> run_of prec km items rf ->
  exists cat, read_quakemigrate rf units ph = Ret cat
  /\ Forall2 (fun it c => read_single_event rf units ph (write_event prec km (fst it)) = Ret (Some c)) items cat.
Proof.
  intros U (E & P & A). unfold read_quakemigrate. rewrite E. rewrite map_map. cbn [snd]. clear E. induction items as [|[e rows] l IH]; [exists []; split; [reflexivity|constructor]|].
  cbn [map read_events fst]. destruct (read_single rf units ph k e rows prec km U (P e rows (or_introl eq_refl)) (fun a => A e rows a (or_introl eq_refl))) as (am & sm & mg & R & _).
  rewrite R. cbn [bind]. destruct IH as (cat & Hc & F); [intros; eapply P; right; eassumption|intros; eapply A; [right; eassumption|eassumption]|].
  rewrite Hc. cbn [bind]. eexists. split; [reflexivity|]. constructor; [exact R|exact F].
Qed.
Lemma Forall2_In_impl {A B} (P Q : A -> B -> Prop) l m : Forall2 P l m -> (forall a b, In a l -> P a b -> Q a b) -> Forall2 Q l m.
Proof. induction 1 as [|a b l m Hab _ IH]; intros K; constructor; [apply K; [left; reflexivity|exact Hab]|apply IH; intros; apply K; [right; assumption|assumption]]. Qed.
Lemma sig_ext3_near x : near_ext (1 / 200) (sig_ext 3 x) x.
Proof. destruct x; cbn; try reflexivity. eapply near_weaken; [apply sig3_near|]. lra. Qed.
Lemma sig_ext4_near x : near_ext (1 / 2000) (sig_ext 4 x) x.
Proof. destruct x; cbn; try reflexivity. eapply near_weaken; [apply sig4_near|]. lra. Qed.
Lemma km2deg_near e y x : near e y x -> near (km2deg e) (km2deg y) (km2deg x).
Proof.
  intros H. unfold km2deg. assert (P : 0 < 2 * 6371 * PI / 360) by (pose proof PI_RGT_0; lra). pose proof (Rinv_0_lt_compat _ P) as H0. set (c := 2 * 6371 * PI / 360) in *.
  exact (near_scale (/ c) e y x (Rlt_le _ _ H0) H).
Qed.
Lemma steps_precision transform g sx sy sz : node_steps transform g (sx, sy, sz) ->
  exists a b c, a <> 0 /\ b <> 0 /\ c <> 0 /\ sx = Rabs a /\ sy = Rabs b /\ sz = Rabs c /\ precision transform g = ((- exponent10 a)%Z, (- exponent10 b)%Z, (- exponent10 c)%Z).
Proof.
  unfold node_steps, precision. destruct (index2coord transform g (0, 0, 0)%Z) as ((a, b), c). destruct (index2coord transform g (1, 1, 1)%Z) as ((p, q), r).
  intros (E & A & B & C). injection E as -> -> ->. exists (a - p), (b - q), (c - r). cbn [vmap2]. repeat split; lra.
Qed.
Lemma origin_located transform g sx sy sz (km : bool) e v method k :
  node_steps transform g (sx, sy, sz) -> k = (if km then 1000 else 1) ->
  forall x y z, v = (x, y, z) ->
  let '(px, py, pz) := precision transform g in
  located_at (sx, sy, sz) k e v (origin_of k (write_event (precision transform g) km e) method
    (round_to (xy_decimals px) x, round_to (xy_decimals py) y, round_to (z_decimals km pz) z)).
Proof.
  intros Hs Hk x y z ->. destruct (steps_precision _ _ _ _ _ Hs) as (a & b & c & A & B & C & -> & -> & -> & ->).
  unfold located_at, origin_of, write_event. cbn [e_gau_err e_cov_err e_dt]. destruct (l_gau_err e) as ((gx, gy), gz). destruct (l_cov_err e) as ((cx, cy), cz). cbn [map3].
  cbn [or_time or_lon or_lat or_depth or_lon_err or_lat_err or_depth_err]. assert (K : 0 <= k) by (subst k; destruct km; lra).
  destruct (xy_error a x A) as (X1 & X2). destruct (xy_error b y B) as (Y1 & Y2). destruct (z_error km c z C) as (Z1 & Z2).
  assert (M : forall u, near (1 / 2) (round_to (z_decimals km (- exponent10 c)) u * k) (u * k)).
  { intros u. destruct (z_error km c u C) as (_ & U). eapply near_weaken; [apply near_scale; [exact K|exact U]|]. subst k. destruct km; lra. }
  assert (D : forall u, near (km2deg (1 / 2000)) (km2deg (round_to (z_decimals km (- exponent10 c)) u * k / 1000)) (km2deg (u * k / 1000))).
  { intros u. apply km2deg_near. replace (1 / 2000) with (1 / 2 * / 1000) by lra. exact (near_scale (/ 1000) _ _ _ ltac:(lra) (M u)). }
  split; [reflexivity|]. do 4 (split; [assumption|]). split; [apply near_scale; assumption|]. split; [apply M|]. split; [apply D|]. split; [apply D|apply M].
Qed.
Lemma origin_axes transform g sx sy sz (km : bool) e k o x y z :
  node_steps transform g (sx, sy, sz) -> k = (if km then 1000 else 1) -> l_cov_err e = (x, y, z) ->
  In o (origins k (write_event (precision transform g) km e)) ->
  or_azimuth o = 0 /\ or_plunge o = 0 /\ near (1 / 2) (or_major o) (y * k) /\ near (1 / 2) (or_intermediate o) (x * k) /\ near (1 / 2) (or_minor o) (z * k).
Proof.
  intros Hs Hk E I. destruct (steps_precision _ _ _ _ _ Hs) as (a & b & c & A & B & C & -> & -> & -> & Ep). rewrite Ep in I.
  assert (K : 0 <= k) by (subst k; destruct km; lra).
  assert (M : forall u, near (1 / 2) (round_to (z_decimals km (- exponent10 c)) u * k) (u * k)).
  { intros u. destruct (z_error km c u C) as (_ & U). eapply near_weaken; [apply near_scale; [exact K|exact U]|]. subst k. destruct km; lra. }
  unfold origins, origin_of, write_event in I. cbn [e_xyz e_gau e_gau_err e_cov_err] in I. rewrite E in I.
  destruct (l_spline e) as ((?, ?), ?), (l_gau e) as ((?, ?), ?), (l_gau_err e) as ((?, ?), ?). cbn [map3] in I.
  destruct I as [<-|[<-|[]]]; cbn [or_azimuth or_plunge or_major or_intermediate or_minor]; repeat split; apply M.
Qed.

(** * SAC headers *)

Definition row_matches (station phase : string) (r : pick_row) : bool := String.eqb (r_station r) station && String.eqb (r_phase r) phase.
Lemma pick_time_rows rows station phase r ref : forall acc,
  (forall r', In r' rows -> r_station r' = station -> r_phase r' = phase -> r' = r) ->
  fold_left (fun acc p => if String.eqb (pk_phase p) phase then (pk_time p - ref)%Z else acc)
    (filter (fun p => String.eqb (pk_station p) station) (flat_map picks_of_row rows)) acc
  = if existsb (row_matches station phase) rows then (best_time r - ref)%Z else acc.
Proof.
  induction rows as [|q l IH]; intros acc U; [reflexivity|]. cbn [flat_map existsb]. rewrite filter_app, fold_left_app.
  rewrite IH by (intros; apply U; [right; assumption|assumption|assumption]). clear IH.
  assert (H : fold_left (fun acc p => if String.eqb (pk_phase p) phase then (pk_time p - ref)%Z else acc)
      (filter (fun p => String.eqb (pk_station p) station) (picks_of_row q)) acc = if row_matches station phase q then (best_time q - ref)%Z else acc).
  { unfold picks_of_row, best_time, row_matches. destruct (r_pick q) as [[[t err] snr]|]; cbn [filter pk_station]; destruct (String.eqb (r_station q) station); cbn [filter andb fold_left pk_phase pk_time pk_station]; try reflexivity;
      destruct (String.eqb (r_phase q) phase); reflexivity. }
  rewrite H. destruct (row_matches station phase q) eqn:M; cbn [orb]; [|reflexivity].
  unfold row_matches in M. apply andb_prop in M. destruct M as (M1 & M2). apply String.eqb_eq in M1, M2. rewrite (U q (or_introl eq_refl) M1 M2).
  destruct (existsb _ l); reflexivity.
Qed.
Lemma pick_time_only rows station phase r ref : only_row rows station phase r ->
  pick_time phase (filter (fun p => String.eqb (pk_station p) station) (flat_map picks_of_row rows)) ref = (best_time r - ref)%Z.
Proof.
  intros (I & S & P & U). unfold pick_time. rewrite (pick_time_rows rows station phase r ref 0 U).
  assert (E : existsb (row_matches station phase) rows = true) by (apply existsb_exists; exists r; split; [exact I|]; unfold row_matches; rewrite S, P, !String.eqb_refl; reflexivity).
  rewrite E. reflexivity.
Qed.
Lemma row_picks_nonempty rows station phase r : only_row rows station phase r ->
  filter (fun p => String.eqb (pk_station p) station) (flat_map picks_of_row rows) <> [].
Proof.
  intros (I & S & _) E. assert (K : In (mk_pick "modelled" "" (r_station r) "" "" "" (r_phase r) (r_model r) None None None) (filter (fun p => String.eqb (pk_station p) station) (flat_map picks_of_row rows))).
  { apply filter_In. split; [apply in_flat_map; exists r; split; [exact I|left; reflexivity]|]. cbn. rewrite S. apply String.eqb_refl. }
  rewrite E in K. destruct K.
Qed.
Lemma ends_with_last s c : ends_with s c = true <-> last_letter s c.
Proof.
  split.
  - induction s as [|a [|b s] IH]; cbn; intros H; [discriminate| |].
    + apply Ascii.eqb_eq in H. subst. exists EmptyString. reflexivity.
    + destruct (IH H) as (p & E). exists (String a p). cbn. rewrite <- E. reflexivity.
  - intros (p & ->). induction p as [|a p IH]; cbn; [apply Ascii.eqb_refl|]. destruct (p ++ String c "")%string eqn:E; [destruct p; discriminate|exact IH].
Qed.
Section Sac.
Variable gps : R -> R -> R -> R -> R * R.
(** What the files of a station hold. *)
Lemma sac_station_files la lo d ot picks stream k s fs : sac_station gps la lo d ot picks stream k s = Ret fs ->
  let mine := filter (fun p => String.eqb (pk_station p) (st_name s)) picks in
  fs = [] \/ exists t0 tz tn te, In t0 stream /\ In tz stream /\ In tn stream /\ In te stream
    /\ t_station t0 = st_name s /\ t_station tz = st_name s /\ t_station tn = st_name s /\ t_station te = st_name s
    /\ last_letter (t_channel tz) "Z"%char /\ last_letter (t_channel tn) "N"%char /\ last_letter (t_channel te) "E"%char
    /\ let ref := t_start t0 in
       let h name t := mk_sac (st_name s) name (t_start t) la lo (d / 1000) (st_lat s) (st_lon s) (st_elev s / k)
          (fst (gps la lo (st_lat s) (st_lon s)) / 1000) (snd (gps la lo (st_lat s) (st_lon s))) (ot - ref)%Z
          (if (pick_time "P" mine ref =? 0)%Z then None else Some (pick_time "P" mine ref)) (pick_time "S" mine ref) in
       fs = [h "z"%string tz; h "n"%string tn; h "e"%string te].
Proof.
  intros H mine. unfold sac_station in H. fold mine in H. destruct (gps la lo (st_lat s) (st_lon s)) as (dist, az) eqn:Eg. cbn [fst snd].
  destruct mine as [|m ms] eqn:Em; [left; congruence|]. rewrite <- Em in *.
  set (st := filter (fun t => String.eqb (t_station t) (st_name s)) stream) in *.
  assert (Hst : forall t, In t st -> In t stream /\ t_station t = st_name s).
  { intros t I. apply filter_In in I. destruct I as (I & E). apply String.eqb_eq in E. tauto. }
  destruct st as [|t0 st'] eqn:Es; [discriminate|]. rewrite <- Es in *.
  destruct (pick_time "S" mine (t_start t0) =? 0)%Z; [left; congruence|]. right.
  assert (F : forall c tr l, filter (fun t => ends_with (t_channel t) c) st = tr :: l -> In tr stream /\ t_station tr = st_name s /\ last_letter (t_channel tr) c).
  { intros c tr l E. assert (I : In tr (filter (fun t => ends_with (t_channel t) c) st)) by (rewrite E; left; reflexivity). apply filter_In in I. destruct I as (I & L).
    apply ends_with_last in L. destruct (Hst tr I). tauto. }
  destruct (filter (fun t => ends_with (t_channel t) "Z") st) as [|tz lz] eqn:Ez; [discriminate|].
  destruct (filter (fun t => ends_with (t_channel t) "N") st) as [|tn ln] eqn:En; [discriminate|].
  destruct (filter (fun t => ends_with (t_channel t) "E") st) as [|te le] eqn:Ee; [discriminate|]. cbn [bind] in H.
  destruct (F _ _ _ Ez) as (? & ? & ?). destruct (F _ _ _ En) as (? & ? & ?). destruct (F _ _ _ Ee) as (? & ? & ?).
  destruct (Hst t0) as (? & ?); [rewrite Es; left; reflexivity|]. exists t0, tz, tn, te. repeat (split; [assumption|]). cbv zeta. congruence.
Qed.
Lemma sac_stations_in o picks stream k ss : forall fs, sac_stations gps o picks stream k ss = Ret fs ->
  (forall f, In f fs -> exists s gs, In s ss /\ sac_station gps (or_lat o) (or_lon o) (or_depth o) (or_time o) picks stream k s = Ret gs /\ In f gs)
  /\ (forall s, In s ss -> exists gs, sac_station gps (or_lat o) (or_lon o) (or_depth o) (or_time o) picks stream k s = Ret gs /\ incl gs fs).
Proof.
  induction ss as [|s l IH]; intros fs H; cbn [sac_stations] in H.
  - assert (fs = []) by congruence. subst. split; intros ? [].
  - destruct (sac_station gps _ _ _ _ picks stream k s) as [a| |] eqn:E1; cbn [bind] in H; try discriminate.
    destruct (sac_stations gps o picks stream k l) as [b| |] eqn:E2; cbn [bind] in H; try discriminate. assert (fs = a ++ b) by congruence. subst fs.
    destruct (IH b eq_refl) as (I1 & I2). split.
    + intros f I. apply in_app_or in I. destruct I as [I|I]; [exists s, a; split; [left; reflexivity|split; assumption]|].
      destruct (I1 f I) as (s' & gs & ? & ? & ?). exists s', gs. split; [right; assumption|split; assumption].
    + intros s' [<-|I]; [exists a; split; [exact E1|apply incl_appl, incl_refl]|]. destruct (I2 s' I) as (gs & ? & ?). exists gs. split; [assumption|apply incl_appr; assumption].
Qed.
End Sac.

(** C112: the Event object and its file. *)
From Coq Require Import String Ascii.
From Coq Require Import List ZArith Reals Bool Lia Lra.
From Verif Require Import Lib PyDict Mag_Model Catalogue_Model Event_Model Event_Spec Event_Proofs.
Import ListNotations.
Open Scope Z_scope.

(** An event can be made of a row of a trigger file exactly if it has an EventID, a CoaTime and the coalescence in one of the three formats. *)
Theorem C112_trigger : forall d,
  (forall e, event_init (Some d) = Ret e -> exists uid a b c, dget d "EventID" = Some uid /\ trigger_read d a b c
     /\ v_trig e = Some (uid, [("TRIG_COA", a); ("DEC_COA", b); ("DEC_COA_NORM", c)]%string) /\ v_coa e = None /\ v_otime e = None /\ v_loc e = [] /\ v_mag e = [])
  /\ ((exists e, event_init (Some d) = Ret e) <->
      dget d "EventID" <> None /\ dget d "CoaTime" <> None /\ exists a b c, trigger_read d a b c).
Proof.
  intros d. split.
  - intros e H. apply init_spec in H. destruct H as (uid & t & a & b & c & H1 & H2 & H3 & ->). exists uid, a, b, c. repeat split; assumption.
  - split.
    + intros (e & H). apply init_spec in H. destruct H as (uid & t & a & b & c & H1 & H2 & H3 & ->). rewrite H1, H2. split; [discriminate|]. split; [discriminate|]. eauto.
    + intros (A & B & a & b & c & H). destruct (dget d "EventID") as [uid|] eqn:E1; [|congruence]. destruct (dget d "CoaTime") as [t|] eqn:E2; [|congruence].
      exists (mk_event (Some (uid, trig_info a b c)) None None [] []). apply init_spec. exists uid, t, a, b, c. auto.
Qed.
Print Assumptions C112_trigger.

(** Every column of the file holds the result of the last call that gave one, to its number of decimals. *)
Theorem C112_file : forall px py pz km d e0 calls e file uid a b c rows t coa norm s g gu cv cu,
  event_init (Some d) = Ret e0 -> dget d "EventID" = Some uid -> trigger_read d a b c -> Forall sane calls -> apply_ops e0 calls = Ret e ->
  latest computed calls rows -> first_largest rows (t, coa, norm) -> latest spline calls s -> latest gaussian calls (g, gu) -> latest covariance calls (cv, cu) ->
  write_file (px, py, pz) km e = Ret file ->
  let dx := Z.max (px + 2) 6 in let dy := Z.max (py + 2) 6 in let dz := Z.max (pz + 2) (if km then 3 else 0) in
  at_column file "EventID" (eq uid) /\ at_column file "DT" (eq (VTime t))
  /\ at_column file "COA" (shown_figures (/ 2000) (VNum (Fin coa))) /\ at_column file "COA_NORM" (shown_figures (/ 2000) (VNum (Fin norm)))
  /\ at_columns file "X" "Y" "Z" (shown_decimals dx) (shown_decimals dy) (shown_decimals dz) s
  /\ at_columns file "GAU_X" "GAU_Y" "GAU_Z" (shown_decimals dx) (shown_decimals dy) (shown_decimals dz) g
  /\ at_columns file "GAU_ErrX" "GAU_ErrY" "GAU_ErrZ" (shown_decimals dz) (shown_decimals dz) (shown_decimals dz) gu
  /\ at_columns file "COV_ErrX" "COV_ErrY" "COV_ErrZ" (shown_decimals dz) (shown_decimals dz) (shown_decimals dz) cu
  /\ at_column file "COV_Err_XYZ" (fun v => forall x y z : R, (cu = (Fin x, Fin y, Fin z) -> 0 <= x * y * z ->
       exists m : R, 0 <= m /\ m * m * m = x * y * z /\ shown_decimals dz (Fin m) v)%R)
  /\ at_column file "TRIG_COA" (shown_figures (/ 2000) a) /\ at_column file "DEC_COA" (shown_figures (/ 2000) b) /\ at_column file "DEC_COA_NORM" (shown_figures (/ 2000) c)
  /\ (never magnitude calls /\ keys file = columns
      \/ exists m, latest magnitude calls m /\ keys file = columns ++ ["ML"; "ML_Err"; "ML_r2"]%string
         /\ let '(m1, m2, m3) := m in at_column file "ML" (shown_figures (/ 200) (VNum m1)) /\ at_column file "ML_Err" (shown_figures (/ 200) (VNum m2))
            /\ at_column file "ML_r2" (shown_figures (/ 200) (VNum m3))).
Proof.
  intros px py pz km d e0 calls e file uid a b c rows t coa norm s g gu cv cu Hi Hu Ht Hs Ha Lr Fr Ls Lg Lv Hw. cbv zeta.
  apply init_spec in Hi. destruct Hi as (uid' & t' & a' & b' & c' & Hu' & _ & Ht' & ->).
  assert (uid' = uid) by congruence. subst uid'. pose proof (trigger_read_unique _ _ _ _ _ _ _ Ht Ht') as E. injection E as -> -> ->. clear Hu' Ht'.
  apply state_after in Ha; [|exact Hs]. apply latest_lastf in Lr, Ls, Lg, Lv. destruct cu as ((cux, cuy), cuz).
  rewrite (write_complete px py pz km _ _ _ _ _ _ _ _ _ _ _ _ _ _ _ _ _ Ha Lr Fr Ls Lg Lv) in Hw.
  destruct s as ((x, y), z), g as ((gx, gy), gz), gu as ((gux, guy), guz). apply polish_inv in Hw. destruct Hw as [K G].
  change (Z.max (px + 2) 6) with (xy_decimals px). change (Z.max (py + 2) 6) with (xy_decimals py).
  change (Z.max (pz + 2) (if km then 3 else 0)) with (z_decimals km pz).
  pose proof (xy_decimals_pos px) as Dx. pose proof (xy_decimals_pos py) as Dy. pose proof (z_decimals_pos km pz) as Dz.
  set (ml := lastf magnitude calls) in *.
  set (raw := raw_table _ _ _ _ _ _ _ _ _ _ _ _ _ _ _ _ _ _ _ _ _) in *.
  assert (same : forall k v, contains "COA" k = false -> is_in ["X"; "GAU_X"]%string k = false -> is_in ["Y"; "GAU_Y"]%string k = false ->
    (is_in ["Z"; "GAU_Z"; "COV_Err_XYZ"]%string k || err_col k) = false -> is_in mag_cols k = false -> dget raw k = Some v -> at_column file k (eq v)).
  { intros k v A1 A2 A3 A4 A5 D. destruct (G k v D) as (v' & F & Cr). apply col_same in Cr; try assumption. exists v'. split; [exact F|congruence]. }
  assert (fig : forall k v, contains "COA" k = true -> is_in ["X"; "GAU_X"]%string k = false -> is_in ["Y"; "GAU_Y"]%string k = false ->
    (is_in ["Z"; "GAU_Z"; "COV_Err_XYZ"]%string k || err_col k) = false -> is_in mag_cols k = false -> dget raw k = Some v -> at_column file k (shown_figures (/ 2000) v)).
  { intros k v A1 A2 A3 A4 A5 D. destruct (G k v D) as (v' & F & Cr). apply col_coa in Cr; try assumption. exists v'. split; [exact F|].
    eapply significant_inv; [apply sig4_rel|exact Cr]. }
  assert (decx : forall k v, contains "COA" k = false -> is_in ["X"; "GAU_X"]%string k = true -> is_in ["Y"; "GAU_Y"]%string k = false ->
    (is_in ["Z"; "GAU_Z"; "COV_Err_XYZ"]%string k || err_col k) = false -> is_in mag_cols k = false -> dget raw k = Some (VNum v) -> at_column file k (shown_decimals (xy_decimals px) v)).
  { intros k v A1 A2 A3 A4 A5 D. destruct (G k _ D) as (v' & F & Cr). apply col_x in Cr; try assumption. exists v'. split; [exact F|]. apply round_col_inv; [lia|exact Cr]. }
  assert (decy : forall k v, contains "COA" k = false -> is_in ["X"; "GAU_X"]%string k = false -> is_in ["Y"; "GAU_Y"]%string k = true ->
    (is_in ["Z"; "GAU_Z"; "COV_Err_XYZ"]%string k || err_col k) = false -> is_in mag_cols k = false -> dget raw k = Some (VNum v) -> at_column file k (shown_decimals (xy_decimals py) v)).
  { intros k v A1 A2 A3 A4 A5 D. destruct (G k _ D) as (v' & F & Cr). apply col_y in Cr; try assumption. exists v'. split; [exact F|]. apply round_col_inv; [lia|exact Cr]. }
  assert (decz : forall k v, contains "COA" k = false -> is_in ["X"; "GAU_X"]%string k = false -> is_in ["Y"; "GAU_Y"]%string k = false ->
    (is_in ["Z"; "GAU_Z"; "COV_Err_XYZ"]%string k || err_col k) = true -> is_in mag_cols k = false -> dget raw k = Some (VNum v) -> at_column file k (shown_decimals (z_decimals km pz) v)).
  { intros k v A1 A2 A3 A4 A5 D. destruct (G k _ D) as (v' & F & Cr). apply col_z in Cr; try assumption. exists v'. split; [exact F|]. apply round_col_inv; [lia|exact Cr]. }
  unfold at_columns.
  repeat match goal with |- _ /\ _ => split end; try (first [apply same|apply fig|apply decx|apply decy|apply decz]; reflexivity).
  - destruct (decz "COV_Err_XYZ"%string (cube_root (emul (emul cux cuy) cuz))) as (v & F & S); try reflexivity.
    exists v. split; [exact F|]. intros r1 r2 r3 E N. injection E as -> -> ->. cbn [emul] in S. destruct (cube_root_spec _ N) as (m & Em & Pm & Cm).
    exists m. rewrite Em in S. repeat split; assumption.
  - destruct ml as [((m1, m2), m3)|] eqn:Em.
    + right. exists (m1, m2, m3). split; [apply latest_lastf; exact Em|]. split; [rewrite K; reflexivity|].
      assert (figm : forall k v, contains "COA" k = false -> is_in ["X"; "GAU_X"]%string k = false -> is_in ["Y"; "GAU_Y"]%string k = false ->
        (is_in ["Z"; "GAU_Z"; "COV_Err_XYZ"]%string k || err_col k) = false -> is_in mag_cols k = true -> dget raw k = Some v -> at_column file k (shown_figures (/ 200) v)).
      { intros k v A1 A2 A3 A4 A5 D. destruct (G k v D) as (v' & F & Cr). apply col_ml in Cr; try assumption. exists v'. split; [exact F|].
        eapply significant_inv; [apply sig3_rel|exact Cr]. }
      split; [|split]; apply figm; reflexivity.
    + left. split; [apply never_lastf; exact Em|]. rewrite K. reflexivity.
Qed.
Print Assumptions C112_file.

(** The file is written exactly if the four results were added, the coalescences of the trigger are numbers and, where depths are written as integers, the
    depths and uncertainties are numbers that are not NaN. *)
Theorem C112_written_iff : forall px py pz km d e0 calls e a b c,
  event_init (Some d) = Ret e0 -> trigger_read d a b c -> Forall sane calls -> apply_ops e0 calls = Ret e ->
  ((exists file, write_file (px, py, pz) km e = Ret file) <->
   exists rows s g gu cv cu, latest computed calls rows /\ latest spline calls s /\ latest gaussian calls (g, gu) /\ latest covariance calls (cv, cu)
     /\ is_number a /\ is_number b /\ is_number c
     /\ (0 < Z.max (pz + 2) (if km then 3 else 0) \/ finite (third s) /\ finite (third g) /\ finite3 gu /\ finite3 cu /\ real_mean cu)).
Proof.
  intros px py pz km d e0 calls e a b c Hi Ht Hs Ha.
  apply init_spec in Hi. destruct Hi as (uid & t' & a' & b' & c' & _ & _ & Ht' & ->).
  pose proof (trigger_read_unique _ _ _ _ _ _ _ Ht Ht') as E. injection E as -> -> ->. clear Ht'.
  apply state_after in Ha; [|exact Hs].
  change (Z.max (pz + 2) (if km then 3 else 0)) with (z_decimals km pz).
  pose proof (xy_decimals_pos px) as Dx. pose proof (xy_decimals_pos py) as Dy. pose proof (z_decimals_pos km pz) as Dz.
  assert (P1 : forall file, write_file (px, py, pz) km e = Ret file -> exists rows s g gu cv cu, lastf computed calls = Some rows /\ lastf spline calls = Some s
    /\ lastf gaussian calls = Some (g, gu) /\ lastf covariance calls = Some (cv, cu)).
  { intros file H. destruct Ha as [T1 T2 T3 T4 T5 T6]. unfold write_file in H. rewrite T1 in H. apply bind_ret in H. destruct H as (mc & Hm & H).
    rewrite T2 in H. destruct (lastf spline calls) as [s|]; [|discriminate]. cbn [option_map] in H.
    rewrite T3 in H. destruct (lastf gaussian calls) as [(g, gu)|]; [|discriminate]. cbn [option_map] in H.
    rewrite T4 in H. destruct (lastf covariance calls) as [(cv, cu)|]; [|discriminate].
    destruct (lastf computed calls) as [rows|]; [|destruct T6 as [T6 _]; unfold max_coalescence in Hm; rewrite T6 in Hm; discriminate].
    exists rows, s, g, gu, cv, cu. auto. }
  split.
  - intros (file & Hw). destruct (P1 file Hw) as (rows & s & g & gu & cv & cu & Lr & Ls & Lg & Lv). clear P1.
    exists rows, s, g, gu, cv, cu. do 4 (split; [apply latest_lastf; assumption|]).
    assert (Fr : exists r, first_largest rows r). { destruct Ha as [_ _ _ _ _ T6]. rewrite Lr in T6. destruct T6 as (kept & r & _ & _ & _ & F). eauto. }
    destruct Fr as (((t, coa), norm) & Fr). destruct cu as ((cux, cuy), cuz).
    rewrite (write_complete px py pz km _ _ _ _ _ _ _ _ _ _ _ _ _ _ _ _ _ Ha Lr Fr Ls Lg Lv) in Hw.
    destruct s as ((x, y), z), g as ((gx, gy), gz), gu as ((gux, guy), guz). apply polish_inv in Hw. destruct Hw as [_ G].
    set (raw := raw_table _ _ _ _ _ _ _ _ _ _ _ _ _ _ _ _ _ _ _ _ _) in *.
    assert (num : forall k v, contains "COA" k = true -> dget raw k = Some v -> is_number v).
    { intros k v A D. destruct (G k v D) as (v' & _ & v1 & v2 & v3 & v4 & X & _). rewrite A in X. eapply significant_number. exact X. }
    split; [apply (num "TRIG_COA"%string); reflexivity|]. split; [apply (num "DEC_COA"%string); reflexivity|]. split; [apply (num "DEC_COA_NORM"%string); reflexivity|].
    assert (fin : forall k v, contains "COA" k = false -> is_in ["X"; "GAU_X"]%string k = false -> is_in ["Y"; "GAU_Y"]%string k = false ->
      (is_in ["Z"; "GAU_Z"; "COV_Err_XYZ"]%string k || err_col k) = true -> is_in mag_cols k = false -> dget raw k = Some (VNum v) -> 0 < z_decimals km pz \/ finite v).
    { intros k v A1 A2 A3 A4 A5 D. destruct (G k _ D) as (v' & F & Cr). apply col_z in Cr; try assumption. eapply shown_finite. apply round_col_inv; [lia|exact Cr]. }
    destruct (Z.ltb_spec 0 (z_decimals km pz)) as [P|P]; [left; exact P|right].
    assert (fin' : forall k v, contains "COA" k = false -> is_in ["X"; "GAU_X"]%string k = false -> is_in ["Y"; "GAU_Y"]%string k = false ->
      (is_in ["Z"; "GAU_Z"; "COV_Err_XYZ"]%string k || err_col k) = true -> is_in mag_cols k = false -> dget raw k = Some (VNum v) -> finite v).
    { intros k v A1 A2 A3 A4 A5 D. destruct (fin k v A1 A2 A3 A4 A5 D); [lia|assumption]. }
    assert (F1 : finite cux) by (apply (fin' "COV_ErrX"%string); reflexivity). assert (F2 : finite cuy) by (apply (fin' "COV_ErrY"%string); reflexivity).
    assert (F3 : finite cuz) by (apply (fin' "COV_ErrZ"%string); reflexivity).
    assert (F4 : finite (cube_root (emul (emul cux cuy) cuz))) by (apply (fin' "COV_Err_XYZ"%string); reflexivity).
    split; [apply (fin' "Z"%string); reflexivity|]. split; [apply (fin' "GAU_Z"%string); reflexivity|].
    split; [split; [apply (fin' "GAU_ErrX"%string); reflexivity|split; [apply (fin' "GAU_ErrY"%string); reflexivity|apply (fin' "GAU_ErrZ"%string); reflexivity]]|].
    split; [split; [exact F1|split; assumption]|].
    destruct cux as [r1| | |]; cbn in F1; try contradiction. destruct cuy as [r2| | |]; cbn in F2; try contradiction. destruct cuz as [r3| | |]; cbn in F3; try contradiction.
    exists r1, r2, r3. split; [reflexivity|]. cbn [emul cube_root] in F4. destruct (Rlt_dec 0 (r1 * r2 * r3)); [lra|]. destruct (Rlt_dec (r1 * r2 * r3) 0); [contradiction|lra].
  - intros (rows & s & g & gu & cv & cu & Lr & Ls & Lg & Lv & Na & Nb & Nc & C). clear P1. apply latest_lastf in Lr, Ls, Lg, Lv.
    assert (Fr : exists r, first_largest rows r). { destruct Ha as [_ _ _ _ _ T6]. rewrite Lr in T6. destruct T6 as (kept & r & _ & _ & _ & F). eauto. }
    destruct Fr as (((t, coa), norm) & Fr). destruct cu as ((cux, cuy), cuz).
    rewrite (write_complete px py pz km _ _ _ _ _ _ _ _ _ _ _ _ _ _ _ _ _ Ha Lr Fr Ls Lg Lv).
    destruct s as ((x, y), z), g as ((gx, gy), gz), gu as ((gux, guy), guz). cbn [third finite3] in C.
    apply polish_total; [apply raw_nodup|].
    assert (CC : (0 < z_decimals km pz \/ finite z) /\ (0 < z_decimals km pz \/ finite gz) /\ (0 < z_decimals km pz \/ finite gux) /\ (0 < z_decimals km pz \/ finite guy)
      /\ (0 < z_decimals km pz \/ finite guz) /\ (0 < z_decimals km pz \/ finite cux) /\ (0 < z_decimals km pz \/ finite cuy) /\ (0 < z_decimals km pz \/ finite cuz)
      /\ (0 < z_decimals km pz \/ finite (cube_root (emul (emul cux cuy) cuz)))).
    { destruct C as [C|(C1 & C2 & (C3 & C4 & C5) & (C6 & C7 & C8) & r1 & r2 & r3 & C9 & C10)]; [tauto|]. do 8 (split; [right; assumption|]). right.
      injection C9 as -> -> ->. cbn [emul]. destruct (cube_root_spec _ C10) as (m & -> & _). exact I. }
    clear C. destruct CC as (C1 & C2 & C3 & C4 & C5 & C6 & C7 & C8 & C9).
    assert (zc : forall k v, contains "COA" k = false -> is_in ["X"; "GAU_X"]%string k = false -> is_in ["Y"; "GAU_Y"]%string k = false ->
      (is_in ["Z"; "GAU_Z"; "COV_Err_XYZ"]%string k || err_col k) = true -> is_in mag_cols k = false -> 0 < z_decimals km pz \/ finite v ->
      exists v', col_result px py pz km (match lastf magnitude calls with Some _ => true | None => false end) k (VNum v) v').
    { intros k v A1 A2 A3 A4 A5 D. destruct (round_col_total _ v Dz D) as (v' & E). exists v'. apply col_z; assumption. }
    assert (xc : forall k v, contains "COA" k = false -> is_in ["X"; "GAU_X"]%string k = true -> is_in ["Y"; "GAU_Y"]%string k = false ->
      (is_in ["Z"; "GAU_Z"; "COV_Err_XYZ"]%string k || err_col k) = false -> is_in mag_cols k = false ->
      exists v', col_result px py pz km (match lastf magnitude calls with Some _ => true | None => false end) k (VNum v) v').
    { intros k v A1 A2 A3 A4 A5. destruct (round_col_total (xy_decimals px) v) as (v' & E); [lia|lia|]. exists v'. apply col_x; assumption. }
    assert (yc : forall k v, contains "COA" k = false -> is_in ["X"; "GAU_X"]%string k = false -> is_in ["Y"; "GAU_Y"]%string k = true ->
      (is_in ["Z"; "GAU_Z"; "COV_Err_XYZ"]%string k || err_col k) = false -> is_in mag_cols k = false ->
      exists v', col_result px py pz km (match lastf magnitude calls with Some _ => true | None => false end) k (VNum v) v').
    { intros k v A1 A2 A3 A4 A5. destruct (round_col_total (xy_decimals py) v) as (v' & E); [lia|lia|]. exists v'. apply col_y; assumption. }
    assert (fc : forall k v, contains "COA" k = true -> is_in ["X"; "GAU_X"]%string k = false -> is_in ["Y"; "GAU_Y"]%string k = false ->
      (is_in ["Z"; "GAU_Z"; "COV_Err_XYZ"]%string k || err_col k) = false -> is_in mag_cols k = false -> is_number v ->
      exists v', col_result px py pz km (match lastf magnitude calls with Some _ => true | None => false end) k v v').
    { intros k v A1 A2 A3 A4 A5 D. destruct (significant_total 4 v D) as (v' & E). exists v'. apply col_coa; assumption. }
    assert (sc : forall k v, contains "COA" k = false -> is_in ["X"; "GAU_X"]%string k = false -> is_in ["Y"; "GAU_Y"]%string k = false ->
      (is_in ["Z"; "GAU_Z"; "COV_Err_XYZ"]%string k || err_col k) = false -> is_in mag_cols k = false ->
      exists v', col_result px py pz km (match lastf magnitude calls with Some _ => true | None => false end) k v v').
    { intros k v A1 A2 A3 A4 A5. exists v. apply col_same; auto. }
    intros k v H. unfold raw_table in H. apply in_app_or in H. destruct H as [H|H].
    + cbn [In] in H. repeat (destruct H as [H|H];
        [injection H as <- <-; first [apply sc; reflexivity|apply xc; reflexivity|apply yc; reflexivity|apply fc; first [reflexivity|exact I|assumption]|apply zc; first [reflexivity|assumption]]|]).
      contradiction.
    + destruct (lastf magnitude calls) as [((m1, m2), m3)|]; cbn [mag_of In] in H; [|contradiction].
      repeat (destruct H as [H|H]; [injection H as <- <-; eexists; apply col_ml; reflexivity|]). contradiction.
Qed.
Print Assumptions C112_written_iff.

(** An event that does not come from a trigger file is never written. *)
Theorem C112_untriggered : forall prec km calls e0 e, event_init None = Ret e0 -> Forall sane calls -> apply_ops e0 calls = Ret e -> write_file prec km e = Raise AttributeError.
Proof.
  intros prec km calls e0 e [= <-] S H. apply state_after in H; [|exact S]. unfold write_file. rewrite (s_trig _ _ _ H). reflexivity.
Qed.
Print Assumptions C112_untriggered.

(** What the object says about the event is what the last calls gave. *)
Theorem C112_getters : forall triggered e0 calls e, event_init triggered = Ret e0 -> Forall sane calls -> apply_ops e0 calls = Ret e ->
  (forall x y z, latest spline calls (x, y, z) -> get_hypocentre e "spline" = Ret [VNum x; VNum y; VNum z])
  /\ (forall x y z u, latest gaussian calls ((x, y, z), u) -> get_hypocentre e "gaussian" = Ret [VNum x; VNum y; VNum z])
  /\ (forall x y z u, latest covariance calls ((x, y, z), u) -> get_hypocentre e "covariance" = Ret [VNum x; VNum y; VNum z])
  /\ (forall p x y z, latest gaussian calls (p, (x, y, z)) -> get_loc_uncertainty e "gaussian" = Ret [VNum x; VNum y; VNum z])
  /\ (forall p x y z, latest covariance calls (p, (x, y, z)) -> get_loc_uncertainty e "covariance" = Ret [VNum x; VNum y; VNum z])
  /\ (never spline calls -> get_hypocentre e "spline" = Raise KeyError)
  /\ (never gaussian calls -> get_hypocentre e "gaussian" = Raise KeyError /\ get_loc_uncertainty e "gaussian" = Raise KeyError)
  /\ (never covariance calls -> get_hypocentre e "covariance" = Raise KeyError /\ get_loc_uncertainty e "covariance" = Raise KeyError)
  /\ get_loc_uncertainty e "spline" = Raise KeyError
  /\ (forall a b c, latest magnitude calls (a, b, c) -> local_magnitude e = Some [VNum a; VNum b; VNum c])
  /\ (never magnitude calls -> local_magnitude e = None)
  /\ (forall rows t c n, latest computed calls rows -> first_largest rows (t, c, n) -> v_otime e = Some t
        /\ max_coalescence e = Ret [("DT", VTime t); ("COA", VNum (Fin c)); ("COA_NORM", VNum (Fin n))]%string)
  /\ (never computed calls -> v_otime e = None /\ max_coalescence e = Raise TypeError).
Proof.
  intros tr e0 calls e Hi Hs Ha.
  assert (E0 : exists trig, e0 = mk_event trig None None [] []).
  { destruct tr as [d|]; [|injection Hi as <-; eauto]. apply init_spec in Hi. destruct Hi as (uid & t' & a' & b' & c' & _ & _ & _ & ->). eauto. }
  destruct E0 as (trig & ->). apply state_after in Ha; [|exact Hs]. destruct Ha as [T1 T2 T3 T4 T5 T6].
  unfold get_hypocentre, get_loc_uncertainty, location_items, local_magnitude. rewrite T2, T3, T4, T5.
  split; [intros x y z L; apply latest_lastf in L; rewrite L; reflexivity|].
  split; [intros x y z ((u1, u2), u3) L; apply latest_lastf in L; rewrite L; reflexivity|].
  split; [intros x y z ((u1, u2), u3) L; apply latest_lastf in L; rewrite L; reflexivity|].
  split; [intros ((p1, p2), p3) x y z L; apply latest_lastf in L; rewrite L; reflexivity|].
  split; [intros ((p1, p2), p3) x y z L; apply latest_lastf in L; rewrite L; reflexivity|].
  split; [intros N; apply never_lastf in N; rewrite N; reflexivity|].
  split; [intros N; apply never_lastf in N; rewrite N; split; reflexivity|].
  split; [intros N; apply never_lastf in N; rewrite N; split; reflexivity|].
  split; [destruct (lastf spline calls) as [((x, y), z)|]; reflexivity|].
  split; [intros a b c L; apply latest_lastf in L; rewrite L; reflexivity|].
  split; [intros N; apply never_lastf in N; rewrite N; reflexivity|].
  split.
  - intros rows t c n L F. apply latest_lastf in L. rewrite L in T6. destruct T6 as (kept & r & A & B & C & D).
    assert (r = (t, c, n)) by (eapply first_largest_unique; eassumption). subst r. split; [exact B|].
    unfold max_coalescence. rewrite A, (row_of_max_ret _ _ C). reflexivity.
  - intros N. apply never_lastf in N. rewrite N in T6. destruct T6 as [A B]. split; [exact B|]. unfold max_coalescence. rewrite A. reflexivity.
Qed.
Print Assumptions C112_getters.

(** The overall uncertainty lies between the smallest and the largest of the three; it is 0 exactly if one of them is. *)
Theorem C112_mean_error : forall e x a b c e', (0 <= a)%R -> (0 <= b)%R -> (0 <= c)%R ->
  apply_op e (AddCovariance x (Fin a, Fin b, Fin c)) = Ret e' ->
  exists loc m, dget (v_loc e') "covariance" = Some loc /\ dget loc "Err_XYZ" = Some (VNum (Fin m))
    /\ (m * m * m = a * b * c /\ Rmin a (Rmin b c) <= m <= Rmax a (Rmax b c))%R /\ (m = 0 <-> a = 0 \/ b = 0 \/ c = 0)%R.
Proof.
  intros e x a b c e' A B C H. cbn [apply_op] in H. change (emul (emul (Fin a) (Fin b)) (Fin c)) with (Fin (a * b * c)) in H.
  assert (P : (0 <= a * b * c)%R) by (apply Rmult_le_pos; [apply Rmult_le_pos; assumption|assumption]).
  destruct (cube_root_spec _ P) as (m & Em & M & E). destruct x as ((x1, x2), x3). cbv zeta in H. rewrite Em in H. injection H as <-.
  eexists. exists m. cbn [v_loc]. rewrite dget_dset, String.eqb_refl. split; [reflexivity|]. split; [reflexivity|].
  split; [split; [exact E|apply mean_between; assumption]|]. split.
  - intros ->. rewrite !Rmult_0_l in E. symmetry in E. apply Rmult_integral in E. destruct E as [E|E]; [|tauto]. apply Rmult_integral in E. tauto.
  - intros [->|[->| ->]]; rewrite ?Rmult_0_l, ?Rmult_0_r, ?Rmult_0_l in E; apply Rmult_integral in E; destruct E as [E|E]; try exact E;
      apply Rmult_integral in E; destruct E as [E|E]; exact E.
Qed.
Print Assumptions C112_mean_error.

Definition ex_trigger : dict val :=
  [("EventID", VStr "20240101000000000"); ("CoaTime", VTime 5); ("COA_V", VNum (Fin 3)); ("COA", VNum (Fin 2)); ("COA_NORM", VNum (Fin 1))]%string.
Definition ex_calls : list op :=
  [AddCompute [(0, 1%R, 1%R); (1, 5%R, 2%R); (2, 5%R, 3%R); (9, 1%R, 1%R)]; AddSpline (Fin 1, Fin 2, Fin 3); Trim 3; AddSpline (Fin 4, Fin 5, Fin 6);
   AddGaussian (Fin 4, Fin 5, Fin 6) (Fin 1, Fin 1, NaN); AddCovariance (Fin 4, Fin 5, Fin 6) (Fin 1, Fin 2, Fin 4)].
(** The largest value comes twice, the spline location is given twice, an uncertainty is NaN. *)
Example C112_example : exists e0 e,
  event_init (Some ex_trigger) = Ret e0 /\ trigger_read ex_trigger (VNum (Fin 3)) (VNum (Fin 2)) (VNum (Fin 1)) /\ Forall sane ex_calls /\ apply_ops e0 ex_calls = Ret e
  /\ latest spline ex_calls (Fin 4, Fin 5, Fin 6) /\ latest computed ex_calls [(0, 1%R, 1%R); (1, 5%R, 2%R); (2, 5%R, 3%R); (9, 1%R, 1%R)]
  /\ first_largest [(0, 1%R, 1%R); (1, 5%R, 2%R); (2, 5%R, 3%R); (9, 1%R, 1%R)] (1, 5%R, 2%R) /\ v_otime e = Some 1
  /\ (exists file, write_file (2, 2, 1) true e = Ret file) /\ ~ (exists file, write_file (4, 4, -2) false e = Ret file).
Proof.
  assert (F : first_largest [(0, 1%R, 1%R); (1, 5%R, 2%R); (2, 5%R, 3%R); (9, 1%R, 1%R)] (1, 5%R, 2%R)).
  { exists [(0, 1%R, 1%R)], [(2, 5%R, 3%R); (9, 1%R, 1%R)]. split; [reflexivity|]. split; repeat constructor; cbn; lra. }
  assert (S : Forall sane ex_calls) by (repeat constructor; cbn; lia).
  destruct (event_init (Some ex_trigger)) as [e0| |] eqn:E0; [|discriminate E0|discriminate E0].
  assert (R1 : row_of_max [(0, 1%R, 1%R); (1, 5%R, 2%R); (2, 5%R, 3%R); (9, 1%R, 1%R)] = Ret (1, 5%R, 2%R)) by (apply row_of_max_ret; exact F).
  assert (A : exists e, apply_ops e0 ex_calls = Ret e).
  { unfold ex_calls. cbn [apply_ops apply_op]. rewrite R1. cbn -[row_of_max]. 
    rewrite (row_of_max_ret [(0, 1%R, 1%R); (1, 5%R, 2%R); (2, 5%R, 3%R)] (1, 5%R, 2%R)); [cbn; eauto|].
    exists [(0, 1%R, 1%R)], [(2, 5%R, 3%R)]. split; [reflexivity|]. split; repeat constructor; cbn; lra. }
  destruct A as (e & A). exists e0, e.
  assert (Ls : latest spline ex_calls (Fin 4, Fin 5, Fin 6)) by (apply latest_lastf; reflexivity).
  assert (Lg : latest gaussian ex_calls ((Fin 4, Fin 5, Fin 6), (Fin 1, Fin 1, NaN))) by (apply latest_lastf; reflexivity).
  assert (Lv : latest covariance ex_calls ((Fin 4, Fin 5, Fin 6), (Fin 1, Fin 2, Fin 4))) by (apply latest_lastf; reflexivity).
  assert (Lr : latest computed ex_calls [(0, 1%R, 1%R); (1, 5%R, 2%R); (2, 5%R, 3%R); (9, 1%R, 1%R)]) by (apply latest_lastf; reflexivity).
  assert (T : trigger_read ex_trigger (VNum (Fin 3)) (VNum (Fin 2)) (VNum (Fin 1))) by reflexivity.
  repeat split; try assumption.
  - apply (C112_getters _ _ _ _ E0 S A) with (rows := [(0, 1%R, 1%R); (1, 5%R, 2%R); (2, 5%R, 3%R); (9, 1%R, 1%R)]) (c := 5%R) (n := 2%R); assumption.
  - apply (C112_written_iff 2 2 1 true _ _ _ _ _ _ _ E0 T S A). do 6 eexists. split; [exact Lr|]. split; [exact Ls|]. split; [exact Lg|]. split; [exact Lv|].
    cbn. split; [exact I|]. split; [exact I|]. split; [exact I|]. left. lia.
  - intros W. apply (C112_written_iff 4 4 (-2) false _ _ _ _ _ _ _ E0 T S A) in W. destruct W as (rows & s & g & gu & cv & cu & _ & _ & L & _ & _ & _ & _ & [C|(_ & _ & C & _)]); [cbn in C; lia|].
    apply latest_lastf in L. apply latest_lastf in Lg. assert (gu = (Fin 1, Fin 1, NaN)) by congruence. subst gu. cbn in C. tauto.
Qed.

(** Lemmas about the Event object. *)
From Coq Require Import String Ascii.
From Coq Require Import List ZArith Reals Bool Lia Lra.
From Verif Require Import Lib PyDict ScanMseed_Model ScanMseed_Proofs Mag_Model Catalogue_Model Catalogue_Spec Catalogue_Proofs Event_Model Event_Spec.
Import ListNotations.
Open Scope Z_scope.

Lemma bind_ret A B (o : outcome A) (f : A -> outcome B) y : bind o f = Ret y -> exists x, o = Ret x /\ f x = Ret y.
Proof. destruct o; cbn; intros H; try discriminate. eauto. Qed.

(** * The last call of a kind *)

Definition lastf {A} (f : op -> option A) (ops : list op) : option A :=
  fold_left (fun acc o => match f o with Some x => Some x | None => acc end) ops None.
Lemma lastf_snoc A (f : op -> option A) ops o : lastf f (ops ++ [o]) = match f o with Some x => Some x | None => lastf f ops end.
Proof. unfold lastf. rewrite fold_left_app. reflexivity. Qed.
Lemma never_lastf A (f : op -> option A) ops : never f ops <-> lastf f ops = None.
Proof.
  unfold never. induction ops as [|o ops IH] using rev_ind; [split; [reflexivity|constructor]|].
  rewrite lastf_snoc, Forall_app. destruct (f o) eqn:E.
  - split; [intros [_ H]; inversion H; congruence|discriminate].
  - rewrite IH. split; [tauto|]. intros H. split; [exact H|constructor; [exact E|constructor]].
Qed.
Lemma latest_lastf A (f : op -> option A) ops a : latest f ops a <-> lastf f ops = Some a.
Proof.
  unfold latest. induction ops as [|o ops IH] using rev_ind.
  - split; [intros (b & c & af & H & _); destruct b; discriminate|discriminate].
  - rewrite lastf_snoc. destruct (f o) as [x|] eqn:E; split.
    + intros (b & c & af & H & Hc & Ha). destruct af as [|y af _] using rev_ind.
      * apply app_inj_tail in H. destruct H as [_ <-]. congruence.
      * rewrite app_comm_cons, app_assoc in H. apply app_inj_tail in H. destruct H as [_ <-].
        apply Forall_app in Ha. destruct Ha as [_ Ha]. inversion Ha. congruence.
    + intros [= <-]. exists ops, o, []. repeat split; [exact E|constructor].
    + intros (b & c & af & H & Hc & Ha). apply IH. destruct af as [|y af _] using rev_ind.
      * apply app_inj_tail in H. destruct H as [_ <-]. congruence.
      * rewrite app_comm_cons, app_assoc in H. apply app_inj_tail in H. destruct H as [-> _].
        exists b, c, af. repeat split; [exact Hc|]. apply Forall_app in Ha. tauto.
    + intros H. apply IH in H. destruct H as (b & c & af & -> & Hc & Ha). exists b, c, (af ++ [o]).
      rewrite <- app_assoc. repeat split; [exact Hc|]. apply Forall_app. split; [exact Ha|]. constructor; [exact E|constructor].
Qed.
Lemma apply_ops_snoc ops : forall e o, apply_ops e (ops ++ [o]) = bind (apply_ops e ops) (fun e' => apply_op e' o).
Proof.
  induction ops as [|x r IH]; intros e o; cbn [app apply_ops].
  - cbn [bind]. destruct (apply_op e o); reflexivity.
  - destruct (apply_op e x); cbn [bind]; [apply IH|reflexivity|reflexivity].
Qed.

(** * The first of the largest *)

Lemma best_row_spec rest : forall before best mid, 
  Forall (fun x => snd (fst x) < snd (fst best))%R before -> Forall (fun x => snd (fst x) <= snd (fst best))%R mid ->
  first_largest (before ++ best :: mid ++ rest) (best_row best rest).
Proof.
  induction rest as [|r rest IH]; intros before best mid Hb Hm; cbn [best_row].
  - exists before, mid. rewrite app_nil_r. repeat split; assumption.
  - destruct (Rlt_dec (snd (fst best)) (snd (fst r))) as [H|H].
    + replace (before ++ best :: mid ++ r :: rest) with ((before ++ best :: mid) ++ r :: [] ++ rest) by (rewrite <- app_assoc; reflexivity).
      apply IH; [|constructor]. apply Forall_app. split; [|constructor; [exact H|]].
      * eapply Forall_impl; [|exact Hb]. cbn. intros a Ha. lra.
      * eapply Forall_impl; [|exact Hm]. cbn. intros a Ha. lra.
    + replace (mid ++ r :: rest) with ((mid ++ [r]) ++ rest) by (rewrite <- app_assoc; reflexivity).
      apply IH; [exact Hb|]. apply Forall_app. split; [exact Hm|]. constructor; [lra|constructor].
Qed.
Lemma row_of_max_spec rows r : row_of_max rows = Ret r -> first_largest rows r.
Proof.
  destruct rows as [|x rest]; cbn [row_of_max]; [discriminate|]. intros [= <-].
  apply (best_row_spec rest [] x []); constructor.
Qed.
Lemma first_largest_unique rows r s : first_largest rows r -> first_largest rows s -> r = s.
Proof.
  intros (b & a & -> & Hb & Ha) (b' & a' & E & Hb' & Ha').
  revert b' E Hb'. induction b as [|x b IH]; intros b' E Hb'.
  - destruct b' as [|y b']; cbn in E; [congruence|]. injection E as -> E. inversion Hb'; subst.
    assert (I : In s (b' ++ s :: a')) by (apply in_or_app; right; left; reflexivity).
    rewrite Forall_forall in Ha. specialize (Ha s I). cbn in *. lra.
  - destruct b' as [|y b']; cbn in E.
    + injection E as <- E. inversion Hb; subst.
      assert (I : In r (b ++ r :: a)) by (apply in_or_app; right; left; reflexivity).
      rewrite Forall_forall in Ha'. specialize (Ha' r I). lra.
    + injection E as <- E. inversion Hb; subst. inversion Hb'; subst. exact (IH ltac:(assumption) b' E ltac:(assumption)).
Qed.
Lemma first_largest_filter (P : Z * R * R -> bool) rows r : first_largest rows r -> P r = true -> first_largest (filter P rows) r.
Proof.
  intros (b & a & -> & Hb & Ha) H. exists (filter P b), (filter P a). rewrite filter_app. cbn [filter]. rewrite H.
  split; [reflexivity|]. split; apply Forall_forall; intros x I; apply filter_In in I; destruct I as [I _];
    rewrite Forall_forall in Hb, Ha; auto.
Qed.
Lemma row_of_max_ret rows r : first_largest rows r -> row_of_max rows = Ret r.
Proof.
  intros H. destruct rows as [|x rest] eqn:E.
  - destruct H as (b & a & H & _). destruct b; discriminate.
  - cbn [row_of_max]. f_equal. eapply first_largest_unique; [|exact H]. apply (row_of_max_spec (x :: rest)). reflexivity.
Qed.

(** * The state after a history of calls *)

Definition mag_of (m : option (ext * ext * ext)) : dict val :=
  match m with Some (a, b, c) => [("ML"%string, VNum a); ("ML_Err"%string, VNum b); ("ML_r2"%string, VNum c)] | None => [] end.
Definition cov_of (p : (ext * ext * ext) * (ext * ext * ext)) : dict val :=
  let '(x, u) := p in let '(a, b, c) := u in coords x ++ errors u ++ [("Err_XYZ"%string, VNum (cube_root (emul (emul a b) c)))].
Definition gau_of (p : (ext * ext * ext) * (ext * ext * ext)) : dict val := let '(x, u) := p in coords x ++ errors u.
Definition rows_of (e : event) (m : option (list (Z * R * R))) : Prop :=
  match m with
  | None => v_coa e = None /\ v_otime e = None
  | Some rows => exists kept r, v_coa e = Some kept /\ v_otime e = Some (fst (fst r)) /\ first_largest kept r /\ first_largest rows r
  end.
Record state_of (trig : option (val * dict val)) (ops : list op) (e : event) : Prop := {
  s_trig : v_trig e = trig;
  s_spline : dget (v_loc e) "spline" = option_map coords (lastf spline ops);
  s_gau : dget (v_loc e) "gaussian" = option_map gau_of (lastf gaussian ops);
  s_cov : dget (v_loc e) "covariance" = option_map cov_of (lastf covariance ops);
  s_mag : v_mag e = mag_of (lastf magnitude ops);
  s_rows : rows_of e (lastf computed ops) }.

Lemma state_after trig ops : forall e, Forall sane ops -> apply_ops (mk_event trig None None [] []) ops = Ret e -> state_of trig ops e.
Proof.
  induction ops as [|o ops IH] using rev_ind; intros e S H.
  - cbn in H. injection H as <-. constructor; try reflexivity. split; reflexivity.
  - rewrite apply_ops_snoc in H. apply bind_ret in H. destruct H as (e1 & H1 & H). apply Forall_app in S. destruct S as [S So].
    destruct (IH e1 S H1) as [T1 T2 T3 T4 T5 T6]. clear IH H1. inversion So as [|? ? So' _]; subst. clear So S.
    destruct o as [rows|x u|x u|x|a b c|w]; cbn [apply_op] in H.
    + apply bind_ret in H. destruct H as (r & Hr & H). injection H as <-. apply row_of_max_spec in Hr.
      constructor; rewrite ?lastf_snoc; cbn [computed spline gaussian covariance magnitude v_trig v_loc v_mag]; try assumption; try reflexivity.
      exists rows, r. repeat split; try assumption; reflexivity.
    + destruct u as ((a, b), c). injection H as <-.
      constructor; rewrite ?lastf_snoc; cbn [computed spline gaussian covariance magnitude v_trig v_loc v_mag]; rewrite ?dget_dset; cbn [String.eqb Ascii.eqb Bool.eqb]; try assumption; try reflexivity.
    + injection H as <-.
      constructor; rewrite ?lastf_snoc; cbn [computed spline gaussian covariance magnitude v_trig v_loc v_mag]; rewrite ?dget_dset; cbn [String.eqb Ascii.eqb Bool.eqb]; try assumption; try reflexivity.
    + injection H as <-.
      constructor; rewrite ?lastf_snoc; cbn [computed spline gaussian covariance magnitude v_trig v_loc v_mag]; rewrite ?dget_dset; cbn [String.eqb Ascii.eqb Bool.eqb]; try assumption; try reflexivity.
    + injection H as <-.
      constructor; rewrite ?lastf_snoc; cbn [computed spline gaussian covariance magnitude v_trig v_loc v_mag]; try assumption; try reflexivity.
      rewrite T5. destruct (lastf magnitude ops) as [((? & ?) & ?)|]; reflexivity.
    + destruct (v_otime e1) as [t|] eqn:Et; [|discriminate]. destruct (v_coa e1) as [rows|] eqn:Ec; [|discriminate].
      set (P := fun r : Z * R * R => (t - w <=? fst (fst r)) && (fst (fst r) <=? t + w)) in *.
      destruct (filter P rows) as [|k0 ks] eqn:Ef; [discriminate|]. rewrite <- Ef in *.
      apply bind_ret in H. destruct H as (r & Hr & H). injection H as <-. apply row_of_max_spec in Hr. cbn [sane] in So'.
      constructor; rewrite ?lastf_snoc; cbn [computed spline gaussian covariance magnitude v_trig v_loc v_mag]; try assumption; try reflexivity.
      unfold rows_of in *. destruct (lastf computed ops) as [rows0|].
      * destruct T6 as (kept & r0 & A & B & C & D).
        assert (kept = rows) by congruence. assert (t = fst (fst r0)) by congruence. subst kept t.
        assert (r = r0). { eapply first_largest_unique; [exact Hr|]. apply first_largest_filter; [exact C|]. unfold P. lia. }
        subst r0. exists (filter P rows), r. cbn [v_coa v_otime]. repeat split; assumption.
      * destruct T6 as [A B]. congruence.
Qed.

(** * Columns *)

Lemma map_cols_inv P f d : forall d', map_cols P f d = Ret d' ->
  keys d' = keys d /\ forall k v, dget d k = Some v -> exists v', dget d' k = Some v' /\ (if P k then f v = Ret v' else v' = v).
Proof.
  induction d as [|(k, v) r IH]; intros d'; cbn [map_cols].
  - intros [= <-]. split; [reflexivity|]. cbn. discriminate.
  - intros H. apply bind_ret in H. destruct H as (v' & Hv & H). apply bind_ret in H. destruct H as (r' & Hr & H). injection H as <-.
    destruct (IH r' Hr) as [K G]. split; [unfold keys in *; cbn; congruence|]. intros k0 v0. cbn [dget].
    destruct (String.eqb_spec k k0) as [<-|N]; [|apply G]. intros [= <-]. exists v'. split; [reflexivity|].
    destruct (P k); [exact Hv|congruence].
Qed.
Lemma map_cols_total P f d : (forall k v, In (k, v) d -> P k = true -> exists v', f v = Ret v') -> exists d', map_cols P f d = Ret d'.
Proof.
  induction d as [|(k, v) r IH]; intros H; cbn [map_cols]; [eauto|].
  assert (E : exists v', (if P k then f v else Ret v) = Ret v').
  { destruct (P k) eqn:Ek; [|eauto]. apply (H k v); [left; reflexivity|exact Ek]. }
  destruct E as (v' & ->). cbn [bind]. destruct IH as (r' & ->); [intros k0 v0 I; apply H; right; exact I|]. cbn [bind]. eauto.
Qed.
Lemma dget_In A (d : dict A) k v : NoDup (keys d) -> In (k, v) d -> dget d k = Some v.
Proof.
  unfold keys. induction d as [|(a, x) r IH]; cbn; [tauto|]. intros N [E|I].
  - injection E as -> ->. now rewrite String.eqb_refl.
  - inversion N; subst. destruct (String.eqb_spec a k) as [->|]; [|auto]. exfalso. apply H1. change k with (fst (k, v)). now apply in_map.
Qed.
Lemma significant_inv n v v' rel : (forall x, Rabs (sig n x - x) <= rel * Rabs x)%R -> significant n v = Ret v' -> shown_figures rel v v'.
Proof.
  intros S. destruct v as [s|t|x|i]; cbn [significant]; intros H; try discriminate; injection H as <-; [|apply S].
  destruct x; cbn; trivial.
Qed.
Lemma significant_total n v : is_number v -> exists v', significant n v = Ret v'.
Proof. destruct v; cbn; intros H; try contradiction; eauto. Qed.
Lemma significant_number n v v' : significant n v = Ret v' -> is_number v.
Proof. destruct v; cbn; intros H; try discriminate; trivial. Qed.
Lemma sig4_rel x : (Rabs (sig 4 x - x) <= / 2000 * Rabs x)%R.
Proof. pose proof (sig4_near x) as H. unfold near in H. lra. Qed.
Lemma sig3_rel x : (Rabs (sig 3 x - x) <= / 200 * Rabs x)%R.
Proof. pose proof (sig3_near x) as H. unfold near in H. lra. Qed.

Lemma round_to_decimal d x : decimal d x (round_to d x).
Proof.
  split; [|exact (round_to_near d x)]. exists (np_round (x * powerRZ 10 d)). unfold round_to. pose proof (ten_pos d). field. lra.
Qed.
Lemma round_to_0 x : round_to 0 x = IZR (np_round x).
Proof. unfold round_to. cbn [powerRZ]. rewrite Rmult_1_r. field. Qed.
Lemma Int_part_IZR n : Int_part (IZR n) = n.
Proof. pose proof (base_Int_part (IZR n)) as [A B]. assert (IZR (Int_part (IZR n)) <= IZR n)%R by exact A. assert (IZR n < IZR (Int_part (IZR n) + 1))%R by (rewrite plus_IZR; lra).
  apply le_IZR in H. apply lt_IZR in H0. lia. Qed.
Lemma astype_int_IZR n : astype_int (Fin (IZR n)) = Ret (VInt n).
Proof.
  cbn [astype_int]. destruct (Rlt_dec (IZR n) 0); f_equal; f_equal; [|apply Int_part_IZR].
  rewrite <- opp_IZR, Int_part_IZR. lia.
Qed.
Lemma round_col_inv d x v : 0 <= d -> round_col d (VNum x) = Ret v -> shown_decimals d x v.
Proof.
  intros D. unfold round_col. destruct (Z.leb_spec d 0).
  - assert (d = 0) by lia. subst d. destruct x as [r| | |]; cbn [round_ext]; try (cbn; discriminate).
    rewrite round_to_0, astype_int_IZR. intros [= <-]. cbn. split; [reflexivity|]. apply np_round_near.
  - intros [= <-]. destruct x as [r| | |]; cbn; auto. split; [exact H|apply round_to_decimal].
Qed.
Lemma round_col_total d x : 0 <= d -> 0 < d \/ finite x -> exists v, round_col d (VNum x) = Ret v.
Proof.
  intros D C. unfold round_col. destruct (Z.leb_spec d 0); [|eauto].
  assert (d = 0) by lia. subst d. destruct C as [C|C]; [lia|]. destruct x as [r| | |]; cbn in C; try contradiction.
  cbn [round_ext]. rewrite round_to_0, astype_int_IZR. eauto.
Qed.
Lemma shown_finite d x v : shown_decimals d x v -> 0 < d \/ finite x.
Proof. destruct x; destruct v as [| |[| | |]|]; cbn; intros H; try contradiction; try (left; exact H); right; trivial. Qed.

(** * The mean *)

Lemma cube_root_spec r : (0 <= r)%R -> exists m, cube_root (Fin r) = Fin m /\ (0 <= m)%R /\ (m * m * m = r)%R.
Proof.
  intros H. cbn [cube_root]. destruct (Rlt_dec 0 r) as [P|P].
  - exists (Rpower r (1 / 3)). split; [reflexivity|]. split; [apply Rlt_le, exp_pos|].
    rewrite <- !Rpower_plus. replace (1 / 3 + 1 / 3 + 1 / 3)%R with 1%R by field. apply Rpower_1. exact P.
  - destruct (Rlt_dec r 0); [lra|]. exists 0%R. repeat split; lra.
Qed.
Lemma cube_mono x y : (0 <= y)%R -> (0 <= x)%R -> (x * x * x <= y * y * y)%R -> (x <= y)%R.
Proof.
  intros Hy Hx H. destruct (Rle_lt_dec x y) as [L|L]; [exact L|]. exfalso.
  assert (A : (y * y < x * x)%R) by (apply Rmult_le_0_lt_compat; lra).
  assert (B : (y * y * y <= x * x * y)%R) by (apply Rmult_le_compat_r; lra).
  assert (P : (0 < x * x)%R) by (pose proof (Rle_0_sqr y); unfold Rsqr in *; lra).
  assert (C : (x * x * y < x * x * x)%R) by (apply Rmult_lt_compat_l; lra). lra.
Qed.
Lemma mean_between a b c m : (0 <= a)%R -> (0 <= b)%R -> (0 <= c)%R -> (0 <= m)%R -> (m * m * m = a * b * c)%R ->
  (Rmin a (Rmin b c) <= m <= Rmax a (Rmax b c))%R.
Proof.
  intros A B C M E. set (lo := Rmin a (Rmin b c)). set (hi := Rmax a (Rmax b c)).
  assert (L : (lo <= a /\ lo <= b /\ lo <= c)%R). { pose proof (Rmin_l a (Rmin b c)). pose proof (Rmin_r a (Rmin b c)). pose proof (Rmin_l b c). pose proof (Rmin_r b c). unfold lo. lra. }
  assert (U : (a <= hi /\ b <= hi /\ c <= hi)%R). { pose proof (Rmax_l a (Rmax b c)). pose proof (Rmax_r a (Rmax b c)). pose proof (Rmax_l b c). pose proof (Rmax_r b c). unfold hi. lra. }
  assert (L0 : (0 <= lo)%R). { unfold lo. apply Rmin_glb; [exact A|apply Rmin_glb; assumption]. }
  assert (Z1 : (lo * lo * lo <= a * b * c)%R). { apply Rmult_le_compat; try lra; [apply Rmult_le_pos; lra|]. apply Rmult_le_compat; lra. }
  assert (Z2 : (a * b * c <= hi * hi * hi)%R). { apply Rmult_le_compat; try lra; [apply Rmult_le_pos; lra|]. apply Rmult_le_compat; lra. }
  split; apply cube_mono; try lra.
Qed.

(** * The table that is rounded *)

Definition raw_table (uid a b c : val) (t : Z) (coa norm : R) (x y z gx gy gz gux guy guz cux cuy cuz err : ext) (ml : option (ext * ext * ext)) : dict val :=
  [("EventID", uid); ("DT", VTime t); ("X", VNum x); ("Y", VNum y); ("Z", VNum z); ("COA", VNum (Fin coa)); ("COA_NORM", VNum (Fin norm));
   ("GAU_X", VNum gx); ("GAU_Y", VNum gy); ("GAU_Z", VNum gz); ("GAU_ErrX", VNum gux); ("GAU_ErrY", VNum guy); ("GAU_ErrZ", VNum guz);
   ("COV_ErrX", VNum cux); ("COV_ErrY", VNum cuy); ("COV_ErrZ", VNum cuz); ("COV_Err_XYZ", VNum err);
   ("TRIG_COA", a); ("DEC_COA", b); ("DEC_COA_NORM", c)]%string ++ mag_of ml.
Lemma select_raw uid a b c t coa norm x y z gx gy gz gux guy guz cx cy cz cux cuy cuz err ml :
  select (dupdate (dupdate (dupdate (dupdate (dupdate (dupdate [("EventID"%string, uid)] [("TRIG_COA"%string, a); ("DEC_COA"%string, b); ("DEC_COA_NORM"%string, c)]) (mag_of ml))
      [("DT"%string, VTime t); ("COA"%string, VNum (Fin coa)); ("COA_NORM"%string, VNum (Fin norm))])
      (coords (x, y, z))) (prefixed "GAU_" (gau_of ((gx, gy, gz), (gux, guy, guz)))))
      (prefixed "COV_" (skipn 3 (coords (cx, cy, cz) ++ errors (cux, cuy, cuz) ++ [("Err_XYZ"%string, VNum err)]))))
    (if match dget (mag_of ml) "ML" with Some _ => true | None => false end then event_file_cols ++ mag_cols else event_file_cols)
  = Ret (raw_table uid a b c t coa norm x y z gx gy gz gux guy guz cux cuy cuz err ml).
Proof. destruct ml as [((m1, m2), m3)|]; reflexivity. Qed.

(** The rounding of the table. *)
Definition polish (px py pz : Z) (km with_ml : bool) (df : dict val) : outcome (dict val) :=
  bind (map_cols (contains "COA") (significant 4) df) (fun df =>
  bind (map_cols (is_in ["X"; "GAU_X"]%string) (round_col (xy_decimals px)) df) (fun df =>
  bind (map_cols (is_in ["Y"; "GAU_Y"]%string) (round_col (xy_decimals py)) df) (fun df =>
  bind (map_cols (fun k => is_in ["Z"; "GAU_Z"; "COV_Err_XYZ"]%string k || err_col k) (round_col (z_decimals km pz)) df) (fun df =>
  if with_ml then map_cols (is_in mag_cols) (significant 3) df else Ret df)))).
(** What becomes of one column. *)
Definition col_result (px py pz : Z) (km with_ml : bool) (k : string) (v v' : val) : Prop :=
  exists v1 v2 v3 v4,
    (if contains "COA" k then significant 4 v = Ret v1 else v1 = v)
    /\ (if is_in ["X"; "GAU_X"]%string k then round_col (xy_decimals px) v1 = Ret v2 else v2 = v1)
    /\ (if is_in ["Y"; "GAU_Y"]%string k then round_col (xy_decimals py) v2 = Ret v3 else v3 = v2)
    /\ (if is_in ["Z"; "GAU_Z"; "COV_Err_XYZ"]%string k || err_col k then round_col (z_decimals km pz) v3 = Ret v4 else v4 = v3)
    /\ (if with_ml && is_in mag_cols k then significant 3 v4 = Ret v' else v' = v4).
Lemma polish_inv px py pz km with_ml df file : polish px py pz km with_ml df = Ret file ->
  keys file = keys df /\ forall k v, dget df k = Some v -> exists v', dget file k = Some v' /\ col_result px py pz km with_ml k v v'.
Proof.
  unfold polish. intros H. apply bind_ret in H. destruct H as (d1 & H1 & H). apply bind_ret in H. destruct H as (d2 & H2 & H).
  apply bind_ret in H. destruct H as (d3 & H3 & H). apply bind_ret in H. destruct H as (d4 & H4 & H).
  apply map_cols_inv in H1, H2, H3, H4. destruct H1 as [K1 G1], H2 as [K2 G2], H3 as [K3 G3], H4 as [K4 G4].
  assert (H5 : keys file = keys d4 /\ forall k v, dget d4 k = Some v -> exists v', dget file k = Some v' /\ (if with_ml && is_in mag_cols k then significant 3 v = Ret v' else v' = v)).
  { destruct with_ml; [apply map_cols_inv in H; exact H|]. injection H as <-. split; [reflexivity|]. cbn. eauto. }
  destruct H5 as [K5 G5]. split; [congruence|]. intros k v G.
  destruct (G1 k v G) as (v1 & A1 & B1). destruct (G2 k v1 A1) as (v2 & A2 & B2). destruct (G3 k v2 A2) as (v3 & A3 & B3).
  destruct (G4 k v3 A3) as (v4 & A4 & B4). destruct (G5 k v4 A4) as (v5 & A5 & B5). exists v5. split; [exact A5|].
  exists v1, v2, v3, v4. repeat split; assumption.
Qed.
Lemma polish_total px py pz km with_ml df : NoDup (keys df) ->
  (forall k v, In (k, v) df -> exists v', col_result px py pz km with_ml k v v') -> exists file, polish px py pz km with_ml df = Ret file.
Proof.
  intros N C. unfold polish.
  assert (back : forall d (P : string -> bool) f d', NoDup (keys d) -> map_cols P f d = Ret d' ->
    forall k v', In (k, v') d' -> exists v, In (k, v) d /\ (if P k then f v = Ret v' else v' = v)).
  { clear. intros d P f d' _. revert d'. induction d as [|(k, v) r IH]; intros d' H; cbn [map_cols] in H.
    - injection H as <-. intros k v [].
    - apply bind_ret in H. destruct H as (v' & Hv & H). apply bind_ret in H. destruct H as (r' & Hr & H). injection H as <-.
      intros k0 v0 [E|I].
      + injection E as <- <-. exists v. split; [left; reflexivity|]. destruct (P k); [exact Hv|congruence].
      + destruct (IH r' Hr k0 v0 I) as (v1 & A & B). exists v1. split; [right; exact A|exact B]. }
  destruct (map_cols_total (contains "COA") (significant 4) df) as (d1 & E1).
  { intros k v I E. destruct (C k v I) as (v' & v1 & v2 & v3 & v4 & X & _). rewrite E in X. eauto. }
  rewrite E1. cbn [bind]. pose proof (map_cols_inv _ _ _ _ E1) as [K1 _].
  assert (C1 : forall k w1, In (k, w1) d1 -> exists v' v2 v3 v4, (if is_in ["X"; "GAU_X"]%string k then round_col (xy_decimals px) w1 = Ret v2 else v2 = w1)
    /\ (if is_in ["Y"; "GAU_Y"]%string k then round_col (xy_decimals py) v2 = Ret v3 else v3 = v2)
    /\ (if is_in ["Z"; "GAU_Z"; "COV_Err_XYZ"]%string k || err_col k then round_col (z_decimals km pz) v3 = Ret v4 else v4 = v3)
    /\ (if with_ml && is_in mag_cols k then significant 3 v4 = Ret v' else v' = v4)).
  { intros k w1 I. destruct (back _ _ _ _ N E1 k w1 I) as (v & Iv & Ev). destruct (C k v Iv) as (v' & v1 & v2 & v3 & v4 & X & Y).
    assert (v1 = w1) by (destruct (contains "COA" k); congruence). subst v1. exists v', v2, v3, v4. exact Y. }
  clear C. rewrite <- K1 in N. clear E1 K1 df. rename N into N1.
  destruct (map_cols_total (is_in ["X"; "GAU_X"]%string) (round_col (xy_decimals px)) d1) as (d2 & E2).
  { intros k v I E. destruct (C1 k v I) as (v' & v2 & v3 & v4 & X & _). rewrite E in X. eauto. }
  rewrite E2. cbn [bind]. pose proof (map_cols_inv _ _ _ _ E2) as [K2 _].
  assert (C2 : forall k w2, In (k, w2) d2 -> exists v' v3 v4, (if is_in ["Y"; "GAU_Y"]%string k then round_col (xy_decimals py) w2 = Ret v3 else v3 = w2)
    /\ (if is_in ["Z"; "GAU_Z"; "COV_Err_XYZ"]%string k || err_col k then round_col (z_decimals km pz) v3 = Ret v4 else v4 = v3)
    /\ (if with_ml && is_in mag_cols k then significant 3 v4 = Ret v' else v' = v4)).
  { intros k w2 I. destruct (back _ _ _ _ N1 E2 k w2 I) as (v & Iv & Ev). destruct (C1 k v Iv) as (v' & v2 & v3 & v4 & X & Y).
    assert (v2 = w2) by (destruct (is_in ["X"; "GAU_X"]%string k); congruence). subst v2. exists v', v3, v4. exact Y. }
  clear C1. rewrite <- K2 in N1. clear E2 K2 d1. rename N1 into N2.
  destruct (map_cols_total (is_in ["Y"; "GAU_Y"]%string) (round_col (xy_decimals py)) d2) as (d3 & E3).
  { intros k v I E. destruct (C2 k v I) as (v' & v3 & v4 & X & _). rewrite E in X. eauto. }
  rewrite E3. cbn [bind]. pose proof (map_cols_inv _ _ _ _ E3) as [K3 _].
  assert (C3 : forall k w3, In (k, w3) d3 -> exists v' v4, (if is_in ["Z"; "GAU_Z"; "COV_Err_XYZ"]%string k || err_col k then round_col (z_decimals km pz) w3 = Ret v4 else v4 = w3)
    /\ (if with_ml && is_in mag_cols k then significant 3 v4 = Ret v' else v' = v4)).
  { intros k w3 I. destruct (back _ _ _ _ N2 E3 k w3 I) as (v & Iv & Ev). destruct (C2 k v Iv) as (v' & v3 & v4 & X & Y).
    assert (v3 = w3) by (destruct (is_in ["Y"; "GAU_Y"]%string k); congruence). subst v3. exists v', v4. exact Y. }
  clear C2. rewrite <- K3 in N2. clear E3 K3 d2. rename N2 into N3.
  destruct (map_cols_total (fun k => is_in ["Z"; "GAU_Z"; "COV_Err_XYZ"]%string k || err_col k) (round_col (z_decimals km pz)) d3) as (d4 & E4).
  { intros k v I E. destruct (C3 k v I) as (v' & v4 & X & _). rewrite E in X. eauto. }
  rewrite E4. cbn [bind]. destruct with_ml; [|eauto].
  apply map_cols_total. intros k w4 I E. destruct (back _ _ _ _ N3 E4 k w4 I) as (v & Iv & Ev). cbn beta in Ev. destruct (C3 k v Iv) as (v' & v4 & X & Y).
  assert (v4 = w4) by (destruct (is_in ["Z"; "GAU_Z"; "COV_Err_XYZ"]%string k || err_col k); congruence). subst v4.
  rewrite E in Y. cbn [andb] in Y. eauto.
Qed.

(** * The file *)

Definition trig_info (a b c : val) : dict val := [("TRIG_COA"%string, a); ("DEC_COA"%string, b); ("DEC_COA_NORM"%string, c)].
Lemma parse_spec d info : parse_triggered_event d = Ret info <-> exists a b c, info = trig_info a b c /\ trigger_read d a b c.
Proof.
  unfold parse_triggered_event, trigger_columns, item, trigger_read, trig_info.
  destruct (dget d "TRIG_COA") as [x|], (dget d "COA_V") as [v|], (dget d "COA") as [y|], (dget d "COA_NORM") as [w|]; cbn [bind except_key];
    split; intros H;
    try (injection H as <-; do 3 eexists; split; reflexivity);
    try (destruct H as (a & b & c & -> & E); first [contradiction|injection E as -> -> ->; reflexivity]); discriminate.
Qed.
Lemma init_spec d e0 : event_init (Some d) = Ret e0 <->
  exists uid t a b c, dget d "EventID" = Some uid /\ dget d "CoaTime" = Some t /\ trigger_read d a b c
    /\ e0 = mk_event (Some (uid, trig_info a b c)) None None [] [].
Proof.
  cbn [event_init]. unfold item at 1 2. split.
  - intros H. destruct (dget d "EventID") as [uid|]; [|discriminate]. destruct (dget d "CoaTime") as [t|]; [|discriminate]. cbn [bind] in H.
    apply bind_ret in H. destruct H as (info & H & E). apply parse_spec in H. destruct H as (a & b & c & -> & H). injection E as <-.
    exists uid, t, a, b, c. auto.
  - intros (uid & t & a & b & c & -> & -> & H & ->). cbn [bind].
    assert (P : parse_triggered_event d = Ret (trig_info a b c)) by (apply parse_spec; eauto). rewrite P. reflexivity.
Qed.
Lemma trigger_read_unique d a b c a' b' c' : trigger_read d a b c -> trigger_read d a' b' c' -> (a', b', c') = (a, b, c).
Proof.
  unfold trigger_read. destruct (dget d "TRIG_COA"), (dget d "COA_V"), (dget d "COA"), (dget d "COA_NORM"); intros H H'; try contradiction; congruence.
Qed.

(** A history in which everything was added. *)
Lemma write_complete px py pz km uid a b c ops e rows t coa norm s g gu cv cux cuy cuz : 
  state_of (Some (uid, trig_info a b c)) ops e -> lastf computed ops = Some rows -> first_largest rows (t, coa, norm) ->
  lastf spline ops = Some s -> lastf gaussian ops = Some (g, gu) -> lastf covariance ops = Some (cv, (cux, cuy, cuz)) ->
  write_file (px, py, pz) km e =
    let '(x, y, z) := s in let '(gx, gy, gz) := g in let '(gux, guy, guz) := gu in
    polish px py pz km (match lastf magnitude ops with Some _ => true | None => false end)
      (raw_table uid a b c t coa norm x y z gx gy gz gux guy guz cux cuy cuz (cube_root (emul (emul cux cuy) cuz)) (lastf magnitude ops)).
Proof.
  intros [T1 T2 T3 T4 T5 T6] Lc F Ls Lg Lv. rewrite Ls in T2. rewrite Lg in T3. rewrite Lv in T4. rewrite Lc in T6. cbn [option_map] in *.
  destruct T6 as (kept & r & C1 & C2 & C3 & C4). assert (r = (t, coa, norm)) by (eapply first_largest_unique; eassumption). subst r.
  destruct s as ((x, y), z), g as ((gx, gy), gz), gu as ((gux, guy), guz), cv as ((cx, cy), cz).
  unfold write_file. rewrite T1. unfold max_coalescence. rewrite C1. rewrite (row_of_max_ret _ _ C3). cbn [bind]. rewrite T2, T3, T4, T5.
  cbn [cov_of]. unfold trig_info. rewrite select_raw. cbn [bind]. unfold polish.
  destruct (lastf magnitude ops) as [((m1, m2), m3)|]; reflexivity.
Qed.
Lemma raw_nodup uid a b c t coa norm x y z gx gy gz gux guy guz cux cuy cuz err ml :
  NoDup (keys (raw_table uid a b c t coa norm x y z gx gy gz gux guy guz cux cuy cuz err ml)).
Proof.
  unfold raw_table, keys. rewrite map_app. destruct ml as [((m1, m2), m3)|]; cbn [mag_of map fst app];
    repeat constructor; cbn; intros H; repeat (destruct H as [H|H]; [discriminate|]); exact H.
Qed.

Lemma z_decimals_pos km p : 0 <= z_decimals km p.
Proof. unfold z_decimals. destruct km; lia. Qed.
Lemma xy_decimals_pos p : 0 < xy_decimals p.
Proof. unfold xy_decimals. lia. Qed.
(** Results for the kinds of columns. *)
Lemma col_same px py pz km w k v v' : (contains "COA" k = false) -> is_in ["X"; "GAU_X"]%string k = false -> is_in ["Y"; "GAU_Y"]%string k = false ->
  (is_in ["Z"; "GAU_Z"; "COV_Err_XYZ"]%string k || err_col k) = false -> is_in mag_cols k = false -> col_result px py pz km w k v v' <-> v' = v.
Proof.
  intros A B C D E. unfold col_result. rewrite A, B, C, D, E, andb_false_r. split; [|intros ->; exists v, v, v, v; repeat split].
  intros (v1 & v2 & v3 & v4 & X1 & X2 & X3 & X4 & X5). congruence.
Qed.
Lemma col_coa px py pz km w k v v' : (contains "COA" k = true) -> is_in ["X"; "GAU_X"]%string k = false -> is_in ["Y"; "GAU_Y"]%string k = false ->
  (is_in ["Z"; "GAU_Z"; "COV_Err_XYZ"]%string k || err_col k) = false -> is_in mag_cols k = false -> col_result px py pz km w k v v' <-> significant 4 v = Ret v'.
Proof.
  intros A B C D E. unfold col_result. rewrite A, B, C, D, E, andb_false_r. split; [|intros H; exists v', v', v', v'; repeat split; exact H].
  intros (v1 & v2 & v3 & v4 & X1 & X2 & X3 & X4 & X5). congruence.
Qed.
Lemma col_x px py pz km w k v v' : (contains "COA" k = false) -> is_in ["X"; "GAU_X"]%string k = true -> is_in ["Y"; "GAU_Y"]%string k = false ->
  (is_in ["Z"; "GAU_Z"; "COV_Err_XYZ"]%string k || err_col k) = false -> is_in mag_cols k = false -> col_result px py pz km w k v v' <-> round_col (xy_decimals px) v = Ret v'.
Proof.
  intros A B C D E. unfold col_result. rewrite A, B, C, D, E, andb_false_r. split; [|intros H; exists v, v', v', v'; repeat split; exact H].
  intros (v1 & v2 & v3 & v4 & X1 & X2 & X3 & X4 & X5). congruence.
Qed.
Lemma col_y px py pz km w k v v' : (contains "COA" k = false) -> is_in ["X"; "GAU_X"]%string k = false -> is_in ["Y"; "GAU_Y"]%string k = true ->
  (is_in ["Z"; "GAU_Z"; "COV_Err_XYZ"]%string k || err_col k) = false -> is_in mag_cols k = false -> col_result px py pz km w k v v' <-> round_col (xy_decimals py) v = Ret v'.
Proof.
  intros A B C D E. unfold col_result. rewrite A, B, C, D, E, andb_false_r. split; [|intros H; exists v, v, v', v'; repeat split; exact H].
  intros (v1 & v2 & v3 & v4 & X1 & X2 & X3 & X4 & X5). congruence.
Qed.
Lemma col_z px py pz km w k v v' : (contains "COA" k = false) -> is_in ["X"; "GAU_X"]%string k = false -> is_in ["Y"; "GAU_Y"]%string k = false ->
  (is_in ["Z"; "GAU_Z"; "COV_Err_XYZ"]%string k || err_col k) = true -> is_in mag_cols k = false -> col_result px py pz km w k v v' <-> round_col (z_decimals km pz) v = Ret v'.
Proof.
  intros A B C D E. unfold col_result. rewrite A, B, C, D, E, andb_false_r. split; [|intros H; exists v, v, v, v'; repeat split; exact H].
  intros (v1 & v2 & v3 & v4 & X1 & X2 & X3 & X4 & X5). congruence.
Qed.
Lemma col_ml px py pz km k v v' : (contains "COA" k = false) -> is_in ["X"; "GAU_X"]%string k = false -> is_in ["Y"; "GAU_Y"]%string k = false ->
  (is_in ["Z"; "GAU_Z"; "COV_Err_XYZ"]%string k || err_col k) = false -> is_in mag_cols k = true -> col_result px py pz km true k v v' <-> significant 3 v = Ret v'.
Proof.
  intros A B C D E. unfold col_result. rewrite A, B, C, D, E. cbn [andb]. split; [|intros H; exists v, v, v, v; repeat split; exact H].
  intros (v1 & v2 & v3 & v4 & X1 & X2 & X3 & X4 & X5). congruence.
Qed.

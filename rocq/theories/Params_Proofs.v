(** Proofs about parameters. *)
From Coq Require Import String Ascii.
From Coq Require Import List ZArith Reals Lra Lia Bool.
From Verif Require Import Lib LibFacts PyDict Lut_Model Lut_Proofs Params_Model Params_Spec.
Import ListNotations.

Lemma onset_renamed : forall k, onset_init k = onset_init (renamed_onset k).
Proof.
  intros [rate pos mn bp win c pb sb pw sw]. unfold onset_init, renamed_onset.
  cbn [k_rate k_position k_min k_bp k_win k_centred k_p_bp k_s_bp k_p_win k_s_win].
  destruct rate as [r|]; [|reflexivity]. destruct (Rlt_dec (opt mn (4 / 10)%R) (1 / 100)); [reflexivity|].
  destruct c as [[|]|], pb, sb, pw, sw; reflexivity.
Qed.

Lemma scan_renamed : forall ttmax o k, k_sampling_rate k = None ->
  scan_init ttmax o k
  = scan_init ttmax o
      (mk_skw (match k_time_step k with Some t => Some t | None => k_timestep k end)
         (match k_n_cores k with Some n => Some n | None => k_threads k end) None None None).
Proof.
  intros ttmax o [ts th t2 nc sr] H. cbn in H. subst sr. unfold scan_init.
  destruct (set_post_pad o ttmax); try reflexivity. cbn [bind k_timestep k_threads k_time_step k_n_cores k_sampling_rate].
  destruct t2, nc; reflexivity.
Qed.

Lemma set_post_pad_ok : forall o ttmax, o_win o <> [] -> exists o', set_post_pad o ttmax = Ret o'.
Proof.
  intros o ttmax H. unfold set_post_pad. destruct (o_win o) as [|w l]; [congruence|]. cbn [map py_max bind]. eauto.
Qed.

Lemma scan_sampling_rate_raises : forall ttmax o k r, o_win o <> [] -> k_sampling_rate k = Some r ->
  scan_init ttmax o k = Raise AttributeError.
Proof.
  intros ttmax o k r Hw Hr. unfold scan_init. destruct (set_post_pad_ok o ttmax Hw) as [o' ->]. cbn [bind].
  rewrite Hr. destruct (k_time_step k), (k_n_cores k); reflexivity.
Qed.

Lemma trigger_dynamic : forall k, k_method k = Some "dynamic"%string ->
  trig_init k = trig_init (mk_tkw (Some "mad"%string) (k_mw k) (k_mei k) (k_min_repeat k)).
Proof. intros [m w i r] H. cbn in H. subst m. reflexivity. Qed.

Lemma trigger_renamed : forall k v, k_min_repeat k = Some v -> v <> 0%R ->
  (2 * opt (k_mw k) 2 <= opt (k_mei k) 4)%R ->
  trig_init k = trig_init (mk_tkw (k_method k) (k_mw k) (Some v) None).
Proof.
  intros [m w i r] v Hr Hv Hi. cbn in Hr. subst r. cbn [k_mw k_mei] in Hi. unfold trig_init.
  cbn [k_method k_mw k_mei k_min_repeat]. destruct (set_method _ _) as [t| |]; try reflexivity. cbn [bind].
  unfold set_mei at 1. cbn [set_mw t_mw]. destruct (Rlt_dec (opt i 4%R) (2 * opt w 2%R)) as [Hc|Hc]; [lra|]. cbn [bind].
  destruct (Req_EM_T v 0) as [E|_]; [contradiction|]. cbn [opt]. unfold set_min_repeat, set_mei, set_mw. cbn [t_mw t_method].
  destruct (Rlt_dec v (2 * opt w 2%R)); reflexivity.
Qed.

(** * Maxima *)

Lemma fold_max_ge : forall l x y, In y (x :: l) ->
  (y <= fold_left (fun m v => if Rlt_dec m v then v else m) l x)%R.
Proof.
  induction l as [|a l IH]; intros x y Hy; [destruct Hy as [->|[]]; cbn; lra|]. cbn [fold_left].
  destruct (Rlt_dec x a) as [H|H].
  - destruct Hy as [->|Hy]; [|exact (IH a y Hy)]. apply Rle_trans with a; [lra|]. apply IH. now left.
  - destruct Hy as [->|[->|Hy]].
    + apply IH. now left.
    + apply Rle_trans with x; [lra|]. apply IH. now left.
    + apply IH. now right.
Qed.
Lemma fold_max_in : forall l x, In (fold_left (fun m v => if Rlt_dec m v then v else m) l x) (x :: l).
Proof.
  induction l as [|a l IH]; intros x; [now left|]. cbn [fold_left]. destruct (Rlt_dec x a).
  - right. apply IH.
  - destruct (IH x) as [E|E]; [left; exact E|right; right; exact E].
Qed.

Lemma py_max_ge : forall l m x, py_max l = Ret m -> In x l -> (x <= m)%R.
Proof.
  intros [|a l] m x Hm Hx; [destruct Hx|]. assert (m = fold_left (fun m v => if Rlt_dec m v then v else m) l a) as ->
    by (unfold py_max in Hm; congruence). apply fold_max_ge. exact Hx.
Qed.
Lemma py_max_in : forall l m, py_max l = Ret m -> In m l.
Proof.
  intros [|a l] m Hm; [discriminate|]. assert (m = fold_left (fun m v => if Rlt_dec m v then v else m) l a) as ->
    by (unfold py_max in Hm; congruence). apply fold_max_in.
Qed.

Lemma pre_pad_covers : forall o phase sta lta, window_of o phase sta lta ->
  exists pre, pre_pad o = Ret pre /\ (lta + 3 * sta <= pre)%R.
Proof.
  intros o ph sta lta H. unfold window_of in H. unfold pre_pad.
  destruct (py_max (map (fun kw => snd (snd kw)) (o_win o))) as [l| |] eqn:El;
    [|destruct (o_win o); [destruct H|discriminate]|destruct (o_win o); discriminate].
  destruct (py_max (map (fun kw => fst (snd kw)) (o_win o))) as [s| |] eqn:Es;
    [|destruct (o_win o); [destruct H|discriminate]|destruct (o_win o); discriminate].
  cbn [bind]. eexists; split; [reflexivity|].
  pose proof (py_max_ge _ _ lta El (in_map (fun kw => snd (snd kw)) _ _ H)).
  pose proof (py_max_ge _ _ sta Es (in_map (fun kw => fst (snd kw)) _ _ H)). lra.
Qed.

Lemma pre_pad_attained : forall o pre, pre_pad o = Ret pre ->
  exists p1 s1 l1 p2 s2 l2, window_of o p1 s1 l1 /\ window_of o p2 s2 l2 /\ pre = (l1 + 3 * s2)%R.
Proof.
  intros o pre H. unfold pre_pad in H.
  destruct (py_max (map (fun kw => snd (snd kw)) (o_win o))) as [l| |] eqn:El; try discriminate.
  destruct (py_max (map (fun kw => fst (snd kw)) (o_win o))) as [s| |] eqn:Es; try discriminate.
  cbn [bind] in H. apply py_max_in in El, Es. apply in_map_iff in El as [[p1 [s1 l1]] [E1 H1]].
  apply in_map_iff in Es as [[p2 [s2 l2]] [E2 H2]]. cbn in E1, E2. subst l s.
  exists p1, s1, l1, p2, s2, l2. repeat split; try assumption. congruence.
Qed.

Lemma set_post_pad_spec : forall o ttmax o', set_post_pad o ttmax = Ret o' ->
  o_win o' = o_win o /\ o_rate o' = o_rate o /\ o_min o' = o_min o /\ o_position o' = o_position o /\ o_bp o' = o_bp o /\
  (forall phase sta lta, window_of o phase sta lta -> (ttmax + 2 * lta <= o_post o')%R) /\
  exists phase sta lta, window_of o phase sta lta /\ (o_post o' < ttmax + 2 * lta + 1)%R.
Proof.
  intros o ttmax o' H. unfold set_post_pad in H.
  destruct (py_max (map (fun kw => snd (snd kw)) (o_win o))) as [l| |] eqn:El; try discriminate. cbn [bind] in H.
  assert (o' = mk_onset (o_rate o) (o_position o) (o_min o) (o_bp o) (o_win o) (IZR (np_ceil (ttmax + 2 * l)))) as -> by congruence.
  cbn. repeat split.
  - intros ph sta lta Hw. pose proof (py_max_ge _ _ lta El (in_map (fun kw => snd (snd kw)) _ _ Hw)).
    destruct (np_ceil_spec (ttmax + 2 * l)). lra.
  - apply py_max_in in El. apply in_map_iff in El as [[p1 [s1 l1]] [E1 H1]]. cbn in E1. subst l.
    exists p1, s1, l1. split; [exact H1|]. destruct (np_ceil_spec (ttmax + 2 * l1)). lra.
Qed.

(** * Scan *)

Lemma scan_init_spec : forall ttmax o k s, scan_init ttmax o k = Ret s ->
  exists o', set_post_pad o ttmax = Ret o' /\ s_onset s = o' /\ s_rate s = Some (o_rate o').
Proof.
  intros ttmax o k s H. unfold scan_init in H. destruct (set_post_pad o ttmax) as [o'| |] eqn:E; try discriminate.
  exists o'. cbn [bind] in H.
  set (s1 := set_n_cores _ _) in H. assert (O1 : s_onset s1 = o') by (unfold s1; destruct (k_n_cores k), (k_time_step k); reflexivity).
  assert (R1 : s_rate s1 = None) by (unfold s1; destruct (k_n_cores k), (k_time_step k); reflexivity).
  destruct (k_sampling_rate k) as [r|].
  - unfold set_sampling_rate in H. rewrite R1 in H. discriminate.
  - cbn [set_sampling_rate bind] in H. unfold set_scan_rate in H. rewrite O1 in H.
    destruct (Req_EM_T (o_rate o') (o_rate o')) as [_|N]; [|congruence].
    assert (s = mk_scan o' (s_timestep s1) (s_threads s1) (Some (o_rate o'))) as -> by congruence. repeat split.
Qed.

Lemma assign_keeps_windows : forall o a, keeps_windows a ->
  o_win (onset_assign o a) = o_win o /\ o_post (onset_assign o a) = o_post o.
Proof. intros o a H. destruct a; cbn in *; try tauto; destruct v as [b|]; try tauto; cbn; tauto. Qed.
Lemma assign_keeps_rate : forall o a, keeps_rate a -> o_rate (onset_assign o a) = o_rate o.
Proof. intros o a H. destruct a; cbn in *; try tauto; destruct v as [b|]; reflexivity. Qed.

Lemma scan_assigns_windows : forall l s, (forall a, In a l -> keeps_windows a) ->
  o_win (s_onset (fold_left scan_assign l s)) = o_win (s_onset s) /\
  o_post (s_onset (fold_left scan_assign l s)) = o_post (s_onset s).
Proof.
  induction l as [|a l IH]; intros s H; [tauto|]. cbn [fold_left].
  destruct (IH (scan_assign s a)) as [E1 E2]; [intros; apply H; now right|].
  destruct (assign_keeps_windows (s_onset s) a) as [F1 F2]; [apply H; now left|].
  rewrite E1, E2. cbn [scan_assign s_onset]. tauto.
Qed.
Lemma scan_assigns_rate : forall l s, (forall a, In a l -> keeps_rate a) ->
  o_rate (s_onset (fold_left scan_assign l s)) = o_rate (s_onset s) /\ s_rate (fold_left scan_assign l s) = s_rate s.
Proof.
  induction l as [|a l IH]; intros s H; [tauto|]. cbn [fold_left].
  destruct (IH (scan_assign s a)) as [E1 E2]; [intros; apply H; now right|].
  rewrite E1, E2. cbn [scan_assign s_onset s_rate]. split; [|reflexivity]. apply assign_keeps_rate. apply H. now left.
Qed.

Lemma pads_hold : forall ttmax o k s l, scan_init ttmax o k = Ret s -> (forall a, In a l -> keeps_windows a) ->
  pads_cover (s_onset (fold_left scan_assign l s)) ttmax.
Proof.
  intros ttmax o k s l H Hl ph sta lta Hw. split; [exact (pre_pad_covers _ _ _ _ Hw)|].
  destruct (scan_init_spec _ _ _ _ H) as [o' [E [Eo _]]]. destruct (set_post_pad_spec _ _ _ E) as [Ew [_ [_ [_ [_ [Hp _]]]]]].
  destruct (scan_assigns_windows l s Hl) as [F1 F2]. rewrite F2, Eo. apply (Hp ph sta lta).
  unfold window_of in Hw |- *. rewrite F1, Eo, Ew in Hw. exact Hw.
Qed.

Lemma rate_holds : forall ttmax o k s l, scan_init ttmax o k = Ret s -> (forall a, In a l -> keeps_rate a) ->
  s_rate (fold_left scan_assign l s) = Some (o_rate (s_onset (fold_left scan_assign l s))).
Proof.
  intros ttmax o k s l H Hl. destruct (scan_init_spec _ _ _ _ H) as [o' [E [Eo Er]]].
  destruct (scan_assigns_rate l s Hl) as [F1 F2]. rewrite F1, F2, Er, Eo. reflexivity.
Qed.

(** * Trigger *)

Lemma set_method_fields : forall t v t', set_method t v = Ret t' ->
  t_mw t' = t_mw t /\ t_mei t' = t_mei t /\ In (t_method t') ["static"; "mad"; "median_ratio"]%string.
Proof.
  intros t v t' H. unfold set_method in H. destruct (existsb (String.eqb v) _) eqn:E.
  - assert (t' = mk_trig v (t_mw t) (t_mei t)) as -> by congruence. cbn [t_mw t_mei t_method]. repeat split.
    apply existsb_exists in E as [x [Hx Ex]]. apply String.eqb_eq in Ex. subst x. exact Hx.
  - destruct (String.eqb v "dynamic"); [|discriminate].
    assert (t' = mk_trig "mad" (t_mw t) (t_mei t)) as -> by congruence. cbn. tauto.
Qed.
Lemma set_mei_fields : forall t v t', set_mei t v = Ret t' ->
  (2 * t_mw t' <= t_mei t')%R /\ t_method t' = t_method t /\ t_mw t' = t_mw t /\ t_mei t' = v.
Proof.
  intros t v t' H. unfold set_mei in H. destruct (Rlt_dec v (2 * t_mw t)); [discriminate|].
  assert (t' = mk_trig (t_method t) (t_mw t) v) as -> by congruence. cbn. repeat split. lra.
Qed.
Lemma set_min_repeat_mei : forall t v, set_min_repeat t v = set_mei t v.
Proof. reflexivity. Qed.

Definition trig_ok (t : trig) : Prop :=
  (2 * t_mw t <= t_mei t)%R /\ In (t_method t) ["static"; "mad"; "median_ratio"]%string.

Lemma trig_init_ok : forall k t, trig_init k = Ret t -> trig_ok t.
Proof.
  intros k t H. unfold trig_init in H. destruct (set_method _ _) as [t0| |] eqn:E0; try discriminate. cbn [bind] in H.
  destruct (set_mei _ _) as [t1| |] eqn:E1; try discriminate. cbn [bind] in H.
  destruct (set_method_fields _ _ _ E0) as [_ [_ M]]. destruct (set_mei_fields _ _ _ E1) as [W [M1 _]]. cbn [set_mw t_method] in M1.
  assert (O1 : trig_ok t1) by (split; [exact W|rewrite M1; exact M]).
  destruct (k_min_repeat k) as [v|]; [|replace t with t1 by congruence; exact O1].
  destruct (Req_EM_T v 0); [replace t with t1 by congruence; exact O1|].
  rewrite set_min_repeat_mei in H. destruct (set_mei_fields _ _ _ H) as [W2 [M2 _]]. split; [exact W2|].
  rewrite M2, M1. exact M.
Qed.

Lemma trig_assigns_ok : forall l t t', trig_assigns t l = Ret t' -> trig_ok t ->
  (forall v, ~ In (TWindow v) l) -> trig_ok t'.
Proof.
  induction l as [|a l IH]; intros t t' H Ht Hl; [replace t' with t by (cbn in H; congruence); exact Ht|].
  cbn [trig_assigns] in H. destruct (trig_assign t a) as [t1| |] eqn:E; try discriminate. cbn [bind] in H.
  apply (IH t1 t' H); [|intros v Hv; apply (Hl v); now right].
  destruct Ht as [W M]. destruct a as [m|v|v|v]; cbn [trig_assign] in E.
  - destruct (set_method_fields _ _ _ E) as [E1 [E2 M1]]. split; [rewrite E1, E2; exact W|exact M1].
  - destruct (set_mei_fields _ _ _ E) as [W2 [M2 _]]. split; [exact W2|rewrite M2; exact M].
  - rewrite set_min_repeat_mei in E. destruct (set_mei_fields _ _ _ E) as [W2 [M2 _]]. split; [exact W2|rewrite M2; exact M].
  - exfalso. apply (Hl v). now left.
Qed.

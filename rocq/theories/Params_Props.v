(** C101 and C102. *)
From Coq Require Import String Ascii.
From Coq Require Import List ZArith Reals Lra Lia Bool.
From Verif Require Import Lib LibFacts PyDict Lut_Model Lut_Proofs Params_Model Params_Spec Params_Proofs.
Import ListNotations.

(** * C101: parameters given under old names *)

Theorem C101_onset_renamed : forall k, onset_init k = onset_init (renamed_onset k).
Proof. exact onset_renamed. Qed.
Print Assumptions C101_onset_renamed.

(** Parameters under their present names are used as given; the documented defaults otherwise. *)
Theorem C101_onset_values : forall k o,
  k_centred k = None -> k_p_bp k = None -> k_s_bp k = None -> k_p_win k = None -> k_s_win k = None ->
  onset_init k = Ret o ->
  k_rate k = Some (o_rate o) /\
  (forall p, k_position k = Some p -> o_position o = p) /\ (k_position k = None -> o_position o = "classic"%string) /\
  (forall m, k_min k = Some m -> o_min o = m) /\ (k_min k = None -> o_min o = (4 / 10)%R) /\
  (forall b, k_bp k = Some b -> o_bp o = b) /\
  (k_bp k = None -> o_bp o = [("P", [2; 16; 2]%R); ("S", [2; 16; 2]%R)]%string) /\
  (forall w, k_win k = Some w -> o_win o = w) /\
  (k_win k = None -> o_win o = [("P", (2 / 10, 1)%R); ("S", (2 / 10, 1)%R)]%string).
Proof.
  intros [rate pos mn bp win c pb sb pw sw] o E1 E2 E3 E4 E5 H. cbn in E1, E2, E3, E4, E5. subst.
  unfold onset_init in H. cbn [k_rate k_position k_min k_bp k_win k_centred k_p_bp k_s_bp k_p_win k_s_win] in H.
  destruct rate as [r|]; [|discriminate]. destruct (Rlt_dec (opt mn (4 / 10)%R) (1 / 100)); [discriminate|].
  cbn [set_centred set_bp set_win] in H.
  assert (o = mk_onset r (opt pos "classic"%string) (opt mn (4 / 10)%R) (opt bp default_bp) (opt win default_win) 0) as -> by congruence.
  cbn [k_rate k_position k_min k_bp k_win o_rate o_position o_min o_bp o_win].
  repeat split; intros; subst; reflexivity.
Qed.
Print Assumptions C101_onset_values.

(** Windows of phases other than P and S are not changed by the old names. *)
Theorem C101_other_phases : forall k o ph, onset_init k = Ret o -> ph <> "P"%string -> ph <> "S"%string ->
  (forall w, k_win k = Some w -> dget (o_win o) ph = dget w ph) /\
  (forall b, k_bp k = Some b -> dget (o_bp o) ph = dget b ph).
Proof.
  intros [rate pos mn bp win c pb sb pw sw] o ph H HP HS. unfold onset_init in H.
  cbn [k_rate k_position k_min k_bp k_win k_centred k_p_bp k_s_bp k_p_win k_s_win] in H |- *.
  destruct rate as [r|]; [|discriminate]. destruct (Rlt_dec (opt mn (4 / 10)%R) (1 / 100)); [discriminate|].
  split; intros d Hd; subst;
    (match type of H with Ret ?x = Ret _ => replace o with x by congruence end);
    destruct c as [[|]|], pb, sb, pw, sw;
    cbn [set_centred set_bp set_win opt o_win o_bp o_rate o_position o_min o_post];
    repeat rewrite dget_dset;
    repeat match goal with |- context [String.eqb ?a ?b] => destruct (String.eqb_spec a b); [congruence|] end;
    repeat match goal with |- context [string_dec ?a ?b] => destruct (string_dec a b); [congruence|] end; reflexivity.
Qed.
Print Assumptions C101_other_phases.

Theorem C101_scan_renamed_partial : forall ttmax o k, k_sampling_rate k = None ->
  scan_init ttmax o k
  = scan_init ttmax o
      (mk_skw (match k_time_step k with Some t => Some t | None => k_timestep k end)
         (match k_n_cores k with Some n => Some n | None => k_threads k end) None None None).
Proof. exact scan_renamed. Qed.
Print Assumptions C101_scan_renamed_partial.

Theorem C101_scan_values : forall ttmax o ts th s, scan_init ttmax o (mk_skw ts th None None None) = Ret s ->
  s_timestep s = match ts with Some t => t | None => 120%R end /\ s_threads s = match th with Some n => n | None => 1%Z end.
Proof.
  intros ttmax o ts th s H. unfold scan_init in H. destruct (set_post_pad o ttmax) as [o'| |]; try discriminate.
  cbn [bind k_timestep k_threads k_time_step k_n_cores k_sampling_rate set_time_step set_n_cores set_sampling_rate] in H.
  unfold set_scan_rate in H. cbn [s_onset] in H. destruct (Req_EM_T (o_rate o') (o_rate o')) as [_|N]; [|congruence].
  cbn [s_onset s_timestep s_threads] in H.
  assert (s = mk_scan o' (opt ts 120%R) (opt th 1%Z) (Some (o_rate o'))) as -> by congruence. destruct ts, th; split; reflexivity.
Qed.
Print Assumptions C101_scan_values.

(** A scan asked for with the old name of the rate cannot be made, whatever the rate. *)
Theorem C101_scan_sampling_rate_refuted : forall ttmax o k r, o_win o <> [] -> k_sampling_rate k = Some r ->
  scan_init ttmax o k = Raise AttributeError.
Proof. exact scan_sampling_rate_raises. Qed.
Print Assumptions C101_scan_sampling_rate_refuted.

Theorem C101_trigger_dynamic : forall k, k_method k = Some "dynamic"%string ->
  trig_init k = trig_init (mk_tkw (Some "mad"%string) (k_mw k) (k_mei k) (k_min_repeat k)).
Proof. exact trigger_dynamic. Qed.
Print Assumptions C101_trigger_dynamic.

Theorem C101_trigger_renamed_partial : forall k v, k_min_repeat k = Some v -> v <> 0%R ->
  (2 * match k_mw k with Some w => w | None => 2 end <= match k_mei k with Some i => i | None => 4 end)%R ->
  trig_init k = trig_init (mk_tkw (k_method k) (k_mw k) (Some v) None).
Proof. exact trigger_renamed. Qed.
Print Assumptions C101_trigger_renamed_partial.

Theorem C101_trigger_values : forall k t, k_min_repeat k = None -> trig_init k = Ret t ->
  t_mw t = match k_mw k with Some w => w | None => 2%R end /\
  t_mei t = match k_mei k with Some i => i | None => 4%R end /\
  (forall m, k_method k = Some m -> m <> "dynamic"%string -> t_method t = m) /\
  (k_method k = None -> t_method t = "static"%string).
Proof.
  intros [m w i r] t Hr H. cbn in Hr. subst r. unfold trig_init in H. cbn [k_method k_mw k_mei k_min_repeat] in H |- *.
  destruct (set_method _ _) as [t0| |] eqn:E0; try discriminate. cbn [bind] in H.
  destruct (set_mei _ _) as [t1| |] eqn:E1; try discriminate. cbn [bind] in H. replace t with t1 by congruence.
  destruct (set_mei_fields _ _ _ E1) as [_ [M1 [W1 I1]]]. cbn [set_mw t_mw t_method] in M1, W1.
  rewrite W1, I1, M1. split; [destruct w; reflexivity|]. split; [destruct i; reflexivity|].
  unfold set_method in E0. destruct m as [m|]; cbn [opt] in E0.
  - split; [|discriminate]. intros m' Em Hm. replace m' with m in * by congruence.
    destruct (existsb _ _); [replace t0 with (mk_trig m 0 0) by (cbn [t_mw t_mei] in E0; congruence); reflexivity|].
    destruct (String.eqb_spec m "dynamic"); [contradiction|discriminate].
  - split; [discriminate|]. intros _. cbn in E0. replace t0 with (mk_trig "static"%string 0 0) by congruence. reflexivity.
Qed.
Print Assumptions C101_trigger_values.

(** A repeat time of 10 s with a marginal window of 4 s is allowed under the new name; under the old name the
    default of the new name is checked first. *)
Theorem C101_trigger_refuted : exists k v, k_min_repeat k = Some v /\ k_mei k = None /\
  trig_init k = Raise ValueError /\
  exists t, trig_init (mk_tkw (k_method k) (k_mw k) (Some v) None) = Ret t.
Proof.
  exists (mk_tkw None (Some 4%R) None (Some 10%R)), 10%R. split; [reflexivity|]. split; [reflexivity|]. split.
  - unfold trig_init. cbn. unfold set_mei, set_mw. cbn. destruct (Rlt_dec 4 (2 * 4)); [reflexivity|lra].
  - eexists. unfold trig_init. cbn. unfold set_mei, set_mw. cbn. destruct (Rlt_dec 10 (2 * 4)); [lra|reflexivity].
Qed.
Print Assumptions C101_trigger_refuted.

(** Reading the old name [onset_centred] gives something true although [False] was assigned. *)
Theorem C101_centred_refuted : forall o, truthy (get_centred (set_centred o (Some false))) = true.
Proof. intros o. reflexivity. Qed.
Print Assumptions C101_centred_refuted.

Definition ex_kw : onset_kw :=
  mk_okw (Some 50%R) None None None (Some [("P", (1 / 10, 1)%R); ("Pg", (3 / 10, 2)%R)]%string)
    (Some true) None None (Some (5 / 10, 3)%R) None.
Example C101_applies : exists o, onset_init ex_kw = Ret o /\ o_position o = "centred"%string /\
  dget (o_win o) "P"%string = Some (5 / 10, 3)%R /\ dget (o_win o) "Pg"%string = Some (3 / 10, 2)%R /\ o_win o <> [].
Proof.
  unfold onset_init, ex_kw. cbn -[Rlt_dec]. destruct (Rlt_dec (4 / 10) (1 / 100)); [lra|].
  eexists; split; [reflexivity|]. cbn. repeat split. discriminate.
Qed.

(** * C102: the parameters always fit together *)

(** Whatever is assigned to the onset after the scan is made, as long as it is not the windows. *)
Theorem C102_pads_partial : forall ttmax o k s l,
  scan_init ttmax o k = Ret s -> (forall a, In a l -> keeps_windows a) ->
  pads_cover (s_onset (fold_left scan_assign l s)) ttmax.
Proof. exact pads_hold. Qed.
Print Assumptions C102_pads_partial.

(** The first pad follows the windows at any time; it is no longer than a longest LTA and three longest STA. *)
Theorem C102_pre_pad : forall o,
  (forall phase sta lta, window_of o phase sta lta -> exists pre, pre_pad o = Ret pre /\ (lta + 3 * sta <= pre)%R) /\
  (forall pre, pre_pad o = Ret pre -> exists p1 s1 l1 p2 s2 l2,
     window_of o p1 s1 l1 /\ window_of o p2 s2 l2 /\ pre = (l1 + 3 * s2)%R).
Proof. intros o. split; [apply pre_pad_covers|apply pre_pad_attained]. Qed.
Print Assumptions C102_pre_pad.

(** The second pad is a whole number of seconds less than one second longer than needed. *)
Theorem C102_post_pad_tight : forall ttmax o k s, scan_init ttmax o k = Ret s ->
  exists phase sta lta, window_of (s_onset s) phase sta lta /\
    (o_post (s_onset s) < ttmax + 2 * lta + 1)%R /\ exists n, o_post (s_onset s) = IZR n.
Proof.
  intros ttmax o k s H. destruct (scan_init_spec _ _ _ _ H) as [o' [E [Eo _]]].
  destruct (set_post_pad_spec _ _ _ E) as [Ew [_ [_ [_ [_ [_ [ph [sta [lta [Hw Hp]]]]]]]]]]. rewrite Eo.
  exists ph, sta, lta. split; [unfold window_of in *; rewrite Ew; exact Hw|]. split; [exact Hp|].
  unfold set_post_pad in E. destruct (py_max _); try discriminate. cbn [bind] in E.
  eexists. match type of E with Ret ?x = Ret _ => replace o' with x by congruence end. reflexivity.
Qed.
Print Assumptions C102_post_pad_tight.

(** Longer windows assigned after the scan is made leave the second pad as it was. *)
Theorem C102_pads_refuted : exists ttmax o k s a,
  scan_init ttmax o k = Ret s /\ ~ pads_cover (s_onset (scan_assign s a)) ttmax.
Proof.
  exists 10%R, (mk_onset 50 "classic" (4 / 10) default_bp [("P"%string, (1, 2)%R)] 0), (mk_skw None None None None None).
  eexists. exists (SetWin [("P"%string, (1, 20)%R)]). split.
  - unfold scan_init. cbn -[Req_EM_T np_ceil]. unfold set_scan_rate. cbn -[Req_EM_T np_ceil].
    destruct (Req_EM_T 50 50) as [_|N]; [reflexivity|congruence].
  - intros H. destruct (H "P"%string 1%R 20%R) as [_ Hp]; [now left|]. cbn in Hp.
    pose proof (np_ceil_spec (10 + 2 * 2)). lra.
Qed.
Print Assumptions C102_pads_refuted.

(** A second scan made with the same onset and a smaller table shortens the pad of the first. *)
Theorem C102_shared_onset_refuted : exists tt1 tt2 o k s1 s2,
  scan_init tt1 o k = Ret s1 /\ scan_init tt2 (s_onset s1) k = Ret s2 /\ ~ pads_cover (s_onset s2) tt1.
Proof.
  exists 100%R, 10%R, (mk_onset 50 "classic" (4 / 10) default_bp [("P"%string, (1, 2)%R)] 0), (mk_skw None None None None None).
  eexists. eexists. split; [|split].
  - unfold scan_init. cbn -[Req_EM_T np_ceil]. unfold set_scan_rate. cbn -[Req_EM_T np_ceil].
    destruct (Req_EM_T 50 50) as [_|N]; [reflexivity|congruence].
  - unfold scan_init. cbn -[Req_EM_T np_ceil]. unfold set_scan_rate. cbn -[Req_EM_T np_ceil].
    destruct (Req_EM_T 50 50) as [_|N]; [reflexivity|congruence].
  - intros H. destruct (H "P"%string 1%R 2%R) as [_ Hp]; [now left|]. cbn in Hp.
    pose proof (np_ceil_spec (10 + 2 * 2)). lra.
Qed.
Print Assumptions C102_shared_onset_refuted.

Theorem C102_scan_rate_partial : forall ttmax o k s l,
  scan_init ttmax o k = Ret s -> (forall a, In a l -> keeps_rate a) ->
  s_rate (fold_left scan_assign l s) = Some (o_rate (s_onset (fold_left scan_assign l s))).
Proof. exact rate_holds. Qed.
Print Assumptions C102_scan_rate_partial.

(** Assigning the scan rate itself never takes it away from the rate of the onset. *)
Theorem C102_scan_rate_assigned : forall s v s', s_rate s = Some (o_rate (s_onset s)) ->
  set_scan_rate s v = Ret s' -> s_rate s' = Some (o_rate (s_onset s')) /\ s_onset s' = s_onset s.
Proof.
  intros s [v|] s' Hs H; unfold set_scan_rate in H; [|replace s' with s by congruence; tauto].
  destruct (Req_EM_T v (o_rate (s_onset s))) as [->|N].
  - match type of H with Ret ?x = Ret _ => replace s' with x by congruence end. cbn. tauto.
  - rewrite Hs in H. replace s' with s by congruence. tauto.
Qed.
Print Assumptions C102_scan_rate_assigned.

Theorem C102_scan_rate_refuted : exists ttmax o k s a,
  scan_init ttmax o k = Ret s /\ s_rate (scan_assign s a) <> Some (o_rate (s_onset (scan_assign s a))).
Proof.
  exists 10%R, (mk_onset 50 "classic" (4 / 10) default_bp [("P"%string, (1, 2)%R)] 0), (mk_skw None None None None None).
  eexists. exists (SetRate 100%R). split.
  - unfold scan_init. cbn -[Req_EM_T np_ceil]. unfold set_scan_rate. cbn -[Req_EM_T np_ceil].
    destruct (Req_EM_T 50 50) as [_|N]; [reflexivity|congruence].
  - cbn. intros E. assert (50 = 100)%R by congruence. lra.
Qed.
Print Assumptions C102_scan_rate_refuted.

(** The shortest time between events is at least two marginal windows and the method is one that is known,
    after any assignments other than to the marginal window. *)
Theorem C102_trigger_partial : forall k t l t', trig_init k = Ret t -> (forall v, ~ In (TWindow v) l) ->
  trig_assigns t l = Ret t' ->
  (2 * t_mw t' <= t_mei t')%R /\ In (t_method t') ["static"; "mad"; "median_ratio"]%string.
Proof. intros k t l t' Hk Hl H. exact (trig_assigns_ok l t t' H (trig_init_ok k t Hk) Hl). Qed.
Print Assumptions C102_trigger_partial.

Theorem C102_trigger_refuted : exists k t v t', trig_init k = Ret t /\ trig_assign t (TWindow v) = Ret t' /\
  (t_mei t' < 2 * t_mw t')%R.
Proof.
  exists (mk_tkw None None None None). eexists. exists 3%R. eexists. split; [|split; [reflexivity|]].
  - unfold trig_init. cbn. unfold set_mei, set_mw. cbn. destruct (Rlt_dec 4 (2 * 2)); [lra|reflexivity].
  - cbn. lra.
Qed.
Print Assumptions C102_trigger_refuted.

(** The smallest onset value is at least 0.01 when an onset is made, but not after an assignment. *)
Theorem C102_min_onset_partial : forall k o, onset_init k = Ret o -> (1 / 100 <= o_min o)%R.
Proof.
  intros [rate pos mn bp win c pb sb pw sw] o H. unfold onset_init in H.
  cbn [k_rate k_position k_min k_bp k_win k_centred k_p_bp k_s_bp k_p_win k_s_win] in H.
  destruct rate as [r|]; [|discriminate]. destruct (Rlt_dec (opt mn (4 / 10)%R) (1 / 100)) as [|N]; [discriminate|].
  match type of H with Ret ?x = Ret _ => replace o with x by congruence end.
  destruct c as [[|]|], pb, sb, pw, sw; cbn [set_centred set_bp set_win o_min]; lra.
Qed.
Print Assumptions C102_min_onset_partial.
Theorem C102_min_onset_refuted : exists k o a, onset_init k = Ret o /\ (o_min (onset_assign o a) < 1 / 100)%R.
Proof.
  exists (mk_okw (Some 50%R) None None None None None None None None None). eexists. exists (SetMin 0). split.
  - unfold onset_init. cbn -[Rlt_dec]. destruct (Rlt_dec (4 / 10) (1 / 100)); [lra|reflexivity].
  - cbn. lra.
Qed.
Print Assumptions C102_min_onset_refuted.

Example C102_applies : exists s, scan_init 10 (mk_onset 50 "classic" (4 / 10) default_bp [("P"%string, (1, 2)%R)] 0)
    (mk_skw None None None None None) = Ret s /\
  (forall a, In a [SetMin (1 / 10)%R; OldCentred (Some true)] -> keeps_windows a) /\
  window_of (s_onset (fold_left scan_assign [SetMin (1 / 10)%R; OldCentred (Some true)] s)) "P" 1 2.
Proof.
  eexists. split; [|split].
  - unfold scan_init. cbn -[Req_EM_T np_ceil]. unfold set_scan_rate. cbn -[Req_EM_T np_ceil].
    destruct (Req_EM_T 50 50) as [_|N]; [reflexivity|congruence].
  - intros a [<-|[<-|[]]]; exact I.
  - now left.
Qed.
Example C102_trigger_applies : exists t t', trig_init (mk_tkw (Some "dynamic"%string) None None (Some 6%R)) = Ret t /\
  trig_assigns t [TInterval 8%R; TMethod "median_ratio"%string] = Ret t' /\ t_mei t' = 8%R.
Proof.
  eexists. eexists. split; [|split].
  - unfold trig_init. cbn. unfold set_mei, set_mw. cbn. destruct (Rlt_dec 4 (2 * 2)); [lra|]. cbn.
    destruct (Req_EM_T 6 0); [lra|]. unfold set_min_repeat. cbn. destruct (Rlt_dec 6 (2 * 2)); [lra|reflexivity].
  - cbn. unfold set_mei. cbn. destruct (Rlt_dec 8 (2 * 2)); [lra|]. reflexivity.
  - reflexivity.
Qed.

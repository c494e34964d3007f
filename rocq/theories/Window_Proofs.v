(** Proofs about the same sample in two time windows. *)
From Coq Require Import String Ascii.
From Coq Require Import List ZArith Reals QArith Bool Lia Lra Permutation.
From Verif Require Import Lib LibFacts PyDict Timeline_Model Timeline_Spec Avail_Model Avail_Spec Avail_Proofs Migrate_Spec StaLta_Model StaLta_Spec StaLta_Proofs Lut_Spec Locate_Spec Resample_Spec Archive_Model Read_Model Onset_Model Onset_Spec Onset_Proofs StationSet_Spec StationSet_Proofs Window_Spec.
From Verif Require Resample_Model Resample_Proofs Avail_Props Onset_Props Lut_Model Lut_Proofs ScanMseed_Model ScanMseed_Proofs Compute_Props Gain_Proofs Pipeline_Proofs Migrate_Model Migrate_Proofs Locate_Proofs DetectRun_Spec DetectRun_Model DetectRun_Proofs.
Import ListNotations.
Open Scope Z_scope.

Lemma window_mean_ext x y lo lo' w : (forall j, 0 <= j < w -> x (lo + j) = y (lo' + j)) -> window_mean x lo w = window_mean y lo' w.
Proof.
  intros H. unfold window_mean. do 2 f_equal. apply rd_ext_opt. intros i. rewrite !rd_map. destruct (Z_lt_dec i 0) as [C|C]; [rewrite !rd_none by (left; exact C); reflexivity|].
  destruct (Z_lt_dec i w) as [C'|C']; [|rewrite !rd_none by (right; rewrite zseq_length; lia); reflexivity]. rewrite !rd_zseq by lia. cbn [option_map]. f_equal. apply H. lia.
Qed.
(** The STA/LTA function at a sample where both windows fit depends on the samples in the windows. *)
Lemma sta_lta_ext centred n n' nsta nlta x y i i' : 1 <= nsta -> 1 <= nlta -> nlta - 1 <= i < n - nsta -> nlta - 1 <= i' < n' - nsta -> nsta < nlta ->
  (forall j, - nlta < j <= nsta -> x (i + j) = y (i' + j)) -> sta_lta centred n nsta nlta x i = sta_lta centred n' nsta nlta y i'.
Proof.
  intros H1 H2 Hi Hi' Hlt H. unfold sta_lta. destruct (Z.ltb_spec i (nlta - 1)); [lia|]. destruct (Z.ltb_spec i' (nlta - 1)); [lia|].
  assert (L : window_mean x (i - nlta + 1) nlta = window_mean y (i' - nlta + 1) nlta). { apply window_mean_ext. intros j Hj. replace (i - nlta + 1 + j) with (i + (j - nlta + 1)) by ring. replace (i' - nlta + 1 + j) with (i' + (j - nlta + 1)) by ring. apply H. lia. }
  destruct centred.
  - destruct (Z.leb_spec (n - nsta) i); [lia|]. destruct (Z.leb_spec (n' - nsta) i'); [lia|]. rewrite L. f_equal. apply window_mean_ext. intros j Hj. rewrite <- !Z.add_assoc. apply H. lia.
  - rewrite L. f_equal. apply window_mean_ext. intros j Hj. replace (i - nsta + 1 + j) with (i + (j - nsta + 1)) by ring. replace (i' - nsta + 1 + j) with (i' + (j - nsta + 1)) by ring. apply H. lia.
Qed.

(** A trace over the whole window is not cut. *)
Lemma trim_whole secs rate t0 t1 s : ticks_ok secs rate -> sg_delta s = secs / rate -> sg_start s = t0 -> t1 - t0 = (npts s - 1) * (secs / rate) ->
  Resample_Model.trim (t0 - secs / 100000) (t1 + secs / 100000) s = s.
Proof.
  intros T Ed Es En. destruct (Resample_Proofs.ticks_d _ _ T) as (HD & _). destruct T as (_ & _ & _ & He & H2). set (D := secs / rate) in *. set (e := secs / 100000) in *.
  unfold Resample_Model.trim. rewrite Ed, Es.
  assert (K0 : Z.max 0 (cdiv (t0 - e - t0) D) = 0). { pose proof (proj2 (Resample_Proofs.cdiv_le_iff (t0 - e - t0) D 0 HD)). lia. }
  assert (K1 : Z.min (npts s - 1) ((t1 + e - t0) / D) = npts s - 1). { apply Z.min_l. apply Resample_Proofs.div_ge_iff; lia. }
  rewrite K0, K1. replace (npts s - 1 + 1) with (npts s) by ring. unfold npts. rewrite Nat2Z.id, firstn_all. cbn [Z.to_nat skipn]. destruct s as [i b dd y]. cbn [sg_id sg_start sg_delta sg_data] in *. subst. f_equal. ring.
Qed.
Lemma filter_true {A} (p : A -> bool) l : (forall x, In x l -> p x = true) -> filter p l = l.
Proof. induction l as [|x l IH]; intros H; [reflexivity|]. cbn [filter]. rewrite (H x (or_introl eq_refl)), IH; [reflexivity|]. intros y I. apply H. right. exact I. Qed.
Lemma loop_whole lp secs rate rs uf t0 t1 : forall st, Forall (fun s => sg_delta s = secs / rate) st ->
  Resample_Model.resample_loop (Resample_Model.resample_trace lp secs rate rs uf t0 t1) (Resample_Model.moved secs rate rs uf) st = Ret (st, []).
Proof.
  induction 1 as [|s st E F IH]; [reflexivity|]. cbn [Resample_Model.resample_loop]. rewrite IH.
  unfold Resample_Model.resample_trace, Resample_Model.moved, Resample_Model.at_rate. rewrite E, Z.eqb_refl. reflexivity.
Qed.
Lemma pre_process_whole lp bp secs rate rs uf hc t0 t1 st : ticks_ok secs rate -> (hc < inject_Z rate * (1 # 2))%Q ->
  Forall (fun s => sg_delta s = secs / rate /\ sg_start s = t0 /\ t1 - t0 = (npts s - 1) * (secs / rate) /\ 1 <= npts s) st ->
  Resample_Model.pre_process lp bp secs rate rs uf hc t0 t1 st = Ret (map (fun s => mk_seg (sg_id s) (sg_start s) (sg_delta s) (bp (sg_delta s) (sg_data s))) st).
Proof.
  intros T Hq F. unfold Resample_Model.pre_process, Resample_Model.resample. rewrite loop_whole by (eapply Forall_impl; [|exact F]; intros s H; apply H). cbn [bind fst snd]. rewrite app_nil_r.
  assert (E : Resample_Model.trim_stream (t0 - secs / 100000) (t1 + secs / 100000) st = st).
  { unfold Resample_Model.trim_stream. assert (M : map (Resample_Model.trim (t0 - secs / 100000) (t1 + secs / 100000)) st = st).
    { clear Hq. induction F as [|s st (A & B & C & _) F IH]; [reflexivity|]. cbn [map]. rewrite IH. f_equal. apply (trim_whole secs rate); assumption. }
    rewrite M. apply filter_true. intros s I. apply Z.ltb_lt. pose proof (proj1 (Forall_forall _ _) F s I) as (_ & _ & _ & Hp). lia. }
  rewrite E. destruct (Qle_bool (inject_Z rate * (1 # 2)) hc) eqn:Eq; [|reflexivity]. apply Qle_bool_iff in Eq. exfalso. apply (Qlt_not_le _ _ Hq Eq).
Qed.

Section Two.
Variables (lowpass : Z -> list R -> list R) (taper : list R -> list R) (tiny : R) (secs : Z) (k : onset_cfg) (l : Lut_Model.lut) (tab : string -> string -> Lut_Model.table) (rate : R).
Variables (x : string -> Z -> R) (ids : list string).
Hypothesis Nd : NoDup ids.
Hypothesis Gp : o_gaps k = false.
Hypothesis Fl : o_full k = true.
Notation D := (secs / o_rate k).
Notation ready := (window_ready lowpass taper tiny secs k l tab rate).
Notation ck d := (check lowpass taper tiny secs k d None).
Notation on d := (rows_of lowpass taper tiny secs k d None).
Notation gt d := (got lowpass taper tiny secs k d None).
Notation nw d := (n_window secs (o_rate k) (d_start d) (d_end d)).
Definition in_phase (pc : phase_cfg) (i : string) : bool := fnmatch (ph_map pc) (snd (at_dot (list_ascii_of_string i))).
Definition of_st (s i : string) : bool := String.eqb (string_of_list_ascii (fst (at_dot (list_ascii_of_string i)))) s.
(** The channels of a station and a phase, and whether they are enough. *)
Definition chans (pc : phase_cfg) (s : string) : list string := filter (of_st s) (filter (in_phase pc) ids).
Definition enough (pc : phase_cfg) (s : string) : bool := match chans pc s with [] => false | _ => if o_all k then ph_count pc =? Z.of_nat (length (chans pc s)) else true end.
Definition fseg (d : wdata) (pc : phase_cfg) (i : string) : seg := mk_seg i (d_start d) D (ph_band pc D (window_of secs k x d i)).

Section One.
Variables (first last : Z) (d : wdata).
Hypothesis H : ready first last d.
Hypothesis Rc : recorded secs k x ids d.
Hypothesis Lv : lively tiny secs k x ids d.
Lemma D_pos : 0 < D.
Proof. apply (Resample_Proofs.ticks_d _ _ (wr_ticks _ _ _ _ _ _ _ _ _ _ _ H)). Qed.
Lemma nw_eq : 1 <= nw d /\ d_end d - d_start d = (nw d - 1) * D.
Proof.
  pose proof D_pos. destruct (wr_start _ _ _ _ _ _ _ _ _ _ _ H) as (a & Ea), (wr_end _ _ _ _ _ _ _ _ _ _ _ H) as (b & Eb). pose proof (wr_order _ _ _ _ _ _ _ _ _ _ _ H) as Ho.
  assert (E : d_end d - d_start d = (b - a) * D) by (rewrite Ea, Eb; ring). unfold n_window. rewrite E, Z.div_mul by lia. split; [|ring]. assert (0 <= b - a) by (apply Z.mul_le_mono_pos_r with D; lia). lia.
Qed.
Lemma cut_len i : Z.of_nat (length (window_of secs k x d i)) = nw d.
Proof. unfold window_of, cut. rewrite array1_length. pose proof nw_eq. lia. Qed.
Lemma phase_fl ph pc : In ph (o_phases k) -> dget (o_cfg k) ph = Some pc -> phase_waveforms lowpass secs k d pc = Ret (map (fseg d pc) (filter (in_phase pc) ids)).
Proof.
  intros Ip Ec. unfold phase_waveforms. rewrite Rc. unfold select_channel.
  assert (E : forall f : string -> seg, (forall i, sg_id (f i) = i) -> filter (fun s => fnmatch (ph_map pc) (channel_of s)) (map f ids) = map f (filter (in_phase pc) ids)).
  { intros f Hf. apply Gain_Proofs.filter_same. intros i. unfold channel_of, in_phase. rewrite Hf. reflexivity. }
  rewrite E by reflexivity. destruct (wr_phases _ _ _ _ _ _ _ _ _ _ _ H ph Ip) as (pc' & Ec' & _ & _ & _ & Hq). assert (pc' = pc) by congruence. subst pc'.
  rewrite pre_process_whole; [rewrite map_map; reflexivity|exact (wr_ticks _ _ _ _ _ _ _ _ _ _ _ H)|exact Hq|].
  apply Forall_map, Forall_forall. intros i _. cbn [sg_delta sg_start]. unfold npts. cbn [sg_data]. rewrite cut_len. destruct nw_eq as (A & B). repeat split; assumption.
Qed.
Lemma select_st pc s : select_station (map (fseg d pc) (filter (in_phase pc) ids)) s = map (fseg d pc) (chans pc s).
Proof.
  unfold select_station, chans. apply Gain_Proofs.filter_same. reflexivity.
Qed.
Lemma chans_in pc s i : In i (chans pc s) -> In i ids.
Proof. unfold chans. rewrite !filter_In. tauto. Qed.
Lemma chans_nd pc s : NoDup (chans pc s).
Proof. unfold chans. apply NoDup_filter, NoDup_filter, Nd. Qed.
Lemma fseg_one pc s i : In i (chans pc s) -> filter (fun g => String.eqb (sg_id g) i) (map (fseg d pc) (chans pc s)) = [fseg d pc i].
Proof.
  pose proof (chans_nd pc s) as N. induction (chans pc s) as [|j js IH]; [intros []|]. intros I. apply NoDup_cons_iff in N. destruct N as (Nj & N). cbn [map filter sg_id fseg]. destruct (String.eqb_spec j i) as [->|Ne].
  - f_equal. clear - Nj. induction js as [|j js IH]; [reflexivity|]. cbn [map filter sg_id fseg]. destruct (String.eqb_spec j i) as [->|]; [destruct Nj; left; reflexivity|]. apply IH. intros C. apply Nj. right. exact C.
  - apply IH; [exact N|]. destruct I as [I|I]; [congruence|exact I].
Qed.
(** The verdict and the onset function of a station and phase. *)
Definition onset_at (pc : phase_cfg) (s : string) (i : Z) : R :=
  Rmax (rms (map (fun c => sta_lta (o_centred k) (nw d) (stw_samples (o_clock secs k) (ph_sta pc)) (ltw_samples (o_clock secs k) (ph_lta pc)) (sample (o_transform k (ph_band pc D (window_of secs k x d c)))) i) (chans pc s))) (o_floor k).
Lemma pair_is ph pc s : In ph (o_phases k) -> dget (o_cfg k) ph = Some pc -> In s (d_stations d) ->
  exists w, gt d ph s = if enough pc s then (1, Some (array1 (nw d) (fun i => Some (onset_at pc s i)), w)) else (0, None).
Proof.
  intros Ip Ec Is. pose proof (pairs_ok lowpass taper tiny secs k l tab rate first last d H ph s Ip Is) as Ep. unfold pair_result in Ep. rewrite Ec, (phase_fl ph pc Ip Ec) in Ep. cbn [bind] in Ep.
  destruct (gt d ph s) as [av y]. pose proof Ep as Ep0. unfold station_onset in Ep. cbv zeta in Ep. rewrite select_st in Ep. set (cr := mk_criteria _ _ _ _ _ _ _) in Ep. set (st := map (fseg d pc) (chans pc s)) in *.
  destruct (wr_phases _ _ _ _ _ _ _ _ _ _ _ H ph Ip) as (pc' & Ec' & Hw & Hct & Hlen & _). assert (pc' = pc) by congruence. subst pc'. destruct nw_eq as (N1 & N2). pose proof D_pos as HD.
  pose proof (wr_ticks _ _ _ _ _ _ _ _ _ _ _ H) as T. assert (Hs : 0 < secs) by (destruct (Resample_Proofs.ticks_d _ _ T) as (X & Y); destruct T as (T1 & _); rewrite Y; apply Z.mul_pos_pos; assumption).
  assert (Np : forall c, npts (fseg d pc c) = nw d) by (intros c; unfold npts; cbn [fseg sg_data]; rewrite Hlen, cut_len; reflexivity).
  assert (Us : ids <> [] -> secs <= 500000 * D).
  { intros Ne. destruct ids as [|i is] eqn:Ei; [congruence|]. pose proof (wr_data _ _ _ _ _ _ _ _ _ _ _ H) as Fu. rewrite Rc in Fu. cbn [map] in Fu. inversion Fu as [|? ? (_ & _ & U & _) _]. exact U. }
  assert (Sm : Forall (sampled (o_clock secs k)) st).
  { apply Forall_map, Forall_forall. intros c Ic. split; [apply npts_pos; rewrite Np; exact N1|]. cbn [fseg sg_delta o_clock sec]. split; [exact HD|]. apply Us. intros C. apply chans_in in Ic. rewrite C in Ic. destruct Ic. }
  assert (Ca : complete_args cr) by (split; [discriminate|]; intros Ha; exists (ph_count pc); split; [reflexivity|]; apply Hct, Ha).
  destruct (Avail_Props.C47_verdict_exact (o_clock secs k) (d_start d) (d_end d) cr st Hs Sm Ca (or_introl eq_refl)) as (v & dct & E & Ndk & Hk & Hv & A01 & Hav).
  assert (Ids : forall i, is_id st i <-> In i (chans pc s)).
  { intros i. unfold is_id, st. split; [intros (g & Ig & Eg); apply in_map_iff in Ig; destruct Ig as (c & <- & Ic); cbn [fseg sg_id] in Eg; congruence|]. intros I. exists (fseg d pc i). split; [apply in_map, I|reflexivity]. }
  assert (Ok : forall i, In i (chans pc s) -> channel_ok (d_start d) (d_end d) cr (filter (fun g => String.eqb (sg_id g) i) st)).
  { intros i I. unfold st. rewrite (fseg_one pc s i I). destruct (Lv ph pc i Ip Ec (chans_in pc s i I)) as (Nf & _). unfold channel_ok, cr. cbn [allow_gaps check_rate Avail_Model.rate full_timespan check_times]. split; [constructor; [exact Nf|constructor]|]. split; [repeat constructor|].
    assert (Se : sg_end (fseg d pc i) = d_end d). { unfold sg_end. rewrite Np. cbn [fseg sg_start sg_delta]. lia. }
    split; [intros _ a b [<-|[]] [<-|[]] C; rewrite Se in C; cbn [fseg sg_start] in C; pose proof (wr_order _ _ _ _ _ _ _ _ _ _ _ H); lia|].
    split; [intros _; repeat constructor|]. split; [|discriminate]. intros _. exists (fseg d pc i). split; [reflexivity|]. rewrite Se. cbn [fseg sg_start]. lia. }
  assert (Ld : length dct = length (chans pc s)).
  { rewrite <- (map_length fst dct). apply Permutation_length, NoDup_Permutation; [exact Ndk|apply chans_nd|]. intros i. rewrite <- Ids. apply Hk. }
  assert (V : v = if enough pc s then 1 else 0).
  { assert (Q : v = 1 <-> enough pc s = true).
    { rewrite Hav. unfold enough. assert (Ne : st <> [] <-> chans pc s <> []) by (unfold st; split; intros X C; apply X; [rewrite C; reflexivity|destruct (chans pc s); [reflexivity|discriminate]]). rewrite Ne. unfold cr. cbn [all_channels n_channels].
      destruct (chans pc s) as [|c cs] eqn:Ech; [split; [intros (C & _); congruence|discriminate]|]. destruct (o_all k).
      - assert (Lc : length (c :: cs) = length dct) by congruence. rewrite Z.eqb_eq, Lc. split; [intros (_ & (C & _)); congruence|]. intros C. split; [discriminate|]. split; [congruence|]. intros i I. apply Ok, Ids, I.
      - split; [reflexivity|]. intros _. split; [discriminate|]. exists c. split; [apply Ids|apply Ok]; left; reflexivity. }
    destruct (enough pc s); [apply Q; reflexivity|]. destruct A01 as [A|A]; [exact A|]. apply Q in A. discriminate. }
  rewrite E in Ep. cbn [bind] in Ep. destruct (enough pc s) eqn:En.
  2: { rewrite V in Ep. cbn [Z.eqb] in Ep. exists []. congruence. }
  rewrite V in Ep. cbn [Z.eqb] in Ep.
  assert (Rm : remove_unavailable dct st = st).
  { unfold remove_unavailable. assert (A1 : forall kv, In kv dct -> snd kv <> 0). { intros [i z] I. cbn [snd]. destruct (Hv i z I) as (_ & Z1). assert (z = 1) by (apply Z1, Ok, Ids, Hk, (in_map fst dct (i, z)), I). lia. }
    clear - A1. revert A1. generalize st. induction dct as [|kv dct IH]; intros st0 A1; [reflexivity|]. cbn [fold_left]. destruct (Z.eqb_spec (snd kv) 0) as [C|]; [destruct (A1 kv (or_introl eq_refl) C)|]. apply IH. intros kv' I'. apply A1. right. exact I'. }
  rewrite Rm in Ep. unfold fill_gaps in Ep. rewrite Gp, Fl in Ep. cbn [orb negb bind] in Ep. destruct (onset _ _ _ _ _ _ st) as [o| |] eqn:Eo; cbn [bind] in Ep; try discriminate.
  exists st. assert (av = 1) by congruence. assert (y = Some (o, st)) by congruence. subst av y.
  destruct (Onset_Props.C119_value_partial taper tiny secs k d None pc (map (fseg d pc) (filter (in_phase pc) ids)) s o st (wr_tiny _ _ _ _ _ _ _ _ _ _ _ H) ltac:(discriminate) (proj1 Hw) Ep0) as (n & Hn & Ho).
  { intros g Ig. unfold st in Ig. apply in_map_iff in Ig. destruct Ig as (c & <- & Ic). destruct (Lv ph pc c Ip Ec (chans_in pc s c Ic)) as (_ & Ns). cbv zeta. cbn [fseg sg_data]. split; [|exact Ns].
    rewrite (wr_transform _ _ _ _ _ _ _ _ _ _ _ H). pose proof (Np c) as X. unfold npts in X. cbn [fseg sg_data] in X. rewrite X. apply Hw. }
  assert (n = nw d).
  { unfold enough in En. destruct (chans pc s) as [|c cs] eqn:Ech; [discriminate|]. rewrite <- (Hn (fseg d pc c)) by (unfold st; left; reflexivity). rewrite (wr_transform _ _ _ _ _ _ _ _ _ _ _ H). exact (Np c). }
  subst n. rewrite Ho. do 3 f_equal. apply array1_ext. intros i Hi. unfold onset_at, st. rewrite map_map. reflexivity.
Qed.
Lemma numbers_map (f : Z -> R) is : numbers (map (fun i => Some (f i)) is) = Some (map f is).
Proof. induction is as [|i is IH]; [reflexivity|]. cbn [map numbers]. rewrite IH. reflexivity. Qed.
Lemma check_is ph pc s : In ph (o_phases k) -> dget (o_cfg k) ph = Some pc -> In s (d_stations d) -> ck d s ph = enough pc s.
Proof. intros Ip Ec Is. unfold check, is_available. destruct (pair_is ph pc s Ip Ec Is) as (w & ->). destruct (enough pc s); reflexivity. Qed.
Lemma value_is ph pc s i : In ph (o_phases k) -> dget (o_cfg k) ph = Some pc -> In s (d_stations d) -> enough pc s = true -> 0 <= i < nw d -> value (on d s ph) i = onset_at pc s i.
Proof.
  intros Ip Ec Is En Hi. unfold rows_of, res_numbers. destruct (pair_is ph pc s Ip Ec Is) as (w & ->). rewrite En. cbn [snd]. unfold row_of, array1. rewrite numbers_map. unfold value. fold (array1 (nw d) (onset_at pc s)). rewrite rd_array1 by exact Hi. reflexivity.
Qed.
End One.

Variables (m : Z -> Z) (first last first' last' : Z) (d d' : wdata).
Hypothesis H : ready first last d.
Hypothesis H' : ready first' last' d'.
Hypothesis Rc : recorded secs k x ids d.
Hypothesis Rc' : recorded secs k x ids d'.
Hypothesis Lv : lively tiny secs k x ids d.
Hypothesis Lv' : lively tiny secs k x ids d'.
Hypothesis Sts : d_stations d' = d_stations d.
Hypothesis Hm : forall ph pc, In ph (o_phases k) -> dget (o_cfg k) ph = Some pc -> settles m (fun y => o_transform k (ph_band pc D y)).
Hypothesis M0 : forall n, 0 <= m n.
Lemma onset_at_same ph pc s i i' : In ph (o_phases k) -> dget (o_cfg k) ph = Some pc -> d_start d / D + i = d_start d' / D + i' ->
  let nsta := stw_samples (o_clock secs k) (ph_sta pc) in let nlta := ltw_samples (o_clock secs k) (ph_lta pc) in
  nlta - 1 + m (nw d) <= i < nw d - nsta - m (nw d) -> nlta - 1 + m (nw d') <= i' < nw d' - nsta - m (nw d') -> onset_at d pc s i = onset_at d' pc s i'.
Proof.
  intros Ip Ec Et nsta nlta Hi Hi'. pose proof (M0 (nw d)) as M1. pose proof (M0 (nw d')) as M2. destruct (wr_phases _ _ _ _ _ _ _ _ _ _ _ H ph Ip) as (pc' & Ec' & (Hw & _) & _). assert (pc' = pc) by congruence. subst pc'. fold nsta nlta in Hw.
  unfold onset_at. fold nsta nlta. do 2 f_equal. apply map_ext. intros c. apply sta_lta_ext; try lia. intros j Hj. specialize (Hm ph pc Ip Ec (x c) (d_start d / D) (nw d) (d_start d' / D) (nw d') (d_start d / D + i + j)). cbv beta in Hm.
  replace (d_start d / D + i + j - d_start d / D) with (i + j) in Hm by ring. replace (d_start d / D + i + j - d_start d' / D) with (i' + j) in Hm by lia. apply Hm; lia.
Qed.
Variable reach : Z.
Hypothesis Re0 : 0 <= reach.
Hypothesis Re : forall s p q, In s (d_stations d) -> In p (o_phases k) -> is_node (Lut_Model.g_count (Lut_Model.l_grid l)) q -> (entry0 (tab s p) q * rate <= IZR reach)%R.
Hypothesis Cl : clear_of_ends secs k (m (nw d)) first last reach.
Hypothesis Cl' : clear_of_ends secs k (m (nw d')) first' last' reach.
Notation n := (Lut_Model.g_count (Lut_Model.l_grid l)).
Notation U dd := (used (ck dd) (o_phases k) (d_stations d)).
Lemma in_used dd s p : In (s, p) (U dd) <-> In p (o_phases k) /\ In s (d_stations d) /\ ck dd s p = true.
Proof.
  unfold used. rewrite filter_In. cbn [fst snd]. unfold pairs. rewrite in_flat_map. split.
  - intros ((p' & Ip & I) & C). apply in_map_iff in I. destruct I as (s' & X & Is). injection X as -> ->. auto.
  - intros (Ip & Is & C). split; [|exact C]. exists p. split; [exact Ip|]. apply in_map_iff. exists s. auto.
Qed.
Lemma phase_cfg_of ph : In ph (o_phases k) -> exists pc, dget (o_cfg k) ph = Some pc.
Proof. intros Ip. destruct (wr_phases _ _ _ _ _ _ _ _ _ _ _ H ph Ip) as (pc & Ec & _). exists pc. exact Ec. Qed.
Lemma check_two s ph : In ph (o_phases k) -> In s (d_stations d) -> ck d s ph = ck d' s ph.
Proof. intros Ip Is. destruct (phase_cfg_of ph Ip) as (pc & Ec). rewrite (check_is first last d H Rc Lv ph pc s Ip Ec Is). symmetry. apply (check_is first' last' d' H' Rc' Lv' ph pc s Ip Ec). rewrite Sts. exact Is. Qed.
Lemma used_two : U d = U d'.
Proof.
  unfold used. apply filter_ext_in. intros [s p] I. cbn [fst snd]. unfold pairs in I. apply in_flat_map in I. destruct I as (p' & Ip & I). apply in_map_iff in I. destruct I as (s' & X & Is). injection X as -> ->. apply check_two; assumption.
Qed.
Lemma stack_two q smp smp' : is_node n q -> 0 <= smp < nw d - first - last -> 0 <= smp' < nw d' - first' - last' -> d_start d / D + first + smp = d_start d' / D + first' + smp' ->
  map (fun sp => clip01 (value (on d (fst sp) (snd sp)) (first + smp + Z.max 0 (ScanMseed_Model.np_round (entry0 (tab (fst sp) (snd sp)) q * rate))))) (U d)
  = map (fun sp => clip01 (value (on d' (fst sp) (snd sp)) (first' + smp' + Z.max 0 (ScanMseed_Model.np_round (entry0 (tab (fst sp) (snd sp)) q * rate))))) (U d).
Proof.
  intros Hq Hs Hs' Et. apply map_ext_in. intros [s p] I. cbn [fst snd]. apply in_used in I. destruct I as (Ip & Is & C). destruct (phase_cfg_of p Ip) as (pc & Ec). pose proof (Re s p q Is Ip Hq) as Rq. set (a := ScanMseed_Model.np_round (entry0 (tab s p) q * rate)).
  assert (A : a <= reach) by (unfold a; rewrite <- (ScanMseed_Proofs.np_round_IZR reach); apply ScanMseed_Proofs.np_round_mono, Rq). rewrite (check_is first last d H Rc Lv p pc s Ip Ec Is) in C.
  pose proof (M0 (nw d)) as M1. pose proof (M0 (nw d')) as M2. destruct (Cl p pc Ip Ec) as (C1 & C2). destruct (Cl' p pc Ip Ec) as (C1' & C2'). destruct (wr_phases _ _ _ _ _ _ _ _ _ _ _ H p Ip) as (pc' & Ec' & (Hw & _) & _). assert (pc' = pc) by congruence. subst pc'. f_equal.
  rewrite (value_is first last d H Rc Lv p pc s) by (assumption || lia). rewrite (value_is first' last' d' H' Rc' Lv' p pc s) by (assumption || (rewrite Sts; exact Is) || lia). apply (onset_at_same p); try assumption; lia.
Qed.
Lemma coalescence_two r0 :
  (compute_coalescence lowpass taper tiny secs k r0 l d rate first last = Raise DataAvailabilityException /\ compute_coalescence lowpass taper tiny secs k r0 l d' rate first' last' = Raise DataAvailabilityException)
  \/ exists mp mp', compute_coalescence lowpass taper tiny secs k r0 l d rate first last = Ret mp /\ compute_coalescence lowpass taper tiny secs k r0 l d' rate first' last' = Ret mp'
     /\ Z.of_nat (length mp) = n_nodes n * (nw d - first - last) /\ Z.of_nat (length mp') = n_nodes n * (nw d' - first' - last')
     /\ (forall q smp, is_node n q -> 0 <= smp < nw d - first - last -> exists v, rd mp (flat n q * (nw d - first - last) + smp) = Some v /\ (0 < v)%R)
     /\ (forall q smp, is_node n q -> 0 <= smp < nw d' - first' - last' -> exists v, rd mp' (flat n q * (nw d' - first' - last') + smp) = Some v /\ (0 < v)%R)
     /\ forall q smp smp', is_node n q -> 0 <= smp < nw d - first - last -> 0 <= smp' < nw d' - first' - last' -> d_start d / D + first + smp = d_start d' / D + first' + smp' ->
        exists v, rd mp (flat n q * (nw d - first - last) + smp) = Some v /\ rd mp' (flat n q * (nw d' - first' - last') + smp') = Some v.
Proof.
  destruct (U d) as [|u0 u] eqn:EU.
  - left. pose proof H as [_ _ _ _ _ _ _ _ _ _ _ _ Np Ns Pp Ps _ _ _ _ _ _]. pose proof H' as [_ _ _ _ _ _ _ _ _ _ _ _ _ Ns' _ Ps' _ _ _ _ _ _].
    rewrite (compute_is lowpass taper tiny secs k l tab rate first last d r0 H), (compute_is lowpass taper tiny secs k l tab rate first' last' d' r0 H'). unfold Lut_Model.compute_map.
    rewrite (Lut_Proofs.calculate_onsets_ok (ck d) (on d) (o_phases k) (d_stations d) Np Ns Pp Ps), (Lut_Proofs.calculate_onsets_ok (ck d') (on d') (o_phases k) (d_stations d') Np Ns' Pp Ps'). rewrite Sts, <- used_two, EU. split; reflexivity.
  - right. assert (NU : U d <> []) by (rewrite EU; discriminate). assert (NU' : used (ck d') (o_phases k) (d_stations d') <> []) by (rewrite Sts, <- used_two; exact NU).
    destruct (map_of lowpass taper tiny secs k l tab rate first last d r0 H NU) as (mp & E & Lm & Hv). destruct (map_of lowpass taper tiny secs k l tab rate first' last' d' r0 H' NU') as (mp' & E' & Lm' & Hv').
    exists mp, mp'. split; [exact E|]. split; [exact E'|]. split; [exact Lm|]. split; [exact Lm'|].
    assert (Pos : forall (f : string * string -> R) u, (0 < geometric_mean (map (fun sp => clip01 (f sp)) u))%R) by (intros f u0'; apply Pipeline_Proofs.geometric_mean_pos; intros z Hz; apply in_map_iff in Hz; destruct Hz as (sp & <- & _); unfold clip01; pose proof (Rmax_r (f sp) (1 / 100)); lra).
    split; [intros q smp Hq Hs; eexists; split; [exact (Hv q smp Hq Hs)|apply Pos]|]. split; [intros q smp Hq Hs; eexists; split; [exact (Hv' q smp Hq Hs)|apply Pos]|].
    intros q smp smp' Hq Hs Hs' Et. eexists. split; [exact (Hv q smp Hq Hs)|]. rewrite (Hv' q smp' Hq Hs'). do 2 f_equal. rewrite Sts, <- used_two. symmetry. apply stack_two; assumption.
Qed.
End Two.

(** ** The maximum over the grid *)
Lemma coord_of transform g q : grid_ok g -> is_node (Lut_Model.g_count g) q -> Lut_Model.flat2coord transform g (flat (Lut_Model.g_count g) q) = Ret (DetectRun_Spec.node_coord transform g q).
Proof.
  intros Hg Hq. pose proof (Lut_Proofs.grid_ok_pos _ Hg) as Hn. destruct (Lut_Proofs.unravel_inv (flat (Lut_Model.g_count g) q) (Lut_Model.g_count g) Hn (Lut_Proofs.flat_range _ q Hq)) as (q' & Hu & Hq' & Hf).
  assert (E : q' = q). { pose proof (Locate_Proofs.all_nodes_rd _ q Hq) as A. pose proof (Locate_Proofs.all_nodes_rd _ q' Hq') as B. rewrite Hf in B. congruence. }
  subst q'. unfold Lut_Model.flat2coord, Lut_Model.flat2grid. rewrite Hu. cbn [bind]. rewrite Lut_Proofs.node2grid_eq. reflexivity.
Qed.
Lemma rows_of_map transform l r1 mp w : let n := Lut_Model.g_count (Lut_Model.l_grid l) in grid_ok (Lut_Model.l_grid l) -> 0 <= w -> Z.of_nat (length mp) = n_nodes n * w ->
  (forall q s, is_node n q -> 0 <= s < w -> exists v, rd mp (flat n q * w + s) = Some v /\ (0 < v)%R) ->
  exists o rows, Migrate_Model.lib_find_max_coa r1 mp (n_nodes n) w = Ret o /\ DetectRun_Model.scan_rows transform l (Migrate_Model.o_max o) (Migrate_Model.o_norm o) (Migrate_Model.o_idx o) = Ret rows
  /\ Z.of_nat (length rows) = w /\ forall s, 0 <= s < w -> exists row, rd rows s = Some row /\ DetectRun_Spec.is_peak n (DetectRun_Spec.node_coord transform (Lut_Model.l_grid l)) (fun q => value mp (flat n q * w + s)) row.
Proof.
  intros n Hg Hw Lm Hv. pose proof (Lut_Proofs.grid_ok_pos _ Hg) as Hn. fold n in Hn. pose proof (Lut_Proofs.pos3_nodes n Hn) as Np. set (f := fun node s => value mp (node * w + s)).
  assert (Un : forall kk, 0 <= kk < n_nodes n -> exists q, is_node n q /\ flat n q = kk). { intros kk Hk. destruct (Lut_Proofs.unravel_inv kk n Hn Hk) as (q & _ & Hq & Hf). exists q. auto. }
  assert (Pf : forall kk s, 0 <= kk < n_nodes n -> 0 <= s < w -> rd mp (kk * w + s) = Some (f kk s) /\ (0 < f kk s)%R). { intros kk s Hk Hs. destruct (Un kk Hk) as (q & Hq & <-). destruct (Hv q s Hq Hs) as (v & Ev & Pv). unfold f, value. rewrite Ev. auto. }
  assert (Em : mp = array2 (n_nodes n) w f) by (apply Migrate_Proofs.list_eq_array2; try lia; intros i j Hi Hj; apply Pf; assumption).
  destruct (Migrate_Proofs.find_max_ok r1 f (n_nodes n) w ltac:(lia) Hw) as (o & Eo & L1 & L2 & L3 & Ho). rewrite <- Em in Eo.
  assert (Pt : forall j, 0 <= j < w -> exists q, is_node n q /\ (forall q', is_node n q' -> (f (flat n q') j <= f (flat n q) j)%R) /\ (forall q', is_node n q' -> flat n q' < flat n q -> (f (flat n q') j < f (flat n q) j)%R)
      /\ rd (Migrate_Model.o_max o) j = Some (f (flat n q) j) /\ rd (Migrate_Model.o_idx o) j = Some (flat n q) /\ rd (Migrate_Model.o_norm o) j = Some (Some (f (flat n q) j / arithmetic_mean (map (fun q => f (flat n q) j) (all_nodes n)))%R)).
  { intros j Hj. destruct (Ho j Hj) as (kk & (K1 & K2 & K3) & H1 & H2 & _). destruct (Un kk K1) as (q & Hq & Eq). exists q. split; [exact Hq|]. subst kk.
    split; [intros q' Hq'; apply K2, Lut_Proofs.flat_range, Hq'|]. split; [intros q' Hq' Hl; apply K3; pose proof (Lut_Proofs.flat_range n q' Hq'); lia|]. split; [exact H1|]. split; [exact H2|].
    destruct (Migrate_Proofs.find_max_norm r1 f (n_nodes n) w o j ltac:(lia) Hw) as (v & M & N1 & N2 & N3 & _); [rewrite <- Em; exact Eo|exact Hj|intros kk Hk; apply Pf; assumption|].
    rewrite N1. rewrite H1 in N2. injection N2 as <-. rewrite N3. do 4 f_equal. apply rd_ext_opt. intros x. rewrite !rd_map.
    destruct (Z_lt_dec x 0) as [C|C]; [rewrite !rd_none by (left; exact C); reflexivity|]. destruct (Z_lt_dec x (n_nodes n)) as [C'|C'].
    - rewrite rd_zrange by lia. destruct (Un x ltac:(lia)) as (q' & Hq' & <-). rewrite (Locate_Proofs.all_nodes_rd n q' Hq'). reflexivity.
    - rewrite (rd_none _ (zrange (n_nodes n))) by (right; rewrite zrange_length; lia). rewrite (rd_none _ (all_nodes n)) by (right; rewrite (Locate_Proofs.all_nodes_length n Hn); lia). reflexivity. }
  destruct (DetectRun_Proofs.scan_rows_ok transform l (Migrate_Model.o_max o) (Migrate_Model.o_norm o) (Migrate_Model.o_idx o)) as (rows & Er & Lr & Hr); [lia|lia| |].
  { intros s a b i Ha Hb Hi. pose proof (rd_bounds _ _ _ _ Ha) as Bs. destruct (Pt s ltac:(lia)) as (q & Hq & _ & _ & _ & I2 & I3). rewrite Hi in I2. injection I2 as ->. rewrite Hb in I3. injection I3 as ->. eexists _, _. split; [reflexivity|apply coord_of; assumption]. }
  exists o, rows. split; [exact Eo|]. split; [exact Er|]. split; [lia|]. intros s Hs. destruct (Pt s Hs) as (q & Hq & Q1 & Q2 & I1 & I2 & I3). destruct (Hr s _ _ _ I1 I3 I2) as (v & a & b & c & Ev & Ec & Erow). exists (ScanMseed_Model.mk_row (f (flat n q) s) v a b c). split; [exact Erow|].
  exists q. split; [exact Hq|]. split; [exact Q1|]. split; [exact Q2|]. cbn [ScanMseed_Model.coa ScanMseed_Model.coa_n ScanMseed_Model.px ScanMseed_Model.py ScanMseed_Model.pz]. split; [reflexivity|]. split; [injection Ev as <-; reflexivity|]. unfold n in Ec. rewrite (coord_of transform (Lut_Model.l_grid l) q Hg Hq) in Ec. congruence.
Qed.
(** A sample has one peak. *)
Lemma peak_unique n coord f g a b : (forall q, is_node n q -> f q = g q) -> DetectRun_Spec.is_peak n coord f a -> DetectRun_Spec.is_peak n coord g b -> a = b.
Proof.
  intros E (q & Hq & M & F & A1 & A2 & A3) (q' & Hq' & M' & F' & B1 & B2 & B3). assert (flat n q = flat n q').
  { destruct (Z.lt_trichotomy (flat n q) (flat n q')) as [C|[C|C]]; [|exact C|]; exfalso.
    - specialize (F' q Hq C). specialize (M q' Hq'). rewrite !E in M by assumption. lra.
    - specialize (F q' Hq' C). specialize (M' q Hq). rewrite !E in F by assumption. lra. }
  assert (q' = q) by (pose proof (Locate_Proofs.all_nodes_rd _ q Hq) as X; pose proof (Locate_Proofs.all_nodes_rd _ q' Hq') as Y; congruence). subst q'.
  assert (Em : map f (all_nodes n) = map g (all_nodes n)) by (apply map_ext_in; intros z Iz; apply E, Locate_Proofs.in_all_nodes, Iz). rewrite Em, (E q Hq) in A2. rewrite (E q Hq) in A1.
  destruct a, b. cbn [ScanMseed_Model.coa ScanMseed_Model.coa_n ScanMseed_Model.px ScanMseed_Model.py ScanMseed_Model.pz] in *. congruence.
Qed.

(** ** The samples of a timestep *)
Section Timestep.
Variables (lowpass : Z -> list R -> list R) (taper : list R -> list R) (tiny : R) (secs : Z) (k : onset_cfg) (transform : Z -> Z -> Lut_Model.vec -> Lut_Model.vec) (l : Lut_Model.lut) (r0 : Migrate_Model.mreg) (r1 : Migrate_Model.freg).
Variables (tab : string -> string -> Lut_Model.table) (x : string -> Z -> R) (ids : list string) (m : Z -> Z) (reach pre post pre' post' : Z) (d d' : wdata).
Notation D := (secs / o_rate k).
Notation c := (o_clock secs k).
Notation nw d := (n_window secs (o_rate k) (d_start d) (d_end d)).
Hypothesis H : comparable lowpass taper tiny secs k l tab (IZR (o_rate k)) x ids m reach (time2sample c pre) (time2sample c post) (time2sample c pre') (time2sample c post') d d'.
Lemma onsets_of r0' dd first last mp : compute_coalescence lowpass taper tiny secs k r0' l dd (IZR (o_rate k)) first last = Ret mp -> exists st, calculate_onsets lowpass taper tiny secs k dd None = Ret st.
Proof. unfold compute_coalescence. destruct (calculate_onsets lowpass taper tiny secs k dd None) as [st| |]; cbn [bind]; [eauto|discriminate|discriminate]. Qed.
Lemma avail_at dd first last st : window_ready lowpass taper tiny secs k l tab (IZR (o_rate k)) first last dd -> calculate_onsets lowpass taper tiny secs k dd None = Ret st ->
  forall s ph, In s (d_stations dd) -> In ph (o_phases k) -> dget (l_avail st) (onset_key s ph) = Some (fst (got lowpass taper tiny secs k dd None ph s)).
Proof.
  intros Hr E s ph Is Ip. destruct (phases_loop lowpass taper tiny secs k dd None _ _ _ (calculate_loops _ _ _ _ _ _ _ _ E)) as (_ & _ & _ & A & _). apply A; try assumption.
  intros s1 s2 p1 p2 I1 I2 J1 J2 Ek. pose proof (wr_pl_phases _ _ _ _ _ _ _ _ _ _ _ Hr) as Pp. pose proof (wr_pl_stations _ _ _ _ _ _ _ _ _ _ _ Hr) as Ps. rewrite Forall_forall in Pp, Ps.
  destruct (Lut_Proofs.key_inj s1 p1 s2 p2 (Ps _ I1) (Pp _ J1) (Ps _ I2) (Pp _ J2) Ek) as (_ & Q). exact Q.
Qed.
Lemma compute_two :
  (DetectRun_Model.compute lowpass taper tiny secs k transform l r0 r1 pre post d = Raise DataAvailabilityException /\ DetectRun_Model.compute lowpass taper tiny secs k transform l r0 r1 pre' post' d' = Raise DataAvailabilityException)
  \/ exists rows rows' av av', DetectRun_Model.compute lowpass taper tiny secs k transform l r0 r1 pre post d = Ret (d_start d + pre, rows, av) /\ DetectRun_Model.compute lowpass taper tiny secs k transform l r0 r1 pre' post' d' = Ret (d_start d' + pre', rows', av')
     /\ Z.of_nat (length rows) = nw d - time2sample c pre - time2sample c post /\ Z.of_nat (length rows') = nw d' - time2sample c pre' - time2sample c post'
     /\ (forall s ph, In s (d_stations d) -> In ph (o_phases k) -> dget av (onset_key s ph) = dget av' (onset_key s ph))
     /\ forall j j', 0 <= j < nw d - time2sample c pre - time2sample c post -> 0 <= j' < nw d' - time2sample c pre' - time2sample c post' ->
        d_start d / D + time2sample c pre + j = d_start d' / D + time2sample c pre' + j' -> exists row, rd rows j = Some row /\ rd rows' j' = Some row.
Proof.
  pose proof H as [R1 R2 Gp Fl Nd Sts Rc Rc' Lv Lv' M0 Hm Re0 Re Cl Cl'].
  destruct (coalescence_two lowpass taper tiny secs k l tab (IZR (o_rate k)) x ids Nd Gp Fl m _ _ _ _ d d' R1 R2 Rc Rc' Lv Lv' Sts Hm M0 reach Re0 Re Cl Cl' r0) as [(E & E')|(mp & mp' & E & E' & L & L' & P & P' & V)].
  - left. assert (G : forall dd a b p1 p2, window_ready lowpass taper tiny secs k l tab (IZR (o_rate k)) a b dd -> a = time2sample c p1 -> b = time2sample c p2 -> compute_coalescence lowpass taper tiny secs k r0 l dd (IZR (o_rate k)) a b = Raise DataAvailabilityException ->
      DetectRun_Model.compute lowpass taper tiny secs k transform l r0 r1 p1 p2 dd = Raise DataAvailabilityException).
    { intros dd a b p1 p2 Hr -> -> Ec. unfold DetectRun_Model.compute, DetectRun_Model.d_clock. destruct (wr_lengths lowpass taper tiny secs k l tab (IZR (o_rate k)) _ _ dd Hr) as [Eo|(st & Eo & _)]; rewrite Eo; cbn [bind]; [reflexivity|]. rewrite Ec. reflexivity. }
    split; [exact (G d _ _ pre post R1 eq_refl eq_refl E)|exact (G d' _ _ pre' post' R2 eq_refl eq_refl E')].
  - right. destruct (onsets_of _ _ _ _ _ E) as (st & Es). destruct (onsets_of _ _ _ _ _ E') as (st' & Es'). pose proof (wr_grid _ _ _ _ _ _ _ _ _ _ _ R1) as Hg.
    pose proof (wr_samples _ _ _ _ _ _ _ _ _ _ _ R1) as W1. pose proof (wr_samples _ _ _ _ _ _ _ _ _ _ _ R2) as W2.
    pose proof (Lut_Proofs.pos3_nodes _ (Lut_Proofs.grid_ok_pos _ Hg)) as Np.
    assert (Wd : 0 <= nw d - time2sample c pre - time2sample c post) by lia. assert (Wd' : 0 <= nw d' - time2sample c pre' - time2sample c post') by lia.
    destruct (rows_of_map transform l r1 mp _ Hg Wd L P) as (o & rows & Eo & Er & Lr & Hr). destruct (rows_of_map transform l r1 mp' _ Hg Wd' L' P') as (o' & rows' & Eo' & Er' & Lr' & Hr').
    exists rows, rows', (l_avail st), (l_avail st'). split; [|split; [|split; [exact Lr|split; [exact Lr'|split]]]].
    + unfold DetectRun_Model.compute, DetectRun_Model.d_clock. rewrite Es. cbn [bind]. rewrite E. cbn [bind]. change (let '(nx, ny, nz) := Lut_Model.g_count (Lut_Model.l_grid l) in nx * ny * nz) with (n_nodes (Lut_Model.g_count (Lut_Model.l_grid l))).
      rewrite L at 1. rewrite (Z.mul_comm (n_nodes _) (_ - _ - _)), Z.div_mul by lia. rewrite Eo. cbn [bind]. rewrite Er. reflexivity.
    + unfold DetectRun_Model.compute, DetectRun_Model.d_clock. rewrite Es'. cbn [bind]. rewrite E'. cbn [bind]. change (let '(nx, ny, nz) := Lut_Model.g_count (Lut_Model.l_grid l) in nx * ny * nz) with (n_nodes (Lut_Model.g_count (Lut_Model.l_grid l))).
      rewrite L' at 1. rewrite (Z.mul_comm (n_nodes _) (_ - _ - _)), Z.div_mul by lia. rewrite Eo'. cbn [bind]. rewrite Er'. reflexivity.
    + intros s ph Is Ip. assert (Is' : In s (d_stations d')) by (rewrite Sts; exact Is). rewrite (avail_at d _ _ st R1 Es s ph Is Ip), (avail_at d' _ _ st' R2 Es' s ph Is' Ip).
      destruct (wr_phases _ _ _ _ _ _ _ _ _ _ _ R1 ph Ip) as (pc & Ec & _).
      destruct (pair_is lowpass taper tiny secs k l tab (IZR (o_rate k)) x ids Nd Gp Fl _ _ d R1 Rc Lv ph pc s Ip Ec Is) as (w & ->). destruct (pair_is lowpass taper tiny secs k l tab (IZR (o_rate k)) x ids Nd Gp Fl _ _ d' R2 Rc' Lv' ph pc s Ip Ec Is') as (w' & ->).
      destruct (enough k ids pc s); reflexivity.
    + intros j j' Hj Hj' Et. destruct (Hr j Hj) as (row & Rr & Pk). destruct (Hr' j' Hj') as (row' & Rr' & Pk'). exists row. split; [exact Rr|]. rewrite Rr'. f_equal. symmetry. eapply peak_unique; [|exact Pk|exact Pk'].
      intros q Hq. cbv beta. destruct (V q j j' Hq Hj Hj' Et) as (v & V1 & V2). unfold value. rewrite V1, V2. reflexivity.
Qed.
End Timestep.

(** ** Two scans of the same time *)
Lemma scan_window lowpass taper tiny secs k transform ucf l tab x ids stations starttime timestep pre post i d : DetectRun_Spec.scan_ready lowpass taper tiny secs k transform ucf l tab stations starttime timestep pre post -> Forall plain_station stations ->
  d_start d = starttime + timestep * i - pre -> d_end d = starttime + timestep * (i + 1) - secs / o_rate k + post -> d_stations d = stations -> recorded secs k x ids d ->
  window_ready lowpass taper tiny secs k l tab (IZR (o_rate k)) (time2sample (o_clock secs k) pre) (time2sample (o_clock secs k) post) d
  /\ n_window secs (o_rate k) (d_start d) (d_end d) - time2sample (o_clock secs k) pre - time2sample (o_clock secs k) post = timestep / (secs / o_rate k)
  /\ n_window secs (o_rate k) (d_start d) (d_end d) = (timestep + pre + post) / (secs / o_rate k).
Proof.
  intros S Pd Es Ee Est Rc. destruct (DetectRun_Proofs.sr_multiples lowpass taper tiny secs k transform ucf l tab stations starttime timestep pre post S) as (a & b & m & Ea & Eb & Em & Ha & Hb & Hm & Ta & Tb & _).
  destruct (DetectRun_Proofs.sr_delta lowpass taper tiny secs k transform ucf l tab stations starttime timestep pre post S) as (Dp & Sp). set (D := secs / o_rate k) in *.
  pose proof S as [S1 S2 S3 S4 S5 S6 S7 S8 S9 S10 S11 S12 S13 S14 S15 S16 S17 S18 S19 S20 S21 S22 S23]. fold D in S9, S10. destruct S10 as [y Hy].
  assert (Nw : n_window secs (o_rate k) (d_start d) (d_end d) = a + m + b).
  { unfold n_window. fold D. rewrite Es, Ee, Ea, Eb, Em. replace (starttime + m * D * (i + 1) - D + b * D - (starttime + m * D * i - a * D)) with ((m - 1 + b + a) * D) by ring. rewrite Z.div_mul by lia. lia. }
  assert (Tot : (timestep + pre + post) / (secs / o_rate k) = a + m + b) by (fold D; rewrite Ea, Eb, Em; replace (m * D + a * D + b * D) with ((a + m + b) * D) by ring; apply Z.div_mul; lia).
  assert (Post : post / D = b) by (rewrite Eb; apply Z.div_mul; lia). assert (Gs : (D | d_start d)) by (rewrite Es, Ea, Em, Hy; exists (y + m * i - a); ring).
  assert (Ms : secs <= 500000 * D).
  { unfold whole_ms, o_clock in S7. cbn [sec delta] in S7. fold D in S7. apply Z.divide_pos_le in S7; [|exact Dp]. pose proof (Z.div_mod secs 1000 ltac:(lia)). pose proof (Z.mod_pos_bound secs 1000 ltac:(lia)). lia. }
  split; [|split; [rewrite Nw, Ta, Tb, Em, Z.div_mul by lia; lia|exact (eq_trans Nw (eq_sym Tot))]]. constructor; try assumption; rewrite ?Est, ?Nw, ?Ta, ?Tb; try assumption; try lia.
  - rewrite Ee, Eb, Em, Hy. fold D. exists (y + m * (i + 1) - 1 + b). ring.
  - rewrite Es, Ee, Ea, Eb, Em. assert (0 <= (m - 1) * D) by (apply Z.mul_nonneg_nonneg; lia). assert (0 <= a * D) by (apply Z.mul_nonneg_nonneg; lia). assert (0 <= b * D) by (apply Z.mul_nonneg_nonneg; lia). lia.
  - intros ph Ip. destruct (S14 ph Ip) as (pc & P1 & (P2 & P3) & P4 & P5 & P6). exists pc. rewrite Tot in P3. auto 10.
  - rewrite Rc. apply Forall_forall. intros g Ig. apply in_map_iff in Ig. destruct Ig as (id & <- & _). unfold usable, on_own_grid. cbn [sg_delta sg_start sg_data]. fold D. split; [auto|]. split; [|split; [exact Ms|left; reflexivity]].
    unfold window_of, cut. rewrite Nw. intros N. apply (f_equal (@length R)) in N. unfold array1 in N. rewrite map_length, zrange_length in N. cbn in N. lia.
  - intros s p Is Ip. destruct (S20 s p Is Ip) as (T1 & T2 & T3). split; [exact T1|]. split; [exact T2|]. fold D in T3. rewrite Post in T3. exact T3.
Qed.

Lemma concat_len {A} (M : Z) : forall ls : list (list A), Forall (fun l => Z.of_nat (length l) = M) ls -> Z.of_nat (length (concat ls)) = Z.of_nat (length ls) * M.
Proof. induction 1 as [|a ls Ha _ IH]; [reflexivity|]. cbn [concat length]. rewrite app_length, Nat2Z.inj_add, IH, Ha. lia. Qed.
Lemma rd_concat {A} (M : Z) : 0 < M -> forall ls : list (list A), Forall (fun l => Z.of_nat (length l) = M) ls -> forall i j, 0 <= i -> 0 <= j < M ->
  rd (concat ls) (i * M + j) = match rd ls i with Some l => rd l j | None => None end.
Proof.
  intros HM. induction 1 as [|a ls Ha _ IH]; intros i j Hi Hj; [rewrite !rd_nil; reflexivity|]. cbn [concat]. rewrite (rd_cons _ a ls). destruct (Z.eqb_spec i 0) as [->|N].
  - cbn [Z.mul Z.add]. rewrite rd_app1 by lia. reflexivity.
  - assert (0 <= (i - 1) * M) by (apply Z.mul_nonneg_nonneg; lia). rewrite rd_app2 by lia. rewrite Ha. replace (i * M + j - M) with ((i - 1) * M + j) by ring. apply IH; lia.
Qed.

Section Runs.
Variables (lowpass : Z -> list R -> list R) (taper : list R -> list R) (tiny : R) (secs : Z) (k : onset_cfg) (transform : Z -> Z -> Lut_Model.vec -> Lut_Model.vec) (ucf : R) (l : Lut_Model.lut) (r0 : Migrate_Model.mreg) (r1 : Migrate_Model.freg).
Variables (tab : string -> string -> Lut_Model.table) (stations : list string) (x : string -> Z -> R) (ids : list string) (m : Z -> Z) (reach starttime timestep pre post timestep' pre' post' n n' : Z) (read : Z -> Z -> outcome wdata).
Notation D := (secs / o_rate k).
Notation c := (o_clock secs k).
Hypothesis S : DetectRun_Spec.scan_ready lowpass taper tiny secs k transform ucf l tab stations starttime timestep pre post.
Hypothesis S' : DetectRun_Spec.scan_ready lowpass taper tiny secs k transform ucf l tab stations starttime timestep' pre' post'.
Hypothesis St : steady secs k l tab ids stations m reach.
Hypothesis Cl : clear_of_ends secs k (m ((timestep + pre + post) / D)) (time2sample c pre) (time2sample c post) reach.
Hypothesis Cl' : clear_of_ends secs k (m ((timestep' + pre' + post') / D)) (time2sample c pre') (time2sample c post') reach.
Lemma compare_steps i i' d d' : d_start d = starttime + timestep * i - pre -> d_end d = starttime + timestep * (i + 1) - D + post -> d_stations d = stations -> recorded secs k x ids d -> lively tiny secs k x ids d ->
  d_start d' = starttime + timestep' * i' - pre' -> d_end d' = starttime + timestep' * (i' + 1) - D + post' -> d_stations d' = stations -> recorded secs k x ids d' -> lively tiny secs k x ids d' ->
  comparable lowpass taper tiny secs k l tab (IZR (o_rate k)) x ids m reach (time2sample c pre) (time2sample c post) (time2sample c pre') (time2sample c post') d d'.
Proof.
  intros E1 E2 E3 Rc Lv E1' E2' E3' Rc' Lv'. destruct St as [T1 T2 T3 T4 T5 T6 T7 T8].
  destruct (scan_window lowpass taper tiny secs k transform ucf l tab x ids stations starttime timestep pre post i d S T4 E1 E2 E3 Rc) as (Wr & _ & Nw). destruct (scan_window lowpass taper tiny secs k transform ucf l tab x ids stations starttime timestep' pre' post' i' d' S' T4 E1' E2' E3' Rc') as (Wr' & _ & Nw').
  constructor; try assumption; [congruence|rewrite E3; exact T8|rewrite Nw; exact Cl|rewrite Nw'; exact Cl'].
Qed.
Notation W := (fun i => step_window c starttime timestep pre post i).
Notation W' := (fun i => step_window c starttime timestep' pre' post' i).
Lemma steps_two i i' rs a rs' a' : reads tiny secs k x ids stations read (fst (W i)) (snd (W i)) -> reads tiny secs k x ids stations read (fst (W' i')) (snd (W' i')) ->
  DetectRun_Proofs.made lowpass taper tiny secs k transform l r0 r1 stations starttime timestep pre post read i rs a -> DetectRun_Proofs.made lowpass taper tiny secs k transform l r0 r1 stations starttime timestep' pre' post' read i' rs' a' ->
  a = a' /\ forall j j', 0 <= j < timestep / D -> 0 <= j' < timestep' / D -> timestep * i + j * D = timestep' * i' + j' * D -> rd rs j = rd rs' j'.
Proof.
  intros (d & Er & Es & Ee & Est & Rc & Lv) (d' & Er' & Es' & Ee' & Est' & Rc' & Lv') Mk Mk'. unfold step_window in Es, Ee, Es', Ee'. cbn [fst snd o_clock delta] in Es, Ee, Es', Ee'.
  unfold DetectRun_Proofs.made in Mk, Mk'. rewrite Er in Mk. rewrite Er' in Mk'. destruct Mk as [(e & N)|(d0 & N & Mk)]; [discriminate|]. assert (d0 = d) by congruence. subst d0. destruct Mk' as [(e & N')|(d0 & N' & Mk')]; [discriminate|]. assert (d0 = d') by congruence. subst d0. clear N N'.
  pose proof (compare_steps i i' d d' Es Ee Est Rc Lv Es' Ee' Est' Rc' Lv') as Cm.
  destruct (scan_window lowpass taper tiny secs k transform ucf l tab x ids stations starttime timestep pre post i d S (st_dots _ _ _ _ _ _ _ _ St) Es Ee Est Rc) as (_ & Nw & _). destruct (scan_window lowpass taper tiny secs k transform ucf l tab x ids stations starttime timestep' pre' post' i' d' S' (st_dots _ _ _ _ _ _ _ _ St) Es' Ee' Est' Rc') as (_ & Nw' & _).
  destruct (compute_two lowpass taper tiny secs k transform l r0 r1 tab x ids m reach pre post pre' post' d d' Cm) as [(E & E')|(rows & rows' & av & av' & E & E' & _ & _ & Hav & Hr)].
  - rewrite E in Mk. rewrite E' in Mk'. destruct Mk as [(_ & -> & ->)|(av & N & _)]; [|discriminate]. destruct Mk' as [(_ & -> & ->)|(av & N & _)]; [|discriminate]. split; [reflexivity|]. intros j j' Hj Hj' _. rewrite !rd_repeat by lia. reflexivity.
  - rewrite E in Mk. rewrite E' in Mk'. destruct Mk as [(N & _)|(av1 & Q & Ha)]; [discriminate|]. destruct Mk' as [(N & _)|(av1' & Q' & Ha')]; [discriminate|]. assert (av1 = av /\ rs = rows) as (-> & ->) by (split; congruence). assert (av1' = av' /\ rs' = rows') as (-> & ->) by (split; congruence). split.
    + assert (Ea : DetectRun_Model.avail_row (DetectRun_Model.columns k stations) av = DetectRun_Model.avail_row (DetectRun_Model.columns k stations) av').
      { unfold DetectRun_Model.avail_row. assert (Em : ScanMseed_Model.map_opt (dget av) (DetectRun_Model.columns k stations) = ScanMseed_Model.map_opt (dget av') (DetectRun_Model.columns k stations)); [|rewrite Em; reflexivity].
        assert (G : forall key, In key (DetectRun_Model.columns k stations) -> dget av key = dget av' key). { intros key Ik. unfold DetectRun_Model.columns in Ik. apply in_flat_map in Ik. destruct Ik as (ph & Ip & Ik). apply in_map_iff in Ik. destruct Ik as (s & <- & Is). apply Hav; [rewrite Est; exact Is|exact Ip]. }
        revert G. generalize (DetectRun_Model.columns k stations) as cs. induction cs as [|c0 cs IH]; intros G; [reflexivity|]. cbn [ScanMseed_Model.map_opt]. rewrite (G c0) by (left; reflexivity). rewrite IH by (intros y Iy; apply G; right; exact Iy). reflexivity. }
      rewrite Ea in Ha. congruence.
    + intros j j' Hj Hj' Et. rewrite Nw, Nw' in Hr. destruct (Hr j j' Hj Hj') as (row & -> & ->); [|reflexivity].
      destruct (DetectRun_Proofs.sr_multiples lowpass taper tiny secs k transform ucf l tab stations starttime timestep pre post S) as (pa & _ & q & Ea & _ & Em & _ & _ & _ & Ta & _ & _). destruct (DetectRun_Proofs.sr_multiples lowpass taper tiny secs k transform ucf l tab stations starttime timestep' pre' post' S') as (pa' & _ & q' & Ea' & _ & Em' & _ & _ & _ & Ta' & _ & _).
      destruct (DetectRun_Proofs.sr_delta lowpass taper tiny secs k transform ucf l tab stations starttime timestep pre post S) as (Dp & _). destruct (DetectRun_Spec.sr_start _ _ _ _ _ _ _ _ _ _ _ _ _ _ S) as [y Hy].
      rewrite Ta, Ta', Es, Es', Ea, Ea', Hy. rewrite Em, Em' in Et |- *. replace (y * D + q * D * i - pa * D) with ((y + q * i - pa) * D) by ring. replace (y * D + q' * D * i' - pa' * D) with ((y + q' * i' - pa') * D) by ring. rewrite !Z.div_mul by lia.
      assert (q * i + j = q' * i' + j'); [|lia]. apply (Z.mul_reg_r _ _ D); [lia|]. lia.
Qed.
End Runs.

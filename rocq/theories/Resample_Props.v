(** Properties C90 and C91: resampling and the filling of gaps before the onsets are computed. *)
From Coq Require Import String Ascii.
From Coq Require Import List ZArith Reals QArith Lra Lia Bool Permutation.
From Verif Require Import Lib LibFacts Timeline_Model Timeline_Proofs Lut_Model Avail_Model Avail_Spec Avail_Proofs
  Resample_Model Resample_Spec Resample_Proofs ResFill_Proofs.
Import ListNotations.
Open Scope Z_scope.

(** * C90: resampling *)

(** Complete data, whatever mixture of rates, come out of the pre-processing at the requested
    rate with exactly the samples of the window. *)
Theorem C90_complete_data_partial : forall lowpass bandpass secs rate rs uf highcut starttime endtime st,
  ticks_ok secs rate -> (forall d l, length (lowpass d l) = length l) -> (forall d l, length (bandpass d l) = length l) ->
  (highcut < inject_Z rate * (1 # 2))%Q ->
  (secs / rate | starttime) -> (secs / rate | endtime) -> starttime <= endtime ->
  Forall (fun s => on_own_grid s /\ convertible secs rate rs uf s /\ covers starttime endtime s) st ->
  exists outs, pre_process lowpass bandpass secs rate rs uf highcut starttime endtime st = Ret outs
  /\ Permutation (map sg_id outs) (map sg_id st)
  /\ Forall (fun o => sg_delta o = secs / rate /\ sg_start o = starttime /\ npts o = n_window secs rate starttime endtime) outs.
Proof.
  intros lp bp secs rate rs uf hc t0 t1 st T HL HB Hq Hs He Hle F. destruct (ticks_d _ _ T) as [HD _].
  assert (G : exists g, forall s, In s st -> resample_trace lp secs rate rs uf t0 t1 s = Ret (g s)
    /\ sg_id (g s) = sg_id s /\ sg_delta (g s) = secs / rate /\ sg_start (g s) = t0 /\ npts (g s) = n_window secs rate t0 t1).
  { exists (fun s => match resample_trace lp secs rate rs uf t0 t1 s with Ret o => o | _ => s end). intros s Is.
    pose proof (proj1 (Forall_forall _ _) F s Is) as (G & C & N & A & B).
    destruct (resample_window lp secs rate rs uf t0 t1 s) as (o & -> & Ho); try assumption. split; [reflexivity|exact Ho]. }
  destruct G as [g G]. unfold pre_process, resample.
  destruct (resample_loop_ok (resample_trace lp secs rate rs uf t0 t1) (moved secs rate rs uf) st g) as (k & n & -> & P); [intros s Is; apply G, Is|].
  cbn [bind fst snd]. destruct (Qle_bool (inject_Z rate * (1 # 2)) hc) eqn:Q.
  { apply Qle_bool_iff in Q. exfalso. exact (Qlt_not_le _ _ Hq Q). }
  eexists. split; [reflexivity|].
  assert (W : Forall (fun o => sg_delta o = secs / rate /\ sg_start o = t0 /\ npts o = n_window secs rate t0 t1) (k ++ n)).
  { eapply Permutation_Forall; [symmetry; exact P|]. apply Forall_map, Forall_forall. intros s Is. apply G, Is. }
  assert (NW : 0 < n_window secs rate t0 t1).
  { unfold n_window. assert (0 <= (t1 - t0) / (secs / rate)) by (apply Z.div_pos; lia). lia. }
  assert (TR : forall o, In o (k ++ n) -> let o' := trim (t0 - secs / 100000) (t1 + secs / 100000) o in
    sg_delta o' = secs / rate /\ sg_start o' = t0 /\ npts o' = n_window secs rate t0 t1).
  { intros o Io. pose proof (proj1 (Forall_forall _ _) W o Io) as (A & B & C). cbv zeta. split; [rewrite trim_delta; exact A|].
    apply trim_all; try assumption. apply Z.divide_sub_r; assumption. }
  assert (FT : trim_stream (t0 - secs / 100000) (t1 + secs / 100000) (k ++ n) = map (trim (t0 - secs / 100000) (t1 + secs / 100000)) (k ++ n)).
  { unfold trim_stream. clear P. induction (k ++ n) as [|o l IH]; [reflexivity|]. cbn [map filter].
    destruct (TR o (or_introl eq_refl)) as (_ & _ & N). rewrite N. destruct (Z.ltb_spec 0 (n_window secs rate t0 t1)); [|lia].
    f_equal. apply IH; [inversion W; assumption|]. intros x Hx. apply TR. right. exact Hx. }
  rewrite FT, !map_map. split.
  - replace (map (fun x => sg_id (mk_seg (sg_id (trim (t0 - secs / 100000) (t1 + secs / 100000) x)) (sg_start (trim (t0 - secs / 100000) (t1 + secs / 100000) x))
        (sg_delta (trim (t0 - secs / 100000) (t1 + secs / 100000) x)) (bp (sg_delta (trim (t0 - secs / 100000) (t1 + secs / 100000) x)) (sg_data (trim (t0 - secs / 100000) (t1 + secs / 100000) x))))) (k ++ n))
      with (map sg_id (k ++ n)) by (apply map_ext; reflexivity).
    apply (Permutation_map sg_id) in P. rewrite P, map_map. erewrite map_ext_in; [reflexivity|]. intros s Is. apply G, Is.
  - apply Forall_map, Forall_forall. intros o Io. destruct (TR o Io) as (A & B & C). cbn [sg_delta sg_start]. split; [exact A|]. split; [exact B|].
    unfold npts. cbn [sg_data]. rewrite HB. exact C.
Qed.
Print Assumptions C90_complete_data_partial.

(** Raw data at 40, 50 and 100 Hz; the first trace begins 15 ms into the window. *)
Example C90_ex : ticks_ok 100000 50 /\ Forall (fun s => on_own_grid s /\ convertible 100000 50 true (Some 5) s /\ covers 2000 10000 s)
  [mk_seg "A" 2500 2500 [0; 1; 2; 3]%R; mk_seg "B" 2000 2000 [0; 1; 2; 3; 4]%R; mk_seg "C" 2000 1000 [0; 1; 2; 3; 4; 5; 6; 7; 8]%R].
Proof.
  split; [split; [reflexivity|]; split; [exists 1; reflexivity|]; split; [exists 2000; reflexivity|split; reflexivity]|].
  apply Forall_cons; [|apply Forall_cons; [|apply Forall_cons; [|constructor]]]; (split; [split; [reflexivity|]|split; [|split; [discriminate|split; reflexivity]]]).
  - exists 1. reflexivity.
  - right. exists 5. split; [reflexivity|]. split; [reflexivity|]. split; [lia|]. split; [exists 500; reflexivity|]. split; [exists 200; reflexivity|]. split; [exists 4; reflexivity|reflexivity].
  - exists 1. reflexivity.
  - left. exists 1. reflexivity.
  - exists 2. reflexivity.
  - left. exists 2. reflexivity.
Qed.

(** Traces at multiples of the requested rate, with or without gaps: the samples of the output are
    those of the low-passed traces, at their times, one in [rate / requested rate] counted from the
    first sample of each trace. *)
Theorem C90_decimated_samples_partial : forall lowpass secs rate rs uf starttime endtime st,
  ticks_ok secs rate -> (forall s, In s st -> 0 < sg_delta s /\ (sg_delta s | secs / rate)) ->
  exists outs, resample lowpass secs rate rs uf starttime endtime st = Ret outs
  /\ (forall o, In o outs -> sg_delta o = secs / rate)
  /\ forall id t v,
     (exists o, In o outs /\ sg_id o = id /\ sample_at o t v) <->
     (exists s, In s st /\ sg_id s = id
        /\ sample_at (if sg_delta s =? secs / rate then s else with_data (lowpass (sg_delta s)) s) t v
        /\ aligned (secs / rate) (sg_start s) t
        /\ starttime - secs / 100000 <= t <= endtime + secs / 100000).
Proof.
  intros lp secs rate rs uf t0 t1 st T F. destruct (ticks_d _ _ T) as [HD _].
  set (D := secs / rate) in *. set (src := fun s => if sg_delta s =? D then s else with_data (lp (sg_delta s)) s).
  assert (G : exists g, forall s, In s st -> resample_trace lp secs rate rs uf t0 t1 s = Ret (g s) /\ sg_id (g s) = sg_id s /\ sg_delta (g s) = D
    /\ forall t v, sample_at (g s) t v <-> sample_at (src s) t v /\ aligned D (sg_start s) t).
  { exists (fun s => match resample_trace lp secs rate rs uf t0 t1 s with Ret o => o | _ => s end). intros s Is. destruct (F s Is) as [Hd Hv].
    unfold resample_trace, at_rate. fold D. subst src. cbv beta. destruct (Z.eqb_spec (sg_delta s) D) as [E|E].
    - split; [reflexivity|]. split; [reflexivity|]. split; [exact E|]. intros t v. split; [|tauto]. intros H. split; [exact H|]. destruct H as (k & _ & ->). exists k. rewrite E. reflexivity.
    - unfold decimable. fold D. replace (D mod sg_delta s =? 0) with true by (symmetry; apply Z.eqb_eq, Z.mod_divide; [lia|exact Hv]).
      pose proof (decimate_ok lp D s Hd Hv HD) as Eo. rewrite Eo. split; [reflexivity|]. split; [reflexivity|]. split; [reflexivity|].
      intros t v. rewrite (decimate_samples lp D s _ t v Hd Hv HD Eo). reflexivity. }
  destruct G as [g G]. unfold resample.
  destruct (resample_loop_ok (resample_trace lp secs rate rs uf t0 t1) (moved secs rate rs uf) st g) as (k & n & -> & P); [intros s Is; apply G, Is|].
  cbn [bind fst snd]. eexists. split; [reflexivity|].
  assert (I1 : forall o, In o (k ++ n) -> exists s, In s st /\ o = g s).
  { intros o Io. apply (Permutation_in o P), in_map_iff in Io. destruct Io as (s & <- & Is). exists s. split; [exact Is|reflexivity]. }
  split.
  - intros o Io. unfold trim_stream in Io. apply filter_In in Io. destruct Io as [Io _]. apply in_map_iff in Io. destruct Io as (x & <- & Ix).
    rewrite trim_delta. destruct (I1 x Ix) as (s & Is & ->). apply G, Is.
  - intros id t v. split.
    + intros (o & Io & <- & Hv). unfold trim_stream in Io. apply filter_In in Io. destruct Io as [Io _]. apply in_map_iff in Io. destruct Io as (x & <- & Ix).
      destruct (I1 x Ix) as (s & Is & ->). destruct (G s Is) as (_ & Ei & Ed & Es). apply trim_samples in Hv; [|rewrite Ed; exact HD]. destruct Hv as [Hv Hw].
      apply Es in Hv. destruct Hv as [Hv Ha]. exists s. split; [exact Is|]. split; [symmetry; exact Ei|]. split; [exact Hv|]. split; [exact Ha|exact Hw].
    + intros (s & Is & <- & Hv & Ha & Hw). destruct (G s Is) as (_ & Ei & Ed & Es).
      assert (Hg : sample_at (g s) t v) by (apply Es; split; [exact Hv|exact Ha]).
      exists (trim (t0 - secs / 100000) (t1 + secs / 100000) (g s)). split; [|split; [rewrite trim_id; exact Ei|apply trim_samples; [rewrite Ed; exact HD|split; assumption]]].
      unfold trim_stream. apply filter_In. split.
      * apply in_map. apply (Permutation_in _ (Permutation_sym P)). apply in_map, Is.
      * apply Z.ltb_lt. apply (trim_nonempty _ _ _ t v); [rewrite Ed; exact HD|exact Hg|exact Hw].
Qed.
Print Assumptions C90_decimated_samples_partial.

(** What has been checked when the pre-processing returns: the filter is below the Nyquist
    frequency, and every trace that was upsampled could be brought to the requested rate. *)
Theorem C90_checks_partial : forall lowpass bandpass secs rate rs uf highcut starttime endtime st outs,
  pre_process lowpass bandpass secs rate rs uf highcut starttime endtime st = Ret outs -> 0 < rate ->
  (highcut < inject_Z rate * (1 # 2))%Q
  /\ forall s u, In s st -> 0 < sg_delta s -> rs = true -> uf = Some u -> ~ (sg_delta s | secs / rate) -> (rate | secs * u / sg_delta s).
Proof.
  intros lp bp secs rate rs uf hc t0 t1 st outs E Hr. unfold pre_process, resample in E.
  destruct (resample_loop (resample_trace lp secs rate rs uf t0 t1) (moved secs rate rs uf) st) as [[k n]| |] eqn:El; cbn [bind fst snd] in E; try discriminate.
  destruct (Qle_bool (inject_Z rate * (1 # 2)) hc) eqn:Q; [discriminate|]. split.
  - apply Qnot_le_lt. intros C. apply Qle_bool_iff in C. congruence.
  - intros s u Is Hd -> -> N. destruct (resample_loop_ret _ _ _ _ _ El s Is) as (o & Eo & _). unfold resample_trace in Eo.
    destruct (at_rate secs rate s) eqn:A.
    { exfalso. unfold at_rate in A. apply Z.eqb_eq in A. apply N. exists 1. lia. }
    destruct (decimable secs rate s) eqn:Dc.
    { exfalso. unfold decimable in Dc. apply Z.eqb_eq in Dc. apply N, Z.mod_divide; [lia|exact Dc]. }
    destruct ((secs * u / sg_delta s) mod rate =? 0) eqn:M; [|discriminate]. apply Z.eqb_eq in M. apply Z.mod_divide; [lia|exact M].
Qed.
Print Assumptions C90_checks_partial.

(** A trace that begins, after a gap, between two samples of the requested rate stays between
    them: 100 Hz data from 10 ms on, decimated to 50 Hz. *)
Theorem C90_off_grid_refuted : exists s, on_own_grid s /\ (sg_delta s | 100000 / 50) /\ 0 <= sg_start s /\ sg_end s <= 10000
  /\ forall lowpass rs uf, (forall d l, length (lowpass d l) = length l) ->
     exists o, resample lowpass 100000 50 rs uf 0 10000 [s] = Ret [o] /\ npts o = 5 /\ forall t v, sample_at o t v -> ~ (100000 / 50 | t).
Proof.
  exists (mk_seg "A" 1000 1000 [0; 1; 2; 3; 4; 5; 6; 7; 8]%R). split; [split; [reflexivity|exists 1; reflexivity]|].
  split; [exists 2; reflexivity|]. split; [discriminate|]. split; [discriminate|]. intros lp rs uf HL.
  set (s := mk_seg "A" 1000 1000 [0; 1; 2; 3; 4; 5; 6; 7; 8]%R).
  assert (HD : 0 < 100000 / 50) by reflexivity. assert (Hv : (sg_delta s | 100000 / 50)) by (exists 2; reflexivity).
  pose proof (decimate_ok lp (100000 / 50) s ltac:(reflexivity) Hv HD) as Eo.
  assert (Er : resample_trace lp 100000 50 rs uf 0 10000 s = decimate lp (100000 / 50) s) by reflexivity.
  unfold resample. cbn [resample_loop]. rewrite Er, Eo. cbn [bind]. match type of Eo with _ = Ret ?x => set (o := x) in * end.
  assert (Em : moved 100000 50 rs uf s = true) by reflexivity. rewrite Em. cbn [bind fst snd app].
  assert (No : npts o = 5).
  { destruct (every_ok _ (100000 / 50 / sg_delta s) (lp (sg_delta s) (sg_data s)) ltac:(reflexivity)) as [L _]. etransitivity; [exact L|]. rewrite HL. reflexivity. }
  assert (Tr : npts (trim (0 - 100000 / 100000) (10000 + 100000 / 100000) o) = 5).
  { destruct (trim_exact (0 - 100000 / 100000) (10000 + 100000 / 100000) o 0 4) as [_ B]; rewrite ?No; cbn [o sg_delta sg_start s]; try reflexivity; try discriminate; try (left; reflexivity). exact B. }
  exists (trim (0 - 100000 / 100000) (10000 + 100000 / 100000) o). split; [|split; [exact Tr|]].
  - unfold trim_stream. cbn [map filter]. rewrite Tr. reflexivity.
  - intros t v H. apply trim_samples in H; [|reflexivity]. destruct H as [(k & _ & ->) _]. cbn [o sg_start sg_delta s].
    change (100000 / 50) with 2000. intros [q Eq]. lia.
Qed.
Print Assumptions C90_off_grid_refuted.

(** The traces that are left as they are keep their places, and those that are decimated or upsampled follow them, in the order they had. *)
Theorem C90_order :
  forall lowpass secs rate rs uf starttime endtime st out new,
  (forall s, In s st -> 0 < sg_delta s) -> (forall s, In s st -> new s = true <-> sg_delta s <> secs / rate /\ ((sg_delta s | secs / rate) \/ (rs = true /\ uf <> None))) ->
  resample lowpass secs rate rs uf starttime endtime st = Ret out -> length out = length st ->
  map sg_id out = map sg_id (filter (fun s => negb (new s)) st) ++ map sg_id (filter new st).
Proof.
  intros lp secs rate rs uf t0 t1 st out new Hd Hn E L.
  assert (Hid : forall s s', resample_trace lp secs rate rs uf t0 t1 s = Ret s' -> sg_id s' = sg_id s).
  { assert (Dc : forall s s', decimate lp (secs / rate) s = Ret s' -> sg_id s' = sg_id s) by (intros s s'; unfold decimate; destruct (_ <=? 0); [discriminate|]; intros X; assert (Y : forall A (u v : A), Ret u = Ret v -> u = v) by congruence; apply Y in X; rewrite <- X; reflexivity).
    intros s s'. unfold resample_trace. destruct (at_rate secs rate s); [congruence|]. destruct (decimable secs rate s); [apply Dc|]. destruct rs; [|congruence]. destruct uf as [u|]; [|congruence]. destruct (negb _); [discriminate|].
    destruct (upsample_trace secs u t0 t1 s) as [w| |] eqn:Eu; cbn [bind]; try discriminate. intros X. rewrite (Dc _ _ X). unfold upsample_trace in Eu. destruct (_ || _); [discriminate|]. destruct (upsample _ _ _ _ _ _) as [(a, b)|]; [|discriminate].
    assert (Y : forall A (u v : A), Ret u = Ret v -> u = v) by congruence. apply Y in Eu. rewrite <- Eu. reflexivity. }
  assert (Hm : forall s, In s st -> moved secs rate rs uf s = new s).
  { intros s Is. pose proof (Hn s Is) as N. pose proof (Hd s Is) as P. unfold moved, at_rate, decimable. destruct (Z.eqb_spec (sg_delta s) (secs / rate)) as [e|e]; cbn [negb andb].
    - destruct (new s); [|reflexivity]. destruct N as [N _]. destruct (N eq_refl). contradiction.
    - destruct (Z.eqb_spec ((secs / rate) mod sg_delta s) 0) as [v|v]; cbn [orb].
      + symmetry. apply N. split; [exact e|left; apply Z.mod_divide; lia].
      + destruct rs; cbn [andb]; [destruct uf|]; [symmetry; apply N; split; [exact e|right; split; congruence]|destruct (new s); [|reflexivity]|destruct (new s); [|reflexivity]]; exfalso; destruct N as [N _]; destruct (N eq_refl) as (_ & [X|(X & Y)]); try (apply v, Z.mod_divide; [lia|exact X]); congruence. }
  unfold resample in E. destruct (resample_loop _ _ st) as [(kept, made)| |] eqn:El; cbn [bind fst snd] in E; try discriminate.
  assert (K : map sg_id kept = map sg_id (filter (fun s => negb (new s)) st) /\ map sg_id made = map sg_id (filter new st)).
  { clear E L Hd Hn. revert kept made El. induction st as [|s r IH]; intros kept made El; cbn [resample_loop] in El; [assert (kept = [] /\ made = []) as (-> & ->) by (split; congruence); split; reflexivity|].
    destruct (resample_trace lp secs rate rs uf t0 t1 s) as [s'| |] eqn:Es; cbn [bind] in El; try discriminate. destruct (resample_loop _ _ r) as [(k, m)| |]; cbn [bind fst snd] in El; try discriminate.
    destruct (IH (fun x I => Hm x (or_intror I)) k m eq_refl) as (A & B). rewrite (Hm s (or_introl eq_refl)) in El. cbn [filter]. destruct (new s); cbn [negb].
    - assert (kept = k /\ made = s' :: m) as (-> & ->) by (split; congruence). split; [exact A|]. cbn [map]. rewrite B, (Hid _ _ Es). reflexivity.
    - assert (kept = s' :: k /\ made = m) as (-> & ->) by (split; congruence). split; [|exact B]. cbn [map]. rewrite A, (Hid _ _ Es). reflexivity. }
  destruct K as (K1 & K2). rewrite <- K1, <- K2, <- map_app. assert (Le : length st = length (kept ++ made)).
  { rewrite <- (map_length sg_id (kept ++ made)), map_app, K1, K2, app_length, !map_length. clear. induction st as [|s r IH]; [reflexivity|]. cbn [filter length]. destruct (new s); cbn [negb length]; lia. }
  assert (Eo : out = trim_stream (t0 - secs / 100000) (t1 + secs / 100000) (kept ++ made)) by congruence. rewrite Le in L. clear - Eo L. unfold trim_stream in Eo. set (h := trim _ _) in Eo. assert (Hh : forall s, sg_id (h s) = sg_id s) by reflexivity. clearbody h. revert out Eo L.
  assert (Lf : forall l : list seg, (length (filter (fun s => (0 <? npts s)%Z) (map h l)) <= length l)%nat) by (induction l as [|s l IH]; cbn [map filter length]; [lia|destruct (0 <? npts (h s)); cbn [length]; lia]).
  induction (kept ++ made) as [|s l IH]; intros out Eo L; subst out; [reflexivity|]. cbn [map filter length] in L |- *. destruct (0 <? npts (h s)); cbn [length map] in L |- *; [|pose proof (Lf l); lia]. rewrite Hh. f_equal. apply IH; [reflexivity|lia].
Qed.
Print Assumptions C90_order.
(** A trace to decimate before one at the output rate. *)
Example C90_order_applies : let d := mk_seg "A" 0 1000 [1; 2; 3; 4; 5]%R in let k := mk_seg "B" 0 2000 [1; 2; 3]%R in
  exists out, resample (fun _ l => l) 100000 50 false None 0 4000 [d; k] = Ret out /\ length out = 2%nat /\ map sg_id out = ["B"; "A"]%string.
Proof. eexists. split; [reflexivity|]. split; reflexivity. Qed.

(** * C91: the gaps of a channel are filled *)

(** Traces at the output rate, on its samples and without overlap, in any order: the channel
    becomes one trace over exactly the window; every sample is where it was and the rest is the
    fill value. *)
Theorem C91_gaps_filled_partial : forall taper fill secs rate starttime endtime st,
  ticks_ok secs rate -> (forall x, length (taper x) = length x) -> (secs / rate | starttime) -> (secs / rate | endtime) ->
  st <> [] -> overlap_free st ->
  Forall (fun s => sg_delta s = secs / rate /\ sg_data s <> [] /\ (secs / rate | sg_start s) /\ starttime <= sg_start s /\ sg_end s <= endtime) st ->
  exists o, fill_channel taper fill secs starttime endtime st = Ret o
  /\ sg_start o = starttime /\ sg_delta o = secs / rate /\ npts o = n_window secs rate starttime endtime
  /\ forall t v, sample_at o t v <->
       (exists s, In s st /\ sample_at (with_data taper s) t v)
       \/ (v = fill /\ aligned (secs / rate) starttime t /\ starttime <= t <= endtime
           /\ forall s w, In s st -> ~ sample_at (with_data taper s) t w).
Proof.
  intros taper fill secs rate t0 t1 st T HT Hs He Hn O F. destruct (ticks_d _ _ T) as [HD _].
  assert (F' : Forall (fun s => sg_delta s = secs / rate /\ 1 <= npts s /\ (secs / rate | sg_start s) /\ t0 <= sg_start s /\ sg_end s <= t1) st).
  { eapply Forall_impl; [|exact F]. cbv beta. intros s (A & B & C). split; [exact A|]. split; [|exact C]. unfold npts. destruct (sg_data s); [congruence|cbn [length]; lia]. }
  assert (I : forall s, In s (sort_segs st) <-> In s st) by (intros s; split; apply Permutation_in; [|symmetry]; apply sort_perm).
  destruct (fill_channel_ok taper fill secs rate t0 t1 (sort_segs st) st) as (o & E & So & Do & No & Sm); try assumption.
  - intros C. pose proof (sort_perm st) as P. rewrite C in P. apply Permutation_nil in P. congruence.
  - apply (sort_in_order (secs / rate)); [exact HD|exact O|]. eapply Forall_impl; [|exact F']. cbv beta. tauto.
  - symmetry. apply sort_perm.
  - eapply Permutation_Forall; [symmetry; apply sort_perm|exact F'].
  - exists o. split; [exact E|]. split; [exact So|]. split; [exact Do|]. split; [exact No|]. intros t v. rewrite Sm. split.
    + intros [(s & Is & Hv)|(-> & A & B & N)]; [left; exists s; split; [apply I, Is|exact Hv]|right]. repeat (split; [assumption || reflexivity|]).
      intros s w Is. apply N, I, Is.
    + intros [(s & Is & Hv)|(-> & A & B & N)]; [left; exists s; split; [apply I, Is|exact Hv]|right]. repeat (split; [assumption || reflexivity|]).
      intros s w Is. apply N, I, Is.
Qed.
Print Assumptions C91_gaps_filled_partial.
Example C91_ex : ticks_ok 100000 50 /\ overlap_free [mk_seg "A" 6000 2000 [4; 5]%R; mk_seg "A" 2000 2000 [1; 2]%R]
  /\ Forall (fun s => sg_delta s = 100000 / 50 /\ sg_data s <> [] /\ (100000 / 50 | sg_start s) /\ 0 <= sg_start s /\ sg_end s <= 10000)
       [mk_seg "A" 6000 2000 [4; 5]%R; mk_seg "A" 2000 2000 [1; 2]%R].
Proof.
  split; [split; [reflexivity|]; split; [exists 1; reflexivity|]; split; [exists 2000; reflexivity|split; reflexivity]|]. split.
  - constructor; [constructor; [right; reflexivity|constructor]|repeat constructor].
  - repeat constructor; try discriminate; cbn; [exists 3; reflexivity|exists 1; reflexivity].
Qed.

(** The trace of C90_off_grid_refuted meets the availability criteria of an onset that allows
    gaps, and fills to one sample less than the window: the onset cannot be stacked with the
    others. *)
Theorem C91_short_onset_refuted : exists s, on_own_grid s /\ (sg_delta s | 100000 / 50) /\ 0 <= sg_start s /\ sg_end s <= 10000
  /\ exists o c, resample (fun _ l => l) 100000 50 false None 0 10000 [s] = Ret [o]
  /\ channel_ok 0 10000 (mk_criteria true (Some 1) true false true (Some (100000 / 50)) false) [o]
  /\ (forall fill, exists c', fill_channel (fun l => l) fill 100000 0 10000 [o] = Ret c' /\ npts c' = npts c)
  /\ npts c = n_window 100000 50 0 10000 - 1
  /\ forall onset, Z.of_nat (length onset) = n_window 100000 50 0 10000 -> stack_first [onset; sg_data c] = Raise ValueError.
Proof.
  exists (mk_seg "A" 1000 1000 [0; 1; 2; 3; 4; 5; 6; 7; 8]%R). split; [split; [reflexivity|exists 1; reflexivity]|].
  split; [exists 2; reflexivity|]. split; [discriminate|]. split; [discriminate|].
  exists (mk_seg "A" 1000 2000 [0; 2; 4; 6; 8]%R), (mk_seg "A" 1000 2000 [0; 2; 4; 6; 8]%R).
  split; [reflexivity|]. split; [|split; [|split; [reflexivity|]]].
  - split; [repeat constructor|].
    + intros [v F]. inversion F as [|? ? A F']; subst. inversion F' as [|? ? B _]; subst. lra.
    + split; [repeat constructor|]. split; [discriminate|]. split; [repeat constructor|]. split; discriminate.
  - intros fill. eexists. split; [reflexivity|reflexivity].
  - intros onset L. assert (L' : length onset = 6%nat) by (change (n_window 100000 50 0 10000) with 6 in L; lia).
    unfold stack_first. cbn [forallb sg_data]. rewrite Nat.eqb_refl, L'. reflexivity.
Qed.
Print Assumptions C91_short_onset_refuted.

(** Data after a gap that begin between two samples are moved by half a sample. *)
Theorem C91_shifted_refuted : exists a b, sg_delta a = 2000 /\ sg_delta b = 2000 /\ overlap_free [a; b]
  /\ 0 <= sg_start a /\ sg_end b <= 20000 /\ sample_at b 9000 5%R
  /\ exists o, fill_channel (fun l => l) 0%R 100000 0 20000 [a; b] = Ret o /\ sample_at o 10000 5%R /\ forall v, ~ sample_at o 9000 v.
Proof.
  exists (mk_seg "A" 0 2000 [1; 2; 3]%R), (mk_seg "A" 9000 2000 [5; 6]%R).
  split; [reflexivity|]. split; [reflexivity|]. split; [constructor; [constructor; [left; reflexivity|constructor]|repeat constructor]|].
  split; [discriminate|]. split; [discriminate|]. split; [exists 0; split; reflexivity|].
  eexists. split; [reflexivity|]. split; [exists 5; split; reflexivity|].
  intros v (k & _ & E). cbn in E. lia.
Qed.
Print Assumptions C91_shifted_refuted.

(** Properties C49, C50, C65 and C66: the amplitude measurements. *)
From Coq Require Import String Ascii.
From Coq Require Import List ZArith QArith Qabs Qround Qminmax Lia Lqa Bool.
From Verif Require Import Lib LibFacts PySlice Amp_Model Amp_Spec Amp_Proofs.
Import ListNotations.
Open Scope Z_scope.

(** ** C49: windows *)

(** The arrival times used are picks of the table, or modelled times. *)
Lemma arrival_cases table station otime ptt stt :
  let '(p, s, _) := get_picks table station in
  let '(a, b) := arrival_times otime ptt stt p s in
  (a = (otime + ptt)%Q \/ exists r, In r table /\ pk_station r = station /\ pk_phase r = "P"%string /\ pk_time r = Some a)
  /\ (b = (otime + stt)%Q \/ exists r, In r table /\ pk_station r = station /\ pk_phase r = "S"%string /\ pk_time r = Some b).
Proof.
  unfold get_picks. destruct (filter (fun r => String.eqb (pk_station r) station) table) as [|r0 rows] eqn:E; [cbn; split; left; reflexivity|].
  rewrite <- E. pose proof (pick_of_spec table station "P") as HP. pose proof (pick_of_spec table station "S") as HS.
  assert (Hin : forall ph r, first_row table station ph r -> In r table /\ pk_station r = station /\ pk_phase r = ph).
  { intros ph r (a & b & -> & H1 & H2 & _). split; [apply in_or_app; right; left; reflexivity|auto]. }
  assert (HP' : match pick_of (filter (fun r => String.eqb (pk_station r) station) table) "P" with
    | Picked t => exists r, In r table /\ pk_station r = station /\ pk_phase r = "P"%string /\ pk_time r = Some t | _ => True end).
  { destruct (pick_of _ "P") as [t| |]; auto. destruct HP as (r & F & T). apply Hin in F. exists r. tauto. }
  assert (HS' : match pick_of (filter (fun r => String.eqb (pk_station r) station) table) "S" with
    | Picked t => exists r, In r table /\ pk_station r = station /\ pk_phase r = "S"%string /\ pk_time r = Some t | _ => True end).
  { destruct (pick_of _ "S") as [t| |]; auto. destruct HS as (r & F & T). apply Hin in F. exists r. tauto. }
  clear HP HS Hin. destruct (pick_of _ "P") as [t| |], (pick_of _ "S") as [t'| |]; cbn [arrival_times]; auto.
Qed.

(** The S window never begins before the P window ends. The windows begin before they end if the
    picks are as close to the modelled arrivals as the picker guarantees (C62, where [e] is a
    sampling interval) and fraction_tt is at most a half. *)
Theorem C49_windows_ordered :
  forall k table station otime mw ptt stt f p0 p1 s0 s1 picked,
  get_amplitude_windows k table station otime mw ptt stt f = Ret (((p0, p1), (s0, s1)), picked) ->
  (p1 <= s0)%Q
  /\ forall e, (0 < mw)%Q -> (0 <= f)%Q -> (0 <= ptt <= stt)%Q -> (0 <= signal_window k)%Q ->
     (0 <= e <= (stt - ptt) * ((1 # 2) - f))%Q -> near table station otime mw ptt stt f e -> (p0 < p1 /\ s0 < s1)%Q.
Proof.
  intros k table station otime mw ptt stt f p0 p1 s0 s1 picked H. unfold get_amplitude_windows in H.
  pose proof (arrival_cases table station otime ptt stt) as Hc. destruct (get_picks table station) as [[p s] pk].
  destruct (arrival_times otime ptt stt p s) as [a b]. destruct Hc as [Ha Hb]. destruct (Qlt_b a b) eqn:E; [|discriminate]. apply Qlt_b_spec in E.
  assert (H' : windows_at k mw ptt stt f a b = ((p0, p1), (s0, s1))) by congruence. clear H. unfold windows_at in H'.
  destruct (Qlt_b (b - mw - stt * f) (a + mw + ptt * f)) eqn:E1; [apply Qlt_b_spec in E1|apply Qlt_b_false in E1; destruct (Qlt_b _ (signal_window k)) eqn:E2; [apply Qlt_b_spec in E2|apply Qlt_b_false in E2]];
    injection H' as <- <- <- <-; (split; [lra|]); intros e Hm Hf [Hp Hps] Hs He Hn.
  - assert (Pf : (0 <= ptt * f)%Q) by (apply Qmult_le_0_compat; assumption). assert (Sf : (0 <= stt * f)%Q) by (apply Qmult_le_0_compat; lra).
    assert (Da : (a <= otime + ptt + (mw + ptt * f + e) /\ (a < otime + ptt + (mw + ptt * f + e)))%Q).
    { destruct Ha as [->|(r & R1 & R2 & R3 & R4)]; [split; lra|]. destruct (Hn r a R1 R2 R4) as [N _]. specialize (N R3).
      apply Qabs_Qlt_condition in N. lra. }
    assert (Db : (otime + stt - (mw + stt * f + e) < b)%Q).
    { destruct Hb as [->|(r & R1 & R2 & R3 & R4)]; [lra|]. destruct (Hn r b R1 R2 R4) as [_ N]. specialize (N R3).
      apply Qabs_Qlt_condition in N. lra. }
    setoid_replace ((stt - ptt) * ((1 # 2) - f))%Q with ((stt - ptt) * (1 # 2) - stt * f + ptt * f)%Q in He by ring. assert (Sp : (ptt * f <= stt * f)%Q) by (apply Qmult_le_compat_r; assumption).
    set (u := (ptt * f)%Q) in *. set (v := (stt * f)%Q) in *. clearbody u v. clear Hn Ha Hb. destruct He as [He1 He2]. 
    assert (Ed : ((b - mw - v - (a + mw + u)) / 2 == (b - mw - v - (a + mw + u)) * (1 # 2))%Q) by field.
    rewrite Ed. split; lra.
  - assert (Pf : (0 <= ptt * f)%Q) by (apply Qmult_le_0_compat; assumption). assert (Sf : (0 <= stt * f)%Q) by (apply Qmult_le_0_compat; lra). lra.
  - assert (Pf : (0 <= ptt * f)%Q) by (apply Qmult_le_0_compat; assumption). assert (Sf : (0 <= stt * f)%Q) by (apply Qmult_le_0_compat; lra). lra.
Qed.
Print Assumptions C49_windows_ordered.

Definition amp_k : amp_params := mk_amp_params 0 5.
Definition amp_table : list pick_row :=
  [mk_pick "A" "P" (Some (1012 # 10)); mk_pick "A" "S" (Some (1026 # 10)); mk_pick "B" "P" None; mk_pick "B" "S" (Some (1040 # 10))].
Example C49_windows_ordered_ex :
  get_amplitude_windows amp_k amp_table "A" 100 (1 # 2) 1 2 (1 # 10) = Ret (windows_at amp_k (1 # 2) 1 2 (1 # 10) (1012 # 10) (1026 # 10), true)
  /\ near amp_table "A" 100 (1 # 2) 1 2 (1 # 10) (1 # 50) /\ (0 <= 1 # 50 <= (2 - 1) * ((1 # 2) - (1 # 10)))%Q.
Proof.
  split; [reflexivity|]. split; [|split; unfold Qle; cbn; lia].
  intros r t Hr Hs Ht. cbn in Hr. destruct Hr as [<-|[<-|[<-|[<-|[]]]]]; cbn in *; try discriminate; injection Ht as <-;
    (split; intros Hp; [try discriminate Hp|try discriminate Hp]); unfold Qlt; cbn; lia.
Qed.

(** The arrival is in its window if the arrivals are not much closer than the modelled ones. *)
Theorem C49_arrival_in_window :
  forall k table station otime mw ptt stt f p0 p1 s0 s1 picked,
  (0 <= mw)%Q -> (0 <= f)%Q -> (0 <= ptt <= stt)%Q -> (0 <= signal_window k)%Q ->
  get_amplitude_windows k table station otime mw ptt stt f = Ret (((p0, p1), (s0, s1)), picked) ->
  let '(p, s, _) := get_picks table station in
  let '(a, b) := arrival_times otime ptt stt p s in
  ((stt - ptt) * f <= b - a)%Q -> (p0 <= a <= p1)%Q /\ (s0 <= b <= s1)%Q.
Proof.
  intros k table station otime mw ptt stt f p0 p1 s0 s1 picked Hmw Hf [Hp Hps] Hsw H. unfold get_amplitude_windows in H.
  destruct (get_picks table station) as [[p s] pk]. destruct (arrival_times otime ptt stt p s) as [a b]. intros Hd.
  destruct (Qlt_b a b) eqn:E; [|discriminate]. apply Qlt_b_spec in E. assert (H' : windows_at k mw ptt stt f a b = ((p0, p1), (s0, s1))) by congruence. clear H.
  assert (Pf0 : (0 <= ptt * f)%Q) by (apply Qmult_le_0_compat; assumption).
  assert (Sp : (ptt * f <= stt * f)%Q) by (apply Qmult_le_compat_r; assumption).
  assert (Hd' : (stt * f - ptt * f <= b - a)%Q) by (setoid_replace (stt * f - ptt * f)%Q with ((stt - ptt) * f)%Q by ring; exact Hd).
  unfold windows_at in H'. set (u := (ptt * f)%Q) in *. set (v := (stt * f)%Q) in *. clearbody u v.
  assert (Ed : ((b - mw - v - (a + mw + u)) / 2 == (b - mw - v - (a + mw + u)) * (1 # 2))%Q) by field.
  destruct (Qlt_b (b - mw - v) (a + mw + u)) eqn:E1; [apply Qlt_b_spec in E1|apply Qlt_b_false in E1; destruct (Qlt_b _ (signal_window k)) eqn:E2];
    [| |apply Qlt_b_false in E2]; injection H' as <- <- <- <-; rewrite ?Ed; repeat split; lra.
Qed.
Print Assumptions C49_arrival_in_window.
Example C49_arrival_in_window_ex :
  get_amplitude_windows amp_k amp_table "A" 100 (1 # 2) 1 2 (1 # 10) = Ret (windows_at amp_k (1 # 2) 1 2 (1 # 10) (1012 # 10) (1026 # 10), true)
  /\ ((2 - 1) * (1 # 10) <= (1026 # 10) - (1012 # 10))%Q.
Proof. split; [reflexivity|unfold Qle; cbn; lia]. Qed.

(** With fraction_tt above a half the P window can end before it begins, even for picks that the
    picker would make (both on their side of the midpoint between the modelled arrivals). *)
Theorem C49_large_fraction_refuted :
  exists k table station otime mw ptt stt f p0 p1 s0 s1,
  (0 < mw)%Q /\ (0 <= f < 1)%Q /\ (0 <= ptt <= stt)%Q /\ (0 <= signal_window k)%Q /\ near table station otime mw ptt stt f 0
  /\ get_amplitude_windows k table station otime mw ptt stt f = Ret (((p0, p1), (s0, s1)), true) /\ (p1 < p0)%Q.
Proof.
  exists (mk_amp_params 0 5), [mk_pick "A" "P" (Some 0); mk_pick "A" "S" (Some (51 # 10))]%Q, "A"%string, 0%Q, (1 # 10)%Q, 0%Q, 10%Q, (6 # 10)%Q.
  exists (0 - (1 # 10) - 0 * (6 # 10))%Q, (0 + (1 # 10) + 0 * (6 # 10) + ((51 # 10) - (1 # 10) - 10 * (6 # 10) - (0 + (1 # 10) + 0 * (6 # 10))) / 2)%Q.
  do 2 eexists. split; [reflexivity|]. split; [split; unfold Qle, Qlt; cbn; lia|]. split; [split; unfold Qle; cbn; lia|]. split; [unfold Qle; cbn; lia|]. split.
  - intros r t [<-|[<-|[]]] _ Ht; cbn in Ht; injection Ht as <-; cbn; (split; [intros Hp|intros Hp]; try discriminate Hp); unfold Qlt; cbn; lia.
  - split; [reflexivity|unfold Qlt; cbn; lia].
Qed.
Print Assumptions C49_large_fraction_refuted.

(** No pick is rejected for its order if P picks are before, S picks after some time between the
    modelled arrivals, as the picker guarantees (C41, C62). *)
Theorem C49_pick_order :
  forall k table station otime mw ptt stt f m, (otime + ptt < m < otime + stt)%Q ->
  (forall r t, In r table -> pk_station r = station -> pk_time r = Some t ->
     (pk_phase r = "P"%string -> (t < m)%Q) /\ (pk_phase r = "S"%string -> (m < t)%Q)) ->
  exists ws picked, get_amplitude_windows k table station otime mw ptt stt f = Ret (ws, picked).
Proof.
  intros k table station otime mw ptt stt f m [H1 H2] H. unfold get_amplitude_windows.
  pose proof (arrival_cases table station otime ptt stt) as Hc. destruct (get_picks table station) as [[p s] pk].
  destruct (arrival_times otime ptt stt p s) as [a b]. destruct Hc as [Ha Hb].
  assert (A : (a < m)%Q) by (destruct Ha as [->|(r & R1 & R2 & R3 & R4)]; [exact H1|exact (proj1 (H r a R1 R2 R4) R3)]).
  assert (B : (m < b)%Q) by (destruct Hb as [->|(r & R1 & R2 & R3 & R4)]; [exact H2|exact (proj2 (H r b R1 R2 R4) R3)]).
  replace (Qlt_b a b) with true by (symmetry; apply Qlt_b_spec; lra). eauto.
Qed.
Print Assumptions C49_pick_order.
Example C49_pick_order_ex : exists table station otime ptt stt m, (otime + ptt < m < otime + stt)%Q
  /\ (exists r t, In r table /\ pk_station r = station /\ pk_time r = Some t)
  /\ (forall r t, In r table -> pk_station r = station -> pk_time r = Some t ->
     (pk_phase r = "P"%string -> (t < m)%Q) /\ (pk_phase r = "S"%string -> (m < t)%Q)).
Proof.
  exists amp_table, "A"%string, 100%Q, 1%Q, 2%Q, (1015 # 10)%Q. split; [split; unfold Qlt; cbn; lia|]. split.
  - exists (mk_pick "A" "P" (Some (1012 # 10))), (1012 # 10)%Q. split; [left; reflexivity|]. split; reflexivity.
  - intros r t Hr Hs Ht. cbn in Hr. destruct Hr as [<-|[<-|[<-|[<-|[]]]]]; cbn in *; try discriminate; injection Ht as <-;
      (split; intros Hp; [try discriminate Hp|try discriminate Hp]); unfold Qlt; cbn; lia.
Qed.

(** The padded trace holds the noise and signal windows, clear of the 5 per cent taper at both of
    its ends, if no P pick is earlier than [ptt * f] after the origin and no S pick is later than
    modelled. This holds for modelled arrivals. *)
Theorem C49_data_in_trace_partial :
  forall k table station otime mw ptt stt f max_tt p0 p1 s0 s1 picked pre post,
  (0 <= mw)%Q -> (0 <= noise_window k)%Q -> (0 <= signal_window k)%Q -> (0 <= f <= 1)%Q -> (0 <= ptt <= stt)%Q -> (stt <= max_tt)%Q ->
  get_amplitude_windows k table station otime mw ptt stt f = Ret (((p0, p1), (s0, s1)), picked) -> (p0 <= p1)%Q ->
  (forall r t, In r table -> pk_station r = station -> pk_time r = Some t ->
     (pk_phase r = "P"%string -> (otime + ptt * f <= t)%Q) /\ (pk_phase r = "S"%string -> (t <= otime + stt)%Q)) ->
  pad k mw max_tt f = (pre, post) ->
  let taper := ((pre + post) * (5 # 100))%Q in
  let clear := ((otime - pre + taper)%Q, (otime + post - taper)%Q) in
  within (noise_window_of k ((p0, p1), (s0, s1))) clear /\ within (p0, p1) clear /\ within (s0, s1) clear.
Proof.
  intros k table station otime mw ptt stt f max_tt p0 p1 s0 s1 picked pre post Hmw Hnw Hsw [Hf Hf1] [Hp Hps] Htt H Hpp Hpk Epad.
  pose proof (proj1 (C49_windows_ordered _ _ _ _ _ _ _ _ _ _ _ _ _ H)) as Hord. unfold get_amplitude_windows in H.
  pose proof (arrival_cases table station otime ptt stt) as Hc. destruct (get_picks table station) as [[p s] pk].
  destruct (arrival_times otime ptt stt p s) as [a b]. destruct Hc as [Ha Hb]. destruct (Qlt_b a b) eqn:E; [|discriminate]. apply Qlt_b_spec in E.
  assert (H' : windows_at k mw ptt stt f a b = ((p0, p1), (s0, s1))) by congruence. clear H.
  assert (Pf : (ptt * f <= ptt)%Q) by (rewrite <- (Qmult_1_r ptt) at 2; rewrite !(Qmult_comm ptt); apply Qmult_le_compat_r; assumption).
  assert (Pf0 : (0 <= ptt * f)%Q) by (apply Qmult_le_0_compat; assumption).
  assert (Sf : (stt * f <= max_tt * f)%Q) by (apply Qmult_le_compat_r; assumption).
  assert (Sp : (ptt * f <= stt * f)%Q) by (apply Qmult_le_compat_r; assumption).
  assert (A : (otime + ptt * f <= a)%Q) by (destruct Ha as [->|(r & R1 & R2 & R3 & R4)]; [lra|exact (proj1 (Hpk r a R1 R2 R4) R3)]).
  assert (B : (b <= otime + stt)%Q) by (destruct Hb as [->|(r & R1 & R2 & R3 & R4)]; [lra|exact (proj2 (Hpk r b R1 R2 R4) R3)]).
  assert (Ends : p0 = (a - mw - ptt * f)%Q /\ s1 = (b + mw + stt * f + signal_window k)%Q /\ (s0 <= s1)%Q).
  { unfold windows_at in H'.
    destruct (Qlt_b (b - mw - stt * f) (a + mw + ptt * f)) eqn:E1; [apply Qlt_b_spec in E1|apply Qlt_b_false in E1; destruct (Qlt_b _ (signal_window k)) eqn:E2];
    injection H' as <- <- <- <-; (split; [reflexivity|]; split; [reflexivity|]); [|lra|lra].
    assert (Ed : ((b - mw - stt * f - (a + mw + ptt * f)) / 2 == (b - mw - stt * f - (a + mw + ptt * f)) * (1 # 2))%Q) by field.
    rewrite Ed. lra. }
  destruct Ends as (E0 & E1 & E2). subst p0 s1. cbv zeta. unfold within, noise_window_of. cbn [fst snd].
  unfold pad in Epad. cbv zeta in Epad. set (T := (raw_pre k mw + raw_post k mw max_tt f)%Q) in *. pose proof (Qle_ceiling (T * (6 # 100))) as Hce.
  set (x := inject_Z (Qceiling (T * (6 # 100)))) in *. clearbody x. injection Epad as <- <-.
  assert (ET : (T == noise_window k + mw + (signal_window k + max_tt + max_tt * f + mw))%Q) by (unfold T, raw_pre, raw_post; ring).
  assert (Hm0 : (0 <= max_tt * f)%Q) by (apply Qmult_le_0_compat; lra).
  unfold raw_pre, raw_post. setoid_replace (max_tt * (1 + f))%Q with (max_tt + max_tt * f)%Q by ring.
  set (u := (ptt * f)%Q) in *. set (v := (stt * f)%Q) in *. set (w := (max_tt * f)%Q) in *. clearbody u v w. rewrite ET in Hce. clear ET Hpk Ha Hb T.
  repeat split; lra.
Qed.
Print Assumptions C49_data_in_trace_partial.
Example C49_data_in_trace_ex :
  get_amplitude_windows amp_k amp_table "C" 100 (1 # 2) 1 2 (1 # 10) = Ret (windows_at amp_k (1 # 2) 1 2 (1 # 10) (100 + 1) (100 + 2), false)
  /\ pad amp_k (1 # 2) 3 (1 # 10) = ((5 + (1 # 2) + 1)%Q, (0 + 3 * (1 + (1 # 10)) + (1 # 2) + 1)%Q)
  /\ (forall r t, In r amp_table -> pk_station r = "C"%string -> pk_time r = Some t ->
     (pk_phase r = "P"%string -> (100 + 1 * (1 # 10) <= t)%Q) /\ (pk_phase r = "S"%string -> (t <= 100 + 2)%Q)).
Proof.
  split; [reflexivity|]. split; [reflexivity|]. intros r t Hr Hs. cbn in Hr. destruct Hr as [<-|[<-|[<-|[<-|[]]]]]; discriminate Hs.
Qed.

(** It does not hold for all picks that the picker can make: with an early P pick at a close
    station the noise window begins before the padded trace, with a late S pick the S window ends
    after it. *)
Theorem C49_picks_leave_trace_refuted :
  exists k table station otime mw ptt stt f max_tt p0 p1 s0 s1 pre post,
  (0 < mw)%Q /\ (0 <= f <= (1 # 10))%Q /\ (0 <= ptt <= stt)%Q /\ (stt <= max_tt)%Q /\ near table station otime mw ptt stt f 0
  /\ get_amplitude_windows k table station otime mw ptt stt f = Ret (((p0, p1), (s0, s1)), true) /\ pad k mw max_tt f = (pre, post)
  /\ (fst (noise_window_of k ((p0, p1), (s0, s1))) < otime - pre)%Q /\ (otime + post < s1)%Q.
Proof.
  exists (mk_amp_params 0 5), [mk_pick "A" "P" (Some (-15 # 10)); mk_pick "A" "S" (Some (45 # 10))]%Q, "A"%string, 0%Q, 2%Q, (1 # 10)%Q, 3%Q, (1 # 10)%Q, 3%Q.
  do 6 eexists. split; [reflexivity|]. split; [split; unfold Qle; cbn; lia|]. split; [split; unfold Qle; cbn; lia|]. split; [unfold Qle; cbn; lia|]. split.
  - intros r t [<-|[<-|[]]] _ Ht; cbn in Ht; injection Ht as <-; cbn; (split; [intros Hp|intros Hp]; try discriminate Hp); unfold Qlt; cbn; lia.
  - split; [reflexivity|]. split; [reflexivity|]. cbn [noise_window_of fst snd]. split; unfold Qlt; cbn; lia.
Qed.
Print Assumptions C49_picks_leave_trace_refuted.

(** ** C50: peak-to-trough amplitude *)

(** What is taken for a peak or a trough: the middle of a run of equal samples between smaller
    (larger) ones, from which the signal falls (rises) by the threshold on both sides. *)
Theorem C50_extrema :
  forall x t p,
  (In p (find_peaks x t) <-> is_maximum x p /\ prominent x p t)
  /\ (In p (find_peaks (map Qopp x) t) <-> is_minimum x p /\ prominent (map Qopp x) p t)
  /\ ((t <= 0)%Q -> (In p (find_peaks x t) <-> is_maximum x p) /\ (In p (find_peaks (map Qopp x) t) <-> is_minimum x p)).
Proof.
  assert (G : forall x t p, In p (find_peaks x t) <-> is_maximum x p /\ prominent x p t).
  { intros x t p. rewrite find_peaks_in. split; intros [H1 H2]; (split; [exact H1|]); pose proof (peak_inside x p H1); apply prominence_spec; solve [lia|exact H2]. }
  assert (Z0 : forall x t p, (t <= 0)%Q -> (In p (find_peaks x t) <-> is_maximum x p)).
  { intros x t p Ht. rewrite find_peaks_in. pose proof (prom_nonneg x p). split; [intros [H1 _]; exact H1|intros H1; split; [exact H1|lra]]. }
  intros x t p. split; [apply G|]. split; [rewrite G, minimum_opp; reflexivity|]. intros Ht. split; [apply Z0, Ht|rewrite Z0 by exact Ht; symmetry; apply minimum_opp].
Qed.
Print Assumptions C50_extrema.

(** With the default multiplier 0, or if no two peaks and no two troughs have the same value, the
    measurement is half the largest difference between neighbouring extrema, in millimetres, at the
    time midway between them; their distance is half a period. It fails only if there is no peak
    or no trough. *)
Theorem C50_largest_swing :
  forall mult x starttime dl, (0 < dl)%Q ->
  let t := (mult * max_abs x)%Q in
  let P := find_peaks x t in let T := find_peaks (map Qopp x) t in
  (mult <= 0)%Q \/ (different x P /\ different x T) ->
  alternate P T
  /\ (P = [] \/ T = [] -> peak_to_trough_amplitude mult x starttime dl = Raise PeakToTrough)
  /\ (P <> [] -> T <> [] -> exists i j a fr tm, peak_to_trough_amplitude mult x starttime dl = Ret (a, fr, tm)
      /\ largest_swing x P T i j /\ i <> j
      /\ (a == 500 * (at_ x i - at_ x j))%Q /\ (0 < a)%Q /\ (fr * (2 * (inject_Z (Z.abs (i - j)) * dl)) == 1)%Q
      /\ (tm == starttime + inject_Z (i + j) * dl / 2)%Q).
Proof.
  intros mult x starttime dl Hd t P T Hm.
  assert (Ha : alternate P T).
  { apply peaks_alternate. destruct Hm as [Hm|Hm]; [left|right; exact Hm]. unfold t. pose proof (max_abs_nonneg x) as Hx.
    setoid_replace (mult * max_abs x)%Q with (- ((- mult) * max_abs x))%Q by ring.
    assert (0 <= (- mult) * max_abs x)%Q by (apply Qmult_le_0_compat; lra). lra. }
  split; [exact Ha|]. split; [apply no_extrema|]. intros HP HT.
  destruct (measured mult x starttime dl Hd Ha HP HT) as (i & j & a & fr & tm & E & Hs & Hij & H1 & H2 & H3).
  exists i, j, a, fr, tm. split; [exact E|]. split; [exact Hs|]. split; [exact Hij|]. split; [exact H1|]. split; [|split; assumption].
  pose proof (neighbours_differ x t i j (proj1 Hs)). rewrite H1. lra.
Qed.
Print Assumptions C50_largest_swing.

Definition wiggle : list Q := map inject_Z [0; 3; -2; 4; -6; 1; 0].
Example C50_largest_swing_ex : find_peaks wiggle 0 = [1; 3; 5] /\ find_peaks (map Qopp wiggle) 0 = [2; 4]
  /\ exists a fr tm, peak_to_trough_amplitude 0 wiggle 100 (1 # 50) = Ret (a, fr, tm) /\ (a == 5000)%Q /\ (fr == 25)%Q /\ (tm == 10007 # 100)%Q.
Proof. split; [reflexivity|]. split; [reflexivity|]. do 3 eexists. split; [reflexivity|]. split; [reflexivity|]. split; reflexivity. Qed.
(** Values that differ occur with a positive multiplier, too. *)
Example C50_different_ex : find_peaks wiggle (inject_Z 3) = [1; 3] /\ find_peaks (map Qopp wiggle) (inject_Z 3) = [2; 4]
  /\ different wiggle [1; 3] /\ different wiggle [2; 4].
Proof.
  split; [reflexivity|]. split; [reflexivity|]. split; intros a b [<-|[<-|[]]] [<-|[<-|[]]] Hn; try lia; intros C; discriminate C.
Qed.

(** With a positive multiplier and two peaks of the same height the lists need not alternate; if
    the numbers of peaks and troughs agree this is not noticed, and a peak is paired with a trough
    beyond the next peak: the time and the frequency are not those of neighbouring extrema. *)
Theorem C50_equal_peaks_refuted :
  exists mult x starttime dl a fr tm, (0 < dl)%Q /\ (0 < mult < 1)%Q
  /\ peak_to_trough_amplitude mult x starttime dl = Ret (a, fr, tm)
  /\ let t := (mult * max_abs x)%Q in
     ~ exists i j, neighbours (find_peaks x t) (find_peaks (map Qopp x) t) i j /\ (tm == starttime + inject_Z (i + j) * dl / 2)%Q.
Proof.
  exists (1 # 2)%Q, (map inject_Z [0; 10; 9; 10; -10; -9; -10; 0]), 0%Q, 1%Q. do 3 eexists. split; [reflexivity|]. split; [split; reflexivity|].
  split; [vm_compute; reflexivity|]. cbv zeta. set (P := find_peaks _ _). set (T := find_peaks (map Qopp _) _).
  assert (EP : P = [1; 3]) by reflexivity. assert (ET : T = [4; 6]) by reflexivity. rewrite EP, ET. clear P T EP ET.
  intros (i & j & (Hi & Hj & Hn) & Ht). destruct Hi as [<-|[<-|[]]], Hj as [<-|[<-|[]]].
  - apply (Hn 3); [left; right; left; reflexivity|cbn; lia].
  - apply (Hn 3); [left; right; left; reflexivity|cbn; lia].
  - vm_compute in Ht. discriminate Ht.
  - apply (Hn 4); [right; left; reflexivity|cbn; lia].
Qed.
Print Assumptions C50_equal_peaks_refuted.

(** ** C65: the table of amplitudes *)

(** Three rows per station, in the order of the stations and of the components; a row holds the
    identifier, the distances, the P and S measurements, the noise and whether a phase was picked;
    what could not be measured is NaN. *)
Theorem C65_amplitude_table :
  forall result stations,
  Z.of_nat (length (get_amplitudes result stations)) = 3 * Z.of_nat (length stations)
  /\ (forall i j name epi z comp, rd stations i = Some (name, epi, z) -> rd components j = Some comp ->
      exists row, rd (get_amplitudes result stations) (3 * i + j) = Some (3 * i + j, row)
      /\ length row = 15%nat /\ rd row 1 = Some (CNum epi) /\ rd row 2 = Some (CNum z)
      /\ match result name comp with
         | Measured id picked p s noise =>
             rd row 0 = Some (CStr id) /\ rd row 14 = Some (CBool picked)
             /\ rd row 13 = Some (match noise with Some v => CNum v | None => CNan end)
             /\ (forall c, 0 <= c < 5 -> rd row (3 + c) = match p with Some m => rd (cells m) c | None => Some CNan end)
             /\ (forall c, 0 <= c < 5 -> rd row (8 + c) = match s with Some m => rd (cells m) c | None => Some CNan end)
         | other =>
             rd row 0 = Some (CStr (match other with NoResponse id | BadPicks id => id | _ => "." ++ name ++ ".." ++ comp end)%string)
             /\ rd row 14 = Some (CBool false) /\ forall c, 3 <= c < 14 -> rd row c = Some CNan
         end).
Proof.
  intros result stations. unfold get_amplitudes, zrange. rewrite Nat2Z.id. rewrite (get_amplitudes_rows result stations 0 []) by (intros r []). cbn [app].
  set (ls := map _ _).
  assert (H3 : forall l, In l ls -> length l = 3%nat). { intros l Hl. unfold ls in Hl. apply in_map_iff in Hl. destruct Hl as (is & <- & _). reflexivity. }
  split.
  - rewrite (length_concat3 _ H3). unfold ls. rewrite map_length, combine_length, zseq_length. lia.
  - intros i j name epi z comp Hi Hj. pose proof (rd_bounds _ _ _ _ Hi) as Bi. pose proof (rd_bounds _ _ _ _ Hj) as Bj. change (Z.of_nat (length components)) with 3 in Bj.
    assert (El : rd ls i = Some (station_rows result i (name, epi, z))).
    { unfold ls. rewrite rd_map. rewrite (rd_combine_2 _ _ _ i (name, epi, z)); [reflexivity| |exact Hi]. rewrite rd_zseq by lia. reflexivity. }
    rewrite (concat3 _ H3 i j _ Bj El).
    assert (Er : rd (station_rows result i (name, epi, z)) j = Some (3 * i + j, amp_row name comp epi z (result name comp))).
    { unfold station_rows. rewrite rd_map. rewrite (rd_combine_2 _ _ _ j comp); [cbn [option_map fst snd]; replace (i * 3 + j) with (3 * i + j) by lia; reflexivity| |exact Hj].
      rewrite rd_zrange by lia. reflexivity. }
    rewrite Er. eexists. split; [reflexivity|].
    assert (Hc : forall (Q0 : Z -> Prop) c, 0 <= c < 5 -> Q0 0 -> Q0 1 -> Q0 2 -> Q0 3 -> Q0 4 -> Q0 c).
    { intros Q0 c Hc. intros. assert (c = 0 \/ c = 1 \/ c = 2 \/ c = 3 \/ c = 4) as [->|[->|[->|[->| ->]]]] by lia; assumption. }
    assert (Hc' : forall row : list cell, rd row 3 = Some CNan -> rd row 4 = Some CNan -> rd row 5 = Some CNan -> rd row 6 = Some CNan -> rd row 7 = Some CNan ->
      rd row 8 = Some CNan -> rd row 9 = Some CNan -> rd row 10 = Some CNan -> rd row 11 = Some CNan -> rd row 12 = Some CNan -> rd row 13 = Some CNan -> forall c, 3 <= c < 14 -> rd row c = Some CNan).
    { intros row. intros. assert (c = 3 \/ c = 4 \/ c = 5 \/ c = 6 \/ c = 7 \/ c = 8 \/ c = 9 \/ c = 10 \/ c = 11 \/ c = 12 \/ c = 13) as Hd by lia.
      repeat (destruct Hd as [->|Hd]; [assumption|]). subst c. assumption. }
    destruct (result name comp) as [|id|id|id picked p s noise].
    + do 3 (split; [reflexivity|]). split; [reflexivity|]. split; [reflexivity|]. apply Hc'; reflexivity.
    + do 3 (split; [reflexivity|]). split; [reflexivity|]. split; [reflexivity|]. apply Hc'; reflexivity.
    + do 3 (split; [reflexivity|]). split; [reflexivity|]. split; [reflexivity|]. apply Hc'; reflexivity.
    + destruct p as [p|], s as [s|]; (do 3 (split; [reflexivity|]); do 3 (split; [reflexivity|]); split; intros c B; pattern c; match goal with |- ?F c => refine (Hc F c B _ _ _ _ _); reflexivity end).
Qed.
Print Assumptions C65_amplitude_table.
Example C65_ex : rd [("A", 10, 5); ("B", 20, 6)]%string 1 = Some ("B", 20, 6)%string /\ rd components 2 = Some "Z"%string.
Proof. split; reflexivity. Qed.

(** The vertical distance is in kilometres: a grid in metres has factor 1, one in kilometres 1000. *)
Theorem C65_vertical_distance :
  forall evdp stel ucf, (0 < ucf)%Q -> (z_distance evdp stel ucf * 1000 == (evdp - stel) * ucf)%Q.
Proof. intros evdp stel ucf H. unfold z_distance. field. intros C. rewrite C in H. lra. Qed.
Print Assumptions C65_vertical_distance.

(** ** C66: the picks used *)

(** For each phase the first row of the pick table is used: its time if the phase was picked, the
    modelled arrival if the pick failed. If one of the phases has no row, both times are the
    modelled ones; the same holds for a station without picks. [picked] tells whether a time was
    picked. *)
Theorem C66_times_used :
  forall table station otime ptt stt,
  let '(p, s, picked) := get_picks table station in
  let '(a, b) := arrival_times otime ptt stt p s in
  (forall rp rs, first_row table station "P" rp -> first_row table station "S" rs ->
     a = (match pk_time rp with Some t => t | None => (otime + ptt)%Q end)
     /\ b = (match pk_time rs with Some t => t | None => (otime + stt)%Q end))
  /\ (no_row table station "P" \/ no_row table station "S" -> a = (otime + ptt)%Q /\ b = (otime + stt)%Q)
  /\ (picked = true <-> exists r t, (first_row table station "P" r \/ first_row table station "S" r) /\ pk_time r = Some t).
Proof.
  intros table station otime ptt stt.
  assert (Huniq : forall ph r r', first_row table station ph r -> first_row table station ph r' -> r = r').
  { intros ph r r' (a & b & Ea & H1 & H2 & H3) (a' & b' & Ea' & H1' & H2' & H3').
    assert (G : forall (u : list pick_row) v u' v' y y', u ++ y :: v = u' ++ y' :: v' ->
      (forall q, In q u -> pk_station q = station -> pk_phase q <> ph) -> (forall q, In q u' -> pk_station q = station -> pk_phase q <> ph) ->
      pk_station y = station -> pk_phase y = ph -> pk_station y' = station -> pk_phase y' = ph -> y = y').
    { induction u as [|x u IH]; intros v u' v' y y' E N N' S1 P1 S2 P2; destruct u' as [|x' u']; cbn [app] in E.
      - congruence.
      - exfalso. assert (y = x') by congruence. subst x'. apply (N' y (or_introl eq_refl) S1 P1).
      - exfalso. assert (x = y') by congruence. subst x. apply (N y' (or_introl eq_refl) S2 P2).
      - assert (u ++ y :: v = u' ++ y' :: v') as E' by congruence. apply (IH _ _ _ _ _ E'); try assumption; intros q Hq; [apply N|apply N']; right; exact Hq. }
    apply (G a b a' b' r r'); try assumption. congruence. }
  assert (Hno : forall ph r, first_row table station ph r -> no_row table station ph -> False).
  { intros ph r (a & b & -> & H1 & H2 & _) N. apply (N r); [apply in_or_app; right; left; reflexivity|exact H1|exact H2]. }
  unfold get_picks. destruct (filter (fun r => String.eqb (pk_station r) station) table) as [|r0 rows] eqn:E.
  - assert (N : forall ph, no_row table station ph).
    { intros ph q Hq Hs. exfalso. assert (In q []) as []. rewrite <- E. apply filter_In. split; [exact Hq|]. rewrite Hs. apply String.eqb_refl. }
    cbn. split; [intros rp rs F; exfalso; exact (Hno _ _ F (N _))|]. split; [auto|]. split; [discriminate|]. intros (r & t & [F|F] & _); exfalso; exact (Hno _ _ F (N _)).
  - rewrite <- E. pose proof (pick_of_spec table station "P") as HP. pose proof (pick_of_spec table station "S") as HS. clear E.
    destruct (pick_of _ "P") as [t| |]; [destruct HP as (rp & FP & TP)|destruct HP as (rp & FP & TP)|];
    (destruct (pick_of _ "S") as [t'| |]; [destruct HS as (rs & FS & TS)|destruct HS as (rs & FS & TS)|]); cbn [arrival_times is_time orb].
    all: split; [intros rp' rs' F1 F2; try (exfalso; eauto; fail);
                 try (assert (rp' = rp) by eauto; subst rp'); try (assert (rs' = rs) by eauto; subst rs'); rewrite ?TP, ?TS; auto|].
    all: split; [intros [N|N]; try (exfalso; eauto; fail); auto|].
    all: split; [intros X; try discriminate X; eauto|].
    all: intros (r & u & [F|F] & Ht); try reflexivity; try (exfalso; eauto; fail).
    all: try (assert (r = rp) by eauto; subst r; congruence); try (assert (r = rs) by eauto; subst r; congruence).
Qed.
Print Assumptions C66_times_used.
Example C66_ex : first_row amp_table "B" "S" (mk_pick "B" "S" (Some (1040 # 10))) /\ no_row amp_table "C" "P".
Proof.
  split.
  - exists (firstn 3 amp_table), []. split; [reflexivity|]. split; [reflexivity|]. split; [reflexivity|].
    intros q Hq Hs. cbn in Hq. destruct Hq as [<-|[<-|[<-|[]]]]; cbn in *; discriminate.
  - intros q Hq Hs. cbn in Hq. destruct Hq as [<-|[<-|[<-|[<-|[]]]]]; discriminate Hs.
Qed.

(** C109: amplitudes are corrected for the filter that was applied. *)
From Coq Require Import String Ascii.
From Coq Require Import List ZArith Reals Bool Lia Lra.
From Verif Require Import Lib PyDict AmpFilter_Model AmpFilter_Spec AmpFilter_Proofs.
Import ListNotations.
Open Scope R_scope.

(** The filter whose gain is used is the one applied to the trace, for all options and sampling rates. *)
Theorem C109_applied_filter_returned :
  forall a sr applied sos, filter_trace a sr = Ret (applied, sos) -> applied = sos.
Proof. exact filter_same. Qed.
Print Assumptions C109_applied_filter_returned.

(** PARTIAL. Every trace gets the filter asked for: the band, its lower corner if the upper one is not below the
    Nyquist frequency, the high-pass filter, or none; no trace is refused. Missing: traces whose Nyquist frequency
    is not above the lower corner, see [C109_low_rate_refuted]. *)
Theorem C109_filter_as_asked_partial :
  forall (W : Type) k (measure : option (design * design) -> W) rates,
    (forall sr, In sr rates -> 0 < sr) ->
    (forall low up, asks_band k low up -> 0 < low < up -> (forall sr, In sr rates -> low < sr / 2) ->
       exists a, amp_init k = Ret a /\ measure_traces a measure rates
         = Ret (map (fun sr => let w := wanted_band low up (order_of k) sr in measure (Some (w, w))) rates))
    /\ (forall f, asks_high k f -> 0 < f -> (forall sr, In sr rates -> f < sr / 2) ->
       exists a, amp_init k = Ret a /\ measure_traces a measure rates
         = Ret (map (fun sr => let w := wanted_high f (order_of k) sr in measure (Some (w, w))) rates))
    /\ (asks_none k -> exists a, amp_init k = Ret a /\ measure_traces a measure rates = Ret (map (fun _ => measure None) rates)).
Proof.
  intros W k measure rates Hr.
  assert (T : forall o : option bool, o <> Some true -> opt o false = false) by (intros [[]|] H; cbn; congruence).
  split; [|split].
  - intros low up (B & L & U & H & D) Hl Hn. unfold amp_init. cbv zeta. rewrite (T _ H), B, D. cbn [opt andb].
    eexists. split; [reflexivity|].
    rewrite (traces_ok _ measure (fun sr => let w := wanted_band low up (order_of k) sr in Some (w, w))); [reflexivity|].
    intros sr I. unfold filtered. cbn [a_band orb].
    rewrite (band_ok _ sr low up); [reflexivity|apply Hr, I|exact Hl|apply Hn, I|reflexivity|cbn; rewrite L; reflexivity|cbn; rewrite U; reflexivity].
  - intros f (H & F & B & D) Hf Hn. unfold amp_init. cbv zeta. rewrite (T _ B), H, F, D. cbn [opt andb].
    eexists. split; [reflexivity|].
    rewrite (traces_ok _ measure (fun sr => let w := wanted_high f (order_of k) sr in Some (w, w))); [reflexivity|].
    intros sr I. unfold filtered. cbn [a_band a_high orb]. unfold filter_trace. cbn [a_band].
    rewrite (highpass_ok _ sr f); [reflexivity|apply Hr, I|split; [exact Hf|apply Hn, I]|reflexivity].
  - intros (H & B & D). unfold amp_init. cbv zeta. rewrite (T _ H), (T _ B), D. cbn [opt andb].
    eexists. split; [reflexivity|]. rewrite (traces_ok _ measure (fun _ => None)); [reflexivity|].
    intros sr _. reflexivity.
Qed.
Print Assumptions C109_filter_as_asked_partial.

(** PARTIAL. Contradictory or incomplete options are rejected when the object is made, and all others accepted.
    Missing: the corners of the band-pass filter, see [C109_missing_corner_refuted]. *)
Theorem C109_options_checked_partial :
  forall k,
    (amp_init k = Raise AttributeError
       <-> (k_high k = Some true /\ k_freq k = None) \/ (k_high k = Some true /\ k_band k = Some true) \/ k_deprecated k = true)
    /\ (amp_init k = Raise AttributeError \/ exists a, amp_init k = Ret a).
Proof.
  intros k. unfold amp_init. cbv zeta.
  destruct (k_high k) as [[]|], (k_band k) as [[]|], (k_freq k), (k_deprecated k); cbn [opt andb];
    (split; [split; [intros H; try discriminate H; tauto|intros [(A & B)|[(A & B)|A]]; try discriminate; reflexivity]|]);
    (left; reflexivity) || (right; eexists; reflexivity).
Qed.
Print Assumptions C109_options_checked_partial.

(** A trace whose Nyquist frequency is not above the lower corner, or the corner of the high-pass filter, is refused,
    and with it all the traces. *)
Theorem C109_low_rate_refused :
  forall (W : Type) k a (measure : option (design * design) -> W), amp_init k = Ret a ->
    (forall low up, asks_band k low up -> 0 < low < up -> forall before sr after,
       (forall r, In r before -> 0 < r /\ low < r / 2) -> 0 < sr -> sr / 2 <= low ->
       measure_traces a measure (before ++ sr :: after) = Raise ValueError)
    /\ (forall f, asks_high k f -> 0 < f -> forall before sr after,
       (forall r, In r before -> 0 < r /\ f < r / 2) -> 0 < sr -> sr / 2 <= f ->
       measure_traces a measure (before ++ sr :: after) = Raise ValueError).
Proof.
  intros W k a measure Ha.
  assert (M : forall before sr after ws, measure_traces a measure before = Ret ws -> filtered a sr = Raise ValueError ->
                measure_traces a measure (before ++ sr :: after) = Raise ValueError).
  { induction before as [|r before IH]; intros sr after ws E F; cbn [app measure_traces].
    - rewrite F. reflexivity.
    - cbn [measure_traces] in E. destruct (filtered a r) as [f| |]; try discriminate E. cbn [bind] in E |- *.
      destruct (measure_traces a measure before) as [w| |] eqn:E'; try discriminate E.
      rewrite (IH sr after w eq_refl F). reflexivity. }
  assert (D : forall f sr, 0 < sr -> sr / 2 <= f -> 1 <= f / (sr / 2)).
  { intros f sr P L. apply Rmult_le_reg_r with (sr / 2); [lra|]. unfold Rdiv at 2. rewrite Rmult_assoc, Rinv_l by lra. lra. }
  assert (B : forall f n, 1 <= f -> butter_high f n = Raise ValueError).
  { intros f n L. unfold butter_high. destruct (Rlt_dec 0 f); [|reflexivity]. destruct (Rlt_dec f 1); [lra|reflexivity]. }
  assert (H : forall f sr n, 0 < sr -> sr / 2 <= f -> obspy_highpass f sr n = Raise ValueError).
  { intros f sr n P L. unfold obspy_highpass. cbv zeta. destruct (Rlt_dec 1 (f / (sr / 2))); [reflexivity|]. apply B, D; assumption. }
  assert (T : forall o : option bool, o <> Some true -> opt o false = false) by (intros [[]|] H0; cbn; congruence).
  split.
  - intros low up K Hl before sr after Hb P L.
    destruct (C109_filter_as_asked_partial W k measure before (fun r I => proj1 (Hb r I))) as (E & _ & _).
    destruct (E low up K Hl (fun r I => proj2 (Hb r I))) as (a' & Ea & Em). assert (a' = a) by congruence. subst a'.
    apply M with (1 := Em). destruct K as (K1 & K2 & K3 & K4 & K5).
    unfold amp_init in Ha. cbv zeta in Ha. rewrite (T _ K4), K1, K2, K3, K5 in Ha. cbn [opt andb] in Ha.
    destruct (k_freq k); injection Ha as <-;
    (unfold filtered; cbn [a_band a_high orb]; unfold filter_trace; cbn [a_band]; unfold bandpass_filter; cbn [a_low a_up number bind];
     cbv zeta; destruct (Rlt_dec _ _) as [_|N];
     [unfold highpass_filter; cbn [a_band a_low number bind]; rewrite (H low sr _ P L); reflexivity|];
     exfalso; apply N; rewrite half; pose proof (D up sr P ltac:(lra)); lra).
  - intros f K Pf before sr after Hb P L.
    destruct (C109_filter_as_asked_partial W k measure before (fun r I => proj1 (Hb r I))) as (_ & E & _).
    destruct (E f K Pf (fun r I => proj2 (Hb r I))) as (a' & Ea & Em). assert (a' = a) by congruence. subst a'.
    apply M with (1 := Em). destruct K as (K1 & K2 & K3 & K4).
    unfold amp_init in Ha. cbv zeta in Ha. rewrite (T _ K3), K1, K2, K4 in Ha. cbn [opt andb] in Ha. injection Ha as <-.
    unfold filtered. cbn [a_band a_high orb]. unfold filter_trace. cbn [a_band]. unfold highpass_filter. cbn [a_band a_freq bind].
    rewrite (H f sr _ P L). reflexivity.
Qed.
Print Assumptions C109_low_rate_refused.
Example C109_low_rate_refused_applies :
  exists k a f, asks_high k f /\ 0 < f /\ amp_init k = Ret a
    /\ measure_traces a (fun _ => tt) [100; 4; 50] = Raise ValueError.
Proof.
  exists (mk_params None None (Some true) (Some 2) None None None None false). eexists. exists 2.
  assert (A : asks_high (mk_params None None (Some true) (Some 2) None None None None false) 2) by (unfold asks_high; repeat split; discriminate).
  split; [exact A|]. split; [lra|]. split; [reflexivity|].
  refine (proj2 (C109_low_rate_refused unit (mk_params None None (Some true) (Some 2) None None None None false) _ (fun _ => tt) _) 2 A _ [100] 4 [50] _ _ _); try lra; [reflexivity|].
  intros r [<-|[]]. lra.
Qed.

Definition band_2_45 : params := mk_params (Some 5) None None None (Some true) (Some 2) (Some 45) None false.
Example C109_applies :
  asks_band band_2_45 2 45 /\ 0 < 2 < 45 /\ (forall sr, In sr [100; 50] -> 2 < sr / 2)
  /\ wanted_band 2 45 4 100 = Band (2 / 50) (45 / 50) 4 /\ wanted_band 2 45 4 50 = High (2 / 25) 4.
Proof.
  split; [repeat split; discriminate|]. split; [lra|]. split; [intros sr [<-|[<-|[]]]; lra|].
  unfold wanted_band. split; destruct (Rlt_dec _ 45); try lra; f_equal; lra.
Qed.

(** REFUTED: every measurable trace of an event is measured. A trace with a Nyquist frequency below the lower corner
    raises an exception that nothing catches; the amplitudes of the other traces are lost with it. *)
Theorem C109_low_rate_refuted :
  exists k a low up, asks_band k low up /\ 0 < low < up /\ amp_init k = Ret a
    /\ (exists f, filtered a 100 = Ret f)
    /\ forall (W : Type) (measure : option (design * design) -> W), measure_traces a measure [100; 1] = Raise ValueError.
Proof.
  destruct C109_applies as (A & B & _).
  assert (Ea : exists a, amp_init band_2_45 = Ret a) by (eexists; reflexivity). destruct Ea as (a & Ea).
  exists band_2_45, a, 2, 45. split; [exact A|]. split; [exact B|]. split; [exact Ea|].
  assert (F : filtered a 100 = Ret (Some (wanted_band 2 45 4 100, wanted_band 2 45 4 100))).
  { injection Ea as <-. unfold filtered. cbn [a_band a_high orb].
    rewrite (band_ok _ 100 2 45); try reflexivity; lra. }
  split; [eexists; exact F|]. intros W measure. cbn [measure_traces]. rewrite F. cbn [bind].
  assert (G : filtered a 1 = Raise ValueError).
  { injection Ea as <-. unfold filtered. cbn [a_band a_high orb]. unfold filter_trace. cbn [a_band].
    unfold bandpass_filter. cbn [a_low a_up number bind].
    destruct (Rlt_dec (- / 1000000) (45 / (/ 2 * 1) - 1)) as [_|N]; [|exfalso; apply N; lra].
    unfold highpass_filter. cbn [a_band a_low a_corners number bind]. unfold obspy_highpass. cbv zeta.
    destruct (Rlt_dec 1 (2 / (1 / 2))) as [_|N]; [reflexivity|exfalso; apply N; lra]. }
  rewrite G. reflexivity.
Qed.
Print Assumptions C109_low_rate_refuted.

(** REFUTED: a band-pass filter without corners is rejected when the object is made (the KeyError that is caught there is
    never raised by dict.get). The first trace raises TypeError. *)
Theorem C109_missing_corner_refuted :
  exists k a, k_band k = Some true /\ k_up k = None /\ amp_init k = Ret a /\ forall sr, filtered a sr = Raise TypeError.
Proof.
  exists (mk_params None None None None (Some true) (Some 2) None None false). eexists.
  split; [reflexivity|]. split; [reflexivity|]. split; [reflexivity|]. intros sr. reflexivity.
Qed.
Print Assumptions C109_missing_corner_refuted.

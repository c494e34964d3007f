(** C123: moving the waveforms in time. *)
From Coq Require Import String Ascii.
From Coq Require Import List ZArith Reals QArith Bool Lia Lra.
From Verif Require Import Lib LibFacts PyDict Timeline_Model Avail_Model Archive_Model StaLta_Model Onset_Model Onset_Props PickRun_Model Gain_Spec Gain_Proofs Shift_Spec Shift_Proofs.
From Verif Require Resample_Model Lut_Model Migrate_Model Picker_Model Gain_Props.
Import ListNotations.
Open Scope Z_scope.

(** The same ground motion at another time of day gives the same onset functions and availability, and the same exceptions; the waveforms that were used are those of the other time. *)
Theorem C123_onsets :
  forall t lowpass taper tiny secs k d ts,
  calculate_onsets lowpass taper tiny secs k (later_data t d) ts
  = out_map (fun r => mk_state (l_onsets r) (l_dict r) (map (later t) (l_filtered r)) (l_avail r)) (calculate_onsets lowpass taper tiny secs k d ts).
Proof. intros t lp tp tiny secs k d ts. apply calculate_l. Qed.
Print Assumptions C123_onsets.

(** The same coalescence. *)
Theorem C123_coalescence :
  forall t lowpass taper tiny secs k d r0 l rate fsmp lsmp,
  compute_coalescence lowpass taper tiny secs k r0 l (later_data t d) rate fsmp lsmp = compute_coalescence lowpass taper tiny secs k r0 l d rate fsmp lsmp.
Proof. intros t lp tp tiny secs k d r0 l rate fsmp lsmp. unfold compute_coalescence. rewrite C123_onsets, bind_out. reflexivity. Qed.
Print Assumptions C123_coalescence.

(** The same picks, moved with the data, with the same uncertainties and residuals. *)
Theorem C123_picks :
  forall t lowpass taper tiny secs k rat cf m tts d otime mw,
  out_rel (Forall2 (fun a b => later_pick t (fst a) (fst b) /\ snd b = snd a)) (pick_run lowpass taper tiny secs k rat cf m tts d otime mw) (pick_run lowpass taper tiny secs k rat cf m tts (later_data t d) (otime + t) mw).
Proof.
  intros t lp tp tiny secs k rat cf m tts d otime mw. unfold pick_run. rewrite C123_onsets, bind_out. destruct (calculate_onsets lp tp tiny secs k d (Some (4 * mw))) as [st| |]; cbn [bind out_rel]; try reflexivity.
  cbn [l_dict l_filtered]. change (d_start (later_data t d)) with (d_start d + t). set (ons := map _ (l_dict st)). pose proof (pick_phases_l t cf m (o_clock secs k) mw otime (d_start d) ons) as P.
  destruct (Picker_Model.pick_phases cf m (o_clock secs k) otime (d_start d) mw ons) as [rows| |], (Picker_Model.pick_phases cf m (o_clock secs k) (otime + t) (d_start d + t) mw ons) as [rows'| |]; cbn [bind out_rel] in *; try contradiction; try assumption.
  induction P as [|a b rows rows' Hab _ IH]; [constructor|]. cbn [map_out]. pose proof Hab as (E1 & E2 & _). rewrite E1, E2. destruct (dget (o_cfg k) (Picker_Model.p_phase a)) as [pc|]; [|reflexivity]. cbn [bind].
  assert (Es : seed_ids pc (map (later t) (l_filtered st)) (Picker_Model.p_station a) = seed_ids pc (l_filtered st) (Picker_Model.p_station a)) by (unfold seed_ids; rewrite select_station_l, select_channel_l; apply sorted_ids_l).
  rewrite Es. destruct (map_out _ rows), (map_out _ rows'); cbn [bind out_rel] in *; try contradiction; try assumption. constructor; [|assumption]. split; [exact Hab|reflexivity].
Qed.
Print Assumptions C123_picks.

(** A run that returns an onset function, an hour later. *)
Example C123_example : exists r, calculate_onsets (fun _ l => l) (fun l => l) (1 / 100) 100000 Gain_Props.sqr_set (later_data 360000000 Gain_Props.two_data) None = Ret r /\ length (l_onsets r) = 1%nat
  /\ map sg_start (l_filtered r) = [360002000].
Proof.
  destruct (Gain_Props.five_run Gain_Props.two_data 1 2 3 4 5) as (r & o & Er & Eo & Ef & _); try reflexivity; try lra. rewrite C123_onsets, Er. cbn [out_map]. eexists. split; [reflexivity|]. cbn [l_onsets l_filtered]. rewrite Eo, Ef. split; reflexivity.
Qed.

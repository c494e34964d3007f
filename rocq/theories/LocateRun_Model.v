(** Model of signal/scan.py _locate_events with the waveforms: read the data around a triggered event, compute the coalescence, find the origin time, locate the event and pick the arrivals. The steps of Onset_Model, Migrate_Model,
    Lut_Model, Locate_Model and PickRun_Model put together.

    SIMPLIFICATIONS: those of these models. [read] stands for archive.read_waveform_data (data.py:221-336); magnitudes, files and plots (scan.py:548-590) are in other models. *)
From Coq Require Import String.
From Coq Require Import List ZArith Reals QArith Bool.
From Verif Require Import Lib PyDict Timeline_Model ScanMseed_Model Lut_Model Locate_Model Onset_Model PickRun_Model DetectRun_Model LocatePipe_Model.
From Verif Require Picker_Model Migrate_Model.
Import ListNotations.
Open Scope Z_scope.

Section Locate.
Variables (lowpass : Z -> list R -> list R) (taper : list R -> list R) (tiny : R) (secs : Z) (k : onset_cfg).
Variables (transform : Z -> Z -> vec -> vec) (l : lut) (r0 : Migrate_Model.mreg) (r1 : Migrate_Model.freg).
(** scipy's Rbf; the parameters of PickRun_Model; [ticks]: a time in seconds in ticks; the fraction of the traveltime (gaussian.py:146-149). *)
Variables (rbf : list vec -> list R -> vec -> R) (rat : option R -> Q) (curve_fit : list Z -> list Q -> outcome (Q * Q * Q)) (m : Picker_Model.pick_method) (ticks : R -> Z) (fraction : R).

(** scan.py:619-648 _compute in the locate stage and event.py:203-242 add_compute_output. *)
Definition event_compute (pre post mw : Z) (d : wdata) (trig : Z) : outcome (event (list R)) :=
  bind (compute_coalescence lowpass taper tiny secs k r0 l d (IZR (o_rate k)) (time2sample (o_clock secs k) pre) (time2sample (o_clock secs k) post)) (fun mp =>
  let n := let '(nx, ny, nz) := g_count (l_grid l) in nx * ny * nz in let ns := Z.of_nat (length mp) / n in
  bind (Migrate_Model.lib_find_max_coa r1 mp n ns) (fun o =>
  bind (scan_rows transform l (Migrate_Model.o_max o) (Migrate_Model.o_norm o) (Migrate_Model.o_idx o)) (fun rows =>
  add_compute_output trig mw (mw_times (o_clock secs k) trig mw) (map coa rows) (map coa_n rows) (map (fun r => (px r, py r, pz r)) rows) (time_slices n ns mp)))).

(** gaussian.py:151, 173, 201: the traveltime from the hypocentre (scan.py:816-841: the coordinates of the spline location) to a station, and its fraction. A table that is not there was missed before, in serve_traveltimes. *)
Definition arrivals (loc : vec) (station phase : string) : Z * Z :=
  match lookup l station phase with
  | Ret t => let x := arrival_traveltime transform (l_grid l) (ravel t) (frac2coord transform (l_grid l) loc) in (ticks x, ticks (x * fraction)%R)
  | _ => (0, 0)
  end.

(** What is known of an event in the end: the trimmed event, the spline location (grid indices), the covariance estimates, the picks with their SEED ids. *)
Record located : Type := mk_located { lo_event : event (list R); lo_spline : vec; lo_cov : option (vec * matrix * vec); lo_picks : list (Picker_Model.pick_row * list string) }.
(** scan.py:495-546, for one triggered event. [None]: skipped. *)
Definition locate_event (read : Z -> Z -> Z -> Z -> outcome wdata) (mw pre post : Z) (mags : option (Z * Z)) (pre_cut post_cut : option Z) (trig : Z) : outcome (option located) :=
  let '(b, e, p, q) := event_window trig mw pre post mags pre_cut post_cut in
  match bind (read b e p q) (fun d => bind (event_compute pre post mw d trig) (fun ev => Ret (d, ev))) with
  | Raise ArchiveEmpty | Raise DataGapException | Raise DataAvailabilityException => Ret None
  | Raise x => Raise x
  | Undef => Undef
  | Ret (d, ev) =>
      if in_marginal_window ev
      then bind (trim2window ev) (fun ev' =>
           bind (calculate_location rbf (l_grid l) (e_map ev')) (fun loc =>
           bind (pick_run lowpass taper tiny secs k rat curve_fit m (arrivals (fst loc)) d (e_otime ev') mw) (fun picks =>
           Ret (Some (mk_located ev' (fst loc) (snd loc) picks)))))
      else Ret None
  end.
(** scan.py:491-595 _locate_events for the events [trigs]; the pads are those of the onset functions of four marginal windows (493). *)
Definition locate_events (read : Z -> Z -> Z -> Z -> outcome wdata) (mw : Z) (mags : option (Z * Z)) (pre_cut post_cut : option Z) (events : list (string * Z)) (files : dict located) : dict located * option exn :=
  let pads := onset_pad (o_clock secs k) (4 * mw) (stalta_pre_pad (map (fun kv => (ph_sta (snd kv), ph_lta (snd kv))) (o_cfg k))) (o_post k) in
  locate_loop (locate_event read mw (fst pads) (snd pads) mags pre_cut post_cut) events files.
End Locate.

(** Model of signal/scan.py detect and _continuous_compute with the waveforms: read the data of each timestep, compute the coalescence, take the maximum over the grid, store it. The steps of Onset_Model, Migrate_Model,
    Lut_Model and ScanMseed_Model put together.

    SIMPLIFICATIONS: those of these models. [read] stands for archive.read_waveform_data (data.py:221-336): a function of the window (Read_Model.v). *)
From Coq Require Import String.
From Coq Require Import List ZArith Reals Bool.
From Verif Require Import Lib PyDict Timeline_Model ScanMseed_Model Onset_Model.
From Verif Require Avail_Model Migrate_Model Lut_Model.
Import ListNotations.
Open Scope Z_scope.

Section Detect.
Variables (lowpass : Z -> list R -> list R) (taper : list R -> list R) (tiny : R) (secs : Z) (k : onset_cfg).
(** pyproj's transform, the unit conversion factor of the lookup table, the lookup table; the registers of the two C functions before the call. *)
Variables (transform : Z -> Z -> Lut_Model.vec -> Lut_Model.vec) (ucf : R) (l : Lut_Model.lut) (r0 : Migrate_Model.mreg) (r1 : Migrate_Model.freg).
(** scan.py:247: the scan rate is the sampling rate of the onset functions. *)
Definition d_clock : clock := o_clock secs k.

(** scan.py:639 and scanmseed.py:113-131: the five values of each sample. A normalised maximum that is not a number has no int32 value: [Undef]. *)
Fixpoint scan_rows (mx : list R) (nm : list (option R)) (ix : list Z) : outcome (list (row R)) :=
  match mx, nm, ix with
  | m :: mx', n :: nm', i :: ix' =>
      bind (Lut_Model.flat2coord transform (Lut_Model.l_grid l) i) (fun '(x, y, z) =>
      match n with
      | None => Undef
      | Some v => bind (scan_rows mx' nm' ix') (fun r => Ret (mk_row m v x y z :: r))
      end)
  | _, _, _ => Ret []
  end.
(** scan.py:619-644 _compute in the detect stage: the time of the first sample, the samples and the availability. The onsets are calculated once; here the call that yields the availability is repeated in [compute_coalescence].
    The last dimension of map4d is its size over the number of nodes. *)
Definition compute (pre post : Z) (d : wdata) : outcome (Z * list (row R) * dict Z) :=
  bind (calculate_onsets lowpass taper tiny secs k d None) (fun st =>
  bind (compute_coalescence lowpass taper tiny secs k r0 l d (IZR (o_rate k)) (time2sample d_clock pre) (time2sample d_clock post)) (fun m =>
  let n := let '(nx, ny, nz) := Lut_Model.g_count (Lut_Model.l_grid l) in nx * ny * nz in
  bind (Migrate_Model.lib_find_max_coa r1 m n (Z.of_nat (length m) / n)) (fun o =>
  bind (scan_rows (Migrate_Model.o_max o) (Migrate_Model.o_norm o) (Migrate_Model.o_idx o)) (fun rows =>
  Ret (d_start d + pre, rows, l_avail st))))).

(** scan.py:426-431: the columns of the availability table. *)
Definition columns (stations : list string) : list string := flat_map (fun ph => map (fun s => onset_key s ph) stations) (o_phases k).
(** scan.py:453: the row of a timestep, by column name; a missing value would be NaN: [Undef]. *)
Definition avail_row (cols : list string) (av : dict Z) : outcome (list Z) := match map_opt (dget av) cols with Some r => Ret r | None => Undef end.

(** The variables of the loop: the files, the ScanmSEED object, the rows of the table so far. *)
Record dstate : Type := mk_dstate { ds_files : @files (row Z); ds_obj : @scanmseed (row Z); ds_table : list (Z * list Z) }.
(** scan.py:435-466: one timestep. *)
Definition timestep_body (cw : bool) (read : Z -> Z -> outcome wdata) (cols : list string) (starttime timestep pre post : Z) (s : dstate) (i : Z) : outcome dstate :=
  let w := step_window d_clock starttime timestep pre post i in
  match bind (read (fst w) (snd w)) (fun d =>
        bind (compute pre post d) (fun '(t, rows, av) =>
        bind (append d_clock ucf cw (ds_files s) (ds_obj s) t rows) (fun p =>
        bind (avail_row cols av) (fun a =>
        Ret (mk_dstate (fst p) (snd p) (ds_table s ++ [(starttime + timestep * i, a)])))))) with
  | Raise ArchiveEmpty | Raise DataGapException | Raise DataAvailabilityException =>
      bind (empty d_clock ucf cw (ds_files s) (ds_obj s) starttime timestep i) (fun p =>
      Ret (mk_dstate (fst p) (snd p) (ds_table s ++ [(starttime + timestep * i, repeat 0 (length cols))])))
  | o => o
  end.
(** scan.py:407-470 _continuous_compute. *)
Definition continuous_compute (cw : bool) (read : Z -> Z -> outcome wdata) (stations : list string) (fs : @files (row Z)) (afs : Avail_Model.files) (starttime timestep n : Z)
  : outcome (@files (row Z) * Avail_Model.files) :=
  let pads := onset_pad d_clock timestep (stalta_pre_pad (map (fun kv => (ph_sta (snd kv), ph_lta (snd kv))) (o_cfg k))) (o_post k) in
  let cols := columns stations in
  bind (fold_out (timestep_body cw read cols starttime timestep (fst pads) (snd pads)) (zrange n) (mk_dstate fs new_scanmseed [])) (fun s =>
  bind (if written (ds_obj s) then Ret (ds_files s) else write d_clock (ds_files s) (stream (ds_obj s))) (fun fs' =>
  Ret (fs', Avail_Model.write_availability d_clock afs (Avail_Model.mk_atable cols (ds_table s))))).
(** scan.py:296-347 detect. *)
Definition detect (cw : bool) (read : Z -> Z -> outcome wdata) (stations : list string) (fs : @files (row Z)) (afs : Avail_Model.files) (starttime endtime timestep : Z)
  : outcome (@files (row Z) * Avail_Model.files) :=
  if endtime <? starttime then Raise TimeSpan
  else continuous_compute cw read stations fs afs starttime timestep (n_steps d_clock starttime endtime timestep).
End Detect.

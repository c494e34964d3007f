(** Model of signal/onsets/stalta.py STALTAOnset.calculate_onsets and _onset: from the waveforms of a time window to the onset functions, and of the part of signal/scan.py
    _compute that hands them to the migration: the steps of Resample_Model, Avail_Model and StaLta_Model put together.

    SIMPLIFICATIONS: those of the three models; an id is STATION.CHANNEL (Read_Model.v); names are in upper case and station names have no wildcards, so that
    [Stream.select(station=...)] compares names; the four dictionaries of settings by phase have the same keys. *)
From Coq Require Import String Ascii.
From Coq Require Import List ZArith Reals QArith Bool.
From Verif Require Import Lib PyDict Timeline_Model Avail_Model Archive_Model Read_Model StaLta_Model.
From Verif Require Resample_Model Lut_Model Migrate_Model.
Import ListNotations.
Open Scope Z_scope.

(** The settings of a phase: [channel_maps], [channel_counts], [sta_lta_windows], the upper corner of [bandpass_filters]; [ph_band]: what stalta.py:202-209 does to the data of a trace. *)
Record phase_cfg : Type := mk_phase { ph_map : list gtok; ph_count : Z; ph_sta : Z; ph_lta : Z; ph_highcut : Q; ph_band : Z -> list R -> list R }.
(** The attributes of the onset object; [o_transform]: stalta.py:518-525. *)
Record onset_cfg : Type := mk_onset { o_phases : list string; o_cfg : dict phase_cfg; o_all : bool; o_gaps : bool; o_full : bool; o_rate : Z; o_centred : bool; o_python : bool;
  o_transform : list R -> list R; o_floor : R; o_post : Z }.
(** What is used of the WaveformData object. *)
Record wdata : Type := mk_wdata { d_waveforms : list seg; d_stations : list string; d_resample : bool; d_upfactor : option Z; d_start : Z; d_end : Z }.

(** The station and the channel of a trace. *)
Definition station_of (s : seg) : string := string_of_list_ascii (fst (at_dot (list_ascii_of_string (sg_id s)))).
Definition channel_of (s : seg) : name := snd (at_dot (list_ascii_of_string (sg_id s))).
(** [stream.select(channel=...)], [stream.select(station=...)] *)
Definition select_channel (p : list gtok) (st : list seg) : list seg := filter (fun s => fnmatch p (channel_of s)) st.
Definition select_station (st : list seg) (station : string) : list seg := filter (fun s => String.eqb (station_of s) station) st.

(** A comprehension, and a loop, whose body may raise. *)
Fixpoint map_out {A B} (f : A -> outcome B) (l : list A) : outcome (list B) :=
  match l with [] => Ret [] | x :: r => bind (f x) (fun y => bind (map_out f r) (fun ys => Ret (y :: ys))) end.
Fixpoint fold_out {A S} (f : S -> A -> outcome S) (l : list A) (s : S) : outcome S :=
  match l with [] => Ret s | x :: r => bind (f s x) (fold_out f r) end.

Section Run.
(** obspy: lowpass of util.py:500-510, taper of stalta.py:448; numpy: the smallest normal number. *)
Variables (lowpass : Z -> list R -> list R) (taper : list R -> list R) (tiny : R) (secs : Z) (k : onset_cfg).
Definition o_clock : clock := {| sec := secs; delta := secs / o_rate k |}.

(** stalta.py:527-536 *)
Definition onset_fn : list R -> Z -> Z -> outcome (list (option R)) :=
  if o_centred k then (if o_python k then centred_py tiny else lib_centred)
  else (if o_python k then overlapping_py tiny else lib_overlapping).
(** stalta.py:574-577: the taper in samples. [windows] of all phases. *)
Definition taper_samples (timespan : Z) : Z :=
  let pre := stalta_pre_pad (map (fun kv => (ph_sta (snd kv), ph_lta (snd kv))) (o_cfg k)) in
  time2sample o_clock (fst (onset_pad o_clock timespan pre (o_post k)) - pre).
(** stalta.py:491-548 _onset; numpy makes no array of rows of different length. *)
Definition onset (stw ltw : Z) (timespan : option Z) (st : list seg) : outcome (list (option R)) :=
  bind (map_out (fun s => onset_fn (o_transform k (sg_data s)) stw ltw) st) (fun os =>
  match os with
  | [] => Undef
  | o :: r => if forallb (fun x => Nat.eqb (length x) (length o)) r
              then Ret (combined_onset (o_floor k) stw ltw
                          (match timespan with Some 0 | None => None | Some ts => Some (taper_samples ts) end) os)
              else Raise ValueError
  end).

(** stalta.py:440-462 *)
Definition fill_gaps (starttime endtime : Z) (st : list seg) : outcome (list seg) :=
  if o_gaps k || negb (o_full k)
  then map_out (fun i => Resample_Model.fill_channel taper (sqrt tiny) secs starttime endtime (select_id st i)) (sorted_ids st)
  else Ret st.

(** stalta.py:414-466: one station. The verdict, and, if there are data, the onset function and the waveforms. *)
Definition station_onset (d : wdata) (timespan : option Z) (pc : phase_cfg) (filtered : list seg) (station : string) : outcome (Z * option (list (option R) * list seg)) :=
  let waveforms := select_station filtered station in
  bind (check_availability o_clock (d_start d) (d_end d)
          (mk_criteria (o_all k) (Some (ph_count pc)) (o_gaps k) (o_full k) true (Some (secs / o_rate k)) false) waveforms) (fun '(available, av_dict) =>
  if available =? 0 then Ret (available, None)
  else bind (fill_gaps (d_start d) (d_end d) (remove_unavailable av_dict waveforms)) (fun w =>
       bind (onset (stw_samples o_clock (ph_sta pc)) (ltw_samples o_clock (ph_lta pc)) timespan w) (fun o =>
       Ret (available, Some (o, w))))).

(** The variables of the loops: [onsets], [onsets_dict], [filtered_waveforms], [availability]. *)
Record loop_state : Type := mk_state { l_onsets : list (list (option R)); l_dict : dict (dict (list (option R))); l_filtered : list seg; l_avail : dict Z }.
Definition onset_key (station phase : string) : string := (station ++ "_" ++ phase)%string.
(** stalta.py:463-470: [setdefault(station, {}).update({phase: ...})] *)
Definition set_onset (d : dict (dict (list (option R)))) (station phase : string) (o : list (option R)) : dict (dict (list (option R))) :=
  dset d station (dset (match dget d station with Some e => e | None => [] end) phase o).
Definition station_body (d : wdata) (timespan : option Z) (phase : string) (pc : phase_cfg) (filtered : list seg) (st : loop_state) (station : string) : outcome loop_state :=
  bind (station_onset d timespan pc filtered station) (fun '(available, r) =>
  let avail := dset (l_avail st) (onset_key station phase) available in
  match r with
  | None => Ret (mk_state (l_onsets st) (l_dict st) (l_filtered st) avail)
  | Some (o, w) => Ret (mk_state (l_onsets st ++ [o]) (set_onset (l_dict st) station phase o) (l_filtered st ++ w) avail)
  end).
(** stalta.py:388-410 *)
Definition phase_waveforms (d : wdata) (pc : phase_cfg) : outcome (list seg) :=
  Resample_Model.pre_process lowpass (ph_band pc) secs (o_rate k) (d_resample d) (d_upfactor d) (ph_highcut pc) (d_start d) (d_end d) (select_channel (ph_map pc) (d_waveforms d)).
Definition phase_body (d : wdata) (timespan : option Z) (st : loop_state) (phase : string) : outcome loop_state :=
  match dget (o_cfg k) phase with
  | None => Raise KeyError
  | Some pc => bind (phase_waveforms d pc) (fun filtered => fold_out (station_body d timespan phase pc filtered) (d_stations d) st)
  end.
(** stalta.py:353-489 calculate_onsets; [np.stack] of rows of different length raises ValueError. *)
Definition calculate_onsets (d : wdata) (timespan : option Z) : outcome loop_state :=
  bind (fold_out (phase_body d timespan) (o_phases k) (mk_state [] [] [] [])) (fun st =>
  if fold_left Z.add (values (l_avail st)) 0 =? 0 then Raise DataAvailabilityException
  else match l_onsets st with
       | [] => Raise ValueError
       | o :: r => if forallb (fun x => Nat.eqb (length x) (length o)) r then Ret st else Raise ValueError
       end).

(** scan.py:617-634 _compute: onsets, traveltimes, migration. A KeyError of the lookup becomes LUTPhasesException; [Undef] for an onset that is not a number. *)
Fixpoint numbers (l : list (option R)) : option (list R) :=
  match l with [] => Some [] | x :: r => match x, numbers r with Some v, Some vs => Some (v :: vs) | _, _ => None end end.
Fixpoint all_numbers (l : list (list (option R))) : option (list (list R)) :=
  match l with [] => Some [] | x :: r => match numbers x, all_numbers r with Some v, Some vs => Some (v :: vs) | _, _ => None end end.
Definition compute_coalescence (r0 : Migrate_Model.mreg) (l : Lut_Model.lut) (d : wdata) (rate : R) (fsmp lsmp : Z) : outcome (list R) :=
  bind (calculate_onsets d None) (fun st =>
  match all_numbers (l_onsets st) with
  | None => Undef
  | Some rows =>
      bind (Lut_Model.stack_first rows) (fun '(flat, n, t) =>
      bind (match Lut_Model.serve_traveltimes l rate (l_avail st) with Raise KeyError => Raise LUTPhases | o => o end) (fun '(tts, n_nodes, n_luts) =>
      Migrate_Model.lib_migrate r0 flat n t tts n_nodes n_luts fsmp lsmp (fold_left Z.add (values (l_avail st)) 0)))
  end).
End Run.

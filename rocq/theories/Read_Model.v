(** Model of io/data.py Archive.read_waveform_data with the merge and the shift to the samples: the steps of Archive_Model and Merge_Model put together.

    SIMPLIFICATIONS: those of Archive_Model (except its own of read_waveform_data) and of Merge_Model; an id is STATION.CHANNEL; [interpolate] is False, so that a shift moves the
    times of a trace and leaves its data. *)
From Coq Require Import String Ascii.
From Coq Require Import List ZArith Reals Bool.
From Verif Require Import Lib Timeline_Model Avail_Model Archive_Model Merge_Model.
Import ListNotations.
Open Scope Z_scope.

Definition dot : ascii := "."%char.
(** [trace.id], and the station and channel of an id. *)
Definition chan_id (s ch : name) : string := string_of_list_ascii (s ++ dot :: ch).
Fixpoint at_dot (l : list ascii) : name * name :=
  match l with
  | [] => ([], [])
  | x :: r => if Ascii.eqb x dot then ([], r) else (x :: fst (at_dot r), snd (at_dot r))
  end.
Definition to_seg (t : wtrace) : seg := mk_seg (chan_id (w_station t) (w_chan t)) (w_start t) (w_delta t) (w_data t).
Definition of_seg (s : seg) : wtrace :=
  let p := at_dot (list_ascii_of_string (sg_id s)) in mk_wtrace (fst p) (snd p) (sg_start s) (sg_delta s) (sg_data s).

(** data.py:300: [util.merge_stream(st)]; [order]: the order of the set of ids. *)
Definition merge_traces (order : list seg -> list string) (raw : list wtrace) : list wtrace :=
  let st := map to_seg raw in map of_seg (merge_stream (order st) st).
(** data.py:308: [util.shift_to_sample(st)] *)
Definition shift_trace (c : clock) (t : wtrace) : wtrace :=
  mk_wtrace (w_station t) (w_chan t) (shift_to_sample {| sec := sec c; delta := w_delta t |} (w_start t)) (w_delta t) (w_data t).

(** data.py:221-336 Archive.read_waveform_data: the raw waveforms and the waveforms. *)
Definition read_merged (order : list seg -> list string) (fuel : nat) (c : clock) (a : list path) (fd : path -> option (list wtrace))
    (fmt : option format) (read_all : bool) (stations : list name) (starttime endtime pre_pad post_pad : Z)
    : option (outcome (list wtrace * list wtrace)) :=
  let pre := Z.max 0 pre_pad in
  let post := Z.max 0 post_pad in
  match load_from_path fuel c a fmt read_all stations (starttime - pre) (endtime + post) with
  | Some (Ret []) => Some (Raise ArchiveEmpty)
  | Some (Ret files) =>
      let raw := merge_traces order (flat_map (read_file fd (starttime - pre) (endtime + post)) files) in
      let st := cut_padding starttime endtime pre post (select_stations read_all stations (map (shift_trace c) raw)) in
      match st with [] => Some (Raise DataGapException) | _ => Some (Ret (raw, st)) end
  | Some (Raise e) => Some (Raise e)
  | Some Undef => Some Undef
  | None => None
  end.

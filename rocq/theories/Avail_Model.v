(** Model of the data quality checks and of the station and availability files: io/data.py
    check_availability, io/availability.py and io/core.py read_stations.

    Times are ticks of a clock. SIMPLIFICATIONS: obspy's Stream.get_gaps is modelled from its
    documentation (obspy is not part of the repository); Stream.select(id=...) selects equal ids;
    csv files are tables; tables with different columns are not concatenated ([Undef]). *)
From Coq Require Import String Ascii.
From Coq Require Import List ZArith Reals Bool.
From Verif Require Import Lib PyDict Timeline_Model Lut_Model.
Import ListNotations.
Open Scope Z_scope.

(** ** Traces *)

(** One obspy Trace: SEED id, time of the first sample, sampling interval, data. *)
Record seg : Set := mk_seg { sg_id : string; sg_start : Z; sg_delta : Z; sg_data : list R }.
Definition npts (s : seg) : Z := Z.of_nat (length (sg_data s)).
Definition sg_end (s : seg) : Z := sg_start s + (npts s - 1) * sg_delta s.

(** [tr.data.max() == tr.data.min()]; an empty array raises ValueError. *)
Definition flatline (s : seg) : outcome bool :=
  match sg_data s with
  | [] => Raise ValueError
  | x :: r => Ret (if Req_EM_T (fold_left Rmax r x) (fold_left Rmin r x) then true else false)
  end.
(** data.py:579: [any(...)] over the traces. *)
Fixpoint any_flat (l : list seg) : outcome bool :=
  match l with
  | [] => Ret false
  | s :: r => bind (flatline s) (fun f => if f then Ret true else any_flat r)
  end.

(** Stream.sort() of traces with one id: by start time, then end time. *)
Definition seg_le (a b : seg) : bool := (sg_start a <? sg_start b) || ((sg_start a =? sg_start b) && (sg_end a <=? sg_end b)).
Fixpoint insert_seg (a : seg) (l : list seg) : list seg :=
  match l with [] => [a] | b :: r => if seg_le a b then a :: l else b :: insert_seg a r end.
Definition sort_segs (l : list seg) : list seg := fold_right insert_seg [] l.
(** Stream.get_gaps: the time between the end of the coverage of a trace and the start of the
    next, an overlap being cut to the length of the next. *)
Definition gap_length (a b : seg) : Z :=
  let d := sg_start b - (sg_end a + sg_delta a) in
  if d <? 0 then (if sg_end b - sg_start b <? - d then - (sg_end b - sg_start b) else d) else d.
(** Whether the pair is listed. [overlaps_only]: max_gap = -0.000001 s. With equal sampling
    rates a difference that rounds to no sample is skipped. *)
Definition listed (c : clock) (overlaps_only : bool) (a b : seg) : bool :=
  let d := gap_length a b in
  negb (overlaps_only && (- sec c <? 1000000 * d))
  && negb ((sg_delta a =? sg_delta b) && (2 * Z.abs d <? sg_delta a)).
Fixpoint has_gap (c : clock) (overlaps_only : bool) (l : list seg) : bool :=
  match l with
  | a :: ((b :: _) as r) => listed c overlaps_only a b || has_gap c overlaps_only r
  | _ => false
  end.
Definition get_gaps (c : clock) (overlaps_only : bool) (l : list seg) : bool := has_gap c overlaps_only (sort_segs l).

(** The arguments of check_availability; the sampling rate is given by the sampling interval. *)
Record criteria : Set := mk_criteria { all_channels : bool; n_channels : option Z; allow_gaps : bool;
  full_timespan : bool; check_rate : bool; rate : option Z; check_times : bool }.

(** data.py:573-626: the checks of one channel; [true]: all passed. *)
Definition check_channel (c : clock) (starttime endtime : Z) (k : criteria) (st_id : list seg) : outcome bool :=
  bind (any_flat st_id) (fun flat =>
  if flat then Ret false
  else if get_gaps c true st_id then Ret false
  else if negb (allow_gaps k) && get_gaps c false st_id then Ret false
  else bind (if check_rate k then
               match rate k with
               | None => Raise TypeError
               | Some d => Ret (existsb (fun s => negb (sg_delta s =? d)) st_id)
               end
             else Ret false) (fun bad_rate =>
  if bad_rate then Ret false
  else match st_id with
       | [] => Undef (* st_id[0] *)
       | s0 :: rest =>
           let several := match rest with [] => false | _ => true end in
           if full_timespan k && (several || ((npts s0 - 1) * sg_delta s0 <? endtime - starttime)) then Ret false
           else if check_times k && (several || negb (sg_start s0 =? starttime) || negb (sg_end s0 =? endtime)) then Ret false
           else Ret true
       end)).

(** [sorted(set(...))] of strings *)
Fixpoint insert_id (x : string) (l : list string) : list string :=
  match l with
  | [] => [x]
  | y :: r => match String.compare x y with Gt => y :: insert_id x r | _ => x :: l end
  end.
Definition sorted_ids (st : list seg) : list string := fold_right insert_id [] (nodup string_dec (map sg_id st)).
Definition select_id (st : list seg) (i : string) : list seg := filter (fun s => String.eqb (sg_id s) i) st.

(** data.py:573-626: the loop over the channels. *)
Fixpoint check_channels (c : clock) (starttime endtime : Z) (k : criteria) (st : list seg) (ids : list string) : outcome (dict Z) :=
  match ids with
  | [] => Ret []
  | i :: r => bind (check_channel c starttime endtime k (select_id st i)) (fun ok : bool =>
              bind (check_channels c starttime endtime k st r) (fun d => Ret ((i, if ok then 1 else 0) :: d)))
  end.
(** data.py:509-646 check_availability *)
Definition check_availability (c : clock) (starttime endtime : Z) (k : criteria) (st : list seg) : outcome (Z * dict Z) :=
  match st with
  | [] => Ret (0, [])
  | _ =>
      bind (check_channels c starttime endtime k st (sorted_ids st)) (fun d =>
      if forallb (Z.eqb 1) (values d) then
        if all_channels k then
          match n_channels k with
          | None | Some 0 => Raise TypeError
          | Some n => Ret (if Z.of_nat (length d) =? n then 1 else 0, d)
          end
        else Ret (1, d)
      else Ret (if negb (all_channels k) && existsb (Z.eqb 1) (values d) then 1 else 0, d))
  end.

(** stalta.py:433-438: the channels that failed are removed before the onset is computed. *)
Definition remove_unavailable (av : dict Z) (st : list seg) : list seg :=
  fold_left (fun st kv => if snd kv =? 0 then filter (fun s => negb (String.eqb (sg_id s) (fst kv))) st else st) av st.

(** ** Files *)

(** A table of availability: columns, and rows of a time and a value per column. *)
Record atable : Set := mk_atable { at_cols : list string; at_rows : list (Z * list Z) }.
Definition files : Set := Z -> option atable. (* by day number *)

(** availability.py:121-150 write_availability: one file per day of the index, replacing a file
    that is there already. *)
Definition write_availability (c : clock) (fs : files) (t : atable) : files :=
  fun d => if existsb (fun r => fst r / day c =? d) (at_rows t)
           then Some (mk_atable (at_cols t) (filter (fun r => fst r / day c =? d) (at_rows t)))
           else fs d.

(** Position of a column; a missing column raises KeyError. *)
Fixpoint col_index (cols : list string) (name : string) (i : Z) : option Z :=
  match cols with [] => None | x :: r => if String.eqb x name then Some i else col_index r name (i + 1) end.
(** [availability_in[name].values]: the values of a column. *)
Definition column (t : atable) (name : string) : outcome (list Z) :=
  match col_index (at_cols t) name 0 with
  | None => Raise KeyError
  | Some i => Ret (map (fun r : Z * list Z => match rd (snd r) i with Some v => v | None => 0 end) (at_rows t))
  end.
Definition head_part (name : string) : string := hd ""%string (split_on underscore name).
(** availability.py:107-113: the new columns, in order of assignment. *)
Fixpoint new_columns (t : atable) (phase : string) (cols : list string) (acc : dict (list Z)) : outcome (dict (list Z)) :=
  match cols with
  | [] => Ret acc
  | x :: r => bind (column t (head_part x)) (fun v =>
              new_columns t phase r (dset acc (String.append (head_part x) (String.append "_" phase)) v))
  end.
(** Rows of a table given by its columns. *)
Definition rows_of (times : list Z) (cs : dict (list Z)) : list (Z * list Z) :=
  map (fun it : Z * Z => (snd it, map (fun v => match rd v (fst it) with Some x => x | None => 0 end) (values cs)))
      (combine (zrange (Z.of_nat (length times))) times).
(** availability.py:69-118 _handle_old_structure, without writing the file back. *)
Definition handle_old_structure (t : atable) : outcome atable :=
  match at_cols t with
  | [] => Raise IndexError
  | c0 :: _ =>
      if Z.of_nat (length (split_on underscore c0)) =? 2 then Ret t
      else bind (new_columns t "P" (at_cols t) []) (fun a =>
           bind (new_columns t "S" (at_cols t) a) (fun a =>
           Ret (mk_atable (keys a) (rows_of (map fst (at_rows t)) a))))
  end.

(** availability.py:44-62: the loop over the days; [None] when [fuel] passes did not suffice.
    Tables with different columns are outside the model. *)
Definition append_table (acc : option atable) (t : atable) : outcome (option atable) :=
  match acc with
  | None => Ret (Some t)
  | Some a => if list_eq_dec string_dec (at_cols a) (at_cols t)
              then Ret (Some (mk_atable (at_cols a) (at_rows a ++ at_rows t))) else Undef
  end.
Fixpoint read_days (fuel : nat) (c : clock) (fs : files) (readstart endtime : Z) (acc : option atable) : option (outcome (option atable)) :=
  if readstart <=? endtime then
    match fuel with
    | O => None
    | S fuel' =>
        match fs (readstart / day c) with
        | None => read_days fuel' c fs (readstart + day c) endtime acc
        | Some t =>
            match bind (handle_old_structure t) (append_table acc) with
            | Ret acc' => read_days fuel' c fs (readstart + day c) endtime acc'
            | Raise e => Some (Raise e)
            | Undef => Some Undef
            end
        end
    end
  else Some (Ret acc).
(** availability.py:21-66 read_availability; [Ret None]: NoStationAvailabilityDataException. *)
Definition read_availability (fuel : nat) (c : clock) (fs : files) (starttime endtime : Z) : option (outcome (option atable)) :=
  read_days fuel c fs (starttime - starttime mod day c) endtime None.

(** A station file: columns and rows of (latitude, longitude, elevation, name), a column that is
    missing being absent from [sf_cols]. *)
Record station_row : Set := mk_station { s_lat : R; s_lon : R; s_elev : R; s_name : string }.
Record station_file : Set := mk_sfile { sf_cols : list string; sf_rows : list station_row }.
Definition has_col (cols : list string) (x : string) : bool := existsb (String.eqb x) cols.
(** [("Latitude" or "Longitude" or "Elevation" or "Name")] evaluates to "Latitude". *)
Definition py_or (x y : string) : string := match x with EmptyString => y | _ => x end.
(** core.py:64-100 read_stations. astype with a column that is missing raises KeyError. *)
Definition read_stations (f : station_file) : outcome station_file :=
  if negb (has_col (sf_cols f) (py_or (py_or (py_or "Latitude" "Longitude") "Elevation") "Name"))
  then Raise StationFileHeader
  else if negb (has_col (sf_cols f) "Elevation") then Raise KeyError
  else if negb (has_col (sf_cols f) "Name") then Raise KeyError
  else Ret (mk_sfile (sf_cols f)
         (map (fun r => mk_station (s_lat r) (s_lon r) (-1 * s_elev r)%R (s_name r)) (sf_rows f))).

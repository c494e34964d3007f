(** Model of quakemigrate/io/data.py, class Archive: the files that are looked up for a
    station and a day, and the waveform data read from them. *)
From Coq Require Import String Ascii.
From Coq Require Import List ZArith Bool Reals.
From Verif Require Import Lib Calendar_Model Timeline_Model.
Import ListNotations.
Open Scope Z_scope.

(** File and directory names, and paths below [archive_path] as lists of names. *)
Definition name : Set := list ascii.
Definition path : Set := list name.

(** Shell patterns, as [pathlib.Path.glob] hands them to [fnmatch]: a character, "?", "*" and
    "[...]" (negated or not; ranges written out). *)
Inductive gtok : Set := GChar (c : ascii) | GAny | GStar | GSet (neg : bool) (cs : list ascii).

(** [fnmatch.fnmatchcase] (stdlib). *)
Fixpoint fnmatch (p : list gtok) : name -> bool :=
  match p with
  | [] => fun s => match s with [] => true | _ => false end
  | GChar c :: p' => fun s => match s with [] => false | x :: s' => Ascii.eqb x c && fnmatch p' s' end
  | GAny :: p' => fun s => match s with [] => false | _ :: s' => fnmatch p' s' end
  | GSet neg cs :: p' => fun s => match s with [] => false
                                  | x :: s' => xorb neg (existsb (Ascii.eqb x) cs) && fnmatch p' s' end
  | GStar :: p' => fix star s := fnmatch p' s || match s with [] => false | _ :: s' => star s' end
  end.

(** [pathlib.Path.glob(pattern)] (stdlib): the paths whose components match those of the
    pattern one by one. SIMPLIFICATION: the order of a directory listing is that of [a]; the
    component "**" (any number of directories) does not occur in the formats modelled. *)
Fixpoint path_match (pat : list (list gtok)) (p : path) : bool :=
  match pat, p with
  | [], [] => true
  | g :: pat', x :: p' => fnmatch g x && path_match pat' p'
  | _, _ => false
  end.
Definition glob (a : list path) (pat : list (list gtok)) : list path := filter (path_match pat) a.

(** The replacement fields of [Archive.format] (data.py:370-377): {year}, {month:02d},
    {day:02d}, {jday:03d}, {station}; any other name is not among the arguments of the call.
    NOT MODELLED: {dtime}, which is only used in custom formats. *)
Inductive ftok : Set := FPat (g : gtok) | FYear | FMonth | FDay | FJday | FStation | FOther.
Definition format : Set := list (list ftok).
Definition lit (s : string) : list ftok := map (fun c => FPat (GChar c)) (list_ascii_of_string s).
Definition fstar : list ftok := [FPat GStar].

(** data.py:181-219 Archive.path_structure *)
Definition path_structure (archive_format : string) (channels : list gtok) : outcome format :=
  if String.eqb archive_format "SeisComp3" then
    Ret [ [FYear]; fstar; [FStation]; map FPat channels;
          fstar ++ lit "." ++ [FStation] ++ lit "." ++ fstar ++ lit "." ++ fstar ++ lit ".D."
            ++ [FYear] ++ lit "." ++ [FJday] ]
  else if String.eqb archive_format "YEAR/JD/*_STATION_*" then
    Ret [ [FYear]; [FJday]; fstar ++ lit "_" ++ [FStation] ++ lit "_" ++ fstar ]
  else if String.eqb archive_format "YEAR/JD/STATION" then
    Ret [ [FYear]; [FJday]; [FStation] ++ fstar ]
  else if String.eqb archive_format "STATION.YEAR.JULIANDAY" then
    Ret [ fstar ++ [FStation] ++ lit "." ++ fstar ++ lit "." ++ [FYear] ++ lit "." ++ [FJday] ]
  else if String.eqb archive_format "/STATION/STATION.YearMonthDay" then
    Ret [ [FStation]; [FStation] ++ lit "." ++ [FYear; FMonth; FDay] ]
  else if String.eqb archive_format "YEAR_JD/STATION*" then
    Ret [ [FYear] ++ lit "_" ++ [FJday]; [FStation] ++ fstar ]
  else if String.eqb archive_format "YEAR_JD/STATION_*" then
    Ret [ [FYear] ++ lit "_" ++ [FJday]; [FStation] ++ lit "_" ++ fstar ]
  else Raise ArchivePathStructure.

(** data.py:370-386: the two [str.format] calls for one day (by number since 1970-01-01).
    SIMPLIFICATION: {year} is written with four digits (years 1000 to 9999). *)
Definition chars (s : name) : list gtok := map GChar s.
Definition render_tok (station : list gtok) (d : Z) (f : ftok) : outcome (list gtok) :=
  match f with
  | FPat g => Ret [g]
  | FYear => Ret (chars (digits 4 (year d)))
  | FMonth => Ret (chars (digits 2 (month d)))
  | FDay => Ret (chars (digits 2 (mday d)))
  | FJday => Ret (chars (digits 3 (julday d)))
  | FStation => Ret station
  | FOther => Raise KeyError
  end.
Fixpoint render_name (station : list gtok) (d : Z) (fs : list ftok) : outcome (list gtok) :=
  match fs with
  | [] => Ret []
  | f :: fs' => bind (render_tok station d f) (fun a => bind (render_name station d fs') (fun b => Ret (a ++ b)))
  end.
Fixpoint render (station : list gtok) (d : Z) (fmt : format) : outcome (list (list gtok)) :=
  match fmt with
  | [] => Ret []
  | n :: fmt' => bind (render_name station d n) (fun a => bind (render station d fmt') (fun b => Ret (a :: b)))
  end.

(** data.py:380 file_format.replace("**", "*") *)
Fixpoint collapse (g : list gtok) : list gtok :=
  match g with
  | GStar :: ((GStar :: r') as r) => GStar :: collapse r'
  | x :: r => x :: collapse r
  | [] => []
  end.

(** data.py:378-386: the files of one day. *)
Fixpoint station_files (a : list path) (fmt : format) (d : Z) (stations : list name) : outcome (list path) :=
  match stations with
  | [] => Ret []
  | s :: ss => bind (render (chars s) d fmt) (fun pat =>
               bind (station_files a fmt d ss) (fun r => Ret (glob a pat ++ r)))
  end.
Definition day_files (a : list path) (fmt : format) (read_all : bool) (stations : list name) (d : Z) : outcome (list path) :=
  if read_all then bind (render [GStar] d fmt) (fun pat => Ret (glob a (map collapse pat)))
  else station_files a fmt d stations.

(** data.py:364-388: the loop over the days; [None] when [fuel] passes did not suffice. *)
Fixpoint load_days (fuel : nat) (c : clock) (a : list path) (fmt : format) (read_all : bool) (stations : list name)
    (loadstart endtime : Z) : option (outcome (list path)) :=
  if loadstart <=? endtime then
    match fuel with
    | O => None
    | S fuel' =>
        match day_files a fmt read_all stations (loadstart / day c) with
        | Ret fs => match load_days fuel' c a fmt read_all stations (loadstart + day c) endtime with
                    | Some (Ret r) => Some (Ret (fs ++ r))
                    | x => x
                    end
        | Raise e => Some (Raise e)
        | Undef => Some Undef
        end
    end
  else Some (Ret []).
(** data.py:338-388 _load_from_path; [fmt = None]: no format set. *)
Definition load_from_path (fuel : nat) (c : clock) (a : list path) (fmt : option format) (read_all : bool)
    (stations : list name) (starttime endtime : Z) : option (outcome (list path)) :=
  match fmt with
  | None => Some (Raise ArchiveFormat)
  | Some f => load_days fuel c a f read_all stations (starttime - starttime mod day c) endtime
  end.

(** A stretch of waveform data: sample [i] is at time [w_start + i * w_delta]. *)
Record wtrace : Type := mk_wtrace { w_station : name; w_chan : name; w_start : Z; w_delta : Z; w_data : list R }.
Definition w_n (t : wtrace) : Z := Z.of_nat (length (w_data t)).

(** obspy.core.compatibility.round_away on a / b: nearest integer, halves away from zero. *)
Definition round_away (a b : Z) : Z := if 0 <=? a then (2 * a + b) / (2 * b) else - ((2 * (- a) + b) / (2 * b)).
(** obspy Trace._ltrim and Trace._rtrim, nearest_sample=True, pad=False *)
Definition ltrim (t : wtrace) (starttime : Z) : wtrace :=
  let d := round_away (starttime - w_start t) (w_delta t) in
  if d <=? 0 then t
  else mk_wtrace (w_station t) (w_chan t) (w_start t + d * w_delta t) (w_delta t) (skipn (Z.to_nat d) (w_data t)).
Definition rtrim (t : wtrace) (endtime : Z) : wtrace :=
  let d := round_away (endtime - w_start t - (w_n t - 1) * w_delta t) (w_delta t) in
  if 0 <=? d then t
  else if endtime <? w_start t then mk_wtrace (w_station t) (w_chan t) (w_start t) (w_delta t) []
  else mk_wtrace (w_station t) (w_chan t) (w_start t) (w_delta t)
         (firstn (Z.to_nat (if endtime =? w_start t then 1 else w_n t + d)) (w_data t)).
Definition trim (t : wtrace) (starttime endtime : Z) : wtrace := rtrim (ltrim t starttime) endtime.
Definition nonempty (t : wtrace) : bool := 0 <? w_n t.

(** data.py:284-298: the traces read from the files. [fd]: the content of the files, [None] for
    one that ObsPy cannot read. *)
Definition read_file (fd : path -> option (list wtrace)) (read_start read_end : Z) (f : path) : list wtrace :=
  match fd f with
  | None => []
  | Some ts => filter nonempty (map (fun t => trim t read_start read_end) ts)
  end.

(** data.py:312-318: with all stations read, those in the station file. *)
Definition select_stations (read_all : bool) (stations : list name) (raw : list wtrace) : list wtrace :=
  if read_all
  then flat_map (fun s => filter (fun t => if list_eq_dec ascii_dec (w_station t) s then true else false) raw) stations
  else raw.
(** data.py:320-325: with padding, the data between start and end time. *)
Definition cut_padding (starttime endtime pre post : Z) (st : list wtrace) : list wtrace :=
  if negb (pre =? 0) || negb (post =? 0) then filter nonempty (map (fun t => trim t starttime endtime) st) else st.

(** data.py:221-336 Archive.read_waveform_data: the raw and the selected waveforms.
    SIMPLIFICATION: the data are on the samples of their rate and the files of a channel do not
    contradict each other, so that merge_stream and shift_to_sample (C20, C91) do not change
    the samples; pieces of a channel are listed one by one. *)
Definition read_waveform_data (fuel : nat) (c : clock) (a : list path) (fd : path -> option (list wtrace))
    (fmt : option format) (read_all : bool) (stations : list name) (starttime endtime pre_pad post_pad : Z)
    : option (outcome (list wtrace * list wtrace)) :=
  let pre := Z.max 0 pre_pad in
  let post := Z.max 0 post_pad in
  match load_from_path fuel c a fmt read_all stations (starttime - pre) (endtime + post) with
  | Some (Ret []) => Some (Raise ArchiveEmpty)
  | Some (Ret files) =>
      let raw := flat_map (read_file fd (starttime - pre) (endtime + post)) files in
      let st := cut_padding starttime endtime pre post (select_stations read_all stations raw) in
      match st with [] => Some (Raise DataGapException) | _ => Some (Ret (raw, st)) end
  | Some (Raise e) => Some (Raise e)
  | Some Undef => Some Undef
  | None => None
  end.

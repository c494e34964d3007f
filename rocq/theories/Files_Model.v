(** Model of where the files of a run are: io/core.py Run and the paths of every file that is written or
    read under the run directory.

    Names are lists of characters, paths are lists of components as in pathlib (PurePosixPath.parts).
    SIMPLIFICATIONS: years have four digits (see [fstem] in Calendar_Model.v); log files, whose names hold the
    time at which they are opened, are left out. *)
From Coq Require Import String Ascii.
From Coq Require Import List ZArith Bool.
From Verif Require Import Lib Calendar_Model.
Import ListNotations.
Open Scope Z_scope.

Definition name : Set := list ascii.
Definition path : Set := list name.
Definition str (s : string) : name := list_ascii_of_string s.
Definition c_slash : ascii := "/".

(** CPython pathlib: a string split at its slashes, without empty components and ".". *)
Fixpoint split_slash (s : name) : list name :=
  match s with
  | [] => [[]]
  | c :: r => if ascii_dec c c_slash then [] :: split_slash r
              else match split_slash r with h :: t => (c :: h) :: t | [] => [[c]] end
  end.
Definition real_part (s : name) : bool :=
  match s with [] => false | [c] => if ascii_dec c c_dot then false else true | _ => true end.
Definition parts (s : name) : list name := filter real_part (split_slash s).
(** [p / s]: an absolute path replaces the one before; its first part is "/". *)
Definition join (p : path) (s : name) : path :=
  match s with
  | c :: _ => if ascii_dec c c_slash then [c_slash] :: parts s else p ++ parts s
  | [] => p
  end.

(** [name.rfind(".")] as the characters before and from the last dot. *)
Fixpoint rsplit_dot (s : name) : option (name * name) :=
  match s with
  | [] => None
  | c :: r => match rsplit_dot r with
              | Some (a, b) => Some (c :: a, b)
              | None => if ascii_dec c c_dot then Some ([], s) else None
              end
  end.
(** PurePath.with_suffix on a name: a suffix has a name before it and a character after the dot. *)
Definition replace_suffix (s suffix : name) : name :=
  match rsplit_dot s with
  | Some ((_ :: _) as a, _ :: _ :: _) => a ++ suffix
  | _ => s ++ suffix
  end.
(** PurePath.with_suffix; a path without a name raises ValueError. *)
Definition with_suffix (p : path) (suffix : name) : outcome path :=
  match rev p with
  | [] => Raise ValueError
  | l :: r => if list_eq_dec ascii_dec l [c_slash] then Raise ValueError
              else Ret (rev (replace_suffix l suffix :: r))
  end.

Record run : Set := mk_run { r_path : path; r_name : name; r_sub : name }.

(** [s.replace(".", "_")] *)
Definition no_dots (s : name) : name := map (fun c => if ascii_dec c c_dot then c_us else c) s.
Definition has_dot (s : name) : bool := existsb (fun c => if ascii_dec c c_dot then true else false) s.

(** core.py:230-246 Run.__init__ *)
Definition make_run (p : path) (nm sub : name) : run :=
  let (nm, sub) := if has_dot nm || has_dot sub then (no_dots nm, no_dots sub) else (nm, sub) in
  mk_run (join p nm) nm sub.
(** core.py:270-276 name *)
Definition full_name (r : run) : name :=
  match r_sub r with [] => r_name r | _ => r_name r ++ [c_us] ++ r_sub r end.

(** What is written, for a day, or for an event (and station). *)
Inductive output : Set :=
  | OScan (d : Z) | OAvail (d : Z) | OTrig (d : Z) | OTrigPlot (d : Z)
  | OEvent (uid : name) | OPicks (uid : name) | OPickPlot (uid station : name) | OAmps (uid : name)
  | OAmpPlot (uid : name) | OSummary (uid : name) | OMap (marginalised : bool) (uid : name)
  | OCut (waveform_type uid file_format : name).

(** Directory below the stage: [run.path / stage / run.subname / kind] *)
Definition stage_dir (r : run) (stage kind : string) : path :=
  join (join (join (r_path r) (str stage)) (r_sub r)) (str kind).

(** The directory that is created: scanmseed.py:200-201, availability.py:136-137, triggered_events.py:125-126,
    plot/trigger.py:206-207, event.py:455-456, pickers/base.py:75-76, gaussian.py:592-593, amplitudes.py:38-39,
    magnitude.py:567-568, plot/event.py:180-181, coalescence.py:58-62, cut_waveforms.py:88-89. *)
Definition directory (r : run) (o : output) : path :=
  match o with
  | OScan _ => join (join (r_path r) (str "detect")) (str "scanmseed")
  | OAvail _ => join (join (r_path r) (str "detect")) (str "availability")
  | OTrig _ => stage_dir r "trigger" "events"
  | OTrigPlot _ => stage_dir r "trigger" "summaries"
  | OEvent _ => stage_dir r "locate" "events"
  | OPicks _ => stage_dir r "locate" "picks"
  | OPickPlot uid _ => join (r_path r) (str "locate/" ++ r_sub r ++ str "/pick_plots/" ++ uid)
  | OAmps _ => stage_dir r "locate" "amplitudes"
  | OAmpPlot _ => stage_dir r "locate" "amplitude_plots"
  | OSummary _ => stage_dir r "locate" "summaries"
  | OMap true _ => stage_dir r "locate" "marginalised_coalescence_maps"
  | OMap false _ => stage_dir r "locate" "coalescence_maps"
  | OCut k _ _ => join (join (join (r_path r) (str "locate")) (r_sub r)) (k ++ str "_cut_waveforms")
  end.

(** cut_waveforms.py:201-210 *)
Definition format_suffix (f : name) : name :=
  if list_eq_dec ascii_dec f (str "MSEED") then str ".m"
  else if list_eq_dec ascii_dec f (str "SAC") then str ".sac"
  else if list_eq_dec ascii_dec f (str "SEGY") then str ".segy"
  else if list_eq_dec ascii_dec f (str "GSE2") then str ".gse2"
  else str ".waveforms".

(** Stem and suffix of the file: scanmseed.py:209-210, availability.py:147-148, triggered_events.py:136-137,
    plot/trigger.py:208-209, event.py:506-507, pickers/base.py:87-88, gaussian.py:609-610, amplitudes.py:66-67,
    magnitude.py:569-570, plot/event.py:182-183, coalescence.py:64, cut_waveforms.py:90, 212. *)
Definition stem (r : run) (o : output) : name * name :=
  match o with
  | OScan d => (fstem d, str ".scanmseed")
  | OAvail d => (fstem d ++ str "_StationAvailability", str ".csv")
  | OTrig d => (full_name r ++ [c_us] ++ fstem d ++ str "_TriggeredEvents", str ".csv")
  | OTrigPlot d => (full_name r ++ [c_us] ++ fstem d ++ str "_Trigger", str ".pdf")
  | OEvent uid => (uid, str ".event")
  | OPicks uid => (uid, str ".picks")
  | OPickPlot uid station => (uid ++ [c_us] ++ station, str ".pdf")
  | OAmps uid => (uid, str ".amps")
  | OAmpPlot uid => (full_name r ++ [c_us] ++ uid ++ str "_AmpVsDistance", str ".pdf")
  | OSummary uid => (full_name r ++ [c_us] ++ uid ++ str "_EventSummary", str ".pdf")
  | OMap _ uid => (uid, str ".npy")
  | OCut _ uid f => (uid, format_suffix f)
  end.

(** The file written. *)
Definition file_of (r : run) (o : output) : outcome path :=
  with_suffix (join (directory r o) (fst (stem r o))) (snd (stem r o)).

(** The files that are looked for: scanmseed.py:278, 288-289, availability.py:42, 49-50,
    triggered_events.py:61, 69-70. *)
Definition scan_read (r : run) (d : Z) : outcome path :=
  with_suffix (join (join (join (r_path r) (str "detect")) (str "scanmseed")) (fstem d)) (str ".scanmseed").
Definition avail_read (r : run) (d : Z) : outcome path :=
  with_suffix (join (join (join (r_path r) (str "detect")) (str "availability"))
                 (fstem d ++ str "_StationAvailability")) (str ".csv").
Definition trig_read (r : run) (d : Z) : outcome path :=
  with_suffix (join (stage_dir r "trigger" "events") (full_name r ++ [c_us] ++ fstem d ++ str "_TriggeredEvents")) (str ".csv").

(** export/to_obspy.py:71-72, 148-153, 216-218, 244-246: directory of the event files, and the files looked for with the event
    [uid]. [run_dir]: the directory of the run. *)
Definition locate_dir (run_dir : path) (run_subname : name) : path := join (join run_dir (str "locate")) run_subname.
Definition export_events (run_dir : path) (run_subname : name) : path := join (locate_dir run_dir run_subname) (str "events").
Definition export_file (run_dir : path) (run_subname : name) (kind suffix : string) (uid : name) : outcome path :=
  with_suffix (join (join (locate_dir run_dir run_subname) (str kind)) uid) (str suffix).

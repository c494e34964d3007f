(** Model of how parameters are set: signal/onsets/base.py Onset.__init__, signal/onsets/stalta.py
    STALTAOnset.__init__, its pads and its deprecated names, signal/scan.py QuakeScan.__init__ (the
    parameters below) and its deprecated names, signal/trigger.py Trigger.__init__ (the parameters
    below) and its setters.

    SIMPLIFICATIONS: reals for binary64. Parameters that no modelled function reads (plot and output
    toggles, data quality switches) are left out; so are the printed warnings. The number 0 as
    value of [minimum_repeat] counts as not given (trigger.py:222). *)
From Coq Require Import String Ascii.
From Coq Require Import List ZArith Reals Bool.
From Verif Require Import Lib PyDict Lut_Model.
Import ListNotations.
Open Scope Z_scope.

(** * STALTAOnset *)

(** Attributes. [o_post] is [_post_pad]. *)
Record onset : Type := mk_onset
  { o_rate : R; o_position : string; o_min : R; o_bp : dict (list R); o_win : dict (R * R); o_post : R }.

(** Keyword arguments; [None] for one that is not given. The last five are deprecated. *)
Record onset_kw : Type := mk_okw
  { k_rate : option R; k_position : option string; k_min : option R;
    k_bp : option (dict (list R)); k_win : option (dict (R * R));
    k_centred : option bool; k_p_bp : option (list R); k_s_bp : option (list R);
    k_p_win : option (R * R); k_s_win : option (R * R) }.

Definition opt {A} (o : option A) (d : A) : A := match o with Some x => x | None => d end.

(** stalta.py:643-659 onset_centred setter *)
Definition set_centred (o : onset) (v : option bool) : onset :=
  match v with
  | None => o
  | Some b => mk_onset (o_rate o) (if b then "centred" else "classic")%string (o_min o) (o_bp o) (o_win o) (o_post o)
  end.
(** stalta.py:666-679 and 686-699 p_bp_filter and s_bp_filter setters *)
Definition set_bp (phase : string) (o : onset) (v : option (list R)) : onset :=
  match v with
  | None => o
  | Some f => mk_onset (o_rate o) (o_position o) (o_min o) (dset (o_bp o) phase f) (o_win o) (o_post o)
  end.
(** stalta.py:706-719 and 726-739 p_onset_win and s_onset_win setters *)
Definition set_win (phase : string) (o : onset) (v : option (R * R)) : onset :=
  match v with
  | None => o
  | Some w => mk_onset (o_rate o) (o_position o) (o_min o) (o_bp o) (dset (o_win o) phase w) (o_post o)
  end.
(** stalta.py:636-641 onset_centred getter *)
Definition get_centred (o : onset) : string := o_position o.
(** [if value:] for a string *)
Definition truthy (s : string) : bool := negb (String.eqb s "").

Definition default_bp : dict (list R) := [("P", [2; 16; 2]%R); ("S", [2; 16; 2]%R)]%string.
Definition default_win : dict (R * R) := [("P", (2 / 10, 1)%R); ("S", (2 / 10, 1)%R)]%string.

(** base.py:49-58 and stalta.py:297-334 *)
Definition onset_init (k : onset_kw) : outcome onset :=
  match k_rate k with
  | None => Raise ValueError
  | Some rate =>
      let m := opt (k_min k) (4 / 10)%R in
      if Rlt_dec m (1 / 100) then Raise ValueError
      else
        let o := mk_onset rate (opt (k_position k) "classic"%string) m (opt (k_bp k) default_bp)
                   (opt (k_win k) default_win) 0 in
        let o := set_centred o (k_centred k) in
        let o := set_bp "P" o (k_p_bp k) in
        let o := set_bp "S" o (k_s_bp k) in
        let o := set_win "P" o (k_p_win k) in
        Ret (set_win "S" o (k_s_win k))
  end.

(** Python's [max] of a list; empty raises. *)
Definition py_max (l : list R) : outcome R :=
  match l with [] => Raise ValueError | x :: r => Ret (fold_left (fun m v => if Rlt_dec m v then v else m) r x) end.

(** stalta.py:600-608 pre_pad *)
Definition pre_pad (o : onset) : outcome R :=
  bind (py_max (map (fun kw => snd (snd kw)) (o_win o))) (fun lta =>
  bind (py_max (map (fun kw => fst (snd kw)) (o_win o))) (fun sta => Ret (lta + 3 * sta)%R)).
(** stalta.py:626-635 post_pad setter, np.ceil *)
Definition set_post_pad (o : onset) (ttmax : R) : outcome onset :=
  bind (py_max (map (fun kw => snd (snd kw)) (o_win o))) (fun lta_max =>
  Ret (mk_onset (o_rate o) (o_position o) (o_min o) (o_bp o) (o_win o) (IZR (np_ceil (ttmax + 2 * lta_max))))).

(** Assignments to attributes of an existing onset. *)
Inductive onset_op : Type :=
| SetPosition (p : string) | SetMin (m : R) | SetBp (d : dict (list R)) | SetWin (d : dict (R * R))
| SetRate (r : R) | OldCentred (v : option bool) | OldBp (phase : string) (v : option (list R))
| OldWin (phase : string) (v : option (R * R)).
Definition onset_assign (o : onset) (a : onset_op) : onset :=
  match a with
  | SetPosition p => mk_onset (o_rate o) p (o_min o) (o_bp o) (o_win o) (o_post o)
  | SetMin m => mk_onset (o_rate o) (o_position o) m (o_bp o) (o_win o) (o_post o)
  | SetBp d => mk_onset (o_rate o) (o_position o) (o_min o) d (o_win o) (o_post o)
  | SetWin d => mk_onset (o_rate o) (o_position o) (o_min o) (o_bp o) d (o_post o)
  | SetRate r => mk_onset r (o_position o) (o_min o) (o_bp o) (o_win o) (o_post o)
  | OldCentred v => set_centred o v
  | OldBp phase v => set_bp phase o v
  | OldWin phase v => set_win phase o v
  end.

(** * QuakeScan *)

(** Attributes; [s_rate] is [_scan_rate], [None] before it is set. *)
Record scan : Type := mk_scan
  { s_onset : onset; s_timestep : R; s_threads : Z; s_rate : option R }.
Record scan_kw : Type := mk_skw
  { k_timestep : option R; k_threads : option Z;
    k_time_step : option R; k_n_cores : option Z; k_sampling_rate : option R }.

(** scan.py:1120-1129 time_step setter, 1136-1145 n_cores setter *)
Definition set_time_step (s : scan) (v : option R) : scan :=
  match v with None => s | Some t => mk_scan (s_onset s) t (s_threads s) (s_rate s) end.
Definition set_n_cores (s : scan) (v : option Z) : scan :=
  match v with None => s | Some n => mk_scan (s_onset s) (s_timestep s) n (s_rate s) end.
(** scan.py:1104-1113 sampling_rate setter: the warning contains the scan rate. *)
Definition set_sampling_rate (s : scan) (v : option R) : outcome scan :=
  match v with
  | None => Ret s
  | Some _ => match s_rate s with Some _ => Ret s | None => Raise AttributeError end
  end.
(** scan.py:1085-1097 scan_rate setter *)
Definition set_scan_rate (s : scan) (v : option R) : outcome scan :=
  match v with
  | None => Ret s
  | Some r =>
      if Req_EM_T r (o_rate (s_onset s)) then Ret (mk_scan (s_onset s) (s_timestep s) (s_threads s) (Some r))
      else match s_rate s with Some _ => Ret s | None => Raise AttributeError end
  end.

(** scan.py:204-249; [ttmax] is [lut.max_traveltime]. *)
Definition scan_init (ttmax : R) (onset : onset) (k : scan_kw) : outcome scan :=
  bind (set_post_pad onset ttmax) (fun o =>
  let s := mk_scan o (opt (k_timestep k) 120%R) 1 None in
  let s := set_time_step s (k_time_step k) in
  let s := mk_scan (s_onset s) (s_timestep s) (opt (k_threads k) 1) (s_rate s) in
  let s := set_n_cores s (k_n_cores k) in
  bind (set_sampling_rate s (k_sampling_rate k)) (fun s =>
  set_scan_rate s (Some (o_rate (s_onset s))))).

(** Assignments [scan.onset.<attribute> = ...] after the scan was made. *)
Definition scan_assign (s : scan) (a : onset_op) : scan :=
  mk_scan (onset_assign (s_onset s) a) (s_timestep s) (s_threads s) (s_rate s).

(** * Trigger *)

Record trig : Type := mk_trig { t_method : string; t_mw : R; t_mei : R }.
Record trig_kw : Type := mk_tkw
  { k_method : option string; k_mw : option R; k_mei : option R; k_min_repeat : option R }.

(** trigger.py:707-719 threshold_method setter *)
Definition set_method (t : trig) (v : string) : outcome trig :=
  if existsb (String.eqb v) ["static"; "mad"; "median_ratio"]%string then Ret (mk_trig v (t_mw t) (t_mei t))
  else if String.eqb v "dynamic" then Ret (mk_trig "mad" (t_mw t) (t_mei t))
  else Raise ThresholdMethod.
(** trigger.py:694-700 min_event_interval setter, 728-737 minimum_repeat setter *)
Definition set_mei (t : trig) (v : R) : outcome trig :=
  if Rlt_dec v (2 * t_mw t) then Raise ValueError else Ret (mk_trig (t_method t) (t_mw t) v).
Definition set_min_repeat (t : trig) (v : R) : outcome trig :=
  if Rlt_dec v (2 * t_mw t) then Raise ValueError else Ret (mk_trig (t_method t) (t_mw t) v).
Definition set_mw (t : trig) (v : R) : trig := mk_trig (t_method t) v (t_mei t).

(** trigger.py:213-223 *)
Definition trig_init (k : trig_kw) : outcome trig :=
  bind (set_method (mk_trig "" 0 0) (opt (k_method k) "static"%string)) (fun t =>
  let t := set_mw t (opt (k_mw k) 2%R) in
  bind (set_mei t (opt (k_mei k) 4%R)) (fun t =>
  match k_min_repeat k with
  | None => Ret t
  | Some v => if Req_EM_T v 0 then Ret t else set_min_repeat t v
  end)).

(** Assignments to attributes of an existing trigger. *)
Inductive trig_op : Type := TMethod (m : string) | TInterval (v : R) | TRepeat (v : R) | TWindow (v : R).
Definition trig_assign (t : trig) (a : trig_op) : outcome trig :=
  match a with
  | TMethod m => set_method t m
  | TInterval v => set_mei t v
  | TRepeat v => set_min_repeat t v
  | TWindow v => Ret (set_mw t v)
  end.
Fixpoint trig_assigns (t : trig) (l : list trig_op) : outcome trig :=
  match l with [] => Ret t | a :: r => bind (trig_assign t a) (fun t' => trig_assigns t' r) end.

(** The arguments of QuakeScan.locate (quakemigrate/signal/scan.py) and of the picker (quakemigrate/signal/pickers/gaussian.py). *)
From Coq Require Import String.
From Coq Require Import ZArith QArith List.
From Verif Require Import Lib.
Import ListNotations.
Open Scope Z_scope.

(** What [_locate_events] is called with. *)
Inductive request : Type := ByFile (file : string) | ByPeriod (starttime endtime : option Z).

Section Locate.
(** obspy's [UTCDateTime(v)]; [None] is Python's. *)
Variable utc : option string -> outcome Z.
(** scan.py:375-403, without the messages. *)
Definition locate_args (starttime endtime trigger_file : option string) : outcome request :=
  bind (match starttime, endtime with
        | None, None => Ret (None, None)
        | _, _ => bind (utc starttime) (fun s => bind (utc endtime) (fun e => if e <? s then Raise TimeSpan else Ret (Some s, Some e)))
        end) (fun p => let '(s, e) := p in
  match trigger_file, s, e with
  | None, None, None => Raise RuntimeError
  | _, None, Some _ | _, Some _, None => Raise RuntimeError
  | Some f, _, _ => Ret (ByFile f)
  | None, _, _ => Ret (ByPeriod s e)
  end).
End Locate.

(** The attributes of the picker that hold the threshold. *)
Record picker : Type := mk_picker { p_method : string; p_percentile : option Q; p_mad : option Q }.
Record picker_kw : Type := mk_pkw { k_method : option string; k_percentile : option Q; k_mad : option Q; k_pick : option Q }.
Definition get {A} (o : option A) (d : A) : A := match o with Some x => x | None => d end.
(** gaussian.py:78-90; a [pick_threshold] of 0 counts as not given, another one goes to the setter (gaussian.py:631-637). InvalidPickThresholdMethodException is [ThresholdMethod]. *)
Definition picker_init (k : picker_kw) : outcome picker :=
  let m := get (k_method k) "MAD"%string in
  bind (if String.eqb m "percentile" then Ret (mk_picker m (Some (get (k_percentile k) 1%Q)) None)
        else if String.eqb m "MAD" then Ret (mk_picker m None (Some (get (k_mad k) 8%Q))) else Raise ThresholdMethod) (fun p =>
  match k_pick k with Some v => if Qeq_bool v 0 then Ret p else Raise AttributeError | None => Ret p end).
(** What the picker reads (gaussian.py:347-355): the attribute of the method; an attribute that was not set raises. *)
Definition threshold_read (p : picker) : outcome Q :=
  if String.eqb (p_method p) "percentile" then match p_percentile p with Some v => Ret v | None => Raise AttributeError end
  else match p_mad p with Some v => Ret v | None => Raise AttributeError end.

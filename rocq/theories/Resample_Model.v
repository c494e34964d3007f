(** Model of the preparation of the waveforms for the onset calculation: util.py resample and
    decimate, stalta.py pre_process, and the filling of gaps in stalta.py calculate_onsets.

    Times and sampling intervals are ticks, [secs] ticks make a second; a trace is the [seg] of
    Avail_Model.v. SIMPLIFICATIONS: obspy's Trace.decimate, trim, __add__ and Stream.trim, merge
    are modelled from their documentation (obspy is not part of the repository), without the
    rounding of obspy to 7 digits; detrending, tapering and filtering are arguments (functions
    on the data of one trace); sampling rates are exact rational numbers. *)
From Coq Require Import List ZArith Reals QArith Bool.
From Verif Require Import Lib Timeline_Model Avail_Model.
Import ListNotations.
Open Scope Z_scope.

(** numpy [l[::f]]. *)
Definition every {A} (f : Z) (l : list A) : list A :=
  flat_map (fun k => match rd l (k * f) with Some v => [v] | None => [] end)
           (zrange (cdiv (Z.of_nat (length l)) f)).

(** obspy Trace.trim(starttime, endtime, nearest_sample=False): the samples within the window
    are kept. *)
Definition trim (w_beg w_end : Z) (s : seg) : seg :=
  let k0 := Z.max 0 (cdiv (w_beg - sg_start s) (sg_delta s)) in
  let k1 := Z.min (npts s - 1) ((w_end - sg_start s) / sg_delta s) in
  mk_seg (sg_id s) (sg_start s + k0 * sg_delta s) (sg_delta s)
         (skipn (Z.to_nat k0) (firstn (Z.to_nat (k1 + 1)) (sg_data s))).

(** obspy Stream.trim: traces without samples are removed. *)
Definition trim_stream (w_beg w_end : Z) (st : list seg) : list seg :=
  filter (fun s => 0 <? npts s) (map (trim w_beg w_end) st).

(** util.py:479-518 decimate to the sampling interval [d]: [factor = int(rate / sampling_rate)].
    [lowpass interval data] is the data after detrend, taper and lowpass (lines 500-510). A
    factor 0 is rejected by the slice. *)
Definition decimate (lowpass : Z -> list R -> list R) (d : Z) (s : seg) : outcome seg :=
  let factor := d / sg_delta s in
  if factor <=? 0 then Raise ValueError
  else Ret (mk_seg (sg_id s) (sg_start s) (factor * sg_delta s)
                   (every factor (lowpass (sg_delta s) (sg_data s)))).

(** util.py:521-604 upsample: the data and start time of Timeline_Model.upsample, the sampling
    rate [int(upfactor * rate)], trimmed to the window. [Undef]: an empty trace, or ticks that
    are too coarse for the new sampling interval. *)
Definition upsample_trace (secs u starttime endtime : Z) (s : seg) : outcome seg :=
  let r := u * secs / sg_delta s in
  if (r <=? 0) || negb (secs mod r =? 0) || negb (sg_delta s mod u =? 0) then Undef
  else
    let c := {| sec := secs; delta := sg_delta s |} in
    match upsample c (sg_start s) (sg_data s) u starttime endtime with
    | None => Undef
    | Some (start, data) =>
        Ret (trim (starttime - eps c) (endtime + eps c) (mk_seg (sg_id s) start (secs / r) data))
    end.

(** util.py:446-460: what happens to one trace. [rate % sampling_rate == 0] says that the wanted
    interval is a multiple of the interval of the trace. *)
Definition decimable (secs rate : Z) (s : seg) : bool := (secs / rate) mod sg_delta s =? 0.
Definition at_rate (secs rate : Z) (s : seg) : bool := sg_delta s =? secs / rate.
Definition resample_trace (lowpass : Z -> list R -> list R) (secs rate : Z) (resample : bool)
  (upfactor : option Z) (starttime endtime : Z) (s : seg) : outcome seg :=
  if at_rate secs rate s then Ret s
  else if decimable secs rate s then decimate lowpass (secs / rate) s
  else match resample, upfactor with
       | true, Some u =>
           if negb ((secs * u / sg_delta s) mod rate =? 0) then Raise BadUpfactor
           else bind (upsample_trace secs u starttime endtime s) (decimate lowpass (secs / rate))
       | _, _ => Ret s
       end.

(** util.py:446-468: whether the trace is removed and its successor appended at the end. *)
Definition moved (secs rate : Z) (resample : bool) (upfactor : option Z) (s : seg) : bool :=
  negb (at_rate secs rate s)
  && (decimable secs rate s || (resample && match upfactor with Some _ => true | None => false end)).
(** The loop over a copy of the list of traces (obspy Stream.__iter__): the traces left in
    place and the new ones. *)
Fixpoint resample_loop (one : seg -> outcome seg) (mv : seg -> bool) (st : list seg) : outcome (list seg * list seg) :=
  match st with
  | [] => Ret ([], [])
  | s :: r =>
      bind (one s) (fun s' =>
      bind (resample_loop one mv r) (fun kn =>
      Ret (if mv s then (fst kn, s' :: snd kn) else (s' :: fst kn, snd kn))))
  end.
(** util.py:404-476 resample. *)
Definition resample (lowpass : Z -> list R -> list R) (secs rate : Z) (rs : bool)
  (upfactor : option Z) (starttime endtime : Z) (st : list seg) : outcome (list seg) :=
  bind (resample_loop (resample_trace lowpass secs rate rs upfactor starttime endtime)
                      (moved secs rate rs upfactor) st) (fun kn =>
  let e := secs / 100000 in
  Ret (trim_stream (starttime - e) (endtime + e) (fst kn ++ snd kn))).

(** stalta.py:137-211 pre_process; [bandpass interval data]: detrend, taper and filter of lines
    202-209. *)
Definition pre_process (lowpass bandpass : Z -> list R -> list R) (secs rate : Z) (rs : bool)
  (upfactor : option Z) (highcut : Q) (starttime endtime : Z) (st : list seg) : outcome (list seg) :=
  bind (resample lowpass secs rate rs upfactor starttime endtime st) (fun st' =>
  if Qle_bool (inject_Z rate * (1 # 2)) highcut then Raise NyquistException
  else Ret (map (fun s => mk_seg (sg_id s) (sg_start s) (sg_delta s) (bandpass (sg_delta s) (sg_data s))) st')).

(** ** Filling of gaps, stalta.py:440-462 *)

(** Nearest integer to a / b for b > 0, ties away from zero (obspy round_away). *)
Definition round_away (a b : Z) : Z :=
  if 0 <=? a then (2 * a + b) / (2 * b) else - ((2 * (- a) + b) / (2 * b)).
(** obspy Trace.__add__(other, method=1, fill_value) of a trace and a later one: the number of
    missing samples is rounded. [Undef] for overlapping traces, which check_availability has
    excluded, and for different sampling rates. *)
Definition join (fill : R) (l r : seg) : outcome seg :=
  let gap := round_away (sg_start r - sg_end l) (sg_delta l) - 1 in
  if (gap <? 0) || negb (sg_delta l =? sg_delta r) then Undef
  else Ret (mk_seg (sg_id l) (sg_start l) (sg_delta l) (sg_data l ++ repeat fill (Z.to_nat gap) ++ sg_data r)).
Fixpoint join_all (fill : R) (s : seg) (l : list seg) : outcome seg :=
  match l with [] => Ret s | r :: l' => bind (join fill s r) (fun s' => join_all fill s' l') end.
(** obspy Stream.merge(method=1, fill_value) of the traces of one channel. *)
Definition merge_fill (fill : R) (st : list seg) : outcome seg :=
  match sort_segs st with [] => Undef | s :: l => join_all fill s l end.
(** obspy Trace.trim(..., pad=True, nearest_sample=False, fill_value). *)
Definition pad_trim (fill : R) (w_beg w_end : Z) (s : seg) : seg :=
  let d0 := (sg_start s - w_beg) / sg_delta s in
  let d1 := (w_end - sg_end s) / sg_delta s in
  let l := if 0 <=? d0 then repeat fill (Z.to_nat d0) ++ sg_data s else skipn (Z.to_nat (- d0)) (sg_data s) in
  let r := if 0 <=? d1 then l ++ repeat fill (Z.to_nat d1) else firstn (length l - Z.to_nat (- d1)) l in
  mk_seg (sg_id s) (sg_start s - d0 * sg_delta s) (sg_delta s) r.
(** stalta.py:443-462, for the traces of one channel; [taper] as in line 448. *)
Definition fill_channel (taper : list R -> list R) (fill : R) (secs starttime endtime : Z) (st : list seg) : outcome seg :=
  let e := secs / 100000 in
  bind (merge_fill fill (map (fun s => mk_seg (sg_id s) (sg_start s) (sg_delta s) (taper (sg_data s))) st)) (fun s =>
  Ret (pad_trim fill (starttime - e) (endtime + e) s)).

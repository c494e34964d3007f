(** Model of the locate stage: io/event.py (coalescence time series of one event), the loop and
    the location estimates of signal/scan.py, the archive reads of io/data.py that serve them,
    io/cut_waveforms.py, and lut/lut.py traveltime_to.

    Times are ticks (see Timeline_Model.v). SIMPLIFICATIONS: reals for binary64; scipy's Rbf is a
    parameter; the Gaussian fit (_gaufilt3d, _gaufit3d) is in GauFit_Model.v; plots and log output are not modelled. *)
From Coq Require Import String Ascii.
From Coq Require Import List ZArith Reals Bool.
From Verif Require Import Lib PySlice PyDict Migrate_Model ScanMseed_Model Timeline_Model Lut_Model.
Import ListNotations.
Open Scope Z_scope.

(** * One event *)

(** First position of the largest element: [Series.idxmax] / [np.nanargmax]; both raise
    ValueError on an empty array. *)
Fixpoint argmax_from (i : Z) (best : Z) (bv : R) (l : list R) : Z :=
  match l with
  | [] => best
  | v :: r => if Rlt_dec bv v then argmax_from (i + 1) i v r else argmax_from (i + 1) best bv r
  end.
Definition argmax (l : list R) : outcome Z :=
  match l with [] => Raise ValueError | v :: r => Ret (argmax_from 1 0 v r) end.

(** A row of [coa_data]: DT, COA, COA_NORM and (X, Y, Z). *)
Record coarow : Type := mk_coarow { r_dt : Z; r_coa : R; r_norm : R; r_xyz : vec }.

(** Event: trigger_time, marginal_window, coa_data, map4d (one element per time; the index of
    the time is the last axis of the numpy array) and otime. *)
Record event (M : Type) : Type := mk_event
  { e_trig : Z; e_mw : Z; e_rows : list coarow; e_map : list M; e_otime : Z }.
Arguments mk_event {M}. Arguments e_trig {M}. Arguments e_mw {M}. Arguments e_rows {M}.
Arguments e_map {M}. Arguments e_otime {M}.

(** event.py:228-237, pd.DataFrame of equally long columns (ValueError otherwise). *)
Fixpoint dataframe (dt : list Z) (coa norm : list R) (xyz : list vec) : outcome (list coarow) :=
  match dt, coa, norm, xyz with
  | [], [], [], [] => Ret []
  | t :: dt', a :: coa', b :: norm', p :: xyz' =>
      bind (dataframe dt' coa' norm' xyz') (fun rows => Ret (mk_coarow t a b p :: rows))
  | _, _, _, _ => Raise ValueError
  end.

(** event.py:239-240, 438-439: [otime = coa_data.iloc[coa_data["COA"].idxmax()]["DT"]]. *)
Definition peak (rows : list coarow) : outcome coarow :=
  bind (argmax (map r_coa rows)) (fun i =>
  match rd rows i with Some r => Ret r | None => Raise IndexError end).

(** event.py:203-242 add_compute_output. *)
Definition add_compute_output {M} (trig mw : Z) (times : list Z) (max_coa max_coa_n : list R)
    (coord : list vec) (map4d : list M) : outcome (event M) :=
  bind (dataframe times max_coa max_coa_n coord) (fun rows =>
  bind (peak rows) (fun r => Ret (mk_event trig mw rows map4d (r_dt r)))).

(** event.py:369-396 in_marginal_window. *)
Definition in_marginal_window {M} (e : event M) : bool :=
  (e_otime e - e_mw e <? e_trig e) && (e_trig e <? e_otime e + e_mw e).

(** Rows with their index labels. *)
Definition labelled (rows : list coarow) : list (Z * coarow) :=
  combine (zrange (Z.of_nat (length rows))) rows.

(** event.py:421-439 trim2window. [index[0]] of an empty frame raises IndexError. *)
Definition trim2window {M} (e : event M) : outcome (event M) :=
  let window_start := e_otime e - e_mw e in
  let window_end := e_otime e + e_mw e in
  let kept := filter (fun ir => (window_start <=? r_dt (snd ir)) && (r_dt (snd ir) <=? window_end))
                     (labelled (e_rows e)) in
  match kept with
  | [] => Raise IndexError
  | first :: _ =>
      let map' := pyslice (e_map e) (Some (fst first)) (Some (fst (last kept first))) in
      bind (peak (map snd kept)) (fun r =>
      Ret (mk_event (e_trig e) (e_mw e) (map snd kept) map' (r_dt r)))
  end.

(** event.py:569-576 max_coalescence: DT, COA, COA_NORM. *)
Definition max_coalescence {M} (e : event M) : outcome (Z * R * R) :=
  bind (peak (e_rows e)) (fun r => Ret (r_dt r, r_coa r, r_norm r)).

(** * Waveform data *)

(** A sample of a recording: channel and time. *)
Record sample : Set := mk_sample { s_chan : Z; s_time : Z }.
(** A file of the archive: its samples, or None if ObsPy cannot read it. *)
Definition file : Set := option (list sample).

(** obspy's trim with nearest_sample=True (the default): the bounds are moved to the nearest
    sample, halves away from the start of the trace. *)
Definition trim_from (c : clock) (t : Z) (st : list sample) : list sample :=
  filter (fun s => 2 * (t - s_time s) <? delta c) st.
Definition trim_to (c : clock) (t : Z) (st : list sample) : list sample :=
  filter (fun s => 2 * (s_time s - t) <=? delta c) st.

(** data.py:370-385: [loadstart] runs over the midnights from the date of the start time while
    it is not after the end time; [None] when [fuel] passes did not suffice. *)
Fixpoint load_days (fuel : nat) (c : clock) (loadstart endtime : Z) : option (list Z) :=
  if loadstart <=? endtime then
    match fuel with
    | O => None
    | S fuel' => match load_days fuel' c (loadstart + day c) endtime with
                 | Some ds => Some (loadstart / day c :: ds)
                 | None => None
                 end
    end
  else Some [].

(** data.py:338-387 _load_from_path. [glob d s]: the files of day number [d] for station [s], or
    for all stations. *)
Definition load_from_path (fuel : nat) (c : clock) (glob : Z -> option Z -> list file)
    (read_all_stations : bool) (stations : list Z) (starttime endtime : Z) : option (list file) :=
  match load_days fuel c (starttime - starttime mod day c) endtime with
  | None => None
  | Some ds => Some (flat_map (fun d => if read_all_stations then glob d None
                                        else flat_map (fun s => glob d (Some s)) stations) ds)
  end.

(** data.py:221-336 read_waveform_data: raw waveforms and waveforms for the migration. [prepare]
    stands for shift_to_sample and the station selection. SIMPLIFICATIONS: merge_stream does not
    change the set of samples; sampling rate of [c] for all channels. *)
Definition read_waveform_data (fuel : nat) (c : clock) (glob : Z -> option Z -> list file)
    (read_all_stations : bool) (stations : list Z) (prepare : list sample -> list sample)
    (starttime endtime pre_pad post_pad : Z) : option (outcome (list sample * list sample)) :=
  let pre_pad := Z.max 0 pre_pad in
  let post_pad := Z.max 0 post_pad in
  let read_start := starttime - pre_pad in
  let read_end := endtime + post_pad in
  match load_from_path fuel c glob read_all_stations stations read_start read_end with
  | None => None
  | Some [] => Some (Raise ArchiveEmpty)
  | Some files =>
      let raw := flat_map (fun f => match f with
                            | Some st => trim_to c read_end (trim_from c read_start st)
                            | None => []
                            end) files in
      let st := prepare raw in
      let st := if (pre_pad =? 0) && (post_pad =? 0) then st
                else trim_to c endtime (trim_from c starttime st) in
      match st with [] => Some (Raise DataGapException) | _ => Some (Ret (raw, st)) end
  end.

(** scan.py:650-693 _read_event_waveform_data: the pads passed to read_waveform_data.
    [self_pre], [self_post] are the pads of the scan, [mags] the pads of the amplitude
    measurement (if any), [pre_cut], [post_cut] the requested cuts ([None] or 0: no cut). *)
Definition cut_of (cut : option Z) : option Z :=
  match cut with Some x => if x =? 0 then None else Some x | None => None end.
Definition event_pads (mw self_pre self_post : Z) (mags : option (Z * Z)) (pre_cut post_cut : option Z) : Z * Z :=
  let pads := match mags with Some p => p | None => (0, 0) end in
  let pre := match cut_of pre_cut with Some x => Z.max (fst pads) x | None => fst pads end in
  let post := match cut_of post_cut with Some x => Z.max (snd pads) x | None => snd pads end in
  (Z.max 0 (pre - mw - self_pre), Z.max 0 (post - mw - self_post)).

(** scan.py:497-498, 506: the arguments of read_waveform_data for a triggered event. *)
Definition event_window (trig mw self_pre self_post : Z) (mags : option (Z * Z)) (pre_cut post_cut : option Z)
  : Z * Z * Z * Z :=
  let w := locate_window trig mw self_pre self_post in
  let p := event_pads mw self_pre self_post mags pre_cut post_cut in
  (fst w, snd w, fst p, snd p).

(** cut_waveforms.py:92-105: the raw waveforms of an event, cut around the origin time. *)
Definition cut_raw (c : clock) (otime : Z) (pre_cut post_cut : option Z) (st : list sample) : list sample :=
  let st := match cut_of pre_cut with Some x => trim_from c (otime - x) st | None => st end in
  match cut_of post_cut with Some x => trim_to c (otime + x) st | None => st end.

(** ** Waveforms with the instrument response removed *)

Inductive units : Set := Displacement | Velocity.
Inductive kind : Set := Raw | Real | WoodAnderson.
(** A processed trace: channel, what it is, its units. *)
Record product : Set := mk_product { p_chan : Z; p_kind : kind; p_units : units }.

(** The streams kept by WaveformData (data.py:506-507): [None] until the first append. *)
Record caches : Set := mk_caches { real_waveforms : option (list product); wa_waveforms : option (list product) }.
Definition append (l : option (list product)) (p : product) : option (list product) :=
  match l with Some l => Some (l ++ [p]) | None => Some [p] end.

(** data.py:648-740 get_real_waveform. [responds ch]: the response of the channel is found and
    removed. *)
Definition get_real (responds : Z -> bool) (ch : Z) (u : units) (k : caches) : outcome product * caches :=
  if responds ch
  then let p := mk_product ch Real u in
       (Ret p, mk_caches (append (real_waveforms k) p) (wa_waveforms k))
  else (Raise ResponseNotFound, k).
(** data.py:742-785 get_wa_waveform. *)
Definition get_wa (responds : Z -> bool) (ch : Z) (u : units) (k : caches) : outcome product * caches :=
  match get_real responds ch u k with
  | (Ret q, k') => let p := mk_product (p_chan q) WoodAnderson (p_units q) in
                   (Ret p, mk_caches (real_waveforms k') (append (wa_waveforms k') p))
  | (o, k') => (o, k')
  end.

(** cut_waveforms.py:138-179 get_waveforms over the channels of a stream. *)
Fixpoint get_waveforms (get : Z -> caches -> outcome product * caches) (chans : list Z) (k : caches)
  : outcome (list product) * caches :=
  match chans with
  | [] => (Ret [], k)
  | ch :: r =>
      match get ch k with
      | (Ret p, k') => let (o, k'') := get_waveforms get r k' in (bind o (fun ps => Ret (p :: ps)), k'')
      | (Raise ResponseNotFound, k') => get_waveforms get r k'
      | (Raise ResponseRemoval, k') => get_waveforms get r k'
      | (Raise e, k') => (Raise e, k')
      | (Undef, k') => (Undef, k')
      end
  end.

(** cut_waveforms.py:45-134 write_cut_waveforms for "real" and "wa": the traces written. [cut]:
    whether a pre-cut or a post-cut was requested; [chans]: the channels with data. *)
Definition write_processed (responds : Z -> bool) (what : kind) (u : units) (cut : bool) (chans : list Z)
    (k : caches) : outcome (list product) * caches :=
  let get := match what with Real => fun ch => get_real responds ch u | _ => fun ch => get_wa responds ch u end in
  let cached := match what with Real => real_waveforms k | _ => wa_waveforms k end in
  match cached with
  | Some st => if cut then get_waveforms get chans k else (Ret st, k)
  | None => get_waveforms get chans k
  end.

(** What the magnitude calculation leaves in the caches: amplitude.py:337-342 calls
    get_wa_waveform with displacement units for every trace it measures. *)
Fixpoint measure_amplitudes (responds : Z -> bool) (chans : list Z) (k : caches) : caches :=
  match chans with
  | [] => k
  | ch :: r => measure_amplitudes responds r (snd (get_wa responds ch Displacement k))
  end.

(** * Location estimates *)

(** A map over the grid is a list in C order; [nth] with a default only where the index is in
    range. *)
Definition node_value (m : list R) (i : Z) : R := nth (Z.to_nat i) m 0%R.
Definition c_index (n p : ijk) : Z := let '(nx, ny, nz) := n in let '(i, j, k) := p in (i * ny + j) * nz + k.

(** scan.py:719 [np.sum(event.map4d, axis=-1)] for [nn] nodes. *)
Definition marginalise (nn : Z) (map4d : list (list R)) : list R :=
  map (fun node => fold_left Rplus (map (fun m => node_value m node) map4d) 0%R) (zrange nn).
(** scan.py:720 [coa_map / np.nanmax(coa_map)]. A map of zeros becomes NaN everywhere, on which
    np.nanargmax (scan.py:763) raises ValueError. *)
Definition normalise (m : list R) : outcome (list R) :=
  match m with
  | [] => Raise ValueError
  | v :: r => let top := fold_left Rmax r v in
              if Req_EM_T top 0 then Raise ValueError else Ret (map (fun x => (x / top)%R) m)
  end.

(** Real grid indices to grid coordinates and coordinates (lut.py:173-175, 240-241). *)
Definition frac2grid (g : grid) (v : vec) : vec :=
  vmap2 Rplus (g_ll g) (vmap2 Rmult v (g_spacing g)).
Definition frac2coord (transform : Z -> Z -> vec -> vec) (g : grid) (v : vec) : vec :=
  coord2grid transform (g_gproj g) (g_cproj g) true (frac2grid g v).

(** np.linspace(0, stop, num), element [i]. *)
Definition linspace (stop : R) (num i : Z) : R :=
  if num =? 1 then 0%R else (IZR i * (stop / IZR (num - 1)))%R.

(** np.meshgrid(x, y, z) (indexing "xy") flattened, for axes of [n] points each given by [f]. *)
Definition meshgrid_xy (n : Z) (f : Z -> R) : list vec :=
  flat_map (fun j => flat_map (fun i => map (fun k => (f i, f j, f k)) (zrange n)) (zrange n)) (zrange n).

(** Flattened sub-array [m[x1:x1+s, y1:y1+s, z1:z1+s]]. *)
Definition sub_cube (n : ijk) (m : list R) (lo : ijk) (s : Z) : list R :=
  let '(x1, y1, z1) := lo in
  flat_map (fun a => flat_map (fun b => map (fun c => node_value m (c_index n (x1 + a, y1 + b, z1 + c)))
    (zrange s)) (zrange s)) (zrange s).

Definition np_clip (x lo hi : Z) : Z := Z.min (Z.max x lo) hi.

(** scan.py:736-841 _splineloc up to the final index2coord: grid indices of the location.
    [rbf points values q] is scipy's Rbf(...)(q). *)
Definition splineloc (rbf : list vec -> list R -> vec -> R) (n : ijk) (coa_map : list R) (win upscale : Z)
  : outcome vec :=
  bind (argmax coa_map) (fun am =>
  bind (unravel_index am n) (fun '(mx, my, mz) =>
  let '(nx, ny, nz) := n in
  let w2 := (win - 1) / 2 in
  let x1 := np_clip (mx - w2) 0 nx in let y1 := np_clip (my - w2) 0 ny in let z1 := np_clip (mz - w2) 0 nz in
  let x2 := np_clip (mx + w2 + 1) 0 nx in let y2 := np_clip (my + w2 + 1) 0 ny in
  let z2 := np_clip (mz + w2 + 1) 0 nz in
  if (x2 - x1 =? y2 - y1) && (y2 - y1 =? z2 - z1) then
    let s := x2 - x1 in
    let trim := sub_cube n coa_map (x1, y1, z1) s in
    let interp := rbf (meshgrid_xy s (linspace (IZR (s - 1)) s)) trim in
    let s' := (s - 1) * upscale + 1 in
    let fine := map interp (meshgrid_xy s' (linspace (IZR (s - 1)) s')) in
    bind (argmax fine) (fun fm =>
    bind (unravel_index fm (s', s', s')) (fun '(a, b, c) =>
    let mxi := (IZR a / IZR upscale + IZR x1)%R in
    let myi := (IZR b / IZR upscale + IZR y1)%R in
    let mzi := (IZR c / IZR upscale + IZR z1)%R in
    if (if Rlt_dec (IZR w2) (Rabs (IZR mx - mxi)) then true else false)
       || (if Rlt_dec (IZR w2) (Rabs (IZR my - myi)) then true else false)
       || (if Rlt_dec (IZR w2) (Rabs (IZR mz - mzi)) then true else false)
    then Ret (IZR mx, IZR my, IZR mz)
    else Ret (mxi, myi, mzi)))
  else Ret (IZR mx, IZR my, IZR mz))).

(** np.nansum over the products of weights (None: NaN) and values. *)
Fixpoint nansum (sw : list (option R)) (s : list R) : R :=
  match sw, s with
  | Some w :: sw', x :: s' => (w * x + nansum sw' s')%R
  | None :: sw', _ :: s' => nansum sw' s'
  | _, _ => 0%R
  end.

(** scan.py:978-981: np.meshgrid(..., indexing="ij"), flattened, times the spacing. *)
Definition node_offsets (g : grid) : list vec :=
  let '(nx, ny, nz) := g_count g in
  map (fun p => vmap2 (fun i s => (IZR i * s)%R) p (g_spacing g))
    (flat_map (fun i => flat_map (fun j => map (fun k => (i, j, k)) (zrange nz)) (zrange ny)) (zrange nx)).

Definition vx (v : vec) : R := fst (fst v).
Definition vy (v : vec) : R := snd (fst v).
Definition vz (v : vec) : R := snd v.
Definition matrix : Set := (vec * vec * vec)%type.

(** scan.py:939-1005 _covfit3d (default arguments: no window): grid coordinates of the location,
    covariance matrix, uncertainty. [None]: no weight above the threshold, everything is NaN. *)
Definition covfit3d (g : grid) (thresh : R) (coa_map : list R) : option (vec * matrix * vec) :=
  let sw := map (fun v => if Rlt_dec thresh v then Some v else None) coa_map in
  let ssw := nansum sw (map (fun _ => 1%R) coa_map) in
  let pts := node_offsets g in
  if Req_EM_T ssw 0 then None else
  let mean (f : vec -> R) := (nansum sw (map f pts) / ssw)%R in
  let xe := mean vx in let ye := mean vy in let ze := mean vz in
  let cov f fe h he := mean (fun p => ((f p - fe) * (h p - he))%R) in
  let c00 := cov vx xe vx xe in let c11 := cov vy ye vy ye in let c22 := cov vz ze vz ze in
  let c01 := cov vx xe vy ye in let c02 := cov vx xe vz ze in let c12 := cov vy ye vz ze in
  Some (vmap2 Rplus (g_ll g) (xe, ye, ze),
        ((c00, c01, c02), (c01, c11, c12), (c02, c12, c22)),
        (sqrt (Rabs c00), sqrt (Rabs c11), sqrt (Rabs c22))).

(** scan.py:696-733 _calculate_location (spline and covariance estimates) for a map with
    [win = 5], [upscale = 10], [thresh = 0.9]. *)
Definition calculate_location (rbf : list vec -> list R -> vec -> R) (g : grid) (map4d : list (list R))
  : outcome (vec * option (vec * matrix * vec)) :=
  let '(nx, ny, nz) := g_count g in
  bind (normalise (marginalise (nx * ny * nz) map4d)) (fun coa_map =>
  bind (splineloc rbf (g_count g) coa_map 5 10) (fun loc =>
  Ret (loc, covfit3d g (9 / 10) coa_map))).

(** * Traveltimes to a location *)

(** scipy's RegularGridInterpolator (linear; fill_value None extrapolates from the outermost
    cell), one axis with [n] >= 2 points 0 .. n-1: lower node of the cell and distance. *)
Definition cell (n : Z) (x : R) : Z := Z.max 0 (Z.min (n - 2) (Int_part x)).
(** lut.py:540-574 traveltime_to for one station and phase: trilinear interpolation in the table
    of shape [n], given as a flat list. *)
Definition traveltime_to (n : ijk) (t : list R) (v : vec) : R :=
  let '(nx, ny, nz) := n in let '(x, y, z) := v in
  let i := cell nx x in let j := cell ny y in let k := cell nz z in
  let a := (x - IZR i)%R in let b := (y - IZR j)%R in let c := (z - IZR k)%R in
  let f p q r := node_value t (c_index n (i + p, j + q, k + r)) in
  let f000 := f 0 0 0 in let f001 := f 0 0 1 in let f010 := f 0 1 0 in let f011 := f 0 1 1 in
  let f100 := f 1 0 0 in let f101 := f 1 0 1 in let f110 := f 1 1 0 in let f111 := f 1 1 1 in
  (f000 * (1 - a) * (1 - b) * (1 - c) + f001 * (1 - a) * (1 - b) * c
   + f010 * (1 - a) * b * (1 - c) + f011 * (1 - a) * b * c
   + f100 * a * (1 - b) * (1 - c) + f101 * a * (1 - b) * c
   + f110 * a * b * (1 - c) + f111 * a * b * c)%R.

(** gaussian.py:151, 173 and amplitude.py:262-265: the grid indices of the hypocentre
    ([index2coord(..., inverse=True)] rounds to the nearest node), then traveltime_to. *)
Definition arrival_traveltime (transform : Z -> Z -> vec -> vec) (g : grid) (t : list R) (hypocentre : vec) : R :=
  let '(i, j, k) := coord2index transform g hypocentre in
  traveltime_to (g_count g) t (IZR i, IZR j, IZR k).

(** * The locate stage *)

(** scan.py:374-383 locate: the checks of the arguments. [utc x] is UTCDateTime(x), [None] the
    argument None. *)
Definition locate_args {S} (utc : option S -> outcome Z) (starttime endtime : option S) (trigger_file : bool)
  : outcome (option (Z * Z)) :=
  match starttime, endtime with
  | None, None => if trigger_file then Ret None else Raise RuntimeError
  | _, _ =>
      bind (utc starttime) (fun s =>
      bind (utc endtime) (fun e =>
      if e <? s then Raise TimeSpan
      else (* neither is None any more: the two checks that follow cannot raise *) Ret (Some (s, e))))
  end.

(** scan.py:495-591, body of the loop of _locate_events for one triggered event: read, compute,
    keep or drop, then locate, pick and write. [None]: nothing written. *)
Definition locate_one {D M W} (read : Z -> Z -> Z -> Z -> outcome D) (compute : D -> Z -> outcome (event M))
    (finish : event M -> outcome W) (mw self_pre self_post : Z) (mags : option (Z * Z))
    (pre_cut post_cut : option Z) (trig : Z) : outcome (option W) :=
  let '(b, e, p, q) := event_window trig mw self_pre self_post mags pre_cut post_cut in
  match bind (read b e p q) (fun d => compute d trig) with
  | Raise ArchiveEmpty | Raise DataGapException | Raise DataAvailabilityException => Ret None
  | Raise x => Raise x
  | Undef => Undef
  | Ret ev =>
      if in_marginal_window ev
      then bind (trim2window ev) (fun ev' => bind (finish ev') (fun w => Ret (Some w)))
      else Ret None
  end.

(** scan.py:495-591: the loop; event.write creates one file per event identifier. The run stops
    at the first exception that is not caught; the files written before remain. *)
Fixpoint locate_loop {W} (one : Z -> outcome (option W)) (events : list (string * Z)) (files : dict W)
  : dict W * option exn :=
  match events with
  | [] => (files, None)
  | (uid, trig) :: r =>
      match one trig with
      | Ret (Some w) => locate_loop one r (dset files uid w)
      | Ret None => locate_loop one r files
      | Raise x => (files, Some x)
      | Undef => (files, None)
      end
  end.

(** Model of the event files (io/event.py write), of the pick files (signal/pickers/base.py write) and
    of their export: export/to_obspy.py and export/to_mfast.py.

    A file is the table it holds. A time is a number of microseconds.

    SIMPLIFICATIONS: reals for binary64, with NaN and infinities where the code tests for NaN; times
    survive the csv files (they are written to the microsecond); the namespace, the creation info and
    the evaluation mode of the catalogue are left out; an obspy object is the record of its
    attributes; obspy's selection of traces by station and by the last letter of the channel is that
    of its documentation; gps2dist_azimuth is a parameter. *)
From Coq Require Import String Ascii.
From Coq Require Import List ZArith Reals Bool.
From Verif Require Import Lib PyDict Migrate_Model ScanMseed_Model Lut_Model Mag_Model Export_Model.
Import ListNotations.
Open Scope Z_scope.

(** * Rounding *)

(** The exponent of np.format_float_scientific(x), x not zero. *)
Definition exponent10 (x : R) : Z := Int_part (ln (Rabs x) / ln 10).
(** numpy and pandas round(decimals). *)
Definition round_to (decimals : Z) (x : R) : R := (IZR (np_round (x * powerRZ 10 decimals)) / powerRZ 10 decimals)%R.
(** The number written by f"{x:.{n}g}". *)
Definition sig (n : Z) (x : R) : R := if Req_EM_T x 0 then 0%R else round_to (n - 1 - exponent10 x) x.
(** [.map(..., na_action="ignore")] *)
Definition sig_ext (n : Z) (x : ext) : ext := match x with Fin r => Fin (sig n r) | _ => x end.
(** lut.py:338-349 precision *)
Definition precision (transform : Z -> Z -> vec -> vec) (g : grid) : ijk :=
  let '(a, b, c) := vmap2 Rminus (index2coord transform g (0, 0, 0)) (index2coord transform g (1, 1, 1)) in
  (- exponent10 a, - exponent10 b, - exponent10 c).

(** * Event files *)

(** What the Event object holds when it is written: uid, otime, locations (spline, Gaussian with
    uncertainty, covariance uncertainty), COA, COA_NORM, the trigger's TRIG_COA, DEC_COA, DEC_COA_NORM, and
    ML, ML_Err, ML_r2 if they were computed. *)
Record located : Type := mk_located {
  l_uid : string; l_otime : Z; l_spline : vec; l_gau : vec; l_gau_err : vec; l_cov_err : vec;
  l_coa : R; l_coa_norm : R; l_trig : ext * ext * ext; l_ml : option (ext * ext * ext) }.
(** The row of a .event file (COV_Err_XYZ is left out). *)
Record event_row : Type := mk_event_row {
  e_uid : string; e_dt : Z; e_xyz : vec; e_gau : vec; e_gau_err : vec; e_cov_err : vec;
  e_coa : R; e_coa_norm : R; e_trig : ext * ext * ext; e_ml : option (ext * ext * ext) }.
Definition map3 {A B} (f : A -> B) (t : A * A * A) : B * B * B := let '(a, b, c) := t in (f a, f b, f c).
(** event.py:486-497: the number of decimals of longitude and latitude, and of depth and uncertainties. *)
Definition xy_decimals (p : Z) : Z := Z.max (p + 2) 6.
Definition z_decimals (km : bool) (p : Z) : Z := Z.max (p + 2) (0 + if km then 3 else 0).
(** event.py:441-508 Event.write; [prec]: lut.precision, [km]: lut.unit_name is "km". *)
Definition write_event (prec : ijk) (km : bool) (e : located) : event_row :=
  let '(px, py, pz) := prec in
  let dz := z_decimals km pz in
  let coords v := let '(x, y, z) := v in (round_to (xy_decimals px) x, round_to (xy_decimals py) y, round_to dz z) in
  mk_event_row (l_uid e) (l_otime e) (coords (l_spline e)) (coords (l_gau e)) (map3 (round_to dz) (l_gau_err e)) (map3 (round_to dz) (l_cov_err e))
    (sig 4 (l_coa e)) (sig 4 (l_coa_norm e)) (map3 (sig_ext 4) (l_trig e)) (option_map (map3 (sig_ext 3)) (l_ml e)).

(** * Pick files *)

(** A row of the pick table and of the .picks file; a failed pick (-1 in all columns) is None. *)
Record pick_row : Type := mk_pick_row { r_station : string; r_phase : string; r_model : Z; r_pick : option (Z * R * R) }.
(** pickers/base.py:56-89 write *)
Definition write_picks (rows : list pick_row) : list pick_row :=
  map (fun r => mk_pick_row (r_station r) (r_phase r) (r_model r)
                  (option_map (fun p => let '(t, err, snr) := p in (t, sig 3 err, sig 3 snr)) (r_pick r))) rows.

(** * Amplitude files *)

(** Amplitude, frequency and time of one phase on one channel. *)
Record phase_amp : Type := mk_phase_amp { a_amp : ext; a_freq : ext; a_time : Z }.
(** A row of the .amps file; [am_ml]: ML and ML_Err, None if the file has no such columns. *)
Record amp_row : Type := mk_amp_row { am_id : string; am_noise : ext; am_p : phase_amp; am_s : phase_amp; am_ml : option (ext * ext) }.

(** * The catalogue *)

Record origin : Type := mk_origin {
  or_method : string; or_lon : R; or_lat : R; or_depth : R; or_time : Z; or_lon_err : R; or_lat_err : R; or_depth_err : R;
  or_major : R; or_intermediate : R; or_minor : R; or_azimuth : R; or_plunge : R }.
Record amplitude : Type := mk_amplitude { ap_id : string; ap_phase : string; ap_amp : ext; ap_err : ext; ap_period : ext; ap_time : Z }.
Record station_mag : Type := mk_station_mag { sm_id : string; sm_mag : ext; sm_err : ext }.
Record magnitude : Type := mk_magnitude { mg_mag : ext; mg_err : ext; mg_r2 : ext; mg_count : Z }.
Record cat_event : Type := mk_cat_event {
  c_id : string; c_coa : R; c_coa_norm : R; c_trig : ext * ext * ext; c_waveforms : string;
  c_origins : list origin; c_picks : list pick; c_amps : list amplitude; c_station_mags : list station_mag; c_mag : option magnitude }.

(** obspy.geodetics.kilometer2degrees with the radius 6371 km. *)
Definition km2deg (km : R) : R := (km / (2 * 6371 * PI / 360))%R.
(** to_obspy.py:123-129 *)
Definition unit_factor (units : string) : outcome R :=
  if String.eqb units "km" then Ret 1000%R else if String.eqb units "m" then Ret 1%R else Raise AttributeError.
(** to_obspy.py:167-214: the two origins. *)
Definition origin_of (factor : R) (row : event_row) (method : string) (xyz : vec) : origin :=
  let '(x, y, z) := xyz in let '(gx, gy, gz) := e_gau_err row in let '(cx, cy, cz) := e_cov_err row in
  mk_origin method x y (z * factor) (e_dt row) (km2deg (gx * factor / 1000)) (km2deg (gy * factor / 1000)) (gz * factor)
    (cy * factor) (cx * factor) (cz * factor) 0 0.
Definition origins (factor : R) (row : event_row) : list origin :=
  [origin_of factor row "spline" (e_xyz row); origin_of factor row "gaussian" (e_gau row)].
(** to_obspy.py:223-244: the picks of one row. *)
Definition picks_of_row (r : pick_row) : list pick :=
  let base m t u := mk_pick m "" (r_station r) "" "" "" (r_phase r) t u None None in
  base "modelled"%string (r_model r) None
  :: match r_pick r with Some (t, err, _) => [base "autopick"%string t (Some err)] | None => [] end.
(** to_obspy.py:251-306: the amplitudes and the station magnitudes of one row. *)
Definition milli (x : ext) : ext := ediv x (Fin 1000).
Definition amps_of_row (r : amp_row) : list amplitude :=
  flat_map (fun np => let '(name, a) := np in
    if is_nan (a_amp a) then []
    else [mk_amplitude (am_id r) name (milli (a_amp a)) (milli (am_noise r)) (ediv (Fin 1) (a_freq a)) (a_time a)])
    [("P_amp", am_p r); ("S_amp", am_s r)]%string.
Definition mags_of_row (ph : string) (r : amp_row) : outcome (list station_mag) :=
  let a := if String.eqb ph "P" then am_p r else am_s r in
  if (String.eqb ph "P" || String.eqb ph "S") && negb (is_nan (a_amp a)) then
    match am_ml r with
    | None => Raise KeyError
    | Some (ml, err) => if is_nan ml then Ret [] else Ret [mk_station_mag (am_id r) ml err]
    end
  else Ret [].
Fixpoint mags_of_rows (ph : string) (rows : list amp_row) : outcome (list station_mag) :=
  match rows with
  | [] => Ret []
  | r :: rest => bind (mags_of_row ph r) (fun m => bind (mags_of_rows ph rest) (fun ms => Ret (m ++ ms)))
  end.
(** The files of a run: [rf_events]: the .event files by name in the order of the directory, None if the
    directory does not exist. *)
Record run_files : Type := mk_run_files {
  rf_events : option (list (string * event_row)); rf_picks : dict (list pick_row); rf_amps : dict (list amp_row) }.
(** to_obspy.py:148-152: the name given for the cut waveforms, whatever was written. *)
Definition waveform_file (uid : string) : string := ("raw_cut_waveforms/" ++ uid ++ ".m")%string.
(** cut_waveforms.py:87-89, 199-212 write_waveforms: the name of the file that is written. *)
Definition waveform_suffix (file_format : string) : string :=
  if String.eqb file_format "MSEED" then ".m" else if String.eqb file_format "SAC" then ".sac"
  else if String.eqb file_format "SEGY" then ".segy" else if String.eqb file_format "GSE2" then ".gse2" else ".waveforms".
Definition written_waveforms (waveform_type uid file_format : string) : string :=
  (waveform_type ++ "_cut_waveforms/" ++ uid ++ waveform_suffix file_format)%string.
(** to_obspy.py:91-322 _read_single_event; None: no event is returned. *)
Definition read_single_event (rf : run_files) (units ph : string) (row : event_row) : outcome (option cat_event) :=
  bind (unit_factor units) (fun factor =>
  match dget (rf_picks rf) (e_uid row) with
  | None => Ret None
  | Some picks =>
      let ev amps sm mag := mk_cat_event (e_uid row) (e_coa row) (e_coa_norm row) (e_trig row) (waveform_file (e_uid row)) (origins factor row)
                              (flat_map picks_of_row picks) amps sm mag in
      match dget (rf_amps rf) (e_uid row) with
      | None => Ret (Some (ev [] [] None))
      | Some amps =>
          bind (mags_of_rows ph amps) (fun sm =>
          match e_ml row with
          | None => Raise KeyError
          | Some (ml, err, r2) => Ret (Some (ev (flat_map amps_of_row amps) sm (Some (mk_magnitude ml err r2 (Z.of_nat (length sm))))))
          end)
      end
  end).
Fixpoint read_events (rf : run_files) (units ph : string) (rows : list event_row) : outcome (list cat_event) :=
  match rows with
  | [] => Ret []
  | r :: rest => bind (read_single_event rf units ph r) (fun e => bind (read_events rf units ph rest) (fun es =>
                 Ret (match e with Some c => c :: es | None => es end)))
  end.
(** to_obspy.py:42-88 read_quakemigrate: [event_files] is not assigned if the directory does not exist. *)
Definition read_quakemigrate (rf : run_files) (units ph : string) : outcome (list cat_event) :=
  match rf_events rf with
  | None => Raise NameError
  | Some rows => read_events rf units ph (map snd rows)
  end.

(** * SAC files for MFAST *)

(** A trace: station, channel, starttime. *)
Record trace : Type := mk_trace { t_station : string; t_channel : string; t_start : Z }.
(** The header of a SAC file; times are relative to the start of the file (obspy writes the start of the
    trace as reference time). [s_a]: None if not set. *)
Record sac : Type := mk_sac {
  s_station : string; s_comp : string; s_start : Z; s_evla : R; s_evlo : R; s_evdp : R; s_stla : R; s_stlo : R; s_stel : R;
  s_dist : R; s_az : R; s_o : Z; s_a : option Z; s_t0 : Z }.
(** [stream.select(channel="*Z")] *)
Fixpoint ends_with (s : string) (c : ascii) : bool :=
  match s with EmptyString => false | String a EmptyString => Ascii.eqb a c | String _ r => ends_with r c end.
(** to_mfast.py:95-101: the times of the picks relative to [ref]; zero if there is none. *)
Definition pick_time (phase : string) (picks : list pick) (ref : Z) : Z :=
  fold_left (fun acc p => if String.eqb (pk_phase p) phase then pk_time p - ref else acc) picks 0.
Section Mfast.
Variable gps2dist_azimuth : R -> R -> R -> R -> R * R.
(** to_mfast.py:71-138, one station: [evt]: latitude, longitude, depth in metres, time of the preferred origin. *)
Definition sac_station (evla evlo evdepth : R) (otime : Z) (picks : list pick) (stream : list trace) (factor : R) (s : station) : outcome (list sac) :=
  let st := filter (fun t => String.eqb (t_station t) (st_name s)) stream in
  let '(dist, az) := gps2dist_azimuth evla evlo (st_lat s) (st_lon s) in
  let mine := filter (fun p => String.eqb (pk_station p) (st_name s)) picks in
  match mine with
  | [] => Ret []
  | _ =>
      match st with
      | [] => Raise IndexError
      | t :: _ =>
          let ref := t_start t in
          let p_pick := pick_time "P" mine ref in let s_pick := pick_time "S" mine ref in
          if s_pick =? 0 then Ret []
          else (fix comps l := match l with
                | [] => Ret []
                | (c, name) :: r =>
                    match filter (fun t => ends_with (t_channel t) c) st with
                    | [] => Raise IndexError
                    | tr :: _ => bind (comps r) (fun rest =>
                        Ret (mk_sac (st_name s) name (t_start tr) evla evlo (evdepth / 1000) (st_lat s) (st_lon s) (st_elev s / factor)
                               (dist / 1000) az (otime - ref) (if p_pick =? 0 then None else Some p_pick) s_pick :: rest))
                    end
                end) [("Z"%char, "z"%string); ("N"%char, "n"%string); ("E"%char, "e"%string)]
      end
  end.
(** to_mfast.py:25-138 sac_mfast; the preferred origin is the first one. *)
Definition sac_factor (units : string) : outcome R :=
  if String.eqb units "km" then Ret 1%R else if String.eqb units "m" then Ret 1000%R else Raise AttributeError.
Fixpoint sac_stations (o : origin) (picks : list pick) (stream : list trace) (factor : R) (ss : list station) : outcome (list sac) :=
  match ss with
  | [] => Ret []
  | s :: r => bind (sac_station (or_lat o) (or_lon o) (or_depth o) (or_time o) picks stream factor s) (fun a =>
              bind (sac_stations o picks stream factor r) (fun b => Ret (a ++ b)))
  end.
Definition sac_mfast (ev : cat_event) (stations : list station) (stream : list trace) (units : string) : outcome (list sac) :=
  match c_origins ev with
  | [] => Raise AttributeError
  | o :: _ => bind (sac_factor units) (fun factor => sac_stations o (c_picks ev) stream factor stations)
  end.
End Mfast.

(** Model of the Event object and of its file: io/event.py.

    The object is what the methods have stored in it; the file is the list of its columns and values. Waveforms, the
    4-D map, onsets and picks, which have no part in the file, are left out. SIMPLIFICATIONS: reals for binary64;
    times are microseconds; a text of a number is the number it shows. *)
From Coq Require Import String Ascii.
From Coq Require Import List ZArith Reals Bool.
From Verif Require Import Lib PyDict Lut_Model Mag_Model Catalogue_Model.
Import ListNotations.
Open Scope Z_scope.

Inductive val : Type := VStr (s : string) | VTime (t : Z) | VNum (x : ext) | VInt (n : Z).

(** The attributes: uid and trigger_info (None if there was no triggered event), the rows DT, COA, COA_NORM of coa_data,
    otime, locations and localmag. *)
Record event : Type := mk_event
  { v_trig : option (val * dict val); v_coa : option (list (Z * R * R)); v_otime : option Z; v_loc : dict (dict val); v_mag : dict val }.

(** [event_data[key]] of a pandas Series *)
Definition item (d : dict val) (k : string) : outcome val := match dget d k with Some v => Ret v | None => Raise KeyError end.
(** try: ... except KeyError: ... *)
Definition except_key {A} (o other : outcome A) : outcome A := match o with Raise KeyError => other | _ => o end.

(** event.py:576-611 _parse_triggered_event *)
Definition trigger_columns (coa_v : string) (d : dict val) : outcome (dict val) :=
  bind (item d coa_v) (fun a => bind (item d "COA") (fun b => bind (item d "COA_NORM") (fun c =>
  Ret [("TRIG_COA"%string, a); ("DEC_COA"%string, b); ("DEC_COA_NORM"%string, c)]))).
Definition parse_triggered_event (d : dict val) : outcome (dict val) :=
  except_key (trigger_columns "TRIG_COA" d) (except_key (trigger_columns "COA_V" d)
    (bind (item d "COA_V") (fun a => Ret [("TRIG_COA"%string, a); ("DEC_COA"%string, VNum NaN); ("DEC_COA_NORM"%string, VNum NaN)]))).

(** event.py:167-185 __init__ *)
Definition event_init (triggered : option (dict val)) : outcome event :=
  match triggered with
  | None => Ret (mk_event None None None [] [])
  | Some d => bind (item d "EventID") (fun uid => bind (item d "CoaTime") (fun _ => bind (parse_triggered_event d) (fun info =>
              Ret (mk_event (Some (uid, info)) None None [] []))))
  end.

(** [idxmax]: the first of the largest. *)
Fixpoint best_row (best : Z * R * R) (rows : list (Z * R * R)) : Z * R * R :=
  match rows with
  | [] => best
  | r :: rest => best_row (if Rlt_dec (snd (fst best)) (snd (fst r)) then r else best) rest
  end.
Definition row_of_max (rows : list (Z * R * R)) : outcome (Z * R * R) :=
  match rows with [] => Raise ValueError | r :: rest => Ret (best_row r rest) end.

(** [np.power(x, 1 / 3)] *)
Definition cube_root (x : ext) : ext :=
  match x with
  | Fin r => if Rlt_dec 0 r then Fin (Rpower r (1 / 3)) else if Rlt_dec r 0 then NaN else Fin 0
  | PInf => PInf
  | _ => NaN
  end.

(** Calls of the methods that store results. *)
Inductive op : Type :=
  | AddCompute (rows : list (Z * R * R))
  | AddCovariance (xyz unc : ext * ext * ext)
  | AddGaussian (xyz unc : ext * ext * ext)
  | AddSpline (xyz : ext * ext * ext)
  | AddMagnitude (mag err r2 : ext)
  | Trim (marginal_window : Z).

Definition three (a b c : string) (v : ext * ext * ext) : dict val :=
  let '(x, y, z) := v in [(a, VNum x); (b, VNum y); (c, VNum z)].
Definition coords : ext * ext * ext -> dict val := three "X" "Y" "Z".
Definition errors : ext * ext * ext -> dict val := three "ErrX" "ErrY" "ErrZ".

(** event.py:203-242 add_compute_output (otime), 244-270 add_covariance_location, 272-294 add_gaussian_location,
    296-308 add_spline_location, 344-367 add_local_magnitude, 421-439 trim2window ([index[0]] of no rows raises) *)
Definition apply_op (e : event) (o : op) : outcome event :=
  match o with
  | AddCompute rows => bind (row_of_max rows) (fun r => Ret (mk_event (v_trig e) (Some rows) (Some (fst (fst r))) (v_loc e) (v_mag e)))
  | AddCovariance xyz unc =>
      let '(a, b, c) := unc in
      let err := cube_root (emul (emul a b) c) in
      Ret (mk_event (v_trig e) (v_coa e) (v_otime e) (dset (v_loc e) "covariance" (coords xyz ++ errors unc ++ [("Err_XYZ"%string, VNum err)])) (v_mag e))
  | AddGaussian xyz unc => Ret (mk_event (v_trig e) (v_coa e) (v_otime e) (dset (v_loc e) "gaussian" (coords xyz ++ errors unc)) (v_mag e))
  | AddSpline xyz => Ret (mk_event (v_trig e) (v_coa e) (v_otime e) (dset (v_loc e) "spline" (coords xyz)) (v_mag e))
  | AddMagnitude m err r2 =>
      Ret (mk_event (v_trig e) (v_coa e) (v_otime e) (v_loc e)
             (dset (dset (dset (v_mag e) "ML" (VNum m)) "ML_Err" (VNum err)) "ML_r2" (VNum r2)))
  | Trim w =>
      match v_otime e, v_coa e with
      | Some t, Some rows =>
          match filter (fun r => (t - w <=? fst (fst r)) && (fst (fst r) <=? t + w)) rows with
          | [] => Raise IndexError
          | kept => bind (row_of_max kept) (fun r => Ret (mk_event (v_trig e) (Some kept) (Some (fst (fst r))) (v_loc e) (v_mag e)))
          end
      | _, _ => Raise TypeError
      end
  end.
Fixpoint apply_ops (e : event) (ops : list op) : outcome event :=
  match ops with [] => Ret e | o :: r => bind (apply_op e o) (fun e' => apply_ops e' r) end.

(** event.py:510-531 get_hypocentre, 535-556 get_loc_uncertainty *)
Definition location_items (ks : list string) (e : event) (method : string) : outcome (list val) :=
  match dget (v_loc e) method with
  | None => Raise KeyError
  | Some loc => fold_right (fun k o => bind (item loc k) (fun v => bind o (fun l => Ret (v :: l)))) (Ret []) ks
  end.
Definition get_hypocentre : event -> string -> outcome (list val) := location_items ["X"; "Y"; "Z"]%string.
Definition get_loc_uncertainty : event -> string -> outcome (list val) := location_items ["ErrX"; "ErrY"; "ErrZ"]%string.
(** event.py:560-567 local_magnitude *)
Definition local_magnitude (e : event) : option (list val) := match v_mag e with [] => None | d => Some (values d) end.
(** event.py:569-574 max_coalescence *)
Definition max_coalescence (e : event) : outcome (dict val) :=
  match v_coa e with
  | None => Raise TypeError
  | Some rows => bind (row_of_max rows) (fun r => let '(t, c, n) := r in
                 Ret [("DT"%string, VTime t); ("COA"%string, VNum (Fin c)); ("COA_NORM"%string, VNum (Fin n))])
  end.

(** event.py:22-43 EVENT_FILE_COLS *)
Definition event_file_cols : list string :=
  ["EventID"; "DT"; "X"; "Y"; "Z"; "COA"; "COA_NORM"; "GAU_X"; "GAU_Y"; "GAU_Z"; "GAU_ErrX"; "GAU_ErrY"; "GAU_ErrZ";
   "COV_ErrX"; "COV_ErrY"; "COV_ErrZ"; "COV_Err_XYZ"; "TRIG_COA"; "DEC_COA"; "DEC_COA_NORM"]%string.
Definition mag_cols : list string := ["ML"; "ML_Err"; "ML_r2"]%string.

Definition prefixed (p : string) (d : dict val) : dict val := map (fun kv => (append p (fst kv), snd kv)) d.
(** [pd.DataFrame([out])[cols]] *)
Fixpoint select (d : dict val) (cols : list string) : outcome (dict val) :=
  match cols with
  | [] => Ret []
  | c :: r => bind (item d c) (fun v => bind (select d r) (fun l => Ret ((c, v) :: l)))
  end.

(** Columns that are changed, those chosen by [P]. *)
Fixpoint map_cols (P : string -> bool) (f : val -> outcome val) (d : dict val) : outcome (dict val) :=
  match d with
  | [] => Ret []
  | (k, v) :: r => bind (if P k then f v else Ret v) (fun v' => bind (map_cols P f r) (fun r' => Ret ((k, v') :: r')))
  end.
(** f"{x:.ng}" of the numbers that are not null *)
Definition significant (n : Z) (v : val) : outcome val :=
  match v with VNum x => Ret (VNum (sig_ext n x)) | VInt i => Ret (VNum (Fin (sig n (IZR i)))) | _ => Raise ValueError end.
(** Truncation; pandas refuses NaN and infinities. *)
Definition astype_int (x : ext) : outcome val :=
  match x with
  | Fin r => Ret (VInt (if Rlt_dec r 0 then - Int_part (- r) else Int_part r))
  | _ => Raise ValueError
  end.
Definition round_ext (decimals : Z) (x : ext) : ext := match x with Fin r => Fin (round_to decimals r) | _ => x end.
(** event.py:498-501 *)
Definition round_col (decimals : Z) (v : val) : outcome val :=
  match v with
  | VNum x => if decimals <=? 0 then astype_int (round_ext decimals x) else Ret (VNum (round_ext decimals x))
  | _ => Raise TypeError
  end.
Definition is_in (l : list string) (k : string) : bool := existsb (String.eqb k) l.
(** The regular expression Err[X,Y,Z] *)
Definition err_col (k : string) : bool := contains "ErrX" k || contains "Err," k || contains "ErrY" k || contains "ErrZ" k.

(** event.py:441-508 write; [prec]: lut.precision, [km]: lut.unit_name is "km" *)
Definition write_file (prec : Z * Z * Z) (km : bool) (e : event) : outcome (dict val) :=
  match v_trig e with
  | None => Raise AttributeError
  | Some (uid, info) =>
      let out := dupdate (dupdate [("EventID"%string, uid)] info) (v_mag e) in
      bind (max_coalescence e) (fun mc =>
      let out := dupdate out mc in
      match dget (v_loc e) "spline" with None => Raise KeyError | Some loc =>
      match dget (v_loc e) "gaussian" with None => Raise KeyError | Some gau =>
      match dget (v_loc e) "covariance" with None => Raise KeyError | Some cov =>
        let out := dupdate (dupdate (dupdate out loc) (prefixed "GAU_" gau)) (prefixed "COV_" (skipn 3 cov)) in
        let with_ml := match dget (v_mag e) "ML" with Some _ => true | None => false end in
        let cols := if with_ml then event_file_cols ++ mag_cols else event_file_cols in
        bind (select out cols) (fun df =>
        bind (map_cols (contains "COA") (significant 4) df) (fun df =>
        let '(px, py, pz) := prec in
        bind (map_cols (is_in ["X"; "GAU_X"]%string) (round_col (xy_decimals px)) df) (fun df =>
        bind (map_cols (is_in ["Y"; "GAU_Y"]%string) (round_col (xy_decimals py)) df) (fun df =>
        bind (map_cols (fun k => is_in ["Z"; "GAU_Z"; "COV_Err_XYZ"]%string k || err_col k) (round_col (z_decimals km pz)) df) (fun df =>
        if with_ml then map_cols (is_in mag_cols) (significant 3) df else Ret df)))))
      end end end)
  end.

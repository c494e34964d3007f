(** Model of lut/create_lut.py: lookup tables for homogeneous and layered velocity models, and
    lookup tables read from NonLinLoc files.

    SIMPLIFICATIONS: reals for binary64 (and for the binary32 numbers of NonLinLoc's files); pyproj's
    [Transformer], scikit-fmm and the NonLinLoc programs are parameters; a division by zero is not
    distinguished (velocities, spacings and differences of depths are not zero in the statements);
    log output, the creation and removal of directories and the check of nlloc_path are left out. *)
From Coq Require Import String Ascii.
From Coq Require Import List ZArith Reals Bool.
From Verif Require Import Lib PyDict Migrate_Model ScanMseed_Model Lut_Model.
Import ListNotations.
Open Scope Z_scope.

(** * Arrays on the grid *)

(** Indices of an array of shape (nx, ny, nz) in C order. *)
Definition mesh (n : ijk) : list ijk :=
  let '(nx, ny, nz) := n in
  flat_map (fun i => flat_map (fun j => map (fun k => (i, j, k)) (zrange nz)) (zrange ny)) (zrange nx).
(** lut.py:328-336 grid_xyz: the coordinates of all nodes. *)
Definition grid_xyz (g : grid) : list vec := map (node2grid g) (mesh (g_count g)).
(** An array computed element by element from the arrays of grid_xyz. *)
Definition tabulate {A} (n : ijk) (f : ijk -> A) : list (list (list A)) :=
  let '(nx, ny, nz) := n in
  map (fun i => map (fun j => map (fun k => f (i, j, k)) (zrange nz)) (zrange ny)) (zrange nx).
(** [a.reshape((nx, ny, nz))] of a flat array. *)
Definition reshape (n : ijk) (l : list R) : outcome table :=
  let '(nx, ny, nz) := n in
  if Z.of_nat (length l) =? nx * ny * nz
  then Ret (tabulate n (fun p => let '(i, j, k) := p in
                                 match rd l ((i * ny + j) * nz + k) with Some v => v | None => 0%R end))
  else Raise ValueError.

(** [lut.traveltimes.setdefault(station, {}).update({phase: t})] *)
Definition put (tt : dict (dict table)) (station phase : string) (t : table) : dict (dict table) :=
  dset tt station (dset (match dget tt station with Some m => m | None => [] end) phase t).
(** The loop over the stations, as in create_lut.py:257-265; the traveltimes of each station are
    given by [f]. *)
Fixpoint put_stations (f : string * vec -> outcome table) (phase : string) (stations : list (string * vec))
    (tt : dict (dict table)) : outcome (dict (dict table)) :=
  match stations with
  | [] => Ret tt
  | s :: r => bind (f s) (fun t => put_stations f phase r (put tt (fst s) phase t))
  end.
(** The loop over the phases, as in create_lut.py:193-199. *)
Fixpoint put_phases (f : string -> string * vec -> outcome table) (before : string -> outcome unit) (stations : list (string * vec))
    (phases : list string) (tt : dict (dict table)) : outcome (dict (dict table)) :=
  match phases with
  | [] => Ret tt
  | p :: r => bind (before p) (fun _ => bind (put_stations (f p) p stations tt) (put_phases f before stations r))
  end.

(** * Homogeneous velocity model *)

(** create_lut.py:260-265 _compute_homogeneous, one node and one station. *)
Definition straight_time (velocity : R) (station node : vec) : R :=
  let '(dx, dy, dz) := vmap2 Rminus node station in (sqrt (dx ^ 2 + dy ^ 2 + dz ^ 2) / velocity)%R.
Definition homogeneous_table (g : grid) (velocity : R) (station : vec) : table :=
  tabulate (g_count g) (fun n => straight_time velocity station (node2grid g n)).

(** * Velocity models *)

(** A DataFrame: row labels and columns. *)
Record vmodel : Type := mk_vmodel { vm_index : list Z; vm_cols : dict (list R) }.
Definition column (m : vmodel) (name : string) : outcome (list R) :=
  match dget (vm_cols m) name with Some c => Ret c | None => Raise KeyError end.
(** [series[label]] of a Series with an integer index: by label, not by position. *)
Fixpoint by_label (index : list Z) (c : list R) (label : Z) : outcome R :=
  match index, c with
  | i :: index', v :: c' => if i =? label then Ret v else by_label index' c' label
  | _, _ => Raise KeyError
  end.

(** [phase.lower()] *)
Definition lower_ascii (a : ascii) : ascii :=
  let n := nat_of_ascii a in if (65 <=? n)%nat && (n <=? 90)%nat then ascii_of_nat (n + 32) else a.
Fixpoint lower (s : string) : string := match s with EmptyString => EmptyString | String a r => String (lower_ascii a) (lower r) end.
(** f"V{phase.lower()}" *)
Definition v_column (phase : string) : string := ("V" ++ lower phase)%string.

(** * Fast marching in a layered model *)

(** scipy.interpolate.interp1d, linear, for increasing [x]; [x0], [y0]: the node to the left. *)
Fixpoint interp_from (x0 y0 : R) (nodes : list (R * R)) (x : R) : R :=
  match nodes with
  | [] => y0
  | (x1, y1) :: r =>
      let v := ((y1 - y0) / (x1 - x0) * (x - x0) + y0)%R in
      match r with [] => v | _ => if Rle_dec x x1 then v else interp_from x1 y1 r x end
  end.
Definition interp1d (nodes : list (R * R)) (x : R) : outcome R :=
  match nodes with
  | [] => Raise ValueError
  | (x0, y0) :: r =>
      if Rlt_dec x x0 then Raise ValueError
      else if Rlt_dec (fst (last r (x0, y0))) x then Raise ValueError else Ret (interp_from x0 y0 r x)
  end.
(** create_lut.py:292-299: the model extended upwards and downwards to the limits of the floats. *)
Definition extended (fmin fmax : R) (depths vs : list R) : outcome (list (R * R)) :=
  match vs with
  | [] => Raise IndexError
  | v :: _ => Ret (combine (fmin :: depths ++ [fmax]) (v :: vs ++ [last vs v]))
  end.
(** create_lut.py:292-299, 316-317: the velocity at a depth. *)
Definition fmm_nodes (fmin fmax : R) (m : vmodel) (phase : string) : outcome (list (R * R)) :=
  match column m "Depth", column m (v_column phase) with
  | Ret depths, Ret vs => extended fmin fmax depths vs
  | _, _ => Raise VelocityModelHeader
  end.

(** np.argmin of a non-empty array: the position of the first smallest value. *)
Fixpoint amin_from (i best : Z) (bv : R) (l : list R) : Z :=
  match l with
  | [] => best
  | v :: r => if Rlt_dec v bv then amin_from (i + 1) i v r else amin_from (i + 1) best bv r
  end.
Definition argmin (l : list R) : outcome Z := match l with [] => Raise ValueError | v :: r => Ret (amin_from 1 0 v r) end.
(** create_lut.py:384-389 *)
Definition grid_distance (station node : vec) : R :=
  let '(dx, dy, dz) := vmap2 Rminus node station in (Rabs dx + Rabs dy + Rabs dz)%R.
(** create_lut.py:382-390: the node the station is moved to. *)
Definition station_node (g : grid) (station : vec) : outcome ijk :=
  bind (argmin (map (grid_distance station) (grid_xyz g))) (fun flat => unravel_index flat (g_count g)).
(** create_lut.py:305-313: a coordinate of a station outside the corners of the grid. *)
Definition outside (ll ur station : vec) : bool :=
  let '(l1, l2, l3) := ll in let '(u1, u2, u3) := ur in let '(a, b, c) := station in
  let out l x u := if Rlt_dec x l then true else if Rlt_dec u x then true else false in
  out l1 a u1 || out l2 b u2 || out l3 c u3.
(** create_lut.py:268-328 _compute_1d_fmm with 331-392 _eikonal_fmm. [skfmm]: scikit-fmm's travel_time
    for a source node, a velocity for each node, and the spacing. *)
Section Fmm.
Variable skfmm : ijk -> ijk -> (ijk -> R) -> vec -> table.
Definition node_velocity (nodes : list (R * R)) (g : grid) (n : ijk) : outcome R := interp1d nodes (snd (node2grid g n)).
Definition velocities (nodes : list (R * R)) (g : grid) : outcome (ijk -> R) :=
  bind (outcomes (map (node_velocity nodes g) (mesh (g_count g)))) (fun _ =>
  Ret (fun n => match node_velocity nodes g n with Ret v => v | _ => 0%R end)).
Definition fmm_table (g : grid) (v : ijk -> R) (s : string * vec) : outcome table :=
  bind (station_node g (snd s)) (fun n => Ret (skfmm (g_count g) n v (g_spacing g))).
Definition compute_1d_fmm (fmin fmax : R) (m : vmodel) (g : grid) (ur : vec) (stations : list (string * vec)) (phase : string)
    (tt : dict (dict table)) : outcome (dict (dict table)) :=
  bind (fmm_nodes fmin fmax m phase) (fun nodes =>
  if existsb (fun s => outside (g_ll g) ur (snd s)) stations then Raise ValueError
  else bind (velocities nodes g) (fun v => put_stations (fmm_table g v) phase stations tt)).
End Fmm.

(** * NonLinLoc: control file *)

(** A number written as "{:f}" and read back: six decimals. *)
Definition fmt6 (x : R) : R := (IZR (np_round (x * 1000000)) / 1000000)%R.
(** The grid of a NonLinLoc file: numbers of nodes, origin, spacing. *)
Record nll_grid : Set := mk_nll { n_count : ijk; n_origin : vec; n_spacing : vec }.
(** create_lut.py:842-867 _grid_string *)
Definition grid_string (max_dist dmin dmax dx : R) : nll_grid :=
  mk_nll (2, np_ceil (max_dist / dx) + 5, np_ceil ((dmax - dmin) / dx) + 5) (0%R, 0%R, fmt6 dmin) (fmt6 dx, fmt6 dx, fmt6 dx).
(** create_lut.py:813-839 _velocity_gradient *)
Definition velocity_gradient (i : Z) (m : vmodel) (depths vs : list R) : outcome R :=
  bind (by_label (vm_index m) depths (i + 1)) (fun d1 => bind (by_label (vm_index m) depths i) (fun d0 =>
  bind (by_label (vm_index m) vs (i + 1)) (fun v1 => bind (by_label (vm_index m) vs i) (fun v0 =>
  Ret ((v1 - v0) / (d1 - d0))%R)))).
(** create_lut.py:765-810 _vmodel_string: a layer line gives depth, velocity and gradient; a KeyError
    in the gradient makes it zero. *)
Definition layer_line (m : vmodel) (depths vs : list R) (block_model : bool) (i : Z) : outcome (R * R * R) :=
  bind (if block_model then Ret 0%R
        else match velocity_gradient i m depths vs with Raise KeyError => Ret 0%R | o => o end) (fun dvdx =>
  bind (by_label (vm_index m) depths i) (fun d => bind (by_label (vm_index m) vs i) (fun v =>
  Ret (fmt6 d, fmt6 v, fmt6 dvdx)))).
Definition vmodel_string (m : vmodel) (block_model : bool) (phase : string) : outcome (list (R * R * R)) :=
  match vm_index m with
  | [] => Ret []
  | _ => bind (column m "Depth") (fun depths => bind (column m (v_column phase)) (fun vs =>
         outcomes (map (layer_line m depths vs block_model) (zrange (Z.of_nat (length (vm_index m)))))))
  end.
(** create_lut.py:533-588 _write_control_file *)
Record control : Type := mk_control { c_phase : string; c_station : string; c_grid : nll_grid; c_layers : list (R * R * R); c_source : vec }.
Definition control_file (xyz : vec) (station : string) (max_dist : R) (m : vmodel) (dmin dmax : R) (phase : string) (dx : R)
    (block_model : bool) : outcome control :=
  bind (vmodel_string m block_model phase) (fun layers =>
  let '(x, y, z) := xyz in Ret (mk_control phase station (grid_string max_dist dmin dmax dx) layers (fmt6 x, fmt6 y, fmt6 z))).

(** * NonLinLoc: interpolation *)

(** numpy indexing of one axis: negative indices count from the end. *)
Definition np_index {A} (l : list A) (i : Z) : outcome A :=
  match rd l (if i <? 0 then i + Z.of_nat (length l) else i) with Some v => Ret v | None => Raise IndexError end.
Definition floor_div (x d : R) : Z := Int_part (x / d).
(** np.remainder *)
Definition remainder (x d : R) : R := (x - IZR (floor_div x d) * d)%R.
(** create_lut.py:716-762 _bilinear_interpolate, one point. *)
Definition bilinear (origin spacing : R * R) (tt : list (list R)) (p : R * R) : outcome R :=
  let '(ox, oz) := origin in let '(sx, sz) := spacing in let '(x, z) := p in
  let i := floor_div (x - ox) sx in
  let k := floor_div (z - oz) sz in
  let x_d := (remainder x sx / sx)%R in
  let z_d := (remainder z sz / sz)%R in
  let at_ i k := bind (np_index tt i) (fun row => np_index row k) in
  bind (at_ i k) (fun c00 => bind (at_ (i + 1) k) (fun c10 => bind (at_ (i + 1) (k + 1)) (fun c11 => bind (at_ i (k + 1)) (fun c01 =>
  let c0 := (c00 * (1 - x_d) + c10 * x_d)%R in
  let c1 := (c01 * (1 - x_d) + c11 * x_d)%R in
  Ret (c0 * (1 - z_d) + c1 * z_d)%R)))).

(** Division of coordinates by a conversion factor. *)
Definition scale (c : R) (v : vec) : vec := let '(x, y, z) := v in (x / c, y / c, z / c)%R.
Definition horizontal (station node : vec) : R :=
  let '(dx, dy, _) := vmap2 Rminus node station in sqrt (dx ^ 2 + dy ^ 2).
Definition first_node : ijk := (0, 0, 0).
Definition last_node (n : ijk) : ijk := let '(nx, ny, nz) := n in (nx - 1, ny - 1, nz - 1).
(** create_lut.py:395-530 _compute_1d_nlloc, one station. [nlloc]: Vel2Grid and Grid2Time run on a
    control file, then the grid of the header and the plane x = 0 of the table they leave. *)
Section Nlloc.
Variable nlloc : control -> outcome (nll_grid * list (list R)).
Definition max_distance (d : list R) : outcome R := match d with [] => Raise ValueError | x :: r => Ret (fold_left Rmax r x) end.
Definition nlloc_table (g : grid) (km_cf : R) (m : vmodel) (dx : R) (block_model : bool) (phase : string) (s : string * vec) : outcome table :=
  let xyz := scale km_cf (snd s) in
  let nodes := map (scale km_cf) (grid_xyz g) in
  let distances := map (horizontal xyz) nodes in
  let points := combine distances (map snd nodes) in
  let m := mk_vmodel (vm_index m) (map (fun kc => (fst kc, map (fun v => (v / km_cf)%R) (snd kc))) (vm_cols m)) in
  let zmin := (snd (node2grid g first_node) / km_cf)%R in
  let zmax := (snd (node2grid g (last_node (g_count g))) / km_cf)%R in
  bind (max_distance distances) (fun max_dist =>
  bind (control_file xyz (fst s) max_dist m (Rmin zmin (snd xyz)) (Rmax zmax (snd xyz)) phase dx block_model) (fun c =>
  bind (nlloc c) (fun r =>
  let '(_, oy, oz) := n_origin (fst r) in let '(_, sy, sz) := n_spacing (fst r) in
  bind (outcomes (map (bilinear (oy, oz) (sy, sz) (snd r)) points)) (reshape (g_count g))))).
End Nlloc.

(** * All methods *)

(** create_lut.py:115-239 compute_traveltimes. [velocity]: the keyword arguments "vp", "vs", ...; [vmod]:
    the keyword argument "vmod". *)
Section Compute.
Variable transform : Z -> Z -> vec -> vec.
Variable skfmm : ijk -> ijk -> (ijk -> R) -> vec -> table.
Variable nlloc : control -> outcome (nll_grid * list (list R)).
Record kwargs : Type := mk_kwargs { kw_velocity : string -> option R; kw_vmod : option vmodel; kw_dx : R; kw_block : bool }.
Definition no_check (_ : string) : outcome unit := Ret tt.
Definition compute_traveltimes (fmin fmax : R) (ll_corner ur_corner : vec) (spacing : list R) (gproj cproj : Z) (km_cf : R)
    (stations : list (string * vec)) (method : string) (phases : list string) (kw : kwargs) : outcome lut :=
  bind (grid_init transform ll_corner ur_corner spacing gproj cproj) (fun g =>
  let method := if String.eqb method "1dsweep" then "1dnlloc"%string else method in
  let ur := coord2grid transform gproj cproj false ur_corner in
  let stations := map (fun s => (fst s, coord2grid transform gproj cproj false (snd s))) stations in
  bind (
    if String.eqb method "homogeneous" then
      put_phases (fun p s => match kw_velocity kw ("v" ++ lower p)%string with
                             | Some v => Ret (homogeneous_table g v (snd s))
                             | None => Raise TypeError
                             end)
        (fun p => match kw_velocity kw ("v" ++ lower p)%string with Some _ => Ret tt | None => Raise TypeError end)
        stations phases []
    else if String.eqb method "1dfmm" then
      match kw_vmod kw with
      | None => Raise TypeError
      | Some m => fold_left (fun acc p => bind acc (compute_1d_fmm skfmm fmin fmax m g ur stations p)) phases (Ret [])
      end
    else if String.eqb method "3dfmm" then Raise NotImplementedErr
    else if String.eqb method "1dnlloc" then
      match kw_vmod kw with
      | None => Raise TypeError
      | Some m => put_phases (nlloc_table nlloc g km_cf m (kw_dx kw) (kw_block kw)) no_check stations phases []
      end
    else Raise ValueError) (fun tts =>
  Ret (mk_lut g tts (map fst stations) phases))).
End Compute.

(** * Reading NonLinLoc files *)

(** Keyword arguments of pyproj.Proj. *)
Inductive parg : Type := PNum (v : R) | PStr (s : string).
(** A header: the tokens of its first and of its third line. *)
Record header : Type := mk_header { h_grid : list string; h_trans : list string }.
Definition token (l : list string) (i : Z) : outcome string := match rd l i with Some t => Ret t | None => Raise IndexError end.

Section Read.
Variable to_int : string -> outcome Z.
Variable to_float : string -> outcome R.
Definition float_at (l : list string) (i : Z) : outcome R := bind (token l i) to_float.
Definition int_at (l : list string) (i : Z) : outcome Z := bind (token l i) to_int.
(** create_lut.py:632-635 *)
Definition read_grid (h : header) : outcome nll_grid :=
  let l := h_grid h in
  bind (int_at l 0) (fun nx => bind (int_at l 1) (fun ny => bind (int_at l 2) (fun nz =>
  bind (float_at l 3) (fun x0 => bind (float_at l 4) (fun y0 => bind (float_at l 5) (fun z0 =>
  bind (float_at l 6) (fun dx => bind (float_at l 7) (fun dy => bind (float_at l 8) (fun dz =>
  Ret (mk_nll (nx, ny, nz) (x0, y0, z0) (dx, dy, dz))))))))))).
(** create_lut.py:660-692 *)
Definition ellipsoids : dict string :=
  [("WGS-84", "WGS84"); ("GRS-80", "GRS80"); ("WGS-72", "WGS72"); ("Australian", "aust_SA"); ("Krasovsky", "krass");
   ("International", "intl"); ("Hayford-1909", "intl"); ("Clarke-1880", "clrk80"); ("Clarke-1866", "clrk66"); ("Airy", "airy");
   ("Bessel", "bessel"); ("Hayford-1830", "evrst30"); ("Sphere", "sphere")]%string.
Definition ellipsoid (s : string) : string := match dget ellipsoids s with Some e => e | None => "WGS84"%string end.
(** create_lut.py:640-710: the projection of the grid, and the name of the transform. *)
Definition read_transform (h : header) : outcome (option (dict parg) * string) :=
  let l := h_trans h in
  bind (token l 1) (fun name =>
  if String.eqb name "SIMPLE" then
    bind (float_at l 3) (fun lat => bind (float_at l 5) (fun lon =>
    Ret (Some [("proj", PStr "eqc"); ("lat_0", PNum lat); ("lon_0", PNum lon); ("units", PStr "km")]%string, name)))
  else if String.eqb name "LAMBERT" then
    bind (token l 3) (fun ell => bind (float_at l 5) (fun lat => bind (float_at l 7) (fun lon =>
    bind (float_at l 9) (fun p1 => bind (float_at l 11) (fun p2 =>
    Ret (Some [("proj", PStr "lcc"); ("lon_0", PNum lon); ("lat_0", PNum lat); ("lat_1", PNum p1); ("lat_2", PNum p2);
               ("units", PStr "km"); ("ellps", PStr (ellipsoid ell)); ("datum", PStr "WGS84")]%string, name))))))
  else if String.eqb name "TRANS_MERC" then
    bind (float_at l 5) (fun lat => bind (float_at l 7) (fun lon =>
    Ret (Some [("proj", PStr "tmerc"); ("lon", PNum lon); ("lat", PNum lat); ("units", PStr "km")]%string, name)))
  else Ret (None, name)).
(** create_lut.py:704-711: the table in the buffer file; [struct.unpack] needs all the numbers. *)
Definition read_buffer (n : ijk) (buf : list R) : outcome table :=
  let '(nx, ny, nz) := n in
  if Z.of_nat (length buf) <? nx * ny * nz then Raise StructError
  else reshape n (firstn (Z.to_nat (nx * ny * nz)) buf).
(** create_lut.py:591-713 _read_nlloc *)
Definition read_nlloc_file (f : header * list R) : outcome (nll_grid * (option (dict parg) * string) * table) :=
  bind (read_grid (fst f)) (fun gs => bind (read_transform (fst f)) (fun tr => bind (read_buffer (n_count gs) (snd f)) (fun t => Ret (gs, tr, t)))).

(** create_lut.py:28-112 read_nlloc. [pid]: the number identifying a projection; [cproj]: that of the
    geographical coordinates; [files]: the files of the directory. *)
Variable transform : Z -> Z -> vec -> vec.
Variable pid : dict parg -> Z.
Variable cproj : Z.
Definition file_name (phase station : string) : string := ("layer." ++ phase ++ "." ++ station ++ ".time")%string.
Definition open_file (files : dict (header * list R)) (phase station : string) : outcome (header * list R) :=
  match dget files (file_name phase station) with Some f => Ret f | None => Raise FileNotFoundErr end.
(** create_lut.py:77-103: the grid, from the first file. *)
Definition grid_of_file (gs : nll_grid) (tr : option (dict parg) * string) : outcome grid :=
  match fst tr with
  | None => Raise NotImplementedErr
  | Some p =>
      let ll := transform (pid p) cproj (n_origin gs) in
      let ur := transform (pid p) cproj (vmap2 Rplus (n_origin gs) (vmap2 (fun n s => (IZR (n - 1) * s)%R) (n_count gs) (n_spacing gs))) in
      let '(sx, sy, sz) := n_spacing gs in grid_init transform ll ur [sx; sy; sz] (pid p) cproj
  end.
Definition read_step (files : dict (header * list R)) (acc : option grid * dict (dict table)) (sp : string * string)
    : outcome (option grid * dict (dict table)) :=
  bind (open_file files (snd sp) (fst sp)) (fun f => bind (read_nlloc_file f) (fun r =>
  let '(gs, tr, t) := r in
  bind (match fst acc with Some g => Ret g | None => grid_of_file gs tr end) (fun g =>
  Ret (Some g, put (snd acc) (fst sp) (snd sp) t)))).
Definition read_nlloc (files : dict (header * list R)) (stations phases : list string) : outcome lut :=
  let files_read := flat_map (fun p => map (fun s => (s, p)) stations) phases in
  bind (fold_left (fun acc sp => bind acc (fun a => read_step files a sp)) files_read (Ret (None, []))) (fun a =>
  match fst a with Some g => Ret (mk_lut g (snd a) stations phases) | None => Raise NameError end).
End Read.

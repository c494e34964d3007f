(** Model of the map and cross sections of a lookup table, LUT.plot (lut/lut.py:635-823): what is handed to matplotlib.

    SIMPLIFICATIONS: reals for binary64; a slice is its shape and a function of row and column, its values are rationals, [None] is masked;
    labels, ticks and the place of the axes in the figure are left out, as is the turning of the depth axis. *)
From Coq Require Import String Ascii.
From Coq Require Import List ZArith QArith Reals Bool.
From Verif Require Import Lib Lut_Model Extent_Model PickPlot_Model Picker_Model EventPlot_Model.
Import ListNotations.
Open Scope Z_scope.

Record slice : Type := mk_slice { s_rows : Z; s_cols : Z; s_value : Z -> Z -> option Q }.
(** A cell: left, right, lower and upper edge and the value. *)
Record cell : Type := mk_cell { c_left : R; c_right : R; c_low : R; c_high : R; c_value : option Q }.
Record panel : Type := mk_panel { p_xlim : R * R; p_ylim : R * R; p_cross : option (R * R); p_cells : list cell; p_points : list (R * R) }.
Record station : Type := mk_station { st_name : string; st_lon : R; st_lat : R; st_elev : R }.
Record map_plot : Type := mk_map { mp_panels : list panel; mp_names : list (string * (R * R)); mp_aspect : R; mp_bar : R * R }.

(** [v[i]] for i = 0, 1, 2 *)
Definition axis (v : vec) (i : Z) : R := let '(x, y, z) := v in if i =? 0 then x else if i =? 1 then y else z.
(** lut.py:704-707 [np.mgrid] with [shape + 1] points on both axes, and pcolormesh: the cell of row [a] and column [b] lies between grid lines [a], [a + 1] and [b], [b + 1]. *)
Definition mesh (gminx gmaxx gminy gmaxy : R) (s : slice) : list cell :=
  flat_map (fun a => map (fun b => mk_cell (cell_edge gminx gmaxx (s_rows s) a) (cell_edge gminx gmaxx (s_rows s) (a + 1))
                                           (cell_edge gminy gmaxy (s_cols s) b) (cell_edge gminy gmaxy (s_cols s) (b + 1)) (s_value s a b)) (zrange (s_cols s)))
    (zrange (s_rows s)).
(** lut.py:735-741 *)
Definition listed (station_list : option (list string)) (stations : list station) : list station :=
  match station_list with
  | Some l => filter (fun s => existsb (String.eqb (st_name s)) l) stations
  | None => stations
  end.
(** lut.py:690-707 and 742-765: one panel; [xy]: the coordinates of the stations on it. *)
Definition draw_panel (lo hi : vec) (hypocentre : option vec) (slices : option (list slice)) (stns : list station) (x : Z * Z * (station -> R * R)) : outcome panel :=
  let '(i, j, xy) := x in
  let gminx := axis lo i in let gmaxx := axis hi i in let gminy := axis lo j in let gmaxy := axis hi j in
  bind (match slices with
        | None => Ret []
        | Some l => match rd l (i + j - 1) with Some s => Ret (mesh gminx gmaxx gminy gmaxy s) | None => Raise IndexError end
        end) (fun cells =>
  Ret (mk_panel (gminx, gmaxx) (gminy, gmaxy) (option_map (fun h => (axis h i, axis h j)) hypocentre) cells (map xy stns))).
(** lut.py:635-823 LUT.plot; the scale bar is its length in grid units and its size on the x axis. *)
Definition lut_plot (transform : Z -> Z -> vec -> vec) (g : grid) (stations : list station) (slices : option (list slice)) (hypocentre : option vec) (station_list : option (list string)) : outcome map_plot :=
  bind (grid_extent transform g true) (fun e =>
  let '(lo, hi) := e in
  let extent := vmap2 (fun a b => Rabs (a - b)) hi lo in
  let grid_size := vmap2 (fun s n => (s * n)%R) (g_spacing g) (let '(nx, ny, nz) := g_count g in (IZR nx, IZR ny, IZR nz)) in
  let aspect := (axis extent 0 * axis grid_size 1 / (axis extent 1 * axis grid_size 0))%R in
  let stns := listed station_list stations in
  bind (outcome_map (draw_panel lo hi hypocentre slices stns)
          [(0, 1, fun s => (st_lon s, st_lat s)); (0, 2, fun s => (st_lon s, st_elev s)); (2, 1, fun s => (st_elev s, st_lat s))]) (fun panels =>
  let '(nx, _, _) := g_count g in
  let length := (IZR (- (- nx / 10)) * axis (g_spacing g) 0)%R in
  Ret (mk_map panels (map (fun s => (st_name s, (st_lon s, st_lat s))) stns) aspect (length, axis extent 0 * length / axis grid_size 0)%R))).
(** plot/event.py:70-74: the slices with their shapes. *)
Definition event_slices (n : ijk) (f : ijk -> option Q) (x : ijk) : list slice :=
  let '(nx, ny, nz) := n in let '(xy, xz, yz) := slices f x in [mk_slice nx ny xy; mk_slice nx nz xz; mk_slice nz ny yz].

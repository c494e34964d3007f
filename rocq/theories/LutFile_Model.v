(** Model of reading, saving and converting lookup table files: io/core.py read_lut, lut/lut.py
    LUT.__init__, save and load, the getters for old-style attributes, lut/__init__.py update_lut.

    SIMPLIFICATIONS: reals for binary64. A file holds the pickled [__dict__] of a lookup table;
    pickle is taken to restore the object that was dumped. [__dict__] is a record with an optional
    field for each attribute the modelled functions touch, and a dictionary [a_other] for the rest
    (corners, projections, velocity model), whose values are their pickled bytes. Printing of
    warnings is left out. *)
From Coq Require Import String Ascii.
From Coq Require Import List ZArith Reals Bool.
From Verif Require Import Lib PyDict Lut_Model.
Import ListNotations.
Open Scope Z_scope.

(** A pandas table of stations: [None] is [pd.DataFrame()], which has no columns; otherwise names
    and locations. *)
Definition frame : Type := option (list (string * vec)).

Record attrs : Type := mk_attrs
  { a_fraction : option R; a_phases : option (list string); a_stations : option frame;
    a_tt : option (dict (dict table)); a_maps : option (dict (dict table));
    a_nc : option ijk; a_ns : option vec;      (* _node_count, _node_spacing *)
    a_cc : option ijk; a_cs : option vec;      (* _cell_count, _cell_size (old style) *)
    a_other : dict string }.

(** [a] if present, otherwise [b] *)
Definition first_of {A} (a b : option A) : option A := match a with Some _ => a | None => b end.

(** [d.__dict__.update(e)] *)
Definition update_attrs (d e : attrs) : attrs :=
  mk_attrs (first_of (a_fraction e) (a_fraction d)) (first_of (a_phases e) (a_phases d))
    (first_of (a_stations e) (a_stations d)) (first_of (a_tt e) (a_tt d)) (first_of (a_maps e) (a_maps d))
    (first_of (a_nc e) (a_nc d)) (first_of (a_ns e) (a_ns d)) (first_of (a_cc e) (a_cc d))
    (first_of (a_cs e) (a_cs d)) (dupdate (a_other d) (a_other e)).

(** [d.station_data = s] *)
Definition set_stations (d : attrs) (s : frame) : attrs :=
  mk_attrs (a_fraction d) (a_phases d) (Some s) (a_tt d) (a_maps d) (a_nc d) (a_ns d) (a_cc d) (a_cs d)
    (a_other d).

(** lut.py:462-464: attributes set before a file is read; fraction_tt has the default 0.1. *)
Definition bare : attrs :=
  mk_attrs (Some (1 / 10)%R) (Some ["P"; "S"]%string) None None None None None None None [].

(** lut.py:453-468: LUT() *)
Definition new_lut : attrs := set_stations bare None.

(** lut.py:622-648 load *)
Definition load (d file : attrs) : attrs := update_attrs d file.

(** lut.py:453-468: LUT(lut_file=file) *)
Definition lut_from_file (file : attrs) : attrs := set_stations (load bare file) None.

(** core.py:25-51 read_lut *)
Definition read_lut (file : attrs) : attrs := update_attrs new_lut file.

(** lut.py:605-620 save: the file written. *)
Definition save (d : attrs) : attrs := d.

(** lut.py:246-258 node_count getter and 268-280 node_spacing getter; cell_count and cell_size
    (363-397) return the same. *)
Definition get_nc (d : attrs) : outcome ijk :=
  match a_nc d with
  | Some n => Ret n
  | None => match a_cc d with Some n => Ret n | None => Raise AttributeError end
  end.
Definition get_ns (d : attrs) : outcome vec :=
  match a_ns d with
  | Some n => Ret n
  | None => match a_cs d with Some n => Ret n | None => Raise AttributeError end
  end.

(** lut.py:921-943 __getitem__: without [traveltimes], [maps] is used, and its KeyError is not
    caught; with [traveltimes], an unknown station gives None. *)
Definition get_station (d : attrs) (station : string) : outcome (option (dict table)) :=
  match a_tt d with
  | Some tts => Ret (dget tts station)
  | None =>
      match a_maps d with
      | Some maps => match dget maps station with Some m => Ret (Some m) | None => Raise KeyError end
      | None => Raise AttributeError
      end
  end.

(** [self[station][key]] *)
Definition get_table (d : attrs) (station key : string) : outcome table :=
  bind (get_station d station) (fun o =>
  match o with
  | None => Raise TypeError
  | Some m => match dget m key with Some t => Ret t | None => Raise KeyError end
  end).

(** lut.py:598-602 (and 531-535) *)
Definition find_table (d : attrs) (station phase : string) : outcome table :=
  match get_table d station phase with
  | Raise KeyError => get_table d station ("TIME_" ++ phase)%string
  | o => o
  end.

(** lut.py:594-602 _serve_traveltimes(self.phases): the tables that are stacked. *)
Definition served_tables (d : attrs) : outcome (list table) :=
  match a_phases d, a_stations d with
  | Some phases, Some (Some rows) =>
      outcomes (flat_map (fun phase => map (fun station => find_table d station phase) (map fst rows)) phases)
  | Some _, Some None => Raise KeyError
  | _, _ => Raise AttributeError
  end.

(** lut/__init__.py:52-53: body of the inner loop, [phase.split("_")[1]] and
    [traveltimes.setdefault(station, {}).update({phase_code: ttimes})]. *)
Definition convert_table (station : string) (tt : dict (dict table)) (kv : string * table)
    : outcome (dict (dict table)) :=
  match split_on underscore (fst kv) with
  | _ :: phase_code :: _ =>
      let m := match dget tt station with Some m => m | None => [] end in
      Ret (dset tt station (dset m phase_code (snd kv)))
  | _ => Raise IndexError
  end.

(** lut/__init__.py:51-53 *)
Fixpoint convert_station (station : string) (tt : dict (dict table)) (m : dict table)
    : outcome (dict (dict table)) :=
  match m with
  | [] => Ret tt
  | kv :: r => bind (convert_table station tt kv) (fun tt' => convert_station station tt' r)
  end.

(** lut/__init__.py:50-53 *)
Fixpoint convert_maps (tt maps : dict (dict table)) : outcome (dict (dict table)) :=
  match maps with
  | [] => Ret tt
  | (station, m) :: r => bind (convert_station station tt m) (fun tt' => convert_maps tt' r)
  end.

(** lut/__init__.py:48-57: the tables. *)
Definition update_tables (d : attrs) : outcome attrs :=
  match a_maps d with
  | None => Ret d
  | Some maps =>
      bind (convert_maps [] maps) (fun tt =>
      Ret (mk_attrs (a_fraction d) (a_phases d) (a_stations d) (Some tt) None (a_nc d) (a_ns d) (a_cc d)
             (a_cs d) (a_other d)))
  end.

(** lut/__init__.py:58-59 *)
Definition update_phases (d : attrs) : attrs :=
  mk_attrs (Some (1 / 10)%R) (Some ["P"; "S"]%string) (a_stations d) (a_tt d) (a_maps d) (a_nc d) (a_ns d)
    (a_cc d) (a_cs d) (a_other d).

(** lut/__init__.py:61-62: attributes set by the setters (lut.py:260-264, 282-291). *)
Definition put_ns (d : attrs) (sp : vec) : attrs :=
  mk_attrs (a_fraction d) (a_phases d) (a_stations d) (a_tt d) (a_maps d) (a_nc d) (Some sp) (a_cc d)
    (a_cs d) (a_other d).
Definition put_nc (d : attrs) (n : ijk) : attrs :=
  mk_attrs (a_fraction d) (a_phases d) (a_stations d) (a_tt d) (a_maps d) (Some n) (a_ns d) (a_cc d)
    (a_cs d) (a_other d).

(** lut/__init__.py:63: [del lut._cell_size, lut._cell_count]; an AttributeError ends the block. *)
Definition del_cells (d : attrs) : attrs :=
  match a_cs d with
  | None => d
  | Some _ =>
      mk_attrs (a_fraction d) (a_phases d) (a_stations d) (a_tt d) (a_maps d) (a_nc d) (a_ns d) None
        None (a_other d)
  end.

(** lut/__init__.py:60-65: the grid. A missing attribute ends the block, leaving what was set. *)
Definition update_grid (d : attrs) : outcome attrs :=
  match get_ns d with
  | Ret (x, y, z) =>
      bind (set_spacing [x; y; z]) (fun sp =>
      let d1 := put_ns d sp in
      match get_nc d1 with
      | Ret n => bind (set_count n) (fun n' => Ret (del_cells (put_nc d1 n')))
      | _ => Ret d1
      end)
  | _ => Ret d
  end.

(** lut/__init__.py:31-67 update_lut: the file written. *)
Definition update_lut (file : attrs) : outcome attrs :=
  bind (update_tables (read_lut file)) (fun d =>
  bind (update_grid (update_phases d)) (fun d' => Ret (save d'))).

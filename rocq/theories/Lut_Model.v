(** Model of lut/lut.py (grid geometry, decimation, serving and combining traveltime tables)
    and of the part of signal/onsets/stalta.py and signal/scan.py that pairs traveltime tables
    with onset functions.

    SIMPLIFICATIONS: reals for binary64; pyproj's [Transformer] is a parameter [transform]; a
    numpy array of shape (nx, ny, nz) is a list of lists of lists. *)
From Coq Require Import String Ascii.
From Coq Require Import List ZArith Reals Bool.
From Verif Require Import Lib PyDict Migrate_Model ScanMseed_Model.
Import ListNotations.
Open Scope Z_scope.

(** * Grid geometry *)

Definition vec : Set := (R * R * R)%type.
Definition ijk : Set := (Z * Z * Z)%type.

Definition vmap2 {A B C} (f : A -> B -> C) (x : A * A * A) (y : B * B * B) : C * C * C :=
  let '(a, b, c) := x in let '(p, q, r) := y in (f a p, f b q, f c r).

(** Attributes of Grid3D. Projections are identified by a number (pyproj compares them by
    definition); [transform from to] converts coordinates between them. *)
Record grid : Set := mk_grid
  { g_ll : vec; g_spacing : vec; g_count : ijk; g_gproj : Z; g_cproj : Z }.

(** lut.py:182-209 coord2grid, one point. *)
Definition coord2grid (transform : Z -> Z -> vec -> vec) (gproj cproj : Z) (inverse : bool) (v : vec) : vec :=
  if inverse then transform gproj cproj v else transform cproj gproj v.

(** lut.py:275-287 node_spacing setter: one value is repeated, otherwise three are needed; all
    must be positive. *)
Definition set_spacing (value : list R) : outcome vec :=
  match value with
  | [s] => if Rlt_dec 0 s then Ret (s, s, s) else Raise AssertionError
  | [a; b; c] =>
      if Rlt_dec 0 a then if Rlt_dec 0 b then if Rlt_dec 0 c then Ret (a, b, c)
      else Raise AssertionError else Raise AssertionError else Raise AssertionError
  | _ => Raise AssertionError
  end.

(** lut.py:256-260 node_count setter: int32, all positive. A number outside int32 is undefined. *)
Definition set_count (value : ijk) : outcome ijk :=
  let '(a, b, c) := value in
  match int32 a, int32 b, int32 c with
  | Some x, Some y, Some z =>
      if (0 <? x) && (0 <? y) && (0 <? z) then Ret (x, y, z) else Raise AssertionError
  | _, _, _ => Undef
  end.

(** np.ceil *)
Definition np_ceil (x : R) : Z := - Int_part (- x).

(** lut.py:99: [np.ceil(grid_dims / self.node_spacing) + 1], one axis. *)
Definition axis_count (ll ur sp : R) : Z := np_ceil ((ur - ll) / sp) + 1.

(** lut.py:87-100 Grid3D.__init__. *)
Definition grid_init (transform : Z -> Z -> vec -> vec) (ll_corner ur_corner : vec) (spacing : list R)
    (gproj cproj : Z) : outcome grid :=
  let ll := coord2grid transform gproj cproj false ll_corner in
  let ur := coord2grid transform gproj cproj false ur_corner in
  bind (set_spacing spacing) (fun sp =>
  let '(l1, l2, l3) := ll in let '(u1, u2, u3) := ur in let '(s1, s2, s3) := sp in
  bind (set_count (axis_count l1 u1 s1, axis_count l2 u2 s2, axis_count l3 u3 s3)) (fun n =>
  Ret (mk_grid ll sp n gproj cproj))).

(** lut.py:168-174 index2grid, both directions, for one [i, j, k] / one point. *)
Definition node2grid (g : grid) (n : ijk) : vec :=
  vmap2 Rplus (g_ll g) (vmap2 (fun i s => (IZR i * s)%R) n (g_spacing g)).
Definition grid2node (g : grid) (v : vec) : ijk :=
  let '(a, b, c) := vmap2 Rdiv (vmap2 Rminus v (g_ll g)) (g_spacing g) in
  (np_round a, np_round b, np_round c).

(** np.unravel_index for shape (nx, ny, nz) in C order; an index out of bounds raises. *)
Definition unravel_index (flat : Z) (shape : ijk) : outcome ijk :=
  let '(nx, ny, nz) := shape in
  if (0 <=? flat) && (flat <? nx * ny * nz)
  then Ret (flat / (ny * nz), (flat / nz) mod ny, flat mod nz)
  else Raise ValueError.

(** lut.py:163-180 index2grid with [unravel=True]. *)
Definition flat2grid (g : grid) (flat : Z) : outcome vec :=
  bind (unravel_index flat (g_count g)) (fun n => Ret (node2grid g n)).

(** lut.py:211-243 index2coord. *)
Definition index2coord (transform : Z -> Z -> vec -> vec) (g : grid) (n : ijk) : vec :=
  coord2grid transform (g_gproj g) (g_cproj g) true (node2grid g n).
Definition coord2index (transform : Z -> Z -> vec -> vec) (g : grid) (v : vec) : ijk :=
  grid2node g (coord2grid transform (g_gproj g) (g_cproj g) false v).
Definition flat2coord (transform : Z -> Z -> vec -> vec) (g : grid) (flat : Z) : outcome vec :=
  bind (flat2grid g flat) (fun v => Ret (coord2grid transform (g_gproj g) (g_cproj g) true v)).

(** lut.py:289-296 grid_corners (meshgrid with indexing "ij", flattened). *)
Definition grid_corners (g : grid) : list vec :=
  let '(nx, ny, nz) := g_count g in
  map (node2grid g)
    (flat_map (fun i => flat_map (fun j => map (fun k => (i, j, k)) [0; nz - 1]) [0; ny - 1]) [0; nx - 1]).

(** * Lookup tables *)

(** One traveltime array of shape (nx, ny, nz). *)
Definition table : Type := list (list (list R)).

(** Attributes of LUT: the grid, [traveltimes], [station_data["Name"]] and [phases]. *)
Record lut : Type := mk_lut
  { l_grid : grid; l_tt : dict (dict table); l_names : list string; l_phases : list string }.

(** [a[c::d]] for 0 <= c, 0 < d: skip [c] elements, then take every [d]-th. *)
Fixpoint stride {A} (d c : nat) (l : list A) : list A :=
  match l with
  | [] => []
  | x :: r => match c with O => x :: stride d (d - 1) r | S c' => stride d c' r end
  end.

(** lut.py:123-124: new node count and first kept node of one axis. *)
Definition dec_count (n df : Z) : Z := 1 + (n - 1) / df.
Definition dec_first (n df : Z) : Z := (n - df * (dec_count n df - 1) - 1) / 2.

(** lut.py:135-137: [ttimes[c1[0]::df[0], c1[1]::df[1], c1[2]::df[2]]]. *)
Definition dec_table (c1 df : ijk) (t : table) : table :=
  let '(cx, cy, cz) := c1 in let '(dx, dy, dz) := df in
  map (fun plane => map (fun row => stride (Z.to_nat dz) (Z.to_nat cz) row)
                        (stride (Z.to_nat dy) (Z.to_nat cy) plane))
      (stride (Z.to_nat dx) (Z.to_nat cx) t).

(** lut.py:102-140 decimate (the result is [self] or a deep copy). The lower-left corner is
    not changed. The setters check the new values. *)
Definition decimate (l : lut) (df : ijk) : outcome lut :=
  let g := l_grid l in
  let count' := vmap2 dec_count (g_count g) df in
  let c1 := vmap2 dec_first (g_count g) df in
  bind (set_count count') (fun n =>
  let '(s1, s2, s3) := vmap2 (fun s d => (s * IZR d)%R) (g_spacing g) df in
  bind (set_spacing [s1; s2; s3]) (fun sp =>
  Ret (mk_lut (mk_grid (g_ll g) sp n (g_gproj g) (g_cproj g))
         (map (fun sm => (fst sm, map (fun pt => (fst pt, dec_table c1 df (snd pt))) (snd sm))) (l_tt l))
         (l_names l) (l_phases l)))).

(** lut.py:921-943 __getitem__: an unknown station prints a message and returns None. *)
Definition getitem (l : lut) (station : string) : option (dict table) := dget (l_tt l) station.

(** lut.py:531-535: [self[station][phase]], falling back to [self[station]["TIME_" + phase]] on
    KeyError. Subscripting None raises TypeError, which is not caught. *)
Definition lookup (l : lut) (station phase : string) : outcome table :=
  match getitem l station with
  | None => Raise TypeError
  | Some m =>
      match dget m phase with
      | Some t => Ret t
      | None => match dget m ("TIME_" ++ phase)%string with Some t => Ret t | None => Raise KeyError end
      end
  end.

(** [s.split("_")] *)
Fixpoint split_on (c : ascii) (s : string) : list string :=
  match s with
  | EmptyString => [""%string]
  | String a r =>
      if Ascii.eqb a c then ""%string :: split_on c r
      else match split_on c r with h :: t => String a h :: t | [] => [String a ""] end
  end.
Definition underscore : ascii := "_"%char.

(** lut.py:528-536: the loop over the availability dictionary. *)
Fixpoint serve_loop (l : lut) (availability : dict Z) : outcome (list table) :=
  match availability with
  | [] => Ret []
  | (key, available) :: r =>
      match split_on underscore key with
      | [station; phase] =>
          if available =? 1
          then bind (lookup l station phase) (fun t => bind (serve_loop l r) (fun ts => Ret (t :: ts)))
          else serve_loop l r
      | _ => Raise ValueError
      end
  end.

(** Shape of a (rectangular) array. *)
Definition shape (t : table) : nat * nat * nat :=
  (length t, length (hd [] t), length (hd [] (hd [] t))).
Definition shape_eqb (a b : nat * nat * nat) : bool :=
  let '(a1, a2, a3) := a in let '(b1, b2, b3) := b in
  (Nat.eqb a1 b1 && Nat.eqb a2 b2 && Nat.eqb a3 b3)%bool.
Definition ravel (t : table) : list R := concat (map (@concat R) t).

(** [np.stack(tables, axis=-1)], flattened in C order: all tables at node 0, all tables at node
    1, ... Raises on no tables or unequal shapes. *)
Definition stack_last (ts : list table) : outcome (list R) :=
  match ts with
  | [] => Raise ValueError
  | t0 :: _ =>
      if forallb (fun t => shape_eqb (shape t) (shape t0)) ts
      then Ret (flat_map (fun node => flat_map (fun t =>
                  match rd (ravel t) node with Some v => [v] | None => [] end) ts)
                (zrange (Z.of_nat (length (ravel t0)))))
      else Raise ValueError
  end.

(** [np.rint(traveltimes * sampling_rate).astype(np.int32)]; a value outside int32 is undefined. *)
Fixpoint to_samples (rate : R) (l : list R) : outcome (list Z) :=
  match l with
  | [] => Ret []
  | v :: r => match int32 (np_round (v * rate)) with
              | Some k => bind (to_samples rate r) (fun ks => Ret (k :: ks))
              | None => Undef
              end
  end.

(** lut.py:502-538 serve_traveltimes with an availability dictionary. Also returned: the number
    of nodes and of tables, i.e. the shape of the array. *)
Definition serve_traveltimes (l : lut) (rate : R) (availability : dict Z) : outcome (list Z * Z * Z) :=
  bind (serve_loop l availability) (fun ts =>
  bind (stack_last ts) (fun flat =>
  bind (to_samples rate flat) (fun samples =>
  Ret (samples, Z.of_nat (length (ravel (hd [] ts))), Z.of_nat (length ts))))).

(** lut.py:594-603 _serve_traveltimes, the list of tables before stacking. *)
Fixpoint outcomes {A} (l : list (outcome A)) : outcome (list A) :=
  match l with
  | [] => Ret []
  | o :: r => bind o (fun a => bind (outcomes r) (fun s => Ret (a :: s)))
  end.
Definition all_tables (l : lut) : outcome (list table) :=
  outcomes (flat_map (fun phase => map (fun station => lookup l station phase) (l_names l)) (l_phases l)).

(** lut.py:841-845 max_traveltime: np.max over all tables; np.max of an empty array raises. *)
Definition max_traveltime (l : lut) : outcome R :=
  bind (all_tables l) (fun ts =>
  bind (stack_last ts) (fun flat =>
  match flat with [] => Raise ValueError | v :: r => Ret (fold_left Rmax r v) end)).

(** lut.py:888-919 __eq__ *)
Definition Req_b (x y : R) : bool := if Req_EM_T x y then true else false.
Definition vec_eqb (x y : vec) : bool :=
  let '(a, b, c) := vmap2 Req_b x y in a && b && c.
Fixpoint vecs_eqb (l m : list vec) : bool :=
  match l, m with
  | [], [] => true
  | x :: l', y :: m' => vec_eqb x y && vecs_eqb l' m'
  | _, _ => false
  end.
Definition lut_eqb (a b : lut) : bool :=
  vecs_eqb (grid_corners (l_grid a)) (grid_corners (l_grid b))
  && vec_eqb (g_spacing (l_grid a)) (g_spacing (l_grid b))
  && ((g_gproj (l_grid a) =? g_gproj (l_grid b)) && (g_cproj (l_grid a) =? g_cproj (l_grid b))).

(** lut.py:863-886 __add__ of two lookup tables: [self.traveltimes.update(other.traveltimes)]
    and [self], or a message and None. [station_data] and [phases] are not touched. *)
Definition lut_add (a b : lut) : option lut :=
  if lut_eqb a b
  then Some (mk_lut (l_grid a) (dupdate (l_tt a) (l_tt b)) (l_names a) (l_phases a))
  else None.

(** * Pairing tables with onsets *)

(** stalta.py:414-470: body of the loop over stations. [check station phase] is the verdict of
    check_availability, [onset station phase] the onset function of the station. *)
Definition onset_step (check : string -> string -> bool) (onset : string -> string -> list R)
    (phase : string) (st : list (list R) * dict Z) (station : string) : list (list R) * dict Z :=
  let availability := dset (snd st) (station ++ "_" ++ phase)%string (if check station phase then 1 else 0) in
  if check station phase then (fst st ++ [onset station phase], availability)
  else (fst st, availability).

(** stalta.py:353-489 calculate_onsets: loop over phases and stations, exception if no onset is
    available. The result is the list of rows and the availability dictionary. *)
Definition calculate_onsets (check : string -> string -> bool) (onset : string -> string -> list R)
    (phases stations : list string) : outcome (list (list R) * dict Z) :=
  let st := fold_left (fun st phase => fold_left (onset_step check onset phase) stations st) phases ([], []) in
  if fold_left Z.add (values (snd st)) 0 =? 0 then Raise DataAvailabilityException else Ret st.

(** stalta.py:474 [np.stack(onsets, axis=0)]: flat array, number of rows, length of the rows. *)
Definition stack_first (rows : list (list R)) : outcome (list R * Z * Z) :=
  match rows with
  | [] => Raise ValueError
  | r0 :: _ =>
      if forallb (fun r => Nat.eqb (length r) (length r0)) rows
      then Ret (concat rows, Z.of_nat (length rows), Z.of_nat (length r0))
      else Raise ValueError
  end.

(** scan.py:617-634 _compute: onsets, traveltimes, migration. A KeyError of the lookup becomes
    LUTPhasesException. [fsmp], [lsmp] are the pads in samples. *)
Definition compute_map (r0 : mreg) (l : lut) (check : string -> string -> bool)
    (onset : string -> string -> list R) (phases stations : list string) (rate : R) (fsmp lsmp : Z)
  : outcome (list R) :=
  bind (calculate_onsets check onset phases stations) (fun oa =>
  bind (stack_first (fst oa)) (fun '(flat, n, t) =>
  bind (match serve_traveltimes l rate (snd oa) with Raise KeyError => Raise LUTPhases | o => o end)
    (fun '(tts, n_nodes, n_luts) =>
  lib_migrate r0 flat n t tts n_nodes n_luts fsmp lsmp (fold_left Z.add (values (snd oa)) 0)))).

(** Model of the migration kernel: quakemigrate/core/src/migratelib.c and the ctypes wrappers
    in quakemigrate/core/lib.py.

    Arrays are flat, in C order, exactly as the C code sees them; element (i, j) of an array
    with rows of length [c] is element [i * c + j].  A read or write outside an array, and a
    signed 32-bit overflow in an index, are undefined behaviour ([None]).
    Simplifications: [double] is [R] (no rounding, NaN or infinity); 64-bit index products do
    not overflow. *)
From Coq Require Import List ZArith Reals Bool.
From Verif Require Import Lib.
Import ListNotations.
Open Scope Z_scope.

(* ------------------------------------------------------------------ *)
(** * migrate *)

(** The arguments of the C function that it only reads.
    migratelib.c:40-43. [lookup_tables] is row-major (node, station), [onsets] is row-major
    (station, sample). *)
Record menv := {
  onsets : list R;
  lookup_tables : list Z;
  fsmp : Z;
  lsmp : Z;
  n_samples : Z;
  n_stations : Z;
  available : Z
}.

(** Private variables of a thread. migratelib.c:45-46, made private by the clause on line 50.
    [acc] is the processor register that holds [stack[sample]] between its load and its store.
    [station], [sample], [stack] and [traveltimes] are constants of the instruction. *)
Record mreg := { traveltime : Z; acc : R }.

(** The memory-relevant steps of one iteration of the node loop, migratelib.c:51-64.
    [ISetTT node station]  : traveltime = MAX(0, traveltimes[station])     (line 55)
    [ILoad node sample]    : read stack[sample]                             (lines 57, 62)
    [IAdd station sample]  : read the onset sample, add                     (lines 57-58)
    [IExp]                 : exp(. / available)                             (line 62)
    [IStore node sample]   : write stack[sample]                            (lines 57, 62) *)
Inductive minstr :=
| ISetTT (node station : Z)
| ILoad (node sample : Z)
| IAdd (station sample : Z)
| IExp
| IStore (node sample : Z).

(** The index expression of migratelib.c:57-58, evaluated in [int32_t] from left to right. *)
Definition onset_index (e : menv) (tt station sample : Z) : option Z :=
  match int32 (fsmp e + lsmp e) with None => None | Some a =>
  match int32 (a + n_samples e) with None => None | Some b =>
  match int32 (station * b) with None => None | Some c =>
  match int32 (c + tt) with None => None | Some d =>
  match int32 (d + fsmp e) with None => None | Some f =>
  int32 (f + sample) end end end end end.

(** Effect of one step on the shared output array and the thread's registers. *)
Definition mexec (e : menv) (i : minstr) (st : list R * mreg) : option (list R * mreg) :=
  let (m, r) := st in
  match i with
  | ISetTT node station =>
      match rd (lookup_tables e) (node * n_stations e + station) with
      | Some t => Some (m, {| traveltime := Z.max 0 t; acc := acc r |})
      | None => None
      end
  | ILoad node sample =>
      match rd m (node * n_samples e + sample) with
      | Some x => Some (m, {| traveltime := traveltime r; acc := x |})
      | None => None
      end
  | IAdd station sample =>
      match onset_index e (traveltime r) station sample with
      | Some k =>
          match rd (onsets e) k with
          | Some x => Some (m, {| traveltime := traveltime r; acc := (acc r + x)%R |})
          | None => None
          end
      | None => None
      end
  | IExp =>
      if available e =? 0 then None
      else Some (m, {| traveltime := traveltime r; acc := exp (acc r / IZR (available e)) |})
  | IStore node sample =>
      match wr m (node * n_samples e + sample) (acc r) with
      | Some m' => Some (m', r)
      | None => None
      end
  end.

(** The inner sample loop for one station. migratelib.c:54-60. *)
Definition station_prog (e : menv) (node station : Z) : list minstr :=
  ISetTT node station ::
  flat_map (fun sample => [ILoad node sample; IAdd station sample; IStore node sample])
           (zrange (n_samples e)).

(** One iteration of the node loop. migratelib.c:51-64. *)
Definition node_prog (e : menv) (node : Z) : list minstr :=
  flat_map (station_prog e node) (zrange (n_stations e)) ++
  flat_map (fun sample => [ILoad node sample; IExp; IStore node sample]) (zrange (n_samples e)).

(** Running a list of steps to completion. *)
Fixpoint mrun (e : menv) (p : list minstr) (st : list R * mreg) : option (list R * mreg) :=
  match p with
  | [] => Some st
  | i :: p' => match mexec e i st with Some st' => mrun e p' st' | None => None end
  end.

(** The C function executed by a single thread: nodes in increasing order. The private
    variables start uninitialised ([r0]). migratelib.c:40-65. *)
Definition c_migrate (e : menv) (n_nodes : Z) (r0 : mreg) (map4d : list R) : option (list R) :=
  option_map fst (mrun e (flat_map (node_prog e) (zrange n_nodes)) (map4d, r0)).

(** lib.py:93-94: [np.log(np.clip(onsets, 0.01, np.inf))]. *)
Definition clip_onset (x : R) : R := Rmax x (1 / 100).
Definition log_onsets (os : list R) : list R := map (fun x => ln (clip_onset x)) os.

(** The environment that lib.py:99-123 passes to the C function.  Simplification: the
    [c_int32] conversions are exact (arguments within 32 bits). *)
Definition migrate_env (os : list R) (n_onsets t_samples : Z) (tts : list Z)
    (first_idx last_idx avail : Z) : menv :=
  {| onsets := log_onsets os; lookup_tables := tts; fsmp := first_idx; lsmp := last_idx;
     n_samples := t_samples - first_idx - last_idx; n_stations := n_onsets; available := avail |}.

(** lib.py:53-125 [migrate], single-threaded.  [os] has shape (n_onsets, t_samples), [tts] has
    shape (n_nodes, n_luts) after flattening the grid dimensions.  [np.zeros] with a negative
    dimension raises ValueError. *)
Definition lib_migrate (r0 : mreg) (os : list R) (n_onsets t_samples : Z)
    (tts : list Z) (n_nodes n_luts : Z) (first_idx last_idx avail : Z) : outcome (list R) :=
  let ns := t_samples - first_idx - last_idx in
  if ns <? 0 then Raise ValueError
  else if negb (n_luts =? n_onsets) then Raise ValueError
  else if n_onsets * t_samples <? ns + first_idx then Raise ValueError
  else
    match c_migrate (migrate_env os n_onsets t_samples tts first_idx last_idx avail) n_nodes r0
            (repeat 0%R (Z.to_nat (n_nodes * ns))) with
    | Some m => Ret m
    | None => Undef
    end.

(* ------------------------------------------------------------------ *)
(** * Threads: [#pragma omp parallel for], migratelib.c:49-50, 93-94

    A thread is its private state and the list of steps it still has to do; shared memory is
    one array.  Any thread that has a step left may take it. *)
Section Threads.
  Context {Mem Reg Instr : Type}.
  Variable exec : Instr -> Mem * Reg -> option (Mem * Reg).

  Definition config : Type := Mem * list (Reg * list Instr).

  Inductive tstep : config -> config -> Prop :=
  | tstep_at : forall m before r i p after m' r',
      exec i (m, r) = Some (m', r') ->
      tstep (m, before ++ (r, i :: p) :: after) (m', before ++ (r', p) :: after).

  Inductive tsteps : config -> config -> Prop :=
  | tsteps_refl : forall c, tsteps c c
  | tsteps_step : forall c1 c2 c3, tstep c1 c2 -> tsteps c2 c3 -> tsteps c1 c3.

  (** All threads have finished. *)
  Definition finished (c : config) : Prop := forall t, In t (snd c) -> snd t = [].

  (** Some thread's next step is undefined behaviour. *)
  Definition crashing (c : config) : Prop :=
    exists r i p, In (r, i :: p) (snd c) /\ exec i (fst c, r) = None.
End Threads.

(** Start of the parallel node loop: thread [k] gets the nodes in the [k]-th list, in that
    order; its private variables are uninitialised. *)
Definition migrate_threads (e : menv) (assign : list (mreg * list Z)) : list (mreg * list minstr) :=
  map (fun rn => (fst rn, flat_map (node_prog e) (snd rn))) assign.

(* ------------------------------------------------------------------ *)
(** * find_max_coa *)

(** Read-only arguments. migratelib.c:85-87. *)
Record fenv := { fmap : list R; f_samples : Z; f_nodes : Z }.

(** Private variables: current, max, sum, idx. migratelib.c:89-94. *)
Record freg := { fcur : R; fmax : R; fsum : R; fidx : Z }.

(** Shared outputs: the three arrays max_coa, max_norm_coa, max_coa_idx.  An element of the
    normalised series is [None] when it is the result of a division by zero (inf or NaN). *)
Record fout := { o_max : list R; o_norm : list (option R); o_idx : list Z }.

(** Steps of one iteration of the sample loop. migratelib.c:95-110. *)
Inductive finstr :=
| FInit (sample : Z)          (* lines 96-98 *)
| FCur (node sample : Z)      (* line 100 *)
| FAcc (node : Z)             (* lines 101-105 *)
| FOutMax (sample : Z)        (* line 107 *)
| FOutNorm (sample : Z)       (* line 108 *)
| FOutIdx (sample : Z).       (* line 109 *)

(** Effect of one step on the shared outputs and the thread's registers. *)
Definition fexec (e : fenv) (i : finstr) (st : fout * freg) : option (fout * freg) :=
  let (o, r) := st in
  match i with
  | FInit sample =>
      match rd (fmap e) sample with
      | Some x => Some (o, {| fcur := fcur r; fmax := x; fsum := x; fidx := 0 |})
      | None => None
      end
  | FCur node sample =>
      match rd (fmap e) (node * f_samples e + sample) with
      | Some x => Some (o, {| fcur := x; fmax := fmax r; fsum := fsum r; fidx := fidx r |})
      | None => None
      end
  | FAcc node =>
      if Rlt_dec (fmax r) (fcur r)
      then Some (o, {| fcur := fcur r; fmax := fcur r; fsum := (fsum r + fcur r)%R; fidx := node |})
      else Some (o, {| fcur := fcur r; fmax := fmax r; fsum := (fsum r + fcur r)%R; fidx := fidx r |})
  | FOutMax sample =>
      match wr (o_max o) sample (fmax r) with
      | Some a => Some ({| o_max := a; o_norm := o_norm o; o_idx := o_idx o |}, r)
      | None => None
      end
  | FOutNorm sample =>
      match wr (o_norm o) sample
              (if Req_EM_T (fsum r) 0 then None else Some (fmax r * IZR (f_nodes e) / fsum r)%R) with
      | Some a => Some ({| o_max := o_max o; o_norm := a; o_idx := o_idx o |}, r)
      | None => None
      end
  | FOutIdx sample =>
      match wr (o_idx o) sample (fidx r) with
      | Some a => Some ({| o_max := o_max o; o_norm := o_norm o; o_idx := a |}, r)
      | None => None
      end
  end.

(** One iteration of the sample loop. migratelib.c:95-110. *)
Definition sample_prog (e : fenv) (sample : Z) : list finstr :=
  FInit sample ::
  flat_map (fun node => [FCur node sample; FAcc node]) (zseq 1 (Z.to_nat (f_nodes e - 1))) ++
  [FOutMax sample; FOutNorm sample; FOutIdx sample].

Fixpoint frun (e : fenv) (p : list finstr) (st : fout * freg) : option (fout * freg) :=
  match p with
  | [] => Some st
  | i :: p' => match fexec e i st with Some st' => frun e p' st' | None => None end
  end.

(** The zero-filled output arrays. lib.py:155-157. *)
Definition fout0 (ns : Z) : fout :=
  {| o_max := repeat 0%R (Z.to_nat ns); o_norm := repeat (Some 0%R) (Z.to_nat ns); o_idx := repeat 0 (Z.to_nat ns) |}.

(** lib.py:132-170 with one thread. [m4] has shape (n_nodes, n_samples). *)
Definition lib_find_max_coa (r0 : freg) (m4 : list R) (n_nodes n_samples : Z) : outcome fout :=
  let e := {| fmap := m4; f_samples := n_samples; f_nodes := n_nodes |} in
  match frun e (flat_map (sample_prog e) (zrange n_samples)) (fout0 n_samples, r0) with
  | Some (o, _) => Ret o
  | None => Undef
  end.

(** Start of the parallel sample loop. migratelib.c:93-95. *)
Definition find_max_threads (e : fenv) (assign : list (freg * list Z)) : list (freg * list finstr) :=
  map (fun rn => (fst rn, flat_map (sample_prog e) (snd rn))) assign.

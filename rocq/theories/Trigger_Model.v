(** Model of signal/trigger.py and of the trigger files (io/triggered_events.py).

    Times are ticks counted from 1970-01-01 as in Timeline_Model.v. Coalescence values,
    thresholds and coordinates are rational numbers; every finite binary64 number is one.
    SIMPLIFICATION: sums and products are exact. NaN cannot occur: the values are read from
    integers (scanmseed.py:302-307). *)
From Coq Require Import List ZArith QArith Bool Ascii String.
From Verif Require Import Lib PySlice Timeline_Model Calendar_Model.
Import ListNotations.
Open Scope Z_scope.

(** * pandas and numpy operations *)

(** Rows with their position (a DataFrame with a RangeIndex). *)
Definition indexed {A} (l : list A) : list (Z * A) := combine (zrange (Z.of_nat (List.length l))) l.

(** [groupby(keys)] (sort=True): the groups in increasing order of the key, each with its rows
    in their order. *)
Fixpoint insert_key (k : Z) (ks : list Z) : list Z :=
  match ks with
  | [] => [k]
  | j :: r => if k <? j then k :: ks else if k =? j then ks else j :: insert_key k r
  end.
Definition group_keys (ks : list Z) : list Z := fold_right insert_key [] ks.
Definition groupby {A} (key : A -> Z) (l : list A) : list (list A) :=
  map (fun k => filter (fun x => key x =? k) l) (group_keys (map key l)).

Definition qlt_bool (a b : Q) : bool := negb (Qle_bool b a).
(** [df.loc[df[col].idxmax()]]: the first row with the largest value. *)
Fixpoint best_from {A} (v : A -> Q) (best : A) (l : list A) : A :=
  match l with
  | [] => best
  | x :: r => best_from v (if qlt_bool (v best) (v x) then x else best) r
  end.

(** Remainder of integer arrays; numpy returns 0 for a zero divisor (with a warning). *)
Definition np_mod (a b : Z) : Z := if b =? 0 then 0 else a mod b.
(** Python's int() of a number: truncation towards zero. *)
Definition int_of (q : Q) : Z := Z.quot (Qnum q) (Zpos (Qden q)).
(** np.split(a, breaks): the slices between consecutive division points. *)
Definition np_split {A} (l : list A) (breaks : list Z) : list (list A) :=
  map (fun ab => pyslice l (Some (fst ab)) (Some (snd ab)))
      (combine (0 :: breaks) (breaks ++ [Z.of_nat (List.length l)])).

Fixpoint insert_q (x : Q) (l : list Q) : list Q :=
  match l with [] => [x] | y :: r => if Qle_bool x y then x :: l else y :: insert_q x r end.
Definition sort_q (l : list Q) : list Q := fold_right insert_q [] l.
(** np.median: the middle element, or the mean of the two middle elements. An empty array (NaN
    in numpy) only occurs for an empty series, for which no value is used. *)
Definition median (l : list Q) : Q :=
  let s := sort_q l in
  let n := List.length s in
  if Nat.odd n then nth (n / 2) s 0%Q
  else ((nth (n / 2 - 1) s 0%Q + nth (n / 2) s 0%Q) / 2)%Q.

(** util.py:175-207 calculate_mad with its default scale 1.4826. *)
Definition calculate_mad (l : list Q) : Q :=
  ((14826 # 10000) * median (map (fun x => Qabs.Qabs (x - median l)) l))%Q.

(** * Trigger *)

Inductive method : Set := Static | Mad | MedianRatio.
(** Trigger attributes (trigger.py:197-236). Time intervals are in ticks, window lengths in
    seconds. *)
Record params : Set := {
  threshold_method : method; static_threshold : Q;
  mad_window_length : Q; mad_multiplier : Q;
  median_window_length : Q; median_multiplier : Q;
  marginal_window : Z; min_event_interval : Z;
  normalise_coalescence : bool; pad : Z; write_event_time_windows : bool }.

(** trigger.py:700-704 min_event_interval setter. *)
Definition set_min_event_interval (marginal value : Z) : outcome Z :=
  if value <? 2 * marginal then Raise ValueError else Ret value.

(** The scan output handed over by read_scanmseed: columns DT, COA, COA_N, X, Y, Z. *)
Record scanrow : Set := { DT : Z; COA : Q; COA_N : Q; PX : Q; PY : Q; PZ : Q }.

(** trigger.py:26-47 chunks2trace. *)
Definition chunks2trace {A} (a : list A) (chunk_length : nat) : list A :=
  flat_map (fun x => repeat x chunk_length) a.

(** trigger.py:436-484 _get_threshold. *)
Definition chunks (values : list Q) (window_length sampling_rate : Q) : list (list Q) :=
  let n := Z.of_nat (List.length values) in
  let breaks := filter (fun i => np_mod i (int_of (window_length * sampling_rate)) =? 0) (zrange n) in
  np_split values (tl breaks).
Definition get_threshold (p : params) (values : list Q) (sampling_rate : Q) : list Q :=
  let n := List.length values in
  match threshold_method p with
  | Static => map (fun _ => (0 + static_threshold p)%Q) values
  | Mad =>
      let cs := chunks values (mad_window_length p) sampling_rate in
      let l0 := List.length (hd [] cs) in
      let median_trace := firstn n (chunks2trace (map median cs) l0) in
      let mad_trace := firstn n (chunks2trace (map calculate_mad cs) l0) in
      map (fun ab => (fst ab + snd ab * mad_multiplier p)%Q) (combine median_trace mad_trace)
  | MedianRatio =>
      let cs := chunks values (median_window_length p) sampling_rate in
      let l0 := List.length (hd [] cs) in
      map (fun m => (m * median_multiplier p)%Q) (firstn n (chunks2trace (map median cs) l0))
  end.

(** Columns of the candidate table (trigger.py:50-61); the refined table has EventID in
    addition. *)
Record candidate : Set := {
  EventNum : Z; CoaTime : Z; TRIG_COA : Q; COA_X : Q; COA_Y : Q; COA_Z : Q;
  MinTime : Z; MaxTime : Z; CCOA : Q; COA_NORM : Q }.
Record event : Set := { EventID : list ascii; cand : candidate }.

Definition trigger_on (p : params) (r : scanrow) : Q := if normalise_coalescence p then COA_N r else COA r.

(** trigger.py:511-517: rows at or above threshold, split where the index jumps. *)
Definition above (p : params) (data : list scanrow) (threshold : list Q) : list (Z * scanrow) :=
  map fst (filter (fun x => Qle_bool (snd x) (trigger_on p (snd (fst x)))) (combine (indexed data) threshold)).
Definition candidate_rows (p : params) (data : list scanrow) (threshold : list Q) : list (list scanrow) :=
  map (map (fun x => snd (snd x)))
      (groupby (fun x => fst (snd x) - fst x) (indexed (above p data threshold))).

(** trigger.py:520-556: the candidate of one group of rows. *)
Definition make_candidate (p : params) (i : Z) (rows : list scanrow) : option candidate :=
  match rows with
  | [] => None
  | r0 :: rs =>
      let peak := best_from COA r0 rs in
      let extra := min_event_interval p - marginal_window p in
      let first := DT r0 in
      let final := DT (last rs r0) in
      let min_dt := if DT peak - first <? marginal_window p
                    then DT peak - min_event_interval p else first - extra in
      let max_dt := if final - DT peak <? marginal_window p
                    then DT peak + min_event_interval p else final + extra in
      Some {| EventNum := i; CoaTime := DT peak; TRIG_COA := trigger_on p peak;
              COA_X := PX peak; COA_Y := PY peak; COA_Z := PZ peak;
              MinTime := min_dt; MaxTime := max_dt; CCOA := COA peak; COA_NORM := COA_N peak |}
  end.

Fixpoint map_some {A B} (f : A -> option B) (l : list A) : option (list B) :=
  match l with
  | [] => Some []
  | x :: r => match f x, map_some f r with Some y, Some ys => Some (y :: ys) | _, _ => None end
  end.

(** trigger.py:487-567 _identify_candidates. [Series >= ndarray] of another length raises
    ValueError, as does idxmax of an empty group. *)
Definition identify_candidates (p : params) (data : list scanrow) (threshold : list Q) : outcome (list candidate) :=
  if negb (Nat.eqb (List.length data) (List.length threshold)) then Raise ValueError
  else match map_some (fun x => make_candidate p (fst x) (snd x)) (indexed (candidate_rows p data threshold)) with
       | Some l => Ret l
       | None => Raise ValueError
       end.

(** trigger.py:594-610: consecutive candidates are numbered, with a new number where neither
    window reaches the marginal window of the other's peak. *)
Definition separate (p : params) (e1 e2 : candidate) : bool :=
  (MaxTime e1 <? CoaTime e2 - marginal_window p) && (CoaTime e1 + marginal_window p <? MinTime e2).
Definition with_num (n : Z) (e : candidate) : candidate :=
  {| EventNum := n; CoaTime := CoaTime e; TRIG_COA := TRIG_COA e; COA_X := COA_X e; COA_Y := COA_Y e;
     COA_Z := COA_Z e; MinTime := MinTime e; MaxTime := MaxTime e; CCOA := CCOA e; COA_NORM := COA_NORM e |}.
Fixpoint number_events (p : params) (count : Z) (l : list candidate) : list candidate :=
  match l with
  | [] => []
  | e1 :: r =>
      with_num count e1 ::
      number_events p (match r with
                       | [] => count
                       | e2 :: _ => if separate p e1 e2 then count + 1 else count
                       end) r
  end.

(** trigger.py:626-630: the identifier. [s.replace(char, "")] removes the character. *)
Definition remove_char (s : list ascii) (ch : ascii) : list ascii := filter (fun x => negb (Ascii.eqb x ch)) s.
Definition ljust (w : nat) (ch : ascii) (s : list ascii) : list ascii := s ++ repeat ch (w - List.length s).
(** A time in microseconds. *)
Definition to_us (c : clock) (t : Z) : Z := t * 1000000 / sec c.
Definition event_uid (c : clock) (t : Z) : list ascii :=
  let s := fold_left remove_char [c_dash; c_colon; c_dot; c_space; c_Z; c_T] (str_time (to_us c t)) in
  ljust 17 c_0 (firstn 17 s).

Definition with_window (lo hi : Z) (e : candidate) : candidate :=
  {| EventNum := EventNum e; CoaTime := CoaTime e; TRIG_COA := TRIG_COA e; COA_X := COA_X e; COA_Y := COA_Y e;
     COA_Z := COA_Z e; MinTime := lo; MaxTime := hi; CCOA := CCOA e; COA_NORM := COA_NORM e |}.
(** trigger.py:620-638: one event per group of merged candidates. *)
Definition merge_candidates (c : clock) (l : list candidate) : option event :=
  match l with
  | [] => None
  | e0 :: r =>
      let best := best_from TRIG_COA e0 r in
      Some {| EventID := event_uid c (CoaTime best);
              cand := with_window (fold_right Z.min (MinTime e0) (map MinTime r))
                                  (fold_right Z.max (MaxTime e0) (map MaxTime r)) best |}
  end.
(** trigger.py:570-638 _refine_candidates. *)
Definition refine_candidates (c : clock) (p : params) (l : list candidate) : outcome (list event) :=
  match map_some (merge_candidates c) (groupby EventNum (number_events p 1 l)) with
  | Some es => Ret es
  | None => Raise ValueError
  end.

(** trigger.py:641-686 _filter_events; a region is [xmin, ymin, zmin, xmax, ymax, zmax]. *)
Record region : Set := { xmin : Q; ymin : Q; zmin : Q; xmax : Q; ymax : Q; zmax_ : Q }.
Definition filter_events (l : list event) (starttime endtime : Z) (reg : option region) : list event :=
  let l := filter (fun e => (starttime <=? CoaTime (cand e)) && (CoaTime (cand e) <=? endtime)) l in
  match reg with
  | None => l
  | Some g =>
      filter (fun e => Qle_bool (xmin g) (COA_X (cand e)) && Qle_bool (ymin g) (COA_Y (cand e))
                       && Qle_bool (zmin g) (COA_Z (cand e)) && Qle_bool (COA_X (cand e)) (xmax g)
                       && Qle_bool (COA_Y (cand e)) (ymax g) && Qle_bool (COA_Z (cand e)) (zmax_ g)) l
  end.

(** * Trigger files *)

(** triggered_events.py:22-31: the module-level list of columns. *)
Definition OUTPUT_COLS : list string :=
  ["EventID"; "CoaTime"; "TRIG_COA"; "COA_X"; "COA_Y"; "COA_Z"; "COA"; "COA_NORM"]%string.
(** A file: its columns and its rows. Number formatting is not modelled. *)
Definition trigfiles : Type := Z -> option (list string * list event).
(** The state that outlives a call: the files, keyed by date, and the module-level list. *)
Record world : Type := { tfiles : trigfiles; output_cols : list string }.

(** triggered_events.py:106-138 write_triggered_events; [output_cols = OUTPUT_COLS] is an alias,
    so [extend] changes the module-level list. *)
Definition write_triggered_events (c : clock) (w : world) (events : list event) (starttime : Z)
    (windows : bool) : world :=
  let cols := if windows then output_cols w ++ ["MinTime"; "MaxTime"]%string else output_cols w in
  {| tfiles := fun d => if d =? starttime / day c then Some (cols, events) else tfiles w d;
     output_cols := cols |}.

(** trigger.py:318-401 _trigger_batch. [read] is read_scanmseed(run, batchstart, batchend, pad)
    followed by the optional smoothing (Smooth_Model); [c] is the clock of
    the scan data. Plots and log messages are not modelled. *)
Definition trigger_batch (c : clock) (p : params) (read : Z -> Z -> outcome (list scanrow))
    (reg : option region) (w : world) (batchstart batchend : Z) : outcome (world * list event) :=
  bind (read batchstart batchend) (fun data =>
  let batchend := if batchend mod day c =? 0 then batchend - delta c else batchend in
  let threshold := get_threshold p (map (trigger_on p) data) (Qmake (sec c) (Z.to_pos (delta c))) in
  bind (identify_candidates p data threshold) (fun cands =>
  match cands with
  | [] => Ret (w, [])
  | _ =>
      bind (refine_candidates c p cands) (fun refined =>
      let events := filter_events refined batchstart batchend reg in
      Ret (write_triggered_events c w events batchstart (write_event_time_windows p), events))
  end)).

(** trigger.py:302-314: the loop over batches; [None] when [fuel] passes did not suffice. *)
Fixpoint batches (fuel : nat) (c : clock) (batchstart endtime : Z) : option (list (Z * Z)) :=
  if negb (batchstart <? endtime) then Some []
  else match fuel with
       | O => None
       | S fuel' =>
           let next_day := batchstart / day c * day c + day c in
           let batchend := if next_day <=? endtime then next_day else endtime in
           match batches fuel' c next_day endtime with
           | Some l => Some ((batchstart, batchend) :: l)
           | None => None
           end
       end.
(** trigger.py:273-316 trigger, given the batches of its loop. *)
Fixpoint run_batches (c : clock) (p : params) (read : Z -> Z -> outcome (list scanrow))
    (reg : option region) (w : world) (l : list (Z * Z)) : outcome (world * list (list event)) :=
  match l with
  | [] => Ret (w, [])
  | (s, e) :: r =>
      bind (trigger_batch c p read reg w s e) (fun we =>
      bind (run_batches c p read reg (fst we) r) (fun wr => Ret (fst wr, snd we :: snd wr)))
  end.

(** triggered_events.py:34-102 read_triggered_events without trigger_file: the daily files from
    the date of starttime to endtime, then the time filter. *)
Definition read_triggered_events (c : clock) (w : world) (starttime endtime : Z) : outcome (list event) :=
  let first := starttime / day c in
  let days := zseq first (Z.to_nat (endtime / day c - first + 1)) in
  match flat_map (fun d => match tfiles w d with Some f => [snd f] | None => [] end) days with
  | [] => Raise NoTriggerFilesFound
  | fs =>
      let events := List.concat fs in
      Ret (if endtime mod day c =? 0
           then filter (fun e => (starttime <=? CoaTime (cand e)) && (CoaTime (cand e) <? endtime)) events
           else filter (fun e => (starttime <=? CoaTime (cand e)) && (CoaTime (cand e) <=? endtime)) events)
  end.

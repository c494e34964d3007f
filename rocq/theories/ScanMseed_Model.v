(** Model of io/scanmseed.py: the store of scan output, one file per day.

    Times are ticks as in Timeline_Model.v; time 0 is a midnight, [t / day] is the date of [t].
    The five channels COA, COA_N, X, Y, Z always hold the same sample times and go through the
    same operations, so one stream of rows stands for the five obspy traces. *)
From Coq Require Import List ZArith Reals Bool Lia.
From Verif Require Import Lib Timeline_Model.
Import ListNotations.
Open Scope Z_scope.

(** * Integer encoding *)

(** np.round: nearest integer, ties to even. *)
Definition np_round (x : R) : Z :=
  let f := Int_part x in
  if Rlt_dec (x - IZR f) (1 / 2) then f
  else if Rlt_dec (1 / 2) (x - IZR f) then f + 1
  else if Z.even f then f else f + 1.

(** scanmseed.py:222-240 _data2int: [np.round(data * factor).astype(np.int32)]. A value that
    does not fit is undefined ([None]). SIMPLIFICATION: the product is exact. *)
Definition data2int (x factor : R) : option Z := int32 (np_round (x * factor)).

Record row (A : Type) : Type := mk_row { coa : A; coa_n : A; px : A; py : A; pz : A }.
Arguments mk_row {A}. Arguments coa {A}. Arguments coa_n {A}. Arguments px {A}. Arguments py {A}. Arguments pz {A}.

(** scanmseed.py:103-104: [max_coa[max_coa > 21474.0] = 21474.0]. *)
Definition clip_coa (x : R) : R := if Rlt_dec 21474 x then 21474%R else x.

(** scanmseed.py:113-131: factors of the five channels. *)
Definition encode_row (ucf : R) (r : row R) : option (row Z) :=
  match data2int (clip_coa (coa r)) 100000, data2int (clip_coa (coa_n r)) 100000,
        data2int (px r) 1000000, data2int (py r) 1000000, data2int (pz r) (1000 * ucf) with
  | Some a, Some b, Some x, Some y, Some z => Some (mk_row a b x y z)
  | _, _, _, _, _ => None
  end.
(** scanmseed.py:302-307: the factors are removed on reading. *)
Definition decode_row (ucf : R) (r : row Z) : row R :=
  mk_row (IZR (coa r) / 100000)%R (IZR (coa_n r) / 100000)%R
         (IZR (px r) / 1000000)%R (IZR (py r) / 1000000)%R (IZR (pz r) / (1000 * ucf))%R.

Fixpoint map_opt {A B} (f : A -> option B) (l : list A) : option (list B) :=
  match l with
  | [] => Some []
  | x :: l' => match f x, map_opt f l' with Some y, Some r => Some (y :: r) | _, _ => None end
  end.

(** * Streams (obspy) *)

(** A trace: start time and samples. *)
Record seg (A : Type) : Type := mk_seg { t0 : Z; rows : list A }.
Arguments mk_seg {A}. Arguments t0 {A}. Arguments rows {A}.

Section Store.
Context {A : Type}.
Variable c : clock.

Definition seg_len (s : seg A) : Z := Z.of_nat (length (rows s)).
(** stats.endtime: time of the last sample. *)
Definition seg_end (s : seg A) : Z := t0 s + (seg_len s - 1) * delta c.
(** The date of a time, and the midnight that starts a date. *)
Definition date (t : Z) : Z := t / day c.
Definition midnight (d : Z) : Z := d * day c.

(** obspy Stream.merge(method=-1): sort by start time, then join traces whose samples follow on
    directly. SIMPLIFICATION: joining of overlapping traces with identical samples is not
    modelled (they stay separate). *)
Fixpoint insert_seg (s : seg A) (l : list (seg A)) : list (seg A) :=
  match l with
  | [] => [s]
  | s' :: r => if t0 s <? t0 s' then s :: l else s' :: insert_seg s r
  end.
Definition sort_segs (l : list (seg A)) : list (seg A) := fold_left (fun acc s => insert_seg s acc) l [].
Definition join_cons (s : seg A) (acc : list (seg A)) : list (seg A) :=
  match acc with
  | [] => [s]
  | s' :: r => if t0 s' =? seg_end s + delta c
               then mk_seg (t0 s) (rows s ++ rows s') :: r else s :: acc
  end.
Definition merge (l : list (seg A)) : list (seg A) := fold_right join_cons [] (sort_segs l).

(** obspy's round_away: nearest integer, ties away from zero. *)
Definition rnd_away (a b : Z) : Z :=
  if 0 <=? a then (2 * a + b) / (2 * b) else - ((2 * (- a) + b) / (2 * b)).
(** Trace.trim(starttime) and Trace.trim(endtime=...) with the default nearest_sample=True: the
    first (last) sample kept is the one nearest to the requested time. [None]: nothing left. *)
Definition trim_left (s : Z) (g : seg A) : option (seg A) :=
  let i := rnd_away (s - t0 g) (delta c) in
  if i <=? 0 then Some g
  else if i <? seg_len g then Some (mk_seg (t0 g + i * delta c) (skipn (Z.to_nat i) (rows g)))
  else None.
Definition trim_right (e : Z) (g : seg A) : option (seg A) :=
  let j := rnd_away (e - t0 g) (delta c) in
  if j <? 0 then None else Some (mk_seg (t0 g) (firstn (Z.to_nat (j + 1)) (rows g))).
Definition trim_both (s e : Z) (g : seg A) : option (seg A) :=
  match trim_left s g with Some g' => trim_right e g' | None => None end.
Definition keep_some (f : seg A -> option (seg A)) (l : list (seg A)) : list (seg A) :=
  flat_map (fun g => match f g with Some g' => [g'] | None => [] end) l.

(** * The store *)

(** Contents of run/detect/scanmseed: the file of each date, if present. *)
Definition files : Type := Z -> option (list (seg A)).

Record scanmseed : Type := { stream : list (seg A); written : bool }.

(** scanmseed.py:201-218 write, for the stream [st] to be written: the file is named after the
    date of the first sample and is replaced if it exists. [st[0]] of an empty stream is an
    IndexError. (STEIM2/STEIM1 are both lossless.) *)
Definition write (fs : files) (st : list (seg A)) : outcome files :=
  match st with
  | [] => Raise IndexError
  | s :: _ => Ret (fun d => if d =? date (t0 s) then Some st else fs d)
  end.

(** scanmseed.py:203-206: [self.stream.slice(starttime=write_start, endtime=write_end)]; obspy
    raises ValueError when the start is after the end. *)
Definition slice (st : list (seg A)) (s e : Z) : outcome (list (seg A)) :=
  if e <? s then Raise ValueError else Ret (keep_some (trim_both s e) st).

(** scanmseed.py:132-150, the part of append after the five traces have been built.
    SIMPLIFICATION: [julday] (day of the year) is compared as the full date. *)
Definition append_seg (continuous_write : bool) (fs : files) (o : scanmseed) (g : seg A)
  : outcome (files * scanmseed) :=
  match merge (stream o ++ [g]) with
  | [] => Raise IndexError
  | s0 :: r =>
      let st := s0 :: r in
      bind
        (if seg_end s0 =? midnight (date (t0 s0)) + day c - delta c then
           bind (write fs st) (fun fs' => Ret (fs', {| stream := []; written := true |}))
         else if negb (date (t0 s0) =? date (seg_end s0)) then
           let write_end := midnight (date (seg_end s0)) - delta c in
           bind (slice st (t0 s0) write_end) (fun sl =>
           bind (write fs sl) (fun fs' =>
             Ret (fs', {| stream := keep_some (trim_left (write_end + delta c)) st; written := false |})))
         else Ret (fs, {| stream := st; written := false |}))
        (fun p =>
           if continuous_write && negb (written (snd p))
           then bind (write (fst p) (stream (snd p)))
                     (fun fs' => Ret (fs', {| stream := stream (snd p); written := true |}))
           else Ret p)
  end.

(** All the appends of a run so far, on a new ScanmSEED object (scanmseed.py:64-72). *)
Fixpoint appends (continuous_write : bool) (fs : files) (o : scanmseed) (l : list (seg A))
  : outcome (files * scanmseed) :=
  match l with
  | [] => Ret (fs, o)
  | g :: r => bind (append_seg continuous_write fs o g)
                   (fun p => appends continuous_write (fst p) (snd p) r)
  end.
Definition new_scanmseed : scanmseed := {| stream := []; written := false |}.
(** signal/scan.py:422-424, 437-468: a whole detect() run: append every timestep, then write if
    the last append has not. *)
Definition detect_run (continuous_write : bool) (fs : files) (l : list (seg A)) : outcome files :=
  bind (appends continuous_write fs new_scanmseed l) (fun p =>
    if written (snd p) then Ret (fst p) else write (fst p) (stream (snd p))).

(** * Reading *)

(** scanmseed.py:277-295: the loop [while startday + dy * 86400 <= readend] visits
    dy = 0, 1, ...; the file visited is that of the date of [readstart + dy * 86400]. A missing
    file is skipped. obspy's read() trims to the nearest samples. *)
Definition days_read (readstart readend : Z) : Z :=
  (readend - midnight (date readstart)) / day c + 1.
Definition read_files (fs : files) (readstart readend : Z) : list (seg A) :=
  flat_map (fun dy => match fs (date (readstart + dy * day c)) with
                      | Some st => keep_some (trim_both readstart readend) st
                      | None => []
                      end)
           (zrange (days_read readstart readend)).
(** scanmseed.py:244-325 read_scanmseed; the DataFrame is the first trace after merging
    ([select(...)[0]]). Log messages are not modelled. *)
Definition read_scanmseed (fs : files) (starttime endtime pad : Z) : outcome (seg A) :=
  match read_files fs (starttime - pad) (endtime + pad) with
  | [] => Raise NoScanMseedData
  | st => match merge st with
          | [] => Raise IndexError
          | s :: _ => Ret s
          end
  end.
End Store.

(** scanmseed.py:74-150 append: encode, then store. *)
Definition append (c : clock) (ucf : R) (continuous_write : bool) (fs : files) (o : scanmseed)
  (starttime : Z) (data : list (row R)) : outcome (files * scanmseed) :=
  match map_opt (encode_row ucf) data with
  | None => Undef
  | Some zs => append_seg c continuous_write fs o (mk_seg starttime zs)
  end.

(** scanmseed.py:152-181 empty: a timestep without data is appended as zeros. *)
Definition empty (c : clock) (ucf : R) (continuous_write : bool) (fs : files) (o : scanmseed)
  (starttime timestep i : Z) : outcome (files * scanmseed) :=
  append c ucf continuous_write fs o (starttime + timestep * i)
         (repeat (mk_row 0 0 0 0 0)%R (Z.to_nat (time2sample c timestep))).

(** Model of the merge of the traces that were read: util.py merge_stream.

    SIMPLIFICATIONS: obspy's [Stream.merge(method=-1)] ([Stream._cleanup]) is modelled from its
    documentation (obspy is not part of the repository); of the attributes that traces must share
    the sampling interval is modelled (the number type and the calibration are equal); times that
    miss the sampling grid by less than 1 % of an interval are not moved onto it. *)
From Coq Require Import String Ascii.
From Coq Require Import List ZArith Reals Bool.
From Verif Require Import Lib Timeline_Model Avail_Model.
Import ListNotations.
Open Scope Z_scope.

(** The samples of [n] intervals from the [k]-th on. *)
Definition cut (k n : Z) (d : list R) : list R := firstn (Z.to_nat n) (skipn (Z.to_nat k) d).
(** The first sample of [b] falls on a sampling time of [a]. *)
Definition in_step (a b : seg) : bool := (sg_start b - sg_start a) mod sg_delta a =? 0.
(** Number of intervals from the first sample of [a] to the first sample of [b]. *)
Definition offset (a b : seg) : Z := (sg_start b - sg_start a) / sg_delta a.
Definition joined (a b : seg) (d : list R) : seg := mk_seg (sg_id a) (sg_start a) (sg_delta a) d.

(** util.py:635 [merge(method=-1)], for one trace [b] that begins no earlier than [a]: traces that
    overlap with equal data, or follow each other without a gap, are joined. *)
Definition join (a b : seg) : option seg :=
  if sg_start b <=? sg_end a then
    if in_step a b then
      let k := offset a b in
      let n := Z.min (npts a - k) (npts b) in
      if list_eq_dec Req_EM_T (cut k n (sg_data a)) (cut 0 n (sg_data b))
      then Some (joined a b (sg_data a ++ skipn (Z.to_nat (npts a - k)) (sg_data b)))
      else None
    else None
  else if sg_start b =? sg_end a + sg_delta a then Some (joined a b (sg_data a ++ sg_data b))
  else None.
Fixpoint join_all (a : seg) (l : list seg) : list seg :=
  match l with
  | [] => [a]
  | b :: r => match join a b with Some a' => join_all a' r | None => a :: join_all b r end
  end.

(** util.py:635: empty traces are dropped, the others sorted by time; different sampling intervals
    give a warning ([None]; util.py:632 makes it an error). *)
Definition cleanup (l : list seg) : option (list seg) :=
  match sort_segs (filter (fun s => 0 <? npts s) l) with
  | [] => Some []
  | a :: r => if forallb (fun s => sg_delta s =? sg_delta a) r then Some (join_all a r) else None
  end.

(** util.py:607-641 merge_stream; [order]: the order in which the set of ids is gone through. *)
Definition merge_stream (order : list string) (st : list seg) : list seg :=
  flat_map (fun i => match cleanup (select_id st i) with Some l => l | None => [] end) order.

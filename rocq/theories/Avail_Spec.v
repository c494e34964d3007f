(** Vocabulary for the statements about data availability. *)
From Coq Require Import String Ascii.
From Coq Require Import List ZArith Reals.
From Verif Require Import Lib PyDict Timeline_Model Avail_Model.
Import ListNotations.
Open Scope Z_scope.

(** All samples have the same value. *)
Definition flat (d : list R) : Prop := exists v, Forall (fun x => x = v) d.
(** A trace with data, at a sampling rate of at most 500 kHz. *)
Definition sampled (c : clock) (s : seg) : Prop := sg_data s <> [] /\ 0 < sg_delta s /\ sec c <= 500000 * sg_delta s.

(** [b] begins after [a] ends, to within half a sample. *)
Definition after (a b : seg) : Prop := sg_delta a > 2 * (sg_end a + sg_delta a - sg_start b).
(** No two traces overlap, in whatever order they are listed. *)
Definition overlap_free (l : list seg) : Prop := ForallOrdPairs (fun a b => after a b \/ after b a) l.
(** Whenever there are data after the end of a trace, some trace continues it at the next sample. *)
Definition continuous (l : list seg) : Prop :=
  forall a b, In a l -> In b l -> sg_end a < sg_start b ->
  exists n, In n l /\ 2 * Z.abs (sg_start n - (sg_end a + sg_delta a)) < sg_delta a.

(** A channel meets the criteria. *)
Definition channel_ok (starttime endtime : Z) (k : criteria) (l : list seg) : Prop :=
  Forall (fun s => ~ flat (sg_data s)) l /\ overlap_free l
  /\ (allow_gaps k = false -> continuous l)
  /\ (check_rate k = true -> Forall (fun s => rate k = Some (sg_delta s)) l)
  /\ (full_timespan k = true -> exists s, l = [s] /\ endtime - starttime <= sg_end s - sg_start s)
  /\ (check_times k = true -> exists s, l = [s] /\ sg_start s = starttime /\ sg_end s = endtime).

(** The traces of a stream that have a given id, and the ids. *)
Definition channel (st : list seg) (i : string) (l : list seg) : Prop := l = filter (fun s => String.eqb (sg_id s) i) st.
Definition is_id (st : list seg) (i : string) : Prop := exists s, In s st /\ sg_id s = i.

(** The arguments that the requested checks need are there. *)
Definition complete_args (k : criteria) : Prop :=
  (check_rate k = true -> rate k <> None) /\ (all_channels k = true -> exists n, n_channels k = Some n /\ 0 < n).
(** The traces of one channel have one sampling rate, unless this is checked. *)
Definition one_rate (k : criteria) (st : list seg) : Prop :=
  check_rate k = true \/ forall a b, In a st -> In b st -> sg_id a = sg_id b -> sg_delta a = sg_delta b.

(** [k'] asks for everything that [k] asks for. *)
Definition stricter (k k' : criteria) : Prop :=
  (all_channels k = true -> all_channels k' = true /\ n_channels k' = n_channels k)
  /\ (allow_gaps k = false -> allow_gaps k' = false)
  /\ (full_timespan k = true -> full_timespan k' = true)
  /\ (check_rate k = true -> check_rate k' = true /\ rate k' = rate k)
  /\ (check_times k = true -> check_times k' = true).

(** The columns of a station file that are required. *)
Definition required : list string := ["Latitude"; "Longitude"; "Elevation"; "Name"]%string.

(** Vocabulary for the statements about triggering. *)
From Coq Require Import List ZArith QArith Qabs Bool Permutation Sorted Ascii String.
From Verif Require Import Lib Timeline_Model Trigger_Model.
Import ListNotations.
Open Scope Z_scope.

(** Scan data with one row every [delta] ticks from [t0] on. *)
Definition sampled (c : clock) (t0 : Z) (data : list scanrow) : Prop :=
  forall i r, rd data i = Some r -> DT r = t0 + i * delta c.

(** [m] is the median of [l]: sort the values and take the mean of the two middle ones (the same
    one for an odd number). *)
Definition is_median (l : list Q) (m : Q) : Prop :=
  exists s, Permutation s l /\ Sorted Qle s /\
    (m == (nth ((List.length s - 1) / 2) s 0 + nth (List.length s / 2) s 0) / 2)%Q.
(** [m] is 1.4826 times the median absolute deviation of [l]. *)
Definition is_mad (l : list Q) (m : Q) : Prop :=
  exists x y, is_median l x /\ is_median (map (fun v => Qabs (v - x)) l) y /\ (m == (14826 # 10000) * y)%Q.
(** The chunk of [w] samples that holds sample [i] (chunks start at multiples of [w]). *)
Definition chunk_of {A} (w : Z) (l : list A) (i : Z) : list A :=
  firstn (Z.to_nat w) (skipn (Z.to_nat (i / w * w)) l).

(** Sample [i] reaches the threshold. *)
Definition hit (p : params) (data : list scanrow) (th : list Q) (i : Z) : Prop :=
  exists r x, rd data i = Some r /\ rd th i = Some x /\
    (x <= (if normalise_coalescence p then COA_N r else COA r))%Q.
(** Samples [lo..hi] are a maximal run of samples that reach the threshold. *)
Definition maximal_run (p : params) (data : list scanrow) (th : list Q) (lo hi : Z) : Prop :=
  lo <= hi /\ (forall i, lo <= i <= hi -> hit p data th i)
  /\ ~ hit p data th (lo - 1) /\ ~ hit p data th (hi + 1).

(** Row [k] of [data] is the first one with the largest COA among rows [lo..hi]. *)
Definition first_largest (data : list scanrow) (lo hi k : Z) (r : scanrow) : Prop :=
  lo <= k <= hi /\ rd data k = Some r /\
  forall j x, rd data j = Some x ->
    (lo <= j < k -> (COA x < COA r)%Q) /\ (k <= j <= hi -> (COA x <= COA r)%Q).

(** The candidate that samples [lo..hi] of [data] should give. *)
Definition candidate_of_run (p : params) (data : list scanrow) (run : Z * Z) (e : candidate) : Prop :=
  exists k r first final,
    first_largest data (fst run) (snd run) k r /\
    rd data (fst run) = Some first /\ rd data (snd run) = Some final /\
    CoaTime e = DT r /\ CCOA e = COA r /\ COA_NORM e = COA_N r /\
    TRIG_COA e = (if normalise_coalescence p then COA_N r else COA r) /\
    COA_X e = PX r /\ COA_Y e = PY r /\ COA_Z e = PZ r /\
    MinTime e = Z.min (DT r - min_event_interval p)
                      (DT first - (min_event_interval p - marginal_window p)) /\
    MaxTime e = Z.max (DT r + min_event_interval p)
                      (DT final + (min_event_interval p - marginal_window p)).

(** Every element is related to all later ones. *)
Fixpoint pairwise_ {A} (R : A -> A -> Prop) (l : list A) : Prop :=
  match l with [] => True | x :: r => Forall (R x) r /\ pairwise_ R r end.
(** Every element is related to the next one. *)
Fixpoint chained {A} (R : A -> A -> Prop) (l : list A) : Prop :=
  match l with x :: (y :: _) as r => R x y /\ chained R r | _ => True end.

(** The window of one of two consecutive candidates reaches the marginal window around the peak
    of the other. *)
Definition linked (p : params) (a b : candidate) : Prop :=
  CoaTime b - marginal_window p <= MaxTime a \/ MinTime b <= CoaTime a + marginal_window p.
(** Groups of consecutive candidates: linked inside, not linked across. *)
Definition grouping (p : params) (l : list candidate) (gs : list (list candidate)) : Prop :=
  List.concat gs = l /\ Forall (fun g => g <> []) gs /\ Forall (chained (linked p)) gs /\
  chained (fun g h => forall g' a b h', g = g' ++ [a] -> h = b :: h' -> ~ linked p a b) gs.
(** The event that a group of candidates should give. *)
Definition event_of_group (g : list candidate) (e : candidate) : Prop :=
  exists l1 m l2, g = l1 ++ m :: l2 /\
    Forall (fun x => TRIG_COA x < TRIG_COA m)%Q l1 /\ Forall (fun x => TRIG_COA x <= TRIG_COA m)%Q l2 /\
    CoaTime e = CoaTime m /\ TRIG_COA e = TRIG_COA m /\ CCOA e = CCOA m /\ COA_NORM e = COA_NORM m /\
    COA_X e = COA_X m /\ COA_Y e = COA_Y m /\ COA_Z e = COA_Z m /\
    (exists x, In x g /\ MinTime e = MinTime x) /\ Forall (fun x => MinTime e <= MinTime x) g /\
    (exists x, In x g /\ MaxTime e = MaxTime x) /\ Forall (fun x => MaxTime x <= MaxTime e) g.

(** Event [b] comes after event [a] by more than [gap]. *)
Definition later_by (gap : Z) (a b : event) : Prop := CoaTime (cand b) - CoaTime (cand a) > gap.

Definition in_region (g : region) (e : candidate) : Prop :=
  (xmin g <= COA_X e <= xmax g /\ ymin g <= COA_Y e <= ymax g /\ zmin g <= COA_Z e <= zmax_ g)%Q.

(** The decimal number spelled by a string, and: [s] spells [n] with [w] digits. *)
Definition decimal (s : list ascii) : Z := fold_left (fun n ch => 10 * n + (Z.of_nat (nat_of_ascii ch) - 48)) s 0.
Definition spells (w : nat) (n : Z) (s : list ascii) : Prop :=
  List.length s = w /\ Forall (fun ch => 48 <= Z.of_nat (nat_of_ascii ch) <= 57) s /\ decimal s = n.
(** [id] is YYYYMMDDhhmmss and milliseconds of the time [us] (microseconds from 1970-01-01);
    [date] is the calendar. *)
Definition spells_time (date : Z -> Z * Z * Z) (us : Z) (id : list ascii) : Prop :=
  exists Y M D h m s k, id = Y ++ M ++ D ++ h ++ m ++ s ++ k /\
    let '(y, mo, da) := date (us / 86400000000) in
    spells 4 y Y /\ spells 2 mo M /\ spells 2 da D /\
    spells 2 (us mod 86400000000 / 3600000000) h /\ spells 2 (us / 60000000 mod 60) m /\
    spells 2 (us / 1000000 mod 60) s /\ spells 3 (us / 1000 mod 1000) k.

(** The filter of the batch [b] accepts the time [t]. *)
Definition accepts (c : clock) (b : Z * Z) (t : Z) : Prop :=
  fst b <= t <= (if snd b mod (86400 * sec c) =? 0 then snd b - delta c else snd b).

(** [w] is the number of samples in a window of [len] seconds, rounded down, at least one. *)
Definition window_samples (len rate : Q) (w : Z) : Prop :=
  1 <= w /\ (inject_Z w <= len * rate /\ len * rate < inject_Z (w + 1))%Q.

(** The threshold that _trigger_batch computes for the scan data of a batch. *)
Definition batch_threshold (c : clock) (p : params) (data : list scanrow) : list Q :=
  get_threshold p (map (trigger_on p) data) (Qmake (sec c) (Z.to_pos (delta c))).

(** The scan data and thresholds of two batches that meet at [mid]: [d2] continues [d1], they
    agree where they overlap, [d2] has the samples of [d1] from [gap] before [mid] on and [d1]
    has those of [d2] up to [gap] after [mid]. *)
Record overlapping (c : clock) (mid gap t1 o : Z) (d1 d2 : list scanrow) (th1 th2 : list Q) : Prop := {
  ov_start : 0 <= o;
  ov_end : Z.of_nat (List.length d1) <= o + Z.of_nat (List.length d2);
  ov_t1 : sampled c t1 d1;
  ov_t2 : sampled c (t1 + o * delta c) d2;
  ov_rows : forall j, 0 <= j -> j + o < Z.of_nat (List.length d1) -> rd d2 j = rd d1 (j + o);
  ov_th : forall j, 0 <= j -> j + o < Z.of_nat (List.length d1) -> rd th2 j = rd th1 (j + o);
  ov_before : forall i, 0 <= i < Z.of_nat (List.length d1) -> mid - gap <= t1 + i * delta c -> o <= i;
  ov_after : forall j, 0 <= j < Z.of_nat (List.length d2) -> t1 + (j + o) * delta c <= mid + gap ->
             j + o < Z.of_nat (List.length d1) }.

(** The two places of the time arithmetic where the rounding of binary64 decides the result,
    in IEEE-754 arithmetic as specified by the standard library (Coq.Floats.SpecFloat, which is
    pure integer arithmetic: no primitive floats and no axioms). *)
From Coq Require Import ZArith Bool Floats.SpecFloat.
From Verif Require Import Lib.
Open Scope Z_scope.

Definition f64 : Set := spec_float.
(** Conversion of a Python int to float (nearest, ties to even). *)
Definition f_of_Z (z : Z) : f64 := binary_normalize 53 1024 z 0 false.
Definition fadd (x y : f64) : f64 := SFadd 53 1024 x y.
Definition fmul (x y : f64) : f64 := SFmul 53 1024 x y.
Definition fdiv (x y : f64) : f64 := SFdiv 53 1024 x y.

(** [int(x)]: towards zero; [None] for nan and infinities. *)
Definition f_int (x : f64) : option Z :=
  match x with
  | S754_zero _ => Some 0
  | S754_finite s m e =>
      let a := if 0 <=? e then Z.pos m * 2 ^ e else Z.pos m / 2 ^ (- e) in
      Some (if s then - a else a)
  | _ => None
  end.
(** [np.ceil(x)] for a finite float, as an integer (the result is exact). *)
Definition f_ceil (x : f64) : option Z :=
  match x with
  | S754_zero _ => Some 0
  | S754_finite s m e =>
      let v := if s then - Z.pos m else Z.pos m in
      Some (if 0 <=? e then v * 2 ^ e else - ((- v) / 2 ^ (- e)))
  | _ => None
  end.

(** The decimal [a / b] as written in a configuration or computed exactly: the nearest float. *)
Definition f_dec (a b : Z) : f64 := fdiv (f_of_Z a) (f_of_Z b).

(** util.py:269 [int(np.ceil(time * sampling_rate) / sampling_rate * 1000) / 1000]. Result in
    whole milliseconds (the final division by 1000 only rescales). *)
Definition f_trim2sample_ms (time rate : f64) : option Z :=
  match f_ceil (fmul time rate) with
  | Some n => f_int (fmul (fdiv (f_of_Z n) rate) (f_of_Z 1000))
  | None => None
  end.

(** obspy UTCDateTime difference, [round((ns1 - ns2) / 1e9, 6)]; for a whole number of
    microseconds the rounding to 6 decimals gives the float nearest to the exact quotient,
    which is what the division already returns. *)
Definition f_timespan (ns : Z) : f64 := f_dec ns 1000000000.
(** io/data.py:607-611 [n_samples = timespan * sampling_rate + 1] and
    [npts < n_samples] (exact comparison of an int with a float). *)
Definition f_full_timespan_ok (ns : Z) (rate : f64) (npts : Z) : bool :=
  match fadd (fmul (f_timespan ns) rate) (f_of_Z 1) with
  | S754_finite false m e =>
      negb (if 0 <=? e then npts <? Z.pos m * 2 ^ e else npts * 2 ^ (- e) <? Z.pos m)
  | _ => true
  end.

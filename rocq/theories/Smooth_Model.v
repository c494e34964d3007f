(** Model of the smoothing of the coalescence before triggering, trigger.py _smooth_coa.

    SIMPLIFICATIONS: reals for binary64; scipy.ndimage.gaussian_filter1d is modelled from its
    documentation and source (scipy is not part of the repository). *)
From Coq Require Import List ZArith Reals R_Ifp.
From Verif Require Import Lib.
Import ListNotations.
Open Scope Z_scope.

(** A row of the scan data handed over by read_scanmseed. *)
Record rrow : Type := mk_rrow { r_dt : Z; r_coa : R; r_coa_n : R; r_x : R; r_y : R; r_z : R }.

Definition rsum (l : list R) : R := fold_right Rplus 0%R l.
(** scipy.ndimage _gaussian_kernel1d(sigma, 0, radius). *)
Definition gaussian_kernel1d (sd : R) (radius : Z) : list R :=
  let phi := map (fun x => exp (- (1 / 2) / (sd * sd) * (IZR x * IZR x))%R) (zseq (- radius) (Z.to_nat (2 * radius + 1))) in
  map (fun p => (p / rsum phi)%R) phi.
(** Extension "reflect" (d c b a | a b c d | d c b a) of an array of [n] samples. *)
Definition reflect (n i : Z) : Z :=
  let m := i mod (2 * n) in if m <? n then m else 2 * n - 1 - m.
Definition value (l : list R) (i : Z) : R := match rd l i with Some v => v | None => 0%R end.
(** scipy.ndimage.correlate1d with mode "reflect". *)
Definition correlate1d (x w : list R) (radius : Z) : list R :=
  let n := Z.of_nat (length x) in
  map (fun i => rsum (map (fun kw => snd kw * value x (reflect n (i + fst kw - radius)))%R
                          (combine (zrange (Z.of_nat (length w))) w)))
      (zrange n).
(** scipy.ndimage.gaussian_filter1d(x, sd, truncate=truncate); the radius is
    [int(truncate * sd + 0.5)]. A radius below zero is rejected, sd = 0 divides by zero. *)
Definition gaussian_filter1d (x : list R) (sd truncate : R) : outcome (list R) :=
  let radius := Int_part (truncate * sd + 1 / 2) in
  if Rle_dec sd 0 then Undef
  else if radius <? 0 then Raise ValueError
  else Ret (correlate1d x (rev (gaussian_kernel1d sd radius)) radius).

(** trigger.py:420-434 _smooth_coa *)
Definition smooth_coa (sigma width sampling_rate : R) (data : list rrow) : outcome (list rrow) :=
  let st_dev := (sigma * sampling_rate)%R in
  bind (gaussian_filter1d (map r_coa data) st_dev width) (fun coa =>
  bind (gaussian_filter1d (map r_coa_n data) st_dev width) (fun coa_n =>
  Ret (map (fun rc => mk_rrow (r_dt (fst rc)) (fst (snd rc)) (snd (snd rc)) (r_x (fst rc)) (r_y (fst rc)) (r_z (fst rc)))
           (combine data (combine coa coa_n))))).

(** Model of the Wood-Anderson response: util.py wa_response, as used by io/data.py get_wa_waveform.

    SIMPLIFICATIONS: reals for binary64; complex numbers are pairs of reals. The response of poles and zeros
    at angular frequency w is sensitivity * gain * prod(i w - zero) / prod(i w - pole), the definition that
    ObsPy's simulation evaluates. *)
From Coq Require Import String Ascii.
From Coq Require Import List ZArith Reals Bool.
From Verif Require Import Lib.
Import ListNotations.
Open Scope R_scope.

Definition cplx : Set := (R * R)%type.
Definition csub (a b : cplx) : cplx := (fst a - fst b, snd a - snd b).
Definition cmul (a b : cplx) : cplx := (fst a * fst b - snd a * snd b, fst a * snd b + snd a * fst b).
Definition cabs2 (a : cplx) : R := fst a * fst a + snd a * snd a.
Definition cdiv (a b : cplx) : cplx :=
  ((fst a * fst b + snd a * snd b) / cabs2 b, (snd a * fst b - fst a * snd b) / cabs2 b).
Definition cprod (l : list cplx) : cplx := fold_right cmul (1, 0) l.

Record paz : Set := mk_paz { z_poles : list cplx; z_zeros : list cplx; z_sensitivity : R; z_gain : R }.

(** util.py:291-313 wa_response *)
Definition wa_response (convert : string) (obspy_def : bool) : paz :=
  let zeros := [(0, 0)] ++ (if existsb (String.eqb convert) ["DIS2DIS"; "VEL2VEL"]%string then [(0, 0)] else []) in
  if obspy_def
  then mk_paz [(- (6283185 / 1000000), - (4712 / 1000)); (- (6283185 / 1000000), 4712 / 1000)] zeros 2080 1
  else mk_paz [(- (549779 / 100000), 560886 / 100000); (- (549779 / 100000), - (560886 / 100000))] zeros 2080 1.

(** Response at i*w. *)
Definition response (p : paz) (w : R) : cplx :=
  let s := (0, w) in
  let q := cdiv (cprod (map (csub s) (z_zeros p))) (cprod (map (csub s) (z_poles p))) in
  (z_sensitivity p * z_gain p * fst q, z_sensitivity p * z_gain p * snd q).

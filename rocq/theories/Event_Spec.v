(** What an event file is to hold, in terms of the calls made. *)
From Coq Require Import String Ascii.
From Coq Require Import List ZArith Reals Bool.
From Verif Require Import Lib PyDict Mag_Model Event_Model.
Import ListNotations.
Open Scope Z_scope.

(** [a] is what the last call of a kind gave; no call of that kind was made. *)
Definition latest {A} (f : op -> option A) (calls : list op) (a : A) : Prop :=
  exists before c after, calls = before ++ c :: after /\ f c = Some a /\ Forall (fun c' => f c' = None) after.
Definition never {A} (f : op -> option A) (calls : list op) : Prop := Forall (fun c => f c = None) calls.

Definition computed (o : op) : option (list (Z * R * R)) := match o with AddCompute rows => Some rows | _ => None end.
Definition spline (o : op) : option (ext * ext * ext) := match o with AddSpline x => Some x | _ => None end.
Definition gaussian (o : op) : option ((ext * ext * ext) * (ext * ext * ext)) := match o with AddGaussian x u => Some (x, u) | _ => None end.
Definition covariance (o : op) : option ((ext * ext * ext) * (ext * ext * ext)) := match o with AddCovariance x u => Some (x, u) | _ => None end.
Definition magnitude (o : op) : option (ext * ext * ext) := match o with AddMagnitude a b c => Some (a, b, c) | _ => None end.
(** The marginal window of an event is not negative. *)
Definition sane (o : op) : Prop := match o with Trim w => 0 <= w | _ => True end.

(** The first of the rows with the largest coalescence. *)
Definition first_largest (rows : list (Z * R * R)) (r : Z * R * R) : Prop :=
  exists before after, rows = before ++ r :: after
    /\ Forall (fun x => snd (fst x) < snd (fst r))%R before /\ Forall (fun x => snd (fst x) <= snd (fst r))%R after.

(** The row of the trigger file as the event remembers it: the present format, the one with COA_V, and that without COA or
    without COA_NORM. *)
Definition trigger_read (d : dict val) (trig dec dec_norm : val) : Prop :=
  match dget d "TRIG_COA", dget d "COA_V", dget d "COA", dget d "COA_NORM" with
  | Some a, _, Some b, Some c => (trig, dec, dec_norm) = (a, b, c)
  | None, Some v, Some b, Some c => (trig, dec, dec_norm) = (v, b, c)
  | _, Some v, _, _ => (trig, dec, dec_norm) = (v, VNum NaN, VNum NaN)
  | _, None, _, _ => False
  end.

(** A number shown with [d] decimals: no other number with [d] decimals is nearer. *)
Definition decimal (d : Z) (x y : R) : Prop :=
  (exists n : Z, y * powerRZ 10 d = IZR n)%R /\ (Rabs (y - x) <= powerRZ 10 (- d) / 2)%R.
Definition shown_decimals (d : Z) (x : ext) (v : val) : Prop :=
  match x, v with
  | Fin r, VNum (Fin y) => 0 < d /\ decimal d r y
  | Fin r, VInt n => d = 0 /\ (Rabs (IZR n - r) <= 1 / 2)%R
  | PInf, VNum PInf | NInf, VNum NInf | NaN, VNum NaN => 0 < d
  | _, _ => False
  end.
(** A number shown with significant figures, up to a relative error; NaN stays NaN. *)
Definition shown_figures (rel : R) (x v : val) : Prop :=
  match x, v with
  | VNum (Fin r), VNum (Fin y) => (Rabs (y - r) <= rel * Rabs r)%R
  | VNum PInf, VNum PInf | VNum NInf, VNum NInf | VNum NaN, VNum NaN => True
  | VInt i, VNum (Fin y) => (Rabs (y - IZR i) <= rel * Rabs (IZR i))%R
  | _, _ => False
  end.
Definition at_column (file : dict val) (k : string) (P : val -> Prop) : Prop := exists v, dget file k = Some v /\ P v.
Definition at_columns (file : dict val) (a b c : string) (P Q S : ext -> val -> Prop) (x : ext * ext * ext) : Prop :=
  let '(x1, x2, x3) := x in at_column file a (P x1) /\ at_column file b (Q x2) /\ at_column file c (S x3).

(** The names of the columns, in order. *)
Definition columns : list string :=
  ["EventID"; "DT"; "X"; "Y"; "Z"; "COA"; "COA_NORM"; "GAU_X"; "GAU_Y"; "GAU_Z"; "GAU_ErrX"; "GAU_ErrY"; "GAU_ErrZ";
   "COV_ErrX"; "COV_ErrY"; "COV_ErrZ"; "COV_Err_XYZ"; "TRIG_COA"; "DEC_COA"; "DEC_COA_NORM"]%string.

Definition is_number (v : val) : Prop := match v with VNum _ | VInt _ => True | _ => False end.
Definition finite (x : ext) : Prop := match x with Fin _ => True | _ => False end.
Definition third (v : ext * ext * ext) : ext := let '(_, _, z) := v in z.
Definition finite3 (v : ext * ext * ext) : Prop := let '(x, y, z) := v in finite x /\ finite y /\ finite z.
(** Uncertainties with a real cube root of their product. *)
Definition real_mean (u : ext * ext * ext) : Prop := exists x y z : R, (u = (Fin x, Fin y, Fin z) /\ 0 <= x * y * z)%R.

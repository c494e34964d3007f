(** Specification of local magnitudes. *)
From Coq Require Import String Ascii.
From Coq Require Import List ZArith Reals.
From Verif Require Import Lib Mag_Model.
Import ListNotations.
Open Scope R_scope.

(** [l'] has the members of [l] with property [P], in the same order. *)
Inductive selection {A} (P : A -> Prop) : list A -> list A -> Prop :=
| sel_nil : selection P [] []
| sel_keep x l l' : P x -> selection P l l' -> selection P (x :: l) (x :: l')
| sel_drop x l l' : ~ P x -> selection P l l' -> selection P (x :: l) l'.

(** Sum, arithmetic mean and sums of squares. *)
Definition rsum (l : list R) : R := fold_right Rplus 0 l.
Definition amean (l : list R) : R := rsum l / INR (length l).
Definition squares (l : list R) (c : R) : R := rsum (map (fun x => (x - c) ^ 2) l).
Fixpoint dot (l w : list R) : R := match l, w with x :: l', y :: w' => x * y + dot l' w' | _, _ => 0 end.
(** The weighted mean is the balance point. *)
Definition balance (l w : list R) (c : R) : Prop := dot (map (fun x => x - c) l) w = 0.
Definition between (l : list R) (c : R) : Prop := (exists x, In x l /\ x <= c) /\ (exists x, In x l /\ c <= x).

(** An observation with amplitude [a], noise [n] (without the gain of the filter, if one was used),
    distance [d] and attenuation [l], all in range. *)
Definition measured (k : mag_params) (att : ext -> ext) (filtered : bool) (o : obs) (a n d l : R) : Prop :=
  o_amp o = Fin a /\ 0 < a
  /\ (if filtered then exists n0 g, o_noise o = Fin n0 /\ o_gain o = Fin g /\ 0 < g /\ n = n0 / g else o_noise o = Fin n) /\ 0 <= n
  /\ (if use_hyp_dist k then exists e z, o_epi o = Fin e /\ o_z o = Fin z /\ 0 <= d /\ d ^ 2 = e ^ 2 + z ^ 2 else o_epi o = Fin d) /\ 0 < d
  /\ att (Fin d) = Fin l.

(** One that was not made. *)
Definition missing (o : obs) : Prop := o_amp o = NaN \/ o_noise o = NaN.

(** Some trace has a filter gain. *)
Definition some_gain (rows : list obs) : Prop := exists o, In o rows /\ o_gain o <> NaN.

(** Trace ids are net.station.location.channel. *)
Definition within_dots (stn id : string) : Prop := exists a b, id = (a ++ "." ++ stn ++ "." ++ b)%string.

(** The observation passes all filters. *)
Definition passes (k : mag_params) (att : ext -> ext) (filtered : bool) (o : obs) : Prop :=
  exists a n d l, measured k att filtered o a n d l
  /\ (noise_filter k <> 0 -> n * noise_filter k < a)
  /\ (forall f, trace_filter k = Some f -> f (o_id o) = true)
  /\ (forall ss stn, station_filter k = Some ss -> In stn ss -> ~ within_dots stn (o_id o))
  /\ (forall far, dist_filter k = Some far -> far <> 0 -> d <= far)
  /\ (pick_filter k = true -> o_picked o = true).

(** Station magnitude, its error, and the corrected logarithm of the amplitude. *)
Definition station_ml (k : mag_params) (att : ext -> ext) (filtered : bool) (o : obs) (ml : R) : Prop :=
  exists a n d l, measured k att filtered o a n d l /\ ml = log10 (a * amp_multiplier k) + l + correction (station_corrections k) (o_id o).
Definition station_err (k : mag_params) (att : ext -> ext) (filtered : bool) (o : obs) (e : R) : Prop :=
  exists a n d l, measured k att filtered o a n d l /\ n < a /\ e = log10 ((a + n) / (a - n)).
Definition log_amp (k : mag_params) (att : ext -> ext) (filtered : bool) (o : obs) (la : R) : Prop :=
  exists a n d l, measured k att filtered o a n d l /\ la = log10 (a * amp_multiplier k) + correction (station_corrections k) (o_id o).
(** A part of a trace id. *)
Definition no_dot (s : string) : Prop := forall a b, s <> (a ++ "." ++ b)%string.

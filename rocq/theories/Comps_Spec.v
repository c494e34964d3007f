(** Channel maps as users write them, and the panels they expect. *)
From Coq Require Import String Ascii.
From Coq Require Import List ZArith Bool.
From Verif Require Import Lib Archive_Model Archive_Spec Comps_Model.
Import ListNotations.

(** "*[A,B,C]" for the components A, B, C. *)
Fixpoint joined (cs : list ascii) : list ascii :=
  match cs with [] => [] | [c] => [c] | c :: r => c :: ","%char :: joined r end.
Definition map_text (cs : list ascii) : list ascii := txt "*[" ++ joined cs ++ txt "]".
(** "*Z" *)
Definition map_single (c : ascii) : list ascii := ["*"%char; c].

(** Component codes: letters and digits. *)
Definition is_digit (c : ascii) : Prop := In c (txt "0123456789").
Definition code (c : ascii) : Prop :=
  is_digit c \/ In c (txt "ABCDEFGHIJKLMNOPQRSTUVWXYZabcdefghijklmnopqrstuvwxyz").

(** [cs] is made of the letters [ls] and the digits [ds], each in this order. *)
Inductive splits : list ascii -> list ascii -> list ascii -> Prop :=
| splits_nil : splits [] [] []
| splits_letter c cs ls ds : ~ is_digit c -> splits cs ls ds -> splits (c :: cs) (c :: ls) ds
| splits_digit c cs ls ds : is_digit c -> splits cs ls ds -> splits (c :: cs) ls (c :: ds).

(** A panel shows exactly the component codes in [want]. *)
Definition shows (text : list ascii) (want : ascii -> Prop) : Prop :=
  forall x, code x -> (selects text x = true <-> want x).

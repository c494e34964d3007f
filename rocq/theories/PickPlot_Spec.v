(** What a pick plot is to show. *)
From Coq Require Import String Ascii.
From Coq Require Import List ZArith QArith Qabs.
From Verif Require Import Lib Picker_Model PickPlot_Model.
Import ListNotations.
Open Scope Z_scope.

(** The phases of a station with arrays of [n] samples and pick windows that start at the tenth sample or later and end inside. *)
Definition fits (n : Z) (items : list item) : Prop :=
  items <> [] /\ Forall (fun i => Z.of_nat (length (ph_onset (i_phase i))) = n /\ 10 <= w_lo (i_window i) <= w_hi (i_window i) /\ w_hi (i_window i) < n) items.
(** Sample [k] of an array *)
Definition sample (y : list Q) (k : Z) (v : Q) : Prop := rd y k = Some v.
(** The curve [l] is the part from [a] to [b] of [y]. *)
Definition part (y : list Q) (a b : Z) (l : list Q) : Prop := Z.of_nat (length l) = b - a + 1 /\ forall i, 0 <= i <= b - a -> rd l i = rd y (a + i).
(** The axes of the first and the last phase. *)
Definition p_axis (a : Z) : Prop := a = 0 \/ a = 3.
Definition s_axis (a : Z) : Prop := a = 1 \/ a = 2 \/ a = 4.
(** The mark [x] shows the modelled arrival and the pick window of the phase. *)
Definition shows (otime : Z) (it : item) (x : span) : Prop :=
  sp_phase x = ph_name (i_phase it) /\ sp_time x = otime + ph_tt (i_phase it) /\ sp_lo x = w_lo (i_window it) /\ sp_hi x = w_hi (i_window it).
(** The axes in use: those of P for P alone, those of S for another phase alone, else all five. *)
Definition used (items : list item) (a : Z) : Prop :=
  (exists it, items = [it] /\ ph_name (i_phase it) = "P"%string /\ p_axis a) \/ (exists it, items = [it] /\ ph_name (i_phase it) <> "P"%string /\ s_axis a)
  \/ ((2 <= length items)%nat /\ 0 <= a < 5).
(** The onset function of the phase is drawn from sample [a] to [b] with its threshold; the height reaches the largest value in the pick window
    and the threshold. *)
Definition onset_shown (a b : Z) (it : item) (p : string * list Q * option Q * Q) : Prop :=
  exists y m, p = (ph_name (i_phase it), y, i_thresh it, m) /\ part (ph_onset (i_phase it)) a b y
    /\ (forall j v, w_lo (i_window it) <= j <= w_hi (i_window it) -> sample (ph_onset (i_phase it)) j v -> (v <= m)%Q)
    /\ (forall t, i_thresh it = Some t -> (t <= m)%Q).

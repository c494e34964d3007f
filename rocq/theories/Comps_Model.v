(** Model of quakemigrate/util.py get_phase_component_strings: the components shown in the panels of
    the waveform plots (plot/phase_picks.py, plot/event.py). *)
From Coq Require Import String Ascii.
From Coq Require Import List ZArith Bool.
From Verif Require Import Lib Archive_Model.
Import ListNotations.

(** [str.strip(c)] for one character [c]; [str.rstrip(c)]. *)
Fixpoint lstrip (c : ascii) (s : list ascii) : list ascii :=
  match s with [] => [] | x :: r => if Ascii.eqb x c then lstrip c r else s end.
Definition rstrip (c : ascii) (s : list ascii) : list ascii := rev (lstrip c (rev s)).
Definition strip (c : ascii) (s : list ascii) : list ascii := rstrip c (lstrip c s).

(** [l[::2]] *)
Fixpoint every_second {A} (l : list A) : list A :=
  match l with [] => [] | [x] => [x] | x :: _ :: r => x :: every_second r end.

(** [str.isnumeric] of one character. SIMPLIFICATION: characters up to 127. *)
Definition isnumeric (c : ascii) : bool := (48 <=? nat_of_ascii c)%nat && (nat_of_ascii c <=? 57)%nat.

Definition comma : ascii := ",".

(** util.py:707-708 *)
Definition comps (channel_map : list ascii) : list ascii :=
  every_second (strip "]" (strip "[" (strip "*" channel_map))).

(** util.py:710-711, 745 *)
Definition p_text (cs : list ascii) : list ascii := flat_map (fun c => [c; comma]) cs.
(** util.py:724-730: the pairs, the first for one text, the second for the other. *)
Definition pair_texts (alpha num : list ascii) : list ascii * list ascii :=
  match combine alpha num with
  | [] => ([], [])
  | [(a, n)] => ([a; comma; n; comma], [])
  | (a, n) :: (a', n') :: _ => ([a; comma; n; comma], [a'; comma; n'; comma])
  end.
(** util.py:732-737: one list of components. *)
Definition list_texts (acc : list ascii * list ascii) (cs : list ascii) : list ascii * list ascii :=
  match cs with
  | [] => acc
  | [c] => (fst acc ++ [c; comma], snd acc)
  | c :: c' :: _ => (fst acc ++ [c; comma], snd acc ++ [c'; comma])
  end.
(** util.py:745-747 *)
Definition bracket (s : list ascii) : list ascii := "["%char :: rstrip comma s ++ ["]"%char].

(** util.py:672-749 get_phase_component_strings for the maps of P and S. *)
Definition component_strings (p_map s_map : list ascii) : list ascii * list ascii * list ascii :=
  let s_comps := comps s_map in
  let alpha := filter (fun c => negb (isnumeric c)) s_comps in
  let num := filter isnumeric s_comps in
  let '(s1, s2) :=
    match alpha, num with
    | _ :: _, _ :: _ => pair_texts alpha num
    | _, _ => fold_left list_texts [alpha; num] ([], [])
    end in
  (bracket (p_text (comps p_map)), bracket s1, bracket s2).

(** [obspy.Stream.select(component=text)] for the text "[...]" and the last letter of a channel:
    [fnmatch] (stdlib) reads "[" up to the next "]" that is not the first character as a set; without
    one the characters stand for themselves. SIMPLIFICATION: sets that start with "!" or contain "-"
    are not modelled; upper case. *)
Definition selects (text : list ascii) (component : ascii) : bool :=
  match text with
  | "["%char :: r =>
      match rev r with
      | "]"%char :: body => match body with
                            | [] => false
                            | _ => fnmatch [GSet false (rev body)] [component]
                            end
      | _ => false
      end
  | _ => false
  end.
